(** C129: a push that the client sends again, because its answer was lost. *)

From Coq Require Import Permutation.
From Verif Require Import Base BaseLemmas Digest ModelUtils ModelObject ModelBase ModelPack ModelDecode ModelPkt ModelStorage ModelProto ModelLfs ModelGateway ModelService
  StoredZlib SpecObject SpecIdx SpecBase SpecPack SpecPkt SpecStorage SpecProto SpecService ProofObject ProofUtf8 ProofBase ProofPack ProofPkt ProofReq
  ProofEncode ProofNodes ProofStorage ProofPush ProofClone ProofRepo ProofRefs ProofSession ProofGraph ProofExample ProofService PropPkt PropStorage PropProto PropGateway PropService PropSsh
  SpecGateway SpecServer ProofGateway PropFetch PropServer.
Open Scope N_scope.

Lemma reach_set : forall (l l' : list object), (forall o, In o l <-> In o l') -> forall o, reach (fun o => In o l) o <-> reach (fun o => In o l') o.
Proof.
  assert (K : forall l l' : list object, (forall o, In o l <-> In o l') -> forall o, reach (fun o => In o l) o -> reach (fun o => In o l') o).
  { intros l l' E o Ho. induction Ho as [d Hd|o t h d Ho IH Rf Nt Hd Hi]; [apply rc_commit; apply E; exact Hd|]. eapply rc_refers; [exact IH|exact Rf|exact Nt|apply E; exact Hd|exact Hi]. }
  intros l l' E o. split; apply K; [exact E|]. intros x. symmetry. apply E.
Qed.
(** Stores with the same references and the same objects look the same. *)
Lemma same_sets : forall same A B, (forall x, In x (s_refs A) <-> In x (s_refs B)) -> (forall o, In o (s_objs A) <-> In o (s_objs B)) -> looks_same same A B.
Proof.
  intros same A B Er Eo. split; [|split; [|apply reach_set; exact Eo]].
  - assert (K : forall A B id, (forall x, In x (s_refs A) <-> In x (s_refs B)) -> greeted same A id -> greeted same B id).
    { clear. intros A B id E [[(n & I & T) U]|[N Z]].
      - left. split; [exists n; split; [apply E; exact I|exact T]|]. intros m i H. apply U. apply E. exact H.
      - right. split; [|exact Z]. destruct (s_refs B) as [|x l]; [reflexivity|]. rewrite N in E. destruct (proj2 (E x) (or_introl eq_refl)). }
    intros id. split; apply K; [exact Er|]. intros x. symmetry. apply Er.
  - assert (K : forall A B l, (forall x, In x (s_refs A) <-> In x (s_refs B)) -> shown A l -> shown B l).
    { clear. intros A B l E (N & S1 & S2). split; [exact N|]. split; [intros i n H; apply E, S1, H|]. intros n i H. apply (S2 n i). apply E. exact H. }
    intros l. split; apply K; [exact Er|]. intros x. symmetry. apply Er.
Qed.
Lemma incl_twice : forall (l k : list object), incl k l -> forall o, In o l <-> In o (l ++ k).
Proof. intros l k I o. rewrite in_app_iff. split; [auto|]. intros [H|H]; [exact H|exact (I o H)]. Qed.
Lemma again_brings : forall path A objs, history path (s_objs A) -> history path objs -> (exists d, In (Commit, d) objs) -> incl objs (s_objs A) -> nlen (s_objs A ++ objs) < 2 ^ 32 ->
  brings path A objs.
Proof.
  intros path A objs Ha Hs Hd I L. split; [exact Hs|]. split; [exact Hd|]. split; [|exact L]. apply (history_set _ (s_objs A)); [apply incl_twice; exact I|exact Ha].
Qed.

Section Retry.
Context (e : env) (b : build) (c : codec) (cut : bytes -> list bytes) (path : bytes).
Context (He : env_ok e) (Te : teq_equiv e) (Hc : codec_ok c) (Hcut : forall d, pieces 65515 d (cut d))
  (Hp : exists k, text_len path k /\ (k <= 64)%nat) (Hl : like e path path = true).
Notation runs := (run e b c cut path).

(** What a push is when it has been accepted. *)
Theorem C129_sent : forall A p A', allowed (teq e) path A p -> after A p A' -> p_new p <> p_old p -> sent A' p.
Proof.
  intros A p A' Al Af N. destruct Af as [name new objs|old name new objs l1 n l2 Es Nin]; split; cbn [p_objs s_objs s_refs p_new p_old] in *.
  - intros o Ho. apply in_or_app. auto.
  - apply in_or_app. right. left. reflexivity.
  - intros o Ho. apply in_or_app. auto.
  - intros m i H. apply in_app_or in H as [H|[H|H]].
    + intros ->. apply Nin. apply in_map_iff. exists (m, old). split; [reflexivity|apply in_or_app; auto].
    + injection H as _ <-. exact N.
    + intros ->. apply Nin. apply in_map_iff. exists (m, old). split; [reflexivity|apply in_or_app; auto].
Qed.
(** A new reference, sent again: accepted again; nobody can see a difference. There is a
    second row of the same name and id. *)
Theorem C129_create : forall A w name new objs caps r, runs A w -> sent A (PCreate name new objs) -> well_made path (PCreate name new objs) -> nlen (s_objs A ++ objs) < 2 ^ 32 ->
  carries c path (PCreate name new objs) caps r -> (by_ssh r -> can_greet e path A w) ->
  exists fuel0 w' reply B, (forall fuel, (fuel0 <= fuel)%nat -> serve e b c fuel cut r w = (w', Ok reply)) /\ push_answer e A (PCreate name new objs) caps r reply /\
    runs B w' /\ looks_same (teq e) A B /\ s_refs B = s_refs A ++ [(name ++ [0], new)].
Proof.
  intros A w name new objs caps r Ru (I & Ir) (Hn & Hw & Ln & Hs & Hd & _) L Ca Gr. cbn [p_new p_name p_objs] in *.
  assert (Br : brings path A objs) by (apply again_brings; try assumption; exact (sd_history _ _ _ _ (run_stands e b c cut path He Te Hcut Hp Hl A w Ru))).
  set (B := mkStore (s_refs A ++ [(name ++ [0], new)]) (s_objs A ++ objs)).
  destruct (C113_push e b c cut path He Te Hcut Hp Hl A w (PCreate name new objs) B caps r Ru (al_create _ _ _ _ _ _ Hn Hw Ln Br) Ca Gr (af_create _ _ _ _)) as (fuel0 & w' & reply & E & An & Rb).
  exists fuel0, w', reply, B. split; [exact E|]. split; [exact An|]. split; [exact Rb|]. split; [|reflexivity].
  apply same_sets; [|apply incl_twice; exact I]. intros x. cbn [B s_refs]. rewrite in_app_iff. split; [auto|]. intros [H|[<-|[]]]; [exact H|exact Ir].
Qed.
(** An update, sent again: the connection ends without an answer; nobody can see a difference. *)
Theorem C129_update : forall A w old name new objs caps r, runs A w -> sent A (PUpdate old name new objs) -> well_made path (PUpdate old name new objs) -> nlen (s_objs A ++ objs) < 2 ^ 32 ->
  carries c path (PUpdate old name new objs) caps r -> (by_ssh r -> can_greet e path A w) ->
  exists fuel0 w' B, (forall fuel, (fuel0 <= fuel)%nat -> serve e b c fuel cut r w = (w', Panic)) /\ d_refs (w_db w') = d_refs (w_db w) /\
    runs B w' /\ looks_same (teq e) A B /\ s_refs B = s_refs A.
Proof.
  intros A w old name new objs caps r Ru (I & Ir) (Hn & Hw & (k & Tk & Lk) & Hs & Hd & Ho) L Ca Gr. cbn [p_new p_name p_objs] in *.
  assert (Br : brings path A objs) by (apply again_brings; try assumption; exact (sd_history _ _ _ _ (run_stands e b c cut path He Te Hcut Hp Hl A w Ru))).
  destruct (C113_stale e b c cut path He Te Hcut Hp Hl A w (PUpdate old name new objs) caps r Ru (st_update _ _ _ _ _ _ Ho Hn Hw (name_short _ _ Tk Lk) Ir Br) Ca Gr) as (fuel0 & w' & E & D & Rb).
  exists fuel0, w', (kept A (PUpdate old name new objs)). split; [exact E|]. split; [exact D|]. split; [exact Rb|]. split; [|reflexivity].
  apply same_sets; [intros x; reflexivity|]. apply incl_twice. exact I.
Qed.
(** The answers afterwards are those of the store before. *)
Theorem C129_seen : forall A B w now m url s q body sv st, runs B w -> looks_same (teq e) A B ->
  (gateway m url s q = Ok (AInfoRefs (service_text sv) path) -> can_greet e path B w -> forall fuel,
   exists w' reply id refs, serve e b c fuel cut (QHttp now m url s q body) w = (w', Ok reply) /\ advert true sv id refs reply /\ greeted (teq e) A id /\ shown A refs) /\
  (gateway m url s q = Ok (AUploadPack path) -> clone_request body -> (exists d, In (Commit, d) (s_objs B)) -> collision_free (repo_objects e (w_db w) path) ->
   exists fuel0, forall fuel, (fuel0 <= fuel)%nat -> exists w' reply, serve e b c fuel cut (QHttp now m url s q body) w = (w', Ok reply) /\
     clone_reply c st reply (reach (fun o => In o (s_objs A)))).
Proof.
  intros A B w now m url s q body sv st Ru (G & S & R). split.
  - intros Gw Cg fuel. destruct (C113_references e b c cut path He Te Hcut Hp Hl B w now m url s q body sv fuel Ru Cg Gw) as (w' & reply & id & refs & E & Ad & Gd & Sn).
    exists w', reply, id, refs. split; [exact E|]. split; [exact Ad|]. split; [apply G; exact Gd|apply S; exact Sn].
  - intros Gw Cr Hd Cf. destruct (C113_clone e b c cut path He Te Hc Hcut Hp Hl B w now m url s q body st Ru Hd Cf Gw Cr) as (fuel0 & F). exists fuel0. intros fuel Hf.
    destruct (F fuel Hf) as (w' & reply & E & Cl). exists w', reply. split; [exact E|]. destruct Cl as (nak & t & pack & objs & H1 & H2 & H3 & H4 & H5 & H6).
    exists nak, t, pack, objs. repeat (split; [assumption|]). intros o. rewrite H6. symmetry. apply R.
Qed.
End Retry.

(** ** A concrete server *)
Notation ex_run := (run ex_env Release stored ex_cut (bs "/demo")).
Lemma master_31 : exists k, text_len (bs "refs/heads/master") k /\ (k <= 31)%nat.
Proof. exists 17%nat. split; [exact (ascii_text (bs "refs/heads/master") eq_refl)|lia]. Qed.
Lemma in_one : forall (a x n i : bytes), In (n, i) [(a, x)] -> i = x.
Proof. intros a x n i [H|[]]. injection H as _ <-. reflexivity. Qed.
Lemma ids_differ : to_plain_str (oid ex_second) <> to_plain_str (oid ex_top).
Proof. vm_compute. discriminate. Qed.
Example C129_ex : exists w1 w2, ex_run store1 w1 /\ sent store1 ex_first /\ well_made (bs "/demo") ex_first /\
  carries stored (bs "/demo") ex_first ex_caps (QHttp 9 MPost (bs "/demo.git/git-receive-pack") None no_query ex_body) /\
  ex_run store2 w2 /\ sent store2 ex_next /\ well_made (bs "/demo") ex_next /\
  carries stored (bs "/demo") ex_next ex_caps (QSsh (fun _ => 8) (ssh_line ReceivePack (bs "/demo")) [next_line; pack_of two_objs]) /\ can_greet ex_env (bs "/demo") store2 w2.
Proof.
  destruct C113_ex as (w1 & R1 & _ & _ & _ & _ & _ & _ & w2 & R2). exists w1, w2. split; [exact R1|].
  split; [split; [intros o H; exact H|left; reflexivity]|]. split.
  { split; [exact top_ref|]. split; [exact master_word|]. split; [exact master_31|]. split; [exact (proj1 (ex_hist_ok (bs "/demo") eq_refl))|]. split; [exists (snd ex_top); left; reflexivity|exact Logic.I]. }
  split; [exact (first_carried 9)|]. split; [exact R2|]. split.
  { split; [intros o H; apply in_or_app; right; exact H|]. intros n i H. apply in_one in H. rewrite H. exact ids_differ. }
  split; [|split; [exact (next_carried (fun _ => 8))|]].
  - split; [exact second_ref|]. split; [exact master_word|]. split; [exact master_31|]. split; [exact two_ok|]. split; [exists (snd ex_second); left; reflexivity|exact top_ref].
  - split; [vm_compute; intuition discriminate|]. left. exists (to_plain_str (oid ex_second)). apply head_one. exact demo_master.
Qed.
Lemma not_one : forall (n x y : bytes), x <> y -> ~ In y (map snd [(n, x)]).
Proof. intros n x y N [H|[]]. exact (N H). Qed.
Lemma moved_on : ~ In (p_old ex_next) (map snd (s_refs store2)).
Proof. unfold ex_next, store2. cbn [p_old s_refs]. apply not_one. exact ids_differ. Qed.
Lemma ok_at : forall (x : world * res bytes) (f : bytes -> bool), (match snd x with Ok r => f r | _ => false end) = true -> exists r, x = (fst x, Ok r) /\ f r = true.
Proof. intros [w [r| | |]] f H; try discriminate H. exists r. auto. Qed.
(** After a second creation the next update moves one of the two rows. Everyone is told that
    it was done, and the old id is still shown under the name. *)
Theorem C129_refuted : exists e b c fuel cut path A p1 A1 p2 A2 caps r1 r2 r3 q w w1 x1 w2 x2 w3 x3 w4 x4, env_ok e /\
  run e b c cut path A w /\ allowed (teq e) path A p1 /\ carries c path p1 caps r1 /\ carries c path p1 caps r2 /\ after A p1 A1 /\
  allowed (teq e) path A1 p2 /\ carries c path p2 caps r3 /\ after A1 p2 A2 /\ reading path q /\
  serve e b c fuel cut r1 w = (w1, Ok x1) /\ serve e b c fuel cut r2 w1 = (w2, Ok x2) /\ serve e b c fuel cut r3 w2 = (w3, Ok x3) /\ serve e b c fuel cut q w3 = (w4, Ok x4) /\
  occurs (p_old p2 ++ bs " " ++ p_name p2) x4 /\ ~ In (p_old p2) (map snd (s_refs A2)).
Proof.
  set (r1 := QHttp 7 MPost (bs "/demo.git/git-receive-pack") None no_query ex_body). set (r2 := QHttp 9 MPost (bs "/demo.git/git-receive-pack") None no_query ex_body).
  set (r3 := QSsh (fun _ => 11) (ssh_line ReceivePack (bs "/demo")) [next_line; pack_of two_objs]).
  set (q := QHttp 12 MGet (bs "/demo.git/info/refs") (Some (bs "git-upload-pack")) no_query []).
  destruct (ok_at (serve ex_env Release stored 20 ex_cut r1 (world_of db_empty)) (fun _ => true) ltac:(vm_compute; reflexivity)) as (x1 & E1 & _).
  destruct (ok_at (serve ex_env Release stored 20 ex_cut r2 (fst (serve ex_env Release stored 20 ex_cut r1 (world_of db_empty)))) (fun _ => true) ltac:(vm_compute; reflexivity)) as (x2 & E2 & _).
  destruct (ok_at (serve ex_env Release stored 20 ex_cut r3 (fst (serve ex_env Release stored 20 ex_cut r2 (fst (serve ex_env Release stored 20 ex_cut r1 (world_of db_empty)))))) (fun _ => true)
    ltac:(vm_compute; reflexivity)) as (x3 & E3 & _).
  destruct (ok_at (serve ex_env Release stored 20 ex_cut q (fst (serve ex_env Release stored 20 ex_cut r3 (fst (serve ex_env Release stored 20 ex_cut r2 (fst (serve ex_env Release stored 20 ex_cut r1 (world_of db_empty))))))))
    (fun r => existsb (starts_with (p_old ex_next ++ bs " " ++ p_name ex_next)) (tails r)) ltac:(vm_compute; reflexivity)) as (x4 & E4 & O4).
  exists ex_env, Release, stored, 20%nat, ex_cut, (bs "/demo"), store_new, ex_first, store1, ex_next, store2, ex_caps, r1, r2, r3, q, (world_of db_empty).
  do 8 eexists. split; [exact ex_env_ok|]. split; [apply run_start; reflexivity|]. split; [exact first_allowed|]. split; [exact (first_carried 7)|]. split; [exact (first_carried 9)|].
  split; [exact first_after|]. split; [exact next_allowed|]. split; [exact (next_carried (fun _ => 11))|]. split; [exact next_after|].
  split; [apply (rd_info (bs "/demo") 12 MGet _ _ _ _ UploadPack); vm_compute; reflexivity|]. split; [exact E1|]. split; [exact E2|]. split; [exact E3|]. split; [exact E4|]. split; [apply occurs_iff, O4|].
  exact moved_on.
Qed.

(** C133: names that the collation of the database takes for the same. *)

From Coq Require Import Permutation.
From Verif Require Import Base BaseLemmas Digest ModelUtils ModelObject ModelBase ModelPack ModelDecode ModelPkt ModelStorage ModelProto
  ModelLfs ModelGateway ModelService StoredZlib SpecObject SpecIdx SpecBase SpecPack SpecPkt SpecPath SpecStorage SpecProto SpecGateway SpecService SpecLfs SpecBook
  ProofObject ProofPath ProofUtf8 ProofBase ProofPack ProofPkt ProofReq ProofEncode ProofNodes ProofStorage ProofPush ProofClone ProofRepo ProofRefs ProofSession
  ProofGraph ProofExample ProofLfs PropPkt PropStorage PropProto PropPath PropGateway ProofService PropService PropFetch PropLocks PropLockList PropAnswer PropBook.
Open Scope N_scope.

(** Two spellings of a name: letters of either case (ASCII; the collation
    utf8mb4_0900_ai_ci of Dump20230523.sql ignores case and accents). *)
Definition lower (b : N) : N := if (65 <=? b) && (b <=? 90) then b + 32 else b.
Definition same_but_case (p q : bytes) : Prop := map lower p = map lower q.
Definition ignores_case (teq : bytes -> bytes -> bool) : Prop := forall p q, same_but_case p q -> teq p q = true.

Lemma rows_of_same : forall e p q, teq_equiv e -> teq e p q = true -> forall x, teq e x p = teq e x q.
Proof.
  intros e p q [Sy Tr] E x. destruct (teq e x p) eqn:A, (teq e x q) eqn:B; auto; exfalso.
  - rewrite (Tr _ _ _ A E) in B. discriminate.
  - rewrite Sy in E. rewrite (Tr _ _ _ B E) in A. discriminate.
Qed.
Lemma select_same : forall A e (f g : db -> list A), (forall d, f d = g d) -> forall w, select e f w = select e g w.
Proof. intros A e f g H w. unfold select, mbind. destruct (attempt w) as [w1 [[|]| | |]]; try reflexivity. rewrite H. reflexivity. Qed.
Lemma all_commits_same : forall e p q, teq_equiv e -> teq e p q = true -> forall w, get_all_commits_by_path e p w = get_all_commits_by_path e q w.
Proof.
  intros e p q Te E w. unfold get_all_commits_by_path, mbind. rewrite (select_same _ e _ (fun d => filter (fun c => teq e (c_repo_path c) q) (d_commits d))); [reflexivity|].
  intros d. apply filter_ext. intros c. exact (rows_of_same e p q Te E _).
Qed.
Lemma full_same : forall e c fuel p q, teq_equiv e -> teq e p q = true -> forall w, get_full_pack_data e c fuel p w = get_full_pack_data e c fuel q w.
Proof. intros e c fuel p q Te E w. unfold get_full_pack_data, mbind at 1 6. rewrite (all_commits_same e p q Te E w). reflexivity. Qed.
Lemma incremental_same : forall e c fuel p q want have, teq_equiv e -> teq e p q = true -> forall w,
  get_incremental_pack_data e c fuel p want have w = get_incremental_pack_data e c fuel q want have w.
Proof. intros e c fuel p q want have Te E w. unfold get_incremental_pack_data, mbind at 1 4. rewrite (all_commits_same e p q Te E w). reflexivity. Qed.
Lemma mbind_same : forall A B (m m' : M A) (k k' : A -> M B), (forall w, m w = m' w) -> (forall a w, k a w = k' a w) -> forall w, mbind m k w = mbind m' k' w.
Proof. intros A B m m' k k' Hm Hk w. unfold mbind. rewrite Hm. destruct (m' w) as [w' [a| | |]]; auto. Qed.
Lemma munwrap_same : forall A (m m' : M A), (forall w, m w = m' w) -> forall w, munwrap m w = munwrap m' w.
Proof. intros A m m' H w. unfold munwrap. rewrite H. reflexivity. Qed.
Lemma upload_same : forall e c fuel cut p q body, teq_equiv e -> teq e p q = true -> forall w,
  http_upload_pack e c fuel cut p body w = http_upload_pack e c fuel cut q body w.
Proof.
  intros e c fuel cut p q body Te E w. unfold http_upload_pack, proto_new, lift. unfold mbind at 1 3.
  unfold git_upload_pack. cbn [pp_path pp_caps pp_protocol pp_service pp_cmds].
  unfold mbind, lift. destruct (upload_loop fuel true [] [] [] body) as [[[[want have] caps] rest]| | |]; try reflexivity.
  destruct have as [|h have].
  - rewrite (munwrap_same _ _ _ (full_same e c fuel p q Te E) w). destruct (munwrap _ w) as [w' [d| | |]]; reflexivity.
  - destruct (has_cap MultiAckDetailed caps); [|reflexivity]. destruct (shuffle e (h :: have) w) as [w1 [hs| | |]]; try reflexivity.
    destruct (ack_haves_db e hs [] w1) as [w2 [buf| | |]]; try reflexivity.
    rewrite (munwrap_same _ _ _ (incremental_same e c fuel p q want (h :: have) Te E) w2).
    destruct (munwrap _ w2) as [w3 [d| | |]]; try reflexivity.
    destruct (shuffle e want w3) as [w4 [ws| | |]]; try reflexivity.
    destruct (ack_wants_db e (has_cap NoDone caps) ws buf w4) as [w5 [b| | |]]; reflexivity.
Qed.
(** A fetch is answered for the one name as for the other. *)
Theorem C133_fetch : forall e b c fuel cut p q now1 m1 u1 s1 f1 now2 m2 u2 s2 f2 body, teq_equiv e -> ignores_case (teq e) -> same_but_case p q ->
  gateway m1 u1 s1 f1 = Ok (AUploadPack p) -> gateway m2 u2 s2 f2 = Ok (AUploadPack q) ->
  forall w, serve e b c fuel cut (QHttp now1 m1 u1 s1 f1 body) w = serve e b c fuel cut (QHttp now2 m2 u2 s2 f2 body) w.
Proof.
  intros e b c fuel cut p q now1 m1 u1 s1 f1 now2 m2 u2 s2 f2 body Te Ic Sc G1 G2 w. unfold serve, mbind, lift. rewrite G1, G2.
  apply upload_same; [exact Te|apply Ic, Sc].
Qed.
(** The greeting lists under the one name the references of the other. Its head is that
    of the exact name: none. *)
Theorem C133_greeting : forall e p pp s w, env_ok e -> teq_equiv e -> ignores_case (teq e) -> no_failure w -> pp_service pp = Some s -> short_refs (w_db w) ->
  same_but_case p (pp_path pp) ->
  (forall r, In r (d_refs (w_db w)) -> is_head e (pp_path pp) r -> ~ within (pp_path pp) (r_repo_path r)) ->
  exists w' out refs, git_info_refs e pp w = (w', Ok out) /\ w_db w' = w_db w /\
    advert (over_http pp) s (repeat 48 40) refs out /\ listing (refs_at e (w_db w) p) refs.
Proof.
  intros e p pp s w He Te Ic Q Hs Sh Sc No. destruct (C106_outside e pp s w He Q Hs Sh No) as (w' & out & refs & E & D & _ & A & L).
  exists w', out, refs. split; [exact E|]. split; [exact D|]. split; [exact A|].
  unfold refs_at in *. rewrite (filter_ext (fun r => teq e (r_repo_path r) p) (fun r => teq e (r_repo_path r) (pp_path pp)) (fun r => rows_of_same e p _ Te (Ic _ _ Sc) _)). exact L.
Qed.
(** A push to the one name moves the reference of the other. *)
Theorem C133_push : forall e m c now p q old h0 new h name caps body pack objs w l1 r l2,
  env_ok e -> teq_equiv e -> ignores_case (teq e) -> same_but_case p q -> no_failure w -> refs_table (w_db w) -> id_ok h0 -> lower_hex old h0 -> old <> repeat 48 40 ->
  id_ok h -> lower_hex new h -> new <> repeat 48 40 -> word name -> nlen name <= 60000 -> utf8_text caps ->
  push_request old new name caps pack body ->
  git_pack c (get_hash_object e w) pack objs -> nlen pack < 2 ^ 32 -> history q (map snd objs) ->
  d_refs (w_db w) = l1 ++ r :: l2 -> r_ref_git_id r = old -> r_repo_path r = p ->
  (forall x, In x (l1 ++ l2) -> teq e (r_ref_git_id x) old = true -> teq e (r_repo_path x) p = true -> False) ->
  exists fuel0 w' reply cl, caps_in caps cl /\ status_reply cl [bs "ok " ++ name ++ [0]] reply /\ d_refs (w_db w') = l1 ++ with_id r new :: l2 /\
    forall fuel, (fuel0 <= fuel)%nat -> http_receive_pack e m c fuel now q body w = (w', Ok reply).
Proof.
  intros e m c now p q old h0 new h name caps body pack objs w l1 r l2 He Te Ic Sc Q T H0 X0 Z0 Hh Hx Z1 Hm Lm Hc Rq G Hl Hs El E1 E2 Uq.
  destruct (update_push e m c now q old h0 new h name caps body pack objs w l1 r l2 He Q T H0 X0 Z0 Hh Hx Z1 Hm Lm Hc Rq G Hl Hs El E1)
    as (fuel0 & w' & reply & rows & crows & cl & Hcl & St & _ & D & _ & E).
  - rewrite E2. apply Ic, Sc.
  - intros x Hx' K1 K2. apply (Uq x Hx' K1). rewrite (rows_of_same e p q Te (Ic _ _ Sc)). exact K2.
  - exists fuel0, w', reply, cl. split; [exact Hcl|]. split; [exact St|]. split; [rewrite D; reflexivity|exact E].
Qed.
(** The locks of one ref stand for the other as well. *)
Theorem C133_locks : forall v w path ref ref' id now w1 x, lenv_ok v -> ignores_case (l_teq v) -> same_but_case ref' ref -> key_insert_ok v = true -> reachable v w -> l_fails w = [] ->
  request_ok (ELock (Some (mkLockReq path ref)) id now) -> lfs_create_lock v (Some (mkLockReq path ref)) id now w = (w1, Ok (ROk 201 (BLock x))) -> path <> [] ->
  (forall id2 now2, exists msg, lfs_create_lock v (Some (mkLockReq path ref')) id2 now2 w1 = (w1, Ok (RFail 409 msg))) /\
  (forall q, text (q_refspec q) = ref' -> text (q_path q) = [] -> exists l, lfs_retrieve_lock v q w1 = (w1, Ok (ROk 200 (BLocks l []))) /\ In x l).
Proof.
  intros v w path ref ref' id now w1 x Hv Ic Sc Hk Hr Q Hok E Np. pose proof (reachable_table v w Hv Hr) as Ht.
  destruct (book_there v w Hv Ht) as (b & Hb). destruct (step_book v (ELock (Some (mkLockReq path ref)) id now) w b w1 _ Hv Hk Q Ht Hok Hb E) as (b1 & S1 & B1 & Q1).
  assert (T1 : table_ok v (l_locks w1)) by (pose proof (create_table v (Some (mkLockReq path ref)) id now w Hv (proj1 Hok) Ht) as T; rewrite E in T; exact T).
  assert (Hx : lk_path x = path /\ In x (b1 ref)).
  { inversion S1 as [p r i n l' b2 z Nh [P _] _ W E1 E2 E3|p r i n l' msg| | | | | | | | | | | |y r K E1 E2 E3]; subst; [|destruct K]. subst z. split; [reflexivity|]. rewrite W, (proj1 Hv ref).
    apply (Permutation_in _ (Permutation_sym P)). left. reflexivity. }
  destruct Hx as [Ep Ix]. assert (Hl : locks_of v w1 ref' (b1 ref)) by (exact (locks_alike v w1 ref' ref _ Hv (Ic _ _ Sc) (B1 ref))). split.
  - intros id2 now2. eexists. destruct (create_check_any v (mkLockReq path ref') w1 _ Hv T1 Hl) as (w2 & _ & _ & K). destruct (K Q1) as [_ E1]. clear K.
    unfold lfs_create_lock, llift. unfold lbind at 1. cbn [unwrap_opt]. rewrite (lbind_ok _ _ _ _ _ _ _ E1). cbn [lr_path].
    destruct path as [|a path]; [contradiction|]. cbn [picks]. destruct (filter _ (b1 ref)) as [|y ys] eqn:P; [|reflexivity].
    exfalso. apply (proj1 (no_path_left _ _) P). rewrite <- Ep. apply in_map, Ix.
  - intros q Eq Ep2. exists (b1 ref). split; [|exact Ix]. unfold lfs_retrieve_lock. rewrite Ep2, Eq. unfold ltry, lbind. rewrite (filtered_quiet v w1 Hv T1 Q1 ref' [] [] [] _ Hl). reflexivity.
Qed.

(** Two names that differ in case are one repository: what is pushed to the first is
    cloned from the second. *)
Lemma folded_case : forall p, folded p = filter (fun b => negb (b =? 0)) (map lower p).
Proof. reflexivity. Qed.
Lemma ex_ignores_case : ignores_case (teq ex_env).
Proof. intros p q H. apply beq_eq. rewrite !folded_case. unfold same_but_case in H. rewrite H. reflexivity. Qed.
Lemma ex_locks_ignore_case : ignores_case (l_teq ex_lenv).
Proof. intros p q H. apply beq_eq. exact H. Qed.
Theorem C133_refuted : exists e m c cut now p q push body w first second, env_ok e /\ teq_equiv e /\ codec_ok c /\ (forall d, pieces 65515 d (cut d)) /\ no_failure w /\
  p <> q /\ w_db w = db_empty /\ clone_request body /\
  exists fuel0 w1 reply cl, status_reply cl [bs "ok refs/heads/master" ++ [0]] reply /\
  (forall fuel, (fuel0 <= fuel)%nat -> http_receive_pack e m c fuel now p push w = (w1, Ok reply)) /\
  exists fuel1, forall fuel, (fuel1 <= fuel)%nat -> exists w2 reply2 R, http_upload_pack e c fuel cut q body w1 = (w2, Ok reply2) /\
    clone_reply c (get_hash_object e w) reply2 R /\ R first /\ R second /\ fst first = Commit /\ fst second = Commit /\ first <> second.
Proof.
  destruct (two_clone clone_body clone_body_ok) as (fuel0 & w1 & reply & cl & St & E1 & fuel1 & E2).
  exists ex_env, Release, stored, ex_cut, 7, (bs "/demo"), (bs "/Demo"), two_body, clone_body, (world_of db_empty), ex_top, ex_second.
  split; [exact ex_env_ok|]. split; [exact ex_equiv|]. split; [exact stored_ok|]. split; [exact ex_cut_ok|]. split; [reflexivity|].
  split; [discriminate|]. split; [reflexivity|]. split; [exact clone_body_ok|].
  exists fuel0, w1, reply, cl. split; [exact St|]. split; [exact E1|]. exists fuel1. intros fuel Hf. destruct (E2 fuel Hf) as (w2 & reply2 & E & _ & Cl).
  exists w2, reply2, (reach (fun o => In o two_objs)). split; [|split; [exact Cl|]].
  - rewrite (upload_same ex_env stored fuel ex_cut (bs "/Demo") (bs "/demo") clone_body ex_equiv); [exact E|]. apply ex_ignores_case. reflexivity.
  - split; [|split; [|split; [reflexivity|split; [reflexivity|exact two_differ]]]]; apply (rc_commit (fun o => In o two_objs)); [right; left; reflexivity|left; reflexivity].
Qed.
(** The premises of the others: the example repository under the name with a capital. *)
Lemma demo_case : same_but_case (bs "/demo") (bs "/Demo").
Proof. reflexivity. Qed.
Lemma demo_outside : forall r, In r (d_refs (w_db ex_world)) -> ~ within (bs "/Demo") (r_repo_path r).
Proof.
  intros r Hr Hw. rewrite ex_world_refs in Hr. destruct Hr as [<-|[]]. cbn [r_repo_path ex_ref] in Hw. apply starts_with_within in Hw. vm_compute in Hw. discriminate.
Qed.
Lemma ex_full_at : history (bs "/Demo") ex_full.
Proof.
  apply history_check; [vm_compute; reflexivity|reflexivity| |].
  - intros d [E|[E|[E|[E|[]]]]]; try discriminate (f_equal fst E). exists (oid ex_root).
    replace d with (snd ex_second) by exact (f_equal snd E). exact ex_second_root.
  - intros d [E|[E|[E|[E|[]]]]]; discriminate (f_equal fst E).
Qed.
Example C133_ex : ignores_case (teq ex_env) /\ teq_equiv ex_env /\ same_but_case (bs "/demo") (bs "/Demo") /\
  gateway MPost (bs "/demo.git/git-upload-pack") None no_query = Ok (AUploadPack (bs "/demo")) /\
  gateway MPost (bs "/Demo.git/git-upload-pack") None no_query = Ok (AUploadPack (bs "/Demo")) /\
  (forall r, In r (d_refs (w_db ex_world)) -> is_head ex_env (bs "/Demo") r -> ~ within (bs "/Demo") (r_repo_path r)) /\
  refs_at ex_env (w_db ex_world) (bs "/demo") = [ex_ref] /\ r_repo_path ex_ref = bs "/demo" /\
  (exists objs, push_request (to_plain_str (oid ex_top)) (to_plain_str (oid ex_second)) (bs "refs/heads/master") ex_caps (pack_of ex_full) ex_body2 /\
     git_pack stored (get_hash_object ex_env ex_world) (pack_of ex_full) objs /\ history (bs "/Demo") (map snd objs)) /\
  ignores_case (l_teq ex_lenv) /\ same_but_case (bs "Refs/Heads/Main") ex_main.
Proof.
  split; [exact ex_ignores_case|]. split; [exact ex_equiv|]. split; [exact demo_case|]. split; [exact clone_demo_at|]. split; [vm_compute; reflexivity|].
  split; [intros r Hr _; exact (demo_outside r Hr)|]. split; [unfold refs_at; rewrite ex_world_refs; reflexivity|]. split; [reflexivity|]. split; [|split; [exact ex_locks_ignore_case|reflexivity]].
  destruct C46_update_ex as (_ & Rq & _).
  destruct (pack_of_git ex_full (get_hash_object ex_env ex_world)) as (objs & G & E); [discriminate|reflexivity|apply (hs_sound _ _ ex_full_ok)|].
  exists objs. rewrite E. split; [exact Rq|]. split; [exact G|]. exact ex_full_at.
Qed.

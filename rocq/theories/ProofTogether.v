(** A push among other requests, with its temporary file to itself. *)

From Coq Require Import Permutation.
From Verif Require Import Base BaseLemmas Digest ModelUtils ModelObject ModelBase ModelPack ModelDecode ModelPkt ModelStorage ModelProto
  ModelLfs ModelGateway ModelService ModelConc SpecObject SpecIdx SpecBase SpecPack SpecPkt SpecStorage SpecProto SpecGateway SpecService
  SpecConc ProofObject ProofUtf8 ProofBase ProofPack ProofPkt ProofReq ProofEncode ProofNodes ProofStorage ProofPush ProofClone ProofRepo ProofRefs
  ProofSession ProofGraph ProofService ProofConc ProofWhole ProofSnapshot.
Open Scope N_scope.

(** ** Programs that leave a file alone *)

Section Avoids.
Context (e : env) (tp : list bytes).
Definition leaves {X} (a : act X) : Prop := match a with DWrite q _ => q <> tp | DRemove q => q <> tp | _ => True end.
Fixpoint avoids {A} (p : prog A) : Prop := match p with PRet _ => True | PAct a k => leaves a /\ forall r, avoids (k r) end.
Lemma leaves_file : forall X (a : act X) w, leaves a -> fs_get (w_files (fst (perform e a w))) tp = fs_get (w_files w) tp.
Proof.
  intros X a w H. destruct a; cbn [perform leaves] in *.
  - unfold select, attempt, shuffle, tick, mbind, ret, lift. destruct (w_fails w) as [|[] f]; reflexivity.
  - unfold execute, attempt, mbind, ret. destruct (w_fails w) as [|[] f]; cbn; try reflexivity; match goal with |- context [o ?x] => destruct (o x) end; reflexivity.
  - reflexivity.
  - cbn. apply fs_get_put_other. congruence.
  - reflexivity.
  - unfold remove_temp. destruct (fs_get (w_files w) l); [|reflexivity]. cbn. apply fs_get_remove_other. congruence.
  - reflexivity.
Qed.
Lemma av_then : forall A B (p : prog A) (k : res A -> prog B), avoids p -> (forall r, avoids (k r)) -> avoids (then_any p k).
Proof. intros A B p k H K. induction p as [r|X a k1 IH]; cbn in *; [apply K|]. destruct H as [H1 H2]. auto. Qed.
Lemma av_bind : forall A B (p : prog A) (k : A -> prog B), avoids p -> (forall a, avoids (k a)) -> avoids (pbind p k).
Proof. intros A B p k H K. apply av_then; [exact H|]. intros [a| | |]; cbn; auto. Qed.
Lemma av_do : forall X (a : act X), leaves a -> avoids (do a).
Proof. intros X a H. split; [exact H|]. intros r. exact I. Qed.
Lemma av_lift : forall A (r : res A), avoids (PRet r).
Proof. exact (fun _ _ => I). Qed.
Lemma av_ret : forall A (a : A), avoids (pret a).
Proof. exact (fun _ _ => I). Qed.
Lemma av_unwrap : forall A (p : prog A), avoids p -> avoids (punwrap p).
Proof. intros A p H. apply av_then; [exact H|]. intros r. exact I. Qed.
Lemma av_select : forall T (q : db -> list T), avoids (do (DSelect q)).
Proof. intros. apply av_do. exact I. Qed.
Lemma av_execute : forall f, avoids (do (DExecute f)).
Proof. intros. apply av_do. exact I. Qed.
Lemma av_shuffle : forall T (l : list T), avoids (do (DShuffle l)).
Proof. intros. apply av_do. exact I. Qed.
Lemma av_read : forall q, avoids (do (DRead q)).
Proof. intros. apply av_do. exact I. Qed.
Lemma av_unpack : forall m c fuel f, avoids (do (DUnpack m c fuel f)).
Proof. intros. apply av_do. exact I. Qed.
Lemma av_one : forall T (q : db -> list T), avoids (one_row q).
Proof. intros. apply av_bind; [apply av_select|]. intros. exact I. Qed.
Create HintDb avoids.
Hint Resolve av_ret av_lift av_unwrap av_select av_execute av_shuffle av_read av_unpack av_one : avoids.
Ltac astep := apply av_bind; [auto with avoids|intros].
Lemma av_child_trees : forall fuel root hm, avoids (child_trees_p fuel e root hm).
Proof.
  induction fuel as [fuel IH] using lt_wf_ind. intros root hm. destruct fuel as [|fuel];
    (cbn [child_trees_p]; astep; astep; astep; apply av_bind; [|auto with avoids];
     revert hm; induction a1 as [|r rows IHr]; intros hm; [apply av_ret|];
     destruct (beq (n_type r) (bs "tree"));
     [|astep; apply IHr]).
  - apply av_lift.
  - apply av_bind; [apply IH; lia|]. intros hm1. apply IHr.
Qed.
Hint Resolve av_child_trees : avoids.
Lemma av_full_loop : forall fuel trees cs hm, avoids (full_loop_p fuel e trees cs hm).
Proof.
  intros fuel trees. induction cs as [|c cs IH]; intros hm; cbn [full_loop_p]; [apply av_ret|].
  destruct (bt_get (cm_tree_id c) trees); [|apply av_lift]. astep. apply IH.
Qed.
Lemma av_incremental_loop : forall fuel want metas hm, avoids (incremental_loop_p fuel e want metas hm).
Proof.
  intros fuel want. induction metas as [|m metas IH]; intros hm; cbn [incremental_loop_p]; [apply av_ret|].
  destruct (existsb _ want); [|apply IH]. astep. astep. destruct a0 as [r|]; [|apply av_lift]. astep. apply IH.
Qed.
Lemma av_encode : forall c hm, avoids (encode_map_p c hm).
Proof. intros c hm. unfold encode_map_p. astep. astep. destruct a0. auto with avoids. Qed.
Hint Resolve av_full_loop av_incremental_loop av_encode : avoids.
Lemma av_all_commits : forall path, avoids (all_commits_p e path).
Proof. intros path. unfold all_commits_p. astep. auto with avoids. Qed.
Hint Resolve av_all_commits : avoids.
Lemma av_full : forall c fuel path, avoids (full_pack_p e c fuel path).
Proof. intros c fuel path. unfold full_pack_p. do 5 astep. auto with avoids. Qed.
Lemma av_incremental : forall c fuel path want, avoids (incremental_pack_p e c fuel path want).
Proof. intros c fuel path want. unfold incremental_pack_p. do 2 astep. auto with avoids. Qed.
Lemma av_known : forall id, avoids (known_p e id).
Proof. intros id. unfold known_p. astep. auto with avoids. Qed.
Hint Resolve av_full av_incremental av_known : avoids.
Lemma av_ack_haves : forall have buf, avoids (ack_haves_p e have buf).
Proof. induction have as [|h r IH]; intros buf; cbn [ack_haves_p]; [apply av_ret|]. astep. apply IH. Qed.
Lemma av_ack_wants : forall nd want buf, avoids (ack_wants_p e nd want buf).
Proof. intros nd. induction want as [|h r IH]; intros buf; cbn [ack_wants_p]; [apply av_ret|]. astep. apply IH. Qed.
Hint Resolve av_ack_haves av_ack_wants : avoids.
Lemma av_upload : forall c fuel pp body, avoids (upload_p e c fuel pp body).
Proof.
  intros c fuel pp body. unfold upload_p. astep. destruct a as [[[want have] caps] rest]. destruct have as [|h have].
  - astep. auto with avoids.
  - apply av_bind; [|intros [d b]; auto with avoids]. destruct (has_cap MultiAckDetailed caps); [|auto with avoids].
    do 5 astep. auto with avoids.
Qed.
Lemma av_batches : forall bs, avoids (batches_p e bs).
Proof. induction bs as [|b bs IH]; cbn [batches_p]; [apply av_ret|]. astep. destruct a; [exact IH|apply av_lift]. Qed.
Lemma av_insert_all : forall ins, avoids (insert_all_p ins).
Proof. induction ins as [|f r IH]; cbn [insert_all_p]; [apply av_ret|]. astep. exact IH. Qed.
Hint Resolve av_upload av_batches av_insert_all : avoids.
Lemma av_save_commits : forall path cs, avoids (save_commits_p path cs).
Proof. intros. unfold save_commits_p. auto with avoids. Qed.
Hint Resolve av_save_commits : avoids.
Lemma av_save_objects : forall fuel om path, avoids (save_objects_p e fuel om path).
Proof. intros. unfold save_objects_p. astep. astep. auto with avoids. Qed.
Hint Resolve av_save_objects : avoids.
Lemma av_save_packfile : forall fuel k path, avoids (save_packfile_p e fuel k path).
Proof. intros. unfold save_packfile_p. do 5 astep. auto with avoids. Qed.
Lemma av_handle : forall cmd path, avoids (handle_refs_p e cmd path).
Proof.
  intros. unfold handle_refs_p. destruct (rc_type cmd); auto with avoids. unfold update_refs_p. do 3 astep.
  destruct a1; auto with avoids. do 2 astep. auto with avoids.
Qed.
Hint Resolve av_save_packfile av_handle : avoids.
Lemma av_head : forall path, avoids (head_p e path).
Proof.
  intros. unfold head_p. astep. destruct (find _ a); [auto with avoids|]. destruct (find _ a); [|auto with avoids]. unfold child_p. do 2 astep.
  apply av_bind.
  - unfold search_root_p. astep. astep. destruct a3; auto with avoids.
  - intros [n|]; [|auto with avoids]. astep. astep. astep. auto with avoids.
Qed.
Hint Resolve av_head : avoids.
Lemma av_info : forall pp, avoids (info_refs_p e pp).
Proof. intros. unfold info_refs_p. astep. astep. apply av_bind; [|auto with avoids]. unfold get_ref_object_id_p. astep. auto with avoids. Qed.
Hint Resolve av_info : avoids.
Lemma av_receive : forall m c fuel now pp body, temp_path now <> tp -> avoids (receive_p e m c fuel now pp body).
Proof.
  intros m c fuel now pp body H. unfold receive_p. destruct (starts_with _ body).
  - astep. apply av_bind; [apply av_do; exact H|]. intros _. astep. astep. apply av_bind.
    + apply av_then; [auto with avoids|]. intros [u| | |]; auto with avoids. astep. auto with avoids.
    + intros cmd2. apply av_bind; [apply av_do; exact H|]. auto with avoids.
  - astep. destruct a as [[n line] rest]. destruct (_ && _); [auto with avoids|]. astep. destruct a as [cmd tail]. astep. astep. auto with avoids.
Qed.
Lemma av_session : forall m c fuel cut now packets pp, (forall n, temp_path (now n) <> tp) -> avoids (ssh_session_p e m c fuel cut now pp packets).
Proof.
  intros m c fuel cut now packets pp H. revert pp. induction packets as [|d r IH]; intros pp; cbn [ssh_session_p]; [apply av_ret|].
  apply av_bind; [|intros [pp1 a]; apply av_bind; [apply IH|intros [pp2 b]; auto with avoids]].
  unfold ssh_data_p. destruct (pp_service pp) as [[]|]; [|apply av_receive; apply H|apply av_lift].
  apply av_bind; [auto with avoids|]. intros [[pp' pack] buf]. astep. auto with avoids.
Qed.
Lemma av_serve : forall b c fuel cut r, (forall t, arrives r t -> temp_path t <> tp) -> avoids (serve_p e b c fuel cut r).
Proof.
  intros b c fuel cut [now m path service q body|now cmd packets] H; cbn [serve_p].
  - astep. destruct a; try apply av_ret.
    + unfold http_info_refs_p. astep. auto with avoids.
    + unfold http_upload_p. astep. apply av_bind; [auto with avoids|]. intros [[pp data] buf]. auto with avoids.
    + unfold http_receive_p. astep. apply av_bind; [apply av_receive; apply H; reflexivity|]. intros [pp1 data].
      apply av_bind; [apply av_receive; apply H; reflexivity|]. intros [pp2 reply]. auto with avoids.
  - apply av_bind.
    + unfold ssh_command_p. do 7 astep. auto with avoids.
    + intros [pp a]. apply av_bind; [apply av_session; intros n; apply H; exists n; reflexivity|]. intros [pp2 s]. auto with avoids.
Qed.
End Avoids.

(** ** A program among others *)

Lemma perform_quiet : forall e X (a : act X) w, no_failure w -> no_failure (fst (perform e a w)).
Proof.
  intros e X a w H. unfold no_failure in *. destruct a; cbn [perform].
  - unfold select, attempt, shuffle, tick, mbind, ret, lift. rewrite H. cbn. exact H.
  - unfold execute, attempt, mbind, ret. rewrite H. cbn. destruct (o (w_db w)); cbn; exact H.
  - exact H.
  - exact H.
  - exact H.
  - unfold remove_temp. destruct (fs_get (w_files w) l); exact H.
  - exact H.
Qed.
Section Keeps.
Context (e : env) (tp : list bytes) (L : db -> db -> Prop).
Context (Lr : forall d, L d d) (Lt : forall a b c, L a b -> L b c -> L a c).
(** What others may do. *)
Definition rely (w w' : world) : Prop :=
  (no_failure w -> no_failure w') /\ fs_get (w_files w') tp = fs_get (w_files w) tp /\ L (w_db w) (w_db w').
Lemma rely_refl : forall w, rely w w.
Proof. intros w. split; [auto|]. split; [reflexivity|apply Lr]. Qed.
Lemma rely_trans : forall a b c, rely a b -> rely b c -> rely a c.
Proof. intros a b c (A1 & A2 & A3) (B1 & B2 & B3). split; [auto|]. split; [congruence|eauto]. Qed.
(** The program ends in [Q], whatever others do in between. *)
Fixpoint keeps {A} (Q : res A -> world -> Prop) (p : prog A) (w : world) : Prop :=
  match p with
  | PRet r => Q r w
  | PAct a k => forall w1, rely w w1 -> keeps Q (k (snd (perform e a w1))) (fst (perform e a w1))
  end.
Lemma keeps_then : forall A B (P : res A -> world -> Prop) (Q : res B -> world -> Prop) p k w, keeps P p w ->
  (forall r w', P r w' -> keeps Q (k r) w') -> keeps Q (then_any p k) w.
Proof. intros A B P Q p k. induction p as [r|X a k1 IH]; intros w H K; cbn [keeps then_any] in *; [auto|]. intros w1 R. apply IH; auto. Qed.
Lemma keeps_bind : forall A B (P : A -> world -> Prop) (Q : res B -> world -> Prop) p (k : A -> prog B) w,
  keeps (fun r w' => exists a, r = Ok a /\ P a w') p w -> (forall a w', P a w' -> keeps Q (k a) w') -> keeps Q (pbind p k) w.
Proof. intros A B P Q p k w H K. eapply keeps_then; [exact H|]. intros r w' (a & -> & Ha). auto. Qed.
Lemma keeps_later : forall A (Q : res A -> world -> Prop) p w w', (forall r w1 w2, Q r w1 -> rely w1 w2 -> Q r w2) ->
  rely w w' -> keeps Q p w -> keeps Q p w'.
Proof. intros A Q p w w' Qs R H. destruct p as [r|X a k]; cbn [keeps] in *; [eauto|]. intros w1 R1. apply H. eapply rely_trans; eassumption. Qed.
Lemma keeps_do : forall X (a : act X) (Q : res X -> world -> Prop) w, (forall w1, rely w w1 -> Q (snd (perform e a w1)) (fst (perform e a w1))) ->
  keeps Q (do a) w.
Proof. intros X a Q w H. exact H. Qed.
Lemma keeps_weak : forall A (P Q : res A -> world -> Prop) p w, keeps P p w -> (forall r w', P r w' -> Q r w') -> keeps Q p w.
Proof. intros A P Q p. induction p as [r|X a k IH]; intros w H K; cbn [keeps] in *; [auto|]. intros w1 R. apply IH; auto. Qed.

(** Request [i] among requests that leave its file alone. *)
Lemma interleave_keeps : forall i (Q : res bytes -> world -> Prop), (forall r w1 w2, Q r w1 -> rely w1 w2 -> Q r w2) ->
  forall schedule ts w p, nth_error ts i = Some p -> keeps Q p w ->
  (forall j q, j <> i -> nth_error ts j = Some q -> avoids tp q) ->
  (forall s1 j s2, schedule = s1 ++ j :: s2 -> j <> i ->
    L (w_db (snd (interleave e s1 ts w))) (w_db (snd (interleave e (s1 ++ [j]) ts w)))) ->
  let x := interleave e schedule ts w in exists p', nth_error (fst x) i = Some p' /\ keeps Q p' (snd x).
Proof.
  intros i Q Qs. induction schedule as [|j s IH]; intros ts w p Hi Hp Ho Hl x; [exists p; auto|]. unfold x. clear x. cbn [interleave].
  assert (Hl' : forall s1 j' s2, s = s1 ++ j' :: s2 -> j' <> i ->
    L (w_db (snd (interleave e s1 (fst (advance e j ts w)) (snd (advance e j ts w))))) (w_db (snd (interleave e (s1 ++ [j']) (fst (advance e j ts w)) (snd (advance e j ts w)))))).
  { intros s1 j' s2 E N. specialize (Hl (j :: s1) j' s2). cbn [app interleave] in Hl. destruct (advance e j ts w) as [ts1 w1]. apply Hl; [rewrite E; reflexivity|exact N]. }
  destruct (Nat.eq_dec j i) as [->|Ne].
  - unfold advance in *. rewrite Hi in *. destruct p as [r|X a k].
    + cbn [fst snd] in Hl'. eapply IH; eassumption.
    + cbn [keeps] in Hp. specialize (Hp w (rely_refl w)). destruct (perform e a w) as [w1 r]. cbn [fst snd] in *.
      eapply IH; [apply set_nth_same with (1 := Hi)|exact Hp| |exact Hl'].
      intros j q Nj Hj. rewrite set_nth_other in Hj by congruence. eauto.
  - assert (Ls : L (w_db w) (w_db (snd (advance e j ts w)))).
    { specialize (Hl [] j s eq_refl Ne). cbn [app interleave snd] in Hl. destruct (advance e j ts w). exact Hl. }
    unfold advance in *. destruct (nth_error ts j) as [[r|X a k]|] eqn:Nj; try (cbn [fst snd] in Hl'; eapply IH; eassumption).
    pose proof (Ho _ _ Ne Nj) as [Av Ak]. pose proof (leaves_file e tp X a w Av) as Fl. pose proof (perform_quiet e X a w) as Pq.
    destruct (perform e a w) as [w1 r]. cbn [fst snd] in *.
    eapply IH; [rewrite set_nth_other by exact Ne; exact Hi| | |exact Hl'].
    + eapply keeps_later; [exact Qs| |exact Hp]. split; [exact Pq|]. split; [exact Fl|exact Ls].
    + intros j' q N' H'. destruct (Nat.eq_dec j j') as [<-|Nj'].
      * rewrite (set_nth_same _ _ _ _ _ Nj) in H'. injection H' as <-. apply Ak.
      * rewrite set_nth_other in H' by exact Nj'. eauto.
Qed.
End Keeps.

(** ** The statements of a push *)

Lemma list_incl_more : forall A (a b c : list A), incl a b -> incl (a ++ c) (b ++ c).
Proof. intros A a b c H x Hx. apply in_app_or in Hx as [Hx|Hx]; apply in_or_app; auto. Qed.
Section Own.
Context (e : env) (He : env_ok e) (tp : list bytes) (L : db -> db -> Prop).
Context (Lr : forall d, L d d) (Lt : forall a b c, L a b -> L b c -> L a c) (Ln : forall d d', L d d' -> nothing_lost d d').
Let keeps {A} := @keeps e tp L A.

Definition at_db (file : option bytes) (D : db -> Prop) (w : world) : Prop := no_failure w /\ fs_get (w_files w) tp = file /\ D (w_db w).
Definition stable (D : db -> Prop) : Prop := forall d d', D d -> L d d' -> D d'.
Lemma at_later : forall file D w w', stable D -> at_db file D w -> rely tp L w w' -> at_db file D w'.
Proof. intros file D w w' S (A1 & A2 & A3) (B1 & B2 & B3). split; [auto|]. split; [congruence|exact (S _ _ A3 B3)]. Qed.
Definition ends {A} (P : A -> world -> Prop) (r : res A) (w : world) : Prop := exists a, r = Ok a /\ P a w.

Lemma ks_execute : forall f file D D' w, stable D -> (forall d, D d -> exists d', f d = Some d' /\ D' d') -> at_db file D w ->
  keeps (ends (fun ok w' => ok = true /\ at_db file D' w')) (do (DExecute f)) w.
Proof.
  intros f file D D' w S Hf A. apply keeps_do. intros w1 R. destruct (at_later _ _ _ _ S A R) as (Q & F & Hd). destruct (Hf _ Hd) as (d' & E & Hd').
  cbn [perform]. unfold execute, attempt, mbind. rewrite Q. rewrite E. cbn [fst snd]. exists true. split; [reflexivity|]. split; [reflexivity|].
  split; [exact Q|]. split; [exact F|exact Hd'].
Qed.
Lemma ks_shuffle : forall T (l : list T) file D w, stable D -> at_db file D w ->
  keeps (ends (fun x w' => Permutation x l /\ at_db file D w')) (do (DShuffle l)) w.
Proof.
  intros T l file D w S A. apply keeps_do. intros w1 R. destruct (at_later _ _ _ _ S A R) as (Q & F & Hd). cbn [perform].
  exists (ord e (w_tick w1) T l). split; [reflexivity|]. split; [apply He|]. split; [exact Q|]. split; [exact F|exact Hd].
Qed.
Lemma ks_write : forall b file D w, stable D -> at_db file D w ->
  keeps (ends (fun _ w' => exists junk, at_db (Some (b ++ junk)) D w')) (do (DWrite tp b)) w.
Proof.
  intros b file D w S A. apply keeps_do. intros w1 R. destruct (at_later _ _ _ _ S A R) as (Q & F & Hd). cbn [perform].
  exists tt. split; [reflexivity|]. eexists. split; [exact Q|]. split; [|exact Hd]. cbn [w_files write_temp fst]. apply fs_get_put_same.
Qed.
Lemma ks_read : forall b D w, stable D -> at_db (Some b) D w ->
  keeps (ends (fun x w' => x = b /\ at_db (Some b) D w')) (do (DRead tp)) w.
Proof.
  intros b D w S A. apply keeps_do. intros w1 R. destruct (at_later _ _ _ _ S A R) as (Q & F & Hd). cbn [perform]. unfold read_temp. rewrite F.
  exists b. split; [reflexivity|]. split; [reflexivity|]. split; [exact Q|]. split; [exact F|exact Hd].
Qed.
Lemma ks_remove : forall b D w, stable D -> at_db (Some b) D w ->
  keeps (ends (fun _ w' => at_db None D w')) (do (DRemove tp)) w.
Proof.
  intros b D w S A. apply keeps_do. intros w1 R. destruct (at_later _ _ _ _ S A R) as (Q & F & Hd). cbn [perform]. unfold remove_temp. rewrite F.
  exists tt. split; [reflexivity|]. split; [exact Q|]. split; [|exact Hd]. apply fs_get_remove_same.
Qed.
Lemma ks_unpack : forall m c fuel file b D P w, stable D -> (forall st, exists p, decode m c st fuel file = Ok p /\ P p) -> at_db (Some b) D w ->
  keeps (ends (fun p w' => P p /\ at_db (Some b) D w')) (do (DUnpack m c fuel file)) w.
Proof.
  intros m c fuel file b D P w S Hd A. apply keeps_do. intros w1 R. destruct (at_later _ _ _ _ S A R) as (Q & F & Hw). cbn [perform]. unfold unpack_pack.
  destruct (Hd (get_hash_object e w1)) as (p & E & Hp). rewrite E. exists p. split; [reflexivity|]. split; [exact Hp|]. split; [exact Q|]. split; [exact F|exact Hw].
Qed.

(** [D0] speaks of the table of references only. *)
Context (D0 : db -> Prop) (S0 : stable D0) (R0 : forall d d', d_refs d' = d_refs d -> d_next_ref d' = d_next_ref d -> D0 d -> D0 d').
Definition with_rows (l : list node_row) (c : list commit_row) (d : db) : Prop := incl l (d_nodes d) /\ incl c (d_commits d) /\ D0 d.
Lemma rows_stable : forall l c, stable (with_rows l c).
Proof.
  intros l c d d' (H1 & H2 & H3) K. split; [intros r Hr; exact (lost_node _ _ _ (Ln _ _ K) (H1 r Hr))|].
  split; [intros r Hr; exact (lost_commit _ _ _ (Ln _ _ K) (H2 r Hr))|exact (S0 _ _ H3 K)].
Qed.
Lemma ks_batches : forall bs done cs file w, Forall (fun b => b <> [] \/ empty_insert e = true) bs -> forallb node_fits (concat bs) = true ->
  at_db file (with_rows done cs) w ->
  keeps (ends (fun _ w' => at_db file (with_rows (done ++ concat bs) cs) w')) (batches_p e bs) w.
Proof.
  induction bs as [|b bs IH]; intros done cs file w Fb Fn A.
  - cbn [batches_p concat]. rewrite app_nil_r. exists tt. auto.
  - cbn [batches_p concat] in *. inversion Fb as [|? ? Hb Fb']; subst. rewrite forallb_app in Fn. apply andb_true_iff in Fn as [F1 F2].
    eapply keeps_bind; [eapply (ks_execute _ _ _ (with_rows (done ++ b) cs)); [apply rows_stable| |exact A]|].
    + intros d (H1 & H2 & H3). unfold insert_nodes. destruct b as [|x b].
      * destruct Hb as [Hb|Hb]; [contradiction|]. rewrite Hb. exists d. rewrite app_nil_r. split; [reflexivity|split; auto].
      * rewrite F1. eexists. split; [reflexivity|]. split; [cbn [d_nodes]; apply list_incl_more; exact H1|]. split; [exact H2|]. eapply R0; [| |exact H3]; reflexivity.
    + intros ok w' [-> A']. cbv iota. rewrite app_assoc. apply IH; assumption.
Qed.
Lemma ks_insert_commits : forall ch rows done file w, forallb commit_fits (concat ch) = true ->
  at_db file (with_rows rows done) w ->
  keeps (ends (fun _ w' => at_db file (with_rows rows (done ++ concat ch)) w')) (insert_all_p (map insert_commits ch)) w.
Proof.
  induction ch as [|b ch IH]; intros rows done file w Fn A.
  - cbn [insert_all_p map concat]. rewrite app_nil_r. exists tt. auto.
  - cbn [insert_all_p map concat] in *. rewrite forallb_app in Fn. apply andb_true_iff in Fn as [F1 F2].
    eapply keeps_bind; [eapply (ks_execute _ _ _ (with_rows rows (done ++ b))); [apply rows_stable| |exact A]|].
    + intros d (H1 & H2 & H3). unfold insert_commits. rewrite F1. eexists. split; [reflexivity|]. split; [exact H1|].
      split; [cbn [d_commits]; apply list_incl_more; exact H2|]. eapply R0; [| |exact H3]; reflexivity.
    + intros ok w' [-> A']. cbv iota. rewrite app_assoc. apply IH; assumption.
Qed.

Context (path : bytes) (l : list object) (rank : hash -> nat) (fuel : nat).
Context (Hs : Forall sound_object l) (Co : complete (fun o => In o l)) (Ft : forall o, reach (fun o => In o l) o -> fits_columns path o).
Context (Ac : forall d h h', In (Tree, d) l -> obj_id (Tree, d) h -> refers (Tree, d) Tree h' -> (rank h' < rank h)%nat).
Context (Hf : forall d tid, In (Commit, d) l -> commit_root d tid -> (rank tid <= fuel)%nat).

Let stored_in : db -> Prop := rows_stored path l.
Lemma stored_stable : stable stored_in.
Proof.
  intros d d' (rows & crows & R & H1 & H2) K. exists rows, crows. split; [exact R|].
  split; intros r Hr; [exact (lost_node _ _ _ (Ln _ _ K) (H1 r Hr))|exact (lost_commit _ _ _ (Ln _ _ K) (H2 r Hr))].
Qed.
Lemma ks_save : forall k file w, sorted_cache k -> SpecPack.holds k l -> at_db file D0 w ->
  keeps (ends (fun _ w' => at_db file (fun d => stored_in d /\ D0 d) w')) (save_packfile_p e fuel k path) w.
Proof.
  intros k file w Hk Hh A. unfold save_packfile_p. destruct (update_seq_ok k l Hk Hh Hs) as (om & U & Vo). rewrite U. unfold pbind at 1. cbn [then_any].
  eapply keeps_bind; [apply (ks_shuffle _ _ _ _ _ S0 A)|]. intros bl w1 [P1 A1]. eapply keeps_bind; [apply (ks_shuffle _ _ _ _ _ S0 A1)|]. intros ts w2 [P2 A2].
  eapply keeps_bind; [apply (ks_shuffle _ _ _ _ _ S0 A2)|]. intros gs w3 [P3 A3]. eapply keeps_bind; [apply (ks_shuffle _ _ _ _ _ S0 A3)|]. intros cs w4 [P4 A4].
  assert (V : vectors l bl ts cs) by (eapply vectors_perm; [exact Vo|apply Permutation_sym; assumption..]).
  set (om' := mkOmap (om_map_hash om) bl ts gs cs (om_name_map om)).
  destruct (save_rows e k l path Hh Hs Co rank Ac Ft om' fuel) as (rows & E & F1 & F2 & F3 & Rf); [exact V| |].
  { intros c Hc. cbn [om' om_commits] in Hc. apply (ve_commits _ _ _ _ V) in Hc as (d & h & Ho & Hi & _ & Hr). exact (Hf _ _ Ho Hr). }
  cbn [om' om_commits] in F3, Rf. unfold save_objects_p. eapply keeps_bind with (P := fun r w' => r = rows /\ at_db file D0 w').
  { rewrite E. exists rows. split; [reflexivity|]. exact (conj (eq_refl rows) A4). }
  intros rows' w5 (-> & Q & Fi & H0).
  eapply keeps_bind; [eapply (ks_batches _ [] [] file); [exact F2|rewrite batches_concat; exact F1|]|].
  { split; [exact Q|]. split; [exact Fi|]. split; [intros x []|]. split; [intros x []|exact H0]. }
  intros u w6 (Q6 & Fi6 & H6). rewrite batches_concat in H6. cbn [app] in H6. cbn [om' om_commits].
  eapply keeps_weak; [eapply (ks_insert_commits _ rows [] file)|].
  - rewrite ProofStorage.chunks_concat; [exact F3|lia|rewrite map_length; lia].
  - split; [exact Q6|]. split; [exact Fi6|exact H6].
  - intros r w7 (a & -> & Q7 & Fi7 & H7 & H8 & H9). exists a. split; [reflexivity|]. split; [exact Q7|]. split; [exact Fi7|]. split; [|exact H9].
    rewrite ProofStorage.chunks_concat in H8 by (rewrite ?map_length; lia). exists rows, (map (commit_to_row path) cs). split; [exact Rf|split; assumption].
Qed.

(** The whole request, given what its reference command does. *)
Context (D1 : db -> Prop) (S1 : stable D1) (m : build) (c : codec) (now : N) (pack : bytes) (Et : temp_path now = tp).
Context (Hp : forall st, exists objs, git_pack c st pack objs /\ map snd objs = l) (Hn : nlen pack < 2 ^ 32) (Hc : collision_free (fun o => In o l)) (H0 : (0 < fuel)%nat).
Lemma ks_receive : forall cl cmd file w,
  (forall b w', at_db (Some b) (fun d => stored_in d /\ D0 d) w' ->
    keeps (ends (fun _ w2 => at_db (Some b) (fun d => stored_in d /\ D1 d) w2)) (handle_refs_p e (cmd_unpacked cmd None) path) w') ->
  at_db file D0 w ->
  keeps (ends (fun r w' => snd r = report cl [cmd_unpacked cmd None] /\ at_db None (fun d => stored_in d /\ D1 d) w'))
    (receive_p e m c fuel now (mkProto Http path None cl [cmd]) pack) w.
Proof.
  intros cl cmd file w Hh A. unfold receive_p.
  assert (Sp : starts_with (bs "PACK") pack = true).
  { destruct (Hp (fun _ => Panic)) as (objs & (b & G & ->) & _). destruct (pack_body_magic _ _ _ _ _ G) as (r & ->). reflexivity. }
  rewrite Sp. cbn [pp_cmds length Nat.sub nth_error unwrap_opt]. unfold pbind at 1. cbn [then_any]. rewrite Et.
  eapply keeps_bind; [apply (ks_write pack _ _ _ S0 A)|]. intros u1 w1 (junk & A1).
  eapply keeps_bind; [apply (ks_read _ _ _ S0 A1)|]. intros f w2 (-> & A2).
  eapply keeps_bind; [eapply (ks_unpack m c fuel (pack ++ junk) _ D0 (fun p => SpecPack.holds (p_cache p) l /\ sorted_cache (p_cache p)) _ S0); [|exact A2]|].
  { intros st. destruct (Hp st) as (objs & G & <-). destruct (decode_git_pack_junk m c st pack objs junk G Hc Hn) as (p & E & K). exists p. split; [exact (E _ H0)|exact K]. }
  intros p w3 ((K1 & K2) & A3). cbn [pp_path].
  eapply keeps_bind with (P := fun r w5 => r = cmd_unpacked cmd None /\ at_db (Some (pack ++ junk)) (fun d => stored_in d /\ D1 d) w5); [eapply keeps_then; [apply (ks_save _ _ _ K2 K1 A3)|]|].
  { intros r w4 (u & -> & A4). eapply keeps_bind; [apply (Hh _ _ A4)|]. intros u5 w5 A5. exists (cmd_unpacked cmd None). split; [reflexivity|].
    exact (conj (eq_refl (cmd_unpacked cmd None)) A5). }
  intros cmd2 w5 (-> & A5).
  eapply keeps_bind; [eapply (ks_remove _ (fun d => stored_in d /\ D1 d)); [|exact A5]|].
  { intros d d' [X1 X2] K. split; [exact (stored_stable _ _ X1 K)|exact (S1 _ _ X2 K)]. }
  intros u6 w6 A6. eexists. split; [reflexivity|]. split; [reflexivity|exact A6].
Qed.

(** The reference command of a push that creates. *)
Lemma ks_create : forall b cmd w, rc_type cmd = Create ->
  (forall d, ref_fits (mkRef (d_next_ref d) path (rc_ref_name cmd) (rc_new_id cmd)) = true) ->
  (forall d, D0 d -> D1 (mkDb (d_nodes d) (d_commits d) (d_refs d ++ [mkRef (d_next_ref d) path (rc_ref_name cmd) (rc_new_id cmd)]) (d_next_ref d + 1))) ->
  at_db (Some b) (fun d => stored_in d /\ D0 d) w ->
  keeps (ends (fun _ w2 => at_db (Some b) (fun d => stored_in d /\ D1 d) w2)) (handle_refs_p e cmd path) w.
Proof.
  intros b cmd w Ty Fi HD A. unfold handle_refs_p. rewrite Ty. cbn [insert_all_p].
  eapply keeps_bind; [eapply (ks_execute _ _ _ (fun d => stored_in d /\ D1 d)); [| |exact A]|].
  - intros d d' [X1 X2] K. split; [exact (stored_stable _ _ X1 K)|exact (S0 _ _ X2 K)].
  - intros d [(rows & crows & X) X2]. unfold insert_ref. rewrite Fi. eexists. split; [reflexivity|]. split; [exists rows, crows; exact X|exact (HD _ X2)].
  - intros ok w' [-> A']. exists tt. split; [reflexivity|exact A'].
Qed.

(** That of a push that updates the only candidate. *)
Lemma ks_select : forall T (q : db -> list T) file D (P : list T -> Prop) w, stable D -> (forall d, D d -> P (q d)) -> (forall x y, Permutation x y -> P x -> P y) ->
  at_db file D w -> keeps (ends (fun x w' => P x /\ at_db file D w')) (do (DSelect q)) w.
Proof.
  intros T q file D P w S HP Pp A. apply keeps_do. intros w1 R. destruct (at_later _ _ _ _ S A R) as (Q & F & Hd). cbn [perform].
  unfold select, attempt, mbind. rewrite Q. cbn [fst snd]. unfold shuffle. cbn [fst snd].
  eexists. split; [reflexivity|]. split; [eapply Pp; [apply Permutation_sym, He|]; exact (HP _ Hd)|]. split; [exact Q|]. split; [exact F|exact Hd].
Qed.
End Own.

Lemma set_ref_of : forall e path d a r z new, refs_table d -> refs_of e d path = a ++ r :: z -> varchar 40 new = true ->
  exists d', set_ref (r_id r) new d = Some d' /\ d_nodes d' = d_nodes d /\ d_commits d' = d_commits d /\ refs_table d' /\ refs_of e d' path = a ++ with_id r new :: z.
Proof.
  intros e path d a r z new [T1 T2] E V. unfold set_ref. rewrite V. eexists. split; [reflexivity|]. split; [reflexivity|]. split; [reflexivity|].
  set (g := fun x => if r_id x =? r_id r then mkRef (r_id x) (r_repo_path x) (r_ref_name x) new else x).
  assert (Gi : forall x, r_id (g x) = r_id x) by (intros x; unfold g; destruct (_ =? _); reflexivity).
  assert (Gp : forall x, r_repo_path (g x) = r_repo_path x) by (intros x; unfold g; destruct (_ =? _); reflexivity).
  split; [split|].
  - cbn [d_refs]. rewrite map_map. rewrite (map_ext _ r_id); [exact T1|exact Gi].
  - cbn [d_refs d_next_ref]. intros x Hx. apply in_map_iff in Hx as (y & <- & Hy). fold (g y). rewrite Gi. auto.
  - unfold refs_of in *. cbn [d_refs]. fold g.
    assert (K : forall l, filter (fun x => teq e (r_repo_path x) path) (map g l) = map g (filter (fun x => teq e (r_repo_path x) path) l)).
    { induction l as [|x l IH]; [reflexivity|]. cbn [map filter]. rewrite Gp. destruct (teq e (r_repo_path x) path); cbn [map]; rewrite IH; reflexivity. }
    rewrite K, E, map_app. cbn [map].
    assert (N : NoDup (map r_id (a ++ r :: z))).
    { rewrite <- E. clear - T1. induction (d_refs d) as [|x l IH]; [constructor|]. cbn [map filter] in *. inversion T1 as [|? ? N1 N2]; subst.
      destruct (teq e (r_repo_path x) path); [|auto]. cbn [map]. constructor; [|auto]. intros H. apply N1. apply in_map_iff in H as (y & <- & Hy).
      apply in_map. apply filter_In in Hy. apply Hy. }
    rewrite map_app in N. cbn [map] in N. apply NoDup_remove_2 in N.
    assert (Ig : forall l, (forall x, In x l -> r_id x <> r_id r) -> map g l = l).
    { induction l as [|x l IH]; intros H; [reflexivity|]. cbn [map]. rewrite IH by (intros; apply H; right; assumption). f_equal. unfold g.
      rewrite (proj2 (N.eqb_neq _ _) (H x (or_introl eq_refl))). reflexivity. }
    rewrite !Ig.
    + unfold g. rewrite N.eqb_refl. reflexivity.
    + intros x Hx Ex. apply N. rewrite <- Ex. apply in_or_app. right. apply in_map. exact Hx.
    + intros x Hx Ex. apply N. rewrite <- Ex. apply in_or_app. left. apply in_map. exact Hx.
Qed.

Lemma ks_update : forall e (He : env_ok e) tp (L : db -> db -> Prop) (Ln : forall d d', L d d' -> nothing_lost d d') path l b cmd w a r z,
  (forall d d', L d d' -> refs_table d -> refs_table d' /\ refs_of e d' path = refs_of e d path) ->
  rc_type cmd = Update -> varchar 40 (rc_new_id cmd) = true -> teq e (r_ref_git_id r) (rc_old_id cmd) = true ->
  (forall x, In x (a ++ z) -> teq e (r_ref_git_id x) (rc_old_id cmd) = false) ->
  at_db tp (Some b) (fun d => rows_stored path l d /\ (refs_table d /\ refs_of e d path = a ++ r :: z)) w ->
  keeps e tp L (ends (fun _ w2 => at_db tp (Some b) (fun d => rows_stored path l d /\ (refs_table d /\ refs_of e d path = a ++ with_id r (rc_new_id cmd) :: z)) w2)) (handle_refs_p e cmd path) w.
Proof.
  intros e He tp L Ln path l b cmd w a r z HL Ty V Er Uq A. unfold handle_refs_p. rewrite Ty. unfold update_refs_p, one_row.
  assert (S : stable L (fun d => rows_stored path l d /\ (refs_table d /\ refs_of e d path = a ++ r :: z))).
  { intros d d' (X & Y & Z) K. split; [exact (stored_stable L Ln path l _ _ X K)|]. destruct (HL _ _ K Y) as [K1 K2]. split; [exact K1|congruence]. }
  assert (Sel : forall d, refs_of e d path = a ++ r :: z -> filter (fun x => teq e (r_ref_git_id x) (rc_old_id cmd) && teq e (r_repo_path x) path) (d_refs d) = [r]).
  { intros d E. assert (K : forall y, filter (fun x => teq e (r_ref_git_id x) (rc_old_id cmd) && teq e (r_repo_path x) path) y =
      filter (fun x => teq e (r_ref_git_id x) (rc_old_id cmd)) (filter (fun x => teq e (r_repo_path x) path) y)).
    { induction y as [|x y IH]; [reflexivity|]. cbn [filter]. destruct (teq e (r_repo_path x) path); rewrite ?andb_true_r, ?andb_false_r; [cbn [filter]; rewrite IH; reflexivity|exact IH]. }
    rewrite K. unfold refs_of in E. rewrite E, filter_app. cbn [filter]. rewrite Er.
    rewrite (filter_none _ _ a), (filter_none _ _ z); [reflexivity|apply Forall_forall; intros x Hx; apply Uq, in_or_app; auto..]. }
  eapply keeps_bind with (P := fun o w' => o = Some r /\ at_db tp (Some b) (fun d => rows_stored path l d /\ (refs_table d /\ refs_of e d path = a ++ r :: z)) w').
  - eapply keeps_bind; [eapply (ks_select e He tp L _ _ _ _ (fun x => x = [r]) _ S); [| |exact A]|].
    + intros d (_ & _ & E). apply Sel. exact E.
    + intros x y P ->. apply Permutation_length_1_inv. exact P.
    + intros x w' [-> A']. exists (Some r). split; [reflexivity|]. split; [reflexivity|exact A'].
  - intros o w1 [-> A1]. unfold pbind at 1. cbn [unwrap_opt then_any].
    eapply keeps_bind; [eapply (ks_execute e tp L _ _ _ (fun d => rows_stored path l d /\ (refs_table d /\ refs_of e d path = a ++ with_id r (rc_new_id cmd) :: z))); [exact S| |exact A1]|].
    + intros d ((rows & crows & X1 & X2 & X3) & X4 & X5). destruct (set_ref_of e path d a r z _ X4 X5 V) as (d' & E & E1 & E2 & E3). exists d'. split; [exact E|].
      split; [exists rows, crows; rewrite E1, E2; auto|exact E3].
    + intros ok w2 [-> A2]. cbv iota. unfold one_row.
      assert (S2 : stable L (fun d => rows_stored path l d /\ (refs_table d /\ refs_of e d path = a ++ with_id r (rc_new_id cmd) :: z))).
      { intros d d' (X & Y & Z) K. split; [exact (stored_stable L Ln path l _ _ X K)|]. destruct (HL _ _ K Y) as [K1 K2]. split; [exact K1|congruence]. }
      eapply keeps_bind with (P := fun o w' => o <> None /\ at_db tp (Some b) (fun d => rows_stored path l d /\ (refs_table d /\ refs_of e d path = a ++ with_id r (rc_new_id cmd) :: z)) w').
      * eapply keeps_bind; [eapply (ks_select e He tp L _ _ _ _ (fun x => x <> []) _ S2); [| |exact A2]|].
        { intros d (_ & _ & E) K. assert (I1 : In (with_id r (rc_new_id cmd)) (refs_of e d path)) by (rewrite E; apply in_or_app; right; left; reflexivity).
          unfold refs_of in I1. apply filter_In in I1 as [I1 _].
          assert (I2 : In (with_id r (rc_new_id cmd)) (filter (fun x => r_id x =? r_id r) (d_refs d))) by (apply filter_In; split; [exact I1|apply N.eqb_refl]).
          rewrite K in I2. destruct I2. }
        { intros x y P Hx ->. apply Hx, Permutation_nil, Permutation_sym, P. }
        { intros x w' [Hx A']. exists (hd_error x). split; [reflexivity|]. split; [destruct x; [contradiction|discriminate]|exact A']. }
      * intros o w3 [Ho A3]. destruct o as [y|]; [|contradiction]. unfold pbind. cbn [unwrap_opt then_any]. exists tt. split; [reflexivity|exact A3].
Qed.

(** The fuel a history needs, whatever order its vectors are in. *)
Lemma root_bound : forall (rank : hash -> nat) (l : list object), Forall sound_object l ->
  exists n, forall d tid, In (Commit, d) l -> commit_root d tid -> (rank tid <= n)%nat.
Proof.
  intros rank l F. induction F as [|[t x] l Hx F IH]; [exists O; intros d tid []|]. destruct IH as (n & Hn).
  assert (K : exists k, forall tid, t = Commit -> commit_root x tid -> (rank tid <= k)%nat).
  { destruct Hx as (_ & _ & Hx). cbn [fst snd] in Hx. destruct t; try (exists O; intros tid E; discriminate E).
    destruct Hx as (t0 & H0). exists (rank t0). intros tid _ H1. rewrite (commit_root_fun _ _ _ H1 H0). reflexivity. }
  destruct K as (k & Hk). exists (Nat.max n k). intros d tid [E|Hi] R.
  - injection E as -> ->. specialize (Hk tid eq_refl R). lia.
  - specialize (Hn d tid Hi R). lia.
Qed.

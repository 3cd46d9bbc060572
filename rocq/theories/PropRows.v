(** C99, C100: the rows a push stores for the entries of its trees. *)

From Coq Require Import Permutation.
From Verif Require Import Base BaseLemmas Digest ModelUtils ModelObject ModelBase ModelPack ModelDecode ModelPkt ModelStorage ModelProto
  StoredZlib SpecObject SpecIdx SpecBase SpecPack SpecPkt SpecStorage SpecProto ProofObject ProofUtf8 ProofBase ProofPack ProofIdx ProofReq
  ProofNodes ProofStorage ProofPush ProofClone ProofGraph ProofExample PropPkt PropStorage PropProto.
Open Scope N_scope.

(** ** C99: names and modes *)

Theorem C99_push : forall e m c now path new h name caps body pack objs w,
  env_ok e -> no_failure w -> id_ok h -> lower_hex new h -> word name -> utf8_text caps ->
  (exists k, text_len name k /\ (k <= 31)%nat) -> (exists k, text_len path k /\ (k <= 64)%nat) ->
  push_request (repeat 48 40) new name caps pack body ->
  git_pack c (get_hash_object e w) pack objs -> nlen pack < 2 ^ 32 -> history path (map snd objs) ->
  exists fuel0 w' reply rows crows roots entries,
    (forall fuel, (fuel0 <= fuel)%nat -> http_receive_pack e m c fuel now path body w = (w', Ok reply)) /\
    d_nodes (w_db w') = d_nodes (w_db w) ++ rows /\ d_commits (w_db w') = d_commits (w_db w) ++ crows /\
    Permutation rows (roots ++ entries) /\
    NoDup (map c_git_id crows) /\ Forall2 root_row crows roots /\
    NoDup (map n_git_id entries) /\ Forall (named_row (map snd objs)) entries /\
    forall i, is_entry (map snd objs) i -> exists r, In r entries /\ lower_hex (n_git_id r) (ti_id i).
Proof.
  intros e m c now path new h name caps body pack objs w He Q Hh Hx Hm Hc Hk Hp Rq G Hl Hs.
  destruct (C46_create e m c now path new h name caps body pack objs w He Q Hh Hx Hm Hc Hk Hp Rq G Hl Hs)
    as (fuel0 & w' & reply & rows & crows & cl & _ & _ & Rf & D & _ & E).
  destruct (rf_shape _ _ _ _ Rf) as (roots & entries & S1 & S2 & S3 & S4 & S5).
  exists fuel0, w', reply, rows, crows, roots, entries. split; [exact E|]. rewrite D. cbn [d_nodes d_commits].
  split; [reflexivity|]. split; [reflexivity|]. split; [exact S1|]. split; [exact (rf_commits_once _ _ _ _ Rf)|]. auto.
Qed.
(** The premises are met (C46_create_ex); the rows of that push: *)
Definition shown (r : node_row) : bytes * bytes * bytes * bytes := (n_git_id r, n_type r, n_name r, n_mode r).
Example C99_ex : map shown (d_nodes (w_db ex_world)) =
  [(to_plain_str (oid ex_root), bs "tree", [], []); (to_plain_str (oid ex_blob), bs "blob", bs "README", bs "100644");
   (to_plain_str (oid ex_lib), bs "tree", bs "lib", bs "40000")].
Proof. vm_compute. reflexivity. Qed.

(** ** C100: every entry under its own name *)

(** [r] is a row for the entry [i]. *)
Definition row_for (i : tree_item) (r : node_row) : Prop :=
  lower_hex (n_git_id r) (ti_id i) /\ n_name r = ti_filename i /\ n_mode r = ti_mode i.


Lemma entry_mode : forall objs i, is_entry objs i -> ti_mode i <> [].
Proof.
  intros objs i (d & items & _ & G & Ii). apply git_tree_legal in G. rewrite Forall_forall in G. destruct (G _ Ii) as (M & _).
  destruct M; discriminate.
Qed.
Lemma one_row : forall objs rows crows, rows_shape objs rows crows -> forall i j r r', is_entry objs i -> is_entry objs j -> ti_id i = ti_id j ->
  In r rows -> In r' rows -> row_for i r -> row_for j r' -> r = r'.
Proof.
  intros objs rows crows (roots & entries & P & F & N & _) i j r r' Ei Ej E Hr Hr' (A1 & A2 & A3) (B1 & B2 & B3).
  assert (K : forall x k, In x rows -> is_entry objs k -> n_mode x = ti_mode k -> In x entries).
  { intros x k Hx Ek Em. apply (Permutation_in _ P) in Hx. apply in_app_or in Hx as [Hx|Hx]; [|exact Hx]. exfalso.
    apply (entry_mode _ _ Ek). rewrite <- Em. clear -F Hx. induction F as [|c y cs roots (_ & _ & _ & M) F IH]; [destruct Hx|].
    destruct Hx as [<-|Hx]; [exact M|auto]. }
  pose proof (K _ _ Hr Ei A3) as H1. pose proof (K _ _ Hr' Ej B3) as H2.
  assert (G : n_git_id r = n_git_id r') by (rewrite (lower_hex_eq _ _ A1), (lower_hex_eq _ _ B1), E; reflexivity).
  clear -N H1 H2 G. induction entries as [|x l IH]; [destruct H1|]. cbn [map] in N. inversion N as [|? ? N1 N2]; subst.
  destruct H1 as [->|H1], H2 as [<-|H2]; [reflexivity|..|auto].
  - destruct N1. rewrite G. apply in_map, H2.
  - destruct N1. rewrite <- G. apply in_map, H1.
Qed.
Lemma own_rows : forall objs rows crows, rows_shape objs rows crows ->
  (forall i j, is_entry objs i -> is_entry objs j -> ti_id i = ti_id j -> ti_filename i = ti_filename j /\ ti_mode i = ti_mode j) ->
  forall i, is_entry objs i -> exists r, In r rows /\ row_for i r.
Proof.
  intros objs rows crows (roots & entries & P & _ & _ & F & A) U i Ei. destruct (A i Ei) as (r & Hr & L). exists r.
  split; [apply (Permutation_in _ (Permutation_sym P)), in_or_app; auto|]. rewrite Forall_forall in F. destruct (F r Hr) as (j & Ej & Lj & N1 & N2 & _).
  destruct (U i j Ei Ej (hex_text_fun _ _ _ (proj1 L) (proj1 Lj))) as [U1 U2]. split; [exact L|]. split; congruence.
Qed.

(** Of the entries that share their content, whatever their number, one at most gets a
    row of its name and mode; if entries that share their content also share name and
    mode, all do. *)
Theorem C100_names : forall e m c now path new h name caps body pack objs w,
  env_ok e -> no_failure w -> id_ok h -> lower_hex new h -> word name -> utf8_text caps ->
  (exists k, text_len name k /\ (k <= 31)%nat) -> (exists k, text_len path k /\ (k <= 64)%nat) ->
  push_request (repeat 48 40) new name caps pack body ->
  git_pack c (get_hash_object e w) pack objs -> nlen pack < 2 ^ 32 -> history path (map snd objs) ->
  exists fuel0 w' reply rows,
    (forall fuel, (fuel0 <= fuel)%nat -> http_receive_pack e m c fuel now path body w = (w', Ok reply)) /\
    d_nodes (w_db w') = d_nodes (w_db w) ++ rows /\
    (forall i j, is_entry (map snd objs) i -> is_entry (map snd objs) j -> ti_id i = ti_id j -> (ti_filename i, ti_mode i) <> (ti_filename j, ti_mode j) ->
       (forall r, In r rows -> ~ row_for i r) \/ (forall r, In r rows -> ~ row_for j r)) /\
    ((forall i j, is_entry (map snd objs) i -> is_entry (map snd objs) j -> ti_id i = ti_id j ->
        (ti_filename i, ti_mode i) = (ti_filename j, ti_mode j)) ->
     forall i, is_entry (map snd objs) i -> exists r, In r rows /\ row_for i r).
Proof.
  intros e m c now path new h name caps body pack objs w He Q Hh Hx Hm Hc Hk Hp Rq G Hl Hs.
  destruct (C46_create e m c now path new h name caps body pack objs w He Q Hh Hx Hm Hc Hk Hp Rq G Hl Hs)
    as (fuel0 & w' & reply & rows & crows & cl & _ & _ & Rf & D & _ & E).
  exists fuel0, w', reply, rows. split; [exact E|]. rewrite D. cbn [d_nodes]. split; [reflexivity|]. split.
  - intros i j Ei Ej Ed Nq.
    assert (Dec : (exists r, In r rows /\ row_for i r) \/ (forall r, In r rows -> ~ row_for i r)).
    { destruct (existsb (fun r => beq (n_git_id r) (hex_encode (ti_id i)) && beq (n_name r) (ti_filename i) && beq (n_mode r) (ti_mode i)) rows) eqn:X.
      - left. apply existsb_exists in X as (r & Hr & X). exists r. split; [exact Hr|]. apply andb_true_iff in X as [X X3]. apply andb_true_iff in X as [X1 X2].
        apply beq_eq in X1, X2, X3. split; [|auto]. rewrite X1. change (hex_encode (ti_id i)) with (to_plain_str (ti_id i)). apply plain_lower.
        destruct (rf_shape _ _ _ _ Rf) as (_ & entries & _ & _ & _ & _ & A). destruct (A i Ei) as (r' & _ & L). split; [|eapply hex_text_bytes, L].
        destruct Ei as (d & items & _ & Gt & Ii). apply git_tree_legal in Gt. rewrite Forall_forall in Gt. apply (Gt _ Ii).
      - right. intros r Hr (A1 & A2 & A3). assert (K : existsb (fun r => beq (n_git_id r) (hex_encode (ti_id i)) && beq (n_name r) (ti_filename i) && beq (n_mode r) (ti_mode i)) rows = true);
          [|congruence]. apply existsb_exists. exists r. split; [exact Hr|]. rewrite (lower_hex_eq _ _ A1), A2, A3, !beq_refl. reflexivity. }
    destruct Dec as [(r & Hr & R)|N]; [right|left; exact N]. intros r' Hr' R'. pose proof (one_row _ _ _ (rf_shape _ _ _ _ Rf) i j r r' Ei Ej Ed Hr Hr' R R') as K.
    subst r'. destruct R as (_ & A2 & A3), R' as (_ & B2 & B3). apply Nq. congruence.
  - intros U. apply (own_rows _ _ _ (rf_shape _ _ _ _ Rf)). intros i j Ei Ej Ed. specialize (U i j Ei Ej Ed). split; congruence.
Qed.

Lemma entry_refers : forall o items i t h, fst o = Tree -> git_tree items (snd o) -> In i items -> entry_type (ti_type i) = t -> ti_id i = h -> refers o t h.
Proof. intros [t0 d] items i t h E G Ii <- <-. cbn in E. subst t0. eapply rf_entry; eassumption. Qed.
Lemma root_refers : forall o h, fst o = Commit -> commit_root (snd o) h -> refers o Tree h.
Proof. intros [t0 d] h E R. cbn in E. subst t0. apply rf_root, R. Qed.
Lemma reach_next : forall (S : object -> Prop) o t h o', reach S o -> refers o t h -> t <> Commit -> S o' -> fst o' = t -> obj_id o' h -> reach S o'.
Proof. intros S o t h [t' d] R F N So E Hi. cbn in E. subst t'. eapply rc_refers; eassumption. Qed.
Lemma reach_commit : forall (S : object -> Prop) o, S o -> fst o = Commit -> reach S o.
Proof. intros S [t d] H E. cbn in E. subst t. apply rc_commit, H. Qed.
(** The tree that has README and, in lib, a copy of it named a: no row of that name. *)
Lemma ex_lib_entry : is_entry ex_hist (mkTreeItem (bs "100644") IBlob (oid ex_blob) (bs "a")).
Proof.
  exists (snd ex_lib), [mkTreeItem (bs "100644") IBlob (oid ex_blob) (bs "a")]. split; [|split; [exact ex_lib_tree|left; reflexivity]].
  assert (R1 : reach (fun o => In o ex_hist) ex_top) by (apply reach_commit; [left; reflexivity|reflexivity]).
  assert (R2 : reach (fun o => In o ex_hist) ex_root).
  { apply (reach_next _ ex_top Tree (oid ex_root)); [exact R1|apply root_refers; [reflexivity|exact ex_top_root]|discriminate|right; left; reflexivity|reflexivity|
      apply ex_id_ok; right; left; reflexivity]. }
  assert (R3 : reach (fun o => In o ex_hist) ex_lib).
  { apply (reach_next _ ex_root Tree (oid ex_lib)); [exact R2| |discriminate|right; right; left; reflexivity|reflexivity|apply ex_id_ok; right; right; left; reflexivity].
    apply (entry_refers ex_root _ (mkTreeItem (bs "40000") ITree (oid ex_lib) (bs "lib")) _ _ eq_refl ex_root_tree); [right; left; reflexivity|reflexivity|reflexivity]. }
  exact R3.
Qed.
Lemma ex_run_is : http_receive_pack ex_env Release stored 50 7 (bs "/demo") ex_body (world_of db_empty) = ex_run.
Proof. unfold ex_run. reflexivity. Qed.
Theorem C100_refuted : exists e m c fuel now path body pack objs w w' reply i, env_ok e /\ no_failure w /\ w_db w = db_empty /\
  push_request (repeat 48 40) (to_plain_str (oid ex_top)) (bs "refs/heads/master") ex_caps pack body /\
  git_pack c (get_hash_object e w) pack objs /\ history path (map snd objs) /\ is_entry (map snd objs) i /\
  http_receive_pack e m c fuel now path body w = (w', Ok reply) /\
  forall r, In r (d_nodes (w_db w')) -> n_name r <> ti_filename i.
Proof.
  destruct (ex_pack (get_hash_object ex_env (world_of db_empty))) as (objs & G & E).
  assert (R : exists reply, ex_run = (ex_world, Ok reply)).
  { assert (K : is_ok (snd ex_run) = true) by (vm_compute; reflexivity). unfold ex_world. destruct ex_run as [w' [reply| | |]]; try discriminate K.
    exists reply. reflexivity. }
  destruct R as (reply & R).
  exists ex_env, Release, stored, 50%nat, 7, (bs "/demo"), ex_body, (pack_of ex_hist), objs, (world_of db_empty), ex_world, reply,
    (mkTreeItem (bs "100644") IBlob (oid ex_blob) (bs "a")). rewrite E.
  split; [exact ex_env_ok|]. split; [reflexivity|]. split; [reflexivity|].
  split; [apply push_body_request; rewrite !nlen_app, (plain_len _ ex_top_id); vm_compute; discriminate|]. split; [exact G|].
  split; [apply ex_hist_ok; reflexivity|]. split; [exact ex_lib_entry|]. split; [rewrite ex_run_is; exact R|].
  intros r Hr. apply beq_neq. cbn [ti_filename]. revert r Hr.
  assert (K : forallb (fun r => negb (beq (n_name r) (bs "a"))) (d_nodes (w_db ex_world)) = true) by (vm_compute; reflexivity).
  rewrite forallb_forall in K. intros r Hr. specialize (K r Hr). destruct (beq (n_name r) (bs "a")); [discriminate K|reflexivity].
Qed.

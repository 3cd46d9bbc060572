(** Proofs about what requests do to the database, whatever they contain. *)

From Coq Require Import Permutation.
From Verif Require Import Base BaseLemmas Digest ModelUtils ModelObject ModelBase ModelDelta ModelPack ModelDecode ModelPkt ModelStorage ModelProto.
From Verif Require Import ModelLfs ModelGateway ModelService.
From Verif Require Import SpecObject SpecIdx SpecBase SpecPack SpecDecode SpecStorage SpecService.
From Verif Require Import ProofUtf8 ProofObject ProofPack ProofPackAny ProofIdx ProofBase ProofDecode ProofNodes ProofStorage ProofPush ProofReq ProofGateway.
Open Scope N_scope.

(** ** Relations kept by every step *)

Section Keeps.
Context (R : world -> world -> Prop) (Rr : forall w, R w w) (Rt : forall a b c, R a b -> R b c -> R a c).
Definition keeps {A} (m : M A) : Prop := forall w, R w (fst (m w)).
Lemma keeps_ret : forall A (a : A), keeps (ret a).
Proof. intros A a w. apply Rr. Qed.
Lemma keeps_lift : forall A (r : res A), keeps (lift r).
Proof. intros A r w. apply Rr. Qed.
Lemma keeps_bind_when : forall A B (P : A -> Prop) (m : M A) (k : A -> M B), keeps m ->
  (forall w w' a, m w = (w', Ok a) -> P a) -> (forall a, P a -> keeps (k a)) -> keeps (mbind m k).
Proof.
  intros A B P m k H1 H2 H3 w. unfold mbind. pose proof (H1 w) as K. pose proof (H2 w) as K2.
  destruct (m w) as [w' [a|x| |]]; cbn [fst] in K |- *; try exact K.
  eapply Rt; [exact K|]. apply H3. eapply K2. reflexivity.
Qed.
Lemma keeps_bind : forall A B (m : M A) (k : A -> M B), keeps m -> (forall a, keeps (k a)) -> keeps (mbind m k).
Proof. intros A B m k H1 H2. apply (keeps_bind_when _ _ (fun _ => True)); auto. Qed.
Lemma keeps_munwrap : forall A (m : M A), keeps m -> keeps (munwrap m).
Proof. intros A m H w. unfold munwrap. pose proof (H w) as K. destruct (m w). exact K. Qed.
End Keeps.

(** ** Nothing but the counters changes *)

Definition same (w w' : world) : Prop := w_db w' = w_db w /\ w_log w' = w_log w /\ w_files w' = w_files w /\
  (w_fails w = [] -> w_fails w' = []).
Lemma same_refl : forall w, same w w.
Proof. intros w. split; [|split; [|split]]; auto. Qed.
Lemma same_trans : forall a b c, same a b -> same b c -> same a c.
Proof. intros a b c (A1 & A2 & A3 & A4) (B1 & B2 & B3 & B4). split; [|split; [|split]]; try congruence. auto. Qed.
Definition reads {A} (m : M A) : Prop := keeps same m.
Lemma reads_ret : forall A (a : A), reads (ret a).
Proof. exact (keeps_ret same same_refl). Qed.
Lemma reads_lift : forall A (r : res A), reads (lift r).
Proof. exact (keeps_lift same same_refl). Qed.
Lemma reads_bind : forall A B (m : M A) (k : A -> M B), reads m -> (forall a, reads (k a)) -> reads (mbind m k).
Proof. exact (keeps_bind same same_trans). Qed.
Lemma reads_munwrap : forall A (m : M A), reads m -> reads (munwrap m).
Proof. exact (keeps_munwrap same). Qed.
Lemma reads_attempt : reads attempt.
Proof. intros w. unfold attempt. destruct (w_fails w) eqn:E; (split; [|split; [|split]]); auto; cbn; congruence. Qed.
Lemma reads_shuffle : forall A e (l : list A), reads (shuffle e l).
Proof. intros A e l w. split; [|split; [|split]]; auto. Qed.
Lemma reads_select : forall A e (q : db -> list A), reads (select e q).
Proof.
  intros A e q. apply reads_bind; [apply reads_attempt|]. intros [|]; [|apply reads_lift].
  intros w. apply reads_shuffle.
Qed.
Lemma reads_select_one : forall A e (q : db -> list A), reads (select_one e q).
Proof. intros A e q. apply reads_bind; [apply reads_select|]. intros l. apply reads_ret. Qed.
Create HintDb reads.
#[export] Hint Resolve reads_ret reads_lift reads_munwrap reads_attempt reads_shuffle reads_select reads_select_one : reads.

Lemma reads_child_trees : forall fuel e root hm, reads (get_child_trees fuel e root hm).
Proof.
  induction fuel as [fuel IH] using lt_wf_ind. intros e root hm. destruct fuel as [|fuel];
    (cbn [get_child_trees]; apply reads_bind; [auto with reads|]; intros tm; apply reads_bind; [auto with reads|]; intros t;
     apply reads_bind; [auto with reads|]; intros rows; apply reads_bind; [|auto with reads];
     revert hm; induction rows as [|r rows IHr]; intros hm; [apply reads_ret|];
     destruct (beq (n_type r) (bs "tree"));
     [|apply reads_bind; [auto with reads|]; intros mm; apply IHr]).
  - apply reads_lift.
  - apply reads_bind; [apply IH; lia|]. intros hm1. apply IHr.
Qed.
#[export] Hint Resolve reads_child_trees : reads.
Lemma reads_full_loop : forall fuel e trees cs hm, reads (full_loop fuel e trees cs hm).
Proof.
  intros fuel e trees. induction cs as [|c cs IH]; intros hm; cbn [full_loop]; [apply reads_ret|].
  destruct (bt_get (cm_tree_id c) trees); [|apply reads_lift]. apply reads_bind; [auto with reads|]. intros h. apply IH.
Qed.
Lemma reads_incremental_loop : forall fuel e want metas hm, reads (incremental_loop fuel e want metas hm).
Proof.
  intros fuel e want. induction metas as [|m metas IH]; intros hm; cbn [incremental_loop]; [apply reads_ret|].
  destruct (existsb _ want); [|apply IH]. apply reads_bind; [auto with reads|]. intros c.
  apply reads_bind; [unfold get_node_by_id; auto with reads|]. intros [r|]; [|apply reads_lift].
  apply reads_bind; [auto with reads|]. intros h. apply IH.
Qed.
Lemma reads_encode_map : forall e c hm, reads (encode_map e c hm).
Proof.
  intros e c hm. unfold encode_map. apply reads_bind; [auto with reads|]. intros l. apply reads_bind; [auto with reads|].
  intros [p f]. apply reads_ret.
Qed.
#[export] Hint Resolve reads_full_loop reads_incremental_loop reads_encode_map : reads.
Lemma reads_all_commits : forall e path, reads (get_all_commits_by_path e path).
Proof. intros e path. apply reads_bind; [auto with reads|]. intros l. apply reads_lift. Qed.
#[export] Hint Resolve reads_all_commits : reads.
Lemma reads_full : forall e c fuel path, reads (get_full_pack_data e c fuel path).
Proof.
  intros e c fuel path. unfold get_full_pack_data. apply reads_bind; [auto with reads|]. intros l.
  apply reads_bind; [auto with reads|]. intros cs. apply reads_bind; [|intros trees; apply reads_bind; auto with reads].
  unfold get_nodes_by_ids. apply reads_bind; auto with reads.
Qed.
Lemma reads_incremental : forall e c fuel path want have, reads (get_incremental_pack_data e c fuel path want have).
Proof.
  intros e c fuel path want have. unfold get_incremental_pack_data. apply reads_bind; [auto with reads|]. intros l.
  apply reads_bind; auto with reads.
Qed.
#[export] Hint Resolve reads_full reads_incremental : reads.
Lemma reads_known : forall e id, reads (get_commit_by_hash e id).
Proof. intros e id. apply reads_bind; [auto with reads|]. intros o. apply reads_ret. Qed.
#[export] Hint Resolve reads_known : reads.
Lemma reads_ack_haves : forall e have buf, reads (ack_haves_db e have buf).
Proof.
  intros e. induction have as [|h r IH]; intros buf; cbn [ack_haves_db]; [apply reads_ret|].
  apply reads_bind; [auto with reads|]. intros b. apply IH.
Qed.
Lemma reads_ack_wants : forall e nd want buf, reads (ack_wants_db e nd want buf).
Proof.
  intros e nd. induction want as [|h r IH]; intros buf; cbn [ack_wants_db]; [apply reads_ret|].
  apply reads_bind; [auto with reads|]. intros b. apply IH.
Qed.
#[export] Hint Resolve reads_ack_haves reads_ack_wants : reads.
Lemma reads_upload : forall e c fuel pp body, reads (git_upload_pack e c fuel pp body).
Proof.
  intros e c fuel pp body. unfold git_upload_pack. apply reads_bind; [auto with reads|]. intros [[[want have] caps] rest].
  destruct have as [|h have].
  - apply reads_bind; [auto with reads|]. intros d. apply reads_ret.
  - apply reads_bind; [|intros [d b]; apply reads_ret].
    destruct (has_cap MultiAckDetailed caps); [|apply reads_ret].
    apply reads_bind; [auto with reads|]. intros hs. apply reads_bind; [auto with reads|]. intros b.
    apply reads_bind; [auto with reads|]. intros d. apply reads_bind; [auto with reads|]. intros ws.
    apply reads_bind; [auto with reads|]. intros b2. apply reads_ret.
Qed.
#[export] Hint Resolve reads_upload : reads.
Lemma reads_http_upload : forall e c fuel cut path body, reads (http_upload_pack e c fuel cut path body).
Proof.
  intros. unfold http_upload_pack. apply reads_bind; [auto with reads|]. intros pp. apply reads_bind; [auto with reads|].
  intros [[pp' d] b]. apply reads_ret.
Qed.
Lemma reads_ssh_upload : forall e m c fuel cut now pp data, pp_service pp = Some UploadPack ->
  reads (ssh_data e m c fuel cut now pp data).
Proof.
  intros e m c fuel cut now pp data H. unfold ssh_data. rewrite H. apply reads_bind; [auto with reads|].
  intros [[pp' d] b]. apply reads_bind; [auto with reads|]. intros u. apply reads_ret.
Qed.

(** ** Only one repository is written to *)

Section At.
Context (e : env) (He : env_ok e) (p : bytes).

Lemma kept_refl : forall r, kept_ref e p r r.
Proof. intros r. unfold kept_ref. auto. Qed.
Lemma kept_trans : forall a b c, kept_ref e p a b -> kept_ref e p b c -> kept_ref e p a c.
Proof.
  intros a b c (A1 & A2 & A3 & A4) (B1 & B2 & B3 & B4). unfold kept_ref. rewrite B1, B2, B3, A1, A2, A3.
  repeat (split; [reflexivity|]). rewrite A2 in B4. destruct A4 as [A4|A4]; [|auto]. destruct B4 as [B4|B4]; [|auto]. left. congruence.
Qed.
Lemma kept_all_refl : forall l, Forall2 (kept_ref e p) l l.
Proof. induction l; constructor; [apply kept_refl|assumption]. Qed.
Lemma kept_all_trans : forall a b c, Forall2 (kept_ref e p) a b -> Forall2 (kept_ref e p) b c -> Forall2 (kept_ref e p) a c.
Proof.
  intros a b c H. revert c. induction H as [|x y a b H1 H2 IH]; intros c K; inversion K; subst; constructor.
  - eapply kept_trans; eassumption.
  - auto.
Qed.
Lemma kept_all_path : forall a b, Forall2 (kept_ref e p) a b -> Forall (fun r => r_repo_path r = p) a -> Forall (fun r => r_repo_path r = p) b.
Proof.
  intros a b H. induction H as [|x y a b (_ & H1 & _) H2 IH]; intros K; [constructor|].
  inversion K; subst. constructor; [congruence|auto].
Qed.
Lemma only_refl : forall d, only_at e p d d.
Proof.
  intros d. split.
  - exists []. rewrite app_nil_r. split; [reflexivity|constructor].
  - exists []. rewrite app_nil_r. split; [reflexivity|constructor].
  - exists (d_refs d), []. rewrite app_nil_r. split; [reflexivity|]. split; [apply kept_all_refl|constructor].
Qed.
Lemma only_trans : forall a b c, only_at e p a b -> only_at e p b c -> only_at e p a c.
Proof.
  intros a b c [(n1 & N1 & A1) (c1 & C1 & B1) (k1 & l1 & R1 & K1 & P1)] [(n2 & N2 & A2) (c2 & C2 & B2) (k2 & l2 & R2 & K2 & P2)]. split.
  - exists (n1 ++ n2). rewrite N2, N1, app_assoc. split; [reflexivity|]. apply Forall_app. auto.
  - exists (c1 ++ c2). rewrite C2, C1, app_assoc. split; [reflexivity|]. apply Forall_app. auto.
  - rewrite R1 in K2. apply Forall2_app_inv_l in K2 as (ka & kb & F1 & F2 & ->).
    exists ka, (kb ++ l2). rewrite R2, app_assoc. split; [reflexivity|]. split; [eapply kept_all_trans; eassumption|].
    apply Forall_app. split; [eapply kept_all_path; eassumption|assumption].
Qed.

Definition step_at (d d' : db) : Prop := refs_table d -> refs_table d' /\ only_at e p d d'.
Lemma step_refl : forall d, step_at d d.
Proof. intros d H. split; [exact H|apply only_refl]. Qed.
Lemma step_trans : forall a b c, step_at a b -> step_at b c -> step_at a c.
Proof. intros a b c H1 H2 T. destruct (H1 T) as [T1 O1]. destruct (H2 T1) as [T2 O2]. split; [exact T2|]. eapply only_trans; eassumption. Qed.

Lemma chain_app : forall R l a b l' c, chain R a l b -> chain R b l' c -> chain R a (l ++ l') c.
Proof. intros R. induction l as [|x l IH]; cbn; intros a b l' c H1 H2; [subst; exact H2|]. destruct H1. split; [assumption|]. eauto. Qed.
Lemma chain_impl : forall (R R' : db -> db -> Prop), (forall a b, R a b -> R' a b) -> forall l a b, chain R a l b -> chain R' a l b.
Proof. intros R R' H. induction l as [|x l IH]; cbn; intros a b K; [exact K|]. destruct K. auto. Qed.
Definition at_repo (w w' : world) : Prop := (w_fails w = [] -> w_fails w' = []) /\ exists l, w_log w' = w_log w ++ l /\ chain step_at (w_db w) l (w_db w').
Lemma at_refl : forall w, at_repo w w.
Proof. intros w. split; [auto|]. exists []. rewrite app_nil_r. split; reflexivity. Qed.
Lemma at_trans : forall a b c, at_repo a b -> at_repo b c -> at_repo a c.
Proof.
  intros a b c (A1 & l1 & A2 & A3) (B1 & l2 & B2 & B3). split; [auto|]. exists (l1 ++ l2). rewrite B2, A2, app_assoc. split; [reflexivity|].
  eapply chain_app; eassumption.
Qed.
Lemma at_quiet : forall w w', w_db w' = w_db w -> w_log w' = w_log w -> (w_fails w = [] -> w_fails w' = []) -> at_repo w w'.
Proof. intros w w' E1 E2 E3. split; [exact E3|]. exists []. rewrite app_nil_r. split; [exact E2|]. symmetry. exact E1. Qed.
Lemma at_same : forall w w', same w w' -> at_repo w w'.
Proof. intros w w' (E1 & E2 & _ & E4). apply at_quiet; assumption. Qed.

Definition stays {A} (m : M A) : Prop := keeps at_repo m.
Lemma stays_ret : forall A (a : A), stays (ret a).
Proof. exact (keeps_ret _ at_refl). Qed.
Lemma stays_lift : forall A (r : res A), stays (lift r).
Proof. exact (keeps_lift _ at_refl). Qed.
Lemma stays_bind : forall A B (m : M A) (k : A -> M B), stays m -> (forall a, stays (k a)) -> stays (mbind m k).
Proof. exact (keeps_bind _ at_trans). Qed.
Lemma stays_bind_when : forall A B (P : A -> Prop) (m : M A) (k : A -> M B), stays m ->
  (forall w w' a, m w = (w', Ok a) -> P a) -> (forall a, P a -> stays (k a)) -> stays (mbind m k).
Proof. exact (keeps_bind_when _ at_trans). Qed.
Lemma stays_reads : forall A (m : M A), reads m -> stays m.
Proof. intros A m H w. apply at_same, H. Qed.

Lemma stays_execute : forall f, (forall d d', f d = Some d' -> step_at d d') -> stays (execute f).
Proof.
  intros f H. apply stays_bind; [apply stays_reads, reads_attempt|]. intros [|]; [|apply stays_ret].
  intros w. destruct (f (w_db w)) as [d|] eqn:E; [|apply at_refl]. apply H in E.
  split; [auto|]. exists [d]. split; [reflexivity|]. split; [exact E|reflexivity].
Qed.
Lemma stays_insert_all : forall ins, Forall (fun f => forall d d', f d = Some d' -> step_at d d') ins -> stays (insert_all ins).
Proof.
  induction ins as [|f ins IH]; intros H; cbn [insert_all]; [apply stays_ret|]. inversion H; subst.
  apply stays_bind; [apply stays_execute; assumption|]. intros _. auto.
Qed.

Lemma step_nodes : forall l d d', Forall addressed_row l -> insert_nodes e l d = Some d' -> step_at d d'.
Proof.
  intros l d d' F H T. assert (E : d' = mkDb (d_nodes d ++ l) (d_commits d) (d_refs d) (d_next_ref d)).
  { unfold insert_nodes in H. destruct l as [|r l].
    - destruct (empty_insert e); [|discriminate]. injection H as <-. rewrite app_nil_r. destruct d; reflexivity.
    - destruct (forallb node_fits (r :: l)); [|discriminate]. injection H as <-. reflexivity. }
  subst d'. split; [exact T|]. split; cbn [d_nodes d_commits d_refs].
  - exists l. auto.
  - exists []. rewrite app_nil_r. split; [reflexivity|constructor].
  - exists (d_refs d), []. rewrite app_nil_r. split; [reflexivity|]. split; [apply kept_all_refl|constructor].
Qed.
Lemma step_commits : forall l d d', Forall (addressed_commit p) l -> insert_commits l d = Some d' -> step_at d d'.
Proof.
  intros l d d' F H T. unfold insert_commits in H. destruct (forallb commit_fits l); [|discriminate]. injection H as <-.
  split; [exact T|]. split; cbn [d_nodes d_commits d_refs].
  - exists []. rewrite app_nil_r. split; [reflexivity|constructor].
  - exists l. auto.
  - exists (d_refs d), []. rewrite app_nil_r. split; [reflexivity|]. split; [apply kept_all_refl|constructor].
Qed.
Lemma step_ref : forall name id d d', insert_ref p name id d = Some d' -> step_at d d'.
Proof.
  intros name id d d' H T. unfold insert_ref in H. cbv zeta in H. destruct (ref_fits _); [|discriminate]. injection H as <-.
  split.
  - destruct T as [T1 T2]. split; cbn [d_refs d_next_ref].
    + rewrite map_app. cbn [map r_id]. apply Permutation_NoDup with (l := d_next_ref d :: map r_id (d_refs d)); [apply Permutation_cons_append|].
      constructor; [|exact T1]. intros K. apply in_map_iff in K as (r & E & K). apply T2 in K. lia.
    + intros r K. apply in_app_or in K as [K|[<-|[]]]; [apply T2 in K; lia|cbn [r_id]; lia].
  - split; cbn [d_nodes d_commits d_refs].
    + exists []. rewrite app_nil_r. split; [reflexivity|constructor].
    + exists []. rewrite app_nil_r. split; [reflexivity|constructor].
    + exists (d_refs d), [mkRef (d_next_ref d) p name id]. split; [reflexivity|]. split; [apply kept_all_refl|].
      constructor; [reflexivity|constructor].
Qed.
Lemma step_set : forall i new d d' r, In r (d_refs d) -> r_id r = i -> teq e (r_repo_path r) p = true ->
  set_ref i new d = Some d' -> step_at d d'.
Proof.
  intros i new d d' r Hr Ei Tp H [T1 T2]. unfold set_ref in H. destruct (varchar 40 new); [|discriminate]. injection H as <-.
  set (f := fun x => if r_id x =? i then mkRef (r_id x) (r_repo_path x) (r_ref_name x) new else x).
  assert (Ef : forall x, r_id (f x) = r_id x) by (intros x; unfold f; destruct (r_id x =? i); reflexivity).
  split.
  - split; cbn [d_refs d_next_ref].
    + rewrite map_map. rewrite (map_ext _ r_id Ef). exact T1.
    + intros x K. apply in_map_iff in K as (y & <- & K). rewrite Ef. auto.
  - split; cbn [d_nodes d_commits d_refs].
    + exists []. rewrite app_nil_r. split; [reflexivity|constructor].
    + exists []. rewrite app_nil_r. split; [reflexivity|constructor].
    + exists (map f (d_refs d)), []. rewrite app_nil_r. split; [reflexivity|]. split; [|constructor].
      assert (K : forall x, In x (d_refs d) -> kept_ref e p x (f x)).
      { intros x Hx. unfold f. destruct (N.eqb_spec (r_id x) i) as [Ex|Nx]; [|apply kept_refl].
        assert (Exr : x = r).
        { rewrite <- Ei in Ex. clear - T1 Hr Hx Ex. induction (d_refs d) as [|y l IH]; [destruct Hr|].
          cbn [map] in T1. inversion T1 as [|? ? N1 N2]; subst. destruct Hr as [<-|Hr], Hx as [<-|Hx]; [reflexivity| | |auto].
          - destruct N1. rewrite <- Ex. apply in_map. exact Hx.
          - destruct N1. rewrite Ex. apply in_map. exact Hr. }
        subst x. unfold kept_ref. cbn [r_id r_repo_path r_ref_name r_ref_git_id]. auto 6. }
      clear - K. induction (d_refs d) as [|y l IH]; cbn [map]; constructor.
      * apply K. left. reflexivity.
      * apply IH. intros x Hx. apply K. right. exact Hx.
Qed.

Lemma stays_batches : forall bs, Forall (Forall addressed_row) bs -> stays (insert_batches e bs).
Proof.
  induction bs as [|b bs IH]; intros H; cbn [insert_batches]; [apply stays_ret|]. inversion H; subst.
  apply stays_bind; [apply stays_execute; intros d d'; apply step_nodes; assumption|]. intros [|]; [auto|apply stays_lift].
Qed.
Lemma concat_forall : forall A (P : A -> Prop) ls, Forall P (concat ls) -> Forall (Forall P) ls.
Proof. intros A P ls. induction ls as [|l ls IH]; intros H; [constructor|]. cbn [concat] in H. apply Forall_app in H as [H1 H2]. constructor; auto. Qed.
Lemma stays_save_nodes : forall l, Forall addressed_row l -> stays (save_nodes e l).
Proof.
  intros l H. apply stays_batches, concat_forall. rewrite batches_concat. exact H.
Qed.
Lemma chunks_sub : forall A n fuel (l : list A) c x, In c (chunks fuel n l) -> In x c -> In x l.
Proof.
  intros A n. induction fuel as [|f IH]; intros l c x Hc Hx; [destruct Hc|]. destruct l as [|y l]; [destruct Hc|].
  cbn [chunks] in Hc. rewrite <- (firstn_skipn n (y :: l)). apply in_or_app. destruct Hc as [<-|Hc]; [left; exact Hx|right]. eapply IH; eassumption.
Qed.
(** Every object of a decoded pack carries the id of its content. *)
Definition named (m : meta) : Prop := exists o h, obj_id o h /\ m = as_meta o h.
Definition good_commit (c : commit) : Prop := named (cm_meta c) /\ m_t (cm_meta c) = Commit.
Lemma commit_row_addressed : forall c, good_commit c -> addressed_commit p (commit_to_row p c).
Proof.
  intros c (([ty d] & h & Hi & E) & T). rewrite E in T. cbn in T. subst ty. unfold commit_to_row. rewrite E. split; [reflexivity|].
  exists h. split; [exact Hi|]. cbn [c_git_id as_meta m_id]. apply plain_lower. eapply obj_id_ok. exact Hi.
Qed.
Lemma stays_save_commits : forall cs, Forall good_commit cs -> stays (save_commits p cs).
Proof.
  intros cs F. apply stays_insert_all. apply Forall_forall. intros f Hf. apply in_map_iff in Hf as (c & <- & Hc).
  intros d d'. apply step_commits. apply Forall_forall. intros x Hx. pose proof (chunks_sub _ _ _ _ _ _ Hc Hx) as K.
  apply in_map_iff in K as (y & <- & Hy). apply commit_row_addressed. rewrite Forall_forall in F. auto.
Qed.

(** ** Rows of a push *)

Lemma rows_all : forall (TM : list (hash * tree)) (BM : list (hash * blob)) (P : node_row -> Prop),
  (forall h t i, bt_get h TM = Some t -> P (tn_row (tree_to_node t i))) ->
  (forall h b i, bt_get h BM = Some b -> P (tn_row (blob_to_node b i))) ->
  forall fuel items node cache node' cache', build_items fuel TM BM items node cache = Ok (node', cache') ->
  Forall P (flatten node) -> Forall P (flatten node').
Proof.
  intros TM BM P HT HB.
  assert (FN : forall d r l, Forall P (flatten (TNode d r l)) <-> P r /\ Forall (fun x => Forall P (flatten x)) l).
  { intros d r l. cbn [flatten]. rewrite Forall_cons_iff, Forall_flat_map. reflexivity. }
  assert (AC : forall n c n', add_child n c = Ok n' -> Forall P (flatten n) -> Forall P (flatten c) -> Forall P (flatten n')).
  { intros [d r l] c n' H Hn Hc. unfold add_child in H. cbn [tn_dir tn_row tn_children] in H. destruct d; [|discriminate].
    injection H as <-. apply FN in Hn as [H1 H2]. apply FN. split; [exact H1|]. apply Forall_app. split; [exact H2|]. constructor; [exact Hc|constructor]. }
  induction fuel as [|f IHf]; (induction items as [|i items IH]; intros node cache node' cache' E F;
    [injection E as <- _; exact F|]); cbn [build_items] in E;
  (destruct (existsb (beq (ti_id i)) cache); [eapply IH; eassumption|]);
  destruct (is_tree_item i).
  - apply bind_ok in E as (t & Et & E). apply bind_ok in E as (n1 & En & E).
    apply bind_ok in E as ([[a ch] b] & Ef & E). discriminate.
  - apply bind_ok in E as (b & Eb & E). apply bind_ok in E as (n1 & En & E).
    destruct (bt_get (ti_id i) BM) as [b'|] eqn:Gb; [|discriminate]. injection Eb as ->.
    eapply IH; [exact E|]. eapply AC; [exact En|exact F|]. apply FN. split; [exact (HB _ _ i Gb)|constructor].
  - apply bind_ok in E as (t & Et & E). apply bind_ok in E as (n1 & En & E).
    apply bind_ok in E as ([[a ch] b] & Ef & E). apply bind_ok in E as ([c1 k1] & E1 & E).
    destruct (bt_get (ti_id i) TM) as [t'|] eqn:Gt; [|discriminate]. injection Et as ->.
    assert (F1 : Forall P (flatten n1)).
    { eapply AC; [exact En|exact F|]. apply FN. split; [exact (HT _ _ (Some i) Gt)|constructor]. }
    eapply IH; [exact E|]. destruct n1 as [d r l]. apply FN in F1 as [F1 F2]. apply FN. cbn [tn_row]. split; [exact F1|].
    unfold find_child in Ef. cbn [tn_dir tn_children] in Ef. destruct d; [|discriminate].
    destruct (split_child (ti_filename i) l) as [[[a' ch'] b']|] eqn:Es; [|discriminate]. injection Ef as -> -> ->.
    apply split_child_eq in Es. subst l. apply Forall_app in F2 as [F2 F3]. inversion F3; subst.
    apply Forall_app. split; [exact F2|]. constructor; [|assumption]. eapply IHf; eassumption.
  - apply bind_ok in E as (b & Eb & E). apply bind_ok in E as (n1 & En & E).
    destruct (bt_get (ti_id i) BM) as [b'|] eqn:Gb; [|discriminate]. injection Eb as ->.
    eapply IH; [exact E|]. eapply AC; [exact En|exact F|]. apply FN. split; [exact (HB _ _ i Gb)|constructor].
Qed.
Lemma commit_rows_all : forall (TM : list (hash * tree)) (BM : list (hash * blob)) (P : node_row -> Prop),
  (forall h t i, bt_get h TM = Some t -> P (tn_row (tree_to_node t i))) ->
  (forall h b i, bt_get h BM = Some b -> P (tn_row (blob_to_node b i))) ->
  forall fuel cs cache rows, build_commits fuel TM BM cs cache = Ok rows -> Forall P rows.
Proof.
  intros TM BM P HT HB fuel. induction cs as [|c cs IH]; intros cache rows E; cbn [build_commits] in E; [injection E as <-; constructor|].
  apply bind_ok in E as (t & Et & E). apply bind_ok in E as ([root cache'] & Eb & E). apply bind_ok in E as (rest & Er & E).
  injection E as <-. apply Forall_app. split; [|eapply IH; eassumption].
  destruct (bt_get (cm_tree_id c) TM) as [t'|] eqn:Gt; [|discriminate]. injection Et as ->.
  eapply rows_all; [exact HT|exact HB|exact Eb|]. cbn [flatten]. constructor; [exact (HT _ _ None Gt)|constructor].
Qed.

Lemma bt_insert_in : forall A k (v : A) l x, In x (bt_insert k v l) -> x = (k, v) \/ In x l.
Proof.
  intros A k v. induction l as [|[k' v'] l IH]; intros x H; cbn [bt_insert] in H; [destruct H as [<-|[]]; auto|].
  destruct (bcmp k k').
  - destruct H as [<-|H]; [auto|right; right; exact H].
  - destruct H as [<-|H]; [auto|right; exact H].
  - destruct H as [<-|H]; [right; left; reflexivity|]. apply IH in H as [->|H]; [auto|right; right; exact H].
Qed.
Definition all_named (k : cache) : Prop := Forall named (map snd (by_hash k)).
Lemma named_update : forall k o h off, all_named k -> obj_id o h -> all_named (cache_update k (as_meta o h) off).
Proof.
  intros k o h off H Hi. unfold all_named in *. rewrite Forall_forall in *. intros m Hm. apply in_map_iff in Hm as ([s m'] & E & Hm).
  cbn in E. subst m'. unfold cache_update in Hm. cbn [by_hash] in Hm. apply bt_insert_in in Hm as [E|Hm].
  - injection E as _ ->. exists o, h. auto.
  - apply H. apply in_map_iff. exists (s, m). auto.
Qed.
Lemma next_object_named : forall m c st file fuel off k o q k', all_named k ->
  next_object m c st fuel file off k = Ok (o, q, k') -> all_named k'.
Proof.
  intros m c st file. induction fuel as [|f IH]; intros off k o q k' Hk H; [discriminate|].
  cbn [next_object] in H. apply bind_ok in H as ([[t n] r] & Ht & H).
  cbv zeta in H. destruct ((1 <=? t) && (t <=? 4)).
  { apply bind_ok in H as ([d u] & _ & H). destruct (negb _); [discriminate|].
    apply bind_ok in H as (ty & _ & H). apply bind_ok in H as (ob & Ho & H).
    apply meta_new_as in Ho as (h & Hh & ->). injection H as <- <- <-. apply named_update; assumption. }
  destruct (t =? 6).
  { apply bind_ok in H as ([d r2] & Hd & H).
    destruct (off <? d); [discriminate|]. apply bind_ok in H as ([base k1] & Hb & H).
    apply bind_ok in H as ([dl u] & _ & H). apply bind_ok in H as (ob & Ho & H).
    apply apply_delta_as in Ho as (x & h & Hh & ->). injection H as <- <- <-. apply named_update; [|assumption].
    change (all_named (inc_delta k1)) with (all_named k1).
    destruct (offset_object k (off - d)); [injection Hb as _ <-; assumption|].
    apply bind_ok in Hb as ([[o' p'] k2] & Hn & Hb). injection Hb as _ <-. eapply IH; eassumption. }
  destruct (t =? 7).
  { apply bind_ok in H as ([hh r2] & Hd & H).
    apply bind_ok in H as (base & _ & H). apply bind_ok in H as ([dl u] & _ & H).
    apply bind_ok in H as (ob & Ho & H). apply apply_delta_as in Ho as (x & h & Hh & ->). injection H as <- <- <-.
    apply named_update; assumption. }
  apply bind_ok in H as (ty & _ & H). discriminate.
Qed.
Lemma decode_named : forall m c st fuel file pk, decode m c st fuel file = Ok pk -> all_named (p_cache pk).
Proof.
  intros m c st fuel file pk H. unfold decode in H. apply bind_ok in H as ([n rest] & _ & H).
  apply bind_ok in H as ([pos k] & Hl & H). apply bind_ok in H as ([id r] & _ & H). apply bind_ok in H as (sg & _ & H).
  injection H as <-. cbn [p_cache]. revert Hl. assert (K : all_named cache_empty) by constructor. revert K.
  generalize cache_empty as k0, (nlen file - nlen rest) as pos0. generalize (N.to_nat n) as cnt.
  induction cnt as [|cnt IH]; intros k0 pos0 K Hl; cbn [decode_loop] in Hl; [injection Hl as _ <-; exact K|].
  apply bind_ok in Hl as ([[o q] k1] & Hn & Hl). destruct (2 ^ 32 <=? pos0); [discriminate|].
  eapply IH; [|exact Hl]. eapply next_object_named; eassumption.
Qed.

Lemma update_named : forall k om, update_seq k omap_default = Ok om -> all_named k ->
  (forall t, In t (om_trees om) -> named (t_meta t) /\ m_t (t_meta t) = Tree) /\
  (forall b, In b (om_blobs om) -> named (b_meta b) /\ m_t (b_meta b) = Blob) /\
  (forall c, In c (om_commits om) -> good_commit c).
Proof.
  intros k om H N. unfold update_seq in H. apply bind_ok in H as (v & H & E). injection E as <-. cbn [om_trees om_blobs om_commits].
  unfold all_named in N. revert v H. generalize N. clear N.
  assert (K : forall l v0 v, Forall named l -> push_all l v0 = Ok v ->
    (forall t, In t (v_trees v) -> In t (v_trees v0) \/ named (t_meta t) /\ m_t (t_meta t) = Tree) /\
    (forall b, In b (v_blobs v) -> In b (v_blobs v0) \/ named (b_meta b) /\ m_t (b_meta b) = Blob) /\
    (forall c, In c (v_commits v) -> In c (v_commits v0) \/ good_commit c)).
  { induction l as [|m l IH]; intros v0 v F H; cbn [push_all] in H; [injection H as <-; auto|].
    inversion F as [|? ? F1 F2]; subst. apply bind_ok in H as (v1 & H1 & H). destruct (IH _ _ F2 H) as (K1 & K2 & K3).
    unfold push_object in H1. destruct (m_t m) eqn:T; try discriminate.
    - apply bind_ok in H1 as (x & Ex & H1). injection H1 as <-. cbn [v_trees v_blobs v_commits] in *. split; [exact K1|]. split; [exact K2|].
      intros c Hc. apply K3 in Hc as [Hc|Hc]; [|auto]. apply in_app_or in Hc as [Hc|[<-|[]]]; [auto|right].
      apply commit_new_meta in Ex. unfold good_commit. rewrite Ex. auto.
    - apply bind_ok in H1 as (x & Ex & H1). injection H1 as <-. cbn [v_trees v_blobs v_commits] in *. split; [|auto].
      intros t Ht. apply K1 in Ht as [Ht|Ht]; [|auto]. apply in_app_or in Ht as [Ht|[<-|[]]]; [auto|right].
      apply tree_new_meta in Ex. rewrite Ex. auto.
    - injection H1 as <-. cbn [v_trees v_blobs v_commits] in *. split; [exact K1|]. split; [|exact K3].
      intros b Hb. apply K2 in Hb as [Hb|Hb]; [|auto]. apply in_app_or in Hb as [Hb|[<-|[]]]; [auto|right]. cbn [blob_new b_meta]. auto.
    - apply bind_ok in H1 as (x & Ex & H1). injection H1 as <-. auto. }
  intros N v H. destruct (K _ _ _ N H) as (K1 & K2 & K3). split; [|split].
  - intros t Ht. apply K1 in Ht as [[]|Ht]. exact Ht.
  - intros b Hb. apply K2 in Hb as [[]|Hb]. exact Hb.
  - intros c Hc. apply K3 in Hc as [[]|Hc]. exact Hc.
Qed.

Lemma tree_row_addressed : forall t i, named (t_meta t) -> m_t (t_meta t) = Tree -> addressed_row (tn_row (tree_to_node t i)).
Proof.
  intros t i ([ty d] & h & Hi & E) T. rewrite E in T. cbn in T. subst ty. exists (Tree, d). unfold tree_to_node. rewrite E.
  cbn [tn_row as_meta m_id m_data snd]. eapply nf_tree; [exact Hi| |reflexivity|reflexivity]. cbn [n_git_id].
  apply plain_lower. eapply obj_id_ok. exact Hi.
Qed.
Lemma blob_row_addressed : forall b i, named (b_meta b) -> m_t (b_meta b) = Blob -> addressed_row (tn_row (blob_to_node b i)).
Proof.
  intros b i ([ty d] & h & Hi & E) T. rewrite E in T. cbn in T. subst ty. exists (Blob, d). unfold blob_to_node. rewrite E.
  cbn [tn_row as_meta m_id m_data snd]. eapply nf_blob; [exact Hi| |reflexivity|reflexivity]. cbn [n_git_id].
  apply plain_lower. eapply obj_id_ok. exact Hi.
Qed.

Lemma shuffle_in : forall A (l l' : list A) w w', shuffle e l w = (w', Ok l') -> forall x, In x l' -> In x l.
Proof.
  intros A l l' w w' H x Hx. unfold shuffle, mbind, tick, ret in H. cbn in H. injection H as _ <-.
  eapply Permutation_in; [|exact Hx]. apply He.
Qed.
Lemma stays_save_objects : forall fuel om,
  (forall t, In t (om_trees om) -> named (t_meta t) /\ m_t (t_meta t) = Tree) ->
  (forall b, In b (om_blobs om) -> named (b_meta b) /\ m_t (b_meta b) = Blob) ->
  (forall c, In c (om_commits om) -> good_commit c) ->
  stays (save_objects e fuel om p).
Proof.
  intros fuel om HT HB HC. unfold save_objects.
  apply (stays_bind_when _ _ (Forall addressed_row)); [apply stays_lift| |].
  - intros w w' rows H. unfold lift in H. injection H as _ H. unfold build_node_tree in H.
    assert (GT : forall h t, bt_get h (fold_left (fun m t => bt_insert (m_id (t_meta t)) t m) (om_trees om) []) = Some t -> In t (om_trees om)).
    { intros h t G. apply bt_get_in in G. revert G. 
      assert (K : forall l m, In (h, t) (fold_left (fun m t => bt_insert (m_id (t_meta t)) t m) l m) -> In t l \/ In (h, t) m).
      { induction l as [|x l IH]; intros m K; [right; exact K|]. cbn [fold_left] in K. apply IH in K as [K|K]; [left; right; exact K|].
        apply bt_insert_in in K as [K|K]; [|right; exact K]. injection K as _ ->. left. left. reflexivity. }
      intros G. apply K in G as [G|[]]. exact G. }
    assert (GB : forall h b, bt_get h (fold_left (fun m b => bt_insert (m_id (b_meta b)) b m) (om_blobs om) []) = Some b -> In b (om_blobs om)).
    { intros h t G. apply bt_get_in in G. revert G. 
      assert (K : forall l m, In (h, t) (fold_left (fun m t => bt_insert (m_id (b_meta t)) t m) l m) -> In t l \/ In (h, t) m).
      { induction l as [|x l IH]; intros m K; [right; exact K|]. cbn [fold_left] in K. apply IH in K as [K|K]; [left; right; exact K|].
        apply bt_insert_in in K as [K|K]; [|right; exact K]. injection K as _ ->. left. left. reflexivity. }
      intros G. apply K in G as [G|[]]. exact G. }
    eapply commit_rows_all; [| |exact H].
    + intros h t i G. apply GT in G. apply HT in G as [G1 G2]. apply tree_row_addressed; assumption.
    + intros h t i G. apply GB in G. apply HB in G as [G1 G2]. apply blob_row_addressed; assumption.
  - intros rows F. apply stays_bind; [apply stays_save_nodes; exact F|]. intros _. apply stays_save_commits, Forall_forall. exact HC.
Qed.
Lemma stays_save_packfile : forall fuel k, all_named k -> stays (save_packfile e fuel k p).
Proof.
  intros fuel k N. unfold save_packfile.
  apply (stays_bind_when _ _ (fun om => (forall t, In t (om_trees om) -> named (t_meta t) /\ m_t (t_meta t) = Tree) /\
    (forall b, In b (om_blobs om) -> named (b_meta b) /\ m_t (b_meta b) = Blob) /\
    (forall c, In c (om_commits om) -> good_commit c))); [apply stays_lift| |].
  - intros w w' om H. unfold lift in H. injection H as _ H. eapply update_named; eassumption.
  - intros om (HT & HB & HC).
    apply (stays_bind_when _ _ (fun bs => forall x, In x bs -> In x (om_blobs om))); [apply stays_reads, reads_shuffle| |].
    { intros w w' l H. eapply shuffle_in. exact H. }
    intros bs Sb.
    apply (stays_bind_when _ _ (fun ts => forall x, In x ts -> In x (om_trees om))); [apply stays_reads, reads_shuffle| |].
    { intros w w' l H. eapply shuffle_in. exact H. }
    intros ts St. apply stays_bind; [apply stays_reads, reads_shuffle|]. intros gs.
    apply (stays_bind_when _ _ (fun cs => forall x, In x cs -> In x (om_commits om))); [apply stays_reads, reads_shuffle| |].
    { intros w w' l H. eapply shuffle_in. exact H. }
    intros cs Sc. apply stays_save_objects; cbn [om_trees om_blobs om_commits]; auto.
Qed.
Lemma reads_back : forall i, reads (let! back := select_one e (fun d => filter (fun x => r_id x =? i) (d_refs d)) in let! _ := lift (unwrap_opt back) in ret tt).
Proof. intros i. apply reads_bind; [apply reads_select_one|]. intros o. apply reads_bind; [apply reads_lift|]. intros _. apply reads_ret. Qed.
Lemma at_then_reads : forall A B (m : M A) (k : A -> M B) w, at_repo w (fst (m w)) -> (forall a, reads (k a)) -> at_repo w (fst (mbind m k w)).
Proof.
  intros A B m k w H K. unfold mbind. destruct (m w) as [w1 [a|x| |]]; cbn [fst] in *; try exact H.
  eapply at_trans; [exact H|]. apply at_same, K.
Qed.
Lemma stays_update_refs : forall cmd, stays (update_refs e cmd p).
Proof.
  intros cmd w. unfold update_refs.
  set (q := fun d => filter (fun r => teq e (r_ref_git_id r) (rc_old_id cmd) && teq e (r_repo_path r) p) (d_refs d)).
  destruct (select_one e q w) as [w1 r1] eqn:E1.
  assert (S1 : same w w1) by (change w1 with (fst (w1, r1)); rewrite <- E1; apply reads_select_one).
  assert (I1 : forall r, r1 = Ok (Some r) -> In r (d_refs (w_db w)) /\ teq e (r_repo_path r) p = true).
  { intros r ->. apply mbind_inv in E1 as (w2 & l & E2 & E1). unfold ret in E1. injection E1 as <- E1.
    unfold select in E2. apply mbind_inv in E2 as (w3 & b & E3 & E2). destruct b; [|discriminate].
    assert (S3 : same w w3) by (change w3 with (fst (w3, @Ok bool true)); rewrite <- E3; apply reads_attempt).
    pose proof (shuffle_in _ _ _ _ _ E2) as K. destruct l as [|x l]; [discriminate|]. injection E1 as ->.
    specialize (K r (or_introl eq_refl)). unfold q in K. apply filter_In in K as [K1 K2]. apply andb_prop in K2 as [_ K2].
    destruct S3 as [S3 _]. rewrite S3 in K1. auto. }
  unfold mbind at 1. rewrite E1. destruct r1 as [[r|]|x| |]; try (apply at_same; exact S1).
  cbn [lift unwrap_opt mbind]. specialize (I1 r eq_refl) as [I1 I2].
  unfold mbind at 1. cbn [lift unwrap_opt]. apply at_trans with w1; [apply at_same; exact S1|].
  apply (at_then_reads _ _ (execute (set_ref (r_id r) (rc_new_id cmd)))); [|intros [|]; [apply reads_back|apply reads_lift]].
  unfold execute, mbind. destruct (attempt w1) as [w2 b] eqn:E2.
  assert (S2 : same w1 w2) by (change w2 with (fst (w2, b)); rewrite <- E2; apply reads_attempt).
  destruct b as [[|]|x| |]; try (apply at_same; exact S2).
  destruct (set_ref (r_id r) (rc_new_id cmd) (w_db w2)) as [d|] eqn:E3; [|apply at_same; exact S2].
  apply at_trans with w2; [apply at_same; exact S2|]. cbn [fst ret].
  assert (K : step_at (w_db w2) d).
  { eapply step_set; [|reflexivity|exact I2|exact E3]. destruct S1 as [S1 _], S2 as [S2 _]. rewrite S2, S1. exact I1. }
  split; [auto|]. exists [d]. split; [reflexivity|]. split; [exact K|reflexivity].
Qed.
Lemma stays_handle_refs : forall cmd, stays (handle_refs e cmd p).
Proof.
  intros cmd. unfold handle_refs. destruct (rc_type cmd).
  - apply stays_insert_all. constructor; [|constructor]. intros d d'. apply step_ref.
  - apply stays_lift.
  - apply stays_update_refs.
Qed.
Lemma unpack_named : forall m c fuel file w w' pk, unpack_pack e m c fuel file w = (w', Ok pk) -> all_named (p_cache pk).
Proof.
  intros m c fuel file w w' pk H. unfold unpack_pack in H. injection H as _ H.
  apply unwrap_ok in H. eapply decode_named. exact H.
Qed.
Lemma stays_receive : forall m c fuel now pp body, pp_path pp = p -> stays (git_receive_pack e m c fuel now pp body).
Proof.
  intros m c fuel now pp body Hp. unfold git_receive_pack. rewrite Hp. destruct (starts_with (bs "PACK") body).
  - apply stays_bind; [apply stays_lift|]. intros cmd.
    apply stays_bind; [intros w; apply at_quiet; auto|]. intros _.
    apply stays_bind; [intros w; apply at_refl|]. intros file.
    apply (stays_bind_when _ _ (fun pk => all_named (p_cache pk))); [intros w; apply at_quiet; auto| |].
    { intros w w' pk H. eapply unpack_named. exact H. }
    intros pk N. apply stays_bind.
    { intros w. pose proof (stays_save_packfile fuel _ N w) as K. destruct (save_packfile e fuel (p_cache pk) p w) as [w' [a|x| |]]; cbn [fst] in K |- *; try exact K.
      apply at_trans with w'; [exact K|].
      match goal with |- at_repo _ (fst (?t w')) => change (at_repo w' (fst (t w'))) end.
      refine (stays_bind _ _ _ _ (stays_handle_refs _) _ w'). intros _. apply stays_ret. }
    intros cmd2. apply stays_bind.
    { intros w. unfold remove_temp. destruct (fs_get (w_files w) (temp_path now)); apply at_quiet; auto. }
    intros _. apply stays_ret.
  - apply stays_bind; [apply stays_lift|]. intros [[n line] rest].
    destruct ((n =? 0) && _); [apply stays_ret|].
    apply stays_bind; [apply stays_lift|]. intros [cmd tail]. apply stays_bind; [apply stays_lift|]. intros text.
    apply stays_bind; [apply stays_lift|]. intros r. apply stays_ret.
Qed.
Lemma receive_path : forall m c fuel now pp body w w' pp' r, git_receive_pack e m c fuel now pp body w = (w', Ok (pp', r)) ->
  pp_path pp' = pp_path pp /\ pp_service pp' = pp_service pp.
Proof.
  intros m c fuel now pp body w w' pp' r H. unfold git_receive_pack in H. destruct (starts_with (bs "PACK") body).
  - apply mbind_inv in H as (w1 & cmd & _ & H). apply mbind_inv in H as (w2 & u & _ & H).
    apply mbind_inv in H as (w3 & f & _ & H). apply mbind_inv in H as (w4 & pk & _ & H). cbv zeta in H.
    apply mbind_inv in H as (w5 & c2 & _ & H). apply mbind_inv in H as (w6 & u2 & _ & H). unfold ret in H.
    injection H as _ <- _. auto.
  - apply mbind_inv in H as (w1 & [[n line] rest] & _ & H). destruct ((n =? 0) && _); [unfold ret in H; injection H as _ <- _; auto|].
    apply mbind_inv in H as (w2 & [cmd tail] & _ & H). apply mbind_inv in H as (w3 & text & _ & H).
    apply mbind_inv in H as (w4 & x & _ & H). unfold ret in H. injection H as _ <- _. auto.
Qed.
Lemma proto_new_path : forall path s pr pp, proto_new path s pr = Ok pp -> pp_path pp = path.
Proof.
  intros path s pr pp H. unfold proto_new in H. destruct s; [injection H as <-; reflexivity|]. apply bind_ok in H as (x & _ & H). injection H as <-. reflexivity.
Qed.
Lemma stays_http_receive : forall m c fuel now body, stays (http_receive_pack e m c fuel now p body).
Proof.
  intros m c fuel now body. unfold http_receive_pack.
  apply (stays_bind_when _ _ (fun pp => pp_path pp = p)); [apply stays_lift| |].
  { intros w w' pp H. unfold lift in H. cbn [proto_new] in H. injection H as _ <-. reflexivity. }
  intros pp Hp. apply (stays_bind_when _ _ (fun x => pp_path (fst x) = p)); [apply stays_receive; exact Hp| |].
  { intros w w' [pp' r] H. apply receive_path in H as [H _]. cbn. congruence. }
  intros [pp1 data] Hp1. apply stays_bind; [apply stays_receive; exact Hp1|]. intros [pp2 r]. apply stays_ret.
Qed.
Lemma stays_child : forall r, stays (generate_child_commit_and_refs e r p).
Proof.
  intros r. unfold generate_child_commit_and_refs. apply stays_bind; [apply stays_reads; auto with reads|]. intros o.
  apply stays_bind; [apply stays_lift|]. intros row. apply stays_bind.
  { apply stays_reads. unfold search_root_node_by_path. apply reads_bind; [auto with reads|]. intros name.
    apply reads_bind; [auto with reads|]. intros [n|]; auto with reads. }
  intros [n|]; [|apply stays_ret]. apply (stays_bind_when _ _ good_commit); [apply stays_lift| |].
  { intros w w' c H. unfold lift in H. injection H as _ H. unfold build_from_model_and_root in H. cbv zeta in H.
    apply bind_ok in H as (cm & _ & H). apply bind_ok in H as (c0 & _ & H). apply bind_ok in H as (i & _ & H).
    apply bind_ok in H as (m & Hm & H). injection H as <-. apply unwrap_ok in Hm. apply meta_new_as in Hm as (h & Hh & ->).
    split; [|reflexivity]. cbn [cm_meta]. eexists _, h. split; [exact Hh|reflexivity]. }
  intros c Gc. apply stays_bind; [apply stays_save_commits; constructor; [exact Gc|constructor]|]. intros _. cbv zeta. apply stays_bind; [|intros _; apply stays_ret].
  apply stays_insert_all. constructor; [|constructor]. intros d d'. apply step_ref.
Qed.
Lemma stays_head : stays (get_head_object_id e p).
Proof.
  unfold get_head_object_id. apply stays_bind; [apply stays_reads; unfold search_refs; auto with reads|]. intros rows.
  destruct (find (fun r => beq p (r_repo_path r)) rows); [apply stays_ret|].
  destruct (find _ rows); [apply stays_child|apply stays_ret].
Qed.
Lemma stays_info : forall pp, pp_path pp = p -> stays (git_info_refs e pp).
Proof.
  intros pp Hp. unfold git_info_refs. rewrite Hp. apply stays_bind; [apply stays_lift|]. intros s. apply stays_bind; [apply stays_head|]. intros h.
  apply stays_bind; [apply stays_reads; unfold get_ref_object_id; apply reads_bind; auto with reads|]. intros l.
  apply stays_ret.
Qed.
Lemma stays_ssh_data : forall m c fuel cut now pp d, pp_path pp = p -> stays (ssh_data e m c fuel cut now pp d).
Proof.
  intros m c fuel cut now pp d Hp. destruct (pp_service pp) as [[|]|] eqn:S.
  - apply stays_reads, reads_ssh_upload. exact S.
  - unfold ssh_data. rewrite S. apply stays_receive. exact Hp.
  - unfold ssh_data. rewrite S. apply stays_lift.
Qed.
End At.

(** ** Requests *)

Lemma in_split_first : forall (c : N) l, In c l -> exists a b, l = a ++ c :: b /\ ~ In c a.
Proof.
  intros c. induction l as [|x l IH]; intros H; [destruct H|]. destruct (N.eq_dec x c) as [->|E].
  - exists [], l. split; [reflexivity|]. intros [].
  - destruct H as [H|H]; [congruence|]. apply IH in H as (a & b & -> & Ha). exists (x :: a), b. split; [reflexivity|].
    intros [K|K]; auto.
Qed.
Lemma words_cases : forall c l, (~ In c l /\ split_on c l = [l]) \/
  exists a b, l = a ++ c :: b /\ ~ In c a /\ split_on c l = a :: split_on c b.
Proof.
  intros c l. destruct (in_dec N.eq_dec c l) as [H|H].
  - right. apply in_split_first in H as (a & b & -> & Ha). exists a, b. split; [reflexivity|]. split; [exact Ha|].
    rewrite split_app, split_word by exact Ha. reflexivity.
  - left. split; [exact H|apply split_word; exact H].
Qed.
Lemma second_word : forall cmd path, nth_error (split_on 32 cmd) 1 = Some path <->
  exists verb more, ~ In 32 verb /\ cmd = verb ++ [32] ++ path ++ more /\ ~ In 32 path /\ (more = [] \/ exists m, more = 32 :: m).
Proof.
  intros cmd path. split.
  - intros H. destruct (words_cases 32 cmd) as [[_ E]|(a & b & -> & Ha & E)]; rewrite E in H; [discriminate|]. cbn [nth_error] in H.
    destruct (words_cases 32 b) as [[Hb E2]|(a2 & b2 & -> & Ha2 & E2)]; rewrite E2 in H; injection H as <-.
    + exists a, []. rewrite app_nil_r. auto 6.
    + exists a, (32 :: b2). split; [exact Ha|]. split; [reflexivity|]. split; [exact Ha2|]. right. eauto.
  - intros (verb & more & Hv & -> & Hp & [->|(m & ->)]); cbn [app]; rewrite split_app, (split_word 32 verb) by exact Hv.
    + rewrite app_nil_r, (split_word 32 path) by exact Hp. reflexivity.
    + rewrite split_app, (split_word 32 path) by exact Hp. reflexivity.
Qed.
Lemma about_ssh : forall now cmd packets repo, about (QSsh now cmd packets) repo <->
  exists path, nth_error (split_on 32 cmd) 1 = Some path /\ (7 <= length path)%nat /\ repo = firstn (length path - 7) (skipn 2 path).
Proof.
  intros now cmd packets repo. split.
  - intros H. inversion H as [| | |? ? ? verb quote ? tail more Hv E Hq Ht Hp Hm]; subst. exists (quote ++ repo ++ tail). split; [|split].
    + apply second_word. exists verb, more. auto 6.
    + rewrite !app_length. lia.
    + rewrite <- Hq at 2. rewrite skipn_app, Nat.sub_diag, skipn_all, skipn_O. cbn [app].
      rewrite !app_length, Hq, Ht. replace (2 + (length repo + 5) - 7)%nat with (length repo) by lia.
      rewrite firstn_app, Nat.sub_diag, firstn_all, firstn_O, app_nil_r. reflexivity.
  - intros (path & Hn & Hl & ->). apply second_word in Hn as (verb & more & Hv & -> & Hp & Hm).
    assert (E : path = firstn 2 path ++ firstn (length path - 7) (skipn 2 path) ++ skipn (length path - 7) (skipn 2 path)).
    { rewrite (firstn_skipn (length path - 7)), firstn_skipn. reflexivity. }
    eapply ab_ssh with (verb := verb) (quote := firstn 2 path) (tail := skipn (length path - 7) (skipn 2 path)) (more := more);
      rewrite <- ?E; auto.
    + apply firstn_length_le. lia.
    + rewrite !skipn_length. lia.
Qed.
Lemma about_unique : forall r p q, about r p -> about r q -> p = q.
Proof.
  intros [now m path service qq body|now cmd packets] p q Hp Hq.
  - inversion Hp as [? ? ? ? ? ? s repo G|? ? ? ? ? ? repo G|? ? ? ? ? ? repo G|]; subst;
    inversion Hq as [? ? ? ? ? ? s' repo' G'|? ? ? ? ? ? repo' G'|? ? ? ? ? ? repo' G'|]; subst; rewrite G in G'; congruence.
  - apply about_ssh in Hp as (x & N1 & _ & ->). apply about_ssh in Hq as (y & N2 & _ & ->). rewrite N1 in N2. injection N2 as ->. reflexivity.
Qed.

Lemma lift_inv : forall A (r : res A) w w' x, lift r w = (w', Ok x) -> w = w' /\ r = Ok x.
Proof. intros A r w w' x H. unfold lift in H. injection H as H1 H2. auto. Qed.

Lemma about_dec : forall r, (exists p, about r p) \/ (forall p, ~ about r p).
Proof.
  intros [now m path service q body|now cmd packets].
  - assert (K : (exists p, about (QHttp now m path service q body) p) \/
      ((forall s r, gateway m path service q <> Ok (AInfoRefs s r)) /\ (forall r, gateway m path service q <> Ok (AUploadPack r)) /\
       (forall r, gateway m path service q <> Ok (AReceivePack r)))).
    { destruct (gateway m path service q) as [a|x| |] eqn:G; [destruct a|..];
        try (right; split; [|split]; intros; discriminate); left; eexists; [eapply ab_info|eapply ab_fetch|eapply ab_push]; exact G. }
    destruct K as [K|(K1 & K2 & K3)]; [left; exact K|right]. intros p H.
    inversion H as [? ? ? ? ? ? s repo G|? ? ? ? ? ? repo G|? ? ? ? ? ? repo G|]; subst; [eapply K1|eapply K2|eapply K3]; exact G.
  - destruct (nth_error (split_on 32 cmd) 1) as [path|] eqn:N.
    + destruct (le_lt_dec 7 (length path)) as [L|L].
      * left. eexists. apply about_ssh. exists path. split; [exact N|]. split; [exact L|reflexivity].
      * right. intros p H. apply about_ssh in H as (x & N' & L' & _). rewrite N in N'. injection N' as <-. lia.
    + right. intros p H. apply about_ssh in H as (x & N' & _). rewrite N in N'. discriminate.
Qed.

Section Serve.
Context (e : env) (He : env_ok e) (b : build) (c : codec) (fuel : nat) (cut : bytes -> list bytes).

Lemma upload_path : forall pp body w w' pp' x y, git_upload_pack e c fuel pp body w = (w', Ok (pp', x, y)) ->
  pp_path pp' = pp_path pp /\ pp_service pp' = pp_service pp.
Proof.
  intros pp body w w' pp' x y H. unfold git_upload_pack in H. apply mbind_inv in H as (w1 & [[[want have] caps] rest] & _ & H).
  cbv zeta in H. destruct have as [|h have].
  - apply mbind_inv in H as (w2 & d & _ & H). unfold ret in H. injection H as _ <- _ _. auto.
  - apply mbind_inv in H as (w2 & [d buf] & _ & H). unfold ret in H. injection H as _ <- _ _. auto.
Qed.
Lemma ssh_data_path : forall now pp d w w' pp' a, ssh_data e b c fuel cut now pp d w = (w', Ok (pp', a)) ->
  pp_path pp' = pp_path pp /\ pp_service pp' = pp_service pp.
Proof.
  intros now pp d w w' pp' a H. unfold ssh_data in H. destruct (pp_service pp) as [[|]|] eqn:S; [| |discriminate].
  - apply mbind_inv in H as (w1 & [[q d'] buf] & H1 & H). apply mbind_inv in H as (w2 & u & _ & H). unfold ret in H. injection H as _ <- _.
    apply upload_path in H1. rewrite S in H1. exact H1.
  - apply receive_path in H. rewrite S in H. exact H.
Qed.
Lemma stays_session : forall p now packets pp, pp_path pp = p -> stays e p (ssh_session e b c fuel cut now pp packets).
Proof.
  intros p now. induction packets as [|d packets IH]; intros pp Hp; cbn [ssh_session]; [apply stays_ret|].
  apply (stays_bind_when _ _ _ _ (fun x => pp_path (fst x) = p)).
  - apply stays_ssh_data; assumption.
  - intros w w' [pp' a] H. apply ssh_data_path in H as [H _]. cbn. congruence.
  - intros [pp1 a] H1. apply stays_bind; [apply IH; exact H1|]. intros [pp2 r]. apply stays_ret.
Qed.
Lemma command_path : forall cmd w w' pp a, ssh_command e cmd w = (w', Ok (pp, a)) ->
  exists path, nth_error (split_on 32 cmd) 1 = Some path /\ (7 <= length path)%nat /\ pp_path pp = firstn (length path - 7) (skipn 2 path).
Proof.
  intros cmd w w' pp a H. unfold ssh_command in H. cbv zeta in H.
  apply mbind_inv in H as (w1 & path & H1 & H). apply lift_inv in H1 as [<- H1].
  destruct (nth_error (split_on 32 cmd) 1) as [x|]; [|discriminate]. injection H1 as ->.
  apply mbind_inv in H as (w1 & n & H1 & H). apply lift_inv in H1 as [<- H1].
  destruct (length path <? 5)%nat; [discriminate|]. injection H1 as <-.
  apply mbind_inv in H as (w1 & repo & H1 & H). apply lift_inv in H1 as [<- H1].
  unfold slice in H1. destruct (2 <=? length path - 5)%nat eqn:L; [|discriminate]. apply Nat.leb_le in L.
  destruct (length path - 5 <=? length path)%nat; [|discriminate]. injection H1 as <-.
  apply mbind_inv in H as (w1 & repo & H1 & H). apply lift_inv in H1 as [<- H1].
  assert (Er : repo = firstn (length path - 5 - 2) (skipn 2 path)).
  { unfold utf8_unwrap in H1. destruct (utf8_valid _); [|discriminate]. injection H1 as <-. reflexivity. }
  apply mbind_inv in H as (w1 & q & H2 & H). apply lift_inv in H2 as [<- H2].
  apply mbind_inv in H as (w1 & rep & _ & H). apply mbind_inv in H as (w2 & u & _ & H). unfold ret in H. injection H as _ <- _.
  exists path. split; [reflexivity|]. split; [lia|]. rewrite (proto_new_path _ _ _ _ H2), Er. f_equal. lia.
Qed.
Lemma stays_command : forall cmd path, nth_error (split_on 32 cmd) 1 = Some path -> (7 <= length path)%nat ->
  stays e (firstn (length path - 7) (skipn 2 path)) (ssh_command e cmd).
Proof.
  intros cmd path Hn Hl. unfold ssh_command. cbv zeta. rewrite Hn. apply (stays_bind_when _ _ _ _ (fun x => x = path)); [apply stays_lift| |].
  { intros w w' x H. apply lift_inv in H as [_ H]. injection H as <-. reflexivity. }
  intros x ->. apply (stays_bind_when _ _ _ _ (fun n => n = (length path - 5)%nat)); [apply stays_lift| |].
  { intros w w' x H. apply lift_inv in H as [_ H]. destruct (length path <? 5)%nat; [discriminate|]. injection H as <-. reflexivity. }
  intros n ->. apply (stays_bind_when _ _ _ _ (fun x => x = firstn (length path - 7) (skipn 2 path))); [apply stays_lift| |].
  { intros w w' x H. apply lift_inv in H as [_ H]. unfold slice in H. destruct (_ && _); [|discriminate]. injection H as <-. f_equal. lia. }
  intros x ->. apply (stays_bind_when _ _ _ _ (fun x => x = firstn (length path - 7) (skipn 2 path))); [apply stays_lift| |].
  { intros w w' x H. apply lift_inv in H as [_ H]. unfold utf8_unwrap in H. destruct (utf8_valid _); [|discriminate]. injection H as <-. reflexivity. }
  intros x ->. apply (stays_bind_when _ _ _ _ (fun pp => pp_path pp = firstn (length path - 7) (skipn 2 path))); [apply stays_lift| |].
  { intros w w' x H. apply lift_inv in H as [_ H]. eapply proto_new_path. exact H. }
  intros pp Hp. apply stays_bind; [apply stays_info; exact Hp|]. intros r. apply stays_bind; [apply stays_lift|]. intros u. apply stays_ret.
Qed.
Lemma lift_bind_reads : forall A B (r : res A) (k : A -> M B), (forall a, r = Ok a -> reads (k a)) -> reads (mbind (lift r) k).
Proof.
  intros A B r k H. apply (keeps_bind_when same same_trans _ _ (fun a => r = Ok a)); [apply reads_lift| |exact H].
  intros w w' a E. apply lift_inv in E as [_ E]. exact E.
Qed.
Lemma serve_stays : forall r p, about r p -> stays e p (serve e b c fuel cut r).
Proof.
  intros r p H. destruct r as [now m path service q body|now cmd packets].
  - unfold serve. inversion H as [? ? ? ? ? ? s repo G|? ? ? ? ? ? repo G|? ? ? ? ? ? repo G|]; subst;
    rewrite G; apply (stays_bind_when _ _ _ _ (fun a => Ok a = gateway m path service q)); try apply stays_lift;
    try (intros w w' a K; apply lift_inv in K as [_ K]; rewrite G; symmetry; exact K);
    intros a K; rewrite G in K; injection K as ->.
    + unfold http_info_refs. apply (stays_bind_when _ _ _ _ (fun pp => pp_path pp = p)); [apply stays_lift| |].
      { intros w w' pp K. apply lift_inv in K as [_ K]. eapply proto_new_path. exact K. }
      intros pp Hp. apply stays_info. exact Hp.
    + apply stays_reads, reads_http_upload.
    + apply stays_http_receive. exact He.
  - apply about_ssh in H as (path & Hn & Hl & ->). unfold serve.
    apply (stays_bind_when _ _ _ _ (fun x => pp_path (fst x) = firstn (length path - 7) (skipn 2 path))); [apply stays_command; assumption| |].
    { intros w w' [pp a] K. apply command_path in K as (x & K1 & _ & K2). rewrite Hn in K1. injection K1 as <-. exact K2. }
    intros [pp a] Hp. apply stays_bind; [apply stays_session; exact Hp|]. intros [pp2 s]. apply stays_ret.
Qed.
Lemma serve_reads : forall r, (forall p, ~ about r p) -> reads (serve e b c fuel cut r).
Proof.
  intros r H. destruct r as [now m path service q body|now cmd packets].
  - unfold serve. apply lift_bind_reads. intros a G. destruct a; auto with reads; exfalso.
    + eapply H. eapply ab_info. exact G.
    + eapply H. eapply ab_fetch. exact G.
    + eapply H. eapply ab_push. exact G.
  - unfold serve. apply (keeps_bind_when same same_trans _ _ (fun _ => False)).
    + unfold ssh_command. cbv zeta. apply lift_bind_reads. intros path E1. destruct (nth_error (split_on 32 cmd) 1) as [x|] eqn:Hn; [|discriminate].
      injection E1 as ->. apply lift_bind_reads. intros n E2. destruct (length path <? 5)%nat; [discriminate|]. injection E2 as <-.
      apply lift_bind_reads. intros repo E3. unfold slice in E3. destruct (2 <=? length path - 5)%nat eqn:L; [|discriminate]. apply Nat.leb_le in L.
      exfalso. eapply H. apply about_ssh. exists path. split; [exact Hn|]. split; [lia|reflexivity].
    + intros w w' [pp a] K. apply command_path in K as (x & K1 & K2 & K3). eapply H. apply about_ssh. exists x. split; [exact K1|]. split; [exact K2|reflexivity].
    + intros a [].
Qed.
End Serve.

(** ** Sequences of requests *)

Section All.
Context (e : env) (He : env_ok e) (b : build) (c : codec) (fuel : nat) (cut : bytes -> list bytes).

(** Every state the database goes through, with the repository of the request. *)
Lemma serve_chain : forall r w, exists l, w_log (fst (serve e b c fuel cut r w)) = w_log w ++ l /\
  chain (fun d d' => refs_table d -> refs_table d' /\ exists p, about r p /\ only_at e p d d') (w_db w) l (w_db (fst (serve e b c fuel cut r w))).
Proof.
  intros r w. destruct (about_dec r) as [(p & Hp)|Hn].
  - destruct (serve_stays e He b c fuel cut r p Hp w) as (_ & l & E & C). exists l. split; [exact E|].
    eapply chain_impl; [|exact C]. intros x y S T. destruct (S T) as [T' O]. split; [exact T'|]. eauto.
  - destruct (serve_reads e b c fuel cut r Hn w) as (E1 & E2 & _). exists []. rewrite app_nil_r. split; [exact E2|]. symmetry. exact E1.
Qed.
Lemma serve_all_chain : forall l w, exists k, w_log (serve_all e b c fuel cut l w) = w_log w ++ k /\
  chain (fun d d' => refs_table d -> refs_table d' /\ exists r p, In r l /\ about r p /\ only_at e p d d')
    (w_db w) k (w_db (serve_all e b c fuel cut l w)).
Proof.
  induction l as [|r l IH]; intros w; cbn [serve_all].
  - exists []. rewrite app_nil_r. split; reflexivity.
  - destruct (serve_chain r w) as (k1 & E1 & C1). destruct (IH (fst (serve e b c fuel cut r w))) as (k2 & E2 & C2).
    exists (k1 ++ k2). rewrite E2, E1, app_assoc. split; [reflexivity|]. eapply chain_app.
    + eapply chain_impl; [|exact C1]. intros x y S T. destruct (S T) as (T' & p & A & O). split; [exact T'|]. exists r, p. split; [left; reflexivity|auto].
    + eapply chain_impl; [|exact C2]. intros x y S T. destruct (S T) as (T' & r' & p & I & A & O). split; [exact T'|]. exists r', p. split; [right; exact I|auto].
Qed.
Lemma serve_quiet : forall r w, no_failure w -> no_failure (fst (serve e b c fuel cut r w)).
Proof.
  intros r w. destruct (about_dec r) as [(p & Hp)|Hn].
  - apply (serve_stays e He b c fuel cut r p Hp w).
  - apply (serve_reads e b c fuel cut r Hn w).
Qed.
Lemma serve_all_quiet : forall l w, no_failure w -> no_failure (serve_all e b c fuel cut l w).
Proof. induction l as [|r l IH]; intros w Q; cbn [serve_all]; [exact Q|]. apply IH, serve_quiet, Q. Qed.
End All.

Lemma chain_under : forall (T : db -> Prop) (R : db -> db -> Prop) l a z, T a -> chain (fun d d' => T d -> T d' /\ R d d') a l z ->
  chain (fun d d' => T d' /\ R d d') a l z /\ T z.
Proof.
  intros T R. induction l as [|x l IH]; cbn; intros a z Ta H; [subst; auto|]. destruct H as [H1 H2]. destruct (H1 Ta) as [Tx Rx].
  destruct (IH _ _ Tx H2) as [H3 H4]. auto.
Qed.
(** A reflexive and transitive relation holds of all states of a chain. *)
Lemma chain_all : forall (R : db -> db -> Prop), (forall a, R a a) -> (forall a x y, R a x -> R x y -> R a y) ->
  forall l a z, chain R a l z -> Forall (R a) l /\ R a z.
Proof.
  intros R Rr Rt. induction l as [|x l IH]; cbn; intros a z H; [subst; auto|]. destruct H as [H1 H2]. destruct (IH _ _ H2) as [H3 H4].
  split; [|eauto]. constructor; [exact H1|]. eapply Forall_impl; [|exact H3]. eauto.
Qed.

Lemma lost_refl : forall d, nothing_lost d d.
Proof. intros d. split; exists []; rewrite app_nil_r; reflexivity. Qed.
Lemma lost_trans : forall a b c, nothing_lost a b -> nothing_lost b c -> nothing_lost a c.
Proof.
  intros a b c [(n1 & N1) (c1 & C1) (r1 & R1)] [(n2 & N2) (c2 & C2) (r2 & R2)]. split.
  - exists (n1 ++ n2). rewrite N2, N1, app_assoc. reflexivity.
  - exists (c1 ++ c2). rewrite C2, C1, app_assoc. reflexivity.
  - exists (r1 ++ r2). rewrite R2, R1, app_assoc. reflexivity.
Qed.
Lemma only_lost : forall e p d d', only_at e p d d' -> nothing_lost d d'.
Proof.
  intros e p d d' [(n & N & _) (c & C & _) (k & l & R & K & _)]. split; [eauto|eauto|].
  eexists. rewrite R, map_app. f_equal. clear R. induction K as [|x y a b (K1 & K2 & K3 & _) K IH]; [reflexivity|].
  cbn [map]. rewrite IH, K1, K2, K3. reflexivity.
Qed.
Lemma filter_none : forall A (f : A -> bool) l, Forall (fun x => f x = false) l -> filter f l = [].
Proof. intros A f l H. induction H as [|x l H1 H2 IH]; [reflexivity|]. cbn. rewrite H1. exact IH. Qed.
Lemma only_others : forall e p q d d', teq_equiv e -> teq e p q = false -> only_at e p d d' ->
  commits_at e d' q = commits_at e d q /\ refs_of e d' q = refs_of e d q.
Proof.
  intros e p q d d' [Ts Tt] Hpq [_ (c & C & FC) (k & l & R & K & FR)]. unfold commits_at, refs_of. split.
  - rewrite C, filter_app, (filter_none _ _ c), app_nil_r; [reflexivity|]. eapply Forall_impl; [|exact FC]. cbn. intros x [-> _]. exact Hpq.
  - rewrite R, filter_app, (filter_none _ _ l), app_nil_r by (eapply Forall_impl; [|exact FR]; cbn; intros x ->; exact Hpq). clear R.
    induction K as [|x y a b (K1 & K2 & K3 & K4) K IH]; [reflexivity|]. cbn [filter]. rewrite IH, K2.
    destruct (teq e (r_repo_path x) q) eqn:E; [|reflexivity]. f_equal. destruct K4 as [K4|K4].
    + destruct x, y. cbn in *. congruence.
    + rewrite Ts in K4. rewrite (Tt _ _ _ K4 E) in Hpq. discriminate.
Qed.

(** ** A push that is not answered *)

Lemma fs_get_put : forall f q x, fs_get (fs_put f q x) q = Some x.
Proof. intros f q x. unfold fs_put. cbn [fs_get]. rewrite (proj2 (path_eqb_eq q q)) by reflexivity. reflexivity. Qed.
(** The statements sent in between. *)
Definition uses (w w' : world) : Prop := exists u, w_fails w = u ++ w_fails w'.
Lemma uses_refl : forall w, uses w w.
Proof. intros w. exists []. reflexivity. Qed.
Lemma uses_trans : forall a b c, uses a b -> uses b c -> uses a c.
Proof. intros a b c (u & A) (v & B). exists (u ++ v). rewrite A, B, app_assoc. reflexivity. Qed.
Lemma uses_attempt : keeps uses attempt.
Proof. intros w. unfold uses, attempt. destruct (w_fails w) as [|b r] eqn:E; [exists []; symmetry; exact E|exists [b]; reflexivity]. Qed.
Lemma uses_shuffle : forall A e (l : list A), keeps uses (shuffle e l).
Proof. intros A e l w. exists []. reflexivity. Qed.
Lemma uses_select_one : forall A e (q : db -> list A), keeps uses (select_one e q).
Proof.
  intros A e q. apply (keeps_bind uses uses_trans); [|intros l; apply (keeps_ret uses uses_refl)]. apply (keeps_bind uses uses_trans); [apply uses_attempt|].
  intros [|]; [|apply (keeps_lift uses uses_refl)]. intros w. apply uses_shuffle.
Qed.
Definition calm (w w' : world) : Prop := d_refs (w_db w') = d_refs (w_db w) /\ w_files w' = w_files w /\ uses w w' /\
  exists l, w_log w' = w_log w ++ l /\ Forall (fun d => d_refs d = d_refs (w_db w)) l.
Lemma calm_refl : forall w, calm w w.
Proof. intros w. split; [reflexivity|]. split; [reflexivity|]. split; [apply uses_refl|]. exists []. rewrite app_nil_r. split; [reflexivity|constructor]. Qed.
Lemma calm_trans : forall a b c, calm a b -> calm b c -> calm a c.
Proof.
  intros a b c (A1 & A2 & A0 & l1 & A3 & A4) (B1 & B2 & B0 & l2 & B3 & B4). split; [congruence|]. split; [congruence|]. split; [eapply uses_trans; eassumption|].
  exists (l1 ++ l2). rewrite B3, A3, app_assoc. split; [reflexivity|]. apply Forall_app. split; [exact A4|].
  rewrite A1 in B4. exact B4.
Qed.
Lemma calm_same : forall w w', same w w' -> uses w w' -> calm w w'.
Proof. intros w w' (E1 & E2 & E3 & _) U. split; [congruence|]. split; [exact E3|]. split; [exact U|]. exists []. rewrite app_nil_r. split; [exact E2|constructor]. Qed.
Definition calmly {A} (m : M A) : Prop := keeps calm m.
Lemma calm_lift : forall A (r : res A), calmly (lift r).
Proof. exact (keeps_lift _ calm_refl). Qed.
Lemma calm_ret : forall A (a : A), calmly (ret a).
Proof. exact (keeps_ret _ calm_refl). Qed.
Lemma calm_bind : forall A B (m : M A) (k : A -> M B), calmly m -> (forall a, calmly (k a)) -> calmly (mbind m k).
Proof. exact (keeps_bind _ calm_trans). Qed.
Lemma calm_reads : forall A (m : M A), reads m -> keeps uses m -> calmly m.
Proof. intros A m H U w. apply calm_same; [apply H|apply U]. Qed.
Lemma calm_execute : forall f, (forall d d', f d = Some d' -> d_refs d' = d_refs d) -> calmly (execute f).
Proof.
  intros f H. apply calm_bind; [apply calm_reads; [apply reads_attempt|apply uses_attempt]|]. intros [|]; [|apply calm_ret].
  intros w. destruct (f (w_db w)) as [d|] eqn:E; [|apply calm_refl]. apply H in E. split; [exact E|]. split; [reflexivity|]. split; [apply (uses_refl w)|].
  exists [d]. split; [reflexivity|]. constructor; [exact E|constructor].
Qed.
Lemma calm_batches : forall e bs, calmly (insert_batches e bs).
Proof.
  intros e. induction bs as [|b bs IH]; cbn [insert_batches]; [apply calm_ret|]. apply calm_bind.
  - apply calm_execute. intros d d' H. unfold insert_nodes in H. destruct b as [|r l].
    + destruct (empty_insert e); [|discriminate]. injection H as <-. reflexivity.
    + destruct (forallb node_fits (r :: l)); [|discriminate]. injection H as <-. reflexivity.
  - intros [|]; [exact IH|apply calm_lift].
Qed.
Lemma calm_save_commits : forall p cs, calmly (save_commits p cs).
Proof.
  intros p cs. unfold save_commits. induction (chunks (length cs) 100 (map (commit_to_row p) cs)) as [|x l IH]; cbn [map insert_all]; [apply calm_ret|].
  apply calm_bind; [|intros _; exact IH]. apply calm_execute. intros d d' H. unfold insert_commits in H.
  destruct (forallb commit_fits x); [|discriminate]. injection H as <-. reflexivity.
Qed.
Lemma calm_save_packfile : forall e fuel k p, calmly (save_packfile e fuel k p).
Proof.
  intros e fuel k p. unfold save_packfile. apply calm_bind; [apply calm_lift|]. intros om.
  do 4 (apply calm_bind; [apply calm_reads; [apply reads_shuffle|apply uses_shuffle]|]; intros ?). unfold save_objects.
  apply calm_bind; [apply calm_lift|]. intros nodes. apply calm_bind; [apply calm_batches|]. intros _. apply calm_save_commits.
Qed.

(** The last statement that was sent has failed. *)
Definition unread (w w' : world) : Prop := exists u, w_fails w = u ++ true :: w_fails w'.
Lemma unread_after : forall w w1 w', uses w w1 -> unread w1 w' -> unread w w'.
Proof. intros w w1 w' (u & A) (v & B). exists (u ++ v). rewrite A, B, app_assoc. reflexivity. Qed.
(** The references are moved in the last step, if that step is reached; the row that was
    updated is only read again. *)
Definition lastly {A} (w w' : world) (r : res A) : Prop :=
  ((forall a, r <> Ok a) -> d_refs (w_db w') = d_refs (w_db w) \/ unread w w') /\
  exists l k, w_log w' = w_log w ++ l ++ k /\ (length k <= 1)%nat /\ Forall (fun d => d_refs d = d_refs (w_db w)) l /\
    (k = [] -> d_refs (w_db w') = d_refs (w_db w)).
Lemma lastly_calm : forall A w w' (r : res A), calm w w' -> lastly w w' r.
Proof.
  intros A w w' r (C1 & C2 & _ & l & C3 & C4).
  split; [intros _; left; exact C1|]. exists l, []. rewrite app_nil_r. split; [exact C3|]. split; [cbn; lia|]. auto.
Qed.
Lemma lastly_after : forall A w w1 w' (r : res A), calm w w1 -> lastly w1 w' r -> lastly w w' r.
Proof.
  intros A w w1 w' r (C1 & C2 & C0 & l & C3 & C4) (D1 & l2 & k2 & D3 & D4 & D5 & D6).
  split; [intros N; destruct (D1 N) as [D|D]; [left; congruence|right; eapply unread_after; eassumption]|]. exists (l ++ l2), k2.
  rewrite D3, C3, !app_assoc. split; [reflexivity|]. split; [exact D4|]. split; [apply Forall_app; split; [exact C4|rewrite <- C1; exact D5]|].
  intros K. rewrite D6 by exact K. exact C1.
Qed.
Definition at_last {A} (m : M A) : Prop := forall w w' r, m w = (w', r) -> lastly w w' r /\ w_files w' = w_files w.
Lemma last_calmly : forall A (m : M A), calmly m -> at_last m.
Proof.
  intros A m H w w' r E. specialize (H w). rewrite E in H. split; [apply lastly_calm; exact H|]. apply H.
Qed.
Lemma last_bind : forall A B (m : M A) (k : A -> M B), calmly m -> (forall a, at_last (k a)) -> at_last (mbind m k).
Proof.
  intros A B m k H1 H2 w w' r E. unfold mbind in E. specialize (H1 w). destruct (m w) as [w1 [a|x| |]]; cbn [fst] in H1;
    try (injection E as <- <-; split; [apply lastly_calm; exact H1|apply H1]).
  destruct (H2 a _ _ _ E) as [D1 D2]. split; [eapply lastly_after; eassumption|]. destruct H1 as (_ & H1 & _). congruence.
Qed.
(** A last statement that is no SELECT. *)
Lemma last_execute : forall A f (g : bool -> M A) w w' r,
  (forall w2, f (w_db w) = Some (w_db w2) -> g true w2 = (w', r) -> same w2 w' /\ ((exists a, r = Ok a) \/ unread w2 w')) -> calmly (g false) ->
  mbind (execute f) g w = (w', r) -> lastly w w' r /\ w_files w' = w_files w.
Proof.
  intros A f g w w' r Ga Gf E. unfold mbind in E. unfold execute, mbind in E. pose proof (reads_attempt w) as S. pose proof (uses_attempt w) as U.
  destruct (attempt w) as [w1 [b|x| |]]; cbn [fst] in S, U; try (injection E as <- <-; split; [apply lastly_calm, calm_same; assumption|apply S]).
  assert (K : forall x y, g false x = (y, r) -> lastly x y r /\ w_files y = w_files x).
  { intros x y H. specialize (Gf x). rewrite H in Gf. split; [apply lastly_calm; exact Gf|apply Gf]. }
  destruct S as (S1 & S2 & S3 & S4). rewrite <- S1 in Ga.
  assert (L : forall y, lastly w1 y r /\ w_files y = w_files w1 -> lastly w y r /\ w_files y = w_files w).
  { intros y [L1 L2]. split; [|congruence]. eapply lastly_after; [|exact L1]. apply calm_same; [|exact U]. split; [|split; [|split]]; assumption. }
  apply L. destruct b.
  - destruct (f (w_db w1)) as [d|] eqn:Ef.
    + destruct (Ga (mkWorld d (w_log w1 ++ [d]) (w_fails w1) (w_tick w1) (w_files w1)) eq_refl E) as [(T1 & T2 & T3 & _) Ok1]. cbn [w_db w_log w_files] in T1, T2, T3.
      split; [|exact T3]. split.
      * intros N. destruct Ok1 as [(a & ->)|Ur]; [destruct (N a); reflexivity|]. right. exact Ur.
      * exists [], [d]. split; [exact T2|]. split; [cbn; lia|]. split; [constructor|discriminate].
    + apply K. exact E.
  - apply K. exact E.
Qed.
Lemma select_one_in : forall e, env_ok e -> forall A (q : db -> list A) w x, snd (select_one e q w) = Ok (Some x) -> In x (q (w_db w)).
Proof.
  intros e He A q w x H. unfold select_one, select, mbind in H. pose proof (reads_attempt w) as (D & _). destruct (attempt w) as [w1 [[|]|y| |]]; try discriminate H.
  cbn [fst] in D. unfold shuffle, mbind, tick, ret in H. cbn [snd] in H. pose proof (proj1 He (w_tick w1) _ (q (w_db w1))) as P. rewrite D in *.
  destruct (ord e (w_tick w1) A (q (w_db w))) as [|z l]; [discriminate|]. injection H as ->. eapply Permutation_in; [exact P|]. left. reflexivity.
Qed.
(** Reading a row again fails only when the statement does. *)
Lemma back_run : forall e B (a : B) i w w' r, env_ok e -> (exists y, In y (d_refs (w_db w)) /\ r_id y = i) ->
  (let! o := select_one e (fun d => filter (fun x => r_id x =? i) (d_refs d)) in let! _ := lift (unwrap_opt o) in ret a) w = (w', r) ->
  same w w' /\ ((exists a, r = Ok a) \/ unread w w').
Proof.
  intros e B a i w w' r He (y & Hy & Ey) E. split.
  - pose proof (reads_bind _ _ _ (fun o => let! _ := lift (unwrap_opt o) in ret a) (reads_select_one _ e (fun d => filter (fun x => r_id x =? i) (d_refs d)))
      (fun o => reads_bind _ _ _ _ (reads_lift _ _) (fun _ => reads_ret _ a)) w) as R. rewrite E in R. exact R.
  - assert (F : In y (filter (fun x => r_id x =? i) (d_refs (w_db w)))) by (apply filter_In; split; [exact Hy|apply N.eqb_eq, Ey]).
    assert (K : forall w1 t, w_db w1 = w_db w -> hd_error (ord e t _ (filter (fun x => r_id x =? i) (d_refs (w_db w1)))) <> None).
    { intros w1 t D. rewrite D. pose proof (proj1 He t _ (filter (fun x => r_id x =? i) (d_refs (w_db w)))) as P.
      destruct (ord e t _ (filter (fun x => r_id x =? i) (d_refs (w_db w)))); [|discriminate]. apply Permutation_nil in P. rewrite P in F. destruct F. }
    unfold select_one, select, mbind, attempt in E. destruct (w_fails w) as [|[|] fs] eqn:Ef; cbn [negb] in E.
    + unfold shuffle, mbind, tick, ret in E. specialize (K w (w_tick w) eq_refl). destruct (hd_error _); [|contradiction]. cbn [lift unwrap_opt] in E. injection E as _ <-. left. exists a. reflexivity.
    + unfold lift in E. injection E as <- <-. right. exists []. exact Ef.
    + unfold shuffle, mbind, tick, ret in E. cbn [w_db w_tick] in E. specialize (K w (w_tick w) eq_refl). destruct (hd_error _); [|contradiction]. cbn [lift unwrap_opt] in E.
      injection E as _ <-. left. exists a. reflexivity.
Qed.
Lemma last_handle : forall e cmd p (a : ref_command), env_ok e -> at_last (mbind (handle_refs e cmd p) (fun _ => ret a)).
Proof.
  intros e cmd p a He. unfold handle_refs. destruct (rc_type cmd).
  - unfold save_refs. cbn [insert_all]. 
    assert (K : forall w, mbind (mbind (execute (insert_ref p (rc_ref_name cmd) (rc_new_id cmd))) (fun _ => ret tt)) (fun _ => ret a) w =
      mbind (execute (insert_ref p (rc_ref_name cmd) (rc_new_id cmd))) (fun _ => ret a) w).
    { intros w. unfold mbind, ret. destruct (execute _ w) as [w1 [x|x| |]]; reflexivity. }
    intros w w' r E. rewrite K in E. apply (last_execute _ _ (fun _ => ret a)) in E; [exact E| |apply calm_ret].
    intros w2 _ E2. injection E2 as <- <-. split; [apply same_refl|]. left. exists a. reflexivity.
  - apply last_calmly. apply calm_bind; [apply calm_lift|]. intros _. apply calm_ret.
  - unfold update_refs. intros w w' r E. 
    set (q := fun d => filter (fun r => teq e (r_ref_git_id r) (rc_old_id cmd) && teq e (r_repo_path r) p) (d_refs d)) in E.
    set (back := fun (b : ref_command) i => let! o := select_one e (fun d => filter (fun x => r_id x =? i) (d_refs d)) in let! _ := lift (unwrap_opt o) in ret b).
    assert (K : forall w, mbind (mbind (select_one e q) (fun o => mbind (lift (unwrap_opt o)) (fun r =>
        mbind (execute (set_ref (r_id r) (rc_new_id cmd))) (fun ok : bool => if ok then 
          let! o := select_one e (fun d => filter (fun x => r_id x =? r_id r) (d_refs d)) in let! _ := lift (unwrap_opt o) in ret tt else lift Panic)))) (fun _ => ret a) w =
      mbind (select_one e q) (fun o => mbind (lift (unwrap_opt o)) (fun r =>
        mbind (execute (set_ref (r_id r) (rc_new_id cmd))) (fun ok : bool => if ok then back a (r_id r) else lift Panic))) w).
    { intros u. unfold back, mbind, ret, lift. destruct (select_one e q u) as [w1 [[x|]|x| |]]; try reflexivity. cbn [unwrap_opt].
      destruct (execute _ w1) as [w2 [[|]|y| |]]; try reflexivity. destruct (select_one e _ w2) as [w3 [[z|]|z| |]]; reflexivity. }
    rewrite K in E. clear K.
    (* the row that is updated is in the table *)
    pose proof (reads_select_one _ e q w) as (D1 & _). unfold mbind at 1 in E. pose proof (calm_reads _ _ (reads_select_one _ e q) (uses_select_one _ e q) w) as C1. pose proof (select_one_in e He _ q w) as I1.
    destruct (select_one e q w) as [w1 [[x|]|x| |]]; cbn [fst snd] in C1, I1, D1; try (unfold mbind at 1, lift at 1 in E; cbn [unwrap_opt] in E);
      try (injection E as <- <-; split; [apply lastly_calm; exact C1|apply C1]).
    specialize (I1 x eq_refl). unfold q in I1. apply filter_In in I1 as [I1 _].
    assert (L : lastly w1 w' r /\ w_files w' = w_files w1).
    { apply (last_execute _ (set_ref (r_id x) (rc_new_id cmd)) (fun ok : bool => if ok then back a (r_id x) else lift Panic) w1 w' r); [|apply calm_lift|exact E]. intros w2 E2 Eb. apply (back_run e _ a (r_id x)); [exact He| |exact Eb].
      unfold set_ref in E2. destruct (varchar 40 (rc_new_id cmd)); [|discriminate]. injection E2 as <-. cbn [d_refs].
      exists (mkRef (r_id x) (r_repo_path x) (r_ref_name x) (rc_new_id cmd)). split; [|reflexivity].
      apply in_map_iff. exists x. rewrite N.eqb_refl. split; [reflexivity|]. rewrite (D1 : w_db w1 = w_db w). exact I1. }
    destruct L as [L1 L2]. split; [eapply lastly_after; [exact C1|exact L1]|]. rewrite L2. apply C1.
Qed.
Lemma last_receive : forall e m c fuel now pp body w w' r, env_ok e -> git_receive_pack e m c fuel now pp body w = (w', r) -> lastly w w' r.
Proof.
  intros e m c fuel now pp body w w' r He E. unfold git_receive_pack in E. destruct (starts_with (bs "PACK") body).
  - unfold mbind at 1 in E. destruct (nth_error (pp_cmds pp) (length (pp_cmds pp) - 1)) as [cmd|];
      [|cbn [lift unwrap_opt] in E; injection E as <- <-; apply lastly_calm, calm_refl].
    cbn [lift unwrap_opt] in E. unfold mbind at 1 in E. unfold write_temp at 1 in E. cbv zeta in E.
    set (f := fs_put _ _ _) in E. set (w1 := mkWorld (w_db w) (w_log w) (w_fails w) (w_tick w) f) in E.
    assert (F1 : fs_get (w_files w1) (temp_path now) <> None) by (unfold w1, f; cbn [w_files]; rewrite fs_get_put; discriminate).
    assert (L : lastly w1 w' r -> lastly w w' r) by (intros L; exact L). apply L. clear L.
    unfold mbind at 1 in E. unfold read_temp in E. destruct (fs_get (w_files w1) (temp_path now)) as [file|] eqn:G; [|destruct F1; reflexivity].
    cbn [unwrap_opt] in E. unfold mbind at 1 in E. unfold unpack_pack at 1 in E. cbv zeta in E.
    set (w2 := mkWorld (w_db w1) (w_log w1) (w_fails w1) (S (w_tick w1)) (w_files w1)) in E.
    assert (L : lastly w2 w' r -> lastly w1 w' r) by (intros L; exact L). apply L. clear L.
    assert (G2 : fs_get (w_files w2) (temp_path now) = Some file) by exact G.
    clearbody w2. clear F1 G.
    destruct (unwrap (decode m c (get_hash_object e w1) fuel file)) as [pk|x| |];
      try (injection E as <- <-; apply lastly_calm, calm_refl).
    unfold mbind at 1 in E. pose proof (calm_save_packfile e fuel (p_cache pk) (pp_path pp) w2) as S.
    destruct (save_packfile e fuel (p_cache pk) (pp_path pp) w2) as [w3 [u|x| |]]; cbn [fst] in S;
      try (injection E as <- <-; apply lastly_calm; exact S).
    + eapply lastly_after; [exact S|]. destruct S as (_ & S2 & _). rewrite <- S2 in G2. clear S2.
      destruct (mbind (handle_refs e (cmd_unpacked cmd None) (pp_path pp)) (fun _ => ret (cmd_unpacked cmd None)) w3) as [w4 r4] eqn:H4.
      apply (last_handle _ _ _ _ He) in H4 as [L F]. rewrite <- F in G2. destruct r4 as [c4|x| |]; try (injection E as <- <-; destruct L as [L1 L2]; split;
        [intros _; apply L1; intros; discriminate|exact L2]).
      unfold mbind, remove_temp in E. rewrite G2 in E. unfold ret in E. injection E as <- <-. destruct L as [_ L]. split; [|exact L].
      intros N. exfalso. eapply N. reflexivity.
    + destruct S as (S1 & S2 & _ & S3). unfold mbind, remove_temp in E. rewrite S2, G2 in E. unfold ret in E. injection E as <- <-.
      destruct S3 as (l & S3 & S4). split; [intros _; left; exact S1|]. exists l, []. rewrite app_nil_r. split; [exact S3|]. split; [cbn; lia|]. auto.
  - match type of E with ?t w = _ => assert (K : calmly t); [|specialize (K w); rewrite E in K; apply lastly_calm; exact K] end.
    apply calm_bind; [apply calm_lift|]. intros [[n line] rest].
    destruct ((n =? 0) && _); [apply calm_ret|].
    apply calm_bind; [apply calm_lift|]. intros [cmd tail]. apply calm_bind; [apply calm_lift|]. intros text.
    apply calm_bind; [apply calm_lift|]. intros x. apply calm_ret.
Qed.
(** Without a command, the database is not touched. *)
Lemma receive_first : forall e m c fuel now pp body, pp_cmds pp = [] -> calmly (git_receive_pack e m c fuel now pp body).
Proof.
  intros e m c fuel now pp body Hc. unfold git_receive_pack. rewrite Hc. destruct (starts_with (bs "PACK") body).
  - intros w. apply calm_refl.
  - apply calm_bind; [apply calm_lift|]. intros [[n line] rest].
    destruct ((n =? 0) && _); [apply calm_ret|].
    apply calm_bind; [apply calm_lift|]. intros [cmd tail]. apply calm_bind; [apply calm_lift|]. intros text.
    apply calm_bind; [apply calm_lift|]. intros x. apply calm_ret.
Qed.
Lemma last_http : forall e m c fuel now path body w w' r, env_ok e -> http_receive_pack e m c fuel now path body w = (w', r) -> lastly w w' r.
Proof.
  intros e m c fuel now path body w w' r He E. unfold http_receive_pack in E. cbn [proto_new] in E. unfold mbind at 1 in E. cbn [lift] in E.
  unfold mbind at 1 in E.
  match type of E with context [git_receive_pack e m c fuel now ?pp body w] => pose proof (receive_first e m c fuel now pp body eq_refl w) as C;
    destruct (git_receive_pack e m c fuel now pp body w) as [w1 [[pp1 data]|x| |]]; cbn [fst] in C end;
    try (injection E as <- <-; apply lastly_calm; exact C).
  eapply lastly_after; [exact C|]. unfold mbind in E.
  destruct (git_receive_pack e m c fuel now pp1 data w1) as [w2 r2] eqn:E2. apply (last_receive _ _ _ _ _ _ _ _ _ _ He) in E2 as [L1 L2].
  destruct r2 as [[pp2 rep]|x| |]; unfold ret in E; injection E as <- <-; (split; [|exact L2]); intros N; try (apply L1; intros; discriminate).
  exfalso. eapply N. reflexivity.
Qed.

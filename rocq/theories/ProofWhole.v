(** Proofs that what is stored is complete at every moment, and that clones see it. *)

From Coq Require Import Permutation.
From Verif Require Import Base BaseLemmas Digest ModelUtils ModelObject ModelBase ModelDelta ModelPack ModelDecode ModelPkt ModelStorage ModelProto.
From Verif Require Import ModelLfs ModelGateway ModelService ModelConc.
From Verif Require Import SpecObject SpecIdx SpecBase SpecPack SpecDecode SpecPkt SpecPath SpecStorage SpecService SpecConc.
From Verif Require Import ProofUtf8 ProofObject ProofPack ProofPackAny ProofIdx ProofBase ProofDecode ProofNodes ProofStorage ProofPush ProofReq ProofGateway ProofPath ProofService ProofConc.
Open Scope N_scope.

(** ** The rows of a push contain all that their trees name *)

Section Closed.
Context (TM : list (hash * tree)) (BM : list (hash * blob)).
Context (HT : forall h t, bt_get h TM = Some t -> m_id (t_meta t) = h) (HB : forall h b, bt_get h BM = Some b -> m_id (b_meta b) = h).
Definition row_good (cl : list hash) (r : node_row) : Prop := n_type r = bs "blob" \/
  exists h t, bt_get h TM = Some t /\ n_type r = bs "tree" /\ n_git_id r = to_plain_str h /\ n_data r = m_data (t_meta t) /\
    forall i, In i (t_items t) -> In (ti_id i) cl.
Lemma row_good_more : forall cl cl' r, incl cl cl' -> row_good cl r -> row_good cl' r.
Proof. intros cl cl' r I [H|(h & t & H1 & H2 & H3 & H4 & H5)]; [left; exact H|]. right. exists h, t. auto 8. Qed.
Lemma flatten_add : forall n c n', add_child n c = Ok n' -> forall r, In r (flatten n') <-> In r (flatten n) \/ In r (flatten c).
Proof.
  intros [d row l] c n' H r. unfold add_child in H. cbn [tn_dir tn_row tn_children] in H. destruct d; [|discriminate]. injection H as <-.
  rewrite !flatten_node, flat_map_app, in_app_iff. cbn [flat_map]. rewrite app_nil_r. tauto.
Qed.
Lemma flatten_replace : forall d row a c b r, In r (flatten (TNode d row (a ++ c :: b))) <->
  r = row \/ In r (flat_map flatten a) \/ In r (flatten c) \/ In r (flat_map flatten b).
Proof. intros d row a c b r. rewrite flatten_node, flat_map_app, in_app_iff. cbn [flat_map]. rewrite in_app_iff. tauto. Qed.

Lemma build_rows : forall fuel items node cache node' cache', build_items fuel TM BM items node cache = Ok (node', cache') ->
  incl (flatten node) (flatten node') /\ incl cache cache' /\ (forall i, In i items -> In (ti_id i) cache') /\
  (forall h, In h cache' -> In h cache \/ exists r, In r (flatten node') /\ n_git_id r = to_plain_str h) /\
  (forall r, In r (flatten node') -> In r (flatten node) \/ row_good cache' r).
Proof.
  assert (BLOB : forall i items node cache node' cache' b n1,
    bt_get (ti_id i) BM = Some b -> add_child node (blob_to_node b i) = Ok n1 ->
    (incl (flatten n1) (flatten node') /\ incl (ti_id i :: cache) cache' /\ (forall j, In j items -> In (ti_id j) cache') /\
     (forall h, In h cache' -> In h (ti_id i :: cache) \/ exists r, In r (flatten node') /\ n_git_id r = to_plain_str h) /\
     (forall r, In r (flatten node') -> In r (flatten n1) \/ row_good cache' r)) ->
    incl (flatten node) (flatten node') /\ incl cache cache' /\ (forall j, In j (i :: items) -> In (ti_id j) cache') /\
    (forall h, In h cache' -> In h cache \/ exists r, In r (flatten node') /\ n_git_id r = to_plain_str h) /\
    (forall r, In r (flatten node') -> In r (flatten node) \/ row_good cache' r)).
  { intros i items node cache node' cache' b n1 Gb En (A1 & A2 & A3 & A4 & A5). pose proof (flatten_add _ _ _ En) as F. split; [|split; [|split; [|split]]].
    - intros r Hr. apply A1, F. auto.
    - intros h Hh. apply A2. right. exact Hh.
    - intros j [<-|Hj]; [apply A2; left; reflexivity|auto].
    - intros h Hh. apply A4 in Hh as [[<-|Hh]|Hh]; [|auto|auto]. right. exists (tn_row (blob_to_node b i)). split.
      + apply A1, F. right. left. reflexivity.
      + cbn. rewrite (HB _ _ Gb). reflexivity.
    - intros r Hr. apply A5 in Hr as [Hr|Hr]; [|auto]. apply F in Hr as [Hr|[<-|[]]]; [auto|]. right. left. reflexivity. }
  induction fuel as [|f IHf]; (induction items as [|i items IH]; intros node cache node' cache' E;
    [injection E as <- <-; split; [apply incl_refl|]; split; [apply incl_refl|]; split; [intros ? []|]; split; auto|]);
  cbn [build_items] in E;
  (destruct (existsb (beq (ti_id i)) cache) eqn:X;
   [apply existsb_beq in X; apply IH in E as (A1 & A2 & A3 & A4 & A5); split; [exact A1|]; split; [exact A2|]; split; [|split; [exact A4|exact A5]];
    intros j [<-|Hj]; [apply A2; exact X|auto]|]);
  destruct (is_tree_item i).
  - apply bind_ok in E as (t & Et & E). apply bind_ok in E as (n1 & En & E).
    apply bind_ok in E as ([[a ch] b] & Ef & E). discriminate.
  - apply bind_ok in E as (b & Eb & E). apply bind_ok in E as (n1 & En & E).
    destruct (bt_get (ti_id i) BM) as [b'|] eqn:Gb; [|discriminate]. injection Eb as ->. apply IH in E. eapply BLOB; eassumption.
  - apply bind_ok in E as (t & Et & E). apply bind_ok in E as (n1 & En & E).
    apply bind_ok in E as ([[a ch] b] & Ef & E). apply bind_ok in E as ([c1 k1] & E1 & E).
    destruct (bt_get (ti_id i) TM) as [t'|] eqn:Gt; [|discriminate]. injection Et as ->.
    apply IHf in E1 as (B1 & B2 & B3 & B4 & B5). apply IH in E as (A1 & A2 & A3 & A4 & A5).
    pose proof (flatten_add _ _ _ En) as F.
    assert (Ex : exists row, n1 = TNode true row (a ++ ch :: b)).
    { unfold find_child in Ef. destruct n1 as [d row l]. cbn [tn_dir tn_children] in Ef. destruct d; [|discriminate].
      destruct (split_child (ti_filename i) l) as [[[a' ch'] b']|] eqn:Es; [|discriminate]. injection Ef as -> -> ->.
      apply split_child_eq in Es. subst l. eauto. }
    destruct Ex as (row & ->). cbn [tn_row] in *.
    assert (N1 : incl (flatten (TNode true row (a ++ ch :: b))) (flatten (TNode true row (a ++ c1 :: b)))).
    { intros r Hr. apply flatten_replace in Hr. apply flatten_replace. destruct Hr as [Hr|[Hr|[Hr|Hr]]]; auto. }
    assert (N2 : forall r, In r (flatten c1) -> In r (flatten (TNode true row (a ++ c1 :: b)))) by (intros r Hr; apply flatten_replace; auto).
    assert (N3 : In (tn_row (tree_to_node t (Some i))) (flatten node')).
    { apply A1, N1, F. right. left. reflexivity. }
    split; [|split; [|split; [|split]]].
    + intros r Hr. apply A1, N1, F. auto.
    + intros h Hh. apply A2. right. apply B2. exact Hh.
    + intros j [<-|Hj]; [apply A2; left; reflexivity|auto].
    + intros h Hh. apply A4 in Hh as [[<-|Hh]|Hh]; [| |auto].
      * right. eexists. split; [exact N3|]. cbn. rewrite (HT _ _ Gt). reflexivity.
      * apply B4 in Hh as [Hh|(r & Hr & Er)]; [auto|]. right. exists r. split; [apply A1, N2; exact Hr|exact Er].
    + intros r Hr. apply A5 in Hr as [Hr|Hr]; [|auto].
      assert (K : In r (flatten (TNode true row (a ++ ch :: b))) \/ row_good k1 r).
      { apply flatten_replace in Hr. destruct Hr as [Hr|[Hr|[Hr|Hr]]];
          [left; apply flatten_replace; auto|left; apply flatten_replace; auto| |left; apply flatten_replace; auto].
        apply B5 in Hr as [Hr|Hr]; [|auto]. left. apply flatten_replace. auto. }
      destruct K as [K|K]; [|right; eapply row_good_more; [|exact K]; intros x Hx; apply A2; right; exact Hx].
      apply F in K as [K|[<-|[]]]; [auto|]. right. right. exists (ti_id i), t. split; [exact Gt|]. cbn. rewrite (HT _ _ Gt).
      repeat (split; [reflexivity|]). intros j Hj. apply A2. right. auto.
  - apply bind_ok in E as (b & Eb & E). apply bind_ok in E as (n1 & En & E).
    destruct (bt_get (ti_id i) BM) as [b'|] eqn:Gb; [|discriminate]. injection Eb as ->. apply IH in E. eapply BLOB; eassumption.
Qed.

Lemma build_commits_rows : forall fuel cs cache rows, build_commits fuel TM BM cs cache = Ok rows -> exists cache',
  incl cache cache' /\ (forall h, In h cache' -> In h cache \/ exists r, In r rows /\ n_git_id r = to_plain_str h) /\
  Forall (row_good cache') rows /\
  forall c, In c cs -> exists r, In r rows /\ n_git_id r = to_plain_str (cm_tree_id c) /\ n_type r = bs "tree".
Proof.
  intros fuel. induction cs as [|c cs IH]; intros cache rows E; cbn [build_commits] in E.
  - injection E as <-. exists cache. split; [apply incl_refl|]. split; [auto|]. split; [constructor|intros ? []].
  - apply bind_ok in E as (t & Et & E). apply bind_ok in E as ([root cache1] & Eb & E). apply bind_ok in E as (rest & Er & E).
    injection E as <-. destruct (bt_get (cm_tree_id c) TM) as [t'|] eqn:Gt; [|discriminate]. injection Et as ->.
    apply build_rows in Eb as (A1 & A2 & A3 & A4 & A5). destruct (IH _ _ Er) as (cache' & B1 & B2 & B3 & B4).
    exists cache'. split; [eapply incl_tran; eassumption|]. split; [|split].
    + intros h Hh. apply B2 in Hh as [Hh|(r & Hr & Eq)].
      * apply A4 in Hh as [Hh|(r & Hr & Eq)]; [auto|]. right. exists r. split; [apply in_or_app; auto|exact Eq].
      * right. exists r. split; [apply in_or_app; auto|exact Eq].
    + apply Forall_app. split; [|exact B3]. apply Forall_forall. intros r Hr. apply A5 in Hr as [Hr|Hr]; [|eapply row_good_more; eassumption].
      destruct Hr as [<-|[]]. right. exists (cm_tree_id c), t. split; [exact Gt|]. cbn. rewrite (HT _ _ Gt). repeat (split; [reflexivity|]). auto.
    + intros x [<-|Hx].
      * exists (tn_row (tree_to_node t None)). split; [apply in_or_app; left; apply A1; left; reflexivity|]. cbn. rewrite (HT _ _ Gt). auto.
      * destruct (B4 x Hx) as (r & Hr & K). exists r. split; [apply in_or_app; auto|exact K].
Qed.
End Closed.

Lemma fold_insert_key : forall A (key : A -> hash) l h x,
  bt_get h (fold_left (fun m a => bt_insert (key a) a m) l []) = Some x -> key x = h /\ In x l.
Proof.
  intros A key l h x G. apply bt_get_in in G. revert G.
  assert (K : forall l m, In (h, x) (fold_left (fun m a => bt_insert (key a) a m) l m) -> key x = h /\ In x l \/ In (h, x) m).
  { clear l. induction l as [|y l IH]; intros m K; [right; exact K|]. cbn [fold_left] in K. apply IH in K as [[K1 K2]|K]; [left; split; [exact K1|right; exact K2]|].
    apply bt_insert_in in K as [K|K]; [|right; exact K]. injection K as -> ->. left. split; [reflexivity|left; reflexivity]. }
  intros G. apply K in G as [G|[]]. exact G.
Qed.
(** What a successful construction of the rows guarantees. *)
Lemma node_tree_closed : forall fuel om rows, build_node_tree fuel om = Ok rows ->
  (forall t, In t (om_trees om) -> named (t_meta t) /\ m_t (t_meta t) = Tree /\ tree_new (t_meta t) = Ok t) ->
  (forall b, In b (om_blobs om) -> named (b_meta b) /\ m_t (b_meta b) = Blob) ->
  closed_rows rows /\ forall c, In c (om_commits om) -> exists r, In r rows /\ n_git_id r = to_plain_str (cm_tree_id c) /\ n_type r = bs "tree".
Proof.
  intros fuel om rows E HT HB. unfold build_node_tree in E.
  destruct (build_commits_rows _ _ (fun h t G => proj1 (fold_insert_key _ _ _ h t G)) (fun h b G => proj1 (fold_insert_key _ _ _ h b G)) _ _ _ _ E)
    as (cl & _ & C2 & C3 & C4).
  split; [|exact C4]. intros r x items i Hr Hn Bx Gt Hi. rewrite Forall_forall in C3. apply C3 in Hr.
  assert (Tr : n_type r = bs "tree") by (inversion Hn; assumption). assert (Dr : n_data r = x) by (inversion Hn; assumption).
  destruct Hr as [Hr|(h & t & G & _ & _ & Ed & Hc)]; [rewrite Tr in Hr; discriminate|].
  apply fold_insert_key in G as [Ek Ht]. destruct (HT _ Ht) as (Nm & Mt & Nw).
  destruct Nm as ([ty d] & hh & Hid & Em). rewrite Em in Nw, Mt, Ed. cbn in Mt, Ed. subst ty.
  assert (Exd : d = x) by congruence. rewrite Exd in Nw. rewrite (git_tree_new (as_meta (Tree, x) hh) items Gt) in Nw. injection Nw as <-. cbn [t_items] in Hc.
  destruct (C2 _ (Hc _ Hi)) as [[]|(r' & Hr' & Er')]. exists r'. split; [exact Hr'|]. rewrite Er'. apply plain_lower.
  pose proof (git_tree_ids _ _ Gt Bx) as F. rewrite Forall_forall in F. apply F. exact Hi.
Qed.
Lemma update_trees : forall k om, update_seq k omap_default = Ok om -> forall t, In t (om_trees om) -> tree_new (t_meta t) = Ok t.
Proof.
  intros k om H. unfold update_seq in H. apply bind_ok in H as (v & H & E). injection E as <-. cbn [om_trees].
  assert (K : forall l v0 v, push_all l v0 = Ok v -> forall t, In t (v_trees v) -> In t (v_trees v0) \/ tree_new (t_meta t) = Ok t).
  { clear v H. induction l as [|m l IH]; intros v0 v H t Ht; cbn [push_all] in H; [injection H as <-; auto|].
    apply bind_ok in H as (v1 & H1 & H). destruct (IH _ _ H t Ht) as [K|K]; [|auto].
    unfold push_object in H1. destruct (m_t m) eqn:T; try discriminate.
    - apply bind_ok in H1 as (x & Ex & H1). injection H1 as <-. auto.
    - apply bind_ok in H1 as (x & Ex & H1). injection H1 as <-. cbn [v_trees] in K.
      apply in_app_or in K as [K|[<-|[]]]; [auto|right]. rewrite (tree_new_meta _ _ Ex). exact Ex.
    - injection H1 as <-. auto.
    - apply bind_ok in H1 as (x & Ex & H1). injection H1 as <-. auto. }
  intros t Ht. destruct (K _ _ _ H t Ht) as [[]|X]. exact X.
Qed.

(** ** What one request adds *)

Definition sourced (d : db) (c : commit_row) : Prop := whole d c \/ derived d c.
Lemma lost_node : forall d d' r, nothing_lost d d' -> In r (d_nodes d) -> In r (d_nodes d').
Proof. intros d d' r [(l & E) _ _] H. rewrite E. apply in_or_app. auto. Qed.
Lemma lost_commit : forall d d' r, nothing_lost d d' -> In r (d_commits d) -> In r (d_commits d').
Proof. intros d d' r [_ (l & E) _] H. rewrite E. apply in_or_app. auto. Qed.
Lemma lost_ref : forall d d' r, nothing_lost d d' -> In r (d_refs d) -> exists r', In r' (d_refs d') /\ r_id r' = r_id r /\
  r_repo_path r' = r_repo_path r /\ r_ref_name r' = r_ref_name r.
Proof.
  intros d d' r [_ _ (l & E)] H.
  assert (K : In (r_id r, r_repo_path r, r_ref_name r) (map (fun r => (r_id r, r_repo_path r, r_ref_name r)) (d_refs d'))).
  { rewrite E. apply in_or_app. left. apply in_map_iff. eauto. }
  apply in_map_iff in K as (r' & K1 & K2). injection K1 as K1 K3 K4. eauto 6.
Qed.
Lemma whole_later : forall d d' c, nothing_lost d d' -> whole d c -> whole d' c.
Proof.
  intros d d' c L (l & H1 & H2 & H3). exists l. split; [|auto]. intros r Hr. eapply lost_node; [exact L|auto].
Qed.
Lemma derived_later : forall d d' c, nothing_lost d d' -> derived d c -> derived d' c.
Proof. intros d d' c L (r & H1 & H2 & H3). destruct (lost_ref _ _ _ L H1) as (r' & K1 & _ & K2 & _). exists r'. rewrite K2. auto. Qed.
Lemma sourced_later : forall d d' c, nothing_lost d d' -> sourced d c -> sourced d' c.
Proof. intros d d' c L [H|H]; [left; eapply whole_later; eassumption|right; eapply derived_later; eassumption]. Qed.

Section Guarantee.
Context (e : env) (He : env_ok e) (p : bytes) (V : db -> Prop) (HV : forall d, V d -> refs_table d).
Record step (d d' : db) : Prop := {
  st_table : refs_table d';
  st_only : only_at e p d d';
  st_source : forall c, In c (d_commits d') -> In c (d_commits d) \/ sourced d' c }.
Lemma step_same : forall d, V d -> step d d.
Proof. intros d Vd. split; [auto|apply only_refl|auto]. Qed.
Lemma step_lost : forall d d', step d d' -> nothing_lost d d'.
Proof. intros d d' [_ H _]. eapply only_lost. exact H. Qed.
Notation holds := (hold e step V).
Notation safely := (safe e step V).
Let bindh := hold_bind e step V step_lost.
Let thenh := hold_then e step V step_lost.
Let safeb := safe_bind e step V step_lost.
Let exech := hold_execute e step V step_same.
Let selh := hold_select e He step V step_same.
Let shufh := hold_shuffle e He step V step_same.

Lemma g_batches : forall bs d, Forall (Forall addressed_row) bs -> V d ->
  holds (fun _ d' => forall b r, In b bs -> In r b -> In r (d_nodes d')) (batches_p e bs) d.
Proof.
  induction bs as [|b bs IH]; intros d F Vd; cbn [batches_p]; [apply hold_ret; intros b r []|]. inversion F as [|? ? F1 F2]; subst.
  apply (bindh _ _ (fun (ok : bool) d' => ok = true -> forall r, In r b -> In r (d_nodes d'))).
  - apply exech; [|intros; discriminate]. intros d1 d2 V1 L E. destruct (step_nodes e p _ _ _ F1 E (HV _ V1)) as [T O].
    assert (E2 : d_nodes d2 = d_nodes d1 ++ b /\ d_commits d2 = d_commits d1).
    { unfold insert_nodes in E. destruct b as [|r b].
      - destruct (empty_insert e); [|discriminate]. injection E as <-. rewrite app_nil_r. auto.
      - destruct (forallb node_fits (r :: b)); [|discriminate]. injection E as <-. auto. }
    destruct E2 as [E2 E3]. split; [split; [exact T|exact O|]|].
    + intros c Hc. left. rewrite <- E3. exact Hc.
    + intros _ _ r Hr. rewrite E2. apply in_or_app. auto.
  - exact Vd.
  - intros ok d' V' L K. destruct ok; [|apply hold_lift; intros; discriminate].
    apply (hold_weaken e step V) with (Q := fun (_ : unit) d'' => (forall b0 r, In b0 bs -> In r b0 -> In r (d_nodes d'')) /\ (forall r, In r b -> In r (d_nodes d''))).
    + intros _ d'' _ [H1 H2] b0 r [<-|Hb] Hr; eauto.
    + exact V'.
    + apply (hold_frame e step V step_lost); [|auto|apply IH; assumption].
      intros d1 d2 H L' r Hr. eapply lost_node; [exact L'|auto].
Qed.
Lemma g_insert_all : forall ins d, V d ->
  Forall (fun f => forall d1 d2, V d1 -> nothing_lost d d1 -> f d1 = Some d2 -> step d1 d2) ins ->
  holds (fun _ _ => True) (insert_all_p ins) d.
Proof.
  induction ins as [|f ins IH]; intros d Vd F; cbn [insert_all_p]; [apply hold_ret; exact I|]. inversion F as [|? ? F1 F2]; subst.
  apply (bindh _ _ (fun _ _ => True)); [apply exech; auto|exact Vd|]. intros ok d' V' L _. apply IH; [exact V'|].
  eapply Forall_impl; [|exact F2]. cbn. intros g H d1 d2 V1 L1. apply H; [exact V1|]. eapply lost_trans; eassumption.
Qed.
Lemma g_insert_commits : forall l d1 d2, V d1 -> Forall (addressed_commit p) l -> Forall (sourced d1) l -> insert_commits l d1 = Some d2 -> step d1 d2.
Proof.
  intros l d1 d2 V1 F1 F2 E. destruct (step_commits e p _ _ _ F1 E (HV _ V1)) as [T O]. split; [exact T|exact O|].
  pose proof (only_lost _ _ _ _ O) as L. unfold insert_commits in E. destruct (forallb commit_fits l); [|discriminate]. injection E as <-.
  cbn [d_commits] in *. intros c Hc. apply in_app_or in Hc as [Hc|Hc]; [auto|right]. rewrite Forall_forall in F2.
  eapply sourced_later; [exact L|auto].
Qed.
Lemma g_save_commits : forall cs d, V d -> Forall good_commit cs -> (forall c, In c cs -> sourced d (commit_to_row p c)) ->
  holds (fun _ _ => True) (save_commits_p p cs) d.
Proof.
  intros cs d Vd F S. apply g_insert_all; [exact Vd|]. apply Forall_forall. intros f Hf. apply in_map_iff in Hf as (l & <- & Hl).
  intros d1 d2 V1 L E. assert (K : forall x, In x l -> exists c, In c cs /\ x = commit_to_row p c).
  { intros x Hx. pose proof (chunks_sub _ _ _ _ _ _ Hl Hx) as K. apply in_map_iff in K as (y & <- & Hy). eauto. }
  eapply g_insert_commits; [exact V1| | |exact E]; apply Forall_forall; intros x Hx; destruct (K x Hx) as (c & Hc & ->).
  - apply commit_row_addressed. rewrite Forall_forall in F. auto.
  - eapply sourced_later; [exact L|auto].
Qed.
Lemma g_ref : forall name id d1 d2, V d1 -> insert_ref p name id d1 = Some d2 -> step d1 d2.
Proof.
  intros name id d1 d2 V1 E. destruct (step_ref e p _ _ _ _ E (HV _ V1)) as [T O]. split; [exact T|exact O|].
  unfold insert_ref in E. cbv zeta in E. destruct (ref_fits _); [|discriminate]. injection E as <-. auto.
Qed.
Lemma g_save_objects : forall fuel om d, V d ->
  (forall t, In t (om_trees om) -> named (t_meta t) /\ m_t (t_meta t) = Tree /\ tree_new (t_meta t) = Ok t) ->
  (forall b, In b (om_blobs om) -> named (b_meta b) /\ m_t (b_meta b) = Blob) ->
  (forall c, In c (om_commits om) -> good_commit c) ->
  holds (fun _ _ => True) (save_objects_p e fuel om p) d.
Proof.
  intros fuel om d Vd HT HB HC. unfold save_objects_p.
  apply (bindh _ _ (fun rows _ => build_node_tree fuel om = Ok rows)); [apply hold_lift; auto|exact Vd|].
  intros rows d' V' L E. destruct (node_tree_closed _ _ _ E HT HB) as [C1 C2].
  assert (FA : Forall addressed_row rows).
  { unfold build_node_tree in E. eapply commit_rows_all; [| |exact E].
    - intros h t i G. apply fold_insert_key in G as [_ G]. apply HT in G as (G1 & G2 & _). apply tree_row_addressed; assumption.
    - intros h t i G. apply fold_insert_key in G as [_ G]. apply HB in G as (G1 & G2). apply blob_row_addressed; assumption. }
  apply (bindh _ _ (fun _ d' => forall r, In r rows -> In r (d_nodes d'))); [|exact V'|].
  - apply (hold_weaken e step V) with (Q := fun (_ : unit) d'' => forall b r, In b (batches 0 [] rows) -> In r b -> In r (d_nodes d'')).
    + intros _ d'' _ H r Hr. assert (K : In r (concat (batches 0 [] rows))) by (rewrite batches_concat; exact Hr).
      apply in_concat in K as (b & Hb & Hr'). eauto.
    + exact V'.
    + apply g_batches; [|exact V']. apply concat_forall. rewrite batches_concat. exact FA.
  - intros _ d2 V2 L2 Hin. apply g_save_commits; [exact V2|apply Forall_forall; exact HC|].
    intros c Hc. left. destruct (C2 c Hc) as (r & Hr & Er & Tr). exists rows. split; [exact Hin|]. split; [exact C1|]. exists r. auto.
Qed.
Lemma g_save_packfile : forall fuel k d, V d -> all_named k -> holds (fun _ _ => True) (save_packfile_p e fuel k p) d.
Proof.
  intros fuel k d Vd N. unfold save_packfile_p.
  apply (bindh _ _ (fun om _ => update_seq k omap_default = Ok om)); [apply hold_lift; auto|exact Vd|].
  intros om d0 V0 _ U. destruct (update_named _ _ U N) as (HT & HB & HC). pose proof (update_trees _ _ U) as HT'.
  apply (bindh _ _ (fun l _ => Permutation l (om_blobs om))); [apply shufh; auto|exact V0|]. intros bs d1 V1 _ Pb.
  apply (bindh _ _ (fun l _ => Permutation l (om_trees om))); [apply shufh; auto|exact V1|]. intros ts d2 V2 _ Pt.
  apply (bindh _ _ (fun l _ => True)); [apply shufh; auto|exact V2|]. intros gs d3 V3 _ _.
  apply (bindh _ _ (fun l _ => Permutation l (om_commits om))); [apply shufh; auto|exact V3|]. intros cs d4 V4 _ Pc.
  apply g_save_objects; cbn [om_trees om_blobs om_commits]; [exact V4|..].
  - intros t Ht. apply (Permutation_in _ Pt) in Ht. destruct (HT _ Ht). auto.
  - intros b Hb. apply (Permutation_in _ Pb) in Hb. auto.
  - intros c Hc. apply (Permutation_in _ Pc) in Hc. auto.
Qed.
Lemma g_one : forall T (q : db -> list T) d,
  holds (fun o d' => forall x, o = Some x -> In x (q d')) (one_row q) d.
Proof.
  intros T q d. unfold one_row, pbind, do. cbn [then_any]. cbn [hold]. intros w L Vw.
  pose proof (reads_select _ e q w) as (E & _). cbn [perform]. rewrite E. split; [apply step_same; exact Vw|]. intros _.
  destruct (snd (select e q w)) as [l|x| |] eqn:S; try (apply hold_lift; intros; discriminate).
  apply hold_ret. intros x Hx. apply (select_snd e He) in S. eapply Permutation_in; [exact S|]. destruct l; [discriminate|]. injection Hx as ->. left. reflexivity.
Qed.
(** A row is read again. *)
Lemma g_back : forall i (P : Prop) d, V d -> P ->
  holds (fun (_ : unit) _ => P) (let* back := one_row (fun d => filter (fun x => r_id x =? i) (d_refs d)) in let* _ := PRet (unwrap_opt back) in pret tt) d.
Proof.
  intros i P d Vd HP. apply (bindh _ _ (fun _ _ => True)); [eapply (hold_weaken e step V); [|exact Vd|apply g_one]; auto|exact Vd|].
  intros o d1 V1 _ _. apply (bindh _ _ (fun _ _ => True)); [apply hold_lift; auto|exact V1|]. intros _ d2 V2 _ _. apply hold_ret. exact HP.
Qed.
(** At some moment a reference had the old id of the command. *)
Definition seen (cmd : ref_command) : Prop := exists D r, V D /\ In r (d_refs D) /\ teq e (r_ref_git_id r) (rc_old_id cmd) = true /\ teq e (r_repo_path r) p = true.
Lemma g_handle_seen : forall cmd d, V d -> holds (fun _ _ => rc_type cmd = Update -> seen cmd) (handle_refs_p e cmd p) d.
Proof.
  intros cmd d Vd. unfold handle_refs_p. destruct (rc_type cmd).
  - eapply (hold_weaken e step V); [|exact Vd|apply g_insert_all; [exact Vd|]]; [intros; discriminate|].
    constructor; [|constructor]. intros d1 d2 V1 _. apply g_ref. exact V1.
  - apply hold_lift. intros; discriminate.
  - unfold update_refs_p.
    apply (bindh _ _ (fun o d' => forall r, o = Some r -> In r (d_refs d') /\ teq e (r_repo_path r) p = true /\ seen cmd)); [|exact Vd|].
    + eapply (hold_weaken e step V); [|exact Vd|apply g_one]. intros o d' Vd' H r Hr. cbn beta in H. apply H in Hr.
      apply filter_In in Hr as [H1 H2]. apply andb_prop in H2 as [H0 H2]. split; [exact H1|]. split; [exact H2|]. exists d', r. auto.
    + intros o d' V' _ H. apply (bindh _ _ (fun r _ => o = Some r)); [|exact V'|].
      { apply hold_lift. intros r E. destruct o; [injection E as ->; reflexivity|discriminate]. }
      intros r d2 V2 L2 ->. destruct (H r eq_refl) as (H1 & H2 & H3). destruct (lost_ref _ _ _ L2 H1) as (r2 & K1 & K2 & K3 & _).
      apply (bindh _ _ (fun _ _ => True)); [|exact V2|intros [|] d3 V3 _ _; [apply g_back; [exact V3|intros _; exact H3]|apply hold_lift; auto]].
      apply exech; [|auto]. intros d3 d4 V3 L3 E. split; [|auto]. destruct (lost_ref _ _ _ L3 K1) as (r3 & M1 & M2 & M3 & _).
      destruct (step_set e p (r_id r) (rc_new_id cmd) d3 d4 r3 M1) as [T O]; [congruence|rewrite M3, K3; exact H2|exact E|exact (HV _ V3)|].
      split; [exact T|exact O|]. unfold set_ref in E. destruct (varchar 40 (rc_new_id cmd)); [|discriminate]. injection E as <-. auto.
Qed.
Lemma g_handle : forall cmd d, V d -> holds (fun _ _ => True) (handle_refs_p e cmd p) d.
Proof. intros cmd d Vd. eapply (hold_weaken e step V); [|exact Vd|apply g_handle_seen; exact Vd]. auto. Qed.
Lemma g_receive : forall m c fuel now pp body d, V d -> pp_path pp = p ->
  holds (fun x _ => pp_path (fst x) = p /\ pp_service (fst x) = pp_service pp) (receive_p e m c fuel now pp body) d.
Proof.
  intros m c fuel now pp body d Vd Hp. unfold receive_p. rewrite Hp. destruct (starts_with (bs "PACK") body).
  - apply (bindh _ _ (fun _ _ => True)); [apply hold_lift; auto|exact Vd|]. intros cmd d1 V1 _ _.
    apply (bindh _ _ (fun _ _ => True)); [apply (hold_write e step V step_same); auto|exact V1|]. intros _ d2 V2 _ _.
    apply (bindh _ _ (fun _ _ => True)); [apply (hold_read e step V step_same); auto|exact V2|]. intros file d3 V3 _ _.
    apply (bindh _ _ (fun pk _ => all_named (p_cache pk))); [apply (hold_unpack e step V step_same); auto|exact V3|]. intros pk d4 V4 _ N.
    cbv zeta. apply (bindh _ _ (fun _ _ => True)); [|exact V4|].
    { apply (thenh _ _ (fun _ _ => True)); [apply g_save_packfile; assumption|exact V4|]. intros r d5 V5 _ _.
      destruct r; try (apply hold_lift; auto). apply (bindh _ _ (fun _ _ => True)); [apply g_handle; exact V5|exact V5|].
      intros _ d6 V6 _ _. apply hold_ret. exact I. }
    intros cmd2 d5 V5 _ _. apply (bindh _ _ (fun _ _ => True)); [apply (hold_remove e step V step_same); auto|exact V5|].
    intros _ d6 V6 _ _. apply hold_ret. auto.
  - apply (bindh _ _ (fun _ _ => True)); [apply hold_lift; auto|exact Vd|]. intros [[n line] rest] d1 V1 _ _.
    destruct ((n =? 0) && _); [apply hold_ret; auto|].
    apply (bindh _ _ (fun _ _ => True)); [apply hold_lift; auto|exact V1|]. intros [cmd tail] d2 V2 _ _.
    apply (bindh _ _ (fun _ _ => True)); [apply hold_lift; auto|exact V2|]. intros text d3 V3 _ _.
    apply (bindh _ _ (fun _ _ => True)); [apply hold_lift; auto|exact V3|]. intros r d4 V4 _ _. apply hold_ret. auto.
Qed.
(** The reply to a pack. *)
Lemma g_pack_reply : forall m c fuel now pp cmd body d, V d -> pp_path pp = p -> pp_cmds pp = [cmd] -> starts_with (bs "PACK") body = true ->
  holds (fun x _ => (rc_type cmd = Update -> seen cmd) /\ snd x = report (pp_caps pp) [cmd_unpacked cmd None] \/
                    snd x = report (pp_caps pp) [cmd_failed (cmd_unpacked cmd None) (bs "db operation failed")])
    (receive_p e m c fuel now pp body) d.
Proof.
  intros m c fuel now pp cmd body d Vd Hp Hc Hb. unfold receive_p. rewrite Hp, Hb, Hc. unfold pbind at 1. cbn [length Nat.sub nth_error unwrap_opt then_any].
  apply (bindh _ _ (fun _ _ => True)); [apply (hold_write e step V step_same); auto|exact Vd|]. intros _ d2 V2 _ _.
  apply (bindh _ _ (fun _ _ => True)); [apply (hold_read e step V step_same); auto|exact V2|]. intros file d3 V3 _ _.
  apply (bindh _ _ (fun pk _ => all_named (p_cache pk))); [apply (hold_unpack e step V step_same); auto|exact V3|]. intros pk d4 V4 _ N.
  cbv zeta.
  apply (bindh _ _ (fun x _ => (rc_type cmd = Update -> seen cmd) /\ x = cmd_unpacked cmd None \/ x = cmd_failed (cmd_unpacked cmd None) (bs "db operation failed"))); [|exact V4|].
  { apply (thenh _ _ (fun _ _ => True)); [apply g_save_packfile; assumption|exact V4|]. intros r d5 V5 _ _.
    destruct r; try (apply hold_lift; intros; discriminate); [|apply hold_ret; right; reflexivity].
    eapply bindh; [apply g_handle_seen; exact V5|exact V5|].
    intros u d6 V6 _ K. cbv beta in K. apply hold_ret. left. split; [exact K|reflexivity]. }
  intros cmd2 d5 V5 _ K. apply (bindh _ _ (fun _ _ => True)); [apply (hold_remove e step V step_same); auto|exact V5|].
  intros _ d6 V6 _ _. apply hold_ret. cbn [set_last removelast app snd]. destruct K as [[K E]|E]; rewrite E; auto.
Qed.
Lemma g_http_receive : forall m c fuel now body, safely (http_receive_p e m c fuel now p body).
Proof.
  intros m c fuel now body d Vd. unfold http_receive_p.
  apply (bindh _ _ (fun pp _ => pp_path pp = p)); [apply hold_lift; intros pp H; cbn [proto_new] in H; injection H as <-; reflexivity|exact Vd|].
  intros pp d1 V1 _ Hp. eapply bindh; [apply g_receive; [exact V1|exact Hp]|exact V1|]. intros [pp1 data] d2 V2 _ [Hp1 _].
  eapply bindh; [apply g_receive; [exact V2|exact Hp1]|exact V2|]. intros [pp2 reply] d3 V3 _ _. apply hold_ret. exact I.
Qed.
Lemma g_child : forall r d, V d -> In r (d_refs d) -> within p (r_repo_path r) -> r_repo_path r <> p ->
  holds (fun _ _ => True) (child_p e r p) d.
Proof.
  intros r d Vd Hr Hs Hn. unfold child_p.
  set (P := fun d => exists r', In r' (d_refs d) /\ r_repo_path r' = r_repo_path r).
  assert (SP : forall d1 d2, P d1 -> nothing_lost d1 d2 -> P d2).
  { intros d1 d2 (r1 & H1 & H2) L. destruct (lost_ref _ _ _ L H1) as (r2 & K1 & _ & K2 & _). exists r2. split; [exact K1|congruence]. }
  assert (Pd : P d) by (exists r; auto).
  apply (bindh _ _ (fun _ _ => True)); [apply (safe_one e He step V step_same step_lost); exact Vd|exact Vd|]. intros o d1 V1 L1 _.
  apply (bindh _ _ (fun _ _ => True)); [apply hold_lift; auto|exact V1|]. intros row d2 V2 L2 _.
  apply (bindh _ _ (fun _ _ => True)); [|exact V2|].
  { unfold search_root_p. apply (bindh _ _ (fun _ _ => True)); [apply hold_lift; auto|exact V2|]. intros name d3 V3 _ _.
    apply (bindh _ _ (fun _ _ => True)); [apply (safe_one e He step V step_same step_lost); exact V3|exact V3|]. intros [n|] d4 V4 _ _; [apply hold_ret; exact I|].
    apply (safe_one e He step V step_same step_lost). exact V4. }
  intros [n|] d3 V3 L3 _; [|apply hold_ret; exact I].
  apply (bindh _ _ (fun c _ => good_commit c)); [|exact V3|].
  { apply hold_lift. intros c H. unfold build_from_model_and_root in H. cbv zeta in H.
    apply bind_ok in H as (cm & _ & H). apply bind_ok in H as (c0 & _ & H). apply bind_ok in H as (i & _ & H).
    apply bind_ok in H as (m & Hm & H). injection H as <-. apply unwrap_ok in Hm. apply meta_new_as in Hm as (h & Hh & ->).
    split; [|reflexivity]. cbn [cm_meta]. eexists _, h. split; [exact Hh|reflexivity]. }
  intros c d4 V4 L4 Gc. apply (bindh _ _ (fun _ _ => True)); [|exact V4|].
  { apply g_save_commits; [exact V4|constructor; [exact Gc|constructor]|]. intros x [<-|[]]. right.
    destruct (SP _ _ Pd (lost_trans _ _ _ L1 (lost_trans _ _ _ L2 (lost_trans _ _ _ L3 L4)))) as (r4 & K1 & K2). exists r4.
    unfold commit_to_row. cbn [c_repo_path]. rewrite K2. auto. }
  intros _ d5 V5 _ _. apply (bindh _ _ (fun _ _ => True)); [|exact V5|intros _ d6 V6 _ _; apply hold_ret; exact I].
  apply g_insert_all; [exact V5|]. constructor; [|constructor]. intros d6 d7 V6 _. apply g_ref. exact V6.
Qed.
Lemma g_head : safely (head_p e p).
Proof.
  intros d Vd. unfold head_p.
  apply (bindh _ _ (fun rows d' => forall r, In r rows -> In r (d_refs d'))); [|exact Vd|].
  { apply selh. intros d' l V' _ P r Hr. apply (Permutation_in _ P) in Hr. apply filter_In in Hr. apply Hr. }
  intros rows d1 V1 _ Hin. destruct (find (fun r => beq p (r_repo_path r)) rows) eqn:F1; [apply hold_ret; exact I|].
  destruct (find (fun r => path_starts_with p (r_repo_path r)) rows) as [r|] eqn:F2; [|apply hold_ret; exact I]. apply find_some in F2 as [H1 H2].
  apply g_child; [exact V1|auto|apply starts_with_within; exact H2|]. intros E. pose proof (find_none _ _ F1 _ H1) as K. cbn beta in K. rewrite E, beq_refl in K. discriminate.
Qed.
Lemma g_info : forall pp, pp_path pp = p -> safely (info_refs_p e pp).
Proof.
  intros pp Hp. unfold info_refs_p. rewrite Hp. apply safeb; [apply safe_lift|]. intros s. apply safeb; [apply g_head|]. intros h.
  apply safeb; [|intros l; apply safe_ret]. unfold get_ref_object_id_p. apply safeb; [apply (safe_select e He step V step_same)|].
  intros l. apply (safe_shuffle e He step V step_same).
Qed.
Lemma g_ssh_data : forall m c fuel cut now pp data d, V d -> pp_path pp = p ->
  holds (fun x _ => pp_path (fst x) = p) (ssh_data_p e m c fuel cut now pp data) d.
Proof.
  intros m c fuel cut now pp data d Vd Hp. unfold ssh_data_p. destruct (pp_service pp) as [[|]|] eqn:S.
  - eapply bindh; [apply (upload_keeps e He step V step_same step_lost); exact Vd|exact Vd|].
    intros [[pp' pack] buf] d1 V1 _ [K1 K2]. cbn [fst] in K1. apply (bindh _ _ (fun _ _ => True)); [apply hold_lift; auto|exact V1|].
    intros u d2 V2 _ _. apply hold_ret. cbn [fst]. congruence.
  - eapply (hold_weaken e step V); [|exact Vd|apply g_receive; assumption]. intros x d' _ [H _]. exact H.
  - apply hold_lift. intros; discriminate.
Qed.
Lemma g_session : forall m c fuel cut now packets pp d, V d -> pp_path pp = p ->
  holds (fun _ _ => True) (ssh_session_p e m c fuel cut now pp packets) d.
Proof.
  intros m c fuel cut now. induction packets as [|x packets IH]; intros pp d Vd Hp; cbn [ssh_session_p]; [apply hold_ret; exact I|].
  eapply bindh; [apply g_ssh_data; assumption|exact Vd|]. intros [pp1 a] d1 V1 _ H1. cbn [fst] in H1.
  apply (bindh _ _ (fun _ _ => True)); [apply IH; assumption|exact V1|]. intros [pp2 r] d2 V2 _ _. apply hold_ret. exact I.
Qed.
Lemma g_command : forall cmd path d, V d -> nth_error (split_on 32 cmd) 1 = Some path -> (7 <= length path)%nat ->
  p = firstn (length path - 7) (skipn 2 path) -> holds (fun x _ => pp_path (fst x) = p) (ssh_command_p e cmd) d.
Proof.
  intros cmd path d Vd Hn Hl Ep. unfold ssh_command_p. cbv zeta. rewrite Hn.
  apply (bindh _ _ (fun x _ => x = path)); [apply hold_lift; intros x E; injection E as ->; reflexivity|exact Vd|]. intros x d1 V1 _ ->.
  apply (bindh _ _ (fun n _ => n = (length path - 5)%nat)); [|exact V1|].
  { apply hold_lift. intros n E. destruct (length path <? 5)%nat; [discriminate|]. injection E as <-. reflexivity. }
  intros n d2 V2 _ ->. apply (bindh _ _ (fun x _ => x = p)); [|exact V2|].
  { apply hold_lift. intros r E. unfold slice in E. destruct (2 <=? length path - 5)%nat eqn:L; [|discriminate].
    destruct (length path - 5 <=? length path)%nat; [|discriminate]. injection E as <-. rewrite Ep. f_equal. lia. }
  intros r d3 V3 _ ->. apply (bindh _ _ (fun x _ => x = p)); [|exact V3|].
  { apply hold_lift. intros r E. unfold utf8_unwrap in E. destruct (utf8_valid p); [|discriminate]. injection E as <-. reflexivity. }
  intros r d4 V4 _ ->. apply (bindh _ _ (fun pp _ => pp_path pp = p)); [apply hold_lift; intros pp E; eapply proto_new_path; exact E|exact V4|].
  intros pp d5 V5 _ Hp. apply (bindh _ _ (fun _ _ => True)); [apply g_info; [exact Hp|exact V5]|exact V5|]. intros reply d6 V6 _ _.
  apply (bindh _ _ (fun _ _ => True)); [apply hold_lift; auto|exact V6|]. intros u d7 V7 _ _. apply hold_ret. exact Hp.
Qed.
Lemma g_serve : forall b c fuel cut r, about r p -> safely (serve_p e b c fuel cut r).
Proof.
  intros b c fuel cut r H d Vd. destruct r as [now m path service q body|now cmd packets].
  - unfold serve_p. inversion H as [? ? ? ? ? ? s repo G|? ? ? ? ? ? repo G|? ? ? ? ? ? repo G|]; subst;
    rewrite G; (apply (bindh _ _ (fun a _ => Ok a = gateway m path service q)); [apply hold_lift; intros a K; rewrite G; symmetry; exact K|exact Vd|]);
    intros a d1 V1 _ K; rewrite G in K; injection K as ->.
    + unfold http_info_refs_p. apply (bindh _ _ (fun pp _ => pp_path pp = p)); [apply hold_lift; intros pp E; eapply proto_new_path; exact E|exact V1|].
      intros pp d2 V2 _ Hp. apply g_info; assumption.
    + apply (safe_http_upload e He step V step_same step_lost). exact V1.
    + apply g_http_receive. exact V1.
  - apply about_ssh in H as (path & Hn & Hl & Ep). unfold serve_p.
    eapply bindh; [eapply g_command; eassumption|exact Vd|]. intros [pp a] d1 V1 _ Hp. cbn [fst] in Hp.
    apply (bindh _ _ (fun _ _ => True)); [apply g_session; assumption|exact V1|]. intros [pp2 s] d2 V2 _ _. apply hold_ret. exact I.
Qed.
End Guarantee.

(** Requests that are about no repository do nothing. *)
Lemma idle_serve : forall e b c fuel cut r, (forall p, ~ about r p) -> exists o, serve_p e b c fuel cut r = PRet o.
Proof.
  intros e b c fuel cut r H. destruct r as [now m path service q body|now cmd packets].
  - unfold serve_p. destruct (gateway m path service q) as [a|x| |] eqn:G; try (eexists; reflexivity).
    destruct a; try (eexists; reflexivity); exfalso.
    + eapply H. eapply ab_info. exact G.
    + eapply H. eapply ab_fetch. exact G.
    + eapply H. eapply ab_push. exact G.
  - unfold serve_p, ssh_command_p. destruct (nth_error (split_on 32 cmd) 1) as [path|] eqn:Hn; [|eexists; reflexivity].
    cbn [unwrap_opt pbind then_any]. destruct (length path <? 5)%nat; [eexists; reflexivity|]. unfold slice.
    cbn [pbind then_any]. destruct (2 <=? length path - 5)%nat eqn:L; [|eexists; reflexivity]. apply Nat.leb_le in L.
    exfalso. eapply H. apply about_ssh. exists path. split; [exact Hn|]. split; [lia|reflexivity].
Qed.

(** ** Interleavings *)

Lemma perform_log : forall e X (a : act X) w, let w' := fst (perform e a w) in
  w_db w' = w_db w /\ w_log w' = w_log w \/ w_log w' = w_log w ++ [w_db w'].
Proof.
  intros e X a w w'. unfold w'. clear w'. destruct a as [T q|f|T l|q x|q|q|m c fuel file]; cbn [perform]; try (left; split; reflexivity).
  - left. destruct (reads_select _ e q w) as (H1 & H2 & _). auto.
  - unfold execute, mbind. destruct (attempt w) as [w1 r] eqn:E.
    assert (S1 : same w w1) by (change w1 with (fst (w1, r)); rewrite <- E; apply reads_attempt). destruct S1 as (S1 & S2 & _).
    destruct r as [[|]|x| |]; cbn [fst]; try (left; split; assumption). destruct (f (w_db w1)) as [d|]; cbn [fst]; [|left; auto].
    right. cbn [w_log w_db]. rewrite S2. reflexivity.
  - left. unfold remove_temp. destruct (fs_get (w_files w) q); auto.
Qed.
Lemma set_nth_same : forall A (l : list A) i x y, nth_error l i = Some y -> nth_error (set_nth i x l) i = Some x.
Proof. induction l as [|z l IH]; intros [|i] x y H; cbn in *; try discriminate; [reflexivity|]. eapply IH. exact H. Qed.
Lemma set_nth_other : forall A (l : list A) i j x, i <> j -> nth_error (set_nth i x l) j = nth_error l j.
Proof. induction l as [|z l IH]; intros [|i] [|j] x H; cbn; try reflexivity; try contradiction. apply IH. auto. Qed.

Section Interleave.
Context (e : env) (G : nat -> db -> db -> Prop) (V : db -> Prop) (Q : nat -> bytes -> db -> Prop).
Context (Gl : forall i d d', G i d d' -> nothing_lost d d') (Qs : forall i a d d', Q i a d -> nothing_lost d d' -> Q i a d').
Definition all_hold (ts : serving) (d : db) : Prop := forall i p, nth_error ts i = Some p -> hold e (G i) V (Q i) p d.

(** One action of one of them. *)
Lemma advance_holds : forall i ts w, V (w_db w) -> all_hold ts (w_db w) ->
  let ts' := fst (advance e i ts w) in let w' := snd (advance e i ts w) in
  (ts' = ts /\ w' = w \/ G i (w_db w) (w_db w') /\ (w_db w' = w_db w /\ w_log w' = w_log w \/ w_log w' = w_log w ++ [w_db w'])) /\
  nothing_lost (w_db w) (w_db w') /\ (V (w_db w') -> all_hold ts' (w_db w')).
Proof.
  intros i ts w Vw H ts' w'. unfold ts', w'. clear ts' w'. unfold advance.
  destruct (nth_error ts i) as [[r|X a k]|] eqn:N;
    try (cbn [fst snd]; split; [left; auto|]; split; [apply lost_refl|auto]).
  pose proof (H _ _ N (w) (lost_refl _) Vw) as [H1 H2]. pose proof (perform_log e X a w) as PL. cbv zeta in PL.
  destruct (perform e a w) as [w1 r1]. cbn [fst snd] in *. pose proof (Gl _ _ _ H1) as L. split; [right; auto|]. split; [exact L|].
  intros V1 j p Hj. destruct (Nat.eq_dec i j) as [<-|Ne].
  - rewrite (set_nth_same _ _ _ _ _ N) in Hj. injection Hj as <-. exact (H2 V1).
  - rewrite set_nth_other in Hj by exact Ne. eapply hold_later; [apply Qs|exact L|]. auto.
Qed.
Lemma interleave_holds : forall schedule ts w, (forall s1 s2, schedule = s1 ++ s2 -> V (w_db (snd (interleave e s1 ts w)))) ->
  all_hold ts (w_db w) -> let w' := snd (interleave e schedule ts w) in
  all_hold (fst (interleave e schedule ts w)) (w_db w') /\ nothing_lost (w_db w) (w_db w').
Proof.
  induction schedule as [|i s IH]; intros ts w HV H w'; [split; [exact H|apply lost_refl]|]. unfold w'. clear w'. cbn [interleave].
  pose proof (HV [] (i :: s) eq_refl) as V0. cbn [interleave snd] in V0.
  destruct (advance_holds i ts w V0 H) as (_ & L & K). destruct (advance e i ts w) as [ts1 w1] eqn:E. cbn [fst snd] in L, K.
  assert (HV1 : forall s1 s2, s = s1 ++ s2 -> V (w_db (snd (interleave e s1 ts1 w1)))).
  { intros s1 s2 Es. specialize (HV (i :: s1) s2). cbn [interleave app] in HV. rewrite E in HV. apply HV. rewrite Es. reflexivity. }
  destruct (IH ts1 w1 HV1) as [I1 I2]; [apply K; exact (HV1 [] s eq_refl)|]. split; [exact I1|]. eapply lost_trans; eassumption.
Qed.
(** When [V] is kept by every action. *)
Lemma interleave_chain : (forall i d d', V d -> G i d d' -> V d') -> forall schedule ts w, V (w_db w) -> all_hold ts (w_db w) ->
  exists k, w_log (snd (interleave e schedule ts w)) = w_log w ++ k /\
    chain (fun d d' => V d' /\ exists i p, nth_error ts i = Some p /\ G i d d') (w_db w) k (w_db (snd (interleave e schedule ts w))) /\
    V (w_db (snd (interleave e schedule ts w))).
Proof.
  intros VG. induction schedule as [|i s IH]; intros ts w Vw H.
  - exists []. rewrite app_nil_r. split; [reflexivity|]. split; [reflexivity|exact Vw].
  - cbn [interleave]. destruct (advance_holds i ts w Vw H) as (S & L & K).
    assert (Lt : forall j p, nth_error (fst (advance e i ts w)) j = Some p -> exists q, nth_error ts j = Some q).
    { intros j p Hj. unfold advance in Hj. destruct (nth_error ts i) as [[r|X a k]|] eqn:N; cbn [fst] in Hj; eauto.
      destruct (perform e a w). cbn [fst] in Hj. destruct (Nat.eq_dec i j) as [<-|Ne]; [eauto|]. rewrite set_nth_other in Hj by exact Ne. eauto. }
    assert (Ni : forall q, G i (w_db w) q -> fst (advance e i ts w) = ts \/ exists p, nth_error ts i = Some p).
    { intros q _. unfold advance. destruct (nth_error ts i) as [p|]; eauto. }
    assert (Si : snd (advance e i ts w) = w \/ exists p, nth_error ts i = Some p).
    { unfold advance. destruct (nth_error ts i) as [p|]; eauto. }
    destruct (advance e i ts w) as [ts1 w1] eqn:E. cbn [fst snd] in *.
    assert (V1 : V (w_db w1)) by (destruct S as [[_ ->]|[S _]]; eauto).
    destruct (IH ts1 w1 V1 (K V1)) as (k & E1 & C1 & Z1).
    assert (C2 : chain (fun d d' => V d' /\ exists i p, nth_error ts i = Some p /\ G i d d') (w_db w1) k (w_db (snd (interleave e s ts1 w1)))).
    { eapply chain_impl; [|exact C1]. intros x y (Vy & j & p & Hj & Gj). split; [exact Vy|]. destruct (Lt _ _ Hj) as (q & Hq). eauto. }
    destruct S as [[-> ->]|[S [[S1 S2]|S1]]].
    + exists k. auto.
    + exists k. rewrite E1, S2. split; [reflexivity|]. rewrite <- S1. auto.
    + destruct Si as [->|(p & Hp)]; [exists k; auto|]. exists (w_db w1 :: k). split; [rewrite E1, S1, <- app_assoc; reflexivity|].
      split; [|exact Z1]. split; [|exact C2]. split; [exact V1|]. eauto.
Qed.
End Interleave.

(** Proofs about the construction of node rows from the trees of a pack. *)

From Coq Require Import Permutation.
From Verif Require Import Base BaseLemmas ModelObject ModelBase ModelPack ModelDecode ModelPkt ModelStorage.
Open Scope N_scope.

Section Build.
Context (TM : list (hash * tree)) (BM : list (hash * blob)).

Definition good_item (i : tree_item) : Prop :=
  if is_tree_item i then exists t, bt_get (ti_id i) TM = Some t else exists b, bt_get (ti_id i) BM = Some b.

Inductive row_of : node_row -> hash -> Prop :=
| ro_tree : forall h t name mode, bt_get h TM = Some t ->
    row_of (mkNode (to_plain_str (m_id (t_meta t))) (bs "tree") name mode (m_data (t_meta t))) h
| ro_blob : forall h b name mode, bt_get h BM = Some b ->
    row_of (mkNode (to_plain_str (m_id (b_meta b))) (bs "blob") name mode (m_data (b_meta b))) h.

(** [h] is the id of an entry below [items]. *)
Inductive under : list tree_item -> hash -> Prop :=
| u_item : forall items i, In i items -> under items (ti_id i)
| u_step : forall items i t h, In i items -> is_tree_item i = true -> bt_get (ti_id i) TM = Some t ->
    under (t_items t) h -> under items h.

Lemma split_child_last : forall name l c, ~ In name (map (fun x => n_name (tn_row x)) l) ->
  n_name (tn_row c) = name -> split_child name (l ++ [c]) = Some (l, c, []).
Proof.
  induction l as [|x l IH]; intros c H E; cbn [app split_child].
  - rewrite E, beq_refl. reflexivity.
  - cbn [map In] in H. destruct (beq (n_name (tn_row x)) name) eqn:B.
    + apply beq_eq in B. tauto.
    + rewrite IH; [reflexivity|tauto|assumption].
Qed.

Lemma existsb_beq : forall h l, existsb (beq h) l = true <-> In h l.
Proof.
  intros h l. rewrite existsb_exists. split.
  - intros (x & H & E). apply beq_eq in E. subst. assumption.
  - intros H. exists h. split; [assumption|apply beq_refl].
Qed.

Context (disjoint : forall h t b, bt_get h TM = Some t -> bt_get h BM = Some b -> False).

Definition closed_in (ids all : list hash) : Prop :=
  forall h t i, In h ids -> bt_get h TM = Some t -> In i (t_items t) -> In (ti_id i) all.

Record built (items : list tree_item) (node : tnode) (cache : list hash) (node' : tnode) (cache' : list hash)
  (kids : list tnode) (ids : list hash) : Prop := {
  bu_node : node' = TNode true (tn_row node) (tn_children node ++ kids);
  bu_cache : cache' = ids ++ cache;
  bu_rows : forall r, In r (flat_map flatten kids) -> exists h, In h ids /\ row_of r h;
  bu_ids : forall h, In h ids -> exists r, In r (flat_map flatten kids) /\ row_of r h;
  bu_items : forall i, In i items -> In (ti_id i) cache';
  bu_closed : closed_in ids cache';
  bu_under : forall h, In h ids -> under items h }.

Lemma build_ok : forall (P : hash -> Prop) (rank : hash -> nat),
  (forall h t, P h -> bt_get h TM = Some t -> Forall good_item (t_items t) /\ NoDup (map ti_filename (t_items t)) /\
     forall i, In i (t_items t) -> is_tree_item i = true -> (rank (ti_id i) < rank h)%nat /\ P (ti_id i)) ->
  forall n fuel, (n <= fuel)%nat -> forall items node cache,
  Forall good_item items -> (forall i, In i items -> is_tree_item i = true -> (rank (ti_id i) < n)%nat /\ P (ti_id i)) ->
  NoDup (map (fun x => n_name (tn_row x)) (tn_children node) ++ map ti_filename items) -> tn_dir node = true ->
  exists node' cache' kids ids, build_items fuel TM BM items node cache = Ok (node', cache') /\
    built items node cache node' cache' kids ids.
Proof.
  intros P rank HT n. induction n as [n IHn] using lt_wf_ind. intros fuel Hf.
  induction items as [|i items IH]; intros node cache G R D N.
  - exists node, cache, [], []. split; [destruct fuel; reflexivity|].
    split; [| |intros ? []|intros ? []|intros ? []|intros ? ? ? []|intros ? []]; [|reflexivity].
    destruct node as [d r l]. cbn in N. subst d. cbn. rewrite app_nil_r. reflexivity.
  - inversion G as [|? ? G1 G2]; subst.
    assert (E : build_items fuel TM BM (i :: items) node cache =
      if existsb (beq (ti_id i)) cache then build_items fuel TM BM items node cache
      else if is_tree_item i then
        let? t := unwrap_opt (bt_get (ti_id i) TM) in
        let? node1 := add_child node (tree_to_node t (Some i)) in
        let? (a, child, b) := find_child node1 (ti_filename i) in
        match fuel with
        | O => OutOfFuel
        | S f =>
          let? (child', cache') := build_items f TM BM (t_items t) child cache in
          build_items fuel TM BM items (TNode true (tn_row node1) (a ++ child' :: b)) (ti_id i :: cache')
        end
      else
        let? b := unwrap_opt (bt_get (ti_id i) BM) in
        let? node1 := add_child node (blob_to_node b i) in
        build_items fuel TM BM items node1 (ti_id i :: cache)) by (destruct fuel; reflexivity).
    rewrite E. clear E. cbn [map] in D.
    assert (D' : NoDup (map (fun x => n_name (tn_row x)) (tn_children node) ++ map ti_filename items))
      by (apply NoDup_remove_1 in D; assumption).
    destruct (existsb (beq (ti_id i)) cache) eqn:C.
    { apply existsb_beq in C.
      destruct (IH node cache G2) as (node' & cache' & kids & ids & E & B); [intros; apply R; simpl; auto|assumption..|].
      exists node', cache', kids, ids. split; [exact E|]. destruct B. split; try assumption.
      - intros j [<-|Hj]; [|auto]. subst cache'. apply in_or_app. auto.
      - intros h Hh. apply bu_under0 in Hh. inversion Hh; subst.
        + apply u_item. simpl. auto.
        + eapply u_step; [simpl; right|..]; eassumption. }
    unfold good_item in G1. destruct (is_tree_item i) eqn:T.
    + destruct G1 as (t & Gt). rewrite Gt. cbn [unwrap_opt bind].
      unfold add_child at 1. rewrite N. cbn [bind].
      unfold find_child. cbn [tn_dir tn_children].
      rewrite split_child_last; [|apply NoDup_remove_2 in D; intros K; apply D; apply in_or_app; auto|reflexivity].
      cbn [unwrap_opt bind].
      destruct (R i (or_introl eq_refl) T) as [Ri Pi].
      destruct fuel as [|f]; [lia|].
      destruct (HT _ _ Pi Gt) as (Gi & Du & Rk).
      destruct (IHn (rank (ti_id i)) Ri f ltac:(lia) (t_items t) (tree_to_node t (Some i)) cache Gi Rk)
        as (child' & cache1 & kids1 & ids1 & E1 & B1).
      { cbn [tree_to_node tn_children map app]. exact Du. } { reflexivity. }
      rewrite E1. cbn [bind tn_row]. cbn [tree_to_node tn_row tn_children] in B1.
      destruct (IH (TNode true (tn_row node) (tn_children node ++ [child'])) (ti_id i :: cache1) G2)
        as (node' & cache' & kids & ids & E & B).
      { intros; apply R; simpl; auto. }
      { cbn [tn_children]. rewrite map_app, <- app_assoc. cbn [map app].
        rewrite (bu_node _ _ _ _ _ _ _ B1). cbn [tn_row tree_to_node n_name]. exact D. }
      { reflexivity. }
      cbn [tn_row] in *.
      exists node', cache', (child' :: kids), (ids ++ ti_id i :: ids1). split; [exact E|].
      destruct B as [Bn Bc Br Bi Bt Bcl Bu]. destruct B1 as [Bn1 Bc1 Br1 Bi1 Bt1 Bcl1 Bu1].
      assert (F : flatten child' = tn_row (tree_to_node t (Some i)) :: flat_map flatten kids1).
      { rewrite Bn1. cbn [flatten tn_children tree_to_node app]. reflexivity. }
      split.
      * rewrite Bn. cbn [tn_row tn_children]. rewrite <- app_assoc. reflexivity.
      * rewrite Bc, Bc1, <- app_assoc. reflexivity.
      * intros r Hr. cbn [flat_map] in Hr. rewrite F in Hr. apply in_app_or in Hr as [[<-|Hr]|Hr].
        -- exists (ti_id i). split; [apply in_or_app; simpl; auto|]. apply ro_tree. assumption.
        -- destruct (Br1 _ Hr) as (h & Hh & Ro). exists h. split; [apply in_or_app; simpl; auto|assumption].
        -- destruct (Br _ Hr) as (h & Hh & Ro). exists h. split; [apply in_or_app; auto|assumption].
      * intros h Hh. cbn [flat_map]. rewrite F. apply in_app_or in Hh as [Hh|[<-|Hh]].
        -- destruct (Bi _ Hh) as (r & Hr & Ro). exists r. split; [apply in_or_app; auto|assumption].
        -- eexists. split; [apply in_or_app; left; left; reflexivity|]. apply ro_tree. assumption.
        -- destruct (Bi1 _ Hh) as (r & Hr & Ro). exists r. split; [apply in_or_app; left; right; assumption|assumption].
      * intros j [<-|Hj]; [|auto]. rewrite Bc. apply in_or_app. simpl. auto.
      * intros h t' j Hh Ht Hj. apply in_app_or in Hh as [Hh|[<-|Hh]].
        -- eapply Bcl; eassumption.
        -- rewrite Gt in Ht. injection Ht as <-. rewrite Bc. apply in_or_app. right. right. auto.
        -- rewrite Bc. apply in_or_app. right. right. eapply Bcl1; eassumption.
      * intros h Hh. apply in_app_or in Hh as [Hh|[<-|Hh]].
        -- apply Bu in Hh. inversion Hh; subst; [apply u_item; simpl; auto|].
           eapply u_step; [simpl; right|..]; eassumption.
        -- apply u_item. simpl. auto.
        -- eapply u_step; [left; reflexivity|assumption|eassumption|auto].
    + destruct G1 as (b & Gb). rewrite Gb. cbn [unwrap_opt bind].
      unfold add_child at 1. rewrite N. cbn [bind].
      destruct (IH (TNode true (tn_row node) (tn_children node ++ [blob_to_node b i])) (ti_id i :: cache) G2)
        as (node' & cache' & kids & ids & E & B).
      { intros; apply R; simpl; auto. }
      { cbn [tn_children]. rewrite map_app, <- app_assoc. cbn [map app blob_to_node tn_row n_name]. exact D. }
      { reflexivity. }
      cbn [tn_row] in *.
      exists node', cache', (blob_to_node b i :: kids), (ids ++ [ti_id i]). split; [exact E|].
      destruct B as [Bn Bc Br Bi Bt Bcl Bu].
      split.
      * rewrite Bn. cbn [tn_row tn_children]. rewrite <- app_assoc. reflexivity.
      * rewrite Bc, <- app_assoc. reflexivity.
      * intros r Hr. cbn [flat_map flatten blob_to_node app] in Hr. destruct Hr as [<-|Hr].
        -- exists (ti_id i). split; [apply in_or_app; simpl; auto|]. apply ro_blob. assumption.
        -- destruct (Br _ Hr) as (h & Hh & Ro). exists h. split; [apply in_or_app; auto|assumption].
      * intros h Hh. cbn [flat_map flatten blob_to_node app]. apply in_app_or in Hh as [Hh|[<-|[]]].
        -- destruct (Bi _ Hh) as (r & Hr & Ro). exists r. split; [right; assumption|assumption].
        -- eexists. split; [left; reflexivity|]. apply ro_blob. assumption.
      * intros j [<-|Hj]; [|auto]. rewrite Bc. apply in_or_app. simpl. auto.
      * intros h t' j Hh Ht Hj. apply in_app_or in Hh as [Hh|[<-|[]]].
        -- eapply Bcl; eassumption.
        -- destruct (disjoint _ _ _ Ht Gb).
      * intros h Hh. apply in_app_or in Hh as [Hh|[<-|[]]].
        -- apply Bu in Hh. inversion Hh; subst; [apply u_item; simpl; auto|].
           eapply u_step; [simpl; right|..]; eassumption.
        -- apply u_item. simpl. auto.
Qed.

(** All commits. [roots] are the ids of their trees. *)
Lemma build_commits_ok : forall (P : hash -> Prop) (rank : hash -> nat),
  (forall h t, P h -> bt_get h TM = Some t -> Forall good_item (t_items t) /\ NoDup (map ti_filename (t_items t)) /\
     forall i, In i (t_items t) -> is_tree_item i = true -> (rank (ti_id i) < rank h)%nat /\ P (ti_id i)) ->
  forall fuel cs cache,
  (forall c, In c cs -> (rank (cm_tree_id c) <= fuel)%nat /\ P (cm_tree_id c) /\ exists t, bt_get (cm_tree_id c) TM = Some t) ->
  closed_in cache cache ->
  exists rows ids, build_commits fuel TM BM cs cache = Ok rows /\
    (forall r, In r rows -> exists h, (In h ids \/ In h (map cm_tree_id cs)) /\ row_of r h) /\
    (forall h, In h ids \/ In h (map cm_tree_id cs) -> exists r, In r rows /\ row_of r h) /\
    closed_in (ids ++ map cm_tree_id cs) (ids ++ cache) /\
    (forall h, In h ids -> exists c t, In c cs /\ bt_get (cm_tree_id c) TM = Some t /\ under (t_items t) h).
Proof.
  intros P rank HT fuel. induction cs as [|c cs IH]; intros cache H C.
  - exists [], []. split; [reflexivity|]. split; [intros ? []|]. split; [intros ? [[]|[]]|].
    split; [intros ? ? ? []|intros ? []].
  - destruct (H c (or_introl eq_refl)) as (Hr & Pc & t & Ht). cbn [build_commits]. rewrite Ht. cbn [unwrap_opt bind].
    destruct (HT _ _ Pc Ht) as (Gi & Du & Rk).
    destruct (build_ok P rank HT (rank (cm_tree_id c)) fuel Hr (t_items t) (tree_to_node t None) cache Gi Rk)
      as (node' & cache' & kids & ids & E & B); [exact Du|reflexivity|].
    rewrite E. cbn [bind]. destruct B as [Bn Bc Br Bi Bt Bcl Bu].
    assert (C' : closed_in cache' cache').
    { intros h t' i Hh Ht' Hi. subst cache'. apply in_app_or in Hh as [Hh|Hh]; [eapply Bcl; eassumption|].
      apply in_or_app. right. eapply C; eassumption. }
    destruct (IH cache') as (rows & ids2 & E2 & R1 & R2 & R3 & R4); [intros x Hx; apply H; simpl; auto|assumption|].
    rewrite E2. cbn [bind].
    assert (F : flatten node' = tn_row (tree_to_node t None) :: flat_map flatten kids).
    { rewrite Bn. cbn [flatten tn_children tree_to_node app]. reflexivity. }
    exists (flatten node' ++ rows), (ids2 ++ ids). split; [reflexivity|]. split; [|split; [|split]].
    + intros r Hr'. rewrite F in Hr'. apply in_app_or in Hr' as [[<-|Hr']|Hr'].
      * exists (cm_tree_id c). split; [right; simpl; auto|]. apply ro_tree. assumption.
      * destruct (Br _ Hr') as (h & Hh & Ro). exists h. split; [left; apply in_or_app; auto|assumption].
      * destruct (R1 _ Hr') as (h & [Hh|Hh] & Ro); exists h; (split; [|assumption]).
        -- left. apply in_or_app. auto.
        -- right. simpl. auto.
    + intros h Hh. rewrite F.
      assert (K : In h ids \/ h = cm_tree_id c \/ In h ids2 \/ In h (map cm_tree_id cs)).
      { destruct Hh as [Hh|[Hh|Hh]]; [apply in_app_or in Hh as [Hh|Hh]| |]; auto. }
      destruct K as [K|[->|K]].
      * destruct (Bi _ K) as (r & Hr' & Ro). exists r. split; [apply in_or_app; left; right; assumption|assumption].
      * eexists. split; [apply in_or_app; left; left; reflexivity|]. apply ro_tree. assumption.
      * destruct (R2 _ K) as (r & Hr' & Ro). exists r. split; [apply in_or_app; auto|assumption].
    + intros h t' i Hh Ht' Hi. rewrite <- app_assoc. rewrite <- Bc.
      apply in_app_or in Hh as [Hh|[<-|Hh]].
      * apply in_app_or in Hh as [Hh|Hh].
        -- eapply R3; [apply in_or_app; left; eassumption|eassumption|assumption].
        -- apply in_or_app. right. eapply Bcl; eassumption.
      * rewrite Ht in Ht'. injection Ht' as <-. apply in_or_app. right. auto.
      * eapply R3; [apply in_or_app; right; eassumption|eassumption|assumption].
    + intros h Hh. apply in_app_or in Hh as [Hh|Hh].
      * destruct (R4 _ Hh) as (c' & t' & H1 & H2 & H3). exists c', t'. simpl. auto.
      * exists c, t. simpl. auto.
Qed.

(** Conversely, a construction that succeeds has found everything. *)
Definition cache_closed (cache : list hash) : Prop :=
  forall h, In h cache -> (exists b, bt_get h BM = Some b) \/
    exists t, bt_get h TM = Some t /\ forall i, In i (t_items t) -> In (ti_id i) cache.
Lemma cache_closed_cons : forall h cache, cache_closed cache ->
  ((exists b, bt_get h BM = Some b) \/ exists t, bt_get h TM = Some t /\ forall i, In i (t_items t) -> In (ti_id i) cache) ->
  cache_closed (h :: cache).
Proof.
  intros h cache C K x [<-|Hx].
  - destruct K as [K|(t & Ht & Hi)]; [auto|]. right. exists t. split; [assumption|]. intros i Ii. right. auto.
  - destruct (C _ Hx) as [Y|(t & Ht & Hi)]; [auto|]. right. exists t. split; [assumption|]. intros i Ii. right. auto.
Qed.
Lemma build_sound : forall fuel items node cache node' cache',
  build_items fuel TM BM items node cache = Ok (node', cache') -> cache_closed cache ->
  cache_closed cache' /\ incl cache cache' /\ forall i, In i items -> In (ti_id i) cache'.
Proof.
  induction fuel as [|f IHf]; (induction items as [|i items IH]; intros node cache node' cache' E C;
    [injection E as <- <-; split; [assumption|]; split; [apply incl_refl|intros ? []]|]);
  cbn [build_items] in E;
  (destruct (existsb (beq (ti_id i)) cache) eqn:X;
   [apply existsb_beq in X; apply IH in E as (A1 & A2 & A3); [|assumption];
    split; [assumption|]; split; [assumption|]; intros j [<-|Hj]; [apply A2; assumption|auto]|]);
  destruct (is_tree_item i).
  - apply bind_ok in E as (t & Et & E). apply bind_ok in E as (n1 & En & E).
    apply bind_ok in E as ([[a ch] b] & Ef & E). discriminate.
  - apply bind_ok in E as (b & Eb & E). apply bind_ok in E as (n1 & En & E).
    destruct (bt_get (ti_id i) BM) as [b'|] eqn:Gb; [|discriminate].
    apply IH in E as (A1 & A2 & A3); [|apply cache_closed_cons; eauto].
    split; [assumption|]. split; [eapply incl_tran; [|exact A2]; apply incl_tl, incl_refl|].
    intros j [<-|Hj]; [apply A2; simpl; auto|auto].
  - apply bind_ok in E as (t & Et & E). apply bind_ok in E as (n1 & En & E).
    apply bind_ok in E as ([[a ch] b] & Ef & E). apply bind_ok in E as ([c1 k1] & E1 & E).
    destruct (bt_get (ti_id i) TM) as [t'|] eqn:Gt; [|discriminate]. injection Et as ->.
    apply IHf in E1 as (B1 & B2 & B3); [|assumption].
    apply IH in E as (A1 & A2 & A3); [|apply cache_closed_cons; eauto].
    split; [assumption|]. split.
    { intros x Hx. apply A2. right. auto. }
    intros j [<-|Hj]; [apply A2; simpl; auto|auto].
  - apply bind_ok in E as (b & Eb & E). apply bind_ok in E as (n1 & En & E).
    destruct (bt_get (ti_id i) BM) as [b'|] eqn:Gb; [|discriminate].
    apply IH in E as (A1 & A2 & A3); [|apply cache_closed_cons; eauto].
    split; [assumption|]. split; [eapply incl_tran; [|exact A2]; apply incl_tl, incl_refl|].
    intros j [<-|Hj]; [apply A2; simpl; auto|auto].
Qed.
Lemma build_commits_sound : forall fuel cs cache rows, build_commits fuel TM BM cs cache = Ok rows ->
  cache_closed cache ->
  forall c, In c cs -> exists t, bt_get (cm_tree_id c) TM = Some t /\
    exists cl, cache_closed cl /\ forall i, In i (t_items t) -> In (ti_id i) cl.
Proof.
  intros fuel. induction cs as [|c cs IH]; intros cache rows E C x Hx; [destruct Hx|].
  cbn [build_commits] in E. apply bind_ok in E as (t & Et & E). apply bind_ok in E as ([root cache'] & Eb & E).
  apply bind_ok in E as (rest & Er & E).
  destruct (bt_get (cm_tree_id c) TM) as [t'|] eqn:Gt; [|discriminate]. injection Et as ->.
  apply build_sound in Eb as (B1 & B2 & B3); [|assumption].
  destruct Hx as [<-|Hx].
  - exists t. split; [assumption|]. exists cache'. auto.
  - exact (IH cache' rest Er B1 x Hx).
Qed.
(** So nothing below a root is missing. *)
Lemma closed_under : forall cl, cache_closed cl -> forall items h, under items h ->
  (forall i, In i items -> In (ti_id i) cl) -> In h cl.
Proof.
  intros cl C items h U. induction U as [items i Hi|items i t h Hi T Ht U IH]; intros H; [auto|].
  apply IH. intros j Hj. destruct (C _ (H _ Hi)) as [(b & Hb)|(t' & Ht' & K)].
  - destruct (disjoint _ _ _ Ht Hb).
  - rewrite Ht in Ht'. injection Ht' as <-. auto.
Qed.

(** Names and modes of the rows come from the entries. *)
Lemma split_child_eq : forall name l a c b, split_child name l = Some (a, c, b) -> l = a ++ c :: b.
Proof.
  induction l as [|x l IH]; intros a c b H; cbn [split_child] in H; [discriminate|].
  destruct (beq (n_name (tn_row x)) name); [injection H as <- <- <-; reflexivity|].
  destruct (split_child name l) as [[[a' c'] b']|] eqn:E; [|discriminate]. injection H as <- <- <-.
  rewrite (IH _ _ _ eq_refl). reflexivity.
Qed.
Lemma flatten_node : forall d r l x, In x (flatten (TNode d r l)) <-> x = r \/ In x (flat_map flatten l).
Proof. intros d r l x. cbn [flatten In]. split; intros [H|H]; auto. Qed.
Lemma build_names : forall (P : hash -> Prop) (Nm : bytes -> bytes -> Prop),
  (forall h t i, P h -> bt_get h TM = Some t -> In i (t_items t) ->
     Nm (ti_filename i) (ti_mode i) /\ (is_tree_item i = true -> P (ti_id i))) ->
  forall fuel items node cache node' cache',
  build_items fuel TM BM items node cache = Ok (node', cache') ->
  (forall i, In i items -> Nm (ti_filename i) (ti_mode i) /\ (is_tree_item i = true -> P (ti_id i))) ->
  (forall r, In r (flatten node) -> Nm (n_name r) (n_mode r)) ->
  forall r, In r (flatten node') -> Nm (n_name r) (n_mode r).
Proof.
  intros P Nm HT.
  assert (AC : forall node c n1, add_child node c = Ok n1 -> (forall r, In r (flatten node) -> Nm (n_name r) (n_mode r)) ->
     (forall r, In r (flatten c) -> Nm (n_name r) (n_mode r)) -> forall r, In r (flatten n1) -> Nm (n_name r) (n_mode r)).
  { intros node c n1 E H1 H2 r Hr. unfold add_child in E. destruct node as [d row l]. cbn [tn_dir tn_row tn_children] in E.
    destruct d; [|discriminate]. injection E as <-. apply flatten_node in Hr. rewrite flat_map_app, in_app_iff in Hr.
    cbn [flat_map] in Hr. rewrite app_nil_r in Hr. destruct Hr as [->|[Hr|Hr]]; [apply H1, flatten_node; auto..|auto]. }
  induction fuel as [|f IHf]; (induction items as [|i items IH]; intros node cache node' cache' E Hi Hn;
    [injection E as <- <-; exact Hn|]); cbn [build_items] in E;
  (assert (Hi' : forall j, In j items -> Nm (ti_filename j) (ti_mode j) /\ (is_tree_item j = true -> P (ti_id j)))
     by (intros j Hj; apply Hi; simpl; auto)); destruct (Hi i (or_introl eq_refl)) as [Ni Pi];
  (destruct (existsb (beq (ti_id i)) cache); [exact (IH _ _ _ _ E Hi' Hn)|]);
  destruct (is_tree_item i).
  - apply bind_ok in E as (t & Et & E). apply bind_ok in E as (n1 & En & E).
    apply bind_ok in E as ([[a ch] b] & Ef & E). discriminate.
  - apply bind_ok in E as (b & Eb & E). apply bind_ok in E as (n1 & En & E).
    refine (IH _ _ _ _ E Hi' (AC _ _ _ En Hn _)). intros r [<-|[]]. exact Ni.
  - apply bind_ok in E as (t & Et & E). apply bind_ok in E as (n1 & En & E).
    apply bind_ok in E as ([[a ch] b] & Ef & E). apply bind_ok in E as ([c1 k1] & E1 & E).
    destruct (bt_get (ti_id i) TM) as [t'|] eqn:Gt; [|discriminate]. injection Et as ->.
    assert (Hn1 : forall r, In r (flatten n1) -> Nm (n_name r) (n_mode r)).
    { refine (AC _ _ _ En Hn _). intros r [<-|[]]. exact Ni. }
    unfold find_child in Ef. destruct n1 as [d row l]. cbn [tn_dir tn_row tn_children] in Ef, E.
    destruct d; [|discriminate]. destruct (split_child (ti_filename i) l) as [x|] eqn:Es; [|discriminate].
    injection Ef as ->. apply split_child_eq in Es. subst l.
    assert (Hc : forall r, In r (flatten c1) -> Nm (n_name r) (n_mode r)).
    { refine (IHf _ _ _ _ _ E1 _ _).
      - intros j Hj. apply (HT _ _ _ (Pi eq_refl) Gt Hj).
      - intros r Hr. apply Hn1, flatten_node. right. rewrite flat_map_app. apply in_or_app. right.
        cbn [flat_map]. apply in_or_app. left. exact Hr. }
    refine (IH _ _ _ _ E Hi' _). intros r Hr. apply flatten_node in Hr as [->|Hr]; [apply Hn1, flatten_node; auto|].
    rewrite flat_map_app in Hr. apply in_app_or in Hr as [Hr|Hr];
      [apply Hn1, flatten_node; right; rewrite flat_map_app; apply in_or_app; left; exact Hr|].
    cbn [flat_map] in Hr. apply in_app_or in Hr as [Hr|Hr]; [exact (Hc r Hr)|].
    apply Hn1, flatten_node. right. rewrite flat_map_app. apply in_or_app. right. cbn [flat_map]. apply in_or_app. right. exact Hr.
  - apply bind_ok in E as (b & Eb & E). apply bind_ok in E as (n1 & En & E).
    refine (IH _ _ _ _ E Hi' (AC _ _ _ En Hn _)). intros r [<-|[]]. exact Ni.
Qed.
Lemma build_commits_names : forall (P : hash -> Prop) (Nm : bytes -> bytes -> Prop),
  (forall h t i, P h -> bt_get h TM = Some t -> In i (t_items t) ->
     Nm (ti_filename i) (ti_mode i) /\ (is_tree_item i = true -> P (ti_id i))) -> Nm [] [] ->
  forall fuel cs cache rows, build_commits fuel TM BM cs cache = Ok rows ->
  (forall c, In c cs -> P (cm_tree_id c)) -> forall r, In r rows -> Nm (n_name r) (n_mode r).
Proof.
  intros P Nm HT H0 fuel. induction cs as [|c cs IH]; intros cache rows E Hc r Hr.
  - injection E as <-. destruct Hr.
  - cbn [build_commits] in E. apply bind_ok in E as (t & Et & E). apply bind_ok in E as ([root cache'] & Eb & E).
    apply bind_ok in E as (rest & Er & E). injection E as <-. apply in_app_or in Hr as [Hr|Hr].
    + destruct (bt_get (cm_tree_id c) TM) as [t'|] eqn:Gt; [|discriminate]. injection Et as ->.
      refine (build_names P Nm HT _ _ _ _ _ _ Eb _ _ r Hr).
      * intros i Hi. apply (HT _ _ _ (Hc c (or_introl eq_refl)) Gt Hi).
      * intros x [<-|[]]. exact H0.
    + refine (IH _ _ Er _ r Hr). intros x Hx. apply Hc. simpl. auto.
Qed.

(** Exactly one row for each entry that was not in the cache, with its name and mode. *)
Definition entry_row (i : tree_item) (r : node_row) : Prop :=
  row_of r (ti_id i) /\ n_name r = ti_filename i /\ n_mode r = ti_mode i /\
  n_type r = (if is_tree_item i then bs "tree" else bs "blob").
Definition new_id (x : tree_item * node_row) : hash := ti_id (fst x).
Lemma flatten_child : forall node c n1, add_child node c = Ok n1 -> Permutation (flatten n1) (flatten node ++ flatten c).
Proof.
  intros [d row l] c n1 E. unfold add_child in E. cbn [tn_dir tn_row tn_children] in E. destruct d; [|discriminate]. injection E as <-.
  cbn [flatten]. rewrite flat_map_app. cbn [flat_map]. rewrite app_nil_r. apply Permutation_refl.
Qed.
Lemma entry_row_has : forall i r, entry_row i r -> if is_tree_item i then exists t, bt_get (ti_id i) TM = Some t else exists b, bt_get (ti_id i) BM = Some b.
Proof.
  intros i r (R & _ & _ & T). inversion R as [h t nm md G E1 E2|h b nm md G E1 E2]; rewrite <- E1 in T; cbn [n_type] in T;
    destruct (is_tree_item i); try discriminate T; eauto.
Qed.
Lemma build_rows : forall (P : hash -> Prop) (rank : hash -> nat) (En : tree_item -> Prop),
  (forall h t i, P h -> bt_get h TM = Some t -> In i (t_items t) ->
     En i /\ (is_tree_item i = true -> (rank (ti_id i) < rank h)%nat /\ P (ti_id i))) ->
  forall fuel items n node cache node' cache',
  build_items fuel TM BM items node cache = Ok (node', cache') ->
  (forall i, In i items -> En i /\ (is_tree_item i = true -> (rank (ti_id i) < n)%nat /\ P (ti_id i))) ->
  exists new, Permutation (flatten node') (flatten node ++ map snd new) /\
    Permutation cache' (map new_id new ++ cache) /\ (NoDup cache -> NoDup cache') /\
    Forall (fun x => En (fst x) /\ entry_row (fst x) (snd x) /\ (is_tree_item (fst x) = true -> (rank (new_id x) < n)%nat)) new.
Proof.
  intros P rank En HT.
  assert (BL : forall f items n, (forall node cache node' cache', build_items f TM BM items node cache = Ok (node', cache') ->
     (forall i, In i items -> En i /\ (is_tree_item i = true -> (rank (ti_id i) < n)%nat /\ P (ti_id i))) ->
      exists new, Permutation (flatten node') (flatten node ++ map snd new) /\
        Permutation cache' (map new_id new ++ cache) /\ (NoDup cache -> NoDup cache') /\
        Forall (fun x => En (fst x) /\ entry_row (fst x) (snd x) /\ (is_tree_item (fst x) = true -> (rank (new_id x) < n)%nat)) new) ->
    forall i b n1 node cache node' cache', bt_get (ti_id i) BM = Some b -> is_tree_item i = false -> add_child node (blob_to_node b i) = Ok n1 ->
      existsb (beq (ti_id i)) cache = false ->
      build_items f TM BM items n1 (ti_id i :: cache) = Ok (node', cache') -> En i ->
      (forall i, In i items -> En i /\ (is_tree_item i = true -> (rank (ti_id i) < n)%nat /\ P (ti_id i))) ->
      exists new, Permutation (flatten node') (flatten node ++ map snd new) /\
        Permutation cache' (map new_id new ++ cache) /\ (NoDup cache -> NoDup cache') /\
        Forall (fun x => En (fst x) /\ entry_row (fst x) (snd x) /\ (is_tree_item (fst x) = true -> (rank (new_id x) < n)%nat)) new).
  { intros f items n IH i b n1 node cache node' cache' G T AC X E Ei Hi.
    destruct (IH _ _ _ _ E Hi) as (new & A1 & A2 & A3 & A4).
    exists ((i, tn_row (blob_to_node b i)) :: new). split; [|split; [|split]].
    - eapply Permutation_trans; [exact A1|]. cbn [map snd]. eapply Permutation_trans; [apply Permutation_app_tail, (flatten_child _ _ _ AC)|].
      rewrite <- app_assoc. apply Permutation_refl.
    - eapply Permutation_trans; [exact A2|]. cbn [map app]. unfold new_id at 2. cbn [fst]. apply Permutation_sym, Permutation_middle.
    - intros N. apply A3. constructor; [|exact N]. intros K. apply existsb_beq in K. congruence.
    - constructor; [|exact A4]. cbn [fst snd]. split; [exact Ei|]. split; [|rewrite T; discriminate].
      split; [apply ro_blob, G|]. rewrite T. repeat split. }
  induction fuel as [|f IHf]; (induction items as [|i items IH]; intros n node cache node' cache' E Hi;
    [injection E as <- <-; exists []; cbn [map app]; rewrite app_nil_r; repeat split; auto|]); cbn [build_items] in E;
  (assert (Hi' : forall j, In j items -> En j /\ (is_tree_item j = true -> (rank (ti_id j) < n)%nat /\ P (ti_id j)))
     by (intros j Hj; apply Hi; simpl; auto)); destruct (Hi i (or_introl eq_refl)) as [Ni Pi];
  (destruct (existsb (beq (ti_id i)) cache) eqn:X; [exact (IH _ _ _ _ _ E Hi')|]);
  destruct (is_tree_item i) eqn:T.
  - apply bind_ok in E as (t & Et & E). apply bind_ok in E as (n1 & En1 & E).
    apply bind_ok in E as ([[a ch] b] & Ef & E). discriminate.
  - apply bind_ok in E as (b & Eb & E). apply bind_ok in E as (n1 & En1 & E).
    destruct (bt_get (ti_id i) BM) as [b'|] eqn:G; [|discriminate]. injection Eb as ->.
    exact (BL _ _ _ (IH n) _ _ _ _ _ _ _ G T En1 X E Ni Hi').
  - apply bind_ok in E as (t & Et & E). apply bind_ok in E as (n1 & En1 & E).
    apply bind_ok in E as ([[a ch] b] & Ef & E). apply bind_ok in E as ([c1 k1] & E1 & E).
    destruct (bt_get (ti_id i) TM) as [t'|] eqn:Gt; [|discriminate]. injection Et as ->.
    pose proof (flatten_child _ _ _ En1) as Fl.
    unfold find_child in Ef. destruct n1 as [d row l]. cbn [tn_dir tn_row tn_children] in Ef, E.
    destruct d; [|discriminate]. destruct (split_child (ti_filename i) l) as [x|] eqn:Es; [|discriminate].
    injection Ef as ->. apply split_child_eq in Es. subst l.
    destruct (Pi eq_refl) as [Ri Qi].
    destruct (IHf _ (rank (ti_id i)) _ _ _ _ E1 (fun j Hj => HT _ _ _ Qi Gt Hj)) as (new1 & A1 & A2 & A3 & A4).
    destruct (IH _ _ _ _ _ E Hi') as (new2 & B1 & B2 & B3 & B4).
    exists ((i, tn_row (tree_to_node t (Some i))) :: new1 ++ new2). split; [|split; [|split]].
    + eapply Permutation_trans; [exact B1|]. cbn [map snd]. rewrite map_app. cbn [flatten]. rewrite flat_map_app. cbn [flat_map].
      cbn [flatten] in Fl. rewrite flat_map_app in Fl. cbn [flat_map] in Fl.
      transitivity ((row :: flat_map flatten a ++ flatten ch ++ flat_map flatten b) ++ map snd new1 ++ map snd new2).
      * cbn [app]. apply perm_skip. rewrite !app_assoc. apply Permutation_app_tail. rewrite <- !app_assoc. apply Permutation_app_head.
        rewrite A1. rewrite <- app_assoc. apply Permutation_app_head. apply Permutation_app_comm.
      * rewrite Fl. cbn [tree_to_node flatten flat_map tn_row]. rewrite <- app_assoc. reflexivity.
    + rewrite B2. cbn [map app]. rewrite map_app. unfold new_id at 2. cbn [fst].
      rewrite <- Permutation_middle. apply perm_skip. rewrite A2, !app_assoc. apply Permutation_app_tail. apply Permutation_app_comm.
    + intros N. apply B3. constructor; [|auto]. intros K. apply (Permutation_in _ A2) in K. apply in_app_or in K as [K|K].
      * apply in_map_iff in K as (y & Y & Iy). rewrite Forall_forall in A4. destruct (A4 _ Iy) as (_ & R & K). unfold new_id in Y, K.
        apply entry_row_has in R. rewrite Y in *. destruct (is_tree_item (fst y)); [specialize (K eq_refl); lia|]. destruct R as [bb R]. eapply disjoint; eassumption.
      * apply existsb_beq in K. congruence.
    + constructor.
      * cbn [fst snd]. split; [exact Ni|]. split; [|intros _; exact Ri]. split; [apply ro_tree, Gt|]. rewrite T. repeat split.
      * apply Forall_app. split; [|exact B4]. eapply Forall_impl; [|exact A4]. cbn beta. intros y (Y1 & Y2 & Y3). split; [exact Y1|]. split; [exact Y2|].
        intros Ty. specialize (Y3 Ty). lia.
  - apply bind_ok in E as (b & Eb & E). apply bind_ok in E as (n1 & En1 & E).
    destruct (bt_get (ti_id i) BM) as [b'|] eqn:G; [|discriminate]. injection Eb as ->.
    exact (BL _ _ _ (IH n) _ _ _ _ _ _ _ G T En1 X E Ni Hi').
Qed.
Lemma build_commits_rows : forall (P : hash -> Prop) (rank : hash -> nat) (En : tree_item -> Prop),
  (forall h t i, P h -> bt_get h TM = Some t -> In i (t_items t) ->
     En i /\ (is_tree_item i = true -> (rank (ti_id i) < rank h)%nat /\ P (ti_id i))) ->
  forall fuel cs cache rows, build_commits fuel TM BM cs cache = Ok rows -> (forall c, In c cs -> P (cm_tree_id c)) -> NoDup cache -> cache_closed cache ->
  exists roots new, Permutation rows (roots ++ map snd new) /\
    Forall2 (fun c r => exists t, bt_get (cm_tree_id c) TM = Some t /\ r = tn_row (tree_to_node t None)) cs roots /\
    NoDup (map new_id new ++ cache) /\ Forall (fun x => En (fst x) /\ entry_row (fst x) (snd x)) new /\
    exists cl, cache_closed cl /\ (forall h, In h cl <-> In h (map new_id new) \/ In h cache) /\
      forall c t i, In c cs -> bt_get (cm_tree_id c) TM = Some t -> In i (t_items t) -> In (ti_id i) cl.
Proof.
  intros P rank En HT fuel. induction cs as [|c cs IH]; intros cache rows E Hc N C.
  - injection E as <-. exists [], []. repeat split; auto. exists cache. split; [exact C|]. split; [simpl; tauto|intros ? ? ? []].
  - cbn [build_commits] in E. apply bind_ok in E as (t & Et & E). apply bind_ok in E as ([root cache'] & Eb & E).
    apply bind_ok in E as (rest & Er & E). injection E as <-.
    destruct (bt_get (cm_tree_id c) TM) as [t'|] eqn:Gt; [|discriminate]. injection Et as ->.
    destruct (build_rows P rank En HT _ _ (rank (cm_tree_id c)) _ _ _ _ Eb (fun i Hi => HT _ _ _ (Hc c (or_introl eq_refl)) Gt Hi)) as (n1 & A1 & A2 & A3 & A4).
    destruct (build_sound _ _ _ _ _ _ Eb C) as (S1 & S2 & S3).
    destruct (IH _ _ Er (fun x Hx => Hc x (or_intror Hx)) (A3 N) S1) as (roots & n2 & B1 & B2 & B3 & B4 & cl & L1 & L2 & L3).
    exists (tn_row (tree_to_node t None) :: roots), (n1 ++ n2). split; [|split; [|split; [|split]]].
    + rewrite A1, B1, map_app. cbn [tree_to_node flatten flat_map tn_row app]. apply perm_skip.
      rewrite !app_assoc. apply Permutation_app_tail. apply Permutation_app_comm.
    + constructor; [exists t; auto|exact B2].
    + rewrite map_app. eapply Permutation_NoDup; [|exact B3]. rewrite A2, !app_assoc. apply Permutation_app_tail. apply Permutation_app_comm.
    + apply Forall_app. split; [|exact B4]. eapply Forall_impl; [|exact A4]. cbn beta. tauto.
    + exists cl. split; [exact L1|]. split.
      * intros h. rewrite L2, map_app, in_app_iff. split.
        -- intros [H|H]; [auto|]. apply (Permutation_in _ A2) in H. apply in_app_or in H. tauto.
        -- intros [[H|H]|H]; [right|auto|right; auto]. apply (Permutation_in _ (Permutation_sym A2)), in_or_app. auto.
      * intros c' t' i [<-|Hc'] Ht' Hi; [|eapply L3; eassumption]. rewrite Gt in Ht'. injection Ht' as <-. apply L2. right. auto.
Qed.
End Build.

Section More.
Context (TM : list (hash * tree)) (BM : list (hash * blob)).
(** More fuel does not matter. *)
Lemma build_items_more : forall fuel fuel' items node cache r, (fuel <= fuel')%nat ->
  build_items fuel TM BM items node cache = Ok r -> build_items fuel' TM BM items node cache = Ok r.
Proof.
  induction fuel as [|f IHf]; intros fuel'; (destruct fuel' as [|f']; [try lia|]); try (intros; assumption);
  (induction items as [|i items IH]; intros node cache r Le E; [exact E|]); cbn [build_items] in E |- *;
  (destruct (existsb (beq (ti_id i)) cache); [exact (IH _ _ _ Le E)|]); destruct (is_tree_item i).
  - apply bind_ok in E as (t & Et & E). apply bind_ok in E as (n1 & En & E).
    apply bind_ok in E as ([[a ch] b] & Ef & E). discriminate.
  - apply bind_ok in E as (b & Eb & E). apply bind_ok in E as (n1 & En & E). rewrite Eb. cbn [bind]. rewrite En. cbn [bind].
    exact (IH _ _ _ Le E).
  - apply bind_ok in E as (t & Et & E). apply bind_ok in E as (n1 & En & E).
    apply bind_ok in E as ([[a ch] b] & Ef & E). apply bind_ok in E as ([c1 k1] & E1 & E).
    rewrite Et. cbn [bind]. rewrite En. cbn [bind]. rewrite Ef. cbn [bind].
    rewrite (IHf f' _ _ _ _ ltac:(lia) E1). cbn [bind]. exact (IH _ _ _ Le E).
  - apply bind_ok in E as (b & Eb & E). apply bind_ok in E as (n1 & En & E). rewrite Eb. cbn [bind]. rewrite En. cbn [bind].
    exact (IH _ _ _ Le E).
Qed.
Lemma build_commits_more : forall fuel fuel' cs cache r, (fuel <= fuel')%nat ->
  build_commits fuel TM BM cs cache = Ok r -> build_commits fuel' TM BM cs cache = Ok r.
Proof.
  intros fuel fuel' cs. induction cs as [|c cs IH]; intros cache r Le E; [exact E|]. cbn [build_commits] in E |- *.
  apply bind_ok in E as (t & Et & E). apply bind_ok in E as ([root cache'] & Eb & E). apply bind_ok in E as (rest & Er & E).
  rewrite Et. cbn [bind]. rewrite (build_items_more _ _ _ _ _ _ Le Eb). cbn [bind]. rewrite (IH _ _ Le Er). cbn [bind]. exact E.
Qed.

(** With enough fuel the construction succeeds or aborts. *)
Lemma build_items_total : forall (rank : hash -> nat),
  (forall h t i, bt_get h TM = Some t -> In i (t_items t) -> is_tree_item i = true -> (rank (ti_id i) < rank h)%nat) ->
  forall fuel items node cache, (forall i, In i items -> is_tree_item i = true -> (rank (ti_id i) < fuel)%nat) ->
  (exists r, build_items fuel TM BM items node cache = Ok r) \/ build_items fuel TM BM items node cache = Panic.
Proof.
  intros rank HR. induction fuel as [|f IHf];
    (induction items as [|i items IH]; intros node cache H; [left; eexists; reflexivity|]); cbn [build_items];
    (assert (IH' := fun node cache => IH node cache (fun j Hj => H j (or_intror Hj))));
    (destruct (existsb (beq (ti_id i)) cache); [apply IH'|]); destruct (is_tree_item i) eqn:T.
  - specialize (H i (or_introl eq_refl) T). lia.
  - destruct (bt_get (ti_id i) BM) as [b|]; [|right; reflexivity]. cbn [unwrap_opt bind]. unfold add_child.
    destruct (tn_dir node); [|right; reflexivity]. cbn [bind]. apply IH'.
  - destruct (bt_get (ti_id i) TM) as [t|] eqn:Gt; [|right; reflexivity]. cbn [unwrap_opt bind]. unfold add_child.
    destruct (tn_dir node); [|right; reflexivity]. cbn [bind]. unfold find_child. cbn [tn_dir].
    destruct (split_child _ _) as [[[a ch] b]|]; [|right; reflexivity]. cbn [unwrap_opt bind].
    destruct (IHf (t_items t) ch cache) as [([n c] & E)|E].
    + intros j Hj Tj. pose proof (HR _ _ _ Gt Hj Tj). pose proof (H i (or_introl eq_refl) T). lia.
    + rewrite E. cbn [bind]. apply IH'.
    + rewrite E. right. reflexivity.
  - destruct (bt_get (ti_id i) BM) as [b|]; [|right; reflexivity]. cbn [unwrap_opt bind]. unfold add_child.
    destruct (tn_dir node); [|right; reflexivity]. cbn [bind]. apply IH'.
Qed.
Lemma build_commits_total : forall (rank : hash -> nat),
  (forall h t i, bt_get h TM = Some t -> In i (t_items t) -> is_tree_item i = true -> (rank (ti_id i) < rank h)%nat) ->
  forall fuel cs cache, (forall c, In c cs -> (rank (cm_tree_id c) <= fuel)%nat) ->
  (exists r, build_commits fuel TM BM cs cache = Ok r) \/ build_commits fuel TM BM cs cache = Panic.
Proof.
  intros rank HR fuel. induction cs as [|c cs IH]; intros cache H; [left; eexists; reflexivity|]. cbn [build_commits].
  destruct (bt_get (cm_tree_id c) TM) as [t|] eqn:Gt; [|right; reflexivity]. cbn [unwrap_opt bind].
  destruct (build_items_total rank HR fuel (t_items t) (tree_to_node t None) cache) as [([n ca] & E)|E].
  - intros i Hi T. pose proof (HR _ _ _ Gt Hi T). pose proof (H c (or_introl eq_refl)). lia.
  - rewrite E. cbn [bind]. destruct (IH ca (fun x Hx => H x (or_intror Hx))) as [(r & Er)|Er]; rewrite Er; cbn [bind]; eauto.
  - rewrite E. right. reflexivity.
Qed.
End More.

(** C25, C35, C36: objects decoded from a pack. Vocabulary: SpecDecode. *)

From Coq Require Import Lia Permutation.
From Verif Require Import Base BaseLemmas Digest ModelUtils ModelObject ModelBase ModelDelta ModelPack ModelIdx
  ModelDecode SpecFormat SpecObject SpecBase SpecDiff SpecPack SpecIdx SpecDecode StoredZlib
  ProofObject ProofBase ProofPack ProofEncode ProofDecode PropPack PropBase PropIdx.
Open Scope N_scope.

(** ** C25: decoding through an index *)

(** Whatever the pack and the index: the returned pack has no objects. *)
Theorem C25_objects_dropped : forall m c st fuel x file p, decode_by_idx m c st fuel x file = Ok p ->
  p_number p = x_number x /\ p_signature p = x_pack_signature x /\ by_hash (p_cache p) = [].
Proof.
  intros m c st fuel x file p H. unfold decode_by_idx in H. apply bind_ok in H as (h & _ & H).
  destruct (2 ^ 32 <=? x_number x); [discriminate|]. apply bind_ok in H as (k & _ & H).
  apply bind_ok in H as (om & _ & H). injection H as <-. repeat split.
Qed.
(** A pack of one blob with its own index. *)
Definition one_blob : list meta := [ex_obj Blob (bs "hello world")].
Theorem C25_objects_returned_refuted : forall m fuel st, exists file objs q x y p,
  git_pack stored st file objs /\ map snd objs = [(Blob, bs "hello world")] /\
  decode m stored st (S fuel) file = Ok q /\ length (by_hash (p_cache q)) = 1%nat /\
  idx_encode stored q = Ok x /\ idx_decode m idx_default (x_file_data x) = Ok y /\ length (x_items y) = 1%nat /\
  decode_by_idx m stored st (S fuel) y file = Ok p /\ p_number p = 1 /\ by_hash (p_cache p) = [].
Proof.
  intros m fuel st.
  assert (B : is_base Blob) by (eexists; constructor).
  destruct (ex_obj_ok Blob (bs "hello world") B) as [E1 O1]; [repeat constructor|reflexivity|].
  destruct (encode_ok stored one_blob) as (p & file & E); [discriminate|reflexivity|].
  destruct (encode_git_pack stored st one_blob p file stored_ok) as (objs & G & Ho & _);
    [apply Forall_cons; [exact E1|constructor]|exact E|].
  assert (K : exists q x y p', decode m stored st (S fuel) file = Ok q /\ length (by_hash (p_cache q)) = 1%nat /\
    idx_encode stored q = Ok x /\ idx_decode m idx_default (x_file_data x) = Ok y /\ length (x_items y) = 1%nat /\
    decode_by_idx m stored st (S fuel) y file = Ok p' /\ p_number p' = 1).
  { assert (X : file = match encode stored one_blob with Ok (_, f) => f | _ => [] end) by (rewrite E; reflexivity).
    clear -X. vm_compute in X. subst file. do 4 eexists. split; [vm_compute; reflexivity|]. split; [reflexivity|].
    split; [vm_compute; reflexivity|]. split; [destruct m; vm_compute; reflexivity|]. split; [reflexivity|].
    split; [vm_compute; reflexivity|reflexivity]. }
  destruct K as (q & x & y & p' & K1 & K2 & K3 & K4 & K5 & K6 & K7).
  exists file, objs, q, x, y, p'. split; [exact G|]. split; [rewrite Ho; cbn [one_blob map]; rewrite O1; reflexivity|].
  repeat (split; [assumption|]). apply (C25_objects_dropped _ _ _ _ _ _ _ K6).
Qed.

(** ** C35: classification by type, under every schedule *)

(** Any distribution of the objects to any number of workers, any interleaving. *)
Theorem C35_partition : forall k om om', update_from_cache k om om' ->
  classified (map snd (by_hash k)) (om_blobs om') (om_commits om') (om_trees om') (om_tags om') /\
  om_map_hash om' = om_map_hash om /\ om_name_map om' = om_name_map om.
Proof.
  intros k om om' (qs & ws & v & P & S & D & ->). cbn [om_blobs om_commits om_trees om_tags om_map_hash om_name_map].
  split; [|auto]. pose proof (pool_done_inv _ _ _ D (pinv_steps _ _ _ S (pinv_start qs))) as V.
  exact (proj1 (vinv_perm _ _ _ P V)).
Qed.
(** No schedule gets stuck: a state that is not final has a successor. *)
Theorem C35_no_deadlock : forall qs ws v, pool_steps (Running (map Ready qs) vecs_empty) (Running ws v) ->
  pool_done ws \/ exists q, pool_step (Running ws v) q.
Proof. intros qs ws v S. eapply pool_progress. eapply pinv_steps; [exact S|apply pinv_start]. Qed.
(** No schedule is infinite: at most two steps per object. *)
Inductive run : nat -> pool -> pool -> Prop :=
| run_0 : forall p, run O p p
| run_S : forall n p q r, pool_step p q -> run n q r -> run (S n) p r.
Theorem C35_terminates : forall qs n q, run n (Running (map Ready qs) vecs_empty) q ->
  (n <= 2 * length (concat qs) + 1)%nat.
Proof.
  intros qs n q H. assert (G : (n + pool_work q <= pool_work (Running (map Ready qs) vecs_empty))%nat).
  { induction H as [p|n p q r S _ IH]; [lia|]. apply pool_step_work in S. lia. }
  assert (W : work (map Ready qs) = (2 * length (concat qs))%nat).
  { clear. induction qs as [|x qs IH]; [reflexivity|]. cbn [map work fold_right concat]. fold (work (map Ready qs)).
    rewrite IH, app_length. lia. }
  cbn [pool_work] in G. lia.
Qed.
(** The workers crash only if some object does not parse, and then there is no result. *)
Theorem C35_crash_iff_unparsable : forall qs,
  (Forall parses (concat qs) -> ~ pool_steps (Running (map Ready qs) vecs_empty) Crashed) /\
  (~ Forall parses (concat qs) ->
     forall ws v, pool_steps (Running (map Ready qs) vecs_empty) (Running ws v) -> ~ pool_done ws).
Proof.
  intros qs. split.
  - intros F S. exact (pinv_steps _ _ _ S (pinv_start qs) F).
  - intros F ws v S D. apply F. apply (pool_done_inv _ _ _ D (pinv_steps _ _ _ S (pinv_start qs))).
Qed.
(** A result exists exactly if every object parses. *)
Theorem C35_result_iff : forall k om, (exists om', update_from_cache k om om') <-> Forall parses (map snd (by_hash k)).
Proof.
  intros k om. split.
  - intros (om' & qs & ws & v & P & S & D & _).
    apply (Permutation_Forall P). apply (pool_done_inv _ _ _ D (pinv_steps _ _ _ S (pinv_start qs))).
  - intros F. apply (push_all_parses _ vecs_empty) in F as [v E].
    eexists. apply update_seq_is_update. unfold update_seq. rewrite E. reflexivity.
Qed.
(** With one worker, as the function that [decode_by_idx] uses. *)
Theorem C35_sequential : forall k om om', update_seq k om = Ok om' -> update_from_cache k om om'.
Proof. exact update_seq_is_update. Qed.

(** Two workers, a blob and a tree; both orders of the first steps are possible. *)
Definition ex_cache : cache :=
  cache_update (cache_update cache_empty (ex_obj Blob (bs "hello")) 12) (ex_obj Tree []) 30.
Example C35_ex : exists om om', update_from_cache ex_cache omap_default om /\ length (om_blobs om) = 1%nat /\
  length (om_trees om) = 1%nat /\
  exists a b, concat [[a]; [b]] = map snd (by_hash ex_cache) /\
    pool_steps (Running (map Ready [[a]; [b]]) vecs_empty) (Running [Busy a []; Ready [b]] vecs_empty) /\
    pool_steps (Running (map Ready [[a]; [b]]) vecs_empty) (Running [Ready [a]; Busy b []] vecs_empty) /\
    pool_steps (Running (map Ready [[a]; [b]]) vecs_empty) (Running [Busy a []; Busy b []] vecs_empty) /\
    update_from_cache ex_cache omap_default om'.
Proof.
  assert (E : exists om, update_seq ex_cache omap_default = Ok om /\ length (om_blobs om) = 1%nat /\ length (om_trees om) = 1%nat).
  { eexists. split; [vm_compute; reflexivity|]. split; reflexivity. }
  destruct E as (om & E & E1 & E2). exists om, om. apply C35_sequential in E. split; [exact E|]. split; [exact E1|]. split; [exact E2|].
  assert (L : exists a b, map snd (by_hash ex_cache) = [a; b] /\ m_t a <> m_t b).
  { eexists _, _. split; [vm_compute; reflexivity|discriminate]. }
  destruct L as (a & b & L & T). exists a, b. rewrite L. split; [reflexivity|].
  split; [|split; [|split; [|exact E]]].
  - eapply pss_step; [apply (ps_lock [] a [] [Ready [b]]); repeat constructor; intros []|apply pss_refl].
  - eapply pss_step; [apply (ps_lock [Ready [a]] b [] []); repeat constructor; intros []|apply pss_refl].
  - eapply pss_step; [apply (ps_lock [] a [] [Ready [b]]); repeat constructor; intros []|].
    eapply pss_step; [apply (ps_lock [Busy a []] b [] []); repeat constructor; exact T|apply pss_refl].
Qed.

(** ** C36: completeness check and listing *)

(** The check consults [map_hash]: it succeeds exactly if every tree entry is there. *)
Theorem C36_check_iff : forall om, 
  (snd (check_completeness om) = Ok tt /\ 
     Forall (fun t => Forall (fun i => bt_get (ti_id i) (om_map_hash om) <> None) (t_items t)) (om_trees om)) \/
  (snd (check_completeness om) = Err EUnCompletedPackObject /\
     ~ Forall (fun t => Forall (fun i => bt_get (ti_id i) (om_map_hash om) <> None) (t_items t)) (om_trees om)).
Proof.
  intros om. unfold check_completeness. pose proof (check_trees_spec (om_map_hash om) (om_trees om) (om_name_map om)) as S.
  destruct (check_trees _ _ _) as [nm []]; cbn [snd] in S |- *.
  - left. split; [reflexivity|]. apply S. reflexivity.
  - right. split; [reflexivity|]. intros H. apply S in H. discriminate.
Qed.
(** When it succeeds, the lists hold the same objects, trees and blobs in descending
    order of name and size, tags and commits in descending order of size. *)
Theorem C36_sorted : forall om om', check_completeness om = (om', Ok tt) ->
  Permutation (map b_meta (om_blobs om')) (map b_meta (om_blobs om)) /\
  Permutation (map t_meta (om_trees om')) (map t_meta (om_trees om)) /\
  Permutation (om_tags om') (om_tags om) /\ Permutation (om_commits om') (om_commits om) /\
  descending b_filename (fun b => m_size (b_meta b)) (om_blobs om') /\
  descending t_name (fun t => m_size (t_meta t)) (om_trees om') /\
  descending (fun _ => []) (fun t => m_size (tg_meta t)) (om_tags om') /\
  descending (fun _ => []) (fun t => m_size (cm_meta t)) (om_commits om').
Proof.
  intros om om' H. unfold check_completeness in H. destruct (check_trees _ _ _) as [nm []]; [|discriminate].
  injection H as <-. cbn [om_blobs om_trees om_tags om_commits].
  split. { eapply Permutation_trans; [apply Permutation_map, Permutation_sym, stable_sort_perm|].
    rewrite map_map. erewrite map_ext; [apply Permutation_refl|]. intros b. apply name_blob_meta. }
  split. { eapply Permutation_trans; [apply Permutation_map, Permutation_sym, stable_sort_perm|].
    rewrite map_map. erewrite map_ext; [apply Permutation_refl|]. intros b. apply name_tree_meta. }
  split; [apply Permutation_sym, stable_sort_perm|]. split; [apply Permutation_sym, stable_sort_perm|].
  split; [apply stable_sort_desc; reflexivity|]. split; [apply stable_sort_desc; reflexivity|].
  split; apply stable_sort_desc; reflexivity.
Qed.
(** Names: an object listed in some tree gets the file name of an entry that lists it. *)
Theorem C36_names : forall om om' b, check_completeness om = (om', Ok tt) -> om_name_map om = [] ->
  In b (om_blobs om') -> b_filename b <> [] -> (forall b0, In b0 (om_blobs om) -> b_filename b0 = []) ->
  exists t i, In t (om_trees om) /\ In i (t_items t) /\ ti_id i = m_id (b_meta b) /\ ti_filename i = b_filename b.
Proof.
  intros om om' b H Hn Hb Hf H0. unfold check_completeness in H.
  destruct (check_trees _ _ _) as [nm []] eqn:E; [|discriminate]. injection H as <-. cbn [om_blobs] in Hb.
  apply (Permutation_in _ (Permutation_sym (stable_sort_perm _ blob_cmp _))) in Hb.
  apply in_map_iff in Hb as (b0 & <- & Hb). unfold name_blob in *. destruct (bt_get (m_id (b_meta b0)) nm) as [n|] eqn:G.
  - cbn [b_meta b_filename] in *. rewrite Hn in E. eapply check_trees_names in E as [E|E]; [discriminate E|exact E|exact G].
  - contradiction Hf. apply H0. assumption.
Qed.
(** The entries of the trees in the order they are gone through, and the name under
    which an id is listed last. *)
Definition all_entries (om : omap) : list tree_item := concat (map t_items (om_trees om)).
Definition listed_last (h : hash) (l : list tree_item) : option bytes :=
  option_map ti_filename (find (fun i => beq (ti_id i) h) (rev l)).
Lemma listed_last_app : forall h a b, listed_last h (a ++ b) =
  match listed_last h b with Some n => Some n | None => listed_last h a end.
Proof.
  intros. unfold listed_last. rewrite rev_app_distr.
  induction (rev b) as [|i r IH]; cbn [app find option_map]; [reflexivity|].
  destruct (beq (ti_id i) h); [reflexivity|exact IH].
Qed.
Lemma check_items_last : forall mh items nm nm' h, check_items mh items nm = (nm', true) ->
  bt_get h nm' = match listed_last h items with Some n => Some n | None => bt_get h nm end.
Proof.
  induction items as [|i items IH]; intros nm nm' h H; cbn [check_items] in H.
  - injection H as <-. reflexivity.
  - destruct (bt_get (ti_id i) mh); [|discriminate]. rewrite (IH _ _ h H).
    change (i :: items) with ([i] ++ items). rewrite listed_last_app.
    destruct (listed_last h items); [reflexivity|].
    unfold listed_last. cbn [rev app find]. destruct (beq (ti_id i) h) eqn:B; cbn [option_map].
    + apply beq_eq in B. subst h. apply bt_get_insert_same.
    + apply bt_get_insert_other. intros ->. rewrite beq_refl in B. discriminate.
Qed.
Lemma check_trees_last : forall mh ts nm nm' h, check_trees mh ts nm = (nm', true) ->
  bt_get h nm' = match listed_last h (concat (map t_items ts)) with Some n => Some n | None => bt_get h nm end.
Proof.
  induction ts as [|t ts IH]; intros nm nm' h H; cbn [check_trees] in H.
  - injection H as <-. reflexivity.
  - destruct (check_items mh (t_items t) nm) as [nm1 []] eqn:E; [|discriminate].
    rewrite (IH _ _ h H), (check_items_last _ _ _ _ h E). cbn [map concat]. rewrite listed_last_app.
    destruct (listed_last h (concat (map t_items ts))); reflexivity.
Qed.
(** Exactly: a blob or tree that the trees of the pack list has the name of the last
    entry that lists it; one that they do not list keeps the name it had. *)
Theorem C36_named : forall om om', check_completeness om = (om', Ok tt) -> om_name_map om = [] ->
  (forall b, In b (om_blobs om') -> exists b0, In b0 (om_blobs om) /\ b_meta b0 = b_meta b /\
     b_filename b = match listed_last (m_id (b_meta b)) (all_entries om) with
                    | Some n => n | None => b_filename b0 end) /\
  (forall t, In t (om_trees om') -> exists t0, In t0 (om_trees om) /\ t_meta t0 = t_meta t /\ t_items t0 = t_items t /\
     t_name t = match listed_last (m_id (t_meta t)) (all_entries om) with
                | Some n => n | None => t_name t0 end).
Proof.
  intros om om' H Hn. unfold check_completeness in H.
  destruct (check_trees _ _ _) as [nm []] eqn:E; [|discriminate]. injection H as <-. cbn [om_blobs om_trees].
  rewrite Hn in E.
  assert (G : forall h, bt_get h nm = listed_last h (all_entries om)).
  { intros h. rewrite (check_trees_last _ _ _ _ h E). fold (all_entries om). destruct (listed_last h (all_entries om)); reflexivity. }
  split.
  - intros b Hb. apply (Permutation_in _ (Permutation_sym (stable_sort_perm _ blob_cmp _))) in Hb.
    apply in_map_iff in Hb as (b0 & <- & Hb). exists b0. split; [exact Hb|]. rewrite name_blob_meta. split; [reflexivity|].
    rewrite <- G. unfold name_blob. destruct (bt_get (m_id (b_meta b0)) nm); reflexivity.
  - intros t Ht. apply (Permutation_in _ (Permutation_sym (stable_sort_perm _ tree_cmp _))) in Ht.
    apply in_map_iff in Ht as (t0 & <- & Ht). exists t0. destruct (name_tree_meta nm t0) as (M1 & M2).
    rewrite M1, M2. split; [exact Ht|]. split; [reflexivity|]. split; [reflexivity|].
    rewrite <- G. unfold name_tree. destruct (bt_get (m_id (t_meta t0)) nm); reflexivity.
Qed.
(** But no code fills [map_hash]: after a pack has been decoded, the check fails as soon
    as some tree has an entry, whether or not the entry is in the pack. *)
Theorem C36_check_after_decoding : forall k om, update_from_cache k omap_default om ->
  snd (check_completeness om) =
    (if forallb (fun t => match t_items t with [] => true | _ => false end) (om_trees om)
     then Ok tt else Err EUnCompletedPackObject).
Proof.
  intros k om H. apply C35_partition in H as (_ & Hm & _).
  destruct (C36_check_iff om) as [[-> F]|[-> F]]; rewrite Hm in F; destruct (forallb _ _) eqn:E; try reflexivity; exfalso.
  - assert (E' : forallb (fun t => match t_items t with [] => true | _ => false end) (om_trees om) = true); [|congruence].
    apply forallb_forall. intros t Ht. rewrite Forall_forall in F. specialize (F t Ht).
    destruct (t_items t) as [|i l]; [reflexivity|]. inversion F as [|? ? F1 _]; subst. contradiction F1. reflexivity.
  - apply F. rewrite forallb_forall in E. apply Forall_forall. intros t Ht. specialize (E t Ht).
    destruct (t_items t); [constructor|discriminate].
Qed.
(** Listing the objects aborts unless there are none, and writing a pack from them
    always aborts. *)
Theorem C36_listing_aborts : forall om, vec_sliding_window om =
  match om_commits om, om_tags om, om_trees om, om_blobs om with
  | [], [], [], [] => Ok []
  | _, _, _, _ => Panic
  end.
Proof.
  intros om. unfold vec_sliding_window. rewrite unwrap_metas_spec.
  destruct (om_commits om), (om_tags om), (om_trees om), (om_blobs om); reflexivity.
Qed.
Theorem C36_write_aborts : forall m c diff om f target, pack_write m c diff om f target = Panic.
Proof.
  intros m c diff om f target. unfold pack_write. destruct (check_completeness om) as [om' r] eqn:E.
  destruct (C36_check_iff om) as [[K _]|[K _]]; rewrite E in K; cbn [snd] in K; subst r; cbn [unwrap bind]; [|reflexivity].
  rewrite C36_listing_aborts.
  destruct (om_commits om'), (om_tags om'), (om_trees om'), (om_blobs om'); reflexivity.
Qed.
(** A complete pack (one blob, one tree that lists it) is rejected. *)
Definition blob_x : meta := ex_obj Blob (bs "hello").
Definition tree_x : meta := ex_obj Tree (flat_map tree_item_bytes [mkTreeItem (bs "100644") IBlob (m_id blob_x) (bs "a")]).
Theorem C36_complete_pack_refuted : exists k om t i b, update_from_cache k omap_default om /\
  om_trees om = [t] /\ t_items t = [i] /\ om_blobs om = [b] /\ ti_id i = m_id (b_meta b) /\
  bt_get (ti_id i) (by_hash k) = Some (b_meta b) /\
  snd (check_completeness om) = Err EUnCompletedPackObject /\ vec_sliding_window om = Panic.
Proof.
  set (k := cache_update (cache_update cache_empty blob_x 12) tree_x 30).
  assert (E : exists om t i b, update_seq k omap_default = Ok om /\
    om_trees om = [t] /\ t_items t = [i] /\ om_blobs om = [b] /\ ti_id i = m_id (b_meta b) /\
    bt_get (ti_id i) (by_hash k) = Some (b_meta b)).
  { do 4 eexists. split; [vm_compute; reflexivity|]. split; [reflexivity|]. split; [reflexivity|]. split; [reflexivity|].
    split; [reflexivity|vm_compute; reflexivity]. }
  destruct E as (om & t & i & b & E & E1 & E2 & E3 & E4 & E5). apply C35_sequential in E.
  exists k, om, t, i, b. repeat (split; [assumption|]). split.
  - rewrite (C36_check_after_decoding _ _ E), E1. cbn [forallb]. rewrite E2. reflexivity.
  - rewrite C36_listing_aborts, E1. destruct (om_commits om), (om_tags om); reflexivity.
Qed.
(** The check does succeed and name the objects when the table is filled. *)
Example C36_ex : exists om om', om_map_hash om <> [] /\ check_completeness om = (om', Ok tt) /\
  map b_filename (om_blobs om') = [bs "a"] /\ length (om_trees om') = 1%nat.
Proof.
  exists (mkOmap [(m_id blob_x, CBlob (blob_new blob_x))] [blob_new blob_x]
    [mkTree tree_x [mkTreeItem (bs "100644") IBlob (m_id blob_x) (bs "a")] []] [] [] []).
  eexists. split; [discriminate|]. split; [vm_compute; reflexivity|]. split; reflexivity.
Qed.

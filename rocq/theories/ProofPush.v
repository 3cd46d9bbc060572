(** Proofs about storing a decoded pack. *)

From Coq Require Import Permutation Sorted.
From Verif Require Import Base BaseLemmas Digest ModelObject ModelBase ModelPack ModelDecode ModelPkt ModelStorage.
From Verif Require Import SpecObject SpecIdx SpecBase SpecPack SpecDecode SpecStorage.
From Verif Require Import ProofUtf8 ProofObject ProofPack ProofIdx ProofBase ProofDecode ProofNodes ProofStorage.
Open Scope N_scope.

Definition sorted_cache (k : cache) : Prop := StronglySorted lt_hash (map fst (by_hash k)).

Lemma plain_lower : forall h, id_ok h -> lower_hex (to_plain_str h) h.
Proof.
  intros h [H1 H2]. unfold to_plain_str. pose proof (hex_encode_text h H2) as T. split; [exact T|].
  symmetry. apply hex_text_lower. exact T.
Qed.

(** The objects as the code holds them. *)
Lemma holds_metas : forall k objs, sorted_cache k -> SpecPack.holds k objs ->
  (forall m, In m (map snd (by_hash k)) <-> exists o h, In o objs /\ obj_id o h /\ m = as_meta o h) /\
  map m_id (map snd (by_hash k)) = map fst (by_hash k).
Proof.
  intros k objs S H. split.
  - intros m. rewrite in_map_iff. split.
    + intros ([h m'] & E & Hi). cbn in E. subst m'. apply bt_get_sorted in Hi; [|exact S].
      apply (H h m) in Hi as (o & Ho & Hid & E). eauto.
    + intros (o & h & Ho & Hid & E). assert (G : hash_object k h = Some m) by (apply H; eauto).
      apply bt_get_in in G. exists (h, m). auto.
  - rewrite map_map. apply map_ext_in. intros [h m] Hi. cbn [fst snd].
    apply bt_get_sorted in Hi; [|exact S]. apply (H h m) in Hi as (o & Ho & Hid & ->). reflexivity.
Qed.
Lemma holds_no_collision : forall k objs, SpecPack.holds k objs -> collision_free (fun o => In o objs).
Proof.
  intros k objs H a b h Ha Hb Ia Ib.
  assert (E1 : hash_object k h = Some (as_meta a h)) by (apply H; eauto).
  assert (E2 : hash_object k h = Some (as_meta b h)) by (apply H; eauto).
  rewrite E1 in E2. destruct a as [ta da], b as [tb db]. unfold as_meta in E2. cbn [fst snd] in E2. congruence.
Qed.

Lemma of_type_in : forall t l m, In m (of_type t l) <-> In m l /\ m_t m = t.
Proof.
  intros t l m. unfold of_type. rewrite filter_In. split; intros [H1 H2]; (split; [assumption|]).
  - destruct (m_t m), t; try discriminate; reflexivity.
  - rewrite H2. destruct t; reflexivity.
Qed.
Lemma perm_in : forall A (l l' : list A) x, Permutation l l' -> In x l <-> In x l'.
Proof. intros A l l' x P. split; apply Permutation_in; [assumption|apply Permutation_sym; assumption]. Qed.
Lemma nodup_filter_map : forall A B (f : A -> B) p l, NoDup (map f l) -> NoDup (map f (filter p l)).
Proof.
  intros A B f p. induction l as [|x l IH]; intros H; [constructor|]. cbn [map] in H. inversion H as [|? ? H1 H2]; subst.
  cbn [filter]. destruct (p x); [|auto]. cbn [map]. constructor; [|auto].
  intros K. apply H1. apply in_map_iff in K as (y & E & Hy). apply filter_In in Hy as [Hy _]. rewrite <- E. apply in_map. assumption.
Qed.

(** The vectors, in terms of the objects. *)
Record vectors (objs : list object) (bs : list blob) (ts : list tree) (cs : list commit) : Prop := {
  ve_trees : forall t, In t ts <-> exists d h items, In (Tree, d) objs /\ obj_id (Tree, d) h /\ git_tree items d /\
               t = mkTree (as_meta (Tree, d) h) items [];
  ve_trees_nodup : NoDup (map (fun t => m_id (t_meta t)) ts);
  ve_blobs : forall b, In b bs <-> exists d h, In (Blob, d) objs /\ obj_id (Blob, d) h /\ b = blob_new (as_meta (Blob, d) h);
  ve_blobs_nodup : NoDup (map (fun t => m_id (b_meta t)) bs);
  ve_commits : forall c, In c cs -> exists d h, In (Commit, d) objs /\ obj_id (Commit, d) h /\
                 cm_meta c = as_meta (Commit, d) h /\ commit_root d (cm_tree_id c);
  ve_commits_all : forall d h, In (Commit, d) objs -> obj_id (Commit, d) h ->
                 exists c, In c cs /\ cm_meta c = as_meta (Commit, d) h /\ commit_root d (cm_tree_id c);
  ve_commits_nodup : NoDup (map (fun c => m_id (cm_meta c)) cs) }.

Lemma classified_vectors : forall k objs bs ts cs gs, sorted_cache k -> SpecPack.holds k objs ->
  Forall sound_object objs -> classified (map snd (by_hash k)) bs cs ts gs -> vectors objs bs ts cs.
Proof.
  intros k objs bs ts cs gs S H So C. destruct (holds_metas k objs S H) as (Hm & Hk). rewrite Forall_forall in So.
  assert (ND : NoDup (map m_id (map snd (by_hash k)))) by (rewrite Hk; apply sorted_nodup; exact S).
  destruct C as [Cb Cc Ct Cg Pb Pc Pt Pg]. rewrite Forall_forall in Pb, Pc, Pt.
  assert (OT : forall t d h, In (t, d) objs -> obj_id (t, d) h -> In (as_meta (t, d) h) (of_type t (map snd (by_hash k)))).
  { intros t d h Ho Hi. apply of_type_in. split; [|reflexivity]. apply Hm. eauto. }
  assert (OF : forall t m, In m (of_type t (map snd (by_hash k))) -> exists d h, In (t, d) objs /\ obj_id (t, d) h /\ m = as_meta (t, d) h).
  { intros t m Hi. apply of_type_in in Hi as [Hi Et]. apply Hm in Hi as ([t' d] & h & Ho & Hid & ->).
    cbn in Et. subst t'. eauto. }
  split.
  - intros t. split.
    + intros Hi. assert (Hi' : In (t_meta t) (of_type Tree (map snd (by_hash k))))
        by (apply (perm_in _ _ _ _ Ct), in_map; assumption).
      apply OF in Hi' as (d & h & Ho & Hid & E). apply Pt in Hi. rewrite E in Hi. apply tree_new_spec in Hi as (_ & N & G).
      exists d, h, (t_items t). split; [assumption|]. split; [assumption|]. split; [exact G|].
      destruct t as [m it nm]. cbn in *. subst. reflexivity.
    + intros (d & h & items & Ho & Hid & G & ->).
      pose proof (OT _ _ _ Ho Hid) as Hi. apply (perm_in _ _ _ _ Ct) in Hi. apply in_map_iff in Hi as (t & E & Hi).
      pose proof (Pt _ Hi) as T. rewrite E in T. apply tree_new_spec in T as (_ & N & G').
      cbn [as_meta m_data snd] in G'. rewrite (git_tree_fun _ _ _ G G'). rewrite <- E. destruct t as [m it nm]. cbn in *.
      subst. assumption.
  - apply (Permutation_map m_id) in Ct. rewrite map_map in Ct.
    eapply Permutation_NoDup; [apply Permutation_sym; exact Ct|]. apply nodup_filter_map. exact ND.
  - intros b. split.
    + intros Hi. assert (Hi' : In (b_meta b) (of_type Blob (map snd (by_hash k))))
        by (apply (perm_in _ _ _ _ Cb), in_map; assumption).
      apply OF in Hi' as (d & h & Ho & Hid & E). apply Pb in Hi. rewrite E in Hi. eauto 6.
    + intros (d & h & Ho & Hid & ->).
      pose proof (OT _ _ _ Ho Hid) as Hi. apply (perm_in _ _ _ _ Cb) in Hi. apply in_map_iff in Hi as (b & E & Hi).
      pose proof (Pb _ Hi) as T. rewrite E in T. rewrite <- T. assumption.
  - apply (Permutation_map m_id) in Cb. rewrite map_map in Cb.
    eapply Permutation_NoDup; [apply Permutation_sym; exact Cb|]. apply nodup_filter_map. exact ND.
  - intros c Hi. assert (Hi' : In (cm_meta c) (of_type Commit (map snd (by_hash k))))
      by (apply (perm_in _ _ _ _ Cc), in_map; assumption).
    apply OF in Hi' as (d & h & Ho & Hid & E). exists d, h. split; [assumption|]. split; [assumption|]. split; [assumption|].
    apply Pc in Hi. destruct (So _ Ho) as (_ & _ & (tid & R)). cbn [snd] in R.
    destruct (commit_root_new (cm_meta c) tid) as (c' & E' & _ & <-); [rewrite E; exact R|]. congruence.
  - intros d h Ho Hid. pose proof (OT _ _ _ Ho Hid) as Hi. apply (perm_in _ _ _ _ Cc) in Hi.
    apply in_map_iff in Hi as (c & E & Hi). exists c. split; [assumption|]. split; [assumption|].
    apply Pc in Hi. destruct (So _ Ho) as (_ & _ & (tid & R)). cbn [snd] in R.
    destruct (commit_root_new (cm_meta c) tid) as (c' & E' & _ & <-); [rewrite E; exact R|]. congruence.
  - apply (Permutation_map m_id) in Cc. rewrite map_map in Cc.
    eapply Permutation_NoDup; [apply Permutation_sym; exact Cc|]. apply nodup_filter_map. exact ND.
Qed.
Lemma vectors_perm : forall objs bs ts cs bs' ts' cs', vectors objs bs ts cs ->
  Permutation bs bs' -> Permutation ts ts' -> Permutation cs cs' -> vectors objs bs' ts' cs'.
Proof.
  intros objs bs ts cs bs' ts' cs' [V1 V2 V3 V4 V5 V6 V7] Pb Pt Pc. split.
  - intros t. rewrite <- (perm_in _ _ _ t Pt). apply V1.
  - eapply Permutation_NoDup; [apply Permutation_map; exact Pt|assumption].
  - intros b. rewrite <- (perm_in _ _ _ b Pb). apply V3.
  - eapply Permutation_NoDup; [apply Permutation_map; exact Pb|assumption].
  - intros c Hc. apply V5. apply (perm_in _ _ _ c Pc). assumption.
  - intros d h Ho Hi. destruct (V6 d h Ho Hi) as (c & Hc & E). exists c. split; [apply (perm_in _ _ _ c Pc); assumption|assumption].
  - eapply Permutation_NoDup; [apply Permutation_map; exact Pc|assumption].
Qed.

(** ** The rows made of a complete set of objects *)

Definition tree_map (ts : list tree) := fold_left (fun m t => bt_insert (m_id (t_meta t)) t m) ts [].
Definition blob_map (bs : list blob) := fold_left (fun m b => bt_insert (m_id (b_meta b)) b m) bs [].

Section Rows.
Context (objs : list object) (bl : list blob) (ts : list tree) (cs : list commit).
Context (V : vectors objs bl ts cs) (Hso : Forall sound_object objs) (Hcf : collision_free (fun o => In o objs)).
Let In_objs := fun o => In o objs.

Lemma tm_get : forall h t, bt_get h (tree_map ts) = Some t <->
  exists d items, In (Tree, d) objs /\ obj_id (Tree, d) h /\ git_tree items d /\ t = mkTree (as_meta (Tree, d) h) items [].
Proof.
  intros h t. split.
  - intros H. apply (fold_bt_sound _ (fun t => m_id (t_meta t))) in H as [H|[H E]]; [discriminate|].
    apply (ve_trees _ _ _ _ V) in H as (d & h' & items & Ho & Hi & G & ->). cbn in E. subst h'. eauto 8.
  - intros (d & items & Ho & Hi & G & E).
    assert (T : In t ts) by (apply (ve_trees _ _ _ _ V); eauto 8).
    pose proof (fold_bt_complete _ (fun t => m_id (t_meta t)) ts [] t (ve_trees_nodup _ _ _ _ V) T) as K.
    cbn beta in K. rewrite E in K at 1. exact K.
Qed.
Lemma bm_get : forall h b, bt_get h (blob_map bl) = Some b <->
  exists d, In (Blob, d) objs /\ obj_id (Blob, d) h /\ b = blob_new (as_meta (Blob, d) h).
Proof.
  intros h b. split.
  - intros H. apply (fold_bt_sound _ (fun t => m_id (b_meta t))) in H as [H|[H E]]; [discriminate|].
    apply (ve_blobs _ _ _ _ V) in H as (d & h' & Ho & Hi & ->). cbn in E. subst h'. eauto 8.
  - intros (d & Ho & Hi & E).
    assert (T : In b bl) by (apply (ve_blobs _ _ _ _ V); eauto 8).
    pose proof (fold_bt_complete _ (fun t => m_id (b_meta t)) bl [] b (ve_blobs_nodup _ _ _ _ V) T) as K.
    cbn beta in K. rewrite E in K at 1. exact K.
Qed.
Lemma maps_disjoint : forall h t b, bt_get h (tree_map ts) = Some t -> bt_get h (blob_map bl) = Some b -> False.
Proof.
  intros h t b Ht Hb. apply tm_get in Ht as (d & items & H1 & H2 & _). apply bm_get in Hb as (d' & H3 & H4 & _).
  discriminate (Hcf _ _ _ H1 H3 H2 H4).
Qed.

Lemma is_tree_entry : forall i, is_tree_item i = true <-> entry_type (ti_type i) = Tree.
Proof. intros i. unfold is_tree_item, entry_type. destruct (ti_type i); split; congruence. Qed.

(** [h] is the id of a tree among the objects that is reached. *)
Definition live (h : hash) : Prop := exists d, obj_id (Tree, d) h /\ reach In_objs (Tree, d).

Lemma reach_in : forall o, reach In_objs o -> In o objs.
Proof. destruct 1; assumption. Qed.

Lemma entries_good : complete In_objs -> forall h t, live h -> bt_get h (tree_map ts) = Some t ->
  exists d, t_meta t = as_meta (Tree, d) h /\ reach In_objs (Tree, d) /\ obj_id (Tree, d) h /\ git_tree (t_items t) d /\
    Forall (good_item (tree_map ts) (blob_map bl)) (t_items t) /\
    NoDup (map ti_filename (t_items t)) /\
    forall i, In i (t_items t) -> is_tree_item i = true -> live (ti_id i).
Proof.
  intros Co h t (d0 & Hi0 & Hr) Ht. apply tm_get in Ht as (d & items & Ho & Hi & G & ->). cbn [t_meta t_items].
  pose proof (Hcf _ _ _ (reach_in _ Hr) Ho Hi0 Hi) as E. injection E as ->.
  exists d. split; [reflexivity|]. split; [assumption|]. split; [assumption|]. split; [assumption|].
  assert (K : forall i, In i items -> exists t d', t = entry_type (ti_type i) /\ t <> Commit /\ In (t, d') objs /\ obj_id (t, d') (ti_id i)
                /\ reach In_objs (t, d')).
  { intros i Ii. pose proof (rf_entry d items i G Ii) as Rf. destruct (Co _ _ _ Hr Rf) as (Nc & d' & Hd & Hid).
    exists (entry_type (ti_type i)), d'. split; [reflexivity|]. split; [assumption|]. split; [assumption|].
    split; [assumption|]. eapply rc_refers; eassumption. }
  rewrite Forall_forall in Hso. split; [|split].
  - apply Forall_forall. intros i Ii. destruct (K i Ii) as (t & d' & -> & Nc & Hd & Hid & Hr').
    unfold good_item. destruct (is_tree_item i) eqn:T.
    + apply is_tree_entry in T. rewrite T in *. destruct (Hso _ Hd) as (_ & _ & items' & G' & _).
      eexists. apply tm_get. eauto 8.
    + assert (Eb : entry_type (ti_type i) = Blob).
      { unfold entry_type in *. unfold is_tree_item in T. destruct (ti_type i); congruence. }
      rewrite Eb in *. eexists. apply bm_get. eauto 8.
  - destruct (Hso _ Ho) as (_ & _ & items' & G' & N). cbn [snd] in G'. rewrite (git_tree_fun _ _ _ G G'). assumption.
  - intros i Ii T. destruct (K i Ii) as (t & d' & -> & Nc & Hd & Hid & Hr'). apply is_tree_entry in T. rewrite T in *.
    exists d'. auto.
Qed.

Lemma row_node_for : forall r h, row_of (tree_map ts) (blob_map bl) r h ->
  exists o, node_for r o /\ In o objs /\ obj_id o h.
Proof.
  intros r h H. inversion H as [h' t name mode Ht|h' b name mode Hb]; subst.
  - apply tm_get in Ht as (d & items & Ho & Hi & G & ->). cbn [t_meta as_meta m_id m_data snd]. exists (Tree, d).
    split; [|auto]. eapply nf_tree; [exact Hi|..]; try reflexivity. cbn [n_git_id].
    apply plain_lower. eapply obj_id_ok. exact Hi.
  - apply bm_get in Hb as (d & Ho & Hi & ->). cbn [blob_new b_meta as_meta m_id m_data snd]. exists (Blob, d).
    split; [|auto]. eapply nf_blob; [exact Hi|..]; try reflexivity. cbn [n_git_id].
    apply plain_lower. eapply obj_id_ok. exact Hi.
Qed.

Lemma rows_at : complete In_objs -> forall rank : hash -> nat,
  (forall d h h', In_objs (Tree, d) -> obj_id (Tree, d) h -> refers (Tree, d) Tree h' -> (rank h' < rank h)%nat) ->
  forall fuel, (forall c, In c cs -> (rank (cm_tree_id c) <= fuel)%nat) ->
  exists rows, build_commits fuel (tree_map ts) (blob_map bl) cs [] = Ok rows /\
    (forall r, In r rows -> (n_name r = [] /\ n_mode r = []) \/ exists d items i, reach In_objs (Tree, d) /\
       git_tree items d /\ In i items /\ n_name r = ti_filename i /\ n_mode r = ti_mode i) /\
    (forall r, In r rows -> exists o, node_for r o /\ reach In_objs o) /\
    (forall o, reach In_objs o -> fst o <> Commit -> exists r, In r rows /\ node_for r o) /\
    forall path, rows_shape objs rows (map (commit_to_row path) cs).
Proof.
  intros Co rank Ac fuel Hf.
  assert (HT : forall h t, live h -> bt_get h (tree_map ts) = Some t ->
    Forall (good_item (tree_map ts) (blob_map bl)) (t_items t) /\ NoDup (map ti_filename (t_items t)) /\
    forall i, In i (t_items t) -> is_tree_item i = true -> (rank (ti_id i) < rank h)%nat /\ live (ti_id i)).
  { intros h t L Ht. destruct (entries_good Co h t L Ht) as (d & Em & Hr & Hi & G & K1 & K2 & K3).
    split; [assumption|]. split; [assumption|]. intros i Ii T. split; [|auto].
    apply (Ac d h); [apply reach_in; assumption|assumption|].
    pose proof (rf_entry d (t_items t) i G Ii) as Rf. apply is_tree_entry in T. rewrite T in Rf. exact Rf. }
  assert (HC : forall c, In c cs -> live (cm_tree_id c) /\ exists t, bt_get (cm_tree_id c) (tree_map ts) = Some t).
  { intros c Hc. apply (ve_commits _ _ _ _ V) in Hc as (d & h & Ho & Hi & _ & Hr).
    assert (R : reach In_objs (Commit, d)) by (apply rc_commit; assumption).
    pose proof (rf_root _ _ Hr) as Rf. destruct (Co _ _ _ R Rf) as (_ & d' & Hd & Hid). split.
    - exists d'. split; [assumption|]. eapply rc_refers; try eassumption. discriminate.
    - rewrite Forall_forall in Hso. destruct (Hso _ Hd) as (_ & _ & items & G & _). eexists. apply tm_get. eauto 8. }
  destruct (build_commits_ok (tree_map ts) (blob_map bl) maps_disjoint live rank HT fuel cs [])
    as (rows & ids & E & R1 & R2 & R3 & R4).
  { intros c Hc. destruct (HC c Hc) as [L G]. split; [exact (Hf c Hc)|auto]. }
  { intros ? ? ? []. }
  exists rows. split; [exact E|]. split.
  { apply (build_commits_names (tree_map ts) (blob_map bl) live (fun n m => (n = [] /\ m = []) \/ exists d items i,
      reach In_objs (Tree, d) /\ git_tree items d /\ In i items /\ n = ti_filename i /\ m = ti_mode i))
      with (3 := E).
    - intros h t i L Ht Ii. destruct (entries_good Co h t L Ht) as (d & _ & Hr & _ & G & _ & _ & K3).
      split; [right; exists d, (t_items t), i; auto|auto].
    - auto.
    - intros c Hc. apply HC. assumption. }
  (* ids of the rows are reached *)
  assert (U : forall items h, under (tree_map ts) items h ->
     forall d, git_tree items d -> reach In_objs (Tree, d) -> exists o, obj_id o h /\ reach In_objs o).
  { intros items h U. induction U as [items i Ii|items i t h Ii T Ht U IH]; intros d G Hr.
    - pose proof (rf_entry d items i G Ii) as Rf. destruct (Co _ _ _ Hr Rf) as (Nc & d' & Hd & Hid).
      eexists. split; [exact Hid|]. eapply rc_refers; eassumption.
    - pose proof (rf_entry d items i G Ii) as Rf. apply is_tree_entry in T. rewrite T in Rf.
      destruct (Co _ _ _ Hr Rf) as (Nc & d' & Hd & Hid).
      assert (L : live (ti_id i)) by (exists d'; split; [assumption|]; eapply rc_refers; eassumption).
      destruct (entries_good Co _ _ L Ht) as (d2 & _ & Hr2 & _ & G2 & _). eapply IH; eassumption. }
  assert (RI : forall h, In h ids \/ In h (map cm_tree_id cs) -> exists o, obj_id o h /\ reach In_objs o).
  { intros h [H|H].
    - destruct (R4 h H) as (c & t & Hc & Ht & Hu). destruct (HC c Hc) as [L _].
      destruct (entries_good Co _ _ L Ht) as (d2 & _ & Hr2 & _ & G2 & _). eapply U; eassumption.
    - apply in_map_iff in H as (c & <- & Hc). destruct (HC c Hc) as [(d & Hd & Hr) _]. eauto. }
  split; [|split].
  - intros r Hr. destruct (R1 r Hr) as (h & Hh & Ro). destruct (row_node_for _ _ Ro) as (o & Hn & Ho & Hi).
    exists o. split; [assumption|]. destruct (RI h Hh) as (o' & Hi' & Hr').
    rewrite (Hcf _ _ _ Ho (reach_in _ Hr') Hi Hi'). assumption.
  - assert (K : forall o, reach In_objs o -> fst o <> Commit -> forall h, obj_id o h -> In h ids \/ In h (map cm_tree_id cs)).
    { induction 1 as [d Hd|o t h d Hr IH Rf Nc Hd Hi]; intros N h' Hi'; [contradiction N; reflexivity|].
      rewrite (obj_id_fun _ _ _ Hi' Hi). clear h' Hi'. inversion Rf as [d0 tid Hc|d0 items i G Ii]; subst.
      - right. rewrite Forall_forall in Hso. pose proof (reach_in _ Hr) as Ho.
        destruct (meta_new_obj Commit d0) as (hc & Hic & _); [eexists; constructor|].
        destruct (ve_commits_all _ _ _ _ V d0 hc Ho Hic) as (c & Ic & _ & Hcr).
        rewrite (commit_root_fun _ _ _ Hc Hcr). apply in_map. assumption.
      - left. destruct (meta_new_obj Tree d0) as (ht & Hit & _); [eexists; constructor|].
        assert (N' : fst (Tree, d0) <> Commit) by discriminate. specialize (IH N' ht Hit).
        rewrite app_nil_r in R3. apply (R3 ht (mkTree (as_meta (Tree, d0) ht) items []) i).
        + apply in_or_app. assumption.
        + apply tm_get. exists d0, items. split; [apply reach_in; assumption|auto].
        + assumption. }
    intros o Hr N. pose proof (reach_in _ Hr) as Ho.
    assert (Hid : exists h, obj_id o h).
    { destruct o as [t d]. inversion Hr; subst; eauto. destruct (meta_new_obj Commit d) as (hc & Hic & _); [eexists; constructor|]. eauto. }
    destruct Hid as (h & Hi). destruct (R2 h (K o Hr N h Hi)) as (r & Ir & Ro). exists r. split; [assumption|].
    destruct (row_node_for _ _ Ro) as (o' & Hn & Ho' & Hi'). rewrite (Hcf _ _ _ Ho Ho' Hi Hi'). assumption.
  - intros path.
    destruct (build_commits_rows (tree_map ts) (blob_map bl) maps_disjoint live rank (is_entry objs)) with (2 := E)
      as (roots & new & Q1 & Q2 & Q3 & Q4 & cl & L1 & L2 & L3).
    { intros h t i L Ht Hi. destruct (entries_good Co h t L Ht) as (d & _ & Hr & _ & G & _ & _ & K3).
      split; [exists d, (t_items t); auto|]. intros T. destruct (HT h t L Ht) as (_ & _ & K). apply K; assumption. }
    { intros c Hc. apply HC. exact Hc. } { constructor. } { intros ? []. }
    rewrite Forall_forall in Q4. rewrite app_nil_r in Q3.
    assert (RI2 : forall x, In x new -> lower_hex (n_git_id (snd x)) (new_id x) /\ id_ok (new_id x)).
    { intros x Hx. destruct (Q4 x Hx) as (_ & (Ro & _)). destruct (row_node_for _ _ Ro) as (o & Hn & _ & Hi). fold (new_id x) in Hi.
      split; [|eapply obj_id_ok; exact Hi]. inversion Hn as [r h d Hi' Lh|r h d Hi' Lh]; subst; rewrite (obj_id_fun _ _ _ Hi Hi'); exact Lh. }
    exists roots, (map snd new). split; [exact Q1|]. split; [|split; [|split]].
    + pose proof (fun h t => proj1 (tm_get h t)) as TG. clear -Q2 TG. induction Q2 as [|c r cs' roots (t & Ht & ->) F IH]; [constructor|]. cbn [map]. constructor; [|exact IH].
      apply TG in Ht as (d & items & _ & _ & Hg & ->). repeat split.
    + rewrite map_map. clear -Q3 RI2. induction new as [|x new IH]; [constructor|]. cbn [map] in *. inversion Q3 as [|? ? N1 N2]; subst.
      constructor; [|apply IH; [exact N2|intros; apply RI2; right; assumption]].
      intros K. apply in_map_iff in K as (y & Y & Iy). apply N1. apply in_map_iff. exists y. split; [|exact Iy].
      destruct (RI2 x (or_introl eq_refl)) as [X1 X2], (RI2 y (or_intror Iy)) as [Y1 Y2].
      apply to_plain_str_inj; [assumption..|]. apply lower_hex_eq in X1, Y1. unfold to_plain_str. congruence.
    + apply Forall_forall. intros r Hr. apply in_map_iff in Hr as (x & <- & Hx). destruct (Q4 x Hx) as (Ei & (Ro & N1 & N2 & N3)).
      exists (fst x). split; [exact Ei|]. split; [exact (proj1 (RI2 x Hx))|]. split; [exact N1|]. split; [exact N2|]. rewrite N3.
      destruct Ei as (d & items & Hr & G & Hi). destruct (Co _ _ _ Hr (rf_entry d items _ G Hi)) as (Nc & _).
      unfold is_tree_item, entry_type in *. destruct (ti_type (fst x)); reflexivity.
    + assert (RC : forall o, reach In_objs o -> forall d items i, o = (Tree, d) -> git_tree items d -> In i items -> In (ti_id i) cl).
      { induction 1 as [d0 Hd|o t h d0 Hr IH Rf Nc Hd Hi]; intros d items i E0 G Ii; [discriminate E0|]. injection E0 as -> ->.
        assert (Ht : bt_get h (tree_map ts) = Some (mkTree (as_meta (Tree, d) h) items [])).
        { apply tm_get. exists d, items. auto. }
        inversion Rf as [d1 tid Hc|d1 items1 i1 G1 I1 E1 E2]; subst.
        - pose proof (reach_in _ Hr) as Ho. destruct (meta_new_obj Commit d1) as (hc & Hic & _); [eexists; constructor|].
          destruct (ve_commits_all _ _ _ _ V d1 hc Ho Hic) as (c & Ic & _ & Hcr).
          rewrite (commit_root_fun _ _ _ Hc Hcr) in Ht. exact (L3 _ _ _ Ic Ht Ii).
        - assert (K : In (ti_id i1) cl) by (eapply IH; [reflexivity|exact G1|exact I1]).
          destruct (L1 _ K) as [(b & Hb)|(t & Ht' & K')]; [destruct (maps_disjoint _ _ _ Ht Hb)|].
          rewrite Ht in Ht'. injection Ht' as <-. exact (K' _ Ii). }
      intros i (d & items & Hr & G & Ii). pose proof (RC _ Hr _ _ _ eq_refl G Ii) as K. apply L2 in K as [K|[]].
      apply in_map_iff in K as (x & Ex & Ix). exists (snd x). split; [apply in_map; exact Ix|]. rewrite <- Ex. exact (proj1 (RI2 x Ix)).
Qed.
End Rows.

(** ** Values that fit *)

Lemma chars_app : forall a b, chars (a ++ b) = chars a + chars b.
Proof. intros a b. unfold chars. rewrite filter_app, nlen_app. reflexivity. Qed.
Lemma chars_le : forall l, chars l <= nlen l.
Proof.
  induction l as [|b l IH]; [apply N.le_refl|]. unfold chars in *. cbn [filter].
  destruct (negb _); rewrite ?nlen_cons; lia.
Qed.
Lemma chars_one : forall c, scalar c -> chars (utf8_char c) = 1.
Proof.
  intros c Hc. unfold utf8_char, scalar in *.
  assert (Y : forall b r, (b < 128 \/ 192 <= b) -> chars (b :: r) = 1 + chars r).
  { intros b r H. unfold chars. cbn [filter].
    replace (negb ((128 <=? b) && (b <? 192))) with true by lia. rewrite nlen_cons. lia. }
  assert (Z : forall b r, 128 <= b < 192 -> chars (b :: r) = chars r).
  { intros b r H. unfold chars. cbn [filter].
    replace (negb ((128 <=? b) && (b <? 192))) with false by lia. reflexivity. }
  destruct (N.ltb_spec c 128); [rewrite Y by lia; reflexivity|].
  destruct (N.ltb_spec c 2048); [rewrite Y by lia; rewrite Z by lia; reflexivity|].
  destruct (N.ltb_spec c 65536); [rewrite Y by lia; rewrite !Z by lia; reflexivity|].
  rewrite Y by lia. rewrite !Z by lia. reflexivity.
Qed.
Lemma chars_text : forall l n, text_len l n -> chars l = N.of_nat n.
Proof.
  intros l n (cs & F & -> & <-). induction F as [|c cs Hc F IH]; [reflexivity|].
  cbn [flat_map length]. rewrite chars_app, chars_one, IH by assumption. lia.
Qed.
Lemma plain_chars : forall h, id_ok h -> chars (to_plain_str h) <= 40.
Proof.
  intros h [H _]. eapply N.le_trans; [apply chars_le|]. unfold nlen. rewrite (to_plain_str_len h H). lia.
Qed.
Lemma git_tree_modes : forall items d i, git_tree items d -> In i items -> nlen (ti_mode i) <= 6.
Proof.
  intros items d i G. induction G as [|mode t id name items rest M N0 N1 L G IH]; intros Hi; [destruct Hi|].
  destruct Hi as [<-|Hi]; [|auto]. destruct M; vm_compute; discriminate.
Qed.
Lemma lower_hex_len : forall s h, lower_hex s h -> nlen s = 2 * nlen h.
Proof. intros s h [H _]. unfold nlen. rewrite (hex_text_len _ _ H). lia. Qed.

Lemma node_row_fits : forall r o, node_for r o ->
  (exists n, text_len (n_name r) n /\ (n <= 128)%nat) -> nlen (n_mode r) <= 6 -> nlen (snd o) <= 16777215 ->
  node_fits r = true.
Proof.
  intros r o H (n & Hn & Hl) Hm Hd. unfold node_fits, varchar. apply chars_text in Hn.
  assert (K : chars (n_git_id r) <= 40 /\ chars (n_type r) <= 16 /\ n_data r = snd o).
  { destruct H as [r h d Hi L T D|r h d Hi L T D]; rewrite T, D;
      (split; [|split; [vm_compute; discriminate|reflexivity]]);
      (eapply N.le_trans; [apply chars_le|]); rewrite (lower_hex_len _ _ L); apply obj_id_ok in Hi as [Hi _];
      unfold nlen; rewrite Hi; lia. }
  destruct K as (K1 & K2 & K3). rewrite K3.
  rewrite !andb_true_iff, !N.leb_le. rewrite Hn. repeat split; lia.
Qed.

(** ** The whole push *)

Lemma build_row : forall TM BM fuel items node cache node' cache',
  build_items fuel TM BM items node cache = Ok (node', cache') -> tn_row node' = tn_row node.
Proof.
  intros TM BM fuel. induction items as [|i items IH]; intros node cache node' cache' E.
  - destruct fuel; injection E as <- <-; reflexivity.
  - assert (AC : forall c n1, add_child node c = Ok n1 -> tn_row n1 = tn_row node).
    { intros c n1 H. unfold add_child in H. destruct (tn_dir node); [|discriminate]. injection H as <-. reflexivity. }
    destruct fuel as [|f]; cbn [build_items] in E;
    (destruct (existsb (beq (ti_id i)) cache); [exact (IH _ _ _ _ E)|]); destruct (is_tree_item i).
    + apply bind_ok in E as (t & Et & E). apply bind_ok in E as (n1 & En & E).
      apply bind_ok in E as ([[a ch] b] & Ef & E). discriminate.
    + apply bind_ok in E as (b & Eb & E). apply bind_ok in E as (n1 & En & E). apply IH in E. rewrite E. eauto.
    + apply bind_ok in E as (t & Et & E). apply bind_ok in E as (n1 & En & E).
      apply bind_ok in E as ([[a ch] b] & Ef & E). apply bind_ok in E as ([c1 k1] & E1 & E). apply IH in E. rewrite E. exact (AC _ _ En).
    + apply bind_ok in E as (b & Eb & E). apply bind_ok in E as (n1 & En & E). apply IH in E. rewrite E. eauto.
Qed.

Lemma update_seq_ok : forall k objs, sorted_cache k -> SpecPack.holds k objs -> Forall sound_object objs ->
  exists om, update_seq k omap_default = Ok om /\ vectors objs (om_blobs om) (om_trees om) (om_commits om).
Proof.
  intros k objs S H So.
  assert (F : Forall parses (map snd (by_hash k))).
  { apply Forall_forall. intros m Hm. apply (proj1 (holds_metas k objs S H)) in Hm as (o & h & Ho & Hi & ->).
    apply sound_parses; [|assumption]. rewrite Forall_forall in So. auto. }
  apply (push_all_parses _ vecs_empty) in F as [v E].
  eexists. assert (U : update_seq k omap_default = Ok (mkOmap [] (v_blobs v) (v_trees v) (v_tags v) (v_commits v) [])).
  { unfold update_seq. rewrite E. reflexivity. }
  split; [exact U|]. cbn [om_blobs om_trees om_commits]. apply (classified_vectors k objs _ _ _ (v_tags v) S H So).
  apply update_seq_is_update in U. destruct U as (qs & ws & v' & P & St & D & Eq).
  pose proof (pool_done_inv _ _ _ D (pinv_steps _ _ _ St (pinv_start qs))) as V.
  injection Eq as -> -> -> ->. exact (proj1 (vinv_perm _ _ _ P V)).
Qed.

Lemma commit_rows_fit : forall objs bl ts cs path, vectors objs bl ts cs ->
  (forall o, In o objs -> fst o = Commit -> fits_columns path o) ->
  forallb commit_fits (map (commit_to_row path) cs) = true.
Proof.
  intros objs bl ts cs path V Ft. apply forallb_forall. intros r Hr. apply in_map_iff in Hr as (c & <- & Hc).
  apply (ve_commits _ _ _ _ V) in Hc as (d & h & Ho & Hi & Em & Hr).
  destruct (Ft _ Ho eq_refl) as (F1 & n & F2 & F3). cbn [snd] in F1. apply chars_text in F2.
  unfold commit_fits, varchar, commit_to_row. cbn [c_git_id c_tree c_meta c_repo_path]. rewrite Em.
  cbn [as_meta m_id m_data snd]. pose proof (plain_chars _ (obj_id_ok _ _ Hi)). pose proof (plain_chars _ (commit_root_ok _ _ Hr)).
  rewrite !andb_true_iff, !N.leb_le, F2. repeat split; try assumption; lia.
Qed.
Lemma commit_rows_for : forall objs bl ts cs path, vectors objs bl ts cs ->
  (forall r, In r (map (commit_to_row path) cs) -> c_repo_path r = path /\ exists o, commit_for r o /\ In o objs) /\
  (forall d, In (Commit, d) objs ->
     exists r, In r (map (commit_to_row path) cs) /\ c_repo_path r = path /\ commit_for r (Commit, d)).
Proof.
  intros objs bl ts cs path V.
  assert (K : forall c d h, cm_meta c = as_meta (Commit, d) h -> obj_id (Commit, d) h -> commit_root d (cm_tree_id c) ->
    commit_for (commit_to_row path c) (Commit, d)).
  { intros c d h Em Hi Hr. eapply cf_commit; [exact Hi| |exact Hr| |]; unfold commit_to_row; cbn [c_git_id c_tree c_meta];
      rewrite ?Em; [apply plain_lower; eapply obj_id_ok; exact Hi|apply plain_lower; eapply commit_root_ok; exact Hr|reflexivity]. }
  split.
  - intros r Hr. apply in_map_iff in Hr as (c & <- & Hc). split; [reflexivity|].
    apply (ve_commits _ _ _ _ V) in Hc as (d & h & Ho & Hi & Em & Hr). eauto.
  - intros d Ho. destruct (meta_new_obj Commit d) as (h & Hi & _); [eexists; constructor|].
    destruct (ve_commits_all _ _ _ _ V d h Ho Hi) as (c & Hc & Em & Hr).
    exists (commit_to_row path c). split; [apply in_map; assumption|]. split; [reflexivity|eauto].
Qed.

Section Push.
Context (e : env) (k : cache) (objs : list object) (path : bytes).
Context (He : env_ok e) (Hk : sorted_cache k) (Hh : SpecPack.holds k objs) (Hso : Forall sound_object objs).
Let In_objs := fun o => In o objs.

(** The start of the push: the vectors, in some order. *)
Lemma save_packfile_start : forall w, no_failure w -> exists w1 om, moved w w1 [] /\
  vectors objs (om_blobs om) (om_trees om) (om_commits om) /\
  forall fuel, save_packfile e fuel k path w = save_objects e fuel om path w1.
Proof.
  intros w Q. destruct He as (Op & _). destruct (update_seq_ok k objs Hk Hh Hso) as (om & U & V).
  destruct (shuffle_run _ e (om_blobs om) w Q) as (w1 & E1 & M1).
  destruct (shuffle_run _ e (om_trees om) w1 (mv_quiet _ _ _ M1)) as (w2 & E2 & M2).
  destruct (shuffle_run _ e (om_tags om) w2 (mv_quiet _ _ _ M2)) as (w3 & E3 & M3).
  destruct (shuffle_run _ e (om_commits om) w3 (mv_quiet _ _ _ M3)) as (w4 & E4 & M4).
  exists w4, (mkOmap (om_map_hash om) (ord e (w_tick w) _ (om_blobs om)) (ord e (w_tick w1) _ (om_trees om))
    (ord e (w_tick w2) _ (om_tags om)) (ord e (w_tick w3) _ (om_commits om)) (om_name_map om)). split; [exact (moved_trans _ _ _ _ _ (moved_trans _ _ _ _ _ (moved_trans _ _ _ _ _ M1 M2) M3) M4)|].
  split.
  - cbn [om_blobs om_trees om_commits]. eapply vectors_perm; [exact V|apply Permutation_sym, Op..].
  - intros fuel. unfold save_packfile. unfold lift. rewrite U. unfold mbind at 1.
    rewrite (mbind_ok _ _ _ _ _ _ _ E1), (mbind_ok _ _ _ _ _ _ _ E2), (mbind_ok _ _ _ _ _ _ _ E3), (mbind_ok _ _ _ _ _ _ _ E4).
    reflexivity.
Qed.

(** The rows of a push, whatever the order of the vectors. *)
Lemma save_rows_nodes : complete In_objs -> forall rank : hash -> nat,
  (forall d h h', In_objs (Tree, d) -> obj_id (Tree, d) h -> refers (Tree, d) Tree h' -> (rank h' < rank h)%nat) ->
  (forall o, reach In_objs o -> fst o <> Commit -> fits_columns path o) ->
  forall om fuel, vectors objs (om_blobs om) (om_trees om) (om_commits om) ->
  (forall c, In c (om_commits om) -> (rank (cm_tree_id c) <= fuel)%nat) ->
  exists rows, build_node_tree fuel om = Ok rows /\ forallb node_fits rows = true /\
    Forall (fun b => b <> [] \/ empty_insert e = true) (batches 0 [] rows) /\
    rows_for path objs rows (map (commit_to_row path) (om_commits om)).
Proof.
  intros Co rank Ac Ft om fuel V Hf.
  destruct (rows_at objs _ _ _ V Hso (holds_no_collision _ _ Hh) Co rank Ac fuel Hf) as (rows & EB & Rn & Rs & Ra & Rw).
  assert (FN : forallb node_fits rows = true).
  { apply forallb_forall. intros r Hr. destruct (Rs r Hr) as (o & Hn & Ho). apply (node_row_fits r o Hn).
    - destruct (Rn r Hr) as [[-> _]|(d & items & i & Hd & G & Hi & -> & _)].
      + exists O. split; [exists []; split; [constructor|split; reflexivity]|lia].
      + destruct (Ft _ Hd) as (_ & _ & K); [discriminate|]. exact (K _ _ G Hi).
    - destruct (Rn r Hr) as [[_ ->]|(d & items & i & Hd & G & Hi & _ & ->)]; [vm_compute; discriminate|].
      exact (git_tree_modes _ _ _ G Hi).
    - pose proof (Ft _ Ho) as K. destruct Hn; unfold fits_columns in K; cbn [fst snd] in *; [apply K|apply K]; discriminate. }
  assert (FB : Forall (fun b => b <> [] \/ empty_insert e = true) (batches 0 [] rows)).
  { destruct rows as [|r rows]; [constructor|]. eapply Forall_impl; [intros b Hb; left; exact Hb|].
    apply batches_start. unfold batch_limit.
    destruct (om_commits om) as [|c cs] eqn:Ec; [discriminate|]. cbn [build_commits] in EB.
    apply bind_ok in EB as (t & Et & EB). apply bind_ok in EB as ([root ca] & Eb & EB). apply bind_ok in EB as (rest & Er & EB).
    assert (Er' : r = tn_row (tree_to_node t None)).
    { apply build_row in Eb. destruct root as [dd rr ll]. cbn [tn_row] in Eb. cbn [flatten app] in EB. congruence. }
    destruct (bt_get (cm_tree_id c) (tree_map (om_trees om))) as [t'|] eqn:Gt; [|discriminate]. injection Et as ->.
    pose proof Gt as Gt'. apply (tm_get _ _ _ _ V) in Gt' as (d & items & Ho & Hi & G & ->).
    rewrite Er'. cbn [tree_to_node tn_row n_data t_meta as_meta m_data snd].
    assert (Hl : exists o, reach In_objs o /\ node_for r o) by (destruct (Rs r (or_introl eq_refl)) as (o & H1 & H2); eauto).
    destruct Hl as (o & Hr & Hn). assert (Eo : snd o = d /\ fst o = Tree).
    { rewrite Er' in Hn. cbn in Hn. inversion Hn; subst; cbn in *; [auto|discriminate]. }
    destruct o as [to do]. cbn in Eo. destruct Eo as [-> ->]. apply (Ft _ Hr). discriminate. }
  exists rows. split; [exact EB|]. split; [exact FN|]. split; [exact FB|].
  destruct (commit_rows_for _ _ _ _ path V) as [C1 C2]. split; [exact Rs|exact Ra|exact C1|exact C2| |apply Rw].
  rewrite map_map. pose proof (ve_commits_nodup _ _ _ _ V) as N.
  assert (OK : forall c, In c (om_commits om) -> id_ok (m_id (cm_meta c))).
  { intros c Hc. apply (ve_commits _ _ _ _ V) in Hc as (d & h & _ & Hi & -> & _). eapply obj_id_ok, Hi. }
  clear -N OK. induction (om_commits om) as [|c cs IH]; [constructor|]. cbn [map] in *. inversion N as [|? ? N1 N2]; subst.
  constructor; [|apply IH; [exact N2|intros; apply OK; right; assumption]].
  intros K. apply in_map_iff in K as (y & Y & Iy). apply N1. apply in_map_iff. exists y. split; [|exact Iy].
  apply to_plain_str_inj; [apply OK; simpl; auto..|exact Y].
Qed.

Lemma save_rows : complete In_objs -> forall rank : hash -> nat,
  (forall d h h', In_objs (Tree, d) -> obj_id (Tree, d) h -> refers (Tree, d) Tree h' -> (rank h' < rank h)%nat) ->
  (forall o, reach In_objs o -> fits_columns path o) ->
  forall om fuel, vectors objs (om_blobs om) (om_trees om) (om_commits om) ->
  (forall c, In c (om_commits om) -> (rank (cm_tree_id c) <= fuel)%nat) ->
  exists rows, build_node_tree fuel om = Ok rows /\ forallb node_fits rows = true /\
    Forall (fun b => b <> [] \/ empty_insert e = true) (batches 0 [] rows) /\
    forallb commit_fits (map (commit_to_row path) (om_commits om)) = true /\
    rows_for path objs rows (map (commit_to_row path) (om_commits om)).
Proof.
  intros Co rank Ac Ft om fuel V Hf.
  destruct (save_rows_nodes Co rank Ac (fun o H _ => Ft o H) om fuel V Hf) as (rows & EB & FN & FB & Rf).
  exists rows. split; [exact EB|]. split; [exact FN|]. split; [exact FB|]. split; [|exact Rf].
  apply (commit_rows_fit objs _ _ _ path V). intros [t d] Ho Et. cbn in Et. subst t. apply Ft. apply rc_commit. exact Ho.
Qed.

Theorem push_run : complete In_objs -> acyclic In_objs -> (forall o, reach In_objs o -> fits_columns path o) ->
  forall w, no_failure w -> exists fuel0 w' l rows crows,
  (forall fuel, (fuel0 <= fuel)%nat -> save_packfile e fuel k path w = (w', Ok tt)) /\ moved w w' l /\
  w_db w' = with_rows (w_db w) rows crows /\ rows_for path objs rows crows /\
  forall d, In d l -> (exists p q, rows = p ++ q /\ d = with_nodes (w_db w) p) \/
                      (exists p q, crows = p ++ q /\ d = with_rows (w_db w) rows p).
Proof.
  intros Co Ac Ft w Q. destruct (save_packfile_start w Q) as (w1 & om & M1 & V & ES).
  destruct Ac as (rank & Ac). set (fuel0 := list_max (map (fun c => rank (cm_tree_id c)) (om_commits om))).
  destruct (save_rows Co rank Ac Ft om fuel0 V) as (rows & EB & FN & FB & FC & Rf).
  { intros c Hc. assert (K : (list_max (map (fun c => rank (cm_tree_id c)) (om_commits om)) <= fuel0)%nat) by apply Nat.le_refl.
    apply list_max_le in K. rewrite Forall_forall in K. apply K. apply in_map_iff. eauto. }
  assert (EB' : forall fuel, (fuel0 <= fuel)%nat -> build_node_tree fuel om = Ok rows)
    by (intros fuel Hfu; exact (build_commits_more _ _ _ _ _ _ _ Hfu EB)).
  destruct (insert_batches_run e (batches 0 [] rows) w1 (mv_quiet _ _ _ M1) FB) as (w2 & l2 & E2 & M2 & D2 & L2);
    [rewrite batches_concat; exact FN|]. rewrite batches_concat in D2, L2. cbn [app] in D2, L2.
  destruct (save_commits_run path (om_commits om) w2 (mv_quiet _ _ _ M2) FC) as (w3 & l3 & E3 & M3 & D3 & L3).
  pose proof (mv_db _ _ _ M1) as B1. cbn [last] in B1.
  exists fuel0, w3, ([] ++ l2 ++ l3), rows, (map (commit_to_row path) (om_commits om)).
  split; [|split; [|split; [|split]]].
  - intros fuel Hfu. rewrite ES. unfold save_objects. rewrite (EB' fuel Hfu). unfold mbind at 1, lift. unfold save_nodes. rewrite (mbind_ok _ _ _ _ _ _ _ E2). exact E3.
  - eapply moved_trans; [exact M1|]. eapply moved_trans; eassumption.
  - rewrite D3, D2, B1. reflexivity.
  - exact Rf.
  - cbn [app]. intros d Hd. apply in_app_or in Hd as [Hd|Hd].
    + left. destruct (L2 d Hd) as (p & q & Ep & ->). exists p, q. rewrite B1. split; [exact Ep|reflexivity].
    + right. destruct (L3 d Hd) as (p & q & Ep & ->). exists p, q. rewrite D2, B1. split; [exact Ep|reflexivity].
Qed.
End Push.

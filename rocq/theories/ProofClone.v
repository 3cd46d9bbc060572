(** Proofs about reading a repository back: the pack of a clone. *)

From Coq Require Import Permutation Sorted.
From Verif Require Import Base BaseLemmas Digest ModelObject ModelBase ModelPack ModelDecode ModelPkt ModelStorage.
From Verif Require Import SpecObject SpecIdx SpecBase SpecPack SpecDecode SpecStorage.
From Verif Require Import ProofUtf8 ProofObject ProofPack ProofIdx ProofBase ProofEncode ProofDecode ProofNodes ProofStorage ProofPush.
Open Scope N_scope.

Lemma node_for_fun : forall r a b, node_for r a -> node_for r b -> a = b.
Proof.
  intros r a b Ha Hb. destruct Ha as [r h d Hi L T D|r h d Hi L T D];
    inversion Hb as [r' h' d' Hi' L' T' D'|r' h' d' Hi' L' T' D']; subst; try congruence;
    rewrite T in T'; discriminate.
Qed.
Lemma commit_for_fun : forall r a b, commit_for r a -> commit_for r b -> a = b.
Proof. intros r a b Ha Hb. destruct Ha. inversion Hb. subst. reflexivity. Qed.
Lemma lower_hex_plain : forall s h, lower_hex s h -> s = to_plain_str h.
Proof. intros s h H. apply lower_hex_eq in H. exact H. Qed.
Lemma node_for_id : forall r o, node_for r o -> exists h, obj_id o h /\ n_git_id r = to_plain_str h /\ fst o <> Commit /\ n_data r = snd o.
Proof.
  intros r o H. destruct H as [r h d Hi L T D|r h d Hi L T D]; exists h;
    (split; [assumption|]); (split; [apply lower_hex_plain; assumption|]); (split; [discriminate|assumption]).
Qed.
Lemma complete_rooted : forall S, complete S -> rooted S.
Proof.
  intros S C d tid Hs Hr. destruct (C (Commit, d) Tree tid) as (_ & d' & K); [apply rc_commit; assumption|apply rf_root; assumption|eauto].
Qed.
Lemma complete_typed : forall S, collision_free S -> complete S -> well_typed S.
Proof.
  intros S F C o t h o' Hr Rf Hs Hi. destruct (C o t h Hr Rf) as (_ & d' & Hd & Hid). rewrite (F _ _ _ Hs Hd Hi Hid). reflexivity.
Qed.
Lemma reach_S : forall S o, reach S o -> S o.
Proof. destruct 1; assumption. Qed.

Lemma sound_honest : forall e D path, sound_db D -> honest_db e D path.
Proof.
  intros e D path [H1 H2]. split; [|split].
  - intros r Hr. destruct (H1 r Hr) as (o & H & _). eauto.
  - intros r Hr _. destruct (H2 r Hr) as (o & H & _). eauto.
  - intros o Ho. apply reach_S in Ho. destruct Ho as [(r & Hi & H)|(r & Hi & _ & H)].
    + destruct (H1 r Hi) as (o' & H' & K). rewrite (node_for_fun _ _ _ H H'). assumption.
    + destruct (H2 r Hi) as (o' & H' & K). rewrite (commit_for_fun _ _ _ H H'). assumption.
Qed.

Section Walk.
Context (e : env) (He : env_ok e) (D : db) (path : bytes).
Let S := repo_objects e D path.
Context (Hdb : honest_db e D path) (Hcf : collision_free S) (Hty : well_typed S).

Lemma node_in_S : forall r o, In r (d_nodes D) -> node_for r o -> S o.
Proof. intros r o H1 H2. left. eauto. Qed.
Lemma S_node : forall t d, S (t, d) -> t <> Commit -> exists r, In r (d_nodes D) /\ node_for r (t, d).
Proof. intros t d [H|(r & _ & _ & H)] N; [exact H|]. inversion H. subst. contradiction. Qed.
Lemma S_sound : forall o, reach S o -> sound_object o.
Proof. exact (proj2 (proj2 Hdb)). Qed.

(** The objects we want to collect: closed under references. *)
Context (R : object -> Prop) (HR : forall o, R o -> reach S o)
  (HRc : forall o t h d, R o -> refers o t h -> t <> Commit -> S (t, d) -> obj_id (t, d) h -> R (t, d)).
Lemma R_S : forall o, R o -> S o.
Proof. intros o H. exact (reach_S _ _ (HR _ H)). Qed.

(** The hash map holds wanted objects under their ids; with a tree, all of its
    entries that exist. *)
Record inv (hm : hmap) : Prop := {
  iv_sorted : StronglySorted lt_hash (map fst hm);
  iv_objs : forall s m, bt_get s hm = Some m -> exists o h, R o /\ obj_id o h /\ s = to_plain_str h /\ m = as_meta o h;
  iv_closed : forall d h items i o, bt_get (to_plain_str h) hm = Some (as_meta (Tree, d) h) -> git_tree items d -> In i items ->
    S o -> fst o <> Commit -> obj_id o (ti_id i) -> exists m, bt_get (to_plain_str (ti_id i)) hm = Some m }.
Definition grows (hm hm' : hmap) : Prop := forall s m, bt_get s hm = Some m -> exists m', bt_get s hm' = Some m'.

Lemma inv_get : forall hm o h m, inv hm -> S o -> obj_id o h -> bt_get (to_plain_str h) hm = Some m -> m = as_meta o h /\ R o.
Proof.
  intros hm o h m I Ho Hi G. destruct (iv_objs _ I _ _ G) as (o' & h' & Hr & Hi' & E & ->).
  apply to_plain_str_inj in E; [|eapply obj_id_ok; eassumption..]. subst h'.
  rewrite (Hcf _ _ _ Ho (R_S _ Hr) Hi Hi'). auto.
Qed.
Lemma inv_insert : forall hm o h, inv hm -> R o -> obj_id o h ->
  (forall items i o', fst o = Tree -> git_tree items (snd o) -> In i items -> S o' -> fst o' <> Commit ->
     obj_id o' (ti_id i) -> exists m, bt_get (to_plain_str (ti_id i)) hm = Some m) ->
  inv (bt_insert (to_plain_str h) (as_meta o h) hm).
Proof.
  intros hm o h I Hr Hi Hc. split.
  - rewrite bt_insert_keys. apply kins_sorted. apply (iv_sorted _ I).
  - intros s m G. destruct (list_eq_dec N.eq_dec s (to_plain_str h)) as [->|N].
    + rewrite bt_get_insert_same in G. injection G as <-. eauto 8.
    + rewrite bt_get_insert_other in G by assumption. exact (iv_objs _ I _ _ G).
  - intros d h' items i o' G Gt Ii So' Nc Hi'.
    assert (K : exists m, bt_get (to_plain_str (ti_id i)) hm = Some m).
    { destruct (list_eq_dec N.eq_dec (to_plain_str h') (to_plain_str h)) as [E|N].
      - rewrite E, bt_get_insert_same in G. destruct o as [t dd]. unfold as_meta in G. cbn [fst snd] in G.
        injection G as E1 E2 E3 E4. subst. eapply Hc; cbn [fst snd]; try eassumption; reflexivity.
      - rewrite bt_get_insert_other in G by assumption. exact (iv_closed _ I _ _ _ _ _ G Gt Ii So' Nc Hi'). }
    destruct K as (m & K). destruct (list_eq_dec N.eq_dec (to_plain_str (ti_id i)) (to_plain_str h)) as [E|N].
    + rewrite E, bt_get_insert_same. eauto.
    + rewrite bt_get_insert_other by assumption. eauto.
Qed.
Lemma grows_insert : forall hm k v, grows hm (bt_insert k v hm).
Proof.
  intros hm k v s m G. destruct (list_eq_dec N.eq_dec s k) as [->|N].
  - rewrite bt_get_insert_same. eauto.
  - rewrite bt_get_insert_other by assumption. eauto.
Qed.
Lemma grows_refl : forall hm, grows hm hm.
Proof. intros hm s m G. eauto. Qed.
Lemma grows_trans : forall a b c, grows a b -> grows b c -> grows a c.
Proof. intros a b c H1 H2 s m G. destruct (H1 _ _ G) as (m' & G'). eauto. Qed.

(** The rows for the entries of a reached tree. *)
Lemma child_rows : forall d items ids r, R (Tree, d) -> git_tree items d ->
  (forall s, In s ids -> In s (map (fun i => to_plain_str (ti_id i)) items)) ->
  In r (d_nodes D) -> in_ids e ids r = true ->
  exists i o, In i items /\ In (to_plain_str (ti_id i)) ids /\ node_for r o /\ obj_id o (ti_id i) /\ R o /\
    fst o = entry_type (ti_type i) /\ refers (Tree, d) (fst o) (ti_id i).
Proof.
  intros d items ids r Hr G Hids Hin T. unfold in_ids in T. apply existsb_exists in T as (s & Hs & T).
  pose proof (Hids s Hs) as K. apply in_map_iff in K as (i & E & Ii). subst s.
  destruct (proj1 Hdb r Hin) as (o & Hn). destruct (node_for_id _ _ Hn) as (h & Hi & Eh & Nc & _).
  assert (Io : id_ok (ti_id i)).
  { pose proof (git_tree_ids _ _ G (proj1 (S_sound _ (HR _ Hr)))) as F. rewrite Forall_forall in F. auto. }
  destruct He as (_ & _ & Ex). rewrite Eh in T.
  assert (E : h = ti_id i).
  { apply to_plain_str_inj; [eapply obj_id_ok; eassumption|assumption|].
    apply (Ex _ _ h (ti_id i)); [apply plain_lower; eapply obj_id_ok; eassumption|apply plain_lower; assumption| |apply Io|exact T].
    apply (obj_id_ok _ _ Hi). }
  subst h. pose proof (rf_entry d items i G Ii) as Rf.
  pose proof (node_in_S _ _ Hin Hn) as Hs'.
  pose proof (Hty _ _ _ _ (HR _ Hr) Rf Hs' Hi) as Et.
  exists i, o. split; [assumption|]. split; [assumption|]. split; [assumption|]. split; [assumption|]. rewrite <- Et in Rf.
  split; [|auto]. destruct o as [t dd]. eapply HRc; eassumption.
Qed.

Context (rank : hash -> nat)
  (Hrank : forall d h h', reach S (Tree, d) -> obj_id (Tree, d) h -> refers (Tree, d) Tree h' -> (rank h' < rank h)%nat).

Definition rows_loop (fuel : nat) := fix go (rows : list node_row) (hm : hmap) : M hmap :=
  match rows with
  | [] => ret hm
  | c :: r =>
    if beq (n_type c) (bs "tree") then
      match fuel with
      | O => lift OutOfFuel
      | Datatypes.S f => let! hm1 := get_child_trees f e c hm in go r hm1
      end
    else
      let! m := lift (meta_new Blob (n_data c)) in
      go r (bt_insert (to_plain_str (m_id m)) m hm)
  end.

Lemma gct_unfold : forall fuel root hm, get_child_trees fuel e root hm =
  let! tm := lift (meta_new Tree (n_data root)) in
  let! t := lift (tree_new tm) in
  let ids := filter (fun i => match bt_get i hm with Some _ => false | None => true end)
               (map (fun i => to_plain_str (ti_id i)) (t_items t)) in
  let! rows := select e (fun d => filter (in_ids e ids) (d_nodes d)) in
  let! hm' := rows_loop fuel rows hm in
  ret (bt_insert (to_plain_str (m_id (t_meta t))) (t_meta t) hm').
Proof. intros fuel root hm. destruct fuel; reflexivity. Qed.
Lemma meta_new_id : forall o h, obj_id o h -> meta_new (fst o) (snd o) = Ok (as_meta o h).
Proof.
  intros [t d] h Hi. destruct (meta_new_obj t d (obj_id_base _ _ Hi)) as (h' & Hi' & E).
  rewrite (obj_id_fun _ _ _ Hi Hi'). exact E.
Qed.

Lemma walk : forall fuel root d h hm w, no_failure w -> w_db w = D -> node_for root (Tree, d) -> obj_id (Tree, d) h ->
  R (Tree, d) -> (rank h <= fuel)%nat -> inv hm ->
  exists w' hm', get_child_trees fuel e root hm w = (w', Ok hm') /\ moved w w' [] /\ inv hm' /\ grows hm hm' /\
    bt_get (to_plain_str h) hm' = Some (as_meta (Tree, d) h).
Proof.
  induction fuel as [fuel IHf] using lt_wf_ind. intros root d h hm w Q Ew Hn Hi Hr Hk I.
  pose proof (S_sound _ (HR _ Hr)) as (Sb & Sl & items & G & ND). cbn [snd] in G, Sb, Sl.
  assert (En : n_data root = d) by (inversion Hn; assumption).
  pose proof (meta_new_id _ _ Hi) as Em. cbn [fst snd] in Em.
  pose proof (git_tree_new (as_meta (Tree, d) h) items G) as Et.
  set (ids := filter (fun i => match bt_get i hm with Some _ => false | None => true end)
                 (map (fun i => to_plain_str (ti_id i)) items)).
  destruct (select_run _ e (fun D => filter (in_ids e ids) (d_nodes D)) w Q) as (w1 & E1 & M1).
  set (rows := ord e (w_tick w) _ (filter (in_ids e ids) (d_nodes (w_db w)))) in *.
  assert (Prow : Permutation rows (filter (in_ids e ids) (d_nodes D))) by (unfold rows; rewrite Ew; apply He).
  assert (Hrows : forall r, In r rows -> exists i o, In i items /\ node_for r o /\ obj_id o (ti_id i) /\ R o /\
         refers (Tree, d) (fst o) (ti_id i)).
  { intros r Hin. apply (Permutation_in _ Prow) in Hin. apply filter_In in Hin as [K1 K2].
    destruct (child_rows d items ids r Hr G) as (i & o & A1 & A2 & A3 & A4 & A5 & A6 & A7); [|assumption|assumption|eauto 8].
    intros s Hs. unfold ids in Hs. apply filter_In in Hs. apply Hs. }
  assert (LOOP : forall rs hm1 w2, no_failure w2 -> w_db w2 = D -> (forall r, In r rs -> In r rows) -> inv hm1 ->
         exists w3 hm', rows_loop fuel rs hm1 w2 = (w3, Ok hm') /\ moved w2 w3 [] /\ inv hm' /\ grows hm1 hm' /\
           forall r o hh, In r rs -> node_for r o -> obj_id o hh -> exists m, bt_get (to_plain_str hh) hm' = Some m).
  { induction rs as [|r rs IH]; intros hm1 w2 Q2 Ew2 Hin I1.
    - exists w2, hm1. split; [reflexivity|]. split; [apply moved_refl; assumption|]. split; [assumption|].
      split; [apply grows_refl|intros ? ? ? []].
    - destruct (Hrows r (Hin r (or_introl eq_refl))) as (i & o & Ii & Hno & Hio & Hro & Rf).
      assert (STEP : exists w3 hm2, (forall k : hmap -> M hmap,
           (if beq (n_type r) (bs "tree") then
              match fuel with O => lift OutOfFuel | Datatypes.S f => let! hm1 := get_child_trees f e r hm1 in k hm1 end
            else let! m := lift (meta_new Blob (n_data r)) in k (bt_insert (to_plain_str (m_id m)) m hm1)) w2 = k hm2 w3) /\
           moved w2 w3 [] /\ inv hm2 /\ grows hm1 hm2 /\ exists m, bt_get (to_plain_str (ti_id i)) hm2 = Some m).
      { destruct o as [t dd]. inversion Hno as [r' h' d' Hi' L' T' D'|r' h' d' Hi' L' T' D']; subst r' t d'.
        - rewrite T', beq_refl. cbn [fst] in Rf.
          pose proof (Hrank _ _ _ (HR _ Hr) Hi Rf) as Lt.
          destruct fuel as [|f]; [lia|].
          destruct (IHf f ltac:(lia) r dd (ti_id i) hm1 w2 Q2 Ew2) as (w3 & hm2 & E3 & M3 & I3 & Gr & Ge);
            [exact Hno|exact Hio|exact Hro|lia|exact I1|].
          exists w3, hm2. split; [|eauto 8]. intros k. rewrite (mbind_ok _ _ _ _ _ _ _ E3). reflexivity.
        - rewrite T'. change (beq (bs "blob") (bs "tree")) with false. cbv iota.
          pose proof (meta_new_id _ _ Hio) as Eb. cbn [fst snd] in Eb.
          exists w2, (bt_insert (to_plain_str (ti_id i)) (as_meta (Blob, dd) (ti_id i)) hm1).
          split; [|split; [|split; [|split]]].
          + intros k. rewrite D', Eb. reflexivity.
          + apply moved_refl. assumption.
          + apply inv_insert; [assumption|assumption|assumption|]. intros; discriminate.
          + apply grows_insert.
          + rewrite bt_get_insert_same. eauto. }
      destruct STEP as (w3 & hm2 & Ek & M3 & I3 & Gr & m & Gm).
      destruct (IH hm2 w3 (mv_quiet _ _ _ M3)) as (w4 & hm' & E4 & M4 & I4 & Gr4 & A4);
        [rewrite (mv_db _ _ _ M3); exact Ew2|intros x Hx; apply Hin; right; exact Hx|exact I3|].
      exists w4, hm'. split; [|split; [|split; [|split]]].
      + cbn [rows_loop]. rewrite Ek. exact E4.
      + exact (moved_trans _ _ _ _ _ M3 M4).
      + assumption.
      + eapply grows_trans; eassumption.
      + intros r' o' hh [<-|Hr'] Hn' Hi'; [|eauto].
        rewrite (node_for_fun _ _ _ Hn' Hno) in Hi'. rewrite (obj_id_fun _ _ _ Hi' Hio). exact (Gr4 _ _ Gm). }
  destruct (LOOP rows hm w1 (mv_quiet _ _ _ M1)) as (w3 & hm' & E3 & M3 & I3 & Gr & A3);
    [rewrite (mv_db _ _ _ M1); exact Ew|auto|exact I|].
  exists w3, (bt_insert (to_plain_str h) (as_meta (Tree, d) h) hm'). split; [|split; [|split; [|split]]].
  - rewrite gct_unfold, En. unfold lift at 1. rewrite Em. unfold mbind at 1. unfold lift at 1. rewrite Et. unfold mbind at 1.
    cbn [t_items t_meta]. cbv zeta. fold ids. rewrite (mbind_ok _ _ _ _ _ _ _ E1), (mbind_ok _ _ _ _ _ _ _ E3). reflexivity.
  - exact (moved_trans _ _ _ _ _ M1 M3).
  - apply inv_insert; [assumption|assumption|assumption|]. cbn [fst snd]. intros items' i o' _ G' Ii' So' Nc Hi'.
    rewrite (git_tree_fun _ _ _ G' G) in Ii'.
    destruct (bt_get (to_plain_str (ti_id i)) hm) as [m|] eqn:Gm; [exact (Gr _ _ Gm)|].
    destruct o' as [t' d']. destruct (S_node _ _ So' Nc) as (r & Hin & Hno). apply (A3 r (t', d') (ti_id i)); [|assumption|assumption].
    apply (Permutation_in _ (Permutation_sym Prow)). apply filter_In. split; [assumption|].
    unfold in_ids. apply existsb_exists. exists (to_plain_str (ti_id i)). split.
    + unfold ids. apply filter_In. split; [|rewrite Gm; reflexivity]. apply in_map_iff. eauto.
    + destruct (node_for_id _ _ Hno) as (h' & Hi2 & -> & _). rewrite (obj_id_fun _ _ _ Hi2 Hi'). apply He.
  - eapply grows_trans; [exact Gr|apply grows_insert].
  - apply bt_get_insert_same.
Qed.

Lemma inv_objs_nodup : forall hm, inv hm -> NoDup (map (fun x => obj_of (snd x)) hm).
Proof.
  intros hm I. pose proof (sorted_nodup _ (iv_sorted _ I)) as ND.
  assert (Inj : forall x y, In x hm -> In y hm -> obj_of (snd x) = obj_of (snd y) -> fst x = fst y).
  { intros [s m] [s' m'] Hx Hy Ex. cbn [fst snd] in *.
    apply (bt_get_sorted _ _ _ _ (iv_sorted _ I)) in Hx, Hy.
    destruct (iv_objs _ I _ _ Hx) as ([t d] & h & _ & Hi & -> & ->). destruct (iv_objs _ I _ _ Hy) as ([t' d'] & h' & _ & Hi' & -> & ->).
    unfold obj_of, as_meta in Ex. cbn [m_t m_data fst snd] in Ex. injection Ex as -> ->. rewrite (obj_id_fun _ _ _ Hi Hi'). reflexivity. }
  revert ND Inj. clear. induction hm as [|x hm IH]; intros ND Inj; [constructor|].
  cbn [map] in ND |- *. inversion ND as [|? ? N1 N2]; subst. constructor.
  - intros H. apply in_map_iff in H as (y & Ey & Hy). apply N1.
    rewrite (Inj x y); [apply in_map; assumption|left; reflexivity|right; assumption|symmetry; assumption].
  - apply IH; [assumption|]. intros a b Ha Hb. apply Inj; right; assumption.
Qed.
Lemma encode_run : forall c hm w st, codec_ok c -> no_failure w -> inv hm -> hm <> [] -> nlen hm < 2 ^ 32 ->
  exists w' file objs, encode_map e c hm w = (w', Ok file) /\ moved w w' [] /\ git_pack c st file objs /\
    NoDup (map snd objs) /\ forall o, In o (map snd objs) <-> exists h, bt_get (to_plain_str h) hm = Some (as_meta o h) /\ obj_id o h.
Proof.
  intros c hm w st Hc Q I Ne Hl. unfold encode_map.
  destruct (shuffle_run _ e (map snd hm) w Q) as (w1 & E1 & M1). rewrite (mbind_ok _ _ _ _ _ _ _ E1).
  pose proof (proj1 He (w_tick w) _ (map snd hm)) as P. revert P. clear E1.
  generalize (ord e (w_tick w) _ (map snd hm)) as l. intros l P.
  assert (Hm : forall m, In m (map snd hm) -> exists o h, R o /\ obj_id o h /\ m = as_meta o h /\ In (to_plain_str h, m) hm).
  { intros m H. apply in_map_iff in H as ([s m'] & E & H). cbn in E. subst m'.
    pose proof (bt_get_sorted _ _ _ _ (iv_sorted _ I) H) as G.
    destruct (iv_objs _ I _ _ G) as (o & h & Hr & Hi & -> & ->). eauto 8. }
  assert (Le : Forall encodable l).
  { apply Forall_forall. intros m H. apply (Permutation_in _ P) in H. destruct (Hm m H) as ([t d] & h & Hr & Hi & -> & _).
    destruct (S_sound _ (HR _ Hr)) as (Sb & Sl & _). cbn [snd] in Sb, Sl. split; [|exact Sl].
    unfold wf_object. cbn [as_meta m_t m_size m_data m_delta_header m_id fst snd].
    split; [exact (obj_id_base _ _ Hi)|]. split; [reflexivity|]. split; [reflexivity|]. split; [assumption|].
    split; [change U64 with (2 ^ 64); apply lt61_64; assumption|]. exact Hi. }
  assert (Ll : l <> [] /\ nlen l < 2 ^ 32).
  { apply Permutation_length in P. rewrite map_length in P. unfold nlen in *. rewrite P. split; [|assumption].
    intros ->. destruct hm; [contradiction|discriminate]. }
  destruct (encode_ok c l (proj1 Ll) (proj2 Ll)) as (p & file & E).
  destruct (encode_git_pack c st l p file Hc Le E) as (objs & G & Eo & _).
  exists w1, file, objs. unfold lift at 1. rewrite E. split; [reflexivity|]. split; [assumption|]. split; [assumption|].
  rewrite Eo. assert (Io : forall o, In o (map obj_of l) <-> exists h, bt_get (to_plain_str h) hm = Some (as_meta o h) /\ obj_id o h).
  { intros o. rewrite in_map_iff. split.
    - intros (m & Em & H). apply (Permutation_in _ P) in H. destruct (Hm m H) as (o' & h & Hr & Hi & -> & Hin).
      destruct o' as [t d]. cbn in Em. subst o. exists h. split; [|assumption]. apply bt_get_sorted; [apply (iv_sorted _ I)|assumption].
    - intros (h & G' & Hi). exists (as_meta o h). split; [destruct o; reflexivity|].
      apply (Permutation_in _ (Permutation_sym P)). apply bt_get_in in G'. apply in_map_iff. exists (to_plain_str h, as_meta o h). auto. }
  split; [|exact Io].
  apply (Permutation_map obj_of) in P. eapply Permutation_NoDup; [apply Permutation_sym; exact P|].
  rewrite map_map. apply inv_objs_nodup. assumption.
Qed.

Lemma inv_small : forall hm l, inv hm -> (forall o, R o -> In o l) -> (length hm <= length l)%nat.
Proof.
  intros hm l I Hl. rewrite <- (map_length (fun x => obj_of (snd x)) hm). apply NoDup_incl_length.
  - apply inv_objs_nodup. assumption.
  - intros o H. apply in_map_iff in H as ([s m] & Eo & H). apply (bt_get_sorted _ _ _ _ (iv_sorted _ I)) in H.
    destruct (iv_objs _ I _ _ H) as (o' & h & Hr & Hi & -> & ->). destruct o' as [t d]. cbn in Eo. subst o. auto.
Qed.

End Walk.

Section Clone.
Context (e : env) (He : env_ok e) (D : db) (path : bytes).
Let S := repo_objects e D path.
Context (Hdb : honest_db e D path) (Hcf : collision_free S) (Hty : well_typed S).
Context (rank : hash -> nat)
  (Hrank : forall d h h', reach S (Tree, d) -> obj_id (Tree, d) h -> refers (Tree, d) Tree h' -> (rank h' < rank h)%nat).
Let S_sound := S_sound e D path Hdb.
Let S_node := S_node e D path.
Let node_in_S := node_in_S e D path.
Let walkS := walk e He D path Hdb Hty (reach S) (fun o H => H) (rc_refers S) rank Hrank.

(** The commits of the repository. *)
Definition commit_of (c : commit) : Prop := exists d h, S (Commit, d) /\ obj_id (Commit, d) h /\
  cm_meta c = as_meta (Commit, d) h /\ commit_root d (cm_tree_id c).
Lemma commit_rows : forall rs, (forall r, In r rs -> exists d, commit_for r (Commit, d) /\ S (Commit, d)) ->
    exists metas cs, commit_metas rs = Ok metas /\ parse_commits metas = Ok cs /\ map cm_meta cs = metas /\
      (forall c, In c cs -> commit_of c) /\
      (forall r d h, In r rs -> commit_for r (Commit, d) -> obj_id (Commit, d) h -> exists c, In c cs /\ cm_meta c = as_meta (Commit, d) h).
Proof.
  induction rs as [|r rs IH]; intros H.
  - exists [], []. repeat (split; [reflexivity|]). split; [intros ? []|intros ? ? ? []].
  - destruct IH as (metas & cs & E2 & E3 & E4 & A1 & A2); [intros; apply H; right; assumption|].
    destruct (H r (or_introl eq_refl)) as (d & Hc & Hs). inversion Hc as [r' h tid d' Hi L Hr L2 Ed]. subst r' d'.
    pose proof (meta_new_id _ _ Hi) as Em. cbn [fst snd] in Em.
    destruct (commit_root_new (as_meta (Commit, d) h) tid Hr) as (c & Ec & Ecm & Ect).
    exists (as_meta (Commit, d) h :: metas), (c :: cs). cbn [commit_metas parse_commits map].
    rewrite Ed, Em, E2, Ec, E3, Ecm, E4. cbn [bind]. repeat (split; [reflexivity|]). split.
    + intros x [<-|Hx]; [|auto]. exists d, h. rewrite Ect. auto.
    + intros r' dd hh [<-|Hx] Hc' Hi'; [|destruct (A2 _ _ _ Hx Hc' Hi') as (x & X1 & X2); exists x; split; [right; assumption|assumption]].
      pose proof (commit_for_fun _ _ _ Hc' Hc) as Ex. injection Ex as ->. rewrite (obj_id_fun _ _ _ Hi' Hi).
      exists c. split; [left; reflexivity|assumption].
Qed.
Lemma commits_run : forall w, no_failure w -> w_db w = D -> exists w' metas cs,
  get_all_commits_by_path e path w = (w', Ok metas) /\ parse_commits metas = Ok cs /\ moved w w' [] /\
  map cm_meta cs = metas /\
  (forall c, In c cs -> commit_of c) /\
  (forall d h, S (Commit, d) -> obj_id (Commit, d) h -> exists c, In c cs /\ cm_meta c = as_meta (Commit, d) h).
Proof.
  intros w Q Ew. unfold get_all_commits_by_path.
  destruct (select_run _ e (fun d => filter (fun c => teq e (c_repo_path c) path) (d_commits d)) w Q) as (w1 & E1 & M1).
  rewrite (mbind_ok _ _ _ _ _ _ _ E1). rewrite Ew in *.
  pose proof (proj1 He (w_tick w) _ (filter (fun c => teq e (c_repo_path c) path) (d_commits D))) as P.
  revert P. clear E1. generalize (ord e (w_tick w) _ (filter (fun c => teq e (c_repo_path c) path) (d_commits D))) as rows.
  intros rows P.
  assert (R1 : forall r, In r rows -> exists d, commit_for r (Commit, d) /\ S (Commit, d)).
  { intros r Hr. apply (Permutation_in _ P) in Hr. apply filter_In in Hr as [Hr T].
    destruct (proj1 (proj2 Hdb) r Hr T) as (o & Hc). assert (Eo : exists d, o = (Commit, d)) by (inversion Hc; eauto).
    destruct Eo as (d & ->). exists d. split; [assumption|]. right. eauto. }
  assert (R2 : forall d, S (Commit, d) -> exists r, In r rows /\ commit_for r (Commit, d)).
  { intros d [(r & _ & H)|(r & Hr & T & H)]; [inversion H|]. exists r. split; [|assumption].
    apply (Permutation_in _ (Permutation_sym P)). apply filter_In. auto. }
  clear P.
  destruct (commit_rows rows R1) as (metas & cs & E2 & E3 & E4 & A1 & A2).
  exists w1, metas, cs. unfold lift. rewrite E2. split; [reflexivity|]. split; [assumption|]. split; [assumption|].
  split; [assumption|]. split; [assumption|]. intros d h Hs Hi. destruct (R2 d Hs) as (r & Hr & Hc). eauto.
Qed.

Lemma index_rows : forall rs m, (forall r, In r rs -> In r (d_nodes D)) -> exists m', index_by_hash rs m = Ok m' /\
    (forall h r, bt_get h m' = Some r -> bt_get h m = Some r \/ In r rs /\ exists o, node_for r o /\ obj_id o h) /\
    (forall h r, bt_get h m = Some r -> exists r', bt_get h m' = Some r') /\
    (forall r o h, In r rs -> node_for r o -> obj_id o h -> exists r', bt_get h m' = Some r').
Proof.
  induction rs as [|r rs IH]; intros m H.
  - exists m. split; [reflexivity|]. split; [auto|]. split; [eauto|intros ? ? ? []].
  - destruct (proj1 Hdb r (H r (or_introl eq_refl))) as (o & Hn).
    destruct (node_for_id _ _ Hn) as (h & Hi & Eg & _).
    destruct (IH (bt_insert h r m)) as (m' & E & A1 & A2 & A3); [intros; apply H; right; assumption|].
    exists m'. cbn [index_by_hash]. rewrite Eg, hash_roundtrip by (eapply obj_id_ok; eassumption). cbn [unwrap bind].
    split; [assumption|]. split; [|split].
    + intros h' r' G. destruct (A1 _ _ G) as [G'|(G1 & G2)]; [|right; split; [right; assumption|assumption]].
      destruct (list_eq_dec N.eq_dec h' h) as [->|N].
      * rewrite bt_get_insert_same in G'. injection G' as <-. right. split; [left; reflexivity|eauto].
      * rewrite bt_get_insert_other in G' by assumption. auto.
    + intros h' r' G. destruct (list_eq_dec N.eq_dec h' h) as [->|N].
      * apply (A2 h r). apply bt_get_insert_same.
      * apply (A2 h' r'). rewrite bt_get_insert_other by assumption. assumption.
    + intros r' o' h' [<-|Hr'] Hn' Hi'; [|eauto].
      rewrite (node_for_fun _ _ _ Hn' Hn) in Hi'. rewrite (obj_id_fun _ _ _ Hi' Hi). apply (A2 h r). apply bt_get_insert_same.
Qed.
(** The root trees. *)
Lemma roots_run : forall cs w, no_failure w -> w_db w = D -> (forall c, In c cs -> id_ok (cm_tree_id c)) ->
  exists w' trees, get_nodes_by_ids e (map (fun x => to_plain_str (cm_tree_id x)) cs) w = (w', Ok trees) /\ moved w w' [] /\
  (forall h r, bt_get h trees = Some r -> In r (d_nodes D) /\ exists o, node_for r o /\ obj_id o h) /\
  (forall c o, In c cs -> S o -> fst o <> Commit -> obj_id o (cm_tree_id c) -> exists r, bt_get (cm_tree_id c) trees = Some r).
Proof.
  intros cs w Q Ew Hids. unfold get_nodes_by_ids. set (ids := map (fun x => to_plain_str (cm_tree_id x)) cs).
  destruct (select_run _ e (fun d => filter (in_ids e ids) (d_nodes d)) w Q) as (w1 & E1 & M1).
  rewrite (mbind_ok _ _ _ _ _ _ _ E1). rewrite Ew in *.
  pose proof (proj1 He (w_tick w) _ (filter (in_ids e ids) (d_nodes D))) as P.
  revert P. clear E1. generalize (ord e (w_tick w) _ (filter (in_ids e ids) (d_nodes D))) as rows. intros rows P.
  assert (Hin : forall r, In r rows -> In r (d_nodes D)).
  { intros r Hr. apply (Permutation_in _ P) in Hr. apply filter_In in Hr. apply Hr. }
  destruct (index_rows rows [] Hin) as (m' & E & A1 & A2 & A3).
  exists w1, m'. unfold lift. rewrite E. split; [reflexivity|]. split; [assumption|]. split.
  - intros h r G. destruct (A1 _ _ G) as [G'|(G1 & G2)]; [discriminate|]. auto.
  - intros c [t d] Hc Hs Nc Hi. destruct (S_node _ _ Hs Nc) as (r & Hr & Hn). apply (A3 r (t, d) (cm_tree_id c)); [|assumption|assumption].
    apply (Permutation_in _ (Permutation_sym P)). apply filter_In. split; [assumption|].
    unfold in_ids. apply existsb_exists. exists (to_plain_str (cm_tree_id c)). split; [unfold ids; apply in_map_iff; eauto|].
    destruct (node_for_id _ _ Hn) as (h' & Hi2 & -> & _). rewrite (obj_id_fun _ _ _ Hi2 Hi). apply He.
Qed.

(** All commits, with their trees. *)
Lemma full_loop_run : rooted S -> forall fuel trees cs,
  (forall h r, bt_get h trees = Some r -> In r (d_nodes D) /\ exists o, node_for r o /\ obj_id o h) ->
  (forall c, In c cs -> commit_of c /\ (rank (cm_tree_id c) <= fuel)%nat /\ exists r, bt_get (cm_tree_id c) trees = Some r) ->
  forall hm w, no_failure w -> w_db w = D -> inv e D path (reach S) hm ->
  exists w' hm', full_loop fuel e trees cs hm w = (w', Ok hm') /\ moved w w' [] /\ inv e D path (reach S) hm' /\ grows hm hm' /\
    forall c, In c cs -> (exists m, bt_get (to_plain_str (m_id (cm_meta c))) hm' = Some m) /\
                         (exists m, bt_get (to_plain_str (cm_tree_id c)) hm' = Some m).
Proof.
  intros Ro fuel trees. induction cs as [|c cs IH]; intros Ht Hc hm w Q Ew I.
  - exists w, hm. split; [reflexivity|]. split; [apply moved_refl; assumption|]. split; [assumption|].
    split; [apply grows_refl|intros ? []].
  - destruct (Hc c (or_introl eq_refl)) as ((d & h & Hs & Hi & Em & Hr) & Hf & r & Gr).
    pose proof (rc_commit S _ Hs) as Rc.
    destruct (Ht _ _ Gr) as (Hn & o & No & Io). pose proof (rf_root _ _ Hr) as Rf.
    pose proof (Hty _ _ _ _ Rc Rf (node_in_S _ _ Hn No) Io) as Ty. destruct o as [t dt]. cbn [fst] in Ty. subst t.
    assert (Rt : reach S (Tree, dt)).
    { eapply rc_refers; [exact Rc|exact Rf|discriminate|exact (node_in_S _ _ Hn No)|exact Io]. }
    cbn [full_loop]. rewrite Gr, Em. cbn [as_meta m_id]. change (mkMeta _ h _ _ _) with (as_meta (Commit, d) h).
    assert (I1 : inv e D path (reach S) (bt_insert (to_plain_str h) (as_meta (Commit, d) h) hm)).
    { apply (inv_insert e D path); [assumption|assumption|assumption|]. intros; discriminate. }
    destruct (walkS fuel r dt (cm_tree_id c) _ w Q Ew No Io Rt Hf I1) as (w1 & hm1 & E1 & M1 & I2 & G1 & K1).
    destruct (IH Ht (fun x Hx => Hc x (or_intror Hx)) hm1 w1 (mv_quiet _ _ _ M1)) as (w2 & hm2 & E2 & M2 & I3 & G2 & K2);
      [rewrite (mv_db _ _ _ M1); exact Ew|assumption|].
    exists w2, hm2. split; [|split; [|split; [|split]]].
    + rewrite (mbind_ok _ _ _ _ _ _ _ E1). exact E2.
    + exact (moved_trans _ _ _ _ _ M1 M2).
    + assumption.
    + eapply grows_trans; [apply grows_insert|]. eapply grows_trans; eassumption.
    + intros x [<-|Hx]; [|auto]. split.
      * rewrite Em. cbn [as_meta m_id]. destruct (G1 (to_plain_str h) (as_meta (Commit, d) h)) as (m & Gm);
          [apply bt_get_insert_same|]. exact (G2 _ _ Gm).
      * exact (G2 _ _ K1).
Qed.

(** What is in the map at the end. *)
Lemma inv_all : forall hm, inv e D path (reach S) hm ->
  (forall d h, S (Commit, d) -> obj_id (Commit, d) h -> exists m, bt_get (to_plain_str h) hm = Some m) ->
  (forall d tid o, S (Commit, d) -> commit_root d tid -> S o -> fst o <> Commit -> obj_id o tid -> exists m, bt_get (to_plain_str tid) hm = Some m) ->
  forall o h, reach S o -> obj_id o h -> bt_get (to_plain_str h) hm = Some (as_meta o h).
Proof.
  intros hm I H1 H2 o h Hr. revert h.
  induction Hr as [d Hd|o t h d Hr IH Rf Nc Hd Hi]; intros h' Hi'.
  - destruct (H1 _ _ Hd Hi') as (m & G). destruct (inv_get e D path Hcf (reach S) (fun o H => H) _ _ _ _ I Hd Hi' G) as [-> _]. exact G.
  - rewrite (obj_id_fun _ _ _ Hi' Hi). clear h' Hi'.
    assert (K : exists m, bt_get (to_plain_str h) hm = Some m).
    { inversion Rf as [d0 tid Hc|d0 items i G Ii]; subst.
      - exact (H2 _ _ _ (reach_S _ _ Hr) Hc Hd Nc Hi).
      - destruct (meta_new_obj Tree d0) as (h0 & Hi0 & _); [eexists; constructor|].
        exact (iv_closed _ _ _ _ _ I _ _ _ _ _ (IH _ Hi0) G Ii Hd Nc Hi). }
    destruct K as (m & G). destruct (inv_get e D path Hcf (reach S) (fun o H => H) _ _ _ _ I Hd Hi G) as [-> _]. exact G.
Qed.

(** The pack of a clone has exactly the reached objects, each once. *)
Lemma clone_run : rooted S -> (exists d, S (Commit, d)) -> few (reach S) ->
  forall c st, codec_ok c -> forall w, no_failure w -> w_db w = D -> exists fuel0, forall fuel, (fuel0 <= fuel)%nat ->
  exists w' file objs, get_full_pack_data e c fuel path w = (w', Ok file) /\ moved w w' [] /\ git_pack c st file objs /\
    NoDup (map snd objs) /\ forall o, In o (map snd objs) <-> reach S o.
Proof.
  intros Ro (d0 & Hd0) (lo & Sz & Hlo) c st Hc w Q Ew.
  destruct (commits_run w Q Ew) as (w1 & metas & cs & E1 & E2 & M1 & Ecm & C1 & C2).
  assert (Ids : forall x, In x cs -> id_ok (cm_tree_id x)).
  { intros x Hx. destruct (C1 x Hx) as (d & h & _ & _ & _ & Hr). eapply commit_root_ok. exact Hr. }
  destruct (roots_run cs w1 (mv_quiet _ _ _ M1)) as (w2 & trees & E3 & M2 & T1 & T2); [rewrite (mv_db _ _ _ M1); exact Ew|exact Ids|].
  exists (list_max (map (fun x => rank (cm_tree_id x)) cs)). intros fuel Hf.
  assert (I0 : inv e D path (reach S) []).
  { split; [constructor|discriminate|discriminate]. }
  destruct (full_loop_run Ro fuel trees cs T1) with (hm := @nil (bytes * meta)) (w := w2) as (w3 & hm & E4 & M3 & I & _ & K).
  { intros x Hx. split; [auto|]. split.
    - apply list_max_le in Hf. rewrite Forall_forall in Hf. apply Hf. apply in_map_iff. eauto.
    - destruct (C1 x Hx) as (d & h & Hs & Hi & Em & Hr). destruct (Ro _ _ Hs Hr) as (d' & Hs' & Hi').
      apply (T2 x (Tree, d')); [assumption|assumption|discriminate|assumption]. }
  { exact (mv_quiet _ _ _ M2). } { rewrite (mv_db _ _ _ M2). cbn [last]. rewrite (mv_db _ _ _ M1). exact Ew. } { exact I0. }
  assert (All : forall o h, reach S o -> obj_id o h -> bt_get (to_plain_str h) hm = Some (as_meta o h)).
  { apply inv_all; [exact I| |].
    - intros d h Hs Hi. destruct (C2 d h Hs Hi) as (x & Hx & Em). destruct (K x Hx) as [K1 _]. rewrite Em in K1. exact K1.
    - intros d tid o Hs Hr So Nc Hi. destruct (meta_new_obj Commit d) as (h & Hih & _); [eexists; constructor|].
      destruct (C2 d h Hs Hih) as (x & Hx & Em). destruct (K x Hx) as [_ K2].
      destruct (C1 x Hx) as (d2 & h2 & Hs2 & Hi2 & Em2 & Hr2). rewrite Em in Em2.
      assert (Ed : d = d2) by (unfold as_meta in Em2; cbn [fst snd] in Em2; congruence). subst d2.
      rewrite (commit_root_fun _ _ _ Hr Hr2). exact K2. }
  destruct (meta_new_obj Commit d0) as (h0 & Hi0 & _); [eexists; constructor|].
  pose proof (All _ _ (rc_commit S _ Hd0) Hi0) as G0.
  destruct (encode_run e He D path Hdb (reach S) (fun o H => H) c hm w3 st Hc (mv_quiet _ _ _ M3) I) as (w4 & file & objs & E5 & M4 & G & ND & Io).
  { intros ->. discriminate. }
  { pose proof (inv_small e D path (reach S) hm lo I Hlo). unfold nlen in *. lia. }
  exists w4, file, objs. split; [|split; [|split; [|split]]].
  - unfold get_full_pack_data. rewrite (mbind_ok _ _ _ _ _ _ _ E1). unfold lift at 1. rewrite E2. unfold mbind at 1.
    rewrite (mbind_ok _ _ _ _ _ _ _ E3), (mbind_ok _ _ _ _ _ _ _ E4). exact E5.
  - exact (moved_trans _ _ _ _ _ (moved_trans _ _ _ _ _ (moved_trans _ _ _ _ _ M1 M2) M3) M4).
  - assumption.
  - assumption.
  - intros o. rewrite Io. split.
    + intros (h & G' & Hi). destruct (iv_objs _ _ _ _ _ I _ _ G') as (o' & h' & Hr & Hi' & Eh & Em).
      assert (Eo : o = o') by (destruct o, o'; unfold as_meta in Em; cbn [fst snd] in Em; congruence). subst o'. assumption.
    + intros Hr. destruct o as [t d]. destruct (meta_new_obj t d) as (h & Hi & _).
      { destruct (S_sound _ Hr) as (_ & _ & K'). cbn [fst] in K'. destruct t; try contradiction; eexists; constructor. }
      exists h. split; [apply All; assumption|assumption].
Qed.
End Clone.

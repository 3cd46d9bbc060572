(** A clone while other requests are served: its pack is the repository as it was when
    the commits were listed. *)

From Coq Require Import Permutation Sorted.
From Verif Require Import Base BaseLemmas Digest ModelUtils ModelObject ModelBase ModelDelta ModelPack ModelDecode ModelPkt ModelStorage ModelProto.
From Verif Require Import ModelLfs ModelGateway ModelService ModelConc.
From Verif Require Import SpecObject SpecIdx SpecBase SpecPack SpecDecode SpecStorage SpecProto SpecService SpecConc.
From Verif Require Import ProofUtf8 ProofObject ProofPack ProofIdx ProofBase ProofEncode ProofDecode ProofNodes ProofStorage ProofPush ProofClone.
From Verif Require Import ProofRepo ProofService ProofConc ProofWhole.
Open Scope N_scope.

Section Snapshot.
Context (e : env) (He : env_ok e) (F : db) (path : bytes).
Context (Hh : honest_db e F path) (Hcf : collision_free (repo_objects e F path)) (Hty : well_typed (repo_objects e F path)).
Context (Hsub : no_submodules (repo_objects e F path)) (Htop : top_level e F path).

Lemma later_objects : forall d, nothing_lost d F -> forall o, repo_objects e d path o -> repo_objects e F path o.
Proof.
  intros d L o [(r & Hr & Ho)|(r & Hr & T & Ho)]; [left|right]; exists r.
  - split; [eapply lost_node; eassumption|exact Ho].
  - split; [eapply lost_commit; eassumption|auto].
Qed.
Lemma later_reach : forall d, nothing_lost d F -> forall o, reach (repo_objects e d path) o -> reach (repo_objects e F path) o.
Proof. intros d L. apply reach_mono. apply later_objects. exact L. Qed.
Lemma later_honest : forall d, nothing_lost d F -> honest_db e d path.
Proof.
  intros d L. destruct Hh as (H1 & H2 & H3). split; [|split].
  - intros r Hr. apply H1. eapply lost_node; eassumption.
  - intros r Hr. apply H2. eapply lost_commit; eassumption.
  - intros o Ho. apply H3. eapply later_reach; eassumption.
Qed.

(** What the commits of the repository lead to is stored with them. *)
Lemma snapshot_complete : forall d, nothing_lost d F -> (forall c, In c (d_commits d) -> sourced d c) ->
  complete (repo_objects e d path).
Proof.
  intros d L Src. pose proof (later_honest d L) as Hd.
  assert (Named : forall o t h l r', reach (repo_objects e d path) o -> refers o t h -> (forall r, In r l -> In r (d_nodes d)) ->
            In r' l -> lower_hex (n_git_id r') h -> exists x, node_for r' (t, x) /\ obj_id (t, x) h).
  { intros o t h l r' Ho Rf Hl Hr' Lh. destruct (proj1 Hd r' (Hl _ Hr')) as ([t' x] & Hn).
    destruct (node_for_id _ _ Hn) as (h' & Hi & Eg & _).
    assert (E : h' = h).
    { rewrite Eg in Lh. apply lower_hex_plain in Lh. apply to_plain_str_inj; [eapply obj_id_ok; eassumption| |exact Lh].
      inversion Rf as [d0 tid Hc|d0 items i Gt Ii]; subst.
      - eapply commit_root_ok. exact Hc.
      - pose proof (git_tree_ids _ _ Gt (proj1 (proj2 (proj2 Hd) _ Ho))) as Fa. rewrite Forall_forall in Fa. auto. }
    subst h'. assert (Et : t' = t); [|subst t'; eauto].
    apply (Hty o t h (t', x)); [eapply later_reach; eassumption|exact Rf|left; exists r'; split; [eapply lost_node; eauto|exact Hn]|exact Hi]. }
  assert (Kept : forall o, reach (repo_objects e d path) o -> fst o <> Commit ->
            exists l r, (forall x, In x l -> In x (d_nodes d)) /\ closed_rows l /\ In r l /\ node_for r o).
  { intros o Ho. induction Ho as [x Hx|o t h x Ho IH Rf Nc Hx Hi]; intros N; [exfalso; apply N; reflexivity|].
    assert (K : exists l r', (forall x, In x l -> In x (d_nodes d)) /\ closed_rows l /\ In r' l /\ lower_hex (n_git_id r') h).
    { inversion Rf as [d0 tid Hc|d0 items i Gt Ii]; subst.
      - destruct (reach_S _ _ Ho) as [(r & _ & K)|(c & Hin & T & K)]; [inversion K|].
        destruct (Src c Hin) as [(l & L1 & L2 & r & R1 & R2 & R3)|(r & R1 & R2 & R3)].
        + exists l, r. split; [exact L1|]. split; [exact L2|]. split; [exact R1|]. rewrite R2.
          inversion K as [c' h' tid' x' Hi' Lh' Hc' Lt' E]. subst. rewrite (commit_root_fun _ _ _ Hc Hc'). exact Lt'.
        + exfalso. destruct (lost_ref _ _ _ L R1) as (r' & R1' & _ & Rp & _). apply R3. rewrite <- Rp.
          apply (Htop r' (c_repo_path c)); [exact R1'|exact T|rewrite Rp; exact R2].
      - destruct (IH ltac:(discriminate)) as (l & r & L1 & L2 & R1 & R2).
        destruct (L2 _ _ _ i R1 R2 (proj1 (proj2 (proj2 Hd) _ Ho)) Gt Ii) as (r' & R1' & R2'). exists l, r'. auto. }
    destruct K as (l & r' & L1 & L2 & R1 & R2). exists l, r'. split; [exact L1|]. split; [exact L2|]. split; [exact R1|].
    destruct (Named _ _ _ _ _ Ho Rf L1 R1 R2) as (y & Hn & Hiy).
    assert (Ey : (t, y) = (t, x)); [|rewrite <- Ey; exact Hn].
    apply (Hcf _ _ h); [left; exists r'; split; [eapply lost_node; eauto|exact Hn]|eapply later_objects; eassumption|exact Hiy|exact Hi]. }
  intros o t h Ho Rf. split; [apply (Hsub o t h); [eapply later_reach; eassumption|exact Rf]|].
  assert (K : exists l r', (forall x, In x l -> In x (d_nodes d)) /\ In r' l /\ lower_hex (n_git_id r') h).
  { inversion Rf as [d0 tid Hc|d0 items i Gt Ii]; subst.
    - destruct (reach_S _ _ Ho) as [(r & _ & K)|(c & Hin & T & K)]; [inversion K|].
      destruct (Src c Hin) as [(l & L1 & L2 & r & R1 & R2 & R3)|(r & R1 & R2 & R3)].
      + exists l, r. split; [exact L1|]. split; [exact R1|]. rewrite R2.
        inversion K as [c' h' tid' x' Hi' Lh' Hc' Lt' E]. subst. rewrite (commit_root_fun _ _ _ Hc Hc'). exact Lt'.
      + exfalso. destruct (lost_ref _ _ _ L R1) as (r' & R1' & _ & Rp & _). apply R3. rewrite <- Rp.
        apply (Htop r' (c_repo_path c)); [exact R1'|exact T|rewrite Rp; exact R2].
    - destruct (Kept _ Ho ltac:(discriminate)) as (l & r & L1 & L2 & R1 & R2).
      destruct (L2 _ _ _ i R1 R2 (proj1 (proj2 (proj2 Hd) _ Ho)) Gt Ii) as (r' & R1' & R2'). exists l, r'. auto. }
  destruct K as (l & r' & L1 & R1 & R2). destruct (Named _ _ _ _ _ Ho Rf L1 R1 R2) as (y & Hn & Hiy).
  exists y. split; [|exact Hiy]. left. eauto.
Qed.

(** ** The walk *)

Context (G : db -> db -> Prop) (V : db -> Prop) (Gr : forall d, V d -> G d d) (Gl : forall d d', G d d' -> nothing_lost d d').
Context (HV : forall d, V d -> nothing_lost d F).
Context (D : db) (HD : nothing_lost D F) (Hc : complete (repo_objects e D path)).
(** Objects of the repository with the trees and blobs they lead to. *)
Context (R : object -> Prop) (RD : forall o, R o -> reach (repo_objects e D path) o)
  (RC : forall o t h x, R o -> refers o t h -> t <> Commit -> repo_objects e D path (t, x) -> obj_id (t, x) h -> R (t, x)).
Let S := repo_objects e F path.
Local Notation holds := (hold e G V).

Lemma snap_sub : forall o, R o -> reach S o.
Proof. intros o H. apply (later_reach D HD), RD, H. Qed.
Lemma snap_object : forall o t h x, R o -> refers o t h -> S x -> obj_id x h -> repo_objects e D path x /\ R x.
Proof.
  intros o t h x Ho Rf Hx Hi. destruct (Hc o t h (RD _ Ho) Rf) as (Nc & y & Hy & Hiy).
  assert (E : x = (t, y)) by (apply (Hcf x (t, y) h); [exact Hx|eapply later_objects; eassumption|exact Hi|exact Hiy]). subst x.
  split; [exact Hy|]. eapply RC; eassumption.
Qed.
Lemma snap_closed : forall o t h d, R o -> refers o t h -> t <> Commit -> S (t, d) -> obj_id (t, d) h -> R (t, d).
Proof. intros o t h d Ho Rf Nc Hd Hi. exact (proj2 (snap_object _ _ _ _ Ho Rf Hd Hi)). Qed.

Definition rows_loop_p (fuel : nat) := fix go (rows : list node_row) (hm : hmap) : prog hmap :=
  match rows with
  | [] => pret hm
  | c :: r =>
    if beq (n_type c) (bs "tree") then
      match fuel with
      | O => PRet OutOfFuel
      | Datatypes.S f => let* hm1 := child_trees_p f e c hm in go r hm1
      end
    else
      let* m := PRet (meta_new Blob (n_data c)) in
      go r (bt_insert (to_plain_str (m_id m)) m hm)
  end.
Lemma child_trees_unfold : forall fuel root hm, child_trees_p fuel e root hm =
  let* tm := PRet (meta_new Tree (n_data root)) in
  let* t := PRet (tree_new tm) in
  let ids := filter (fun i => match bt_get i hm with Some _ => false | None => true end)
               (map (fun i => to_plain_str (ti_id i)) (t_items t)) in
  let* rows := do (DSelect (fun d => filter (in_ids e ids) (d_nodes d))) in
  let* hm' := rows_loop_p fuel rows hm in
  pret (bt_insert (to_plain_str (m_id (t_meta t))) (t_meta t) hm').
Proof. intros fuel root hm. destruct fuel; reflexivity. Qed.

Lemma walk_holds : forall fuel root x h hm d, V d -> nothing_lost D d -> node_for root (Tree, x) -> obj_id (Tree, x) h ->
  R (Tree, x) -> inv e F path R hm ->
  holds (fun hm' _ => inv e F path R hm' /\ grows hm hm' /\ bt_get (to_plain_str h) hm' = Some (as_meta (Tree, x) h))
    (child_trees_p fuel e root hm) d.
Proof.
  induction fuel as [fuel IHf] using lt_wf_ind. intros root x h hm d Vd Ld Hn Hi Hr I.
  pose proof (S_sound e F path Hh _ (snap_sub _ Hr)) as (Sb & Sl & items & Gt & ND). cbn [snd] in Gt, Sb, Sl.
  assert (En : n_data root = x) by (inversion Hn; assumption).
  pose proof (meta_new_id _ _ Hi) as Em. cbn [fst snd] in Em.
  pose proof (git_tree_new (as_meta (Tree, x) h) items Gt) as Et.
  rewrite child_trees_unfold, En. rewrite Em. unfold pbind at 1. cbn [then_any]. rewrite Et. unfold pbind at 1. cbn [then_any t_items t_meta].
  cbv zeta. set (ids := filter _ _).
  apply (hold_bind _ _ _ Gl _ _ (fun rows _ => (forall r, In r rows -> In r (d_nodes F) /\ in_ids e ids r = true) /\
     forall r, In r (d_nodes D) -> in_ids e ids r = true -> In r rows)).
  { apply hold_select; [exact He|exact Gr|]. intros d1 l V1 L1 P. split.
    - intros r K. apply (Permutation_in _ P) in K. apply filter_In in K as [K1 K2]. split; [exact (lost_node _ _ _ (HV _ V1) K1)|exact K2].
    - intros r K1 K2. apply (Permutation_in _ (Permutation_sym P)). apply filter_In. split; [|exact K2].
      eapply lost_node; [|exact K1]. eapply lost_trans; eassumption. }
  { exact Vd. }
  intros rows d1 V1 L1 (Rin & Rall).
  assert (Hrows : forall r, In r rows -> exists i o, In i items /\ node_for r o /\ obj_id o (ti_id i) /\ R o).
  { intros r Hin. destruct (Rin r Hin) as [K1 K2].
    destruct (child_rows e He F path Hh Hty R snap_sub snap_closed x items ids r Hr Gt) as (i & o & A1 & A2 & A3 & A4 & A5 & A6 & A7);
      [|assumption|assumption|eauto 8].
    intros s Hs. unfold ids in Hs. apply filter_In in Hs. apply Hs. }
  apply (hold_bind _ _ _ Gl _ _ (fun hm' _ => inv e F path R hm' /\ grows hm hm' /\
     forall r o hh, In r rows -> node_for r o -> obj_id o hh -> exists m, bt_get (to_plain_str hh) hm' = Some m)).
  { assert (Ld1 : nothing_lost D d1) by (eapply lost_trans; eassumption).
    assert (LOOP : forall rs hm1 d2, V d2 -> nothing_lost D d2 -> (forall r, In r rs -> In r rows) -> inv e F path R hm1 ->
         holds (fun hm' _ => inv e F path R hm' /\ grows hm1 hm' /\
           forall r o hh, In r rs -> node_for r o -> obj_id o hh -> exists m, bt_get (to_plain_str hh) hm' = Some m) (rows_loop_p fuel rs hm1) d2).
    { induction rs as [|r rs IH]; intros hm1 d2 V2 L2 Hin I1.
      - cbn [rows_loop_p]. apply hold_ret. split; [exact I1|]. split; [apply grows_refl|intros ? ? ? []].
      - destruct (Hrows r (Hin r (or_introl eq_refl))) as (i & o & Ii & Hno & Hio & Hro).
        assert (REST : forall hm2 d3, V d3 -> nothing_lost D d3 -> inv e F path R hm2 -> grows hm1 hm2 ->
          (exists m, bt_get (to_plain_str (ti_id i)) hm2 = Some m) ->
          holds (fun hm' _ => inv e F path R hm' /\ grows hm1 hm' /\
           forall r' o hh, In r' (r :: rs) -> node_for r' o -> obj_id o hh -> exists m, bt_get (to_plain_str hh) hm' = Some m) (rows_loop_p fuel rs hm2) d3).
        { intros hm2 d3 V3 L3 I2 G2 (m & Gm). eapply hold_weaken; [|exact V3|apply (IH hm2 d3 V3 L3)]; [|intros y Hy; apply Hin; right; exact Hy|exact I2].
          intros hm' d' V' (I4 & Gr4 & A4). split; [exact I4|]. split; [eapply grows_trans; eassumption|].
          intros r' o' hh [<-|Hr'] Hn' Hi'; [|eauto].
          rewrite (node_for_fun _ _ _ Hn' Hno) in Hi'. rewrite (obj_id_fun _ _ _ Hi' Hio). exact (Gr4 _ _ Gm). }
        cbn [rows_loop_p]. destruct o as [t dd]. inversion Hno as [r' h' d' Hi' L' T' D'|r' h' d' Hi' L' T' D']; subst r' t d'.
        + rewrite T', beq_refl. destruct fuel as [|f]; [intros a E; discriminate|].
          eapply hold_bind; [exact Gl|apply (IHf f ltac:(lia) r dd (ti_id i) hm1 d2 V2 L2 Hno Hio Hro I1)|exact V2|].
          intros hm2 d3 V3 L3 (I2 & G2 & K2). apply REST; [exact V3|eapply lost_trans; eassumption|exact I2|exact G2|eauto].
        + rewrite T'. change (beq (bs "blob") (bs "tree")) with false. cbv iota.
          pose proof (meta_new_id _ _ Hio) as Eb. cbn [fst snd] in Eb. rewrite D', Eb. unfold pbind. cbn [then_any as_meta m_id].
          apply REST; [exact V2|exact L2| |apply grows_insert|rewrite bt_get_insert_same; eauto].
          apply (inv_insert e F path); [assumption|assumption|assumption|]. intros; discriminate. }
    apply LOOP; [exact V1|exact Ld1|auto|exact I]. }
  { exact V1. }
  intros hm' d2 V2 L2 (I3 & Gr3 & A3). apply hold_ret. cbn [as_meta m_id]. split; [|split].
  - apply (inv_insert e F path); [assumption|assumption|assumption|]. cbn [fst snd]. intros items' i o' _ G' Ii' So' Nc Hi'.
    rewrite (git_tree_fun _ _ _ G' Gt) in Ii'.
    destruct (bt_get (to_plain_str (ti_id i)) hm) as [m|] eqn:Gm; [exact (Gr3 _ _ Gm)|].
    destruct (snap_object _ _ _ _ Hr (rf_entry _ _ _ Gt Ii') So' Hi') as [Do _].
    destruct o' as [t' d']. destruct (S_node e D path _ _ Do Nc) as (r & Hin & Hno). apply (A3 r (t', d') (ti_id i)); [|assumption|assumption].
    apply Rall; [assumption|].
    unfold in_ids. apply existsb_exists. exists (to_plain_str (ti_id i)). split.
    + unfold ids. apply filter_In. split; [|rewrite Gm; reflexivity]. apply in_map_iff. eauto.
    + destruct (node_for_id _ _ Hno) as (h' & Hi2 & -> & _). rewrite (obj_id_fun _ _ _ Hi2 Hi'). apply He.
  - eapply grows_trans; [exact Gr3|apply grows_insert].
  - apply bt_get_insert_same.
Qed.

Lemma loop_holds : (forall x, repo_objects e D path (Commit, x) -> R (Commit, x)) -> forall fuel trees cs, (forall h r, bt_get h trees = Some r -> In r (d_nodes F) /\ exists o, node_for r o /\ obj_id o h) ->
  (forall c, In c cs -> commit_of e D path c) -> forall hm d, V d -> nothing_lost D d -> inv e F path R hm ->
  holds (fun hm' _ => inv e F path R hm' /\ grows hm hm' /\
    forall c, In c cs -> (exists m, bt_get (to_plain_str (m_id (cm_meta c))) hm' = Some m) /\
                         (exists m, bt_get (to_plain_str (cm_tree_id c)) hm' = Some m)) (full_loop_p fuel e trees cs hm) d.
Proof.
  intros RO fuel trees. induction cs as [|c cs IH]; intros Ht Hcs hm d Vd Ld I.
  - cbn [full_loop_p]. apply hold_ret. split; [exact I|]. split; [apply grows_refl|intros ? []].
  - destruct (Hcs c (or_introl eq_refl)) as (x & h & Hs & Hi & Em & Hr).
    pose proof (RO _ Hs) as Rc. pose proof (rf_root _ _ Hr) as Rf. cbn [full_loop_p].
    destruct (bt_get (cm_tree_id c) trees) as [r|] eqn:Gr1; [|intros a E; discriminate].
    destruct (Ht _ _ Gr1) as (Hn & o & No & Io). pose proof (node_in_S e F path _ _ Hn No) as So.
    pose proof (Hty _ _ _ _ (snap_sub _ Rc) Rf So Io) as Ty. destruct o as [t dt]. cbn [fst] in Ty. subst t.
    destruct (snap_object _ _ _ _ Rc Rf So Io) as [_ Rt].
    rewrite Em. cbn [as_meta m_id]. change (ModelObject.mkMeta _ h _ _ _) with (as_meta (Commit, x) h).
    assert (I1 : inv e F path R (bt_insert (to_plain_str h) (as_meta (Commit, x) h) hm)).
    { apply (inv_insert e F path); [assumption|assumption|assumption|]. intros; discriminate. }
    eapply hold_bind; [exact Gl|apply (walk_holds fuel r dt (cm_tree_id c) _ d Vd Ld No Io Rt I1)|exact Vd|].
    intros hm1 d1 V1 L1 (I2 & G1 & K1).
    eapply hold_weaken; [|exact V1|apply (IH Ht (fun x Hx => Hcs x (or_intror Hx)) hm1 d1 V1); [eapply lost_trans; eassumption|exact I2]].
    intros hm2 d2 V2 (I3 & G2 & K2). split; [exact I3|].
    split; [eapply grows_trans; [apply grows_insert|]; eapply grows_trans; eassumption|].
    intros y [<-|Hy]; [|auto]. split.
    + rewrite Em. cbn [as_meta m_id]. destruct (G1 (to_plain_str h) (as_meta (Commit, x) h)) as (m & Gm);
        [apply bt_get_insert_same|]. exact (G2 _ _ Gm).
    + exact (G2 _ _ K1).
Qed.

Lemma snap_all : forall hm, inv e F path R hm ->
  (forall d h, repo_objects e D path (Commit, d) -> obj_id (Commit, d) h -> exists m, bt_get (to_plain_str h) hm = Some m) ->
  (forall d tid, repo_objects e D path (Commit, d) -> commit_root d tid -> exists m, bt_get (to_plain_str tid) hm = Some m) ->
  forall o h, reach (repo_objects e D path) o -> obj_id o h -> bt_get (to_plain_str h) hm = Some (as_meta o h).
Proof.
  intros hm I H1 H2 o h Hr. revert h. pose proof (later_objects D HD) as LD.
  induction Hr as [d Hd|o t h d Hr IH Rf Nc Hd Hi]; intros h' Hi'.
  - destruct (H1 _ _ Hd Hi') as (m & Gm). destruct (inv_get e F path Hcf R snap_sub _ _ _ _ I (LD _ Hd) Hi' Gm) as [-> _]. exact Gm.
  - rewrite (obj_id_fun _ _ _ Hi' Hi). clear h' Hi'.
    assert (K : exists m, bt_get (to_plain_str h) hm = Some m).
    { inversion Rf as [d0 tid Hc0|d0 items i Gt Ii]; subst.
      - exact (H2 _ _ (reach_S _ _ Hr) Hc0).
      - destruct (meta_new_obj Tree d0) as (h0 & Hi0 & _); [eexists; constructor|].
        exact (iv_closed _ _ _ _ _ I _ _ _ _ _ (IH _ Hi0) Gt Ii (LD _ Hd) Nc Hi). }
    destruct K as (m & Gm). destruct (inv_get e F path Hcf R snap_sub _ _ _ _ I (LD _ Hd) Hi Gm) as [-> _]. exact Gm.
Qed.

(** The pack holds the objects of the map. *)
Definition packs (c : codec) (st : storage) (R : object -> Prop) (file : bytes) : Prop :=
  exists objs, git_pack c st file objs /\ NoDup (map snd objs) /\ forall o, In o (map snd objs) <-> R o.
Lemma encode_holds : forall c st hm d, codec_ok c -> V d -> inv e F path R hm ->
  (forall o h, R o -> obj_id o h -> bt_get (to_plain_str h) hm = Some (as_meta o h)) ->
  holds (fun file _ => packs c st R file) (encode_map_p c hm) d.
Proof.
  intros c st hm d Hcd Vd I All. unfold encode_map_p.
  apply (hold_bind _ _ _ Gl _ _ (fun l _ => Permutation l (map snd hm))); [|exact Vd|].
  { apply hold_shuffle; [exact He|exact Gr|]. auto. }
  intros l d1 V1 L1 P.
  assert (Hm : forall m, In m (map snd hm) -> exists o h, R o /\ obj_id o h /\ m = as_meta o h /\ In (to_plain_str h, m) hm).
  { intros m H. apply in_map_iff in H as ([s m'] & E & H). cbn in E. subst m'.
    pose proof (bt_get_sorted _ _ _ _ (iv_sorted _ _ _ _ _ I) H) as Gs.
    destruct (iv_objs _ _ _ _ _ I _ _ Gs) as (o & h & Hr & Hi & -> & ->). eauto 8. }
  assert (Le : Forall encodable l).
  { apply Forall_forall. intros m H. apply (Permutation_in _ P) in H. destruct (Hm m H) as ([t x] & h & Hr & Hi & -> & _).
    destruct (S_sound e F path Hh _ (snap_sub _ Hr)) as (Sb & Sl & _). cbn [snd] in Sb, Sl. split; [|exact Sl].
    unfold wf_object. cbn [as_meta m_t m_size m_data m_delta_header m_id fst snd].
    split; [exact (obj_id_base _ _ Hi)|]. split; [reflexivity|]. split; [reflexivity|]. split; [assumption|].
    split; [change U64 with (2 ^ 64); apply lt61_64; assumption|]. exact Hi. }
  destruct (encode c l) as [[p file]|x| |] eqn:E; try (intros a Ea; discriminate).
  destruct (encode_git_pack c st l p file Hcd Le E) as (objs & Gp & Eo & _).
  apply (hold_ret e G V). exists objs. split; [exact Gp|]. rewrite Eo. split.
  - apply (Permutation_map obj_of) in P. eapply Permutation_NoDup; [apply Permutation_sym; exact P|].
    rewrite map_map. eapply inv_objs_nodup. exact I.
  - intros o. rewrite in_map_iff. split.
    + intros (m & Emm & H). apply (Permutation_in _ P) in H. destruct (Hm m H) as (o' & h & Hr & Hi & -> & Hin).
      destruct o' as [t x]. cbn in Emm. subst o. exact Hr.
    + intros Ho. destruct o as [t x]. destruct (meta_new_obj t x) as (h & Hi & _).
      { destruct (S_sound e F path Hh _ (snap_sub _ Ho)) as (_ & _ & K'). cbn [fst] in K'. destruct t; try contradiction; eexists; constructor. }
      exists (as_meta (t, x) h). split; [reflexivity|]. apply (Permutation_in _ (Permutation_sym P)).
      apply in_map_iff. exists (to_plain_str h, as_meta (t, x) h). split; [reflexivity|]. apply bt_get_in. auto.
Qed.
End Snapshot.

(** ** The clone *)

Section Clone.
Context (e : env) (He : env_ok e) (F : db) (path : bytes).
Context (Hh : honest_db e F path) (Hcf : collision_free (repo_objects e F path)) (Hty : well_typed (repo_objects e F path)).
Context (Hsub : no_submodules (repo_objects e F path)) (Htop : top_level e F path).
Context (G : db -> db -> Prop) (V : db -> Prop) (Gr : forall d, V d -> G d d) (Gl : forall d d', G d d' -> nothing_lost d d').
Context (HV : forall d, V d -> nothing_lost d F) (HS : forall d, V d -> forall c, In c (d_commits d) -> sourced d c).
Local Notation holds := (hold e G V).

Lemma full_holds : forall c st fuel d, codec_ok c -> V d ->
  holds (fun file _ => exists D, V D /\ packs c st (reach (repo_objects e D path)) file) (full_pack_p e c fuel path) d.
Proof.
  intros c st fuel d Hcd Vd. unfold full_pack_p.
  apply (hold_bind _ _ _ Gl _ _ (fun metas d' => exists D rows, V D /\ nothing_lost D d' /\
     Permutation rows (filter (fun c => teq e (c_repo_path c) path) (d_commits D)) /\ commit_metas rows = Ok metas)); [|exact Vd|].
  { unfold all_commits_p. apply (hold_bind _ _ _ Gl _ _ (fun rows d' => exists D, V D /\ nothing_lost D d' /\
     Permutation rows (filter (fun c => teq e (c_repo_path c) path) (d_commits D)))); [|exact Vd|].
    - apply hold_select; [exact He|exact Gr|]. intros d1 l V1 L1 P. exists d1. split; [exact V1|]. split; [apply lost_refl|exact P].
    - intros rows d1 V1 L1 (D & VD & LD & P). apply hold_lift. intros metas E. exists D, rows. auto. }
  intros metas d1 V1 L1 (D & rows & VD & LD & P & Em).
  pose proof (HV D VD) as LDF. pose proof (later_honest e F path Hh D LDF) as HD.
  pose proof (snapshot_complete e F path Hh Hcf Hty Hsub Htop D LDF (HS D VD)) as Co.
  destruct (commit_rows e D path rows) as (metas' & cs & E1 & E2 & _ & C1 & C2).
  { intros r Hr. apply (Permutation_in _ P) in Hr. apply filter_In in Hr as [Hr T].
    destruct (proj1 (proj2 HD) r Hr T) as (o & Hc). assert (Eo : exists x, o = (Commit, x)) by (inversion Hc; eauto).
    destruct Eo as (x & ->). exists x. split; [exact Hc|]. right. eauto. }
  assert (Ex : metas' = metas) by congruence. subst metas'. rewrite E2. unfold pbind at 1. cbn [then_any].
  apply (hold_bind _ _ _ Gl _ _ (fun rows _ => forall r, In r rows -> In r (d_nodes F))); [|exact V1|].
  { apply hold_select; [exact He|exact Gr|]. intros d2 l V2 L2 P2 r Hr. apply (Permutation_in _ P2) in Hr.
    apply filter_In in Hr as [Hr _]. exact (lost_node _ _ _ (HV _ V2) Hr). }
  intros rows2 d2 V2 L2 R2.
  destruct (index_rows e F path Hh rows2 [] R2) as (trees & Et & T1 & _ & _). rewrite Et. unfold pbind at 1. cbn [then_any].
  assert (T2 : forall h r, bt_get h trees = Some r -> In r (d_nodes F) /\ exists o, node_for r o /\ obj_id o h).
  { intros h r K. destruct (T1 _ _ K) as [K'|(K1 & K2)]; [discriminate|]. auto. }
  assert (I0 : inv e F path (reach (repo_objects e D path)) []) by (split; [constructor|discriminate|discriminate]).
  eapply hold_bind; [exact Gl| |exact V2|].
  { eapply (loop_holds e He F path Hh Hcf Hty G V Gr Gl HV D LDF Co (reach (repo_objects e D path)) (fun o H => H) (rc_refers (repo_objects e D path)) (rc_commit (repo_objects e D path)) fuel trees cs T2 C1 [] d2 V2); [|exact I0].
    eapply lost_trans; [exact LD|]. exact L2. }
  intros hm d3 V3 L3 (I & _ & K).
  eapply hold_weaken; [|exact V3|apply (encode_holds e He F path Hh G V Gr Gl D LDF (reach (repo_objects e D path)) (fun o H => H) c st hm d3 Hcd V3 I)].
  - intros file d4 V4 Pk. exists D. auto.
  - apply (snap_all e F path Hcf D LDF (reach (repo_objects e D path)) (fun o H => H) hm I).
    + intros x h Hx Hi. destruct Hx as [(r & _ & Hf)|(r & Hr & T & Hf)]; [inversion Hf|].
      destruct (C2 r x h) as (y & Hy & Ey); [apply (Permutation_in _ (Permutation_sym P)), filter_In; auto|exact Hf|exact Hi|].
      destruct (K y Hy) as [K1 _]. rewrite Ey in K1. exact K1.
    + intros x tid Hx Hr. destruct Hx as [(r & _ & Hf)|(r & Hin & T & Hf)]; [inversion Hf|].
      destruct (meta_new_obj Commit x) as (h & Hi & _); [eexists; constructor|].
      destruct (C2 r x h) as (y & Hy & Ey); [apply (Permutation_in _ (Permutation_sym P)), filter_In; auto|exact Hf|exact Hi|].
      destruct (K y Hy) as [_ K2]. destruct (C1 y Hy) as (x2 & h2 & _ & _ & Em2 & Hr2). rewrite Ey in Em2.
      assert (Ed : x = x2) by (unfold as_meta in Em2; cbn [fst snd] in Em2; congruence). subst x2.
      rewrite (commit_root_fun _ _ _ Hr Hr2). exact K2.
Qed.
Lemma snapshot_of : forall D, V D -> complete (repo_objects e D path).
Proof. intros D VD. apply (snapshot_complete e F path Hh Hcf Hty Hsub Htop); auto. Qed.
End Clone.

(** ** All requests *)

Lemma upload_more : forall fuel k first want have caps b x, upload_loop fuel first want have caps b = Ok x ->
  upload_loop (k + fuel) first want have caps b = Ok x.
Proof.
  induction fuel as [|fuel IH]; intros k first want have caps b x H; [discriminate|]. rewrite Nat.add_succ_r. cbn [upload_loop] in H |- *.
  repeat (match goal with
  | H : bind ?m _ = Ok _ |- _ => destruct m as [?|?| |]; cbn [bind] in H |- *; try discriminate
  | H : context [match ?p with (_, _) => _ end] |- _ => destruct p
  | H : (if ?c then _ else _) = Ok _ |- _ => destruct c
  end; auto).
Qed.

Lemma hold_grow : forall e (G G' : db -> db -> Prop) V A (Q : A -> db -> Prop) p d, (forall x y, G x y -> G' x y) ->
  hold e G V Q p d -> hold e G' V Q p d.
Proof.
  intros e G G' V A Q p d HG. revert d. induction p as [r|X a k IH]; intros d H; cbn [hold] in *; [exact H|].
  intros w L Vw. destruct (H w L Vw) as [H1 H2]. split; [auto|]. intros V'. apply IH. auto.
Qed.

Section Requests.
Context (e : env) (He : env_ok e) (b : build) (c : codec) (fuel : nat) (cut : bytes -> list bytes) (rs : list request).
Definition by_request (i : nat) (d d' : db) : Prop := exists r p, nth_error rs i = Some r /\ about r p /\ step e p d d'.
Lemma by_request_lost : forall i d d', by_request i d d' -> nothing_lost d d'.
Proof. intros i d d' (r & p & _ & _ & S). eapply step_lost. exact S. Qed.
Lemma started_hold : forall V : db -> Prop, (forall d, V d -> refs_table d) -> forall d, V d ->
  all_hold e by_request V (fun _ _ _ => True) (started e b c fuel cut rs) d.
Proof.
  intros V HV d Vd i p Hp. unfold started in Hp. rewrite nth_error_map in Hp.
  destruct (nth_error rs i) as [r|] eqn:N; [|discriminate]. cbn in Hp. injection Hp as <-.
  destruct (about_dec r) as [(q & Hq)|Hn].
  - apply (hold_grow e (step e q)); [intros x y S; exists r, q; auto|]. apply (g_serve e He q V HV); assumption.
  - destruct (idle_serve e b c fuel cut r Hn) as (o & ->). apply hold_lift. auto.
Qed.

(** What the actions of the requests do. *)
Lemma started_chain : forall schedule w, refs_table (w_db w) -> let w' := snd (interleave e schedule (started e b c fuel cut rs) w) in
  exists k, w_log w' = w_log w ++ k /\
    chain (fun d d' => refs_table d' /\ exists r p, In r rs /\ about r p /\ step e p d d') (w_db w) k (w_db w') /\ refs_table (w_db w').
Proof.
  intros schedule w T w'.
  destruct (interleave_chain e by_request refs_table (fun _ _ _ => True) by_request_lost) with (schedule := schedule)
    (ts := started e b c fuel cut rs) (w := w) as (k & E & C & T').
  - auto.
  - intros i d d' _ (r & p & _ & _ & S). exact (st_table _ _ _ _ S).
  - exact T.
  - apply started_hold; auto.
  - exists k. split; [exact E|]. split; [|exact T']. eapply chain_impl; [|exact C].
    intros x y (Ty & i & _ & _ & r & p & N & A & S). split; [exact Ty|]. exists r, p. split; [eapply nth_error_In; exact N|auto].
Qed.
End Requests.

Lemma interleave_app : forall e s1 s2 ts w, interleave e (s1 ++ s2) ts w =
  interleave e s2 (fst (interleave e s1 ts w)) (snd (interleave e s1 ts w)).
Proof.
  intros e. induction s1 as [|i s1 IH]; intros s2 ts w; [reflexivity|]. cbn [app interleave]. destruct (advance e i ts w). apply IH.
Qed.
Lemma interleave_skips : forall e i s ts w, ~ In i s -> nth_error (fst (interleave e s ts w)) i = nth_error ts i.
Proof.
  intros e i. induction s as [|j s IH]; intros ts w N; [reflexivity|]. cbn [interleave].
  assert (K : nth_error (fst (advance e j ts w)) i = nth_error ts i).
  { unfold advance. destruct (nth_error ts j) as [[r|X a k]|]; try reflexivity. destruct (perform e a w). cbn [fst].
    apply set_nth_other. intros ->. apply N. left. reflexivity. }
  destruct (advance e j ts w) as [ts1 w1]. cbn [fst] in K. rewrite <- K. apply IH. intros H. apply N. right. exact H.
Qed.
Lemma hold_fewer : forall e G (V V' : db -> Prop) A (Q : A -> db -> Prop) p d, (forall x, V' x -> V x) ->
  hold e G V Q p d -> hold e G V' Q p d.
Proof.
  intros e G V V' A Q p d HV. revert d. induction p as [r|X a k IH]; intros d H; cbn [hold] in *; [exact H|].
  intros w L Vw. destruct (H w L (HV _ Vw)) as [H1 H2]. split; [exact H1|]. intros V1. apply IH. auto.
Qed.
Lemma hold_unwrap : forall e (G : db -> db -> Prop) (V : db -> Prop) A (Q : A -> db -> Prop) p d, (forall d d', G d d' -> nothing_lost d d') -> V d ->
  hold e G V Q p d -> hold e G V Q (punwrap p) d.
Proof.
  intros e G V A Q p d Gl Vd H. unfold punwrap. apply (hold_then e G V Gl A A Q Q); [exact H|exact Vd|].
  intros r d1 V1 L1 K a E. apply K. destruct r; cbn [unwrap] in E; try discriminate. exact E.
Qed.

(** Every moment has a table of references with distinct keys, keeps what was there, and
    the commits in it are stored with their trees. *)
Section Moments.
Context (e : env) (He : env_ok e) (b : build) (c : codec) (fuel : nat) (cut : bytes -> list bytes) (rs : list request).
Local Notation all := (started e b c fuel cut rs).
Lemma prefix_table : forall s w, refs_table (w_db w) -> refs_table (w_db (snd (interleave e s all w))).
Proof. intros s w T. destruct (started_chain e He b c fuel cut rs s w T) as (k & _ & _ & H). exact H. Qed.
Lemma prefix_hold : forall s w, refs_table (w_db w) ->
  all_hold e (by_request e rs) refs_table (fun _ _ _ => True) (fst (interleave e s all w)) (w_db (snd (interleave e s all w))) /\
  nothing_lost (w_db w) (w_db (snd (interleave e s all w))).
Proof.
  intros s w T. apply (interleave_holds e (by_request e rs) refs_table (fun _ _ _ => True) (by_request_lost e rs)).
  - auto.
  - intros s1 s2 _. apply prefix_table. exact T.
  - apply started_hold; auto.
Qed.
Lemma prefix_lost : forall s1 s2 w, refs_table (w_db w) ->
  nothing_lost (w_db (snd (interleave e s1 all w))) (w_db (snd (interleave e (s1 ++ s2) all w))).
Proof.
  intros s1 s2 w T. destruct (prefix_hold s1 w T) as [H _]. rewrite interleave_app.
  apply (interleave_holds e (by_request e rs) refs_table (fun _ _ _ => True) (by_request_lost e rs)) with (schedule := s2); auto.
  intros s3 s4 _. rewrite <- interleave_app. apply prefix_table. exact T.
Qed.
Lemma prefix_sourced : forall s w, refs_table (w_db w) -> (forall x, In x (d_commits (w_db w)) -> sourced (w_db w) x) ->
  let d := w_db (snd (interleave e s all w)) in forall x, In x (d_commits d) -> sourced d x.
Proof.
  intros s w T Sr d. destruct (started_chain e He b c fuel cut rs s w T) as (k & _ & C & _). unfold d. clear d.
  revert T Sr C. generalize (w_db (snd (interleave e s all w))) as z. generalize (w_db w) as a.
  induction k as [|x k IH]; intros a z T Sr C y Hy.
  - cbn in C. subst z. auto.
  - destruct C as [(Tx & r & p & _ & _ & S) C]. apply (IH x z Tx); [|exact C|exact Hy].
    intros y' Hy'. destruct (st_source _ _ _ _ S y' Hy') as [K|K]; [|exact K].
    eapply sourced_later; [eapply step_lost; exact S|auto].
Qed.
End Moments.

(** C151: fetches of clients that name what they have, while other requests are served. *)

From Coq Require Import Permutation.
From Verif Require Import Base BaseLemmas Digest ModelUtils ModelObject ModelBase ModelPack ModelDecode ModelPkt ModelStorage ModelProto
  ModelLfs ModelGateway ModelService ModelConc StoredZlib SpecObject SpecFormat SpecIdx SpecBase SpecPack SpecPkt SpecPath SpecStorage SpecProto SpecFetch SpecGateway SpecService
  SpecConc ProofUtils ProofObject ProofUtf8 ProofBase ProofPack ProofPkt ProofReq ProofPath ProofEncode ProofNodes ProofStorage ProofPush ProofClone ProofRepo ProofRefs
  ProofSession ProofGraph ProofExample PropPkt PropStorage PropProto PropGateway ProofService PropService PropSsh PropFetch PropNegotiate ProofConc ProofWhole ProofSnapshot PropConc.
Open Scope N_scope.

(** ** Vocabulary *)

(** Acknowledgements as in [ack_lines], each id judged by the tables at one of the moments. *)
Definition acks_during (e : env) (V : db -> Prop) (ready : Prop) (items : list req_item) (b : bytes) : Prop :=
  exists hs ws hl wl,
    NoDup hs /\ (forall id, In id hs <-> exists t, In (RHave id t) items) /\
    Forall2 (fun id l => exists d, V d /\ lines_about (known_commit e d) False id l) hs hl /\
    NoDup ws /\ (forall id, In id ws <-> exists t, In (RWant id t) items) /\
    Forall2 (fun id l => exists d, V d /\ lines_about (known_commit e d) ready id l) ws wl /\
    pkt_lines (concat hl ++ concat wl ++ [ack (bs "27dd8d4cf39f3868c6eee38b601bc9e9939304f5") [32; 10]]) b.
Definition fetch_reply_during (e : env) (c : codec) (st : storage) (V : db -> Prop) (ready : Prop) (items : list req_item) (R : object -> Prop) (reply : bytes) : Prop :=
  exists acks bands pack objs, reply = acks ++ bands /\ acks_during e V ready items acks /\ band_stream 65520 bands pack /\
    git_pack c st pack objs /\ NoDup (map snd objs) /\ forall o, In o (map snd objs) <-> R o.

(** ** The walk *)

Section During.
Context (e : env) (He : env_ok e) (F : db) (path : bytes).
Context (Hh : honest_db e F path) (Hcf : collision_free (repo_objects e F path)) (Hty : well_typed (repo_objects e F path)).
Context (Hsub : no_submodules (repo_objects e F path)) (Htop : top_level e F path).
Context (G : db -> db -> Prop) (V : db -> Prop) (Gr : forall d, V d -> G d d) (Gl : forall d d', G d d' -> nothing_lost d d').
Context (HV : forall d, V d -> nothing_lost d F) (HS : forall d, V d -> forall c, In c (d_commits d) -> sourced d c).
Local Notation holds := (hold e G V).

Lemma one_holds : forall T (q : db -> list T) d, V d ->
  holds (fun o _ => exists d', V d' /\ match o with Some x => In x (q d') | None => q d' = [] end) (one_row q) d.
Proof.
  intros T q d Vd. unfold one_row. apply (hold_bind _ _ _ Gl _ _ (fun l _ => exists d', V d' /\ Permutation l (q d'))); [|exact Vd|].
  - apply hold_select; [exact He|exact Gr|]. intros d' l V' _ P. exists d'. auto.
  - intros l d1 V1 L1 (d' & V' & P). apply hold_ret. exists d'. split; [exact V'|]. destruct l as [|x l]; cbn [hd_error].
    + apply Permutation_nil. exact P.
    + apply (Permutation_in _ P). left. reflexivity.
Qed.

Section Want.
Context (want : list bytes).

Section At.
Context (D : db) (HD : nothing_lost D F) (Co : complete (repo_objects e D path)).
Local Notation RD := (RW e D path want).
Let walk := walk_holds e He F path Hh Hcf Hty G V Gr Gl HV D HD Co RD (RW_reach e D path want) (RW_closed e D path want).

Lemma inc_loop_holds : forall fuel metas,
  (forall m, In m metas -> exists x h tid, m = as_meta (Commit, x) h /\ obj_id (Commit, x) h /\ repo_objects e D path (Commit, x) /\ commit_root x tid) ->
  forall hm d, V d -> nothing_lost D d -> inv e F path RD hm ->
  holds (fun hm' _ => inv e F path RD hm' /\ grows hm hm' /\
    forall x h tid, In (as_meta (Commit, x) h) metas -> In (to_plain_str h) want -> commit_root x tid -> exists m, bt_get (to_plain_str tid) hm' = Some m)
    (incremental_loop_p fuel e want metas hm) d.
Proof.
  intros fuel. induction metas as [|m metas IH]; intros Hm hm d Vd Ld I.
  - cbn [incremental_loop_p]. apply hold_ret. split; [exact I|]. split; [apply grows_refl|intros ? ? ? []].
  - destruct (Hm m (or_introl eq_refl)) as (x & h & tid & -> & Hi & Hs & Hr).
    assert (Hm' : forall m, In m metas -> exists x h tid, m = as_meta (Commit, x) h /\ obj_id (Commit, x) h /\ repo_objects e D path (Commit, x) /\ commit_root x tid)
      by (intros y Hy; apply Hm; right; exact Hy).
    cbn [incremental_loop_p]. cbn [as_meta m_id]. change (ModelObject.mkMeta (fst (Commit, x)) h _ _ _) with (as_meta (Commit, x) h).
    destruct (existsb (beq (to_plain_str h)) want) eqn:W.
    + apply existsb_beq in W. destruct (commit_root_new (as_meta (Commit, x) h) tid Hr) as (c & Ec & Ecm & Ect).
      rewrite Ec. unfold pbind at 1. cbn [then_any]. rewrite Ect.
      eapply hold_bind; [exact Gl|apply one_holds; exact Vd|exact Vd|].
      intros o d1 V1 L1 (d' & V' & K). destruct o as [r|]; [|intros a E; discriminate].
      apply filter_In in K as [K T]. pose proof (lost_node _ _ _ (HV _ V') K) as Hn. destruct (proj1 Hh r Hn) as ([t dt] & No).
      assert (Io : obj_id (t, dt) tid).
      { destruct (node_for_id _ _ No) as (h' & Hi' & Eh & _). rewrite Eh in T. pose proof (commit_root_ok _ _ Hr) as Ht.
        assert (E' : h' = tid); [|rewrite <- E'; exact Hi'].
        apply to_plain_str_inj; [eapply obj_id_ok; eassumption|assumption|].
        apply (proj2 (proj2 He) _ _ h' tid); [apply plain_lower; eapply obj_id_ok; eassumption|apply plain_lower; assumption| |apply Ht|exact T].
        apply (obj_id_ok _ _ Hi'). }
      assert (Rc : reach (repo_objects e D path) (Commit, x)) by (apply rc_commit; exact Hs).
      pose proof (rf_root _ _ Hr) as Rf. pose proof (node_in_S e F path _ _ Hn No) as Hst.
      pose proof (Hty _ _ _ _ (later_reach e F path D HD _ Rc) Rf Hst Io) as Ty. cbn [fst] in Ty. subst t.
      assert (Rt : RD (Tree, dt)).
      { destruct (Co _ _ _ Rc Rf) as (_ & y & Hy & Hiy).
        assert (Ey : (Tree, dt) = (Tree, y)) by (apply (Hcf _ _ tid); [exact Hst|apply (later_objects e F path D HD); exact Hy|exact Io|exact Hiy]). rewrite Ey.
        split; [discriminate|]. eapply rc_refers; [apply (rc_commit _ x)|exact Rf|discriminate| |exact Hiy].
        - split; [exact Hs|]. intros _. exists h. split; [exact Hi|exact W].
        - split; [exact Hy|discriminate]. }
      eapply hold_bind; [exact Gl|apply (walk fuel r dt tid hm d1 V1); [eapply lost_trans; eassumption|exact No|exact Io|exact Rt|exact I]|exact V1|].
      intros hm1 d2 V2 L2 (I2 & G2 & K2).
      eapply hold_weaken; [|exact V2|apply (IH Hm' hm1 d2 V2); [eapply lost_trans; [exact Ld|]; eapply lost_trans; eassumption|exact I2]].
      intros hm2 d3 V3 (I3 & G3 & K3). split; [exact I3|]. split; [eapply grows_trans; eassumption|].
      intros x' h' tid' [E|Hin] Wd Hr'; [|eauto].
      assert (Ed : x = x') by (unfold as_meta in E; cbn [fst snd] in E; congruence). subst x'.
      rewrite (commit_root_fun _ _ _ Hr' Hr). exact (G3 _ _ K2).
    + eapply hold_weaken; [|exact Vd|apply (IH Hm' hm d Vd Ld I)]. intros hm2 d3 V3 (I3 & G3 & K3). split; [exact I3|]. split; [exact G3|].
      intros x' h' tid' [E|Hin] Wd Hr'; [|eauto].
      assert (Eh : h = h') by (unfold as_meta in E; cbn [fst snd] in E; congruence). subst h'.
      apply existsb_beq in Wd. congruence.
Qed.
Lemma inc_all : forall hm, inv e F path RD hm ->
  (forall x tid, repo_objects e D path (Commit, x) -> wanted want x -> commit_root x tid -> exists m, bt_get (to_plain_str tid) hm = Some m) ->
  forall o h, RD o -> obj_id o h -> bt_get (to_plain_str h) hm = Some (as_meta o h).
Proof.
  intros hm I Root. pose proof (later_objects e F path D HD) as LD.
  assert (HR : forall o, RD o -> reach (repo_objects e F path) o) by (intros o Ho; apply (later_reach e F path D HD), (RW_reach e D path want), Ho).
  assert (All : forall o, reach (SW e D path want) o -> forall h, fst o <> Commit -> obj_id o h -> bt_get (to_plain_str h) hm = Some (as_meta o h)).
  { intros o Hr. induction Hr as [d Hd|o t h d Hr IH Rf Nc Hd Hi]; intros h' N Hi'; [contradiction N; reflexivity|].
    rewrite (obj_id_fun _ _ _ Hi' Hi). clear h' Hi'.
    assert (Gm : exists m, bt_get (to_plain_str h) hm = Some m).
    { inversion Rf as [dd tid Hcr|dd items i Gt Ii]; subst.
      - destruct (reach_S _ _ Hr) as [Hs Hw]. exact (Root _ _ Hs (Hw eq_refl) Hcr).
      - destruct (meta_new_obj Tree dd) as (h0 & Hi0 & _); [eexists; constructor|].
        exact (iv_closed _ _ _ _ _ I _ _ _ _ _ (IH _ ltac:(discriminate) Hi0) Gt Ii (LD _ (proj1 Hd)) Nc Hi). }
    destruct Gm as (m & Gm). destruct (inv_get e F path Hcf RD HR _ _ _ _ I (LD _ (proj1 Hd)) Hi Gm) as [-> _]. exact Gm. }
  intros o h [N Hr] Hi. exact (All o Hr h N Hi).
Qed.
End At.

Lemma incremental_holds : forall c st fuel d, codec_ok c -> V d ->
  holds (fun file _ => exists D, V D /\ packs c st (RW e D path want) file) (incremental_pack_p e c fuel path want) d.
Proof.
  intros c st fuel d Hcd Vd. unfold incremental_pack_p.
  apply (hold_bind _ _ _ Gl _ _ (fun metas d' => exists D rows, V D /\ nothing_lost D d' /\
     Permutation rows (filter (fun c => teq e (c_repo_path c) path) (d_commits D)) /\ commit_metas rows = Ok metas)); [|exact Vd|].
  { unfold all_commits_p. apply (hold_bind _ _ _ Gl _ _ (fun rows d' => exists D, V D /\ nothing_lost D d' /\
     Permutation rows (filter (fun c => teq e (c_repo_path c) path) (d_commits D)))); [|exact Vd|].
    - apply hold_select; [exact He|exact Gr|]. intros d1 l V1 L1 P. exists d1. split; [exact V1|]. split; [apply lost_refl|exact P].
    - intros rows d1 V1 L1 (D & VD & LD & P). apply hold_lift. intros metas E. exists D, rows. auto. }
  intros metas d1 V1 L1 (D & rows & VD & LD & P & Em).
  pose proof (HV D VD) as LDF. pose proof (later_honest e F path Hh D LDF) as HD.
  pose proof (snapshot_complete e F path Hh Hcf Hty Hsub Htop D LDF (HS D VD)) as Co.
  destruct (commit_rows e D path rows) as (metas' & cs & E1 & _ & Ecm & C1 & C2).
  { intros r Hr. apply (Permutation_in _ P) in Hr. apply filter_In in Hr as [Hr T].
    destruct (proj1 (proj2 HD) r Hr T) as (o & Hc). assert (Eo : exists x, o = (Commit, x)) by (inversion Hc; eauto).
    destruct Eo as (x & ->). exists x. split; [exact Hc|]. right. eauto. }
  assert (Ex : metas' = metas) by congruence. rewrite Ex in Ecm.
  assert (I0 : inv e F path (RW e D path want) []) by (split; [constructor|discriminate|discriminate]).
  eapply hold_bind; [exact Gl|apply (inc_loop_holds D LDF Co fuel metas) with (hm := []); [|exact V1|exact LD|exact I0]|exact V1|].
  { intros m Hm. rewrite <- Ecm in Hm. apply in_map_iff in Hm as (x & <- & Hx).
    destruct (C1 x Hx) as (y & h & Hs & Hi & Emm & Hr). exists y, h, (cm_tree_id x). auto. }
  intros hm d3 V3 L3 (I & _ & K).
  eapply hold_weaken; [|exact V3|apply (encode_holds e He F path Hh G V Gr Gl D LDF (RW e D path want) (RW_reach e D path want) c st hm d3 Hcd V3 I)].
  - intros file d4 V4 Pk. exists D. auto.
  - apply (inc_all D LDF hm I). intros x tid Hx (h & Hi & Hw) Hr. destruct Hx as [(r & _ & Hf)|(r & Hin & T & Hf)]; [inversion Hf|].
    destruct (C2 r x h) as (y & Hy & Ey); [apply (Permutation_in _ (Permutation_sym P)), filter_In; auto|exact Hf|exact Hi|].
    apply (K x h tid); [|exact Hw|exact Hr]. rewrite <- Ecm, <- Ey. apply in_map. exact Hy.
Qed.
End Want.

(** ** The acknowledgements *)

Lemma known_holds : forall id d, V d ->
  holds (fun b _ => exists d', V d' /\ if b : bool then known_commit e d' id else ~ known_commit e d' id) (known_p e id) d.
Proof.
  intros id d Vd. unfold known_p. eapply hold_bind; [exact Gl|apply one_holds; exact Vd|exact Vd|].
  intros o d1 V1 L1 (d' & V' & K). apply hold_ret. exists d'. split; [exact V'|]. destruct o as [r|].
  - apply filter_In in K. exists r. exact K.
  - intros (r & Hr & T). assert (Fi : In r (filter (fun c => teq e (c_git_id c) id) (d_commits d'))) by (apply filter_In; split; assumption).
    rewrite K in Fi. destruct Fi.
Qed.
Lemma haves_holds : forall hs buf ps d, V d -> Forall id40 hs -> pkt_lines ps buf ->
  holds (fun out _ => exists ls, Forall2 (fun id l => exists d, V d /\ lines_about (known_commit e d) False id l) hs ls /\ pkt_lines (ps ++ concat ls) out) (ack_haves_p e hs buf) d.
Proof.
  induction hs as [|h hs IH]; intros buf ps d Vd Fi Hp.
  - cbn [ack_haves_p]. apply hold_ret. exists []. split; [constructor|]. cbn [concat]. rewrite app_nil_r. exact Hp.
  - inversion Fi as [|? ? Fh Ft]; subst. cbn [ack_haves_p]. eapply hold_bind; [exact Gl|apply known_holds; exact Vd|exact Vd|].
    intros b d1 V1 L1 (d' & V' & K1). cbv beta.
    set (l1 := if b then [ack h (bs " common" ++ [10])] else []).
    assert (P1 : pkt_lines (ps ++ l1) (if b then add_pkt_line buf (bs "ACK " ++ h ++ bs " common" ++ [10]) else buf)).
    { unfold l1. destruct b; [|rewrite app_nil_r; exact Hp]. apply add_pkt_lines; [exact Hp|]. apply ack_len; [apply Fh|vm_compute; lia]. }
    eapply hold_weaken; [|exact V1|apply (IH _ _ d1 V1 Ft P1)]. intros out d2 V2 (ls & F2 & P). exists (l1 :: ls). split; [|cbn [concat]; rewrite app_assoc; exact P].
    constructor; [|exact F2]. exists d'. split; [exact V'|]. exists l1, []. split; [symmetry; apply app_nil_r|]. split; [|right; tauto].
    unfold l1. destruct b; [left|right]; auto.
Qed.
Lemma wants_holds : forall nd hs buf ps d, V d -> Forall id40 hs -> pkt_lines ps buf ->
  holds (fun out _ => exists ls, Forall2 (fun id l => exists d, V d /\ lines_about (known_commit e d) (nd = true) id l) hs ls /\ pkt_lines (ps ++ concat ls) out) (ack_wants_p e nd hs buf) d.
Proof.
  intros nd. induction hs as [|h hs IH]; intros buf ps d Vd Fi Hp.
  - cbn [ack_wants_p]. apply hold_ret. exists []. split; [constructor|]. cbn [concat]. rewrite app_nil_r. exact Hp.
  - inversion Fi as [|? ? Fh Ft]; subst. cbn [ack_wants_p]. eapply hold_bind; [exact Gl|apply known_holds; exact Vd|exact Vd|].
    intros b d1 V1 L1 (d' & V' & K1). cbv beta zeta.
    set (l1 := if b then [ack h (bs " common" ++ [10])] else []). set (l2 := if nd then [ack h (bs " ready" ++ [10])] else []).
    assert (P1 : pkt_lines (ps ++ l1) (if b then add_pkt_line buf (bs "ACK " ++ h ++ bs " common" ++ [10]) else buf)).
    { unfold l1. destruct b; [|rewrite app_nil_r; exact Hp]. apply add_pkt_lines; [exact Hp|]. apply ack_len; [apply Fh|vm_compute; lia]. }
    set (buf1 := if b then add_pkt_line buf _ else buf) in *.
    assert (P2 : pkt_lines ((ps ++ l1) ++ l2) (if nd then add_pkt_line buf1 (bs "ACK " ++ h ++ bs " ready" ++ [10]) else buf1)).
    { unfold l2. destruct nd; [|rewrite app_nil_r; exact P1]. apply add_pkt_lines; [exact P1|]. apply ack_len; [apply Fh|vm_compute; lia]. }
    eapply hold_weaken; [|exact V1|apply (IH _ _ d1 V1 Ft P2)]. intros out d2 V2 (ls & F2 & P). exists ((l1 ++ l2) :: ls).
    split; [|cbn [concat]; rewrite app_assoc; rewrite <- (app_assoc ps) in P; exact P].
    constructor; [|exact F2]. exists d'. split; [exact V'|]. exists l1, l2. split; [reflexivity|]. split.
    + unfold l1. destruct b; [left|right]; auto.
    + unfold l2. destruct nd; [left; auto|right; split; [discriminate|reflexivity]].
Qed.

(** ** The fetch *)

Lemma fetch_upload : forall c st fuel pr s0 items t body d, codec_ok c ->
  have_request items t body -> cap_word t (bs "multi_ack_detailed") -> cap_word t (bs "side-band") \/ cap_word t (bs "side-band-64k") -> V d ->
  holds (fun r _ => exists caps data acks, r = (mkProto pr path s0 caps [], data, acks) /\ (In SideBand caps \/ In SideBand64k caps) /\
    acks_during e V (cap_word t (bs "no-done")) items acks /\ exists D, V D /\ packs c st (fun o => fst o <> Commit /\ reach (asked_for e D path items) o) data)
    (upload_p e c fuel (mkProto pr path s0 [] []) body) d.
Proof.
  intros c st fuel pr s0 items t body d Hc Rq Mu Sb Vd.
  destruct (have_parse _ _ _ Rq) as (want & have & caps & Up & Hw & Nw & Iw & Hhv & Nh & Ih & Nn & Cc).
  assert (Er : forall D o, RW e D path want o <-> fst o <> Commit /\ reach (asked_for e D path items) o).
  { intros D o. unfold RW. rewrite (reach_ext (asked_for e D path items) (SW e D path want)); [reflexivity|].
    intros x. rewrite <- wanted_eq. unfold asked_for, wanted_objects. split; intros [A B]; (split; [exact A|]); intros Hcm; destruct (B Hcm) as (y & h & K).
    - destruct K as (tl & K1 & K2). exists y, h. split; [apply Hw; eauto|exact K2].
    - destruct K as (K1 & K2). apply Hw in K1 as (tl & K1). exists y, h, tl. split; [exact K1|exact K2]. }
  assert (Mc : has_cap MultiAckDetailed caps = true) by (apply has_cap_spec, Cc; exact Mu).
  assert (Cw : In SideBand caps \/ In SideBand64k caps) by (destruct Sb as [Sb|Sb]; [left|right]; apply Cc; exact Sb).
  unfold upload_p. cbn [pp_caps pp_protocol pp_path pp_service pp_cmds].
  destruct (upload_loop fuel true [] [] [] body) as [r|z| |] eqn:Ul; try (intros a E; discriminate).
  assert (Eq : r = (want, have, caps, [])).
  { apply (upload_more _ (Datatypes.S (length items))) in Ul. rewrite (Up (Datatypes.S (length items) + fuel)%nat ltac:(lia)) in Ul. injection Ul as ->. reflexivity. }
  rewrite Eq. unfold pbind at 1. cbn [then_any]. destruct have as [|h0 hr] eqn:Eh; [congruence|]. rewrite <- Eh in *. clear Eh h0 hr. rewrite Mc.
  apply (hold_bind e G V Gl _ _ (fun x _ => exists hs ws hl wl, Permutation hs have /\ Permutation ws want /\
    Forall2 (fun id l => exists d, V d /\ lines_about (known_commit e d) False id l) hs hl /\
    Forall2 (fun id l => exists d, V d /\ lines_about (known_commit e d) (has_cap NoDone caps = true) id l) ws wl /\
    pkt_lines (concat hl ++ concat wl) (snd x) /\ exists D, V D /\ packs c st (RW e D path want) (fst x))); [|exact Vd|].
  + apply (hold_bind e G V Gl _ _ (fun l _ => Permutation l have)); [apply hold_shuffle; [exact He|exact Gr|auto]|exact Vd|].
    intros hs d1 V1 L1 Ph.
    eapply hold_bind; [exact Gl|apply (haves_holds hs [] [] d1 V1 (perm_forall _ _ _ _ Ph Ih) pl_nil)|exact V1|].
    intros b1 d2 V2 L2 (hl & F2 & P2). cbn [app] in P2.
    eapply hold_bind; [exact Gl|apply hold_unwrap; [exact Gl|exact V2|apply (incremental_holds want c st fuel d2 Hc V2)]|exact V2|].
    intros data d3 V3 L3 Pk.
    apply (hold_bind e G V Gl _ _ (fun l _ => Permutation l want)); [apply hold_shuffle; [exact He|exact Gr|auto]|exact V3|].
    intros ws d4 V4 L4 Pw.
    eapply hold_bind; [exact Gl|apply (wants_holds (has_cap NoDone caps) ws b1 (concat hl) d4 V4 (perm_forall _ _ _ _ Pw Iw) P2)|exact V4|].
    intros b2 d5 V5 L5 (wl & F5 & P5). apply hold_ret. exists hs, ws, hl, wl. cbn [fst snd]. auto 8.
  + intros [data buf] d1 V1 L1 (hs & ws & hl & wl & Ph & Pw & F2 & F5 & P5 & Pk). cbn [fst snd] in *. apply hold_ret.
    assert (Pk' : exists D, V D /\ packs c st (fun o => fst o <> Commit /\ reach (asked_for e D path items) o) data).
    { destruct Pk as (D & VD & objs & Gp & Nd & Io). exists D. split; [exact VD|]. exists objs. split; [exact Gp|]. split; [exact Nd|]. intros o. rewrite Io. apply Er. }
    exists caps, data, (add_pkt_line buf (bs "ACK " ++ hard_coded_id ++ [32; 10])). split; [reflexivity|]. split; [exact Cw|]. split; [|exact Pk'].
    exists hs, ws, hl, wl. split; [exact (Permutation_NoDup (Permutation_sym Ph) Nh)|].
    split; [intros id; rewrite <- Hhv; split; [apply Permutation_in; exact Ph|apply Permutation_in, Permutation_sym; exact Ph]|]. split; [exact F2|].
    split; [exact (Permutation_NoDup (Permutation_sym Pw) Nw)|].
    split; [intros id; rewrite <- Hw; split; [apply Permutation_in; exact Pw|apply Permutation_in, Permutation_sym; exact Pw]|]. split.
    * clear - F5 Cc. assert (I : has_cap NoDone caps = true <-> cap_word t (bs "no-done")) by (rewrite has_cap_spec; apply (Cc NoDone)).
      induction F5 as [|h x hs xs (d & Vd & a & b & E & A & B) _ IH]; constructor; [|exact IH]. exists d. split; [exact Vd|]. exists a, b. split; [exact E|]. split; [exact A|]. rewrite <- I. exact B.
    * rewrite app_assoc. apply add_pkt_lines; [exact P5|]. vm_compute. discriminate.
Qed.
Lemma fetch_holds : forall b c st fuel cut now m p s q items t body d, codec_ok c -> (forall x, pieces 65515 x (cut x)) ->
  have_request items t body -> cap_word t (bs "multi_ack_detailed") -> cap_word t (bs "side-band") \/ cap_word t (bs "side-band-64k") ->
  gateway m p s q = Ok (AUploadPack path) -> V d ->
  holds (fun reply _ => exists D, V D /\ fetch_reply_during e c st V (cap_word t (bs "no-done")) items (fun o => fst o <> Commit /\ reach (asked_for e D path items) o) reply)
    (serve_p e b c fuel cut (QHttp now m p s q body)) d.
Proof.
  intros b c st fuel cut now m p s q items t body d Hc Hcut Rq Mu Sb Gw Vd.
  unfold serve_p. rewrite Gw. unfold pbind at 1. cbn [then_any].
  unfold http_upload_p. cbn [proto_new]. unfold pbind at 1. cbn [then_any].
  eapply hold_bind; [exact Gl|exact (fetch_upload c st fuel Http None items t body d Hc Rq Mu Sb Vd)|exact Vd|].
  intros r d1 V1 L1 (caps & data & acks & -> & Cw & Ak & D & VD & objs & Gp & Nd & Io). apply hold_ret. exists D. split; [exact VD|].
  exists acks, (concat (send_pack caps (cut data))), data, objs. split; [reflexivity|].
  split; [exact Ak|]. split; [|split; [exact Gp|]; split; [exact Nd|exact Io]]. apply C39_side_band_delivers; [exact Cw|apply Hcut].
Qed.
End During.

(** A fetch with haves that begins after [s1] and is answered by the end of [s2]: the pack has
    exactly the trees and blobs of the wanted commits that the repository had at one moment
    between, when it was complete; each id is acknowledged as it was known at some moment
    between. *)
Theorem C151_fetch_during : forall e b c st fuel cut rs i now m p s q items t body path s1 s2 w reply,
  env_ok e -> codec_ok c -> (forall x, pieces 65515 x (cut x)) -> refs_table (w_db w) ->
  (forall x, In x (d_commits (w_db w)) -> whole (w_db w) x \/ derived (w_db w) x) ->
  nth_error rs i = Some (QHttp now m p s q body) -> gateway m p s q = Ok (AUploadPack path) ->
  have_request items t body -> cap_word t (bs "multi_ack_detailed") -> cap_word t (bs "side-band") \/ cap_word t (bs "side-band-64k") -> ~ In i s1 ->
  let ts := started e b c fuel cut rs in
  let F := w_db (snd (interleave e (s1 ++ s2) ts w)) in let S := repo_objects e F path in
  honest_db e F path -> collision_free S -> well_typed S -> no_submodules S -> top_level e F path ->
  replied (fst (interleave e (s1 ++ s2) ts w)) i reply ->
  let V := moment e s2 (fst (interleave e s1 ts w)) (snd (interleave e s1 ts w)) in
  exists d, V d /\ complete (repo_objects e d path) /\
    fetch_reply_during e c st V (cap_word t (bs "no-done")) items (fun o => fst o <> Commit /\ reach (asked_for e d path items) o) reply.
Proof.
  intros e b c st fuel cut rs i now m p s q items t body path s1 s2 w reply He Hc Hcut T Sr Ni Gw Rq Mu Sb Ns ts F S Hh Hcf Hty Hsub Htop An V.
  assert (VT : forall d, V d -> refs_table d /\ nothing_lost d F /\ forall x, In x (d_commits d) -> sourced d x).
  { intros d (a1 & a2 & -> & ->). rewrite <- interleave_app. split; [apply prefix_table; assumption|]. split.
    - unfold F. rewrite app_assoc. apply prefix_lost; assumption.
    - apply prefix_sourced; assumption. }
  destruct (one_request e b c fuel cut rs i (QHttp now m p s q body) s1 s2 w reply
              (fun a => exists D, V D /\ fetch_reply_during e c st V (cap_word t (bs "no-done")) items (fun o => fst o <> Commit /\ reach (asked_for e D path items) o) a) He T Ni Ns) as (D & VD & K); [|exact An|].
  - eapply (fetch_holds e He F path Hh Hcf Hty Hsub Htop (by_request e rs i) V); try eassumption.
    + intros d Vd. exists (QHttp now m p s q body), path. split; [exact Ni|]. split; [apply ab_fetch; exact Gw|].
      apply (step_same e path V); [|exact Vd]. intros x Vx. apply VT. exact Vx.
    + apply by_request_lost.
    + intros d Vd. apply VT. exact Vd.
    + intros d Vd. apply VT. exact Vd.
    + exists [], s2. auto.
  - exists D. split; [exact VD|]. split; [|exact K]. destruct (VT D VD) as (_ & LF & SD).
    apply (snapshot_complete e F path Hh Hcf Hty Hsub Htop); assumption.
Qed.

(** ** A case *)

(** As in C88, with a fetch in place of the clone; the commit that the client has is just then
    pushed to another repository. *)
Definition during_items : list req_item := have_items (to_plain_str (oid ex_top)) (to_plain_str (oid ex_top3)) have_caps.
Definition during_body : bytes := have_body (to_plain_str (oid ex_top)) (to_plain_str (oid ex_top3)) have_caps.
Definition fetch_demo : request := QHttp 9 MPost (bs "/demo.git/git-upload-pack") None no_query during_body.
Definition during : list request := [push_demo; push_other; fetch_demo].
Definition during_run := interleave plain_env (first_part ++ second_part) (started plain_env Release stored 50 ex_cut during) (world_of db_empty).
Lemma during_final : w_db (snd during_run) = final_db.
Proof. vm_compute. reflexivity. Qed.
Lemma during_finished : finished (fst during_run) 2 = true.
Proof. vm_compute. reflexivity. Qed.
Lemma during_request : have_request during_items have_caps during_body.
Proof.
  apply have_body_ok; [exact (plain_id40 _ ex_top_id)|exact (plain_id40 _ (oid_ok _ _ commit_base))|apply utf8_spec; reflexivity|vm_compute; discriminate].
Qed.
Example C151_ex : env_ok plain_env /\ codec_ok stored /\ (forall x, pieces 65515 x (ex_cut x)) /\ refs_table (w_db (world_of db_empty)) /\
  (forall x, In x (d_commits (w_db (world_of db_empty))) -> whole (w_db (world_of db_empty)) x \/ derived (w_db (world_of db_empty)) x) /\
  nth_error during 2 = Some fetch_demo /\ have_request during_items have_caps during_body /\ cap_word have_caps (bs "multi_ack_detailed") /\ cap_word have_caps (bs "side-band-64k") /\
  ~ In 2%nat first_part /\
  let F := w_db (snd during_run) in let S := repo_objects plain_env F (bs "/demo") in
  honest_db plain_env F (bs "/demo") /\ collision_free S /\ well_typed S /\ no_submodules S /\ top_level plain_env F (bs "/demo") /\
  exists reply, replied (fst during_run) 2 reply.
Proof.
  destruct C88_ex as (A1 & A2 & A3 & A4 & A5 & _ & _ & A6 & A7 & A8 & A9 & A10 & A11 & _).
  split; [exact A1|]. split; [exact A2|]. split; [exact A3|]. split; [exact A4|]. split; [exact A5|]. split; [reflexivity|]. split; [exact during_request|].
  split; [apply have_caps_words|]. split; [apply have_caps_words|]. split; [exact A6|]. cbv zeta. rewrite during_final.
  split; [exact A7|]. split; [exact A8|]. split; [exact A9|]. split; [exact A10|]. split; [exact A11|]. apply finished_checked. exact during_finished.
Qed.

(** Proofs about a repository after a push, and about packs for fetches. *)

From Coq Require Import Permutation Sorted.
From Verif Require Import Base BaseLemmas Digest ModelObject ModelBase ModelPack ModelDecode ModelPkt ModelStorage.
From Verif Require Import SpecObject SpecIdx SpecBase SpecPack SpecDecode SpecStorage.
From Verif Require Import ProofUtf8 ProofObject ProofPack ProofIdx ProofBase ProofEncode ProofDecode ProofNodes ProofStorage
  ProofPush ProofClone.
Open Scope N_scope.

Lemma reach_mono : forall (A B : object -> Prop), (forall o, A o -> B o) -> forall o, reach A o -> reach B o.
Proof.
  intros A B H o R. induction R as [d Hd|o t h d Hr IH Rf Nc Hd Hi]; [apply rc_commit; auto|].
  eapply rc_refers; [exact IH|exact Rf|exact Nc|auto|exact Hi].
Qed.
Lemma reach_ext : forall (A B : object -> Prop), (forall o, A o <-> B o) -> forall o, reach A o <-> reach B o.
Proof. intros A B H o. split; apply reach_mono; intros x; apply H. Qed.

(** The union of two complete sets. *)
Lemma reach_union : forall A B, complete A -> complete B -> collision_free (fun o => A o \/ B o) ->
  forall o, reach (fun o => A o \/ B o) o <-> reach A o \/ reach B o.
Proof.
  intros A B CA CB F o. split.
  - intros R. induction R as [d [Hd|Hd]|o t h d Hr [IH|IH] Rf Nc Hd Hi].
    + left. apply rc_commit. assumption.
    + right. apply rc_commit. assumption.
    + left. destruct (CA _ _ _ IH Rf) as (_ & d' & Hd' & Hi').
      assert (E : (t, d) = (t, d')) by (eapply F; [exact Hd|left; exact Hd'|exact Hi|exact Hi']). injection E as ->.
      eapply rc_refers; eassumption.
    + right. destruct (CB _ _ _ IH Rf) as (_ & d' & Hd' & Hi').
      assert (E : (t, d) = (t, d')) by (eapply F; [exact Hd|right; exact Hd'|exact Hi|exact Hi']). injection E as ->.
      eapply rc_refers; eassumption.
  - intros [R|R]; revert R; apply reach_mono; auto.
Qed.
Lemma complete_union : forall A B, complete A -> complete B -> collision_free (fun o => A o \/ B o) ->
  complete (fun o => A o \/ B o).
Proof.
  intros A B CA CB F o t h Hr Rf. apply (reach_union A B CA CB F) in Hr as [Hr|Hr].
  - destruct (CA _ _ _ Hr Rf) as (N & d & K1 & K2). eauto.
  - destruct (CB _ _ _ Hr Rf) as (N & d & K1 & K2). eauto.
Qed.
Lemma reach_idem : forall A o, reach A o <-> reach (reach A) o.
Proof.
  intros A o. split.
  - intros R. induction R as [d Hd|o t h d Hr IH Rf Nc Hd Hi].
    + apply rc_commit. apply rc_commit. assumption.
    + eapply rc_refers; [exact IH|exact Rf|exact Nc| |exact Hi]. eapply rc_refers; eassumption.
  - intros R. induction R as [d Hd|o t h d Hr IH Rf Nc Hd Hi]; assumption.
Qed.
Lemma complete_reach : forall A, complete A -> complete (reach A).
Proof.
  intros A C o t h Hr Rf. apply reach_idem in Hr. destruct (C _ _ _ Hr Rf) as (N & d & K1 & K2).
  split; [assumption|]. exists d. split; [|assumption]. eapply rc_refers; eassumption.
Qed.
Lemma collision_sub : forall A B : object -> Prop, (forall o, A o -> B o) -> collision_free B -> collision_free A.
Proof. intros A B H F a b h Ha Hb. apply F; auto. Qed.
Lemma acyclic_sub : forall A B : object -> Prop, (forall o, A o -> B o) -> acyclic B -> acyclic A.
Proof. intros A B H (r & F). exists r. intros d h h' Hd. apply F. auto. Qed.
Lemma complete_ext : forall A B : object -> Prop, (forall o, A o <-> B o) -> complete A -> complete B.
Proof.
  intros A B H C o t h Hr Rf. apply (reach_ext A B H) in Hr. destruct (C _ _ _ Hr Rf) as (N & d & K1 & K2).
  split; [assumption|]. exists d. split; [apply H|]; assumption.
Qed.

(** What is available after a push. *)
Lemma repo_after : forall e d path objs rows crows, env_ok e -> rows_for path objs rows crows ->
  forall o, repo_objects e (with_rows d rows crows) path o <-> repo_objects e d path o \/ reach (fun o => In o objs) o.
Proof.
  intros e d path objs rows crows He [R1 R2 R3 R4] o. unfold repo_objects. cbn [with_rows d_nodes d_commits]. split.
  - intros [(r & Hr & Hn)|(r & Hr & T & Hc)].
    + apply in_app_or in Hr as [Hr|Hr]; [left; left; eauto|]. right.
      destruct (R1 r Hr) as (o' & Hn' & K). rewrite (node_for_fun _ _ _ Hn Hn'). assumption.
    + apply in_app_or in Hr as [Hr|Hr]; [left; right; eauto|]. right.
      destruct (R3 r Hr) as (_ & o' & Hc' & K). rewrite (commit_for_fun _ _ _ Hc Hc').
      destruct Hc'. apply rc_commit. assumption.
  - intros [[(r & Hr & Hn)|(r & Hr & T & Hc)]|R].
    + left. exists r. split; [apply in_or_app; auto|assumption].
    + right. exists r. split; [apply in_or_app; auto|auto].
    + destruct (otype_eqb (fst o) Commit) eqn:Ec.
      * destruct o as [t dd]. cbn [fst] in Ec. assert (t = Commit) by (destruct t; try discriminate; reflexivity). subst t.
        destruct (R4 dd (reach_in _ _ R)) as (r & Hr & Ep & Hc). right. exists r. split; [apply in_or_app; auto|].
        split; [rewrite Ep; apply He|assumption].
      * left. destruct (R2 o R) as (r & Hr & Hn); [intros E; rewrite E in Ec; discriminate|].
        exists r. split; [apply in_or_app; auto|assumption].
Qed.
Lemma sound_after : forall d path objs rows crows, sound_db d -> Forall sound_object objs -> rows_for path objs rows crows ->
  sound_db (with_rows d rows crows).
Proof.
  intros d path objs rows crows [S1 S2] So [R1 R2 R3 R4]. rewrite Forall_forall in So. split; cbn [with_rows d_nodes d_commits]; intros r Hr.
  - apply in_app_or in Hr as [Hr|Hr]; [auto|]. destruct (R1 r Hr) as (o & Hn & K). exists o. split; [assumption|].
    apply So. eapply reach_in. exact K.
  - apply in_app_or in Hr as [Hr|Hr]; [auto|]. destruct (R3 r Hr) as (_ & o & Hn & K). eauto.
Qed.

(** Push, then clone. *)
Section PushClone.
Context (e : env) (He : env_ok e) (k : cache) (objs : list object) (path : bytes) (w : world).
Context (Q : no_failure w) (Hk : sorted_cache k) (Hh : SpecPack.holds k objs) (Hso : Forall sound_object objs).
Let old := repo_objects e (w_db w) path.
Let new := fun o => In o objs.
Context (Hdb : sound_db (w_db w)) (Co : complete old) (Cn : complete new)
  (Cf : collision_free (fun o => old o \/ new o)) (Ac : acyclic (fun o => old o \/ new o))
  (Ft : forall o, reach new o -> fits_columns path o).

Lemma push_state : exists fuel0 w1 l rows crows,
  (forall fuel, (fuel0 <= fuel)%nat -> save_packfile e fuel k path w = (w1, Ok tt)) /\ moved w w1 l /\
  w_db w1 = with_rows (w_db w) rows crows /\ rows_for path objs rows crows /\
  (forall d, In d l -> (exists p q, rows = p ++ q /\ d = with_nodes (w_db w) p) \/
                      (exists p q, crows = p ++ q /\ d = with_rows (w_db w) rows p)) /\
  sound_db (w_db w1) /\ (forall o, repo_objects e (w_db w1) path o <-> old o \/ reach new o) /\
  complete (repo_objects e (w_db w1) path) /\ collision_free (repo_objects e (w_db w1) path) /\
  acyclic (repo_objects e (w_db w1) path) /\
  (forall o, reach (repo_objects e (w_db w1) path) o <-> reach old o \/ reach new o).
Proof.
  destruct (push_run e k objs path He Hk Hh Hso Cn) with (w := w) as (fuel0 & w1 & l & rows & crows & E & M & Ed & Rf & L);
    [apply (acyclic_sub _ _ (fun o H => or_intror H) Ac)|exact Ft|exact Q|].
  exists fuel0, w1, l, rows, crows. split; [exact E|]. split; [exact M|]. split; [exact Ed|]. split; [exact Rf|]. split; [exact L|].
  pose proof (repo_after e (w_db w) path objs rows crows He Rf) as A. rewrite <- Ed in A. fold old in A. fold new in A.
  assert (Sub : forall o, old o \/ reach new o -> old o \/ new o) by (intros o [H|H]; [auto|right; exact (reach_S _ _ H)]).
  assert (Cf' : collision_free (fun o => old o \/ reach new o)) by exact (collision_sub _ _ Sub Cf).
  split; [rewrite Ed; eapply sound_after; eassumption|]. split; [exact A|]. split; [|split; [|split]].
  - apply (complete_ext (fun o => old o \/ reach new o)); [intros o; symmetry; apply A|].
    apply complete_union; [exact Co|apply complete_reach; exact Cn|exact Cf'].
  - apply (collision_sub _ (fun o => old o \/ reach new o)); [intros o; apply A|exact Cf'].
  - apply (acyclic_sub _ (fun o => old o \/ new o)); [intros o Ho; apply Sub, A, Ho|exact Ac].
  - intros o. rewrite (reach_ext _ _ A o). rewrite (reach_union old (reach new) Co (complete_reach _ Cn) Cf').
    rewrite <- reach_idem. reflexivity.
Qed.

Lemma push_then_clone : forall c st, codec_ok c -> few (fun o => reach old o \/ reach new o) ->
  (exists d, old (Commit, d) \/ new (Commit, d)) ->
  exists fuel0 w1, forall fuel, (fuel0 <= fuel)%nat ->
    save_packfile e fuel k path w = (w1, Ok tt) /\
    exists w2 file pobjs, get_full_pack_data e c fuel path w1 = (w2, Ok file) /\ w_db w2 = w_db w1 /\
    git_pack c st file pobjs /\ NoDup (map snd pobjs) /\
    forall o, In o (map snd pobjs) <-> reach old o \/ reach new o.
Proof.
  intros c st Hc Fw (d0 & Hd0).
  destruct push_state as (f1 & w1 & l & rows & crows & E & M & _ & _ & _ & Sd & A & C1 & C2 & (rank & C3) & Rr).
  destruct (clone_run e He (w_db w1) path (sound_honest _ _ _ Sd) C2 (complete_typed _ C2 C1) rank
    (fun d h h' H => C3 d h h' (reach_S _ _ H)) (complete_rooted _ C1)) with (c := c) (st := st) (w := w1)
    as (f2 & F2); [|..|exact Hc|exact (mv_quiet _ _ _ M)|reflexivity|].
  { exists d0. apply A. destruct Hd0 as [H|H]; [auto|right; apply rc_commit; exact H]. }
  { destruct Fw as (lo & Sz & Hlo). exists lo. split; [exact Sz|]. intros o Ho. apply Hlo, Rr, Ho. }
  exists (Nat.max f1 f2), w1. intros fuel Hf. split; [apply E; lia|].
  destruct (F2 fuel ltac:(lia)) as (w2 & file & pobjs & E2 & M2 & G & ND & Io).
  exists w2, file, pobjs. split; [exact E2|]. split; [exact (mv_db _ _ _ M2)|]. split; [exact G|]. split; [exact ND|].
  intros o. rewrite Io. apply Rr.
Qed.
End PushClone.

(** ** Incremental fetches *)

Lemma select_one_run : forall A e (q : db -> list A) w, env_ok e -> no_failure w ->
  exists w' o, select_one e q w = (w', Ok o) /\ moved w w' [] /\
    match o with Some x => In x (q (w_db w)) | None => q (w_db w) = [] end.
Proof.
  intros A e q w He Q. destruct (select_run _ e q w Q) as (w1 & E1 & M1).
  exists w1, (hd_error (ord e (w_tick w) _ (q (w_db w)))). unfold select_one. rewrite (mbind_ok _ _ _ _ _ _ _ E1).
  split; [reflexivity|]. split; [exact M1|]. pose proof (proj1 He (w_tick w) _ (q (w_db w))) as P.
  destruct (ord e (w_tick w) A (q (w_db w))) as [|x l]; cbn [hd_error].
  - apply Permutation_nil. exact P.
  - apply (Permutation_in _ P). left. reflexivity.
Qed.

Section Incremental.
Context (e : env) (He : env_ok e) (D : db) (path : bytes).
Let S := repo_objects e D path.
Context (Hdb : honest_db e D path) (Hcf : collision_free S) (Hty : well_typed S).
Context (rank : hash -> nat)
  (Hrank : forall d h h', reach S (Tree, d) -> obj_id (Tree, d) h -> refers (Tree, d) Tree h' -> (rank h' < rank h)%nat).
Context (want : list bytes).
Definition wanted (d : bytes) : Prop := exists h, obj_id (Commit, d) h /\ In (to_plain_str h) want.
(** The trees and blobs of the wanted commits. *)
Definition SW (o : object) : Prop := S o /\ (fst o = Commit -> wanted (snd o)).
Definition RW (o : object) : Prop := fst o <> Commit /\ reach SW o.
Lemma RW_reach : forall o, RW o -> reach S o.
Proof. intros o [_ H]. revert H. apply reach_mono. intros x [H _]. exact H. Qed.
Lemma RW_closed : forall o t h d, RW o -> refers o t h -> t <> Commit -> S (t, d) -> obj_id (t, d) h -> RW (t, d).
Proof.
  intros o t h d [_ H] Rf N Hs Hi. split; [exact N|]. eapply rc_refers; [exact H|exact Rf|exact N| |exact Hi].
  split; [exact Hs|]. intros E. contradiction.
Qed.
Let walkR := walk e He D path Hdb Hty RW RW_reach RW_closed rank Hrank.

Lemma node_root_run : forall tid w, id_ok tid -> no_failure w -> w_db w = D ->
  exists w' o, get_node_by_id e (to_plain_str tid) w = (w', Ok o) /\ moved w w' [] /\
    match o with
    | Some r => In r (d_nodes D) /\ exists x, node_for r x /\ obj_id x tid
    | None => forall x, S x -> fst x <> Commit -> ~ obj_id x tid
    end.
Proof.
  intros tid w Ht Q Ew. unfold get_node_by_id.
  destruct (select_one_run _ e (fun d => filter (fun n => teq e (n_git_id n) (to_plain_str tid)) (d_nodes d)) w He Q) as (w1 & o & E & M & K).
  exists w1, o. split; [exact E|]. split; [exact M|]. rewrite Ew in K. destruct o as [r|].
  - apply filter_In in K as [K T]. split; [exact K|]. destruct (proj1 Hdb r K) as (x & Hn).
    destruct (node_for_id _ _ Hn) as (h & Hi & Eh & _). exists x. split; [exact Hn|].
    pose proof (proj2 (proj2 He)) as Ex. rewrite Eh in T.
    assert (E' : h = tid).
    { apply to_plain_str_inj; [eapply obj_id_ok; eassumption|assumption|].
      apply (Ex _ _ h tid); [apply plain_lower; eapply obj_id_ok; eassumption|apply plain_lower; assumption| |apply Ht|exact T].
      apply (obj_id_ok _ _ Hi). }
    subst h. exact Hi.
  - intros [t d] Hs N Hi. destruct (S_node e D path t d Hs N) as (r & Hr & Hn).
    assert (Hin : In r (filter (fun n => teq e (n_git_id n) (to_plain_str tid)) (d_nodes D))).
    { apply filter_In. split; [exact Hr|]. destruct (node_for_id _ _ Hn) as (h & Hi' & -> & _).
      rewrite (obj_id_fun _ _ _ Hi' Hi). apply He. }
    rewrite K in Hin. destruct Hin.
Qed.

Lemma incremental_loop_run : rooted S -> forall fuel metas,
  (forall m, In m metas -> exists d h tid, m = as_meta (Commit, d) h /\ obj_id (Commit, d) h /\ S (Commit, d) /\
     commit_root d tid /\ (rank tid <= fuel)%nat) ->
  forall hm w, no_failure w -> w_db w = D -> inv e D path RW hm ->
  exists w' hm', incremental_loop fuel e want metas hm w = (w', Ok hm') /\ moved w w' [] /\ inv e D path RW hm' /\ grows hm hm' /\
    forall d h tid, In (as_meta (Commit, d) h) metas -> In (to_plain_str h) want -> commit_root d tid ->
      exists m, bt_get (to_plain_str tid) hm' = Some m.
Proof.
  intros Ro fuel. induction metas as [|m metas IH]; intros Hm hm w Q Ew I.
  - exists w, hm. split; [reflexivity|]. split; [apply moved_refl; assumption|]. split; [assumption|].
    split; [apply grows_refl|intros ? ? ? []].
  - destruct (Hm m (or_introl eq_refl)) as (d & h & tid & -> & Hi & Hs & Hr & Hf).
    assert (Hm' : forall x, In x metas -> exists d h tid, x = as_meta (Commit, d) h /\ obj_id (Commit, d) h /\ S (Commit, d) /\
      commit_root d tid /\ (rank tid <= fuel)%nat) by (intros x Hx; apply Hm; right; exact Hx).
    cbn [incremental_loop]. cbn [as_meta m_id]. change (mkMeta (fst (Commit, d)) h _ _ _) with (as_meta (Commit, d) h).
    destruct (existsb (beq (to_plain_str h)) want) eqn:W.
    + apply existsb_beq in W. destruct (commit_root_new (as_meta (Commit, d) h) tid Hr) as (c & Ec & Ecm & Ect).
      unfold lift at 1. rewrite Ec. unfold mbind at 1. rewrite Ect.
      destruct (node_root_run tid w (commit_root_ok _ _ Hr) Q Ew) as (w1 & o & E1 & M1 & K). rewrite (mbind_ok _ _ _ _ _ _ _ E1).
      destruct (Ro _ _ Hs Hr) as (dt0 & Hs0 & Hi0).
      destruct o as [r|]; [|destruct (K (Tree, dt0) Hs0 ltac:(discriminate) Hi0)].
      destruct K as (Hn & [t dt] & No & Io).
      assert (Rc : reach SW (Commit, d)) by (apply rc_commit; split; [exact Hs|]; intros _; exists h; auto).
      pose proof (rf_root _ _ Hr) as Rf.
      assert (Rc' : reach S (Commit, d)) by (apply rc_commit; exact Hs).
      pose proof (node_in_S e D path _ _ Hn No) as Hst.
      pose proof (Hty _ _ _ _ Rc' Rf Hst Io) as Ty. cbn [fst] in Ty. subst t.
      assert (Rt : RW (Tree, dt)).
      { split; [discriminate|]. eapply rc_refers; [exact Rc|exact Rf|discriminate| |exact Io]. split; [exact Hst|discriminate]. }
      destruct (walkR fuel r dt tid hm w1 (mv_quiet _ _ _ M1)) as (w2 & hm1 & E2 & M2 & I2 & G2 & K2);
        [rewrite (mv_db _ _ _ M1); exact Ew|exact No|exact Io|exact Rt|exact Hf|exact I|].
      rewrite (mbind_ok _ _ _ _ _ _ _ E2).
      destruct (IH Hm' hm1 w2 (mv_quiet _ _ _ M2)) as (w3 & hm2 & E3 & M3 & I3 & G3 & K3);
        [rewrite (mv_db _ _ _ M2); cbn [last]; rewrite (mv_db _ _ _ M1); exact Ew|exact I2|].
      exists w3, hm2. split; [exact E3|].
      split; [exact (moved_trans _ _ _ _ _ (moved_trans _ _ _ _ _ M1 M2) M3)|]. split; [exact I3|].
      split; [eapply grows_trans; eassumption|].
      intros d' h' tid' [E|Hin] Wd Hr'; [|eauto].
      assert (Ed : d = d') by (unfold as_meta in E; cbn [fst snd] in E; congruence). subst d'.
      rewrite (commit_root_fun _ _ _ Hr' Hr). exact (G3 _ _ K2).
    + destruct (IH Hm' hm w Q Ew I) as (w3 & hm2 & E3 & M3 & I3 & G3 & K3).
      exists w3, hm2. split; [exact E3|]. split; [exact M3|]. split; [exact I3|]. split; [exact G3|].
      intros d' h' tid' [E|Hin] Wd Hr'; [|eauto].
      assert (Eh : h = h') by (unfold as_meta in E; cbn [fst snd] in E; congruence). subst h'.
      apply existsb_beq in Wd. congruence.
Qed.

(** The pack of an incremental fetch: exactly the trees and blobs of the wanted
    commits of the repository; no commits. Without such a commit the request aborts. *)
Lemma incremental_run : rooted S -> few RW ->
  forall c st have, codec_ok c -> forall w, no_failure w -> w_db w = D -> exists fuel0, forall fuel, (fuel0 <= fuel)%nat ->
  ((exists d, S (Commit, d) /\ wanted d) -> exists w' file objs,
     get_incremental_pack_data e c fuel path want have w = (w', Ok file) /\ moved w w' [] /\ git_pack c st file objs /\
     NoDup (map snd objs) /\ forall o, In o (map snd objs) <-> RW o) /\
  ((forall d, S (Commit, d) -> ~ wanted d) -> exists w',
     get_incremental_pack_data e c fuel path want have w = (w', Panic) /\ w_db w' = D).
Proof.
  intros Ro (lo & Sz & Hlo) c st have Hc w Q Ew.
  destruct (commits_run e He D path Hdb w Q Ew) as (w1 & metas & cs & E1 & E2 & M1 & Ecm & C1 & C2).
  exists (list_max (map (fun x => rank (cm_tree_id x)) cs)). intros fuel Hf.
  assert (Hm : forall m, In m metas -> exists d h tid, m = as_meta (Commit, d) h /\ obj_id (Commit, d) h /\ S (Commit, d) /\
     commit_root d tid /\ (rank tid <= fuel)%nat).
  { intros m Hm. rewrite <- Ecm in Hm. apply in_map_iff in Hm as (x & <- & Hx).
    destruct (C1 x Hx) as (d & h & Hs & Hi & Em & Hr). exists d, h, (cm_tree_id x). repeat (split; [assumption|]).
    apply list_max_le in Hf. rewrite Forall_forall in Hf. apply Hf. apply in_map_iff. eauto. }
  assert (I0 : inv e D path RW []) by (split; [constructor|discriminate|discriminate]).
  destruct (incremental_loop_run Ro fuel metas Hm [] w1 (mv_quiet _ _ _ M1)) as (w2 & hm & E3 & M2 & I & _ & K);
    [rewrite (mv_db _ _ _ M1); exact Ew|exact I0|].
  assert (Er : get_incremental_pack_data e c fuel path want have w = encode_map e c hm w2).
  { unfold get_incremental_pack_data. rewrite (mbind_ok _ _ _ _ _ _ _ E1), (mbind_ok _ _ _ _ _ _ _ E3). reflexivity. }
  assert (Root : forall d tid, S (Commit, d) -> wanted d -> commit_root d tid -> exists m, bt_get (to_plain_str tid) hm = Some m).
  { intros d tid Hs (h & Hi & Hw) Hr. destruct (C2 d h Hs Hi) as (x & Hx & Em). apply (K d h tid); [|exact Hw|exact Hr].
    rewrite <- Ecm, <- Em. apply in_map. exact Hx. }
  split.
  - intros (d0 & Hd0 & Wd0).
    destruct (S_sound e D path Hdb _ (rc_commit S _ Hd0)) as (_ & _ & tid0 & Hr0). cbn [snd] in Hr0.
    destruct (Root _ _ Hd0 Wd0 Hr0) as (m0 & G0).
    destruct (encode_run e He D path Hdb RW RW_reach c hm w2 st Hc (mv_quiet _ _ _ M2) I) as (w3 & file & objs & E4 & M3 & G & ND & Io).
    { intros ->. discriminate. }
    { pose proof (inv_small e D path RW hm lo I Hlo). unfold nlen in *. lia. }
    exists w3, file, objs. rewrite Er. split; [exact E4|].
    split; [exact (moved_trans _ _ _ _ _ (moved_trans _ _ _ _ _ M1 M2) M3)|]. split; [exact G|]. split; [exact ND|].
    assert (All : forall o h, reach SW o -> fst o <> Commit -> obj_id o h -> bt_get (to_plain_str h) hm = Some (as_meta o h)).
    { intros o h Hr. revert h. induction Hr as [d Hd|o t h d Hr IH Rf Nc Hd Hi]; intros h' N Hi'; [contradiction N; reflexivity|].
      rewrite (obj_id_fun _ _ _ Hi' Hi). clear h' Hi'.
      assert (Gm : exists m, bt_get (to_plain_str h) hm = Some m).
      { inversion Rf as [dd tid Hcr|dd items i Gt Ii]; subst.
        - destruct (reach_S _ _ Hr) as [Hs Hw]. exact (Root _ _ Hs (Hw eq_refl) Hcr).
        - destruct (meta_new_obj Tree dd) as (h0 & Hi0 & _); [eexists; constructor|].
          exact (iv_closed _ _ _ _ _ I _ _ _ _ _ (IH _ ltac:(discriminate) Hi0) Gt Ii (proj1 Hd) Nc Hi). }
      destruct Gm as (m & Gm). destruct (inv_get e D path Hcf RW RW_reach _ _ _ _ I (proj1 Hd) Hi Gm) as [-> _]. exact Gm. }
    intros o. rewrite Io. split.
    + intros (h & G' & Hi). destruct (iv_objs _ _ _ _ _ I _ _ G') as (o' & h' & Hr & Hi' & Eh & Em).
      assert (Eo : o = o') by (destruct o, o'; unfold as_meta in Em; cbn [fst snd] in Em; congruence). subst o'. assumption.
    + intros [N Hr]. destruct o as [t d]. destruct (meta_new_obj t d) as (h & Hi & _).
      { destruct (S_sound e D path Hdb _ (RW_reach _ (conj N Hr))) as (_ & _ & K'). cbn [fst] in K'. destruct t; try contradiction; eexists; constructor. }
      exists h. split; [apply All; assumption|assumption].
  - intros No. assert (E0 : hm = []).
    { destruct hm as [|[s m] hm]; [reflexivity|]. exfalso.
      assert (G : bt_get s ((s, m) :: hm) = Some m) by (cbn [bt_get]; rewrite beq_refl; reflexivity).
      destruct (iv_objs _ _ _ _ _ I _ _ G) as (o & h & [N Hr] & _).
      assert (Hc' : exists d, SW (Commit, d)).
      { clear -Hr. induction Hr as [d Hd|]; [eauto|assumption]. }
      destruct Hc' as (d & Hs & Hw). exact (No d Hs (Hw eq_refl)). }
    subst hm. rewrite Er. unfold encode_map.
    destruct (shuffle_run _ e (@nil meta) w2 (mv_quiet _ _ _ M2)) as (w3 & E4 & M3). cbn [map].
    rewrite (mbind_ok _ _ _ _ _ _ _ E4). pose proof (proj1 He (w_tick w2) _ (@nil meta)) as P.
    apply Permutation_sym, Permutation_nil in P. rewrite P. exists w3. split; [reflexivity|].
    rewrite (mv_db _ _ _ M3). cbn [last]. rewrite (mv_db _ _ _ M2). cbn [last]. rewrite (mv_db _ _ _ M1). exact Ew.
Qed.
End Incremental.

(** ** A push that is not self-contained *)

Lemma save_packfile_any : forall e k objs path, env_ok e -> sorted_cache k -> SpecPack.holds k objs -> Forall sound_object objs ->
  forall w, exists w1 om, w_db w1 = w_db w /\ w_log w1 = w_log w /\ w_fails w1 = w_fails w /\ w_files w1 = w_files w /\
  vectors objs (om_blobs om) (om_trees om) (om_commits om) /\
  forall fuel, save_packfile e fuel k path w = save_objects e fuel om path w1.
Proof.
  intros e k objs path (Op & _) Hk Hh Hso w. destruct (update_seq_ok k objs Hk Hh Hso) as (om & U & V).
  exists (mkWorld (w_db w) (w_log w) (w_fails w) (Datatypes.S (Datatypes.S (Datatypes.S (Datatypes.S (w_tick w))))) (w_files w)).
  exists (mkOmap (om_map_hash om) (ord e (w_tick w) _ (om_blobs om)) (ord e (Datatypes.S (w_tick w)) _ (om_trees om))
    (ord e (Datatypes.S (Datatypes.S (w_tick w))) _ (om_tags om)) (ord e (Datatypes.S (Datatypes.S (Datatypes.S (w_tick w)))) _ (om_commits om)) (om_name_map om)).
  repeat (split; [reflexivity|]). split.
  - cbn [om_blobs om_trees om_commits]. eapply vectors_perm; [exact V|apply Permutation_sym, Op..].
  - intros fuel. unfold save_packfile, lift. rewrite U. reflexivity.
Qed.

Lemma build_contained : forall objs bl ts cs, vectors objs bl ts cs -> Forall sound_object objs -> collision_free (fun o => In o objs) ->
  forall fuel rows, build_commits fuel (tree_map ts) (blob_map bl) cs [] = Ok rows ->
  self_contained (fun o => In o objs).
Proof.
  intros objs bl ts cs V Hso Hcf fuel rows E.
  set (P := fun h => (exists b, bt_get h (blob_map bl) = Some b) \/
    exists t cl, bt_get h (tree_map ts) = Some t /\ cache_closed (tree_map ts) (blob_map bl) cl /\
      forall i, In i (t_items t) -> In (ti_id i) cl).
  assert (Cl : forall o, reach (fun o => In o objs) o -> forall t h, refers o t h -> P h).
  { intros o Hr. induction Hr as [d Hd|o t h d Hr IH Rf Nc Hd Hi]; intros t' h' Rf'.
    - destruct (meta_new_obj Commit d) as (h & Hi & _); [eexists; constructor|].
      destruct (ve_commits_all _ _ _ _ V _ _ Hd Hi) as (c & Hc & _ & Cr). inversion Rf' as [d' tid Hcr|]; subst.
      destruct (build_commits_sound _ _ _ _ _ _ E (fun _ K => match K with end) c Hc) as (tt' & Gt & cl & C1 & C2).
      right. rewrite (commit_root_fun _ _ _ Hcr Cr). eauto 8.
    - pose proof (IH _ _ Rf) as K. inversion Rf' as [|d' items i G Ii]; subst; [contradiction|].
      assert (Gd : bt_get h (tree_map ts) = Some (mkTree (as_meta (Tree, d) h) items []))
        by (apply (tm_get _ _ _ _ V); eauto 8).
      destruct K as [(b & Gb)|(t & cl & Gt & C1 & C2)].
      + destruct (maps_disjoint _ _ _ _ V Hcf _ _ _ Gd Gb).
      + rewrite Gd in Gt. injection Gt as <-. cbn [t_items] in C2. destruct (C1 _ (C2 _ Ii)) as [K|(t & Gt & K)]; [left; exact K|].
        right. eauto 8. }
  intros o t h Hr Rf. destruct (Cl _ Hr _ _ Rf) as [(b & Gb)|(t' & cl & Gt & _)].
  - apply (bm_get _ _ _ _ V) in Gb as (d & H1 & H2 & _). eauto.
  - apply (tm_get _ _ _ _ V) in Gt as (d & items & H1 & H2 & _). eauto.
Qed.

Lemma push_not_contained : forall e k objs path, env_ok e -> sorted_cache k -> SpecPack.holds k objs -> Forall sound_object objs ->
  acyclic (fun o => In o objs) -> ~ self_contained (fun o => In o objs) ->
  forall w, exists fuel0, forall fuel, (fuel0 <= fuel)%nat ->
  exists w', save_packfile e fuel k path w = (w', Panic) /\ w_db w' = w_db w /\ w_log w' = w_log w.
Proof.
  intros e k objs path He Hk Hh Hso (rank & Hrank) Ns w.
  destruct (save_packfile_any e k objs path He Hk Hh Hso w) as (w1 & om & D1 & L1 & _ & _ & V & ES).
  exists (list_max (map (fun x => rank (cm_tree_id x)) (om_commits om))). intros fuel Hf. exists w1. rewrite ES. split; [|auto].
  unfold save_objects. destruct (build_commits_total (tree_map (om_trees om)) (blob_map (om_blobs om)) rank) with (fuel := fuel) (cs := om_commits om) (cache := @nil hash)
    as [(r & E)|E].
  - intros h t i Gt Hi T. apply (tm_get _ _ _ _ V) in Gt as (d & items & H1 & H2 & H3 & ->).
    apply (Hrank d h (ti_id i) H1 H2). apply is_tree_entry in T. pose proof (rf_entry d items i H3 Hi) as Rf. rewrite T in Rf. exact Rf.
  - intros c Hc. apply list_max_le in Hf. rewrite Forall_forall in Hf. apply Hf. apply in_map_iff. eauto.
  - destruct Ns. eapply (build_contained objs _ _ _ V Hso (holds_no_collision _ _ Hh)). exact E.
  - change (build_node_tree fuel om) with (build_commits fuel (tree_map (om_trees om)) (blob_map (om_blobs om)) (om_commits om) []).
    rewrite E. reflexivity.
Qed.

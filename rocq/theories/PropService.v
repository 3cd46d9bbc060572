(** C80-C86: what sequences of requests do to the stored repositories. *)

From Coq Require Import Permutation.
From Verif Require Import Base BaseLemmas Digest ModelUtils ModelObject ModelBase ModelPack ModelDecode ModelPkt ModelStorage ModelProto
  ModelLfs ModelGateway ModelService StoredZlib SpecObject SpecIdx SpecBase SpecPack SpecPkt SpecStorage SpecProto SpecGateway SpecService ProofObject
  ProofUtf8 ProofBase ProofPack ProofPkt ProofReq ProofEncode ProofNodes ProofStorage ProofPush ProofClone ProofRepo ProofRefs ProofSession
  ProofGraph ProofExample PropPkt PropStorage PropProto PropGateway ProofService.
Open Scope N_scope.

(** ** C80: fetches change nothing *)

Theorem C80_http : forall e c fuel cut path body w,
  let w' := fst (http_upload_pack e c fuel cut path body w) in
  w_db w' = w_db w /\ w_log w' = w_log w /\ w_files w' = w_files w.
Proof. intros e c fuel cut path body w w'. destruct (reads_http_upload e c fuel cut path body w) as (H1 & H2 & H3 & _). auto. Qed.
(** As a request, also when the gateway answers it with something else. *)
Theorem C80_request : forall e b c fuel cut now m path service q body w,
  (forall s repo, gateway m path service q <> Ok (AInfoRefs s repo)) -> (forall repo, gateway m path service q <> Ok (AReceivePack repo)) ->
  let w' := fst (serve e b c fuel cut (QHttp now m path service q body) w) in
  w_db w' = w_db w /\ w_log w' = w_log w /\ w_files w' = w_files w.
Proof.
  intros e b c fuel cut now m path service q body w H1 H2 w'.
  assert (K : reads (serve e b c fuel cut (QHttp now m path service q body))).
  { unfold serve. apply lift_bind_reads. intros a G. destruct a; auto with reads.
    - destruct (H1 _ _ G).
    - apply reads_http_upload.
    - destruct (H2 _ G). }
  destruct (K w) as (K1 & K2 & K3 & _). auto.
Qed.
Lemma reads_session : forall e b c fuel cut now packets pp, pp_service pp = Some UploadPack ->
  reads (ssh_session e b c fuel cut now pp packets).
Proof.
  intros e b c fuel cut now. induction packets as [|d packets IH]; intros pp Hp; cbn [ssh_session]; [apply reads_ret|].
  apply (keeps_bind_when same same_trans _ _ (fun x => pp_service (fst x) = Some UploadPack)).
  - apply reads_ssh_upload. exact Hp.
  - intros w w' [pp' a] H. apply ssh_data_path in H as [_ H]. cbn [fst]. congruence.
  - intros [pp' a] H. apply reads_bind; [apply IH; exact H|]. intros [pp2 r]. apply reads_ret.
Qed.
(** After the command, an SSH session of git-upload-pack. *)
Theorem C80_ssh : forall e b c fuel cut now packets pp w, pp_service pp = Some UploadPack ->
  let w' := fst (ssh_session e b c fuel cut now pp packets w) in
  w_db w' = w_db w /\ w_log w' = w_log w /\ w_files w' = w_files w.
Proof. intros e b c fuel cut now packets pp w H w'. destruct (reads_session e b c fuel cut now packets pp H w) as (H1 & H2 & H3 & _). auto. Qed.

(** ** C81: nothing stored is lost *)

(** Every state of the database keeps the rows of the one before it; references keep
    their key, repository and name. *)
Theorem C81_append_only : forall e b c fuel cut l w, env_ok e -> refs_table (w_db w) ->
  exists k, w_log (serve_all e b c fuel cut l w) = w_log w ++ k /\
    chain nothing_lost (w_db w) k (w_db (serve_all e b c fuel cut l w)) /\
    Forall (nothing_lost (w_db w)) k /\ nothing_lost (w_db w) (w_db (serve_all e b c fuel cut l w)).
Proof.
  intros e b c fuel cut l w He T. destruct (serve_all_chain e He b c fuel cut l w) as (k & E & C). exists k. split; [exact E|].
  apply (chain_under refs_table) in C as [C _]; [|exact T].
  assert (C' : chain nothing_lost (w_db w) k (w_db (serve_all e b c fuel cut l w))).
  { eapply chain_impl; [|exact C]. intros x y (_ & r & p & _ & _ & O). eapply only_lost. exact O. }
  split; [exact C'|]. apply (chain_all nothing_lost lost_refl lost_trans). exact C'.
Qed.

(** ** C82: a request concerns one repository *)

Theorem C82_one_repository : forall e b c fuel cut r p w, env_ok e -> refs_table (w_db w) -> about r p ->
  only_at e p (w_db w) (w_db (fst (serve e b c fuel cut r w))).
Proof.
  intros e b c fuel cut r p w He T A. destruct (serve_stays e He b c fuel cut r p A w) as (_ & k & _ & C).
  apply (chain_under refs_table) in C as [C _]; [|exact T].
  apply (chain_all (only_at e p) (only_refl e p) (only_trans e p)) with (l := k).
  eapply chain_impl; [|exact C]. intros x y [_ H]. exact H.
Qed.
Theorem C82_at_most_one : forall r p q, about r p -> about r q -> p = q.
Proof. exact about_unique. Qed.
Theorem C82_no_repository : forall e b c fuel cut r w, (forall p, ~ about r p) ->
  let w' := fst (serve e b c fuel cut r w) in w_db w' = w_db w /\ w_log w' = w_log w /\ w_files w' = w_files w.
Proof. intros e b c fuel cut r w H w'. destruct (serve_reads e b c fuel cut r H w) as (H1 & H2 & H3 & _). auto. Qed.

(** Requests that are not about a repository of the same name, up to the collation. *)
Definition elsewhere (e : env) (path : bytes) (l : list request) : Prop :=
  forall r p, In r l -> about r p -> teq e p path = false.
Definition same_repo (e : env) (path : bytes) (d d' : db) : Prop :=
  commits_at e d' path = commits_at e d path /\ refs_of e d' path = refs_of e d path.
Lemma elsewhere_chain : forall e b c fuel cut path l w, env_ok e -> teq_equiv e -> refs_table (w_db w) -> elsewhere e path l ->
  exists k, w_log (serve_all e b c fuel cut l w) = w_log w ++ k /\
    chain (same_repo e path) (w_db w) k (w_db (serve_all e b c fuel cut l w)) /\
    exists n, d_nodes (w_db (serve_all e b c fuel cut l w)) = d_nodes (w_db w) ++ n /\ Forall addressed_row n.
Proof.
  intros e b c fuel cut path l w He Te T El. destruct (serve_all_chain e He b c fuel cut l w) as (k & E & C). exists k. split; [exact E|].
  apply (chain_under refs_table) in C as [C _]; [|exact T]. split.
  - eapply chain_impl; [|exact C]. intros x y (_ & r & p & I & A & O). eapply only_others; [exact Te|exact (El _ _ I A)|exact O].
  - assert (K : chain (fun d d' => exists n, d_nodes d' = d_nodes d ++ n /\ Forall addressed_row n) (w_db w) k (w_db (serve_all e b c fuel cut l w))).
    { eapply chain_impl; [|exact C]. intros x y (_ & r & p & _ & _ & O). exact (oa_nodes _ _ _ _ O). }
    refine (proj2 (chain_all _ _ _ _ _ _ K)).
    + intros a. exists []. rewrite app_nil_r. split; [reflexivity|constructor].
    + intros a x y (n1 & E1 & F1) (n2 & E2 & F2). exists (n1 ++ n2). rewrite E2, E1, app_assoc. split; [reflexivity|]. apply Forall_app. auto.
Qed.
Theorem C82_isolation : forall e b c fuel cut path l w, env_ok e -> teq_equiv e -> refs_table (w_db w) -> elsewhere e path l ->
  exists k, w_log (serve_all e b c fuel cut l w) = w_log w ++ k /\
    Forall (same_repo e path (w_db w)) k /\ same_repo e path (w_db w) (w_db (serve_all e b c fuel cut l w)).
Proof.
  intros e b c fuel cut path l w He Te T El. destruct (elsewhere_chain e b c fuel cut path l w He Te T El) as (k & E & C & _).
  exists k. split; [exact E|]. apply (chain_all (same_repo e path)); [split; reflexivity| |exact C].
  intros a x y [A1 A2] [B1 B2]. split; congruence.
Qed.

(** ** C83: clones do not depend on what others push *)

(** A clone when the trees and blobs may contain others besides those of the
    repository: [R] is what the repository leads to. *)
Lemma clone_of : forall e D path (R : object -> Prop), env_ok e -> let S := repo_objects e D path in
  (forall r, In r (d_nodes D) -> exists o, node_for r o) ->
  (forall r, In r (d_commits D) -> teq e (c_repo_path r) path = true -> exists o, commit_for r o) ->
  (forall o, R o -> S o) -> (forall d, S (Commit, d) -> R (Commit, d)) -> (forall o, R o -> reach R o) ->
  (forall o, R o -> sound_object o) ->
  (forall o t h, R o -> refers o t h -> t <> Commit /\ exists d, R (t, d) /\ obj_id (t, d) h) ->
  collision_free S -> acyclic R -> few R -> (exists d, R (Commit, d)) ->
  forall c st, codec_ok c -> forall w, no_failure w -> w_db w = D -> exists fuel0, forall fuel, (fuel0 <= fuel)%nat ->
  exists w' file objs, get_full_pack_data e c fuel path w = (w', Ok file) /\ moved w w' [] /\ git_pack c st file objs /\
    NoDup (map snd objs) /\ forall o, In o (map snd objs) <-> R o.
Proof.
  intros e D path R He S H1 H2 Rs Sc Rr Rsd Rcl Cf (rank & Ac) Fw (d0 & Hd0) c st Hc w Q Ew.
  assert (K : forall o, reach S o <-> R o).
  { intros o. split.
    - intros H. induction H as [d Hd|o t h d Hr IH Rf Nc Hd Hi]; [auto|]. destruct (Rcl _ _ _ IH Rf) as (_ & d' & Hd' & Hi').
      rewrite (Cf _ _ _ Hd (Rs _ Hd') Hi Hi'). exact Hd'.
    - intros H. apply (reach_mono R); auto. }
  assert (Hb : honest_db e D path).
  { split; [exact H1|]. split; [exact H2|]. intros o Ho. apply K in Ho. auto. }
  assert (Ty : well_typed S).
  { intros o t h o' Ho Rf So' Hi. apply K in Ho. destruct (Rcl _ _ _ Ho Rf) as (_ & d' & Hd' & Hi').
    rewrite (Cf _ _ _ So' (Rs _ Hd') Hi Hi'). reflexivity. }
  assert (Ro : SpecStorage.rooted S).
  { intros d tid Hd Hr. destruct (Rcl _ _ _ (Sc _ Hd) (rf_root _ _ Hr)) as (_ & d' & Hd' & Hi'). exists d'. auto. }
  assert (Fw' : few (reach S)).
  { destruct Fw as (lo & Ll & Hl). exists lo. split; [exact Ll|]. intros o Ho. apply Hl, K, Ho. }
  assert (Ac' : forall d h h', reach S (Tree, d) -> obj_id (Tree, d) h -> refers (Tree, d) Tree h' -> (rank h' < rank h)%nat).
  { intros d h h' Ho. apply Ac. apply K. exact Ho. }
  destruct (clone_run e He D path Hb Cf Ty rank Ac' Ro (ex_intro _ d0 (Rs _ Hd0)) Fw' c st Hc w Q Ew) as (fuel0 & F).
  exists fuel0. intros fuel Hf. destruct (F fuel Hf) as (w' & file & objs & E & M & G & Nd & Io).
    exists w', file, objs. do 4 (split; [assumption|]). intros o. rewrite Io. apply K.
Qed.

Theorem C83_clone_unaffected : forall e b c c' st fuel cut path l w, env_ok e -> teq_equiv e -> codec_ok c' ->
  refs_table (w_db w) -> elsewhere e path l ->
  let old := repo_objects e (w_db w) path in let w1 := serve_all e b c fuel cut l w in
  no_failure w1 -> honest_db e (w_db w) path -> complete old -> acyclic old -> few (reach old) -> (exists d, old (Commit, d)) ->
  collision_free (repo_objects e (w_db w1) path) ->
  exists fuel0, forall fuel', (fuel0 <= fuel')%nat -> exists w2 file objs,
    get_full_pack_data e c' fuel' path w1 = (w2, Ok file) /\ git_pack c' st file objs /\ NoDup (map snd objs) /\
    forall o, In o (map snd objs) <-> reach old o.
Proof.
  intros e b c c' st fuel cut path l w He Te Hc T El old w1 Q (Hn & Hm & Hs) Co (rank & Ac) Fw (d0 & Hd0) Cf.
  destruct (elsewhere_chain e b c fuel cut path l w He Te T El) as (k & _ & C & n & En & Fn). fold w1 in C, En.
  assert (SR : same_repo e path (w_db w) (w_db w1)).
  { refine (proj2 (chain_all (same_repo e path) _ _ _ _ _ C)); [split; reflexivity|]. intros a x y [A1 A2] [B1 B2]. split; congruence. }
  destruct SR as [SC _].
  assert (CI : forall r, (In r (d_commits (w_db w1)) /\ teq e (c_repo_path r) path = true) <-> (In r (d_commits (w_db w)) /\ teq e (c_repo_path r) path = true)).
  { intros r. unfold commits_at in SC. pose proof (filter_In (fun c => teq e (c_repo_path c) path) r) as F.
    etransitivity; [symmetry; exact (F (d_commits (w_db w1)))|]. rewrite SC. apply F. }
  destruct (clone_of e (w_db w1) path (reach old) He) with (c := c') (st := st) (w := w1) as (fuel0 & F); try assumption; try reflexivity.
  - intros r Hr. rewrite En in Hr. apply in_app_or in Hr as [Hr|Hr]; [auto|]. rewrite Forall_forall in Fn. exact (Fn _ Hr).
  - intros r Hr Tr. destruct (proj1 (CI r) (conj Hr Tr)) as [Hr' _]. auto.
  - intros o Ho. apply reach_S in Ho. destruct Ho as [(r & Hr & Hf)|(r & Hr & Tr & Hf)].
    + left. exists r. rewrite En. split; [apply in_or_app; left; exact Hr|exact Hf].
    + right. exists r. destruct (proj2 (CI r) (conj Hr Tr)). auto.
  - intros d Hd. apply rc_commit. destruct Hd as [(r & _ & Hf)|(r & Hr & Tr & Hf)]; [inversion Hf|].
    right. exists r. destruct (proj1 (CI r) (conj Hr Tr)). auto.
  - intros o Ho. induction Ho as [d Hd|o t h d Hr IH Rf Nc Hd Hi]; [apply rc_commit, rc_commit; exact Hd|].
    eapply rc_refers; [exact IH|exact Rf|exact Nc| |exact Hi]. eapply rc_refers; eassumption.
  - intros o t h Ho Rf. destruct (Co _ _ _ Ho Rf) as (Nc & d & Hd & Hi). split; [exact Nc|]. exists d. split; [|exact Hi].
    eapply rc_refers; eassumption.
  - exists rank. intros d h h' Ho. apply Ac. apply (reach_S _ _ Ho).
  - exists d0. apply rc_commit. exact Hd0.
  - exists fuel0. intros fuel' Hf. destruct (F fuel' Hf) as (w2 & file & objs & E & _ & G & Nd & Io). exists w2, file, objs. auto.
Qed.

(** ** C84: a push that is not answered moves no reference *)

Definition refs_kept (d d' : db) : Prop := d_refs d' = d_refs d.
(** Of the statements sent between two states, the last has failed. *)
Definition last_failed (w w' : world) : Prop := exists before, w_fails w = before ++ true :: w_fails w'.
(** The exception: the row of an updated reference is read again, and when this fails the
    request aborts although the reference has moved. *)
Theorem C84_aborted_push : forall e m c fuel now path body w w' r, env_ok e -> http_receive_pack e m c fuel now path body w = (w', r) ->
  (forall reply, r <> Ok reply) -> refs_kept (w_db w) (w_db w') \/ last_failed w w'.
Proof. intros e m c fuel now path body w w' r He H N. apply (last_http _ _ _ _ _ _ _ _ _ _ He) in H as [H _]. exact (H N). Qed.
(** A packet of an SSH session, or the two halves of a push over HTTP. *)
Theorem C84_aborted_packet : forall e m c fuel now pp body w w' r, env_ok e -> git_receive_pack e m c fuel now pp body w = (w', r) ->
  (forall reply, r <> Ok reply) -> refs_kept (w_db w) (w_db w') \/ last_failed w w'.
Proof. intros e m c fuel now pp body w w' r He H N. apply (last_receive _ _ _ _ _ _ _ _ _ _ He) in H as [H _]. exact (H N). Qed.
(** While the database works there is no exception. *)
Theorem C84_working : forall e m c fuel now path body w w' r, env_ok e -> no_failure w -> http_receive_pack e m c fuel now path body w = (w', r) ->
  (forall reply, r <> Ok reply) -> refs_kept (w_db w) (w_db w').
Proof.
  intros e m c fuel now path body w w' r He Q H N. destruct (C84_aborted_push _ _ _ _ _ _ _ _ _ _ He H N) as [K|(u & K)]; [exact K|].
  rewrite Q in K. destruct u; discriminate K.
Qed.
(** In all states but the last, the references are the old ones: a crash of the
    database at any earlier moment moves none. *)
Theorem C84_references_last : forall e m c fuel now path body w w' r, env_ok e -> http_receive_pack e m c fuel now path body w = (w', r) ->
  exists l k, w_log w' = w_log w ++ l ++ k /\ (length k <= 1)%nat /\ Forall (refs_kept (w_db w)) l /\ (k = [] -> refs_kept (w_db w) (w_db w')).
Proof. intros e m c fuel now path body w w' r He H. apply (last_http _ _ _ _ _ _ _ _ _ _ He) in H as [_ H]. exact H. Qed.

(** ** C85: a push over HTTP, and a clone of it *)

Lemma http_clone : forall e c cut path body w D (R : object -> Prop) st,
  (forall d, pieces 65515 d (cut d)) -> clone_request body ->
  (exists fuel0, forall fuel, (fuel0 <= fuel)%nat -> exists w' file objs, get_full_pack_data e c fuel path w = (w', Ok file) /\ moved w w' [] /\
     git_pack c st file objs /\ NoDup (map snd objs) /\ forall o, In o (map snd objs) <-> R o) -> w_db w = D ->
  exists fuel0, forall fuel, (fuel0 <= fuel)%nat -> exists w' reply,
    http_upload_pack e c fuel cut path body w = (w', Ok reply) /\ w_db w' = D /\ clone_reply c st reply R.
Proof.
  intros e c cut path body w D R st Hcut (items & t & b & x & line & Rb & Ft & Ut & Cw & Nh & Pl & ->) (fuel0 & F) Ew.
  exists (Nat.max fuel0 (S (length items))). intros fuel Hf.
  destruct (C43_fetch_request items b x line [] (Some t) fuel Rb Pl Ft Ut) as (want & have & caps & Eu & _ & _ & Hh & _ & Hc); [lia|].
  rewrite app_nil_r in Eu.
  assert (Hv : have = []).
  { destruct have as [|i have]; [reflexivity|]. destruct (proj1 (Hh i) (or_introl eq_refl)) as (tl & K). destruct (Nh _ _ K). }
  subst have. destruct (F fuel) as (w' & file & objs & Eg & Mv & G & Nd & Io); [lia|].
  exists w', (add_pkt_line [] (bs "NAK" ++ [10]) ++ concat (send_pack caps (cut file))). split; [|split].
  - unfold http_upload_pack. cbn [proto_new]. unfold mbind at 1. cbn [lift].
    unfold mbind at 1. unfold git_upload_pack. cbn [pp_caps pp_protocol pp_path pp_service pp_cmds].
    unfold mbind at 1. unfold lift. rewrite Eu. unfold mbind at 1. unfold munwrap. rewrite Eg. reflexivity.
  - rewrite (mv_db _ _ _ Mv). exact Ew.
  - exists (add_pkt_line [] (bs "NAK" ++ [10])), (concat (send_pack caps (cut file))), file, objs. split; [reflexivity|].
    split; [apply hex4_pkt; vm_compute; discriminate|]. split; [|auto].
    apply C39_side_band_delivers; [|apply Hcut]. destruct Cw as [Cw|Cw]; [left|right]; apply Hc; exists t; split; try reflexivity; exact Cw.
Qed.

(** What a clone finds after a push to an empty repository. *)
Lemma pushed_pack : forall e c st path objs rows crows pre n w, env_ok e -> codec_ok c -> no_failure w ->
  history path objs -> nlen objs < 2 ^ 32 -> (exists d, In (Commit, d) objs) -> rows_for path objs rows crows ->
  commits_at e (w_db w) path = crows -> d_nodes (w_db w) = (pre ++ rows) ++ n -> Forall addressed_row pre -> Forall addressed_row n ->
  collision_free (repo_objects e (w_db w) path) ->
  exists fuel0, forall fuel, (fuel0 <= fuel)%nat -> exists w' file l, get_full_pack_data e c fuel path w = (w', Ok file) /\ moved w w' [] /\
    git_pack c st file l /\ NoDup (map snd l) /\ forall o, In o (map snd l) <-> reach (fun o => In o objs) o.
Proof.
  intros e c st path objs rows crows pre n w He Hc Q Hs Fw (d0 & Hd0) Rf Ec En Fa Fn Cf. set (R := reach (fun o => In o objs)).
  assert (CI : forall r, In r (d_commits (w_db w)) /\ teq e (c_repo_path r) path = true <-> In r crows).
  { intros r. pose proof (filter_In (fun c => teq e (c_repo_path c) path) r (d_commits (w_db w))) as F. unfold commits_at in Ec. rewrite Ec in F. symmetry. exact F. }
  apply (clone_of e (w_db w) path R He); try assumption; try reflexivity.
  + intros r Hr. rewrite En in Hr. rewrite !in_app_iff in Hr. rewrite Forall_forall in Fa, Fn. destruct Hr as [[Hr|Hr]|Hr].
    * exact (Fa _ Hr).
    * destruct (rf_nodes _ _ _ _ Rf r Hr) as (o & Ho & _). eauto.
    * exact (Fn _ Hr).
  + intros r Hr Tr. destruct (rf_commits _ _ _ _ Rf r (proj1 (CI r) (conj Hr Tr))) as (_ & o & Ho & _). eauto.
  + intros o Ho. destruct o as [t d]. assert (Dt : t = Commit \/ t <> Commit) by (destruct t; (left; reflexivity) || (right; discriminate)). destruct Dt as [->|Nt].
    * right. destruct (rf_commits_all _ _ _ _ Rf d (reach_S _ _ Ho)) as (r & Hr & _ & Hf). destruct (proj2 (CI r) Hr). eauto.
    * left. destruct (rf_nodes_all _ _ _ _ Rf _ Ho Nt) as (r & Hr & Hf). exists r. split; [|exact Hf].
      rewrite En, !in_app_iff. auto.
  + intros d [(r & _ & Hf)|(r & Hr & Tr & Hf)]; [inversion Hf|]. apply rc_commit.
    destruct (rf_commits _ _ _ _ Rf r (proj1 (CI r) (conj Hr Tr))) as (_ & o & Ho & Io). rewrite (commit_for_fun _ _ _ Hf Ho). exact Io.
  + intros o Ho. unfold R. induction Ho as [d Hd|o t hh d Hr IH Rr Nt Hd Hid]; [apply rc_commit, rc_commit; exact Hd|].
    eapply rc_refers; [exact IH|exact Rr|exact Nt| |exact Hid]. eapply rc_refers; eassumption.
  + intros o Ho. pose proof (hs_sound _ _ Hs) as Fs. rewrite Forall_forall in Fs. apply Fs. exact (reach_S _ _ Ho).
  + intros o t hh Ho Rr. destruct (hs_complete _ _ Hs _ _ _ Ho Rr) as (Nt & d & Hd & Hid). split; [exact Nt|]. exists d. split; [|exact Hid].
    eapply rc_refers; eassumption.
  + destruct (hs_acyclic _ _ Hs) as (rank & Ac). exists rank. intros d x y Ho. apply Ac. exact (reach_S _ _ Ho).
  + exists objs. split; [exact Fw|]. intros o Ho. exact (reach_S _ _ Ho).
  + exists d0. apply rc_commit. exact Hd0.
Qed.
(** The references of a repository after a reference has been added. *)
Lemma table_snoc : forall d r ns cs, refs_table d -> r_id r = d_next_ref d -> refs_table (mkDb ns cs (d_refs d ++ [r]) (d_next_ref d + 1)).
Proof.
  intros d r ns cs [T1 T2] E. split; cbn [d_refs d_next_ref].
  + rewrite map_app. cbn [map]. apply Permutation_NoDup with (l := r_id r :: map r_id (d_refs d)); [apply Permutation_cons_append|].
    constructor; [|exact T1]. intros K. apply in_map_iff in K as (x & Ex & K). apply T2 in K. lia.
  + intros x K. apply in_app_or in K as [K|[<-|[]]]; [apply T2 in K; lia|lia].
Qed.
(** The commits of a repository with none before. *)
Lemma own_commits : forall e path objs rows crows d d', env_ok e -> rows_for path objs rows crows -> commits_at e d path = [] ->
  d_commits d' = d_commits d ++ crows -> commits_at e d' path = crows.
Proof.
  intros e path objs rows crows d d' He Rf Nc E. unfold commits_at in *. rewrite E, filter_app, Nc. cbn [app].
  assert (K : forall r, In r crows -> teq e (c_repo_path r) path = true).
  { intros r Hr. rewrite (proj1 (rf_commits _ _ _ _ Rf r Hr)). apply He. }
  clear -K. induction crows as [|r l IH]; [reflexivity|]. cbn [filter]. rewrite (K r (or_introl eq_refl)). f_equal. apply IH.
  intros x Hx. apply K. right. exact Hx.
Qed.

(** The first push to a repository, then any requests about other repositories, then
    a clone: the client gets the pushed history. *)
Theorem C85_push_then_clone : forall e bd c st cut path new h name caps body pack objs w
    now1 m1 path1 s1 q1 now2 m2 path2 s2 q2 body2,
  env_ok e -> teq_equiv e -> codec_ok c -> (forall d, pieces 65515 d (cut d)) ->
  no_failure w -> refs_table (w_db w) -> Forall addressed_row (d_nodes (w_db w)) -> commits_at e (w_db w) path = [] ->
  id_ok h -> lower_hex new h -> word name -> utf8_text caps ->
  (exists k, text_len name k /\ (k <= 31)%nat) -> (exists k, text_len path k /\ (k <= 64)%nat) ->
  push_request (repeat 48 40) new name caps pack body -> git_pack c (get_hash_object e w) pack objs -> nlen pack < 2 ^ 32 ->
  history path (map snd objs) -> (exists d, In (Commit, d) (map snd objs)) ->
  gateway m1 path1 s1 q1 = Ok (AReceivePack path) -> gateway m2 path2 s2 q2 = Ok (AUploadPack path) -> clone_request body2 ->
  exists fuel0 w1 reply cl, caps_in caps cl /\ status_reply cl [bs "ok " ++ name ++ [0]] reply /\
    (forall fuel, (fuel0 <= fuel)%nat -> serve e bd c fuel cut (QHttp now1 m1 path1 s1 q1 body) w = (w1, Ok reply)) /\
    forall f l, elsewhere e path l -> let w2 := serve_all e bd c f cut l w1 in
    collision_free (repo_objects e (w_db w2) path) ->
    exists fuel1, forall fuel, (fuel1 <= fuel)%nat -> exists w3 reply2,
      serve e bd c fuel cut (QHttp now2 m2 path2 s2 q2 body2) w2 = (w3, Ok reply2) /\ w_db w3 = w_db w2 /\
      clone_reply c st reply2 (reach (fun o => In o (map snd objs))).
Proof.
  intros e bd c st cut path new h name caps body pack objs w now1 m1 path1 s1 q1 now2 m2 path2 s2 q2 body2
    He Te Hc Hcut Q T Fa Nc Hi Hx Hw Hu Ln Lp Rq G Hl Hs Hd G1 G2 Cr.
  destruct (C46_create e bd c now1 path new h name caps body pack objs w He Q Hi Hx Hw Hu Ln Lp Rq G Hl Hs)
    as (fuel0 & w1 & reply & rows & crows & cl & Hcl & Sr & Rf & D1 & Q1 & E1).
  exists fuel0, w1, reply, cl. split; [exact Hcl|]. split; [exact Sr|]. split.
  { intros fuel Hf. unfold serve. rewrite G1. unfold mbind, lift. apply E1. exact Hf. }
  intros f l El w2 Cf.
  assert (T1 : refs_table (w_db w1)) by (rewrite D1; apply table_snoc; [exact T|reflexivity]).
  destruct (elsewhere_chain e bd c f cut path l w1 He Te T1 El) as (k & _ & C & n & En & Fn). fold w2 in C, En.
  assert (SR : same_repo e path (w_db w1) (w_db w2)).
  { refine (proj2 (chain_all (same_repo e path) _ _ _ _ _ C)); [split; reflexivity|]. intros a x y [A1 A2] [B1 B2]. split; congruence. }
  assert (Q2 : no_failure w2) by (apply serve_all_quiet; assumption).
  destruct (http_clone e c cut path body2 w2 (w_db w2) (reach (fun o => In o (map snd objs))) st Hcut Cr) as (fuel1 & F1); [|reflexivity|].
  - apply (pushed_pack e c st path (map snd objs) rows crows (d_nodes (w_db w)) n w2); try assumption.
    + unfold nlen. rewrite map_length. exact (git_pack_few _ _ _ _ G).
    + rewrite (proj1 SR). apply (own_commits e path (map snd objs) rows crows (w_db w)); try assumption. rewrite D1. reflexivity.
    + rewrite En, D1. reflexivity.
  - exists fuel1. intros fuel Hf. destruct (F1 fuel Hf) as (w3 & reply2 & E3 & D3 & K3). exists w3, reply2. split; [|auto].
    unfold serve. rewrite G2. unfold mbind, lift. exact E3.
Qed.

(** ** C86: what the tables hold, whatever was requested *)

Theorem C86_tables : forall e b c fuel cut l w, env_ok e -> refs_table (w_db w) -> Forall addressed_row (d_nodes (w_db w)) ->
  Forall (fun r => addressed_commit (c_repo_path r) r) (d_commits (w_db w)) ->
  exists k, w_log (serve_all e b c fuel cut l w) = w_log w ++ k /\
    forall d, In d (k ++ [w_db (serve_all e b c fuel cut l w)]) ->
      refs_table d /\ Forall addressed_row (d_nodes d) /\ Forall (fun r => addressed_commit (c_repo_path r) r) (d_commits d).
Proof.
  intros e b c fuel cut l w He T F1 F2. destruct (serve_all_chain e He b c fuel cut l w) as (k & E & C). exists k. split; [exact E|].
  set (P := fun d => refs_table d /\ Forall addressed_row (d_nodes d) /\ Forall (fun r => addressed_commit (c_repo_path r) r) (d_commits d)).
  assert (C' : chain (fun d d' => P d -> P d' /\ True) (w_db w) k (w_db (serve_all e b c fuel cut l w))).
  { eapply chain_impl; [|exact C]. intros x y H (P1 & P2 & P3). split; [|exact I]. destruct (H P1) as (P1' & r & p & _ & _ & [(n & N1 & N2) (m & M1 & M2) _]).
    split; [exact P1'|]. rewrite N1, M1. split; apply Forall_app; split; auto.
    eapply Forall_impl; [|exact M2]. intros r' Hr. rewrite (proj1 Hr). exact Hr. }
  apply (chain_under P) in C' as [C' Z]; [|split; [exact T|split; assumption]].
  intros d Hd. change (P d). apply in_app_or in Hd as [Hd|[<-|[]]]; [|exact Z]. revert C' Hd. clear.
  generalize (w_db (serve_all e b c fuel cut l w)) as z. generalize (w_db w) as a.
  induction k as [|x k IH]; cbn; intros a z C Hd; [destruct Hd|]. destruct C as [[Px _] C]. destruct Hd as [<-|Hd]; [exact Px|]. eapply IH; eassumption.
Qed.
(** In particular from the empty database. *)
Theorem C86_from_empty : forall e b c fuel cut l w, env_ok e -> w_db w = db_empty ->
  let d := w_db (serve_all e b c fuel cut l w) in
  refs_table d /\ Forall addressed_row (d_nodes d) /\ Forall (fun r => addressed_commit (c_repo_path r) r) (d_commits d).
Proof.
  intros e b c fuel cut l w He Ew d. destruct (C86_tables e b c fuel cut l w He) as (k & _ & K).
  - rewrite Ew. split; [constructor|intros r []].
  - rewrite Ew. constructor.
  - rewrite Ew. constructor.
  - apply K. apply in_or_app. right. left. reflexivity.
Qed.

(** ** Concrete cases *)

Lemma ex_equiv : teq_equiv ex_env.
Proof.
  split; cbn [ex_env teq].
  - intros a b. destruct (beq (folded b) (folded a)) eqn:E.
    + apply beq_eq in E. rewrite E. apply beq_refl.
    + destruct (beq (folded a) (folded b)) eqn:E2; [|reflexivity]. apply beq_eq in E2. rewrite E2, beq_refl in E. discriminate.
  - intros a b c H1 H2. apply beq_eq in H1, H2. rewrite H1, H2. apply beq_refl.
Qed.
(** Pushes and clones of two repositories. *)
Definition push_demo : request := QHttp 7 MPost (bs "/demo.git/git-receive-pack") None no_query ex_body.
Definition push_other : request := QHttp 8 MPost (bs "/other.git/git-receive-pack") None no_query ex_body3.
Definition want_line : bytes := bs "want " ++ repeat 97 40 ++ bs " multi_ack_detailed side-band-64k agent=git/2.40".
Definition clone_body : bytes := add_pkt_line [] want_line ++ flush ++ add_pkt_line [] (bs "done" ++ [10]).
Definition clone_demo : request := QHttp 9 MPost (bs "/demo.git/git-upload-pack") None no_query clone_body.
Definition ex_cut (d : bytes) : list bytes := map (fun b => [b]) d.
Lemma push_demo_at : gateway MPost (bs "/demo.git/git-receive-pack") None no_query = Ok (AReceivePack (bs "/demo")).
Proof. vm_compute. reflexivity. Qed.
Lemma push_other_at : gateway MPost (bs "/other.git/git-receive-pack") None no_query = Ok (AReceivePack (bs "/other")).
Proof. vm_compute. reflexivity. Qed.
Lemma clone_demo_at : gateway MPost (bs "/demo.git/git-upload-pack") None no_query = Ok (AUploadPack (bs "/demo")).
Proof. vm_compute. reflexivity. Qed.
Lemma ex_cut_ok : forall d, pieces 65515 d (ex_cut d).
Proof.
  intros d. unfold ex_cut. split.
  - induction d as [|b d IH]; [reflexivity|]. cbn [map concat app]. rewrite IH. reflexivity.
  - apply Forall_forall. intros x Hx. apply in_map_iff in Hx as (b & <- & _). split; [discriminate|vm_compute; discriminate].
Qed.
Lemma clone_body_ok : clone_request clone_body.
Proof.
  exists [RWant (repeat 97 40) (bs " multi_ack_detailed side-band-64k agent=git/2.40"); RFlush],
    (bs "multi_ack_detailed side-band-64k agent=git/2.40"), (add_pkt_line [] want_line ++ flush), [10], (add_pkt_line [] (bs "done" ++ [10])).
  split; [|split; [|split; [|split; [|split; [|split]]]]].
  - apply rb_cons.
    + split; [reflexivity|]. apply Forall_forall. intros x Hx. apply repeat_spec in Hx. subst x. reflexivity.
    + constructor. apply hex4_pkt. vm_compute. discriminate.
    + change flush with (flush ++ []). apply rb_cons; [exact I|constructor|constructor].
  - constructor.
  - apply utf8_spec. reflexivity.
  - right. exists (bs "multi_ack_detailed "), [], [], (bs " agent=git/2.40"). split; [reflexivity|].
    split; [exists []; split; [constructor|reflexivity]|]. split; [exists []; split; [constructor|reflexivity]|].
    split; [right; exists (bs "multi_ack_detailed"); reflexivity|right; exists (bs "agent=git/2.40"); reflexivity].
  - intros id tail [H|[H|[]]]; discriminate H.
  - apply hex4_pkt. vm_compute. discriminate.
  - unfold clone_body. rewrite app_assoc. reflexivity.
Qed.
Lemma push_other_elsewhere : elsewhere ex_env (bs "/demo") [push_other; push_other].
Proof.
  intros r p Hr A. assert (E : r = push_other) by (destruct Hr as [<-|[<-|[]]]; reflexivity). subst r.
  rewrite (about_unique _ _ _ A (ab_push _ _ _ _ _ _ _ push_other_at)). reflexivity.
Qed.

(** A clone gives an answer. *)
Example C80_ex : pp_service (ex_session (bs "/demo")) = Some UploadPack /\
  gateway MPost (bs "/demo.git/git-upload-pack") None no_query = Ok (AUploadPack (bs "/demo")) /\
  is_ok (snd (http_upload_pack ex_env stored 50 ex_cut (bs "/demo") clone_body ex_world)) = true.
Proof. split; [reflexivity|]. split; [exact clone_demo_at|]. vm_compute. reflexivity. Qed.
(** The second of two pushes of the same adds rows again. *)
Definition ex_after : world := serve_all ex_env Release stored 50 ex_cut [push_other; push_other] ex_world.
Lemma ex_world_table : refs_table (w_db ex_world).
Proof.
  split; rewrite ex_world_refs.
  - apply NoDup_cons; [intros []|apply NoDup_nil].
  - intros r [<-|[]]. cbn [ex_ref r_id]. apply N.ltb_lt. vm_compute. reflexivity.
Qed.
Definition all_of (l : list bool) : bool := forallb (fun b => b) l.
Lemma all_of_in : forall l i b, all_of l = true -> nth_error l i = Some b -> b = true.
Proof. intros l i b H Hi. unfold all_of in H. rewrite forallb_forall in H. apply H. eapply nth_error_In. exact Hi. Qed.
Definition ex_after_check : list bool :=
  [forallb (row_check (ex_hist ++ ex_hist3)) (d_nodes (w_db ex_after));
   forallb (commit_check [(ex_top, oid ex_root); (ex_top3, oid ex_root3)]) (d_commits (w_db ex_after));
   nlen (d_nodes (w_db ex_world)) =? 3; nlen (d_nodes (w_db ex_after)) =? 9; nlen (d_commits (w_db ex_after)) =? 3;
   nlen (d_refs (w_db ex_after)) =? 3; nlen (w_fails ex_after) =? 0].
Lemma ex_after_checked : all_of ex_after_check = true.
Proof. vm_compute. reflexivity. Qed.
Lemma ex_after_nth : forall i b, nth_error ex_after_check i = Some b -> b = true.
Proof. intros i b. apply all_of_in. exact ex_after_checked. Qed.
Example C82_ex : env_ok ex_env /\ teq_equiv ex_env /\ refs_table (w_db ex_world) /\ elsewhere ex_env (bs "/demo") [push_other; push_other] /\
  about push_other (bs "/other") /\ nlen (d_nodes (w_db ex_world)) = 3 /\ nlen (d_nodes (w_db ex_after)) = 9 /\
  nlen (d_commits (w_db ex_after)) = 3 /\ nlen (d_refs (w_db ex_after)) = 3.
Proof.
  split; [exact ex_env_ok|]. split; [exact ex_equiv|]. split; [exact ex_world_table|]. split; [exact push_other_elsewhere|].
  split; [exact (ab_push _ _ _ _ _ _ _ push_other_at)|].
  split; [apply N.eqb_eq; exact (ex_after_nth 2 _ eq_refl)|]. split; [apply N.eqb_eq; exact (ex_after_nth 3 _ eq_refl)|].
  split; apply N.eqb_eq; [exact (ex_after_nth 4 _ eq_refl)|exact (ex_after_nth 5 _ eq_refl)].
Qed.
(** Other ways to name a repository, and a request without one. *)
Example C82_about_ex : about (QSsh (fun _ => 0) (bs "git-upload-pack '/demo.git'") []) (bs "demo") /\
  forall p, ~ about (QSsh (fun _ => 0) (bs "git-upload-pack") []) p.
Proof.
  split.
  - apply about_ssh. exists (bs "'/demo.git'"). split; [vm_compute; reflexivity|]. split; [vm_compute; lia|vm_compute; reflexivity].
  - intros p H. apply about_ssh in H as (x & H & _). vm_compute in H. discriminate.
Qed.

(** Tables whose rows are known. *)
Lemma repo_within : forall objs roots e d path, (forall o, In o objs -> obj_id o (oid o)) ->
  (forall o h, In (o, h) roots -> In o objs /\ id_ok h /\ commit_root (snd o) h) ->
  forallb (row_check objs) (d_nodes d) = true -> forallb (commit_check roots) (d_commits d) = true ->
  forall o, repo_objects e d path o -> In o objs.
Proof.
  intros objs roots e d path Id Hr H1 H2 o H. rewrite forallb_forall in H1, H2. destruct H as [(r & Hin & Hf)|(r & Hin & _ & Hf)].
  - destruct (row_checked objs r Id (H1 r Hin)) as (x & Hx & Hxf). rewrite (node_for_fun _ _ _ Hf Hxf). exact Hx.
  - destruct (commit_checked roots r) with (2 := H2 r Hin) as (x & h & Hx & Cf & _).
    + intros x h Hx. destruct (Hr x h Hx) as (Hi & R). split; [exact (Id _ Hi)|exact R].
    + rewrite (commit_for_fun _ _ _ Hf Cf). exact (proj1 (Hr _ _ Hx)).
Qed.
Lemma free_sub : forall (A B : object -> Prop), (forall o, A o -> B o) -> collision_free B -> collision_free A.
Proof. intros A B H C a b h Ha Hb. apply C; auto. Qed.
Lemma both_ok : history (bs "/x") (ex_hist ++ ex_hist3).
Proof.
  apply history_check; [vm_compute; reflexivity|reflexivity| |].
  - intros d Hd. apply in_app_or in Hd as [Hd|Hd].
    + pose proof (hs_sound _ _ (proj1 (ex_hist_ok (bs "/demo") eq_refl))) as F. rewrite Forall_forall in F. apply F in Hd as (_ & _ & Hd). exact Hd.
    + pose proof (hs_sound _ _ ex_hist3_ok) as F. rewrite Forall_forall in F. apply F in Hd as (_ & _ & Hd). exact Hd.
  - intros d Hd. apply in_app_or in Hd as [Hd|Hd].
    + pose proof (hs_sound _ _ (proj1 (ex_hist_ok (bs "/demo") eq_refl))) as F. rewrite Forall_forall in F. exact (F _ Hd).
    + pose proof (hs_sound _ _ ex_hist3_ok) as F. rewrite Forall_forall in F. exact (F _ Hd).
Qed.
Lemma both_id : forall o, In o (ex_hist ++ ex_hist3) -> obj_id o (oid o).
Proof. intros o Ho. apply oid_id. pose proof (hs_sound _ _ both_ok) as F. rewrite Forall_forall in F. auto. Qed.
Lemma ex_after_free : collision_free (repo_objects ex_env (w_db ex_after) (bs "/demo")).
Proof.
  apply (free_sub _ (fun o => In o (ex_hist ++ ex_hist3))); [|exact (hs_free _ _ both_ok)].
  apply (repo_within _ [(ex_top, oid ex_root); (ex_top3, oid ex_root3)]); [exact both_id| |exact (ex_after_nth 0 _ eq_refl)|exact (ex_after_nth 1 _ eq_refl)].
  intros o h Hc. apply two_pairs in Hc as [[-> ->]|[-> ->]].
  - split; [left; reflexivity|]. split; [apply oid_ok, tree_base|exact ex_top_root].
  - split; [apply in_or_app; right; left; reflexivity|]. split; [apply oid_ok, tree_base|exact ex_top3_root].
Qed.
(** Objects that are stored. *)
Definition held (e : env) (d : db) (path : bytes) (roots : list (object * hash)) (o : object) : bool :=
  existsb (row_check [o]) (d_nodes d) ||
  existsb (fun r => teq e (c_repo_path r) path && commit_check (filter (fun x => beq (oid (fst x)) (oid o)) roots) r) (d_commits d).
Lemma repo_holds : forall objs roots e d path, (forall o, In o objs -> obj_id o (oid o)) -> collision_free (fun o => In o objs) ->
  (forall o h, In (o, h) roots -> In o objs /\ id_ok h /\ commit_root (snd o) h) ->
  forallb (held e d path roots) objs = true -> forall o, In o objs -> repo_objects e d path o.
Proof.
  intros objs roots e d path Id Cf Hr H o Ho. rewrite forallb_forall in H. apply H in Ho as K. apply orb_true_iff in K as [K|K].
  - apply existsb_exists in K as (r & Hin & K). destruct (row_checked [o] r) as (x & [<-|[]] & Nf); [intros x [<-|[]]; auto|exact K|]. left. eauto.
  - apply existsb_exists in K as (r & Hin & K). apply andb_true_iff in K as [T K].
    destruct (commit_checked (filter (fun x => beq (oid (fst x)) (oid o)) roots) r) with (2 := K) as (x & h & Hx & Cx & _).
    + intros x h Hx. apply filter_In in Hx as [Hx _]. destruct (Hr x h Hx) as (Hi & R). split; [exact (Id _ Hi)|exact R].
    + apply filter_In in Hx as [Hx E]. apply beq_eq in E. cbn [fst] in E. right. exists r. split; [exact Hin|]. split; [exact T|].
      assert (x = o) as <-; [|exact Cx]. pose proof (proj1 (Hr _ _ Hx)) as Hi. apply (Cf x o (oid o) Hi Ho); [rewrite <- E|]; apply Id; assumption.
Qed.
Lemma reach_same : forall (A B : object -> Prop), (forall o, A o <-> B o) -> forall o, reach A o <-> reach B o.
Proof. intros A B H o. split; apply reach_mono; intros x Hx; apply H; exact Hx. Qed.
Lemma ex_held : forallb (held ex_env (w_db ex_world) (bs "/demo") [(ex_top, oid ex_root)]) ex_hist = true.
Proof. vm_compute. reflexivity. Qed.
Lemma ex_roots : forall o h, In (o, h) [(ex_top, oid ex_root)] -> In o ex_hist /\ id_ok h /\ commit_root (snd o) h.
Proof. intros o h H. apply one_pair in H as [-> ->]. split; [left; reflexivity|]. split; [apply oid_ok, tree_base|exact ex_top_root]. Qed.
Lemma ex_objects : forall o, repo_objects ex_env (w_db ex_world) (bs "/demo") o <-> In o ex_hist.
Proof.
  intros o. split.
  - apply (repo_within _ [(ex_top, oid ex_root)]); [exact ex_id_ok|exact ex_roots|exact ex_rows_sound|exact ex_commits_sound].
  - apply (repo_holds _ [(ex_top, oid ex_root)]); [exact ex_id_ok|exact (hs_free _ _ (proj1 (ex_hist_ok (bs "/demo") eq_refl)))|exact ex_roots|exact ex_held].
Qed.
Example C83_ex : let old := repo_objects ex_env (w_db ex_world) (bs "/demo") in
  env_ok ex_env /\ teq_equiv ex_env /\ codec_ok stored /\ refs_table (w_db ex_world) /\ elsewhere ex_env (bs "/demo") [push_other; push_other] /\
  no_failure ex_after /\ honest_db ex_env (w_db ex_world) (bs "/demo") /\ complete old /\ acyclic old /\ few (reach old) /\
  (exists d, old (Commit, d)) /\ collision_free (repo_objects ex_env (w_db ex_after) (bs "/demo")) /\
  reach old ex_blob /\ nlen (d_nodes (w_db ex_world)) < nlen (d_nodes (w_db ex_after)).
Proof.
  intros old. destruct (ex_hist_ok (bs "/demo") eq_refl) as [[H1 H2 H3 H4 H5] _].
  split; [exact ex_env_ok|]. split; [exact ex_equiv|]. split; [exact stored_ok|]. split; [exact ex_world_table|]. split; [exact push_other_elsewhere|].
  split; [apply serve_all_quiet; [exact ex_env_ok|exact ex_world_quiet]|]. split; [exact (sound_honest _ _ _ ex_world_sound)|]. split; [|split; [|split; [|split; [|split; [|split]]]]].
  - intros o t h Ho Rf. apply (reach_same _ _ ex_objects) in Ho. destruct (H2 o t h Ho Rf) as (N & d & Hd & Hi). split; [exact N|].
    exists d. split; [apply ex_objects; exact Hd|exact Hi].
  - destruct H4 as (rank & H4). exists rank. intros d h h' Hd. apply H4, ex_objects. exact Hd.
  - apply ex_few. intros o Ho. apply ex_objects. exact (reach_S _ _ Ho).
  - exists (snd ex_top). apply ex_objects. left. reflexivity.
  - exact ex_after_free.
  - apply (reach_same _ _ ex_objects). exact ex_blob_reached.
  - destruct C82_ex as (_ & _ & _ & _ & _ & A & B & _). rewrite A, B. reflexivity.
Qed.

(** An update from an id that no reference has: the rows are stored, then the request
    aborts. *)
Definition lost_update : bytes := push_body (repeat 97 40) (to_plain_str (oid ex_top3)) (bs "refs/heads/master") ex_caps (pack_of ex_hist3).
Definition lost_run := http_receive_pack ex_env Release stored 50 8 (bs "/demo") lost_update ex_world.
Definition is_panic {A} (r : res A) : bool := match r with Panic => true | _ => false end.
Lemma panicked : forall A (r : res A), is_panic r = true -> r = Panic.
Proof. intros A r H. destruct r; try discriminate H. reflexivity. Qed.
Definition lost_check : list bool :=
  [is_panic (snd lost_run); nlen (d_nodes (w_db (fst lost_run))) =? 6; nlen (d_commits (w_db (fst lost_run))) =? 2; nlen (w_log (fst lost_run)) =? nlen (w_log ex_world) + 2].
Lemma lost_checked : all_of lost_check = true.
Proof. vm_compute. reflexivity. Qed.
Example C84_ex : exists w', lost_run = (w', Panic) /\
  nlen (d_nodes (w_db w')) = 6 /\ nlen (d_commits (w_db w')) = 2 /\ nlen (w_log w') = nlen (w_log ex_world) + 2 /\ d_refs (w_db ex_world) = [ex_ref].
Proof.
  exists (fst lost_run). split; [|split; [|split; [|split]]].
  - rewrite <- (panicked _ _ (all_of_in lost_check 0 _ lost_checked eq_refl)). apply surjective_pairing.
  - apply N.eqb_eq. exact (all_of_in lost_check 1 _ lost_checked eq_refl).
  - apply N.eqb_eq. exact (all_of_in lost_check 2 _ lost_checked eq_refl).
  - apply N.eqb_eq. exact (all_of_in lost_check 3 _ lost_checked eq_refl).
  - exact ex_world_refs.
Qed.
(** An update of which all statements but the last succeed: not answered, and moved. *)
Definition with_outcomes (w : world) (f : list bool) : world := mkWorld (w_db w) (w_log w) f (w_tick w) (w_files w).
Lemma outcomes_db : forall w f, w_db (with_outcomes w f) = w_db w.
Proof. reflexivity. Qed.
Notation unread_start := (with_outcomes ex_world [false; false; false; false; true]).
Notation unread_run := (http_receive_pack ex_env Release stored 50 8 (bs "/demo") ex_body2 unread_start).
Definition sole_at (id : bytes) (l : list ref_row) : bool := match l with [r] => beq (r_ref_git_id r) id | _ => false end.
Definition unread_check : list bool :=
  [is_panic (snd unread_run); sole_at (to_plain_str (oid ex_second)) (d_refs (w_db (fst unread_run))); negb (sole_at (to_plain_str (oid ex_second)) [ex_ref])].
Lemma unread_checked : all_of unread_check = true.
Proof. vm_compute. reflexivity. Qed.
Lemma unread_panics : snd unread_run = Panic.
Proof. apply panicked. exact (all_of_in unread_check 0 _ unread_checked eq_refl). Qed.
Lemma unread_moves : ~ refs_kept (w_db ex_world) (w_db (fst unread_run)).
Proof.
  unfold refs_kept. rewrite ex_world_refs. intros K.
  assert (N : sole_at (to_plain_str (oid ex_second)) (d_refs (w_db (fst unread_run))) = true) by exact (all_of_in unread_check 1 _ unread_checked eq_refl).
  assert (N2 : negb (sole_at (to_plain_str (oid ex_second)) [ex_ref]) = true) by exact (all_of_in unread_check 2 _ unread_checked eq_refl).
  rewrite K in N. rewrite N in N2. discriminate N2.
Qed.
Lemma panic_pair : forall A (x : world * res A), snd x = Panic -> x = (fst x, Panic).
Proof. intros A [w r] H. cbn [snd] in H. rewrite H. reflexivity. Qed.
Theorem C84_refuted : exists e m c fuel now path body w w', env_ok e /\ codec_ok c /\ refs_table (w_db w) /\
  http_receive_pack e m c fuel now path body w = (w', Panic) /\ ~ refs_kept (w_db w) (w_db w').
Proof.
  exists ex_env, Release, stored, 50%nat, 8, (bs "/demo"), ex_body2, unread_start, (fst unread_run).
  split; [exact ex_env_ok|]. split; [exact stored_ok|]. rewrite outcomes_db. split; [exact ex_world_table|]. split; [exact (panic_pair _ _ unread_panics)|exact unread_moves].
Qed.
(** All premises of C85: a push of [ex_hist] to an empty server, then its clone. *)
Example C85_ex : exists objs, (forall d, pieces 65515 d (ex_cut d)) /\ teq_equiv ex_env /\ codec_ok stored /\
  refs_table (w_db (world_of db_empty)) /\ commits_at ex_env (w_db (world_of db_empty)) (bs "/demo") = [] /\
  push_request (repeat 48 40) (to_plain_str (oid ex_top)) (bs "refs/heads/master") ex_caps (pack_of ex_hist) ex_body /\
  git_pack stored (get_hash_object ex_env (world_of db_empty)) (pack_of ex_hist) objs /\ history (bs "/demo") (map snd objs) /\
  (exists d, In (Commit, d) (map snd objs)) /\
  gateway MPost (bs "/demo.git/git-receive-pack") None no_query = Ok (AReceivePack (bs "/demo")) /\
  gateway MPost (bs "/demo.git/git-upload-pack") None no_query = Ok (AUploadPack (bs "/demo")) /\ clone_request clone_body /\
  elsewhere ex_env (bs "/demo") [push_other; push_other] /\
  collision_free (repo_objects ex_env (w_db ex_after) (bs "/demo")).
Proof.
  destruct (ex_pack (get_hash_object ex_env (world_of db_empty))) as (objs & G & E). exists objs. rewrite E.
  split; [exact ex_cut_ok|]. split; [exact ex_equiv|]. split; [exact stored_ok|].
  split; [split; [constructor|intros r []]|]. split; [reflexivity|].
  split; [apply push_body_request; rewrite !nlen_app, (plain_len _ ex_top_id); vm_compute; discriminate|]. split; [exact G|].
  split; [apply ex_hist_ok; reflexivity|]. split; [exists (snd ex_top); left; reflexivity|].
  split; [exact push_demo_at|]. split; [exact clone_demo_at|]. split; [exact clone_body_ok|]. split; [exact push_other_elsewhere|exact ex_after_free].
Qed.

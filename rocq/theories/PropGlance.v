(** C145: clients that look at a directory of a repository at the same time. *)

From Coq Require Import Permutation Sorted.
From Verif Require Import Base BaseLemmas Digest ModelUtils ModelObject ModelBase ModelPack ModelDecode ModelPkt ModelStorage ModelProto
  ModelLfs ModelGateway ModelService ModelConc StoredZlib SpecObject SpecIdx SpecBase SpecPack SpecPkt SpecPath SpecStorage SpecProto SpecGateway SpecService
  SpecConc ProofObject ProofUtf8 ProofBase ProofPack ProofPkt ProofReq ProofPath ProofEncode ProofNodes ProofStorage ProofPush ProofClone ProofRepo ProofRefs
  ProofSession ProofGraph ProofExample PropPkt PropStorage PropProto PropGateway ProofService PropService ProofConc ProofWhole ProofSnapshot PropConc.
From Verif Require PropOnce PropPath.
Open Scope N_scope.

(** ** Vocabulary *)

(** Requests over HTTP that show the references of [path], and fetches from anywhere. *)
Inductive glances (path : bytes) : request -> Prop :=
| gl_show : forall now m url s q body v, gateway m url s q = Ok (AInfoRefs (service_text v) path) -> glances path (QHttp now m url s q body)
| gl_fetch : forall now m url s q body p, gateway m url s q = Ok (AUploadPack p) -> glances path (QHttp now m url s q body).

(** What one look may leave behind: a row for the commit and a row for the reference. *)
Record seen (d0 : db) (path name id : bytes) (row : commit_row) (d : db) : Prop := {
  sn_nodes : d_nodes d = d_nodes d0;
  sn_commits : exists l, d_commits d = d_commits d0 ++ l /\ forall x, In x l -> x = row;
  sn_refs : exists l, d_refs d = d_refs d0 ++ l /\
    forall x, In x l -> r_repo_path x = path /\ r_ref_name x = name /\ r_ref_git_id x = id }.

(** ** One request among them *)

Section Glance.
Context (e : env) (He : env_ok e) (d0 : db) (path name g m : bytes) (tid h h' : hash) (ps : list hash) (au co : sign) (msg d' : bytes).
Context (Hn : forall r, In r (d_refs d0) -> is_head e path r -> within path (r_repo_path r) ->
  r_repo_path r <> path /\ r_ref_name r = name /\ r_ref_git_id r = g).
Context (Hh : exists r, In r (d_refs d0) /\ is_head e path r /\ within path (r_repo_path r)).
Context (Hc : forall row, In row (d_commits d0) -> teq e (c_git_id row) g = true -> c_meta row = m).
Context (Hf : forall n, found_node e d0 path n -> n_git_id n = to_plain_str h) (Hx : exists n, found_node e d0 path n).
Context (Sh : short_refs d0) (Oh : id_ok h').
Let id := to_plain_str h'.
Let row0 := mkCommitRow id (to_plain_str h) d' path.
Let cm0 := mkCommit (as_meta (Commit, d') h') h [] au co msg.
Context (Hb : forall row n, c_meta row = m -> n_git_id n = to_plain_str h -> build_from_model_and_root row n = Ok cm0).
Context (Ng : teq e id g = false).

Let V := seen d0 path name id row0.
Let G (d d1 : db) : Prop := nothing_lost d d1 /\ V d1.
Lemma g_same : forall d, V d -> G d d.
Proof. intros d Vd. split; [apply lost_refl|exact Vd]. Qed.
Lemma g_lost : forall d d1, G d d1 -> nothing_lost d d1.
Proof. intros d d1 [L _]. exact L. Qed.
Notation holds := (hold e G V).

Lemma gl_one : forall T (q : db -> list T) (Q : option T -> db -> Prop) d, V d ->
  (forall d1, V d1 -> (forall x, In x (q d1) -> Q (Some x) d1) /\ (q d1 = [] -> Q None d1)) -> holds Q (one_row q) d.
Proof.
  intros T q Q d Vd H. unfold one_row. apply (hold_bind e G V g_lost _ _ (fun l d1 => match l with [] => Q None d1 | x :: _ => Q (Some x) d1 end)); [|exact Vd|].
  - apply hold_select; [exact He|exact g_same|]. intros d1 l V1 _ P. destruct (H d1 V1) as [H1 H2]. destruct l as [|x l].
    + apply H2. apply Permutation_nil. exact P.
    + apply H1. apply (Permutation_in _ P). left. reflexivity.
  - intros l d1 V1 _ K. apply hold_ret. destruct l; exact K.
Qed.
Lemma gl_root : forall d, V d -> holds (fun o _ => exists n, o = Some n /\ n_git_id n = to_plain_str h) (search_root_p e path) d.
Proof.
  intros d Vd. unfold search_root_p. destruct (file_name path) as [nm|] eqn:F; [|apply hold_lift; intros a Ea; discriminate Ea].
  pose proof (proj1 (file_name_last _ _) F) as Ln. unfold pbind at 1. cbn [unwrap_opt then_any].
  apply (hold_bind e G V g_lost _ _ (fun o d1 => match o with Some n => n_git_id n = to_plain_str h | None => forall x, In x (d_nodes d0) -> teq e (n_name x) nm = false end)); [|exact Vd|].
  - apply gl_one; [exact Vd|]. intros d1 V1. rewrite (sn_nodes _ _ _ _ _ _ V1). split.
    + intros x K. apply filter_In in K as [K1 K2]. apply Hf. exists nm. split; [exact Ln|]. auto.
    + intros K x K1. destruct (teq e (n_name x) nm) eqn:T; [|reflexivity].
      assert (B : In x []) by (rewrite <- K; apply filter_In; auto). destruct B.
  - intros [n|] d1 V1 _ K; [apply hold_ret; eauto|]. apply gl_one; [exact V1|]. intros d2 V2. rewrite (sn_nodes _ _ _ _ _ _ V2). split.
    + intros x K1. apply filter_In in K1 as [K1 K2]. exists x. split; [reflexivity|]. apply Hf. exists nm. split; [exact Ln|]. auto.
    + intros K1. destruct Hx as (n & nm' & Ln' & I1 & [T|[_ T]]).
      * apply file_name_last in Ln'. rewrite F in Ln'. injection Ln' as <-. rewrite (K n I1) in T. discriminate T.
      * assert (B : In n []) by (rewrite <- K1; apply filter_In; auto). destruct B.
Qed.
Lemma gl_child : forall r d, V d -> r_ref_name r = name -> r_ref_git_id r = g -> holds (fun i _ => i = id) (child_p e r path) d.
Proof.
  intros r d Vd E1 E2. unfold child_p. rewrite E1, E2.
  apply (hold_bind e G V g_lost _ _ (fun o _ => forall row, o = Some row -> c_meta row = m)); [|exact Vd|].
  { apply gl_one; [exact Vd|]. intros d1 V1. split; [|intros _ row E; discriminate E]. intros x K row E. injection E as <-.
    apply filter_In in K as [K1 K2]. destruct (sn_commits _ _ _ _ _ _ V1) as (l & El & Hl). rewrite El in K1. apply in_app_iff in K1 as [K1|K1]; [exact (Hc _ K1 K2)|].
    rewrite (Hl _ K1) in K2. cbn [c_git_id row0] in K2. rewrite Ng in K2. discriminate K2. }
  intros o d1 V1 _ Ho. destruct o as [row|]; [|apply hold_lift; intros a Ea; discriminate Ea]. unfold pbind at 1. cbn [unwrap_opt then_any].
  specialize (Ho row eq_refl). eapply hold_bind; [exact g_lost|apply gl_root; exact V1|exact V1|]. intros o d2 V2 _ (n & -> & En).
  rewrite (Hb row n Ho En). unfold pbind at 1. cbn [then_any].
  change (to_plain_str (m_id (cm_meta cm0))) with id.
  apply (hold_bind e G V g_lost _ _ (fun _ _ => True)); [|exact V2|].
  { unfold save_commits_p. cbn [length map chunks firstn skipn insert_all_p]. change (commit_to_row path cm0) with row0.
    apply (hold_bind e G V g_lost _ _ (fun _ _ => True)); [|exact V2|intros; apply hold_ret; exact I].
    apply hold_execute; [exact g_same| |auto]. intros d3 d4 V3 _ E. split; [|auto]. unfold insert_commits in E. destruct (forallb commit_fits [row0]); [|discriminate E].
    injection E as <-. destruct V3 as [N3 (l & El & Hl) R3]. split.
    - split; cbn [d_nodes d_commits d_refs]; eexists; try (symmetry; apply app_nil_r). reflexivity.
    - split; cbn [d_nodes d_commits d_refs]; [exact N3| |exact R3]. exists (l ++ [row0]). rewrite El, app_assoc. split; [reflexivity|].
      intros x K. apply in_app_iff in K as [K|[<-|[]]]; [exact (Hl _ K)|reflexivity]. }
  intros _ d3 V3 _ _. apply (hold_bind e G V g_lost _ _ (fun _ _ => True)); [|exact V3|intros; apply hold_ret; reflexivity].
  cbn [insert_all_p]. apply (hold_bind e G V g_lost _ _ (fun _ _ => True)); [|exact V3|intros; apply hold_ret; exact I].
  apply hold_execute; [exact g_same| |auto]. intros d4 d5 V4 _ E. split; [|auto]. unfold insert_ref in E. destruct (ref_fits _); [|discriminate E].
  injection E as <-. destruct V4 as [N4 C4 (l & El & Hl)]. split.
  - split; cbn [d_nodes d_commits d_refs]; eexists; try (symmetry; apply app_nil_r). rewrite map_app. reflexivity.
  - split; cbn [d_nodes d_commits d_refs]; [exact N4|exact C4|]. eexists (l ++ [_]). rewrite El, app_assoc. split; [reflexivity|].
    intros x K. apply in_app_iff in K as [K|[<-|[]]]; [exact (Hl _ K)|]. cbn. auto.
Qed.
Lemma gl_head : forall d, V d -> holds (fun i _ => i = id) (head_p e path) d.
Proof.
  intros d Vd. unfold head_p.
  apply (hold_bind e G V g_lost _ _ (fun rows d1 => forall r, In r rows <-> In r (d_refs d1) /\ is_head e path r)); [|exact Vd|].
  { apply hold_select; [exact He|exact g_same|]. intros d1 l V1 _ P r.
    transitivity (In r (filter (fun r => like e path (r_repo_path r) && teq e (r_ref_name r) master) (d_refs d1))).
    - split; apply Permutation_in; [exact P|apply Permutation_sym; exact P].
    - rewrite filter_In, andb_true_iff. reflexivity. }
  intros rows d1 V1 _ Hin. destruct (sn_refs _ _ _ _ _ _ V1) as (l & El & Hl).
  destruct (find (fun r => beq path (r_repo_path r)) rows) as [r|] eqn:F1.
  { apply hold_ret. apply find_some in F1 as [K1 K2]. apply beq_eq in K2. apply Hin in K1 as [K1 K3]. rewrite El in K1. apply in_app_iff in K1 as [K1|K1].
    - destruct (Hn r K1 K3) as [K4 _]; [rewrite <- K2; apply PropPath.within_refl|]. destruct K4. auto.
    - apply Hl. exact K1. }
  destruct (find (fun r => path_starts_with path (r_repo_path r)) rows) as [r|] eqn:F2.
  - apply find_some in F2 as [K1 K2]. apply starts_with_within in K2. pose proof (find_none _ _ F1 r K1) as K3. cbn beta in K3. apply Hin in K1 as [K1 K4].
    rewrite El in K1. apply in_app_iff in K1 as [K1|K1].
    + destruct (Hn r K1 K4 K2) as (_ & E1 & E2). apply gl_child; assumption.
    + destruct (Hl _ K1) as (E & _). rewrite E, beq_refl in K3. discriminate K3.
  - destruct Hh as (r & K1 & K2 & K3). apply starts_with_within in K3. pose proof (find_none _ _ F2 r) as K4. cbn beta in K4. rewrite K3 in K4.
    discriminate K4. apply Hin. split; [rewrite El; apply in_or_app; left; exact K1|exact K2].
Qed.

(** The replies to requests that show the references. *)
Definition shown_as (v : service) (reply : bytes) : Prop := exists refs, advert true v id refs reply /\
  forall i n, In (i, n) refs -> i = id /\ n = name \/ exists r, In r (d_refs d0) /\ r_ref_git_id r = i /\ r_ref_name r = n.
Lemma gl_info : forall v d, V d -> holds (fun reply _ => shown_as v reply) (http_info_refs_p e path (service_text v)) d.
Proof.
  intros v d Vd. unfold http_info_refs_p.
  assert (Ep : proto_new path (service_text v) Http = Ok (mkProto Http path (Some v) [] [])) by (destruct v; reflexivity). rewrite Ep.
  unfold pbind at 1. cbn [then_any]. unfold info_refs_p. cbn [pp_service pp_path pp_protocol unwrap_opt]. unfold pbind at 1. cbn [then_any].
  eapply hold_bind; [exact g_lost|apply gl_head; exact Vd|exact Vd|]. intros i d1 V1 _ ->.
  apply (hold_bind e G V g_lost _ _ (fun refs _ => forall i n, In (i, n) refs -> i = id /\ n = name \/ exists r, In r (d_refs d0) /\ r_ref_git_id r = i /\ r_ref_name r = n)); [|exact V1|].
  - unfold get_ref_object_id_p.
    apply (hold_bind e G V g_lost _ _ (fun rows _ => forall r, In r rows -> In r (d_refs d0) \/ r_ref_git_id r = id /\ r_ref_name r = name)); [|exact V1|].
    + apply hold_select; [exact He|exact g_same|]. intros d2 l V2 _ P r K. apply (Permutation_in _ P) in K. apply filter_In in K as [K _].
      destruct (sn_refs _ _ _ _ _ _ V2) as (l2 & El & Hl). rewrite El in K. apply in_app_iff in K as [K|K]; [left; exact K|right; split; apply Hl; exact K].
    + intros rows d2 V2 _ K. apply hold_shuffle; [exact He|exact g_same|]. intros d3 l V3 _ P i n In1. apply (Permutation_in _ P) in In1.
      destruct (fold_refs rows [] (SSorted_nil _)) as (_ & B & _ & _). destruct (B i n In1) as [[]|(r & Hr & E1 & E2)].
      destruct (K r Hr) as [K1|[K1 K2]]; [right; eauto|left; split; congruence].
  - intros refs d2 V2 _ K. apply hold_ret. exists refs. split; [|exact K].
    assert (Li : nlen id <= 160) by (unfold id; rewrite (plain_len _ Oh); lia).
    assert (Ln : nlen name <= 128) by (destruct Hh as (r & K1 & K2 & K3); destruct (Hn r K1 K2 K3) as (_ & <- & _); apply (Sh r K1)).
    apply (advert_ok Http); [apply head_line_short; exact Li|]. apply Forall_forall. intros [i n] Hi. unfold ref_line. cbn [fst snd]. rewrite !nlen_app.
    assert (nlen (bs " ") + nlen [10] = 2) by reflexivity.
    destruct (K i n Hi) as [[-> ->]|(r & Hr & <- & <-)]; [lia|]. destruct (Sh r Hr). lia.
Qed.

(** All of them, whatever the order of their actions. *)
Context (b : build) (cd : codec) (fuel : nat) (cut : bytes -> list bytes) (rs : list request) (Hr : Forall (glances path) rs).
Let Q (i : nat) (reply : bytes) (_ : db) : Prop := forall now mt url s q body v, nth_error rs i = Some (QHttp now mt url s q body) ->
  gateway mt url s q = Ok (AInfoRefs (service_text v) path) -> shown_as v reply.
Lemma gl_all : forall d, V d -> all_hold e (fun _ => G) V Q (started e b cd fuel cut rs) d.
Proof.
  intros d Vd i p N. unfold started in N. rewrite nth_error_map in N. destruct (nth_error rs i) as [r|] eqn:E; [|discriminate N]. injection N as <-.
  rewrite Forall_forall in Hr. pose proof (Hr r (nth_error_In _ _ E)) as K. inversion K as [now mt url s q body v Ga Er|now mt url s q body p Ga Er]; subst r; unfold serve_p; rewrite Ga;
    unfold pbind at 1; cbn [then_any].
  - apply (hold_weaken e G V _ (fun reply _ => shown_as v reply)); [|exact Vd|apply gl_info; exact Vd].
    intros reply d1 _ S now2 mt2 url2 s2 q2 body2 v2 E2 Ga2. rewrite E in E2. injection E2 as <- <- <- <- <- <-. rewrite Ga in Ga2. injection Ga2 as Ev.
    assert (Ev' : v = v2) by (destruct v, v2; try reflexivity; discriminate Ev). rewrite <- Ev'. exact S.
  - apply (hold_weaken e G V _ (fun _ _ => True)); [|exact Vd|apply (safe_http_upload e He G V g_same g_lost); exact Vd].
    intros reply d1 _ _ now2 mt2 url2 s2 q2 body2 v2 E2 Ga2. rewrite E in E2. injection E2 as <- <- <- <- <- <-. rewrite Ga in Ga2. discriminate Ga2.
Qed.
Lemma gl_start : V d0.
Proof. split; [reflexivity| |]; exists []; rewrite app_nil_r; (split; [reflexivity|intros ? []]). Qed.
Lemma gl_run : forall schedule w, w_db w = d0 ->
  all_hold e (fun _ => G) V Q (fst (interleave e schedule (started e b cd fuel cut rs) w)) (w_db (snd (interleave e schedule (started e b cd fuel cut rs) w))) /\
  V (w_db (snd (interleave e schedule (started e b cd fuel cut rs) w))).
Proof.
  intros schedule w Ew.
  assert (Pre : forall s, V (w_db (snd (interleave e s (started e b cd fuel cut rs) w)))).
  { intros s. destruct (interleave_chain e (fun _ => G) V Q) with (schedule := s) (ts := started e b cd fuel cut rs) (w := w) as (k & _ & _ & K); [intros _; exact g_lost| | | | |exact K].
    - intros i a x y K _. exact K.
    - intros _ x y _ [_ K]. exact K.
    - rewrite Ew. exact gl_start.
    - rewrite Ew. apply gl_all. exact gl_start. }
  split; [|apply Pre]. apply (interleave_holds e (fun _ => G) V Q).
  - intros _. exact g_lost.
  - intros i a x y K _. exact K.
  - intros s1 s2 _. apply Pre.
  - rewrite Ew. apply gl_all. exact gl_start.
Qed.
End Glance.

(** ** C145: clients that look at a directory of a repository at the same time *)

(** Any number of clients ask for the references of a directory below a repository, others
    fetch, in any order of their actions and whatever statements fail. One commit [id] is
    made for the directory, as C57 says; unless it is the head of the repository itself,
    every client is shown [id], and all that is ever added are copies of one row for the
    commit and rows that give the directory the one name for [id]. *)
Theorem C145_alike : forall e b cd fuel cut rs schedule w path name g m tid ps au co msg h, env_ok e -> short_refs (w_db w) ->
  (forall r, In r (d_refs (w_db w)) -> is_head e path r -> within path (r_repo_path r) -> r_repo_path r <> path /\ r_ref_name r = name /\ r_ref_git_id r = g) ->
  (exists r, In r (d_refs (w_db w)) /\ is_head e path r /\ within path (r_repo_path r)) ->
  (forall row, In row (d_commits (w_db w)) -> teq e (c_git_id row) g = true -> c_meta row = m) ->
  git_commit tid ps au co msg m -> ident_of (bs "author") au -> ident_of (bs "committer") co -> utf8_text msg ->
  (forall n, found_node e (w_db w) path n -> lower_hex (n_git_id n) h) -> (exists n, found_node e (w_db w) path n) -> id_ok h ->
  Forall (glances path) rs ->
  let ts := started e b cd fuel cut rs in
  exists id th d' h', git_commit h [] au co msg d' /\ obj_id (Commit, d') h' /\ lower_hex id h' /\ lower_hex th h /\
    (teq e id g = false ->
      (forall d, moment e schedule ts w d -> seen (w_db w) path name id (mkCommitRow id th d' path) d) /\
      (forall i now mt url s q body v reply, nth_error rs i = Some (QHttp now mt url s q body) -> gateway mt url s q = Ok (AInfoRefs (service_text v) path) ->
        replied (fst (interleave e schedule ts w)) i reply ->
        exists refs, advert true v id refs reply /\
          forall i n, In (i, n) refs -> i = id /\ n = name \/ exists r, In r (d_refs (w_db w)) /\ r_ref_git_id r = i /\ r_ref_name r = n)).
Proof.
  intros e b cd fuel cut rs schedule w path name g m tid ps au co msg h He Sh Hn Hh Hc Gm Ha Hco Hm Hf Hx Oh Hr ts.
  destruct Hx as (n0 & Hn0). pose proof (lower_hex_plain _ _ (Hf _ Hn0)) as En0.
  destruct (child_commit (mkCommitRow [] [] m []) n0 m tid ps au co msg h eq_refl Gm Ha Hco Hm Oh En0) as (d' & h' & Eb & Hi & G').
  exists (to_plain_str h'), (to_plain_str h), d', h'. split; [exact G'|]. split; [exact Hi|]. split; [apply plain_lower, (obj_id_ok _ _ Hi)|].
  split; [apply plain_lower; exact Oh|]. intros Ng.
  assert (Hb : forall row n, c_meta row = m -> n_git_id n = to_plain_str h -> build_from_model_and_root row n = Ok (mkCommit (as_meta (Commit, d') h') h [] au co msg)).
  { intros row n E1 E2. rewrite <- Eb. unfold build_from_model_and_root. rewrite E1, E2, En0. reflexivity. }
  assert (Hf' : forall n, found_node e (w_db w) path n -> n_git_id n = to_plain_str h) by (intros n Kn; apply lower_hex_plain, Hf; exact Kn).
  assert (Run : forall s, let F := interleave e s ts w in
    all_hold e (fun _ d d1 => nothing_lost d d1 /\ seen (w_db w) path name (to_plain_str h') (mkCommitRow (to_plain_str h') (to_plain_str h) d' path) d1)
      (seen (w_db w) path name (to_plain_str h') (mkCommitRow (to_plain_str h') (to_plain_str h) d' path))
      (fun i reply _ => forall now mt url s q body v, nth_error rs i = Some (QHttp now mt url s q body) -> gateway mt url s q = Ok (AInfoRefs (service_text v) path) ->
        shown_as (w_db w) name h' v reply) (fst F) (w_db (snd F)) /\
    seen (w_db w) path name (to_plain_str h') (mkCommitRow (to_plain_str h') (to_plain_str h) d' path) (w_db (snd F))).
  { intros s F. apply (gl_run e He (w_db w) path name g m h h' au co msg d' Hn Hh Hc Hf' (ex_intro _ n0 Hn0) Sh (obj_id_ok _ _ Hi) Hb Ng b cd fuel cut rs Hr s w eq_refl). }
  split.
  - intros d (s1 & s2 & _ & ->). apply (Run s1).
  - intros i now mt url s q body v reply Ni Ga Re. destruct (Run schedule) as [K _]. specialize (K i _ Re). cbn [hold] in K.
    exact (K reply eq_refl now mt url s q body v Ni Ga).
Qed.

(** Two clients look at /demo/lib at once; then one pushes to it. *)
Definition lib : bytes := bs "/demo/lib".
Definition glance : request := QHttp 8 MGet (bs "/demo/lib.git/info/refs") (Some (bs "git-upload-pack")) no_query [].
Definition glance_order : list nat := [0; 1]%nat ++ repeat 0%nat 10 ++ repeat 1%nat 10.
Definition glance_start := started ex_env Release stored 50 ex_cut [glance; glance].
Definition glance_run := interleave ex_env glance_order glance_start ex_world.
Definition lib_body : bytes := push_body (r_ref_git_id ex_child) (to_plain_str (oid ex_second)) (bs "refs/heads/master") ex_caps (pack_of ex_full).
Definition push_lib : request := QHttp 10 MPost (bs "/demo/lib.git/git-receive-pack") None no_query lib_body.
Definition two_refs (d : db) : bool :=
  match d_refs d with [_; a; b] => beq (r_repo_path a) lib && beq (r_repo_path b) lib && beq (r_ref_name a) (r_ref_name b) && negb (beq (r_ref_git_id a) (r_ref_git_id b)) | _ => false end.
Definition is_ok (r : res bytes) (x : bytes) : bool := match r with Ok y => beq x y | _ => false end.
Definition lib_listing : list (bytes * bytes) := [(r_ref_git_id ex_child, bs "refs/heads/master" ++ [0])].
Definition lib_shown : bytes := info_refs Http UploadPack (r_ref_git_id ex_child) lib_listing.
Definition lib_pushed := serve ex_env Release stored 50 ex_cut push_lib (snd glance_run).
Definition lib_apart := serve ex_env Release stored 50 ex_cut push_lib (serve_all ex_env Release stored 50 ex_cut [glance; glance] ex_world).
Definition two_paths (d : db) : bool := match d_refs d with [a; b] => negb (beq (r_repo_path a) (r_repo_path b)) | _ => false end.
Definition glance_check : list bool :=
  [replied_with (fst glance_run) 0 lib_shown; replied_with (fst glance_run) 1 lib_shown;
   is_ok (snd lib_pushed) (ok_reply (r_ref_git_id ex_child) (to_plain_str (oid ex_second))); two_refs (w_db (fst lib_pushed));
   is_ok (snd lib_apart) (ok_reply (r_ref_git_id ex_child) (to_plain_str (oid ex_second)));
   two_paths (w_db (fst lib_apart))].
Lemma glance_checked : all_of glance_check = true.
Proof. vm_compute. reflexivity. Qed.
Lemma lib_show_at : gateway MGet (bs "/demo/lib.git/info/refs") (Some (bs "git-upload-pack")) no_query = Ok (AInfoRefs (service_text UploadPack) lib).
Proof. vm_compute. reflexivity. Qed.
Lemma lib_push_at : gateway MPost (bs "/demo/lib.git/git-receive-pack") None no_query = Ok (AReceivePack lib).
Proof. vm_compute. reflexivity. Qed.
Lemma two_glances : Forall (glances lib) [glance; glance].
Proof. repeat constructor; apply (gl_show _ _ _ _ _ _ _ UploadPack); exact lib_show_at. Qed.
Lemma is_ok_checked : forall r x, is_ok r x = true -> r = Ok x.
Proof. intros [y| | |] x H; try discriminate H. cbn in H. apply beq_eq in H. congruence. Qed.
Lemma two_refs_checked : forall d, two_refs d = true -> exists a b, In a (d_refs d) /\ In b (d_refs d) /\ r_repo_path a = lib /\ r_repo_path b = lib /\
  r_ref_name a = r_ref_name b /\ r_ref_git_id a <> r_ref_git_id b.
Proof.
  intros d H. unfold two_refs in H. destruct (d_refs d) as [|x [|a [|b [|]]]]; try discriminate H. repeat (apply andb_true_iff in H as [H ?K]).
  exists a, b. cbn [In]. split; [auto|]. split; [auto|]. apply beq_eq in H, K0, K1. split; [exact H|]. split; [exact K1|]. split; [exact K0|].
  intros E. rewrite E, beq_refl in K. discriminate K.
Qed.
Lemma apart_checked : forall d, two_paths d = true -> PropOnce.one_each d.
Proof.
  intros d H. unfold two_paths in H. unfold PropOnce.one_each, PropOnce.ref_keys. destruct (d_refs d) as [|a [|b [|]]]; try discriminate H. cbn [map].
  constructor; [|constructor; [intros []|constructor]]. intros [E|[]]. injection E as E _. rewrite E, beq_refl in H. discriminate H.
Qed.
Lemma lib_request : forall id, nlen id = 40 -> forall body, body = push_body id (to_plain_str (oid ex_second)) (bs "refs/heads/master") ex_caps (pack_of ex_full) ->
  push_request id (to_plain_str (oid ex_second)) (bs "refs/heads/master") ex_caps (pack_of ex_full) body.
Proof. intros id L body ->. apply push_body_request. rewrite !nlen_app, (plain_len _ ex_second_ok), L. vm_compute. discriminate. Qed.
Lemma child_len : nlen (r_ref_git_id ex_child) = 40.
Proof. vm_compute. reflexivity. Qed.
Lemma lib_pushes : push_request (r_ref_git_id ex_child) (to_plain_str (oid ex_second)) (bs "refs/heads/master") ex_caps (pack_of ex_full) lib_body.
Proof. unfold lib_body. apply lib_request; [exact child_len|reflexivity]. Qed.
Lemma pair_of : forall A B (x y : A * B) r, y = x -> snd y = r -> x = (fst y, r).
Proof. intros A B x [a r0] r <- H. cbn in *. congruence. Qed.
Lemma lib_pushed_ok : serve ex_env Release stored 50 ex_cut push_lib (snd glance_run) = (fst lib_pushed, Ok (ok_reply (r_ref_git_id ex_child) (to_plain_str (oid ex_second)))).
Proof. apply pair_of; [unfold lib_pushed; reflexivity|]. apply is_ok_checked. exact (all_of_in glance_check 2 _ glance_checked eq_refl). Qed.
Lemma lib_apart_ok : serve ex_env Release stored 50 ex_cut push_lib (serve_all ex_env Release stored 50 ex_cut [glance; glance] ex_world) = (fst lib_apart, Ok (ok_reply (r_ref_git_id ex_child) (to_plain_str (oid ex_second)))).
Proof. apply pair_of; [unfold lib_apart; reflexivity|]. apply is_ok_checked. exact (all_of_in glance_check 4 _ glance_checked eq_refl). Qed.
Lemma lib_advert : exists refs, advert true UploadPack (r_ref_git_id ex_child) refs lib_shown.
Proof.
  exists lib_listing. unfold lib_shown. pose proof child_len as L. unfold lib_listing. revert L. generalize (r_ref_git_id ex_child) as id. intros id L.
  apply (advert_ok Http); [apply head_line_short; lia|]. constructor; [|constructor]. unfold ref_line. cbn [fst snd]. rewrite !nlen_app, L. vm_compute. discriminate.
Qed.

(** Both are shown the same commit. A push that updates the reference from it is answered
    "ok"; then the one name stands for two commits. If the two had come one after the
    other, the same push would have left each name with one reference. *)
Theorem C145_refuted : exists e b c fuel cut r1 r2 p now m url s q body path id new name caps pack schedule w,
  env_ok e /\ refs_table (w_db w) /\ no_failure w /\ PropOnce.one_each (w_db w) /\ Forall (glances path) [r1; r2] /\
  p = QHttp now m url s q body /\ gateway m url s q = Ok (AReceivePack path) /\ push_request id new name caps pack body /\ id <> new /\
  let F := interleave e schedule (started e b c fuel cut [r1; r2]) w in
  (exists out1 out2 refs1 refs2, replied (fst F) 0 out1 /\ replied (fst F) 1 out2 /\ advert true UploadPack id refs1 out1 /\ advert true UploadPack id refs2 out2) /\
  (exists cl w2 reply, caps_in caps cl /\ serve e b c fuel cut p (snd F) = (w2, Ok reply) /\ status_reply cl [bs "ok " ++ name ++ [0]] reply /\
    exists x y, In x (d_refs (w_db w2)) /\ In y (d_refs (w_db w2)) /\ r_repo_path x = path /\ r_repo_path y = path /\ r_ref_name x = r_ref_name y /\
      r_ref_git_id x <> r_ref_git_id y) /\
  (exists cl w2 reply, caps_in caps cl /\ serve e b c fuel cut p (serve_all e b c fuel cut [r1; r2] w) = (w2, Ok reply) /\
    status_reply cl [bs "ok " ++ name ++ [0]] reply /\ PropOnce.one_each (w_db w2)).
Proof.
  exists ex_env, Release, stored, 50%nat, ex_cut, glance, glance, push_lib, 10, MPost, (bs "/demo/lib.git/git-receive-pack"), None, no_query, lib_body, lib,
    (r_ref_git_id ex_child), (to_plain_str (oid ex_second)), (bs "refs/heads/master"), ex_caps, (pack_of ex_full), glance_order, ex_world.
  split; [exact ex_env_ok|]. split; [exact ex_world_table|]. split; [exact ex_world_quiet|].
  split; [unfold PropOnce.one_each, PropOnce.ref_keys; rewrite ex_world_refs; repeat constructor; intros []|]. split; [exact two_glances|].
  split; [reflexivity|]. split; [exact lib_push_at|]. split; [exact lib_pushes|]. split; [apply beq_neq; vm_compute; reflexivity|].
  intros F. assert (EF : F = glance_run) by (unfold F, glance_run, glance_start; reflexivity). clearbody F. subst F.
  split; [|split].
  - destruct lib_advert as (refs & A). exists lib_shown, lib_shown, refs, refs.
    split; [apply replied_checked; exact (all_of_in glance_check 0 _ glance_checked eq_refl)|].
    split; [apply replied_checked; exact (all_of_in glance_check 1 _ glance_checked eq_refl)|]. split; exact A.
  - exists (parse_capabilities [] ex_caps), (fst lib_pushed), (ok_reply (r_ref_git_id ex_child) (to_plain_str (oid ex_second))).
    split; [exact ex_caps_in|]. split; [|split; [apply status_ok; vm_compute; discriminate|apply two_refs_checked; exact (all_of_in glance_check 3 _ glance_checked eq_refl)]].
    exact lib_pushed_ok.
  - exists (parse_capabilities [] ex_caps), (fst lib_apart), (ok_reply (r_ref_git_id ex_child) (to_plain_str (oid ex_second))).
    split; [exact ex_caps_in|]. split; [|split; [apply status_ok; vm_compute; discriminate|apply apart_checked; exact (all_of_in glance_check 5 _ glance_checked eq_refl)]].
    exact lib_apart_ok.
Qed.

(** The premises of [C145_alike], for these two. *)
Definition some_commit (d : db) : bool := match d_commits d with [] => false | _ => true end.
Definition lib_check : list bool :=
  [forallb (fun n => negb (teq ex_env (n_name n) (bs "lib")) || beq (n_git_id n) (to_plain_str (oid ex_lib))) (d_nodes (w_db ex_world));
   existsb (fun n => teq ex_env (n_name n) (bs "lib")) (d_nodes (w_db ex_world));
   forallb (fun r => beq (c_meta r) (snd ex_top)) (d_commits (w_db ex_world)); some_commit (w_db ex_world)].
Lemma lib_checked : all_of lib_check = true.
Proof. vm_compute. reflexivity. Qed.
Lemma lib_last : last_name lib (bs "lib").
Proof. apply file_name_last. vm_compute. reflexivity. Qed.
Lemma ex_lib_ok : id_ok (oid ex_lib).
Proof. apply oid_ok, tree_base. Qed.
Lemma lib_found : forall n, found_node ex_env (w_db ex_world) lib n -> lower_hex (n_git_id n) (oid ex_lib).
Proof.
  pose proof (all_of_in lib_check 0 _ lib_checked eq_refl) as K0. pose proof (all_of_in lib_check 1 _ lib_checked eq_refl) as K1. rewrite forallb_forall in K0.
  apply existsb_exists in K1 as (x & Hx & Tx). intros n (nm & Ln & Hn & T).
  assert (En : nm = bs "lib") by (apply file_name_last in Ln; pose proof (proj2 (file_name_last _ _) lib_last) as L2; rewrite L2 in Ln; injection Ln as <-; reflexivity). subst nm.
  destruct T as [T|[T _]]; [|rewrite (T x Hx) in Tx; discriminate Tx]. specialize (K0 n Hn). cbn beta in K0. rewrite T in K0. cbn [negb orb] in K0. apply beq_eq in K0.
  rewrite K0. apply plain_lower. exact ex_lib_ok.
Qed.
Lemma lib_exists : exists n, found_node ex_env (w_db ex_world) lib n.
Proof.
  pose proof (all_of_in lib_check 1 _ lib_checked eq_refl) as K1. apply existsb_exists in K1 as (x & Hx & Tx).
  exists x, (bs "lib"). split; [exact lib_last|]. split; [exact Hx|]. left. exact Tx.
Qed.
Lemma lib_heads : forall r, In r (d_refs (w_db ex_world)) -> r_repo_path r <> lib /\ r_ref_name r = bs "refs/heads/master" ++ [0] /\ r_ref_git_id r = to_plain_str (oid ex_top).
Proof. intros r Hr. rewrite ex_world_refs in Hr. destruct Hr as [<-|[]]. split; [discriminate|]. split; reflexivity. Qed.
Lemma lib_below : is_head ex_env lib ex_ref /\ within lib (r_repo_path ex_ref).
Proof. split; [split; vm_compute; reflexivity|]. apply starts_with_within. vm_compute. reflexivity. Qed.
Lemma lib_commit : exists tid ps au co msg, git_commit tid ps au co msg (snd ex_top) /\ ident_of (bs "author") au /\ ident_of (bs "committer") co /\ utf8_text msg.
Proof.
  pose proof (all_of_in lib_check 2 _ lib_checked eq_refl) as K2. pose proof (all_of_in lib_check 3 _ lib_checked eq_refl) as K3. rewrite forallb_forall in K2.
  pose proof (proj2 ex_world_sound) as S. unfold some_commit in K3. destruct (d_commits (w_db ex_world)) as [|row rows]; [discriminate K3|].
  specialize (K2 row (or_introl eq_refl)). apply beq_eq in K2. rewrite <- K2. destruct (S row (or_introl eq_refl)) as (oc & H & _).
  inversion H as [row' h0 tid d Hi0 L0 (ps & a & c & msg & G & Ha & Hcm & Hm) L1 Ed]; subst. exists tid, ps, a, c, msg. auto.
Qed.
Example C145_ex : env_ok ex_env /\ short_refs (w_db ex_world) /\
  (forall r, In r (d_refs (w_db ex_world)) -> is_head ex_env lib r -> within lib (r_repo_path r) ->
    r_repo_path r <> lib /\ r_ref_name r = bs "refs/heads/master" ++ [0] /\ r_ref_git_id r = to_plain_str (oid ex_top)) /\
  (exists r, In r (d_refs (w_db ex_world)) /\ is_head ex_env lib r /\ within lib (r_repo_path r)) /\
  (forall row, In row (d_commits (w_db ex_world)) -> teq ex_env (c_git_id row) (to_plain_str (oid ex_top)) = true -> c_meta row = snd ex_top) /\
  (exists tid ps au co msg, git_commit tid ps au co msg (snd ex_top) /\ ident_of (bs "author") au /\ ident_of (bs "committer") co /\ utf8_text msg) /\
  (forall n, found_node ex_env (w_db ex_world) lib n -> lower_hex (n_git_id n) (oid ex_lib)) /\ (exists n, found_node ex_env (w_db ex_world) lib n) /\ id_ok (oid ex_lib) /\
  Forall (glances lib) [glance; glance] /\ teq ex_env (r_ref_git_id ex_child) (to_plain_str (oid ex_top)) = false /\
  replied (fst glance_run) 0 lib_shown /\ replied (fst glance_run) 1 lib_shown.
Proof.
  split; [exact ex_env_ok|]. split; [exact ex_world_short|]. split; [intros r Hr _ _; exact (lib_heads r Hr)|].
  split; [exists ex_ref; split; [rewrite ex_world_refs; left; reflexivity|exact lib_below]|].
  split; [intros row Hr _; pose proof (all_of_in lib_check 2 _ lib_checked eq_refl) as K2; rewrite forallb_forall in K2; apply beq_eq, K2; exact Hr|].
  split; [exact lib_commit|]. split; [exact lib_found|].
  split; [exact lib_exists|].
  split; [exact ex_lib_ok|]. split; [exact two_glances|]. split; [exact ex_not_child|].
  split; apply replied_checked; [exact (all_of_in glance_check 0 _ glance_checked eq_refl)|exact (all_of_in glance_check 1 _ glance_checked eq_refl)].
Qed.

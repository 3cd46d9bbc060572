(** C153: the references shown to clients while others push. *)

From Coq Require Import Permutation Sorted.
From Verif Require Import Base BaseLemmas Digest ModelUtils ModelObject ModelBase ModelPack ModelDecode ModelPkt ModelStorage ModelProto
  ModelLfs ModelGateway ModelService ModelConc StoredZlib SpecObject SpecFormat SpecIdx SpecBase SpecPack SpecPkt SpecPath SpecStorage SpecProto SpecFetch SpecGateway SpecService
  SpecConc ProofUtils ProofObject ProofUtf8 ProofBase ProofPack ProofIdx ProofPkt ProofReq ProofPath ProofEncode ProofNodes ProofStorage ProofPush ProofClone ProofRepo ProofRefs
  ProofSession ProofGraph ProofExample PropPkt PropStorage PropProto PropGateway ProofService PropService PropSsh PropFetch PropNegotiate ProofConc ProofWhole ProofSnapshot PropConc
  PropDuringSsh.
Open Scope N_scope.

(** ** Vocabulary *)

(** The id shown as HEAD for the tables [d]: that of a master reference of the repository,
    or zeros if it has none. *)
Definition head_at (e : env) (d : db) (path head : bytes) : Prop :=
  (exists r, In r (d_refs d) /\ is_head e path r /\ r_repo_path r = path /\ r_ref_git_id r = head) \/
  (head = repeat 48 40 /\ forall r, In r (d_refs d) -> is_head e path r -> r_repo_path r <> path).
(** No repository has a path above [path]. *)
Definition nothing_above (d : db) (path : bytes) : Prop := forall r, In r (d_refs d) -> within path (r_repo_path r) -> r_repo_path r = path.
(** Shown over two moments: HEAD as of one, the references as of a later one. *)
Definition shown_over (e : env) (V : db -> Prop) (http : bool) (s : service) (path reply : bytes) : Prop :=
  exists d1 d2 head refs, V d1 /\ V d2 /\ nothing_lost d1 d2 /\ head_at e d1 path head /\ listing (refs_at e d2 path) refs /\ advert http s head refs reply.

(** ** The statements *)

Section Greet.
Context (e : env) (He : env_ok e) (path : bytes) (F : db) (Htop : nothing_above F path).
Context (G : db -> db -> Prop) (V : db -> Prop) (Gr : forall d, V d -> G d d) (Gl : forall d d', G d d' -> nothing_lost d d').
Context (HV : forall d, V d -> nothing_lost d F) (HS : forall d, V d -> short_refs d).
Local Notation holds := (hold e G V).

Lemma head_holds : forall d, V d -> holds (fun head d' => exists d1, V d1 /\ nothing_lost d1 d' /\ head_at e d1 path head) (head_p e path) d.
Proof.
  intros d Vd. unfold head_p.
  apply (hold_bind e G V Gl _ _ (fun rows d1 => forall r, In r rows <-> In r (d_refs d1) /\ is_head e path r)); [|exact Vd|].
  { apply hold_select; [exact He|exact Gr|]. intros d1 l V1 _ P r.
    transitivity (In r (filter (fun r => like e path (r_repo_path r) && teq e (r_ref_name r) master) (d_refs d1))).
    - split; apply Permutation_in; [exact P|apply Permutation_sym; exact P].
    - rewrite filter_In, andb_true_iff. reflexivity. }
  intros rows d1 V1 _ Hin.
  destruct (find (fun r => beq path (r_repo_path r)) rows) as [r|] eqn:F1.
  { apply hold_ret. exists d1. split; [exact V1|]. split; [apply lost_refl|]. left. apply find_some in F1 as [K1 K2]. apply beq_eq in K2. apply Hin in K1 as [K1 K3]. eauto 6. }
  destruct (find (fun r => path_starts_with path (r_repo_path r)) rows) as [r|] eqn:F2.
  - exfalso. apply find_some in F2 as [K1 K2]. apply starts_with_within in K2. pose proof (find_none _ _ F1 r K1) as K3. cbn beta in K3. apply Hin in K1 as [K1 K4].
    destruct (lost_ref _ _ _ (HV _ V1) K1) as (r' & L1 & _ & L2 & _).
    rewrite (Htop r' L1) in L2 by (rewrite L2; exact K2). rewrite <- L2, beq_refl in K3. discriminate K3.
  - apply hold_ret. exists d1. split; [exact V1|]. split; [apply lost_refl|]. right. split; [reflexivity|]. intros r K1 K2 E.
    pose proof (find_none _ _ F1 r (proj2 (Hin r) (conj K1 K2))) as K3. cbn beta in K3. rewrite E, beq_refl in K3. discriminate K3.
Qed.
Lemma refs_holds : forall d, V d -> holds (fun refs d' => exists d2, V d2 /\ nothing_lost d d2 /\ listing (refs_at e d2 path) refs) (get_ref_object_id_p e path) d.
Proof.
  intros d Vd. unfold get_ref_object_id_p.
  apply (hold_bind e G V Gl _ _ (fun rows _ => exists d2, V d2 /\ nothing_lost d d2 /\ Permutation rows (refs_at e d2 path))); [|exact Vd|].
  - apply hold_select; [exact He|exact Gr|]. intros d2 l V2 L2 P. exists d2. auto.
  - intros rows d3 V3 _ (d2 & V2 & L2 & P). apply hold_shuffle; [exact He|exact Gr|]. intros d4 l V4 _ P2. exists d2. split; [exact V2|]. split; [exact L2|].
    destruct (fold_refs rows [] (SSorted_nil _)) as (A & B & _ & D). split; [|split].
    + eapply Permutation_NoDup; [apply Permutation_map, Permutation_sym, P2|]. apply sorted_nodup. exact A.
    + intros i n H. apply (Permutation_in _ P2) in H. destruct (B i n H) as [[]|(r & Hr & K)]. exists r. split; [|exact K]. exact (Permutation_in _ P Hr).
    + intros r Hr. destruct (D r) as (n & Hn); [exact (Permutation_in _ (Permutation_sym P) Hr)|]. exists n. exact (Permutation_in _ (Permutation_sym P2) Hn).
Qed.
Lemma head_at_short : forall d head, V d -> head_at e d path head -> nlen head <= 160.
Proof. intros d head Vd [(r & H1 & _ & _ & <-)|[-> _]]; [apply (HS d Vd r H1)|vm_compute; discriminate]. Qed.
Lemma info_holds : forall pr s d, V d ->
  holds (fun reply _ => shown_over e V (match pr with Http => true | _ => false end) s path reply) (info_refs_p e (mkProto pr path (Some s) [] [])) d.
Proof.
  intros pr s d Vd. unfold info_refs_p. cbn [pp_service pp_path pp_protocol unwrap_opt]. unfold pbind at 1. cbn [then_any].
  eapply hold_bind; [exact Gl|apply head_holds; exact Vd|exact Vd|]. intros head d1 V1 _ (dh & Vh & Lh & Hh).
  eapply hold_bind; [exact Gl|apply refs_holds; exact V1|exact V1|]. intros refs d3 V3 _ (d2 & V2 & L2 & Li).
  apply hold_ret. exists dh, d2, head, refs. split; [exact Vh|]. split; [exact V2|]. split; [eapply lost_trans; [exact Lh|exact L2]|].
  split; [exact Hh|]. split; [exact Li|]. apply advert_ok; [apply head_line_short; exact (head_at_short dh head Vh Hh)|].
  eapply listing_short; [apply HS; exact V2|exact Li].
Qed.
End Greet.

(** ** C153 *)

(** A client that asks for the references after [s1] and is answered by the end of [s2] is
    shown HEAD as it was at one moment between, and the references as they were at one
    moment between, not before the first. *)
Theorem C153_http : forall e b c fuel cut rs i now m p s q body sv path s1 s2 w reply,
  env_ok e -> refs_table (w_db w) -> nth_error rs i = Some (QHttp now m p s q body) -> gateway m p s q = Ok (AInfoRefs (service_text sv) path) -> ~ In i s1 ->
  let ts := started e b c fuel cut rs in
  let F := w_db (snd (interleave e (s1 ++ s2) ts w)) in
  let V := moment e s2 (fst (interleave e s1 ts w)) (snd (interleave e s1 ts w)) in
  nothing_above F path -> (forall d, V d -> short_refs d) ->
  replied (fst (interleave e (s1 ++ s2) ts w)) i reply -> shown_over e V true sv path reply.
Proof.
  intros e b c fuel cut rs i now m p s q body sv path s1 s2 w reply He T Ni Gw Ns ts F V Htop Sh An.
  assert (VT : forall d, V d -> refs_table d /\ nothing_lost d F).
  { intros d (a1 & a2 & -> & ->). rewrite <- interleave_app. split; [apply prefix_table; assumption|]. unfold F. rewrite app_assoc. apply prefix_lost; assumption. }
  assert (VR : forall d, V d -> refs_table d) by (intros d Vd; apply VT; exact Vd).
  refine (one_request e b c fuel cut rs i (QHttp now m p s q body) s1 s2 w reply (shown_over e V true sv path) He T Ni Ns _ An).
  unfold serve_p. rewrite Gw. unfold pbind at 1. cbn [then_any]. unfold http_info_refs_p.
  assert (Ep : proto_new path (service_text sv) Http = Ok (mkProto Http path (Some sv) [] [])) by (destruct sv; reflexivity). rewrite Ep.
  unfold pbind at 1. cbn [then_any]. apply (info_holds e He path F Htop (by_request e rs i) V) with (pr := Http).
  - intros d Vd. exists (QHttp now m p s q body), path. split; [exact Ni|]. split; [eapply ab_info; exact Gw|]. apply (step_same e path V VR d Vd).
  - apply by_request_lost.
  - intros d Vd. apply VT. exact Vd.
  - exact Sh.
  - exists [], s2. auto.
Qed.

(** Likewise the greeting of a session over SSH, whatever the client sends then. *)
Theorem C153_ssh : forall e b c fuel cut rs i now sv packets path s1 s2 w reply,
  env_ok e -> refs_table (w_db w) -> ~ In 32 path -> utf8_text path ->
  nth_error rs i = Some (QSsh now (ssh_line sv path) packets) -> ~ In i s1 ->
  let ts := started e b c fuel cut rs in
  let F := w_db (snd (interleave e (s1 ++ s2) ts w)) in
  let V := moment e s2 (fst (interleave e s1 ts w)) (snd (interleave e s1 ts w)) in
  nothing_above F path -> (forall d, V d -> short_refs d) ->
  replied (fst (interleave e (s1 ++ s2) ts w)) i reply ->
  exists adv rest, reply = adv ++ rest /\ shown_over e V false sv path adv.
Proof.
  intros e b c fuel cut rs i now sv packets path s1 s2 w reply He T Hn Ht Ni Ns ts F V Htop Sh An.
  assert (VT : forall d, V d -> refs_table d /\ nothing_lost d F).
  { intros d (a1 & a2 & -> & ->). rewrite <- interleave_app. split; [apply prefix_table; assumption|]. unfold F. rewrite app_assoc. apply prefix_lost; assumption. }
  assert (VR : forall d, V d -> refs_table d) by (intros d Vd; apply VT; exact Vd).
  assert (Gs : forall x y, step e path x y -> by_request e rs i x y).
  { intros x y Hs. exists (QSsh now (ssh_line sv path) packets), path. split; [exact Ni|]. split; [apply about_line; exact Hn|exact Hs]. }
  pose proof (by_request_lost e rs i) as Gl.
  refine (one_request e b c fuel cut rs i (QSsh now (ssh_line sv path) packets) s1 s2 w reply
    (fun a => exists adv rest, a = adv ++ rest /\ shown_over e V false sv path adv) He T Ni Ns _ An).
  assert (Vd : V (w_db (snd (interleave e s1 ts w)))) by (exists [], s2; auto). fold V.
  unfold serve_p. rewrite (open_prog e sv path Hn Ht).
  apply (hold_bind e (by_request e rs i) V Gl _ _ (fun x _ => fst x = mkProto Ssh path (Some sv) [] [] /\ shown_over e V false sv path (snd x))); [|exact Vd|].
  - eapply hold_bind; [exact Gl| |exact Vd|].
    + apply (info_holds e He path F Htop (by_request e rs i) V) with (pr := Ssh) (s := sv); [|exact Gl| |exact Sh|exact Vd].
      * intros d Vd'. apply Gs, (step_same e path V VR d Vd').
      * intros d Vd'. apply VT. exact Vd'.
    + intros adv d1 V1 _ Ha. apply (hold_bind e (by_request e rs i) V Gl _ _ (fun _ _ => True)); [apply hold_lift; auto|exact V1|].
      intros u d2 V2 _ _. apply hold_ret. split; [reflexivity|exact Ha].
  - intros [pp adv] d1 V1 _ [Ep Ha]. cbn [fst snd] in Ep, Ha. subst pp.
    apply (hold_bind e (by_request e rs i) V Gl _ _ (fun _ _ => True)); [|exact V1|].
    + apply (hold_grow e (step e path)); [exact Gs|]. apply (g_session e He path V VR); [exact V1|reflexivity].
    + intros [pp2 rest] d2 V2 _ _. apply hold_ret. eauto.
Qed.

(** ** The two moments may differ *)

Definition size (ps : list bytes) : nat := fold_right (fun p n => 4 + length p + n)%nat 0%nat ps.
Lemma pkt_lines_size : forall ps b, pkt_lines ps b -> length b = size ps.
Proof.
  induction 1 as [|p b ps b' (h & Lh & _ & ->) _ IH]; [reflexivity|]. cbn [size fold_right]. rewrite !app_length, Lh, IH. unfold size. lia.
Qed.
Lemma advert_size : forall s head refs reply, advert true s head refs reply ->
  length reply = (4 + length (bs "# service=" ++ service_text s ++ [10%N]) + 4 + size (head_line s head :: map ref_line refs) + 4)%nat.
Proof.
  intros s head refs reply (top & lines & H & _ & Hl & ->). destruct (H eq_refl) as (l & (h & Lh & _ & ->) & ->).
  rewrite !app_length, (pkt_lines_size _ _ Hl), Lh. change (length flush) with 4%nat. lia.
Qed.
Lemma head_line_size : forall s head, length (head_line s head) = (length head + (if beq head (repeat 48%N 40) then 16 else 5) + 1 + length (caps_of s) + 1)%nat.
Proof. intros s head. unfold head_line. destruct (beq head (repeat 48 40)); rewrite !app_length; cbn [length bs]; lia. Qed.

(** Someone asks for the references of a repository while it is pushed to for the first time. *)
Definition greet_demo : request := QHttp 9 MGet (bs "/demo.git/info/refs") (Some (bs "git-upload-pack")) no_query [].
Definition greet_schedule : list nat := [1%nat] ++ repeat 0%nat 25 ++ repeat 1%nat 5.
Definition greet_start := started ex_env Release stored 50 ex_cut [push_demo; greet_demo].
Lemma greet_start_eq : started ex_env Release stored 50 ex_cut [push_demo; greet_demo] = greet_start.
Proof. reflexivity. Qed.
Definition greet_row (r : ref_row) : bool :=
  beq (r_repo_path r) (bs "/demo") && beq (r_ref_name r) (bs "refs/heads/master" ++ [0]) && (length (r_ref_git_id r) =? 40)%nat && negb (beq (r_ref_git_id r) (repeat 48 40)).
Definition none_or_one (d : db) : bool := match d_refs d with [] => true | [r] => greet_row r | _ => false end.
Fixpoint all_along (e : env) (f : db -> bool) (schedule : list nat) (ts : serving) (w : world) : bool :=
  f (w_db w) && match schedule with [] => true | i :: r => let (ts', w') := advance e i ts w in all_along e f r ts' w' end.
Lemma moment_checked : forall e f schedule ts w d, all_along e f schedule ts w = true -> moment e schedule ts w d -> f d = true.
Proof.
  intros e f. induction schedule as [|i schedule IH]; intros ts w d H (a & b & E & ->); cbn [all_along] in H; apply andb_true_iff in H as [H1 H2].
  - symmetry in E. apply app_eq_nil in E as [-> _]. exact H1.
  - destruct a as [|j a]; [exact H1|]. cbn [app] in E. injection E as <- E. cbn [interleave]. destruct (advance e i ts w) as [ts' w'].
    apply (IH ts' w'); [exact H2|]. exists a, b. auto.
Qed.
Lemma greet_moments : all_along ex_env none_or_one greet_schedule greet_start (world_of db_empty) = true.
Proof. vm_compute. reflexivity. Qed.
Definition sized (ts : serving) (i n : nat) : bool := match nth_error ts i with Some (PRet (Ok r)) => (length r =? n)%nat | _ => false end.
Lemma sized_checked : forall ts i n, sized ts i n = true -> exists reply, replied ts i reply /\ length reply = n.
Proof.
  intros ts i n H. unfold sized in H. unfold replied. destruct (nth_error ts i) as [[[r| | |]|]|]; try discriminate H.
  exists r. split; [reflexivity|]. apply Nat.eqb_eq. exact H.
Qed.
Lemma greet_sized : sized (fst (interleave ex_env greet_schedule greet_start (world_of db_empty))) 1 281 = true.
Proof. vm_compute. reflexivity. Qed.
Lemma greet_row_facts : forall r, greet_row r = true -> is_head ex_env (bs "/demo") r /\ r_repo_path r = bs "/demo" /\
  length (r_ref_name r) = 18%nat /\ length (r_ref_git_id r) = 40%nat /\ beq (r_ref_git_id r) (repeat 48 40) = false.
Proof.
  intros [i p n g] H. unfold greet_row in H. cbn [r_repo_path r_ref_name r_ref_git_id] in *. repeat (apply andb_true_iff in H as [H ?K]).
  apply beq_eq in H, K1. subst p n. apply Nat.eqb_eq in K0. apply negb_true_iff in K. split; [split; vm_compute; reflexivity|]. auto.
Qed.
Lemma no_such_moment : forall d reply, none_or_one d = true -> length reply = 281%nat ->
  ~ exists head refs, head_at ex_env d (bs "/demo") head /\ listing (refs_at ex_env d (bs "/demo")) refs /\ advert true UploadPack head refs reply.
Proof.
  intros d reply Hd Hl (head & refs & Hh & (Nd & L1 & L2) & Ad). apply advert_size in Ad. rewrite Hl in Ad. clear Hl.
  cbn [size fold_right] in Ad. rewrite head_line_size in Ad. change (length (bs "# service=" ++ service_text UploadPack ++ [10])) with 26%nat in Ad.
  change (length (caps_of UploadPack)) with 117%nat in Ad. unfold none_or_one in Hd. unfold head_at in Hh. unfold refs_at in L1, L2.
  destruct (d_refs d) as [|r [|]]; [| |discriminate Hd].
  - destruct refs as [|[i n] refs]; [|destruct (L1 i n (or_introl eq_refl)) as (r & [] & _)].
    destruct Hh as [(r & [] & _)|[-> _]]. rewrite beq_refl in Ad. cbn in Ad. discriminate Ad.
  - apply greet_row_facts in Hd as (K1 & K2 & K3 & K4 & K5).
    assert (Eh : head = r_ref_git_id r) by (destruct Hh as [(r' & [<-|[]] & _ & _ & E)|[_ N]]; [symmetry; exact E|destruct (N r (or_introl eq_refl) K1 K2)]).
    assert (Ef : filter (fun r => teq ex_env (r_repo_path r) (bs "/demo")) [r] = [r]) by (cbn [filter]; rewrite K2; reflexivity).
    rewrite Ef in L1, L2.
    assert (Er : refs = [(r_ref_git_id r, r_ref_name r)]).
    { assert (A : forall x, In x refs -> x = (r_ref_git_id r, r_ref_name r)) by (intros [i n] Hx; destruct (L1 i n Hx) as (r' & [<-|[]] & <- & <-); reflexivity).
      destruct refs as [|x [|y refs]].
      - destruct (L2 r (or_introl eq_refl)) as (n & []).
      - rewrite (A x (or_introl eq_refl)). reflexivity.
      - exfalso. pose proof (A x (or_introl eq_refl)) as Ex. pose proof (A y (or_intror (or_introl eq_refl))) as Ey.
        cbn [map] in Nd. inversion Nd as [|? ? N _]. apply N. left. rewrite Ex, Ey. reflexivity. }
    rewrite Eh, K5, K4, Er in Ad. cbn [map fold_right] in Ad. unfold ref_line in Ad. cbn [fst snd] in Ad. rewrite !app_length, K3, K4 in Ad. cbn in Ad. discriminate Ad.
Qed.

Lemma none_short : forall d, none_or_one d = true -> short_refs d.
Proof.
  intros d Hd r Hr. unfold none_or_one in Hd. destruct (d_refs d) as [|x [|]]; [destruct Hr| |discriminate Hd]. destruct Hr as [<-|[]].
  apply greet_row_facts in Hd as (_ & _ & K3 & K4 & _). unfold nlen. rewrite K3, K4. split; vm_compute; discriminate.
Qed.
Lemma none_above : forall d, none_or_one d = true -> nothing_above d (bs "/demo").
Proof.
  intros d Hd r Hr _. unfold none_or_one in Hd. destruct (d_refs d) as [|x [|]]; [destruct Hr| |discriminate Hd]. destruct Hr as [<-|[]].
  apply greet_row_facts in Hd as (_ & K2 & _). exact K2.
Qed.
Lemma last_moment : forall e schedule ts w, moment e schedule ts w (w_db (snd (interleave e schedule ts w))).
Proof. intros e schedule ts w. exists schedule, []. split; [symmetry; apply app_nil_r|reflexivity]. Qed.
(** What a client is shown need not be what there was at any moment: HEAD is shown as unborn,
    and a master branch is listed. *)
Theorem C153_refuted : exists e b c fuel cut rs i now m p s q body sv path schedule w reply,
  env_ok e /\ refs_table (w_db w) /\ no_failure w /\ nth_error rs i = Some (QHttp now m p s q body) /\ gateway m p s q = Ok (AInfoRefs (service_text sv) path) /\
  let ts := started e b c fuel cut rs in let F := w_db (snd (interleave e schedule ts w)) in let V := moment e schedule ts w in
  nothing_above F path /\ (forall d, V d -> short_refs d) /\ replied (fst (interleave e schedule ts w)) i reply /\
  forall d, V d -> ~ exists head refs, head_at e d path head /\ listing (refs_at e d path) refs /\ advert true sv head refs reply.
Proof.
  destruct (sized_checked _ _ _ greet_sized) as (reply & An & Ln).
  exists ex_env, Release, stored, 50%nat, ex_cut, [push_demo; greet_demo], 1%nat, 9, MGet, (bs "/demo.git/info/refs"), (Some (bs "git-upload-pack")), no_query, [].
  exists UploadPack, (bs "/demo"), greet_schedule, (world_of db_empty), reply.
  split; [exact ex_env_ok|]. split; [split; [constructor|intros r []]|]. split; [reflexivity|]. split; [reflexivity|]. split; [vm_compute; reflexivity|].
  rewrite greet_start_eq. cbv zeta. split; [|split; [|split; [exact An|]]].
  - apply none_above. apply (moment_checked _ _ _ _ _ _ greet_moments). apply last_moment.
  - intros d Vd. apply none_short, (moment_checked _ _ _ _ _ _ greet_moments Vd).
  - intros d Vd. apply no_such_moment; [apply (moment_checked _ _ _ _ _ _ greet_moments Vd)|exact Ln].
Qed.

(** The same over SSH. *)
Definition greet_ssh : serving := started ex_env Release stored 50 ex_cut [push_demo; QSsh (fun _ => 9) (ssh_line UploadPack (bs "/demo")) []].
Lemma greet_ssh_moments : all_along ex_env none_or_one greet_schedule greet_ssh (world_of db_empty) = true.
Proof. vm_compute. reflexivity. Qed.
Lemma greet_ssh_sized : sized (fst (interleave ex_env greet_schedule greet_ssh (world_of db_empty))) 1 247 = true.
Proof. vm_compute. reflexivity. Qed.
Example C153_ex : env_ok ex_env /\ refs_table (w_db (world_of db_empty)) /\ ~ In 32 (bs "/demo") /\ utf8_text (bs "/demo") /\
  nothing_above (w_db (snd (interleave ex_env greet_schedule greet_ssh (world_of db_empty)))) (bs "/demo") /\
  (forall d, moment ex_env greet_schedule greet_ssh (world_of db_empty) d -> short_refs d) /\
  exists reply, replied (fst (interleave ex_env greet_schedule greet_ssh (world_of db_empty))) 1 reply /\ length reply = 247%nat.
Proof.
  split; [exact ex_env_ok|]. split; [split; [constructor|intros r []]|]. split; [vm_compute; intuition discriminate|]. split; [apply ascii_utf8; reflexivity|].
  split; [apply none_above, (moment_checked _ _ _ _ _ _ greet_ssh_moments), last_moment|].
  split; [intros d Vd; apply none_short, (moment_checked _ _ _ _ _ _ greet_ssh_moments Vd)|]. exact (sized_checked _ _ _ greet_ssh_sized).
Qed.

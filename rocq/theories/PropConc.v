(** C87-C91: requests served at the same time. *)

From Coq Require Import Permutation.
From Verif Require Import Base BaseLemmas Digest ModelUtils ModelObject ModelBase ModelPack ModelDecode ModelPkt ModelStorage ModelProto
  ModelLfs ModelGateway ModelService ModelConc StoredZlib SpecObject SpecIdx SpecBase SpecPack SpecPkt SpecPath SpecStorage SpecProto SpecGateway SpecService
  SpecConc ProofObject ProofUtf8 ProofBase ProofPack ProofPkt ProofReq ProofPath ProofEncode ProofNodes ProofStorage ProofPush ProofClone ProofRepo ProofRefs
  ProofSession ProofGraph ProofExample PropPkt PropStorage PropProto PropGateway ProofService PropService ProofConc ProofWhole ProofSnapshot.
Open Scope N_scope.

(** ** C87: a commit never appears before what it leads to *)

(** At every moment of every interleaving, also when statements fail, a stored commit has
    its root tree and all that belongs to it stored too; excepted are the commits made up
    for an advertisement of a path below a repository. *)
Theorem C87_commits_whole : forall e b c fuel cut rs schedule w, env_ok e -> refs_table (w_db w) ->
  (forall x, In x (d_commits (w_db w)) -> whole (w_db w) x \/ derived (w_db w) x) ->
  forall d, moment e schedule (started e b c fuel cut rs) w d -> forall x, In x (d_commits d) -> whole d x \/ derived d x.
Proof.
  intros e b c fuel cut rs schedule w He T Sr d (s1 & s2 & _ & ->) x Hx. exact (prefix_sourced e He b c fuel cut rs s1 w T Sr x Hx).
Qed.
(** So the repositories are complete at every moment, if the final state meets the usual
    conditions. *)
Theorem C87_always_complete : forall e b c fuel cut rs schedule w path, env_ok e -> refs_table (w_db w) ->
  (forall x, In x (d_commits (w_db w)) -> whole (w_db w) x \/ derived (w_db w) x) ->
  let F := w_db (snd (interleave e schedule (started e b c fuel cut rs) w)) in let S := repo_objects e F path in
  honest_db e F path -> collision_free S -> well_typed S -> no_submodules S -> top_level e F path ->
  forall d, moment e schedule (started e b c fuel cut rs) w d -> complete (repo_objects e d path).
Proof.
  intros e b c fuel cut rs schedule w path He T Sr F S Hh Hcf Hty Hsub Htop d (s1 & s2 & Es & ->).
  apply (snapshot_complete e F path Hh Hcf Hty Hsub Htop); [unfold F; rewrite Es; apply prefix_lost; assumption|].
  exact (prefix_sourced e He b c fuel cut rs s1 w T Sr).
Qed.

(** ** C88: a clone gives a snapshot *)

(** One request among others, from when it begins. *)
Lemma one_request : forall e b c fuel cut rs i r s1 s2 w reply (Q : bytes -> Prop), env_ok e -> refs_table (w_db w) ->
  nth_error rs i = Some r -> ~ In i s1 -> let ts := started e b c fuel cut rs in
  let ts1 := fst (interleave e s1 ts w) in let w1 := snd (interleave e s1 ts w) in
  hold e (by_request e rs i) (moment e s2 ts1 w1) (fun a _ => Q a) (serve_p e b c fuel cut r) (w_db w1) ->
  replied (fst (interleave e (s1 ++ s2) ts w)) i reply -> Q reply.
Proof.
  intros e b c fuel cut rs i r s1 s2 w reply Q He T Ni Ns ts ts1 w1 H An. set (V := moment e s2 ts1 w1) in *.
  assert (VT : forall d, V d -> refs_table d).
  { intros d (a1 & a2 & -> & ->). unfold ts1, w1. rewrite <- interleave_app. apply prefix_table; assumption. }
  assert (V1 : V (w_db w1)) by (exists [], s2; auto).
  set (Q' := fun j (reply : bytes) (_ : db) => j = i -> Q reply).
  assert (All : all_hold e (by_request e rs) V Q' ts1 (w_db w1)).
  { intros j pr Hj. destruct (Nat.eq_dec j i) as [->|Ne].
    - unfold ts1 in Hj. rewrite interleave_skips in Hj by exact Ns. unfold ts, started in Hj. rewrite nth_error_map, Ni in Hj. cbn [option_map] in Hj.
      injection Hj as <-. eapply hold_weaken; [|exact V1|exact H]. intros a d' _ K _. exact K.
    - eapply hold_weaken; [|exact V1|apply (hold_fewer e (by_request e rs j) refs_table V); [exact VT|apply (prefix_hold e He b c fuel cut rs s1 w T); exact Hj]].
      intros a d' _ _ E. contradiction. }
  assert (Qs : forall j a d d', Q' j a d -> nothing_lost d d' -> Q' j a d') by (intros j a d d' K _; exact K).
  destruct (interleave_holds e (by_request e rs) V Q' (by_request_lost e rs) Qs s2 ts1 w1) as [K _].
  - intros a1 a2 Ea. exists a1, a2. auto.
  - exact All.
  - unfold ts1, w1 in K. rewrite <- interleave_app in K. specialize (K _ _ An). cbn [hold] in K. exact (K reply eq_refl eq_refl).
Qed.

Lemma clone_holds : forall e F path (G : db -> db -> Prop) (V : db -> Prop) b c st fuel cut now m p s q body d, env_ok e -> codec_ok c ->
  (forall x, pieces 65515 x (cut x)) -> clone_request body -> gateway m p s q = Ok (AUploadPack path) ->
  (forall d, V d -> G d d) -> (forall d d', G d d' -> nothing_lost d d') ->
  (forall d, V d -> nothing_lost d F) -> (forall d, V d -> forall x, In x (d_commits d) -> sourced d x) ->
  honest_db e F path -> collision_free (repo_objects e F path) -> well_typed (repo_objects e F path) ->
  no_submodules (repo_objects e F path) -> top_level e F path -> V d ->
  hold e G V (fun reply _ => exists D, V D /\ clone_reply c st reply (reach (repo_objects e D path)))
    (serve_p e b c fuel cut (QHttp now m p s q body)) d.
Proof.
  intros e F path G V b c st fuel cut now m p s q body d He Hc Hcut (items & t & bb & x & line & Rb & Ft & Ut & Cw & Nh & Pl & ->) Gw
    Gr Gl HV HS Hh Hcf Hty Hsub Htop Vd.
  destruct (C43_fetch_request items bb x line [] (Some t) (Datatypes.S (length items) + fuel) Rb Pl Ft Ut) as (want & have & caps & Eu & _ & _ & Hh' & _ & Hca); [lia|].
  rewrite app_nil_r in Eu.
  assert (Hv : have = []).
  { destruct have as [|i have]; [reflexivity|]. destruct (proj1 (Hh' i) (or_introl eq_refl)) as (tl & K). destruct (Nh _ _ K). }
  subst have. unfold serve_p. rewrite Gw. unfold pbind at 1. cbn [then_any].
  unfold http_upload_p. cbn [proto_new]. unfold pbind at 1. cbn [then_any]. unfold upload_p. cbn [pp_caps pp_protocol pp_path pp_service pp_cmds].
  apply (hold_bind e G V Gl _ _ (fun r _ => exists data, r = (mkProto Http path None caps [], data, add_pkt_line [] (bs "NAK" ++ [10])) /\
    exists D, V D /\ packs c st (reach (repo_objects e D path)) data)); [|exact Vd|].
  - destruct (upload_loop fuel true [] [] [] (bb ++ line)) as [r|z| |] eqn:Ul; try (intros a E; discriminate).
    assert (Er : r = (want, [], caps, [])).
    { apply (upload_more _ (Datatypes.S (length items))) in Ul. rewrite Ul in Eu. injection Eu as ->. reflexivity. }
    rewrite Er. unfold pbind at 1. cbn [then_any].
    eapply hold_bind; [exact Gl| |exact Vd|].
    + apply hold_unwrap; [exact Gl|exact Vd|]. exact (full_holds e He F path Hh Hcf Hty Hsub Htop G V Gr Gl HV HS c st fuel d Hc Vd).
    + intros data d1 V1 L1 (D & VD & Pk). apply hold_ret. exists data. split; [reflexivity|]. eauto.
  - intros r d1 V1 L1 (data & -> & D & VD & objs & Gp & Nd & Io). apply hold_ret. exists D. split; [exact VD|].
    exists (add_pkt_line [] (bs "NAK" ++ [10])), (concat (send_pack caps (cut data))), data, objs. split; [reflexivity|].
    split; [apply hex4_pkt; vm_compute; discriminate|]. split; [|auto].
    apply C39_side_band_delivers; [|apply Hcut]. destruct Cw as [Cw|Cw]; [left|right]; apply Hca; exists t; split; try reflexivity; exact Cw.
Qed.

(** A clone that begins after [s1] and is answered by the end of [s2] gives exactly the
    repository as it was at one moment between, and that is complete. *)
Theorem C88_clone_snapshot : forall e b c st fuel cut rs i now m p s q body path s1 s2 w reply,
  env_ok e -> codec_ok c -> (forall x, pieces 65515 x (cut x)) -> refs_table (w_db w) ->
  (forall x, In x (d_commits (w_db w)) -> whole (w_db w) x \/ derived (w_db w) x) ->
  nth_error rs i = Some (QHttp now m p s q body) -> gateway m p s q = Ok (AUploadPack path) -> clone_request body -> ~ In i s1 ->
  let ts := started e b c fuel cut rs in
  let F := w_db (snd (interleave e (s1 ++ s2) ts w)) in let S := repo_objects e F path in
  honest_db e F path -> collision_free S -> well_typed S -> no_submodules S -> top_level e F path ->
  replied (fst (interleave e (s1 ++ s2) ts w)) i reply ->
  exists d, moment e s2 (fst (interleave e s1 ts w)) (snd (interleave e s1 ts w)) d /\
    complete (repo_objects e d path) /\ clone_reply c st reply (reach (repo_objects e d path)).
Proof.
  intros e b c st fuel cut rs i now m p s q body path s1 s2 w reply He Hc Hcut T Sr Ni Gw Cr Ns ts F S Hh Hcf Hty Hsub Htop An.
  set (V := moment e s2 (fst (interleave e s1 ts w)) (snd (interleave e s1 ts w))).
  assert (VT : forall d, V d -> refs_table d /\ nothing_lost d F /\ forall x, In x (d_commits d) -> sourced d x).
  { intros d (a1 & a2 & -> & ->). rewrite <- interleave_app. split; [apply prefix_table; assumption|]. split.
    - unfold F. rewrite app_assoc. apply prefix_lost; assumption.
    - apply prefix_sourced; assumption. }
  destruct (one_request e b c fuel cut rs i (QHttp now m p s q body) s1 s2 w reply
              (fun a => exists D, V D /\ clone_reply c st a (reach (repo_objects e D path))) He T Ni Ns) as (D & VD & K); [|exact An|].
  - eapply (clone_holds e F path (by_request e rs i) V b c st fuel cut now m p s q body); try assumption.
    + intros d Vd. exists (QHttp now m p s q body), path. split; [exact Ni|]. split; [apply ab_fetch; exact Gw|].
      apply (step_same e path V); [|exact Vd]. intros x Vx. apply VT. exact Vx.
    + apply by_request_lost.
    + intros d Vd. apply VT. exact Vd.
    + intros d Vd. apply VT. exact Vd.
    + exists [], s2. auto.
  - exists D. split; [exact VD|]. split; [|exact K]. destruct (VT D VD) as (_ & LF & SD).
    apply (snapshot_complete e F path Hh Hcf Hty Hsub Htop); assumption.
Qed.

(** ** C89: what holds of requests served one after the other also holds of requests served at once *)

(** The programs are the handlers. *)
Theorem C89_programs : forall e b c fuel cut r w, run e (serve_p e b c fuel cut r) w = serve e b c fuel cut r w.
Proof. intros e b c fuel cut r w. apply does_serve. Qed.
Lemma run_step : forall e A (X : Type) (a : act X) (k : res X -> prog A) w, run e (PAct a k) w = run e (k (snd (perform e a w))) (fst (perform e a w)).
Proof. intros e A X a k w. cbn [run]. destruct (perform e a w). reflexivity. Qed.
(** A request that is served alone: the interleaving adds nothing. *)
Theorem C89_alone : forall e b c fuel cut r schedule w w' o,
  interleave e schedule (started e b c fuel cut [r]) w = ([PRet o], w') -> serve e b c fuel cut r w = (w', o).
Proof.
  intros e b c fuel cut r schedule w w' o. rewrite <- C89_programs. unfold started. cbn [map]. generalize (serve_p e b c fuel cut r) as p. revert w.
  induction schedule as [|i s IH]; intros w p H; cbn [interleave] in H.
  - injection H as -> ->. reflexivity.
  - unfold advance in H. destruct i as [|i].
    + cbn [nth_error] in H. destruct p as [q|X a k]; [apply IH; exact H|]. rewrite run_step. destruct (perform e a w) as [w1 x]. cbn [fst snd set_nth] in *.
      apply IH. exact H.
    + cbn [nth_error] in H. replace (nth_error (@nil (prog bytes)) i) with (@None (prog bytes)) in H by (destruct i; reflexivity). apply IH. exact H.
Qed.
(** The orders of serving include one after the other. *)
Lemma one_after : forall e i p ts w, nth_error ts i = Some p -> exists n,
  interleave e (repeat i n) ts w = (set_nth i (PRet (snd (run e p w))) ts, fst (run e p w)).
Proof.
  intros e i p. induction p as [o|X a k IH]; intros ts w N.
  - exists 0%nat. cbn [repeat interleave run lift fst snd]. f_equal. revert ts N. induction i as [|i IHi]; intros [|x ts] N; try discriminate; cbn in *; [congruence|].
    rewrite <- IHi by exact N. reflexivity.
  - rewrite run_step. destruct (IH (snd (perform e a w)) (set_nth i (k (snd (perform e a w))) ts) (fst (perform e a w)) (set_nth_same _ _ _ _ _ N)) as (n & E).
    exists (S n). cbn [repeat interleave]. unfold advance. rewrite N. destruct (perform e a w) as [w1 x]. cbn [fst snd] in *. rewrite E. f_equal.
    clear. revert ts. induction i as [|i IHi]; intros [|y ts]; cbn; try reflexivity. f_equal. apply IHi.
Qed.
Theorem C89_sequence : forall e b c fuel cut rs w, exists schedule,
  snd (interleave e schedule (started e b c fuel cut rs) w) = serve_all e b c fuel cut rs w.
Proof.
  intros e b c fuel cut rs w. unfold started.
  assert (K : forall rs pre w, exists schedule, snd (interleave e schedule (pre ++ map (serve_p e b c fuel cut) rs) w) = serve_all e b c fuel cut rs w).
  { clear. induction rs as [|r rs IH]; intros pre w.
    - exists []. reflexivity.
    - cbn [map serve_all]. destruct (one_after e (length pre) (serve_p e b c fuel cut r) (pre ++ serve_p e b c fuel cut r :: map (serve_p e b c fuel cut) rs) w) as (n & E).
      { rewrite nth_error_app2 by lia. rewrite Nat.sub_diag. reflexivity. }
      rewrite C89_programs in E.
      assert (Es : set_nth (length pre) (PRet (snd (serve e b c fuel cut r w))) (pre ++ serve_p e b c fuel cut r :: map (serve_p e b c fuel cut) rs) =
        (pre ++ [PRet (snd (serve e b c fuel cut r w))]) ++ map (serve_p e b c fuel cut) rs).
      { clear. induction pre as [|x pre IH]; cbn; [reflexivity|]. f_equal. exact IH. }
      rewrite Es in E. destruct (IH (pre ++ [PRet (snd (serve e b c fuel cut r w))]) (fst (serve e b c fuel cut r w))) as (s & Hs).
      exists (repeat (length pre) n ++ s). rewrite interleave_app, E. exact Hs. }
  exact (K rs [] w).
Qed.
(** C81: nothing stored is lost. *)
Theorem C89_append_only : forall e b c fuel cut rs schedule w, env_ok e -> refs_table (w_db w) ->
  let w' := snd (interleave e schedule (started e b c fuel cut rs) w) in
  exists k, w_log w' = w_log w ++ k /\ chain nothing_lost (w_db w) k (w_db w') /\ nothing_lost (w_db w) (w_db w').
Proof.
  intros e b c fuel cut rs schedule w He T w'. destruct (started_chain e He b c fuel cut rs schedule w T) as (k & E & C & _). exists k. split; [exact E|].
  assert (C' : chain nothing_lost (w_db w) k (w_db w')).
  { eapply chain_impl; [|exact C]. intros x y (_ & r & p & _ & _ & S). eapply step_lost. exact S. }
  split; [exact C'|]. refine (proj2 (chain_all nothing_lost lost_refl lost_trans _ _ _ C')).
Qed.
(** C82: each change is made by one request, to its repository; the others stay as they
    are. *)
Theorem C89_one_repository : forall e b c fuel cut rs schedule w, env_ok e -> refs_table (w_db w) ->
  let w' := snd (interleave e schedule (started e b c fuel cut rs) w) in
  exists k, w_log w' = w_log w ++ k /\
    chain (fun d d' => exists r p, In r rs /\ about r p /\ only_at e p d d') (w_db w) k (w_db w').
Proof.
  intros e b c fuel cut rs schedule w He T w'. destruct (started_chain e He b c fuel cut rs schedule w T) as (k & E & C & _). exists k. split; [exact E|].
  eapply chain_impl; [|exact C]. intros x y (_ & r & p & I & A & S). exists r, p. split; [exact I|]. split; [exact A|]. exact (st_only _ _ _ _ S).
Qed.
Theorem C89_isolation : forall e b c fuel cut path rs schedule w, env_ok e -> teq_equiv e -> refs_table (w_db w) -> elsewhere e path rs ->
  forall d, moment e schedule (started e b c fuel cut rs) w d -> same_repo e path (w_db w) d.
Proof.
  intros e b c fuel cut path rs schedule w He Te T El d (s1 & s2 & _ & ->).
  destruct (started_chain e He b c fuel cut rs s1 w T) as (k & _ & C & _).
  refine (proj2 (chain_all (same_repo e path) _ _ k _ _ _)).
  - split; reflexivity.
  - intros a x y [A1 A2] [B1 B2]. split; congruence.
  - eapply chain_impl; [|exact C]. intros x y (_ & r & p & I & A & S). eapply only_others; [exact Te|exact (El _ _ I A)|exact (st_only _ _ _ _ S)].
Qed.
(** C86: the tables keep their form. *)
Theorem C89_tables : forall e b c fuel cut rs schedule w, env_ok e -> refs_table (w_db w) -> Forall addressed_row (d_nodes (w_db w)) ->
  Forall (fun r => addressed_commit (c_repo_path r) r) (d_commits (w_db w)) ->
  forall d, moment e schedule (started e b c fuel cut rs) w d ->
  refs_table d /\ Forall addressed_row (d_nodes d) /\ Forall (fun r => addressed_commit (c_repo_path r) r) (d_commits d).
Proof.
  intros e b c fuel cut rs schedule w He T F1 F2 d (s1 & s2 & _ & ->). destruct (started_chain e He b c fuel cut rs s1 w T) as (k & _ & C & T').
  split; [exact T'|]. clear T'. revert F1 F2 C. generalize (w_db (snd (interleave e s1 (started e b c fuel cut rs) w))) as z. generalize (w_db w) as a. clear T.
  induction k as [|x k IH]; intros a z F1 F2 C; cbn [chain] in C; [subst z; auto|].
  destruct C as [(_ & r & p & _ & _ & S) C]. destruct (st_only _ _ _ _ S) as [(n & En & Fn) (m & Em & Fm) _]. apply (IH x z); [..|exact C].
  - rewrite En. apply Forall_app. auto.
  - rewrite Em. apply Forall_app. split; [exact F2|]. eapply Forall_impl; [|exact Fm]. cbn. intros y Hy. destruct Hy as [Ey Hy]. split; [reflexivity|exact Hy].
Qed.

(** ** C90: two pushes from the same old id *)

Lemma first_prog : forall e m c now path old new name caps pack body, word old -> word new -> word name -> utf8_text caps ->
  push_request old new name caps pack body ->
  exists cl, caps_in caps cl /\ forall fuel, http_receive_p e m c fuel now path body =
    let* (_, reply) := receive_p e m c fuel now (mkProto Http path None cl [ref_command_new old new (name ++ [0])]) pack in pret reply.
Proof.
  intros e m c now path old new name caps pack body Ho Hn Hm Hc (b & Hb & ->).
  exists (parse_capabilities [] caps). split.
  - intros x. rewrite parse_capabilities_spec. cbn [In]. tauto.
  - intros fuel. unfold http_receive_p. cbn [proto_new]. unfold pbind at 1. cbn [then_any].
    assert (Hp : parse_ref_update (old ++ [32] ++ new ++ [32] ++ name ++ [0; 32] ++ caps) = Ok (ref_command_new old new (name ++ [0]), caps)).
    { destruct (C49_first_command old new name [] (32 :: caps) Ho Hn Hm) as (cmd & E & E1 & E2 & E3);
        [split; [constructor|apply utf8_text_ascii; constructor]|right; exists 32, caps; split; [reflexivity|left; reflexivity]|].
      cbn [tl] in E. rewrite app_nil_r in E3. cbn [app] in E |- *. rewrite E. f_equal. f_equal.
      revert E. unfold parse_ref_update. destruct (read_until_white_space _) as [[o r1]| | |]; try discriminate. cbn [bind].
      destruct (read_until_white_space r1) as [[n r2]| | |]; try discriminate. cbn [bind].
      destruct (read_until_white_space r2) as [[nm r3]| | |]; try discriminate. cbn [bind]. intros E. injection E as <- _.
      cbn [ref_command_new rc_old_id rc_new_id rc_ref_name] in E1, E2, E3. subst. reflexivity. }
    pose proof (read_pkt _ b (flush ++ pack) Hb) as R. destruct Hb as (h & Lh & Hh & ->).
    unfold receive_p at 1.
    replace (starts_with (bs "PACK") ((h ++ old ++ [32] ++ new ++ [32] ++ name ++ [0; 32] ++ caps) ++ flush ++ pack)) with false
      by (symmetry; rewrite <- app_assoc; apply (hex_not_pack _ _ _ Lh Hh)).
    rewrite R. unfold pbind at 2. cbn [then_any].
    replace (nlen (old ++ [32] ++ new ++ [32] ++ name ++ [0; 32] ++ caps) + 4 =? 0) with false by (symmetry; apply N.eqb_neq; lia).
    cbn [andb]. rewrite Hp. unfold pbind at 2. cbn [then_any]. rewrite utf8_unwrap_text by exact Hc. unfold pbind at 2. cbn [then_any].
    rewrite slice_from_app by reflexivity. reflexivity.
Qed.
Lemma status_ng : forall cl old new name, nlen name <= 60000 ->
  status_reply cl [bs "ng " ++ name ++ [0] ++ bs " db operation failed"]
    (report cl [cmd_failed (cmd_unpacked (ref_command_new old new (name ++ [0])) None) (bs "db operation failed")]).
Proof.
  intros cl old new name L. set (cmd := cmd_failed _ _).
  assert (E : get_status cmd = bs "ng " ++ name ++ [0] ++ bs " db operation failed").
  { unfold get_status, cmd. cbn [rc_status cmd_failed cmd_unpacked ref_command_new rc_ref_name rc_error_msg]. change (beq (bs "ok") (bs "ng")) with false. cbv iota.
    change (bs "ng ") with (bs "ng" ++ [32]). change (bs " db operation failed") with ([32] ++ bs "db operation failed"). rewrite <- !app_assoc. reflexivity. }
  assert (Ln : nlen (bs "ng " ++ name ++ [0] ++ bs " db operation failed") = nlen name + 24).
  { rewrite !nlen_app. change (nlen (bs "ng ")) with 3. change (nlen [0]) with 1. change (nlen (bs " db operation failed")) with 20. lia. }
  pose proof (report_ok cl [cmd]) as R. cbn [map fold_right] in R. rewrite E, Ln in R.
  apply R; [apply Forall_cons; [rewrite E, Ln; lia|apply Forall_nil]|intros _; lia].
Qed.

(** An update that is answered with "ok" found its old id at some moment while it was
    served; otherwise the answer is "ng". *)
Theorem C90_old_id_seen : forall e b c fuel cut rs i now m p s q old new name caps rest body path s1 s2 w reply,
  env_ok e -> refs_table (w_db w) -> nth_error rs i = Some (QHttp now m p s q body) -> gateway m p s q = Ok (AReceivePack path) ->
  word old -> word new -> word name -> nlen name <= 60000 -> utf8_text caps -> old <> repeat 48 40 -> new <> repeat 48 40 ->
  push_request old new name caps (bs "PACK" ++ rest) body -> ~ In i s1 ->
  let ts := started e b c fuel cut rs in
  replied (fst (interleave e (s1 ++ s2) ts w)) i reply ->
  exists cl, caps_in caps cl /\
    (status_reply cl [bs "ng " ++ name ++ [0] ++ bs " db operation failed"] reply \/
     status_reply cl [bs "ok " ++ name ++ [0]] reply /\
     exists d r, moment e s2 (fst (interleave e s1 ts w)) (snd (interleave e s1 ts w)) d /\ In r (d_refs d) /\
       teq e (r_ref_git_id r) old = true /\ teq e (r_repo_path r) path = true).
Proof.
  intros e b c fuel cut rs i now m p s q old new name caps rest body path s1 s2 w reply He T Ni Gw Ho Hn Hm Ln Hc Z0 Z1 Rq Ns ts An.
  destruct (first_prog e b c now path old new name caps (bs "PACK" ++ rest) body Ho Hn Hm Hc Rq) as (cl & Hcl & E). exists cl. split; [exact Hcl|].
  set (V := moment e s2 (fst (interleave e s1 ts w)) (snd (interleave e s1 ts w))).
  assert (VT : forall d, V d -> refs_table d).
  { intros d (a1 & a2 & -> & ->). rewrite <- interleave_app. apply prefix_table; assumption. }
  set (cmd := ref_command_new old new (name ++ [0])).
  assert (Ty : rc_type cmd = Update).
  { unfold cmd, ref_command_new. cbn [rc_type]. rewrite (proj2 (beq_neq zero_id old)) by (intros Z; apply Z0; rewrite <- Z; reflexivity).
    rewrite (proj2 (beq_neq zero_id new)) by (intros Z; apply Z1; rewrite <- Z; reflexivity). reflexivity. }
  eapply (one_request e b c fuel cut rs i (QHttp now m p s q body) s1 s2 w reply); [exact He|exact T|exact Ni|exact Ns| |exact An].
  apply (hold_grow e (step e path)); [intros x y S; exists (QHttp now m p s q body), path; split; [exact Ni|]; split; [apply ab_push; exact Gw|exact S]|].
  unfold serve_p. rewrite Gw. unfold pbind at 1. cbn [then_any]. rewrite E.
  assert (V0 : V (w_db (snd (interleave e s1 ts w)))) by (exists [], s2; auto).
  eapply (hold_bind e (step e path) V (step_lost e path)); [eapply (g_pack_reply e He path V VT); [exact V0|reflexivity|reflexivity|reflexivity]|exact V0|].
  intros [pp out] d1 V1 _ K. cbn [snd pp_caps] in K. apply hold_ret. destruct K as [[K Er]|Er]; rewrite Er.
  - right. split; [apply status_ok; exact Ln|]. destruct (K Ty) as (D & r & VD & K'). exists D, r. split; [exact VD|exact K'].
  - left. apply status_ng. exact Ln.
Qed.

(** ** Cases *)

Definition replied_with (ts : serving) (i : nat) (reply : bytes) : bool :=
  match nth_error ts i with Some (PRet (Ok r)) => beq r reply | _ => false end.
Lemma replied_checked : forall ts i reply, replied_with ts i reply = true -> replied ts i reply.
Proof.
  intros ts i reply H. unfold replied_with, replied in *. destruct (nth_error ts i) as [[[r| | |]|]|]; try discriminate H.
  apply beq_eq in H. rewrite H. reflexivity.
Qed.
Definition has_aborted (ts : serving) (i : nat) : bool := match nth_error ts i with Some (PRet Panic) => true | _ => false end.
Lemma aborted_checked : forall ts i, has_aborted ts i = true -> aborted ts i.
Proof.
  intros ts i H. unfold has_aborted in H. destruct (nth_error ts i) as [[[| | |]|]|] eqn:E; try discriminate H.
  exists Panic. split; [exact E|discriminate].
Qed.
Definition is_ref (r : ref_row) (id : bytes) : bool := beq (r_ref_git_id r) id.
Definition only_ref (d : db) (id : bytes) : bool := match d_refs d with [r] => is_ref r id | _ => false end.
Lemma only_ref_checked : forall d id, only_ref d id = true -> map r_ref_git_id (d_refs d) = [id].
Proof.
  intros d id H. unfold only_ref in H. destruct (d_refs d) as [|r [|]]; try discriminate H. apply beq_eq in H. cbn. rewrite H. reflexivity.
Qed.

(** Two updates of the same reference from the same old id. *)
Definition rival_body : bytes := push_body (to_plain_str (oid ex_top)) (to_plain_str (oid ex_top3)) (bs "refs/heads/master") ex_caps (pack_of ex_hist3).
Definition rival1 : request := QHttp 10 MPost (bs "/demo.git/git-receive-pack") None no_query ex_body2.
Definition rival2 : request := QHttp 11 MPost (bs "/demo.git/git-receive-pack") None no_query rival_body.
Definition rivals : list request := [rival1; rival2].
Definition rival_order : list nat := repeat 0%nat 10 ++ repeat 1%nat 13 ++ repeat 0%nat 3.
Definition rival_run := interleave ex_env rival_order (started ex_env Release stored 50 ex_cut rivals) ex_world.
Definition rival_mid := interleave ex_env (repeat 0%nat 10 ++ repeat 1%nat 13) (started ex_env Release stored 50 ex_cut rivals) ex_world.
Definition ok_reply (old new : bytes) : bytes :=
  report (parse_capabilities [] ex_caps) [cmd_unpacked (ref_command_new old new (bs "refs/heads/master" ++ [0])) None].
Definition rival_check : list bool :=
  [replied_with (fst rival_run) 0 (ok_reply (to_plain_str (oid ex_top)) (to_plain_str (oid ex_second)));
   replied_with (fst rival_run) 1 (ok_reply (to_plain_str (oid ex_top)) (to_plain_str (oid ex_top3)));
   only_ref (w_db (snd rival_mid)) (to_plain_str (oid ex_top3)); only_ref (w_db (snd rival_run)) (to_plain_str (oid ex_second));
   replied_with (fst rival_mid) 1 (ok_reply (to_plain_str (oid ex_top)) (to_plain_str (oid ex_top3)))].
Lemma rival_checked : all_of rival_check = true.
Proof. vm_compute. reflexivity. Qed.
Lemma ex_caps_in : caps_in ex_caps (parse_capabilities [] ex_caps).
Proof. intros x. rewrite parse_capabilities_spec. cbn [In]. tauto. Qed.
Lemma ex_second_ok : id_ok (oid ex_second).
Proof. apply oid_ok, commit_base. Qed.
Lemma ex_top3_ok : id_ok (oid ex_top3).
Proof. apply oid_ok, commit_base. Qed.
Lemma rival_one : push_request (to_plain_str (oid ex_top)) (to_plain_str (oid ex_second)) (bs "refs/heads/master") ex_caps (pack_of ex_full) ex_body2.
Proof. apply push_body_request. rewrite !nlen_app, (plain_len _ ex_top_id), (plain_len _ ex_second_ok). vm_compute. discriminate. Qed.
Lemma rival_two : push_request (to_plain_str (oid ex_top)) (to_plain_str (oid ex_top3)) (bs "refs/heads/master") ex_caps (pack_of ex_hist3) rival_body.
Proof. apply push_body_request. rewrite !nlen_app, (plain_len _ ex_top_id), (plain_len _ ex_top3_ok). vm_compute. discriminate. Qed.

(** Both are answered with "ok", though the second had moved the reference away from the
    old id of the first: its commit is no longer named by any reference. *)
Theorem C90_lost_update_refuted : exists e b c fuel cut r1 r2 now1 now2 m p s q body1 body2 path old new1 new2 name caps pack1 pack2 schedule w,
  env_ok e /\ refs_table (w_db w) /\ no_failure w /\ now1 <> now2 /\ r1 = QHttp now1 m p s q body1 /\ r2 = QHttp now2 m p s q body2 /\
  gateway m p s q = Ok (AReceivePack path) /\ push_request old new1 name caps pack1 body1 /\ push_request old new2 name caps pack2 body2 /\
  new1 <> new2 /\ new2 <> old /\ map r_ref_git_id (d_refs (w_db w)) = [old] /\
  let ts := started e b c fuel cut [r1; r2] in let F := interleave e schedule ts w in
  (exists cl reply1 reply2, caps_in caps cl /\ replied (fst F) 0 reply1 /\ status_reply cl [bs "ok " ++ name ++ [0]] reply1 /\
    replied (fst F) 1 reply2 /\ status_reply cl [bs "ok " ++ name ++ [0]] reply2) /\
  (exists d, moment e schedule ts w d /\ map r_ref_git_id (d_refs d) = [new2]) /\
  map r_ref_git_id (d_refs (w_db (snd F))) = [new1].
Proof.
  exists ex_env, Release, stored, 50%nat, ex_cut.
  exists rival1, rival2, 10, 11, MPost, (bs "/demo.git/git-receive-pack"), None, no_query, ex_body2, rival_body, (bs "/demo"), (to_plain_str (oid ex_top)), (to_plain_str (oid ex_second)),
    (to_plain_str (oid ex_top3)), (bs "refs/heads/master"), ex_caps, (pack_of ex_full), (pack_of ex_hist3), rival_order, ex_world.
  split; [exact ex_env_ok|]. split; [exact ex_world_table|]. split; [exact ex_world_quiet|]. split; [discriminate|]. split; [reflexivity|]. split; [reflexivity|].
  split; [exact push_demo_at|]. split; [exact rival_one|]. split; [exact rival_two|]. split; [apply beq_neq; vm_compute; reflexivity|].
  split; [apply beq_neq; vm_compute; reflexivity|]. split; [rewrite ex_world_refs; reflexivity|]. intros ts F.
  assert (EF : F = rival_run) by (unfold F, ts, rival_run, rivals; reflexivity). clearbody F. subst F.
  split; [|split].
  - exists (parse_capabilities [] ex_caps), (ok_reply (to_plain_str (oid ex_top)) (to_plain_str (oid ex_second))), (ok_reply (to_plain_str (oid ex_top)) (to_plain_str (oid ex_top3))).
    split; [exact ex_caps_in|]. split; [apply replied_checked; exact (all_of_in rival_check 0 _ rival_checked eq_refl)|]. split; [apply status_ok; vm_compute; discriminate|].
    split; [apply replied_checked; exact (all_of_in rival_check 1 _ rival_checked eq_refl)|apply status_ok; vm_compute; discriminate].
  - exists (w_db (snd rival_mid)). split; [|apply only_ref_checked; exact (all_of_in rival_check 2 _ rival_checked eq_refl)].
    exists (repeat 0%nat 10 ++ repeat 1%nat 13), (repeat 0%nat 3). split; [unfold rival_order; rewrite app_assoc; reflexivity|reflexivity].
  - apply only_ref_checked. exact (all_of_in rival_check 3 _ rival_checked eq_refl).
Qed.
(** The premises of [C90_old_id_seen] for both, and a run in which both are answered. *)
Example C90_ex : env_ok ex_env /\ refs_table (w_db ex_world) /\
  word (to_plain_str (oid ex_top)) /\ word (to_plain_str (oid ex_second)) /\ word (bs "refs/heads/master") /\ utf8_text ex_caps /\
  to_plain_str (oid ex_top) <> repeat 48 40 /\ to_plain_str (oid ex_second) <> repeat 48 40 /\
  (exists rest, push_request (to_plain_str (oid ex_top)) (to_plain_str (oid ex_second)) (bs "refs/heads/master") ex_caps (bs "PACK" ++ rest) ex_body2) /\
  ~ In 0%nat (repeat 1%nat 3) /\
  exists reply, replied (fst (interleave ex_env (repeat 1%nat 3 ++ repeat 0%nat 13) (started ex_env Release stored 50 ex_cut rivals) ex_world)) 0 reply.
Proof.
  split; [exact ex_env_ok|]. split; [exact ex_world_table|].
  split; [exact (hex_word _ _ (plain_lower _ ex_top_id) ex_top_id)|]. split; [exact (hex_word _ _ (plain_lower _ ex_second_ok) ex_second_ok)|].
  split; [exact master_word|]. split; [apply utf8_text_ascii; apply Forall_forall; intros b Hb; vm_compute in Hb; repeat (destruct Hb as [<-|Hb]; [reflexivity|]); destruct Hb|].
  split; [apply beq_neq; vm_compute; reflexivity|]. split; [apply beq_neq; vm_compute; reflexivity|].
  split; [|split; [intros [E|[E|[E|[]]]]; discriminate E|]].
  - exists (skipn 4 (pack_of ex_full)). replace (bs "PACK" ++ skipn 4 (pack_of ex_full)) with (pack_of ex_full); [exact rival_one|].
    apply beq_eq. vm_compute. reflexivity.
  - exists (ok_reply (to_plain_str (oid ex_top)) (to_plain_str (oid ex_second))). apply replied_checked. vm_compute. reflexivity.
Qed.

(** ** C91: two pushes within the same second *)

Definition other_now : request := QHttp 7 MPost (bs "/other.git/git-receive-pack") None no_query ex_body3.
Definition same_second : list request := [push_demo; other_now].
Definition swap_order : list nat := [0%nat] ++ repeat 1%nat 1 ++ repeat 0%nat 13 ++ repeat 1%nat 13.
Definition swap_run := interleave ex_env swap_order (started ex_env Release stored 50 ex_cut same_second) (world_of db_empty).
Definition late_order : list nat := [0%nat] ++ repeat 1%nat 2 ++ repeat 0%nat 13 ++ repeat 1%nat 13.
Definition late_run := interleave ex_env late_order (started ex_env Release stored 50 ex_cut same_second) (world_of db_empty).
Definition no_commit (d : db) (id : bytes) : bool := forallb (fun r => negb (beq (c_git_id r) id)) (d_commits d).
Lemma no_commit_checked : forall d id, no_commit d id = true -> forall r, In r (d_commits d) -> c_git_id r <> id.
Proof. intros d id H r Hr E. unfold no_commit in H. rewrite forallb_forall in H. apply H in Hr. rewrite E, beq_refl in Hr. discriminate Hr. Qed.
Definition has_ref (d : db) (path id : bytes) : bool := existsb (fun r => beq (r_repo_path r) path && beq (r_ref_git_id r) id) (d_refs d).
Lemma has_ref_checked : forall d path id, has_ref d path id = true -> exists r, In r (d_refs d) /\ r_repo_path r = path /\ r_ref_git_id r = id.
Proof. intros d path id H. apply existsb_exists in H as (r & Hr & K). apply andb_true_iff in K as [K1 K2]. apply beq_eq in K1, K2. eauto. Qed.
Definition swap_check : list bool :=
  [replied_with (fst swap_run) 0 (ok_reply (repeat 48 40) (to_plain_str (oid ex_top))); has_ref (w_db (snd swap_run)) (bs "/demo") (to_plain_str (oid ex_top));
   no_commit (w_db (snd swap_run)) (to_plain_str (oid ex_top)); has_aborted (fst swap_run) 1;
   has_aborted (fst late_run) 1; has_ref (w_db (snd late_run)) (bs "/other") (to_plain_str (oid ex_top3))].
Lemma swap_checked : all_of swap_check = true.
Proof. vm_compute. reflexivity. Qed.
(** A complete request to push [objs] as a new reference. *)
Definition good_push (e : env) (c : codec) (w : world) (r : request) (now : N) (path new name caps : bytes) : Prop :=
  exists m p s q body pack objs h, r = QHttp now m p s q body /\ gateway m p s q = Ok (AReceivePack path) /\
    push_request (repeat 48 40) new name caps pack body /\ git_pack c (get_hash_object e w) pack objs /\ nlen pack < 2 ^ 32 /\
    history path (map snd objs) /\ id_ok h /\ lower_hex new h /\ exists d, In (Commit, d) (map snd objs) /\ obj_id (Commit, d) h.
Lemma demo_good : forall w, good_push ex_env stored w push_demo 7 (bs "/demo") (to_plain_str (oid ex_top)) (bs "refs/heads/master") ex_caps.
Proof.
  intros w. destruct (ex_pack (get_hash_object ex_env w)) as (objs & G & E).
  exists MPost, (bs "/demo.git/git-receive-pack"), None, no_query, ex_body, (pack_of ex_hist), objs, (oid ex_top). rewrite E.
  split; [reflexivity|]. split; [exact push_demo_at|].
  split; [apply push_body_request; rewrite !nlen_app, (plain_len _ ex_top_id); vm_compute; discriminate|].
  split; [exact G|]. split; [exact ex_pack_small|]. split; [apply ex_hist_ok; reflexivity|]. split; [exact ex_top_id|]. split; [apply plain_lower; exact ex_top_id|].
  exists (snd ex_top). split; [left; reflexivity|]. change (Commit, snd ex_top) with ex_top. apply ex_id_ok. left. reflexivity.
Qed.
Lemma other_good : forall w, good_push ex_env stored w other_now 7 (bs "/other") (to_plain_str (oid ex_top3)) (bs "refs/heads/master") ex_caps.
Proof.
  intros w. destruct (pack_of_git ex_hist3 (get_hash_object ex_env w)) as (objs & G & E); [discriminate|reflexivity|apply (hs_sound _ _ ex_hist3_ok)|].
  exists MPost, (bs "/other.git/git-receive-pack"), None, no_query, ex_body3, (pack_of ex_hist3), objs, (oid ex_top3). rewrite E.
  split; [reflexivity|]. split; [exact push_other_at|].
  split; [apply push_body_request; rewrite !nlen_app, (plain_len _ ex_top3_ok); vm_compute; discriminate|].
  split; [exact G|]. split; [vm_compute; reflexivity|]. split; [exact ex_hist3_ok|]. split; [exact ex_top3_ok|]. split; [apply plain_lower; exact ex_top3_ok|].
  exists (snd ex_top3). split; [left; reflexivity|]. change (Commit, snd ex_top3) with ex_top3. apply oid_id.
  pose proof (hs_sound _ _ ex_hist3_ok) as F. rewrite Forall_forall in F. apply F. left. reflexivity.
Qed.

(** Two pushes to different repositories; each alone would succeed (C46). The first is
    answered with "ok", and its reference names a commit that is not stored; the second
    aborts. *)
Theorem C91_wrong_pack_refuted : exists e b c fuel cut r1 r2 now path1 path2 new1 new2 name caps schedule w,
  env_ok e /\ refs_table (w_db w) /\ no_failure w /\ path1 <> path2 /\ good_push e c w r1 now path1 new1 name caps /\ good_push e c w r2 now path2 new2 name caps /\
  let F := interleave e schedule (started e b c fuel cut [r1; r2]) w in
  (exists cl reply, caps_in caps cl /\ replied (fst F) 0 reply /\ status_reply cl [bs "ok " ++ name ++ [0]] reply) /\
  (exists r, In r (d_refs (w_db (snd F))) /\ r_repo_path r = path1 /\ r_ref_git_id r = new1) /\
  (forall r, In r (d_commits (w_db (snd F))) -> c_git_id r <> new1) /\ aborted (fst F) 1.
Proof.
  exists ex_env, Release, stored, 50%nat, ex_cut, push_demo, other_now, 7, (bs "/demo"), (bs "/other"), (to_plain_str (oid ex_top)), (to_plain_str (oid ex_top3)),
    (bs "refs/heads/master"), ex_caps, swap_order, (world_of db_empty).
  split; [exact ex_env_ok|]. split; [split; [constructor|intros r []]|]. split; [reflexivity|]. split; [discriminate|]. split; [apply demo_good|]. split; [apply other_good|].
  intros F. assert (EF : F = swap_run) by (unfold F, swap_run, same_second; reflexivity). clearbody F. subst F. split; [|split; [|split]].
  - exists (parse_capabilities [] ex_caps), (ok_reply (repeat 48 40) (to_plain_str (oid ex_top))). split; [exact ex_caps_in|].
    split; [apply replied_checked; exact (all_of_in swap_check 0 _ swap_checked eq_refl)|apply status_ok; vm_compute; discriminate].
  - apply has_ref_checked. exact (all_of_in swap_check 1 _ swap_checked eq_refl).
  - apply no_commit_checked. exact (all_of_in swap_check 2 _ swap_checked eq_refl).
  - apply aborted_checked. exact (all_of_in swap_check 3 _ swap_checked eq_refl).
Qed.
(** Nor does C84 hold of such pushes: the second aborts after its reference was made. *)
Theorem C91_aborted_late_refuted : exists e b c fuel cut r1 r2 now path1 path2 new1 new2 name caps schedule w,
  env_ok e /\ refs_table (w_db w) /\ no_failure w /\ path1 <> path2 /\ good_push e c w r1 now path1 new1 name caps /\ good_push e c w r2 now path2 new2 name caps /\
  d_refs (w_db w) = [] /\
  let F := interleave e schedule (started e b c fuel cut [r1; r2]) w in
  aborted (fst F) 1 /\ exists r, In r (d_refs (w_db (snd F))) /\ r_repo_path r = path2 /\ r_ref_git_id r = new2.
Proof.
  exists ex_env, Release, stored, 50%nat, ex_cut, push_demo, other_now, 7, (bs "/demo"), (bs "/other"), (to_plain_str (oid ex_top)), (to_plain_str (oid ex_top3)),
    (bs "refs/heads/master"), ex_caps, late_order, (world_of db_empty).
  split; [exact ex_env_ok|]. split; [split; [constructor|intros r []]|]. split; [reflexivity|]. split; [discriminate|]. split; [apply demo_good|]. split; [apply other_good|].
  split; [reflexivity|]. intros F. assert (EF : F = late_run) by (unfold F, late_run, same_second; reflexivity). clearbody F. subst F. split.
  - apply aborted_checked. exact (all_of_in swap_check 4 _ swap_checked eq_refl).
  - apply has_ref_checked. exact (all_of_in swap_check 5 _ swap_checked eq_refl).
Qed.

(** ** Cases of C87-C89: two pushes and a clone at once *)

(** A binary collation. *)
Definition plain_env : env := mkEnv beq (fun path repo => starts_with repo path) (fun _ _ l => l) false.
Lemma plain_env_ok : env_ok plain_env.
Proof.
  split; [intros; apply Permutation_refl|]. split; [intros a; apply beq_refl|].
  intros a b g h _ _ _ _ E. apply beq_eq in E. exact E.
Qed.
Definition together : list request := [push_demo; push_other; clone_demo].
Definition first_part : list nat := repeat 0%nat 9.
Definition second_part : list nat := concat (repeat [2%nat; 1%nat; 0%nat] 20).
Definition together_run := interleave plain_env (first_part ++ second_part) (started plain_env Release stored 50 ex_cut together) (world_of db_empty).
Definition final_db : db := w_db (snd together_run).
Definition finished (ts : serving) (i : nat) : bool := match nth_error ts i with Some (PRet (Ok _)) => true | _ => false end.
Lemma finished_checked : forall ts i, finished ts i = true -> exists reply, replied ts i reply.
Proof. intros ts i H. unfold finished, replied in *. destruct (nth_error ts i) as [[[r| | |]|]|]; try discriminate H. eauto. Qed.
Definition on_top (path : bytes) (d : db) : bool := forallb (fun r => negb (path_starts_with path (r_repo_path r)) || beq (r_repo_path r) path) (d_refs d).
Lemma on_top_checked : forall e path d, (forall p, teq e p path = true -> p = path) -> on_top path d = true -> top_level e d path.
Proof.
  intros e path d He H r p Hr Hp Hs. apply He in Hp. subst p. unfold on_top in H. rewrite forallb_forall in H. apply H in Hr. apply starts_with_within in Hs. rewrite Hs in Hr. apply beq_eq. exact Hr.
Qed.
Definition together_check : list bool :=
  [forallb (row_check (ex_hist ++ ex_hist3)) (d_nodes final_db); forallb (commit_check [(ex_top, oid ex_root); (ex_top3, oid ex_root3)]) (d_commits final_db);
   on_top (bs "/demo") final_db;
   finished (fst together_run) 0; finished (fst together_run) 1; finished (fst together_run) 2;
   nlen (d_commits final_db) =? 2; nlen (d_refs final_db) =? 2; nlen (d_nodes final_db) =? 6].
Lemma together_checked : all_of together_check = true.
Proof. vm_compute. reflexivity. Qed.
Lemma together_nth : forall i b, nth_error together_check i = Some b -> b = true.
Proof. intros i b. apply all_of_in. exact together_checked. Qed.
Lemma final_within : forall o, repo_objects plain_env final_db (bs "/demo") o -> In o (ex_hist ++ ex_hist3).
Proof.
  apply (repo_within _ [(ex_top, oid ex_root); (ex_top3, oid ex_root3)]); [exact both_id| |exact (together_nth 0 _ eq_refl)|exact (together_nth 1 _ eq_refl)].
  intros o h Hc. apply two_pairs in Hc as [[-> ->]|[-> ->]].
  - split; [left; reflexivity|]. split; [apply oid_ok, tree_base|exact ex_top_root].
  - split; [apply in_or_app; right; left; reflexivity|]. split; [apply oid_ok, tree_base|exact ex_top3_root].
Qed.
Lemma final_sound : sound_db final_db.
Proof.
  refine (db_check (ex_hist ++ ex_hist3) [(ex_top, oid ex_root); (ex_top3, oid ex_root3)] _ (hs_sound _ _ both_ok) _ (together_nth 0 _ eq_refl) (together_nth 1 _ eq_refl)).
  intros o h Hc. apply two_pairs in Hc as [[-> ->]|[-> ->]].
  - split; [left; reflexivity|]. split; [apply oid_ok, tree_base|exact ex_top_root].
  - split; [apply in_or_app; right; left; reflexivity|]. split; [apply oid_ok, tree_base|exact ex_top3_root].
Qed.
(** What a history has, tables within it have. *)
Lemma within_typed : forall path l (S : object -> Prop), history path l -> (forall o, S o -> In o l) -> well_typed S /\ no_submodules S.
Proof.
  intros path l S H W.
  assert (R : forall o, reach S o -> reach (fun o => In o l) o) by (intros o; apply reach_mono; exact W). split.
  - intros o t h o' Ro Rf So Io. destruct (hs_complete _ _ H o t h (R o Ro) Rf) as (_ & d & Hd & Hi).
    assert (E : o' = (t, d)) by (apply (hs_free _ _ H _ _ h); auto). rewrite E. reflexivity.
  - intros o t h Ro Rf. exact (proj1 (hs_complete _ _ H o t h (R o Ro) Rf)).
Qed.

(** All premises of C87 and C88. *)
Example C88_ex : env_ok plain_env /\ codec_ok stored /\ (forall x, pieces 65515 x (ex_cut x)) /\ refs_table (w_db (world_of db_empty)) /\
  (forall x, In x (d_commits (w_db (world_of db_empty))) -> whole (w_db (world_of db_empty)) x \/ derived (w_db (world_of db_empty)) x) /\
  nth_error together 2 = Some clone_demo /\ clone_request clone_body /\ ~ In 2%nat first_part /\
  let F := final_db in let S := repo_objects plain_env F (bs "/demo") in
  honest_db plain_env F (bs "/demo") /\ collision_free S /\ well_typed S /\ no_submodules S /\ top_level plain_env F (bs "/demo") /\
  (exists reply, replied (fst together_run) 2 reply) /\
  (exists reply, replied (fst together_run) 1 reply) /\ nlen (d_commits F) = 2 /\ nlen (d_refs F) = 2 /\ nlen (d_nodes F) = 6.
Proof.
  split; [exact plain_env_ok|]. split; [exact stored_ok|]. split; [exact ex_cut_ok|]. split; [split; [constructor|intros r []]|]. split; [intros x []|].
  split; [reflexivity|]. split; [exact clone_body_ok|]. split; [intros H; apply repeat_spec in H; discriminate H|].
  destruct (within_typed _ _ _ both_ok final_within) as [Ht Hs]. cbv zeta.
  split; [exact (sound_honest _ _ _ final_sound)|]. split; [exact (free_sub _ _ final_within (hs_free _ _ both_ok))|]. split; [exact Ht|]. split; [exact Hs|].
  split; [apply on_top_checked; [intros p Hp; apply beq_eq; exact Hp|exact (together_nth 2 _ eq_refl)]|].
  split; [apply finished_checked; exact (together_nth 5 _ eq_refl)|]. split; [apply finished_checked; exact (together_nth 4 _ eq_refl)|].
  split; [apply N.eqb_eq; exact (together_nth 6 _ eq_refl)|]. split; apply N.eqb_eq; [exact (together_nth 7 _ eq_refl)|exact (together_nth 8 _ eq_refl)].
Qed.
(** Between [first_part] and the end the snapshot of /demo is not empty. *)
Definition middle : world := snd (interleave plain_env first_part (started plain_env Release stored 50 ex_cut together) (world_of db_empty)).
Definition middle_check : list bool := [nlen (d_commits (w_db middle)) =? 1; nlen (d_nodes (w_db middle)) =? 3; nlen (d_refs (w_db middle)) =? 0].
Lemma middle_checked : all_of middle_check = true.
Proof. vm_compute. reflexivity. Qed.
Example C87_ex : moment plain_env (first_part ++ second_part) (started plain_env Release stored 50 ex_cut together) (world_of db_empty) (w_db middle) /\
  nlen (d_commits (w_db middle)) = 1 /\ nlen (d_nodes (w_db middle)) = 3 /\ nlen (d_refs (w_db middle)) = 0.
Proof.
  split; [exists first_part, second_part; split; reflexivity|].
  split; [apply N.eqb_eq; exact (all_of_in middle_check 0 _ middle_checked eq_refl)|].
  split; apply N.eqb_eq; [exact (all_of_in middle_check 1 _ middle_checked eq_refl)|exact (all_of_in middle_check 2 _ middle_checked eq_refl)].
Qed.
(** Requests elsewhere, while another repository is used. *)
Definition others_run := interleave ex_env (concat (repeat [0%nat; 1%nat] 15)) (started ex_env Release stored 50 ex_cut [push_other; other_now]) ex_world.
Definition others_check : list bool :=
  [nlen (d_nodes (w_db (snd others_run))) =? 9; nlen (d_refs (w_db (snd others_run))) =? 3; finished (fst others_run) 0; finished (fst others_run) 1;
   nlen (d_nodes (w_db ex_world)) =? 3].
Lemma others_checked : all_of others_check = true.
Proof. vm_compute. reflexivity. Qed.
Lemma others_elsewhere : elsewhere ex_env (bs "/demo") [push_other; other_now].
Proof.
  intros r p Hr A. assert (K : about r (bs "/other")) by (destruct Hr as [<-|[<-|[]]]; exact (ab_push _ _ _ _ _ _ _ push_other_at)).
  rewrite (about_unique _ _ _ A K). reflexivity.
Qed.
Example C89_ex : env_ok ex_env /\ teq_equiv ex_env /\ refs_table (w_db ex_world) /\ elsewhere ex_env (bs "/demo") [push_other; other_now] /\
  (exists reply, replied (fst others_run) 0 reply) /\ (exists reply, replied (fst others_run) 1 reply) /\
  nlen (d_nodes (w_db ex_world)) = 3 /\ nlen (d_nodes (w_db (snd others_run))) = 9 /\ nlen (d_refs (w_db (snd others_run))) = 3.
Proof.
  split; [exact ex_env_ok|]. split; [exact ex_equiv|]. split; [exact ex_world_table|]. split; [exact others_elsewhere|].
  split; [apply finished_checked; exact (all_of_in others_check 2 _ others_checked eq_refl)|].
  split; [apply finished_checked; exact (all_of_in others_check 3 _ others_checked eq_refl)|].
  split; [apply N.eqb_eq; exact (all_of_in others_check 4 _ others_checked eq_refl)|].
  split; apply N.eqb_eq; [exact (all_of_in others_check 0 _ others_checked eq_refl)|exact (all_of_in others_check 1 _ others_checked eq_refl)].
Qed.
(** Any request can be served alone to its end. *)
Example C89_alone_ex : forall e b c fuel cut r w, exists n,
  interleave e (repeat 0%nat n) (started e b c fuel cut [r]) w = ([PRet (snd (serve e b c fuel cut r w))], fst (serve e b c fuel cut r w)).
Proof.
  intros e b c fuel cut r w. destruct (one_after e 0 (serve_p e b c fuel cut r) (started e b c fuel cut [r]) w eq_refl) as (n & E). exists n.
  rewrite E, C89_programs. reflexivity.
Qed.

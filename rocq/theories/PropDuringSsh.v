(** C152: clones and fetches over SSH, while other requests are served. *)

From Coq Require Import Permutation.
From Verif Require Import Base BaseLemmas Digest ModelUtils ModelObject ModelBase ModelPack ModelDecode ModelPkt ModelStorage ModelProto
  ModelLfs ModelGateway ModelService ModelConc StoredZlib SpecObject SpecFormat SpecIdx SpecBase SpecPack SpecPkt SpecPath SpecStorage SpecProto SpecFetch SpecGateway SpecService
  SpecConc ProofUtils ProofObject ProofUtf8 ProofBase ProofPack ProofPkt ProofReq ProofPath ProofEncode ProofNodes ProofStorage ProofPush ProofClone ProofRepo ProofRefs
  ProofSession ProofGraph ProofExample PropPkt PropStorage PropProto PropGateway ProofService PropService PropSsh PropFetch PropNegotiate ProofConc ProofWhole ProofSnapshot PropConc
  PropDuring.
Open Scope N_scope.

(** ** The session *)

Lemma open_prog : forall e s name, ~ In 32 name -> utf8_text name ->
  ssh_command_p e (ssh_line s name) =
    (let* reply := info_refs_p e (mkProto Ssh name (Some s) [] []) in
     let* _ := PRet (utf8_unwrap reply) in pret (mkProto Ssh name (Some s) [] [], reply)).
Proof.
  intros e s name Hn Ht. unfold ssh_command_p, ssh_line.
  change (bs " '/" ++ name ++ bs ".git'") with (32 :: [39; 47] ++ name ++ bs ".git'").
  assert (Hs : ~ In 32 (service_text s)) by (destruct s; vm_compute; intuition discriminate).
  assert (Hq : ~ In 32 ([39; 47] ++ name ++ bs ".git'")).
  { intros K. apply in_app_or in K as [K|K]; [vm_compute in K; intuition discriminate|]. apply in_app_or in K as [K|K]; [exact (Hn K)|vm_compute in K; intuition discriminate]. }
  rewrite split_two by assumption. cbn [nth_error unwrap_opt hd]. unfold pbind at 1. cbn [then_any].
  destruct (Nat.ltb_spec (length ([39; 47] ++ name ++ bs ".git'")) 5) as [L|_]; [rewrite !app_length in L; cbn [length bs] in L; lia|].
  unfold pbind at 1. cbn [then_any]. rewrite ssh_slice by reflexivity. unfold pbind at 1. cbn [then_any]. rewrite utf8_unwrap_text by exact Ht.
  unfold pbind at 1. cbn [then_any]. assert (P : proto_new name (service_text s) Ssh = Ok (mkProto Ssh name (Some s) [] [])) by (destruct s; reflexivity).
  rewrite P. reflexivity.
Qed.
Lemma about_line : forall now s name packets, ~ In 32 name -> about (QSsh now (ssh_line s name) packets) name.
Proof.
  intros now s name packets Hn. apply (ab_ssh now (ssh_line s name) packets (service_text s) [39; 47] name (bs ".git'") []).
  - destruct s; vm_compute; intuition discriminate.
  - unfold ssh_line. rewrite app_nil_r. reflexivity.
  - reflexivity.
  - reflexivity.
  - intros K. apply in_app_or in K as [K|K]; [vm_compute in K; intuition discriminate|]. apply in_app_or in K as [K|K]; [exact (Hn K)|vm_compute in K; intuition discriminate].
  - left. reflexivity.
Qed.

Section Session.
Context (e : env) (He : env_ok e) (path : bytes) (Hn : ~ In 32 path) (Ht : utf8_text path).
Context (G : db -> db -> Prop) (V : db -> Prop) (Gl : forall d d', G d d' -> nothing_lost d d').
Context (HI : forall pp d, pp_path pp = path -> V d -> hold e G V (fun _ _ => True) (info_refs_p e pp) d).
Local Notation holds := (hold e G V).

(** What a session with one packet replies: what was sent when it began, then the answer. *)
Lemma session_holds : forall b c fuel cut now body (Q : bytes -> Prop) d,
  (forall d', V d' -> holds (fun x _ => Q (snd x)) (ssh_data_p e b c fuel cut (now 0%nat) (mkProto Ssh path (Some UploadPack) [] []) body) d') -> V d ->
  holds (fun reply _ => exists adv rest, reply = adv ++ rest /\ Q rest) (serve_p e b c fuel cut (QSsh now (ssh_line UploadPack path) [body])) d.
Proof.
  intros b c fuel cut now body Q d H Vd. unfold serve_p. rewrite (open_prog e UploadPack path Hn Ht).
  apply (hold_bind e G V Gl _ _ (fun x _ => fst x = mkProto Ssh path (Some UploadPack) [] [])); [|exact Vd|].
  - apply (hold_bind e G V Gl _ _ (fun _ _ => True)); [apply HI; [reflexivity|exact Vd]|exact Vd|]. intros adv d1 V1 _ _.
    apply (hold_bind e G V Gl _ _ (fun _ _ => True)); [apply hold_lift; auto|exact V1|]. intros u d2 V2 _ _. apply hold_ret. reflexivity.
  - intros [pp adv] d1 V1 _ Ep. cbn [fst] in Ep. subst pp.
    apply (hold_bind e G V Gl _ _ (fun x _ => Q (snd x))); [|exact V1|].
    + cbn [ssh_session_p length]. eapply hold_bind; [exact Gl|apply H; exact V1|exact V1|].
      intros [pp1 a] d2 V2 _ Ha. cbn [snd] in Ha. unfold pbind, pret. cbn [then_any]. apply hold_ret. cbn [snd]. rewrite app_nil_r. exact Ha.
    + intros [pp2 rest] d2 V2 _ Hr. cbn [snd] in Hr. apply hold_ret. eauto.
Qed.
End Session.

Section Packs.
Context (e : env) (He : env_ok e) (F : db) (path : bytes).
Context (Hh : honest_db e F path) (Hcf : collision_free (repo_objects e F path)) (Hty : well_typed (repo_objects e F path)).
Context (Hsub : no_submodules (repo_objects e F path)) (Htop : top_level e F path).
Context (G : db -> db -> Prop) (V : db -> Prop) (Gr : forall d, V d -> G d d) (Gl : forall d d', G d d' -> nothing_lost d d').
Context (HV : forall d, V d -> nothing_lost d F) (HS : forall d, V d -> forall c, In c (d_commits d) -> sourced d c).
Local Notation holds := (hold e G V).

Lemma clone_upload : forall c st fuel pr s0 body d, codec_ok c -> clone_request body -> V d ->
  holds (fun r _ => exists caps data, r = (mkProto pr path s0 caps [], data, add_pkt_line [] (bs "NAK" ++ [10])) /\ (In SideBand caps \/ In SideBand64k caps) /\
    exists D, V D /\ packs c st (reach (repo_objects e D path)) data)
    (upload_p e c fuel (mkProto pr path s0 [] []) body) d.
Proof.
  intros c st fuel pr s0 body d Hc (items & t & bb & x & line & Rb & Ft & Ut & Cw & Nh & Pl & ->) Vd.
  destruct (C43_fetch_request items bb x line [] (Some t) (Datatypes.S (length items) + fuel) Rb Pl Ft Ut) as (want & have & caps & Eu & _ & _ & Hh' & _ & Hca); [lia|].
  rewrite app_nil_r in Eu.
  assert (Hv : have = []).
  { destruct have as [|i have]; [reflexivity|]. destruct (proj1 (Hh' i) (or_introl eq_refl)) as (tl & K). destruct (Nh _ _ K). }
  subst have. unfold upload_p. cbn [pp_caps pp_protocol pp_path pp_service pp_cmds].
  destruct (upload_loop fuel true [] [] [] (bb ++ line)) as [r|z| |] eqn:Ul; try (intros a E; discriminate).
  assert (Er : r = (want, [], caps, [])).
  { apply (upload_more _ (Datatypes.S (length items))) in Ul. rewrite Ul in Eu. injection Eu as ->. reflexivity. }
  rewrite Er. unfold pbind at 1. cbn [then_any]. eapply hold_bind; [exact Gl| |exact Vd|].
  - apply hold_unwrap; [exact Gl|exact Vd|]. exact (full_holds e He F path Hh Hcf Hty Hsub Htop G V Gr Gl HV HS c st fuel d Hc Vd).
  - intros data d1 V1 L1 (D & VD & Pk). apply hold_ret. exists caps, data. split; [reflexivity|]. split; [|eauto].
    destruct Cw as [Cw|Cw]; [left|right]; apply Hca; exists t; split; try reflexivity; exact Cw.
Qed.
Lemma clone_data : forall b c st fuel cut now body d, codec_ok c -> (forall x, pieces 65515 x (cut x)) -> clone_request body -> V d ->
  holds (fun x _ => exists D, V D /\ clone_reply c st (snd x) (reach (repo_objects e D path)))
    (ssh_data_p e b c fuel cut now (mkProto Ssh path (Some UploadPack) [] []) body) d.
Proof.
  intros b c st fuel cut now body d Hc Hcut Cr Vd. unfold ssh_data_p. cbn [pp_service].
  eapply hold_bind; [exact Gl|exact (clone_upload c st fuel Ssh (Some UploadPack) body d Hc Cr Vd)|exact Vd|].
  intros r d1 V1 L1 (caps & data & -> & Cw & D & VD & objs & Gp & Nd & Io).
  apply (hold_bind e G V Gl _ _ (fun _ _ => True)); [apply hold_lift; auto|exact V1|]. intros u d2 V2 _ _. apply hold_ret. exists D. split; [exact VD|].
  exists (add_pkt_line [] (bs "NAK" ++ [10])), (concat (send_pack caps (cut data))), data, objs. split; [reflexivity|].
  split; [apply hex4_pkt; vm_compute; discriminate|]. split; [|auto]. apply C39_side_band_delivers; [exact Cw|apply Hcut].
Qed.
Lemma fetch_data : forall b c st fuel cut now items t body d, codec_ok c -> (forall x, pieces 65515 x (cut x)) ->
  have_request items t body -> cap_word t (bs "multi_ack_detailed") -> cap_word t (bs "side-band") \/ cap_word t (bs "side-band-64k") -> V d ->
  holds (fun x _ => exists D, V D /\
      fetch_reply_during e c st V (cap_word t (bs "no-done")) items (fun o => fst o <> Commit /\ reach (asked_for e D path items) o) (snd x))
    (ssh_data_p e b c fuel cut now (mkProto Ssh path (Some UploadPack) [] []) body) d.
Proof.
  intros b c st fuel cut now items t body d Hc Hcut Rq Mu Sb Vd. unfold ssh_data_p. cbn [pp_service].
  eapply hold_bind; [exact Gl|exact (fetch_upload e He F path Hh Hcf Hty Hsub Htop G V Gr Gl HV HS c st fuel Ssh (Some UploadPack) items t body d Hc Rq Mu Sb Vd)|exact Vd|].
  intros r d1 V1 L1 (caps & data & acks & -> & Cw & Ak & D & VD & objs & Gp & Nd & Io).
  apply (hold_bind e G V Gl _ _ (fun _ _ => True)); [apply hold_lift; auto|exact V1|]. intros u d2 V2 _ _. apply hold_ret. exists D. split; [exact VD|].
  exists acks, (concat (send_pack caps (cut data))), data, objs. split; [reflexivity|].
  split; [exact Ak|]. split; [|split; [exact Gp|]; split; [exact Nd|exact Io]]. apply C39_side_band_delivers; [exact Cw|apply Hcut].
Qed.
End Packs.

(** ** C152 *)

(** A clone over SSH whose session begins after [s1] and is answered by the end of [s2]: after
    what it was greeted with, the client gets exactly the history of the repository at one
    moment between, when it was complete. *)
Theorem C152_ssh_clone : forall e b c st fuel cut rs i now body path s1 s2 w reply,
  env_ok e -> codec_ok c -> (forall x, pieces 65515 x (cut x)) -> refs_table (w_db w) ->
  (forall x, In x (d_commits (w_db w)) -> whole (w_db w) x \/ derived (w_db w) x) ->
  ~ In 32 path -> utf8_text path ->
  nth_error rs i = Some (QSsh now (ssh_line UploadPack path) [body]) -> clone_request body -> ~ In i s1 ->
  let ts := started e b c fuel cut rs in
  let F := w_db (snd (interleave e (s1 ++ s2) ts w)) in let S := repo_objects e F path in
  honest_db e F path -> collision_free S -> well_typed S -> no_submodules S -> top_level e F path ->
  replied (fst (interleave e (s1 ++ s2) ts w)) i reply ->
  exists d adv rest, moment e s2 (fst (interleave e s1 ts w)) (snd (interleave e s1 ts w)) d /\
    complete (repo_objects e d path) /\ reply = adv ++ rest /\ clone_reply c st rest (reach (repo_objects e d path)).
Proof.
  intros e b c st fuel cut rs i now body path s1 s2 w reply He Hc Hcut T Sr Hn Ht Ni Cr Ns ts F S Hh Hcf Hty Hsub Htop An.
  set (V := moment e s2 (fst (interleave e s1 ts w)) (snd (interleave e s1 ts w))).
  assert (VT : forall d, V d -> refs_table d /\ nothing_lost d F /\ forall x, In x (d_commits d) -> sourced d x).
  { intros d (a1 & a2 & -> & ->). rewrite <- interleave_app. split; [apply prefix_table; assumption|]. split.
    - unfold F. rewrite app_assoc. apply prefix_lost; assumption.
    - apply prefix_sourced; assumption. }
  assert (VR : forall d, V d -> refs_table d) by (intros d Vd; apply VT; exact Vd).
  assert (Gr : forall x y, step e path x y -> by_request e rs i x y).
  { intros x y Hs. exists (QSsh now (ssh_line UploadPack path) [body]), path. split; [exact Ni|]. split; [apply about_line; exact Hn|exact Hs]. }
  destruct (one_request e b c fuel cut rs i (QSsh now (ssh_line UploadPack path) [body]) s1 s2 w reply
              (fun a => exists adv rest, a = adv ++ rest /\ exists D, V D /\ clone_reply c st rest (reach (repo_objects e D path))) He T Ni Ns)
    as (adv & rest & E & D & VD & K); [|exact An|].
  - apply (session_holds e path Hn Ht (by_request e rs i) V (by_request_lost e rs i)).
    + intros pp d Hp Vd. apply (hold_grow e (step e path)); [exact Gr|]. apply (g_info e He path V VR pp Hp d Vd).
    + intros d Vd. apply (clone_data e He F path Hh Hcf Hty Hsub Htop (by_request e rs i) V); try assumption.
      * intros x Vx. apply Gr, (step_same e path V VR x Vx).
      * apply by_request_lost.
      * intros x Vx. apply VT. exact Vx.
      * intros x Vx. apply VT. exact Vx.
    + exists [], s2. auto.
  - exists D, adv, rest. split; [exact VD|]. split; [|auto]. destruct (VT D VD) as (_ & LF & SD).
    apply (snapshot_complete e F path Hh Hcf Hty Hsub Htop); assumption.
Qed.

(** A fetch of a client that names what it has, likewise (compare C151). *)
Theorem C152_ssh_fetch : forall e b c st fuel cut rs i now items t body path s1 s2 w reply,
  env_ok e -> codec_ok c -> (forall x, pieces 65515 x (cut x)) -> refs_table (w_db w) ->
  (forall x, In x (d_commits (w_db w)) -> whole (w_db w) x \/ derived (w_db w) x) ->
  ~ In 32 path -> utf8_text path ->
  nth_error rs i = Some (QSsh now (ssh_line UploadPack path) [body]) ->
  have_request items t body -> cap_word t (bs "multi_ack_detailed") -> cap_word t (bs "side-band") \/ cap_word t (bs "side-band-64k") -> ~ In i s1 ->
  let ts := started e b c fuel cut rs in
  let F := w_db (snd (interleave e (s1 ++ s2) ts w)) in let S := repo_objects e F path in
  honest_db e F path -> collision_free S -> well_typed S -> no_submodules S -> top_level e F path ->
  replied (fst (interleave e (s1 ++ s2) ts w)) i reply ->
  let V := moment e s2 (fst (interleave e s1 ts w)) (snd (interleave e s1 ts w)) in
  exists d adv rest, V d /\ complete (repo_objects e d path) /\ reply = adv ++ rest /\
    fetch_reply_during e c st V (cap_word t (bs "no-done")) items (fun o => fst o <> Commit /\ reach (asked_for e d path items) o) rest.
Proof.
  intros e b c st fuel cut rs i now items t body path s1 s2 w reply He Hc Hcut T Sr Hn Ht Ni Rq Mu Sb Ns ts F S Hh Hcf Hty Hsub Htop An V.
  assert (VT : forall d, V d -> refs_table d /\ nothing_lost d F /\ forall x, In x (d_commits d) -> sourced d x).
  { intros d (a1 & a2 & -> & ->). rewrite <- interleave_app. split; [apply prefix_table; assumption|]. split.
    - unfold F. rewrite app_assoc. apply prefix_lost; assumption.
    - apply prefix_sourced; assumption. }
  assert (VR : forall d, V d -> refs_table d) by (intros d Vd; apply VT; exact Vd).
  assert (Gr : forall x y, step e path x y -> by_request e rs i x y).
  { intros x y Hs. exists (QSsh now (ssh_line UploadPack path) [body]), path. split; [exact Ni|]. split; [apply about_line; exact Hn|exact Hs]. }
  destruct (one_request e b c fuel cut rs i (QSsh now (ssh_line UploadPack path) [body]) s1 s2 w reply
              (fun a => exists adv rest, a = adv ++ rest /\ exists D, V D /\
                 fetch_reply_during e c st V (cap_word t (bs "no-done")) items (fun o => fst o <> Commit /\ reach (asked_for e D path items) o) rest) He T Ni Ns)
    as (adv & rest & E & D & VD & K); [|exact An|].
  - apply (session_holds e path Hn Ht (by_request e rs i) V (by_request_lost e rs i)).
    + intros pp d Hp Vd. apply (hold_grow e (step e path)); [exact Gr|]. apply (g_info e He path V VR pp Hp d Vd).
    + intros d Vd. apply (fetch_data e He F path Hh Hcf Hty Hsub Htop (by_request e rs i) V); try assumption.
      * intros x Vx. apply Gr, (step_same e path V VR x Vx).
      * apply by_request_lost.
      * intros x Vx. apply VT. exact Vx.
      * intros x Vx. apply VT. exact Vx.
    + exists [], s2. auto.
  - exists D, adv, rest. split; [exact VD|]. split; [|auto]. destruct (VT D VD) as (_ & LF & SD).
    apply (snapshot_complete e F path Hh Hcf Hty Hsub Htop); assumption.
Qed.

(** ** Cases *)

(** As in C88 and C151, with a session in place of the request. *)
Definition ssh_clone_demo : request := QSsh (fun _ => 9) (ssh_line UploadPack (bs "/demo")) [clone_body].
Definition ssh_fetch_demo : request := QSsh (fun _ => 9) (ssh_line UploadPack (bs "/demo")) [during_body].
Definition ssh_run (r : request) := interleave plain_env (first_part ++ second_part ++ repeat 2%nat 20) (started plain_env Release stored 50 ex_cut [push_demo; push_other; r]) (world_of db_empty).
Lemma ssh_clone_final : w_db (snd (ssh_run ssh_clone_demo)) = final_db.
Proof. vm_compute. reflexivity. Qed.
Lemma ssh_clone_finished : finished (fst (ssh_run ssh_clone_demo)) 2 = true.
Proof. vm_compute. reflexivity. Qed.
Lemma ssh_fetch_final : w_db (snd (ssh_run ssh_fetch_demo)) = final_db.
Proof. vm_compute. reflexivity. Qed.
Lemma ssh_fetch_finished : finished (fst (ssh_run ssh_fetch_demo)) 2 = true.
Proof. vm_compute. reflexivity. Qed.
Definition ssh_case (r : request) : Prop := env_ok plain_env /\ codec_ok stored /\ (forall x, pieces 65515 x (ex_cut x)) /\ refs_table (w_db (world_of db_empty)) /\
  (forall x, In x (d_commits (w_db (world_of db_empty))) -> whole (w_db (world_of db_empty)) x \/ derived (w_db (world_of db_empty)) x) /\
  ~ In 32 (bs "/demo") /\ utf8_text (bs "/demo") /\ ~ In 2%nat first_part /\
  let F := w_db (snd (ssh_run r)) in let S := repo_objects plain_env F (bs "/demo") in
  honest_db plain_env F (bs "/demo") /\ collision_free S /\ well_typed S /\ no_submodules S /\ top_level plain_env F (bs "/demo") /\
  exists reply, replied (fst (ssh_run r)) 2 reply.
Lemma ssh_case_ok : forall r, w_db (snd (ssh_run r)) = final_db -> finished (fst (ssh_run r)) 2 = true -> ssh_case r.
Proof.
  intros r Ef Eg. destruct C88_ex as (A1 & A2 & A3 & A4 & A5 & _ & _ & A6 & A7 & A8 & A9 & A10 & A11 & _). unfold ssh_case. cbv zeta. rewrite Ef.
  split; [exact A1|]. split; [exact A2|]. split; [exact A3|]. split; [exact A4|]. split; [exact A5|].
  split; [vm_compute; intuition discriminate|]. split; [apply ascii_utf8; reflexivity|]. split; [exact A6|].
  split; [exact A7|]. split; [exact A8|]. split; [exact A9|]. split; [exact A10|]. split; [exact A11|]. apply finished_checked. exact Eg.
Qed.
Example C152_clone_ex : ssh_case ssh_clone_demo /\ clone_request clone_body.
Proof.
  split; [apply ssh_case_ok; [exact ssh_clone_final|exact ssh_clone_finished]|].
  destruct C88_ex as (_ & _ & _ & _ & _ & _ & A & _). exact A.
Qed.
Example C152_fetch_ex : ssh_case ssh_fetch_demo /\ have_request during_items have_caps during_body /\
  cap_word have_caps (bs "multi_ack_detailed") /\ cap_word have_caps (bs "side-band-64k").
Proof.
  split; [apply ssh_case_ok; [exact ssh_fetch_final|exact ssh_fetch_finished]|]. split; [exact during_request|]. split; apply have_caps_words.
Qed.

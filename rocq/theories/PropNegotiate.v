(** C45, C54: whole fetches of clients that name what they have. *)

From Coq Require Import Permutation.
From Verif Require Import Base BaseLemmas Digest ModelUtils ModelObject ModelBase ModelPack ModelDecode ModelPkt ModelStorage ModelProto
  StoredZlib SpecObject SpecFormat SpecIdx SpecBase SpecPack SpecPkt SpecPath SpecStorage SpecProto SpecFetch ProofUtils ProofObject ProofUtf8 ProofBase ProofPack ProofPkt ProofReq
  ProofPath ProofEncode ProofNodes ProofStorage ProofPush ProofClone ProofRepo ProofRefs ProofSession ProofGraph ProofExample PropPkt PropStorage PropProto PropService PropSsh PropFetch.
Open Scope N_scope.

(** ** Vocabulary *)

(** A commit with this id is stored, in whatever repository. *)
Definition known_commit (e : env) (d : db) (id : bytes) : Prop := exists r, In r (d_commits d) /\ teq e (c_git_id r) id = true.
(** The lines about one id: "common" if it is known, "ready" if the client can do without
    a "done". *)
Definition lines_about (known : bytes -> Prop) (ready : Prop) (id : bytes) (l : list bytes) : Prop :=
  exists a b, l = a ++ b /\ (known id /\ a = [ack id (bs " common" ++ [10])] \/ ~ known id /\ a = []) /\
    (ready /\ b = [ack id (bs " ready" ++ [10])] \/ ~ ready /\ b = []).
(** The acknowledgements: the haves, then the wants, each id once and in any order, and then
    an id that nobody asked for. *)
Definition ack_lines (known : bytes -> Prop) (ready : Prop) (items : list req_item) (b : bytes) : Prop :=
  exists hs ws hl wl,
    NoDup hs /\ (forall id, In id hs <-> exists t, In (RHave id t) items) /\ Forall2 (lines_about known False) hs hl /\
    NoDup ws /\ (forall id, In id ws <-> exists t, In (RWant id t) items) /\ Forall2 (lines_about known ready) ws wl /\
    pkt_lines (concat hl ++ concat wl ++ [ack (bs "27dd8d4cf39f3868c6eee38b601bc9e9939304f5") [32; 10]]) b.
(** The objects of the repository, of the commits only those that are asked for. *)
Definition asked_for (e : env) (d : db) (path : bytes) (items : list req_item) (o : object) : Prop :=
  repo_objects e d path o /\ (fst o = Commit -> exists s h t, In (RWant s t) items /\ lower_hex s h /\ obj_id o h).
(** A fetch: wants and haves, at least one have, capabilities, and a "done". *)
Definition have_request (items : list req_item) (t body : bytes) : Prop :=
  exists b x line, req_bytes items b /\ first_tail items (Some t) /\ utf8_text t /\ (exists id r, In (RHave id r) items) /\
    pkt_line (bs "done" ++ x) line /\ body = b ++ line.
(** The reply: acknowledgements and, in the side band, a pack with these objects. *)
Definition have_reply (c : codec) (st : storage) (known : bytes -> Prop) (ready : Prop) (items : list req_item) (R : object -> Prop) (reply : bytes) : Prop :=
  exists acks bands pack objs, reply = acks ++ bands /\ ack_lines known ready items acks /\ band_stream 65520 bands pack /\
    git_pack c st pack objs /\ NoDup (map snd objs) /\ forall o, In o (map snd objs) <-> R o.

(** For ids as git writes them: a commit with exactly this id. *)
Theorem C45_known : forall e d id h, env_ok e -> sound_db d -> lower_hex id h -> id_ok h ->
  known_commit e d id <-> exists r o, In r (d_commits d) /\ commit_for r o /\ obj_id o h.
Proof.
  intros e d id h He [_ Sc] Hx Hi. split.
  - intros (r & Hr & T). destruct (Sc r Hr) as (o & Hf & _). exists r, o. split; [exact Hr|]. split; [exact Hf|].
    inversion Hf as [r' h' tid d' Ho Hl Hroot Ht Em Er Eo]; subst. pose proof (obj_id_ok _ _ Ho) as Ok'.
    assert (E : c_git_id r = id) by (apply (proj2 (proj2 He) _ _ h' h Hl Hx); [apply Ok'|apply Hi|exact T]).
    rewrite E in Hl. assert (h' = h) by (apply to_plain_str_inj; [exact Ok'|exact Hi|]; rewrite <- (lower_hex_plain _ _ Hl); exact (lower_hex_plain _ _ Hx)). subst h'. exact Ho.
  - intros (r & o & Hr & Hf & Ho). exists r. split; [exact Hr|]. inversion Hf as [r' h' tid d' Ho' Hl Hroot Ht Em Er Eo]; subst.
    rewrite (obj_id_fun _ _ _ Ho' Ho) in Hl. rewrite (lower_hex_plain _ _ Hl), (lower_hex_plain _ _ Hx). apply He.
Qed.

(** ** The loops *)

Section Loops.
Context (e : env) (He : env_ok e).

Lemma known_run : forall id w, no_failure w -> exists w' b, get_commit_by_hash e id w = (w', Ok b) /\ moved w w' [] /\
  if b : bool then known_commit e (w_db w) id else ~ known_commit e (w_db w) id.
Proof.
  intros id w Q. unfold get_commit_by_hash.
  destruct (select_one_run _ e (fun d => filter (fun c => teq e (c_git_id c) id) (d_commits d)) w He Q) as (w' & o & E & M & K).
  exists w', (match o with Some _ => true | None => false end). split; [unfold mbind; rewrite E; reflexivity|]. split; [exact M|]. destruct o as [r|].
  - apply filter_In in K. exists r. exact K.
  - intros (r & Hr & T). assert (F : In r (filter (fun c => teq e (c_git_id c) id) (d_commits (w_db w)))) by (apply filter_In; split; assumption).
    rewrite K in F. destruct F.
Qed.
Lemma haves_run : forall hs buf ps w, no_failure w -> Forall id40 hs -> pkt_lines ps buf -> exists w' out ls, ack_haves_db e hs buf w = (w', Ok out) /\ moved w w' [] /\
  Forall2 (lines_about (known_commit e (w_db w)) False) hs ls /\ pkt_lines (ps ++ concat ls) out.
Proof.
  induction hs as [|h hs IH]; intros buf ps w Q F Hp.
  - exists w, buf, []. split; [reflexivity|]. split; [apply moved_refl; exact Q|]. split; [constructor|]. cbn [concat]. rewrite app_nil_r. exact Hp.
  - inversion F as [|? ? Fh Ft]; subst. cbn [ack_haves_db]. destruct (known_run h w Q) as (w1 & b & E1 & M1 & K1). rewrite (mbind_ok _ _ _ _ _ _ _ E1).
    set (l1 := if b then [ack h (bs " common" ++ [10])] else []).
    assert (P1 : pkt_lines (ps ++ l1) (if b then add_pkt_line buf (bs "ACK " ++ h ++ bs " common" ++ [10]) else buf)).
    { unfold l1. destruct b; [|rewrite app_nil_r; exact Hp]. apply add_pkt_lines; [exact Hp|]. apply ack_len; [apply Fh|vm_compute; lia]. }
    destruct (IH _ _ w1 (mv_quiet _ _ _ M1) Ft P1) as (w' & out & ls & E & M & F2 & P). exists w', out, (l1 :: ls). split; [exact E|].
    split; [exact (moved_trans _ _ _ _ _ M1 M)|]. split; [|cbn [concat]; rewrite app_assoc; exact P].
    rewrite (mv_db _ _ _ M1) in F2. constructor; [|exact F2]. exists l1, []. split; [symmetry; apply app_nil_r|]. split; [|right; tauto].
    unfold l1. destruct b; [left|right]; auto.
Qed.
Lemma wants_run : forall nd hs buf ps w, no_failure w -> Forall id40 hs -> pkt_lines ps buf -> exists w' out ls, ack_wants_db e nd hs buf w = (w', Ok out) /\ moved w w' [] /\
  Forall2 (lines_about (known_commit e (w_db w)) (nd = true)) hs ls /\ pkt_lines (ps ++ concat ls) out.
Proof.
  intros nd. induction hs as [|h hs IH]; intros buf ps w Q F Hp.
  - exists w, buf, []. split; [reflexivity|]. split; [apply moved_refl; exact Q|]. split; [constructor|]. cbn [concat]. rewrite app_nil_r. exact Hp.
  - inversion F as [|? ? Fh Ft]; subst. cbn [ack_wants_db]. destruct (known_run h w Q) as (w1 & b & E1 & M1 & K1). rewrite (mbind_ok _ _ _ _ _ _ _ E1).
    set (l1 := if b then [ack h (bs " common" ++ [10])] else []). set (l2 := if nd then [ack h (bs " ready" ++ [10])] else []).
    assert (P1 : pkt_lines (ps ++ l1) (if b then add_pkt_line buf (bs "ACK " ++ h ++ bs " common" ++ [10]) else buf)).
    { unfold l1. destruct b; [|rewrite app_nil_r; exact Hp]. apply add_pkt_lines; [exact Hp|]. apply ack_len; [apply Fh|vm_compute; lia]. }
    set (buf1 := if b then add_pkt_line buf _ else buf) in *.
    assert (P2 : pkt_lines ((ps ++ l1) ++ l2) (if nd then add_pkt_line buf1 (bs "ACK " ++ h ++ bs " ready" ++ [10]) else buf1)).
    { unfold l2. destruct nd; [|rewrite app_nil_r; exact P1]. apply add_pkt_lines; [exact P1|]. apply ack_len; [apply Fh|vm_compute; lia]. }
    destruct (IH _ _ w1 (mv_quiet _ _ _ M1) Ft P2) as (w' & out & ls & E & M & F2 & P). exists w', out, ((l1 ++ l2) :: ls). split; [exact E|].
    split; [exact (moved_trans _ _ _ _ _ M1 M)|]. split; [|cbn [concat]; rewrite app_assoc; rewrite <- (app_assoc ps) in P; exact P].
    rewrite (mv_db _ _ _ M1) in F2. constructor; [|exact F2]. exists l1, l2. split; [reflexivity|]. split.
    + unfold l1. destruct b; [left|right]; auto.
    + unfold l2. destruct nd; [left; auto|right; split; [discriminate|reflexivity]].
Qed.
End Loops.

Lemma item_id40 : forall items b, req_bytes items b -> forall id t, In (RWant id t) items \/ In (RHave id t) items -> id40 id.
Proof.
  intros items b R. induction R as [|i l b1 b2 Ok' _ _ IH]; intros id t H; [destruct H as [[]|[]]|].
  cbn [In] in H. destruct H as [[->|H]|[->|H]]; [exact Ok'|eauto|exact Ok'|eauto].
Qed.

(** ** Fetches *)

Lemma same_lines : forall l, more_lines l l.
Proof. induction l as [|x l IH]; [constructor|exact (ml_same _ _ _ IH)]. Qed.
Lemma have_parse : forall items t body, have_request items t body -> exists want have caps,
  (forall fuel, (S (length items) <= fuel)%nat -> upload_loop fuel true [] [] [] body = Ok (want, have, caps, [])) /\
  (forall id, In id want <-> exists t, In (RWant id t) items) /\ NoDup want /\ Forall id40 want /\
  (forall id, In id have <-> exists t, In (RHave id t) items) /\ NoDup have /\ Forall id40 have /\ have <> [] /\
  (forall x, In x caps <-> cap_word t (cap_text x)).
Proof.
  intros items t body (b & x & line & Rb & Ft & Ut & (id0 & t0 & Hh0) & Pl & ->).
  destruct (C43_fetch_request items b x line [] (Some t) (S (length items)) Rb Pl Ft Ut) as (want & have & caps & Eu & Hw & Nw & Hh & Nh & Hc); [lia|].
  exists want, have, caps. split; [|split; [exact Hw|split; [exact Nw|split; [|split; [exact Hh|split; [exact Nh|split; [|split]]]]]]].
  - intros fuel Hf. rewrite <- Eu, app_nil_r. rewrite <- (app_nil_r line). apply (more_ignored items items b b line x []); first [assumption|apply same_lines|lia].
  - apply Forall_forall. intros id Hi. apply Hw in Hi as (tl & Hi). exact (item_id40 _ _ Rb id tl (or_introl Hi)).
  - apply Forall_forall. intros id Hi. apply Hh in Hi as (tl & Hi). exact (item_id40 _ _ Rb id tl (or_intror Hi)).
  - intros ->. apply (proj2 (Hh id0)). exists t0. exact Hh0.
  - intros y. rewrite Hc. split; [intros (t' & E & K); injection E as <-; exact K|intros K; eauto].
Qed.
Lemma perm_forall : forall A (P : A -> Prop) l l', Permutation l' l -> Forall P l -> Forall P l'.
Proof. intros A P l l' H F. apply Forall_forall. intros x Hx. rewrite Forall_forall in F. exact (F x (Permutation_in _ H Hx)). Qed.

Lemma upload_haves : forall e c st path items t body p s w, env_ok e -> codec_ok c -> no_failure w -> sound_db (w_db w) ->
  have_request items t body -> cap_word t (bs "multi_ack_detailed") ->
  let S := repo_objects e (w_db w) path in
  let W := asked_for e (w_db w) path items in
  collision_free S -> well_typed S -> acyclic S -> rooted S -> few (fun o => fst o <> Commit /\ reach W o) ->
  exists fuel0 caps, (forall x, In x caps <-> cap_word t (cap_text x)) /\ forall fuel, (fuel0 <= fuel)%nat ->
    ((exists d, W (Commit, d)) -> exists w' pack acks objs,
       git_upload_pack e c fuel (mkProto p path s [] []) body w = (w', Ok (mkProto p path s caps [], pack, acks)) /\ w_db w' = w_db w /\
       ack_lines (known_commit e (w_db w)) (cap_word t (bs "no-done")) items acks /\ utf8_text acks /\
       git_pack c st pack objs /\ NoDup (map snd objs) /\ forall o, In o (map snd objs) <-> fst o <> Commit /\ reach W o) /\
    ((forall d, ~ W (Commit, d)) -> exists w', git_upload_pack e c fuel (mkProto p path s [] []) body w = (w', Panic) /\ w_db w' = w_db w).
Proof.
  intros e c st path items t body p s w He Hc Q Sd Rq Mu S W Cf Wt (rank & Ac) Ro (l & Hl & Fl).
  destruct (have_parse _ _ _ Rq) as (want & have & caps & Up & Hw & Nw & Iw & Hh & Nh & Ih & Nn & Cc).
  assert (Ew : forall o, W o <-> SW e (w_db w) path want o).
  { intros o. rewrite <- wanted_eq. unfold W, asked_for, wanted_objects. split; intros [A B]; (split; [exact A|]); intros Hcm; destruct (B Hcm) as (x & h & K).
    - destruct K as (tl & K1 & K2). exists x, h. split; [apply Hw; eauto|exact K2].
    - destruct K as (K1 & K2). apply Hw in K1 as (tl & K1). exists x, h, tl. split; [exact K1|exact K2]. }
  assert (Er : forall o, RW e (w_db w) path want o <-> fst o <> Commit /\ reach W o).
  { intros o. unfold RW. rewrite (reach_ext _ _ Ew). reflexivity. }
  assert (Wc : forall d, W (Commit, d) <-> S (Commit, d) /\ wanted want d).
  { intros d. rewrite Ew. unfold SW, S. cbn [fst snd]. intuition. }
  destruct (shuffle_run _ e have w Q) as (w1 & E1 & M1).
  set (hs := ord e (w_tick w) bytes have) in *. assert (Ph : Permutation hs have) by apply He.
  destruct (haves_run e He hs [] [] w1 (mv_quiet _ _ _ M1) (perm_forall _ _ _ _ Ph Ih) pl_nil) as (w2 & b1 & hl & E2 & M2 & F2 & P2). rewrite (mv_db _ _ _ M1) in F2. cbn [app last] in *.
  assert (D2 : w_db w2 = w_db w) by (rewrite (mv_db _ _ _ M2), (mv_db _ _ _ M1); reflexivity).
  destruct (incremental_run e He (w_db w) path (sound_honest _ _ _ Sd) Cf Wt rank (fun d h h' H => Ac d h h' (reach_S _ _ H)) want Ro) with (c := c) (st := st) (have := have) (w := w2) as (fuel0 & K); try assumption.
  { exists l. split; [exact Hl|]. intros o Ho. apply Fl, Er, Ho. }
  { exact (mv_quiet _ _ _ M2). }
  exists (Nat.max fuel0 (Datatypes.S (length items))), caps. split; [exact Cc|]. intros fuel Hf.
  assert (Mc : has_cap MultiAckDetailed caps = true) by (apply has_cap_spec, Cc; exact Mu).
  assert (Start : git_upload_pack e c fuel (mkProto p path s [] []) body w = mbind (mbind (munwrap (get_incremental_pack_data e c fuel path want have)) (fun data =>
      let! ws := shuffle e want in let! buf := ack_wants_db e (has_cap NoDone caps) ws b1 in ret (data, buf)))
      (fun r => let '(data, buf) := r in ret (mkProto p path s caps [], data, add_pkt_line buf (bs "ACK " ++ hard_coded_id ++ [32; 10]))) w2).
  { unfold git_upload_pack. cbn [pp_caps pp_protocol pp_path pp_service pp_cmds]. unfold mbind at 1, lift. rewrite Up by lia. destruct have as [|h0 hr]; [congruence|].
    rewrite Mc. unfold mbind at 1. rewrite (mbind_ok _ _ _ _ _ _ _ E1). rewrite (mbind_ok _ _ _ _ _ _ _ E2). reflexivity. }
  destruct (K fuel ltac:(lia)) as [K1 K2]. split.
  - intros (d & Hd). destruct K1 as (w3 & pack & objs & E3 & M3 & G & Nd & Io); [exists d; apply Wc; exact Hd|].
    destruct (shuffle_run _ e want w3 (mv_quiet _ _ _ M3)) as (w4 & E4 & M4). set (ws := ord e (w_tick w3) bytes want) in *.
    assert (Pw : Permutation ws want) by apply He.
    destruct (wants_run e He (has_cap NoDone caps) ws b1 (concat hl) w4 (mv_quiet _ _ _ M4) (perm_forall _ _ _ _ Pw Iw) P2) as (w5 & b2 & wl & E5 & M5 & F5 & P5).
    assert (D4 : w_db w4 = w_db w) by (rewrite (mv_db _ _ _ M4), (mv_db _ _ _ M3), D2; reflexivity). rewrite D4 in F5.
    exists w5, pack, (add_pkt_line b2 (bs "ACK " ++ hard_coded_id ++ [32; 10])), objs. split; [|split; [|split; [|split]]].
    + assert (E3' : munwrap (get_incremental_pack_data e c fuel path want have) w2 = (w3, Ok pack)) by (unfold munwrap; rewrite E3; reflexivity).
      rewrite Start. unfold mbind at 1. rewrite (mbind_ok _ _ _ _ _ _ _ E3').
      rewrite (mbind_ok _ _ _ _ _ _ _ E4), (mbind_ok _ _ _ _ _ _ _ E5). reflexivity.
    + rewrite (mv_db _ _ _ M5), D4. reflexivity.
    + exists hs, ws, hl, wl. split; [exact (Permutation_NoDup (Permutation_sym Ph) Nh)|].
      split; [intros id; rewrite <- Hh; split; [apply Permutation_in; exact Ph|apply Permutation_in, Permutation_sym; exact Ph]|]. split; [exact F2|].
      split; [exact (Permutation_NoDup (Permutation_sym Pw) Nw)|].
      split; [intros id; rewrite <- Hw; split; [apply Permutation_in; exact Pw|apply Permutation_in, Permutation_sym; exact Pw]|]. split.
      * clear - F5 Cc. assert (I : has_cap NoDone caps = true <-> cap_word t (bs "no-done")) by (rewrite has_cap_spec; apply (Cc NoDone)).
        induction F5 as [|h x hs xs (a & b & E & A & B) _ IH]; constructor; [|exact IH]. exists a, b. split; [exact E|]. split; [exact A|]. rewrite <- I. exact B.
      * rewrite app_assoc. apply add_pkt_lines; [exact P5|]. vm_compute. discriminate.
    + apply (lines_text ((concat hl ++ concat wl) ++ [ack hard_coded_id [32; 10]])); [apply add_pkt_lines; [exact P5|vm_compute; discriminate]|].
      assert (L : forall kn rd ids ls, Forall2 (lines_about kn rd) ids ls -> Forall id40 ids -> Forall utf8_text (concat ls)).
      { clear. intros kn rd ids ls F. induction F as [|h x ids ls (a & b & -> & A & B) _ IH]; intros Fi; [constructor|]. inversion Fi as [|? ? Fh Ft]; subst.
        assert (Ta : forall y, forallb (fun x => x <? 128) y = true -> utf8_text (ack h y)).
        { intros y Hy. unfold ack. apply text_app; [apply ascii_utf8; reflexivity|]. apply text_app; [apply utf8_text_ascii; apply Fh|apply ascii_utf8; exact Hy]. }
        cbn [concat]. apply Forall_app. split; [|auto]. apply Forall_app. split.
        - destruct A as [[_ ->]|[_ ->]]; constructor; [apply Ta; reflexivity|constructor].
        - destruct B as [[_ ->]|[_ ->]]; constructor; [apply Ta; reflexivity|constructor]. }
      apply Forall_app. split; [apply Forall_app; split|].
      * exact (L _ _ _ _ F2 (perm_forall _ _ _ _ Ph Ih)).
      * exact (L _ _ _ _ F5 (perm_forall _ _ _ _ Pw Iw)).
      * constructor; [apply ascii_utf8; vm_compute; reflexivity|constructor].
    + split; [exact G|]. split; [exact Nd|]. intros o. rewrite Io. apply Er.
  - intros Hn. destruct K2 as (w3 & E3 & D3); [intros d Hs Hwd; exact (Hn d (proj2 (Wc d) (conj Hs Hwd)))|].
    exists w3. split; [|exact D3]. rewrite Start. unfold mbind, munwrap. rewrite E3. reflexivity.
Qed.

(** The reply to a fetch with haves over HTTP: the haves and wants that are stored commits are
    acknowledged, and the pack has the trees and blobs of the wanted commits, and no commit. *)
Theorem C45_http_fetch : forall e c st cut path items t body w, env_ok e -> codec_ok c -> (forall d, pieces 65515 d (cut d)) -> no_failure w -> sound_db (w_db w) ->
  have_request items t body -> cap_word t (bs "multi_ack_detailed") -> cap_word t (bs "side-band") \/ cap_word t (bs "side-band-64k") ->
  let S := repo_objects e (w_db w) path in
  let W := asked_for e (w_db w) path items in
  collision_free S -> well_typed S -> acyclic S -> rooted S -> few (fun o => fst o <> Commit /\ reach W o) ->
  exists fuel0, forall fuel, (fuel0 <= fuel)%nat ->
    ((exists d, W (Commit, d)) -> exists w' reply, http_upload_pack e c fuel cut path body w = (w', Ok reply) /\ w_db w' = w_db w /\
       have_reply c st (known_commit e (w_db w)) (cap_word t (bs "no-done")) items (fun o => fst o <> Commit /\ reach W o) reply) /\
    ((forall d, ~ W (Commit, d)) -> exists w', http_upload_pack e c fuel cut path body w = (w', Panic) /\ w_db w' = w_db w).
Proof.
  intros e c st cut path items t body w He Hc Hcut Q Sd Rq Mu Sb S W Cf Wt Ac Ro Fw.
  destruct (upload_haves e c st path items t body Http None w He Hc Q Sd Rq Mu Cf Wt Ac Ro Fw) as (fuel0 & caps & Cc & K). exists fuel0. intros fuel Hf.
  destruct (K fuel Hf) as [K1 K2]. split.
  - intros Hd. destruct (K1 Hd) as (w' & pack & acks & objs & E & D & A & _ & G & Nd & Io). exists w', (acks ++ concat (send_pack caps (cut pack))).
    split; [unfold http_upload_pack; cbn [proto_new]; unfold mbind at 1; cbn [lift]; rewrite (mbind_ok _ _ _ _ _ _ _ E); reflexivity|]. split; [exact D|].
    exists acks, (concat (send_pack caps (cut pack))), pack, objs. split; [reflexivity|]. split; [exact A|]. split; [|auto].
    apply C39_side_band_delivers; [|apply Hcut]. destruct Sb as [Sb|Sb]; [left|right]; apply Cc; exact Sb.
  - intros Hn. destruct (K2 Hn) as (w' & E & D). exists w'. split; [|exact D]. unfold http_upload_pack. cbn [proto_new]. unfold mbind at 1. cbn [lift]. unfold mbind. rewrite E. reflexivity.
Qed.
(** Over SSH, with the request in one packet. *)
Theorem C45_ssh_fetch : forall e m c st cut now path items t body w, env_ok e -> codec_ok c -> (forall d, pieces 65515 d (cut d)) -> no_failure w -> sound_db (w_db w) ->
  have_request items t body -> cap_word t (bs "multi_ack_detailed") -> cap_word t (bs "side-band") \/ cap_word t (bs "side-band-64k") ->
  let S := repo_objects e (w_db w) path in
  let W := asked_for e (w_db w) path items in
  collision_free S -> well_typed S -> acyclic S -> rooted S -> few (fun o => fst o <> Commit /\ reach W o) ->
  exists fuel0, forall fuel, (fuel0 <= fuel)%nat ->
    ((exists d, W (Commit, d)) -> exists w' pp reply, ssh_session e m c fuel cut now (mkProto Ssh path (Some UploadPack) [] []) [body] w = (w', Ok (pp, reply)) /\ w_db w' = w_db w /\
       have_reply c st (known_commit e (w_db w)) (cap_word t (bs "no-done")) items (fun o => fst o <> Commit /\ reach W o) reply) /\
    ((forall d, ~ W (Commit, d)) -> exists w', ssh_session e m c fuel cut now (mkProto Ssh path (Some UploadPack) [] []) [body] w = (w', Panic) /\ w_db w' = w_db w).
Proof.
  intros e m c st cut now path items t body w He Hc Hcut Q Sd Rq Mu Sb S W Cf Wt Ac Ro Fw.
  destruct (upload_haves e c st path items t body Ssh (Some UploadPack) w He Hc Q Sd Rq Mu Cf Wt Ac Ro Fw) as (fuel0 & caps & Cc & K). exists fuel0. intros fuel Hf.
  destruct (K fuel Hf) as [K1 K2]. split.
  - intros Hd. destruct (K1 Hd) as (w' & pack & acks & objs & E & D & A & Tx & G & Nd & Io). exists w', (mkProto Ssh path (Some UploadPack) caps []), (acks ++ concat (send_pack caps (cut pack))).
    split; [|split; [exact D|]].
    + cbn [ssh_session length]. unfold ssh_data. cbn [pp_service]. unfold mbind at 1. rewrite (mbind_ok _ _ _ _ _ _ _ E). unfold lift, mbind. rewrite (utf8_unwrap_text _ Tx).
      unfold ret. cbn [pp_caps]. rewrite app_nil_r. reflexivity.
    + exists acks, (concat (send_pack caps (cut pack))), pack, objs. split; [reflexivity|]. split; [exact A|]. split; [|auto].
      apply C39_side_band_delivers; [|apply Hcut]. destruct Sb as [Sb|Sb]; [left|right]; apply Cc; exact Sb.
  - intros Hn. destruct (K2 Hn) as (w' & E & D). exists w'. split; [|exact D]. cbn [ssh_session length]. unfold ssh_data. cbn [pp_service]. unfold mbind. rewrite E. reflexivity.
Qed.

(** Without multi_ack_detailed the reply is the unasked-for acknowledgement and no pack; the
    database is not asked. *)
Theorem C54_other_modes : forall e c cut path items t body w, have_request items t body -> ~ cap_word t (bs "multi_ack_detailed") -> pieces 65515 [] (cut []) ->
  exists line, pkt_line (bs "ACK 27dd8d4cf39f3868c6eee38b601bc9e9939304f5 " ++ [10]) line /\
  forall fuel, (S (length items) <= fuel)%nat -> http_upload_pack e c fuel cut path body w = (w, Ok (line ++ bs "0000")).
Proof.
  intros e c cut path items t body w Rq Mu Hcut. destruct (have_parse _ _ _ Rq) as (want & have & caps & Up & _ & _ & _ & _ & _ & _ & Nn & Cc).
  exists (add_pkt_line [] (bs "ACK " ++ hard_coded_id ++ [32; 10])). split; [apply (hex4_pkt (bs "ACK " ++ hard_coded_id ++ [32; 10])); vm_compute; discriminate|].
  intros fuel Hf. assert (Mc : has_cap MultiAckDetailed caps = false).
  { destruct (has_cap MultiAckDetailed caps) eqn:E; [|reflexivity]. apply has_cap_spec, Cc in E. destruct (Mu E). }
  assert (Ec : cut [] = []).
  { destruct Hcut as [E F]. destruct (cut []) as [|x l]; [reflexivity|]. inversion F as [|? ? Fx _]; subst. cbn [concat] in E. apply app_eq_nil in E as [-> _]. destruct Fx as [Fx _]. congruence. }
  unfold http_upload_pack. cbn [proto_new]. unfold mbind at 1. cbn [lift]. unfold git_upload_pack. cbn [pp_caps pp_protocol pp_path pp_service pp_cmds].
  unfold mbind, lift. rewrite Up by lia. destruct have as [|h0 hr]; [congruence|]. rewrite Mc. unfold ret. cbn [pp_caps]. rewrite Ec.
  unfold send_pack. reflexivity.
Qed.

(** ** A fetch *)

(** Want the commit of /demo; have one of /else, which the server stores as well. *)
Definition have_caps : bytes := bs "multi_ack_detailed side-band-64k agent=git/2.40".
Definition have_items (want have t : bytes) : list req_item := [RWant want (32 :: t); RFlush; RHave have [10]].
Definition have_body (want have t : bytes) : bytes :=
  add_pkt_line [] (bs "want " ++ want ++ 32 :: t) ++ flush ++ add_pkt_line [] (bs "have " ++ have ++ [10]) ++ add_pkt_line [] (bs "done" ++ [10]).
Lemma have_body_ok : forall want have t, id40 want -> id40 have -> utf8_text t -> nlen t <= 60000 -> have_request (have_items want have t) t (have_body want have t).
Proof.
  intros want have t Hw Hh Ht Lt.
  exists (add_pkt_line [] (bs "want " ++ want ++ 32 :: t) ++ flush ++ add_pkt_line [] (bs "have " ++ have ++ [10])), [10], (add_pkt_line [] (bs "done" ++ [10])).
  split; [|split; [constructor|split; [exact Ht|split; [exists have, [10]; right; right; left; reflexivity|split; [apply hex4_pkt; vm_compute; discriminate|unfold have_body; rewrite <- !app_assoc; reflexivity]]]]].
  apply rb_cons; [exact Hw| |apply rb_cons; [exact Logic.I|constructor|]].
  - constructor. apply hex4_pkt. rewrite !nlen_app. unfold nlen at 2. rewrite (proj1 Hw). change (nlen (32 :: t)) with (nlen ([32] ++ t)). rewrite nlen_app.
    change (nlen (bs "want ")) with 5. change (nlen [32]) with 1. lia.
  - rewrite <- (app_nil_r (add_pkt_line [] (bs "have " ++ have ++ [10]))). apply rb_cons; [exact Hh| |constructor]. constructor. apply hex4_pkt. rewrite !nlen_app. unfold nlen at 2. rewrite (proj1 Hh). vm_compute. discriminate.
Qed.
Definition else_row : commit_row := mkCommitRow (to_plain_str (oid ex_second)) (to_plain_str (oid ex_root)) (snd ex_second) (bs "/else").
Lemma second_sound : sound_object ex_second.
Proof. pose proof (hs_sound _ _ ex_full_ok) as F. rewrite Forall_forall in F. apply F. left. reflexivity. Qed.
Lemma else_for : commit_for else_row ex_second.
Proof.
  apply (cf_commit else_row (oid ex_second) (oid ex_root)); [exact (oid_id _ second_sound)|apply plain_lower; exact second_id| |apply plain_lower; apply oid_ok, tree_base|reflexivity].
  exact ex_second_root.
Qed.
Lemma else_apart : teq ex_env (bs "/else") (bs "/demo") = false.
Proof. reflexivity. Qed.
Lemma fetch_ex : exists w, no_failure w /\ sound_db (w_db w) /\
  let items := have_items (to_plain_str (oid ex_top)) (to_plain_str (oid ex_second)) have_caps in
  let S := repo_objects ex_env (w_db w) (bs "/demo") in
  let W := asked_for ex_env (w_db w) (bs "/demo") items in
  have_request items have_caps (have_body (to_plain_str (oid ex_top)) (to_plain_str (oid ex_second)) have_caps) /\
  collision_free S /\ well_typed S /\ acyclic S /\ rooted S /\ few (fun o => fst o <> Commit /\ reach W o) /\ W ex_top /\
  known_commit ex_env (w_db w) (to_plain_str (oid ex_second)) /\ (forall o, S o -> fst o = Commit -> ~ obj_id o (oid ex_second)).
Proof.
  destruct ex_state as (w & Q & Sd & _ & Io & _). pose proof else_apart as Ea. pose proof else_for as Ef. pose proof second_sound as Ss.
  set (D := with_rows (w_db w) [] [else_row]). exists (mkWorld D (w_log w) [] (w_tick w) (w_files w)). cbn [w_db w_fails].
  assert (R : forall o, repo_objects ex_env D (bs "/demo") o <-> reach (fun o => In o ex_hist) o).
  { intros o. rewrite <- Io. unfold repo_objects, D, with_rows. cbn [d_nodes d_commits]. rewrite app_nil_r. split; (intros [H|(r & Hr & T & Hf)]; [left; exact H|right]).
    - apply in_app_or in Hr as [Hr|[<-|[]]]; [eauto|]. cbn [c_repo_path else_row] in T. congruence.
    - exists r. split; [apply in_or_app; left; exact Hr|]. split; [exact T|exact Hf]. }
  split; [reflexivity|]. split.
  - destruct Sd as [S1 S2]. unfold D, with_rows. split; cbn [d_nodes d_commits]; intros r Hr.
    + rewrite app_nil_r in Hr. exact (S1 r Hr).
    + apply in_app_or in Hr as [Hr|[<-|[]]]; [exact (S2 r Hr)|]. exists ex_second. split; [exact Ef|exact Ss].
  - split; [apply have_body_ok; [exact (plain_id40 _ ex_top_id)|exact (plain_id40 _ second_id)|apply utf8_spec; reflexivity|vm_compute; discriminate]|].
    destruct (ex_hist_ok (bs "/demo") eq_refl) as [[H1 H2 H3 H4 H5] _].
    destruct (stored_rooted _ _ _ _ R H2 H3 H4) as (C1 & C2 & C3 & C4 & _). do 4 (split; [assumption|]). split; [|split; [|split]].
    + apply ex_few. intros o [_ Ho]. apply reach_S in Ho as [Ho _]. apply R in Ho. exact (reach_S _ _ Ho).
    + split; [apply R; apply reach_commit; [left; reflexivity|reflexivity]|]. intros _. exists (to_plain_str (oid ex_top)), (oid ex_top), (32 :: have_caps).
      split; [left; reflexivity|]. split; [apply plain_lower; exact ex_top_id|].
      apply oid_id. rewrite Forall_forall in H1. apply H1. left. reflexivity.
    + exists else_row. split; [unfold D, with_rows; cbn [d_commits]; apply in_or_app; right; left; reflexivity|]. apply ex_env_ok.
    + intros o Ho Ec Hi. apply R in Ho. apply reach_S in Ho. rewrite Forall_forall in H1. pose proof (obj_id_fun _ _ _ Hi (oid_id _ (H1 _ Ho))) as Ei.
      assert (B : forallb (fun o => match fst o with Commit => negb (beq (oid ex_second) (oid o)) | _ => true end) ex_hist = true) by (vm_compute; reflexivity).
      rewrite forallb_forall in B. specialize (B o Ho). rewrite Ec, Ei, beq_refl in B. discriminate B.
Qed.
Lemma have_caps_words : cap_word have_caps (bs "multi_ack_detailed") /\ cap_word have_caps (bs "side-band-64k").
Proof.
  split.
  - exists [], [], [], (bs " side-band-64k agent=git/2.40"). split; [reflexivity|]. split; [exists []; split; [constructor|reflexivity]|].
    split; [exists []; split; [constructor|reflexivity]|]. split; [left; reflexivity|right; eexists; reflexivity].
  - exists (bs "multi_ack_detailed "), [], [], (bs " agent=git/2.40"). split; [reflexivity|]. split; [exists []; split; [constructor|reflexivity]|].
    split; [exists []; split; [constructor|reflexivity]|]. split; [right; exists (bs "multi_ack_detailed"); reflexivity|right; eexists; reflexivity].
Qed.
Example C45_http_fetch_ex : exists w path items t body, no_failure w /\ sound_db (w_db w) /\ have_request items t body /\
  cap_word t (bs "multi_ack_detailed") /\ cap_word t (bs "side-band-64k") /\
  let S := repo_objects ex_env (w_db w) path in let W := asked_for ex_env (w_db w) path items in
  collision_free S /\ well_typed S /\ acyclic S /\ rooted S /\ few (fun o => fst o <> Commit /\ reach W o) /\ exists d, W (Commit, d).
Proof.
  destruct fetch_ex as (w & Q & Sd & Rq & C1 & C2 & C3 & C4 & Fw & Wt & _). exists w, (bs "/demo"). do 3 eexists. split; [exact Q|]. split; [exact Sd|].
  split; [exact Rq|]. split; [apply have_caps_words|]. split; [apply have_caps_words|]. do 5 (split; [assumption|]). exists (snd ex_top). exact Wt.
Qed.
(** "common" is said of a commit that the repository does not have, because another one has it. *)
Theorem C45_other_repository_refuted : exists e c cut path items t body w id h, env_ok e /\ codec_ok c /\ (forall d, pieces 65515 d (cut d)) /\ no_failure w /\ sound_db (w_db w) /\
  have_request items t body /\ lower_hex id h /\ id_ok h /\ (exists r, In (RHave id r) items) /\
  (forall o, repo_objects e (w_db w) path o -> fst o = Commit -> ~ obj_id o h) /\
  exists fuel0, forall fuel, (fuel0 <= fuel)%nat -> exists w' reply ps acks bands, http_upload_pack e c fuel cut path body w = (w', Ok reply) /\
    reply = acks ++ bands /\ pkt_lines ps acks /\ In (bs "ACK " ++ id ++ bs " common" ++ [10]) ps.
Proof.
  destruct fetch_ex as (w & Q & Sd & Rq & C1 & C2 & C3 & C4 & Fw & Wt & Kn & Ns).
  destruct (C45_http_fetch ex_env stored no_objects ex_cut (bs "/demo") _ _ _ w ex_env_ok stored_ok ex_cut_ok Q Sd Rq (proj1 have_caps_words) (or_intror (proj2 have_caps_words)) C1 C2 C3 C4 Fw) as (fuel0 & K).
  exists ex_env, stored, ex_cut, (bs "/demo"). do 3 eexists. exists w, (to_plain_str (oid ex_second)), (oid ex_second).
  split; [exact ex_env_ok|]. split; [exact stored_ok|]. split; [exact ex_cut_ok|]. split; [exact Q|]. split; [exact Sd|]. split; [exact Rq|].
  split; [apply plain_lower; exact second_id|]. split; [exact second_id|]. split; [exists [10]; right; right; left; reflexivity|]. split.
  - exact Ns.
  - exists fuel0. intros fuel Hf. destruct (K fuel Hf) as [K1 _]. destruct K1 as (w' & reply & E & _ & acks & bands & pack & objs & Er & (hs & ws & hl & wl & _ & Hh & F & _ & _ & _ & P) & _).
    { exists (snd ex_top). exact Wt. }
    exists w', reply, (concat hl ++ concat wl ++ [ack (bs "27dd8d4cf39f3868c6eee38b601bc9e9939304f5") [32; 10]]), acks, bands. split; [exact E|]. split; [exact Er|]. split; [exact P|].
    apply in_or_app. left. assert (Hin : In (to_plain_str (oid ex_second)) hs) by (apply Hh; exists [10]; right; right; left; reflexivity).
    clear - F Hin Kn. revert Kn Hin. generalize (to_plain_str (oid ex_second)). intros id Kn Hin.
    induction F as [|x l hs hl (a & b & -> & A & _) _ IH]; [destruct Hin|]. cbn [concat]. apply in_or_app. destruct Hin as [->|Hin]; [left|right; exact (IH Hin)].
    apply in_or_app. left. destruct A as [[_ ->]|[A _]]; [left; reflexivity|contradiction].
Qed.
Definition old_caps : bytes := bs "side-band-64k agent=git/2.40".
Lemma old_caps_no_ack : ~ cap_word old_caps (bs "multi_ack_detailed").
Proof.
  intros (pre & a & b & post & E & _ & _ & _). apply (f_equal (@length N)) in E as L. rewrite !app_length in L.
  assert (K : existsb (fun n => beq (firstn 18 (skipn n old_caps)) (bs "multi_ack_detailed")) (seq 0 (S (length old_caps))) = false) by (vm_compute; reflexivity).
  rewrite <- not_true_iff_false in K. apply K. apply existsb_exists. exists (length (pre ++ a)). split.
  - apply in_seq. rewrite E, !app_length. lia.
  - rewrite E. rewrite (app_assoc pre a). rewrite skipn_app, skipn_all, Nat.sub_diag. cbn [skipn app].
    change 18%nat with (length (bs "multi_ack_detailed")). rewrite firstn_app, firstn_all, Nat.sub_diag. cbn [firstn]. rewrite app_nil_r. apply beq_refl.
Qed.
Example C54_other_modes_ex : exists items body, have_request items old_caps body /\ ~ cap_word old_caps (bs "multi_ack_detailed") /\ pieces 65515 [] (ex_cut []).
Proof.
  do 2 eexists. split; [exact (have_body_ok (to_plain_str (oid ex_top)) (to_plain_str (oid ex_second)) old_caps (plain_id40 _ ex_top_id) (plain_id40 _ second_id) ltac:(apply utf8_spec; reflexivity) ltac:(vm_compute; discriminate))|].
  split; [exact old_caps_no_ack|apply ex_cut_ok].
Qed.

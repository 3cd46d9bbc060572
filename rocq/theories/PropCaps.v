(** C143: what the capabilities a client names make the server do. *)

From Verif Require Import Base BaseLemmas Digest ModelUtils ModelObject ModelBase ModelPack ModelDecode ModelPkt ModelStorage ModelProto ModelLfs ModelGateway ModelService
  StoredZlib SpecObject SpecIdx SpecBase SpecPack SpecPkt SpecStorage SpecProto SpecService SpecFetch ProofObject ProofUtf8 ProofBase ProofPack ProofShort ProofPkt ProofReq
  ProofEncode ProofNodes ProofStorage ProofPush ProofClone ProofRepo ProofRefs ProofSession ProofGraph ProofExample ProofService PropPkt PropStorage PropProto PropGateway PropService PropSsh PropFetch.
Open Scope N_scope.

(** ** Vocabulary *)

(** Two lists of words that ask for the same framing of the reply. *)
Definition bands_alike (t1 t2 : bytes) : Prop :=
  (cap_word t1 (bs "side-band") \/ cap_word t1 (bs "side-band-64k")) <-> (cap_word t2 (bs "side-band") \/ cap_word t2 (bs "side-band-64k")).
(** And for the same acknowledgements. *)
Definition acks_alike (t1 t2 : bytes) : Prop :=
  (cap_word t1 (bs "multi_ack_detailed") <-> cap_word t2 (bs "multi_ack_detailed")) /\ (cap_word t1 (bs "no-done") <-> cap_word t2 (bs "no-done")).

(** Requests that name the same commits in the same order; what else is on the lines is
    free. *)
Inductive same_item : req_item -> req_item -> Prop :=
| si_want : forall id t1 t2, same_item (RWant id t1) (RWant id t2)
| si_have : forall id t1 t2, same_item (RHave id t1) (RHave id t2)
| si_flush : same_item RFlush RFlush
| si_other : forall p1 p2, same_item (ROther p1) (ROther p2).
(** A fetch request that names the commits of [l], with the words [t] behind the first. *)
Definition fetch_body (l : list req_item) (t body : bytes) : Prop :=
  exists b x line rest, req_bytes l b /\ first_tail l (Some t) /\ utf8_text t /\ pkt_line (bs "done" ++ x) line /\ body = b ++ line ++ rest.
Definition no_haves (l : list req_item) : Prop := forall id t, ~ In (RHave id t) l.

(** ** Lists of capabilities *)

Definition cband (c1 c2 : list capability) : Prop := has_cap SideBand c1 || has_cap SideBand64k c1 = has_cap SideBand c2 || has_cap SideBand64k c2.
Definition cacks (c1 c2 : list capability) : Prop := has_cap MultiAckDetailed c1 = has_cap MultiAckDetailed c2 /\ has_cap NoDone c1 = has_cap NoDone c2.
Lemma bool_iff : forall a b : bool, (a = true <-> b = true) -> a = b.
Proof. intros [|] [|] H; try reflexivity; [symmetry; apply H; reflexivity|apply H; reflexivity]. Qed.
Lemma has_parse : forall x caps t, has_cap x (parse_capabilities caps t) = true <-> has_cap x caps = true \/ cap_word t (cap_text x).
Proof. intros. rewrite !has_cap_spec. apply parse_capabilities_spec. Qed.
Lemma cband_parse : forall c1 c2 t1 t2, cband c1 c2 -> bands_alike t1 t2 -> cband (parse_capabilities c1 t1) (parse_capabilities c2 t2).
Proof.
  intros c1 c2 t1 t2 H B. unfold cband in *. apply bool_iff. rewrite !orb_true_iff, !has_parse. cbn [cap_text]. apply (f_equal (fun b => b = true)) in H.
  assert (K : (has_cap SideBand c1 = true \/ has_cap SideBand64k c1 = true) <-> (has_cap SideBand c2 = true \/ has_cap SideBand64k c2 = true))
    by (rewrite <- !orb_true_iff, H; reflexivity). unfold bands_alike in B. tauto.
Qed.
Lemma cacks_parse : forall c1 c2 t1 t2, cacks c1 c2 -> acks_alike t1 t2 -> cacks (parse_capabilities c1 t1) (parse_capabilities c2 t2).
Proof.
  intros c1 c2 t1 t2 [H1 H2] [B1 B2]. split; apply bool_iff; rewrite !has_parse; cbn [cap_text]; rewrite ?H1, ?H2; tauto.
Qed.
Lemma cband_refl : forall c, cband c c. Proof. intros. reflexivity. Qed.
Lemma cacks_refl : forall c, cacks c c. Proof. intros. split; reflexivity. Qed.
Lemma bands_refl : forall t, bands_alike t t. Proof. intros. unfold bands_alike. tauto. Qed.
Lemma acks_refl : forall t, acks_alike t t. Proof. intros. unfold acks_alike. tauto. Qed.

Lemma format_band : forall c1 c2 d n, cband c1 c2 -> build_side_band_format c1 d n = build_side_band_format c2 d n.
Proof. intros c1 c2 d n H. unfold build_side_band_format. rewrite H. reflexivity. Qed.
Lemma send_band : forall c1 c2 l, cband c1 c2 -> send_pack c1 l = send_pack c2 l.
Proof. intros c1 c2 l H. unfold send_pack. f_equal. apply map_ext. intros. apply format_band, H. Qed.
Lemma report_band : forall c1 c2 l, cband c1 c2 -> report c1 l = report c2 l.
Proof. intros c1 c2 l H. unfold report. rewrite (format_band _ _ _ _ H). reflexivity. Qed.

(** ** The request lines *)

Lemma loop_items : forall l1 l2, Forall2 same_item l1 l2 -> forall b1 b2 t1 t2 x1 x2 line1 line2 r1 r2, req_bytes l1 b1 -> req_bytes l2 b2 ->
  pkt_line (bs "done" ++ x1) line1 -> pkt_line (bs "done" ++ x2) line2 -> utf8_text t1 -> utf8_text t2 ->
  forall f (first : bool) want have c1 c2, (length l1 < f)%nat -> (first = true -> first_tail l1 (Some t1) /\ first_tail l2 (Some t2)) ->
  exists want' have', upload_loop f first want have c1 (b1 ++ line1 ++ r1) = Ok (want', have', if first then parse_capabilities c1 t1 else c1, r1) /\
                      upload_loop f first want have c2 (b2 ++ line2 ++ r2) = Ok (want', have', if first then parse_capabilities c2 t2 else c2, r2).
Proof.
  intros l1 l2 F. induction F as [|i1 i2 l1 l2 S1 F IH]; intros b1 b2 t1 t2 x1 x2 line1 line2 r1 r2 R1 R2 D1 D2 U1 U2 f first want have c1 c2 Hf T.
  - inversion R1; inversion R2; subst. cbn [length] in Hf. destruct f as [|f]; [lia|]. cbn [app].
    rewrite (upload_done _ _ _ _ _ _ _ _ D1), (upload_done _ _ _ _ _ _ _ _ D2). destruct first; [|eauto]. destruct (T eq_refl) as [K _]. inversion K.
  - inversion R1 as [|? ? a1 d1 Ok1 B1 Q1]; inversion R2 as [|? ? a2 d2 Ok2 B2 Q2]; subst. cbn [length] in Hf.
    destruct f as [|f]; [lia|]. rewrite <- !app_assoc.
    pose proof (IH d1 d2 t1 t2 x1 x2 line1 line2 r1 r2 Q1 Q2 D1 D2 U1 U2 f) as E. clear IH.
    inversion S1; subst; inversion B1 as [? ? ? Hp1|? ? ? Hp1| |? ? Hp1]; subst; inversion B2 as [? ? ? Hp2|? ? ? Hp2| |? ? Hp2]; subst.
    + destruct Ok1 as [Hl Ha]. assert (U : utf8_unwrap id = Ok id) by (apply utf8_unwrap_text, utf8_text_ascii, Ha). rewrite want_cmd in Hp1, Hp2.
      rewrite (upload_step _ _ _ _ _ _ _ _ Hp1), (upload_step _ _ _ _ _ _ _ _ Hp2), !slice_prefix by reflexivity. cbn [bind].
      change (beq want_bytes (bs "want")) with true. cbv iota. rewrite !slice_5_45 by (try reflexivity; assumption). cbn [bind]. rewrite U. cbn [bind].
      destruct first; [|apply E; [lia|discriminate]]. destruct (T eq_refl) as [T1 T2]. inversion T1; subst. inversion T2; subst.
      rewrite !slice_46 by (try reflexivity; assumption). cbn [bind]. rewrite !utf8_unwrap_text by assumption. cbn [bind].
      apply (E false (set_insert id want) have (parse_capabilities c1 t1) (parse_capabilities c2 t2)); [lia|discriminate].
    + destruct Ok1 as [Hl Ha]. assert (U : utf8_unwrap id = Ok id) by (apply utf8_unwrap_text, utf8_text_ascii, Ha). rewrite have_cmd in Hp1, Hp2.
      rewrite (upload_step _ _ _ _ _ _ _ _ Hp1), (upload_step _ _ _ _ _ _ _ _ Hp2), !slice_prefix by reflexivity. cbn [bind].
      change (beq have_bytes (bs "want")) with false. change (beq have_bytes (bs "have")) with true. cbv iota.
      rewrite !slice_5_45 by (try reflexivity; assumption). cbn [bind]. rewrite U. cbn [bind].
      destruct first; [|apply E; [lia|discriminate]]. destruct (T eq_refl) as [T1 T2]. inversion T1; subst. inversion T2; subst.
      rewrite !slice_46 by (try reflexivity; assumption). cbn [bind]. rewrite !utf8_unwrap_text by assumption. cbn [bind].
      apply (E false want (set_insert id have) (parse_capabilities c1 t1) (parse_capabilities c2 t2)); [lia|discriminate].
    + rewrite !upload_flush. apply E; [lia|]. intros K. destruct (T K) as [T1 T2]. inversion T1; inversion T2; subst; auto.
    + rewrite (other_skipped _ _ _ _ _ _ _ _ Ok1) by assumption. rewrite (other_skipped _ _ _ _ _ _ _ _ Ok2) by assumption.
      apply E; [lia|]. intros K. destruct (T K) as [T1 T2]. inversion T1; inversion T2; subst; auto.
Qed.
(** Without a have line the server sees none. *)
Lemma loop_no_haves : forall l b x line rest f t want have c c1 r, no_haves l -> req_bytes l b -> first_tail l (Some t) -> utf8_text t -> pkt_line (bs "done" ++ x) line ->
  (length l < f)%nat -> upload_loop f true [] [] c (b ++ line ++ rest) = Ok (want, have, c1, r) -> have = [].
Proof.
  intros l b x line rest f t want have c c1 r N R T U D Hf E.
  destruct (upload_items l b R true (Some t) [] [] c (line ++ rest) (f - length l) (fun _ => conj T U)) as (f' & w' & h' & E1 & (_ & Rh & _) & _).
  replace (length l + (f - length l))%nat with f in E1 by lia. rewrite E in E1. replace (f - length l)%nat with (S (f - length l - 1)) in E1 by lia.
  rewrite (upload_done _ _ _ _ _ _ _ _ D) in E1. injection E1 as _ <- _ _. destruct have as [|h have]; [reflexivity|].
  destruct (proj1 (Rh h) (or_introl eq_refl)) as [[]|[t' K]]. destruct (N _ _ K).
Qed.

(** ** Whole fetches *)

(** What the server does with the lines, apart from the session. *)
Definition answer (e : env) (c : codec) (fuel : nat) (path : bytes) (want have : list bytes) (detailed nodone : bool) : M (bytes * bytes) :=
  match have with
  | [] => mbind (munwrap (get_full_pack_data e c fuel path)) (fun data => ret (data, add_pkt_line [] (bs "NAK" ++ [10])))
  | _ => mbind (if detailed then
           mbind (shuffle e have) (fun hs => mbind (ack_haves_db e hs []) (fun buf =>
           mbind (munwrap (get_incremental_pack_data e c fuel path want have)) (fun data => mbind (shuffle e want) (fun ws =>
           mbind (ack_wants_db e nodone ws buf) (fun buf => ret (data, buf))))))
         else ret ([], [])) (fun x => ret (fst x, add_pkt_line (snd x) (bs "ACK " ++ hard_coded_id ++ [32; 10])))
  end.
Definition with_session (p : proto) (x : world * res (bytes * bytes)) : world * res (proto * bytes * bytes) :=
  (fst x, match snd x with Ok (d, b) => Ok (p, d, b) | Err k => Err k | Panic => Panic | OutOfFuel => OutOfFuel end).
Lemma upload_answer : forall e c fuel pp body w want have caps r, upload_loop fuel true [] [] (pp_caps pp) body = Ok (want, have, caps, r) ->
  git_upload_pack e c fuel pp body w =
    with_session (mkProto (pp_protocol pp) (pp_path pp) (pp_service pp) caps (pp_cmds pp)) (answer e c fuel (pp_path pp) want have (has_cap MultiAckDetailed caps) (has_cap NoDone caps) w).
Proof.
  intros e c fuel pp body w want have caps r E. unfold git_upload_pack. rewrite E. unfold lift, mbind at 1. cbv beta iota. unfold answer.
  destruct have as [|h hs].
  - unfold mbind. destruct (munwrap _ w) as [w1 [d| | |]]; reflexivity.
  - unfold mbind at 1. unfold mbind at 6. match goal with |- match ?x with _ => _ end = _ => destruct x as [w1 [[d b]| | |]]; reflexivity end.
Qed.
Lemma answer_alike : forall e c fuel path want have c1 c2, (have <> [] -> cacks c1 c2) ->
  answer e c fuel path want have (has_cap MultiAckDetailed c1) (has_cap NoDone c1) = answer e c fuel path want have (has_cap MultiAckDetailed c2) (has_cap NoDone c2).
Proof. intros e c fuel path want have c1 c2 A. destruct have as [|h hs]; [reflexivity|]. destruct (A ltac:(discriminate)) as [-> ->]. reflexivity. Qed.

(** Two fetches over HTTP that name the same commits, and whose words ask for the same
    framing and, if there are haves, for the same acknowledgements, are answered alike,
    whatever else the words say. *)
Theorem C143_fetch : forall e c cut path l1 l2 t1 t2 body1 body2, Forall2 same_item l1 l2 -> fetch_body l1 t1 body1 -> fetch_body l2 t2 body2 ->
  bands_alike t1 t2 -> no_haves l1 \/ acks_alike t1 t2 ->
  forall fuel w, (length l1 < fuel)%nat ->
  http_upload_pack e c fuel cut path body1 w = http_upload_pack e c fuel cut path body2 w.
Proof.
  intros e c cut path l1 l2 t1 t2 body1 body2 F (b1 & x1 & line1 & r1 & R1 & T1 & U1 & D1 & ->) (b2 & x2 & line2 & r2 & R2 & T2 & U2 & D2 & ->) B A fuel w Hf.
  destruct (loop_items _ _ F b1 b2 t1 t2 x1 x2 line1 line2 r1 r2 R1 R2 D1 D2 U1 U2 fuel true [] [] [] [] Hf (fun _ => conj T1 T2)) as (want & have & E1 & E2).
  unfold http_upload_pack.
  rewrite (mbind_ok _ _ _ _ _ _ _ (eq_refl : lift (proto_new path [] Http) w = (w, Ok (mkProto Http path None [] [])))).
  rewrite (mbind_ok _ _ _ _ _ _ _ (eq_refl : lift (proto_new path [] Http) w = (w, Ok (mkProto Http path None [] [])))).
  unfold mbind. rewrite (upload_answer e c fuel (mkProto Http path None [] []) _ w _ _ _ _ E1), (upload_answer e c fuel (mkProto Http path None [] []) _ w _ _ _ _ E2).
  cbn [pp_path pp_protocol pp_service pp_caps pp_cmds].
  rewrite (answer_alike e c fuel path want have (parse_capabilities [] t1) (parse_capabilities [] t2)).
  - destruct (answer _ _ _ _ _ _ _ _ w) as [w1 [[d b]| | |]]; try reflexivity. unfold with_session. cbn [fst snd pp_caps ret].
    rewrite (send_band _ _ (cut d) (cband_parse [] [] t1 t2 (cband_refl _) B)). reflexivity.
  - intros N. destruct A as [A|A]; [|exact (cacks_parse [] [] t1 t2 (cacks_refl _) A)].
    destruct (N (loop_no_haves _ _ _ _ _ _ _ _ _ _ _ _ A R1 T1 U1 D1 Hf E1)).
Qed.

(** ** Sessions *)

(** Sessions that differ in the capabilities named so far, but ask for the same. *)
Definition like_proto (p1 p2 : proto) : Prop :=
  pp_protocol p1 = pp_protocol p2 /\ pp_path p1 = pp_path p2 /\ pp_service p1 = pp_service p2 /\ pp_cmds p1 = pp_cmds p2 /\
  cband (pp_caps p1) (pp_caps p2) /\ (pp_service p1 = Some ReceivePack \/ cacks (pp_caps p1) (pp_caps p2)).
Definition like_out (x1 x2 : world * res (proto * bytes)) : Prop :=
  fst x1 = fst x2 /\
  match snd x1, snd x2 with
  | Ok (p1, y1), Ok (p2, y2) => y1 = y2 /\ like_proto p1 p2 | Err k1, Err k2 => k1 = k2 | Panic, Panic => True | OutOfFuel, OutOfFuel => True | _, _ => False
  end.
Definition same_reply (x1 x2 : world * res (proto * bytes)) : Prop :=
  fst x1 = fst x2 /\
  match snd x1, snd x2 with
  | Ok (_, y1), Ok (_, y2) => y1 = y2 | Err k1, Err k2 => k1 = k2 | Panic, Panic => True | OutOfFuel, OutOfFuel => True | _, _ => False
  end.

(** What the second half of a push does, apart from the capabilities. *)
Definition same_effect (x1 x2 : world * res (proto * bytes)) (sv : option service) (c1 c2 : list capability) : Prop :=
  fst x1 = fst x2 /\
  match snd x1, snd x2 with
  | Ok (p1, y1), Ok (p2, y2) => pp_protocol p1 = pp_protocol p2 /\ pp_path p1 = pp_path p2 /\ (pp_service p1 = sv /\ pp_service p2 = sv) /\ pp_cmds p1 = pp_cmds p2 /\
      (y1 = y2 \/ exists cmds, y1 = report c1 cmds /\ y2 = report c2 cmds) /\
      (pp_caps p1 = c1 /\ pp_caps p2 = c2 \/ exists t, pp_caps p1 = parse_capabilities c1 t /\ pp_caps p2 = parse_capabilities c2 t)
  | Err k1, Err k2 => k1 = k2 | Panic, Panic => True | OutOfFuel, OutOfFuel => True | _, _ => False
  end.
Lemma receive_effect : forall e m c fuel now pr path sv cmds c1 c2 b w,
  same_effect (git_receive_pack e m c fuel now (mkProto pr path sv c1 cmds) b w) (git_receive_pack e m c fuel now (mkProto pr path sv c2 cmds) b w) sv c1 c2.
Proof.
  intros e m c fuel now pr path sv cmds c1 c2 b w. unfold git_receive_pack. cbn [pp_protocol pp_path pp_service pp_caps pp_cmds].
  destruct (starts_with (bs "PACK") b).
  - unfold mbind, lift. destruct (unwrap_opt _) as [cmd| | |]; try (split; [reflexivity|cbn [snd]; auto; fail]).
    destruct (write_temp _ _ w) as [w1 [x1| | |]]; try (split; [reflexivity|cbn [snd]; auto; fail]).
    destruct (read_temp _ w1) as [w2 [x2| | |]]; try (split; [reflexivity|cbn [snd]; auto; fail]).
    destruct (unpack_pack _ _ _ _ _ w2) as [w3 [x3| | |]]; try (split; [reflexivity|cbn [snd]; auto; fail]).
    match goal with |- context [match match save_packfile ?a ?b ?c ?d ?f with _ => _ end with _ => _ end] => destruct (save_packfile a b c d f) as [w4 [x4| | |]] end;
      try (split; [reflexivity|cbn [snd]; auto; fail]).
    + destruct (handle_refs _ _ _ w4) as [w5 [x5| | |]]; try (split; [reflexivity|cbn [snd]; auto; fail]). cbn [ret].
      destruct (remove_temp _ w5) as [w6 [x6| | |]]; try (split; [reflexivity|cbn [snd]; auto; fail]).
      repeat split; [right; eexists; split; reflexivity|left; split; reflexivity].
    + destruct (remove_temp _ w4) as [w6 [x6| | |]]; try (split; [reflexivity|cbn [snd]; auto; fail]).
      repeat split; [right; eexists; split; reflexivity|left; split; reflexivity].
  - unfold mbind, lift. destruct (read_pkt_line b) as [[[n line] rest]| | |]; try (split; [reflexivity|cbn [snd]; auto; fail]).
    destruct ((n =? 0) && _); [repeat split; [left; reflexivity|left; split; reflexivity]|].
    destruct (parse_ref_update line) as [[cmd tail]| | |]; try (split; [reflexivity|cbn [snd]; auto; fail]).
    destruct (utf8_unwrap tail) as [t| | |]; try (split; [reflexivity|cbn [snd]; auto; fail]).
    destruct (slice_from 4 rest) as [r| | |]; try (split; [reflexivity|cbn [snd]; auto; fail]).
    repeat split; [left; reflexivity|right; exists t; split; reflexivity].
Qed.

(** Two pushes of the same command and pack do the same to the server, whatever their
    words say. *)
Theorem C143_effect : forall e m c now path old new name t1 t2 pack body1 body2, word old -> word new -> word name -> utf8_text t1 -> utf8_text t2 ->
  push_request old new name t1 pack body1 -> push_request old new name t2 pack body2 ->
  forall fuel w, fst (http_receive_pack e m c fuel now path body1 w) = fst (http_receive_pack e m c fuel now path body2 w).
Proof.
  intros e m c now path old new name t1 t2 pack body1 body2 Ho Hn Hm U1 U2 P1 P2 fuel w.
  destruct (first_run e m c now path old new name t1 pack body1 Ho Hn Hm U1 P1) as (c1 & C1 & E1).
  destruct (first_run e m c now path old new name t2 pack body2 Ho Hn Hm U2 P2) as (c2 & C2 & E2). rewrite E1, E2.
  destruct (receive_effect e m c fuel now Http path None [ref_command_new old new (name ++ [0])] c1 c2 pack w) as [K1 K2].
  unfold mbind. destruct (git_receive_pack _ _ _ _ _ _ pack w) as [w1 [[p1 y1]| | |]]; destruct (git_receive_pack _ _ _ _ _ _ pack w) as [w2 [[p2 y2]| | |]];
    cbn [fst snd] in *; try destruct K2; try exact K1.
Qed.
Lemma in_band : forall t1 t2 c1 c2, caps_in t1 c1 -> caps_in t2 c2 -> bands_alike t1 t2 -> cband c1 c2.
Proof.
  intros t1 t2 c1 c2 C1 C2 B. apply bool_iff. rewrite !orb_true_iff, !has_cap_spec, (C1 SideBand), (C1 SideBand64k), (C2 SideBand), (C2 SideBand64k). exact B.
Qed.
(** And if they ask for the same framing they are answered alike: the status is reported
    to a client that did not ask for report-status just as to one that did. *)
Theorem C143_push : forall e m c now path old new name t1 t2 pack body1 body2, word old -> word new -> word name -> utf8_text t1 -> utf8_text t2 ->
  push_request old new name t1 pack body1 -> push_request old new name t2 pack body2 -> bands_alike t1 t2 ->
  forall fuel w, http_receive_pack e m c fuel now path body1 w = http_receive_pack e m c fuel now path body2 w.
Proof.
  intros e m c now path old new name t1 t2 pack body1 body2 Ho Hn Hm U1 U2 P1 P2 B fuel w.
  destruct (first_run e m c now path old new name t1 pack body1 Ho Hn Hm U1 P1) as (c1 & C1 & E1).
  destruct (first_run e m c now path old new name t2 pack body2 Ho Hn Hm U2 P2) as (c2 & C2 & E2). rewrite E1, E2.
  pose proof (in_band _ _ _ _ C1 C2 B) as Cb.
  destruct (receive_effect e m c fuel now Http path None [ref_command_new old new (name ++ [0])] c1 c2 pack w) as [K1 K2].
  unfold mbind. destruct (git_receive_pack _ _ _ _ _ _ pack w) as [w1 [[p1 y1]|k1| |]]; destruct (git_receive_pack _ _ _ _ _ _ pack w) as [w2 [[p2 y2]|k2| |]];
    cbn [fst snd] in *; try (destruct K2; fail); subst; try reflexivity.
  destruct K2 as (_ & _ & _ & _ & [->|(cmds & -> & ->)] & _); [reflexivity|]. rewrite (report_band _ _ cmds Cb). reflexivity.
Qed.

(** ** The same over SSH *)

Lemma loop_caps : forall f (first : bool) want have c1 c2 b, cband c1 c2 -> cacks c1 c2 ->
  match upload_loop f first want have c1 b with
  | Ok (w', h', c1', r) => exists c2', upload_loop f first want have c2 b = Ok (w', h', c2', r) /\ cband c1' c2' /\ cacks c1' c2'
  | Err k => upload_loop f first want have c2 b = Err k | Panic => upload_loop f first want have c2 b = Panic | OutOfFuel => upload_loop f first want have c2 b = OutOfFuel
  end.
Proof.
  induction f as [|f IH]; intros first want have c1 c2 b B A; [reflexivity|]. cbn [upload_loop].
  destruct (read_pkt_line b) as [[[n p] b1]| | |]; cbn [bind]; try reflexivity.
  destruct ((n =? 0) && _); [apply IH; assumption|].
  destruct (slice 0 4 p) as [cmd| | |]; cbn [bind]; try reflexivity.
  destruct (beq cmd (bs "want")); [|destruct (beq cmd (bs "have")); [|destruct (beq cmd (bs "done")); [exists c2; auto|apply IH; assumption]]].
  all: destruct (slice 5 45 p) as [s| | |]; cbn [bind]; try reflexivity; destruct (utf8_unwrap s) as [id| | |]; cbn [bind]; try reflexivity.
  all: destruct first; [|apply IH; assumption]; destruct (slice_from 46 p) as [t| | |]; cbn [bind]; try reflexivity; destruct (utf8_unwrap t) as [z| | |]; cbn [bind]; try reflexivity.
  all: apply IH; [apply cband_parse; [exact B|apply bands_refl]|apply cacks_parse; [exact A|apply acks_refl]].
Qed.
Lemma ssh_upload : forall e m c fuel cut now pp1 pp2 d1 d2 w want have c1 c2 r1 r2, pp_service pp1 = Some UploadPack -> pp_service pp2 = Some UploadPack ->
  pp_protocol pp1 = pp_protocol pp2 -> pp_path pp1 = pp_path pp2 -> pp_cmds pp1 = pp_cmds pp2 ->
  upload_loop fuel true [] [] (pp_caps pp1) d1 = Ok (want, have, c1, r1) -> upload_loop fuel true [] [] (pp_caps pp2) d2 = Ok (want, have, c2, r2) ->
  cband c1 c2 -> (have <> [] -> cacks c1 c2) ->
  same_reply (ssh_data e m c fuel cut now pp1 d1 w) (ssh_data e m c fuel cut now pp2 d2 w) /\
  (cacks c1 c2 -> like_out (ssh_data e m c fuel cut now pp1 d1 w) (ssh_data e m c fuel cut now pp2 d2 w)).
Proof.
  intros e m c fuel cut now pp1 pp2 d1 d2 w want have c1 c2 r1 r2 S1 S2 Pr Pa Pc E1 E2 B A. unfold ssh_data. rewrite S1, S2.
  unfold mbind. rewrite (upload_answer _ _ _ _ _ w _ _ _ _ E1), (upload_answer _ _ _ _ _ w _ _ _ _ E2), Pa, (answer_alike e c fuel (pp_path pp2) want have c1 c2 A).
  destruct (answer _ _ _ _ _ _ _ _ w) as [w1 [[d b]|k| |]]; unfold with_session; cbn [fst snd pp_caps]; unfold lift;
    try (split; [split; [reflexivity|cbn [snd]; auto; fail]|intros _; split; [reflexivity|cbn [snd]; auto; fail]]).
  destruct (utf8_unwrap b) as [y|k| |]; try (split; [split; [reflexivity|cbn [snd]; auto; fail]|intros _; split; [reflexivity|cbn [snd]; auto; fail]]). cbn [ret].
  rewrite (send_band _ _ (cut d) B). split; [split; reflexivity|]. intros K. split; [reflexivity|]. cbn [snd]. split; [reflexivity|].
  unfold like_proto. cbn [pp_protocol pp_path pp_service pp_caps pp_cmds]. rewrite S1, S2. auto 10.
Qed.
Lemma like_data : forall e m c fuel cut now p1 p2 d w, like_proto p1 p2 -> like_out (ssh_data e m c fuel cut now p1 d w) (ssh_data e m c fuel cut now p2 d w).
Proof.
  intros e m c fuel cut now p1 p2 d w (H1 & H2 & H3 & H4 & B & A). destruct (pp_service p1) as [[|]|] eqn:S1; symmetry in H3.
  - destruct A as [A|A]; [discriminate A|]. pose proof (loop_caps fuel true [] [] _ _ d B A) as L. destruct (upload_loop fuel true [] [] (pp_caps p1) d) as [[[[w' h'] c1'] r]|k| |] eqn:E.
    + destruct L as (c2' & E2 & B' & A'). apply (ssh_upload e m c fuel cut now p1 p2 d d w w' h' c1' c2' r r); auto.
    + unfold ssh_data, git_upload_pack. rewrite S1, H3, E, L. split; reflexivity.
    + unfold ssh_data, git_upload_pack. rewrite S1, H3, E, L. split; [reflexivity|constructor].
    + unfold ssh_data, git_upload_pack. rewrite S1, H3, E, L. split; [reflexivity|constructor].
  - unfold ssh_data. rewrite S1, H3. destruct p1 as [pr1 pa1 sv1 c1 cm1], p2 as [pr2 pa2 sv2 c2 cm2]. cbn [pp_protocol pp_path pp_service pp_caps pp_cmds] in *. subst.
    destruct (receive_effect e m c fuel now pr2 pa2 (Some ReceivePack) cm2 c1 c2 d w) as [K1 K2]. split; [exact K1|].
    destruct (snd (git_receive_pack _ _ _ _ _ _ d w)) as [[q1 y1]|k1| |]; destruct (snd (git_receive_pack _ _ _ _ _ _ d w)) as [[q2 y2]|k2| |]; try exact K2.
    destruct K2 as (P1 & P2 & (P3 & P3') & P4 & P5 & P6). split.
    + destruct P5 as [->|(cm & -> & ->)]; [reflexivity|]. apply report_band, B.
    + unfold like_proto. split; [exact P1|]. split; [exact P2|]. split; [congruence|]. split; [exact P4|]. destruct P6 as [[-> ->]|(t & -> & ->)]; (split; [|left; exact P3]); [exact B|].
      apply cband_parse; [exact B|apply bands_refl].
  - unfold ssh_data. rewrite S1, H3. split; [reflexivity|constructor].
Qed.
Lemma like_session : forall e m c fuel cut now l p1 p2 w, like_proto p1 p2 -> like_out (ssh_session e m c fuel cut now p1 l w) (ssh_session e m c fuel cut now p2 l w).
Proof.
  intros e m c fuel cut now. induction l as [|d l IH]; intros p1 p2 w L; [split; [reflexivity|split; [reflexivity|exact L]]|].
  cbn [ssh_session]. destruct (like_data e m c fuel cut (now (length l)) p1 p2 d w L) as [K1 K2]. unfold mbind.
  destruct (ssh_data _ _ _ _ _ _ p1 d w) as [w1 [[q1 y1]|k1| |]]; destruct (ssh_data _ _ _ _ _ _ p2 d w) as [w2 [[q2 y2]|k2| |]]; cbn [fst snd] in *; try (destruct K2; fail); subst;
    try (split; [reflexivity|cbn [snd]; auto; fail]).
  destruct K2 as [-> K2]. destruct (IH q1 q2 w2 K2) as [J1 J2].
  destruct (ssh_session _ _ _ _ _ _ q1 l w2) as [w3 [[u1 z1]|j1| |]]; destruct (ssh_session _ _ _ _ _ _ q2 l w2) as [w4 [[u2 z2]|j2| |]]; cbn [fst snd] in *; try (destruct J2; fail); subst;
    try (split; [reflexivity|cbn [snd]; auto; fail]).
  destruct J2 as [-> J2]. split; [reflexivity|]. split; [reflexivity|exact J2].
Qed.
(** A session that begins alike goes on alike. *)
Lemma session_from : forall e m c fuel cut now pp d1 d2 l w,
  like_out (ssh_data e m c fuel cut (now (length l)) pp d1 w) (ssh_data e m c fuel cut (now (length l)) pp d2 w) \/
  l = [] /\ same_reply (ssh_data e m c fuel cut (now 0%nat) pp d1 w) (ssh_data e m c fuel cut (now 0%nat) pp d2 w) ->
  same_reply (ssh_session e m c fuel cut now pp (d1 :: l) w) (ssh_session e m c fuel cut now pp (d2 :: l) w).
Proof.
  intros e m c fuel cut now pp d1 d2 l w [[K1 K2]|[-> [K1 K2]]]; cbn [ssh_session length]; unfold mbind.
  - destruct (ssh_data _ _ _ _ _ _ pp d1 w) as [w1 [[q1 y1]|k1| |]]; destruct (ssh_data _ _ _ _ _ _ pp d2 w) as [w2 [[q2 y2]|k2| |]]; cbn [fst snd] in *; try (destruct K2; fail); subst;
      try (split; [reflexivity|cbn [snd]; auto; fail]).
    destruct K2 as [-> K2]. destruct (like_session e m c fuel cut now l q1 q2 w2 K2) as [J1 J2].
    destruct (ssh_session _ _ _ _ _ _ q1 l w2) as [w3 [[u1 z1]|j1| |]]; destruct (ssh_session _ _ _ _ _ _ q2 l w2) as [w4 [[u2 z2]|j2| |]]; cbn [fst snd] in *; try (destruct J2; fail); subst;
      try (split; [reflexivity|cbn [snd]; auto; fail]).
    destruct J2 as [-> _]. split; reflexivity.
  - destruct (ssh_data _ _ _ _ _ _ pp d1 w) as [w1 [[q1 y1]|k1| |]]; destruct (ssh_data _ _ _ _ _ _ pp d2 w) as [w2 [[q2 y2]|k2| |]]; cbn [fst snd] in *; try (destruct K2; fail); subst;
      try (split; [reflexivity|cbn [snd]; auto; fail]). split; reflexivity.
Qed.
Lemma serve_from : forall e m c fuel cut now cmd l1 l2 w,
  (forall w1 pp adv, ssh_command e cmd w = (w1, Ok (pp, adv)) -> same_reply (ssh_session e m c fuel cut now pp l1 w1) (ssh_session e m c fuel cut now pp l2 w1)) ->
  serve e m c fuel cut (QSsh now cmd l1) w = serve e m c fuel cut (QSsh now cmd l2) w.
Proof.
  intros e m c fuel cut now cmd l1 l2 w H. cbn [serve]. unfold mbind at 1. unfold mbind at 2.
  destruct (ssh_command e cmd w) as [w1 [[pp adv]|k| |]] eqn:E; try reflexivity. destruct (H _ _ _ eq_refl) as [K1 K2]. unfold mbind.
  destruct (ssh_session _ _ _ _ _ _ pp l1 w1) as [w3 [[u1 z1]|j1| |]]; destruct (ssh_session _ _ _ _ _ _ pp l2 w1) as [w4 [[u2 z2]|j2| |]]; cbn [fst snd] in *; try (destruct K2; fail); subst; reflexivity.
Qed.
Lemma command_proto : forall e cmd sv w w1 pp adv, service_from_str (hd [] (split_on 32 cmd)) = Some sv -> ssh_command e cmd w = (w1, Ok (pp, adv)) ->
  exists path, pp = mkProto Ssh path (Some sv) [] [].
Proof.
  intros e cmd sv w w1 pp adv Hs H. unfold ssh_command in H.
  repeat match type of H with mbind _ _ _ = (_, Ok _) => apply mbind_inv in H as (? & ? & ? & H) end. injection H as _ <- _.
  match goal with K : lift (proto_new _ _ _) _ = (_, Ok _) |- _ => unfold lift, proto_new in K; rewrite Hs in K; apply (f_equal snd) in K; cbn [snd unwrap_opt bind] in K end.
  destruct (hd [] (split_on 32 cmd)); [discriminate Hs|]. eexists. match goal with K : Ok _ = Ok _ |- _ => injection K as <- end. reflexivity.
Qed.

(** Two SSH connections to fetch whose first packets name the same commits. If their words
    ask for the same, the connections go alike to the end. *)
Theorem C143_fetch_ssh : forall e m c cut now rest0 l1 l2 t1 t2 body1 body2 more, Forall2 same_item l1 l2 -> fetch_body l1 t1 body1 -> fetch_body l2 t2 body2 ->
  bands_alike t1 t2 -> acks_alike t1 t2 \/ no_haves l1 /\ more = [] ->
  forall fuel w, (length l1 < fuel)%nat ->
  serve e m c fuel cut (QSsh now (bs "git-upload-pack " ++ rest0) (body1 :: more)) w = serve e m c fuel cut (QSsh now (bs "git-upload-pack " ++ rest0) (body2 :: more)) w.
Proof.
  intros e m c cut now rest0 l1 l2 t1 t2 body1 body2 more F (b1 & x1 & line1 & r1 & R1 & T1 & U1 & D1 & ->) (b2 & x2 & line2 & r2 & R2 & T2 & U2 & D2 & ->) B A fuel w Hf.
  apply serve_from. intros w1 pp adv E. apply (command_proto _ (bs "git-upload-pack " ++ rest0) UploadPack _ _ _ _ eq_refl) in E as [path ->].
  destruct (loop_items _ _ F b1 b2 t1 t2 x1 x2 line1 line2 r1 r2 R1 R2 D1 D2 U1 U2 fuel true [] [] [] [] Hf (fun _ => conj T1 T2)) as (want & have & E1 & E2).
  assert (N : no_haves l1 -> have = []) by (intros N; exact (loop_no_haves _ _ _ _ _ _ _ _ _ _ _ _ N R1 T1 U1 D1 Hf E1)).
  assert (C : acks_alike t1 t2 -> cacks (parse_capabilities [] t1) (parse_capabilities [] t2)) by (intros; apply cacks_parse; [apply cacks_refl|assumption]).
  assert (C' : have <> [] -> cacks (parse_capabilities [] t1) (parse_capabilities [] t2)) by (intros; destruct A as [A|[A _]]; [auto|contradiction (H (N A))]).
  pose proof (fun n => ssh_upload e m c fuel cut (now n) (mkProto Ssh path (Some UploadPack) [] []) (mkProto Ssh path (Some UploadPack) [] []) _ _ w1 want have _ _ r1 r2
    eq_refl eq_refl eq_refl eq_refl eq_refl E1 E2 (cband_parse [] [] t1 t2 (cband_refl _) B) C') as G.
  apply session_from. destruct A as [A|[A ->]]; [left; exact (proj2 (G _) (C A))|right; split; [reflexivity|exact (proj1 (G _))]].
Qed.
(** Two connections to push, with the same command and whatever follows. *)
Theorem C143_push_ssh : forall e m c cut now rest0 old new name t1 t2 line1 line2 more, word old -> word new -> word name -> utf8_text t1 -> utf8_text t2 ->
  push_line old new name t1 line1 -> push_line old new name t2 line2 -> bands_alike t1 t2 ->
  forall fuel w, serve e m c fuel cut (QSsh now (bs "git-receive-pack " ++ rest0) (line1 :: more)) w = serve e m c fuel cut (QSsh now (bs "git-receive-pack " ++ rest0) (line2 :: more)) w.
Proof.
  intros e m c cut now rest0 old new name t1 t2 line1 line2 more Ho Hn Hm U1 U2 (b1 & Hb1 & ->) (b2 & Hb2 & ->) B fuel w.
  apply serve_from. intros w1 pp adv E. apply (command_proto _ (bs "git-receive-pack " ++ rest0) ReceivePack _ _ _ _ eq_refl) in E as [path ->].
  apply session_from. left. unfold ssh_data. cbn [pp_service].
  rewrite (command_run e m c fuel _ (mkProto Ssh path (Some ReceivePack) [] []) _ _ t1 b1 flush [] w1 Hb1 (parse_first old new name t1 Ho Hn Hm) U1 eq_refl).
  rewrite (command_run e m c fuel _ (mkProto Ssh path (Some ReceivePack) [] []) _ _ t2 b2 flush [] w1 Hb2 (parse_first old new name t2 Ho Hn Hm) U2 eq_refl).
  cbn [pp_protocol pp_path pp_service pp_caps pp_cmds app]. split; [reflexivity|]. cbn [snd]. split; [reflexivity|]. unfold like_proto. cbn [pp_protocol pp_path pp_service pp_caps pp_cmds].
  repeat (split; [reflexivity|]). split; [apply cband_parse; [apply cband_refl|exact B]|left; reflexivity].
Qed.

(** ** What is not as asked *)

Lemma not_word : forall t x, existsb (cap_eqb x) (parse_capabilities [] t) = false -> ~ cap_word t (cap_text x).
Proof.
  intros t x H K. assert (I : In x (parse_capabilities [] t)) by (apply parse_capabilities_spec; auto). apply has_cap_spec in I. unfold has_cap in I. congruence.
Qed.
Lemma is_word : forall t x, existsb (cap_eqb x) (parse_capabilities [] t) = true -> cap_word t (cap_text x).
Proof. intros t x H. apply has_cap_spec, parse_capabilities_spec in H as [[]|H]. exact H. Qed.
Definition quiet_caps : bytes := bs "side-band-64k agent=git/2.40".
Definition quiet_body : bytes := push_body (repeat 48 40) (to_plain_str (oid ex_top)) (bs "refs/heads/master") quiet_caps (pack_of ex_hist).
(** A client that did not ask for a status report is sent one. *)
Theorem C143_refuted : exists e m c fuel now path old new name t pack body w w' reply cl,
  word old /\ word new /\ word name /\ utf8_text t /\ push_request old new name t pack body /\
  ~ cap_word t (bs "report-status") /\ ~ cap_word t (bs "report-status-v2") /\
  http_receive_pack e m c fuel now path body w = (w', Ok reply) /\ caps_in t cl /\ status_reply cl [bs "ok " ++ name ++ [0]] reply.
Proof.
  destruct C46_create_ex as (objs & _ & G & L & H & Hi & Hl & Hw & _ & Tn & Tp).
  assert (P : push_request (repeat 48 40) (to_plain_str (oid ex_top)) (bs "refs/heads/master") quiet_caps (pack_of ex_hist) quiet_body)
    by (apply push_body_request; rewrite !nlen_app, (plain_len _ ex_top_id); vm_compute; discriminate).
  assert (U : utf8_text quiet_caps) by (apply utf8_spec; reflexivity).
  destruct (C46_create ex_env Release stored 7 (bs "/demo") _ (oid ex_top) _ quiet_caps quiet_body (pack_of ex_hist) objs (world_of db_empty) ex_env_ok ltac:(reflexivity) Hi Hl Hw U Tn Tp P G L H)
    as (fuel & w' & reply & rows & crows & cl & Cl & Sr & _ & _ & _ & Run).
  exists ex_env, Release, stored, fuel, 7, (bs "/demo"), (repeat 48 40), (to_plain_str (oid ex_top)), (bs "refs/heads/master"), quiet_caps, (pack_of ex_hist), quiet_body, (world_of db_empty), w', reply, cl.
  split; [exact zero_word|]. split; [exact (hex_word _ _ Hl Hi)|]. split; [exact Hw|]. split; [exact U|]. split; [exact P|].
  split; [apply (not_word quiet_caps ReportStatus); reflexivity|]. split; [apply (not_word quiet_caps ReportStatusv2); reflexivity|]. split; [apply Run, le_n|]. split; [exact Cl|exact Sr].
Qed.

(** ** Instances *)

(** The words of a push with and without report-status, and in another order. *)
Example C143_push_ex : word (bs "refs/heads/master") /\ utf8_text ex_caps /\ utf8_text quiet_caps /\ bands_alike ex_caps quiet_caps /\
  push_request (repeat 48 40) (to_plain_str (oid ex_top)) (bs "refs/heads/master") ex_caps (pack_of ex_hist) ex_body /\
  push_request (repeat 48 40) (to_plain_str (oid ex_top)) (bs "refs/heads/master") quiet_caps (pack_of ex_hist) quiet_body /\ ex_body <> quiet_body.
Proof.
  split; [exact master_word|]. split; [apply utf8_spec; reflexivity|]. split; [apply utf8_spec; reflexivity|].
  split; [split; intros _; right; apply (is_word _ SideBand64k); reflexivity|].
  split; [apply push_body_request; rewrite !nlen_app, (plain_len _ ex_top_id); vm_compute; discriminate|].
  split; [apply push_body_request; rewrite !nlen_app, (plain_len _ ex_top_id); vm_compute; discriminate|].
  intros K. apply (f_equal (firstn 4)) in K. vm_compute in K. discriminate.
Qed.
Definition one_word : bytes := bs "multi_ack_detailed side-band-64k" ++ [10].
Definition more_words : bytes := bs "ofs-delta multi_ack_detailed thin-pack side-band agent=git/2.40" ++ [10].
Example C143_fetch_ex : bands_alike one_word more_words /\ acks_alike one_word more_words /\
  Forall2 same_item [RWant (ex_id 97) (32 :: one_word); RFlush; RHave (ex_id 98) [10]] [RWant (ex_id 97) (32 :: more_words); RFlush; RHave (ex_id 98) []] /\
  first_tail [RWant (ex_id 97) (32 :: one_word); RFlush; RHave (ex_id 98) [10]] (Some one_word) /\
  first_tail [RWant (ex_id 97) (32 :: more_words); RFlush; RHave (ex_id 98) []] (Some more_words) /\ utf8_text one_word /\ utf8_text more_words.
Proof.
  split; [split; intros _; [left; apply (is_word _ SideBand); reflexivity|right; apply (is_word _ SideBand64k); reflexivity]|].
  split; [split; (split; intros K); try (apply (is_word _ MultiAckDetailed); reflexivity);
          [destruct (not_word one_word NoDone eq_refl K)|destruct (not_word more_words NoDone eq_refl K)]|].
  split; [repeat constructor|]. split; [constructor|]. split; [constructor|]. split; apply utf8_spec; reflexivity.
Qed.

(** C37-C40, C43-C45, C49, C50: the wire format. *)

From Verif Require Import Base BaseLemmas ModelUtils ModelObject ModelBase ModelPkt
  SpecObject SpecIdx SpecBase SpecPkt ProofObject ProofUtf8 ProofPkt ProofReq.
Open Scope N_scope.

(** ** C37: pkt-line round-trip *)

Theorem C37_pkt_format : forall buf s, nlen s <= 65531 ->
  exists b, pkt_line s b /\ add_pkt_line buf s = buf ++ b.
Proof. intros buf s H. eexists. split; [apply hex4_pkt; exact H|reflexivity]. Qed.

Theorem C37_pkt_roundtrip : forall s rest, nlen s <= 65531 ->
  read_pkt_line (add_pkt_line [] s ++ rest) = Ok (nlen s + 4, s, rest).
Proof. intros s rest H. apply read_pkt, (hex4_pkt s H). Qed.

(** Any pkt-line, also one written with upper-case digits, is read. *)
Theorem C37_reads_every_line : forall s b rest, pkt_line s b ->
  read_pkt_line (b ++ rest) = Ok (nlen s + 4, s, rest).
Proof. exact read_pkt. Qed.

Theorem C37_too_long : forall s rest n line r, 65531 < nlen s ->
  read_pkt_line (add_pkt_line [] s ++ rest) = Ok (n, line, r) ->
  line <> s /\ n <> nlen s + 4 /\ (forall b, ~ pkt_line s b).
Proof.
  intros s rest n line r H K. apply read_pkt_line_spec in K. pose proof (pkt_front_max _ _ _ _ K) as M.
  split; [intros ->; lia|]. split.
  - inversion K; lia.
  - intros b Hb. apply pkt_line_max in Hb. lia.
Qed.

Example C37_case : add_pkt_line [] (bs "hello") = bs "0009hello" /\
  read_pkt_line (bs "0009hello0000") = Ok (9, bs "hello", bs "0000").
Proof. vm_compute. split; reflexivity. Qed.
Example C37_long_case : let s := repeat 48 (N.to_nat 65532) in
  (65531 <? nlen s) = true /\
  match read_pkt_line (add_pkt_line [] s ++ []) with Ok (n, _, _) => n | _ => 0 end = 4096.
Proof. vm_compute. split; reflexivity. Qed.

(** ** C38: the reader *)

Theorem C38_reader_iff : forall b n line rest,
  read_pkt_line b = Ok (n, line, rest) <-> pkt_front b n line rest.
Proof. exact read_pkt_line_spec. Qed.

Theorem C38_reader_total : forall b,
  (exists n line rest, read_pkt_line b = Ok (n, line, rest)) \/ read_pkt_line b = Panic.
Proof. exact read_pkt_line_cases. Qed.

(** What is returned is a slice of the input, behind a four-byte length field. *)
Theorem C38_reader_slices : forall b n line rest, read_pkt_line b = Ok (n, line, rest) ->
  (b = [] /\ n = 0 /\ line = [] /\ rest = []) \/
  (exists field, length field = 4%nat /\ b = field ++ line ++ rest /\
     (n = 0 /\ line = [] \/ n = nlen line + 4)).
Proof.
  intros b n line rest H. apply read_pkt_line_spec in H. destruct H as [|l rest Hl|l p rest Hl].
  - left. auto.
  - right. exists l. split; [exact (length_field_len _ _ Hl)|]. auto.
  - right. exists l. split; [exact (length_field_len _ _ Hl)|]. auto.
Qed.

Example C38_case : read_pkt_line (bs "0000rest") = Ok (0, [], bs "rest") /\
  read_pkt_line (bs "+00ex123456789z") = Ok (14, bs "x123456789", bs "z") /\
  read_pkt_line (bs "0003") = Panic /\ read_pkt_line (bs "00") = Panic /\ read_pkt_line (bs "0009abc") = Panic.
Proof. vm_compute. repeat split. Qed.

(** ** C39: side-band *)

Theorem C39_side_band_delivers : forall caps pack chunks,
  In SideBand caps \/ In SideBand64k caps -> pieces 65515 pack chunks ->
  band_stream 65520 (concat (send_pack caps chunks)) pack.
Proof.
  intros caps pack chunks Hc Hp. unfold send_pack, build_side_band_format.
  replace (has_cap SideBand caps || has_cap SideBand64k caps) with true.
  - apply (pieces_sum 65515); [assumption|lia].
  - symmetry. apply orb_true_iff. rewrite !has_cap_spec. assumption.
Qed.

(** A client can extract nothing else from the stream. *)
Theorem C39_side_band_unambiguous : forall max s d max' d',
  band_stream max s d -> band_stream max' s d' -> d = d'.
Proof. intros. eapply band_stream_fun; eassumption. Qed.

(** The HTTP sender cuts at 65500 bytes, the SSH sender at 64. *)
Theorem C39_chunk_sizes : forall max pack chunks, max <= 65515 ->
  pieces max pack chunks -> pieces 65515 pack chunks.
Proof.
  intros max pack chunks Hm [H1 H2]. split; [assumption|]. eapply Forall_impl; [|exact H2].
  intros c [? ?]. split; [assumption|lia].
Qed.

Example C39_case : pieces 65515 [1; 2; 3] [[1; 2]; [3]] /\
  concat (send_pack [SideBand64k] [[1; 2]; [3]]) =
    bs "0007" ++ [1; 1; 2] ++ bs "0006" ++ [1; 3] ++ bs "0000".
Proof.
  split; [|reflexivity]. split; [reflexivity|].
  repeat (apply Forall_cons; [split; [discriminate|vm_compute; discriminate]|]). apply Forall_nil.
Qed.

(** ** C40: without side-band *)

Theorem C40_flush_appended : forall caps pack chunks max,
  ~ In SideBand caps -> ~ In SideBand64k caps -> pieces max pack chunks ->
  concat (send_pack caps chunks) = pack ++ bs "0000".
Proof.
  intros caps pack chunks max H1 H2 [<- _]. unfold send_pack, build_side_band_format.
  replace (has_cap SideBand caps || has_cap SideBand64k caps) with false.
  - rewrite concat_app, map_id. cbn [concat]. rewrite app_nil_r. reflexivity.
  - symmetry. apply orb_false_iff. rewrite <- !not_true_iff_false, !has_cap_spec. tauto.
Qed.

Theorem C40_exact_refuted : exists caps pack chunks,
  ~ In SideBand caps /\ ~ In SideBand64k caps /\ pieces 65500 pack chunks /\
  concat (send_pack caps chunks) <> pack.
Proof.
  exists [OfsDelta], [1; 2; 3], [[1; 2; 3]].
  split; [intros [K|[]]; discriminate|]. split; [intros [K|[]]; discriminate|].
  split; [|vm_compute; discriminate]. split; [reflexivity|].
  apply Forall_cons; [split; [discriminate|vm_compute; discriminate]|apply Forall_nil].
Qed.

(** ** C43: fetch requests *)

Theorem C43_fetch_request : forall items body x line rest o fuel,
  req_bytes items body -> pkt_line (bs "done" ++ x) line -> first_tail items o ->
  match o with Some t => utf8_text t | None => True end ->
  (length items < fuel)%nat ->
  exists want have caps,
    upload_loop fuel true [] [] [] (body ++ line ++ rest) = Ok (want, have, caps, rest) /\
    (forall id, In id want <-> exists t, In (RWant id t) items) /\ NoDup want /\
    (forall id, In id have <-> exists t, In (RHave id t) items) /\ NoDup have /\
    (forall c, In c caps <-> exists t, o = Some t /\ cap_word t (cap_text c)).
Proof.
  intros items body x line rest o fuel Hi Hd Ho Hu Hf.
  destruct (upload_items _ _ Hi true o [] [] [] (line ++ rest) (fuel - length items) (fun _ => conj Ho Hu))
    as (f' & w & h & E & (R1 & R2 & R3 & R4) & _).
  exists w, h, (tail_caps [] true o). split.
  - replace (length items + (fuel - length items))%nat with fuel in E by lia. rewrite E.
    replace (fuel - length items)%nat with (S (fuel - length items - 1)) by lia.
    apply upload_done with (1 := Hd).
  - split; [intros id; rewrite R1; split; [intros [[]|K]; exact K|tauto]|].
    split; [apply R3, NoDup_nil|]. split; [intros id; rewrite R2; split; [intros [[]|K]; exact K|tauto]|].
    split; [apply R4, NoDup_nil|]. intros c. cbn [tail_caps]. destruct o as [t|].
    + rewrite parse_capabilities_spec. split.
      * intros [[]|K]. eauto.
      * intros (t' & K & W). injection K as <-. tauto.
    + split; [intros []|]. intros (t' & K & _). discriminate.
Qed.

Definition ex_id (n : N) : bytes := repeat n 40.
Definition ex_items : list req_item :=
  [RWant (ex_id 97) (bs " multi_ack_detailed side-band-64k" ++ [10]); RWant (ex_id 98) [10]; RFlush;
   ROther (bs "shallow x"); RHave (ex_id 99) [10]].
Definition ex_line (s : bytes) : bytes := add_pkt_line [] s.
Definition ex_body : bytes :=
  ex_line (bs "want " ++ ex_id 97 ++ bs " multi_ack_detailed side-band-64k" ++ [10]) ++
  ex_line (bs "want " ++ ex_id 98 ++ [10]) ++ flush ++ ex_line (bs "shallow x") ++
  ex_line (bs "have " ++ ex_id 99 ++ [10]).
Lemma ex_id_ok : forall n, n < 128 -> id40 (ex_id n).
Proof. intros. split; [reflexivity|]. apply Forall_forall. intros x K. apply repeat_spec in K. subst. assumption. Qed.
Lemma ex_req : req_bytes ex_items ex_body.
Proof.
  unfold ex_items, ex_body. rewrite <- (app_nil_r (ex_line (bs "have " ++ ex_id 99 ++ [10]))).
  repeat apply rb_cons; try apply rb_nil; try (apply ex_id_ok; lia); try exact I.
  all: try (constructor; apply hex4_pkt; vm_compute; discriminate).
  cbn [item_ok]. repeat split; try discriminate. vm_compute. lia.
Qed.
Example C43_case : first_tail ex_items (Some (bs "multi_ack_detailed side-band-64k" ++ [10])) /\
  exists rest, upload_loop 6 true [] [] [] (ex_body ++ ex_line (bs "done" ++ [10]) ++ rest) =
  Ok ([ex_id 97; ex_id 98], [ex_id 99], [MultiAckDetailed; SideBand64k], rest).
Proof. split; [constructor|]. exists []. vm_compute. reflexivity. Qed.

(** ** C44: termination *)

(** Every body that ends before a done line makes the server loop for ever. *)
Theorem C44_no_done_diverges : forall items body o, req_bytes items body ->
  first_tail items o -> match o with Some t => utf8_text t | None => True end ->
  forall fuel, upload_loop fuel true [] [] [] body = OutOfFuel.
Proof.
  assert (M : forall f first w h c b k, upload_loop (k + f) first w h c b = OutOfFuel ->
    upload_loop f first w h c b = OutOfFuel).
  { induction f as [|f IH]; intros first w h c b k H; [reflexivity|].
    rewrite <- Nat.add_succ_comm in H. cbn [Nat.add upload_loop] in H. cbn [upload_loop].
    destruct (read_pkt_line b) as [[[n p] r]| | |]; cbn [bind] in *; try discriminate; [|reflexivity].
    destruct ((n =? 0) && _); [eapply IH; eassumption|].
    destruct (slice 0 4 p); cbn [bind] in *; try discriminate; [|reflexivity].
    destruct (beq a (bs "want")); [|destruct (beq a (bs "have")); [|destruct (beq a (bs "done"));
      [discriminate|eapply IH; eassumption]]].
    all: destruct (slice 5 45 p); cbn [bind] in *; try discriminate; [|reflexivity].
    all: destruct (utf8_unwrap a0); cbn [bind] in *; try discriminate; [|reflexivity].
    all: destruct first; [|eapply IH; eassumption].
    all: destruct (slice_from 46 p); cbn [bind] in *; try discriminate; [|reflexivity].
    all: destruct (utf8_unwrap a2); cbn [bind] in *; try discriminate; [|reflexivity].
    all: eapply IH; eassumption. }
  intros items body o Hi Ho Hu fuel. apply (M _ _ _ _ _ _ (length items)).
  destruct (upload_items _ _ Hi true o [] [] [] [] fuel (fun _ => conj Ho Hu)) as (f' & w & h & E & _).
  rewrite app_nil_r in E. rewrite E. apply upload_end.
Qed.

(** It loops for ever only then: the body is a sequence of lines without done. *)
Theorem C44_diverges_only_without_done : forall body,
  (forall fuel, upload_loop fuel true [] [] [] body = OutOfFuel) ->
  exists ps, all_read ps body /\ Forall (fun p => firstn 4 p <> bs "done") ps.
Proof. intros body H. eapply upload_diverges; [apply le_n|exact H]. Qed.

Theorem C44_terminates_refuted : exists body, forall fuel, upload_loop fuel true [] [] [] body = OutOfFuel.
Proof. exists ex_body. apply (C44_no_done_diverges _ _ _ ex_req (proj1 C43_case)). apply utf8_text_ascii.
  apply Forall_forall. intros x Hx.
  assert (E : forallb (fun c => c <? 128) (bs "multi_ack_detailed side-band-64k" ++ [10]) = true) by (vm_compute; reflexivity).
  rewrite forallb_forall in E. specialize (E _ Hx). lia.
Qed.

(** ** C45: acknowledgements *)

Definition ack (id tail : bytes) : bytes := bs "ACK " ++ id ++ tail.

Lemma ack_len : forall id tail, length id = 40%nat -> (length tail <= 20)%nat -> nlen (ack id tail) <= 65531.
Proof. intros. unfold ack, nlen. rewrite !app_length. cbn [length bs]. change (length (bs "ACK ")) with 4%nat. lia. Qed.

Lemma ack_haves_lines : forall known have buf ps, pkt_lines ps buf -> Forall id40 have ->
  exists qs, pkt_lines (ps ++ qs) (ack_haves known have buf) /\
    forall p, In p qs <-> exists h, In h have /\ known h = true /\ p = ack h (bs " common" ++ [10]).
Proof.
  induction have as [|h r IH]; intros buf ps Hb Hi.
  - exists []. rewrite app_nil_r. split; [exact Hb|]. intros p. split; [intros []|intros (h & [] & _)].
  - inversion Hi; subst. destruct (known h) eqn:K.
    + destruct (IH (add_pkt_line buf (ack h (bs " common" ++ [10]))) (ps ++ [ack h (bs " common" ++ [10])])) as (qs & Q1 & Q2).
      * apply add_pkt_lines; [exact Hb|]. apply ack_len; [apply H1|vm_compute; lia].
      * assumption.
      * exists (ack h (bs " common" ++ [10]) :: qs). cbn [ack_haves]. rewrite K. rewrite <- app_assoc in Q1.
        split; [exact Q1|]. intros p. cbn [In]. rewrite Q2. split.
        -- intros [<-|(h' & A & B & C)]; [exists h|exists h']; auto.
        -- intros (h' & [<-|A] & B & C); [left; congruence|right; eauto].
    + destruct (IH buf ps Hb H2) as (qs & Q1 & Q2). exists qs. cbn [ack_haves]. rewrite K. split; [exact Q1|].
      intros p. rewrite Q2. split.
      * intros (h' & A & B). exists h'. split; [right; assumption|assumption].
      * intros (h' & [<-|A] & B & C); [congruence|eauto].
Qed.

Lemma ack_wants_lines : forall known nd want buf ps, pkt_lines ps buf -> Forall id40 want ->
  exists qs, pkt_lines (ps ++ qs) (ack_wants known nd want buf) /\
    forall p, In p qs <-> exists h, In h want /\
      (known h = true /\ p = ack h (bs " common" ++ [10]) \/ nd = true /\ p = ack h (bs " ready" ++ [10])).
Proof.
  induction want as [|h r IH]; intros buf ps Hb Hi.
  - exists []. rewrite app_nil_r. split; [exact Hb|]. intros p. split; [intros []|intros (h & [] & _)].
  - inversion Hi; subst. cbn [ack_wants].
    set (l1 := if known h then [ack h (bs " common" ++ [10])] else []).
    set (l2 := if nd then [ack h (bs " ready" ++ [10])] else []).
    assert (P1 : pkt_lines (ps ++ l1) (if known h then add_pkt_line buf (bs "ACK " ++ h ++ bs " common" ++ [10]) else buf)).
    { unfold l1. destruct (known h); [|rewrite app_nil_r; exact Hb]. apply add_pkt_lines; [exact Hb|].
      apply ack_len; [apply H1|vm_compute; lia]. }
    set (buf1 := if known h then add_pkt_line buf _ else buf) in *.
    assert (P2 : pkt_lines ((ps ++ l1) ++ l2) (if nd then add_pkt_line buf1 (bs "ACK " ++ h ++ bs " ready" ++ [10]) else buf1)).
    { unfold l2. destruct nd; [|rewrite app_nil_r; exact P1]. apply add_pkt_lines; [exact P1|].
      apply ack_len; [apply H1|vm_compute; lia]. }
    destruct (IH _ _ P2 H2) as (qs & Q1 & Q2). exists (l1 ++ l2 ++ qs). rewrite <- !app_assoc in Q1. split; [exact Q1|].
    intros p. rewrite !in_app_iff, Q2. unfold l1, l2. cbn [In]. split.
    + intros [K|[K|(h' & A & B)]].
      * destruct (known h) eqn:E; [|destruct K]. destruct K as [<-|[]]. exists h. auto.
      * destruct nd; [|destruct K]. destruct K as [<-|[]]. exists h. auto.
      * exists h'. auto.
    + intros (h' & [<-|A] & B); [|right; right; eauto]. destruct B as [[B ->]|[B ->]]; rewrite B; cbn [In]; auto.
Qed.

(** The reply to a request with haves: besides the last line, exactly the acknowledgements
    of mentioned ids, with 'common' only for stored commits. *)
Theorem C45_ack_lines : forall known caps want have, Forall id40 want -> Forall id40 have -> have <> [] ->
  exists ps, pkt_lines (ps ++ [ack hard_coded_id [32; 10]]) (ack_reply known caps want have) /\
    forall p, In p ps <-> In MultiAckDetailed caps /\
      ((exists h, (In h have \/ In h want) /\ known h = true /\ p = ack h (bs " common" ++ [10])) \/
       (In NoDone caps /\ exists h, In h want /\ p = ack h (bs " ready" ++ [10]))).
Proof.
  intros known caps want have Hw Hh Hn. unfold ack_reply. destruct have as [|h0 r0]; [congruence|].
  set (have := h0 :: r0) in *. clearbody have.
  assert (L : nlen (ack hard_coded_id [32; 10]) <= 65531) by (vm_compute; discriminate).
  destruct (has_cap MultiAckDetailed caps) eqn:M.
  - destruct (ack_haves_lines known have [] [] pl_nil Hh) as (q1 & A1 & B1).
    destruct (ack_wants_lines known (has_cap NoDone caps) want _ _ A1 Hw) as (q2 & A2 & B2).
    exists (q1 ++ q2). split; [apply add_pkt_lines; [exact A2|exact L]|].
    apply has_cap_spec in M. intros p. rewrite in_app_iff, B1, B2. split.
    + intros [(h & A & B & C)|(h & A & [[B C]|[B C]])]; (split; [exact M|]).
      * left. eauto.
      * left. eauto.
      * right. apply has_cap_spec in B. eauto.
    + intros [_ [(h & [A|A] & B & C)|(B & h & A & C)]].
      * left. eauto.
      * right. eauto.
      * right. exists h. apply has_cap_spec in B. auto.
  - exists []. split.
    + apply (add_pkt_lines []); [constructor|exact L].
    + intros p. rewrite <- has_cap_spec, M. split; [intros []|intros [K _]; discriminate].
Qed.

Theorem C45_no_haves : forall known caps want,
  pkt_lines [bs "NAK" ++ [10]] (ack_reply known caps want []).
Proof. intros. apply (add_pkt_lines []); [constructor|]. vm_compute. discriminate. Qed.

Theorem C45_foreign_id_refuted : exists known caps want have ps p id,
  Forall id40 want /\ Forall id40 have /\ pkt_lines ps (ack_reply known caps want have) /\ In p ps /\
  length id = 40%nat /\ (exists t, p = ack id t) /\ ~ In id want /\ ~ In id have /\ known id = false.
Proof.
  destruct (C45_ack_lines (fun _ => false) [MultiAckDetailed] [ex_id 97] [ex_id 98]) as (ps & P & _).
  - apply Forall_cons; [apply ex_id_ok; lia|apply Forall_nil].
  - apply Forall_cons; [apply ex_id_ok; lia|apply Forall_nil].
  - discriminate.
  - exists (fun _ => false), [MultiAckDetailed], [ex_id 97], [ex_id 98],
      (ps ++ [ack hard_coded_id [32; 10]]), (ack hard_coded_id [32; 10]), hard_coded_id.
    split; [apply Forall_cons; [apply ex_id_ok; lia|apply Forall_nil]|].
    split; [apply Forall_cons; [apply ex_id_ok; lia|apply Forall_nil]|].
    split; [exact P|]. split; [apply in_or_app; right; left; reflexivity|].
    split; [reflexivity|]. split; [eexists; reflexivity|].
    split; [intros [K|[]]; vm_compute in K; discriminate|].
    split; [intros [K|[]]; vm_compute in K; discriminate|reflexivity].
Qed.

Example C45_case : ack_reply (fun h => beq h (ex_id 98)) [MultiAckDetailed; NoDone] [ex_id 97] [ex_id 98] =
  bs "0038ACK " ++ ex_id 98 ++ bs " common" ++ [10] ++ bs "0037ACK " ++ ex_id 97 ++ bs " ready" ++ [10] ++
  bs "0032ACK " ++ hard_coded_id ++ [32; 10].
Proof. vm_compute. reflexivity. Qed.

(** ** C49: the reference name *)

Definition word (w : bytes) : Prop := no_white w /\ utf8_text w.

(** Without a capability list the three words are taken as sent. *)
Theorem C49_plain_command : forall old new name t, word old -> word new -> word name -> ends_word t ->
  exists c, parse_ref_update (old ++ [32] ++ new ++ [32] ++ name ++ t) = Ok (c, tl t) /\
    rc_old_id c = old /\ rc_new_id c = new /\ rc_ref_name c = name.
Proof.
  intros old new name t [O1 O2] [N1 N2] [M1 M2] Ht.
  assert (S : forall x, ends_word ([32] ++ x)) by (intros; right; exists 32, x; split; [reflexivity|cbn; auto]).
  unfold parse_ref_update. rewrite read_word by (try assumption; apply S). cbn [bind].
  change (tl ([32] ++ new ++ [32] ++ name ++ t)) with (new ++ [32] ++ name ++ t).
  rewrite read_word by (try assumption; apply S). cbn [bind].
  change (tl ([32] ++ name ++ t)) with (name ++ t). rewrite read_word by assumption. cbn [bind].
  eexists. split; [reflexivity|]. auto.
Qed.

(** The first command of a push: name, NUL, capability list. *)
Theorem C49_first_command : forall old new name junk t, word old -> word new -> word name -> word junk ->
  ends_word t ->
  exists c, parse_ref_update (old ++ [32] ++ new ++ [32] ++ name ++ [0] ++ junk ++ t) = Ok (c, tl t) /\
    rc_old_id c = old /\ rc_new_id c = new /\ rc_ref_name c = name ++ [0] ++ junk.
Proof.
  intros old new name junk t Ho Hn [M1 M2] [J1 J2] Ht.
  destruct (C49_plain_command old new (name ++ [0] ++ junk) t Ho Hn) as (c & E & K); [|assumption|].
  - split.
    + apply Forall_app. split; [assumption|]. apply Forall_cons; [|assumption]. cbn [In]. lia.
    + apply utf8_text_app; [assumption|]. apply utf8_text_app; [|assumption].
      apply utf8_text_ascii. apply Forall_cons; [lia|apply Forall_nil].
  - exists c. rewrite <- !app_assoc in E. split; assumption.
Qed.

Theorem C49_name_refuted : exists old new name caps c r, word old /\ word new /\ word name /\
  parse_ref_update (old ++ [32] ++ new ++ [32] ++ name ++ [0] ++ caps) = Ok (c, r) /\ rc_ref_name c <> name.
Proof.
  assert (W : forall n, n < 128 -> ~ In n [32; 9; 10; 12; 13] -> word (ex_id n)).
  { intros n H K. split.
    - apply Forall_forall. intros x Hx. apply repeat_spec in Hx. subst. assumption.
    - apply utf8_text_ascii. apply Forall_forall. intros x Hx. apply repeat_spec in Hx. subst. assumption. }
  destruct (C49_first_command (ex_id 97) (ex_id 98) (ex_id 99) [] (bs " report-status"))
    as (c & E & _ & _ & N).
  - apply W; [lia|cbn; lia].
  - apply W; [lia|cbn; lia].
  - apply W; [lia|cbn; lia].
  - split; [constructor|]. apply utf8_text_ascii. constructor.
  - right. exists 32, (bs "report-status"). split; [reflexivity|]. cbn. auto.
  - exists (ex_id 97), (ex_id 98), (ex_id 99), (bs " report-status"), c, (bs "report-status").
    split; [apply W; [lia|cbn; lia]|]. split; [apply W; [lia|cbn; lia]|]. split; [apply W; [lia|cbn; lia]|].
    split; [exact E|]. rewrite N. vm_compute. discriminate.
Qed.

(** ** C50: classification and report *)

Theorem C50_classification : forall old new name,
  let t := rc_type (ref_command_new old new name) in
  (t = Create <-> old = repeat 48 40) /\
  (t = Delete <-> old <> repeat 48 40 /\ new = repeat 48 40) /\
  (t = Update <-> old <> repeat 48 40 /\ new <> repeat 48 40).
Proof.
  intros old new name. cbn [ref_command_new rc_type]. cbv zeta.
  change (repeat 48 40) with zero_id. generalize zero_id. intros z.
  destruct (beq z old) eqn:E1; [apply beq_eq in E1|apply beq_neq in E1];
  destruct (beq z new) eqn:E2; [apply beq_eq in E2|apply beq_neq in E2|apply beq_eq in E2|apply beq_neq in E2];
  intuition congruence.
Qed.
Example C50_types : rc_type (ref_command_new (repeat 48 40) (ex_id 97) []) = Create /\
  rc_type (ref_command_new (ex_id 97) (repeat 48 40) []) = Delete /\
  rc_type (ref_command_new (ex_id 97) (ex_id 98) []) = Update.
Proof. vm_compute. repeat split. Qed.

(** What may happen to a command: unpacking succeeds or fails, or it is marked failed. *)
Inductive cmd_event : Type := EvUnpacked (err : option bytes) | EvFailed (msg : bytes).
Definition cmd_step (c : ref_command) (e : cmd_event) : ref_command :=
  match e with EvUnpacked r => cmd_unpacked c r | EvFailed m => cmd_failed c m end.
Definition ok_event (e : cmd_event) : option bytes :=
  match e with EvUnpacked r => r | EvFailed m => Some m end.

Theorem C50_report : forall old new name evs,
  let c := fold_left cmd_step evs (ref_command_new old new name) in
  rc_ref_name c = name /\ rc_old_id c = old /\ rc_new_id c = new /\
  rc_type c = rc_type (ref_command_new old new name) /\
  (evs = [] -> get_status c = bs "ok " ++ name) /\
  (forall evs' e, evs = evs' ++ [e] -> ok_event e = None -> get_status c = bs "ok " ++ name) /\
  (forall evs' e m, evs = evs' ++ [e] -> ok_event e = Some m -> get_status c = bs "ng " ++ name ++ [32] ++ m).
Proof.
  intros old new name evs.
  assert (F : forall l c, let c' := fold_left cmd_step l c in rc_ref_name c' = rc_ref_name c /\
    rc_old_id c' = rc_old_id c /\ rc_new_id c' = rc_new_id c /\ rc_type c' = rc_type c).
  { induction l as [|e l IH]; intros c; cbv zeta; [auto|]. cbn [fold_left].
    destruct (IH (cmd_step c e)) as (A & B & C & D). rewrite A, B, C, D.
    destruct e as [[m|]|m]; repeat split; reflexivity. }
  cbv zeta. destruct (F evs (ref_command_new old new name)) as (A & B & C & D).
  split; [exact A|]. split; [exact B|]. split; [exact C|]. split; [exact D|]. split; [intros ->; reflexivity|].
  split.
  - intros evs' e -> He. rewrite fold_left_app. cbn [fold_left].
    destruct (F evs' (ref_command_new old new name)) as (A' & _).
    destruct e as [[m|]|m]; try discriminate. unfold get_status. cbn [cmd_step cmd_unpacked rc_status rc_ref_name].
    rewrite A'. reflexivity.
  - intros evs' e m -> He. rewrite fold_left_app. cbn [fold_left].
    destruct (F evs' (ref_command_new old new name)) as (A' & _).
    destruct e as [[m'|]|m']; try discriminate; injection He as ->; unfold get_status;
      cbn [cmd_step cmd_unpacked cmd_failed rc_status rc_ref_name rc_error_msg]; rewrite A'; reflexivity.
Qed.

Example C50_case : get_status (fold_left cmd_step [EvUnpacked None; EvFailed (bs "db operation failed")]
  (ref_command_new (repeat 48 40) (ex_id 97) (bs "refs/heads/a"))) = bs "ng refs/heads/a db operation failed".
Proof. vm_compute. reflexivity. Qed.

(** ** C78: packet size of the small side-band *)

Theorem C78_small_chunks : forall caps pack chunks, In SideBand caps -> pieces 995 pack chunks ->
  band_stream 1000 (concat (send_pack caps chunks)) pack.
Proof.
  intros caps pack chunks Hc Hp. unfold send_pack, build_side_band_format.
  rewrite (proj2 (has_cap_spec _ _) Hc). cbn [orb]. apply (pieces_sum 995); [exact Hp|lia].
Qed.

(** A chunk of more than 995 bytes makes a packet that is too long for the client. *)
Theorem C78_big_chunk : forall caps pack chunks, In SideBand caps -> pieces 65515 pack chunks ->
  Exists (fun c => 995 < nlen c) chunks ->
  forall d, ~ band_stream 1000 (concat (send_pack caps chunks)) d.
Proof.
  intros caps pack chunks Hc [_ Hp] He. unfold send_pack, build_side_band_format.
  rewrite (proj2 (has_cap_spec _ _) Hc). cbn [orb].
  revert He. induction Hp as [|c l [Hc1 Hc2] _ IH]; intros He d K; [inversion He|].
  cbn [map app concat] in K.
  replace (nlen c + 5) with (nlen (1 :: c) + 4) in K by (rewrite nlen_cons; lia).
  assert (P : pkt_line (1 :: c) (hex4 (nlen (1 :: c) + 4) ++ 1 :: c)).
  { apply (hex4_pkt (1 :: c)). rewrite nlen_cons. lia. }
  set (fr := hex4 (nlen (1 :: c) + 4) ++ 1 :: c) in *. clearbody fr.
  set (tl' := concat _) in K.
  inversion K as [E|d0 b s ds N1 N2 Hb Hs E]; subst.
  - apply (pkt_front_line _ _ tl') in P. rewrite <- E in P.
    assert (F : pkt_front flush 0 [] []).
    { rewrite <- (app_nil_r flush). apply read_pkt_line_spec, read_flush. }
    destruct (pkt_front_fun _ _ _ _ _ _ _ P F) as (_ & K2 & _). discriminate.
  - apply (pkt_front_line _ _ tl') in P. apply (pkt_front_line _ _ s) in Hb. rewrite E in Hb.
    destruct (pkt_front_fun _ _ _ _ _ _ _ P Hb) as (_ & K2 & K3). injection K2 as ->.
    rewrite <- K3 in Hs. inversion He as [? ? Hbig|? ? Hrest]; subst; [lia|].
    exact (IH Hrest _ Hs).
Qed.

Theorem C78_limit_refuted : exists pack chunks, pieces 65500 pack chunks /\
  forall d, ~ band_stream 1000 (concat (send_pack [SideBand] chunks)) d.
Proof.
  exists (repeat 7 (N.to_nat 2000)), [repeat 7 (N.to_nat 2000)].
  assert (P : forall m, 2000 <= m -> pieces m (repeat 7 (N.to_nat 2000)) [repeat 7 (N.to_nat 2000)]).
  { intros m Hm. split; [cbn [concat]; apply app_nil_r|]. apply Forall_cons; [|apply Forall_nil].
    assert (L : nlen (repeat 7 (N.to_nat 2000)) = 2000) by (vm_compute; reflexivity). split; [|lia].
    intros K. rewrite K in L. discriminate. }
  split; [apply P; lia|]. eapply C78_big_chunk; [left; reflexivity|apply P; lia|].
  apply Exists_cons_hd. vm_compute. reflexivity.
Qed.

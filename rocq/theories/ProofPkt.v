(** Lemmas about the wire format. *)

From Verif Require Import Base BaseLemmas ModelUtils ModelObject ModelBase ModelPkt
  SpecObject SpecIdx SpecBase SpecPkt ProofObject ProofUtf8.
Open Scope N_scope.

(** ** Numerals *)

Lemma hex_numeral_app : forall a n b, hex_numeral a n ->
  forall m, hex_numeral b m -> hex_numeral (a ++ b) (n * 16 ^ nlen b + m).
Proof.
  intros a n b Ha m Hb. induction Hb.
  - rewrite app_nil_r, nlen_nil, N.pow_0_r, N.mul_1_r, N.add_0_r. assumption.
  - rewrite app_assoc. rewrite nlen_app, nlen_cons, nlen_nil.
    replace (n * 16 ^ (nlen s + (1 + 0)) + (16 * n0 + d)) with (16 * (n * 16 ^ nlen s + n0) + d)
      by (rewrite N.add_0_r, N.pow_add_r, N.pow_1_r; lia).
    constructor; assumption.
Qed.
Lemma hex_numeral_zeros : forall k, hex_numeral (repeat 48 k) 0.
Proof.
  induction k; [constructor|]. rewrite <- (Nat.add_1_r k), repeat_app.
  change 0 with (16 * 0 + 0). constructor; [assumption|]. exact (hd_dec 0 eq_refl).
Qed.
Lemma hex_numeral_lt : forall s n, hex_numeral s n -> n < 16 ^ nlen s.
Proof.
  induction 1; [reflexivity|]. apply hex_digit_of_lt in H0.
  rewrite nlen_app, nlen_cons, nlen_nil, N.add_0_r, N.pow_add_r, N.pow_1_r. lia.
Qed.
Lemma hex_digit_of_fun : forall c a b, hex_digit_of c a -> hex_digit_of c b -> a = b.
Proof. intros c a b H K. apply hex_char_spec in H, K. congruence. Qed.
Lemma hex_numeral_fun : forall s n, hex_numeral s n -> forall m, hex_numeral s m -> n = m.
Proof.
  induction 1; intros m Hm.
  - inversion Hm; [reflexivity|]. destruct s; discriminate.
  - inversion Hm; [destruct s; discriminate|]. apply app_inj_tail in H1 as [-> ->].
    apply IHhex_numeral in H2. apply (hex_digit_of_fun _ _ _ H0) in H3. congruence.
Qed.
Lemma hex_numeral_digits : forall s n, hex_numeral s n -> Forall (fun c => exists d, hex_digit_of c d) s.
Proof.
  induction 1; [constructor|]. apply Forall_app. split; [assumption|].
  apply Forall_cons; [eauto|constructor].
Qed.
Lemma hex_digit_ascii : forall c d, hex_digit_of c d -> c < 128.
Proof. intros. inversion H; lia. Qed.

(** [parse_hex_digits] *)
Lemma parse_hex_spec : forall l acc n, acc < U64 ->
  parse_hex_digits acc l = Some n <->
  exists m, hex_numeral l m /\ n = acc * 16 ^ nlen l + m /\ n < U64.
Proof.
  induction l as [|c r IH] using rev_ind.
  - intros. cbn [parse_hex_digits]. rewrite nlen_nil, N.pow_0_r, N.mul_1_r. split.
    + intros K. injection K as <-. exists 0. split; [constructor|]. lia.
    + intros (m & Hm & -> & _). apply hex_numeral_lt in Hm. rewrite nlen_nil, N.pow_0_r in Hm.
      f_equal. lia.
  - intros acc n Ha.
    assert (E : parse_hex_digits acc (r ++ [c]) =
      match parse_hex_digits acc r with
      | None => None
      | Some v => match hex_char_value c with None => None
                  | Some d => if v * 16 + d <? U64 then Some (v * 16 + d) else None end
      end).
    { clear. revert acc. induction r as [|x r IH]; intros; cbn [parse_hex_digits app].
      - reflexivity.
      - destruct (hex_char_value x); [|reflexivity]. destruct (acc * 16 + n <? U64); [|reflexivity]. apply IH. }
    rewrite E. clear E. rewrite nlen_app, nlen_cons, nlen_nil. split.
    + destruct (parse_hex_digits acc r) as [v|] eqn:Ev; [|discriminate].
      apply IH in Ev as (m & Hm & Hv & Hv2); [|assumption].
      destruct (hex_char_value c) as [d|] eqn:Ed; [|discriminate].
      destruct (N.ltb_spec (v * 16 + d) U64); [|discriminate].
      intros K. injection K as <-. exists (16 * m + d). split.
      * constructor; [assumption|]. apply hex_char_spec, Ed.
      * split; [|assumption]. rewrite Hv, N.add_0_r, N.pow_add_r, N.pow_1_r. lia.
    + intros (m & Hm & Hn & Hn2). inversion Hm; [destruct r; discriminate|].
      apply app_inj_tail in H as [-> ->]. subst m.
      assert (EE : parse_hex_digits acc r = Some (acc * 16 ^ nlen r + n0)).
      { apply IH; [assumption|]. exists n0. split; [assumption|]. split; [reflexivity|].
        rewrite N.add_0_r, N.pow_add_r, N.pow_1_r in Hn. lia. }
      rewrite EE. apply hex_char_spec in H1. rewrite H1.
      rewrite N.add_0_r, N.pow_add_r, N.pow_1_r in Hn.
      replace ((acc * 16 ^ nlen r + n0) * 16 + d) with n by lia.
      destruct (N.ltb_spec n U64); [reflexivity|lia].
Qed.

Lemma parse_hex_usize_field : forall l n, length l = 4%nat ->
  parse_hex_usize l = Some n <-> length_field l n.
Proof.
  intros l n Hl.
  assert (B : forall s m, (length s <= 4)%nat -> hex_numeral s m -> m < U64).
  { intros s m Hs Hm. apply hex_numeral_lt in Hm. eapply N.lt_le_trans; [exact Hm|].
    etransitivity; [apply (N.pow_le_mono_r 16 (nlen s) 4); unfold nlen; lia|]. rewrite U64_val. lia. }
  assert (P : forall s, (length s <= 4)%nat -> parse_hex_digits 0 s = Some n <-> hex_numeral s n).
  { intros s Hs. rewrite parse_hex_spec by (rewrite U64_val; lia). split.
    - intros (m & Hm & -> & _). rewrite N.mul_0_l. assumption.
    - intros. exists n. split; [assumption|]. split; [lia|]. eapply B; eassumption. }
  destruct l as [|c r]; [discriminate|]. cbn in Hl. unfold parse_hex_usize.
  destruct (N.eqb_spec c 43) as [->|Hc].
  - assert (E : (match r with [] => true | _ :: _ => false end) = false) by (destruct r; [discriminate|reflexivity]).
    rewrite E. cbn [negb andb]. rewrite P by lia. unfold length_field. split.
    + intros. right. exists r. split; [reflexivity|]. split; [lia|assumption].
    + intros [[_ K]|(r' & K & _ & Hr)]; [|injection K as <-; assumption].
      apply hex_numeral_digits in K. inversion K; subst. destruct H1 as [d Hd]. inversion Hd; lia.
  - cbn [andb]. rewrite P by (cbn; lia). unfold length_field. split.
    + intros. left. split; [cbn; lia|assumption].
    + intros [[_ K]|(r' & K & _)]; [assumption|]. congruence.
Qed.

Lemma length_field_ascii : forall l n, length_field l n -> Forall (fun b => b < 128) l.
Proof.
  intros l n [[_ H]|(r & -> & _ & H)]; apply hex_numeral_digits in H.
  - eapply Forall_impl; [|exact H]. intros c [d Hd]. eapply hex_digit_ascii, Hd.
  - apply Forall_cons; [lia|]. eapply Forall_impl; [|exact H]. intros c [d Hd]. eapply hex_digit_ascii, Hd.
Qed.
Lemma length_field_len : forall l n, length_field l n -> length l = 4%nat.
Proof. intros l n [[H _]|(r & -> & H & _)]; [assumption|]. cbn. lia. Qed.
Lemma length_field_fun : forall l n m, length_field l n -> length_field l m -> n = m.
Proof.
  intros l n m Hn Hm. pose proof (length_field_len _ _ Hn).
  apply parse_hex_usize_field in Hn, Hm; try assumption. congruence.
Qed.

Lemma copy_to_bytes_app : forall n a b, length a = n -> copy_to_bytes n (a ++ b) = Ok (a, b).
Proof.
  intros. unfold copy_to_bytes. replace (n <=? length (a ++ b))%nat with true.
  - rewrite firstn_app_n, skipn_app_n by assumption. reflexivity.
  - symmetry. apply Nat.leb_le. rewrite app_length. lia.
Qed.
Lemma copy_to_bytes_ok : forall n b x y, copy_to_bytes n b = Ok (x, y) -> b = x ++ y /\ length x = n.
Proof.
  unfold copy_to_bytes. intros n b x y. destruct (Nat.leb_spec n (length b)); [|discriminate].
  intros K. injection K as <- <-. split; [symmetry; apply firstn_skipn|]. rewrite firstn_length. lia.
Qed.

Lemma read_pkt_line_spec : forall b n line rest,
  read_pkt_line b = Ok (n, line, rest) <-> pkt_front b n line rest.
Proof.
  intros b n line rest. split.
  - unfold read_pkt_line. destruct b as [|c r]; [intros K; injection K as <- <- <-; constructor|].
    generalize (c :: r). clear c r. intros b.
    destruct (copy_to_bytes 4 b) as [[l r]| | |] eqn:E; try discriminate. cbn [bind].
    apply copy_to_bytes_ok in E as [-> Hl].
    destruct (utf8_unwrap l) as [s| | |] eqn:Eu; try discriminate. cbn [bind].
    apply utf8_unwrap_spec in Eu as [-> _].
    destruct (parse_hex_usize l) as [k|] eqn:Ek; [|discriminate]. cbn [unwrap_opt bind].
    apply parse_hex_usize_field in Ek; [|assumption].
    destruct (N.eqb_spec k 0) as [->|].
    + intros K. injection K as <- <- <-. constructor. assumption.
    + destruct (N.ltb_spec k 4); [discriminate|].
      destruct (copy_to_bytes (N.to_nat (k - 4)) r) as [[li r']| | |] eqn:E; try discriminate. cbn [bind].
      apply copy_to_bytes_ok in E as [-> Hli].
      intros K. injection K as <- <- <-.
      assert (Q : k = nlen li + 4) by (unfold nlen; lia). rewrite Q in *. constructor. assumption.
  - intros H. destruct H as [|l rest Hl|l payload rest Hl].
    + reflexivity.
    + unfold read_pkt_line. pose proof (length_field_len _ _ Hl) as Ln.
      destruct (l ++ rest) eqn:E; [destruct l; discriminate|]. rewrite <- E. clear E.
      rewrite copy_to_bytes_app by assumption. cbn [bind].
      rewrite utf8_unwrap_text by (apply utf8_text_ascii, (length_field_ascii _ _ Hl)). cbn [bind].
      apply parse_hex_usize_field in Hl; [|assumption]. rewrite Hl. reflexivity.
    + unfold read_pkt_line. pose proof (length_field_len _ _ Hl) as Ln.
      destruct (l ++ payload ++ rest) eqn:E; [destruct l; discriminate|]. rewrite <- E. clear E.
      rewrite copy_to_bytes_app by assumption. cbn [bind].
      rewrite utf8_unwrap_text by (apply utf8_text_ascii, (length_field_ascii _ _ Hl)). cbn [bind].
      apply parse_hex_usize_field in Hl; [|assumption]. rewrite Hl. cbn [unwrap_opt bind].
      replace (nlen payload + 4 =? 0) with false by lia.
      replace (nlen payload + 4 <? 4) with false by lia.
      rewrite copy_to_bytes_app by (unfold nlen; lia). reflexivity.
Qed.

Lemma copy_to_bytes_cases : forall n b, (exists x y, copy_to_bytes n b = Ok (x, y)) \/ copy_to_bytes n b = Panic.
Proof.
  intros. unfold copy_to_bytes. destruct (n <=? length b)%nat; [|right; reflexivity].
  left. eexists _, _. reflexivity.
Qed.
Lemma read_pkt_line_cases : forall b, (exists n line rest, read_pkt_line b = Ok (n, line, rest)) \/ read_pkt_line b = Panic.
Proof.
  intros b. unfold read_pkt_line. destruct b as [|c r]; [left; eexists _, _, _; reflexivity|].
  generalize (c :: r). clear. intros b.
  destruct (copy_to_bytes_cases 4 b) as [(x & y & ->)| ->]; [|right; reflexivity]. cbn [bind].
  unfold utf8_unwrap. destruct (utf8_valid x); [|right; reflexivity]. cbn [bind].
  destruct (parse_hex_usize x) as [k|]; [|right; reflexivity]. cbn [bind unwrap_opt].
  destruct (k =? 0); [left; eexists _, _, _; reflexivity|].
  destruct (k <? 4); [right; reflexivity|].
  destruct (copy_to_bytes_cases (N.to_nat (k - 4)) y) as [(x' & y' & ->)| ->]; [|right; reflexivity].
  left. eexists _, _, _. reflexivity.
Qed.

(** ** Writing *)

Lemma hex_aux_app : forall f n acc, hex_aux f n acc = hex_aux f n [] ++ acc.
Proof.
  induction f; intros; [reflexivity|]. cbn [hex_aux]. destruct (n <? 16); [reflexivity|].
  rewrite IHf. rewrite (IHf (n / 16) [_]). rewrite <- app_assoc. reflexivity.
Qed.
Lemma hex_aux_numeral : forall f n, n < 2 ^ N.of_nat f -> f <> O -> hex_numeral (hex_aux f n []) n.
Proof.
  induction f; intros n Hn Hf; [congruence|]. cbn [hex_aux].
  destruct (N.ltb_spec n 16).
  - rewrite N.mod_small by assumption. change [hex_digit n] with ([] ++ [hex_digit n]).
    replace n with (16 * 0 + n) at 2 by lia. constructor; [constructor|]. apply hex_digit_spec. assumption.
  - rewrite hex_aux_app. rewrite (N.div_mod n 16) at 3 by lia. rewrite pow2_S in Hn.
    constructor.
    + apply IHf.
      * apply N.div_lt_upper_bound; lia.
      * intros ->. cbn in Hn. lia.
    + apply hex_digit_spec. apply N.mod_lt. lia.
Qed.
Lemma to_hex_numeral : forall n, hex_numeral (to_hex n) n.
Proof.
  intros. unfold to_hex. apply hex_aux_numeral; [|discriminate]. rewrite pow2_S.
  pose proof (size_nat_bound n). lia.
Qed.
Lemma hex4_numeral : forall n, hex_numeral (hex4 n) n.
Proof.
  intros. unfold hex4. replace n with (0 * 16 ^ nlen (to_hex n) + n) at 3 by lia.
  apply hex_numeral_app; [apply hex_numeral_zeros|apply to_hex_numeral].
Qed.
Lemma hex_aux_len : forall f n k, n < 16 ^ N.of_nat (S k) -> (length (hex_aux f n []) <= S k)%nat.
Proof.
  induction f; intros n k H; [cbn; lia|]. cbn [hex_aux].
  destruct (N.ltb_spec n 16); [cbn; lia|]. rewrite hex_aux_app, app_length. cbn [length].
  destruct k as [|k]; [cbn in H; lia|].
  assert (length (hex_aux f (n / 16) []) <= S k)%nat; [|lia].
  apply IHf. apply N.div_lt_upper_bound; [lia|].
  rewrite Nat2N.inj_succ, N.pow_succ_r' in H. assumption.
Qed.
Lemma hex4_len : forall n, n < 65536 -> length (hex4 n) = 4%nat.
Proof.
  intros n H. unfold hex4. rewrite app_length, repeat_length.
  assert (length (to_hex n) <= 4)%nat; [|lia]. apply hex_aux_len. assumption.
Qed.
Lemma hex4_long : forall n, 65536 <= n -> (4 < length (hex4 n))%nat.
Proof.
  intros n H. destruct (Nat.le_gt_cases (length (hex4 n)) 4); [|assumption].
  pose proof (hex_numeral_lt _ _ (hex4_numeral n)).
  assert (16 ^ nlen (hex4 n) <= 16 ^ 4) by (apply N.pow_le_mono_r; unfold nlen; lia).
  change (16 ^ 4) with 65536 in *. lia.
Qed.

Lemma hex4_pkt : forall p, nlen p <= 65531 -> pkt_line p (hex4 (nlen p + 4) ++ p).
Proof.
  intros. exists (hex4 (nlen p + 4)). split; [apply hex4_len; lia|]. split; [apply hex4_numeral|reflexivity].
Qed.
Lemma pkt_front_line : forall p b rest, pkt_line p b -> pkt_front (b ++ rest) (nlen p + 4) p rest.
Proof.
  intros p b rest (h & Hl & Hn & ->). rewrite <- app_assoc. constructor. left. split; assumption.
Qed.
Lemma pkt_line_max : forall p b, pkt_line p b -> nlen p <= 65531.
Proof.
  intros p b (h & Hl & Hn & _). apply hex_numeral_lt in Hn.
  replace (nlen h) with 4 in Hn by (unfold nlen; lia). change (16 ^ 4) with 65536 in Hn. lia.
Qed.
Lemma pkt_front_max : forall b n p rest, pkt_front b n p rest -> nlen p <= 65531.
Proof.
  intros b n p rest H. destruct H as [|l rest Hl|l p rest Hl]; try (rewrite nlen_nil; lia).
  destruct Hl as [[Hl Hn]|(r & -> & Hl & Hn)]; apply hex_numeral_lt in Hn.
  - replace (nlen l) with 4 in Hn by (unfold nlen; lia). change (16 ^ 4) with 65536 in Hn. lia.
  - replace (nlen r) with 3 in Hn by (unfold nlen; lia). change (16 ^ 3) with 4096 in Hn. lia.
Qed.
Lemma read_pkt : forall p b rest, pkt_line p b -> read_pkt_line (b ++ rest) = Ok (nlen p + 4, p, rest).
Proof. intros. apply read_pkt_line_spec, pkt_front_line. assumption. Qed.
Lemma read_flush : forall rest, read_pkt_line (flush ++ rest) = Ok (0, [], rest).
Proof.
  intros. apply read_pkt_line_spec. constructor. left. split; [reflexivity|].
  exact (hex_numeral_zeros 4).
Qed.

(** The front of the input determines what is read. *)
Lemma pkt_front_fun : forall b n p r n' p' r', pkt_front b n p r -> pkt_front b n' p' r' ->
  n = n' /\ p = p' /\ r = r'.
Proof.
  intros * H K. apply read_pkt_line_spec in H, K. rewrite H in K. injection K. auto.
Qed.

(** ** Side-band *)

Lemma pieces_sum : forall max l data, pieces max data l ->
  (max <= 65526) -> band_stream (max + 5) (concat (map (fun c => hex4 (nlen c + 5) ++ [1] ++ c) l ++ [flush_pkt])) data.
Proof.
  intros max l data [<- H] Hm. induction H as [|c l [Hc Hl] _ IH].
  - cbn. constructor.
  - cbn [map app concat]. apply bd_data; try assumption; [lia|].
    replace (nlen c + 5) with (nlen (1 :: c) + 4) by (rewrite nlen_cons; lia).
    apply (hex4_pkt (1 :: c)). rewrite nlen_cons. lia.
Qed.

Lemma band_stream_fun : forall max s d, band_stream max s d ->
  forall d' max', band_stream max' s d' -> d = d'.
Proof.
  assert (NF : forall max b s p, pkt_line (1 :: p) b -> band_stream max (b ++ s) [] -> False).
  { intros max b s p Hb K. inversion K.
    - apply (pkt_front_line _ _ s) in Hb. rewrite <- H0 in Hb.
      assert (F : pkt_front flush 0 [] []).
      { rewrite <- (app_nil_r flush). apply read_pkt_line_spec, read_flush. }
      destruct (pkt_front_fun _ _ _ _ _ _ _ Hb F) as (_ & K2 & _). discriminate.
    - destruct d; [congruence|discriminate]. }
  induction 1; intros d' max' K.
  - inversion K; [reflexivity|].
    exfalso. eapply (NF max' b s d); [eassumption|]. rewrite H. constructor.
  - inversion K; subst.
    + exfalso. eapply (NF max' b s d); eassumption.
    + apply (pkt_front_line _ _ s) in H1. apply (pkt_front_line _ _ s0) in H6. rewrite H3 in H6.
      destruct (pkt_front_fun _ _ _ _ _ _ _ H1 H6) as (_ & K2 & K3).
      injection K2 as <-. subst s0. f_equal. eapply IHband_stream. eassumption.
Qed.

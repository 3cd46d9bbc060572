(** The reader of [ModelJson] reads every JSON text of [SpecJson]. *)

From Coq Require Import ZArith Lia.
From Verif Require Import Base BaseLemmas ModelObject ModelLfs ModelJson SpecBase SpecJson ProofUtf8.
Open Scope N_scope.

(** ** Characters *)
Lemma lor_add : forall a k x, x < 2 ^ k -> N.lor (a * 2 ^ k) x = a * 2 ^ k + x.
Proof.
  intros a k x H. assert (Z : N.land (a * 2 ^ k) x = 0).
  { apply N.bits_inj. intros i. rewrite N.land_spec, N.bits_0. destruct (N.lt_ge_cases i k) as [L|L].
    - rewrite N.mul_pow2_bits_low by exact L. reflexivity.
    - destruct (N.eq_dec x 0) as [->|X]; [rewrite N.bits_0; apply Bool.andb_false_r|].
      rewrite (N.bits_above_log2 x i), Bool.andb_false_r; [reflexivity|].
      apply N.log2_lt_pow2 in H; lia. }
  rewrite <- N.lxor_lor by exact Z. symmetry. apply N.add_nocarry_lxor, Z.
Qed.
Lemma encode_utf8_char : forall c, c < 1114112 -> encode_utf8 c = utf8_char c.
Proof.
  intros c H. unfold encode_utf8, utf8_char. change 63 with (N.ones 6).
  rewrite !N.land_ones, !N.shiftr_div_pow2.
  change (2 ^ 6) with 64. change (2 ^ 12) with 4096. change (2 ^ 18) with 262144.
  assert (L6 : forall x, N.lor 128 (x mod 64) = 128 + x mod 64).
  { intros x. change 128 with (2 * 2 ^ 6). apply lor_add. change (2 ^ 6) with 64. apply N.mod_lt. lia. }
  rewrite !L6.
  destruct (c <? 128) eqn:A; [reflexivity|].
  destruct (c <? 2048) eqn:B.
  { apply N.ltb_lt in B. f_equal. change 192 with (6 * 2 ^ 5). apply lor_add. change (2 ^ 5) with 32. apply N.div_lt_upper_bound; lia. }
  destruct (c <? 65536) eqn:C.
  { apply N.ltb_lt in C. f_equal. change 224 with (14 * 2 ^ 4). apply lor_add. change (2 ^ 4) with 16. apply N.div_lt_upper_bound; lia. }
  f_equal. change 240 with (30 * 2 ^ 3). apply lor_add. change (2 ^ 3) with 8. apply N.div_lt_upper_bound; lia.
Qed.
Lemma hex_char_val : forall n c, hex_char n c -> hex_digit_val c = Some n /\ n < 16.
Proof.
  intros n c H. unfold hex_digit_val. inversion H; subst; clear H.
  - replace (48 <=? 48 + n) with true by (symmetry; apply N.leb_le; lia).
    replace (48 + n <=? 57) with true by (symmetry; apply N.leb_le; lia). split; [cbn; f_equal; lia|lia].
  - replace (55 + n <=? 57) with false by (symmetry; apply N.leb_gt; lia). rewrite Bool.andb_false_r.
    replace (65 <=? 55 + n) with true by (symmetry; apply N.leb_le; lia).
    replace (55 + n <=? 70) with true by (symmetry; apply N.leb_le; lia). split; [cbn; f_equal; lia|lia].
  - replace (87 + n <=? 57) with false by (symmetry; apply N.leb_gt; lia).
    replace (87 + n <=? 70) with false by (symmetry; apply N.leb_gt; lia). rewrite !Bool.andb_false_r.
    replace (97 <=? 87 + n) with true by (symmetry; apply N.leb_le; lia).
    replace (87 + n <=? 102) with true by (symmetry; apply N.leb_le; lia). split; [cbn; f_equal; lia|lia].
Qed.
Lemma hex_code_val : forall n h r, hex_code n h -> hex4_val (h ++ r) = Some (n, r) /\ length h = 4%nat.
Proof.
  intros n h r (a & b & c & d & x & y & z & u & A & B & C & D & -> & ->).
  apply hex_char_val in A, B, C, D. destruct A as [A _], B as [B _], C as [C _], D as [D _].
  split; [|reflexivity]. cbn [app hex4_val]. rewrite A, B, C, D. f_equal. f_equal. lia.
Qed.

(** ** Strings *)
Definition plain_byte (b : N) : Prop := 32 <= b /\ b <> 34 /\ b <> 92.
Lemma utf8_plain : forall c, 32 <= c -> c <> 34 -> c <> 92 -> Forall plain_byte (utf8_char c).
Proof.
  intros c H1 H2 H3. unfold utf8_char, plain_byte.
  destruct (c <? 128); [repeat constructor; assumption|].
  destruct (c <? 2048); [repeat constructor; lia|]. destruct (c <? 65536); repeat constructor; lia.
Qed.
Lemma raw_plain : forall p f l t z, Forall plain_byte p -> (length p <= f)%nat ->
  raw_string (f - length p) l = Some (t, z) -> raw_string f (p ++ l) = Some (p ++ t, z).
Proof.
  induction p as [|b p IH]; intros f l t z P F H.
  - cbn [length] in H. rewrite Nat.sub_0_r in H. exact H.
  - inversion P as [|b' p' [B1 [B2 B3]] P']; subst. destruct f as [|f]; [cbn in F; lia|].
    cbn [app raw_string]. apply N.eqb_neq in B2, B3. rewrite B2, B3.
    replace (b <? 32) with false by (symmetry; apply N.ltb_ge; exact B1).
    rewrite (IH f l t z P'); [reflexivity|cbn in F; lia|exact H].
Qed.
Lemma unescape_plain : forall p f l t, Forall plain_byte p -> (length p <= f)%nat ->
  unescape (f - length p) l = Some t -> unescape f (p ++ l) = Some (p ++ t).
Proof.
  induction p as [|b p IH]; intros f l t P F H.
  - cbn [length] in H. rewrite Nat.sub_0_r in H. exact H.
  - inversion P as [|b' p' [B1 [B2 B3]] P']; subst. destruct f as [|f]; [cbn in F; lia|].
    cbn [app unescape]. apply N.eqb_neq in B3. rewrite B3.
    rewrite (IH f l t P'); [reflexivity|cbn in F; lia|exact H].
Qed.
Lemma raw_mono : forall f l x g, raw_string f l = Some x -> (f <= g)%nat -> raw_string g l = Some x.
Proof.
  induction f as [|f IH]; intros l x g H L; [discriminate|]. destruct g as [|g]; [lia|]. apply le_S_n in L.
  cbn [raw_string] in *. destruct l as [|b r]; [discriminate|]. destruct (b =? 34); [exact H|].
  destruct (b =? 92).
  - destruct r as [|c r1]; [discriminate|]. destruct (c =? 117).
    + destruct (hex4_val r1) as [[n q]|]; [|discriminate]. destruct (raw_string f q) as [y|] eqn:E; [|discriminate].
      rewrite (IH q y g E L). exact H.
    + destruct (simple_escape c); [|discriminate]. destruct (raw_string f r1) as [y|] eqn:E; [|discriminate].
      rewrite (IH r1 y g E L). exact H.
  - destruct (b <? 32); [discriminate|]. destruct (raw_string f r) as [y|] eqn:E; [|discriminate].
    rewrite (IH r y g E L). exact H.
Qed.
Lemma unescape_mono : forall f l x g, unescape f l = Some x -> (f <= g)%nat -> unescape g l = Some x.
Proof.
  induction f as [|f IH]; intros l x g H L; [discriminate|]. destruct g as [|g]; [lia|]. apply le_S_n in L.
  cbn [unescape] in *. destruct l as [|b r]; [exact H|]. destruct (b =? 92).
  - destruct r as [|c r1]; [discriminate|]. destruct (c =? 117).
    + destruct (unicode_escape r1) as [[n q]|]; [|discriminate]. destruct (unescape f q) as [y|] eqn:E; [|discriminate].
      rewrite (IH q y g E L). exact H.
    + destruct (unescape f r1) as [y|] eqn:E; [|discriminate]. rewrite (IH r1 y g E L). exact H.
  - destruct (unescape f r) as [y|] eqn:E; [|discriminate]. rewrite (IH r y g E L). exact H.
Qed.

Lemma firstn4 : forall (h r : bytes), length h = 4%nat -> firstn 4 (h ++ r) = h.
Proof. intros h r <-. rewrite firstn_app, Nat.sub_diag, firstn_all. apply app_nil_r. Qed.
(** One character in front. *)
Lemma spell_char_read : forall c p, spell_char c p -> scalar c -> forall f l t z, raw_string f l = Some (t, z) ->
  raw_string (f + length p) (p ++ l) = Some (p ++ t, z).
Proof.
  intros c p H HS f l t z E. inversion H as [c' A B C|c' e I|c' h A B|c' hi lo h k A B C D F G]; subst; clear H.
  - apply raw_plain; [apply utf8_plain; assumption|lia|]. replace (f + _ - _)%nat with f by lia. exact E.
  - apply (raw_mono (S f)); [|cbn; lia]. cbn [app raw_string]. change (92 =? 34) with false. change (92 =? 92) with true.
    cbn iota. assert (X : (e =? 117) = false /\ simple_escape e = true).
    { cbn in I. repeat (destruct I as [I|I]; [injection I as _ <-; split; reflexivity|]). contradiction. }
    destruct X as [X1 X2]. rewrite X1, X2, E. reflexivity.
  - destruct (hex_code_val _ _ l B) as [V L]. apply (raw_mono (S f)); [|cbn; lia].
    rewrite <- app_assoc. cbn [app raw_string]. change (92 =? 34) with false. change (92 =? 92) with true. change (117 =? 117) with true.
    cbn iota. rewrite V, E, (firstn4 h) by assumption. reflexivity.
  - destruct (hex_code_val _ _ ([92; 117] ++ k ++ l) F) as [V L]. destruct (hex_code_val _ _ l G) as [V2 L2].
    apply (raw_mono (S (S f))); [|cbn; lia].
    rewrite <- !app_assoc. change ([92; 117] ++ h ++ [92; 117] ++ k ++ l) with (92 :: 117 :: (h ++ [92; 117] ++ k ++ l)).
    cbn [raw_string]. change (92 =? 34) with false. change (92 =? 92) with true. change (117 =? 117) with true.
    cbn iota. rewrite V. cbn [app]. change (92 =? 34) with false. change (92 =? 92) with true. change (117 =? 117) with true.
    cbn iota. rewrite V2, E, (firstn4 h), (firstn4 k) by assumption. reflexivity.
Qed.
Lemma spell_char_unescape : forall c p, spell_char c p -> scalar c -> forall f l t, unescape f l = Some t ->
  unescape (f + length p) (p ++ l) = Some (utf8_char c ++ t).
Proof.
  intros c p H HS f l t E. inversion H as [c' A B C|c' e I|c' h A B|c' hi lo h k A B C D F G]; subst; clear H.
  - apply unescape_plain; [apply utf8_plain; assumption|lia|]. replace (f + _ - _)%nat with f by lia. exact E.
  - apply (unescape_mono (S f)); [|cbn; lia]. cbn [app unescape]. change (92 =? 92) with true.
    cbn iota. assert (X : (e =? 117) = false /\ [escaped e] = utf8_char c).
    { cbn in I. repeat (destruct I as [I|I]; [injection I as <- <-; split; reflexivity|]). contradiction. }
    destruct X as [X1 X2]. rewrite X1, E, <- X2. reflexivity.
  - destruct (hex_code_val _ _ l B) as [V L]. apply (unescape_mono (S f)); [|cbn; lia].
    rewrite <- app_assoc. cbn [app unescape]. change (92 =? 92) with true. change (117 =? 117) with true.
    cbn iota. unfold unicode_escape, low_surrogate, high_surrogate. rewrite V.
    replace ((56320 <=? c) && (c <=? 57343)) with false
      by (symmetry; apply Bool.andb_false_iff; rewrite !N.leb_gt; unfold scalar in HS; lia).
    replace ((55296 <=? c) && (c <=? 56319)) with false
      by (symmetry; apply Bool.andb_false_iff; rewrite !N.leb_gt; unfold scalar in HS; lia).
    rewrite E, encode_utf8_char by lia. reflexivity.
  - destruct (hex_code_val _ _ ([92; 117] ++ k ++ l) F) as [V L]. destruct (hex_code_val _ _ l G) as [V2 L2].
    apply (unescape_mono (S f)); [|cbn; lia].
    rewrite <- !app_assoc. change ([92; 117] ++ h ++ [92; 117] ++ k ++ l) with (92 :: 117 :: (h ++ [92; 117] ++ k ++ l)).
    cbn [unescape]. change (92 =? 92) with true. change (117 =? 117) with true. cbn iota.
    unfold unicode_escape, low_surrogate, high_surrogate. rewrite V.
    replace ((56320 <=? 55296 + hi) && (55296 + hi <=? 57343)) with false
      by (symmetry; apply Bool.andb_false_iff; rewrite !N.leb_gt; lia).
    replace ((55296 <=? 55296 + hi) && (55296 + hi <=? 56319)) with true
      by (symmetry; apply Bool.andb_true_iff; rewrite !N.leb_le; lia).
    cbn [app]. change (92 =? 92) with true. change (117 =? 117) with true. cbn [andb]. cbn iota. rewrite V2.
    replace ((56320 <=? 56320 + lo) && (56320 + lo <=? 57343)) with true
      by (symmetry; apply Bool.andb_true_iff; rewrite !N.leb_le; lia).
    rewrite E. replace (55296 + hi - 55296) with hi by lia. replace (56320 + lo - 56320) with lo by lia.
    rewrite N.shiftl_mul_pow2, lor_add by (change (2 ^ 10) with 1024; lia). change (2 ^ 10) with 1024.
    rewrite encode_utf8_char by (unfold scalar in HS; lia). do 3 f_equal. lia.
Qed.
Lemma spell_text_read : forall t s, spell_text t s ->
  (forall r, raw_string (S (length (s ++ 34 :: r))) (s ++ 34 :: r) = Some (s, r)) /\ string_of s = Some t.
Proof.
  intros t s (cs & ps & SC & -> & F & ->).
  assert (R : forall r, raw_string (S (length (concat ps))) (concat ps ++ 34 :: r) = Some (concat ps, r)).
  { intros r. induction F as [|c p cs ps H F IH]; [reflexivity|]. inversion SC; subst. cbn [concat].
    rewrite <- app_assoc, app_length. replace (S (length p + length (concat ps)))%nat with (S (length (concat ps)) + length p)%nat by lia.
    apply (spell_char_read c); auto. }
  assert (U : unescape (S (length (concat ps))) (concat ps) = Some (flat_map utf8_char cs)).
  { clear R. induction F as [|c p cs ps H F IH]; [reflexivity|]. inversion SC; subst. cbn [concat flat_map].
    rewrite app_length. replace (S (length p + length (concat ps)))%nat with (S (length (concat ps)) + length p)%nat by lia.
    apply (spell_char_unescape c); auto. }
  split.
  - intros r. eapply raw_mono; [apply R|]. rewrite app_length. lia.
  - unfold string_of. rewrite U. replace (utf8_valid _) with true; [reflexivity|]. symmetry. apply utf8_spec. exists cs. auto.
Qed.

(** ** Whitespace *)
Lemma blank_ws : forall w r, blank w -> skip_ws (w ++ r) = skip_ws r.
Proof.
  intros w r H. induction H as [|b w B H IH]; [reflexivity|]. cbn [app skip_ws].
  replace (is_ws b) with true; [exact IH|]. cbn in B. repeat (destruct B as [<-|B]; [reflexivity|]). contradiction.
Qed.
Lemma skip_ws_at : forall b r, is_ws b = false -> skip_ws (b :: r) = b :: r.
Proof. intros b r H. cbn. rewrite H. reflexivity. Qed.
Lemma after_at : forall b r, after b (b :: r) = Some r.
Proof. intros. unfold after. rewrite N.eqb_refl. reflexivity. Qed.
Lemma after_not : forall b c r, c <> b -> after b (c :: r) = None.
Proof. intros b c r H. unfold after. apply N.eqb_neq in H. rewrite H. reflexivity. Qed.

(** ** Numbers *)
(** What may follow a value. *)
Definition stop (r : bytes) : Prop := match r with [] => True | b :: _ => In b [32; 9; 10; 13; 44; 93; 125] end.
Definition no_digit (r : bytes) : Prop := match r with [] => True | b :: _ => digit_byte b = false end.
Lemma digit_byte_spec : forall b, digit_byte b = true <-> 48 <= b <= 57.
Proof. intros b. unfold digit_byte. rewrite Bool.andb_true_iff, !N.leb_le. reflexivity. Qed.
Lemma digits_app : forall d r, Forall (fun b => 48 <= b <= 57) d -> no_digit r -> digits_of (d ++ r) = (d, r).
Proof.
  intros d r H N. induction H as [|b d B H IH].
  - destruct r as [|b r]; [reflexivity|]. cbn in N |- *. rewrite N. reflexivity.
  - cbn [app digits_of]. apply digit_byte_spec in B. rewrite B, IH. reflexivity.
Qed.
Lemma decimal_digits : forall n d, decimal n d -> Forall (fun b => 48 <= b <= 57) d.
Proof.
  intros n d H. induction H; [constructor; [lia|constructor]|]. apply Forall_app. split; [exact IHdecimal|]. constructor; [lia|constructor].
Qed.
Lemma decimal_head : forall n d, decimal n d -> exists b d', d = b :: d' /\ 48 <= b <= 57 /\ ((n = 0 /\ d = [48]) \/ (n <> 0 /\ b <> 48)).
Proof.
  intros n d H. induction H as [n A|n d k A IH B C].
  - exists (48 + n), []. split; [reflexivity|]. split; [lia|].
    destruct (N.eq_dec n 0) as [->|X]; [left; split; reflexivity|right; split; [exact X|lia]].
  - destruct IH as (b & d' & -> & D & [[E _]|[_ F]]); [contradiction|]. exists b, (d' ++ [48 + k]).
    split; [reflexivity|]. split; [exact D|]. right. split; [lia|exact F].
Qed.
Lemma int_read : forall n d r, decimal n d -> no_digit r -> int_text (d ++ r) = Some (d, r).
Proof.
  intros n d r H N. unfold int_text. rewrite digits_app by (try exact N; eapply decimal_digits, H).
  destruct (decimal_head n d H) as (b & d' & -> & _ & [[_ X]|[_ X]]).
  - injection X as -> ->. reflexivity.
  - apply N.eqb_neq in X. rewrite X. reflexivity.
Qed.
Lemma stop_facts : forall r, stop r -> no_digit r /\ after 46 r = None /\ exp_text r = Some ([], r).
Proof.
  intros [|b r] H; [repeat split|]. cbn in H. repeat (destruct H as [<-|H]; [repeat split|]). contradiction.
Qed.
Lemma exp_read : forall e s d r, e = 101 \/ e = 69 -> s = [] \/ s = [43] \/ s = [45] -> some_digits d -> stop r ->
  exp_text (e :: s ++ d ++ r) = Some (e :: s ++ d, r).
Proof.
  intros e s d r E S [D1 D2] R. destruct (stop_facts r R) as [N _]. unfold exp_text.
  replace ((e =? 101) || (e =? 69)) with true by (destruct E as [->| ->]; reflexivity).
  assert (X : exp_sign (s ++ d ++ r) = (s, d ++ r)).
  { destruct S as [->|[->| ->]]; [|reflexivity|reflexivity]. cbn [app]. destruct d as [|b d]; [congruence|]. inversion D2; subst.
    cbn [app exp_sign]. replace ((b =? 43) || (b =? 45)) with false; [reflexivity|].
    symmetry. apply Bool.orb_false_iff. rewrite !N.eqb_neq. lia. }
  rewrite X, digits_app by assumption. destruct d; [congruence|reflexivity].
Qed.
Lemma number_read : forall t r, number t -> stop r -> number_text (t ++ r) = Some (t, r).
Proof.
  intros t r (sign & n & int & frac & exp & S & I & F & X & ->) R. destruct (stop_facts r R) as (N & NF & NX).
  set (r3 := exp ++ r). assert (X3 : exp_text r3 = Some (exp, r) /\ no_digit r3 /\ after 46 r3 = None).
  { unfold r3. destruct X as [->|(e & s & d & -> & E & S' & D)]; [auto|]. cbn [app]. rewrite <- app_assoc.
    split; [apply exp_read; assumption|]. destruct E as [->| ->]; split; reflexivity. }
  destruct X3 as (X3 & N3 & A3).
  set (r2 := frac ++ r3). assert (X2 : frac_text r2 = Some (frac, r3) /\ no_digit r2).
  { unfold r2, frac_text. destruct F as [->|(d & -> & D1 & D2)].
    - cbn [app]. rewrite A3. auto.
    - cbn [app]. rewrite after_at, digits_app by assumption. destruct d; [congruence|]. split; reflexivity. }
  destruct X2 as (X2 & N2). unfold number_text. rewrite <- !app_assoc. fold r3. fold r2.
  assert (X1 : num_sign (sign ++ int ++ r2) = (sign, int ++ r2)).
  { unfold num_sign. destruct S as [->| ->]; [|reflexivity]. cbn [app]. destruct (decimal_head n int I) as (b & d' & -> & B & _).
    cbn [app]. rewrite after_not by lia. reflexivity. }
  rewrite X1, (int_read n) by assumption. rewrite X2, X3. reflexivity.
Qed.
Lemma integer_number : forall z t, integer z t -> number t.
Proof.
  intros z t [(n & _ & D)|(n & d & _ & _ & D & ->)].
  - exists [], n, t, [], []. repeat split; auto. cbn. rewrite !app_nil_r. reflexivity.
  - exists [45], n, d, [], []. repeat split; auto. cbn. rewrite !app_nil_r. reflexivity.
Qed.
Lemma number_head : forall t, number t -> exists b t', t = b :: t' /\ (b = 45 \/ 48 <= b <= 57).
Proof.
  intros t (sign & n & int & frac & exp & S & I & _ & _ & ->). destruct (decimal_head n int I) as (b & d' & -> & B & _).
  destruct S as [->| ->]; cbn; eauto.
Qed.
Lemma parse_digits_app : forall d a k, 48 <= k <= 57 ->
  parse_digits a (d ++ [k]) = match parse_digits a d with
                              | Some n => if n * 10 + (k - 48) <? U64 then Some (n * 10 + (k - 48)) else None
                              | None => None
                              end.
Proof.
  assert (V : forall k, 48 <= k <= 57 -> digit_val k = Some (k - 48)).
  { intros k K. unfold digit_val. replace (48 <=? k) with true by (symmetry; apply N.leb_le; lia).
    replace (k <=? 57) with true by (symmetry; apply N.leb_le; lia). reflexivity. }
  induction d as [|b d IH]; intros a k K.
  - cbn [app parse_digits]. rewrite V by exact K. reflexivity.
  - cbn [app parse_digits]. destruct (digit_val b) as [x|]; [|reflexivity]. destruct (a * 10 + x <? U64); [apply IH, K|reflexivity].
Qed.
Lemma decimal_parse : forall n d, decimal n d -> n < U64 -> parse_digits 0 d = Some n.
Proof.
  intros n d H. induction H as [n A|n d k A IH B C]; intros L.
  - change [48 + n] with ([] ++ [48 + n]). rewrite parse_digits_app by lia. cbn [parse_digits].
    replace (0 * 10 + (48 + n - 48)) with n by lia. apply N.ltb_lt in L. rewrite L. reflexivity.
  - rewrite parse_digits_app by lia. rewrite IH by lia. replace (n * 10 + (48 + k - 48)) with (10 * n + k) by lia.
    apply N.ltb_lt in L. rewrite L. reflexivity.
Qed.
Lemma integer_i64 : forall z t, integer z t -> fits z -> d_i64 (JNum t) = Some z.
Proof.
  assert (G : forall n d, decimal n d -> forallb digit_byte d = true).
  { intros n d D. apply forallb_forall. intros b B. apply digit_byte_spec. pose proof (decimal_digits n d D) as X. rewrite Forall_forall in X. apply X, B. }
  intros z t H [L1 L2]. cbn [d_i64]. destruct H as [(n & -> & D)|(n & d & NZ & -> & D & ->)].
  - destruct (decimal_head n t D) as (b & d' & E & B & _). rewrite E. rewrite after_not by lia. rewrite <- E. rewrite (G n t D).
    assert (U : parse_usize t = Some n).
    { pose proof (decimal_parse n t D ltac:(unfold U64; lia)) as P. rewrite E in P |- *. unfold parse_usize.
      destruct b as [|p]; [lia|]. do 6 (try (destruct p as [p|p|]; try exact P; try lia)). }
    rewrite E in U |- *. unfold parse_i64. rewrite U. replace (n <=? 9223372036854775807) with true by (symmetry; apply N.leb_le; lia).
    destruct b as [|p]; [lia|]. do 6 (try (destruct p as [p|p|]; try reflexivity; try lia)).
  - rewrite after_at, (G n d D). destruct (decimal_head n d D) as (b & d' & E & B & [[X _]|[_ X]]); [contradiction|].
    assert (NB : beq d [48] = false).
    { destruct (beq d [48]) eqn:Q; [|reflexivity]. apply beq_eq in Q. rewrite E in Q. injection Q as -> _. congruence. }
    rewrite NB. cbn [negb andb]. pose proof (decimal_parse n d D ltac:(unfold U64; lia)) as P.
    rewrite E in P |- *. cbn [parse_i64]. rewrite P. replace (n <=? 9223372036854775808) with true by (symmetry; apply N.leb_le; lia). reflexivity.
Qed.

(** ** Values *)
Inductive means : jv -> json -> Prop :=
| mn_null : means JNull VNull
| mn_bool : forall b, means (JBool b) (VBool b)
| mn_int : forall z t, integer z t -> means (JNum t) (VInt z)
| mn_num : forall t, number t -> (forall z, ~ integer z t) -> means (JNum t) (VNum t)
| mn_text : forall raw t, string_of raw = Some t -> means (JStr raw) (VText t)
| mn_arr : forall l m, Forall2 means l m -> means (JArr l) (VArr m)
| mn_obj : forall l m, Forall2 (fun a b => string_of (fst a) = Some (fst b) /\ means (snd a) (snd b)) l m -> means (JObj l) (VObj m).

Lemma spells_head : forall v s, spells v s -> exists b s', s = b :: s' /\ is_ws b = false /\ b <> 93 /\ b <> 125.
Proof.
  assert (N : forall t, number t -> exists b s', t = b :: s' /\ is_ws b = false /\ b <> 93 /\ b <> 125).
  { intros t H. destruct (number_head t H) as (b & t' & -> & B). exists b, t'. split; [reflexivity|].
    unfold is_ws. rewrite !Bool.orb_false_iff, !N.eqb_neq. lia. }
  intros v s H. inversion H; subst; try (eexists _, _; split; [reflexivity|]; split; [reflexivity|split; discriminate]).
  - apply N, (integer_number z), H0.
  - apply N, H0.
Qed.
Lemma blank_stop : forall w r, blank w -> stop r -> stop (w ++ r).
Proof.
  intros [|b w] r H S; [exact S|]. inversion H; subst. cbn [app stop]. cbn in H2 |- *. tauto.
Qed.
Definition S_value v s := forall f w r, blank w -> stop r -> (2 * length s < f)%nat ->
  exists j, jvalue f (w ++ s ++ r) = Some (j, r) /\ means j v.
Definition S_elems l s := forall f r, (2 * length s + 1 < f)%nat ->
  exists js, jelems f (s ++ 93 :: r) = Some (js, r) /\ Forall2 means js l /\ after 93 (skip_ws (s ++ 93 :: r)) = None.
Definition S_members l s := forall f r, (2 * length s + 1 < f)%nat ->
  exists js, jmembers f (s ++ 125 :: r) = Some (js, r) /\
    Forall2 (fun a b => string_of (fst a) = Some (fst b) /\ means (snd a) (snd b)) js l /\ after 125 (skip_ws (s ++ 125 :: r)) = None.
Lemma number_value : forall t, number t -> forall f w r, blank w -> stop r -> (2 * length t < f)%nat ->
  jvalue f (w ++ t ++ r) = Some (JNum t, r).
Proof.
  intros t H f w r W R F. destruct f as [|f]; [lia|]. cbn [jvalue]. rewrite blank_ws by exact W.
  pose proof (number_read t r H R) as E. destruct (number_head t H) as (b & t' & -> & B). cbn [app] in E |- *.
  assert (Q : forall k, (k < 45 \/ k = 46 \/ k = 47 \/ 57 < k) -> (b =? k) = false) by (intros k K; apply N.eqb_neq; lia).
  rewrite skip_ws_at by (unfold is_ws; rewrite !Q by lia; reflexivity).
  rewrite !Q by lia. rewrite E.
  replace ((b =? 45) || digit_byte b) with true; [reflexivity|]. symmetry. apply Bool.orb_true_iff. rewrite N.eqb_eq, digit_byte_spec. exact B.
Qed.
Lemma value_read : (forall v s, spells v s -> S_value v s) /\ (forall l s, elements l s -> S_elems l s) /\ (forall l s, members l s -> S_members l s).
Proof.
  apply spelling_ind.
  - intros f w r W R F. destruct f as [|f]; [lia|]. exists JNull. cbn [jvalue]. rewrite blank_ws by exact W. split; [reflexivity|constructor].
  - intros f w r W R F. destruct f as [|f]; [lia|]. exists (JBool true). cbn [jvalue]. rewrite blank_ws by exact W. split; [reflexivity|constructor].
  - intros f w r W R F. destruct f as [|f]; [lia|]. exists (JBool false). cbn [jvalue]. rewrite blank_ws by exact W. split; [reflexivity|constructor].
  - intros z t I f w r W R F. exists (JNum t). split; [apply number_value; try assumption; eapply integer_number, I|constructor; exact I].
  - intros t I NI f w r W R F. exists (JNum t). split; [apply number_value; assumption|constructor; assumption].
  - intros t s T f w r W R F. destruct (spell_text_read t s T) as [A B]. destruct f as [|f]; [lia|]. exists (JStr s).
    cbn [jvalue]. rewrite blank_ws by exact W. rewrite <- !app_assoc. cbn [app]. rewrite skip_ws_at by reflexivity. split; [|constructor; exact B].
    change (34 =? 110) with false. change (34 =? 116) with false. change (34 =? 102) with false. change (34 =? 34) with true. cbn iota.
    rewrite A. reflexivity.
  - intros w' B f w r W R F. destruct f as [|f]; [lia|]. exists (JArr []). cbn [jvalue]. rewrite blank_ws by exact W.
    rewrite <- !app_assoc. cbn [app]. rewrite skip_ws_at by reflexivity. split; [|constructor; constructor].
    change (91 =? 110) with false. change (91 =? 116) with false. change (91 =? 102) with false. change (91 =? 34) with false. change (91 =? 91) with true.
    cbn iota. rewrite blank_ws by exact B. rewrite skip_ws_at by reflexivity. rewrite after_at. reflexivity.
  - intros l s _ IH f w r W R F. destruct f as [|f]; [lia|]. cbn [length app] in F. rewrite app_length in F. cbn in F.
    destruct (IH f r) as (js & A & B & C); [lia|]. exists (JArr js). cbn [jvalue]. rewrite blank_ws by exact W.
    rewrite <- !app_assoc. cbn [app]. rewrite skip_ws_at by reflexivity. split; [|constructor; exact B].
    change (91 =? 110) with false. change (91 =? 116) with false. change (91 =? 102) with false. change (91 =? 34) with false. change (91 =? 91) with true.
    cbn iota. rewrite C, A. reflexivity.
  - intros w' B f w r W R F. destruct f as [|f]; [lia|]. exists (JObj []). cbn [jvalue]. rewrite blank_ws by exact W.
    rewrite <- !app_assoc. cbn [app]. rewrite skip_ws_at by reflexivity. split; [|constructor; constructor].
    change (123 =? 110) with false. change (123 =? 116) with false. change (123 =? 102) with false. change (123 =? 34) with false. change (123 =? 91) with false. change (123 =? 123) with true.
    cbn iota. rewrite blank_ws by exact B. rewrite skip_ws_at by reflexivity. rewrite after_at. reflexivity.
  - intros l s _ IH f w r W R F. destruct f as [|f]; [lia|]. cbn [length app] in F. rewrite app_length in F. cbn in F.
    destruct (IH f r) as (js & A & B & C); [lia|]. exists (JObj js). cbn [jvalue]. rewrite blank_ws by exact W.
    rewrite <- !app_assoc. cbn [app]. rewrite skip_ws_at by reflexivity. split; [|constructor; exact B].
    change (123 =? 110) with false. change (123 =? 116) with false. change (123 =? 102) with false. change (123 =? 34) with false. change (123 =? 91) with false. change (123 =? 123) with true.
    cbn iota. rewrite C, A. reflexivity.
  - intros x w1 s w2 W1 X IH W2 f r F. destruct f as [|f]; [lia|]. rewrite !app_length in F. rewrite <- !app_assoc.
    destruct (IH f w1 (w2 ++ 93 :: r)) as (j & A & B); [exact W1|apply blank_stop; [exact W2|cbn; tauto]|lia|].
    exists [j]. cbn [jelems]. rewrite A, blank_ws by exact W2. rewrite skip_ws_at by reflexivity. rewrite after_at.
    split; [reflexivity|]. split; [repeat constructor; exact B|]. rewrite blank_ws by exact W1.
    destruct (spells_head x s X) as (b & s' & -> & H1 & H2 & _). cbn [app]. rewrite skip_ws_at by exact H1. apply after_not, H2.
  - intros x l w1 s w2 r0 W1 X IH W2 _ IHl f r F. destruct f as [|f]; [lia|]. rewrite !app_length in F. cbn in F. rewrite <- !app_assoc.
    destruct (IH f w1 (w2 ++ [44] ++ r0 ++ 93 :: r)) as (j & A & B); [exact W1|apply blank_stop; [exact W2|cbn; tauto]|lia|].
    destruct (IHl f r) as (js & C & D & _); [lia|].
    exists (j :: js). cbn [jelems]. rewrite A, blank_ws by exact W2. cbn [app]. rewrite skip_ws_at by reflexivity. rewrite after_at, after_not by discriminate.
    rewrite C. split; [reflexivity|]. split; [constructor; assumption|]. rewrite blank_ws by exact W1.
    destruct (spells_head x s X) as (b & s' & -> & H1 & H2 & _). cbn [app]. rewrite skip_ws_at by exact H1. apply after_not, H2.
  - intros k x w1 n w2 w3 s w4 W1 K W2 W3 X IH W4 f r F. destruct f as [|f]; [lia|]. rewrite !app_length in F. cbn in F. rewrite <- !app_assoc.
    destruct (IH f w3 (w4 ++ 125 :: r)) as (j & A & B); [exact W3|apply blank_stop; [exact W4|cbn; tauto]|lia|].
    destruct (spell_text_read k n K) as [T1 T2].
    exists [(n, j)]. cbn [jmembers]. rewrite blank_ws by exact W1. cbn [app]. rewrite skip_ws_at by reflexivity. rewrite after_at, T1.
    rewrite blank_ws by exact W2. rewrite skip_ws_at by reflexivity. rewrite after_at, A, blank_ws by exact W4.
    rewrite skip_ws_at by reflexivity. rewrite after_at. split; [reflexivity|]. split; [repeat constructor; assumption|].
    apply after_not. discriminate.
  - intros k x l w1 n w2 w3 s w4 r0 W1 K W2 W3 X IH W4 _ IHl f r F. destruct f as [|f]; [lia|]. rewrite !app_length in F. cbn in F. rewrite <- !app_assoc.
    destruct (IH f w3 (w4 ++ [44] ++ r0 ++ 125 :: r)) as (j & A & B); [exact W3|apply blank_stop; [exact W4|cbn; tauto]|lia|].
    destruct (spell_text_read k n K) as [T1 T2]. destruct (IHl f r) as (js & C & D & _); [lia|].
    exists ((n, j) :: js). cbn [jmembers]. rewrite blank_ws by exact W1. cbn [app]. rewrite skip_ws_at by reflexivity. rewrite after_at, T1.
    rewrite blank_ws by exact W2. rewrite skip_ws_at by reflexivity. cbn [app] in A. rewrite after_at, A, blank_ws by exact W4.
    rewrite skip_ws_at by reflexivity. rewrite after_at, after_not by discriminate. rewrite C. split; [reflexivity|].
    split; [constructor; [split; assumption|assumption]|]. apply after_not. discriminate.
Qed.
Lemma document_read : forall v t, document v t -> exists j, jtext t = Some j /\ means j v.
Proof.
  intros v t (w1 & s & w2 & W1 & SP & W2 & ->). destruct value_read as [H _].
  destruct (H v s SP (S (2 * length (w1 ++ s ++ w2))) w1 w2) as (j & A & B).
  - exact W1.
  - rewrite <- (app_nil_r w2). apply blank_stop; [exact W2|exact I].
  - rewrite !app_length. lia.
  - exists j. split; [|exact B]. unfold jtext. rewrite A. rewrite <- (app_nil_r w2), blank_ws by exact W2. reflexivity.
Qed.

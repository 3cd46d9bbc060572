(** Lemmas about the vocabulary of Base.v. *)

From Verif Require Import Base.
From Coq Require Export ZArith Lia ZifyBool ZifyNat ZifyN.
Open Scope N_scope.

Ltac Zify.zify_post_hook ::= Z.div_mod_to_equations.

#[global] Arguments N.shiftr : simpl never.
#[global] Arguments N.shiftl : simpl never.
#[global] Arguments N.land : simpl never.
#[global] Arguments N.lor : simpl never.
#[global] Arguments N.pow : simpl never.
#[global] Arguments N.div : simpl never.
#[global] Arguments N.modulo : simpl never.
#[global] Arguments N.add : simpl never.
#[global] Arguments N.sub : simpl never.
#[global] Arguments N.mul : simpl never.
#[global] Arguments N.of_nat : simpl never.

(** Bit operations as arithmetic. *)
Lemma land_mask : forall n k, N.land n (2 ^ k - 1) = n mod 2 ^ k.
Proof.
  intros n k. rewrite <- N.land_ones. f_equal.
  rewrite N.ones_equiv. rewrite N.pred_sub. reflexivity.
Qed.

Lemma land_127 : forall n, N.land n 127 = n mod 128.
Proof. intros n. exact (land_mask n 7). Qed.
Lemma land_255 : forall n, N.land n 255 = n mod 256.
Proof. intros n. exact (land_mask n 8). Qed.
Lemma land_15 : forall n, N.land n 15 = n mod 16.
Proof. intros n. exact (land_mask n 4). Qed.
Lemma land_1 : forall n, N.land n 1 = n mod 2.
Proof. intros n. exact (land_mask n 1). Qed.
Lemma land_w32 : forall n, N.land n 4294967295 = n mod 2 ^ 32.
Proof. intros n. exact (land_mask n 32). Qed.

Lemma shiftr_div : forall n k, N.shiftr n k = n / 2 ^ k.
Proof. intros. apply N.shiftr_div_pow2. Qed.
Lemma shiftl_mul : forall n k, N.shiftl n k = n * 2 ^ k.
Proof. intros. apply N.shiftl_mul_pow2. Qed.

Lemma land_disjoint : forall a b k, b < 2 ^ k -> N.land (a * 2 ^ k) b = 0.
Proof.
  intros a b k Hb. apply N.bits_inj. intro i. rewrite N.land_spec, N.bits_0.
  destruct (N.lt_ge_cases i k) as [Hi | Hi].
  - rewrite N.mul_pow2_bits_low by assumption. reflexivity.
  - destruct (N.eq_dec b 0) as [-> | Hz]; [rewrite N.bits_0; apply andb_false_r|].
    rewrite (N.bits_above_log2 b i); [apply andb_false_r|].
    apply N.log2_lt_pow2; [lia|].
    apply N.lt_le_trans with (2 ^ k); [assumption|].
    apply N.pow_le_mono_r; lia.
Qed.

Lemma lor_add : forall a b, N.land a b = 0 -> N.lor a b = a + b.
Proof. intros a b H. rewrite <- N.lxor_lor by assumption. symmetry. apply N.add_nocarry_lxor. assumption. Qed.

Lemma lor_add_high : forall a b k, b < 2 ^ k -> N.lor (a * 2 ^ k) b = a * 2 ^ k + b.
Proof. intros. apply lor_add. apply land_disjoint. assumption. Qed.

Lemma lor_add_low : forall a b k, b < 2 ^ k -> N.lor b (a * 2 ^ k) = b + a * 2 ^ k.
Proof. intros. rewrite N.lor_comm, lor_add_high by assumption. lia. Qed.

Lemma lor_128 : forall b, b < 128 -> N.lor b 128 = b + 128.
Proof. intros b H. exact (lor_add_low 1 b 7 H). Qed.

(** Continuation bit of a byte. *)
Lemma land_128 : forall b, b < 256 -> N.land b 128 = if b <? 128 then 0 else 128.
Proof.
  intros b Hb. destruct (N.ltb_spec b 128) as [H | H].
  - rewrite N.land_comm. exact (land_disjoint 1 b 7 H).
  - replace b with (N.lor (1 * 2 ^ 7) (b - 128)).
    + rewrite N.land_lor_distr_l. change (1 * 2 ^ 7) with 128.
      rewrite N.land_diag. rewrite (N.land_comm (b - 128) 128).
      pose proof (land_disjoint 1 (b - 128) 7) as K. change (1 * 2 ^ 7) with 128 in K.
      change (2 ^ 7) with 128 in K. rewrite K by lia. apply N.lor_0_r.
    + rewrite lor_add_high by (change (2 ^ 7) with 128; lia). change (1 * 2 ^ 7) with 128. lia.
Qed.

Lemma more_flag : forall b, b < 256 -> negb (N.land b 128 =? 0) = (128 <=? b).
Proof.
  intros b Hb. rewrite land_128 by assumption.
  destruct (N.ltb_spec b 128); destruct (N.leb_spec 128 b); try reflexivity; lia.
Qed.

Lemma pow2_64 : 2 ^ 64 = 18446744073709551616. Proof. reflexivity. Qed.
Lemma U64_val : U64 = 18446744073709551616. Proof. reflexivity. Qed.
Lemma U32_val : U32 = 4294967296. Proof. reflexivity. Qed.
Lemma U8_val : U8 = 256. Proof. reflexivity. Qed.

(** Lists. *)
Lemma nlen_app : forall A (a b : list A), nlen (a ++ b) = nlen a + nlen b.
Proof. intros. unfold nlen. rewrite app_length. lia. Qed.
Lemma nlen_nil : forall A, nlen (@nil A) = 0.
Proof. reflexivity. Qed.
Lemma nlen_cons : forall A (x : A) l, nlen (x :: l) = 1 + nlen l.
Proof. intros. unfold nlen. simpl length. lia. Qed.

Lemma firstn_app_exact : forall A (a b : list A), firstn (length a) (a ++ b) = a.
Proof. intros. rewrite firstn_app, firstn_all, Nat.sub_diag. simpl. apply app_nil_r. Qed.
Lemma skipn_app_exact : forall A (a b : list A), skipn (length a) (a ++ b) = b.
Proof. intros. rewrite skipn_app, skipn_all, Nat.sub_diag. reflexivity. Qed.
Lemma firstn_app_n : forall A n (a b : list A), length a = n -> firstn n (a ++ b) = a.
Proof. intros; subst. apply firstn_app_exact. Qed.
Lemma skipn_app_n : forall A n (a b : list A), length a = n -> skipn n (a ++ b) = b.
Proof. intros; subst. apply skipn_app_exact. Qed.
Lemma skipn_skipn' : forall A n m (l : list A), skipn n (skipn m l) = skipn (m + n) l.
Proof.
  intros A n m l. revert l. induction m; intros l; simpl; [reflexivity|].
  destruct l; [apply skipn_nil|apply IHm].
Qed.

Lemma beq_refl : forall a, beq a a = true.
Proof. induction a; simpl; [reflexivity|]. rewrite N.eqb_refl. assumption. Qed.
Lemma beq_eq : forall a b, beq a b = true <-> a = b.
Proof.
  induction a; destruct b; simpl; split; intros H; try discriminate; try reflexivity.
  - apply andb_true_iff in H as [H1 H2]. apply N.eqb_eq in H1. apply IHa in H2. congruence.
  - injection H as -> ->. rewrite N.eqb_refl. apply beq_refl.
Qed.
Lemma beq_neq : forall a b, beq a b = false <-> a <> b.
Proof.
  intros. split; intros H.
  - intros ->. rewrite beq_refl in H. discriminate.
  - destruct (beq a b) eqn:E; [apply beq_eq in E; contradiction|reflexivity].
Qed.
Lemma beq_sym : forall a b, beq a b = beq b a.
Proof.
  intros. destruct (beq a b) eqn:E.
  - apply beq_eq in E. subst. symmetry. apply beq_refl.
  - symmetry. apply beq_neq. apply beq_neq in E. congruence.
Qed.
Lemma bytes_dec : forall a b : bytes, {a = b} + {a <> b}.
Proof. intros. destruct (beq a b) eqn:E; [left; apply beq_eq; assumption | right; apply beq_neq; assumption]. Qed.

Lemma bcmp_refl : forall a, bcmp a a = Eq.
Proof. induction a; simpl; [reflexivity|]. rewrite N.compare_refl. assumption. Qed.
Lemma bcmp_eq : forall a b, bcmp a b = Eq <-> a = b.
Proof.
  induction a; destruct b; simpl; split; intros H; try discriminate; try reflexivity.
  - destruct (N.compare_spec a n); try discriminate. apply IHa in H. congruence.
  - injection H as -> ->. rewrite N.compare_refl. apply bcmp_refl.
Qed.
Lemma bcmp_antisym : forall a b, bcmp b a = CompOpp (bcmp a b).
Proof.
  induction a; destruct b; simpl; try reflexivity.
  rewrite N.compare_antisym. destruct (a ?= n); simpl; auto.
Qed.
Lemma bcmp_trans : forall a b c, bcmp a b = Lt -> bcmp b c = Lt -> bcmp a c = Lt.
Proof.
  induction a as [|x a IH]; destruct b as [|y b]; destruct c as [|z c]; simpl; intros H1 H2;
    try discriminate; try reflexivity.
  destruct (N.compare_spec x y); destruct (N.compare_spec y z); try discriminate; subst.
  - rewrite N.compare_refl. eauto.
  - destruct (N.compare_spec y z); try lia; reflexivity.
  - destruct (N.compare_spec x z); try lia; reflexivity.
  - destruct (N.compare_spec x z); try lia; reflexivity.
Qed.

(** Searching. *)
Lemma find_byte_app : forall b p r, ~ In b p -> find_byte b (p ++ b :: r) = Some (length p).
Proof.
  induction p as [|x p IH]; intros r H; simpl.
  - rewrite N.eqb_refl. reflexivity.
  - destruct (N.eqb_spec x b) as [-> | Hx].
    + exfalso. apply H. left. reflexivity.
    + rewrite IH; [reflexivity|]. intros Hi. apply H. right. assumption.
Qed.
Lemma find_byte_none : forall b l, find_byte b l = None <-> ~ In b l.
Proof.
  induction l as [|x l IH]; simpl; split; intros H; try tauto.
  - destruct (N.eqb_spec x b); [discriminate|].
    destruct (find_byte b l) eqn:E; [discriminate|]. apply proj1 in IH. intros [K|K]; [congruence|].
    apply (IH eq_refl K).
  - destruct (N.eqb_spec x b) as [->|]; [exfalso; tauto|].
    rewrite (proj2 IH); [reflexivity|tauto].
Qed.
Lemma find_byte_some : forall b l i, find_byte b l = Some i ->
  exists p r, l = p ++ b :: r /\ length p = i /\ ~ In b p.
Proof.
  induction l as [|x l IH]; simpl; intros i H; [discriminate|].
  destruct (N.eqb_spec x b) as [->|Hx].
  - injection H as <-. exists [], l. simpl. auto.
  - destruct (find_byte b l) as [j|] eqn:E; [|discriminate]. injection H as <-.
    destruct (IH j eq_refl) as (p & r & -> & Hl & Hn).
    exists (x :: p), r. simpl. repeat split; [congruence|]. intros [K|K]; auto.
Qed.

Lemma starts_with_app : forall p r, starts_with p (p ++ r) = true.
Proof. induction p; simpl; intros; [reflexivity|]. rewrite N.eqb_refl. apply IHp. Qed.
Lemma starts_with_true : forall p l, starts_with p l = true -> exists r, l = p ++ r.
Proof.
  induction p as [|x p IH]; simpl; intros l H; [exists l; reflexivity|].
  destruct l as [|y l]; [discriminate|]. apply andb_true_iff in H as [H1 H2].
  apply N.eqb_eq in H1. subst. destruct (IH l H2) as [r ->]. exists r. reflexivity.
Qed.

(** Slices of concatenations. *)
Lemma slice_mid : forall A (a b c : list A) i j,
  i = length a -> j = (length a + length b)%nat -> slice i j (a ++ b ++ c) = Ok b.
Proof.
  intros A a b c i j -> ->. unfold slice.
  rewrite !app_length.
  replace (_ && _)%bool with true
    by (symmetry; apply andb_true_iff; split; apply Nat.leb_le; lia).
  rewrite skipn_app_exact.
  replace (length a + length b - length a)%nat with (length b) by lia.
  rewrite firstn_app_exact. reflexivity.
Qed.
Lemma slice_prefix : forall A (a b : list A) j, j = length a -> slice 0 j (a ++ b) = Ok a.
Proof. intros. apply (slice_mid A [] a b); auto. Qed.
Lemma slice_from_app : forall A (a b : list A) i, i = length a -> slice_from i (a ++ b) = Ok b.
Proof.
  intros A a b i ->. unfold slice_from. rewrite app_length.
  replace (_ <=? _)%nat with true by (symmetry; apply Nat.leb_le; lia).
  rewrite skipn_app_exact. reflexivity.
Qed.
Lemma slice_ok : forall A (l : list A) i j x, slice i j l = Ok x ->
  exists a b, l = a ++ x ++ b /\ length a = i /\ (i + length x = j)%nat.
Proof.
  unfold slice. intros A l i j x H.
  destruct ((i <=? j)%nat && (j <=? length l)%nat) eqn:E; [|discriminate].
  injection H as <-. apply andb_true_iff in E as [E1 E2].
  apply Nat.leb_le in E1. apply Nat.leb_le in E2.
  exists (firstn i l), (skipn (j - i) (skipn i l)).
  rewrite firstn_skipn, firstn_skipn. split; [reflexivity|].
  rewrite !firstn_length, skipn_length. lia.
Qed.
Lemma slice_from_ok : forall A (l : list A) i x, slice_from i l = Ok x ->
  exists a, l = a ++ x /\ length a = i.
Proof.
  unfold slice_from. intros A l i x H. destruct (i <=? length l)%nat eqn:E; [|discriminate].
  injection H as <-. apply Nat.leb_le in E. exists (firstn i l).
  rewrite firstn_skipn, firstn_length. split; [reflexivity|lia].
Qed.
Lemma get_range_mid : forall A (a b c : list A) i j,
  i = length a -> j = (length a + length b)%nat -> get_range i j (a ++ b ++ c) = Some b.
Proof.
  intros A a b c i j Hi Hj. pose proof (slice_mid A a b c i j Hi Hj) as H.
  unfold slice in H. unfold get_range.
  destruct (_ && _); [|discriminate]. injection H as ->. reflexivity.
Qed.


(** Decimal numbers. *)
Lemma dec_aux_app : forall f n acc, dec_aux f n acc = dec_aux f n [] ++ acc.
Proof.
  induction f as [|f IH]; intros n acc; simpl; [reflexivity|].
  destruct (n <? 10); [reflexivity|].
  rewrite IH. rewrite (IH _ [_]). rewrite <- app_assoc. reflexivity.
Qed.

Definition is_digit (c : N) : Prop := 48 <= c <= 57.

Lemma dec_aux_digits : forall f n acc, Forall is_digit acc -> Forall is_digit (dec_aux f n acc).
Proof.
  induction f as [|f IH]; intros n acc H; cbn [dec_aux]; [assumption|].
  assert (Forall is_digit (48 + n mod 10 :: acc)).
  { constructor; [|assumption]. unfold is_digit. lia. }
  destruct (n <? 10); [assumption|]. apply IH. assumption.
Qed.
Lemma to_decimal_digits : forall n, Forall is_digit (to_decimal n).
Proof. intros. apply dec_aux_digits. constructor. Qed.

Lemma size_nat_bound : forall n, n < 2 ^ N.of_nat (N.size_nat n).
Proof.
  intros [|p]; [reflexivity|]. simpl N.size_nat.
  induction p as [p IH|p IH|]; simpl Pos.size_nat; [| |reflexivity].
  - rewrite Nat2N.inj_succ, N.pow_succ_r'. lia.
  - rewrite Nat2N.inj_succ, N.pow_succ_r'. lia.
Qed.

Lemma pow2_S : forall f, 2 ^ N.of_nat (S f) = 2 * 2 ^ N.of_nat f.
Proof. intros. rewrite Nat2N.inj_succ. apply N.pow_succ_r'. Qed.

Fixpoint dec_value (acc : N) (l : bytes) : N :=
  match l with
  | [] => acc
  | c :: r => dec_value (acc * 10 + (c - 48)) r
  end.

Lemma dec_value_app : forall a b acc, dec_value acc (a ++ b) = dec_value (dec_value acc a) b.
Proof. induction a; intros; simpl; auto. Qed.

Lemma dec_aux_value : forall f n, n < 2 ^ N.of_nat f -> dec_value 0 (dec_aux f n []) = n \/ f = O.
Proof.
  induction f as [|f IH]; intros n H; [right; reflexivity|]. left. cbn [dec_aux].
  destruct (N.ltb_spec n 10) as [Hn|Hn].
  - cbn [dec_value]. rewrite N.mod_small by assumption. lia.
  - rewrite dec_aux_app, dec_value_app. cbn [dec_value].
    rewrite pow2_S in H.
    destruct (IH (n / 10)) as [K|K].
    + lia.
    + rewrite K. lia.
    + subst f. simpl in H. lia.
Qed.
Lemma to_decimal_value : forall n, dec_value 0 (to_decimal n) = n.
Proof.
  intros n. unfold to_decimal. destruct (dec_aux_value (S (N.size_nat n)) n) as [H|H].
  - rewrite pow2_S. pose proof (size_nat_bound n). lia.
  - assumption.
  - discriminate.
Qed.
Lemma to_decimal_inj : forall a b, to_decimal a = to_decimal b -> a = b.
Proof. intros a b H. rewrite <- (to_decimal_value a), <- (to_decimal_value b), H. reflexivity. Qed.
Lemma to_decimal_nonempty : forall n, to_decimal n <> [].
Proof.
  intros n. unfold to_decimal. cbn [dec_aux]. destruct (n <? 10); [discriminate|].
  rewrite dec_aux_app. intros H. apply app_eq_nil in H as [_ H]. discriminate.
Qed.

Lemma dec_value_ge : forall l acc, acc <= dec_value acc l.
Proof.
  induction l as [|c l IH]; intros acc; simpl; [lia|].
  eapply N.le_trans; [|apply IH]. lia.
Qed.
Lemma parse_digits_ok : forall l acc, Forall is_digit l -> dec_value acc l < U64 ->
  parse_digits acc l = Some (dec_value acc l).
Proof.
  induction l as [|c l IH]; intros acc Hd Hv; simpl; [reflexivity|].
  inversion Hd as [|? ? Hc Hl]; subst. unfold is_digit in Hc. unfold digit_val.
  replace ((48 <=? c) && (c <=? 57)) with true by (symmetry; apply andb_true_iff; lia).
  simpl in Hv. pose proof (dec_value_ge l (acc * 10 + (c - 48))).
  replace (_ <? U64) with true by (symmetry; apply N.ltb_lt; lia).
  apply IH; assumption.
Qed.
Lemma parse_to_decimal : forall n, n < U64 -> parse_usize (to_decimal n) = Some n.
Proof.
  intros n Hn. pose proof (to_decimal_digits n) as Hd. pose proof (to_decimal_nonempty n) as Hne.
  assert (H : parse_digits 0 (to_decimal n) = Some n).
  { rewrite parse_digits_ok; [rewrite to_decimal_value; reflexivity|assumption|].
    rewrite to_decimal_value. assumption. }
  unfold parse_usize. destruct (to_decimal n) as [|c r] eqn:E; [contradiction|].
  inversion Hd as [|? ? Hc _]; subst. unfold is_digit in Hc.
  destruct (N.eq_dec c 43) as [->|Hne']; [lia|].
  destruct c as [|p]; [lia|].
  repeat (destruct p as [p|p|]; try exact H; try lia).
Qed.

Lemma digits_not_in : forall c l, Forall is_digit l -> ~ is_digit c -> ~ In c l.
Proof. intros c l H Hc Hi. rewrite Forall_forall in H. apply Hc. apply H. assumption. Qed.
Lemma decimal_no : forall c n, (c < 48 \/ 57 < c) -> ~ In c (to_decimal n).
Proof. intros. apply digits_not_in; [apply to_decimal_digits|]. unfold is_digit. lia. Qed.

(** ASCII text is valid UTF-8. *)
Lemma utf8_ascii : forall l, Forall (fun b => b < 128) l -> utf8_valid l = true.
Proof.
  induction 1 as [|b l Hb _ IH]; [reflexivity|].
  cbn [utf8_valid]. replace (b <? 128) with true by (symmetry; apply N.ltb_lt; assumption). assumption.
Qed.
Lemma utf8_decimal : forall n, utf8_valid (to_decimal n) = true.
Proof.
  intros n. apply utf8_ascii. eapply Forall_impl; [|apply to_decimal_digits].
  unfold is_digit. intros; simpl in *; lia.
Qed.

(** Results. *)
Lemma bind_ok : forall A B (r : res A) (k : A -> res B) b, bind r k = Ok b ->
  exists a, r = Ok a /\ k a = Ok b.
Proof. intros A B [a| | |] k b H; try discriminate. exists a. auto. Qed.
Lemma unwrap_ok : forall A (r : res A) a, unwrap r = Ok a -> r = Ok a.
Proof. intros A [x| | |] a H; try discriminate. assumption. Qed.
Lemma unwrap_opt_ok : forall A (r : option A) a, unwrap_opt r = Ok a -> r = Some a.
Proof. intros A [x|] a H; try discriminate. simpl in H. congruence. Qed.

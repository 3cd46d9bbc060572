(** Proofs about the integer codecs of src/git/utils.rs. *)

From Verif Require Import Base BaseLemmas ModelUtils ModelObject SpecFormat.
Open Scope N_scope.

(** ** Size encoding *)

Lemma leb128_nonempty : forall l n, leb128 l n -> l <> [].
Proof. intros l n H. inversion H; discriminate. Qed.

Lemma leb128_eq : forall l n n', leb128 l n' -> n' = n -> leb128 l n.
Proof. intros; subst; assumption. Qed.

Lemma entry_hdr_eq : forall t l n n', entry_hdr t l n' -> n' = n -> entry_hdr t l n.
Proof. intros; subst; assumption. Qed.

Lemma lor_shift : forall v b len, v < 2 ^ len -> N.lor v (b * 2 ^ len) = v + b * 2 ^ len.
Proof. intros. apply lor_add_low. assumption. Qed.

Lemma read_size_loop_leb : forall l n, leb128 l n -> forall m v len rest,
  v < 2 ^ len -> len + 7 * (nlen l - 1) < 64 -> n * 2 ^ len < U64 ->
  read_size_loop m v len (l ++ rest) = Ok (v + n * 2 ^ len, rest).
Proof.
  induction 1 as [b Hb|b l n Hb Hl IH]; intros m v len rest Hv Hlen Hn.
  - cbn [app read_size_loop]. rewrite more_flag by lia.
    replace (128 <=? b) with false by (symmetry; apply N.leb_gt; assumption).
    rewrite land_127, N.mod_small by assumption.
    unfold shl64. rewrite nlen_cons, nlen_nil in Hlen.
    replace (len <? 64) with true by (symmetry; apply N.ltb_lt; lia). cbn [bind].
    rewrite shiftl_mul, N.mod_small by assumption. rewrite lor_shift by assumption. reflexivity.
  - cbn [app read_size_loop]. rewrite more_flag by lia.
    replace (128 <=? 128 + b) with true by (symmetry; apply N.leb_le; lia).
    rewrite land_127. replace ((128 + b) mod 128) with b by lia.
    unfold shl64. rewrite nlen_cons in Hlen.
    assert (1 <= nlen l) by (pose proof (leb128_nonempty _ _ Hl); destruct l; [contradiction|rewrite nlen_cons; lia]).
    replace (len <? 64) with true by (symmetry; apply N.ltb_lt; lia). cbn [bind].
    rewrite shiftl_mul.
    assert (Hp : 0 < 2 ^ len) by (apply N.neq_0_lt_0, N.pow_nonzero; discriminate).
    rewrite N.mod_small by nia. rewrite lor_shift by assumption.
    unfold add8. rewrite U8_val. replace (len + 7 <? 256) with true by (symmetry; apply N.ltb_lt; lia).
    cbn [bind]. rewrite IH.
    + f_equal. f_equal. rewrite N.pow_add_r. change (2 ^ 7) with 128. lia.
    + rewrite N.pow_add_r. change (2 ^ 7) with 128. nia.
    + lia.
    + rewrite N.pow_add_r. change (2 ^ 7) with 128. nia.
Qed.

Lemma read_size_leb : forall m l n rest, leb128 l n -> (length l <= 10)%nat -> n < U64 ->
  read_size_encoding m (l ++ rest) = Ok (n, rest).
Proof.
  intros m l n rest H Hl Hn. unfold read_size_encoding.
  rewrite (read_size_loop_leb l n H) with (v := 0) (len := 0).
  - f_equal. f_equal. change (2 ^ 0) with 1. lia.
  - reflexivity.
  - pose proof (leb128_nonempty _ _ H). destruct l; [contradiction|].
    unfold nlen. cbn [length] in *. lia.
  - change (2 ^ 0) with 1. lia.
Qed.

Lemma write_size_loop_leb : forall f n, n < 2 ^ N.of_nat f -> (0 < f)%nat ->
  leb128 (write_size_loop f n) n.
Proof.
  induction f as [|f IH]; intros n Hn Hf; [lia|]. cbn [write_size_loop].
  rewrite shiftr_div. change (2 ^ 7) with 128. rewrite land_127.
  destruct (N.ltb_spec 0 (n / 128)) as [H|H].
  - rewrite lor_128 by lia. rewrite pow2_S in Hn.
    rewrite N.add_comm. apply leb128_eq with (n mod 128 + 128 * (n / 128)); [|lia].
    constructor; [lia|]. apply IH; [lia|].
    destruct f; [simpl in Hn; lia|lia].
  - rewrite N.mod_small by lia. constructor. lia.
Qed.

Lemma write_size_len : forall f n k, n < 2 ^ (7 * N.of_nat k) -> (0 < k)%nat ->
  (length (write_size_loop f n) <= k)%nat.
Proof.
  induction f as [|f IH]; intros n k Hn Hk; [simpl; lia|]. cbn [write_size_loop].
  rewrite shiftr_div. change (2 ^ 7) with 128.
  destruct (N.ltb_spec 0 (n / 128)) as [H|H]; [|simpl; lia].
  cbn [length]. destruct k as [|k]; [lia|].
  assert (n / 128 < 2 ^ (7 * N.of_nat k)).
  { replace (7 * N.of_nat (S k)) with (7 * N.of_nat k + 7) in Hn by lia.
    rewrite N.pow_add_r in Hn. change (2 ^ 7) with 128 in Hn. lia. }
  destruct k as [|k]; [simpl in H0; lia|].
  specialize (IH (n / 128) (S k) H0). lia.
Qed.

Lemma write_size_leb : forall n, leb128 (write_size_encoding n) n.
Proof.
  intros. apply write_size_loop_leb; [|lia]. rewrite pow2_S. pose proof (size_nat_bound n). lia.
Qed.
Lemma write_size_len10 : forall n, n < U64 -> (length (write_size_encoding n) <= 10)%nat.
Proof.
  intros n H. apply write_size_len; [|lia]. eapply N.lt_le_trans; [exact H|].
  unfold U64. apply N.pow_le_mono_r; lia.
Qed.

Lemma size_roundtrip : forall m n rest, n < U64 ->
  read_size_encoding m (write_size_encoding n ++ rest) = Ok (n, rest).
Proof. intros. apply read_size_leb; [apply write_size_leb|apply write_size_len10; assumption|assumption]. Qed.

Lemma leb128_bytes : forall l n, leb128 l n -> bytes_ok l.
Proof.
  induction 1; constructor; unfold byte_ok; try lia; try constructor. assumption.
Qed.

(** ** Entry header *)

Lemma read_entry_hdr : forall m t l s rest, t < 8 -> entry_hdr t l s -> (length l <= 10)%nat ->
  s < 2 ^ 61 -> read_type_and_size m (l ++ rest) = Ok (t, s, rest).
Proof.
  intros m t l s rest Ht H Hl Hs.
  assert (K : exists v, leb128 l v /\ v < U64 /\ (v / 16) mod 8 = t /\ v mod 16 + (v / 128) * 16 = s).
  { inversion H as [s' Hs'|s' l' n Hs' Hl']; subst.
    - exists (t * 16 + s). rewrite U64_val. split; [constructor; lia|]. lia.
    - exists ((t * 16 + s') + 128 * n). rewrite U64_val. split; [|].
      + replace (128 + t * 16 + s') with (128 + (t * 16 + s')) by lia. constructor; [lia|assumption].
      + change (2 ^ 61) with 2305843009213693952 in Hs. lia. }
  destruct K as (v & Hv & Hv64 & Hvt & Hvs).
  unfold read_type_and_size. rewrite (read_size_leb m l v rest Hv Hl Hv64). cbn [bind].
  unfold keep_bits. rewrite !shiftr_div, !shiftl_mul.
  change (1 * 2 ^ 3 - 1) with (2 ^ 3 - 1). change (1 * 2 ^ 4 - 1) with (2 ^ 4 - 1).
  rewrite !land_mask. change (2 ^ 3) with 8. change (2 ^ 7) with 128.
  f_equal. f_equal. f_equal.
  - change (2 ^ 4) with 16. rewrite U8_val. rewrite Hvt. apply N.mod_small. lia.
  - rewrite (N.mod_small (_ * _)).
    + rewrite lor_add_low by (apply N.mod_lt; discriminate). exact Hvs.
    + change (2 ^ 4) with 16. rewrite U64_val in *. lia.
Qed.

Lemma size_bytes_leb : forall f n, n < 2 ^ N.of_nat f -> 0 < n -> leb128 (size_bytes_loop f n) n.
Proof.
  induction f as [|f IH]; intros n Hn Hp; [simpl in Hn; lia|]. cbn [size_bytes_loop].
  replace (0 <? n) with true by (symmetry; apply N.ltb_lt; assumption).
  rewrite shiftr_div. change (2 ^ 7) with 128. rewrite U8_val.
  destruct (N.ltb_spec 0 (n / 128)) as [H|H].
  - replace (N.lor 128 n mod 256) with (128 + n mod 128).
    + apply leb128_eq with (n mod 128 + 128 * (n / 128)); [|lia].
      constructor; [lia|]. apply IH; [|assumption]. rewrite pow2_S in Hn. lia.
    + change 256 with (2 ^ 8). rewrite <- land_mask. change (2 ^ 8 - 1) with 255.
      rewrite N.land_lor_distr_l. change (N.land 128 255) with 128.
      rewrite land_255. 
      replace (n mod 256) with ((n / 128) mod 2 * 2 ^ 7 + n mod 128) by (change (2 ^ 7) with 128; lia).
      rewrite <- lor_add_high by (change (2 ^ 7) with 128; lia).
      rewrite N.lor_assoc.
      assert (E : N.lor 128 ((n / 128) mod 2 * 2 ^ 7) = 1 * 2 ^ 7).
      { assert (D : (n / 128) mod 2 = 0 \/ (n / 128) mod 2 = 1) by lia.
        destruct D as [-> | ->]; reflexivity. }
      rewrite E. rewrite lor_add_high by (change (2 ^ 7) with 128; lia). reflexivity.
  - rewrite N.mod_small by lia. constructor. lia.
Qed.

Lemma entry_header_format : forall t s, entry_hdr (type2_number t) (entry_header t s) s.
Proof.
  intros t s. unfold entry_header.
  assert (E : N.lor 128 (N.shiftl (type2_number t) 4) + N.land s 15
              = 128 + type2_number t * 16 + s mod 16).
  { rewrite land_15. destruct t; reflexivity. }
  rewrite E. clear E. rewrite shiftr_div. change (2 ^ 4) with 16.
  apply entry_hdr_eq with (s mod 16 + 16 * (s / 16)); [|lia].
  apply hdr_long; [lia|].
  destruct (N.ltb_spec 0 (s / 16)) as [H|H].
  - apply size_bytes_leb; [|assumption]. rewrite pow2_S. pose proof (size_nat_bound (s / 16)). lia.
  - replace (s / 16) with 0 by lia. constructor. lia.
Qed.

Lemma size_bytes_len : forall f n k, n < 2 ^ (7 * N.of_nat k) ->
  (length (size_bytes_loop f n) <= k)%nat.
Proof.
  induction f as [|f IH]; intros n k Hn; [simpl; lia|]. cbn [size_bytes_loop].
  destruct (N.ltb_spec 0 n) as [Hp|Hp]; [|simpl; lia].
  destruct k as [|k]; [simpl in Hn; lia|].
  rewrite shiftr_div. change (2 ^ 7) with 128.
  destruct (N.ltb_spec 0 (n / 128)) as [H|H]; [|simpl; lia].
  cbn [length]. apply le_n_S. apply IH.
  replace (7 * N.of_nat (S k)) with (7 * N.of_nat k + 7) in Hn by lia.
  rewrite N.pow_add_r in Hn. change (2 ^ 7) with 128 in Hn. lia.
Qed.

Lemma entry_header_len : forall t s, s < 2 ^ 61 -> (length (entry_header t s) <= 10)%nat.
Proof.
  intros t s Hs. unfold entry_header. cbn [length]. apply le_n_S.
  rewrite shiftr_div. destruct (0 <? s / 2 ^ 4); [|simpl; lia].
  apply size_bytes_len. change (2 ^ (7 * N.of_nat 9)) with 9223372036854775808.
  change (2 ^ 61) with 2305843009213693952 in Hs. change (2 ^ 4) with 16. lia.
Qed.

Lemma type2_number_lt : forall t, type2_number t < 8.
Proof. destruct t; reflexivity. Qed.

Lemma header_roundtrip : forall m t s rest, s < 2 ^ 61 ->
  read_type_and_size m (entry_header t s ++ rest) = Ok (type2_number t, s, rest).
Proof.
  intros. apply read_entry_hdr; [apply type2_number_lt|apply entry_header_format|
    apply entry_header_len; assumption|assumption].
Qed.

(** From 2^61 on the reader cannot return the size: its result is below 2^61. *)
Lemma read_size_loop_bound : forall s m v len r n, v < U64 ->
  read_size_loop m v len s = Ok (n, r) -> n < U64.
Proof.
  induction s as [|b s IH]; intros m v len r n Hv H; cbn [read_size_loop] in H; [discriminate|].
  apply bind_ok in H as (sh & Hsh & H).
  assert (Hs : sh < U64).
  { unfold shl64 in Hsh. destruct (len <? 64); [|destruct m; [discriminate|]];
      injection Hsh as <-; apply N.mod_lt; discriminate. }
  assert (Hl : N.lor v sh < U64).
  { unfold U64 in *.
    destruct (N.eq_dec (N.lor v sh) 0) as [->|Hz]; [reflexivity|].
    apply N.log2_lt_pow2; [lia|]. rewrite N.log2_lor. apply N.max_lub_lt.
    - destruct (N.eq_dec v 0) as [->|]; [reflexivity|apply N.log2_lt_pow2; [lia|assumption]].
    - destruct (N.eq_dec sh 0) as [->|]; [reflexivity|apply N.log2_lt_pow2; [lia|assumption]]. }
  destruct (negb _).
  - apply bind_ok in H as (l' & _ & H). eapply IH; eassumption.
  - injection H as <- _. assumption.
Qed.

Lemma read_type_and_size_bound : forall m s t n r,
  read_type_and_size m s = Ok (t, n, r) -> n < 2 ^ 61.
Proof.
  intros m s t n r H. unfold read_type_and_size in H. apply bind_ok in H as ([v r'] & Hv & H).
  injection H as _ <- _. apply read_size_loop_bound in Hv; [|reflexivity].
  unfold keep_bits. rewrite !shiftr_div, !shiftl_mul. change (1 * 2 ^ 4 - 1) with (2 ^ 4 - 1).
  rewrite land_mask. rewrite (N.mod_small (_ * _)).
  - rewrite lor_add_low by (apply N.mod_lt; discriminate).
    change (2 ^ 4) with 16. change (2 ^ 7) with 128. change (2 ^ 61) with 2305843009213693952.
    rewrite U64_val in Hv. lia.
  - change (2 ^ 4) with 16. change (2 ^ 7) with 128. rewrite U64_val in *. lia.
Qed.

(** ** Offset encoding: the reader *)

Definition ofs_step (a x : N) : N := a * 128 + x mod 128 + 1.

Lemma shl64_7 : forall m v, shl64 m v 7 = Ok ((v * 128) mod U64).
Proof. intros. unfold shl64. rewrite shiftl_mul. reflexivity. Qed.

Lemma ofs_byte : forall v b, b < 128 -> N.lor ((v * 128) mod U64) b = (v * 128 + b) mod U64.
Proof.
  intros v b Hb. rewrite U64_val.
  replace ((v * 128) mod 18446744073709551616) with ((v mod 144115188075855872) * 2 ^ 7)
    by (change (2 ^ 7) with 128; lia).
  rewrite lor_add_high by exact Hb. change (2 ^ 7) with 128. lia.
Qed.

Lemma read_offset_rel : forall p v b rest, Forall (fun x => 128 <= x < 256) p -> b < 128 ->
  read_offset_loop Release (v mod U64) (p ++ b :: rest)
  = Ok ((fold_left ofs_step p v * 128 + b) mod U64, rest).
Proof.
  induction p as [|x p IH]; intros v b rest Hp Hb; cbn [app read_offset_loop fold_left].
  - rewrite more_flag by lia. replace (128 <=? b) with false by lia.
    rewrite shl64_7. cbn [bind]. rewrite land_127, (N.mod_small b) by assumption.
    rewrite ofs_byte by assumption. f_equal. f_equal. rewrite U64_val. lia.
  - inversion Hp as [|? ? Hx Hp']; subst.
    rewrite more_flag by lia. replace (128 <=? x) with true by lia.
    rewrite shl64_7. cbn [bind]. rewrite land_127, ofs_byte by lia.
    assert (E : add64 Release ((v mod U64 * 128 + x mod 128) mod U64) 1 = Ok (ofs_step v x mod U64)).
    { unfold add64, ofs_step. rewrite U64_val. 
      destruct (N.ltb_spec ((v mod 18446744073709551616 * 128 + x mod 128) mod 18446744073709551616 + 1) 18446744073709551616); f_equal; lia. }
    rewrite E. cbn [bind]. apply IH; assumption.
Qed.

Lemma ofs_step_mono : forall p v, v <= fold_left ofs_step p v.
Proof.
  induction p as [|x p IH]; intros v; simpl; [lia|].
  eapply N.le_trans; [|apply IH]. unfold ofs_step. lia.
Qed.

Lemma read_offset_small : forall m p v b rest, Forall (fun x => 128 <= x < 256) p -> b < 128 ->
  fold_left ofs_step p v * 128 + b < U64 ->
  read_offset_loop m v (p ++ b :: rest) = Ok (fold_left ofs_step p v * 128 + b, rest).
Proof.
  intros m. induction p as [|x p IH]; intros v b rest Hp Hb Hv; cbn [app read_offset_loop fold_left] in *.
  - rewrite more_flag by lia. replace (128 <=? b) with false by lia.
    rewrite shl64_7. cbn [bind]. rewrite land_127, (N.mod_small b) by assumption.
    rewrite ofs_byte by assumption. rewrite N.mod_small by assumption. reflexivity.
  - inversion Hp as [|? ? Hx Hp']; subst.
    pose proof (ofs_step_mono p (ofs_step v x)) as Hm. unfold ofs_step at 1 in Hm.
    rewrite more_flag by lia. replace (128 <=? x) with true by lia.
    rewrite shl64_7. cbn [bind]. rewrite land_127, ofs_byte by lia.
    assert (E : add64 m ((v * 128 + x mod 128) mod U64) 1 = Ok (ofs_step v x)).
    { rewrite N.mod_small by (rewrite U64_val in *; lia). unfold add64, ofs_step.
      replace (_ <? U64) with true; [reflexivity|]. symmetry. apply N.ltb_lt. rewrite U64_val in *. lia. }
    rewrite E. cbn [bind]. apply IH; assumption.
Qed.

Lemma ofs_fold_value : forall p a,
  fold_left ofs_step p a * 128
  = fold_left (fun a x => a * 128 + x mod 128) p a * 128 + ofs_bias (length p).
Proof.
  induction p as [|x p IH] using rev_ind; intros a.
  - simpl. lia.
  - rewrite !fold_left_app, app_length. cbn [fold_left length].
    rewrite Nat.add_comm. cbn [Nat.add ofs_bias].
    unfold ofs_step at 1. specialize (IH a).
    assert (E : forall k, 128 * ofs_bias k + 128 = 2 ^ (7 * N.of_nat (S k)) + ofs_bias k).
    { clear. induction k as [|k IHk]; [reflexivity|]. cbn [ofs_bias].
      replace (7 * N.of_nat (S (S k))) with (7 + 7 * N.of_nat (S k)) by lia.
      rewrite N.pow_add_r. change (2 ^ 7) with 128. lia. }
    specialize (E (length p)). lia.
Qed.

Lemma ofs_value_snoc : forall p b, b < 128 -> ofs_value (p ++ [b]) = fold_left ofs_step p 0 * 128 + b.
Proof.
  intros p b Hb. unfold ofs_value, ofs_concat. rewrite fold_left_app, app_length. cbn [fold_left length].
  rewrite ofs_fold_value. replace (length p + 1 - 1)%nat with (length p) by lia.
  rewrite (N.mod_small b) by assumption. lia.
Qed.

Lemma read_offset_format : forall m l n rest, ofs_format l n -> n < U64 ->
  read_offset_encoding m (l ++ rest) = Ok (n, rest).
Proof.
  intros m l n rest [(p & b & -> & Hp & Hb) Hv] Hn. unfold read_offset_encoding.
  rewrite ofs_value_snoc in Hv by assumption. rewrite <- app_assoc. cbn [app].
  rewrite read_offset_small; [subst; reflexivity|assumption|assumption|subst; assumption].
Qed.

(** ** Offset encoding: the writer *)

Fixpoint digs (f : nat) (n : N) : list N :=
  match f with
  | O => []
  | S k => if 0 <? n then n mod 128 :: digs k (n / 128) else []
  end.
Definition enc_rel (d : N) : N := if d =? 0 then 255 else d + 127.
Definition eff (d : N) : N := if d =? 0 then 128 else d.
Fixpoint dval (l : list N) : N := match l with [] => 0 | d :: r => d + 128 * dval r end.

Lemma digs_lt : forall f n, Forall (fun d => d < 128) (digs f n).
Proof.
  induction f; intros n; cbn [digs]; [constructor|]. destruct (0 <? n); constructor; [lia|apply IHf].
Qed.
Lemma digs_val : forall f n, n < 2 ^ N.of_nat f -> dval (digs f n) = n.
Proof.
  induction f as [|f IH]; intros n Hn; cbn [digs].
  - simpl in Hn. simpl. lia.
  - destruct (N.ltb_spec 0 n) as [H|H]; [|simpl; lia]. cbn [dval]. rewrite IH; [lia|].
    rewrite pow2_S in Hn. lia.
Qed.

Lemma write_offset_loop_S : forall m f n num, write_offset_loop m (S f) n num =
  if 0 <? n then
    let? d := sub64 m (N.land n 127) 1 in
    write_offset_loop m f (N.shiftr n 7) (num ++ [N.lor (d mod U8) 128])
  else Ok num.
Proof. reflexivity. Qed.
Lemma digs_S : forall f n, digs (S f) n = if 0 <? n then n mod 128 :: digs f (n / 128) else [].
Proof. reflexivity. Qed.

Lemma write_offset_rel : forall f n num, n < 2 ^ N.of_nat f ->
  write_offset_loop Release (S f) n num = Ok (num ++ map enc_rel (digs (S f) n)).
Proof.
  induction f as [|f IH]; intros n num Hn.
  - simpl in Hn. replace n with 0 by lia. cbn. rewrite app_nil_r. reflexivity.
  - rewrite write_offset_loop_S. rewrite (digs_S (S f)). destruct (N.ltb_spec 0 n) as [H|H].
    + assert (E : exists d, sub64 Release (N.land n 127) 1 = Ok d /\ N.lor (d mod U8) 128 = enc_rel (n mod 128)).
      { rewrite land_127. unfold sub64, enc_rel. destruct (N.leb_spec 1 (n mod 128)) as [K|K].
        - exists (n mod 128 - 1). split; [reflexivity|]. rewrite U8_val, N.mod_small by lia.
          rewrite lor_128 by lia. replace (n mod 128 =? 0) with false by lia. lia.
        - replace (n mod 128) with 0 by lia. exists (U64 - 1). split; reflexivity. }
      destruct E as (d & E1 & E2). rewrite E1. cbn [bind]. rewrite E2.
      rewrite shiftr_div. change (2 ^ 7) with 128. rewrite IH by (rewrite pow2_S in Hn; lia).
      cbn [map]. rewrite <- app_assoc. reflexivity.
    + cbn [map]. rewrite app_nil_r. reflexivity.
Qed.

Lemma write_offset_dbg : forall f n num, n < 2 ^ N.of_nat f ->
  write_offset_loop Debug (S f) n num
  = if forallb (fun d => negb (d =? 0)) (digs (S f) n)
    then Ok (num ++ map enc_rel (digs (S f) n)) else Panic.
Proof.
  induction f as [|f IH]; intros n num Hn.
  - simpl in Hn. replace n with 0 by lia. cbn. rewrite app_nil_r. reflexivity.
  - rewrite write_offset_loop_S. rewrite (digs_S (S f)). destruct (N.ltb_spec 0 n) as [H|H].
    + rewrite land_127. unfold sub64. cbn [forallb]. destruct (N.leb_spec 1 (n mod 128)) as [K|K].
      * cbn [bind]. replace (n mod 128 =? 0) with false by lia. cbn [negb andb].
        rewrite shiftr_div. change (2 ^ 7) with 128. rewrite IH by (rewrite pow2_S in Hn; lia).
        destruct (forallb _ _); [|reflexivity]. cbn [map]. rewrite <- app_assoc. cbn [app].
        unfold enc_rel at 2. replace (n mod 128 =? 0) with false by lia.
        rewrite U8_val, (N.mod_small (_ - _)) by lia. rewrite lor_128 by lia.
        replace (n mod 128 - 1 + 128) with (n mod 128 + 127) by lia. reflexivity.
      * replace (n mod 128 =? 0) with true by lia. reflexivity.
    + cbn. rewrite app_nil_r. reflexivity.
Qed.

Lemma enc_rel_range : forall d, d < 128 -> 128 <= enc_rel d < 256.
Proof. intros d H. unfold enc_rel. destruct (N.eqb_spec d 0); lia. Qed.
Lemma enc_rel_step : forall d a, d < 128 -> ofs_step a (enc_rel d) = a * 128 + eff d.
Proof.
  intros d a H. unfold ofs_step, enc_rel, eff. destruct (N.eqb_spec d 0) as [->|].
  - change (255 mod 128) with 127. lia.
  - replace ((d + 127) mod 128) with (d - 1) by lia. lia.
Qed.

Lemma fold_rev_digits : forall l a, Forall (fun d => d < 128) l ->
  fold_left ofs_step (rev (map enc_rel l)) a = dval (map eff l) + a * 128 ^ nlen l.
Proof.
  induction l as [|d l IH]; intros a H.
  - simpl. rewrite N.pow_0_r. lia.
  - inversion H as [|? ? Hd Hl]; subst. cbn [map rev]. rewrite fold_left_app. cbn [fold_left].
    rewrite enc_rel_step by assumption. rewrite IH by assumption. cbn [map dval].
    rewrite nlen_cons, N.pow_add_r. change (128 ^ 1) with 128. lia.
Qed.

(** What a release build's encoding of [n] decodes to: every zero digit above the
    lowest counts as 128. *)
Definition ofs_digits (n : N) : list N := digs (S (N.size_nat n)) (n / 128).
Definition ofs_misread (n : N) : N := dval (map eff (ofs_digits n)) * 128 + n mod 128.
Definition ofs_bytes (n : N) : bytes := rev (map enc_rel (ofs_digits n)) ++ [n mod 128].

Lemma write_offset_release : forall n, write_offset_encoding Release n = Ok (ofs_bytes n).
Proof.
  intros n. unfold write_offset_encoding. rewrite shiftr_div. change (2 ^ 7) with 128.
  rewrite write_offset_rel.
  - cbn [bind app rev]. unfold ofs_bytes, ofs_digits. rewrite land_127. reflexivity.
  - pose proof (size_nat_bound n). lia.
Qed.
Lemma write_offset_debug : forall n, write_offset_encoding Debug n =
  if forallb (fun d => negb (d =? 0)) (ofs_digits n) then Ok (ofs_bytes n) else Panic.
Proof.
  intros n. unfold write_offset_encoding. rewrite shiftr_div. change (2 ^ 7) with 128.
  rewrite write_offset_dbg by (pose proof (size_nat_bound n); lia).
  fold (ofs_digits n). destruct (forallb _ _); [|reflexivity].
  cbn [bind app rev]. unfold ofs_bytes. rewrite land_127. reflexivity.
Qed.

Lemma digs_zero : forall f n, n < 2 ^ N.of_nat f ->
  (forallb (fun d => negb (d =? 0)) (digs f n) = false
   <-> exists i, 0 < n / 128 ^ i /\ (n / 128 ^ i) mod 128 = 0).
Proof.
  induction f as [|f IH]; intros n Hn; cbn [digs].
  - simpl in Hn. replace n with 0 by lia. simpl. split; [discriminate|].
    intros (i & H & _). rewrite N.div_0_l in H by (apply N.pow_nonzero; discriminate). lia.
  - destruct (N.ltb_spec 0 n) as [H|H].
    + cbn [forallb]. destruct (N.eqb_spec (n mod 128) 0) as [E|E].
      * cbn. split; [intros _|reflexivity]. exists 0. rewrite N.pow_0_r, N.div_1_r. auto.
      * cbn [negb andb]. rewrite IH by (rewrite pow2_S in Hn; lia).
        split; intros (i & H1 & H2).
        -- exists (i + 1). rewrite N.pow_add_r, N.pow_1_r, N.mul_comm, <- N.div_div
             by (try discriminate; apply N.pow_nonzero; discriminate). auto.
        -- destruct (N.eq_dec i 0) as [->|Hi].
           ++ rewrite N.pow_0_r, N.div_1_r in H2. contradiction.
           ++ exists (i - 1). rewrite N.div_div by (try discriminate; apply N.pow_nonzero; discriminate).
              rewrite <- (N.pow_1_r 128) at 1 3. rewrite <- N.pow_add_r.
              replace (1 + (i - 1)) with i by lia. auto.
    + simpl. split; [discriminate|]. intros (i & H1 & _). replace n with 0 in H1 by lia.
      rewrite N.div_0_l in H1 by (apply N.pow_nonzero; discriminate). lia.
Qed.

Lemma ofs_digits_zero : forall n,
  forallb (fun d => negb (d =? 0)) (ofs_digits n) = false <-> zero_digit n.
Proof.
  intros n. unfold ofs_digits. rewrite digs_zero
    by (rewrite pow2_S; pose proof (size_nat_bound n); lia).
  unfold zero_digit. split.
  - intros (i & H1 & H2). exists (i + 1). split; [lia|].
    rewrite N.pow_add_r, N.pow_1_r, N.mul_comm, <- N.div_div
      by (try discriminate; apply N.pow_nonzero; discriminate). auto.
  - intros (i & H0 & H1 & H2). exists (i - 1).
    rewrite N.div_div by (try discriminate; apply N.pow_nonzero; discriminate).
    rewrite <- (N.pow_1_r 128) at 1 3. rewrite <- N.pow_add_r.
    replace (1 + (i - 1)) with i by lia. auto.
Qed.

Lemma ofs_digits_lt : forall n, Forall (fun d => d < 128) (ofs_digits n).
Proof. intros. apply digs_lt. Qed.

Lemma ofs_bytes_shape : forall n, ofs_shape (ofs_bytes n).
Proof.
  intros n. exists (rev (map enc_rel (ofs_digits n))), (n mod 128). split; [reflexivity|].
  split; [|lia]. apply Forall_rev. rewrite Forall_map. eapply Forall_impl; [|apply ofs_digits_lt].
  intros. apply enc_rel_range. assumption.
Qed.

Lemma ofs_bytes_value : forall n, ofs_value (ofs_bytes n) = ofs_misread n.
Proof.
  intros n. unfold ofs_bytes. rewrite ofs_value_snoc by lia.
  rewrite fold_rev_digits by apply ofs_digits_lt. unfold ofs_misread. lia.
Qed.

Lemma eff_id : forall l, forallb (fun d => negb (d =? 0)) l = true -> map eff l = l.
Proof.
  induction l as [|d l IH]; simpl; intros H; [reflexivity|].
  apply andb_true_iff in H as [H1 H2]. rewrite IH by assumption. unfold eff.
  destruct (N.eqb_spec d 0); [discriminate|]. reflexivity.
Qed.
Lemma ofs_misread_good : forall n, ~ zero_digit n -> ofs_misread n = n.
Proof.
  intros n H. unfold ofs_misread. rewrite eff_id.
  - unfold ofs_digits. rewrite digs_val; [lia|]. rewrite pow2_S. pose proof (size_nat_bound n). lia.
  - destruct (forallb _ _) eqn:E; [reflexivity|]. apply ofs_digits_zero in E. contradiction.
Qed.

(** Each zero digit number i above the lowest adds 128^(i+1) to the decoded
    value. The excess is at least 128 and small enough not to vanish mod 2^64. *)
Fixpoint excess (l : list N) : N :=
  match l with [] => 0 | d :: r => (if d =? 0 then 128 else 0) + 128 * excess r end.
Lemma dval_eff : forall l, dval (map eff l) = dval l + excess l.
Proof.
  induction l as [|d l IH]; simpl; [reflexivity|]. rewrite IH. unfold eff.
  destruct (N.eqb_spec d 0); lia.
Qed.
Lemma excess_pos : forall l, forallb (fun d => negb (d =? 0)) l = false -> 0 < excess l.
Proof.
  induction l as [|d l IH]; simpl; intros H; [discriminate|].
  destruct (N.eqb_spec d 0); simpl in *; [lia|]. specialize (IH H). lia.
Qed.
Lemma excess_bound : forall k f n, n < 128 ^ N.of_nat (S k) ->
  127 * excess (digs f n) <= 128 * (128 ^ N.of_nat k - 1).
Proof.
  induction k as [|k IH]; intros f n Hn.
  - change (128 ^ N.of_nat 1) with 128 in Hn. destruct f as [|f]; [reflexivity|].
    rewrite digs_S. destruct (N.ltb_spec 0 n) as [H|H]; [|reflexivity].
    cbn [excess]. rewrite N.mod_small by assumption. replace (n =? 0) with false by lia.
    replace (n / 128) with 0 by lia. destruct f; reflexivity.
  - destruct f as [|f]; [cbn; lia|].
    rewrite digs_S. destruct (N.ltb_spec 0 n) as [H|H]; [|cbn; lia].
    cbn [excess].
    assert (P : 1 <= 128 ^ N.of_nat k) by (pose proof (N.pow_nonzero 128 (N.of_nat k)); lia).
    assert (K : n / 128 < 128 ^ N.of_nat (S k)).
    { rewrite Nat2N.inj_succ, N.pow_succ_r' in Hn. lia. }
    specialize (IH f (n / 128) K). rewrite Nat2N.inj_succ, N.pow_succ_r'.
    destruct (n mod 128 =? 0); lia.
Qed.

Lemma misread_bad : forall n, zero_digit n -> n < U64 -> ofs_misread n mod U64 <> n.
Proof.
  intros n Hz Hn. apply ofs_digits_zero in Hz. apply excess_pos in Hz.
  unfold ofs_misread. rewrite dval_eff.
  pose proof (size_nat_bound n) as Hs.
  assert (Hb : n / 128 < 2 ^ N.of_nat (S (N.size_nat n))) by (rewrite pow2_S; lia).
  assert (H9 : n / 128 < 128 ^ N.of_nat 9).
  { change (128 ^ N.of_nat 9) with 9223372036854775808. rewrite U64_val in Hn. lia. }
  pose proof (excess_bound 8 (S (N.size_nat n)) (n / 128) H9) as He. fold (ofs_digits n) in He.
  change (128 ^ N.of_nat 8) with 72057594037927936 in He.
  unfold ofs_digits at 1. rewrite digs_val by assumption.
  rewrite U64_val in *. lia.
Qed.

Lemma write_offset_good : forall m n, ~ zero_digit n ->
  exists l, write_offset_encoding m n = Ok l /\ ofs_format l n.
Proof.
  intros m n H. exists (ofs_bytes n). split.
  - destruct m; [|apply write_offset_release]. rewrite write_offset_debug.
    destruct (forallb _ _) eqn:E; [reflexivity|]. apply ofs_digits_zero in E. contradiction.
  - split; [apply ofs_bytes_shape|]. rewrite ofs_bytes_value. apply ofs_misread_good. assumption.
Qed.

Lemma write_offset_debug_panic : forall n, write_offset_encoding Debug n = Panic <-> zero_digit n.
Proof.
  intros n. rewrite write_offset_debug. rewrite <- ofs_digits_zero.
  destruct (forallb _ _); split; congruence.
Qed.

Lemma write_offset_bad_release : forall n rest, zero_digit n -> n < U64 ->
  exists l n', write_offset_encoding Release n = Ok l /\
    read_offset_encoding Release (l ++ rest) = Ok (n', rest) /\ n' <> n.
Proof.
  intros n rest Hz Hn. exists (ofs_bytes n), (ofs_misread n mod U64).
  split; [apply write_offset_release|]. split; [|apply misread_bad; assumption].
  destruct (ofs_bytes_shape n) as (p & b & E & Hp & Hb).
  pose proof (ofs_bytes_value n) as Hv. rewrite E in *.
  rewrite ofs_value_snoc in Hv by assumption. rewrite <- Hv.
  unfold read_offset_encoding. rewrite <- app_assoc. cbn [app].
  change 0 with (0 mod U64). rewrite read_offset_rel by assumption. reflexivity.
Qed.

Lemma zero_digit_dec : forall n, zero_digit n \/ ~ zero_digit n.
Proof.
  intros n. destruct (forallb (fun d => negb (d =? 0)) (ofs_digits n)) eqn:E.
  - right. intros H. apply ofs_digits_zero in H. congruence.
  - left. apply ofs_digits_zero. assumption.
Qed.

Lemma zero_digit_small : forall n, n < 16384 -> ~ zero_digit n.
Proof.
  intros n Hn (i & H1 & H2 & H3).
  assert (E : n / 128 ^ i = n / 128 \/ n / 128 ^ i = 0).
  { destruct (N.eq_dec i 1) as [->|]; [left; rewrite N.pow_1_r; reflexivity|right].
    apply N.div_small. eapply N.lt_le_trans; [exact Hn|].
    change 16384 with (128 ^ 2). apply N.pow_le_mono_r; lia. }
  destruct E as [E|E]; rewrite E in *; lia.
Qed.

(** Existence of git's encoding for every number. *)
Lemma ofs_format_total : forall n, exists l, ofs_format l n.
Proof.
  intros n. induction n as [n IH] using (well_founded_induction N.lt_wf_0).
  destruct (N.lt_ge_cases n 128) as [H|H].
  - exists [n]. split.
    + exists [], n. repeat split; [constructor|assumption].
    + change (ofs_value [n]) with (ofs_value ([] ++ [n])). rewrite ofs_value_snoc by assumption. cbn. lia.
  - destruct (IH (n / 128 - 1)) as (l & (p & b & -> & Hp & Hb) & Hv); [lia|].
    rewrite ofs_value_snoc in Hv by assumption.
    exists ((p ++ [128 + b]) ++ [n mod 128]). split.
    + exists (p ++ [128 + b]), (n mod 128). split; [reflexivity|]. split; [|lia].
      apply Forall_app. split; [assumption|]. constructor; [lia|constructor].
    + rewrite ofs_value_snoc by lia. rewrite fold_left_app. cbn [fold_left].
      unfold ofs_step at 1. replace ((128 + b) mod 128) with b by lia. lia.
Qed.

(** ** 32-bit integers *)

Lemma u32_vec_value : forall v, v < U32 -> be32_value (u32_vec v) v.
Proof.
  intros v Hv. unfold u32_vec. rewrite !land_255, !shiftr_div.
  rewrite U32_val in Hv.
  change (2 ^ 24) with 16777216. change (2 ^ 16) with 65536. change (2 ^ 8) with 256.
  do 4 eexists. split; [reflexivity|]. split.
  - repeat constructor; unfold byte_ok; lia.
  - change (2 ^ 24) with 16777216. change (2 ^ 16) with 65536. change (2 ^ 8) with 256. lia.
Qed.
Lemma read_u32_value : forall l v rest, be32_value l v -> read_u32 (l ++ rest) = Ok (v, rest).
Proof.
  intros l v rest (a & b & c & d & -> & _ & ->). unfold read_u32, read_bytes.
  cbn [app length]. cbn. f_equal. f_equal.
  change (2 ^ 24) with 16777216. change (2 ^ 16) with 65536. change (2 ^ 8) with 256. lia.
Qed.
Lemma u32_roundtrip : forall v rest, v < U32 -> read_u32 (u32_vec v ++ rest) = Ok (v, rest).
Proof. intros. apply read_u32_value, u32_vec_value. assumption. Qed.
Lemma u32_vec_len : forall v, length (u32_vec v) = 4%nat.
Proof. reflexivity. Qed.
Lemma read_u32_short : forall s, (length s < 4)%nat -> read_u32 s = Err EIo.
Proof.
  intros s H. unfold read_u32, read_bytes. destruct (Nat.leb_spec 4 (length s)); [lia|reflexivity].
Qed.
Lemma u32_vec_bytes : forall v, bytes_ok (u32_vec v).
Proof. intros. unfold u32_vec. rewrite !land_255. repeat constructor; unfold byte_ok; lia. Qed.

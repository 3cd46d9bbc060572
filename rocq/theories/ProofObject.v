(** Proofs about ModelObject: hex ids, hash preimages, loose objects. *)

From Verif Require Import Base BaseLemmas Digest ModelUtils ModelObject SpecFormat SpecObject ProofUtils.
Open Scope N_scope.

(** ** Hex *)

Lemma hex_char_spec : forall c v, hex_char_value c = Some v <-> hex_digit_of c v.
Proof.
  intros c v. unfold hex_char_value. split.
  - destruct ((48 <=? c) && (c <=? 57)) eqn:E1.
    { intros H. injection H as <-. replace c with (48 + (c - 48)) at 1 by lia. constructor. lia. }
    destruct ((97 <=? c) && (c <=? 102)) eqn:E2.
    { intros H. injection H as <-. replace c with (87 + (c - 97 + 10)) at 1 by lia. constructor. lia. }
    destruct ((65 <=? c) && (c <=? 70)) eqn:E3; [|discriminate].
    intros H. injection H as <-. replace c with (55 + (c - 65 + 10)) at 1 by lia. apply hd_up. lia.
  - intros H. inversion H; subst.
    + replace ((48 <=? 48 + v) && (48 + v <=? 57)) with true by lia. f_equal. lia.
    + replace ((48 <=? 87 + v) && (87 + v <=? 57)) with false by lia.
      replace ((97 <=? 87 + v) && (87 + v <=? 102)) with true by lia. f_equal. lia.
    + replace ((48 <=? 55 + v) && (55 + v <=? 57)) with false by lia.
      replace ((97 <=? 55 + v) && (55 + v <=? 102)) with false by lia.
      replace ((65 <=? 55 + v) && (55 + v <=? 70)) with true by lia. f_equal. lia.
Qed.

Lemma hex_digit_of_lt : forall c v, hex_digit_of c v -> v < 16.
Proof. intros c v H. inversion H; lia. Qed.

Lemma hex_byte : forall x y, x < 16 -> y < 16 -> N.lor (N.shiftl x 4 mod U8) y = 16 * x + y.
Proof.
  intros x y Hx Hy. rewrite shiftl_mul, U8_val. change (2 ^ 4) with 16.
  rewrite N.mod_small by lia. change 16 with (2 ^ 4) at 1. rewrite lor_add_high by exact Hy.
  change (2 ^ 4) with 16. lia.
Qed.

Lemma hex_pairs_spec : forall n s h, (length s <= n)%nat -> hex_pairs s = Some h <-> hex_text s h.
Proof.
  induction n as [|n IH]; intros s h Hl.
  - destruct s; [|simpl in Hl; lia]. simpl. split; intros H.
    + injection H as <-. constructor.
    + inversion H. reflexivity.
  - destruct s as [|a [|b s]].
    + simpl. split; intros H; [injection H as <-; constructor|inversion H; reflexivity].
    + simpl. split; intros H; [discriminate|inversion H].
    + cbn [hex_pairs]. split; intros H.
      * destruct (hex_char_value a) as [x|] eqn:Ea; [|discriminate].
        destruct (hex_char_value b) as [y|] eqn:Eb; [|discriminate].
        destruct (hex_pairs s) as [t|] eqn:Es; [|discriminate]. injection H as <-.
        apply hex_char_spec in Ea, Eb. apply IH in Es; [|simpl in Hl; lia].
        rewrite hex_byte by (eapply hex_digit_of_lt; eassumption). constructor; assumption.
      * inversion H as [|a' b' x y s' t Ha Hb Ht]; subst.
        apply hex_char_spec in Ha as Ea. apply hex_char_spec in Hb as Eb. rewrite Ea, Eb.
        apply IH in Ht; [|simpl in Hl; lia]. rewrite Ht.
        rewrite hex_byte by (eapply hex_digit_of_lt; eassumption). reflexivity.
Qed.

Lemma hash_from_str_spec : forall s h, hash_from_str s = Ok h <-> id_text s h.
Proof.
  intros s h. unfold hash_from_str, hash_from_bytes, id_text. split.
  - destruct (hex_pairs s) as [t|] eqn:E; [|discriminate].
    destruct (Nat.eqb_spec (length t) 20); [|discriminate]. intros H. injection H as <-.
    split; [assumption|]. eapply hex_pairs_spec; [apply Nat.le_refl|assumption].
  - intros [Hl Ht]. apply (hex_pairs_spec (length s)) in Ht; [|apply Nat.le_refl]. rewrite Ht.
    rewrite Hl. reflexivity.
Qed.
Lemma hash_from_str_total : forall s, (exists h, hash_from_str s = Ok h) \/ hash_from_str s = Err EInvalidHashValue.
Proof.
  intros s. unfold hash_from_str. destruct (hash_from_bytes s) as [h|]; [left; exists h|right]; reflexivity.
Qed.

Lemma hex_digit_spec : forall v, v < 16 -> hex_digit_of (hex_digit v) v.
Proof. intros v H. unfold hex_digit. destruct (N.ltb_spec v 10); constructor; lia. Qed.

Lemma hex_encode_text : forall h, bytes_ok h -> hex_text (hex_encode h) h.
Proof.
  induction 1 as [|b h Hb _ IH]; [constructor|]. cbn [hex_encode flat_map app].
  fold (hex_encode h). rewrite shiftr_div, land_15. change (2 ^ 4) with 16. unfold byte_ok in Hb.
  replace b with (16 * (b / 16) + b mod 16) at 3 by lia.
  constructor; [apply hex_digit_spec; lia|apply hex_digit_spec; lia|assumption].
Qed.

Lemma to_plain_str_text : forall h, id_ok h -> id_text (to_plain_str h) h.
Proof. intros h [H1 H2]. split; [assumption|]. apply hex_encode_text. assumption. Qed.

Lemma hex_text_bytes : forall s h, hex_text s h -> bytes_ok h.
Proof.
  induction 1; constructor; [|assumption]. unfold byte_ok.
  apply hex_digit_of_lt in H, H0. lia.
Qed.
Lemma id_text_ok : forall s h, id_text s h -> id_ok h.
Proof. intros s h [H1 H2]. split; [assumption|]. eapply hex_text_bytes. eassumption. Qed.

Lemma hex_digit_lower : forall c v, hex_digit_of c v -> hex_digit v = lower c.
Proof.
  intros c v H. unfold hex_digit, lower. inversion H; subst.
  - replace (v <? 10) with true by lia. replace ((65 <=? 48 + v) && (48 + v <=? 90)) with false by lia. reflexivity.
  - replace (v <? 10) with false by lia. replace ((65 <=? 87 + v) && (87 + v <=? 90)) with false by lia. reflexivity.
  - replace (v <? 10) with false by lia. replace ((65 <=? 55 + v) && (55 + v <=? 90)) with true by lia. lia.
Qed.

Lemma hex_text_lower : forall s h, hex_text s h -> hex_encode h = map lower s.
Proof.
  induction 1 as [|a b x y s h Ha Hb Hs IH]; [reflexivity|].
  cbn [hex_encode flat_map app map]. fold (hex_encode h). rewrite IH. rewrite shiftr_div, land_15.
  change (2 ^ 4) with 16. apply hex_digit_of_lt in Ha as Hx. apply hex_digit_of_lt in Hb as Hy.
  replace ((16 * x + y) / 16) with x by lia. replace ((16 * x + y) mod 16) with y by lia.
  rewrite (hex_digit_lower a x Ha), (hex_digit_lower b y Hb). reflexivity.
Qed.

Lemma hex_text_len : forall s h, hex_text s h -> length s = (2 * length h)%nat.
Proof. induction 1; simpl in *; lia. Qed.

Lemma hex_text_fun : forall s h h', hex_text s h -> hex_text s h' -> h = h'.
Proof.
  intros s h h' H H'. apply (hex_pairs_spec (length s)) in H, H'; [congruence|lia|lia].
Qed.

Lemma id_text_len : forall s h, id_text s h -> length s = 40%nat.
Proof. intros s h [H1 H2]. apply hex_text_len in H2. lia. Qed.

Lemma to_plain_str_len : forall h, length h = 20%nat -> length (to_plain_str h) = 40%nat.
Proof.
  intros h H. unfold to_plain_str.
  assert (K : forall l, length (hex_encode l) = (2 * length l)%nat).
  { induction l; [reflexivity|]. cbn [hex_encode flat_map]. fold (hex_encode l).
    rewrite app_length, IHl. simpl. lia. }
  rewrite K, H. reflexivity.
Qed.

Lemma to_plain_str_inj : forall a b, id_ok a -> id_ok b -> to_plain_str a = to_plain_str b -> a = b.
Proof.
  intros a b Ha Hb E. apply to_plain_str_text in Ha as [_ Ha], Hb as [_ Hb].
  rewrite E in Ha. eapply hex_text_fun; eassumption.
Qed.

Lemma hash_roundtrip : forall h, id_ok h -> hash_from_str (to_plain_str h) = Ok h.
Proof. intros h H. apply hash_from_str_spec, to_plain_str_text. assumption. Qed.

(** ** Decimal *)

Lemma dec_value_fold : forall l acc, dec_value acc l = fold_left (fun a c => a * 10 + (c - 48)) l acc.
Proof. induction l; intros acc; simpl; [reflexivity|]. apply IHl. Qed.

Lemma dec_aux_lead : forall f n, 0 < n -> n < 2 ^ N.of_nat f ->
  exists c r, dec_aux f n [] = c :: r /\ c <> 48.
Proof.
  induction f as [|f IH]; intros n Hp Hn; [simpl in Hn; lia|]. cbn [dec_aux].
  destruct (N.ltb_spec n 10) as [H|H].
  - exists (48 + n mod 10), []. split; [reflexivity|]. lia.
  - rewrite dec_aux_app. destruct (IH (n / 10)) as (c & r & -> & Hc); [lia|rewrite pow2_S in Hn; lia|].
    exists c, (r ++ [48 + n mod 10]). auto.
Qed.

Lemma to_decimal_spec : forall n, decimal (to_decimal n) n.
Proof.
  intros n. split; [|split].
  - eapply Forall_impl; [|apply to_decimal_digits]. unfold is_digit. intros; simpl in *; lia.
  - rewrite <- dec_value_fold. apply to_decimal_value.
  - destruct (N.eq_dec n 0) as [->|H]; [left; reflexivity|right].
    apply dec_aux_lead; [lia|]. rewrite pow2_S. pose proof (size_nat_bound n). lia.
Qed.

(** Numerals without leading zeros are unique. *)
Lemma dec_value_bounds : forall r a, Forall (fun c => 48 <= c <= 57) r ->
  a * 10 ^ nlen r <= dec_value a r < (a + 1) * 10 ^ nlen r.
Proof.
  induction r as [|c r IH]; intros a H.
  - simpl. change (nlen (@nil N)) with 0. rewrite N.pow_0_r. lia.
  - inversion H as [|? ? Hc Hr]; subst. cbn [dec_value]. specialize (IH (a * 10 + (c - 48)) Hr).
    rewrite nlen_cons, N.pow_add_r, N.pow_1_r. revert IH. generalize (10 ^ nlen r). intros p IH.
    assert (a * 10 <= a * 10 + (c - 48) <= a * 10 + 9) by lia. nia.
Qed.

Lemma decimal_cons_len : forall c r n, decimal (c :: r) n -> c <> 48 -> 10 ^ nlen r <= n < 10 ^ (1 + nlen r).
Proof.
  intros c r n (Hd & Hv & _) Hc. inversion Hd as [|? ? Hc' Hr]; subst.
  rewrite <- dec_value_fold. cbn [dec_value]. pose proof (dec_value_bounds r (0 * 10 + (c - 48)) Hr) as B.
  rewrite N.pow_add_r, N.pow_1_r. revert B. generalize (10 ^ nlen r). intros p B. nia.
Qed.

Lemma dec_value_inj_len : forall a b x y, length a = length b ->
  Forall (fun c => 48 <= c <= 57) a -> Forall (fun c => 48 <= c <= 57) b ->
  dec_value x a = dec_value y b -> x = y /\ a = b.
Proof.
  induction a as [|c a IH]; destruct b as [|d b]; simpl; intros x y Hl Ha Hb H; try discriminate; [auto|].
  inversion Ha as [|? ? Hc Ha']; inversion Hb as [|? ? Hd Hb']; subst.
  destruct (IH b (x * 10 + (c - 48)) (y * 10 + (d - 48))) as [E1 E2]; try assumption; [lia|].
  subst. split; [lia|]. f_equal. lia.
Qed.

Lemma decimal_unique : forall a b n, decimal a n -> decimal b n -> a = b.
Proof.
  assert (Z : forall c r n, decimal (c :: r) n -> c <> 48 -> decimal [48] n -> False).
  { intros c r n H Hc (_ & E & _). apply decimal_cons_len in H; [|assumption]. simpl in E.
    subst n. pose proof (N.pow_nonzero 10 (nlen r)). lia. }
  intros a b n Ha Hb. pose proof Ha as (Ha1 & Ha2 & [Ea|(c & r & Ea & Hc)]);
    pose proof Hb as (Hb1 & Hb2 & [Eb|(d & s & Eb & Hd)]); subst a b.
  - reflexivity.
  - exfalso. eapply Z; eauto.
  - exfalso. eapply Z; eauto.
  - pose proof (decimal_cons_len _ _ _ Ha Hc) as La. pose proof (decimal_cons_len _ _ _ Hb Hd) as Lb.
    assert (L : nlen r = nlen s).
    { destruct (N.lt_trichotomy (nlen r) (nlen s)) as [L|[L|L]]; [|assumption|]; exfalso.
      - assert (10 ^ (1 + nlen r) <= 10 ^ nlen s) by (apply N.pow_le_mono_r; lia). lia.
      - assert (10 ^ (1 + nlen s) <= 10 ^ nlen r) by (apply N.pow_le_mono_r; lia). lia. }
    rewrite <- dec_value_fold in Ha2, Hb2.
    destruct (dec_value_inj_len (c :: r) (d :: s) 0 0) as [_ E]; try assumption.
    + simpl. unfold nlen in L. lia.
    + congruence.
Qed.

Lemma decimal_eq : forall l n, decimal l n <-> l = to_decimal n.
Proof.
  intros l n. split; [|intros ->; apply to_decimal_spec].
  intros H. eapply decimal_unique; [exact H|apply to_decimal_spec].
Qed.

(** ** Object ids *)

Lemma framed_eq : forall t n d content, framed t n d content <->
  exists name, base_name t name /\ content = name ++ [32] ++ to_decimal n ++ [0] ++ d.
Proof.
  intros t n d content. split.
  - intros (name & dec & H1 & H2 & ->). apply decimal_eq in H2. subst. exists name. auto.
  - intros (name & H1 & ->). exists name, (to_decimal n). split; [assumption|]. split; [|reflexivity].
    apply to_decimal_spec.
Qed.

Lemma app_split_uniq : forall (c : N) a b r s, ~ In c a -> ~ In c b -> a ++ c :: r = b ++ c :: s ->
  a = b /\ r = s.
Proof.
  intros c a b r s Ha Hb E. pose proof (find_byte_app c a r Ha) as Fa.
  rewrite E, (find_byte_app c b s Hb) in Fa. injection Fa as L.
  assert (K : firstn (length a) (a ++ c :: r) = firstn (length a) (b ++ c :: s)) by (rewrite E; reflexivity).
  rewrite firstn_app_exact, <- L, firstn_app_exact in K. subst b. split; [reflexivity|].
  apply app_inv_head in E. congruence.
Qed.

Lemma base_name_no : forall t n c, base_name t n -> c = 32 \/ c = 0 -> ~ In c n.
Proof.
  intros t n c H Hc. inversion H; subst; destruct Hc as [-> | ->]; simpl; intuition discriminate.
Qed.
Lemma base_name_inj : forall t t' n, base_name t n -> base_name t' n -> t = t'.
Proof. intros t t' n H H'. inversion H; subst; inversion H'; reflexivity. Qed.
Lemma base_name_fun : forall t n n', base_name t n -> base_name t n' -> n = n'.
Proof. intros t n n' H H'. inversion H; subst; inversion H'; reflexivity. Qed.

Lemma framed_inj : forall t t' n n' d d' content,
  framed t n d content -> framed t' n' d' content -> t = t' /\ n = n' /\ d = d'.
Proof.
  intros t t' n n' d d' content H H'. apply framed_eq in H as (nm & Hn & ->).
  apply framed_eq in H' as (nm' & Hn' & E). simpl in E.
  apply app_split_uniq in E as [-> E]; [|eapply base_name_no; eauto|eapply base_name_no; eauto].
  apply app_split_uniq in E as [E1 E2]; [|apply decimal_no; lia|apply decimal_no; lia].
  apply to_decimal_inj in E1. split; [eapply base_name_inj; eassumption|]. auto.
Qed.

Lemma hash_preimage_framed : forall t d, is_base t -> exists p, hash_preimage t d = Ok p /\
  framed t (nlen d) d p.
Proof.
  intros t d (n & H). inversion H; subst; (eexists; split; [reflexivity|apply framed_eq; eexists; split; [constructor|reflexivity]]).
Qed.

Lemma meta_new_base : forall t d, is_base t -> exists content, framed t (nlen d) d content /\
  meta_new t d = Ok (mkMeta t (sha1 content) (nlen d) d []).
Proof.
  intros t d H. destruct (hash_preimage_framed t d H) as (p & E & F).
  exists p. split; [assumption|]. unfold meta_new, hash_from_meta. rewrite E. reflexivity.
Qed.
Lemma meta_new_delta : forall t d, ~ is_base t -> meta_new t d = Panic.
Proof.
  intros t d H. destruct t; try reflexivity; exfalso; apply H; eexists; constructor.
Qed.

Lemma be32_len : forall w, length (be32 w) = 4%nat.
Proof. reflexivity. Qed.
Lemma be32_bytes : forall w, bytes_ok (be32 w).
Proof.
  intros w. unfold be32. repeat constructor; unfold byte_ok; rewrite land_255; lia.
Qed.
#[global] Arguments sha1 : simpl never.
#[global] Arguments sha256 : simpl never.
#[global] Arguments be32 : simpl never.

Lemma sha1_ok : forall m, id_ok (sha1 m).
Proof.
  intros m. unfold sha1. destruct (fold_left _ _ _) as [[[[a b] c] d] e]. split.
  - rewrite !app_length, !be32_len. reflexivity.
  - unfold bytes_ok. rewrite !Forall_app. repeat split; apply be32_bytes.
Qed.
Lemma sha1_len : forall m, length (sha1 m) = 20%nat.
Proof. intros. apply sha1_ok. Qed.

Lemma meta_new_ok : forall t d m, meta_new t d = Ok m ->
  is_base t /\ m_t m = t /\ m_data m = d /\ m_size m = nlen d /\ m_delta_header m = [] /\ id_ok (m_id m).
Proof.
  intros t d m H.
  assert (B : is_base t) by (destruct t; try discriminate; eexists; constructor).
  destruct (meta_new_base t d B) as (content & _ & E). rewrite E in H. injection H as <-.
  simpl. repeat split; try assumption; apply sha1_ok.
Qed.

Lemma meta_new_wf : forall t d m, bytes_ok d -> nlen d < U64 -> meta_new t d = Ok m -> wf_object m.
Proof.
  intros t d m Hd Hn H. destruct (meta_new_ok t d m H) as (B & <- & <- & Hs & Hh & Hi).
  unfold wf_object. repeat split; try assumption; try congruence.
  destruct (meta_new_base (m_t m) (m_data m) B) as (content & F & E). rewrite E in H.
  exists content. split; [assumption|]. injection H as H. rewrite <- H. reflexivity.
Qed.
Lemma wf_meta_new : forall m, wf_object m -> meta_new (m_t m) (m_data m) = Ok m.
Proof.
  intros [t id size data hd] (B & Hs & Hh & Hd & Hn & content & F & Hi). simpl in *. subst.
  destruct (meta_new_base t data B) as (content' & F' & E). rewrite E.
  assert (content' = content).
  { apply framed_eq in F as (n1 & N1 & ->). apply framed_eq in F' as (n2 & N2 & ->).
    rewrite (base_name_fun _ _ _ N1 N2). reflexivity. }
  subst. reflexivity.
Qed.

(** ** Paths and files *)

Lemma path_eqb_refl : forall p, path_eqb p p = true.
Proof.
  intros p. unfold path_eqb. rewrite Nat.eqb_refl. simpl.
  induction p; simpl; [reflexivity|]. rewrite beq_refl. assumption.
Qed.
Lemma path_eqb_eq : forall p q, path_eqb p q = true <-> p = q.
Proof.
  split; [|intros ->; apply path_eqb_refl]. unfold path_eqb. intros H.
  apply andb_true_iff in H as [H1 H2]. apply Nat.eqb_eq in H1. revert q H1 H2.
  induction p as [|x p IH]; intros [|y q] H1 H2; simpl in *; try discriminate; [reflexivity|].
  apply andb_true_iff in H2 as [E H2]. apply beq_eq in E. subst. f_equal. apply IH; [lia|assumption].
Qed.
Lemma path_eqb_neq : forall p q, path_eqb p q = false <-> p <> q.
Proof.
  intros p q. destruct (path_eqb p q) eqn:E.
  - apply path_eqb_eq in E. subst. split; congruence.
  - split; [|reflexivity]. intros _ ->. rewrite path_eqb_refl in E. discriminate.
Qed.

Lemma fs_get_put_same : forall f p c, fs_get (fs_put f p c) p = Some c.
Proof. intros. unfold fs_put. simpl. rewrite path_eqb_refl. reflexivity. Qed.
Lemma fs_get_put_other : forall f p c q, q <> p -> fs_get (fs_put f p c) q = fs_get f q.
Proof.
  intros f p c q H. unfold fs_put. cbn [fs_get].
  replace (path_eqb p q) with false by (symmetry; apply path_eqb_neq; congruence).
  induction f as [|[r c'] f IH]; simpl; [reflexivity|].
  destruct (path_eqb r p) eqn:E; simpl.
  - apply path_eqb_eq in E. subst r.
    replace (path_eqb p q) with false by (symmetry; apply path_eqb_neq; congruence). assumption.
  - destruct (path_eqb r q); [reflexivity|assumption].
Qed.

Lemma loose_path_parts : forall h, id_ok h -> length (to_folder h) = 2%nat /\
  length (to_filename h) = 38%nat /\ id_text (to_folder h ++ to_filename h) h.
Proof.
  intros h H. unfold to_folder, to_filename.
  pose proof (to_plain_str_len h (proj1 H)) as L.
  rewrite firstn_length, skipn_length, L, firstn_skipn. repeat split; try apply H.
  apply to_plain_str_text. assumption.
Qed.

Lemma loose_path_inj : forall r a b, id_ok a -> id_ok b -> loose_path r a = loose_path r b -> a = b.
Proof.
  intros r a b Ha Hb E. unfold loose_path in E. apply app_inv_head in E. injection E as E1 E2.
  apply to_plain_str_inj; try assumption.
  rewrite <- (firstn_skipn 2 (to_plain_str a)), <- (firstn_skipn 2 (to_plain_str b)).
  unfold to_folder, to_filename in *. congruence.
Qed.

Lemma otype_to_bytes_name : forall t n, base_name t n -> otype_to_bytes t = n.
Proof. intros t n H. inversion H; reflexivity. Qed.

(** Reading any framed content, whatever the declared size. *)
Lemma read_framed : forall c f p t n d content file,
  codec_ok c -> fs_get f p = Some file -> file = deflate c content ->
  framed t n d content -> bytes_ok d -> n < U64 -> read_object_from_file c f p = meta_new t d.
Proof.
  intros c f p t n d content file Hc Hf -> HF Hd Hn.
  apply framed_eq in HF as (name & Hnm & ->).
  set (content := name ++ [32] ++ to_decimal n ++ [0] ++ d) in *.
  assert (Hb : bytes_ok content).
  { unfold content, bytes_ok. rewrite !Forall_app. repeat split; try assumption.
    - inversion Hnm; repeat constructor; unfold byte_ok; lia.
    - repeat constructor.
    - eapply Forall_impl; [|apply to_decimal_digits]. unfold is_digit, byte_ok. intros; simpl in *; lia.
    - repeat constructor. }
  unfold read_object_from_file. rewrite Hf. cbn [unwrap_opt bind].
  pose proof (Hc content [] Hb) as E. rewrite app_nil_r in E. rewrite E. cbn [unwrap_opt bind fst].
  unfold content at 1. cbn [app].
  rewrite find_byte_app by (eapply base_name_no; eauto). cbn [unwrap_opt bind].
  assert (F0 : find_byte 0 content = Some (length name + 1 + length (to_decimal n))%nat).
  { unfold content. rewrite app_assoc, app_assoc. cbn [app]. rewrite find_byte_app.
    - rewrite !app_length. reflexivity.
    - rewrite !in_app_iff. intros [[H|H]|H].
      + revert H. eapply base_name_no; eauto.
      + destruct H as [H|[]]. discriminate.
      + revert H. apply decimal_no. lia. }
  rewrite F0. cbn [unwrap_opt bind].
  replace (slice (length name + 1) (length name + 1 + length (to_decimal n)) content)
    with (@Ok bytes (to_decimal n)).
  2:{ symmetry. unfold content. rewrite app_assoc. apply slice_mid; rewrite app_length; reflexivity. }
  cbn [bind]. rewrite parse_to_decimal by assumption. cbn [unwrap_opt bind].
  replace (slice_from (length name + 1 + length (to_decimal n) + 1) content) with (@Ok bytes d).
  2:{ symmetry. unfold content. rewrite !app_assoc. apply slice_from_app. rewrite !app_length. reflexivity. }
  cbn [bind]. replace (firstn (length name) content) with name
    by (symmetry; apply firstn_app_exact).
  inversion Hnm; subst; reflexivity.
Qed.

Lemma loose_roundtrip : forall c f root m, codec_ok c -> wf_object m ->
  let '(f', p) := write_to_file c f root m in
  p = loose_path root (m_id m) /\ read_object_from_file c f' p = Ok m /\
  forall q, q <> p -> fs_get f' q = fs_get f q.
Proof.
  intros c f root m Hc Hw. pose proof Hw as (B & Hs & Hh & Hd & Hn & content & F & Hi).
  unfold write_to_file. split; [reflexivity|]. split.
  - rewrite <- (wf_meta_new m Hw). eapply read_framed; [exact Hc|apply fs_get_put_same|reflexivity| |exact Hd|exact Hn].
    apply framed_eq. destruct B as (n & Hnm). exists n. split; [assumption|].
    rewrite (otype_to_bytes_name _ _ Hnm). reflexivity.
  - intros q Hq. apply fs_get_put_other. assumption.
Qed.

(** The file itself is in git's loose format. *)
Lemma loose_format : forall c f root m, wf_object m ->
  exists content, framed (m_t m) (nlen (m_data m)) (m_data m) content /\
    fs_get (fst (write_to_file c f root m)) (loose_path root (m_id m)) = Some (deflate c content).
Proof.
  intros c f root m ((n & Hnm) & _).
  eexists. split; [|unfold write_to_file; apply fs_get_put_same].
  apply framed_eq. exists n. split; [assumption|]. rewrite (otype_to_bytes_name _ _ Hnm). reflexivity.
Qed.

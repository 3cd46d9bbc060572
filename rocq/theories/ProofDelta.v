(** Proofs about ModelDelta. *)

From Verif Require Import Base BaseLemmas Digest ModelUtils ModelObject ModelDelta
  SpecFormat SpecObject SpecDelta ProofUtils ProofObject.
Open Scope N_scope.

(** ** Optional argument bytes *)

Definition opt_ok (x : option N) : Prop := match x with Some b => b < 256 | None => True end.

Lemma pow256_S : forall i, 2 ^ ((i + 1) * 8) = 256 * 2 ^ (i * 8).
Proof.
  intros i. replace ((i + 1) * 8) with (8 + i * 8) by lia. rewrite N.pow_add_r. reflexivity.
Qed.

Lemma lor_byte : forall v b i, v < 2 ^ (i * 8) -> N.lor v (N.shiftl b (i * 8)) = v + 2 ^ (i * 8) * b.
Proof. intros v b i H. rewrite shiftl_mul, lor_add_low by assumption. lia. Qed.

Lemma pmask_lt : forall l, pmask l < 2 ^ nlen l.
Proof.
  induction l as [|[b|] l IH]; [reflexivity| |]; cbn [pmask]; rewrite nlen_cons, N.pow_add_r; change (2 ^ 1) with 2; lia.
Qed.
Lemma pvalue_lt : forall l, Forall opt_ok l -> pvalue l < 2 ^ (nlen l * 8).
Proof.
  induction 1 as [|[b|] l Hb _ IH]; [reflexivity| |]; cbn [pvalue]; rewrite nlen_cons;
    replace ((1 + nlen l) * 8) with ((nlen l + 1) * 8) by lia; rewrite pow256_S; simpl in Hb; lia.
Qed.

Lemma read_partial_spec : forall l i v p rest, Forall opt_ok l -> v < 2 ^ (i * 8) ->
  read_partial_loop (length l) i v (pmask l + 2 ^ nlen l * p) (pargs l ++ rest)
  = Ok (v + 2 ^ (i * 8) * pvalue l, p, rest).
Proof.
  induction l as [|o l IH]; intros i v p rest Hl Hv.
  - cbn [length read_partial_loop pmask pargs pvalue app]. change (nlen (@nil (option N))) with 0.
    rewrite N.pow_0_r. f_equal. f_equal. f_equal; lia.
  - inversion Hl as [|? ? Ho Hl']; subst. cbn [length read_partial_loop].
    rewrite nlen_cons, N.pow_add_r. change (2 ^ 1) with 2. rewrite land_1, shiftr_div. change (2 ^ 1) with 2.
    assert (Hp : forall r, 0 < 2 ^ r) by (intros; apply N.neq_0_lt_0, N.pow_nonzero; lia).
    destruct o as [b|]; cbn [pmask pargs pvalue app].
    + replace ((1 + 2 * pmask l + 2 * 2 ^ nlen l * p) mod 2) with 1 by
        (replace (1 + 2 * pmask l + 2 * 2 ^ nlen l * p) with (1 + (pmask l + 2 ^ nlen l * p) * 2) by lia;
         generalize (pmask l + 2 ^ nlen l * p); intros; lia).
      cbn [N.eqb]. replace ((1 + 2 * pmask l + 2 * 2 ^ nlen l * p) / 2) with (pmask l + 2 ^ nlen l * p) by
        (replace (1 + 2 * pmask l + 2 * 2 ^ nlen l * p) with (1 + (pmask l + 2 ^ nlen l * p) * 2) by lia;
         generalize (pmask l + 2 ^ nlen l * p); intros; lia).
      rewrite lor_byte by assumption. simpl in Ho. rewrite IH; [|assumption|].
      * f_equal. f_equal. f_equal. rewrite pow256_S. lia.
      * rewrite pow256_S. specialize (Hp (i * 8)). nia.
    + replace ((2 * pmask l + 2 * 2 ^ nlen l * p) mod 2) with 0 by
        (replace (2 * pmask l + 2 * 2 ^ nlen l * p) with ((pmask l + 2 ^ nlen l * p) * 2) by lia;
         generalize (pmask l + 2 ^ nlen l * p); intros; lia).
      cbn [N.eqb]. replace ((2 * pmask l + 2 * 2 ^ nlen l * p) / 2) with (pmask l + 2 ^ nlen l * p) by
        (replace (2 * pmask l + 2 * 2 ^ nlen l * p) with ((pmask l + 2 ^ nlen l * p) * 2) by lia;
         generalize (pmask l + 2 ^ nlen l * p); intros; lia).
      rewrite IH; [|assumption|].
      * f_equal. f_equal. f_equal. rewrite pow256_S. lia.
      * rewrite pow256_S. lia.
Qed.

Lemma read_partial_inv : forall n i v p s v' p' r, bytes_ok s -> v < 2 ^ (i * 8) ->
  read_partial_loop n i v p s = Ok (v', p', r) ->
  exists l, length l = n /\ Forall opt_ok l /\ p = pmask l + 2 ^ nlen l * p' /\
    s = pargs l ++ r /\ v' = v + 2 ^ (i * 8) * pvalue l.
Proof.
  induction n as [|n IH]; intros i v p s v' p' r Hs Hv H; cbn [read_partial_loop] in H.
  - injection H as <- <- <-. exists []. change (nlen (@nil (option N))) with 0. rewrite N.pow_0_r.
    cbn. repeat split; try constructor; lia.
  - rewrite land_1, shiftr_div in H. change (2 ^ 1) with 2 in H.
    destruct (N.eqb_spec (p mod 2) 0) as [E|E].
    + apply IH in H as (l & Hl & Ho & Hp & Hr & Hv'); [|assumption|rewrite pow256_S; lia].
      exists (None :: l). cbn [length pmask pargs pvalue]. rewrite nlen_cons, N.pow_add_r. change (2 ^ 1) with 2.
      rewrite pow256_S in Hv'. repeat split; try lia; try assumption.
      constructor; [exact I|assumption].
    + destruct s as [|b s]; [discriminate|]. inversion Hs as [|? ? Hb Hs']; subst.
      rewrite lor_byte in H by assumption. unfold byte_ok in Hb.
      apply IH in H as (l & Hl & Ho & Hp & Hr & Hv'); [|assumption|].
      * exists (Some b :: l). cbn [length pmask pargs pvalue app]. rewrite nlen_cons, N.pow_add_r. change (2 ^ 1) with 2.
        rewrite pow256_S in Hv'. repeat split; try lia.
        -- constructor; assumption.
        -- rewrite Hr. reflexivity.
      * rewrite pow256_S. assert (0 < 2 ^ (i * 8)) by (apply N.neq_0_lt_0, N.pow_nonzero; lia). nia.
Qed.

(** Too few argument bytes. *)
Lemma read_partial_short : forall l i v p a b, pargs l = a ++ b -> b <> [] ->
  read_partial_loop (length l) i v (pmask l + 2 ^ nlen l * p) a = Err EIo.
Proof.
  induction l as [|o l IH]; intros i v p a b E Hb.
  - cbn in E. destruct a, b; try discriminate. congruence.
  - cbn [length read_partial_loop].
    rewrite nlen_cons, N.pow_add_r. change (2 ^ 1) with 2. rewrite land_1, shiftr_div. change (2 ^ 1) with 2.
    destruct o as [x|]; cbn [pmask pargs] in *.
    + replace ((1 + 2 * pmask l + 2 * 2 ^ nlen l * p) mod 2) with 1 by
        (replace (1 + 2 * pmask l + 2 * 2 ^ nlen l * p) with (1 + (pmask l + 2 ^ nlen l * p) * 2) by lia;
         generalize (pmask l + 2 ^ nlen l * p); intros; lia).
      cbn [N.eqb]. replace ((1 + 2 * pmask l + 2 * 2 ^ nlen l * p) / 2) with (pmask l + 2 ^ nlen l * p) by
        (replace (1 + 2 * pmask l + 2 * 2 ^ nlen l * p) with (1 + (pmask l + 2 ^ nlen l * p) * 2) by lia;
         generalize (pmask l + 2 ^ nlen l * p); intros; lia).
      destruct a as [|y a]; [reflexivity|]. injection E as <- E. eapply IH; eassumption.
    + replace ((2 * pmask l + 2 * 2 ^ nlen l * p) mod 2) with 0 by
        (replace (2 * pmask l + 2 * 2 ^ nlen l * p) with ((pmask l + 2 ^ nlen l * p) * 2) by lia;
         generalize (pmask l + 2 ^ nlen l * p); intros; lia).
      cbn [N.eqb]. replace ((2 * pmask l + 2 * 2 ^ nlen l * p) / 2) with (pmask l + 2 ^ nlen l * p) by
        (replace (2 * pmask l + 2 * 2 ^ nlen l * p) with ((pmask l + 2 ^ nlen l * p) * 2) by lia;
         generalize (pmask l + 2 ^ nlen l * p); intros; lia).
      eapply IH; eassumption.
Qed.

Lemma pmask_app : forall a b, pmask (a ++ b) = pmask a + 2 ^ nlen a * pmask b.
Proof.
  induction a as [|[x|] a IH]; intros b; cbn [app pmask].
  - change (nlen (@nil (option N))) with 0. rewrite N.pow_0_r. lia.
  - rewrite IH, nlen_cons, N.pow_add_r. change (2 ^ 1) with 2. lia.
  - rewrite IH, nlen_cons, N.pow_add_r. change (2 ^ 1) with 2. lia.
Qed.
Lemma pargs_app : forall a b, pargs (a ++ b) = pargs a ++ pargs b.
Proof. induction a as [|[x|] a IH]; intros b; cbn [app pargs]; rewrite ?IH; reflexivity. Qed.

Lemma copy_mask : forall o s, length o = 4%nat -> length s = 3%nat ->
  128 + pmask (o ++ s) = pmask o + 2 ^ nlen o * (pmask s + 2 ^ nlen s * 1).
Proof.
  intros o s Ho Hs. rewrite pmask_app. unfold nlen. rewrite Ho, Hs.
  change (2 ^ N.of_nat 4) with 16. change (2 ^ N.of_nat 3) with 8. lia.
Qed.

(** ** One instruction *)

Lemma apply_data : forall base d s result, 1 <= nlen d <= 127 ->
  apply_delta_instruction base ((nlen d :: d) ++ s) result = Ok (Some (s, result ++ d)).
Proof.
  intros base d s result H. cbn [app apply_delta_instruction].
  rewrite land_128 by lia. replace (nlen d <? 128) with true by lia. cbn [N.eqb].
  replace (nlen d =? 0) with false by lia.
  unfold read_bytes. rewrite app_length.
  replace (N.to_nat (nlen d)) with (length d) by (unfold nlen; lia).
  replace (length d <=? length d + length s)%nat with true by lia.
  rewrite firstn_app_exact, skipn_app_exact. reflexivity.
Qed.

Lemma apply_copy_args : forall base code args off size s result, copy_op code args off size ->
  apply_delta_instruction base (code :: args ++ s) result =
  match get_range (N.to_nat off) (N.to_nat (off + size)) base with
  | Some data => Ok (Some (s, result ++ data))
  | None => Err EDeltaObjError
  end.
Proof.
  intros base code args off size s result (o & z & Ho & Hz & Hok & -> & -> & -> & ->).
  apply Forall_app in Hok as [Hok1 Hok2].
  cbn [apply_delta_instruction].
  assert (B : pmask (o ++ z) < 128).
  { pose proof (pmask_lt (o ++ z)) as P. unfold nlen in P. rewrite app_length, Ho, Hz in P. exact P. }
  rewrite land_128 by lia. replace (128 + pmask (o ++ z) <? 128) with false by lia. cbn [N.eqb].
  rewrite copy_mask, pargs_app, <- app_assoc by assumption. unfold read_partial_int.
  rewrite <- Ho at 1. rewrite read_partial_spec; [|assumption|reflexivity]. cbn [unwrap bind].
  rewrite <- Hz at 1. rewrite read_partial_spec; [|assumption|reflexivity]. cbn [unwrap bind].
  change (2 ^ (0 * 8)) with 1. rewrite !N.mul_1_l, !N.add_0_l. reflexivity.
Qed.

Lemma get_range_parts : forall A (p d q : list A) off size, nlen p = off -> nlen d = size ->
  get_range (N.to_nat off) (N.to_nat (off + size)) (p ++ d ++ q) = Some d.
Proof.
  intros A p d q off size <- <-. apply get_range_mid; unfold nlen; lia.
Qed.

Lemma apply_instr : forall base i o s result, instr base i o ->
  apply_delta_instruction base (i ++ s) result = Ok (Some (s, result ++ o)).
Proof.
  intros base i o s result H. inversion H as [d Hd|code args off size p d q Hc Hb Hp Hd]; subst i o.
  - apply apply_data. assumption.
  - cbn [app]. rewrite (apply_copy_args base code args off size) by assumption.
    rewrite Hb, (get_range_parts _ p d q off size) by assumption. reflexivity.
Qed.

Lemma get_range_some : forall A (l : list A) a b d, get_range a b l = Some d ->
  exists p q, l = p ++ d ++ q /\ length p = a /\ (a + length d = b)%nat.
Proof.
  intros A l a b d H. unfold get_range in H.
  destruct ((a <=? b)%nat && (b <=? length l)%nat) eqn:E; [|discriminate]. injection H as H.
  apply (slice_ok A l a b d). unfold slice. rewrite E, H. reflexivity.
Qed.
Lemma get_range_none : forall A (l : list A) a b, get_range a b l = None -> (a <= b)%nat -> (length l < b)%nat.
Proof.
  intros A l a b H Hab. unfold get_range in H.
  destruct ((a <=? b)%nat && (b <=? length l)%nat) eqn:E; [discriminate|]. lia.
Qed.

Lemma apply_instr_inv : forall base s result s' result', bytes_ok s ->
  apply_delta_instruction base s result = Ok (Some (s', result')) ->
  exists i o, instr base i o /\ s = i ++ s' /\ result' = result ++ o.
Proof.
  intros base s result s' result' Hs H. destruct s as [|code s]; [discriminate|].
  inversion Hs as [|? ? Hc Hs1]; subst. unfold byte_ok in Hc. cbn [apply_delta_instruction] in H.
  rewrite land_128 in H by assumption. destruct (N.ltb_spec code 128) as [Hlt|Hge]; cbn [N.eqb] in H.
  - destruct (N.eqb_spec code 0) as [|Hz]; [discriminate|].
    unfold read_bytes in H. destruct (Nat.leb_spec (N.to_nat code) (length s)) as [Hl|Hl]; [|discriminate].
    cbn [unwrap bind] in H. injection H as <- <-.
    exists (code :: firstn (N.to_nat code) s), (firstn (N.to_nat code) s). split; [|split].
    + assert (E : nlen (firstn (N.to_nat code) s) = code) by (unfold nlen; rewrite firstn_length; lia).
      rewrite <- E at 1. constructor. lia.
    + cbn [app]. rewrite firstn_skipn. reflexivity.
    + reflexivity.
  - unfold read_partial_int in H.
    destruct (read_partial_loop 4 0 0 code s) as [[[off p1] s2]| | |] eqn:E1; try discriminate.
    cbn [unwrap bind] in H.
    apply read_partial_inv in E1 as (o & Ho & Hok1 & Hp1 & -> & Hoff); [|assumption|reflexivity].
    apply Forall_app in Hs1 as [_ Hs2].
    destruct (read_partial_loop 3 0 0 p1 s2) as [[[sz p2] s3]| | |] eqn:E2; try discriminate.
    cbn [unwrap bind] in H.
    apply read_partial_inv in E2 as (z & Hz & Hok2 & Hp2 & -> & Hsz); [|assumption|reflexivity].
    change (2 ^ (0 * 8)) with 1 in *. rewrite N.mul_1_l, N.add_0_l in Hoff, Hsz. subst off sz.
    match type of H with match ?g with _ => _ end = _ => destruct g as [d|] eqn:G end; [|discriminate].
    injection H as <- <-. apply get_range_some in G as (p & q & Hb & Hlp & Hld).
    exists (code :: pargs o ++ pargs z), d. split; [|split; [cbn [app]; rewrite app_assoc; reflexivity|reflexivity]].
    eapply in_copy; [|exact Hb| |].
    + exists o, z. repeat split; try assumption.
      * apply Forall_app. split; assumption.
      * rewrite copy_mask by assumption. assert (p2 = 1).
        { pose proof (pmask_lt o) as Q1. pose proof (pmask_lt z) as Q2. unfold nlen in *.
          rewrite Ho in *. rewrite Hz in *. change (2 ^ N.of_nat 4) with 16 in *. change (2 ^ N.of_nat 3) with 8 in *. lia. }
        subst p2. subst p1. assumption.
      * rewrite pargs_app. reflexivity.
    + unfold nlen. lia.
    + unfold nlen. destruct (pvalue z =? 0); lia.
Qed.

Lemma instr_nonempty : forall base i o, instr base i o -> i <> [] /\ o <> [].
Proof.
  intros base i o H. inversion H as [d Hd|code args off size p d q Hc Hb Hp Hd]; subst.
  - split; [discriminate|]. intros ->. change (nlen (@nil N)) with 0 in Hd. lia.
  - split; [discriminate|]. intros ->. change (nlen (@nil N)) with 0 in Hc.
    destruct Hc as (? & s & ? & ? & ? & ? & ? & ? & E). unfold nlen in E. cbn [length N.of_nat] in E.
    destruct (N.eqb_spec (pvalue s) 0); lia.
Qed.

(** ** The loop *)

Lemma apply_loop_instrs : forall base s out, instrs base s out -> forall rest result fuel,
  (length s + length rest < fuel)%nat ->
  exists fuel', (length rest < fuel')%nat /\
  apply_delta_loop fuel base (s ++ rest) result = apply_delta_loop fuel' base rest (result ++ out).
Proof.
  induction 1 as [|i o s out Hi Hs IH]; intros rest result fuel Hf.
  - exists fuel. rewrite app_nil_r. split; [cbn in Hf; lia|reflexivity].
  - destruct fuel as [|f]; [lia|]. cbn [apply_delta_loop]. rewrite <- app_assoc.
    rewrite (apply_instr base i o) by assumption. cbn [bind].
    rewrite app_assoc. apply IH. apply instr_nonempty in Hi as [Hi _].
    rewrite app_length in Hf. destruct i; [congruence|]. cbn [length] in Hf. lia.
Qed.

Lemma apply_loop_end : forall base s out fuel, instrs base s out -> (length s < fuel)%nat ->
  apply_delta_loop fuel base s [] = Ok out.
Proof.
  intros base s out fuel H Hf.
  destruct (apply_loop_instrs base s out H [] [] fuel) as (f' & Hf' & E); [cbn; lia|].
  rewrite app_nil_r in E. rewrite E. destruct f'; [cbn in Hf'; lia|]. reflexivity.
Qed.

Lemma apply_loop_inv : forall fuel base s result out, bytes_ok s ->
  apply_delta_loop fuel base s result = Ok out -> exists o, instrs base s o /\ out = result ++ o.
Proof.
  induction fuel as [|f IH]; intros base s result out Hs H; [discriminate|]. cbn [apply_delta_loop] in H.
  destruct (apply_delta_instruction base s result) as [[[s' r']|]| | |] eqn:E; try discriminate; cbn [bind] in H.
  - apply apply_instr_inv in E as (i & o & Hi & -> & ->); [|assumption].
    apply Forall_app in Hs as [_ Hs]. apply IH in H as (o' & Ho & ->); [|assumption].
    exists (o ++ o'). split; [constructor; assumption|]. rewrite app_assoc. reflexivity.
  - destruct s as [|c s].
    + injection H as <-. exists []. split; [constructor|]. rewrite app_nil_r. reflexivity.
    + exfalso. cbn [apply_delta_instruction] in E. destruct (N.land c 128 =? 0).
      * destruct (c =? 0); [discriminate|]. destruct (unwrap _) as [[]| | |]; discriminate.
      * destruct (unwrap _) as [[[]]| | |]; try discriminate. cbn [bind] in E.
        destruct (unwrap _) as [[[]]| | |]; try discriminate. cbn [bind] in E.
        destruct (get_range _ _ _); discriminate.
Qed.

(** Fuel is never exhausted. *)
Lemma apply_instr_shorter : forall base s result s' result',
  apply_delta_instruction base s result = Ok (Some (s', result')) -> (length s' < length s)%nat.
Proof.
  assert (RP : forall n i v p s v' p' r, read_partial_loop n i v p s = Ok (v', p', r) -> (length r <= length s)%nat).
  { induction n as [|n IH]; intros i v p s v' p' r H; cbn [read_partial_loop] in H.
    - injection H as _ _ <-. lia.
    - destruct (_ =? 0); [eauto|]. destruct s; [discriminate|]. apply IH in H. cbn. lia. }
  intros base s result s' result' H. destruct s as [|c s]; [discriminate|]. cbn [apply_delta_instruction] in H.
  destruct (N.land c 128 =? 0).
  - destruct (c =? 0); [discriminate|]. unfold read_bytes in H. destruct (_ <=? _)%nat; [|discriminate].
    cbn [unwrap bind] in H. injection H as <- _. rewrite skipn_length. cbn. lia.
  - unfold read_partial_int in H. destruct (read_partial_loop 4 _ _ _ _) as [[[]]| | |] eqn:E1; try discriminate.
    cbn [unwrap bind] in H. destruct (read_partial_loop 3 _ _ _ _) as [[[]]| | |] eqn:E2; try discriminate.
    cbn [unwrap bind] in H. destruct (get_range _ _ _); [|discriminate]. injection H as <- _.
    apply RP in E1, E2. cbn. lia.
Qed.
Lemma unwrap_read_bytes_fuel : forall n s, unwrap (read_bytes n s) <> OutOfFuel.
Proof. intros. unfold read_bytes. destruct (_ <=? _)%nat; discriminate. Qed.
Lemma read_partial_fuel : forall n i v p s, read_partial_loop n i v p s <> OutOfFuel.
Proof.
  induction n as [|n IH]; intros i v p s; cbn [read_partial_loop]; [discriminate|].
  destruct (_ =? 0); [apply IH|]. destruct s; [discriminate|apply IH].
Qed.
Lemma apply_instr_fuel : forall base s result, apply_delta_instruction base s result <> OutOfFuel.
Proof.
  intros base s result. destruct s as [|c s]; [discriminate|]. cbn [apply_delta_instruction].
  destruct (N.land c 128 =? 0).
  - destruct (c =? 0); [discriminate|]. unfold read_bytes. destruct (_ <=? _)%nat; discriminate.
  - unfold read_partial_int. destruct (read_partial_loop 4 _ _ _ _) as [[[]]| | |] eqn:E1; try discriminate.
    + cbn [unwrap bind]. destruct (read_partial_loop 3 _ _ _ _) as [[[]]| | |] eqn:E2; try discriminate.
      * cbn [unwrap bind]. destruct (get_range _ _ _); discriminate.
      * exfalso. exact (read_partial_fuel _ _ _ _ _ E2).
    + exfalso. exact (read_partial_fuel _ _ _ _ _ E1).
Qed.
Lemma apply_loop_fuel : forall fuel base s result, (length s < fuel)%nat ->
  apply_delta_loop fuel base s result <> OutOfFuel.
Proof.
  induction fuel as [|f IH]; intros base s result Hf; [lia|]. cbn [apply_delta_loop].
  destruct (apply_delta_instruction base s result) as [[[s' r']|]| | |] eqn:E; try discriminate; cbn [bind].
  - apply apply_instr_shorter in E. apply IH. lia.
  - exfalso. exact (apply_instr_fuel _ _ _ E).
Qed.

(** ** Size fields *)

Lemma shl_lor : forall m v b len, len < 64 -> v < 2 ^ len -> b < 128 ->
  exists w, shl64 m b len = Ok w /\ N.lor v w < 2 ^ 64 /\
    N.lor v w = v + w /\ (v + w) mod 2 ^ 64 = (v + b * 2 ^ len) mod 2 ^ 64 /\ v + w < 2 ^ (len + 7).
Proof.
  intros m v b len Hl Hv Hb. unfold shl64. replace (len <? 64) with true by lia.
  rewrite shiftl_mul. unfold U64.
  assert (E : (b * 2 ^ len) mod 2 ^ 64 = (b mod 2 ^ (64 - len)) * 2 ^ len).
  { replace (2 ^ 64) with (2 ^ (64 - len) * 2 ^ len) by (rewrite <- N.pow_add_r; f_equal; lia).
    rewrite N.mul_mod_distr_r; [reflexivity| |]; apply N.pow_nonzero; lia. }
  eexists. split; [reflexivity|]. rewrite E.
  assert (L : N.lor v (b mod 2 ^ (64 - len) * 2 ^ len) = v + b mod 2 ^ (64 - len) * 2 ^ len)
    by (apply lor_add_low; assumption).
  rewrite L. assert (B : b mod 2 ^ (64 - len) < 2 ^ (64 - len)) by (apply N.mod_upper_bound, N.pow_nonzero; lia).
  assert (B2 : b mod 2 ^ (64 - len) <= b) by (apply N.mod_le, N.pow_nonzero; lia).
  assert (P : 2 ^ (64 - len) * 2 ^ len = 2 ^ 64) by (rewrite <- N.pow_add_r; f_equal; lia).
  assert (P7 : 2 ^ (len + 7) = 2 ^ len * 128) by (rewrite N.pow_add_r; reflexivity).
  split; [|split; [reflexivity|split]].
  - rewrite <- P. revert B Hv. clear.
    generalize (b mod 2 ^ (64 - len)) as x. intros x.
    generalize (2 ^ (64 - len)) as y. generalize (2 ^ len) as z. intros z y B Hv.
    assert ((x + 1) * z <= y * z) by (apply N.mul_le_mono_r; lia). lia.
  - rewrite <- E, N.add_mod_idemp_r; [reflexivity|discriminate].
  - rewrite P7. revert B2 Hv Hb. clear. generalize (b mod 2 ^ (64 - len)) as x. generalize (2 ^ len) as z.
    intros z x B Hv Hb. assert (x * z <= 127 * z) by (apply N.mul_le_mono_r; lia). lia.
Qed.

Lemma read_size_loop_inv : forall s m v len n r, bytes_ok s -> v < 2 ^ len -> v < 2 ^ 64 ->
  read_size_loop m v len s = Ok (n, r) ->
  exists l n', s = l ++ r /\ leb128 l n' /\
    (len + 7 * (nlen l - 1) < 64 -> n = (v + n' * 2 ^ len) mod 2 ^ 64) /\
    (m = Debug -> len + 7 * (nlen l - 1) < 64).
Proof.
  assert (Sh : forall s m v len n r, bytes_ok s -> read_size_loop m v len s = Ok (n, r) ->
    exists l n', s = l ++ r /\ leb128 l n' /\ (m = Debug -> len + 7 * (nlen l - 1) < 64)).
  { induction s as [|b s IH]; intros m v len n r Hs H; cbn [read_size_loop] in H; [discriminate|].
    inversion Hs as [|? ? Hb Hs']; subst. unfold byte_ok in Hb.
    apply bind_ok in H as (sh & Hsh & H). rewrite more_flag in H by assumption.
    assert (D : m = Debug -> len < 64).
    { intros ->. unfold shl64 in Hsh. destruct (N.ltb_spec len 64); [assumption|discriminate]. }
    destruct (N.leb_spec 128 b) as [Hm|Hm].
    - apply bind_ok in H as (len' & Hlen & H). apply IH in H as (l & n' & -> & Hl & Hd); [|assumption].
      exists (b :: l), ((b - 128) + 128 * n'). split; [reflexivity|]. split.
      + replace b with (128 + (b - 128)) at 1 by lia. constructor; [lia|assumption].
      + intros Hmd. specialize (Hd Hmd). specialize (D Hmd). subst m. unfold add8 in Hlen.
        destruct (N.ltb_spec (len + 7) U8); [|discriminate]. injection Hlen as <-.
        rewrite nlen_cons. apply leb128_nonempty in Hl. destruct l; [congruence|]. rewrite nlen_cons in *. lia.
    - injection H as <- <-. exists [b], b. split; [reflexivity|]. split; [constructor; assumption|].
      intros Hmd. specialize (D Hmd). change (nlen [b]) with 1. lia. }
  induction s as [|b s IH]; intros m v len n r Hs Hv Hv64 H.
  - discriminate.
  - destruct (Sh (b :: s) m v len n r Hs H) as (l0 & n0 & E0 & Hl0 & Hd0).
    destruct (N.lt_ge_cases (len + 7 * (nlen l0 - 1)) 64) as [Hfit|Hfit].
    2:{ exists l0, n0. split; [assumption|]. split; [assumption|]. split; [intros; lia|assumption]. }
    cbn [read_size_loop] in H. inversion Hs as [|? ? Hb Hs']; subst. unfold byte_ok in Hb.
    assert (Hlen : len < 64) by lia.
    rewrite land_127 in H.
    destruct (shl_lor m v (b mod 128) len Hlen Hv) as (w & Hw & B1 & B2 & B3 & B4); [lia|].
    rewrite Hw in H. cbn [bind] in H. rewrite more_flag in H by assumption. rewrite B2 in *.
    destruct (N.leb_spec 128 b) as [Hm|Hm].
    + unfold add8 in H. replace (len + 7 <? U8) with true in H by (rewrite U8_val; lia). cbn [bind] in H.
      apply IH in H as (l & n' & E & Hl & Hn & Hd); [|assumption|assumption|assumption].
      exists (b :: l), ((b - 128) + 128 * n'). split; [rewrite E; reflexivity|]. split.
      * replace b with (128 + (b - 128)) at 1 by lia. constructor; [lia|assumption].
      * apply leb128_nonempty in Hl. destruct l as [|x l]; [congruence|].
        split; [|intros Hmd; specialize (Hd Hmd); rewrite !nlen_cons in *; lia].
        rewrite !nlen_cons in *. intros Hf. rewrite Hn by lia.
        rewrite N.add_mod, B3, <- N.add_mod by discriminate.
        f_equal. replace (b mod 128) with (b - 128) by lia.
        replace (2 ^ (len + 7)) with (2 ^ len * 128) by (rewrite N.pow_add_r; reflexivity). lia.
    + injection H as <- <-. exists [b], b. split; [reflexivity|]. split; [constructor; assumption|].
      change (nlen [b]) with 1. split; [|intros; lia]. intros _.
      rewrite <- (N.mod_small (v + w) (2 ^ 64)) by assumption. rewrite B3.
      rewrite (N.mod_small b) by assumption. reflexivity.
Qed.

Lemma read_size_inv : forall m s n r, bytes_ok s -> read_size_encoding m s = Ok (n, r) ->
  exists l n', s = l ++ r /\ leb128 l n' /\
    ((length l <= 10)%nat -> n = n' mod 2 ^ 64) /\ (m = Debug -> (length l <= 10)%nat).
Proof.
  intros m s n r Hs H. apply read_size_loop_inv in H as (l & n' & E & Hl & Hn & Hd);
    [|assumption|reflexivity|reflexivity].
  exists l, n'. split; [assumption|]. split; [assumption|]. unfold nlen in *. split.
  - intros L. rewrite Hn by lia. f_equal. change (2 ^ 0) with 1. lia.
  - intros Hmd. specialize (Hd Hmd). lia.
Qed.

(** ** Whole deltas *)

Definition sizes_fit (delta : bytes) : Prop :=
  forall l1 n1 l2 n2 rest, delta = l1 ++ l2 ++ rest -> leb128 l1 n1 -> leb128 l2 n2 ->
    (length l1 <= 10)%nat /\ (length l2 <= 10)%nat /\ n1 < 2 ^ 64 /\ n2 < 2 ^ 64.

Lemma apply_delta_sizes : forall m base l1 l2 n2 s,
  m_size base < 2 ^ 64 -> leb128 l1 (m_size base) -> (length l1 <= 10)%nat ->
  leb128 l2 n2 -> (length l2 <= 10)%nat -> n2 < 2 ^ 63 ->
  apply_delta m base (l1 ++ l2 ++ s) =
    let? result := apply_delta_loop (S (length s)) (m_data base) s [] in
    if negb (nlen result =? n2) then Err EDeltaObjError else meta_new (m_t base) result.
Proof.
  intros m base l1 l2 n2 s Hb H1 L1 H2 L2 Hn2. unfold apply_delta.
  rewrite (read_size_leb m l1 (m_size base)) by assumption. cbn [unwrap bind].
  rewrite N.eqb_refl. cbn [negb]. rewrite (read_size_leb m l2 n2); [|assumption|assumption|rewrite U64_val; change (2 ^ 63) with 9223372036854775808 in Hn2; lia].
  cbn [unwrap bind]. replace (2 ^ 63 <=? n2) with false by lia. reflexivity.
Qed.

Lemma apply_delta_complete : forall m base delta out,
  m_size base = nlen (m_data base) -> nlen (m_data base) < 2 ^ 64 -> nlen out < 2 ^ 63 ->
  git_delta (m_data base) delta out -> apply_delta m base delta = meta_new (m_t base) out.
Proof.
  intros m base delta out Hs Hb Ho (l1 & l2 & ops & -> & H1 & L1 & H2 & L2 & Hi).
  rewrite <- Hs in H1, Hb. rewrite (apply_delta_sizes m base l1 l2 (nlen out)) by assumption.
  rewrite (apply_loop_end _ _ out) by (assumption || lia). cbn [bind]. rewrite N.eqb_refl. reflexivity.
Qed.

Lemma apply_delta_sound : forall m base delta r, bytes_ok delta -> apply_delta m base delta = Ok r ->
  exists l1 n1 l2 n2 ops out, delta = l1 ++ l2 ++ ops /\ leb128 l1 n1 /\ leb128 l2 n2 /\
    ((length l1 <= 10)%nat -> n1 mod 2 ^ 64 = m_size base) /\
    ((length l2 <= 10)%nat -> n2 mod 2 ^ 64 = nlen out) /\
    (m = Debug -> (length l1 <= 10)%nat /\ (length l2 <= 10)%nat) /\
    instrs (m_data base) ops out /\ nlen out < 2 ^ 63 /\ meta_new (m_t base) out = Ok r.
Proof.
  intros m base delta r Hd H. unfold apply_delta in H.
  apply bind_ok in H as ([bsz s1] & H1 & H). apply unwrap_ok in H1.
  apply read_size_inv in H1 as (l1 & n1 & -> & Hl1 & Hn1 & Hm1); [|assumption].
  apply Forall_app in Hd as [_ Hd].
  destruct (N.eqb_spec (m_size base) bsz) as [E|E]; [|discriminate]. cbn [negb] in H.
  apply bind_ok in H as ([rsz s2] & H2 & H). apply unwrap_ok in H2.
  apply read_size_inv in H2 as (l2 & n2 & -> & Hl2 & Hn2 & Hm2); [|assumption].
  apply Forall_app in Hd as [_ Hd].
  destruct (N.leb_spec (2 ^ 63) rsz); [discriminate|].
  apply bind_ok in H as (out & Hout & H). apply apply_loop_inv in Hout as (o & Hi & ->); [|assumption].
  cbn [app] in *. destruct (N.eqb_spec (nlen o) rsz) as [E2|E2]; [|discriminate]. cbn [negb] in H.
  exists l1, n1, l2, n2, s2, o. split; [reflexivity|]. split; [assumption|]. split; [assumption|].
  split; [intros L; rewrite E, (Hn1 L); reflexivity|]. split; [intros L; rewrite E2, (Hn2 L); reflexivity|].
  split; [auto|]. split; [assumption|]. split; [lia|assumption].
Qed.

Lemma apply_delta_iff : forall m base delta r,
  m_size base = nlen (m_data base) -> nlen (m_data base) < 2 ^ 64 -> bytes_ok delta -> sizes_fit delta ->
  (apply_delta m base delta = Ok r <->
   exists out, git_delta (m_data base) delta out /\ nlen out < 2 ^ 63 /\ meta_new (m_t base) out = Ok r).
Proof.
  intros m base delta r Hs Hb Hd Hf. split.
  - intros H. apply apply_delta_sound in H
      as (l1 & n1 & l2 & n2 & ops & out & -> & H1 & H2 & E1 & E2 & _ & Hi & Ho & Hr); [|assumption].
    destruct (Hf l1 n1 l2 n2 ops eq_refl H1 H2) as (L1 & L2 & N1 & N2).
    specialize (E1 L1). specialize (E2 L2). rewrite N.mod_small in E1, E2 by assumption. subst n1 n2.
    exists out. split; [|auto]. exists l1, l2, ops. rewrite <- Hs. auto 10.
  - intros (out & Hg & Ho & Hr). rewrite <- Hr. apply apply_delta_complete; assumption.
Qed.

(** ** Malformed deltas *)

Lemma apply_loop_step : forall base s out rest fuel, instrs base s out ->
  (length s + length rest < fuel)%nat ->
  exists f, apply_delta_loop fuel base (s ++ rest) [] =
    bind (apply_delta_instruction base rest out)
         (fun o => match o with None => Ok out | Some (s', r') => apply_delta_loop f base s' r' end).
Proof.
  intros base s out rest fuel H Hf.
  destruct (apply_loop_instrs base s out H rest [] fuel Hf) as (f & Hl & E).
  destruct f as [|f]; [lia|]. exists f. rewrite E. reflexivity.
Qed.

Lemma instr_cut : forall base a b o result, instr base (a ++ b) o -> a <> [] -> b <> [] ->
  apply_delta_instruction base a result = Panic.
Proof.
  intros base a b o result H Ha Hb. inversion H as [d Hd E|code args off size p d q Hc Hbs Hp Hd E]; subst o.
  - destruct a as [|c a]; [congruence|]. cbn [app] in E. injection E as Hn E. cbn [apply_delta_instruction].
    rewrite land_128 by lia. replace (c <? 128) with true by lia. cbn [N.eqb].
    replace (c =? 0) with false by lia. unfold read_bytes.
    assert (length a < N.to_nat c)%nat.
    { subst d c. unfold nlen. rewrite app_length. destruct b; [congruence|]. cbn [length]. lia. }
    destruct (Nat.leb_spec (N.to_nat c) (length a)); [lia|reflexivity].
  - destruct a as [|c a]; [congruence|]. cbn [app] in E. injection E as -> E.
    destruct Hc as (o & z & Ho & Hz & Hok & -> & Hargs & -> & ->).
    apply Forall_app in Hok as [Hok1 Hok2]. cbn [apply_delta_instruction].
    assert (B : pmask (o ++ z) < 128).
    { pose proof (pmask_lt (o ++ z)) as P. unfold nlen in P. rewrite app_length, Ho, Hz in P. exact P. }
    rewrite land_128 by lia. replace (128 + pmask (o ++ z) <? 128) with false by lia. cbn [N.eqb].
    rewrite copy_mask by assumption. rewrite Hargs, pargs_app in E. unfold read_partial_int.
    apply app_eq_app in E as (k & [[E1 E2]|[E1 E2]]).
    + (* the cut is inside the offset bytes, or exactly between *)
      destruct k as [|x k].
      * rewrite app_nil_r in E1. cbn [app] in E2. subst a. rewrite <- (app_nil_r (pargs o)).
        rewrite <- Ho at 1. rewrite read_partial_spec; [|assumption|reflexivity]. cbn [unwrap bind].
        rewrite <- Hz at 1. rewrite (read_partial_short z 0 0 1 [] (pargs z)); [reflexivity|reflexivity|congruence].
      * rewrite <- Ho at 1. rewrite (read_partial_short o 0 0 _ a (x :: k)); [reflexivity|assumption|discriminate].
    + subst a. rewrite <- Ho at 1. rewrite read_partial_spec; [|assumption|reflexivity]. cbn [unwrap bind].
      rewrite <- Hz at 1. rewrite (read_partial_short z 0 0 1 k b); [reflexivity|assumption|assumption].
Qed.

Lemma delta_cut_panics : forall m base l1 l2 n2 s out a b o,
  m_size base < 2 ^ 64 -> leb128 l1 (m_size base) -> (length l1 <= 10)%nat ->
  leb128 l2 n2 -> (length l2 <= 10)%nat -> n2 < 2 ^ 63 ->
  instrs (m_data base) s out -> instr (m_data base) (a ++ b) o -> a <> [] -> b <> [] ->
  apply_delta m base (l1 ++ l2 ++ s ++ a) = Panic.
Proof.
  intros m base l1 l2 n2 s out a b o Hb H1 L1 H2 L2 Hn Hs Hi Ha Hbb.
  rewrite (apply_delta_sizes m base l1 l2 n2) by assumption.
  destruct (apply_loop_step _ _ _ a (S (length (s ++ a))) Hs) as (f & E); [rewrite app_length; lia|].
  rewrite E. rewrite (instr_cut _ a b o) by assumption. reflexivity.
Qed.

Lemma delta_bad_opcode : forall m base l1 l2 n2 s out rest,
  m_size base < 2 ^ 64 -> leb128 l1 (m_size base) -> (length l1 <= 10)%nat ->
  leb128 l2 n2 -> (length l2 <= 10)%nat -> n2 < 2 ^ 63 -> instrs (m_data base) s out ->
  apply_delta m base (l1 ++ l2 ++ s ++ 0 :: rest) = Err EDeltaObjError.
Proof.
  intros m base l1 l2 n2 s out rest Hb H1 L1 H2 L2 Hn Hs.
  rewrite (apply_delta_sizes m base l1 l2 n2) by assumption.
  destruct (apply_loop_step _ _ _ (0 :: rest) (S (length (s ++ 0 :: rest))) Hs) as (f & E); [rewrite app_length; lia|].
  rewrite E. reflexivity.
Qed.

Lemma delta_copy_outside : forall m base l1 l2 n2 s out code args off size rest,
  m_size base < 2 ^ 64 -> leb128 l1 (m_size base) -> (length l1 <= 10)%nat ->
  leb128 l2 n2 -> (length l2 <= 10)%nat -> n2 < 2 ^ 63 -> instrs (m_data base) s out ->
  copy_op code args off size -> nlen (m_data base) < off + size ->
  apply_delta m base (l1 ++ l2 ++ s ++ code :: args ++ rest) = Err EDeltaObjError.
Proof.
  intros m base l1 l2 n2 s out code args off size rest Hb H1 L1 H2 L2 Hn Hs Hc Ho.
  rewrite (apply_delta_sizes m base l1 l2 n2) by assumption.
  destruct (apply_loop_step _ _ _ (code :: args ++ rest) (S (length (s ++ code :: args ++ rest))) Hs)
    as (f & E); [rewrite app_length; lia|].
  rewrite E. rewrite (apply_copy_args _ code args off size) by assumption.
  unfold get_range. unfold nlen in Ho.
  replace (N.to_nat (off + size) <=? length (m_data base))%nat with false by lia.
  rewrite andb_false_r. reflexivity.
Qed.

Lemma delta_wrong_base : forall m base l1 n1 s,
  leb128 l1 n1 -> (length l1 <= 10)%nat -> n1 < 2 ^ 64 -> n1 <> m_size base ->
  apply_delta m base (l1 ++ s) = Err EDeltaObjError.
Proof.
  intros m base l1 n1 s H1 L1 N1 Hne. unfold apply_delta.
  rewrite (read_size_leb m l1 n1) by assumption. cbn [unwrap bind].
  replace (m_size base =? n1) with false by lia. reflexivity.
Qed.

Lemma delta_wrong_length : forall m base l1 l2 n2 s out,
  m_size base < 2 ^ 64 -> leb128 l1 (m_size base) -> (length l1 <= 10)%nat ->
  leb128 l2 n2 -> (length l2 <= 10)%nat -> n2 < 2 ^ 63 -> instrs (m_data base) s out ->
  nlen out <> n2 -> apply_delta m base (l1 ++ l2 ++ s) = Err EDeltaObjError.
Proof.
  intros m base l1 l2 n2 s out Hb H1 L1 H2 L2 Hn Hs Hne.
  rewrite (apply_delta_sizes m base l1 l2 n2) by assumption.
  rewrite (apply_loop_end _ _ out) by (assumption || lia). cbn [bind].
  replace (nlen out =? n2) with false by lia. reflexivity.
Qed.

Lemma read_size_fuel : forall s m v len, read_size_loop m v len s <> OutOfFuel.
Proof.
  induction s as [|b s IH]; intros m v len; cbn [read_size_loop]; [discriminate|].
  unfold shl64. destruct (len <? 64); [|destruct m; [discriminate|]]; cbn [bind];
    (destruct (negb _); [|discriminate]); unfold add8;
    (destruct (_ <? _); [|try destruct m; try discriminate]); cbn [bind]; try apply IH; discriminate.
Qed.
Lemma apply_delta_fuel : forall m base delta, apply_delta m base delta <> OutOfFuel.
Proof.
  intros m base delta H. unfold apply_delta in H.
  destruct (read_size_encoding m delta) as [[n s]| | |] eqn:E; try discriminate;
    [|exact (read_size_fuel _ _ _ _ E)].
  cbn [unwrap bind] in H. destruct (negb _); [discriminate|].
  destruct (read_size_encoding m s) as [[n2 s2]| | |] eqn:E2; try discriminate;
    [|exact (read_size_fuel _ _ _ _ E2)].
  cbn [unwrap bind] in H. destruct (_ <=? _); [discriminate|].
  destruct (apply_delta_loop _ _ _ _) eqn:E3; try discriminate.
  - cbn [bind] in H. destruct (negb _); [discriminate|]. destruct (m_t base); discriminate.
  - apply apply_loop_fuel in E3; [assumption|lia].
Qed.

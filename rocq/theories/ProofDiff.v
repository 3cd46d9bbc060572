(** Proofs about the delta generator of ModelDelta. *)

From Verif Require Import Base BaseLemmas Digest ModelUtils ModelObject ModelDelta
  SpecFormat SpecObject SpecDelta SpecDiff ProofUtils ProofObject ProofDelta.
Open Scope N_scope.

(** ** Instructions as a list of operations *)

Definition op_out (old new : bytes) (o : delta_op) : bytes :=
  match ins o with
  | COPY => firstn (op_len o) (skipn (op_begin o) old)
  | DATA => firstn (op_len o) (skipn (op_begin o) new)
  end.
Definition op_ok (old new : bytes) (o : delta_op) : Prop :=
  (0 < op_len o)%nat /\
  match ins o with
  | COPY => (op_begin o + op_len o <= length old)%nat
  | DATA => (op_begin o + op_len o <= length new)%nat /\ (op_len o <= 127)%nat
  end.
Definition ops_out (old new : bytes) (l : list delta_op) : bytes := flat_map (op_out old new) l.

Lemma split_last_spec : forall A (l : list A) f t, split_last l = Some (f, t) -> l = f ++ [t].
Proof.
  induction l as [|x l IH]; intros f t H; [discriminate|]. cbn [split_last] in H.
  destruct l as [|y l]; [injection H as <- <-; reflexivity|].
  destruct (split_last (y :: l)) as [[i z]|]; [|discriminate]. injection H as <- <-.
  rewrite (IH i z eq_refl). reflexivity.
Qed.

Lemma ops_out_app : forall old new a b, ops_out old new (a ++ b) = ops_out old new a ++ ops_out old new b.
Proof. intros. apply flat_map_app. Qed.

Lemma firstn_add : forall A (l : list A) a b, firstn (a + b) l = firstn a l ++ firstn b (skipn a l).
Proof.
  intros A l a b. revert l. induction a; intros l; [reflexivity|]. destruct l; cbn; [rewrite firstn_nil; reflexivity|].
  rewrite IHa. reflexivity.
Qed.
Lemma firstn_skipn_add : forall A (l : list A) b x y,
  firstn (x + y) (skipn b l) = firstn x (skipn b l) ++ firstn y (skipn (b + x) l).
Proof. intros. rewrite firstn_add, skipn_skipn'. reflexivity. Qed.

Lemma diff_equal_ok : forall old new ops i len, Forall (op_ok old new) ops -> (0 < len)%nat ->
  (i + len <= length old)%nat ->
  Forall (op_ok old new) (diff_equal ops i len) /\
  ops_out old new (diff_equal ops i len) = ops_out old new ops ++ firstn len (skipn i old).
Proof.
  intros old new ops i len Hok Hlen Hi. unfold diff_equal.
  assert (D : Forall (op_ok old new) (ops ++ [mkOp COPY i len]) /\
    ops_out old new (ops ++ [mkOp COPY i len]) = ops_out old new ops ++ firstn len (skipn i old)).
  { split.
    - apply Forall_app. split; [assumption|]. constructor; [|constructor]. split; cbn; lia.
    - rewrite ops_out_app. cbn. rewrite app_nil_r. reflexivity. }
  destruct (split_last ops) as [[f t]|] eqn:E; [|exact D].
  destruct ((op_begin t + op_len t =? i)%nat && is_copy t) eqn:C; [|exact D].
  apply split_last_spec in E. subst ops. apply Forall_app in Hok as [H1 H2].
  inversion H2 as [|? ? Ht _]; subst. destruct t as [[|] b l]; [cbn in C; rewrite andb_false_r in C; discriminate|].
  cbn in C. rewrite andb_true_r in C. apply Nat.eqb_eq in C. destruct Ht as [Ht1 Ht2]. cbn in Ht1, Ht2. split.
  - apply Forall_app. split; [assumption|]. constructor; [|constructor]. split; cbn; lia.
  - rewrite !ops_out_app, <- app_assoc. f_equal. cbn. rewrite !app_nil_r. rewrite firstn_skipn_add, C. reflexivity.
Qed.

Lemma insert_split_ok : forall old new fuel j len, (len <= fuel)%nat -> (0 < len)%nat ->
  (j + len <= length new)%nat ->
  Forall (op_ok old new) (insert_split fuel j len) /\
  ops_out old new (insert_split fuel j len) = firstn len (skipn j new).
Proof.
  intros old new. induction fuel as [|f IH]; intros j len Hf Hl Hj; [lia|]. cbn [insert_split].
  unfold DATA_INS_LEN in *. destruct (Nat.ltb_spec 127 len) as [H|H].
  - destruct (IH (j + 127)%nat (len - 127)%nat) as [I1 I2]; [lia|lia|lia|]. split.
    + constructor; [|assumption]. split; cbn [op_len op_begin ins]; lia.
    + cbn [ops_out flat_map]. fold (ops_out old new). change (flat_map (op_out old new)) with (ops_out old new).
      rewrite I2. unfold op_out. cbn [ins op_len op_begin]. rewrite <- firstn_skipn_add. f_equal. lia.
  - split.
    + constructor; [|constructor]. split; cbn [op_len op_begin ins]; lia.
    + cbn [ops_out flat_map]. rewrite app_nil_r. reflexivity.
Qed.

Lemma diff_insert_ok : forall old new ops j len, Forall (op_ok old new) ops -> (0 < len)%nat ->
  (j + len <= length new)%nat ->
  Forall (op_ok old new) (diff_insert ops j len) /\
  ops_out old new (diff_insert ops j len) = ops_out old new ops ++ firstn len (skipn j new).
Proof.
  intros old new ops j len Hok Hlen Hj. unfold diff_insert.
  destruct (Nat.ltb_spec DATA_INS_LEN len) as [H|H].
  - destruct (insert_split_ok old new len j len) as [I1 I2]; [lia|assumption|assumption|].
    split; [apply Forall_app; split; assumption|]. rewrite ops_out_app, I2. reflexivity.
  - assert (D : Forall (op_ok old new) (ops ++ [mkOp DATA j len]) /\
      ops_out old new (ops ++ [mkOp DATA j len]) = ops_out old new ops ++ firstn len (skipn j new)).
    { unfold DATA_INS_LEN in H. split.
      - apply Forall_app. split; [assumption|]. constructor; [|constructor]. split; cbn [op_len op_begin ins]; lia.
      - rewrite ops_out_app. cbn [ops_out flat_map]. rewrite app_nil_r. reflexivity. }
    destruct (split_last ops) as [[f t]|] eqn:E; [|exact D].
    match goal with |- context [if ?c then _ else _] => destruct c eqn:C end; [|exact D].
    apply andb_true_iff in C as [C C3]. apply andb_true_iff in C as [C1 C2].
    apply Nat.eqb_eq in C1. apply Nat.ltb_lt in C3. unfold DATA_INS_LEN in *.
    apply split_last_spec in E. subst ops. apply Forall_app in Hok as [H1 H2].
    inversion H2 as [|? ? Ht _]; subst. destruct t as [[|] b l]; [|discriminate].
    destruct Ht as [Ht1 [Ht2 Ht3]]. cbn [op_len op_begin ins] in *. split.
    + apply Forall_app. split; [assumption|]. constructor; [|constructor]. split; cbn [op_len op_begin ins]; lia.
    + rewrite !ops_out_app, <- app_assoc. f_equal. cbn [ops_out flat_map]. rewrite !app_nil_r.
      unfold op_out. cbn [op_len op_begin ins]. apply firstn_skipn_add.
Qed.

Lemma diff_ops_from : forall old new i j s, valid_script old new i j s -> forall ops,
  Forall (op_ok old new) ops -> ops_out old new ops = firstn j new ->
  Forall (op_ok old new) (fold_left diff_call s ops) /\ ops_out old new (fold_left diff_call s ops) = new.
Proof.
  induction 1 as [|i j len r Hlen Hi Hj He Hv IH|i j j' len r Hi Hv IH|i j i' len r Hlen Hj Hv IH];
    intros ops Hok Ho; cbn [fold_left diff_call].
  - split; [assumption|]. rewrite Ho, firstn_all. reflexivity.
  - destruct (diff_equal_ok old new ops i len Hok Hlen Hi) as [K1 K2]. apply IH; [assumption|].
    rewrite K2, Ho, He, <- firstn_add. reflexivity.
  - apply IH; assumption.
  - destruct (diff_insert_ok old new ops j len Hok Hlen Hj) as [K1 K2]. apply IH; [assumption|].
    rewrite K2, Ho, <- firstn_add. reflexivity.
Qed.
Lemma diff_ops_ok : forall old new s, edit_script old new s ->
  Forall (op_ok old new) (diff_ops s) /\ ops_out old new (diff_ops s) = new.
Proof. intros old new s H. eapply diff_ops_from; [exact H|constructor|reflexivity]. Qed.

(** ** Encoding of copy instructions *)

Fixpoint obytes (k : nat) (v : N) : list (option N) :=
  match k with
  | O => []
  | S k' => (if v mod 256 =? 0 then None else Some (v mod 256)) :: obytes k' (v / 256)
  end.
Lemma obytes_len : forall k v, length (obytes k v) = k.
Proof. induction k; intros v; cbn; [reflexivity|]. rewrite IHk. reflexivity. Qed.
Lemma obytes_ok : forall k v, Forall opt_ok (obytes k v).
Proof.
  induction k; intros v; cbn [obytes]; constructor; [|apply IHk].
  destruct (v mod 256 =? 0); [exact I|]. cbn. lia.
Qed.
Lemma obytes_value : forall k v, pvalue (obytes k v) = v mod 2 ^ (N.of_nat k * 8).
Proof.
  induction k as [|k IH]; intros v.
  - cbn. rewrite N.mod_1_r. reflexivity.
  - cbn [obytes pvalue]. replace (N.of_nat (S k) * 8) with ((N.of_nat k + 1) * 8) by lia.
    rewrite pow256_S. rewrite N.mod_mul_r by (try discriminate; apply N.pow_nonzero; discriminate).
    rewrite <- IH. destruct (N.eqb_spec (v mod 256) 0) as [E|E]; cbn [pvalue]; [rewrite E|]; reflexivity.
Qed.

Lemma lor_instruct : forall x i, x < 2 ^ i -> i < 7 -> N.lor (128 + x) (N.shiftl 1 i) = 128 + (x + 2 ^ i).
Proof.
  intros x i Hx Hi. assert (P : 2 ^ (i + 1) <= 128) by (change 128 with (2 ^ 7); apply N.pow_le_mono_r; lia).
  rewrite N.pow_add_r in P. change (2 ^ 1) with 2 in P.
  replace (128 + x) with (N.lor 128 x).
  2:{ change 128 with (1 * 2 ^ 7). rewrite lor_add_high; [reflexivity|]. change (2 ^ 7) with 128. lia. }
  rewrite <- N.lor_assoc, shiftl_mul.
  rewrite lor_add_low by assumption. rewrite N.mul_1_l.
  change 128 with (1 * 2 ^ 7). rewrite lor_add_high; [reflexivity|]. change (2 ^ 7) with 128. lia.
Qed.

Lemma copy_bytes_spec : forall k i v x acc, x < 2 ^ i -> i + N.of_nat k <= 7 ->
  copy_bytes k i v (128 + x) acc = (128 + (x + 2 ^ i * pmask (obytes k v)), acc ++ pargs (obytes k v)).
Proof.
  induction k as [|k IH]; intros i v x acc Hx Hi; cbn [copy_bytes obytes].
  - cbn. rewrite app_nil_r. f_equal. lia.
  - rewrite land_255, shiftr_div. change (2 ^ 8) with 256.
    assert (P : 2 ^ (i + 1) = 2 * 2 ^ i) by (rewrite N.pow_add_r; change (2 ^ 1) with 2; lia).
    destruct (N.eqb_spec (v mod 256) 0) as [E|E]; cbn [pmask pargs].
    + rewrite IH by (try rewrite P; lia). f_equal. rewrite P. lia.
    + rewrite lor_instruct by lia. rewrite IH by (try rewrite P; lia).
      rewrite <- app_assoc. cbn [app]. f_equal. rewrite P. lia.
Qed.

Lemma decode_copy : forall new b l, exists code args,
  decode_op new (mkOp COPY b l) = Ok (code :: args) /\
  copy_op code args (N.of_nat b mod 2 ^ 32)
    (if N.of_nat l mod 2 ^ 24 =? 0 then 65536 else N.of_nat l mod 2 ^ 24).
Proof.
  intros new b l. set (o := obytes 4 (N.of_nat b)). set (z := obytes 3 (N.of_nat l)).
  assert (Lo : length o = 4%nat) by apply obytes_len.
  exists (128 + pmask (o ++ z)), (pargs (o ++ z)). split.
  - unfold decode_op. cbn [ins op_begin op_len].
    pose proof (copy_bytes_spec 4 0 (N.of_nat b) 0 []) as E1. rewrite N.add_0_r in E1.
    rewrite E1 by (try reflexivity; vm_compute; discriminate). fold o. cbn [app].
    change (2 ^ 0) with 1. rewrite N.mul_1_l, N.add_0_l.
    pose proof (pmask_lt o) as Po. unfold nlen in Po. rewrite Lo in Po.
    rewrite copy_bytes_spec; [|exact Po|vm_compute; discriminate]. fold z.
    rewrite pmask_app, pargs_app. unfold nlen. rewrite Lo. reflexivity.
  - exists o, z. unfold o, z. rewrite !obytes_len. repeat split.
    + apply Forall_app. split; apply obytes_ok.
    + rewrite obytes_value. reflexivity.
    + rewrite obytes_value. reflexivity.
Qed.

Lemma decode_data : forall old new b l, op_ok old new (mkOp DATA b l) -> exists i,
  decode_op new (mkOp DATA b l) = Ok i /\ instr old i (firstn l (skipn b new)).
Proof.
  intros old new b l [H1 [H2 H3]]. cbn [ins op_begin op_len] in *.
  unfold decode_op. cbn [ins op_begin op_len]. unfold slice.
  replace ((b <=? b + l)%nat && (b + l <=? length new)%nat) with true by lia. cbn [bind].
  replace (b + l - b)%nat with l by lia. eexists. split; [reflexivity|].
  rewrite land_127, U8_val. replace ((N.of_nat l mod 128) mod 256) with (N.of_nat l) by lia.
  assert (E : nlen (firstn l (skipn b new)) = N.of_nat l)
    by (unfold nlen; rewrite firstn_length, skipn_length; lia).
  rewrite <- E at 1. constructor. lia.
Qed.

(** What the decoder will produce for an operation: a copy is truncated. *)
Definition copy_len (l : nat) : nat :=
  N.to_nat (if N.of_nat l mod 2 ^ 24 =? 0 then 65536 else N.of_nat l mod 2 ^ 24).
Definition op_out' (old new : bytes) (o : delta_op) : bytes :=
  match ins o with
  | COPY => firstn (copy_len (op_len o)) (skipn (op_begin o) old)
  | DATA => firstn (op_len o) (skipn (op_begin o) new)
  end.

Lemma copy_len_small : forall l, (0 < l)%nat -> N.of_nat l < 2 ^ 24 -> copy_len l = l.
Proof.
  intros l H1 H2. unfold copy_len. rewrite N.mod_small by assumption.
  destruct (N.eqb_spec (N.of_nat l) 0); lia.
Qed.
Lemma copy_len_big : forall l, 2 ^ 24 <= N.of_nat l -> (copy_len l < l)%nat.
Proof.
  intros l H. unfold copy_len. change (2 ^ 24) with 16777216 in *.
  destruct (N.eqb_spec (N.of_nat l mod 16777216) 0); lia.
Qed.
Lemma copy_len_le : forall l, (0 < l)%nat -> (0 < copy_len l <= l)%nat.
Proof.
  intros l H. unfold copy_len. change (2 ^ 24) with 16777216 in *.
  destruct (N.eqb_spec (N.of_nat l mod 16777216) 0); lia.
Qed.

Lemma decode_op_instr : forall old new o, op_ok old new o -> nlen old <= 2 ^ 32 ->
  exists i, decode_op new o = Ok i /\ instr old i (op_out' old new o).
Proof.
  intros old new [[|] b l] Hok Hold.
  - apply decode_data. assumption.
  - destruct (decode_copy new b l) as (code & args & E & C). exists (code :: args). split; [assumption|].
    destruct Hok as [H1 H2]. cbn [ins op_begin op_len] in *. unfold op_out'. cbn [ins op_begin op_len].
    pose proof (copy_len_le l H1) as L. unfold nlen in Hold.
    rewrite N.mod_small in C by (change (2 ^ 32) with 4294967296 in *; lia).
    eapply in_copy with (p := firstn b old) (q := skipn (b + copy_len l) old); [exact C| | |].
    + rewrite <- skipn_skipn', firstn_skipn, firstn_skipn. reflexivity.
    + unfold nlen. rewrite firstn_length. lia.
    + unfold nlen. rewrite firstn_length, skipn_length. unfold copy_len in *. lia.
Qed.

Lemma decode_ops_instrs : forall old new ops, Forall (op_ok old new) ops -> nlen old <= 2 ^ 32 ->
  exists s, decode_ops new ops = Ok s /\ instrs old s (flat_map (op_out' old new) ops).
Proof.
  intros old new ops H Hold. induction H as [|o ops Ho _ (s & E & I)].
  - exists []. split; [reflexivity|constructor].
  - destruct (decode_op_instr old new o Ho Hold) as (i & Ei & Ii). exists (i ++ s).
    cbn [decode_ops flat_map]. rewrite Ei, E. split; [reflexivity|]. constructor; assumption.
Qed.

Definition big_copy (o : delta_op) : Prop := ins o = COPY /\ 2 ^ 24 <= N.of_nat (op_len o).

Lemma op_out'_small : forall old new o, op_ok old new o -> ~ big_copy o -> op_out' old new o = op_out old new o.
Proof.
  intros old new [[|] b l] [H1 H2] Hb; [reflexivity|]. cbn [ins op_begin op_len] in *.
  unfold op_out', op_out. cbn [ins op_begin op_len]. rewrite copy_len_small; [reflexivity|assumption|].
  apply N.lt_nge. intros K. apply Hb. split; [reflexivity|assumption].
Qed.
Lemma op_out'_le : forall old new o, op_ok old new o ->
  (length (op_out' old new o) <= length (op_out old new o))%nat.
Proof.
  intros old new [[|] b l] [H1 H2]; [apply le_n|]. cbn [ins op_begin op_len] in *.
  unfold op_out', op_out. cbn [ins op_begin op_len]. rewrite !firstn_length, skipn_length.
  pose proof (copy_len_le l H1). lia.
Qed.
Lemma op_out'_lt : forall old new o, op_ok old new o -> big_copy o ->
  (length (op_out' old new o) < length (op_out old new o))%nat.
Proof.
  intros old new [t b l] [H1 H2] [Ht Hb]. cbn [ins op_begin op_len] in *. subst t.
  unfold op_out', op_out. cbn [ins op_begin op_len]. rewrite !firstn_length, skipn_length.
  pose proof (copy_len_big l Hb). lia.
Qed.
Lemma ops_out'_le : forall old new ops, Forall (op_ok old new) ops ->
  (length (flat_map (op_out' old new) ops) <= length (ops_out old new ops))%nat.
Proof.
  induction 1 as [|o ops Ho _ IH]; [apply le_n|]. cbn [flat_map ops_out]. fold (ops_out old new ops).
  change (flat_map (op_out old new) ops) with (ops_out old new ops).
  rewrite !app_length. pose proof (op_out'_le old new o Ho). lia.
Qed.
Lemma ops_out'_lt : forall old new ops, Forall (op_ok old new) ops -> Exists big_copy ops ->
  (length (flat_map (op_out' old new) ops) < length (ops_out old new ops))%nat.
Proof.
  intros old new ops H E. induction E as [o ops Hb|o ops E IH]; inversion H as [|? ? Ho Hops]; subst;
    cbn [flat_map ops_out]; change (flat_map (op_out old new) ops) with (ops_out old new ops);
    rewrite !app_length.
  - pose proof (op_out'_lt old new o Ho Hb). pose proof (ops_out'_le old new ops Hops). lia.
  - pose proof (op_out'_le old new o Ho). specialize (IH Hops). lia.
Qed.

Lemma ops_out'_small : forall old new ops, Forall (op_ok old new) ops -> ~ Exists big_copy ops ->
  flat_map (op_out' old new) ops = ops_out old new ops.
Proof.
  intros old new ops H. induction H as [|o ops Ho _ IH]; intros E; [reflexivity|].
  cbn [flat_map ops_out]. change (flat_map (op_out old new) ops) with (ops_out old new ops).
  rewrite op_out'_small, IH; [reflexivity| |assumption|].
  - intros K. apply E. right. assumption.
  - intros K. apply E. left. assumption.
Qed.

Lemma op_len_le : forall old new ops o, Forall (op_ok old new) ops -> In o ops ->
  (op_len o <= length (ops_out old new ops))%nat.
Proof.
  intros old new ops o H. induction H as [|x ops Hx _ IH]; intros Hin; [destruct Hin|].
  cbn [ops_out flat_map]. change (flat_map (op_out old new) ops) with (ops_out old new ops).
  rewrite app_length. destruct Hin as [->|Hin]; [|specialize (IH Hin); lia].
  destruct o as [[|] b l]; destruct Hx as [H1 H2]; cbn [ins op_begin op_len] in *; unfold op_out;
    cbn [ins op_begin op_len]; rewrite firstn_length, skipn_length; lia.
Qed.

Definition sized (m : meta) : Prop := m_size m = nlen (m_data m).

Lemma delta_generated : forall old new s, sized old -> sized new ->
  edit_script (m_data old) (m_data new) s ->
  nlen (m_data old) <= 2 ^ 32 -> ~ Exists big_copy (diff_ops s) -> nlen (m_data new) < 2 ^ 63 ->
  exists d, get_delta_metadata old new (diff_ops s) = Ok d /\ git_delta (m_data old) d (m_data new).
Proof.
  intros old new s So Sn Hs Ho Hb Hn. destruct (diff_ops_ok _ _ _ Hs) as [Hok Hout].
  destruct (decode_ops_instrs _ _ _ Hok Ho) as (i & Ei & Ii).
  rewrite ops_out'_small, Hout in Ii by assumption.
  unfold get_delta_metadata. rewrite Ei. cbn [bind]. eexists. split; [reflexivity|].
  unfold sized in *. rewrite So, Sn.
  eexists _, _, i. split; [reflexivity|]. split; [apply write_size_leb|].
  split; [apply write_size_len10; change (2 ^ 32) with 4294967296 in Ho; rewrite U64_val; lia|].
  split; [apply write_size_leb|]. split; [|assumption].
  apply write_size_len10. change (2 ^ 63) with 9223372036854775808 in Hn. rewrite U64_val. lia.
Qed.

Lemma small_target_no_big : forall old new s, edit_script old new s -> nlen new < 2 ^ 24 ->
  ~ Exists big_copy (diff_ops s).
Proof.
  intros old new s Hs Hn E. destruct (diff_ops_ok _ _ _ Hs) as [Hok Hout].
  apply Exists_exists in E as (o & Hin & _ & Hb). pose proof (op_len_le _ _ _ o Hok Hin) as L.
  rewrite Hout in L. unfold nlen in Hn. change (2 ^ 24) with 16777216 in *. lia.
Qed.

Lemma delta_reproduces : forall m old new s, sized old -> sized new ->
  edit_script (m_data old) (m_data new) s ->
  nlen (m_data old) <= 2 ^ 32 -> nlen (m_data new) < 2 ^ 24 ->
  exists d, get_delta_metadata old new (diff_ops s) = Ok d /\
    git_delta (m_data old) d (m_data new) /\
    apply_delta m old d = meta_new (m_t old) (m_data new).
Proof.
  intros m old new s So Sn Hs Ho Hn.
  destruct (delta_generated old new s) as (d & E & G); try assumption.
  - eapply small_target_no_big; eassumption.
  - change (2 ^ 24) with 16777216 in Hn. change (2 ^ 63) with 9223372036854775808. lia.
  - exists d. split; [assumption|]. split; [assumption|]. apply apply_delta_complete; try assumption.
    + change (2 ^ 32) with 4294967296 in Ho. change (2 ^ 64) with 18446744073709551616. lia.
    + change (2 ^ 24) with 16777216 in Hn. change (2 ^ 63) with 9223372036854775808. lia.
Qed.

(** A big copy makes the delta inapplicable (but never wrong). *)
Lemma delta_big_rejected : forall m old new s, sized old -> sized new ->
  edit_script (m_data old) (m_data new) s ->
  nlen (m_data old) <= 2 ^ 32 -> nlen (m_data new) < 2 ^ 63 -> Exists big_copy (diff_ops s) ->
  exists d, get_delta_metadata old new (diff_ops s) = Ok d /\ apply_delta m old d = Err EDeltaObjError.
Proof.
  intros m old new s So Sn Hs Ho Hn Hb. destruct (diff_ops_ok _ _ _ Hs) as [Hok Hout].
  destruct (decode_ops_instrs _ _ _ Hok Ho) as (i & Ei & Ii).
  unfold get_delta_metadata. rewrite Ei. cbn [bind]. eexists. split; [reflexivity|].
  unfold sized in *.
  assert (Hs64 : m_size old < U64) by (rewrite So; change (2 ^ 32) with 4294967296 in Ho; rewrite U64_val; lia).
  assert (Hn64 : m_size new < U64) by (rewrite Sn; change (2 ^ 63) with 9223372036854775808 in Hn; rewrite U64_val; lia).
  eapply delta_wrong_length with (n2 := m_size new); try apply write_size_leb;
    try (apply write_size_len10; assumption); try eassumption.
  - rewrite Sn. assumption.
  - rewrite Sn. pose proof (ops_out'_lt _ _ _ Hok Hb) as L. rewrite Hout in L. unfold nlen. lia.
Qed.

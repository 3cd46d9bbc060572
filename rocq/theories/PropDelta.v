(** C11-C14: deltas. Vocabulary: SpecFormat (sizes), SpecDelta (delta format),
    SpecDiff (edit scripts), SpecObject (objects). *)

From Verif Require Import Base BaseLemmas Digest ModelUtils ModelObject ModelDelta
  SpecFormat SpecObject SpecDelta SpecDiff ProofUtils ProofObject ProofDelta ProofDiff.
Open Scope N_scope.

(** The two size fields of a delta denote 64-bit numbers in at most ten bytes. *)
Definition C11_sizes_fit (delta : bytes) : Prop :=
  forall l1 n1 l2 n2 rest, delta = l1 ++ l2 ++ rest -> leb128 l1 n1 -> leb128 l2 n2 ->
    (length l1 <= 10)%nat /\ (length l2 <= 10)%nat /\ n1 < 2 ^ 64 /\ n2 < 2 ^ 64.

(** C11. *)
Theorem C11_apply_iff : forall m base delta r,
  m_size base = nlen (m_data base) -> nlen (m_data base) < 2 ^ 64 ->
  bytes_ok delta -> C11_sizes_fit delta ->
  (apply_delta m base delta = Ok r <->
   exists out, git_delta (m_data base) delta out /\ nlen out < 2 ^ 63 /\
     meta_new (m_t base) out = Ok r).
Proof. exact apply_delta_iff. Qed.
Theorem C11_apply_complete : forall m base delta out,
  m_size base = nlen (m_data base) -> nlen (m_data base) < 2 ^ 64 -> nlen out < 2 ^ 63 ->
  git_delta (m_data base) delta out -> apply_delta m base delta = meta_new (m_t base) out.
Proof. exact apply_delta_complete. Qed.
(** The format is deterministic: one delta denotes at most one object. *)
Theorem C11_format_deterministic : forall base delta out out',
  nlen base < 2 ^ 64 -> nlen out < 2 ^ 63 -> nlen out' < 2 ^ 63 ->
  git_delta base delta out -> git_delta base delta out' -> out = out'.
Proof.
  intros base delta out out' Hb Ho Ho' H H'.
  pose (b := mkMeta Blob [] (nlen base) base []).
  pose proof (C11_apply_complete Debug b delta out eq_refl Hb Ho H) as E.
  pose proof (C11_apply_complete Debug b delta out' eq_refl Hb Ho' H') as E'.
  rewrite E in E'. destruct (meta_new (m_t b) out) as [r| | |] eqn:R; try discriminate.
  symmetry in E'. apply meta_new_ok in R as (_ & _ & <- & _). apply meta_new_ok in E' as (_ & _ & <- & _).
  reflexivity.
Qed.
(** Without the 64-bit condition the declared base length is only compared modulo
    2^64: a delta for a base of 2^64 + 3 bytes is applied to a base of 3 bytes. *)
Theorem C11_apply_overflow_refuted : exists base delta r,
  m_size base = nlen (m_data base) /\ bytes_ok delta /\ apply_delta Debug base delta = Ok r /\
  forall out, ~ git_delta (m_data base) delta out.
Proof.
  pose (base := mkMeta Blob [] 3 (bs "abc") []).
  pose (delta := [131;128;128;128;128;128;128;128;128;2; 1; 1;120]).
  exists base, delta. destruct (apply_delta Debug base delta) as [r| | |] eqn:E;
    try (exfalso; clear -E; vm_compute in E; discriminate).
  exists r. split; [reflexivity|]. split; [repeat constructor|]. split; [reflexivity|].
  intros out (l1 & l2 & ops & D & H1 & _).
  assert (U : forall a n b n' ra rb, leb128 a n -> leb128 b n' -> a ++ ra = b ++ rb -> n = n').
  { induction a as [|x a IH]; intros n b n' ra rb Ha Hb Eq; [inversion Ha|].
    inversion Ha as [? L|? ? k L Ha']; subst; inversion Hb as [? L'|? ? k' L' Hb']; subst; cbn [app] in Eq.
    - injection Eq; intros; lia.
    - injection Eq; intros; lia.
    - injection Eq; intros; lia.
    - injection Eq as Eh Et. rewrite (IH _ _ _ _ _ Ha' Hb' Et). lia. }
  assert (L : leb128 [131;128;128;128;128;128;128;128;128;2] (2 ^ 64 + 3)).
  { eapply leb128_eq.
    - apply (leb_more 3); [reflexivity|]. do 8 (apply (leb_more 0); [reflexivity|]).
      apply leb_last. reflexivity.
    - reflexivity. }
  pose proof (U _ _ _ _ ([1; 1; 120]) (l2 ++ ops) L H1 D) as X. vm_compute in X. discriminate.
Qed.

(** Base "hello world" (11 bytes), target "hello, world": copy 5, insert ",", copy 6. *)
Definition ex_base : meta := mkMeta Blob [] 11 (bs "hello world") [].
Definition ex_delta : bytes := [11; 12; 144; 5; 1; 44; 145; 5; 6].
Example C11_ex : git_delta (m_data ex_base) ex_delta (bs "hello, world") /\ C11_sizes_fit ex_delta /\
  apply_delta Debug ex_base ex_delta = meta_new Blob (bs "hello, world").
Proof.
  split; [|split].
  - exists [11], [12], [144; 5; 1; 44; 145; 5; 6]. split; [reflexivity|].
    split; [apply leb_last; reflexivity|]. split; [cbn; lia|].
    split; [apply leb_last; reflexivity|]. split; [cbn; lia|].
    change (bs "hello, world") with (bs "hello" ++ bs "," ++ bs " world" ++ []).
    change [144; 5; 1; 44; 145; 5; 6] with ([144; 5] ++ [1; 44] ++ [145; 5; 6] ++ []).
    constructor; [|constructor; [|constructor; [|constructor]]].
    + eapply in_copy with (p := []) (q := bs " world"); [|reflexivity|reflexivity|reflexivity].
      exists [None; None; None; None], [Some 5; None; None]. repeat split. repeat constructor.
    + change [1; 44] with (nlen [44] :: [44]). constructor. split; vm_compute; discriminate.
    + eapply in_copy with (p := bs "hello") (q := []); [|reflexivity|reflexivity|reflexivity].
      exists [Some 5; None; None; None], [Some 6; None; None]. repeat split. repeat constructor.
  - intros l1 n1 l2 n2 rest E H1 H2. unfold ex_delta in E.
    assert (X : forall c l n r s, c < 128 -> leb128 l n -> c :: r = l ++ s -> l = [c] /\ n = c /\ r = s).
    { intros c l n r s Hc H Q. inversion H; subst; cbn [app] in Q; injection Q; intros; subst; auto; lia. }
    apply (X _ _ n1) in E as (-> & -> & E); [|reflexivity|assumption].
    apply (X _ _ n2) in E as (-> & -> & E); [|reflexivity|assumption].
    repeat split; cbn; lia.
  - vm_compute. reflexivity.
Qed.

(** C12. The outcome is never anything but a prescribed object, an error or an abort. *)
Theorem C12_outcomes : forall m base delta, bytes_ok delta ->
  (exists r, apply_delta m base delta = Ok r /\
     exists sizes ops out, delta = sizes ++ ops /\ instrs (m_data base) ops out /\
       meta_new (m_t base) out = Ok r)
  \/ (exists e, apply_delta m base delta = Err e) \/ apply_delta m base delta = Panic.
Proof.
  intros m base delta Hd. destruct (apply_delta m base delta) as [r|e| |] eqn:E.
  - left. exists r. split; [reflexivity|].
    apply apply_delta_sound in E as (l1 & n1 & l2 & n2 & ops & out & -> & _ & _ & _ & _ & _ & Hi & _ & Hr);
      [|assumption].
    exists (l1 ++ l2), ops, out. rewrite app_assoc. auto.
  - right. left. exists e. reflexivity.
  - right. right. reflexivity.
  - exfalso. exact (apply_delta_fuel _ _ _ E).
Qed.
(** The returned content has the declared length. *)
Theorem C12_declared_length : forall m base l1 n1 l2 n2 ops r,
  leb128 l1 n1 -> (length l1 <= 10)%nat -> n1 < 2 ^ 64 ->
  leb128 l2 n2 -> (length l2 <= 10)%nat -> n2 < 2 ^ 64 ->
  apply_delta m base (l1 ++ l2 ++ ops) = Ok r ->
  n1 = m_size base /\ nlen (m_data r) = n2 /\ m_t r = m_t base.
Proof.
  intros m base l1 n1 l2 n2 ops r H1 L1 N1 H2 L2 N2 H. unfold apply_delta in H.
  rewrite (read_size_leb m l1 n1) in H by assumption. cbn [unwrap bind] in H.
  destruct (N.eqb_spec (m_size base) n1); [|discriminate]. cbn [negb] in H.
  rewrite (read_size_leb m l2 n2) in H by assumption. cbn [unwrap bind] in H.
  destruct (2 ^ 63 <=? n2); [discriminate|]. apply bind_ok in H as (out & _ & H).
  destruct (N.eqb_spec (nlen out) n2); [|discriminate]. cbn [negb] in H.
  apply meta_new_ok in H as (_ & -> & -> & _). auto.
Qed.
Theorem C12_wrong_base : forall m base l1 n1 s,
  leb128 l1 n1 -> (length l1 <= 10)%nat -> n1 < 2 ^ 64 -> n1 <> m_size base ->
  apply_delta m base (l1 ++ s) = Err EDeltaObjError.
Proof. exact delta_wrong_base. Qed.
Theorem C12_wrong_length : forall m base l1 l2 n2 s out,
  m_size base < 2 ^ 64 -> leb128 l1 (m_size base) -> (length l1 <= 10)%nat ->
  leb128 l2 n2 -> (length l2 <= 10)%nat -> n2 < 2 ^ 63 -> instrs (m_data base) s out ->
  nlen out <> n2 -> apply_delta m base (l1 ++ l2 ++ s) = Err EDeltaObjError.
Proof. exact delta_wrong_length. Qed.
Theorem C12_reserved_opcode : forall m base l1 l2 n2 s out rest,
  m_size base < 2 ^ 64 -> leb128 l1 (m_size base) -> (length l1 <= 10)%nat ->
  leb128 l2 n2 -> (length l2 <= 10)%nat -> n2 < 2 ^ 63 -> instrs (m_data base) s out ->
  apply_delta m base (l1 ++ l2 ++ s ++ 0 :: rest) = Err EDeltaObjError.
Proof. exact delta_bad_opcode. Qed.
Theorem C12_copy_outside : forall m base l1 l2 n2 s out code args off size rest,
  m_size base < 2 ^ 64 -> leb128 l1 (m_size base) -> (length l1 <= 10)%nat ->
  leb128 l2 n2 -> (length l2 <= 10)%nat -> n2 < 2 ^ 63 -> instrs (m_data base) s out ->
  copy_op code args off size -> nlen (m_data base) < off + size ->
  apply_delta m base (l1 ++ l2 ++ s ++ code :: args ++ rest) = Err EDeltaObjError.
Proof. exact delta_copy_outside. Qed.
(** A delta cut anywhere inside an instruction aborts. *)
Theorem C12_cut_aborts : forall m base l1 l2 n2 s out a b o,
  m_size base < 2 ^ 64 -> leb128 l1 (m_size base) -> (length l1 <= 10)%nat ->
  leb128 l2 n2 -> (length l2 <= 10)%nat -> n2 < 2 ^ 63 ->
  instrs (m_data base) s out -> instr (m_data base) (a ++ b) o -> a <> [] -> b <> [] ->
  apply_delta m base (l1 ++ l2 ++ s ++ a) = Panic.
Proof. exact delta_cut_panics. Qed.
Example C12_ex :
  apply_delta Debug ex_base [11; 12; 144; 5; 1; 44; 145; 5] = Panic /\
  apply_delta Debug ex_base [11; 12; 144; 5; 1] = Panic /\
  apply_delta Debug ex_base [11; 12; 144; 5; 1; 44; 145; 6; 6] = Err EDeltaObjError /\
  apply_delta Debug ex_base [11; 12; 144; 5; 0; 44] = Err EDeltaObjError /\
  apply_delta Debug ex_base [11; 12; 144; 5; 1; 44] = Err EDeltaObjError /\
  apply_delta Debug ex_base [10; 12; 144; 5; 1; 44; 145; 5; 6] = Err EDeltaObjError.
Proof. repeat split; vm_compute; reflexivity. Qed.

(** C13. *)
Theorem C13_delta_reproduces : forall m old new s,
  m_size old = nlen (m_data old) -> m_size new = nlen (m_data new) ->
  edit_script (m_data old) (m_data new) s ->
  nlen (m_data old) <= 2 ^ 32 -> nlen (m_data new) < 2 ^ 24 ->
  exists d, get_delta_metadata old new (diff_ops s) = Ok d /\
    git_delta (m_data old) d (m_data new) /\
    apply_delta m old d = meta_new (m_t old) (m_data new).
Proof. exact delta_reproduces. Qed.
Definition ex_new : meta := mkMeta Blob [] 12 (bs "hello, world") [].
Definition ex_script : list call := [CEqual 0 0 5; CInsert 5 5 1; CEqual 5 6 6].
Example C13_ex : edit_script (m_data ex_base) (m_data ex_new) ex_script /\
  get_delta_metadata ex_base ex_new (diff_ops ex_script) = Ok ex_delta.
Proof.
  split; [|vm_compute; reflexivity]. unfold edit_script, ex_script.
  apply vs_equal; [lia|cbn; lia|cbn; lia|reflexivity|].
  apply vs_insert; [lia|cbn; lia|].
  apply vs_equal; [lia|cbn; lia|cbn; lia|reflexivity|]. apply vs_end.
Qed.

(** C14: a common run of 2^24 bytes or more makes the emitted delta inapplicable
    (base up to 4 GiB: rejected, never wrong content). *)
Theorem C14_big_copy_rejected : forall m old new s,
  m_size old = nlen (m_data old) -> m_size new = nlen (m_data new) ->
  edit_script (m_data old) (m_data new) s ->
  nlen (m_data old) <= 2 ^ 32 -> nlen (m_data new) < 2 ^ 63 ->
  (exists o, In o (diff_ops s) /\ ins o = COPY /\ 2 ^ 24 <= N.of_nat (op_len o)) ->
  exists d, get_delta_metadata old new (diff_ops s) = Ok d /\ apply_delta m old d = Err EDeltaObjError.
Proof.
  intros m old new s So Sn Hs Ho Hn (o & Hin & Hc). eapply delta_big_rejected; try eassumption.
  apply Exists_exists. exists o. split; assumption.
Qed.
(** And if there is none, the delta is right whatever the target's size. *)
Theorem C14_no_big_copy : forall m old new s,
  m_size old = nlen (m_data old) -> m_size new = nlen (m_data new) ->
  edit_script (m_data old) (m_data new) s ->
  nlen (m_data old) <= 2 ^ 32 -> nlen (m_data new) < 2 ^ 63 ->
  ~ (exists o, In o (diff_ops s) /\ ins o = COPY /\ 2 ^ 24 <= N.of_nat (op_len o)) ->
  exists d, get_delta_metadata old new (diff_ops s) = Ok d /\
    apply_delta m old d = meta_new (m_t old) (m_data new).
Proof.
  intros m old new s So Sn Hs Ho Hn Hb.
  destruct (delta_generated old new s) as (d & E & G); try assumption.
  - intros K. apply Exists_exists in K as (o & K1 & K2). apply Hb. exists o. auto.
  - exists d. split; [assumption|]. apply apply_delta_complete; try assumption.
    change (2 ^ 32) with 4294967296 in Ho. change (2 ^ 64) with 18446744073709551616. lia.
Qed.
(** Witness: an object of exactly 16 MiB compared with itself. *)
Theorem C14_big_copy_refuted : forall m, exists old new s d,
  m_size old = nlen (m_data old) /\ m_size new = nlen (m_data new) /\
  edit_script (m_data old) (m_data new) s /\ nlen (m_data old) = 2 ^ 24 /\
  get_delta_metadata old new (diff_ops s) = Ok d /\ apply_delta m old d = Err EDeltaObjError.
Proof.
  intros m.
  assert (G : forall k, N.of_nat k = 2 ^ 24 -> exists old new s d,
    m_size old = nlen (m_data old) /\ m_size new = nlen (m_data new) /\
    edit_script (m_data old) (m_data new) s /\ nlen (m_data old) = 2 ^ 24 /\
    get_delta_metadata old new (diff_ops s) = Ok d /\ apply_delta m old d = Err EDeltaObjError).
  { intros k Hk. pose (o := mkMeta Blob [] (2 ^ 24) (repeat 7 k) []).
    assert (L : nlen (repeat 7 k) = 2 ^ 24) by (unfold nlen; rewrite repeat_length; assumption).
    assert (Es : edit_script (m_data o) (m_data o) [CEqual 0 0 k]).
    { unfold edit_script. cbn [m_data o].
      assert (Lk : length (repeat 7 k) = k) by apply repeat_length.
      apply vs_equal; rewrite ?Lk; try lia; try reflexivity.
      rewrite !Nat.add_0_l. pose proof (vs_end (repeat 7 k) (repeat 7 k)) as V.
      rewrite Lk in V. exact V. }
    destruct (C14_big_copy_rejected m o o [CEqual 0 0 k]) as (d & E1 & E2).
    - symmetry. exact L.
    - symmetry. exact L.
    - exact Es.
    - cbn [m_data o]. rewrite L. vm_compute. discriminate.
    - cbn [m_data o]. rewrite L. reflexivity.
    - exists (mkOp COPY 0 k). split; [left; reflexivity|]. split; [reflexivity|]. cbn [op_len]. rewrite Hk.
      apply N.le_refl.
    - exists o, o, [CEqual 0 0 k], d. repeat split; try assumption; symmetry; exact L. }
  apply (G (N.to_nat (2 ^ 24))). apply N2Nat.id.
Qed.
(** With a base beyond 4 GiB the copy offset is truncated and the delta silently
    yields other content of the right length. *)
Theorem C14_far_copy_refuted : forall m, exists old new s d r,
  m_size old = nlen (m_data old) /\ m_size new = nlen (m_data new) /\
  edit_script (m_data old) (m_data new) s /\
  get_delta_metadata old new (diff_ops s) = Ok d /\
  apply_delta m old d = Ok r /\ m_data r <> m_data new.
Proof.
  intros m.
  assert (G : forall k, N.of_nat (S k) = 2 ^ 32 -> exists old new s d r,
    m_size old = nlen (m_data old) /\ m_size new = nlen (m_data new) /\
    edit_script (m_data old) (m_data new) s /\
    get_delta_metadata old new (diff_ops s) = Ok d /\
    apply_delta m old d = Ok r /\ m_data r <> m_data new).
  { intros k Hk. pose (data := 0 :: repeat 0 k ++ [1]).
    assert (Ld : length data = (S k + 1)%nat) by (unfold data; cbn; rewrite app_length, repeat_length; reflexivity).
    assert (Nd : nlen data = 2 ^ 32 + 1) by (unfold nlen; rewrite Ld; rewrite Nat2N.inj_add, Hk; reflexivity).
    pose (old := mkMeta Blob [] (2 ^ 32 + 1) data []). pose (new := mkMeta Blob [] 1 [1] []).
    pose (s := [CDelete 0 (S k) 0; CEqual (S k) 0 1]).
    assert (Es : edit_script data [1] s).
    { unfold edit_script, s. apply vs_delete; [lia|]. rewrite Nat.add_0_l.
      apply vs_equal; [lia|lia|cbn; lia| |rewrite <- Ld; apply vs_end].
      unfold data. change (0 :: repeat 0 k ++ [1]) with ((0 :: repeat 0 k) ++ [1]).
      rewrite skipn_app_n; [reflexivity|]. cbn. rewrite repeat_length. reflexivity. }
    pose (l1 := write_size_encoding (2 ^ 32 + 1)).
    assert (G : get_delta_metadata old new (diff_ops s) = Ok (l1 ++ [1] ++ [144; 1])).
    { unfold get_delta_metadata. cbn [diff_ops s fold_left diff_call diff_equal split_last app].
      cbn [decode_ops]. unfold decode_op. cbn [ins op_begin op_len]. rewrite Hk.
      change (copy_bytes 4 0 (2 ^ 32) 128 []) with (128, @nil N). cbv iota beta.
      change (N.of_nat 1) with 1. change (copy_bytes 3 4 1 128 []) with (144, [1]). reflexivity. }
    assert (A : apply_delta m old (l1 ++ [1] ++ [144; 1]) = meta_new Blob [0]).
    { apply apply_delta_complete; [symmetry; exact Nd|cbn [m_data old]; rewrite Nd; reflexivity|reflexivity|].
      exists l1, [1], [144; 1]. cbn [m_data old]. split; [reflexivity|]. rewrite Nd.
      split; [apply write_size_leb|]. split; [apply write_size_len10; reflexivity|].
      split; [apply leb_last; reflexivity|]. split; [cbn; lia|].
      change [144; 1] with ([144; 1] ++ []). change [0] with ([0] ++ @nil N). constructor; [|constructor].
      eapply in_copy with (p := []) (q := repeat 0 k ++ [1]); [|reflexivity|reflexivity|reflexivity].
      exists [None; None; None; None], [Some 1; None; None]. repeat split. repeat constructor. }
    destruct (meta_new Blob [0]) as [r| | |] eqn:R; try discriminate.
    exists old, new, s, (l1 ++ [1] ++ [144; 1]), r.
    split; [symmetry; exact Nd|]. split; [reflexivity|]. split; [exact Es|]. split; [exact G|].
    split; [exact A|]. apply meta_new_ok in R as (_ & _ & -> & _). discriminate. }
  apply (G (N.to_nat (2 ^ 32 - 1))). rewrite Nat2N.inj_succ, N2Nat.id. reflexivity.
Qed.

(** What queries that are no UTF-8 are read as. *)

From Verif Require Import Base BaseLemmas ModelUtils ModelObject ModelPkt ModelBase ModelJson ModelGateway ModelHttp SpecObject SpecBase SpecJson SpecHttp ProofUtf8 ProofSerde ProofGrammar ProofGateway ProofHttp.
Open Scope N_scope.

(** ** Beginnings of characters *)

Definition second3 (b0 b1 : N) : bool := if b0 =? 224 then inr 160 191 b1 else if b0 =? 237 then inr 128 159 b1 else cont b1.
Definition second4 (b0 b1 : N) : bool := if b0 =? 240 then inr 144 191 b1 else if b0 =? 244 then inr 128 143 b1 else cont b1.
Definition pre (m : bytes) : bool :=
  match m with
  | [b0] => (b0 <? 128) || inr 194 244 b0
  | [b0; b1] => if inr 194 223 b0 then cont b1 else if inr 224 239 b0 then second3 b0 b1 else inr 240 244 b0 && second4 b0 b1
  | [b0; b1; b2] => if inr 224 239 b0 then second3 b0 b1 && cont b2 else inr 240 244 b0 && second4 b0 b1 && cont b2
  | [b0; b1; b2; b3] => inr 240 244 b0 && second4 b0 b1 && cont b2 && cont b3
  | _ => false
  end.
Definition whole (m : bytes) : bool :=
  match m with
  | [b0] => b0 <? 128
  | [b0; b1] => inr 194 223 b0 && cont b1
  | [b0; b1; b2] => inr 224 239 b0 && second3 b0 b1 && cont b2
  | [b0; b1; b2; b3] => inr 240 244 b0 && second4 b0 b1 && cont b2 && cont b3
  | _ => false
  end.
Lemma second3_spec : forall b0 b1, second3 b0 b1 = true <-> 128 <= b1 <= 191 /\ (b0 = 224 -> 160 <= b1) /\ (b0 = 237 -> b1 <= 159).
Proof. intros. unfold second3, inr, cont. destruct (N.eqb_spec b0 224); [lia|]. destruct (N.eqb_spec b0 237); unfold inr; lia. Qed.
Lemma second4_spec : forall b0 b1, second4 b0 b1 = true <-> 128 <= b1 <= 191 /\ (b0 = 240 -> 144 <= b1) /\ (b0 = 244 -> b1 <= 143).
Proof. intros. unfold second4, inr, cont. destruct (N.eqb_spec b0 240); [lia|]. destruct (N.eqb_spec b0 244); unfold inr; lia. Qed.
Lemma cont_spec : forall b, cont b = true <-> 128 <= b <= 191.
Proof. intros. unfold cont, inr. lia. Qed.
Lemma inr_spec : forall a z b, inr a z b = true <-> a <= b <= z.
Proof. intros. unfold inr. lia. Qed.
Lemma char_whole : forall c, scalar c -> whole (utf8_char c) = true.
Proof.
  intros c Hc. unfold utf8_char, scalar in *.
  destruct (N.ltb_spec c 128); [cbn [whole]; lia|].
  destruct (N.ltb_spec c 2048); [cbn [whole]; apply andb_true_iff; rewrite inr_spec, cont_spec; lia|].
  destruct (N.ltb_spec c 65536); cbn [whole]; rewrite !andb_true_iff, !inr_spec, ?second3_spec, ?second4_spec, ?cont_spec; lia.
Qed.
Lemma whole_char : forall m, whole m = true -> exists c, scalar c /\ utf8_char c = m.
Proof.
  intros m H. destruct m as [|b [|b1 [|b2 [|b3 [|]]]]]; try discriminate; cbn [whole] in H; unfold scalar, utf8_char.
  - exists b. split; [lia|]. rewrite H. reflexivity.
  - rewrite andb_true_iff, inr_spec, cont_spec in H. exists ((b - 192) * 64 + (b1 - 128)). split; [lia|].
    replace ((b - 192) * 64 + (b1 - 128) <? 128) with false by lia. replace ((b - 192) * 64 + (b1 - 128) <? 2048) with true by lia. f_equal; [lia|]. f_equal. lia.
  - rewrite !andb_true_iff, inr_spec, cont_spec, second3_spec in H. exists ((b - 224) * 4096 + (b1 - 128) * 64 + (b2 - 128)). split; [lia|].
    replace ((b - 224) * 4096 + (b1 - 128) * 64 + (b2 - 128) <? 128) with false by lia.
    replace ((b - 224) * 4096 + (b1 - 128) * 64 + (b2 - 128) <? 2048) with false by lia.
    replace ((b - 224) * 4096 + (b1 - 128) * 64 + (b2 - 128) <? 65536) with true by lia.
    f_equal; [lia|]. f_equal; [lia|]. f_equal. lia.
  - rewrite !andb_true_iff, inr_spec, !cont_spec, second4_spec in H. exists ((b - 240) * 262144 + (b1 - 128) * 4096 + (b2 - 128) * 64 + (b3 - 128)). split; [lia|].
    replace ((b - 240) * 262144 + (b1 - 128) * 4096 + (b2 - 128) * 64 + (b3 - 128) <? 128) with false by lia.
    replace ((b - 240) * 262144 + (b1 - 128) * 4096 + (b2 - 128) * 64 + (b3 - 128) <? 2048) with false by lia.
    replace ((b - 240) * 262144 + (b1 - 128) * 4096 + (b2 - 128) * 64 + (b3 - 128) <? 65536) with false by lia.
    f_equal; [lia|]. f_equal; [lia|]. f_equal; [lia|]. f_equal. lia.
Qed.
Lemma inr_false : forall a z b, b < a \/ z < b -> inr a z b = false.
Proof. intros. unfold inr. lia. Qed.
Lemma begins_pre : forall m, m <> [] -> begins m -> pre m = true.
Proof.
  intros m Nm (c & k & Hc & E). apply char_whole in Hc. rewrite E in Hc. clear E c. destruct m as [|b0 [|b1 [|b2 [|b3 [|b4 m]]]]]; [congruence| | | | |]; cbn [app] in Hc.
  - cbn [pre]. apply orb_true_iff. rewrite inr_spec. destruct k as [|b1 [|b2 [|b3 [|]]]]; try discriminate; cbn [whole] in Hc; rewrite ?andb_true_iff, ?inr_spec in Hc; lia.
  - cbn [pre]. destruct k as [|b2 [|b3 [|]]]; try discriminate; cbn [whole] in Hc; rewrite ?andb_true_iff, ?inr_spec in Hc.
    + destruct Hc as [H1 H2]. apply inr_spec in H1. rewrite H1. exact H2.
    + rewrite inr_false by lia. destruct Hc as [[H1 H2] _]. apply inr_spec in H1. rewrite H1. exact H2.
    + rewrite inr_false by lia. rewrite inr_false by lia. destruct Hc as [[[H1 H2] _] _]. apply inr_spec in H1. rewrite H1, H2. reflexivity.
  - cbn [pre]. destruct k as [|b3 [|]]; try discriminate; cbn [whole] in Hc; rewrite ?andb_true_iff, ?inr_spec in Hc.
    + destruct Hc as [[H1 H2] H3]. apply inr_spec in H1. rewrite H1, H2, H3. reflexivity.
    + rewrite inr_false by lia. destruct Hc as [[[H1 H2] H3] _]. apply inr_spec in H1. rewrite H1, H2, H3. reflexivity.
  - destruct k; [exact Hc|discriminate].
  - discriminate.
Qed.
Lemma pre_begins : forall m, pre m = true -> begins m.
Proof.
  intros m H. assert (K : exists k, whole (m ++ k) = true).
  - destruct m as [|b0 [|b1 [|b2 [|b3 [|]]]]]; try discriminate; cbn [pre] in H; cbn [app].
    + apply orb_true_iff in H as [H|H]; [exists []; exact H|]. apply inr_spec in H.
      destruct (N.le_gt_cases b0 223); [exists [128]; cbn [whole]; rewrite andb_true_iff, inr_spec, cont_spec; lia|].
      destruct (N.le_gt_cases b0 239).
      * exists [if b0 =? 224 then 160 else 128; 128]. cbn [whole]. rewrite !andb_true_iff, inr_spec, second3_spec, cont_spec. destruct (N.eqb_spec b0 224); lia.
      * exists [if b0 =? 240 then 144 else 128; 128; 128]. cbn [whole]. rewrite !andb_true_iff, inr_spec, second4_spec, cont_spec. destruct (N.eqb_spec b0 240); lia.
    + destruct (inr 194 223 b0) eqn:E1; [exists []; cbn [whole]; rewrite E1, H; reflexivity|]. destruct (inr 224 239 b0) eqn:E2.
      * exists [128]. cbn [whole]. rewrite E2, H. reflexivity.
      * exists [128; 128]. cbn [whole]. apply andb_true_iff in H as [H1 H2]. rewrite H1, H2. reflexivity.
    + destruct (inr 224 239 b0) eqn:E2; [exists []; cbn [whole]; rewrite E2; exact H|]. exists [128]. cbn [whole]. rewrite H. reflexivity.
    + exists []. exact H.
  - destruct K as (k & K). apply whole_char in K as (c & Hc & E). exists c, k. auto.
Qed.
Lemma not_begins : forall m, m <> [] -> pre m = false -> ~ begins m.
Proof. intros m Nm H B. rewrite (begins_pre m Nm B) in H. discriminate. Qed.

(** ** The reading is that of the standard *)

Lemma lossy_char : forall c t, scalar c -> lossy (utf8_char c ++ t) = utf8_char c ++ lossy t.
Proof.
  intros c t Hc. apply char_whole in Hc. destruct (utf8_char c) as [|b0 [|b1 [|b2 [|b3 [|]]]]]; try discriminate; cbn [whole] in Hc; cbn [app lossy].
  - rewrite Hc. reflexivity.
  - apply andb_true_iff in Hc as [H1 H2]. rewrite H1, H2. replace (b0 <? 128) with false by (apply inr_spec in H1; lia). reflexivity.
  - rewrite !andb_true_iff in Hc. destruct Hc as [[H1 H2] H3]. unfold second3 in H2. rewrite H1, H2, H3. apply inr_spec in H1. replace (b0 <? 128) with false by lia. rewrite inr_false by lia. reflexivity.
  - rewrite !andb_true_iff in Hc. destruct Hc as [[[H1 H2] H3] H4]. unfold second4 in H2. rewrite H1, H2, H3, H4. apply inr_spec in H1. replace (b0 <? 128) with false by lia. rewrite !inr_false by lia. reflexivity.
Qed.
Lemma not_whole : forall m, (forall c, scalar c -> utf8_char c <> m) -> whole m = false.
Proof. intros m H. destruct (whole m) eqn:E; [|reflexivity]. apply whole_char in E as (c & Hc & E). exfalso. exact (H c Hc E). Qed.
Lemma lossy_bad : forall m t, cut_short m t -> lossy (m ++ t) = fffd ++ lossy t.
Proof.
  intros m t [(b & -> & Nb)|(Nm & Bm & Nw & Nt)].
  - assert (P : pre [b] = false) by (destruct (pre [b]) eqn:E; [apply pre_begins in E; contradiction|reflexivity]). cbn [pre] in P. apply orb_false_iff in P as [P1 P2]. cbn [app lossy].
    rewrite P1. assert (b < 194 \/ 244 < b) by (unfold inr in P2; lia). rewrite !inr_false by lia. reflexivity.
  - apply not_whole in Nw. apply begins_pre in Bm; [|exact Nm]. assert (Nt' : forall b r, t = b :: r -> pre (m ++ [b]) = false) by (intros b r Et; destruct (pre (m ++ [b])) eqn:E; [apply pre_begins in E; exfalso; exact (Nt b r Et E)|reflexivity]). clear Nt Nm.
    destruct m as [|b0 [|b1 [|b2 [|b3 [|]]]]]; try discriminate; cbn [pre whole] in Bm, Nw; cbn [app lossy]; cbn [app] in Nt'.
    + rewrite Nw in *. cbn [orb] in Bm. destruct (inr 194 223 b0) eqn:E1; [|destruct (inr 224 239 b0) eqn:E2; [|destruct (inr 240 244 b0) eqn:E3; [|apply inr_spec in Bm; unfold inr in E1, E2, E3; lia]]];
        (destruct t as [|b1 r]; [reflexivity|]); specialize (Nt' b1 r eq_refl); cbn [pre] in Nt'; rewrite ?E1, ?E2, ?E3 in Nt'; cbn [andb] in Nt'; unfold second3, second4 in Nt'; rewrite Nt'; reflexivity.
    + destruct (inr 194 223 b0) eqn:E1; [cbn [andb] in Nw; congruence|]. destruct (inr 224 239 b0) eqn:E2.
      * apply inr_spec in E2 as E2'. replace (b0 <? 128) with false by lia. unfold second3 in Bm. rewrite Bm. destruct t as [|b2 r]; [reflexivity|]. specialize (Nt' b2 r eq_refl). cbn [pre] in Nt'. rewrite E2 in Nt'. unfold second3 in Nt'. rewrite Bm in Nt'. cbn [andb] in Nt'. rewrite Nt'. reflexivity.
      * apply andb_true_iff in Bm as [E3 Bm]. apply inr_spec in E3 as E3'. rewrite E3. replace (b0 <? 128) with false by lia. unfold second4 in Bm. rewrite Bm. destruct t as [|b2 r]; [reflexivity|]. specialize (Nt' b2 r eq_refl). cbn [pre] in Nt'. rewrite E2, E3 in Nt'.
        unfold second4 in Nt'. rewrite Bm in Nt'. cbn [andb] in Nt'. rewrite Nt'. reflexivity.
    + destruct (inr 224 239 b0) eqn:E2; [cbn [andb] in Nw; rewrite Bm in Nw; discriminate|]. rewrite !andb_true_iff in Bm. destruct Bm as [[E3 B1] B2]. apply inr_spec in E3 as E3'. replace (b0 <? 128) with false by lia. rewrite inr_false by lia. rewrite E3.
      unfold second4 in B1. rewrite B1, B2. destruct t as [|b3 r]; [reflexivity|]. specialize (Nt' b3 r eq_refl). cbn [pre] in Nt'. rewrite E3 in Nt'. unfold second4 in Nt'. rewrite B1, B2 in Nt'. cbn [andb] in Nt'. rewrite Nt'. reflexivity.
    + rewrite Bm in Nw. discriminate.
Qed.
Lemma repaired_lossy : forall t x, repaired t x -> lossy t = x.
Proof.
  intros t x H. induction H as [|c t x Hc _ IH|m t x Hm _ IH]; [reflexivity| |].
  - rewrite lossy_char, IH by exact Hc. reflexivity.
  - rewrite lossy_bad, IH by exact Hm. reflexivity.
Qed.
(** Every sequence of bytes is a character, a part cut short, or nothing, and more. *)
Lemma first_part : forall b0 r0, (exists c t, scalar c /\ b0 :: r0 = utf8_char c ++ t) \/ exists m t, m <> [] /\ cut_short m t /\ b0 :: r0 = m ++ t.
Proof.
  assert (W : forall m t, whole m = true -> (exists c t', scalar c /\ m ++ t = utf8_char c ++ t') \/ exists m' t', m' <> [] /\ cut_short m' t' /\ m ++ t = m' ++ t').
  { intros m t H. left. apply whole_char in H as (c & Hc & <-). exists c, t. auto. }
  assert (C : forall m t, m <> [] -> pre m = true -> whole m = false -> (forall b r, t = b :: r -> pre (m ++ [b]) = false) ->
    (exists c t', scalar c /\ m ++ t = utf8_char c ++ t') \/ exists m' t', m' <> [] /\ cut_short m' t' /\ m ++ t = m' ++ t').
  { intros m t Nm P Nw Nt. right. exists m, t. split; [exact Nm|]. split; [|reflexivity]. right. split; [exact Nm|]. split; [apply pre_begins, P|]. split.
    - intros c Hc E. apply char_whole in Hc. rewrite E in Hc. congruence.
    - intros b r Et. apply not_begins; [destruct m; discriminate|]. eapply Nt, Et. }
  intros b0 r0. destruct (pre [b0]) eqn:P0.
  2:{ right. exists [b0], r0. split; [discriminate|]. split; [|reflexivity]. left. exists b0. split; [reflexivity|]. apply not_begins; [discriminate|exact P0]. }
  destruct (whole [b0]) eqn:W0; [exact (W [b0] r0 W0)|]. destruct r0 as [|b1 r1]; [apply (C [b0] []); try assumption; discriminate|].
  destruct (pre [b0; b1]) eqn:P1; [|apply (C [b0] (b1 :: r1)); try assumption; [discriminate|intros b r E; injection E as <- _; exact P1]].
  destruct (whole [b0; b1]) eqn:W1; [exact (W [b0; b1] r1 W1)|]. destruct r1 as [|b2 r2]; [apply (C [b0; b1] []); try assumption; discriminate|].
  destruct (pre [b0; b1; b2]) eqn:P2; [|apply (C [b0; b1] (b2 :: r2)); try assumption; [discriminate|intros b r E; injection E as <- _; exact P2]].
  destruct (whole [b0; b1; b2]) eqn:W2; [exact (W [b0; b1; b2] r2 W2)|]. destruct r2 as [|b3 r3]; [apply (C [b0; b1; b2] []); try assumption; discriminate|].
  destruct (pre [b0; b1; b2; b3]) eqn:P3; [|apply (C [b0; b1; b2] (b3 :: r3)); try assumption; [discriminate|intros b r E; injection E as <- _; exact P3]].
  exact (W [b0; b1; b2; b3] r3 P3).
Qed.
Lemma repaired_total : forall t, exists x, repaired t x.
Proof.
  assert (G : forall n t, (length t <= n)%nat -> exists x, repaired t x).
  { induction n as [|n IH]; intros [|b r] L; try (exists []; constructor); [cbn [length] in L; lia|].
    destruct (first_part b r) as [(c & t & Hc & E)|(m & t & Nm & Hm & E)].
    - pose proof (utf8_char_len c) as Lc. rewrite E, app_length in L. destruct (IH t) as (x & Hx); [lia|]. rewrite E. eexists. apply rp_char; eassumption.
    - destruct m as [|y m]; [congruence|]. rewrite E, app_length in L. cbn [length] in L. destruct (IH t) as (x & Hx); [lia|]. rewrite E. eexists. apply rp_bad; eassumption. }
  intros t. apply (G (length t)). lia.
Qed.

(** ** Every query is a form *)

Definition mended (f : bytes * bytes) : bytes * bytes := (lossy (fst f), lossy (snd f)).
Lemma spelt_any : forall k t r, spelt k t r -> form_decode r = lossy t.
Proof. intros k t r H. unfold form_decode. rewrite (spelt_decode _ _ _ H). reflexivity. Qed.
Lemma field_any : forall f p, field_spelt f p -> pair_of p = mended f /\ p <> [] /\ ~ In 38 p.
Proof.
  intros f p H. unfold pair_of, mended. destruct H as [n x p q Hn Hx|n p Hn Hp]; cbn [fst snd].
  - rewrite split_eq_pair by (eapply spelt_eq_free, Hn). rewrite (spelt_any _ _ _ Hn), (spelt_any _ _ _ Hx).
    split; [reflexivity|]. split; [destruct p; discriminate|]. intros I. apply in_app_or in I as [I|I]; [exact (spelt_amp _ _ _ Hn I)|].
    cbn [app In] in I. destruct I as [I|I]; [discriminate|exact (spelt_amp _ _ _ Hx I)].
  - rewrite split_eq_none by (eapply spelt_eq_free, Hn). rewrite (spelt_any _ _ _ Hn). split; [reflexivity|]. split; [exact Hp|exact (spelt_amp _ _ _ Hn)].
Qed.
Lemma form_any : forall l q, form l q -> form_parse q = map mended l.
Proof.
  intros l q H. unfold form_parse. change (fun s => let (n, x) := split_eq s in (form_decode n, form_decode x)) with pair_of.
  induction H as [|l q _ IH|f p Hf|f p l q Hf _ IH].
  - reflexivity.
  - cbn [app]. change (38 :: q) with ([] ++ 38 :: q). rewrite split_app. cbn [split_on app filter beq negb]. exact IH.
  - destruct (field_any f p Hf) as (E & Np & Na). rewrite split_word by exact Na. cbn [filter]. destruct p as [|c p]; [congruence|]. cbn [beq negb map]. rewrite E. reflexivity.
  - destruct (field_any f p Hf) as (E & Np & Na). cbn [app]. rewrite split_app, split_word by exact Na.
    cbn [app filter]. destruct p as [|c p]; [congruence|]. cbn [beq negb map]. rewrite E, IH. reflexivity.
Qed.
Lemma repaired_mended : forall l k, repaired_form l k -> map mended l = k.
Proof.
  intros l k H. induction H as [|[n x] [m y] l k [H1 H2] _ IH]; [reflexivity|]. cbn [fst snd] in H1, H2. cbn [map]. rewrite IH. unfold mended at 1. cbn [fst snd].
  rewrite (repaired_lossy _ _ H1), (repaired_lossy _ _ H2). reflexivity.
Qed.
Lemma repaired_form_total : forall l, exists k, repaired_form l k.
Proof.
  induction l as [|f l (k & IH)]; [exists []; constructor|]. destruct (repaired_total (fst f)) as (n & Hn). destruct (repaired_total (snd f)) as (x & Hx).
  exists ((n, x) :: k). constructor; [split; assumption|exact IH].
Qed.
Lemma spelt_total : forall name r, ~ In 38 r -> (name = true -> ~ In 61 r) -> exists t, spelt name t r.
Proof.
  intros name. assert (G : forall n r, (length r <= n)%nat -> ~ In 38 r -> (name = true -> ~ In 61 r) -> exists t, spelt name t r).
  { induction n as [|n IH]; intros [|b r] L A E; try (exists []; constructor); [cbn [length] in L; lia|]. cbn [length In] in L, A, E.
    assert (K : forall r', (length r' <= length r)%nat -> (forall b, In b r' -> In b r) -> exists t, spelt name t r') by (intros r' L' I; apply IH; [lia|intros K; apply A; right; apply I, K|intros Et K; apply (E Et); right; apply I, K]).
    destruct (K r) as (t & Ht); [lia|auto|].
    destruct (N.eq_dec b 43) as [->|N1]; [exists (32 :: t); constructor; exact Ht|]. destruct (N.eq_dec b 37) as [->|N2].
    2:{ exists (b :: t). apply sp_self; [cbn [In]; intros [X|[X|[X|[]]]]; [congruence|subst b; tauto|congruence]|intros Et X; subst b; apply (E Et); left; reflexivity|exact Ht]. }
    assert (D : escape r \/ ~ escape r).
    { destruct r as [|x [|y r']]; [right; intros (? & ? & ? & ? & ? & _ & _ & X); discriminate|right; intros (? & ? & ? & ? & ? & _ & _ & X); discriminate|].
      destruct (hex_digit_val x) as [a|] eqn:Ex; [|right; intros (a & b & x' & y' & t' & Ha & _ & X); injection X as -> -> _; rewrite (proj1 (hex_char_val _ _ Ha)) in Ex; discriminate].
      destruct (hex_digit_val y) as [b|] eqn:Ey; [|right; intros (a' & b & x' & y' & t' & _ & Hb & X); injection X as -> -> _; rewrite (proj1 (hex_char_val _ _ Hb)) in Ey; discriminate].
      left. exists a, b, x, y, r'. split; [apply hex_val_char, Ex|]. split; [apply hex_val_char, Ey|reflexivity]. }
    destruct D as [(a & b & x & y & r' & Ha & Hb & ->)|D]; [|exists (37 :: t); apply sp_percent; assumption].
    destruct (K r') as (t' & Ht'); [cbn [app length]; lia|intros; cbn [app In]; tauto|]. exists ((16 * a + b) :: t'). apply (sp_hex name a b x y t' r'); assumption. }
  intros r. apply (G (length r)). lia.
Qed.
Lemma first_of : forall c (l : bytes), ~ In c l \/ exists a z, l = a ++ [c] ++ z /\ ~ In c a.
Proof.
  intros c l. induction l as [|b l IH]; [left; intros []|]. destruct (N.eq_dec b c) as [->|Nb]; [right; exists [], l; split; [reflexivity|intros []]|].
  destruct IH as [IH|(a & z & -> & Ha)]; [left; intros [X|X]; [congruence|exact (IH X)]|right; exists (b :: a), z; split; [reflexivity|intros [X|X]; [congruence|exact (Ha X)]]].
Qed.
Lemma field_total : forall p, p <> [] -> ~ In 38 p -> exists f, field_spelt f p.
Proof.
  intros p Np Na. destruct (first_of 61 p) as [Ne|(a & z & -> & Ha)].
  - destruct (spelt_total true p Na (fun _ => Ne)) as (t & Ht). exists (t, []). apply fi_name; assumption.
  - destruct (spelt_total true a) as (n & Hn); [intros X; apply Na, in_or_app; left; exact X|auto|].
    destruct (spelt_total false z) as (x & Hx); [intros X; apply Na; rewrite app_assoc; apply in_or_app; right; exact X|discriminate|]. exists (n, x). apply fi_pair; assumption.
Qed.
Lemma form_total : forall q, exists l, form l q.
Proof.
  assert (G : forall n q, (length q <= n)%nat -> exists l, form l q).
  { induction n as [|n IH]; intros [|b q] L; try (exists []; constructor); [cbn [length] in L; lia|].
    destruct (first_of 38 (b :: q)) as [Na|(a & z & E & Ha)].
    - destruct (field_total (b :: q)) as (f & Hf); [discriminate|exact Na|]. exists [f]. constructor. exact Hf.
    - rewrite E in *. rewrite app_length in L. cbn [app length] in L. destruct (IH z) as (l & Hl); [lia|]. destruct a as [|c a]; [exists l; apply fo_gap, Hl|].
      destruct (field_total (c :: a)) as (f & Hf); [discriminate|exact Ha|]. exists (f :: l). apply (fo_more f (c :: a) l z); assumption. }
  intros q. apply (G (length q)). lia.
Qed.

(** The reader takes nothing but JSON, and a text has one meaning. *)

From Coq Require Import ZArith.
From Verif Require Import Base BaseLemmas ModelObject ModelLfs ModelJson SpecBase SpecJson ProofUtf8 ProofSerde ProofFields.
Open Scope N_scope.

(** ** Syntax *)
Lemma skip_ws_split : forall l, exists w, l = w ++ skip_ws l /\ blank w.
Proof.
  induction l as [|b l (w & E & B)]; [exists []; split; [reflexivity|constructor]|]. cbn [skip_ws].
  destruct (is_ws b) eqn:W; [|exists []; split; [reflexivity|constructor]].
  exists (b :: w). split; [cbn; f_equal; exact E|]. constructor; [|exact B].
  unfold is_ws in W. rewrite !Bool.orb_true_iff, !N.eqb_eq in W. cbn. intuition.
Qed.
Lemma after_some : forall b l r, after b l = Some r -> l = b :: r.
Proof.
  intros b [|c l] r H; [discriminate|]. cbn in H. destruct (c =? b) eqn:E; [|discriminate]. apply N.eqb_eq in E. congruence.
Qed.
Lemma after_ws : forall b l r, after b (skip_ws l) = Some r -> exists w, blank w /\ l = w ++ b :: r.
Proof.
  intros b l r H. apply after_some in H. destruct (skip_ws_split l) as (w & E & B). exists w. split; [exact B|]. rewrite <- H. exact E.
Qed.
Lemma hex_val_char : forall c n, hex_digit_val c = Some n -> hex_char n c.
Proof.
  intros c n H. unfold hex_digit_val in H.
  destruct ((48 <=? c) && (c <=? 57)) eqn:A; [apply andb_prop in A as [A B]; apply N.leb_le in A, B; injection H as <-|].
  { replace c with (48 + (c - 48)) at 2 by lia. constructor. lia. }
  destruct ((65 <=? c) && (c <=? 70)) eqn:C; [apply andb_prop in C as [C B]; apply N.leb_le in C, B; injection H as <-|].
  { replace c with (55 + (c - 55)) at 2 by lia. apply hx_upper. lia. }
  destruct ((97 <=? c) && (c <=? 102)) eqn:D; [apply andb_prop in D as [D B]; apply N.leb_le in D, B; injection H as <-|discriminate].
  replace c with (87 + (c - 87)) at 2 by lia. apply hx_lower. lia.
Qed.
Lemma hex4_code : forall l n q, hex4_val l = Some (n, q) -> exists h, hex_code n h /\ l = h ++ q /\ firstn 4 l = h.
Proof.
  intros l n q H. destruct l as [|a [|b [|c [|d l]]]]; try discriminate. unfold hex4_val in H.
  destruct (hex_digit_val a) as [x|] eqn:A; [|discriminate]. destruct (hex_digit_val b) as [y|] eqn:B; [|discriminate].
  destruct (hex_digit_val c) as [z|] eqn:C; [|discriminate]. destruct (hex_digit_val d) as [t|] eqn:D; [|discriminate].
  injection H as <- <-. exists [a; b; c; d]. split; [|split; reflexivity]. apply hex_val_char in A, B, C, D.
  exists x, y, z, t, a, b, c, d. repeat (split; [assumption|]). split; [lia|reflexivity].
Qed.
Lemma raw_syntax : forall f l t z, raw_string f l = Some (t, z) -> l = t ++ 34 :: z /\ string_syntax t.
Proof.
  induction f as [|f IH]; intros l t z H; [discriminate|]. cbn [raw_string] in H. destruct l as [|b r]; [discriminate|].
  destruct (b =? 34) eqn:Q; [apply N.eqb_eq in Q; injection H as <- <-; subst; split; [reflexivity|constructor]|].
  apply N.eqb_neq in Q. destruct (b =? 92) eqn:K.
  - apply N.eqb_eq in K. subst b. destruct r as [|c r1]; [discriminate|]. destruct (c =? 117) eqn:U.
    + apply N.eqb_eq in U. subst c. destruct (hex4_val r1) as [[n q]|] eqn:X; [|discriminate].
      destruct (raw_string f q) as [[t' z']|] eqn:R; [|discriminate].
      destruct (hex4_code _ _ _ X) as (h & C & E & F). rewrite F in H. injection H as <- <-. destruct (IH _ _ _ R) as [-> S].
      split; [cbn [app]; rewrite E, <- app_assoc; reflexivity|]. apply (ss_code n h t' C S).
    + destruct (simple_escape c) eqn:SE; [|discriminate]. destruct (raw_string f r1) as [[t' z']|] eqn:R; [|discriminate]. injection H as <- <-.
      destruct (IH _ _ _ R) as [-> S]. split; [reflexivity|]. apply ss_short; [|exact S].
      unfold simple_escape in SE. apply existsb_exists in SE as (x & I & E). apply N.eqb_eq in E. subst x. exact I.
  - apply N.eqb_neq in K. destruct (b <? 32) eqn:L; [discriminate|]. apply N.ltb_ge in L.
    destruct (raw_string f r) as [[t' z']|] eqn:R; [|discriminate]. injection H as <- <-.
    destruct (IH _ _ _ R) as [-> S]. split; [reflexivity|]. constructor; assumption.
Qed.
Lemma digits_split : forall l d q, digits_of l = (d, q) -> l = d ++ q /\ Forall (fun b => 48 <= b <= 57) d.
Proof.
  induction l as [|b l IH]; intros d q H; cbn [digits_of] in H; [injection H as <- <-; split; [reflexivity|constructor]|].
  destruct (digit_byte b) eqn:B; [|injection H as <- <-; split; [reflexivity|constructor]].
  destruct (digits_of l) as [d' q']. injection H as <- <-. destruct (IH _ _ eq_refl) as [-> F].
  split; [reflexivity|]. constructor; [apply digit_byte_spec, B|exact F].
Qed.
Lemma digits_decimal : forall d b, 48 <= b <= 57 -> (b = 48 -> d = []) -> Forall (fun b => 48 <= b <= 57) d ->
  exists n, decimal n (b :: d) /\ (b <> 48 -> n <> 0).
Proof.
  induction d as [|c d IH] using rev_ind; intros b B Z F.
  - exists (b - 48). split; [|lia]. replace b with (48 + (b - 48)) at 2 by lia. constructor. lia.
  - apply Forall_app in F as [F C]. inversion C; subst.
    assert (NB : b <> 48) by (intros E; specialize (Z E); destruct d; discriminate).
    destruct (IH b B) as (n & D & N); [intros; contradiction|exact F|]. exists (10 * n + (c - 48)). split; [|specialize (N NB); lia].
    change (b :: d ++ [c]) with ((b :: d) ++ [c]). replace c with (48 + (c - 48)) at 2 by lia. constructor; [exact D|apply N, NB|lia].
Qed.
Lemma int_split : forall l d q, int_text l = Some (d, q) -> l = d ++ q /\ exists n, decimal n d.
Proof.
  intros l d q H. unfold int_text in H. destruct (digits_of l) as [x y] eqn:D. destruct (digits_split _ _ _ D) as [-> F].
  destruct x as [|b x]; [discriminate|]. destruct ((b =? 48) && negb (beq x [])) eqn:Z; [discriminate|]. injection H as <- <-.
  split; [reflexivity|]. inversion F; subst. destruct (digits_decimal x b H1) as (n & N & _); [|assumption|exists n; exact N].
  intros ->. cbn [N.eqb Pos.eqb andb] in Z. destruct x; [reflexivity|discriminate].
Qed.
Lemma frac_split : forall l d q, frac_text l = Some (d, q) -> l = d ++ q /\ (d = [] \/ exists x, d = 46 :: x /\ some_digits x).
Proof.
  intros l d q H. unfold frac_text in H. destruct (after 46 l) as [r|] eqn:A; [|injection H as <- <-; auto].
  apply after_some in A. subst l. destruct (digits_of r) as [x y] eqn:D. destruct (digits_split _ _ _ D) as [-> F].
  destruct x as [|b x]; [discriminate|]. injection H as <- <-. split; [reflexivity|]. right. exists (b :: x). split; [reflexivity|]. split; [discriminate|exact F].
Qed.
Lemma exp_split : forall l d q, exp_text l = Some (d, q) -> l = d ++ q /\
  (d = [] \/ exists e s x, d = e :: s ++ x /\ (e = 101 \/ e = 69) /\ (s = [] \/ s = [43] \/ s = [45]) /\ some_digits x).
Proof.
  intros l d q H. unfold exp_text in H. destruct l as [|b r]; [injection H as <- <-; auto|].
  destruct ((b =? 101) || (b =? 69)) eqn:B; [|injection H as <- <-; auto]. apply Bool.orb_true_iff in B. rewrite !N.eqb_eq in B.
  assert (ES : forall s r1, exp_sign r = (s, r1) -> r = s ++ r1 /\ (s = [] \/ s = [43] \/ s = [45])).
  { intros s r1 E. unfold exp_sign in E. destruct r as [|c r]; [injection E as <- <-; auto|].
    destruct ((c =? 43) || (c =? 45)) eqn:C; [|injection E as <- <-; auto]. apply Bool.orb_true_iff in C. rewrite !N.eqb_eq in C.
    injection E as <- <-. split; [reflexivity|]. destruct C as [-> | ->]; auto. }
  destruct (exp_sign r) as [s r1]. destruct (ES _ _ eq_refl) as [-> S]. destruct (digits_of r1) as [x y] eqn:D. destruct (digits_split _ _ _ D) as [-> F].
  destruct x as [|c x]; [discriminate|]. injection H as <- <-. split; [cbn [app]; rewrite <- app_assoc; reflexivity|].
  right. exists b, s, (c :: x). split; [reflexivity|]. split; [exact B|]. split; [exact S|]. split; [discriminate|exact F].
Qed.
Lemma number_split : forall l t q, number_text l = Some (t, q) -> l = t ++ q /\ number t.
Proof.
  intros l t q H. unfold number_text in H.
  assert (SG : forall s r, num_sign l = (s, r) -> l = s ++ r /\ (s = [] \/ s = [45])).
  { intros s r E. unfold num_sign in E. destruct (after 45 l) as [x|] eqn:A; injection E as <- <-; [apply after_some in A; auto|auto]. }
  destruct (num_sign l) as [s l1]. destruct (SG _ _ eq_refl) as [-> S]. clear SG.
  destruct (int_text l1) as [[d l2]|] eqn:I; [|discriminate]. destruct (int_split _ _ _ I) as [-> (n & D)].
  destruct (frac_text l2) as [[f l3]|] eqn:F; [|discriminate]. destruct (frac_split _ _ _ F) as [-> FR].
  destruct (exp_text l3) as [[x l4]|] eqn:X; [|discriminate]. destruct (exp_split _ _ _ X) as [-> EX].
  injection H as <- <-. split; [rewrite <- !app_assoc; reflexivity|]. exists s, n, d, f, x. auto.
Qed.
Lemma word_some : forall w l q, word_at w l = Some q -> l = w ++ q.
Proof.
  intros w l q H. unfold word_at in H. destruct (starts_with w l) eqn:E; [|discriminate]. injection H as <-.
  revert l E. induction w as [|a w IH]; intros l E; [reflexivity|]. destruct l as [|b l]; [discriminate|]. cbn in E.
  apply andb_prop in E as [A B]. apply N.eqb_eq in A. subst b. cbn. f_equal. apply IH, B.
Qed.
Lemma values_syntax : forall f,
  (forall l j r, jvalue f l = Some (j, r) -> exists w s, l = w ++ s ++ r /\ blank w /\ value_syntax s) /\
  (forall l j r, jelems f l = Some (j, r) -> exists s, l = s ++ 93 :: r /\ elements_syntax s) /\
  (forall l j r, jmembers f l = Some (j, r) -> exists s, l = s ++ 125 :: r /\ members_syntax s).
Proof.
  induction f as [|f (IV & IE & IM)]; [split; [|split]; intros; discriminate|]. split; [|split].
  - intros l j r H. cbn [jvalue] in H. destruct (skip_ws_split l) as (w & E & W). destruct (skip_ws l) as [|b x]; [discriminate|].
    rewrite E. clear E l. exists w.
    assert (G : forall s, b :: x = s ++ r -> value_syntax s -> exists s, w ++ b :: x = w ++ s ++ r /\ blank w /\ value_syntax s)
      by (intros s Es V; exists s; rewrite Es; auto).
    destruct (b =? 110) eqn:C1.
    { apply N.eqb_eq in C1. subst b. destruct (word_at _ x) as [q|] eqn:A; [|discriminate]. injection H as _ <-. apply word_some in A. subst x.
      apply (G (bs "null")); [reflexivity|constructor]. }
    destruct (b =? 116) eqn:C2.
    { apply N.eqb_eq in C2. subst b. destruct (word_at _ x) as [q|] eqn:A; [|discriminate]. injection H as _ <-. apply word_some in A. subst x.
      apply (G (bs "true")); [reflexivity|constructor]. }
    destruct (b =? 102) eqn:C3.
    { apply N.eqb_eq in C3. subst b. destruct (word_at _ x) as [q|] eqn:A; [|discriminate]. injection H as _ <-. apply word_some in A. subst x.
      apply (G (bs "false")); [reflexivity|constructor]. }
    destruct (b =? 34) eqn:C4.
    { apply N.eqb_eq in C4. subst b. destruct (raw_string _ x) as [[t q]|] eqn:A; [|discriminate]. injection H as _ <-. apply raw_syntax in A as [-> A].
      apply (G ([34] ++ t ++ [34])); [cbn [app]; rewrite <- app_assoc; reflexivity|constructor; exact A]. }
    destruct (b =? 91) eqn:C5.
    { apply N.eqb_eq in C5. subst b. destruct (after 93 (skip_ws x)) as [q|] eqn:A.
      - injection H as _ <-. apply after_ws in A as (u & U & ->). apply (G ([91] ++ u ++ [93])); [cbn [app]; rewrite <- app_assoc; reflexivity|constructor; exact U].
      - destruct (jelems f x) as [[y q]|] eqn:J; [|discriminate]. injection H as _ <-. destruct (IE _ _ _ J) as (s & -> & V).
        apply (G ([91] ++ s ++ [93])); [cbn [app]; rewrite <- app_assoc; reflexivity|apply vs_arr; exact V]. }
    destruct (b =? 123) eqn:C6.
    { apply N.eqb_eq in C6. subst b. destruct (after 125 (skip_ws x)) as [q|] eqn:A.
      - injection H as _ <-. apply after_ws in A as (u & U & ->). apply (G ([123] ++ u ++ [125])); [cbn [app]; rewrite <- app_assoc; reflexivity|apply vs_obj0; exact U].
      - destruct (jmembers f x) as [[y q]|] eqn:J; [|discriminate]. injection H as _ <-. destruct (IM _ _ _ J) as (s & -> & V).
        apply (G ([123] ++ s ++ [125])); [cbn [app]; rewrite <- app_assoc; reflexivity|apply vs_obj; exact V]. }
    destruct ((b =? 45) || digit_byte b); [|discriminate]. destruct (number_text (b :: x)) as [[t q]|] eqn:N; [|discriminate]. injection H as _ <-.
    destruct (number_split _ _ _ N) as [E V]. apply (G t E). constructor. exact V.
  - intros l j r H. cbn [jelems] in H. destruct (jvalue f l) as [[x q]|] eqn:V; [|discriminate]. destruct (IV _ _ _ V) as (w & s & -> & W & SV).
    destruct (after 93 (skip_ws q)) as [z|] eqn:A.
    + injection H as _ <-. apply after_ws in A as (u & U & ->). exists (w ++ s ++ u). split; [rewrite <- !app_assoc; reflexivity|constructor; assumption].
    + destruct (after 44 (skip_ws q)) as [z|] eqn:B; [|discriminate]. apply after_ws in B as (u & U & ->).
      destruct (jelems f z) as [[xs y]|] eqn:J; [|discriminate]. injection H as _ <-. destruct (IE _ _ _ J) as (s' & -> & E).
      exists (w ++ s ++ u ++ [44] ++ s'). split; [rewrite <- !app_assoc; reflexivity|apply es_more; assumption].
  - intros l j r H. cbn [jmembers] in H. destruct (after 34 (skip_ws l)) as [x|] eqn:A; [|discriminate]. apply after_ws in A as (w1 & W1 & ->).
    destruct (raw_string _ x) as [[k r1]|] eqn:K; [|discriminate]. apply raw_syntax in K as [-> K].
    destruct (after 58 (skip_ws r1)) as [r2|] eqn:A; [|discriminate]. apply after_ws in A as (w2 & W2 & ->).
    destruct (jvalue f r2) as [[v r3]|] eqn:V; [|discriminate]. destruct (IV _ _ _ V) as (w3 & s & -> & W3 & SV).
    destruct (after 125 (skip_ws r3)) as [z|] eqn:A.
    + injection H as _ <-. apply after_ws in A as (w4 & W4 & ->).
      exists (w1 ++ [34] ++ k ++ [34] ++ w2 ++ [58] ++ w3 ++ s ++ w4). split; [repeat (rewrite <- !app_assoc; cbn [app]); reflexivity|apply ms_one; assumption].
    + destruct (after 44 (skip_ws r3)) as [z|] eqn:B; [|discriminate]. apply after_ws in B as (w4 & W4 & ->).
      destruct (jmembers f z) as [[xs y]|] eqn:J; [|discriminate]. injection H as _ <-. destruct (IM _ _ _ J) as (s' & -> & E).
      exists (w1 ++ [34] ++ k ++ [34] ++ w2 ++ [58] ++ w3 ++ s ++ w4 ++ [44] ++ s').
      split; [repeat (rewrite <- !app_assoc; cbn [app]); reflexivity|apply ms_more; assumption].
Qed.
Lemma text_syntax : forall {A} (d : jv -> option A) t a, from_text d t = Some a -> json_syntax t.
Proof.
  intros A d t a H. unfold from_text, jtext in H. destruct (jvalue _ t) as [[j r]|] eqn:V; [|discriminate].
  destruct (proj1 (values_syntax _) _ _ _ V) as (w & s & E & W & SV). destruct (skip_ws_split r) as (w2 & E2 & W2).
  destruct (skip_ws r); [|discriminate]. exists w, s, w2. split; [exact W|]. split; [exact SV|]. split; [exact W2|]. rewrite app_nil_r in E2. congruence.
Qed.

(** ** What was read is what is spelled *)
Lemma encode_head : forall c, c < 1114112 -> exists b q, encode_utf8 c = b :: q /\ (b < 128 \/ 192 <= b).
Proof.
  intros c H. rewrite encode_utf8_char by exact H. unfold utf8_char.
  destruct (N.ltb_spec c 128); [exists c, []; auto|]. destruct (N.ltb_spec c 2048); [eexists _, _; split; [reflexivity|right; lia]|].
  destruct (N.ltb_spec c 65536); eexists _, _; (split; [reflexivity|right; lia]).
Qed.
Lemma hex4_bound : forall l n q, hex4_val l = Some (n, q) -> n < 65536.
Proof.
  intros l n q H. destruct (hex4_code _ _ _ H) as (h & (a & b & c & d & x & y & z & u & A & B & C & D & -> & _) & _).
  assert (K : forall n c, hex_char n c -> n < 16) by (intros ? ? X; apply (hex_char_val _ _ X)). apply K in A, B, C, D. lia.
Qed.
Lemma unicode_spelled : forall l x q, unicode_escape l = Some (x, q) -> exists c p, scalar c /\ x = utf8_char c /\ spell_char c ([92; 117] ++ p) /\ l = p ++ q /\
  (length p >= 4)%nat.
Proof.
  intros l x q H. unfold unicode_escape in H. destruct (hex4_val l) as [[n r]|] eqn:E; [|discriminate].
  pose proof (hex4_bound _ _ _ E) as Bn. destruct (hex4_code _ _ _ E) as (h & C & -> & Fh). unfold low_surrogate, high_surrogate in H.
  assert (Lh : length h = 4%nat) by apply (hex_code_val n h [] C).
  destruct ((56320 <=? n) && (n <=? 57343)) eqn:L; [discriminate|]. destruct ((55296 <=? n) && (n <=? 56319)) eqn:G.
  - apply andb_prop in G as [G1 G2]. apply N.leb_le in G1, G2. destruct r as [|a [|b r]]; try discriminate.
    destruct ((a =? 92) && (b =? 117)) eqn:AB; [|discriminate]. apply andb_prop in AB as [A B]. apply N.eqb_eq in A, B. subst a b.
    destruct (hex4_val r) as [[m r2]|] eqn:E2; [|discriminate]. destruct (hex4_code _ _ _ E2) as (h2 & C2 & -> & _).
    destruct ((56320 <=? m) && (m <=? 57343)) eqn:M; [|discriminate]. apply andb_prop in M as [M1 M2]. apply N.leb_le in M1, M2. injection H as <- <-.
    rewrite N.shiftl_mul_pow2, lor_add by (change (2 ^ 10) with 1024; lia). change (2 ^ 10) with 1024.
    set (c := (n - 55296) * 1024 + (m - 56320) + 65536). exists c, (h ++ [92; 117] ++ h2).
    split; [unfold scalar, c; lia|]. split; [apply encode_utf8_char; unfold c; lia|]. split.
    + apply (sc_pair c (n - 55296) (m - 56320) h h2); try (unfold c; lia).
      * replace (55296 + (n - 55296)) with n by lia. exact C.
      * replace (56320 + (m - 56320)) with m by lia. exact C2.
    + split; [rewrite <- !app_assoc; reflexivity|]. rewrite app_length. lia.
  - injection H as <- <-. exists n, h. apply Bool.andb_false_iff in L, G. rewrite !N.leb_gt in L, G.
    split; [unfold scalar; lia|]. split; [apply encode_utf8_char; lia|]. split; [apply sc_code; assumption|]. split; [reflexivity|lia].
Qed.
Lemma unescape_cont : forall f raw x t, unescape f raw = Some (x :: t) -> 128 <= x < 192 -> string_syntax raw ->
  exists g raw', raw = x :: raw' /\ unescape g raw' = Some t /\ string_syntax raw'.
Proof.
  intros f raw x t H B Y. destruct f as [|f]; [discriminate|]. cbn [unescape] in H. destruct Y as [|b s P1 P2 P3 Y|e s I Y|n h s C Y]; [discriminate| | |].
  - apply N.eqb_neq in P3. rewrite P3 in H. destruct (unescape f s) as [t'|] eqn:U; [|discriminate]. injection H as -> ->. eauto.
  - cbn [N.eqb Pos.eqb] in H. destruct (e =? 117) eqn:E; [apply N.eqb_eq in E; subst e; cbn in I; repeat (destruct I as [I|I]; [discriminate I|]); contradiction|].
    destruct (unescape f s) as [t'|]; [|discriminate]. injection H as H _. exfalso.
    cbn in I. repeat (destruct I as [<-|I]; [cbn in H; subst x; lia|]). contradiction.
  - cbn [app N.eqb Pos.eqb] in H. destruct (unicode_escape (h ++ s)) as [[y q]|] eqn:U; [|discriminate].
    destruct (unescape f q) as [t'|]; [|discriminate]. destruct (unicode_spelled _ _ _ U) as (c & p & SC & -> & _).
    assert (SB : c < 1114112) by (unfold scalar in SC; lia).
    destruct (encode_head c SB) as (b & z & E & K). rewrite encode_utf8_char in E by exact SB. rewrite E in H. injection H as -> _. lia.
Qed.
Lemma tail_syntax : forall a s, string_syntax (a ++ s) -> forall c, spell_char c a -> scalar c -> string_syntax s.
Proof.
  assert (P : forall a s, Forall plain_byte a -> string_syntax (a ++ s) -> string_syntax s).
  { intros a s F. induction F as [|b a (F1 & F2 & F3) F IH]; [auto|]. cbn [app]. intros Y. inversion Y; subst; try (exfalso; lia); auto. }
  assert (Q : forall n h s, hex_code n h -> string_syntax ([92; 117] ++ h ++ s) -> string_syntax s).
  { intros n h s C Y. cbn [app] in Y. inversion Y as [|? ? ? ? P3 ? |? ? I ? |m h' s' C' Y' E]; subst.
    - congruence.
    - cbn in I. repeat (destruct I as [I|I]; [discriminate I|]). contradiction.
    - assert (L1 : length h = 4%nat) by apply (hex_code_val n h [] C). assert (L2 : length h' = 4%nat) by apply (hex_code_val _ h' [] C').
      destruct h as [|a [|b [|c [|d [|]]]]]; try discriminate. destruct h' as [|a' [|b' [|c' [|d' [|]]]]]; try discriminate.
      cbn in E. injection E as _ _ _ _ <-. exact Y'. }
  intros a s Y c SC S. destruct SC as [c A B C|c e I|c h B C|c hi lo h l A B C D E F].
  - apply (P _ _ (utf8_plain c A B C) Y).
  - cbn [app] in Y. inversion Y as [|? ? ? ? P3 ? |? ? I' Y' |m h' s' C' Y' E]; subst; [congruence|exact Y'|].
    cbn in I. repeat (destruct I as [I|I]; [discriminate I|]). contradiction.
  - rewrite <- app_assoc in Y. apply (Q _ _ _ C Y).
  - rewrite <- !app_assoc in Y. apply (Q _ _ _ E) in Y. rewrite <- ?app_assoc in Y. apply (Q _ _ _ F Y).
Qed.
Lemma raw_spelled : forall n raw f t, (length raw <= n)%nat -> string_syntax raw -> unescape f raw = Some t -> utf8_text t -> spell_text t raw.
Proof.
  induction n as [|n IH]; intros raw f t L Y U T.
  - destruct raw; [|cbn in L; lia]. destruct f; [discriminate|]. cbn in U. injection U as <-. exists [], []. repeat split; constructor.
  - assert (G : forall c p q g t', raw = p ++ q -> p <> [] -> scalar c -> spell_char c p -> t = utf8_char c ++ t' -> unescape g q = Some t' -> spell_text t raw).
    { intros c p q g t' -> NP SC SP -> U'. rewrite app_length in L. assert (0 < length p)%nat by (destruct p; [congruence|cbn; lia]).
      assert (T' : utf8_text t') by (apply utf8_spec; apply utf8_spec in T; rewrite utf8_char_valid in T by exact SC; exact T).
      destruct (IH q g t') as (cs & ps & A & B & C & D); [lia|apply (tail_syntax p q Y c SP SC)|exact U'|exact T'|].
      exists (c :: cs), (p :: ps). split; [constructor; assumption|]. split; [cbn; congruence|]. split; [constructor; assumption|cbn; congruence]. }
    destruct f as [|f]; [discriminate|]. cbn [unescape] in U. destruct Y as [|b s P1 P2 P3 Y|e s I Y|m h s C Y].
    + injection U as <-. exists [], []. repeat split; constructor.
    + pose proof (proj2 (N.eqb_neq _ _) P3) as P3'. rewrite P3' in U. destruct (unescape f s) as [t'|] eqn:U'; [|discriminate]. injection U as <-.
      destruct (utf8_valid_head b t' (proj2 (utf8_spec _) T)) as (c & r & SC & E & _).
      assert (K : exists q g, b :: s = utf8_char c ++ q /\ unescape g q = Some r).
      { unfold utf8_char in E |- *. unfold scalar in SC.
        destruct (N.ltb_spec c 128); [injection E as <- <-; exists s, f; auto|].
        destruct (N.ltb_spec c 2048).
        { injection E as -> ->. destruct (unescape_cont _ _ _ _ U') as (g & s1 & -> & U1 & Y1); [lia|exact Y|]. exists s1, g. auto. }
        destruct (N.ltb_spec c 65536).
        { injection E as -> ->. destruct (unescape_cont _ _ _ _ U') as (g & s1 & -> & U1 & Y1); [lia|exact Y|].
          destruct (unescape_cont _ _ _ _ U1) as (g2 & s2 & -> & U2 & Y2); [lia|exact Y1|]. exists s2, g2. auto. }
        injection E as -> ->. destruct (unescape_cont _ _ _ _ U') as (g & s1 & -> & U1 & Y1); [lia|exact Y|].
        destruct (unescape_cont _ _ _ _ U1) as (g2 & s2 & -> & U2 & Y2); [lia|exact Y1|].
        destruct (unescape_cont _ _ _ _ U2) as (g3 & s3 & -> & U3 & Y3); [lia|exact Y2|]. exists s3, g3. auto. }
      destruct K as (q & g & Eq & Uq). assert (NC : utf8_char c <> []) by (pose proof (utf8_char_len c); destruct (utf8_char c); [cbn in *; lia|discriminate]).
      apply (G c (utf8_char c) q g r Eq NC SC); [|congruence|exact Uq].
      assert (Hc : 32 <= c /\ c <> 34 /\ c <> 92).
      { unfold utf8_char in E. destruct (N.ltb_spec c 128); [injection E as <- _; auto|lia]. }
      destruct Hc as (H1 & H2 & H3). constructor; assumption.
    + cbn [N.eqb Pos.eqb] in U. destruct (e =? 117) eqn:E; [apply N.eqb_eq in E; subst e; cbn in I; repeat (destruct I as [I|I]; [discriminate I|]); contradiction|].
      destruct (unescape f s) as [t'|] eqn:U'; [|discriminate]. injection U as <-.
      assert (K : escaped e < 128 /\ spell_char (escaped e) [92; e]).
      { cbn in I. repeat (destruct I as [<-|I]; [split; [reflexivity|apply sc_short; cbn; tauto]|]). contradiction. }
      destruct K as [K1 K2]. apply (G (escaped e) [92; e] s f t'); try assumption; try reflexivity; [discriminate|unfold scalar; lia|].
      unfold utf8_char. destruct (N.ltb_spec (escaped e) 128); [reflexivity|lia].
    + cbn [app N.eqb Pos.eqb] in U. destruct (unicode_escape (h ++ s)) as [[x q]|] eqn:X; [|discriminate].
      destruct (unescape f q) as [t'|] eqn:U'; [|discriminate]. injection U as <-.
      destruct (unicode_spelled _ _ _ X) as (c & p & SC & -> & SP & E & _).
      apply (G c ([92; 117] ++ p) q f t'); try assumption; try reflexivity; [cbn [app]; congruence|discriminate].
Qed.
Lemma string_spelled : forall raw t, string_syntax raw -> string_of raw = Some t -> spell_text t raw.
Proof.
  intros raw t Y H. unfold string_of in H. destruct (unescape _ raw) as [x|] eqn:U; [|discriminate]. destruct (utf8_valid x) eqn:V; [|discriminate].
  injection H as ->. eapply raw_spelled; [apply le_n|exact Y|exact U|apply utf8_spec, V].
Qed.
Lemma values_spelled : forall f,
  (forall l j r v, jvalue f l = Some (j, r) -> means j v -> exists w s, l = w ++ s ++ r /\ blank w /\ spells v s) /\
  (forall l js r vs, jelems f l = Some (js, r) -> Forall2 means js vs -> exists s, l = s ++ 93 :: r /\ elements vs s) /\
  (forall l js r vs, jmembers f l = Some (js, r) -> Forall2 (fun a b => string_of (fst a) = Some (fst b) /\ means (snd a) (snd b)) js vs ->
    exists s, l = s ++ 125 :: r /\ members vs s).
Proof.
  induction f as [|f (IV & IE & IM)]; [split; [|split]; intros; discriminate|]. split; [|split].
  - intros l j r v H M. cbn [jvalue] in H. destruct (skip_ws_split l) as (w & E & W). destruct (skip_ws l) as [|b x]; [discriminate|].
    rewrite E. clear E l. exists w.
    assert (G : forall s, b :: x = s ++ r -> spells v s -> exists s, w ++ b :: x = w ++ s ++ r /\ blank w /\ spells v s)
      by (intros s Es V; exists s; rewrite Es; auto).
    destruct (b =? 110) eqn:C1.
    { apply N.eqb_eq in C1. subst b. destruct (word_at _ x) as [q|] eqn:A; [|discriminate]. injection H as <- <-. apply word_some in A. subst x.
      inversion M; subst. apply (G (bs "null")); [reflexivity|constructor]. }
    destruct (b =? 116) eqn:C2.
    { apply N.eqb_eq in C2. subst b. destruct (word_at _ x) as [q|] eqn:A; [|discriminate]. injection H as <- <-. apply word_some in A. subst x.
      inversion M; subst. apply (G (bs "true")); [reflexivity|constructor]. }
    destruct (b =? 102) eqn:C3.
    { apply N.eqb_eq in C3. subst b. destruct (word_at _ x) as [q|] eqn:A; [|discriminate]. injection H as <- <-. apply word_some in A. subst x.
      inversion M; subst. apply (G (bs "false")); [reflexivity|constructor]. }
    destruct (b =? 34) eqn:C4.
    { apply N.eqb_eq in C4. subst b. destruct (raw_string _ x) as [[t q]|] eqn:A; [|discriminate]. injection H as <- <-. apply raw_syntax in A as [-> A].
      inversion M; subst. apply (G ([34] ++ t ++ [34])); [cbn [app]; rewrite <- app_assoc; reflexivity|constructor; apply string_spelled; assumption]. }
    destruct (b =? 91) eqn:C5.
    { apply N.eqb_eq in C5. subst b. destruct (after 93 (skip_ws x)) as [q|] eqn:A.
      - injection H as <- <-. apply after_ws in A as (u & U & ->). inversion M; subst. inversion H0; subst.
        apply (G ([91] ++ u ++ [93])); [cbn [app]; rewrite <- app_assoc; reflexivity|constructor; exact U].
      - destruct (jelems f x) as [[y q]|] eqn:J; [|discriminate]. injection H as <- <-. inversion M; subst. destruct (IE _ _ _ _ J H0) as (s & -> & V).
        apply (G ([91] ++ s ++ [93])); [cbn [app]; rewrite <- app_assoc; reflexivity|apply sp_arr; exact V]. }
    destruct (b =? 123) eqn:C6.
    { apply N.eqb_eq in C6. subst b. destruct (after 125 (skip_ws x)) as [q|] eqn:A.
      - injection H as <- <-. apply after_ws in A as (u & U & ->). inversion M; subst. inversion H0; subst.
        apply (G ([123] ++ u ++ [125])); [cbn [app]; rewrite <- app_assoc; reflexivity|apply sp_obj0; exact U].
      - destruct (jmembers f x) as [[y q]|] eqn:J; [|discriminate]. injection H as <- <-. inversion M; subst. destruct (IM _ _ _ _ J H0) as (s & -> & V).
        apply (G ([123] ++ s ++ [125])); [cbn [app]; rewrite <- app_assoc; reflexivity|apply sp_obj; exact V]. }
    destruct ((b =? 45) || digit_byte b); [|discriminate]. destruct (number_text (b :: x)) as [[t q]|] eqn:N; [|discriminate]. injection H as <- <-.
    destruct (number_split _ _ _ N) as [E V]. apply (G t E). inversion M; subst; [apply sp_int|apply sp_num]; assumption.
  - intros l j r vs H M. cbn [jelems] in H. destruct (jvalue f l) as [[x q]|] eqn:V; [|discriminate].
    destruct (after 93 (skip_ws q)) as [z|] eqn:A.
    + injection H as <- <-. inversion M as [|? v ? vs' M1 M2]; subst. inversion M2; subst. destruct (IV _ _ _ _ V M1) as (w & s & -> & W & SV).
      apply after_ws in A as (u & U & ->). exists (w ++ s ++ u). split; [rewrite <- !app_assoc; reflexivity|constructor; assumption].
    + destruct (after 44 (skip_ws q)) as [z|] eqn:B; [|discriminate]. apply after_ws in B as (u & U & ->).
      destruct (jelems f z) as [[xs y]|] eqn:J; [|discriminate]. injection H as <- <-. inversion M as [|? v ? vs' M1 M2]; subst.
      destruct (IV _ _ _ _ V M1) as (w & s & -> & W & SV). destruct (IE _ _ _ _ J M2) as (s' & -> & E).
      exists (w ++ s ++ u ++ [44] ++ s'). split; [rewrite <- !app_assoc; reflexivity|apply el_more; assumption].
  - intros l j r vs H M. cbn [jmembers] in H. destruct (after 34 (skip_ws l)) as [x|] eqn:A; [|discriminate]. apply after_ws in A as (w1 & W1 & ->).
    destruct (raw_string _ x) as [[k r1]|] eqn:K; [|discriminate]. apply raw_syntax in K as [-> K].
    destruct (after 58 (skip_ws r1)) as [r2|] eqn:A; [|discriminate]. apply after_ws in A as (w2 & W2 & ->).
    destruct (jvalue f r2) as [[v r3]|] eqn:V; [|discriminate].
    destruct (after 125 (skip_ws r3)) as [z|] eqn:A.
    + injection H as <- <-. inversion M as [|? [k' v'] ? vs' [M0 M1] M2]; subst. inversion M2; subst. cbn [fst snd] in M0, M1.
      destruct (IV _ _ _ _ V M1) as (w3 & s & -> & W3 & SV). apply after_ws in A as (w4 & W4 & ->).
      exists (w1 ++ [34] ++ k ++ [34] ++ w2 ++ [58] ++ w3 ++ s ++ w4).
      split; [repeat (rewrite <- !app_assoc; cbn [app]); reflexivity|apply mb_one; try assumption; apply string_spelled; assumption].
    + destruct (after 44 (skip_ws r3)) as [z|] eqn:B; [|discriminate]. apply after_ws in B as (w4 & W4 & ->).
      destruct (jmembers f z) as [[xs y]|] eqn:J; [|discriminate]. injection H as <- <-. inversion M as [|? [k' v'] ? vs' [M0 M1] M2]; subst. cbn [fst snd] in M0, M1.
      destruct (IV _ _ _ _ V M1) as (w3 & s & -> & W3 & SV). destruct (IM _ _ _ _ J M2) as (s' & -> & E).
      exists (w1 ++ [34] ++ k ++ [34] ++ w2 ++ [58] ++ w3 ++ s ++ w4 ++ [44] ++ s').
      split; [repeat (rewrite <- !app_assoc; cbn [app]); reflexivity|apply mb_more; try assumption; apply string_spelled; assumption].
Qed.
Lemma document_iff : forall v t, document v t <-> exists j, jtext t = Some j /\ means j v.
Proof.
  intros v t. split; [apply document_read|]. intros (j & H & M). unfold jtext in H. destruct (jvalue _ t) as [[x r]|] eqn:V; [|discriminate].
  destruct (skip_ws_split r) as (w2 & E2 & W2). destruct (skip_ws r); [|discriminate]. injection H as ->.
  destruct (proj1 (values_spelled _) _ _ _ _ V M) as (w & s & E & W & SV). exists w, s, w2. rewrite app_nil_r in E2. subst r. auto.
Qed.

(** ** One meaning *)
Lemma means_one : forall j x, means j x -> forall y, means j y -> x = y.
Proof.
  fix IH 3. intros j x M. destruct M as [|b|z t I|t N I|raw t E|l m F|l m F]; intros y K; inversion K; subst; try reflexivity.
  - f_equal. eapply integer_inj; eassumption.
  - exfalso. eapply H1, I.
  - exfalso. eapply I, H0.
  - congruence.
  - f_equal. clear K. revert m0 H0. induction F as [|a c l m A F IHF]; intros m0 G; inversion G; subst; [reflexivity|].
    f_equal; [apply (IH _ _ A), H1|apply IHF, H3].
  - f_equal. clear K. revert m0 H0. induction F as [|a c l m A F IHF]; intros m0 G; inversion G; subst; [reflexivity|].
    f_equal; [|apply IHF, H3]. destruct A as [A1 A2], H1 as [B1 B2]. destruct c as [k v], y as [k' v']. cbn [fst snd] in *.
    f_equal; [congruence|apply (IH _ _ A2), B2].
Qed.
Lemma document_one : forall t x y, document x t -> document y t -> x = y.
Proof.
  intros t x y A B. destruct (document_read _ _ A) as (j & E & M), (document_read _ _ B) as (k & F & N).
  assert (j = k) by congruence. subst k. eapply means_one; eassumption.
Qed.

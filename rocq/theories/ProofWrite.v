(** What the writer of [ModelJson] writes are JSON texts, and the locks read back. *)

From Coq Require Import ZArith Lia.
From Verif Require Import Base BaseLemmas ModelObject ModelStorage ModelLfs ModelJson SpecBase SpecLfs SpecJson ProofUtf8 ProofSerde ProofFields.
Open Scope N_scope.

(** ** Texts *)
Lemma json_char_high : forall b, plain_byte b -> json_char b = [b].
Proof.
  intros b (A & B & C). unfold json_char.
  assert (Q : forall k, b <> k -> (b =? k) = false) by (intros k K; apply N.eqb_neq, K).
  rewrite !Q by lia. replace (b <? 32) with false by (symmetry; apply N.ltb_ge; exact A). reflexivity.
Qed.
Lemma json_char_low : forall b, b < 32 -> b <> 8 -> b <> 9 -> b <> 10 -> b <> 12 -> b <> 13 ->
  exists h, hex_code b h /\ json_char b = [92; 117] ++ h.
Proof.
  intros b L A B C D E. assert (Q : forall k, b <> k -> (b =? k) = false) by (intros k K; apply N.eqb_neq, K).
  exists [48; 48; hex_digit (N.shiftr b 4); hex_digit (N.land b 15)]. split.
  - change 15 with (N.ones 4). rewrite N.shiftr_div_pow2, N.land_ones. change (2 ^ 4) with 16.
    pose proof (N.mod_lt b 16 ltac:(lia)). pose proof (N.div_mod b 16 ltac:(lia)). assert (b / 16 < 2) by (apply N.div_lt_upper_bound; lia).
    assert (X : forall n, n < 16 -> hex_char n (hex_digit n)).
    { intros n N. unfold hex_digit. destruct (n <? 10) eqn:T; [apply N.ltb_lt in T; constructor; exact T|apply N.ltb_ge in T; apply hx_lower; lia]. }
    exists 0, 0, (b / 16), (b mod 16). do 4 eexists. split; [apply (hx_digit 0); lia|]. split; [apply (hx_digit 0); lia|].
    split; [apply X; lia|]. split; [apply X; lia|]. split; [lia|reflexivity].
  - unfold json_char. rewrite !Q by lia. apply N.ltb_lt in L. rewrite L. reflexivity.
Qed.
Lemma json_spell_char : forall c, scalar c -> spell_char c (flat_map json_char (utf8_char c)).
Proof.
  intros c HS.
  destruct (N.eq_dec c 34) as [->|A1]; [apply sc_short; cbn; tauto|]. destruct (N.eq_dec c 92) as [->|A2]; [apply sc_short; cbn; tauto|].
  destruct (N.eq_dec c 8) as [->|A3]; [apply sc_short; cbn; tauto|]. destruct (N.eq_dec c 9) as [->|A4]; [apply sc_short; cbn; tauto|].
  destruct (N.eq_dec c 10) as [->|A5]; [apply sc_short; cbn; tauto|]. destruct (N.eq_dec c 12) as [->|A6]; [apply sc_short; cbn; tauto|].
  destruct (N.eq_dec c 13) as [->|A7]; [apply sc_short; cbn; tauto|]. destruct (N.lt_ge_cases c 32) as [L|L].
  - destruct (json_char_low c L) as (h & H & E); try assumption. replace (utf8_char c) with [c].
    + cbn [flat_map]. rewrite app_nil_r, E. apply sc_code; [lia|exact H].
    + unfold utf8_char. replace (c <? 128) with true by (symmetry; apply N.ltb_lt; lia). reflexivity.
  - replace (flat_map json_char (utf8_char c)) with (utf8_char c); [apply sc_plain; assumption|].
    pose proof (utf8_plain c L A1 A2) as P. induction P as [|b l B P IH]; [reflexivity|]. cbn [flat_map]. rewrite json_char_high, <- IH by exact B. reflexivity.
Qed.
Lemma json_spell_text : forall t, utf8_text t -> spell_text t (flat_map json_char t).
Proof.
  intros t (cs & S & ->). exists cs, (map (fun c => flat_map json_char (utf8_char c)) cs). split; [exact S|]. split; [reflexivity|]. split.
  - induction S as [|c cs C S IH]; constructor; [apply json_spell_char, C|exact IH].
  - induction cs as [|c cs IH]; [reflexivity|]. inversion S; subst. cbn. rewrite flat_map_app, IH by assumption. reflexivity.
Qed.
Lemma sp_string : forall t, utf8_text t -> spells (VText t) (json_text t).
Proof. intros t H. apply sp_text, json_spell_text, H. Qed.

(** ** Numbers *)
Lemma dec_decimal : forall f n, n < 2 ^ N.of_nat f -> f <> O -> decimal n (dec_aux f n []).
Proof.
  induction f as [|f IH]; intros n H F; [congruence|]. cbn [dec_aux]. destruct (n <? 10) eqn:L.
  - apply N.ltb_lt in L. rewrite N.mod_small by exact L. apply dc_digit, L.
  - apply N.ltb_ge in L. rewrite dec_aux_app.
    replace n with (10 * (n / 10) + n mod 10) at 1 by (symmetry; apply N.div_mod; lia).
    assert (1 <= n / 10) by (apply N.div_le_lower_bound; lia).
    apply dc_more; [|lia|apply N.mod_lt; lia]. rewrite Nat2N.inj_succ, N.pow_succ_r' in H. apply IH; [apply N.div_lt_upper_bound; lia|].
    intros ->. cbn in H. lia.
Qed.
Lemma to_decimal_decimal : forall n, decimal n (to_decimal n).
Proof.
  intros n. apply dec_decimal; [|discriminate]. rewrite Nat2N.inj_succ. destruct n as [|p]; [reflexivity|].
  apply N.lt_trans with (2 ^ N.of_nat (N.size_nat (N.pos p))); [|apply N.pow_lt_mono_r; lia].
  pose proof (N.size_gt (N.pos p)) as G. replace (N.of_nat (N.size_nat (N.pos p))) with (N.size (N.pos p)); [exact G|].
  cbn. clear G. induction p; cbn [Pos.size_nat Pos.size]; try reflexivity; rewrite Nat2N.inj_succ, <- IHp; reflexivity.
Qed.
Lemma sp_z : forall z, spells (VInt z) (z_text z).
Proof.
  intros z. apply sp_int. unfold z_text. destruct (z <? 0)%Z eqn:L.
  - apply Z.ltb_lt in L. right. exists (Z.to_N (- z)), (to_decimal (Z.to_N (- z))). split; [lia|]. split; [lia|]. split; [apply to_decimal_decimal|reflexivity].
  - apply Z.ltb_ge in L. left. exists (Z.to_N z). split; [lia|apply to_decimal_decimal].
Qed.
Lemma sp_n : forall n, spells (VInt (Z.of_N n)) (to_decimal n).
Proof. intros n. apply sp_int. left. exists n. split; [reflexivity|apply to_decimal_decimal]. Qed.

(** ** Lists and structs *)
Lemma blank_nil : blank [].
Proof. constructor. Qed.
Lemma items_elements : forall vs ss, Forall2 spells vs ss -> vs <> [] -> elements vs (json_items ss).
Proof.
  intros vs ss H. induction H as [|v s vs ss A H IH]; intros N; [congruence|]. destruct H as [|v' s' vs ss A' H].
  - cbn [json_items]. pose proof (el_one v [] s [] blank_nil A blank_nil) as E. cbn [app] in E. rewrite app_nil_r in E. exact E.
  - pose proof (el_more v (v' :: vs) [] s [] _ blank_nil A blank_nil (IH ltac:(discriminate))) as E. exact E.
Qed.
Lemma sp_list : forall vs ss, Forall2 spells vs ss -> spells (VArr vs) (json_list ss).
Proof.
  intros vs ss H. unfold json_list. destruct H as [|v s vs ss A H]; [apply (sp_arr0 []), blank_nil|].
  apply sp_arr, items_elements; [constructor; assumption|discriminate].
Qed.
Definition writes (x : bytes * json) (f : bytes * bytes) : Prop := fst x = fst f /\ utf8_text (fst f) /\ spells (snd x) (snd f).
Lemma items_members : forall m fs, Forall2 writes m fs -> m <> [] -> members m (json_items (map json_field fs)).
Proof.
  intros m fs H. induction H as [|[k v] [k' s] m fs (A & B & C) H IH]; intros N; [congruence|]. cbn in A, B, C. subst k'.
  destruct H as [|x f m fs W H].
  - cbn [map json_items]. pose proof (mb_one k v [] _ [] [] s [] blank_nil (json_spell_text k B) blank_nil blank_nil C blank_nil) as E.
    cbn [app] in E. rewrite app_nil_r in E. unfold json_field, json_text. cbn [fst snd]. rewrite <- !app_assoc. exact E.
  - pose proof (mb_more k v (x :: m) [] _ [] [] s [] _ blank_nil (json_spell_text k B) blank_nil blank_nil C blank_nil (IH ltac:(discriminate))) as E.
    cbn [app] in E. change (json_items (map json_field ((k, s) :: f :: fs))) with (json_field (k, s) ++ [44] ++ json_items (map json_field (f :: fs))).
    unfold json_field at 1, json_text. cbn [fst snd]. rewrite <- !app_assoc. exact E.
Qed.
Lemma sp_struct : forall m fs, Forall2 writes m fs -> spells (VObj m) (json_struct fs).
Proof.
  intros m fs H. unfold json_struct. destruct H as [|x f m fs A H]; [apply (sp_obj0 []), blank_nil|].
  apply sp_obj, items_members; [constructor; assumption|discriminate].
Qed.
Lemma spells_document : forall v s, spells v s -> document v s.
Proof. intros v s H. exists [], s, []. split; [apply blank_nil|]. split; [exact H|]. split; [apply blank_nil|]. rewrite app_nil_r. reflexivity. Qed.

(** ** Locks *)
Definition lock_tree (x : lock) : json :=
  VObj [(bs "id", VText (lk_id x)); (bs "path", VText (lk_path x)); (bs "locked_at", VText (lk_at x));
        (bs "owner", match lk_owner x with None => VNull | Some n => VObj [(bs "name", VText n)] end)].
Ltac ascii := apply utf8_spec; reflexivity.
Ltac write_field := split; [reflexivity|split; [ascii|]]; cbn [fst snd].
Lemma lock_spelled : forall x, lock_text x -> spells (lock_tree x) (json_lock x).
Proof.
  intros x (A & B & C & D). apply sp_struct. constructor; [write_field; apply sp_string, A|]. constructor; [write_field; apply sp_string, B|].
  constructor; [write_field; apply sp_string, C|]. constructor; [write_field|constructor]. destruct (lk_owner x) as [n|]; [|apply sp_null].
  apply sp_struct. constructor; [write_field; apply sp_string, D|constructor].
Qed.
Lemma locks_spelled : forall l, Forall lock_text l -> spells (VArr (map lock_tree l)) (write_locks l).
Proof. intros l H. apply sp_list. induction H; constructor; [apply lock_spelled; assumption|assumption]. Qed.

(** A member at its place. *)
Lemma member_here : forall k x l, ~ In k (map fst l) -> member ((k, x) :: l) k x.
Proof. intros k x l H. exists [], l. split; [reflexivity|]. split; [intros []|exact H]. Qed.
Ltac absent := let H := fresh in intros H; cbn in H; repeat (destruct H as [H|H]; [discriminate H|]); exact H.
Ltac at_member := first [apply member_here; absent | apply member_cons; [discriminate|at_member]].
Lemma lock_tree_ok : forall x, is_lock (lock_tree x) x.
Proof.
  intros [i p a o]. exists false, (Some (match o with None => VNull | Some n => VObj [(bs "name", VText n)] end)). cbn [lk_id lk_path lk_at lk_owner]. split.
  - unfold lock_tree. cbn [lk_id lk_path lk_at lk_owner]. constructor. repeat (constructor; [at_member|]). constructor.
  - destruct o as [n|]; [|reflexivity]. exists false. constructor. constructor; [at_member|constructor].
Qed.
Lemma locks_read_back : forall l, Forall lock_text l -> read_locks (write_locks l) = Some l.
Proof.
  intros l H. unfold read_locks. apply (text_decodes _ _ (dec_vec _ _ dec_lock) (VArr (map lock_tree l))); [apply spells_document, locks_spelled, H|].
  exists (map lock_tree l). split; [reflexivity|]. clear H. induction l; constructor; [apply lock_tree_ok|assumption].
Qed.
Lemma write_locks_some : forall l, write_locks l <> [].
Proof. intros l. discriminate. Qed.
Lemma chars_app : forall a b, chars (a ++ b) = chars a + chars b.
Proof. intros a b. unfold chars. rewrite filter_app. apply nlen_app. Qed.
Lemma items_fewer : forall a x b, chars (json_items (a ++ b)) <= chars (json_items (a ++ x :: b)).
Proof.
  assert (K : forall x y l, json_items (x :: y :: l) = x ++ [44] ++ json_items (y :: l)) by reflexivity.
  induction a as [|y a IH]; intros x b.
  - cbn [app]. destruct b as [|z b]; [apply N.le_0_l|]. rewrite K, !chars_app. lia.
  - specialize (IH x b). cbn [app]. destruct a as [|z a].
    + cbn [app] in IH |- *. destruct b as [|t b]; [rewrite K; rewrite !chars_app; cbn [json_items]; lia|].
      rewrite !K in *. rewrite !chars_app in *. lia.
    + cbn [app] in IH |- *. rewrite !K. rewrite !chars_app. lia.
Qed.
Lemma write_fewer : forall l1 x l2, chars (write_locks (l1 ++ l2)) <= chars (write_locks (l1 ++ x :: l2)).
Proof.
  intros l1 x l2. unfold write_locks, json_list. rewrite !chars_app, !map_app. cbn [map]. pose proof (items_fewer (map json_lock l1) (json_lock x) (map json_lock l2)). lia.
Qed.

(** What a reader gives is text. *)
Lemma string_text : forall raw t, string_of raw = Some t -> utf8_text t.
Proof.
  intros raw t H. unfold string_of in H. destruct (unescape _ raw) as [x|]; [|discriminate]. destruct (utf8_valid x) eqn:V; [|discriminate].
  injection H as <-. apply utf8_spec, V.
Qed.

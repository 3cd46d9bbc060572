(** Trees, identities, commits and tags. *)

From Verif Require Import Base BaseLemmas ModelUtils ModelObject ModelBase
  SpecObject SpecIdx SpecBase ProofObject ProofUtf8.
Open Scope N_scope.

(** ** Tree entries *)

Lemma tree_item_type_spec : forall mode t, tree_item_type_from mode = Ok t <-> git_mode mode t.
Proof.
  intros mode t. unfold tree_item_type_from. split.
  - repeat match goal with |- context [beq mode ?b] =>
      destruct (beq mode b) eqn:?;
      [ match goal with E : beq mode _ = true |- _ => apply beq_eq in E; subst end;
        intros H; injection H as <-; constructor | ] end.
    destruct (utf8_unwrap mode); discriminate.
  - intros H. inversion H; reflexivity.
Qed.
Lemma git_mode_digits : forall mode t, git_mode mode t -> Forall is_digit mode /\ mode <> [].
Proof.
  intros mode t H. unfold is_digit.
  inversion H; split; try discriminate; repeat constructor; vm_compute; discriminate.
Qed.
Lemma git_mode_no : forall mode t c, git_mode mode t -> c < 48 -> ~ In c mode.
Proof. intros mode t c H Hc. apply digits_not_in; [eapply git_mode_digits; eassumption|]. unfold is_digit. lia. Qed.

Lemma tree_loop_ok : forall items b, git_tree items b -> forall fuel acc, (length b <= fuel)%nat ->
  tree_items_loop fuel b acc = Ok (acc ++ items).
Proof.
  induction 1 as [|mode t id name items rest Hm Hn H0 Hid _ IH]; intros fuel acc Hf.
  - destruct fuel; simpl; rewrite app_nil_r; reflexivity.
  - destruct (git_mode_digits _ _ Hm) as [Hd Hne].
    destruct fuel as [|f]; [destruct mode; [contradiction|simpl in Hf; lia]|].
    assert (E : exists x l, mode ++ [32] ++ name ++ [0] ++ id ++ rest = x :: l).
    { destruct mode as [|x l]; [contradiction|]. exists x. eexists. reflexivity. }
    destruct E as (x & l & E). cbn [tree_items_loop]. rewrite E at 1. cbn match. clear E x l.
    change (mode ++ [32] ++ name ++ [0] ++ id ++ rest) with (mode ++ 32 :: name ++ [0] ++ id ++ rest).
    rewrite find_byte_app by (eapply git_mode_no; [eassumption|lia]). cbn [unwrap_opt bind].
    rewrite slice_prefix by reflexivity. cbn [bind].
    apply tree_item_type_spec in Hm as Ht. rewrite Ht. cbn [unwrap bind].
    replace (mode ++ 32 :: name ++ [0] ++ id ++ rest) with ((mode ++ [32] ++ name) ++ 0 :: id ++ rest)
      by (rewrite <- !app_assoc; reflexivity).
    rewrite find_byte_app.
    2:{ intros Hi. apply in_app_or in Hi as [Hi|Hi]; [revert Hi; eapply git_mode_no; [eassumption|lia]|].
        apply in_app_or in Hi as [[Hi|[]]|Hi]; [discriminate|contradiction]. }
    cbn [unwrap_opt bind].
    replace ((mode ++ [32] ++ name) ++ 0 :: id ++ rest) with ((mode ++ [32]) ++ name ++ 0 :: id ++ rest)
      by (rewrite <- !app_assoc; reflexivity).
    rewrite slice_mid by (rewrite !app_length; simpl; lia). cbn [bind].
    rewrite utf8_unwrap_text by assumption. cbn [bind].
    replace ((mode ++ [32]) ++ name ++ 0 :: id ++ rest) with ((mode ++ [32] ++ name ++ [0]) ++ id ++ rest)
      by (rewrite <- !app_assoc; reflexivity).
    rewrite slice_mid by (rewrite !app_length; simpl; rewrite ?app_length; simpl; lia). cbn [bind].
    unfold hash_from_row. rewrite Hid. cbn [Nat.eqb bind].
    replace (skipn _ _) with rest.
    2:{ symmetry. rewrite (app_assoc _ id rest). apply skipn_app_n. rewrite !app_length. simpl. rewrite ?app_length. simpl. lia. }
    rewrite IH; [rewrite <- app_assoc; reflexivity|].
    rewrite !app_length in Hf. simpl in Hf. lia.
Qed.

Lemma tree_loop_inv : forall fuel b acc l, tree_items_loop fuel b acc = Ok l ->
  exists items, l = acc ++ items /\ git_tree items b.
Proof.
  induction fuel as [|f IH]; intros b acc l H.
  - destruct b; [|discriminate]. simpl in H. exists []. rewrite app_nil_r. split; [congruence|constructor].
  - destruct b as [|x b'].
    { simpl in H. exists []. rewrite app_nil_r. split; [congruence|constructor]. }
    cbn [tree_items_loop] in H. revert H. generalize (x :: b'). clear x b'. intros b H.
    apply bind_ok in H as (mi & H1 & H). apply unwrap_opt_ok in H1.
    apply find_byte_some in H1 as (mode & r1 & Eb & Lm & Nm).
    apply bind_ok in H as (mode' & H2 & H). rewrite Eb in H2.
    rewrite slice_prefix in H2 by (symmetry; exact Lm). injection H2 as <-.
    apply bind_ok in H as (t & H3 & H). apply unwrap_ok, tree_item_type_spec in H3.
    apply bind_ok in H as (fi & H4 & H). apply unwrap_opt_ok in H4.
    apply find_byte_some in H4 as (pre & r2 & Eb2 & Lp & Np).
    apply bind_ok in H as (name & H5 & H). apply slice_ok in H5 as (a & d & E5 & La & Ln).
    apply bind_ok in H as (name' & H6 & H). apply utf8_unwrap_spec in H6 as [-> Hu].
    apply bind_ok in H as (id & H7 & H). apply slice_ok in H7 as (a2 & d2 & E7 & La2 & Li).
    apply bind_ok in H as (id' & H8 & H). unfold hash_from_row in H8.
    destruct (Nat.eqb_spec (length id) 20) as [Lid|]; [|discriminate]. injection H8 as <-.
    apply IH in H as (items & -> & Ht).
    exists (mkTreeItem mode t id name :: items). split; [rewrite <- app_assoc; reflexivity|].
    assert (Ea : a = mode ++ [32]).
    { pose proof E5 as E. rewrite Eb in E. change (mode ++ 32 :: r1) with (mode ++ [32] ++ r1) in E.
      rewrite app_assoc in E.
      assert (K : firstn (length a) ((mode ++ [32]) ++ r1) = firstn (length a) (a ++ name ++ d)) by congruence.
      rewrite firstn_app_exact in K. rewrite firstn_app_n in K; [congruence|].
      rewrite app_length. simpl. lia. }
    subst a.
    assert (Epre : pre = (mode ++ [32]) ++ name).
    { assert (K : firstn (length pre) (pre ++ 0 :: r2) = firstn (length pre) (((mode ++ [32]) ++ name) ++ d)).
      { rewrite <- Eb2, <- app_assoc, <- E5. reflexivity. }
      rewrite firstn_app_exact in K. rewrite firstn_app_n in K; [congruence|].
      rewrite app_length. lia. }
    assert (Ea2 : a2 = pre ++ [0]).
    { assert (K : firstn (length a2) (a2 ++ id ++ d2) = firstn (length a2) ((pre ++ [0]) ++ r2)).
      { rewrite <- E7, <- app_assoc. simpl. rewrite <- Eb2. reflexivity. }
      rewrite firstn_app_exact in K. rewrite firstn_app_n in K; [congruence|].
      rewrite app_length. simpl. lia. }
    assert (Ed : skipn (fi + 21) b = d2).
    { rewrite E7, app_assoc. apply skipn_app_n. rewrite app_length, La2, Lid. lia. }
    rewrite Ed in Ht.
    replace b with (mode ++ [32] ++ name ++ [0] ++ id ++ d2).
    + constructor; try assumption. intros Hi. apply Np. rewrite Epre. apply in_or_app. right. assumption.
    + rewrite E7, Ea2, Epre, <- !app_assoc. reflexivity.
Qed.

Lemma slice_ok_or_panic : forall A i j (l : list A), (exists x, slice i j l = Ok x) \/ slice i j l = Panic.
Proof. intros. unfold slice. destruct (_ && _)%bool; [left; eexists|right]; reflexivity. Qed.
Lemma tree_loop_total : forall fuel b acc, (length b <= fuel)%nat ->
  (exists l, tree_items_loop fuel b acc = Ok l) \/ tree_items_loop fuel b acc = Panic.
Proof.
  induction fuel as [|f IH]; intros b acc Hf.
  - destruct b; [|simpl in Hf; lia]. left. eexists. reflexivity.
  - destruct b as [|x b']; [left; eexists; reflexivity|].
    cbn [tree_items_loop]. assert (Hb : (0 < length (x :: b'))%nat) by (simpl; lia).
    revert Hf Hb. generalize (x :: b'). clear x b'. intros b Hf Hb.
    destruct (find_byte 32 b) as [mi|]; [|right; reflexivity]. cbn [unwrap_opt bind].
    destruct (slice_ok_or_panic N 0 mi b) as [[mode ->]| ->]; [|right; reflexivity]. cbn [bind].
    destruct (tree_item_type_from mode) as [t| | |] eqn:Et; try (right; reflexivity).
    2:{ exfalso. unfold tree_item_type_from in Et.
        repeat match type of Et with context [beq mode ?b] => destruct (beq mode b); [discriminate|] end.
        unfold utf8_unwrap in Et. destruct (utf8_valid mode); discriminate. }
    cbn [unwrap bind].
    destruct (find_byte 0 b) as [fi|]; [|right; reflexivity]. cbn [unwrap_opt bind].
    destruct (slice_ok_or_panic N (mi + 1) fi b) as [[name ->]| ->]; [|right; reflexivity]. cbn [bind].
    unfold utf8_unwrap. destruct (utf8_valid name); [|right; reflexivity]. cbn [bind].
    destruct (slice_ok_or_panic N (fi + 1) (fi + 21) b) as [[id ->]| ->]; [|right; reflexivity]. cbn [bind].
    unfold hash_from_row. destruct (length id =? 20)%nat; [|right; reflexivity]. cbn [bind].
    apply IH. rewrite skipn_length. lia.
Qed.

Lemma tree_new_spec : forall m t, tree_new m = Ok t <->
  t_meta t = m /\ t_name t = [] /\ git_tree (t_items t) (m_data m).
Proof.
  intros m t. unfold tree_new. split.
  - intros H. apply bind_ok in H as (items & H1 & H2). injection H2 as <-. simpl.
    apply tree_loop_inv in H1 as (its & -> & Ht). auto.
  - intros (<- & Hn & Ht). rewrite (tree_loop_ok _ _ Ht) by lia. cbn [bind app].
    destruct t as [mm it nm]. simpl in *. subst nm. reflexivity.
Qed.
Lemma tree_new_total : forall m, (exists t, tree_new m = Ok t) \/ tree_new m = Panic.
Proof.
  intros m. unfold tree_new.
  destruct (tree_loop_total (length (m_data m)) (m_data m) [] (le_n _)) as [[l ->]| ->];
    [left; eexists|right]; reflexivity.
Qed.

Lemma git_tree_bytes : forall items b, git_tree items b -> b = flat_map tree_item_bytes items.
Proof.
  induction 1 as [|mode t id name items rest Hm Hn H0 Hid _ IH]; [reflexivity|].
  cbn [flat_map]. unfold tree_item_bytes at 1. cbn [ti_mode ti_filename ti_id].
  rewrite <- IH, <- !app_assoc. reflexivity.
Qed.
Lemma legal_git_tree : forall items, Forall legal_item items -> git_tree items (flat_map tree_item_bytes items).
Proof.
  induction 1 as [|[mode t id name] items (H1 & H2 & H3 & H4) _ IH]; [constructor|].
  cbn [flat_map]. unfold tree_item_bytes at 1. cbn [ti_mode ti_filename ti_id ti_type] in *.
  rewrite <- !app_assoc. constructor; assumption.
Qed.
Lemma git_tree_legal : forall items b, git_tree items b -> Forall legal_item items.
Proof. induction 1; constructor; [repeat split; assumption|assumption]. Qed.

(** ** Identity lines *)

Lemma decimal_text : forall n, utf8_text (to_decimal n).
Proof. intros. apply utf8_spec, utf8_decimal. Qed.

Lemma not_in_app : forall (c : N) a b, ~ In c a -> ~ In c b -> ~ In c (a ++ b).
Proof. intros c a b Ha Hb H. apply in_app_or in H. tauto. Qed.
Lemma not_in_cons : forall (c x : N) l, x <> c -> ~ In c l -> ~ In c (x :: l).
Proof. intros c x l Hx Hl [H|H]; auto. Qed.

Lemma sign_decode_ok : forall s, sign_typed s -> sign_clean s -> sign_decode (sign_encode s) = Ok s.
Proof.
  intros [t name email ts zone] (Ht & Hn & He & Hz & Hts) (N1 & N2 & N3 & N4 & N5 & N6).
  cbn [s_t s_name s_email s_timestamp s_timezone] in *.
  unfold sign_decode, sign_encode. cbn [s_t s_name s_email s_timestamp s_timezone].
  set (tail := to_decimal ts ++ [32] ++ zone).
  change (t ++ [32] ++ name ++ [32] ++ [60] ++ email ++ [62] ++ [32] ++ tail)
    with (t ++ 32 :: name ++ [32] ++ [60] ++ email ++ [62] ++ [32] ++ tail).
  rewrite find_byte_app by assumption. cbn [unwrap_opt bind].
  rewrite slice_prefix by reflexivity. cbn [bind]. rewrite utf8_unwrap_text by assumption. cbn [bind].
  replace (find_byte 60 (t ++ 32 :: name ++ [32] ++ [60] ++ email ++ [62] ++ [32] ++ tail))
    with (Some (length (t ++ [32] ++ name ++ [32]))).
  2:{ symmetry. replace (t ++ 32 :: name ++ [32] ++ [60] ++ email ++ [62] ++ [32] ++ tail)
        with ((t ++ [32] ++ name ++ [32]) ++ 60 :: email ++ [62] ++ [32] ++ tail)
        by (rewrite <- !app_assoc; reflexivity).
      apply find_byte_app. repeat apply not_in_app; try assumption; intros [H|[]]; discriminate. }
  replace (find_byte 62 (t ++ 32 :: name ++ [32] ++ [60] ++ email ++ [62] ++ [32] ++ tail))
    with (Some (length (t ++ [32] ++ name ++ [32] ++ [60] ++ email))).
  2:{ symmetry. replace (t ++ 32 :: name ++ [32] ++ [60] ++ email ++ [62] ++ [32] ++ tail)
        with ((t ++ [32] ++ name ++ [32] ++ [60] ++ email) ++ 62 :: [32] ++ tail)
        by (rewrite <- !app_assoc; reflexivity).
      apply find_byte_app. repeat apply not_in_app; try assumption; intros [H|[]]; discriminate. }
  cbn [unwrap_opt bind].
  replace (pred_or_panic (length (t ++ [32] ++ name ++ [32]))) with (Ok (length (t ++ [32] ++ name))).
  2:{ rewrite !app_length. simpl. rewrite Nat.add_comm with (m := 1%nat).
      replace (length t + S (1 + length name))%nat with (S (length t + S (length name))) by lia.
      reflexivity. }
  cbn [bind].
  replace (t ++ 32 :: name ++ [32] ++ [60] ++ email ++ [62] ++ [32] ++ tail)
    with ((t ++ [32]) ++ name ++ [32] ++ [60] ++ email ++ [62] ++ [32] ++ tail)
    by (rewrite <- !app_assoc; reflexivity).
  rewrite slice_mid by (rewrite !app_length; simpl; lia). cbn [bind].
  rewrite utf8_unwrap_text by assumption. cbn [bind].
  replace ((t ++ [32]) ++ name ++ [32] ++ [60] ++ email ++ [62] ++ [32] ++ tail)
    with ((t ++ [32] ++ name ++ [32] ++ [60]) ++ email ++ [62] ++ [32] ++ tail)
    by (rewrite <- !app_assoc; reflexivity).
  rewrite slice_mid by (rewrite !app_length; simpl; rewrite ?app_length; simpl; lia). cbn [bind].
  rewrite utf8_unwrap_text by assumption. cbn [bind].
  replace ((t ++ [32] ++ name ++ [32] ++ [60]) ++ email ++ [62] ++ [32] ++ tail)
    with ((t ++ [32] ++ name ++ [32] ++ [60] ++ email ++ [62] ++ [32]) ++ tail)
    by (rewrite <- !app_assoc; reflexivity).
  rewrite slice_from_app by (rewrite !app_length; simpl; rewrite ?app_length; simpl; rewrite ?app_length; simpl; lia).
  cbn [bind]. unfold tail. change (to_decimal ts ++ [32] ++ zone) with (to_decimal ts ++ 32 :: zone).
  rewrite find_byte_app by (apply decimal_no; lia). cbn [unwrap_opt bind].
  rewrite slice_prefix by reflexivity. cbn [bind]. rewrite utf8_unwrap_text by apply decimal_text. cbn [bind].
  rewrite parse_to_decimal by (rewrite U64_val; change (2 ^ 64) with 18446744073709551616 in Hts; lia).
  cbn [unwrap_opt bind].
  change (to_decimal ts ++ 32 :: zone) with (to_decimal ts ++ [32] ++ zone). rewrite app_assoc.
  rewrite slice_from_app by (rewrite app_length; simpl; lia). cbn [bind].
  rewrite utf8_unwrap_text by assumption. reflexivity.
Qed.

Lemma slice_0_find : forall b l i x, find_byte b l = Some i -> slice 0 i l = Ok x -> ~ In b x.
Proof.
  intros b l i x H K. apply find_byte_some in H as (p & r & -> & Lp & Np).
  rewrite slice_prefix in K by (symmetry; exact Lp). congruence.
Qed.
Lemma slice_before_find : forall c l e i j x, find_byte c l = Some e -> (j <= e)%nat ->
  slice i j l = Ok x -> ~ In c x.
Proof.
  intros c l e i j x H Hj K. apply find_byte_some in H as (p & r & E & Lp & Np).
  apply slice_ok in K as (a & b & E2 & La & Lx).
  assert (P : exists s, p = (a ++ x) ++ s).
  { exists (skipn (length (a ++ x)) p).
    assert (K : firstn (length (a ++ x)) (p ++ c :: r) = firstn (length (a ++ x)) ((a ++ x) ++ b)).
    { rewrite <- E, <- app_assoc, <- E2. reflexivity. }
    rewrite firstn_app_exact in K. rewrite firstn_app in K.
    replace (length (a ++ x) - length p)%nat with O in K by (rewrite app_length; lia).
    simpl in K. rewrite app_nil_r in K. rewrite <- K at 1. symmetry. apply firstn_skipn. }
  destruct P as [s ->]. intros Hi. apply Np. apply in_or_app. left. apply in_or_app. right. assumption.
Qed.

(** Whatever is parsed has clean fields. *)
Lemma sign_decode_clean : forall d s, sign_decode d = Ok s -> sign_typed s /\ sign_clean s.
Proof.
  intros d s H. unfold sign_decode in H.
  apply bind_ok in H as (ns & F1 & H). apply unwrap_opt_ok in F1.
  apply bind_ok in H as (t & S1 & H). apply bind_ok in H as (t' & U1 & H). apply utf8_unwrap_spec in U1 as [-> U1].
  apply bind_ok in H as (es & F2 & H). apply unwrap_opt_ok in F2.
  apply bind_ok in H as (ee & F3 & H). apply unwrap_opt_ok in F3.
  apply bind_ok in H as (e1 & P1 & H). destruct es as [|e]; [discriminate|]. injection P1 as <-.
  apply bind_ok in H as (name & S2 & H). apply bind_ok in H as (name' & U2 & H). apply utf8_unwrap_spec in U2 as [-> U2].
  apply bind_ok in H as (email & S3 & H). apply bind_ok in H as (email' & U3 & H). apply utf8_unwrap_spec in U3 as [-> U3].
  apply bind_ok in H as (rest & S4 & H).
  apply bind_ok in H as (sp & F4 & H). apply unwrap_opt_ok in F4.
  apply bind_ok in H as (dg & S5 & H). apply bind_ok in H as (dg' & U5 & H). apply utf8_unwrap_spec in U5 as [-> U5].
  apply bind_ok in H as (ts & P2 & H). apply unwrap_opt_ok in P2.
  apply bind_ok in H as (z & S6 & H). apply bind_ok in H as (z' & U6 & H). apply utf8_unwrap_spec in U6 as [-> U6].
  injection H as <-.
  assert (L2 : (ns + 1 <= e)%nat) by (apply slice_ok in S2 as (? & ? & ? & ? & ?); lia).
  assert (L3 : (S e + 1 <= ee)%nat) by (apply slice_ok in S3 as (? & ? & ? & ? & ?); lia).
  split.
  - repeat split; try assumption. cbn [s_timestamp].
    assert (K : forall l a v, parse_digits a l = Some v -> a < U64 -> v < U64).
    { induction l as [|c l IH]; intros a v K Ha; simpl in K; [congruence|].
      destruct (digit_val c); [|discriminate]. destruct (N.ltb_spec (a * 10 + n) U64); [|discriminate]. eauto. }
    unfold parse_usize in P2.
    assert (G : exists l, parse_digits 0 l = Some ts).
    { destruct dg as [|c dg]; [discriminate|].
      repeat match type of P2 with
      | match ?x with _ => _ end = _ => destruct x
      end; try discriminate; eexists; eassumption. }
    destruct G as [l G]. apply K in G; [|reflexivity]. exact G.
  - unfold sign_clean. cbn [s_t s_name s_email].
    assert (G1 := slice_before_find _ _ _ _ _ _ F1 (le_n _) S1).
    assert (G2 : ~ In 60 t) by (refine (slice_before_find _ _ _ _ _ _ F2 _ S1); lia).
    assert (G3 : ~ In 62 t) by (refine (slice_before_find _ _ _ _ _ _ F3 _ S1); lia).
    assert (G4 : ~ In 60 name) by (refine (slice_before_find _ _ _ _ _ _ F2 _ S2); lia).
    assert (G5 : ~ In 62 name) by (refine (slice_before_find _ _ _ _ _ _ F3 _ S2); lia).
    assert (G6 : ~ In 62 email) by (refine (slice_before_find _ _ _ _ _ _ F3 _ S3); lia).
    tauto.
Qed.

Lemma ident_line_eq : forall s line, ident_line s line <-> line = sign_encode s.
Proof.
  intros s line. unfold ident_line, sign_encode. split.
  - intros (dec & H & ->). apply decimal_eq in H. subst. rewrite <- ?app_assoc. reflexivity.
  - intros ->. exists (to_decimal (s_timestamp s)). split; [apply decimal_eq; reflexivity|].
    rewrite <- ?app_assoc. reflexivity.
Qed.

(** ** Header lines *)

Lemma hash_from_bytes_spec : forall s h, hash_from_bytes s = Some h <-> id_text s h.
Proof.
  intros s h. rewrite <- hash_from_str_spec. unfold hash_from_str.
  destruct (hash_from_bytes s); split; intros; congruence.
Qed.
Lemma hash_from_plain : forall h, id_ok h -> hash_from_bytes (to_plain_str h) = Some h.
Proof. intros h H. apply hash_from_bytes_spec, to_plain_str_text. assumption. Qed.

Lemma hex_digits : forall h, bytes_ok h ->
  Forall (fun c => 48 <= c <= 57 \/ 97 <= c <= 102) (hex_encode h).
Proof.
  induction 1 as [|b h Hb _ IH]; [constructor|]. cbn [hex_encode flat_map app]. fold (hex_encode h).
  unfold byte_ok in Hb. rewrite shiftr_div, land_15. change (2 ^ 4) with 16. unfold hex_digit.
  constructor; [|constructor; [|exact IH]].
  - destruct (N.ltb_spec (b / 16) 10); lia.
  - destruct (N.ltb_spec (b mod 16) 10); lia.
Qed.
Lemma plain_no : forall h c, id_ok h -> (c < 48 \/ 57 < c < 97 \/ 102 < c) -> ~ In c (to_plain_str h).
Proof.
  intros h c [_ Hb] Hc Hi. pose proof (hex_digits h Hb) as K. rewrite Forall_forall in K.
  apply K in Hi. lia.
Qed.

Lemma id_line_eq : forall key h line, id_line key h line <->
  id_ok h /\ line = key ++ [32] ++ to_plain_str h ++ [10].
Proof.
  intros key h line. unfold id_line, lower_hex. split.
  - intros (hex & Hl & [Hx Hlow] & ->). apply hex_text_lower in Hx as E. rewrite Hlow in E.
    unfold to_plain_str. rewrite E. split; [|reflexivity]. split; [assumption|eapply hex_text_bytes; eassumption].
  - intros [[Hl Hb] ->]. exists (to_plain_str h). split; [assumption|]. split; [|reflexivity].
    pose proof (hex_encode_text h Hb) as Hx. split; [exact Hx|]. apply hex_text_lower in Hx. symmetry. exact Hx.
Qed.

Lemma header_value_ok : forall key v rest, ~ In 32 key -> ~ In 10 key -> ~ In 10 v ->
  header_value (key ++ [32] ++ v ++ [10] ++ rest) = Ok (v, rest).
Proof.
  intros key v rest H1 H2 H3. unfold header_value.
  change (key ++ [32] ++ v ++ [10] ++ rest) with (key ++ 32 :: v ++ [10] ++ rest).
  rewrite find_byte_app by assumption. cbn [unwrap_opt bind].
  replace (key ++ 32 :: v ++ [10] ++ rest) with ((key ++ [32] ++ v) ++ 10 :: rest)
    by (rewrite <- !app_assoc; reflexivity).
  rewrite find_byte_app.
  2:{ repeat apply not_in_app; try assumption. intros [H|[]]; discriminate. }
  cbn [unwrap_opt bind].
  replace ((key ++ [32] ++ v) ++ 10 :: rest) with ((key ++ [32]) ++ v ++ 10 :: rest)
    by (rewrite <- !app_assoc; reflexivity).
  rewrite slice_mid by (rewrite !app_length; simpl; lia). cbn [bind].
  replace ((key ++ [32]) ++ v ++ 10 :: rest) with ((key ++ [32] ++ v ++ [10]) ++ rest)
    by (rewrite <- !app_assoc; reflexivity).
  rewrite slice_from_app by (rewrite !app_length; simpl; rewrite ?app_length; simpl; lia). reflexivity.
Qed.

Lemma take_line_ok : forall line rest, ~ In 10 line -> take_line (line ++ [10] ++ rest) = Ok (line, rest).
Proof.
  intros line rest H. unfold take_line. change (line ++ [10] ++ rest) with (line ++ 10 :: rest).
  rewrite find_byte_app by assumption. cbn [unwrap_opt bind]. rewrite slice_prefix by reflexivity. cbn [bind].
  change (line ++ 10 :: rest) with (line ++ [10] ++ rest). rewrite app_assoc.
  rewrite slice_from_app by (rewrite app_length; reflexivity). reflexivity.
Qed.

Lemma sign_one_line : forall s, one_line s -> ~ In 10 (sign_encode s).
Proof.
  intros s (H1 & H2 & H3 & H4). unfold sign_encode.
  repeat apply not_in_app; try assumption; try (intros [H|[]]; discriminate).
  apply decimal_no. lia.
Qed.

(** ** Commits *)

Lemma find_sub_here : forall p r, find_sub p (p ++ r) = Some O.
Proof. intros p r. destruct (p ++ r) eqn:E; cbn [find_sub]; rewrite <- E, starts_with_app; reflexivity. Qed.

Lemma find_sub_cons : forall p x l, starts_with p (x :: l) = false ->
  find_sub p (x :: l) = option_map S (find_sub p l).
Proof. intros p x l H. cbn [find_sub]. rewrite H. reflexivity. Qed.

(** The word "author" does not begin inside a text without the letter u that does
    not end in a. *)
Lemma find_author_skip : forall pre rest, ~ In 117 pre -> (forall q, pre <> q ++ [97]) ->
  find_sub (bs "author") rest = Some O ->
  find_sub (bs "author") (pre ++ rest) = Some (length pre).
Proof.
  induction pre as [|x pre IH]; intros rest Hu Hl Hr; [exact Hr|].
  assert (E : starts_with (bs "author") ((x :: pre) ++ rest) = false).
  { destruct (starts_with (bs "author") ((x :: pre) ++ rest)) eqn:E; [|reflexivity]. exfalso.
    apply starts_with_true in E as [r E]. change (bs "author") with [97;117;116;104;111;114] in E. cbn [app] in E.
    assert (Ex : x = 97) by congruence.
    assert (Et : pre ++ rest = 117 :: 116 :: 104 :: 111 :: 114 :: r) by congruence.
    destruct pre as [|y pre].
    - apply (Hl []). subst x. reflexivity.
    - apply Hu. right. left. cbn [app] in Et. congruence. }
  cbn [app] in *. rewrite find_sub_cons by exact E.
  rewrite IH; [reflexivity| | |exact Hr].
  - intros Hi. apply Hu. right. assumption.
  - intros q Hq. apply (Hl (x :: q)). rewrite Hq. reflexivity.
Qed.

Lemma parent_line_len : forall h, id_ok h -> length (parent_line h) = 48%nat.
Proof.
  intros h [H _]. unfold parent_line. rewrite !app_length, to_plain_str_len by assumption. reflexivity.
Qed.
Lemma parent_lines_len : forall ps, Forall id_ok ps -> length (flat_map parent_line ps) = (48 * length ps)%nat.
Proof.
  induction 1 as [|h ps Hh _ IH]; [reflexivity|]. cbn [flat_map length].
  rewrite app_length, parent_line_len, IH by assumption. lia.
Qed.
Lemma parent_lines_no_u : forall ps, Forall id_ok ps -> ~ In 117 (flat_map parent_line ps).
Proof.
  induction 1 as [|h ps Hh _ IH]; [intros []|]. cbn [flat_map]. apply not_in_app; [|exact IH].
  unfold parent_line. repeat apply not_in_app; try (intros [H|[]]; discriminate).
  - intros H. repeat destruct H as [H|H]; try discriminate. contradiction.
  - apply plain_no; [assumption|lia].
Qed.
Lemma parent_lines_end : forall ps q, flat_map parent_line ps <> q ++ [97].
Proof.
  intros ps q H. destruct ps as [|h ps] using rev_ind.
  - destruct q; discriminate.
  - rewrite flat_map_app in H. cbn [flat_map] in H. rewrite app_nil_r in H. unfold parent_line in H.
    rewrite !app_assoc in H. apply app_inj_tail in H as [_ H]. discriminate.
Qed.

Lemma parents_loop_spec : forall p ps rest n, id_ok p -> Forall id_ok ps ->
  let data := flat_map parent_line (p :: ps) ++ rest in
  forall j fuel acc, (j <= n)%nat -> (n - j < fuel)%nat ->
  parents_loop fuel (48 * j) (48 * n) data acc = Ok (acc ++ repeat p (n - j)).
Proof.
  intros p ps rest n Hp Hps data.
  assert (F32 : find_byte 32 data = Some 6%nat).
  { reflexivity. }
  assert (Ed : data = (bs "parent" ++ [32] ++ to_plain_str p) ++ 10 :: flat_map parent_line ps ++ rest).
  { unfold data. cbn [flat_map]. unfold parent_line at 1. rewrite <- !app_assoc. reflexivity. }
  assert (F10 : find_byte 10 data = Some 47%nat).
  { rewrite Ed. rewrite find_byte_app.
    - rewrite !app_length, to_plain_str_len by apply Hp. reflexivity.
    - repeat apply not_in_app; try (intros H; repeat destruct H as [H|H]; try discriminate; contradiction).
      apply plain_no; [assumption|lia]. }
  assert (Sl : slice (6 + 1) 47 data = Ok (to_plain_str p)).
  { rewrite Ed. replace ((bs "parent" ++ [32] ++ to_plain_str p) ++ 10 :: flat_map parent_line ps ++ rest)
      with ((bs "parent" ++ [32]) ++ to_plain_str p ++ 10 :: flat_map parent_line ps ++ rest)
      by (rewrite <- !app_assoc; reflexivity).
    apply slice_mid; rewrite ?to_plain_str_len by apply Hp; reflexivity. }
  clearbody data. intros j fuel acc. revert j acc.
  induction fuel as [|f IH]; intros j acc Hj Hf; [lia|].
  cbn [parents_loop]. destruct (Nat.ltb_spec (48 * j) (48 * n)) as [Hlt|Hge].
  - rewrite F32. cbn [unwrap_opt bind]. rewrite F10. cbn [unwrap_opt bind]. rewrite Sl. cbn [bind].
    rewrite hash_from_plain by assumption. cbn [unwrap_opt bind].
    replace (48 * j + 47 + 1)%nat with (48 * S j)%nat by lia. rewrite IH by lia.
    rewrite <- app_assoc. f_equal. f_equal. replace (n - j)%nat with (S (n - S j)) by lia. reflexivity.
  - replace (n - j)%nat with O by lia. simpl. rewrite app_nil_r. reflexivity.
Qed.

Definition commit_content (tree_id : hash) (parents : list hash) (author committer : sign) (message : bytes) : bytes :=
  bs "tree" ++ [32] ++ to_plain_str tree_id ++ [10] ++ flat_map parent_line parents ++
  sign_encode author ++ [10] ++ sign_encode committer ++ [10] ++ message.

Lemma id_lines_eq : forall key ps lines, Forall2 (id_line key) ps lines ->
  Forall id_ok ps /\ lines = map (fun h => key ++ [32] ++ to_plain_str h ++ [10]) ps.
Proof.
  induction 1 as [|h l ps ls H _ [IH1 ->]]; [split; [constructor|reflexivity]|].
  apply id_line_eq in H as [H ->]. split; [constructor; assumption|reflexivity].
Qed.

Lemma git_commit_eq : forall tid ps a c msg content, git_commit tid ps a c msg content <->
  id_ok tid /\ Forall id_ok ps /\ content = commit_content tid ps a c msg.
Proof.
  intros tid ps a c msg content. unfold git_commit, commit_content. split.
  - intros (tl & pl & al & cl & H1 & H2 & H3 & H4 & ->).
    apply id_line_eq in H1 as [H1 ->]. apply id_lines_eq in H2 as [H2 ->].
    apply ident_line_eq in H3, H4. subst. split; [assumption|]. split; [assumption|].
    rewrite flat_map_concat_map, <- !app_assoc. reflexivity.
  - intros (H1 & H2 & ->). eexists _, (map parent_line ps), _, _. split; [apply id_line_eq; split; [exact H1|reflexivity]|].
    split.
    { clear -H2. induction H2 as [|h ps H _ IH]; constructor; [|exact IH].
      apply id_line_eq. split; [assumption|reflexivity]. }
    split; [apply ident_line_eq; reflexivity|]. split; [apply ident_line_eq; reflexivity|].
    rewrite flat_map_concat_map, <- !app_assoc. reflexivity.
Qed.

(** What the decoder makes of the parents: the first one as often as there are any. *)
Definition decoded_parents (ps : list hash) : list hash :=
  match ps with [] => [] | p :: r => repeat p (S (length r)) end.

Lemma commit_new_content : forall m tid ps a c msg, id_ok tid -> Forall id_ok ps ->
  ident_of (bs "author") a -> sign_typed c -> sign_clean c -> one_line c ->
  m_data m = commit_content tid ps a c msg ->
  commit_new m = let? ms := utf8_unwrap msg in Ok (mkCommit m tid (decoded_parents ps) a c ms).
Proof.
  intros m tid ps a c msg Ht Hps (Ha1 & Ha2 & Ha3 & Ha4) Hc2 Hc3 Hc4 E.
  unfold commit_new. rewrite E. unfold commit_content.
  rewrite header_value_ok;
    [|intros H; repeat destruct H as [H|H]; try discriminate; contradiction
     |intros H; repeat destruct H as [H|H]; try discriminate; contradiction
     |apply plain_no; [assumption|lia]].
  cbn [bind]. rewrite hash_from_plain by assumption. cbn [unwrap_opt bind].
  set (tail := sign_encode a ++ [10] ++ sign_encode c ++ [10] ++ msg).
  assert (Htail : exists r, tail = bs "author" ++ r).
  { unfold tail, sign_encode at 1. rewrite Ha1. rewrite <- app_assoc. eexists. reflexivity. }
  rewrite find_author_skip.
  2: apply parent_lines_no_u; assumption.
  2: apply parent_lines_end.
  2:{ destruct Htail as [r ->]. apply find_sub_here. }
  cbn [unwrap_opt bind].
  assert (Hp : match find_sub (bs "parent") (flat_map parent_line ps ++ tail) with
    | Some _ => parents_loop (S (length (flat_map parent_line ps))) 0 (length (flat_map parent_line ps))
                  (flat_map parent_line ps ++ tail) []
    | None => Ok []
    end = Ok (decoded_parents ps)).
  { destruct ps as [|p ps].
    - cbn [flat_map length app decoded_parents]. destruct (find_sub (bs "parent") tail); reflexivity.
    - inversion Hps as [|? ? Hp Hr]; subst.
      replace (find_sub (bs "parent") (flat_map parent_line (p :: ps) ++ tail)) with (Some O)
        by (symmetry; cbn [flat_map]; unfold parent_line at 1; rewrite <- !app_assoc; apply find_sub_here).
      rewrite parent_lines_len by assumption.
      rewrite (parents_loop_spec p ps tail (length (p :: ps)) Hp Hr 0) by (simpl length; lia).
      cbn [app decoded_parents]. rewrite Nat.sub_0_r. reflexivity. }
  rewrite Hp. cbn [bind]. rewrite slice_from_app by reflexivity. cbn [bind]. unfold tail.
  rewrite take_line_ok by (apply sign_one_line; assumption). cbn [bind].
  rewrite sign_decode_ok by assumption. cbn [bind].
  rewrite take_line_ok by (apply sign_one_line; assumption). cbn [bind].
  rewrite sign_decode_ok by assumption. cbn [bind]. reflexivity.
Qed.

(** ** Tags *)

Definition tag_content (object : hash) (t : otype) (name : bytes) (tagger : sign) (message : bytes) : bytes :=
  bs "object" ++ [32] ++ to_plain_str object ++ [10] ++
  bs "type" ++ [32] ++ otype_display t ++ [10] ++
  bs "tag" ++ [32] ++ name ++ [10] ++ sign_encode tagger ++ [10] ++ message.

Lemma base_name_display : forall t n, base_name t n -> n = otype_display t.
Proof. intros t n H. inversion H; reflexivity. Qed.
Lemma display_base_name : forall t, is_base t -> base_name t (otype_display t).
Proof. intros t [n H]. rewrite <- (base_name_display _ _ H). assumption. Qed.

Lemma git_tag_eq : forall o t name tagger msg content, git_tag o t name tagger msg content <->
  id_ok o /\ is_base t /\ content = tag_content o t name tagger msg.
Proof.
  intros o t name tagger msg content. unfold git_tag, tag_content. split.
  - intros (ol & tn & tl & H1 & H2 & H3 & ->). apply id_line_eq in H1 as [H1 ->].
    apply ident_line_eq in H3. subst tl. split; [assumption|]. split; [exists tn; assumption|].
    rewrite (base_name_display _ _ H2), <- !app_assoc. reflexivity.
  - intros (H1 & H2 & ->). eexists _, (otype_display t), _. split; [apply id_line_eq; split; [exact H1|reflexivity]|].
    split; [apply display_base_name; assumption|]. split; [apply ident_line_eq; reflexivity|].
    rewrite <- !app_assoc. reflexivity.
Qed.

(** The message as it comes back: from its first line feed on. *)
Definition tag_message (m : bytes) : option bytes := option_map (fun i => skipn i m) (find_byte 10 m).

Lemma otype_from_display : forall t, is_base t -> otype_from_string (otype_display t) = Ok t.
Proof. intros t [n H]. inversion H; reflexivity. Qed.
Lemma base_display_props : forall t, is_base t -> utf8_text (otype_display t) /\ ~ In 10 (otype_display t).
Proof.
  intros t [n H]. split.
  - apply utf8_spec. inversion H; reflexivity.
  - inversion H; intros K; repeat destruct K as [K|K]; try discriminate; contradiction.
Qed.

Lemma tag_new_content : forall m o t name tagger msg, id_ok o -> is_base t -> utf8_text name -> ~ In 10 name ->
  ident_of (bs "tagger") tagger ->
  m_data m = tag_content o t name tagger msg ->
  tag_new m = let? ms := unwrap_opt (tag_message msg) in
              let? ms := utf8_unwrap ms in Ok (mkTag m o t name tagger ms).
Proof.
  intros m o t name tagger msg Ho Ht Hn Hn10 (Ha1 & Ha2 & Ha3 & Ha4) E.
  destruct (base_display_props t Ht) as [Hd Hd10].
  unfold tag_new. rewrite E. unfold tag_content.
  rewrite header_value_ok;
    [|intros H; repeat destruct H as [H|H]; try discriminate; contradiction
     |intros H; repeat destruct H as [H|H]; try discriminate; contradiction
     |apply plain_no; [assumption|lia]].
  cbn [bind]. rewrite hash_from_plain by assumption. cbn [unwrap_opt bind].
  rewrite header_value_ok;
    [|intros H; repeat destruct H as [H|H]; try discriminate; contradiction
     |intros H; repeat destruct H as [H|H]; try discriminate; contradiction
     |assumption].
  cbn [bind]. rewrite utf8_unwrap_text by assumption. cbn [bind].
  rewrite otype_from_display by assumption. cbn [unwrap bind].
  rewrite header_value_ok;
    [|intros H; repeat destruct H as [H|H]; try discriminate; contradiction
     |intros H; repeat destruct H as [H|H]; try discriminate; contradiction
     |assumption].
  cbn [bind]. rewrite utf8_unwrap_text by assumption. cbn [bind].
  assert (Htail : exists r, sign_encode tagger ++ [10] ++ msg = bs "tagger" ++ r).
  { unfold sign_encode at 1. rewrite Ha1. rewrite <- app_assoc. eexists. reflexivity. }
  replace (find_sub (bs "tagger") (sign_encode tagger ++ [10] ++ msg)) with (Some O)
    by (destruct Htail as [r ->]; symmetry; apply find_sub_here).
  cbn [unwrap_opt bind].
  change (sign_encode tagger ++ [10] ++ msg) with (sign_encode tagger ++ 10 :: msg).
  rewrite find_byte_app by (apply sign_one_line; assumption). cbn [unwrap_opt bind].
  rewrite slice_prefix by reflexivity. cbn [bind]. rewrite sign_decode_ok by assumption. cbn [bind].
  change (sign_encode tagger ++ 10 :: msg) with (sign_encode tagger ++ [10] ++ msg). rewrite app_assoc.
  rewrite slice_from_app by (rewrite app_length; reflexivity). cbn [bind]. unfold tag_message.
  destruct (find_byte 10 msg) as [i|] eqn:F; [|reflexivity]. cbn [unwrap_opt bind option_map].
  unfold slice_from. apply find_byte_some in F as (p & r & -> & <- & _).
  replace (_ <=? _)%nat with true by (symmetry; apply Nat.leb_le; rewrite app_length; lia). reflexivity.
Qed.

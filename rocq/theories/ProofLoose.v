(** Lemmas about single objects of an object directory and about pack directories. *)

From Coq Require Import Permutation Sorting.Sorted.
From Verif Require Import Base BaseLemmas Digest ModelUtils ModelObject ModelBase ModelPack ModelLoose SpecObject SpecIdx SpecBase SpecPack SpecLoose ProofObject ProofUtf8 ProofBase.
Open Scope N_scope.

(** ** Files of an object directory *)

Lemma object_file_path : forall dir h p, object_file dir h p <-> (id_ok h /\ p = loose_path dir h).
Proof.
  intros dir h p. unfold object_file, loose_path, to_folder, to_filename. split.
  - intros (a & b & La & [T L] & Hl & ->). split; [split; [exact Hl|exact (hex_text_bytes _ _ T)]|].
    unfold to_plain_str. rewrite (hex_text_lower _ _ T), L.
    destruct a as [|x [|y [|z a]]]; try discriminate. reflexivity.
  - intros [H ->]. exists (firstn 2 (to_plain_str h)), (skipn 2 (to_plain_str h)).
    split; [rewrite firstn_length, to_plain_str_len by apply H; reflexivity|].
    split; [|split; [apply H|reflexivity]]. rewrite firstn_skipn.
    destruct (to_plain_str_text h H) as [_ T]. split; [exact T|]. symmetry. exact (hex_text_lower _ _ T).
Qed.

Lemma loose_get : forall c f dir h t data, loose c f dir h t data -> exists content,
  id_ok h /\ framed t (nlen data) data content /\ sha1 content = h /\ bytes_ok data /\ nlen data < U64 /\
  fs_get f (loose_path dir h) = Some (deflate c content).
Proof.
  intros c f dir h t data (p & content & P & F & E & B & L & G). apply object_file_path in P as [P ->].
  exists content. auto 10.
Qed.

Lemma framed_bytes : forall t n d content, framed t n d content -> bytes_ok d -> bytes_ok content.
Proof.
  intros t n d content F B. apply framed_eq in F as (name & Hn & ->). unfold bytes_ok. rewrite !Forall_app. repeat split; try assumption.
  - inversion Hn; repeat constructor; unfold byte_ok; lia.
  - repeat constructor.
  - eapply Forall_impl; [|apply to_decimal_digits]. unfold is_digit, byte_ok. intros; simpl in *; lia.
  - repeat constructor.
Qed.

(** ** Decimal numerals *)

Lemma digits_grow : forall s a, a <= fold_left (fun a c => a * 10 + (c - 48)) s a.
Proof. induction s as [|c s IH]; intros a; cbn [fold_left]; [lia|]. specialize (IH (a * 10 + (c - 48))). lia. Qed.

Lemma parse_decimal_loop_spec : forall s a n, parse_decimal_loop s a = Some n <->
  Forall (fun c => 48 <= c <= 57) s /\ fold_left (fun a c => a * 10 + (c - 48)) s a = n /\ (s <> [] -> n < U64).
Proof.
  induction s as [|c s IH]; intros a n; cbn [parse_decimal_loop fold_left].
  - split; [intros [= <-]; repeat split; [constructor|contradiction]|intros (_ & -> & _); reflexivity].
  - unfold decimal_char_value. destruct ((48 <=? c) && (c <=? 57)) eqn:D.
    2:{ split; [discriminate|]. intros (F & _). inversion F; subst.
        apply andb_false_iff in D as [D|D]; apply N.leb_gt in D; lia. }
    apply andb_true_iff in D as [D1 D2]. apply N.leb_le in D1, D2.
    pose proof (digits_grow s (a * 10 + (c - 48))) as G.
    destruct (a * 10 <? U64) eqn:M; [destruct (a * 10 + (c - 48) <? U64) eqn:A|].
    + apply N.ltb_lt in A. rewrite IH. split.
      * intros (F & E & L). split; [constructor; [lia|exact F]|]. split; [exact E|]. intros _.
        destruct s as [|x s]; [cbn in E; lia|apply L; discriminate].
      * intros (F & E & L). inversion F; subst. split; [assumption|]. split; [reflexivity|]. intros _. apply L. discriminate.
    + apply N.ltb_ge in A. split; [discriminate|]. intros (_ & E & L). specialize (L ltac:(discriminate)). lia.
    + apply N.ltb_ge in M. split; [discriminate|]. intros (_ & E & L). specialize (L ltac:(discriminate)). lia.
Qed.

Lemma parse_decimal_spec : forall s n, parse_decimal s = Some n <-> numeral s n /\ n < U64.
Proof.
  intros s n. unfold parse_decimal, numeral. rewrite parse_decimal_loop_spec. split.
  - intros (F & E & L). split; [auto|]. destruct s; [cbn in E; subst; reflexivity|apply L; discriminate].
  - intros ((F & E) & L). auto.
Qed.

Lemma to_decimal_numeral : forall n, numeral (to_decimal n) n.
Proof. intros n. destruct (to_decimal_spec n) as (A & B & _). split; assumption. Qed.

(** ** [read_object] *)

Lemma read_until_app : forall d a r, ~ In d a -> read_until_delimiter d (a ++ d :: r) = Ok (a, r).
Proof.
  induction a as [|x a IH]; intros r H; cbn [app read_until_delimiter].
  - rewrite N.eqb_refl. reflexivity.
  - destruct (x =? d) eqn:E; [apply N.eqb_eq in E; subst; exfalso; apply H; left; reflexivity|].
    rewrite IH by (intros Hi; apply H; right; exact Hi). reflexivity.
Qed.

Lemma no_space_nul : forall t n c, base_name t n -> c = 32 \/ c = 0 -> ~ In c n.
Proof. exact base_name_no. Qed.

(** What the reader makes of a file in git's format: a commit with the same content. *)
Lemma read_framed_any : forall c f h t n data content, codec_ok c -> framed t n data content -> bytes_ok data -> n < U64 ->
  fs_get f (loose_path objects_directory h) = Some (deflate c content) ->
  read_unpacked_object false c f h = (if nlen data =? n then meta_new Commit data else Err EDeltaObjError).
Proof.
  intros c f h t n data content Hc F B L G. unfold read_unpacked_object, hash_display. cbv zeta.
  change (objects_directory ++ [firstn 2 (to_plain_str h); skipn 2 (to_plain_str h)]) with (loose_path objects_directory h).
  rewrite G. cbn [unwrap_opt bind].
  pose proof (Hc content [] (framed_bytes _ _ _ _ F B)) as E. rewrite app_nil_r in E. rewrite E. cbn [unwrap_opt bind fst].
  apply framed_eq in F as (name & Hn & ->). cbn [app].
  rewrite read_until_app by (eapply base_name_no; eauto). cbn [unwrap bind].
  rewrite read_until_app by (apply decimal_no; lia). cbn [unwrap bind].
  rewrite (proj2 (parse_decimal_spec (to_decimal n) n)) by (split; [apply to_decimal_numeral|exact L]). reflexivity.
Qed.

Lemma read_object_stored : forall c f h t data content, codec_ok c -> framed t (nlen data) data content -> bytes_ok data ->
  nlen data < U64 -> fs_get f (loose_path objects_directory h) = Some (deflate c content) ->
  exists cc, framed Commit (nlen data) data cc /\
    read_object false c f h = (if beq (sha1 cc) h then Ok (mkMeta Commit (sha1 cc) (nlen data) data []) else Err EDeltaObjError).
Proof.
  intros c f h t data content Hc F B L G.
  destruct (meta_new_base Commit data) as (cc & Fc & E); [eexists; constructor|].
  exists cc. split; [exact Fc|]. unfold read_object. rewrite (read_framed_any c f h t (nlen data) data content Hc F B L G).
  rewrite N.eqb_refl, E. cbn [unwrap bind m_t m_data].
  unfold meta_new in E. destruct (hash_from_meta Commit data) as [x| | |]; try discriminate. cbn [bind] in *.
  injection E as ->. reflexivity.
Qed.

Lemma read_object_ok : forall colour c f h m, read_object colour c f h = Ok m ->
  m_t m = Commit /\ m_id m = h /\ m_size m = nlen (m_data m) /\ m_delta_header m = [] /\
  exists content, framed Commit (nlen (m_data m)) (m_data m) content /\ sha1 content = h.
Proof.
  intros colour c f h m H. unfold read_object in H. apply bind_ok in H as (o & H & K). apply unwrap_ok in H.
  apply bind_ok in K as (x & X & K). destruct (beq x h) eqn:E; [|discriminate]. injection K as ->. apply beq_eq in E. subst x.
  unfold read_unpacked_object in H. apply bind_ok in H as (file & _ & H). apply bind_ok in H as (d & _ & H).
  apply bind_ok in H as ([u r1] & _ & H). apply bind_ok in H as ([size contents] & _ & H).
  destruct (parse_decimal size) as [n|]; [|discriminate]. destruct (nlen contents =? n); [|discriminate].
  destruct (meta_new_base Commit contents) as (content & F & E); [eexists; constructor|].
  rewrite E in H. injection H as <-. cbn [m_t m_id m_size m_data m_delta_header] in *.
  unfold meta_new in E. rewrite X in E. cbn [bind] in E. injection E as ->. split; [reflexivity|]. split; [reflexivity|].
  split; [reflexivity|]. split; [reflexivity|]. exists content. auto.
Qed.

Lemma read_object_outcomes : forall colour c f h,
  (exists m, read_object colour c f h = Ok m) \/ read_object colour c f h = Err EDeltaObjError \/ read_object colour c f h = Panic.
Proof.
  intros colour c f h. unfold read_object, read_unpacked_object.
  destruct (unwrap_opt (fs_get f _)) as [file| | |] eqn:E0; cbn [bind unwrap]; try (right; right; reflexivity);
    try (unfold unwrap_opt in E0; destruct (fs_get f _); discriminate).
  destruct (inflate c file) as [[d n0]|]; cbn [unwrap_opt bind unwrap fst]; [|auto].
  assert (U : forall x s, (exists y, unwrap (read_until_delimiter x s) = Ok y) \/ unwrap (read_until_delimiter x s) = Panic).
  { intros x s. induction s as [|b s IH]; [right; reflexivity|]. cbn [read_until_delimiter].
    destruct (b =? x); [left; eexists; reflexivity|]. destruct (read_until_delimiter x s) as [[l r]| | |]; cbn [bind unwrap] in *;
      [left; eexists; reflexivity|right; reflexivity|right; reflexivity|]. destruct IH as [[y A]|A]; discriminate. }
  destruct (U 32 d) as [[[u r1] E]|E]; rewrite E; cbn [bind unwrap]; [|auto].
  destruct (U 0 r1) as [[[size contents] E']|E']; rewrite E'; cbn [bind unwrap]; [|auto].
  destruct (parse_decimal size) as [n|]; [|auto]. destruct (nlen contents =? n); [|auto].
  destruct (meta_new_base Commit contents) as (content & _ & M); [eexists; constructor|]. rewrite M. cbn [unwrap bind m_t m_data].
  unfold meta_new in M. destruct (hash_from_meta Commit contents) as [x| | |]; try discriminate. cbn [bind] in *.
  destruct (beq x h); [left; eexists; reflexivity|auto].
Qed.

(** ** [parse_from_file] *)

Lemma loose_read : forall c f dir h t data, codec_ok c -> loose c f dir h t data ->
  parse_meta c f (loose_path dir h) = Ok (mkMeta t h (nlen data) data []).
Proof.
  intros c f dir h t data Hc H. destruct (loose_get _ _ _ _ _ _ H) as (content & I & F & E & B & L & G).
  unfold parse_meta. rewrite (read_framed c f _ t (nlen data) data content _ Hc G eq_refl F B L).
  assert (T : is_base t) by (destruct F as (name & _ & X & _); eexists; exact X).
  destruct (meta_new_base t data T) as (c' & F' & ->). cbn [unwrap].
  apply framed_eq in F as (a & Ha & ->), F' as (b & Hb & ->). rewrite (base_name_fun _ _ _ Hb Ha), E. reflexivity.
Qed.

(** ** [find_common_base] *)

Lemma parse_items_init : forall rec c f root l, (forall i, In i l -> ti_type i = IBlob \/ ti_type i = ITree) ->
  (forall i result basic, In i l -> ti_type i = ITree -> exists b, rec (ti_id i) result basic = Ok (result, b)) ->
  forall result basic, exists b, parse_items rec c f root true l result basic = Ok (result, b).
Proof.
  induction l as [|i l IH]; intros Hk Hr result basic; cbn [parse_items]; [eexists; reflexivity|].
  assert (IHl : forall result basic, exists b, parse_items rec c f root true l result basic = Ok (result, b)).
  { apply IH; intros; [apply Hk; right; assumption|apply Hr; [right|]; assumption]. }
  destruct (existsb _ _); [apply IHl|].
  destruct (Hk i (or_introl eq_refl)) as [E|E]; rewrite E; cbn [bind]; [apply IHl|].
  destruct (Hr i result basic (or_introl eq_refl) E) as (b & ->). cbn [bind]. apply IHl.
Qed.

Lemma parse_tree_init : forall c f root, codec_ok c -> forall n h, plain_tree c f root n h -> forall fuel result basic, (n <= fuel)%nat ->
  exists b, parse_tree fuel c f root true h result basic = Ok (result, b).
Proof.
  intros c f root Hc n h H. induction H as [n h data items L T K _ IH]; intros fuel result basic Hf.
  destruct fuel as [|fuel]; [lia|]. cbn [parse_tree]. destruct (existsb _ _); [eexists; reflexivity|].
  unfold tree_from_file. rewrite (loose_read c f root h Tree data Hc L). cbn [bind].
  rewrite (proj2 (tree_new_spec (mkMeta Tree h (nlen data) data []) (mkTree (mkMeta Tree h (nlen data) data []) items [])))
    by (repeat split; exact T).
  cbn [unwrap bind t_items]. apply parse_items_init; [exact K|].
  intros i r b Hi Ht. apply (IH i Hi Ht). lia.
Qed.

Lemma parse_items_keeps : forall rec c f root l,
  (forall i result basic r b, rec i result basic = Ok (r, b) -> r = result) ->
  forall result basic r b, parse_items rec c f root true l result basic = Ok (r, b) -> r = result.
Proof.
  intros rec c f root l Hr. induction l as [|i l IH]; intros result basic r b; cbn [parse_items]; [congruence|].
  destruct (existsb _ _); [apply IH|]. intros H. apply bind_ok in H as ([r1 b1] & H & K). apply IH in K. subst r1.
  destruct (ti_type i); try discriminate; [congruence|]. exact (Hr _ _ _ _ _ H).
Qed.
Lemma parse_tree_keeps : forall c f root fuel h result basic r b,
  parse_tree fuel c f root true h result basic = Ok (r, b) -> r = result.
Proof.
  intros c f root. induction fuel as [|fuel IH]; intros h result basic r b; cbn [parse_tree]; [discriminate|].
  destruct (existsb _ _); [congruence|]. intros H. apply bind_ok in H as (t & _ & H).
  exact (parse_items_keeps _ c f root _ IH _ _ _ _ H).
Qed.

(** ** Names in a pack directory *)

Lemma utf8_char_shape : forall c, scalar c -> exists h t, utf8_char c = h :: t /\ cont h = false /\ Forall (fun b => cont b = true) t.
Proof.
  intros c H. unfold scalar, utf8_char in *.
  destruct (N.ltb_spec c 128); [eexists _, _; split; [reflexivity|split; [unfold cont; lia|constructor]]|].
  destruct (N.ltb_spec c 2048); [|destruct (N.ltb_spec c 65536)]; eexists _, _; (split; [reflexivity|]); (split; [unfold cont; lia|]);
    repeat constructor; unfold cont; lia.
Qed.

(** A text can be cut before any byte that does not continue a character. *)
Lemma text_cut : forall a b, utf8_text (a ++ b) -> match b with [] => True | x :: _ => cont x = false end -> utf8_text a /\ utf8_text b.
Proof.
  intros a b (cs & Hcs & E) Hb. revert a E. induction Hcs as [|c cs Hc Hcs IH]; intros a E.
  - destruct a; [|discriminate]. destruct b; [|discriminate]. split; exists []; split; constructor.
  - destruct a as [|x a].
    { split; [exists []; split; constructor|]. exists (c :: cs). split; [constructor; assumption|exact E]. }
    destruct (utf8_char_shape c Hc) as (h & t & Ec & Hh & Ht). cbn [flat_map] in E. rewrite Ec in E. cbn [app] in E. injection E as -> E.
    assert (K : exists a', a = t ++ a' /\ a' ++ b = flat_map utf8_char cs).
    { clear -E Ht Hb. revert a E. induction Ht as [|y t Hy _ IH]; intros a E; [exists a; auto|].
      destruct a as [|z a]; cbn [app] in E.
      - destruct b as [|z b]; [discriminate|]. injection E as -> _. congruence.
      - injection E as -> E. destruct (IH a E) as (a' & -> & E'). exists a'. auto. }
    destruct K as (a' & -> & E'). destruct (IH a' E') as [(ca & Fa & Ea) Tb]. split; [|exact Tb].
    exists (c :: ca). split; [constructor; assumption|]. cbn [flat_map]. rewrite Ec, Ea. reflexivity.
Qed.
Lemma text_head : forall x b, utf8_text (x :: b) -> cont x = false.
Proof.
  intros x b (cs & Hcs & E). destruct cs as [|c cs]; [discriminate|]. inversion Hcs; subst.
  destruct (utf8_char_shape c) as (h & t & Ec & Hh & _); [assumption|]. cbn [flat_map] in E. rewrite Ec in E. cbn [app] in E. congruence.
Qed.

Lemma str_boundary_spec : forall a b, utf8_text (a ++ b) -> str_boundary (a ++ b) (length a) = true <-> (utf8_text a /\ utf8_text b).
Proof.
  intros a b H. unfold str_boundary. rewrite app_length. replace (length a <=? _)%nat with true by (symmetry; apply Nat.leb_le; lia).
  cbn [andb]. rewrite nth_error_app2, Nat.sub_diag by lia. split.
  - intros K. apply text_cut; [exact H|]. destruct b as [|x b]; [exact Logic.I|]. cbn in K. apply negb_true_iff in K. exact K.
  - intros [_ T]. destruct b as [|x b]; [reflexivity|]. cbn. rewrite (text_head _ _ T). reflexivity.
Qed.

Lemma ends_in_skip : forall suffix name, ends_in suffix name <->
  (length suffix <= length name)%nat /\ skipn (length name - length suffix) name = suffix.
Proof.
  intros suffix name. split.
  - intros (p & ->). rewrite app_length. split; [lia|]. replace (length p + length suffix - length suffix)%nat with (length p) by lia.
    apply skipn_app_exact.
  - intros (_ & E). exists (firstn (length name - length suffix) name). rewrite <- E at 2. symmetry. apply firstn_skipn.
Qed.

Lemma ends_pack_ok : forall name x, ends_pack name = Ok x <-> long_name name /\ (x = true <-> ends_in (bs "pack") name).
Proof.
  intros name x. unfold ends_pack.
  destruct (utf8_unwrap name) as [u| | |] eqn:U; cbn [bind].
  2-4: split; [discriminate|]; intros [(p & q & -> & _ & Tp & Tq) _]; rewrite (utf8_unwrap_text _ (utf8_text_app _ _ Tp Tq)) in U; discriminate.
  apply utf8_unwrap_spec in U as [-> T].
  destruct (length name <? 4)%nat eqn:L.
  { apply Nat.ltb_lt in L. split; [discriminate|]. intros [(p & q & -> & Q & _) _]. rewrite app_length in L. lia. }
  apply Nat.ltb_ge in L. pose (p := firstn (length name - 4) name). pose (q := skipn (length name - 4) name).
  assert (E : name = p ++ q) by (symmetry; apply firstn_skipn).
  assert (Lp : length p = (length name - 4)%nat) by (unfold p; rewrite firstn_length; lia).
  assert (Lq : length q = 4%nat) by (unfold q; rewrite skipn_length; lia).
  pose proof (str_boundary_spec p q) as B. rewrite <- E, Lp in B. specialize (B T).
  destruct (str_boundary name (length name - 4)).
  - destruct (proj1 B eq_refl) as [Tp Tq]. split.
    + intros [= <-]. split; [exists p, q; auto|]. rewrite ends_in_skip. change (length (bs "pack")) with 4%nat. rewrite beq_eq.
      split; [auto|intros [_ ?]; assumption].
    + intros [_ H]. f_equal. rewrite ends_in_skip in H. change (length (bs "pack")) with 4%nat in H.
      destruct x; [apply beq_eq; apply H; reflexivity|]. destruct (beq _ _) eqn:F; [|reflexivity].
      apply beq_eq in F. symmetry. apply H. auto.
  - split; [discriminate|]. intros [(p' & q' & E' & Q & Tp & Tq) _]. exfalso.
    assert (Xp : p = p') by (unfold p; rewrite E', app_length, Q; apply firstn_app_n; lia).
    assert (Xq : q = q') by (unfold q; rewrite E', app_length, Q; apply skipn_app_n; lia).
    rewrite <- Xp in Tp. rewrite <- Xq in Tq.
    discriminate (proj2 B (conj Tp Tq)).
Qed.
Lemma ends_pack_total : forall name, (exists x, ends_pack name = Ok x) \/ ends_pack name = Panic.
Proof.
  intros name. unfold ends_pack, utf8_unwrap. destruct (utf8_valid name); cbn [bind]; [|auto].
  destruct (_ <? 4)%nat; [auto|]. destruct (str_boundary _ _); [left; eexists; reflexivity|auto].
Qed.

Lemma hex_text_ascii : forall s h, hex_text s h -> Forall (fun b => b < 128) s.
Proof.
  intros s h H. induction H as [|a b x y s h A B _ IH]; [constructor|].
  assert (G : forall c v, hex_digit_of c v -> c < 128) by (intros c v X; inversion X; lia).
  constructor; [exact (G _ _ A)|]. constructor; [exact (G _ _ B)|exact IH].
Qed.

Lemma hash_from_filename_ok : forall name h, utf8_text name -> hash_from_filename name = Ok h <-> named_by name h.
Proof.
  intros name h T. unfold hash_from_filename. split.
  - destruct (str_boundary name 5 && str_boundary name 45) eqn:B; [|discriminate]. intros H. apply unwrap_ok in H.
    apply hash_from_str_spec in H. apply andb_true_iff in B as [_ B]. unfold str_boundary in B. apply andb_true_iff in B as [B _].
    apply Nat.leb_le in B. exists (firstn 5 name), (firstn 40 (skipn 5 name)), (skipn 40 (skipn 5 name)).
    rewrite !firstn_skipn. split; [reflexivity|]. split; [rewrite firstn_length; lia|exact H].
  - intros (p & hex & r & -> & Lp & Hi). pose proof (id_text_len _ _ Hi) as Lh.
    assert (Ah : Forall (fun b => b < 128) hex) by (eapply hex_text_ascii; apply Hi).
    destruct hex as [|x hex]; [discriminate|]. inversion Ah; subst.
    destruct (utf8_text_cut x (hex ++ r) p H1 T) as [Tp Tr].
    assert (Th : utf8_text (x :: hex)) by (apply utf8_text_ascii; assumption).
    assert (Tr' : utf8_text r).
    { destruct (text_cut (x :: hex) r Tr) as [_ ?]; [|assumption]. destruct r as [|y r]; [exact Logic.I|].
      clear -Tr Th Ah. assert (G : forall l m, Forall (fun b => b < 128) l -> utf8_text (l ++ m) -> utf8_text m).
      { induction l as [|z l IH]; intros m A U; [exact U|]. inversion A; subst.
        apply (IH m H2). apply utf8_spec in U. cbn [app utf8_valid] in U. rewrite (proj2 (N.ltb_lt _ _) H1) in U. apply utf8_spec. exact U. }
      exact (text_head _ _ (G _ _ Ah Tr)). }
    replace (str_boundary (p ++ (x :: hex) ++ r) 5) with true.
    2:{ symmetry. rewrite <- Lp. apply str_boundary_spec; [exact T|]. split; assumption. }
    replace (str_boundary (p ++ (x :: hex) ++ r) 45) with true.
    2:{ symmetry. rewrite app_assoc. replace 45%nat with (length (p ++ x :: hex)) by (rewrite app_length, Lp, Lh; reflexivity).
        apply str_boundary_spec; [rewrite <- app_assoc; exact T|]. split; [apply utf8_text_app; assumption|exact Tr']. }
    cbn [andb]. rewrite (skipn_app_n _ 5 p) by exact Lp. rewrite (firstn_app_n _ 40 (x :: hex)) by exact Lh.
    rewrite (proj2 (hash_from_str_spec _ _) Hi). reflexivity.
Qed.
Lemma hash_from_filename_total : forall name, (exists h, hash_from_filename name = Ok h) \/ hash_from_filename name = Panic.
Proof.
  intros name. unfold hash_from_filename. destruct (_ && _); [|auto].
  destruct (hash_from_str_total (firstn 40 (skipn 5 name))) as [[h ->]| ->]; [left; eexists; reflexivity|right; reflexivity].
Qed.

Lemma long_text : forall name, long_name name -> utf8_text name.
Proof. intros name (p & q & -> & _ & A & B). apply utf8_text_app; assumption. Qed.

Lemma find_all_pack_file_spec : forall l files hs, find_all_pack_file l = Ok (files, hs) <-> packs_of l files hs.
Proof.
  induction l as [|e l IH]; intros files hs; cbn [find_all_pack_file].
  - split; [intros [= <- <-]; constructor|]. intros H. inversion H; reflexivity.
  - split.
    + intros H. apply bind_ok in H as (x & E & H). apply ends_pack_ok in E as [L X]. destruct x.
      * apply bind_ok in H as (h & E & H). apply bind_ok in H as ([fs hs'] & F & H). injection H as <- <-.
        constructor; [exact L|apply X; reflexivity|apply hash_from_filename_ok; [apply long_text; exact L|exact E]|apply IH; exact F].
      * constructor; [exact L| |apply IH; exact H]. intros K. apply X in K. discriminate.
    + intros H. inversion H as [|e' l' fs hs' h L K N Hr|e' l' fs hs' L K Hr]; subst.
      * rewrite (proj2 (ends_pack_ok (d_name e) true)) by (split; [exact L|tauto]). cbn [bind].
        rewrite (proj2 (hash_from_filename_ok _ h (long_text _ L)) N). cbn [bind]. rewrite (proj2 (IH fs hs') Hr). reflexivity.
      * rewrite (proj2 (ends_pack_ok (d_name e) false)) by (split; [exact L|]; split; [discriminate|intros; contradiction]).
        cbn [bind]. apply IH. exact Hr.
Qed.
Lemma find_all_pack_file_total : forall l, (exists x, find_all_pack_file l = Ok x) \/ find_all_pack_file l = Panic.
Proof.
  induction l as [|e l IH]; cbn [find_all_pack_file]; [left; eexists; reflexivity|].
  destruct (ends_pack_total (d_name e)) as [[x ->]| ->]; cbn [bind]; [|auto]. destruct x; [|exact IH].
  destruct (hash_from_filename_total (d_name e)) as [[h ->]| ->]; cbn [bind]; [|auto].
  destruct IH as [[[fs hs] ->]| ->]; cbn [bind]; [left; eexists; reflexivity|auto].
Qed.

(** ** Sorting by time of creation *)

Definition times_known (l : list dir_entry) : Prop := (length l <= 1)%nat \/ Forall (fun e => d_created e <> None) l.

Lemma created_times_ok : forall l, Forall (fun e => d_created e <> None) l ->
  exists t, created_times l = Ok t /\ map snd t = l /\ Forall (fun x => d_created (snd x) = Some (fst x)) t.
Proof.
  intros l H. induction H as [|e l He _ (t & E & M & F)]; [exists []; repeat constructor|]. cbn [created_times].
  destruct (d_created e) as [n|] eqn:N; [|contradiction]. cbn [unwrap_opt bind]. rewrite E. cbn [bind].
  exists ((n, e) :: t). split; [reflexivity|]. split; [cbn; congruence|]. constructor; [exact N|exact F].
Qed.

Lemma by_created_perm : forall x l, Permutation (by_created x l) (x :: l).
Proof.
  induction l as [|y l IH]; cbn [by_created]; [reflexivity|]. destruct (fst x <=? fst y); [reflexivity|].
  rewrite IH. apply perm_swap.
Qed.
Lemma by_created_sorted : forall x l, StronglySorted (fun a b => fst a <= fst b) l ->
  StronglySorted (fun a b => fst a <= fst b) (by_created x l).
Proof.
  intros x l H. induction H as [|y l S IH F]; cbn [by_created]; [repeat constructor|].
  destruct (N.leb_spec (fst x) (fst y)).
  - constructor; [constructor; assumption|]. constructor; [assumption|]. eapply Forall_impl; [|exact F]. cbn. intros a Ha. lia.
  - constructor; [exact IH|]. rewrite by_created_perm. constructor; [lia|exact F].
Qed.

Lemma sort_packs_ok : forall l, times_known l -> exists s, sort_packs l = Ok s /\ Permutation l s /\
  ((1 < length l)%nat -> StronglySorted not_later s).
Proof.
  intros l H. destruct l as [|a [|b l]].
  1-2: eexists; (split; [reflexivity|]); split; [reflexivity|cbn; lia].
  destruct H as [H|H]; [cbn in H; lia|]. destruct (created_times_ok _ H) as (t & E & M & F).
  assert (P : Permutation (fold_right by_created [] t) t).
  { clear. induction t as [|x t IH]; cbn [fold_right]; [reflexivity|]. rewrite by_created_perm. constructor. exact IH. }
  assert (S : StronglySorted (fun a b : N * dir_entry => fst a <= fst b) (fold_right by_created [] t)).
  { clear. induction t as [|x t IH]; cbn [fold_right]; [constructor|]. apply by_created_sorted. exact IH. }
  exists (map snd (fold_right by_created [] t)). split; [unfold sort_packs; rewrite E; reflexivity|].
  split; [rewrite <- M; symmetry; apply Permutation_map; exact P|]. intros _.
  assert (F' : Forall (fun x => d_created (snd x) = Some (fst x)) (fold_right by_created [] t)) by (rewrite P; exact F).
  clear -S F'. induction S as [|x l S IH G]; [constructor|]. inversion F'; subst. cbn [map]. constructor; [apply IH; assumption|].
  apply Forall_map. rewrite Forall_forall in *. intros y Hy. unfold not_later. rewrite H1, (H2 y Hy). apply G. exact Hy.
Qed.
Lemma sort_packs_outcome : forall l, times_known l \/ sort_packs l = Panic.
Proof.
  intros l. destruct l as [|a [|b l]]; [left; left; cbn; lia|left; left; cbn; lia|].
  assert (G : forall l, Forall (fun e => d_created e <> None) l \/ created_times l = Panic).
  { clear. induction l as [|e l IH]; [left; constructor|]. cbn [created_times]. destruct (d_created e) eqn:E; [|right; reflexivity].
    cbn [unwrap_opt bind]. destruct IH as [IH| ->]; [left; constructor; [congruence|exact IH]|right; reflexivity]. }
  destruct (G (a :: b :: l)) as [H|H]; [left; right; exact H|right]. unfold sort_packs. rewrite H. reflexivity.
Qed.

(** Two orders of the same packs, created at different times, are sorted alike. *)
Lemma sorted_unique : forall a b, Permutation a b -> StronglySorted not_later a -> StronglySorted not_later b ->
  NoDup (map d_created a) -> a = b.
Proof.
  intros a b P Sa. revert b P. induction Sa as [|x a Sa IH F]; intros b P Sb N.
  - apply Permutation_nil in P. congruence.
  - destruct b as [|y b]; [symmetry in P; apply Permutation_nil in P; discriminate|].
    assert (E : x = y).
    { assert (Hx : In x (y :: b)) by (eapply Permutation_in; [exact P|left; reflexivity]).
      assert (Hy : In y (x :: a)) by (eapply Permutation_in; [symmetry; exact P|left; reflexivity]).
      destruct Hx as [->|Hx]; [reflexivity|]. destruct Hy as [->|Hy]; [reflexivity|]. exfalso.
      inversion Sb; subst. rewrite Forall_forall in *. specialize (F y Hy). specialize (H2 x Hx).
      unfold not_later in *. destruct (d_created x) as [u|] eqn:Ex; [|contradiction]. destruct (d_created y) as [v|] eqn:Ey; [|contradiction].
      assert (u = v) by lia. subst v. cbn [map] in N. rewrite Ex in N. inversion N; subst. apply H3. rewrite <- Ey. apply in_map. exact Hy. }
    subst y. f_equal. inversion Sb; subst. apply IH; [eapply Permutation_cons_inv; exact P|assumption|]. inversion N; assumption.
Qed.

Lemma packs_of_perm : forall l l', Permutation l l' -> forall files hs, packs_of l files hs ->
  exists files' hs', packs_of l' files' hs' /\ Permutation files files'.
Proof.
  intros l l' P. induction P as [|e l l' P IH|e e' l|l l' l'' P IH P' IH']; intros files hs H.
  - exists files, hs. auto.
  - inversion H as [|a la fa ha h L K N Hr|a la fa ha L K Hr]; subst.
    + destruct (IH _ _ Hr) as (f' & h' & A & B). exists (e :: f'), (h :: h'). split; [constructor; assumption|constructor; exact B].
    + destruct (IH _ _ Hr) as (f' & h' & A & B). exists f', h'. split; [apply po_other; assumption|exact B].
  - inversion H as [|a la fa ha h L K N Hr|a la fa ha L K Hr]; subst; inversion Hr as [|b lb fb hb h' L' K' N' Hr'|b lb fb hb L' K' Hr']; subst.
    + eexists _, _. split; [eapply po_pack; [eassumption..|]; eapply po_pack; eassumption|apply perm_swap].
    + eexists _, _. split; [eapply po_other; [eassumption..|]; eapply po_pack; eassumption|reflexivity].
    + eexists _, _. split; [eapply po_pack; [eassumption..|]; eapply po_other; eassumption|reflexivity].
    + eexists _, _. split; [eapply po_other; [eassumption..|]; eapply po_other; eassumption|reflexivity].
  - destruct (IH _ _ H) as (f1 & h1 & A & B). destruct (IH' _ _ A) as (f2 & h2 & C & D). exists f2, h2.
    split; [exact C|]. etransitivity; eassumption.
Qed.

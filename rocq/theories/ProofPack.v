(** Decoding of packs. *)

From Verif Require Import Base BaseLemmas Digest ModelUtils ModelObject ModelDelta ModelPack
  SpecFormat SpecObject SpecDelta SpecPack ProofUtils ProofObject ProofDelta.
Open Scope N_scope.

(** ** Maps *)

Lemma bt_get_insert_same : forall A k (v : A) l, bt_get k (bt_insert k v l) = Some v.
Proof.
  induction l as [|[k' v'] l IH]; cbn [bt_insert bt_get]; [rewrite beq_refl; reflexivity|].
  destruct (bcmp k k') eqn:E; cbn [bt_get]; rewrite ?beq_refl; try reflexivity.
  destruct (beq k k') eqn:F; [|assumption]. apply beq_eq in F. subst. rewrite bcmp_refl in E. discriminate.
Qed.
Lemma bt_get_insert_other : forall A k k' (v : A) l, k' <> k -> bt_get k' (bt_insert k v l) = bt_get k' l.
Proof.
  induction l as [|[a b] l IH]; intros H; cbn [bt_insert bt_get].
  - apply beq_neq in H. rewrite H. reflexivity.
  - destruct (bcmp k a) eqn:E; cbn [bt_get].
    + apply bcmp_eq in E. subst a. apply beq_neq in H. rewrite H. reflexivity.
    + apply beq_neq in H. rewrite H. reflexivity.
    + rewrite IH by assumption. reflexivity.
Qed.
Lemma nm_get_insert_same : forall A k (v : A) l, nm_get k (nm_insert k v l) = Some v.
Proof. intros. cbn. rewrite N.eqb_refl. reflexivity. Qed.
Lemma nm_get_insert_other : forall A k k' (v : A) l, k' <> k -> nm_get k' (nm_insert k v l) = nm_get k' l.
Proof.
  intros A k k' v l H. cbn. replace (k' =? k) with false by (symmetry; apply N.eqb_neq; assumption).
  induction l as [|[a b] l IH]; [reflexivity|]. cbn [filter fst].
  destruct (N.eqb_spec a k) as [->|Ha]; cbn [negb nm_get].
  - rewrite IH. replace (k' =? k) with false by (symmetry; apply N.eqb_neq; assumption). reflexivity.
  - rewrite IH. reflexivity.
Qed.

(** ** Objects *)

Lemma obj_id_fun : forall o h h', obj_id o h -> obj_id o h' -> h = h'.
Proof.
  intros [t d] h h' (c1 & F1 & ->) (c2 & F2 & ->). cbn [fst snd] in *.
  apply framed_eq in F1 as (n1 & N1 & ->). apply framed_eq in F2 as (n2 & N2 & ->).
  rewrite (base_name_fun _ _ _ N1 N2). reflexivity.
Qed.
Lemma obj_id_base : forall o h, obj_id o h -> is_base (fst o).
Proof. intros o h (c & F & _). apply framed_eq in F as (n & H & _). exists n. assumption. Qed.
Lemma meta_new_obj : forall t (d : bytes), is_base t -> exists h, obj_id (t, d) h /\ meta_new t d = Ok (as_meta (t, d) h).
Proof.
  intros t d H. destruct (meta_new_base t d H) as (content & F & E). exists (sha1 content).
  split; [exists content; split; [assumption|reflexivity]|assumption].
Qed.
Lemma obj_id_ok : forall o h, obj_id o h -> id_ok h.
Proof. intros o h (c & _ & ->). apply sha1_ok. Qed.

Lemma pack_code_number : forall t n, pack_code t n -> 1 <= n <= 4 /\ number_type n = Ok t /\ is_base t.
Proof. intros t n H. destruct H; (split; [lia|split; [reflexivity|eexists; constructor]]). Qed.

(** ** Files *)

Lemma file_at_app : forall b s, file_at (b ++ s) (nlen b) = s.
Proof. intros. unfold file_at, nlen. rewrite Nat2N.id. apply skipn_app_exact. Qed.

Lemma nlen_nonneg_sub : forall (a b : bytes), nlen (a ++ b) - nlen b = nlen a.
Proof. intros. rewrite nlen_app. lia. Qed.

(** ** One entry *)

(** State of the cache after the entries [objs] of the current pack, when all the
    objects seen so far (in this pack and earlier ones) are [all]. *)
Definition inv (k : cache) (objs : list (N * object)) (all : list object) : Prop :=
  holds k all /\
  (forall off o, In (off, o) objs -> exists h, obj_id o h /\ nm_get off (offset_hash k) = Some h) /\
  (forall off o h, In (off, o) objs -> obj_id o h ->
     exists off' o', In (off', o') objs /\ obj_id o' h /\ bt_get h (by_offset k) = Some off') /\
  (forall off o, In (off, o) objs -> In o all).

Lemma holds_get : forall k all o h, holds k all -> In o all -> obj_id o h -> hash_object k h = Some (as_meta o h).
Proof. intros k all o h H Hi Ho. apply H. exists o. auto. Qed.

Lemma inv_located : forall k objs all, inv k objs all -> located k objs.
Proof.
  intros k objs all (H1 & H2 & H3 & H4). split; [|exact H3].
  intros off o Hi. destruct (H2 off o Hi) as (h & Hh & E). exists h. split; [assumption|].
  unfold offset_object. rewrite E. eapply holds_get; eauto.
Qed.

Definition same_maps (k k' : cache) : Prop :=
  by_hash k' = by_hash k /\ by_offset k' = by_offset k /\ offset_hash k' = offset_hash k.

Lemma inv_update : forall k k1 objs all o h off, inv k objs all -> same_maps k k1 ->
  no_collision (all ++ [o]) -> obj_id o h -> (forall x y, In (x, y) objs -> x <> off) ->
  inv (cache_update k1 (as_meta o h) off) (objs ++ [(off, o)]) (all ++ [o]).
Proof.
  intros k k1 objs all o h off (H1 & H2 & H3 & H4) (S1 & S2 & S3) Hc Ho Hoff.
  unfold cache_update. cbn [as_meta m_id]. rewrite S1, S2, S3. split; [|split; [|split]].
  - intros h' m. unfold hash_object. cbn [by_hash]. destruct (bytes_dec h' h) as [->|Hn].
    + rewrite bt_get_insert_same. split.
      * intros E. injection E as <-. exists o. split; [apply in_or_app; right; left; reflexivity|auto].
      * intros (o' & Hi & Ho' & ->). f_equal. f_equal.
        apply (Hc o o' h); try assumption. apply in_or_app. right. left. reflexivity.
    + rewrite bt_get_insert_other by assumption. specialize (H1 h' m). unfold hash_object in H1. rewrite H1. split.
      * intros (o' & Hi & Ho' & ->). exists o'. split; [apply in_or_app; left; assumption|auto].
      * intros (o' & Hi & Ho' & ->). exists o'. split; [|auto].
        apply in_app_or in Hi as [Hi|[<-|[]]]; [assumption|]. exfalso. apply Hn. eapply obj_id_fun; eassumption.
  - intros x y Hi. cbn [offset_hash]. apply in_app_or in Hi as [Hi|[E|[]]].
    + rewrite nm_get_insert_other by (eapply Hoff; eassumption). apply H2. assumption.
    + injection E as <- <-. rewrite nm_get_insert_same. exists h. auto.
  - intros x y h' Hi Hy. cbn [by_offset]. destruct (bytes_dec h' h) as [->|Hn].
    + rewrite bt_get_insert_same. exists off, o. split; [apply in_or_app; right; left; reflexivity|auto].
    + rewrite bt_get_insert_other by assumption. apply in_app_or in Hi as [Hi|[E|[]]].
      * destruct (H3 x y h' Hi Hy) as (o1 & o2 & I1 & I2 & I3). exists o1, o2.
        split; [apply in_or_app; left; assumption|auto].
      * injection E as <- <-. exfalso. apply Hn. eapply obj_id_fun; eassumption.
  - intros x y Hi. apply in_app_or in Hi as [Hi|[E|[]]]; apply in_or_app.
    + left. eapply H4. eassumption.
    + injection E as <- <-. right. left. reflexivity.
Qed.

Lemma pack_body_offs : forall c st n b objs, pack_body c st n b objs ->
  forall off o, In (off, o) objs -> off < nlen b.
Proof.
  induction 1 as [|b objs e o H IH He]; intros off o' Hi; [destruct Hi|].
  rewrite nlen_app. apply in_app_or in Hi as [Hi|[E|[]]].
  - apply IH in Hi. lia.
  - injection E as <- <-.
    assert (nlen e <> 0); [|lia].
    assert (L : forall t hdr s x, header t hdr s -> nlen (hdr ++ x) <> 0).
    { intros t hdr s x (Hh & _ & _). rewrite nlen_app. inversion Hh; subst; rewrite ?nlen_cons; lia. }
    inversion He; subst; eapply L; eassumption.
Qed.

Lemma entry_small : forall c st off objs e o, entry c st off objs e o -> nlen (snd o) < 2 ^ 61.
Proof. intros c st off objs e o H. inversion H; subst; cbn [snd]; try assumption. match goal with X : header _ _ _ |- _ => apply X end. Qed.
Lemma pack_body_small : forall c st n b objs, pack_body c st n b objs ->
  forall off o, In (off, o) objs -> nlen (snd o) < 2 ^ 61.
Proof.
  induction 1 as [|b objs e o H IH He]; intros off o' Hi; [destruct Hi|].
  apply in_app_or in Hi as [Hi|[E|[]]]; [eapply IH; eassumption|].
  injection E as <- <-. eapply entry_small; eassumption.
Qed.

Lemma id_text_plain : forall s h, id_text s h -> map lower s = s -> s = to_plain_str h.
Proof. intros s h [_ H] L. unfold to_plain_str. rewrite (hex_text_lower s h H). congruence. Qed.

Lemma lt61_64 : forall n, n < 2 ^ 61 -> n < 2 ^ 64.
Proof. intros n. change (2 ^ 61) with 2305843009213693952. change (2 ^ 64) with 18446744073709551616. lia. Qed.
Lemma lt61_63 : forall n, n < 2 ^ 61 -> n < 2 ^ 63.
Proof. intros n. change (2 ^ 61) with 2305843009213693952. change (2 ^ 63) with 9223372036854775808. lia. Qed.

Lemma apply_delta_obj : forall m t (base : bytes) h delta (data : bytes), is_base t -> nlen base < 2 ^ 61 -> nlen data < 2 ^ 61 ->
  git_delta base delta data -> exists h', obj_id (t, data) h' /\
  apply_delta m (as_meta (t, base) h) delta = Ok (as_meta (t, data) h').
Proof.
  intros m t base h delta data Ht Hb Hd G. destruct (meta_new_obj t data Ht) as (h' & Hh & E).
  exists h'. split; [assumption|]. rewrite <- E.
  apply (apply_delta_complete m (as_meta (t, base) h) delta data); cbn;
    [reflexivity|apply lt61_64; assumption|apply lt61_63; assumption|assumption].
Qed.

Lemma next_object_entry : forall m c st n b objs all k fuel e o rest,
  pack_body c st n b objs -> inv k objs all -> no_collision (all ++ [o]) ->
  (all = map snd objs \/ forall h x, ~ knows st h x) -> nlen b < 2 ^ 64 ->
  entry c st (nlen b) objs e o ->
  exists h k', obj_id o h /\
    next_object m c st (S fuel) (b ++ e ++ rest) (nlen b) k = Ok (as_meta o h, nlen (b ++ e), k') /\
    inv k' (objs ++ [(nlen b, o)]) (all ++ [o]).
Proof.
  intros m c st n b objs all k fuel e o rest Hb Hi Hc Hall Hlen He.
  assert (Hoff : forall x y, In (x, y) objs -> x <> nlen b).
  { intros x y Hx. apply (pack_body_offs _ _ _ _ _ Hb) in Hx. lia. }
  pose proof Hi as (I1 & I2 & I3 & I4).
  cbn [next_object]. rewrite file_at_app.
  inversion He as [t num hdr z data Hp (Hh & Hl & Hs) Hz
    |t base hdr dist ofs z delta data (Hh & Hl & Hs) Ho Hd Hin Hz Hg Hsm
    |t base hdr h z delta data off (Hh & Hl & Hs) Hid Hin Hob Hz Hg Hsm
    |t base hdr h z delta data (Hh & Hl & Hs) Hid Hba Hno Hk Hbs Hz Hg Hsm]; subst e o.
  - destruct (pack_code_number _ _ Hp) as (Hn & Ht & Hbase). rewrite <- app_assoc.
    rewrite (read_entry_hdr m num hdr (nlen data) (z ++ rest)) by (try assumption; lia). cbn [unwrap bind].
    replace ((1 <=? num) && (num <=? 4)) with true by lia.
    rewrite Hz. cbn [unwrap_opt bind]. rewrite N.eqb_refl. cbn [negb]. rewrite Ht. cbn [bind].
    destruct (meta_new_obj t data Hbase) as (h & Hob & E). rewrite E. cbn [bind].
    exists h. eexists. split; [assumption|]. split.
    + f_equal. f_equal. f_equal. rewrite !nlen_app. unfold nlen. lia.
    + apply inv_update with (k := k); try assumption. repeat split.
  - rewrite <- !app_assoc. rewrite (read_entry_hdr m 6 hdr (nlen delta)) by (try assumption; lia).
    cbn [unwrap bind]. change ((1 <=? 6) && (6 <=? 4)) with false. change (6 =? 6) with true. cbv iota.
    rewrite (read_offset_format m ofs dist (z ++ rest)) by (try assumption; unfold U64; lia).
    cbn [unwrap bind]. replace (nlen b <? dist) with false by lia.
    destruct (I2 _ _ Hin) as (hb & Hhb & Eb).
    assert (Eo : offset_object k (nlen b - dist) = Some (as_meta (t, base) hb)).
    { unfold offset_object. rewrite Eb. eapply holds_get; eauto. }
    rewrite Eo. cbn [bind]. rewrite Hz. cbn [unwrap_opt bind].
    pose proof (pack_body_small _ _ _ _ _ Hb _ _ Hin) as Hbs. cbn [snd] in Hbs.
    destruct (apply_delta_obj m t base hb delta data) as (h & Hob & E); try assumption.
    { apply (obj_id_base (t, base) hb). assumption. }
    rewrite E. cbn [bind]. exists h. eexists. split; [assumption|]. split.
    + f_equal. f_equal. f_equal. rewrite !nlen_app. unfold nlen. lia.
    + apply inv_update with (k := k); try assumption. repeat split.
  - rewrite <- !app_assoc. rewrite (read_entry_hdr m 7 hdr (nlen delta)) by (try assumption; lia).
    cbn [unwrap bind]. change ((1 <=? 7) && (7 <=? 4)) with false. change (7 =? 6) with false.
    change (7 =? 7) with true. cbv iota.
    unfold read_hash, read_bytes. destruct Hid as [Hid1 Hid2].
    replace (20 <=? length (h ++ z ++ rest))%nat with true by (rewrite app_length; lia).
    rewrite firstn_app_n, skipn_app_n by assumption. cbn [unwrap bind].
    rewrite (holds_get k all (t, base) h) by eauto. cbn [bind]. rewrite Hz. cbn [unwrap_opt bind].
    pose proof (pack_body_small _ _ _ _ _ Hb _ _ Hin) as Hbs. cbn [snd] in Hbs.
    destruct (apply_delta_obj m t base h delta data) as (h' & Hob' & E); try assumption.
    { apply (obj_id_base (t, base) h). assumption. }
    rewrite E. cbn [bind]. exists h'. eexists. split; [assumption|]. split.
    + f_equal. f_equal. f_equal. rewrite !nlen_app. unfold nlen. lia.
    + apply inv_update with (k := k); try assumption. repeat split.
  - destruct Hall as [->|Hall]; [|exfalso; eapply Hall; eassumption].
    rewrite <- !app_assoc. rewrite (read_entry_hdr m 7 hdr (nlen delta)) by (try assumption; lia).
    cbn [unwrap bind]. change ((1 <=? 7) && (7 <=? 4)) with false. change (7 =? 6) with false.
    change (7 =? 7) with true. cbv iota.
    unfold read_hash, read_bytes. destruct Hid as [Hid1 Hid2].
    replace (20 <=? length (h ++ z ++ rest))%nat with true by (rewrite app_length; lia).
    rewrite firstn_app_n, skipn_app_n by assumption. cbn [unwrap bind].
    destruct (hash_object k h) as [x|] eqn:Eh.
    { exfalso. apply I1 in Eh as (o & Hin & Hoh & _). apply in_map_iff in Hin as ([off o'] & <- & Hin).
      exact (Hno _ _ Hin Hoh). }
    destruct Hk as (s & hk & T1 & T2 & T3). rewrite (id_text_plain s h T1 T2) in T3. rewrite T3. cbn [unwrap bind].
    rewrite Hz. cbn [unwrap_opt bind].
    destruct (apply_delta_obj m t base hk delta data) as (h' & Hob' & E); try assumption.
    rewrite E. cbn [bind]. exists h'. eexists. split; [assumption|]. split.
    + f_equal. f_equal. f_equal. rewrite !nlen_app. unfold nlen. lia.
    + apply inv_update with (k := k); try assumption. repeat split.
Qed.

(** ** The whole pack *)

Lemma decode_loop_snoc : forall m c st fuel file n pos k,
  decode_loop m c st fuel file (S n) pos k =
  let? (p, k') := decode_loop m c st fuel file n pos k in
  let? (_, p', k'') := next_object m c st fuel file p k' in
  if 2 ^ 32 <=? p then Panic else Ok (p', k'').
Proof.
  induction n as [|n IH]; intros pos k.
  - cbn [decode_loop bind]. destruct (next_object _ _ _ _ _ _ _) as [[[o p] k']| | |]; reflexivity.
  - cbn [decode_loop] in *. destruct (next_object m c st fuel file pos k) as [[[o p] k']| | |]; try reflexivity.
    cbn [bind]. destruct (2 ^ 32 <=? pos); [reflexivity|]. apply IH.
Qed.

Lemma no_collision_incl : forall a b, no_collision b -> incl a b -> no_collision a.
Proof. intros a b H Hi x y h Hx Hy. apply H; apply Hi; assumption. Qed.

Lemma inv_start : forall k old, holds k old -> inv k [] old.
Proof. intros k old H. split; [exact H|]. split; [intros ? ? []|]. split; [intros ? ? ? []|intros ? ? []]. Qed.

Lemma decode_loop_body : forall m c st n b objs fuel old k0, pack_body c st n b objs ->
  holds k0 old -> (old = [] \/ forall h x, ~ knows st h x) ->
  no_collision (old ++ map snd objs) -> (forall off o, In (off, o) objs -> off < 2 ^ 32) ->
  forall rest, exists k, decode_loop m c st (S fuel) (b ++ rest) (length objs) 12 k0 = Ok (nlen b, k) /\
    inv k objs (old ++ map snd objs).
Proof.
  intros m c st n b objs fuel old k0 H H0 Hold. induction H as [v w Hv Hw|b objs e o H IH He]; intros Hc Hoff rest.
  - exists k0. cbn [length decode_loop map]. rewrite app_nil_r. split; [|apply inv_start; assumption].
    f_equal. f_equal. rewrite !nlen_app. destruct Hv as (? & ? & ? & ? & -> & _), Hw as (? & ? & ? & ? & -> & _). reflexivity.
  - rewrite map_app in *. cbn [map snd] in *. rewrite app_assoc in Hc.
    destruct IH with (rest := e ++ rest) as (k & E & Hi).
    { eapply no_collision_incl; [exact Hc|]. intros x Hx. apply in_or_app. left. assumption. }
    { intros off o' Hx. apply (Hoff off o'). apply in_or_app. left. assumption. }
    assert (Hlt : nlen b < 2 ^ 32).
    { apply (Hoff _ o). apply in_or_app. right. left. reflexivity. }
    destruct (next_object_entry m c st n b objs (old ++ map snd objs) k fuel e o rest) as (h & k' & Ho & En & Hi');
      try assumption.
    { destruct Hold as [->|]; [left; reflexivity|right; assumption]. }
    { change (2 ^ 32) with 4294967296 in Hlt. change (2 ^ 64) with 18446744073709551616. lia. }
    exists k'. rewrite app_length, Nat.add_comm. cbn [length Nat.add]. rewrite decode_loop_snoc.
    rewrite <- app_assoc, E. cbn [bind]. rewrite En. cbn [bind].
    replace (2 ^ 32 <=? nlen b) with false by (symmetry; apply N.leb_gt; assumption).
    split; [reflexivity|]. rewrite app_assoc. assumption.
Qed.

Lemma body_header : forall c st n b objs, pack_body c st n b objs -> n < 2 ^ 32 /\
  exists x, b = bs "PACK" ++ u32_vec 2 ++ u32_vec n ++ x.
Proof.
  induction 1 as [v w Hv Hw|b objs e o H IH He].
  - assert (E : forall l x, be32_value l x -> l = u32_vec x /\ x < 2 ^ 32).
    { intros l x (a & b & c' & d & -> & Hok & ->). unfold bytes_ok, byte_ok in Hok.
      repeat match goal with X : Forall _ (_ :: _) |- _ => inversion X; clear X; subst end.
      change (2 ^ 24) with 16777216. change (2 ^ 16) with 65536. change (2 ^ 8) with 256. change (2 ^ 32) with 4294967296.
      split; [|lia]. unfold u32_vec. rewrite !shiftr_div, !land_255.
      change (2 ^ 24) with 16777216. change (2 ^ 16) with 65536. change (2 ^ 8) with 256. 
      repeat (f_equal; [lia|]). f_equal. lia. }
    apply E in Hv as [-> _], Hw as [-> Hn]. split; [assumption|]. exists []. rewrite app_nil_r. reflexivity.
  - destruct IH as (Hn & x & ->). split; [assumption|]. exists (x ++ e). rewrite <- !app_assoc. reflexivity.
Qed.

Lemma check_header_ok : forall n s, n < 2 ^ 32 ->
  check_header (bs "PACK" ++ u32_vec 2 ++ u32_vec n ++ s) = Ok (n, s).
Proof.
  intros n s Hn. unfold check_header, read_bytes at 1.
  replace (4 <=? length (bs "PACK" ++ u32_vec 2 ++ u32_vec n ++ s))%nat with true
    by (rewrite app_length; reflexivity).
  rewrite firstn_app_n, skipn_app_n by reflexivity. cbn [unwrap bind]. change (beq (bs "PACK") (bs "PACK")) with true.
  cbn [negb]. rewrite u32_roundtrip by reflexivity. cbn [unwrap bind]. change (2 =? 2) with true. cbn [negb].
  rewrite u32_roundtrip by assumption. reflexivity.
Qed.

Lemma header_pos : forall n s, nlen (bs "PACK" ++ u32_vec 2 ++ u32_vec n ++ s) - nlen s = 12.
Proof. intros. rewrite !nlen_app. change (nlen (bs "PACK")) with 4. unfold nlen. rewrite !u32_vec_len. lia. Qed.

(** The main lemma: any well-formed pack, any 20-byte trailer, any bytes after it. *)
Lemma decode_pack : forall m c st fuel b objs sig junk, pack_body c st (nlen objs) b objs ->
  length sig = 20%nat -> no_collision (map snd objs) -> (forall off o, In (off, o) objs -> off < 2 ^ 32) ->
  exists k, decode m c st (S fuel) (b ++ sig ++ junk) = Ok (mkPack (nlen objs) sig k) /\
    holds k (map snd objs) /\ located k objs.
Proof.
  intros m c st fuel b objs sig junk H Hs Hc Hoff.
  destruct (decode_loop_body m c st (nlen objs) b objs fuel [] cache_empty H) with (rest := sig ++ junk) as (k & E & Hi);
    try assumption; [|left; reflexivity|].
  { intros h x. cbn. split; [discriminate|intros (o & [] & _)]. }
  exists k. split; [|split; [apply Hi|eapply inv_located; eassumption]].
  destruct (body_header _ _ _ _ _ H) as (Hn & x & Eb).
  assert (CH : check_header (b ++ sig ++ junk) = Ok (nlen objs, x ++ sig ++ junk)).
  { rewrite Eb, <- !app_assoc. apply check_header_ok. assumption. }
  assert (P : nlen (b ++ sig ++ junk) - nlen (x ++ sig ++ junk) = 12).
  { rewrite Eb, <- !app_assoc. apply header_pos. }
  unfold decode. rewrite CH. cbn [unwrap bind]. rewrite P.
  replace (N.to_nat (nlen objs)) with (length objs) by (unfold nlen; rewrite Nat2N.id; reflexivity).
  rewrite E. cbn [bind]. rewrite file_at_app. unfold read_bytes.
  replace (20 <=? length (sig ++ junk))%nat with true by (rewrite app_length, Hs; reflexivity).
  rewrite firstn_app_n by assumption. cbn [unwrap bind]. unfold hash_from_row.
  rewrite Hs. reflexivity.
Qed.

Lemma decode_with_cache_pack : forall m c st fuel b objs sig junk old k0, pack_body c st (nlen objs) b objs ->
  length sig = 20%nat -> holds k0 old -> (old = [] \/ forall h x, ~ knows st h x) ->
  no_collision (old ++ map snd objs) -> (forall off o, In (off, o) objs -> off < 2 ^ 32) ->
  exists k, decode_with_cache m c st (S fuel) (b ++ sig ++ junk) k0 = Ok (mkPack (nlen objs) sig cache_empty, k) /\
    holds k (old ++ map snd objs) /\ located k objs.
Proof.
  intros m c st fuel b objs sig junk old k0 H Hs Hk Hold Hc Hoff.
  destruct (decode_loop_body m c st (nlen objs) b objs fuel old k0 H) with (rest := sig ++ junk) as (k & E & Hi);
    try assumption.
  exists k. split; [|split; [apply Hi|eapply inv_located; eassumption]].
  destruct (body_header _ _ _ _ _ H) as (Hn & x & Eb).
  assert (CH : check_header (b ++ sig ++ junk) = Ok (nlen objs, x ++ sig ++ junk)).
  { rewrite Eb, <- !app_assoc. apply check_header_ok. assumption. }
  assert (P : nlen (b ++ sig ++ junk) - nlen (x ++ sig ++ junk) = 12).
  { rewrite Eb, <- !app_assoc. apply header_pos. }
  unfold decode_with_cache. rewrite CH. cbn [unwrap bind]. rewrite P.
  replace (N.to_nat (nlen objs)) with (length objs) by (unfold nlen; rewrite Nat2N.id; reflexivity).
  rewrite E. cbn [unwrap bind]. rewrite file_at_app. unfold read_bytes.
  replace (20 <=? length (sig ++ junk))%nat with true by (rewrite app_length, Hs; reflexivity).
  rewrite firstn_app_n by assumption. cbn [unwrap bind]. unfold hash_from_row.
  rewrite Hs. reflexivity.
Qed.

(** C26, C27, C75, C76: pack index files. Vocabulary: SpecIdx (git's index format). *)

From Coq Require Import Lia.
From Verif Require Import Base BaseLemmas Digest ModelUtils ModelObject ModelDelta ModelPack ModelIdx
  SpecFormat SpecObject SpecDelta SpecDiff SpecPack SpecIdx StoredZlib
  ProofUtils ProofObject ProofDelta ProofPack ProofEncode ProofPackAny ProofPackDir ProofIdx PropDelta PropPack.
Open Scope N_scope.

(** ** C26: writing and reading indexes *)

Lemma pack_index_lines : forall m c st fuel file objs, git_pack c st file objs ->
  no_collision (map snd objs) -> nlen file < 2 ^ 32 ->
  exists p x ls, decode m c st (S fuel) file = Ok p /\ idx_encode c p = Ok x /\
    git_idx (x_file_data x) ls (skipn (length file - 20) file) /\ index_of ls objs /\
    x_version x = 2 /\ x_number x = nlen objs /\
    forall y, In y ls -> exists o, In (l_off y, o) objs /\ obj_id o (l_id y) /\
      l_crc y = crc32 (convert_to_vec c (as_meta o (l_id y))).
Proof.
  intros m c st fuel file objs G Hcol Hf.
  destruct (decode_git_pack m c st fuel file objs G Hcol Hf) as (p & Ed & Hn & Hs & Hh & Hl).
  pose proof (decode_tidy _ _ _ _ _ _ Ed) as T. pose proof (decode_addressed _ _ _ _ _ _ Ed) as A.
  assert (Hsig : id_ok (p_signature p)).
  { rewrite Hs. destruct G as (b & _ & ->). rewrite app_length, sha1_len, Nat.add_sub, skipn_app_exact. apply sha1_ok. }
  assert (Hlen : nlen (by_hash (p_cache p)) < 2 ^ 32).
  { pose proof (keys_bound _ _ _ T Hh Hl). destruct G as (b & Hb & _). apply body_header in Hb as [Hb _]. lia. }
  destruct (idx_encode_ok c p _ T Hsig (addressed_ids _ _ T A) Hlen) as (x & Ex & Hg & Hxn & Hxv).
  exists p, x, (lines_of c (p_cache p)). split; [exact Ed|]. split; [exact Ex|]. rewrite <- Hs. split; [exact Hg|].
  assert (K : forall h o off, obj_id o h -> bt_get h (by_offset (p_cache p)) = Some off -> In o (map snd objs) -> In (off, o) objs).
  { intros h o off Ho Hb Hi. apply in_map_iff in Hi as ([off0 o0] & E & Hi). cbn in E. subst o0.
    destruct (proj2 Hl off0 o h Hi Ho) as (off' & o' & Hi' & Ho' & E'). rewrite Hb in E'. injection E' as <-.
    assert (o' = o); [|congruence].
    apply (Hcol o' o h); try assumption; [apply in_map_iff; exists (off, o')|apply in_map_iff; exists (off0, o)]; auto. }
  assert (D : forall y, In y (lines_of c (p_cache p)) -> exists o, In (l_off y, o) objs /\ obj_id o (l_id y) /\
      l_crc y = crc32 (convert_to_vec c (as_meta o (l_id y)))).
  { intros y Hy. apply (lines_spec c _ _ y T) in Hy as (mt & off & H1 & H2 & H3 & H4).
    apply (Hh (l_id y) mt) in H1 as (o & Ho & Hid & Em). exists o. split; [|split; [exact Hid|rewrite H3, Em; reflexivity]].
    rewrite H4, N.mod_small by (eapply tidy_small; eassumption). eapply K; eassumption. }
  split; [|split; [exact Hxv|split; [congruence|exact D]]]. split.
  - intros y Hy. destruct (D y Hy) as (o & H1 & H2 & _). eauto.
  - intros off o h Hi Ho. destruct (proj2 Hl off o h Hi Ho) as (off' & o' & Hi' & Ho' & E').
    assert (Hi2 : In o (map snd objs)) by (apply in_map_iff; exists (off, o); auto).
    pose proof (holds_get _ _ _ _ Hh Hi2 Ho) as Hg'.
    exists (mkLine h (crc32 (convert_to_vec c (as_meta o h))) off'). cbn [l_id l_off]. split; [|split; [reflexivity|]].
    + apply (lines_spec c _ _ _ T). cbn [l_id l_crc l_off]. exists (as_meta o h), off'.
      repeat split; try assumption. symmetry. apply N.mod_small. eapply tidy_small; eassumption.
    + eapply K; eassumption.
Qed.

(** The index of a decoded pack is a version-2 index file describing its objects. *)
Theorem C26_index_format : forall m c st fuel file objs, git_pack c st file objs ->
  no_collision (map snd objs) -> nlen file < 2 ^ 32 ->
  exists p x ls, decode m c st (S fuel) file = Ok p /\ idx_encode c p = Ok x /\
    git_idx (x_file_data x) ls (skipn (length file - 20) file) /\ index_of ls objs /\
    x_version x = 2 /\ x_number x = nlen objs.
Proof.
  intros m c st fuel file objs G Hcol Hf.
  destruct (pack_index_lines m c st fuel file objs G Hcol Hf) as (p & x & ls & H1 & H2 & H3 & H4 & H5 & H6 & _).
  exists p, x, ls. auto 10.
Qed.

(** The index of anything the decoder accepted (well-formed pack or not) is a
    version-2 index file listing its cache. *)
Theorem C26_index_of_any_pack : forall m c st fuel file p, bytes_ok file -> decode m c st fuel file = Ok p ->
  nlen (by_hash (p_cache p)) < 2 ^ 32 ->
  exists x ls, idx_encode c p = Ok x /\ git_idx (x_file_data x) ls (p_signature p) /\
    x_version x = 2 /\ x_number x = p_number p /\
    forall h off, (exists y, In y ls /\ l_id y = h /\ l_off y = off) <->
      bt_get h (by_offset (p_cache p)) = Some off.
Proof.
  intros m c st fuel file p Hok Ed Hlen.
  pose proof (decode_tidy _ _ _ _ _ _ Ed) as T. pose proof (decode_addressed _ _ _ _ _ _ Ed) as A.
  destruct (idx_encode_ok c p _ T (decode_sig _ _ _ _ _ _ Hok Ed) (addressed_ids _ _ T A) Hlen) as (x & Ex & Hg & Hxn & Hxv).
  exists x, (lines_of c (p_cache p)). split; [exact Ex|]. split; [exact Hg|]. split; [exact Hxv|]. split; [exact Hxn|].
  intros h off. split.
  - intros (y & Hy & <- & <-). apply (lines_spec c _ _ y T) in Hy as (mt & off & H1 & H2 & H3 & H4).
    rewrite H4, N.mod_small by (eapply tidy_small; eassumption). exact H2.
  - intros H. destruct A as (_ & _ & A3 & _). destruct (A3 h off H) as (mt & Hm).
    exists (mkLine h (crc32 (convert_to_vec c mt)) off). cbn [l_id l_off]. split; [|auto].
    apply (lines_spec c _ _ _ T). cbn [l_id l_crc l_off]. exists mt, off. repeat split; try assumption.
    symmetry. apply N.mod_small. eapply tidy_small; eassumption.
Qed.

(** Reading any version-2 index file gives back its lines, the number of objects,
    the number of ids for each first byte, both checksums, and the lookup by id. *)
Theorem C26_index_decoding : forall m file ls sig, git_idx file ls sig ->
  exists x, idx_decode m idx_default file = Ok x /\ x_version x = 2 /\ x_number x = nlen ls /\
    Forall2 shows (x_items x) ls /\ x_pack_signature x = sig /\
    (exists body, file = body ++ x_idx_signature x /\ x_idx_signature x = sha1 body) /\
    (forall b s n, b < 256 -> lower_hex s [b] -> counted (fun h => first_byte h b) ls n ->
       bt_get s (x_prefix x) = if n =? 0 then None else Some n) /\
    (forall y, In y ls -> exists it, idx_get_offset x (l_id y) = Ok it /\ shows it y).
Proof.
  intros m file ls sig G. destruct (idx_decode_ok m file ls sig G) as (x & E & H1 & H2 & H3 & H4 & H5 & H6 & H7 & _).
  destruct G as (version & fan & fv & ids & crcs & offs & body & _ & _ & _ & _ & _ & Hc & _ & Hid & _).
  apply table_vec in Hc as [Hc _].
  assert (Hs : forall y, In y ls -> shows (item_of y) y).
  { intros y Hy. apply item_shows. rewrite Forall_forall in Hc. apply Hc. apply in_map. assumption. }
  exists x. split; [exact E|]. split; [exact H1|]. split; [exact H2|]. split.
  { rewrite H3. clear -Hs. induction ls as [|y ls IH]; [constructor|]. cbn [map].
    constructor; [apply Hs; left; reflexivity|apply IH; intros; apply Hs; right; assumption]. }
  split; [exact H4|]. split; [exact H5|]. split.
  - intros b s n Hb Hx Hn. apply lower_hex_eq in Hx. subst s. rewrite H6 by assumption.
    rewrite (counted_fun _ _ _ Hn _ (counted_first b ls Hid)). reflexivity.
  - intros y Hy. exists (item_of y). split; [apply H7; assumption|apply Hs; assumption].
Qed.

(** Reading a second index into the same value adds its items behind the old ones; the
    ids of the second index are found as the second index has them. *)
Theorem C26_decoding_again : forall m x file ls sig, git_idx file ls sig ->
  exists x' items, idx_decode m x file = Ok x' /\ x_items x' = x_items x ++ items /\ Forall2 shows items ls /\
    x_pack_signature x' = sig /\
    (forall y, In y ls -> exists it, idx_get_offset x' (l_id y) = Ok it /\ shows it y).
Proof.
  intros m x file ls sig G. destruct (C26_index_decoding m file ls sig G) as (x0 & E & _ & _ & H3 & H4 & _).
  assert (Nd : NoDup (map i_id (x_items x0))).
  { destruct G as (version & fan & fv & ids & crcs & offs & body & _ & _ & _ & _ & _ & _ & _ & _ & Ha & _). apply ascending_nodup in Ha.
    replace (map i_id (x_items x0)) with (map l_id ls); [exact Ha|]. clear - H3. induction H3 as [|a b l l' (A & _) _ IH]; [reflexivity|]. cbn [map]. congruence. }
  assert (F : forall fan k n p q a b, fan_loop m fan k n p a = Ok b -> forall a', exists p' a'', fan_loop m fan k n q a' = Ok (fst (fst b), p', a'')).
  { clear. induction fan as [|w fan IH]; intros k n p q a b H a'; cbn [fan_loop] in *.
    - injection H as <-. eauto.
    - destruct (from_be w =? n); [eapply IH; exact H|]. destruct (sub64 m (from_be w) n) as [d| | |]; try discriminate. cbn [bind] in *. eapply IH. exact H. }
  unfold idx_decode in *. destruct (slice 0 4 file) as [magic| | |]; try discriminate. cbn [bind] in *.
  destruct (negb (beq magic [255; 116; 79; 99])); [discriminate|]. destruct (slice 4 8 file) as [v| | |]; try discriminate. cbn [bind] in *.
  destruct (chunks 4 256 8 file) as [fan| | |]; try discriminate. cbn [bind] in *.
  destruct (fan_loop m fan 0 0 (x_prefix idx_default) (x_number idx_default)) as [[[n pr] nu]| | |] eqn:Ef; try discriminate. cbn [bind] in *.
  destruct (F _ _ _ _ (x_prefix x) _ _ Ef (x_number x)) as (pr' & nu' & Ef'). cbn [fst] in Ef'. rewrite Ef'. cbn [bind]. cbv zeta in *.
  destruct (chunks 20 _ _ file) as [ids| | |]; try discriminate. cbn [bind] in *.
  destruct (chunks 4 _ _ file) as [crcs| | |]; try discriminate. cbn [bind] in *.
  destruct (chunks 4 _ _ file) as [offs| | |]; try discriminate. cbn [bind] in *.
  destruct (slice _ _ file) as [sg| | |]; try discriminate. cbn [bind] in *.
  destruct (hash_from_row sg) as [ps| | |]; try discriminate. cbn [bind] in *.
  destruct (slice_from _ file) as [rest| | |]; try discriminate. cbn [bind] in *.
  destruct (hash_from_row rest) as [is| | |]; try discriminate. cbn [bind] in *.
  injection E as <-. cbn [x_items x_pack_signature x_items idx_default app] in *.
  eexists _, _. split; [reflexivity|]. cbn [x_items x_pack_signature]. split; [reflexivity|]. split; [exact H3|]. split; [exact H4|].
  intros y Hy. set (items := make_items ids crcs offs) in *.
  assert (K : exists j it, nth_error items j = Some it /\ shows it y).
  { clear - H3 Hy. induction H3 as [|a b l l' A _ IH]; [destruct Hy|]. destruct Hy as [->|Hy]; [exists 0%nat, a; auto|].
    destruct (IH Hy) as (j & it & B). exists (S j), it. exact B. }
  destruct K as (j & it & Hj & Hs). exists it. split; [|exact Hs]. unfold idx_get_offset. cbn [x_item_hash x_items].
  assert (Fa : forall l l' i mp, fill_item_hash (l ++ l') i mp = fill_item_hash l' (i + length l) (fill_item_hash l i mp)).
  { clear. induction l as [|a l IH]; intros l' i mp; cbn [app fill_item_hash length]; [rewrite Nat.add_0_r; reflexivity|]. rewrite IH. f_equal. lia. }
  rewrite Fa. replace (l_id y) with (i_id it) by apply Hs. rewrite (fill_get items _ _ j it Nd Hj). cbn [unwrap_opt bind].
  rewrite nth_error_app2 by lia. replace (0 + length (x_items x) + j - length (x_items x))%nat with j by lia. rewrite Hj. reflexivity.
Qed.

(** Decode a pack, write its index, read the index: every object of the pack is found
    at an offset where it is stored, and every item is the id of an object at its
    offset. *)
Theorem C26_index_roundtrip : forall m m' c st fuel file objs, git_pack c st file objs ->
  no_collision (map snd objs) -> nlen file < 2 ^ 32 ->
  exists p x y, decode m c st (S fuel) file = Ok p /\ idx_encode c p = Ok x /\
    idx_decode m' idx_default (x_file_data x) = Ok y /\
    x_pack_signature y = p_signature p /\
    (forall it, In it (x_items y) -> exists o, In (i_offset it, o) objs /\ obj_id o (i_id it)) /\
    (forall off o h, In (off, o) objs -> obj_id o h ->
       exists it, idx_get_offset y h = Ok it /\ i_id it = h /\ In (i_offset it, o) objs) /\
    (forall h, (forall off o, In (off, o) objs -> ~ obj_id o h) -> idx_get_offset y h = Panic).
Proof.
  intros m m' c st fuel file objs G Hcol Hf.
  destruct (C26_index_format m c st fuel file objs G Hcol Hf) as (p & x & ls & Ed & Ex & Gi & [I1 I2] & _).
  destruct (decode_git_pack m c st fuel file objs G Hcol Hf) as (p' & Ed' & _ & Hs & _).
  assert (p' = p) by congruence. subst p'.
  destruct (idx_decode_ok m' _ _ _ Gi) as (y & E & _ & _ & H3 & H4 & _ & _ & H7 & H8).
  exists p, x, y. split; [exact Ed|]. split; [exact Ex|]. split; [exact E|]. split; [congruence|]. split; [|split].
  - intros it Hi. rewrite H3 in Hi. apply in_map_iff in Hi as (z & <- & Hz). apply I1. assumption.
  - intros off o h Hi Ho. destruct (I2 off o h Hi Ho) as (z & Hz & <- & Hi'). exists (item_of z).
    split; [apply H7; assumption|]. split; [reflexivity|exact Hi'].
  - intros h Hh. apply H8. intros Hi. apply in_map_iff in Hi as (z & <- & Hz). destruct (I1 z Hz) as (o & Hi & Ho).
    exact (Hh _ _ Hi Ho).
Qed.

(** A pack of three objects meets the hypotheses. *)
Lemma ex_pack : forall st, exists file objs, git_pack stored st file objs /\ map snd objs = map obj_of ex_l /\
  no_collision (map snd objs) /\ nlen file < 2 ^ 32 /\ nlen objs = 3.
Proof.
  intros st. destruct ex_l_ok as (A & B & _). destruct (encode_ok stored ex_l) as (p & file & E); [discriminate|reflexivity|].
  assert (X : match encode stored ex_l with Ok (_, f) => nlen f <? 2 ^ 32 | _ => false end = true) by (vm_compute; reflexivity).
  rewrite E in X. apply N.ltb_lt in X.
  destruct (encode_git_pack stored st ex_l p file stored_ok A E) as (objs & G & Ho & _). exists file, objs.
  split; [exact G|]. split; [exact Ho|]. split; [rewrite Ho; exact B|]. split; [exact X|].
  unfold nlen. rewrite <- (map_length snd objs), Ho, map_length. reflexivity.
Qed.
Example C26_ex : forall m fuel st, exists file objs p x y it, git_pack stored st file objs /\ nlen objs = 3 /\
  decode m stored st (S fuel) file = Ok p /\ idx_encode stored p = Ok x /\
  idx_decode m idx_default (x_file_data x) = Ok y /\ In it (x_items y).
Proof.
  intros m fuel st. destruct (ex_pack st) as (file & objs & G & Ho & Hc & Hf & Hn).
  destruct (C26_index_roundtrip m m stored st fuel file objs G Hc Hf) as (p & x & y & Ed & Ex & Ey & _ & _ & I & _).
  destruct (C26_index_format m stored st fuel file objs G Hc Hf) as (p' & x' & ls & Ed' & Ex' & Gi & [_ I2] & _).
  assert (p' = p) by congruence. subst p'. assert (x' = x) by congruence. subst x'.
  destruct objs as [|[off o] objs]; [discriminate|].
  destruct (decode_git_pack m stored st fuel file _ G Hc Hf) as (p2 & _ & _ & _ & _ & [L _]).
  destruct (L off o) as (h & Hh & _); [left; reflexivity|].
  destruct (I2 off o h) as (z & Hz & _); [left; reflexivity|exact Hh|].
  destruct (idx_decode_ok m _ _ _ Gi) as (y' & Ey' & _ & _ & H3 & _). assert (y' = y) by congruence. subst y'.
  exists file, ((off, o) :: objs), p, x, y, (item_of z). repeat (split; [assumption|]). rewrite H3. apply in_map. exact Hz.
Qed.

(** ** C27: offsets of 4 GiB and more *)

(** The decoder never records such an offset (it aborts before). *)
Theorem C27_decoded_offsets_small : forall m c st fuel file p h off, decode m c st fuel file = Ok p ->
  bt_get h (by_offset (p_cache p)) = Some off -> off < 2 ^ 32.
Proof. intros m c st fuel file p h off H. apply tidy_small. eapply decode_tidy. eassumption. Qed.
(** For packs assembled in memory, the index keeps offsets modulo 2^32 only. *)
Theorem C27_offsets_truncated : forall m c p, filled (p_cache p) -> id_ok (p_signature p) ->
  nlen (by_hash (p_cache p)) < 2 ^ 32 ->
  exists x y, idx_encode c p = Ok x /\ idx_decode m idx_default (x_file_data x) = Ok y /\
    forall h off, bt_get h (by_offset (p_cache p)) = Some off ->
      exists it, idx_get_offset y h = Ok it /\ i_id it = h /\ i_offset it = off mod 2 ^ 32.
Proof.
  intros m c p Hf Hsig Hlen. destruct (filled_tidy _ Hf) as (B & T & Hid).
  destruct (idx_encode_ok c p B T Hsig Hid Hlen) as (x & Ex & Hg & _).
  destruct (idx_decode_ok m _ _ _ Hg) as (y & Ey & _ & _ & _ & _ & _ & _ & H7 & _).
  exists x, y. split; [exact Ex|]. split; [exact Ey|]. intros h off Ho.
  assert (Hm : exists mt, hash_object (p_cache p) h = Some mt).
  { destruct T as (T1 & T2 & _). apply bt_get_in in Ho. apply (in_map fst) in Ho. cbn in Ho. rewrite T2 in Ho.
    apply in_map_iff in Ho as ([h' mt] & E & Hi). cbn in E. subst h'. exists mt. apply bt_get_sorted; assumption. }
  destruct Hm as (mt & Hm). pose (z := mkLine h (crc32 (convert_to_vec c mt)) (off mod 2 ^ 32)).
  exists (item_of z). split; [|split; reflexivity]. change h with (l_id z). apply H7.
  apply (lines_spec c _ _ _ T). exists mt, off. repeat split; assumption.
Qed.
Theorem C27_large_offset_refuted : forall m c, exists p h off x y it, filled (p_cache p) /\
  id_ok (p_signature p) /\ bt_get h (by_offset (p_cache p)) = Some off /\
  idx_encode c p = Ok x /\ idx_decode m idx_default (x_file_data x) = Ok y /\
  idx_get_offset y h = Ok it /\ i_offset it <> off.
Proof.
  intros m c. pose (o := ex_obj Blob (bs "x")). pose (off := 4294967308).
  pose (p := mkPack 1 hash_default (cache_update cache_empty o off)).
  assert (Hid : id_ok (m_id o)).
  { unfold o, ex_obj. destruct (meta_new_obj Blob (bs "x")) as (h & Hh & E); [eexists; constructor|]. rewrite E.
    eapply obj_id_ok. exact Hh. }
  assert (Hs : id_ok (p_signature p)) by (split; [reflexivity|repeat constructor]).
  assert (Hf : filled (p_cache p)) by (constructor; [constructor|exact Hid]).
  destruct (C27_offsets_truncated m c p Hf Hs) as (x & y & Ex & Ey & H); [reflexivity|].
  assert (Hg : bt_get (m_id o) (by_offset (p_cache p)) = Some off).
  { cbn [p p_cache cache_update by_offset cache_empty bt_insert bt_get]. rewrite beq_refl. reflexivity. }
  destruct (H (m_id o) off Hg) as (it & Ei & _ & Hi). exists p, (m_id o), off, x, y, it.
  repeat (split; [assumption|]). rewrite Hi. discriminate.
Qed.
Example C27_ex : filled (cache_update cache_empty (ex_obj Blob (bs "x")) 12).
Proof. constructor; [constructor|]. split; [vm_compute; reflexivity|]. vm_compute. repeat constructor. Qed.

(** ** C75: damaged indexes *)

(** A wrong magic is refused. *)
Theorem C75_wrong_magic_rejected : forall m x magic rest, length magic = 4%nat -> magic <> [255; 116; 79; 99] ->
  idx_decode m x (magic ++ rest) = Err EInvalidIdxFile.
Proof.
  intros m x magic rest Hl Hm. unfold idx_decode. rewrite (slice_prefix _ magic) by (symmetry; assumption). cbn [bind].
  apply beq_neq in Hm. rewrite Hm. reflexivity.
Qed.
(** The version and the checksum are not looked at: any other values give the same
    items. *)
Theorem C75_version_and_checksum_ignored : forall m file ls sig version trailer,
  tampered_idx file ls sig version trailer ->
  exists x, idx_decode m idx_default file = Ok x /\ Forall2 shows (x_items x) ls /\
    x_version x = version /\ x_idx_signature x = trailer /\ x_pack_signature x = sig.
Proof.
  intros m file ls sig version trailer (w & good & v2 & rest & old & G & Hv2 & Hw & Ho & Ht & -> & ->).
  destruct G as (v & fan & fv & ids & crcs & offs & body & Hv & Hf & Hfl & Hfc & -> & Hc & Hof & Hid & Hasc & Hsig & -> & E).
  assert (E2 : v2 = v /\ rest = fan ++ concat (map l_id ls) ++ crcs ++ offs ++ sig).
  { destruct Hv as (a1 & a2 & a3 & a4 & -> & _). destruct Hv2 as (b1 & b2 & b3 & b4 & -> & _).
    rewrite <- !app_assoc in E. cbn [app] in E.
    assert (E' : [255; 116; 79; 99; b1; b2; b3; b4] ++ rest ++ old = [255; 116; 79; 99; a1; a2; a3; a4] ++
      (fan ++ concat (map l_id ls) ++ crcs ++ offs ++ sig) ++ sha1 (255 :: 116 :: 79 :: 99 :: [a1; a2; a3; a4] ++ fan ++ concat (map l_id ls) ++ crcs ++ offs ++ sig)).
    { rewrite <- !app_assoc. exact E. }
    assert (L : length (rest ++ old) = length ((fan ++ concat (map l_id ls) ++ crcs ++ offs ++ sig) ++ sha1 (255 :: 116 :: 79 :: 99 :: [a1; a2; a3; a4] ++ fan ++ concat (map l_id ls) ++ crcs ++ offs ++ sig))).
    { apply (f_equal (@length N)) in E'. rewrite !(app_length [255; 116; 79; 99; _; _; _; _]) in E'. cbn [length] in E'. lia. }
    set (R := fan ++ concat (map l_id ls) ++ crcs ++ offs ++ sig) in *. clearbody R.
    set (S := sha1 _) in *. assert (LS : length S = 20%nat) by apply sha1_len. clearbody S.
    assert (E3 : [255; 116; 79; 99; b1; b2; b3; b4] = [255; 116; 79; 99; a1; a2; a3; a4] /\ rest ++ old = R ++ S).
    { split.
      - apply (f_equal (firstn 8)) in E'. rewrite !firstn_app_n in E' by reflexivity. exact E'.
      - apply (f_equal (skipn 8)) in E'. rewrite !skipn_app_n in E' by reflexivity. exact E'. }
    destruct E3 as [E3 E4]. split; [congruence|]. rewrite !app_length in L.
    apply (f_equal (firstn (length rest))) in E4. rewrite firstn_app_exact in E4.
    rewrite firstn_app_n in E4 by lia. exact E4. }
  destruct E2 as [-> ->].
  destruct (idx_decode_gen m ls sig fan fv crcs offs w version trailer Hw Hf Hfl Hfc Hc Hof Hid Hasc Hsig Ht) as (x & Ex & H1 & _ & H3 & H4 & H5 & _).
  exists x. split; [rewrite <- Ex; f_equal; rewrite <- !app_assoc; reflexivity|]. split; [|auto].
  rewrite H3. apply table_vec in Hc as [Hc _].
  assert (Hs : forall y, In y ls -> shows (item_of y) y).
  { intros y Hy. apply item_shows. rewrite Forall_forall in Hc. apply Hc. apply in_map. assumption. }
  clear -Hs. induction ls as [|y ls IH]; [constructor|]. cbn [map].
  constructor; [apply Hs; left; reflexivity|apply IH; intros; apply Hs; right; assumption].
Qed.
Theorem C75_tampering_accepted_refuted : forall m, exists file ls sig version trailer body x,
  tampered_idx file ls sig version trailer /\ ls <> [] /\ version <> 2 /\ file = body ++ trailer /\ trailer <> sha1 body /\
  idx_decode m idx_default file = Ok x.
Proof.
  intros m. destruct (ex_pack (fun _ => Panic)) as (pf & objs & G & Ho & Hc & Hf & Hn).
  destruct (C26_index_format m stored _ 0 pf objs G Hc Hf) as (p & x & ls & Ed & Ex & Gi & [_ I2] & _).
  assert (Hne : ls <> []).
  { destruct objs as [|[off o] objs]; [discriminate|].
    destruct (decode_git_pack m stored _ 0 pf _ G Hc Hf) as (p2 & _ & _ & _ & _ & [L _]).
    destruct (L off o) as (h & Hh & _); [left; reflexivity|].
    destruct (I2 off o h) as (z & Hz & _); [left; reflexivity|exact Hh|]. intros ->. destruct Hz. }
  pose proof Gi as Gi'. destruct Gi as (v & fan & fv & ids & crcs & offs & body & Hv & Hfn & Hfl & Hfc & E1 & Hcr & Hof & Hid & Hasc & Hsig & E2 & E3).
  pose (rest := fan ++ ids ++ crcs ++ offs ++ skipn (length pf - 20) pf).
  pose (body7 := [255; 116; 79; 99] ++ u32_vec 7 ++ rest).
  assert (S : exists t, length t = 20%nat /\ t <> sha1 body7).
  { destruct (bytes_dec (repeat 0 20) (sha1 body7)) as [E|E]; [|exists (repeat 0 20); split; [reflexivity|exact E]].
    exists (repeat 1 20). split; [reflexivity|]. rewrite <- E. discriminate. }
  destruct S as (t & Ht & Hts).
  assert (T : tampered_idx (body7 ++ t) ls (skipn (length pf - 20) pf) 7 t).
  { exists (u32_vec 7), (x_file_data x), v, rest, (sha1 body). split; [exact Gi'|]. split; [exact Hv|].
    split; [apply u32_vec_value; reflexivity|]. split; [apply sha1_len|]. split; [exact Ht|].
    split; [rewrite E3, E2 at 1; unfold rest; rewrite <- !app_assoc; reflexivity|].
    unfold body7. rewrite <- !app_assoc. reflexivity. }
  destruct (C75_version_and_checksum_ignored m _ _ _ _ _ T) as (y & Ey & _).
  exists (body7 ++ t), ls, (skipn (length pf - 20) pf), 7, t, body7, y.
  split; [exact T|]. split; [exact Hne|]. split; [discriminate|]. auto.
Qed.

(** ** C76: CRC of the entries *)

(** For packs written by [encode] with the same compressor, the CRC in the index is
    that of the entry's bytes. *)
Theorem C76_crc_of_encoded_entries : forall m m' c st fuel l p file, codec_ok c -> Forall encodable l ->
  no_collision (map obj_of l) -> encode c l = Ok (p, file) -> nlen file < 2 ^ 32 ->
  exists q x y, decode m c st (S fuel) file = Ok q /\ idx_encode c q = Ok x /\
    idx_decode m' idx_default (x_file_data x) = Ok y /\
    forall it, In it (x_items y) -> exists pre e post o w, file = pre ++ e ++ post /\ nlen pre = i_offset it /\
      obj_id o (i_id it) /\ entry c st (nlen pre) [] e o /\
      be32_value w (crc32 e) /\ lower_hex (i_crc32 it) w.
Proof.
  intros m m' c st fuel l p file Hc Hl Hcol E Hf. unfold encode in E. apply bind_ok in E as (hdr & Hh & E).
  apply encode_header_ok in Hh as (Hn & ->). cbv zeta in E. unfold hash_new in E.
  destruct (entries_body_at c st (nlen l) l _ Hc Hl [] (header_body c st (nlen l) (proj2 Hn))) as (objs & Hb & Eo & At).
  rewrite app_nil_l in Hb. revert E Hb At.
  generalize ((bs "PACK" ++ u32_vec 2 ++ u32_vec (nlen l)) ++ encode_entries c l) as b. intros b E Hb At.
  assert (Efile : file = b ++ sha1 b) by congruence. clear E.
  assert (G : git_pack c st file objs).
  { exists b. split; [|assumption]. replace (nlen objs) with (nlen l); [exact Hb|].
    unfold nlen. rewrite <- (map_length snd objs), Eo, map_length. reflexivity. }
  assert (Hcol' : no_collision (map snd objs)) by (rewrite Eo; assumption).
  destruct (pack_index_lines m c st fuel file objs G Hcol' Hf) as (q & x & ls & Ed & Ex & Gi & _ & _ & _ & D).
  destruct (idx_decode_ok m' _ _ _ Gi) as (y & Ey & _ & _ & H3 & _).
  exists q, x, y. split; [exact Ed|]. split; [exact Ex|]. split; [exact Ey|].
  intros it Hi. rewrite H3 in Hi. apply in_map_iff in Hi as (z & <- & Hz).
  destruct (D z Hz) as (o & Hi & Hid & Hcrc). destruct (At _ _ Hi) as (pre & mt & post & Hm & <- & Hp & Epre).
  rewrite <- (encodable_as_meta mt (l_id z) Hm Hid) in Hcrc.
  exists pre, (convert_to_vec c mt), (post ++ sha1 b), (obj_of mt), (u32_vec (l_crc z)).
  split; [rewrite Efile, Epre at 1; rewrite <- !app_assoc; reflexivity|]. split; [exact Hp|]. split; [exact Hid|].
  split; [apply entry_whole; assumption|]. rewrite <- Hcrc.
  assert (L : l_crc z < 2 ^ 32) by (rewrite Hcrc; apply crc32_lt).
  split; [apply u32_vec_value; exact L|]. pose proof (hex_encode_text _ (u32_vec_bytes (l_crc z))) as X.
  split; [exact X|]. cbn [item_of i_crc32]. rewrite <- (hex_text_lower _ _ X). reflexivity.
Qed.

(** Not for other packs: here the second entry is a delta (copying the first five
    bytes of the base), the index has the CRC of a whole-object entry. *)
Definition crc_base : bytes := bs "hello world".
Definition crc_e1 : bytes := convert_to_vec stored (ex_obj Blob crc_base).
Definition crc_delta : bytes := [11; 5; 144; 5].
Definition crc_e2 : bytes := [100] ++ [nlen crc_e1] ++ stored_deflate crc_delta.
Definition crc_body : bytes := ((bs "PACK" ++ u32_vec 2 ++ u32_vec 2) ++ crc_e1) ++ crc_e2.
Definition crc_objs : list (N * object) := [(12, (Blob, crc_base)); (12 + nlen crc_e1, (Blob, bs "hello"))].
Theorem C76_crc_of_delta_refuted : forall m m' fuel st, exists file objs q x y it pre e post o,
  git_pack stored st file objs /\ no_collision (map snd objs) /\
  decode m stored st (S fuel) file = Ok q /\ idx_encode stored q = Ok x /\
  idx_decode m' idx_default (x_file_data x) = Ok y /\ In it (x_items y) /\
  file = pre ++ e ++ post /\ nlen pre = i_offset it /\ obj_id o (i_id it) /\
  entry stored st (nlen pre) objs e o /\ forall w, be32_value w (crc32 e) -> ~ lower_hex (i_crc32 it) w.
Proof.
  intros m m' fuel st.
  assert (B : is_base Blob) by (eexists; constructor).
  destruct (ex_obj_ok Blob crc_base B) as [E1 O1]; [repeat constructor|reflexivity|].
  assert (Hp : forall objs, In (12, (Blob, crc_base)) objs -> entry stored st (12 + nlen crc_e1) objs crc_e2 (Blob, bs "hello")).
  { intros objs Hi. apply e_ofs with (base := crc_base) (dist := nlen crc_e1) (delta := crc_delta).
    - split; [apply (hdr_short 6 4); reflexivity|]. split; [cbn; lia|reflexivity].
    - split; [|reflexivity]. exists [], (nlen crc_e1). split; [reflexivity|]. split; [constructor|reflexivity].
    - split; [reflexivity|]. lia.
    - replace (12 + nlen crc_e1 - nlen crc_e1) with 12 by lia. exact Hi.
    - intros rest. apply stored_ok. repeat constructor.
    - exists [11], [5], [144; 5]. split; [reflexivity|].
      split; [apply leb_last; reflexivity|]. split; [cbn; lia|].
      split; [apply leb_last; reflexivity|]. split; [cbn; lia|].
      change (bs "hello") with (bs "hello" ++ []). change [144; 5] with ([144; 5] ++ []).
      constructor; [|constructor].
      eapply in_copy with (p := []) (q := bs " world"); [|reflexivity|reflexivity|reflexivity].
      exists [None; None; None; None], [Some 5; None; None]. repeat split. repeat constructor.
    - reflexivity. }
  assert (Hb : pack_body stored st 2 crc_body crc_objs).
  { unfold crc_body, crc_objs. change [(12, (Blob, crc_base)); (12 + nlen crc_e1, (Blob, bs "hello"))] with
      (([] ++ [(nlen (bs "PACK" ++ u32_vec 2 ++ u32_vec 2), (Blob, crc_base))]) ++ [(12 + nlen crc_e1, (Blob, bs "hello"))]).
    replace (12 + nlen crc_e1) with (nlen ((bs "PACK" ++ u32_vec 2 ++ u32_vec 2) ++ crc_e1)) by (rewrite nlen_app; reflexivity).
    constructor.
    - constructor; [apply header_body; reflexivity|]. rewrite <- O1. apply entry_whole; [apply stored_ok|exact E1].
    - replace (nlen ((bs "PACK" ++ u32_vec 2 ++ u32_vec 2) ++ crc_e1)) with (12 + nlen crc_e1) by (rewrite nlen_app; reflexivity).
      apply Hp. left. reflexivity. }
  assert (G : git_pack stored st (crc_body ++ sha1 crc_body) crc_objs) by (exists crc_body; split; [exact Hb|reflexivity]).
  assert (Hcol : no_collision (map snd crc_objs)).
  { apply ex_no_collision.
    - intros o [<-|[<-|[]]]; assumption.
    - intros a b [<-|[<-|[]]] [<-|[<-|[]]] H; try reflexivity; exfalso; vm_compute in H; discriminate. }
  assert (Hf : nlen (crc_body ++ sha1 crc_body) < 2 ^ 32) by (rewrite nlen_app; unfold nlen at 2; rewrite sha1_len; reflexivity).
  destruct (pack_index_lines m stored st fuel _ _ G Hcol Hf) as (q & x & ls & Ed & Ex & Gi & [_ I2] & _ & _ & D).
  destruct (idx_decode_ok m' _ _ _ Gi) as (y & Ey & _ & _ & H3 & _).
  destruct (meta_new_obj Blob (bs "hello") B) as (h & Hh & _).
  destruct (I2 (12 + nlen crc_e1) (Blob, bs "hello") h) as (z & Hz & Hzh & Hzo); [right; left; reflexivity|exact Hh|].
  destruct (D z Hz) as (o & Ho & Hid & Hcrc).
  assert (o = (Blob, bs "hello")).
  { apply (Hcol o (Blob, bs "hello") h); [apply in_map_iff; exists (l_off z, o); split; [reflexivity|exact Ho]|right; left; reflexivity|rewrite <- Hzh; exact Hid|exact Hh]. }
  subst o. assert (Hoff : l_off z = 12 + nlen crc_e1).
  { unfold crc_objs in Hzo. generalize (12 + nlen crc_e1) Hzo. intros n [X|[X|[]]].
    - apply (f_equal (fun v => snd (snd v))) in X. cbn [snd] in X. discriminate X.
    - apply (f_equal fst) in X. symmetry. exact X. }
  exists (crc_body ++ sha1 crc_body), crc_objs, q, x, y, (item_of z), ((bs "PACK" ++ u32_vec 2 ++ u32_vec 2) ++ crc_e1), crc_e2, (sha1 crc_body), (Blob, bs "hello").
  split; [exact G|]. split; [exact Hcol|]. split; [exact Ed|]. split; [exact Ex|]. split; [exact Ey|].
  split; [rewrite H3; apply in_map; exact Hz|].
  split; [unfold crc_body at 1; rewrite <- !app_assoc; reflexivity|].
  split; [cbn [item_of i_offset]; rewrite Hoff, nlen_app; reflexivity|]. split; [exact Hid|].
  split; [replace (nlen ((bs "PACK" ++ u32_vec 2 ++ u32_vec 2) ++ crc_e1)) with (12 + nlen crc_e1) by (rewrite nlen_app; reflexivity); apply Hp; left; reflexivity|].
  intros w Hw Hx. apply lower_hex_eq in Hx. apply be32_vec in Hw. subst w.
  cbn [item_of i_crc32] in Hx. rewrite Hcrc, Hzh in Hx.
  assert (Eh : as_meta (Blob, bs "hello") h = ex_obj Blob (bs "hello")).
  { destruct (ex_obj_ok Blob (bs "hello") B) as [E2 O2]; [repeat constructor|reflexivity|].
    rewrite <- O2. symmetry. apply encodable_as_meta; [exact E2|rewrite O2; exact Hh]. }
  rewrite Eh in Hx. apply beq_eq in Hx.
  assert (X : beq (hex_encode (u32_vec (crc32 (convert_to_vec stored (ex_obj Blob (bs "hello")))))) (hex_encode (u32_vec (crc32 crc_e2))) = false)
    by (vm_compute; reflexivity).
  congruence.
Qed.
Example C76_ex : Forall encodable ex_l /\ no_collision (map obj_of ex_l) /\ codec_ok stored /\ length ex_l = 3%nat.
Proof. destruct ex_l_ok as (A & B & _). repeat split; try assumption. apply stored_ok. Qed.

(** Pack decoding on arbitrary input: termination, content addressing, undefined
    entry types. *)

From Coq Require Import Lia ZArith.
From Verif Require Import Base BaseLemmas Digest ModelUtils ModelObject ModelDelta ModelPack
  SpecFormat SpecObject SpecDelta SpecPack ProofUtils ProofObject ProofDelta ProofPack.
Open Scope N_scope.

(** ** Inversion of the number readers *)

Lemma read_size_loop_inv : forall s m v len n r, bytes_ok s -> read_size_loop m v len s = Ok (n, r) ->
  exists l x, s = l ++ r /\ leb128 l x.
Proof.
  induction s as [|b s IH]; intros m v len n r Hok H; cbn [read_size_loop] in H; [discriminate|].
  inversion Hok as [|? ? Hb Hs]; subst. apply bind_ok in H as (sh & Hsh & H).
  rewrite more_flag in H by assumption. unfold byte_ok in Hb. destruct (N.leb_spec 128 b) as [L|L].
  - apply bind_ok in H as (len' & _ & H). apply IH in H as (l & x & -> & Hx); [|assumption].
    exists (b :: l), ((b - 128) + 128 * x). split; [reflexivity|].
    replace b with (128 + (b - 128)) at 1 by lia. constructor; [lia|assumption].
  - injection H as <- <-. exists [b], b. split; [reflexivity|]. constructor. assumption.
Qed.

(** The type is in the first byte unless the header is longer than ten bytes. *)
Lemma read_size_loop_type : forall l x, leb128 l x -> forall m v len n r rest, 7 <= len ->
  len + 7 * (nlen l - 1) < 64 ->
  read_size_loop m v len (l ++ rest) = Ok (n, r) -> n mod 128 = v mod 128.
Proof.
  assert (K : forall v b len, 7 <= len -> len < 64 -> N.lor v (N.shiftl b len mod U64) mod 128 = v mod 128).
  { intros v b len H1 H2. rewrite <- !land_127. apply N.bits_inj. intros i.
    rewrite !N.land_spec, N.lor_spec. destruct (N.lt_ge_cases i 7) as [L|L].
    - change U64 with (2 ^ 64). rewrite N.mod_pow2_bits_low by lia. rewrite N.shiftl_spec_low by lia.
      rewrite orb_false_r. reflexivity.
    - change 127 with (N.ones 7). rewrite N.ones_spec_high by assumption. rewrite !andb_false_r. reflexivity. }
  induction 1 as [b Hb|b l x Hb Hl IH]; intros m v len n r rest H7 H64 H; cbn [app read_size_loop] in H.
  - apply bind_ok in H as (sh & Hsh & H). rewrite more_flag in H by lia.
    replace (128 <=? b) with false in H by (symmetry; apply N.leb_gt; lia). injection H as <- <-.
    unfold shl64 in Hsh. rewrite nlen_cons, nlen_nil in H64.
    replace (len <? 64) with true in Hsh by (symmetry; apply N.ltb_lt; lia).
    injection Hsh as <-. apply K; lia.
  - apply bind_ok in H as (sh & Hsh & H). rewrite more_flag in H by lia.
    replace (128 <=? 128 + b) with true in H by (symmetry; apply N.leb_le; lia).
    rewrite nlen_cons in H64. assert (nlen l <> 0).
    { inversion Hl; subst; rewrite nlen_cons; lia. }
    unfold shl64 in Hsh. replace (len <? 64) with true in Hsh by (symmetry; apply N.ltb_lt; lia).
    injection Hsh as <-. apply bind_ok in H as (len' & Hlen' & H).
    unfold add8 in Hlen'. rewrite U8_val in Hlen'. replace (len + 7 <? 256) with true in Hlen' by (symmetry; apply N.ltb_lt; lia).
    injection Hlen' as <-. apply IH in H.
    + rewrite H. apply K; lia.
    + lia.
    + lia.
Qed.

Lemma read_type_inv : forall m s t n r, bytes_ok s -> read_type_and_size m s = Ok (t, n, r) ->
  exists b hdr x, s = (b :: hdr) ++ r /\ leb128 (b :: hdr) x  /\
    (t = (b / 16) mod 8 \/ (10 < length (b :: hdr))%nat).
Proof.
  intros m s t n r Hok H. unfold read_type_and_size in H. apply bind_ok in H as ([v r'] & Hv & H).
  injection H as <- _ <-. pose proof (read_size_loop_inv _ _ _ _ _ _ Hok Hv) as (l & x & -> & Hx).
  destruct l as [|b hdr]; [inversion Hx|]. exists b, hdr, x. split; [reflexivity|]. split; [assumption|].
  destruct (Nat.lt_ge_cases 10 (length (b :: hdr))) as [L|L]; [right; assumption|left].
  assert (E : v mod 128 = b mod 128).
  { unfold read_size_encoding in Hv. cbn [app read_size_loop] in Hv. apply bind_ok in Hv as (sh & Hsh & Hv).
    cbn in Hsh. rewrite N.shiftl_0_r in Hsh.
    assert (Hsh' : sh = b mod 128).
    { injection Hsh as <-. rewrite land_127, U64_val. apply N.mod_small.
      pose proof (N.mod_lt b 128 ltac:(discriminate)). lia. }
    subst sh. rewrite N.lor_0_l in Hv. inversion Hx as [? Hb|b' l' x' Hb Hl]; subst.
    - rewrite more_flag in Hv by lia. replace (128 <=? x) with false in Hv by (symmetry; apply N.leb_gt; lia).
      injection Hv as <-. rewrite N.mod_mod by discriminate. reflexivity.
    - rewrite more_flag in Hv by lia. replace (128 <=? 128 + b') with true in Hv by (symmetry; apply N.leb_le; lia).
      cbn [bind add8] in Hv. change (add8 m 0 7) with (@Ok N 7) in Hv. cbn [bind] in Hv.
      eapply read_size_loop_type in Hv; [|exact Hl|lia|].
      + rewrite Hv, N.mod_mod by discriminate. reflexivity.
      + cbn [length] in L. unfold nlen. lia. }
  unfold keep_bits. rewrite shiftr_div. change (N.shiftl 1 3 - 1) with (2 ^ 3 - 1). rewrite land_mask.
  change (2 ^ 3) with 8. change (2 ^ 4) with 16. rewrite U8_val.
  pose proof (N.mod_lt (v / 16) 8 ltac:(discriminate)). rewrite (N.mod_small _ 256) by lia.
  clear - E. lia.
Qed.

Lemma read_offset_inv : forall s m a v r, bytes_ok s -> read_offset_loop m (a mod U64) s = Ok (v, r) ->
  exists p b, s = p ++ b :: r /\ Forall (fun x => 128 <= x < 256) p /\ b < 128  /\
    v = (fold_left ofs_step p a * 128 + b) mod U64.
Proof.
  induction s as [|b s IH]; intros m a v r Hok H; cbn [read_offset_loop] in H; [discriminate|].
  inversion Hok as [|? ? Hb Hs]; subst. unfold byte_ok in Hb. rewrite shl64_7 in H. cbn [bind] in H.
  rewrite land_127, ofs_byte in H by (apply N.mod_lt; discriminate). rewrite more_flag in H by assumption.
  assert (M : forall x y, (x mod U64 * 128 + y) mod U64 = (x * 128 + y) mod U64).
  { intros x y. rewrite U64_val. rewrite N.add_mod by discriminate. rewrite N.mul_mod_idemp_l by discriminate.
    rewrite <- N.add_mod by discriminate. reflexivity. }
  rewrite M in H. destruct (N.leb_spec 128 b) as [L|L].
  - apply bind_ok in H as (v' & Hv' & H).
    assert (E : v' = ofs_step a b mod U64).
    { unfold add64 in Hv'. unfold ofs_step. destruct (N.ltb_spec ((a * 128 + b mod 128) mod U64 + 1) U64) as [L'|L'].
      - injection Hv' as <-. rewrite <- (N.add_mod_idemp_l _ 1) by discriminate.
        symmetry. apply N.mod_small. assumption.
      - destruct m; [discriminate|]. injection Hv' as <-. apply N.add_mod_idemp_l. discriminate. }
    subst v'. apply IH in H as (p & b' & -> & Hp & Hb' & ->); [|assumption].
    exists (b :: p), b'. split; [reflexivity|]. split; [constructor; [lia|assumption]|]. split; [assumption|reflexivity].
  - injection H as <- <-. exists [], b. split; [reflexivity|]. split; [constructor|]. split; [assumption|].
    cbn [fold_left]. rewrite (N.mod_small b 128) by lia. reflexivity.
Qed.
Lemma read_offset_format_inv : forall m s v r, bytes_ok s -> read_offset_encoding m s = Ok (v, r) ->
  exists l n, s = l ++ r /\ ofs_format l n /\ v = n mod 2 ^ 64.
Proof.
  intros m s v r Hok H. unfold read_offset_encoding in H. change 0 with (0 mod U64) in H at 1.
  apply read_offset_inv in H as (p & b & -> & Hp & Hb & ->); [|assumption].
  exists (p ++ [b]), (ofs_value (p ++ [b])). split; [rewrite <- app_assoc; reflexivity|].
  split; [split; [exists p, b; auto|reflexivity]|]. rewrite ofs_value_snoc by assumption. reflexivity.
Qed.

(** ** Termination *)

Lemma bind_fuel : forall A B (r : res A) (k : A -> res B), bind r k = OutOfFuel ->
  r = OutOfFuel \/ exists a, r = Ok a /\ k a = OutOfFuel.
Proof. intros A B [a| | |] k H; cbn in H; try discriminate; eauto. Qed.
Lemma unwrap_fuel : forall A (r : res A), unwrap r = OutOfFuel -> r = OutOfFuel.
Proof. intros A [a| | |] H; cbn in H; congruence. Qed.
Lemma read_size_loop_fuel : forall s m v len, read_size_loop m v len s <> OutOfFuel.
Proof.
  induction s as [|b s IH]; intros m v len H; cbn [read_size_loop] in H; [discriminate|].
  apply bind_fuel in H as [H|(sh & _ & H)].
  - unfold shl64 in H. destruct (len <? 64); [discriminate|destruct m; discriminate].
  - destruct (negb _); [|discriminate]. apply bind_fuel in H as [H|(l' & _ & H)].
    + unfold add8 in H. destruct (_ <? _); [discriminate|destruct m; discriminate].
    + eapply IH. eassumption.
Qed.
Lemma read_offset_loop_fuel : forall s m v, read_offset_loop m v s <> OutOfFuel.
Proof.
  induction s as [|b s IH]; intros m v H; cbn [read_offset_loop] in H; [discriminate|].
  rewrite shl64_7 in H. cbn [bind] in H. destruct (negb _); [|discriminate].
  apply bind_fuel in H as [H|(l' & _ & H)]; [|eapply IH; eassumption].
  unfold add64 in H. destruct (_ <? _); [discriminate|destruct m; discriminate].
Qed.
Lemma read_type_fuel : forall m s, read_type_and_size m s <> OutOfFuel.
Proof.
  intros m s H. unfold read_type_and_size in H. apply bind_fuel in H as [H|([v r] & _ & H)]; [|discriminate].
  eapply read_size_loop_fuel; eassumption.
Qed.
Lemma number_type_fuel : forall n, number_type n <> OutOfFuel.
Proof. intros n. unfold number_type. destruct n as [|[[[?|?|]|[?|?|]|]|[[?|?|]|[?|?|]|]|]]; discriminate. Qed.
Lemma meta_new_fuel : forall t d, meta_new t d <> OutOfFuel.
Proof. intros t d. destruct t; cbn; discriminate. Qed.
Lemma unwrap_opt_fuel : forall A (o : option A), unwrap_opt o <> OutOfFuel.
Proof. intros A [a|]; discriminate. Qed.
Lemma read_bytes_fuel : forall n s, read_bytes n s <> OutOfFuel.
Proof. intros n s. unfold read_bytes. destruct (_ <=? _)%nat; discriminate. Qed.

Lemma file_at_end : forall file off, nlen file <= off -> file_at file off = [].
Proof. intros file off H. unfold file_at. apply skipn_all2. unfold nlen in H. lia. Qed.
Lemma file_at_ok : forall file off, bytes_ok file -> bytes_ok (file_at file off).
Proof.
  intros file off H. unfold file_at. rewrite <- (firstn_skipn (N.to_nat off) file) in H.
  apply Forall_app in H. apply H.
Qed.

Lemma next_object_terminates : forall m c st file, bytes_ok file -> (forall s, st s <> OutOfFuel) ->
  forall fuel off k, (N.to_nat off < fuel)%nat ->
  next_object m c st fuel file off k = OutOfFuel -> exists o, self_ref file o.
Proof.
  intros m c st file Hok Hst. induction fuel as [|f IH]; intros off k Hf H; [lia|].
  cbn [next_object] in H. apply bind_fuel in H as [H|([[t n] r] & Ht & H)].
  { apply unwrap_fuel in H. exfalso. eapply read_type_fuel; eassumption. }
  assert (Ht' : read_type_and_size m (file_at file off) = Ok (t, n, r)).
  { destruct (read_type_and_size _ _); cbn in Ht; congruence. }
  cbv zeta in H. destruct ((1 <=? t) && (t <=? 4)).
  { apply bind_fuel in H as [H|([d u] & _ & H)]; [exfalso; eapply unwrap_opt_fuel; eassumption|].
    destruct (negb _); [discriminate|]. apply bind_fuel in H as [H|(ty & _ & H)]; [exfalso; eapply number_type_fuel; eassumption|].
    apply bind_fuel in H as [H|(o & _ & H)]; [exfalso; eapply meta_new_fuel; eassumption|discriminate]. }
  destruct (N.eqb_spec t 6) as [->|_].
  { apply bind_fuel in H as [H|([d r2] & Hd & H)].
    { apply unwrap_fuel in H. exfalso. eapply read_offset_loop_fuel; eassumption. }
    assert (Hd' : read_offset_encoding m r = Ok (d, r2)).
    { destruct (read_offset_encoding _ _); cbn in Hd; congruence. }
    destruct (N.ltb_spec off d) as [L|L]; [discriminate|].
    apply bind_fuel in H as [H|([base k1] & _ & H)].
    - destruct (offset_object k (off - d)); [discriminate|].
      apply bind_fuel in H as [H|([[o p] k'] & _ & H)]; [|discriminate].
      destruct (N.eq_dec d 0) as [->|Hd0].
      + exists off. pose proof (read_type_inv _ _ _ _ _ (file_at_ok _ off Hok) Ht') as (b & hdr & x & E & Hx & Hb).
        assert (Hr : bytes_ok r).
        { pose proof (file_at_ok _ off Hok) as X. rewrite E in X. apply Forall_app in X. apply X. }
        apply read_offset_format_inv in Hd' as (l & dd & -> & Hl & Hm); [|assumption].
        exists b, hdr, x, l, dd, r2. split; [exact E|]. split; [assumption|].
        split; [destruct Hb as [Hb|Hb]; [left; congruence|right; assumption]|]. split; [assumption|congruence].
      + eapply IH; [|eassumption]. lia.
    - apply bind_fuel in H as [H|([dl u] & _ & H)]; [exfalso; eapply unwrap_opt_fuel; eassumption|].
      apply bind_fuel in H as [H|(o & _ & H)]; [exfalso; eapply apply_delta_fuel; eassumption|discriminate]. }
  destruct (t =? 7).
  { apply bind_fuel in H as [H|([h r2] & Hd & H)].
    { apply unwrap_fuel in H. exfalso. eapply read_bytes_fuel; eassumption. }
    apply bind_fuel in H as [H|(base & _ & H)].
    { destruct (hash_object k h); [discriminate|]. apply unwrap_fuel in H. exfalso. eapply Hst; eassumption. }
    apply bind_fuel in H as [H|([dl u] & _ & H)]; [exfalso; eapply unwrap_opt_fuel; eassumption|].
    apply bind_fuel in H as [H|(o & _ & H)]; [exfalso; eapply apply_delta_fuel; eassumption|discriminate]. }
  apply bind_fuel in H as [H|(ty & _ & H)]; [exfalso; eapply number_type_fuel; eassumption|discriminate].
Qed.

(** Past the end of the file there is no entry to recurse into. *)
Lemma next_object_end : forall m c st f file off k, nlen file <= off ->
  next_object m c st (S f) file off k = Panic.
Proof. intros. cbn [next_object]. rewrite file_at_end by assumption. reflexivity. Qed.

Lemma decode_loop_terminates : forall m c st file fuel, bytes_ok file -> (forall s, st s <> OutOfFuel) ->
  (length file < fuel)%nat -> forall n pos k,
  decode_loop m c st fuel file n pos k = OutOfFuel -> exists o, self_ref file o.
Proof.
  intros m c st file fuel Hok Hst Hf. induction n as [|n IH]; intros pos k H; [discriminate|].
  cbn [decode_loop] in H. apply bind_fuel in H as [H|([[o p] k'] & _ & H)].
  - destruct (N.lt_ge_cases pos (nlen file)) as [L|L].
    + eapply next_object_terminates; [| | |eassumption]; try assumption. unfold nlen in L. lia.
    + destruct fuel as [|f]; [lia|]. rewrite next_object_end in H by assumption. discriminate.
  - destruct (2 ^ 32 <=? pos); [discriminate|]. eapply IH. eassumption.
Qed.
Lemma check_header_fuel : forall file, check_header file <> OutOfFuel.
Proof.
  assert (R : forall s, unwrap (read_u32 s) <> OutOfFuel).
  { intros s H. apply unwrap_fuel in H. unfold read_u32 in H. apply bind_fuel in H as [H|([b r] & _ & H)];
      [eapply read_bytes_fuel; eassumption|discriminate]. }
  intros file H. unfold check_header in H. apply bind_fuel in H as [H|([mg s1] & _ & H)].
  { apply unwrap_fuel in H. eapply read_bytes_fuel; eassumption. }
  destruct (negb _); [discriminate|]. apply bind_fuel in H as [H|([v s2] & _ & H)]; [eapply R; eassumption|].
  destruct (negb _); [discriminate|]. eapply R; eassumption.
Qed.
Lemma decode_terminates : forall m c st file fuel, bytes_ok file -> (forall s, st s <> OutOfFuel) ->
  (length file < fuel)%nat -> decode m c st fuel file = OutOfFuel -> exists o, self_ref file o.
Proof.
  intros m c st file fuel Hok Hst Hf H. unfold decode in H.
  apply bind_fuel in H as [H|([n rest] & _ & H)]; [exfalso; eapply check_header_fuel; eassumption|].
  apply bind_fuel in H as [H|([pos k] & _ & H)]; [eapply decode_loop_terminates; eassumption|].
  apply bind_fuel in H as [H|([id r] & _ & H)]; [apply unwrap_fuel in H; exfalso; eapply read_bytes_fuel; eassumption|].
  apply bind_fuel in H as [H|(sg & _ & H)]; [|discriminate].
  unfold hash_from_row in H. destruct (_ =? _)%nat; discriminate.
Qed.

(** A visited entry with distance zero diverges. *)
Lemma self_ref_diverges : forall m c st file off hdr size ofs rest k, header 6 hdr size ->
  file_at file off = hdr ++ ofs ++ rest -> ofs_format ofs 0 -> offset_object k off = None ->
  forall fuel, next_object m c st fuel file off k = OutOfFuel.
Proof.
  intros m c st file off hdr size ofs rest k (H1 & H2 & H3) E Ho Hk. induction fuel as [|f IH]; [reflexivity|].
  cbn [next_object]. rewrite E, (read_entry_hdr m 6 hdr size (ofs ++ rest)) by (assumption || reflexivity).
  cbn [unwrap bind]. change ((1 <=? 6) && (6 <=? 4)) with false. cbn iota. change (6 =? 6) with true. cbn iota.
  rewrite (read_offset_format m ofs 0 rest Ho) by reflexivity. cbn [unwrap bind].
  replace (off <? 0) with false by (symmetry; apply N.ltb_ge; lia). rewrite N.sub_0_r, Hk, IH. reflexivity.
Qed.

(** ** Content addressing *)

Lemma addressed_empty : addressed cache_empty.
Proof. repeat split; intros; discriminate. Qed.

Lemma addressed_update : forall k o h off, addressed k -> obj_id o h ->
  addressed (cache_update k (as_meta o h) off).
Proof.
  intros k o h off (A & B & C & D) Ho. unfold cache_update, addressed, hash_object in *. cbn [as_meta m_id by_hash by_offset offset_hash].
  split; [|split; [|split]].
  - intros h' m. destruct (bytes_dec h' h) as [->|Hn].
    + rewrite bt_get_insert_same. intros [= <-]. exists o. auto.
    + rewrite bt_get_insert_other by assumption. apply A.
  - intros off' h'. destruct (N.eq_dec off' off) as [->|Hn].
    + rewrite nm_get_insert_same. intros [= <-]. rewrite bt_get_insert_same. eauto.
    + rewrite nm_get_insert_other by assumption. intros H.
      destruct (bytes_dec h' h) as [->|Hh]; [rewrite bt_get_insert_same; eauto|].
      rewrite bt_get_insert_other by assumption. eapply B. eassumption.
  - intros h' off'. destruct (bytes_dec h' h) as [->|Hh]; [rewrite bt_get_insert_same; rewrite bt_get_insert_same; eauto|].
    rewrite !bt_get_insert_other by assumption. apply C.
  - intros h' m. destruct (bytes_dec h' h) as [->|Hh]; [rewrite !bt_get_insert_same; eauto|].
    rewrite !bt_get_insert_other by assumption. apply D.
Qed.

Lemma meta_new_as : forall t (d : bytes) o, meta_new t d = Ok o -> exists h, obj_id (t, d) h /\ o = as_meta (t, d) h.
Proof.
  intros t d o H. pose proof (meta_new_ok _ _ _ H) as (B & _). destruct (meta_new_obj t d B) as (h & Hh & E).
  exists h. split; [assumption|]. congruence.
Qed.
Lemma apply_delta_as : forall m base delta o, apply_delta m base delta = Ok o ->
  exists x h, obj_id x h /\ o = as_meta x h.
Proof.
  intros m base delta o H. unfold apply_delta in H.
  repeat match type of H with
  | bind _ _ = _ => let a := fresh "a" in let E := fresh "E" in apply bind_ok in H as (a & E & H); try destruct a
  | (if ?x then _ else _) = _ => destruct x; try discriminate
  end;
  try (apply meta_new_as in H as (h & Hh & ->); eexists; exists h; split; [exact Hh|reflexivity]).
Qed.

Lemma read_size_loop_len : forall s m v len n r, read_size_loop m v len s = Ok (n, r) -> nlen r < nlen s.
Proof.
  induction s as [|b s IH]; intros m v len n r H; cbn [read_size_loop] in H; [discriminate|].
  rewrite nlen_cons. apply bind_ok in H as (sh & _ & H). destruct (negb _).
  - apply bind_ok in H as (l' & _ & H). apply IH in H. lia.
  - injection H as _ <-. lia.
Qed.
Lemma read_offset_loop_len : forall s m v n r, read_offset_loop m v s = Ok (n, r) -> nlen r < nlen s.
Proof.
  induction s as [|b s IH]; intros m v n r H; cbn [read_offset_loop] in H; [discriminate|].
  rewrite nlen_cons. apply bind_ok in H as (sh & _ & H). destruct (negb _).
  - apply bind_ok in H as (l' & _ & H). apply IH in H. lia.
  - injection H as _ <-. lia.
Qed.
Lemma read_bytes_len : forall n s b r, read_bytes n s = Ok (b, r) -> nlen r <= nlen s.
Proof.
  intros n s b r H. unfold read_bytes in H. destruct (_ <=? _)%nat; [|discriminate]. injection H as _ <-.
  unfold nlen. rewrite skipn_length. lia.
Qed.
Lemma unwrap_ok : forall A (r : res A) a, unwrap r = Ok a -> r = Ok a.
Proof. intros A [x| | |] a H; cbn in H; congruence. Qed.
Lemma read_type_len : forall m s t n r, read_type_and_size m s = Ok (t, n, r) -> nlen r < nlen s.
Proof.
  intros m s t n r H. unfold read_type_and_size in H. apply bind_ok in H as ([v r'] & Hv & H).
  injection H as _ _ <-. eapply read_size_loop_len; eassumption.
Qed.

(** What one step guarantees, whatever the input. *)
Definition grows (off : N) (k k' : cache) : Prop :=
  forall x h, nm_get x (offset_hash k') = Some h -> x <= off \/ nm_get x (offset_hash k) = Some h.
Lemma grows_update : forall off k k1 o, grows off k k1 -> grows off k (cache_update k1 o off).
Proof.
  intros off k k1 o H x h. unfold cache_update. cbn [offset_hash]. destruct (N.eq_dec x off) as [->|Hn]; [left; lia|].
  rewrite nm_get_insert_other by assumption. apply H.
Qed.
Lemma grows_refl : forall off k, grows off k k.
Proof. intros off k x h H. right. assumption. Qed.

Lemma addressed_same : forall k k', by_hash k' = by_hash k -> by_offset k' = by_offset k -> offset_hash k' = offset_hash k ->
  addressed k -> addressed k'.
Proof. intros k k' E1 E2 E3. unfold addressed, hash_object. rewrite E1, E2, E3. exact (fun H => H). Qed.

Lemma next_object_any : forall m c st file fuel off k o p k', addressed k ->
  next_object m c st fuel file off k = Ok (o, p, k') ->
  addressed k' /\ off < p /\ grows off k k' /\ exists x h, obj_id x h /\ o = as_meta x h /\
    offset_object k' off = Some o.
Proof.
  intros m c st file. induction fuel as [|f IH]; intros off k o p k' Hk H; [discriminate|].
  assert (U : forall k1 x h, offset_object (cache_update k1 (as_meta x h) off) off = Some (as_meta x h)).
  { intros k1 x h. unfold offset_object, cache_update. cbn [offset_hash as_meta m_id by_hash].
    rewrite nm_get_insert_same, bt_get_insert_same. reflexivity. }
  cbn [next_object] in H. apply bind_ok in H as ([[t n] r] & Ht & H). apply unwrap_ok, read_type_len in Ht.
  cbv zeta in H. destruct ((1 <=? t) && (t <=? 4)).
  { apply bind_ok in H as ([d u] & _ & H). destruct (negb _); [discriminate|].
    apply bind_ok in H as (ty & _ & H). apply bind_ok in H as (ob & Ho & H).
    apply meta_new_as in Ho as (h & Hh & ->). injection H as <- <- <-.
    split; [apply addressed_update; [apply (addressed_same k); auto|assumption]|].
    split; [lia|]. split; [apply grows_update; exact (grows_refl off k)|]. eexists. eexists. split; [exact Hh|]. split; [reflexivity|apply U]. }
  destruct (t =? 6).
  { apply bind_ok in H as ([d r2] & Hd & H). apply unwrap_ok in Hd. apply read_offset_loop_len in Hd.
    destruct (off <? d); [discriminate|]. apply bind_ok in H as ([base k1] & Hb & H).
    apply bind_ok in H as ([dl u] & _ & H). apply bind_ok in H as (ob & Ho & H).
    apply apply_delta_as in Ho as (x & h & Hh & ->). injection H as <- <- <-.
    assert (K1 : addressed k1 /\ grows off k k1).
    { destruct (offset_object k (off - d)); [injection Hb as _ <-; split; [assumption|apply grows_refl]|].
      apply bind_ok in Hb as ([[o' p'] k2] & Hn & Hb). injection Hb as _ <-.
      apply IH in Hn as (A & _ & G & _); [|assumption]. split; [assumption|].
      intros y hy Hy. apply G in Hy as [L|Hy]; [left; lia|right; assumption]. }
    destruct K1 as [K1 G]. split; [apply addressed_update; [apply (addressed_same k1); auto|assumption]|].
    split; [lia|]. split; [apply grows_update; exact G|]. eexists. eexists. split; [exact Hh|]. split; [reflexivity|apply U]. }
  destruct (t =? 7).
  { apply bind_ok in H as ([hh r2] & Hd & H). apply unwrap_ok, read_bytes_len in Hd.
    apply bind_ok in H as (base & _ & H). apply bind_ok in H as ([dl u] & _ & H).
    apply bind_ok in H as (ob & Ho & H). apply apply_delta_as in Ho as (x & h & Hh & ->). injection H as <- <- <-.
    split; [apply addressed_update; assumption|]. split; [lia|].
    split; [apply grows_update, grows_refl|]. eexists. eexists. split; [exact Hh|]. split; [reflexivity|apply U]. }
  apply bind_ok in H as (ty & _ & H). discriminate.
Qed.

(** All recorded offsets lie before the position. *)
Definition below (pos : N) (k : cache) : Prop := forall x h, nm_get x (offset_hash k) = Some h -> x < pos.
Lemma decode_loop_any : forall m c st file fuel n pos k p k', addressed k ->
  decode_loop m c st fuel file n pos k = Ok (p, k') -> addressed k' /\ (below pos k -> below p k').
Proof.
  induction n as [|n IH]; intros pos k p k' Hk H; cbn [decode_loop] in H; [injection H as <- <-; auto|].
  apply bind_ok in H as ([[o q] k1] & Hn & H). destruct (2 ^ 32 <=? pos); [discriminate|].
  apply next_object_any in Hn as (A & L & G & _); [|assumption]. apply IH in H as (B & C); [|assumption].
  split; [assumption|]. intros Hb. apply C. intros x h Hx. apply G in Hx as [Hx|Hx]; [lia|]. apply Hb in Hx. lia.
Qed.
Lemma decode_addressed : forall m c st fuel file p, decode m c st fuel file = Ok p -> addressed (p_cache p).
Proof.
  intros m c st fuel file p H. unfold decode in H. apply bind_ok in H as ([n rest] & _ & H).
  apply bind_ok in H as ([pos k] & Hl & H). apply bind_ok in H as ([id r] & _ & H). apply bind_ok in H as (sg & _ & H).
  injection H as <-. cbn. eapply decode_loop_any in Hl; [apply Hl|apply addressed_empty].
Qed.

(** ** A well-formed prefix followed by something else *)

Lemma decode_loop_app : forall m c st fuel file a b pos k,
  decode_loop m c st fuel file (a + b) pos k =
  let? (p, k') := decode_loop m c st fuel file a pos k in decode_loop m c st fuel file b p k'.
Proof.
  induction a as [|a IH]; intros b pos k; [reflexivity|]. cbn [Nat.add decode_loop].
  destruct (next_object _ _ _ _ _ _ _) as [[[o p] k']| | |]; try reflexivity. cbn [bind].
  destruct (2 ^ 32 <=? pos); [reflexivity|]. apply IH.
Qed.

Lemma decode_prefix : forall m c st fuel n b objs rest, pack_body c st n b objs -> nlen objs < n ->
  no_collision (map snd objs) -> (forall off o, In (off, o) objs -> off < 2 ^ 32) ->
  exists k, inv k objs (map snd objs) /\ offset_object k (nlen b) = None /\
    decode m c st (S fuel) (b ++ rest) =
    let? (p, k') := decode_loop m c st (S fuel) (b ++ rest) (N.to_nat n - length objs) (nlen b) k in
    let? (id, _) := unwrap (read_bytes 20 (file_at (b ++ rest) p)) in
    let? sig := hash_from_row id in Ok (mkPack n sig k').
Proof.
  intros m c st fuel n b objs rest H Hn Hc Hoff.
  destruct (decode_loop_body m c st n b objs fuel [] cache_empty H) with (rest := rest) as (k & E & Hi);
    try assumption; [|left; reflexivity|].
  { intros h x. split; [discriminate|]. intros (o & [] & _). }
  exists k. split; [exact Hi|].
  assert (X : below (nlen b) k).
  { apply (decode_loop_any _ _ _ _ _ _ _ _ _ _ addressed_empty) in E. apply E. intros x h X. discriminate. }
  split.
  { unfold offset_object. destruct (nm_get (nlen b) (offset_hash k)) eqn:F; [|reflexivity]. apply X in F. lia. }
  pose proof (body_header _ _ _ _ _ H) as (Hn32 & x & Eb).
  unfold decode.
  assert (Ec : check_header (b ++ rest) = Ok (n, x ++ rest)).
  { rewrite Eb, <- !app_assoc. apply check_header_ok. assumption. }
  assert (Ep : nlen (b ++ rest) - nlen (x ++ rest) = 12).
  { rewrite Eb, <- !app_assoc. apply header_pos. }
  rewrite Ec. cbn [bind]. rewrite Ep.
  replace (N.to_nat n) with (length objs + (N.to_nat n - length objs))%nat at 1 by (unfold nlen in Hn; lia).
  rewrite decode_loop_app, E. reflexivity.
Qed.

(** The first entry after the prefix decides when it fails. *)
Lemma decode_prefix_fail : forall m c st fuel n b objs rest, pack_body c st n b objs -> nlen objs < n ->
  no_collision (map snd objs) -> (forall off o, In (off, o) objs -> off < 2 ^ 32) ->
  exists k, inv k objs (map snd objs) /\ offset_object k (nlen b) = None /\
    (next_object m c st (S fuel) (b ++ rest) (nlen b) k = Panic -> decode m c st (S fuel) (b ++ rest) = Panic) /\
    (next_object m c st (S fuel) (b ++ rest) (nlen b) k = OutOfFuel -> decode m c st (S fuel) (b ++ rest) = OutOfFuel).
Proof.
  intros m c st fuel n b objs rest H Hn Hc Hoff.
  destruct (decode_prefix m c st fuel n b objs rest H Hn Hc Hoff) as (k & Hi & Hk & E).
  exists k. split; [exact Hi|]. split; [exact Hk|]. rewrite E.
  destruct (N.to_nat n - length objs)%nat as [|d] eqn:D; [unfold nlen in Hn; lia|]. cbn [decode_loop].
  split; intros ->; reflexivity.
Qed.

(** ** Undefined entry types *)

Lemma bad_type_panics : forall m c st file off hdr size t rest k fuel, t = 0 \/ t = 5 -> header t hdr size ->
  file_at file off = hdr ++ rest -> next_object m c st (S fuel) file off k = Panic.
Proof.
  intros m c st file off hdr size t rest k fuel Ht (H1 & H2 & H3) E. cbn [next_object].
  rewrite E, (read_entry_hdr m t hdr size rest) by (assumption || (destruct Ht; subst; reflexivity)).
  cbn [unwrap bind]. destruct Ht as [->| ->]; reflexivity.
Qed.

(** C139: what the decoder of packs accepts. Whatever the bytes, a pack that is decoded
    without an error is read as its bytes say: entries one after the other, as many as
    the header announces, each whole or a delta against what another place of the file or
    the storage says. Properties of the format that the decoder does not insist on. *)

From Coq Require Import Lia ZArith.
From Verif Require Import Base BaseLemmas Digest ModelUtils ModelObject ModelDelta ModelPack
  SpecFormat SpecObject SpecDelta SpecPack ProofUtils ProofObject ProofDelta ProofPack ProofPackAny StoredZlib.
Open Scope N_scope.

(** ** Specification *)

(** The header [hdr] gives the type [t] and the size [size], which is kept modulo 2^61. Of
    headers of more than ten bytes, whose numbers do not fit 64 bits, nothing is said; a
    build with overflow checks accepts none. *)
Definition hdr_says (m : build) (hdr : bytes) (t size : N) : Prop :=
  (exists x, leb128 hdr x) /\
  ((length hdr <= 10)%nat -> exists n, entry_hdr t hdr n /\ size = n mod 2 ^ 61) /\
  (m = Debug -> (length hdr <= 10)%nat).
(** The delta [delta] leads from [base] to [out]; of its two lengths the same holds. *)
Definition leads (m : build) (base delta out : bytes) : Prop :=
  exists l1 n1 l2 n2 ops, delta = l1 ++ l2 ++ ops /\ leb128 l1 n1 /\ leb128 l2 n2 /\
    ((length l1 <= 10)%nat -> n1 mod 2 ^ 64 = nlen base) /\ ((length l2 <= 10)%nat -> n2 mod 2 ^ 64 = nlen out) /\
    (m = Debug -> (length l1 <= 10)%nat /\ (length l2 <= 10)%nat) /\ instrs base ops out.

(** At [off] the file has an entry that stands for the object, and the next one may begin at
    the third place. Nothing is asked of the places that deltas point to but that they
    can be read in the same way. *)
Inductive reads_at (m : build) (c : codec) (st : storage) (file : bytes) : N -> object -> N -> Prop :=
| r_whole : forall a t n hdr s (data : bytes) used, file = a ++ hdr ++ s -> hdr_says m hdr n (nlen data) -> pack_code t n ->
    inflate c s = Some (data, used) ->
    reads_at m c st file (nlen a) (t, data) (nlen a + nlen hdr + N.of_nat used)
| r_ofs : forall a hdr size ofs d s delta used t base data next, file = a ++ hdr ++ ofs ++ s -> hdr_says m hdr 6 size ->
    ofs_format ofs d -> d mod 2 ^ 64 <= nlen a -> inflate c s = Some (delta, used) ->
    reads_at m c st file (nlen a - d mod 2 ^ 64) (t, base) next -> leads m base delta data ->
    reads_at m c st file (nlen a) (t, data) (nlen a + nlen hdr + nlen ofs + N.of_nat used)
| r_ref : forall a hdr size h s delta used t base data off next, file = a ++ hdr ++ h ++ s -> hdr_says m hdr 7 size ->
    length h = 20%nat -> inflate c s = Some (delta, used) ->
    reads_at m c st file off (t, base) next -> obj_id (t, base) h -> leads m base delta data ->
    reads_at m c st file (nlen a) (t, data) (nlen a + nlen hdr + 20 + N.of_nat used)
| r_ext : forall a hdr size h s delta used x b data, file = a ++ hdr ++ h ++ s -> hdr_says m hdr 7 size ->
    length h = 20%nat -> inflate c s = Some (delta, used) ->
    id_text x h -> map lower x = x -> st x = Ok b -> leads m (m_data b) delta data ->
    reads_at m c st file (nlen a) (m_t b, data) (nlen a + nlen hdr + 20 + N.of_nat used).
(** Entries one after the other. *)
Inductive in_a_row (m : build) (c : codec) (st : storage) (file : bytes) : N -> list (N * object) -> N -> Prop :=
| row_nil : forall p, in_a_row m c st file p [] p
| row_cons : forall p o q l e, reads_at m c st file p o q -> in_a_row m c st file q l e -> in_a_row m c st file p ((p, o) :: l) e.

(** Two different objects of the file have the same id. *)
Definition clash (m : build) (c : codec) (st : storage) (file : bytes) : Prop :=
  exists p1 o1 q1 p2 o2 q2 h, reads_at m c st file p1 o1 q1 /\ reads_at m c st file p2 o2 q2 /\
    obj_id o1 h /\ obj_id o2 h /\ o1 <> o2.
(** Decompressing bytes gives bytes; the storage gives objects that know their length. *)
Definition to_bytes (c : codec) : Prop := forall s d k, bytes_ok s -> inflate c s = Some (d, k) -> bytes_ok d.
Definition sized (st : storage) : Prop := forall s b, st s = Ok b -> m_size b = nlen (m_data b).

(** ** One entry *)

Lemma says_read : forall m s t size r, bytes_ok s -> read_type_and_size m s = Ok (t, size, r) ->
  exists hdr, s = hdr ++ r /\ hdr_says m hdr t size.
Proof.
  intros m s t size r Hok H. unfold read_type_and_size in H. apply bind_ok in H as ([v r'] & Hv & H).
  injection H as Ht Hs <-. apply read_size_inv in Hv as (hdr & x & -> & Hx & Hn & Hd); [|assumption].
  exists hdr. split; [reflexivity|]. split; [eauto|]. split; [|exact Hd].
  intros L. specialize (Hn L). unfold keep_bits in Ht, Hs. rewrite shiftr_div in Ht. rewrite !shiftr_div, !shiftl_mul in Hs.
  change (N.shiftl 1 3 - 1) with (2 ^ 3 - 1) in Ht. change (1 * 2 ^ 4 - 1) with (2 ^ 4 - 1) in Hs.
  rewrite land_mask in Ht, Hs.
  change (2 ^ 3) with 8 in Ht. change (2 ^ 4) with 16 in Ht. rewrite U8_val in Ht.
  assert (Hv : v < U64) by (rewrite Hn, U64_val; apply N.mod_lt; discriminate).
  assert (Hs' : size = v mod 16 + v / 128 * 16).
  { rewrite <- Hs. rewrite (N.mod_small (_ * _)).
    - rewrite lor_add_low by (apply N.mod_lt; discriminate). reflexivity.
    - change (2 ^ 4) with 16. change (2 ^ 7) with 128. rewrite U64_val in *. lia. }
  assert (Ht' : t = (v / 16) mod 8) by (rewrite <- Ht; apply N.mod_small; pose proof (N.mod_lt (v / 16) 8 ltac:(discriminate)); lia).
  clear Ht Hs. change (2 ^ 64) with 18446744073709551616 in Hn. change (2 ^ 61) with 2305843009213693952.
  inversion Hx as [b Hb|b l n Hb Hl]; subst hdr x.
  - exists (b mod 16). rewrite N.mod_small in Hn by lia. subst v. split.
    + replace b with (t * 16 + b mod 16) at 1 by lia. constructor. lia.
    + rewrite N.mod_small by lia. lia.
  - exists (b mod 16 + 16 * n). split.
    + replace (128 + b) with (128 + t * 16 + b mod 16) by lia. constructor; [lia|assumption].
    + lia.
Qed.
Lemma leads_apply : forall m b delta o, bytes_ok delta -> m_size b = nlen (m_data b) -> apply_delta m b delta = Ok o ->
  exists out h, leads m (m_data b) delta out /\ obj_id (m_t b, out) h /\ o = as_meta (m_t b, out) h.
Proof.
  intros m b delta o Hok Hs H. apply apply_delta_sound in H as (l1 & n1 & l2 & n2 & ops & out & E & H1 & H2 & A & B & D & Hi & _ & Ho);
    [|assumption].
  apply meta_new_as in Ho as (h & Hh & ->). exists out, h. split; [|auto].
  exists l1, n1, l2, n2, ops. rewrite <- Hs. auto 10.
Qed.
Lemma file_split : forall file off hdr s, file_at file off = hdr ++ s -> hdr <> [] ->
  exists a, nlen a = off /\ file = a ++ hdr ++ s.
Proof.
  intros file off hdr s H Hn. exists (firstn (N.to_nat off) file). unfold file_at in H. split.
  - unfold nlen. rewrite firstn_length. destruct (Nat.le_gt_cases (length file) (N.to_nat off)) as [L|L]; [|lia].
    rewrite skipn_all2 in H by assumption. destruct hdr; [congruence|discriminate].
  - rewrite <- H. symmetry. apply firstn_skipn.
Qed.
Lemma id_text_of : forall h, bytes_ok h -> length h = 20%nat -> id_text (to_plain_str h) h /\ map lower (to_plain_str h) = to_plain_str h.
Proof.
  intros h Hok Hl. assert (T : id_text (to_plain_str h) h) by (apply to_plain_str_text; split; assumption).
  split; [exact T|]. symmetry. exact (hex_text_lower _ _ (proj2 T)).
Qed.
Lemma read_bytes_inv : forall n s b r, read_bytes n s = Ok (b, r) -> s = b ++ r /\ length b = n.
Proof.
  intros n s b r H. unfold read_bytes in H. destruct (Nat.leb_spec n (length s)); [|discriminate].
  injection H as <- <-. split; [symmetry; apply firstn_skipn|apply firstn_length_le; assumption].
Qed.
Lemma object_eq : forall a b : object, a = b \/ a <> b.
Proof.
  intros [t d] [t' d']. assert (E : {t = t'} + {t <> t'}) by decide equality.
  destruct E as [->|E]; [|right; congruence].
  destruct (list_eq_dec N.eq_dec d d') as [->|D]; [left; reflexivity|right; congruence].
Qed.
Lemma code_of : forall n t, (1 <=? n) && (n <=? 4) = true -> number_type n = Ok t -> pack_code t n.
Proof.
  intros n t Hn H. assert (K : n = 1 \/ n = 2 \/ n = 3 \/ n = 4) by lia.
  destruct K as [->|[->|[->| ->]]]; injection H as <-; constructor.
Qed.

Section Sound.
Context (m : build) (c : codec) (st : storage) (file : bytes) (Hfile : bytes_ok file) (Hc : to_bytes c) (Hst : sized st).

(** What is cached was read in the file. *)
Definition good (k : cache) : Prop :=
  (forall p h, nm_get p (offset_hash k) = Some h -> exists o q, reads_at m c st file p o q /\ obj_id o h) /\
  (forall h x, bt_get h (by_hash k) = Some x -> exists p o q, reads_at m c st file p o q /\ obj_id o h /\ x = as_meta o h).
(** Ids are never forgotten. *)
Definition wider (k k' : cache) : Prop := forall h, bt_get h (by_hash k) <> None -> bt_get h (by_hash k') <> None.

Lemma good_update : forall k off o h q, good k -> reads_at m c st file off o q -> obj_id o h ->
  good (cache_update k (as_meta o h) off).
Proof.
  intros k off o h q [G1 G2] R I. split.
  - intros p h' H. cbn [cache_update offset_hash as_meta m_id] in H. destruct (N.eq_dec p off) as [->|D].
    + rewrite nm_get_insert_same in H. injection H as <-. eauto.
    + rewrite nm_get_insert_other in H by assumption. eauto.
  - intros h' x H. cbn [cache_update by_hash as_meta m_id] in H. destruct (list_eq_dec N.eq_dec h' h) as [->|D].
    + rewrite bt_get_insert_same in H. injection H as <-. exists off, o, q. auto.
    + rewrite bt_get_insert_other in H by assumption. eauto.
Qed.
Lemma wider_update : forall k k1 o off, wider k k1 -> wider k (cache_update k1 o off).
Proof.
  intros k k1 o off W h H. cbn [cache_update by_hash]. destruct (list_eq_dec N.eq_dec h (m_id o)) as [->|D].
  - rewrite bt_get_insert_same. discriminate.
  - rewrite bt_get_insert_other by assumption. exact (W h H).
Qed.
Lemma good_offset : forall k p x, good k -> offset_object k p = Some x ->
  clash m c st file \/ exists o h q, reads_at m c st file p o q /\ obj_id o h /\ x = as_meta o h.
Proof.
  intros k p x [G1 G2] H. unfold offset_object in H. destruct (nm_get p (offset_hash k)) as [h|] eqn:E; [|discriminate].
  destruct (G1 _ _ E) as (o & q & R & I). destruct (G2 _ _ H) as (p2 & o2 & q2 & R2 & I2 & ->).
  destruct (object_eq o o2) as [<-|D].
  - right. exists o, h, q. auto.
  - left. exists p, o, q, p2, o2, q2, h. auto.
Qed.

Lemma next_sound : forall fuel off k o p k', good k -> next_object m c st fuel file off k = Ok (o, p, k') ->
  clash m c st file \/
  good k' /\ wider k k' /\ exists x h, reads_at m c st file off x p /\ obj_id x h /\ o = as_meta x h /\ bt_get h (by_hash k') = Some o.
Proof.
  induction fuel as [|f IH]; intros off k o p k' G H; [discriminate|]. cbn [next_object] in H.
  apply bind_ok in H as ([[tn size] r] & Ht & H). apply unwrap_ok in Ht.
  assert (Hs : bytes_ok (file_at file off)) by (apply file_at_ok; assumption).
  apply says_read in Ht as (hdr & Es & Sh); [|assumption].
  assert (Hn : hdr <> []) by (destruct Sh as ((x & L) & _); inversion L; discriminate).
  destruct (file_split _ _ _ _ Es Hn) as (a & <- & Ef).
  assert (Hr : bytes_ok r) by (rewrite Es in Hs; apply Forall_app in Hs; apply Hs).
  rewrite Es in H.
  destruct ((1 <=? tn) && (tn <=? 4)) eqn:C1.
  - apply bind_ok in H as ([d used] & Hi & H). destruct (inflate c r) as [[d' u']|] eqn:Ei; [|discriminate].
    injection Hi as -> ->. destruct (N.eqb_spec (nlen d) size) as [<-|]; [|discriminate]. cbn [negb] in H.
    apply bind_ok in H as (t & Hty & H). apply bind_ok in H as (x & Hm & H). injection H as <- <- <-.
    apply meta_new_as in Hm as (h & Hh & ->). apply code_of in Hty; [|assumption].
    assert (R : reads_at m c st file (nlen a) (t, d) (nlen a + (nlen (hdr ++ r) - nlen r) + N.of_nat used)).
    { rewrite nlen_nonneg_sub. econstructor; eassumption. }
    right. split; [|split].
    + apply (good_update (inc_base k) _ _ _ _ G R Hh).
    + apply wider_update. intros y Y. exact Y.
    + exists (t, d), h. split; [exact R|split; [exact Hh|split; [reflexivity|apply bt_get_insert_same]]].
  - destruct (N.eqb_spec tn 6) as [->|N6].
    + apply bind_ok in H as ([dof r2] & Hd & H). apply unwrap_ok in Hd.
      apply read_offset_format_inv in Hd as (ofs & n & Er & Hof & ->); [|assumption]. subst r.
      assert (Hr2 : bytes_ok r2) by (apply Forall_app in Hr; apply Hr).
      destruct (N.ltb_spec (nlen a) (n mod 2 ^ 64)) as [|Le]; [discriminate|].
      apply bind_ok in H as ([b k1] & Hb & H).
      assert (B : clash m c st file \/ good k1 /\ wider k k1 /\ exists y h q, reads_at m c st file (nlen a - n mod 2 ^ 64) y q /\ obj_id y h /\ b = as_meta y h).
      { destruct (offset_object k (nlen a - n mod 2 ^ 64)) as [ob|] eqn:Eo.
        - injection Hb as <- <-. destruct (good_offset _ _ _ G Eo) as [X|X]; [left; exact X|right].
          split; [exact G|split; [intros y Y; exact Y|exact X]].
        - apply bind_ok in Hb as ([[ob q] k2] & Hb & E). injection E as <- <-.
          destruct (IH _ _ _ _ _ G Hb) as [X|(G1 & W1 & y & h & R & I & E & _)]; [left; exact X|right].
          split; [exact G1|split; [exact W1|]]. exists y, h, q. auto. }
      destruct B as [B|(G1 & W1 & [t base] & hb & q & R1 & I1 & ->)]; [left; exact B|].
      apply bind_ok in H as ([dl used] & Hi & H). destruct (inflate c r2) as [[d' u']|] eqn:Ei; [|discriminate].
      injection Hi as -> ->. apply bind_ok in H as (x & Hx & H). injection H as <- <- <-.
      apply leads_apply in Hx as (out & h & L & Hh & ->); [|eapply Hc; eassumption|reflexivity].
      cbn [as_meta m_t m_data fst snd] in L, Hh |- *.
      assert (R : reads_at m c st file (nlen a) (t, out) (nlen a + (nlen (hdr ++ ofs ++ r2) - nlen r2) + N.of_nat used)).
      { replace (nlen a + (nlen (hdr ++ ofs ++ r2) - nlen r2)) with (nlen a + nlen hdr + nlen ofs) by (rewrite !nlen_app; lia).
        eapply r_ofs; eassumption. }
      right. split; [|split].
      * apply (good_update (inc_delta k1) _ _ _ _ G1 R Hh).
      * apply wider_update. exact W1.
      * exists (t, out), h. split; [exact R|split; [exact Hh|split; [reflexivity|apply bt_get_insert_same]]].
    + destruct (N.eqb_spec tn 7) as [->|N7].
      2:{ apply bind_ok in H as (? & _ & H). discriminate. }
      apply bind_ok in H as ([h0 r2] & Hd & H). apply unwrap_ok in Hd. unfold read_hash in Hd.
      apply read_bytes_inv in Hd as [Er Hl]. subst r. apply Forall_app in Hr as [Hh0 Hr2].
      apply bind_ok in H as (b & Hb & H).
      apply bind_ok in H as ([dl used] & Hi & H). destruct (inflate c r2) as [[d' u']|] eqn:Ei; [|discriminate].
      injection Hi as -> ->. apply bind_ok in H as (x & Hx & H). injection H as <- <- <-.
      assert (Hsz : m_size b = nlen (m_data b)).
      { destruct (hash_object k h0) as [ob|] eqn:Eo.
        - injection Hb as <-. destruct (proj2 G _ _ Eo) as (? & ? & ? & _ & _ & ->). reflexivity.
        - apply unwrap_ok in Hb. eapply Hst. exact Hb. }
      apply leads_apply in Hx as (out & h & L & Hh & ->); [|eapply Hc; eassumption|exact Hsz].
      assert (R : reads_at m c st file (nlen a) (m_t b, out) (nlen a + (nlen (hdr ++ h0 ++ r2) - nlen r2) + N.of_nat used)).
      { replace (nlen a + (nlen (hdr ++ h0 ++ r2) - nlen r2)) with (nlen a + nlen hdr + 20)
          by (rewrite !nlen_app; replace (nlen h0) with 20 by (unfold nlen; rewrite Hl; reflexivity); lia).
        destruct (hash_object k h0) as [ob|] eqn:Eo.
        - injection Hb as <-. destruct (proj2 G _ _ Eo) as (p1 & [t base] & q1 & R1 & I1 & ->).
          cbn [as_meta m_t m_data fst snd] in *. eapply r_ref; eassumption.
        - apply unwrap_ok in Hb. destruct (id_text_of h0 Hh0 Hl) as [T1 T2]. eapply r_ext; eassumption. }
      right. split; [|split].
      * apply (good_update k _ _ _ _ G R Hh).
      * apply wider_update. intros y Y. exact Y.
      * exists (m_t b, out), h. split; [exact R|split; [exact Hh|split; [reflexivity|apply bt_get_insert_same]]].
Qed.

Lemma loop_sound : forall n fuel pos k p k', good k -> decode_loop m c st fuel file n pos k = Ok (p, k') ->
  clash m c st file \/
  good k' /\ wider k k' /\ exists objs, length objs = n /\ in_a_row m c st file pos objs p /\
    forall q o, In (q, o) objs -> q < 2 ^ 32 /\ exists h, obj_id o h /\ bt_get h (by_hash k') <> None.
Proof.
  induction n as [|n IH]; intros fuel pos k p k' G H; cbn [decode_loop] in H.
  - injection H as <- <-. right. split; [exact G|split; [intros y Y; exact Y|]]. exists []. split; [reflexivity|split; [constructor|intros ? ? []]].
  - apply bind_ok in H as ([[o1 p1] k1] & H1 & H). destruct (N.leb_spec (2 ^ 32) pos) as [|Lt]; [discriminate|].
    destruct (next_sound _ _ _ _ _ _ G H1) as [X|(G1 & W1 & x & h & R & I & -> & B)]; [left; exact X|].
    destruct (IH _ _ _ _ _ G1 H) as [X|(G2 & W2 & objs & Hl & Row & A)]; [left; exact X|right].
    split; [exact G2|split; [intros y Y; apply W2, W1, Y|]]. exists ((pos, x) :: objs).
    split; [cbn; congruence|split; [econstructor; eassumption|]].
    intros q o [E|Hi]; [|exact (A _ _ Hi)]. injection E as <- <-. split; [exact Lt|]. exists h. split; [exact I|].
    apply W2. rewrite B. discriminate.
Qed.
End Sound.

Lemma be4 : forall b, bytes_ok b -> length b = 4%nat -> be32_value b (from_be b).
Proof.
  intros b H L. do 4 (destruct b as [|? b]; [discriminate|]). destruct b; [|discriminate].
  unfold be32_value, from_be. cbn [fold_left]. do 4 eexists. split; [reflexivity|]. split; [exact H|].
  change (2 ^ 24) with 16777216. change (2 ^ 16) with 65536. change (2 ^ 8) with 256. lia.
Qed.
Lemma header_inv : forall file n rest, bytes_ok file -> check_header file = Ok (n, rest) ->
  exists v w, be32_value v 2 /\ be32_value w n /\ file = bs "PACK" ++ v ++ w ++ rest /\ nlen file - nlen rest = 12.
Proof.
  intros file n rest Hok H. unfold check_header in H.
  apply bind_ok in H as ([magic s1] & H1 & H). apply unwrap_ok, read_bytes_inv in H1 as [-> L1].
  apply Forall_app in Hok as [_ Hok].
  destruct (beq magic (bs "PACK")) eqn:E; [|discriminate]. apply beq_eq in E. subst magic. cbn [negb] in H.
  apply bind_ok in H as ([ver s2] & H2 & H). apply unwrap_ok in H2. unfold read_u32 in H2.
  apply bind_ok in H2 as ([b2 r2] & H2 & E). apply read_bytes_inv in H2 as [-> L2]. injection E as <- <-.
  destruct (N.eqb_spec (from_be b2) 2) as [V|]; [|discriminate]. cbn [negb] in H.
  apply unwrap_ok in H. unfold read_u32 in H. apply bind_ok in H as ([b3 r3] & H3 & E).
  apply read_bytes_inv in H3 as [-> L3]. injection E as <- <-.
  apply Forall_app in Hok as [Hb2 Hok]. apply Forall_app in Hok as [Hb3 _].
  exists b2, b3. split; [rewrite <- V; apply be4; assumption|]. split; [apply be4; assumption|]. split; [reflexivity|].
  rewrite !nlen_app. change (nlen (bs "PACK")) with 4. unfold nlen. rewrite L2, L3. lia.
Qed.

(** C139: whatever the bytes, the build, the decompressor and the storage: a pack that is
    decoded is one that the bytes describe. It has the header of a version-2 pack, its
    number of objects is that of the header, the entries follow one another from byte 12
    on, the signature is what comes after them, every entry's object is in the cache
    under its id, and the cache holds nothing that the file does not say. *)
Theorem C139_sound : forall m c st fuel file p, bytes_ok file -> to_bytes c -> sized st ->
  decode m c st fuel file = Ok p ->
  clash m c st file \/
  exists v w rest objs e, be32_value v 2 /\ be32_value w (p_number p) /\ file = bs "PACK" ++ v ++ w ++ rest /\
    nlen objs = p_number p /\ in_a_row m c st file 12 objs e /\
    (exists a junk, file = a ++ p_signature p ++ junk /\ nlen a = e /\ length (p_signature p) = 20%nat) /\
    (forall q o, In (q, o) objs -> q < 2 ^ 32 /\ exists h, obj_id o h /\ hash_object (p_cache p) h = Some (as_meta o h)) /\
    (forall h x, hash_object (p_cache p) h = Some x ->
       exists q o next, reads_at m c st file q o next /\ obj_id o h /\ x = as_meta o h).
Proof.
  intros m c st fuel file p Hok Hc Hst H. unfold decode in H.
  apply bind_ok in H as ([n rest] & Hh & H). apply header_inv in Hh as (v & w & Hv & Hw & Ef & E12); [|assumption].
  apply bind_ok in H as ([pos k] & Hl & H). rewrite E12 in Hl.
  apply bind_ok in H as ([id junk] & Hi & H). apply unwrap_ok, read_bytes_inv in Hi as [Ei Li].
  apply bind_ok in H as (sig & Hs & H). unfold hash_from_row in Hs. rewrite Li in Hs. cbn [Nat.eqb] in Hs. injection Hs as <-. injection H as <-.
  cbn [p_number p_signature p_cache].
  assert (G0 : good m c st file cache_empty) by (split; intros ? ? X; discriminate X).
  destruct (loop_sound m c st file Hok Hc Hst _ _ _ _ _ _ G0 Hl) as [X|(G & _ & objs & Lo & Row & A)]; [left; exact X|].
  assert (D : clash m c st file \/ forall q o, In (q, o) objs -> q < 2 ^ 32 /\ exists h, obj_id o h /\ hash_object k h = Some (as_meta o h)).
  { clear Lo. revert Row A. generalize 12. induction objs as [|[q o] objs IH]; intros pp Row A.
    - right. intros ? ? [].
    - inversion Row; subst. match goal with X : in_a_row _ _ _ _ _ objs _ |- _ => destruct (IH _ X) as [Y|Y] end;
        [intros q' o' Hi'; apply A; right; exact Hi'|left; exact Y|].
      destruct (A q o (or_introl eq_refl)) as (Lt & h & I & B). destruct (bt_get h (by_hash k)) as [x|] eqn:Eb; [|congruence].
      destruct (proj2 G _ _ Eb) as (p2 & o2 & q2 & R2 & I2 & ->).
      destruct (object_eq o o2) as [<-|Dn].
      + right. intros q' o' [E|Hi']; [|exact (Y _ _ Hi')]. injection E as <- <-. split; [exact Lt|]. exists h. split; [exact I|exact Eb].
      + left. match goal with X : reads_at _ _ _ _ ?a o ?b |- _ => exists a, o, b, p2, o2, q2, h; auto end. }
  destruct D as [D|D]; [left; exact D|right]. exists v, w, rest, objs, pos.
  split; [exact Hv|split; [exact Hw|split; [exact Ef|split; [unfold nlen; rewrite Lo; apply N2Nat.id|split; [exact Row|split; [|split]]]]]].
  - destruct (file_split _ _ _ _ Ei) as (a & Ea & Efa); [destruct id; [discriminate Li|discriminate]|].
    exists a, junk. auto.
  - exact D.
  - intros h x Hx. exact (proj2 G _ _ Hx).
Qed.

Lemma stored_to_bytes : to_bytes stored.
Proof.
  assert (F : forall n (l : bytes), bytes_ok l -> bytes_ok (firstn n l) /\ bytes_ok (skipn n l)).
  { intros n l H. rewrite <- (firstn_skipn n l) in H. apply Forall_app in H. exact H. }
  assert (U : forall f s d r, bytes_ok s -> unstore f s = Some (d, r) -> bytes_ok d).
  { induction f as [|f IH]; intros s d r H E; [discriminate|]. cbn [unstore] in E.
    destruct s as [|x0 [|x1 [|x2 [|x3 [|x4 s]]]]]; try discriminate E.
    assert (Hs : bytes_ok s) by (do 5 (apply Forall_inv_tail in H); exact H).
    destruct (negb _); [discriminate|]. destruct (_ <? _)%nat; [discriminate|]. destruct (x0 =? 1).
    - injection E as <- _. apply F. exact Hs.
    - destruct (x0 =? 0); [|discriminate]. destruct (unstore f _) as [[d' r']|] eqn:Eu; [|discriminate].
      injection E as <- _. apply Forall_app. split; [apply F; exact Hs|]. eapply IH; [|exact Eu]. apply F. exact Hs. }
  intros s d k H E. cbn [inflate stored] in E. unfold stored_inflate in E.
  destruct s as [|x0 [|x1 s]]; try discriminate E.
  - repeat match type of E with context [match ?z with _ => _ end] => is_var z; destruct z; try discriminate E end.
  - assert (Hs : bytes_ok s) by (do 2 (apply Forall_inv_tail in H); exact H).
    assert (X : match unstore (length s) s with
      | Some (d, rest) => if beq (firstn 4 rest) (adler32 d) && (4 <=? length rest)%nat then Some (d, (length (x0 :: x1 :: s) - (length rest - 4))%nat) else None
      | None => None end = Some (d, k)).
    { repeat match type of E with context [match ?z with _ => _ end] => is_var z; destruct z; try discriminate E end. exact E. }
    clear E. destruct (unstore (length s) s) as [[d' r]|] eqn:Eu; [|discriminate]. destruct (_ && _); [|discriminate].
    injection X as <- _. eapply U; eassumption.
Qed.

(** ** Sizes *)

(** The size that a whole entry declares is compared with what is decompressed: after any
    well-formed beginning of a pack an entry that declares another size is refused. *)
Theorem C139_wrong_size : forall m c st fuel n b objs t code hdr size s data used, pack_body c st n b objs -> nlen objs < n ->
  no_collision (map snd objs) -> (forall off o, In (off, o) objs -> off < 2 ^ 32) ->
  pack_code t code -> header code hdr size -> inflate c s = Some (data, used) -> nlen data <> size ->
  decode m c st (S fuel) (b ++ hdr ++ s) = Err EInvalidObjectInfo.
Proof.
  intros m c st fuel n b objs t code hdr size s data used Hb Hn Hc Ho Ht Hh Hi Hs.
  destruct (decode_prefix m c st fuel n b objs (hdr ++ s) Hb Hn Hc Ho) as (k & _ & _ & ->).
  destruct (N.to_nat n - length objs)%nat as [|d] eqn:D; [unfold nlen in Hn; lia|]. cbn [decode_loop next_object].
  destruct Hh as (H1 & H2 & H3). destruct (pack_code_number _ _ Ht) as (Hc' & _).
  rewrite file_at_app, (read_entry_hdr m code hdr size s) by (try assumption; lia). cbn [unwrap bind].
  replace ((1 <=? code) && (code <=? 4)) with true by lia. rewrite Hi. cbn [unwrap_opt bind].
  replace (nlen data =? size) with false by (symmetry; apply N.eqb_neq; assumption). reflexivity.
Qed.

(** ** What is not insisted on *)

(** A pack of two entries. The first is a blob whose content looks like an entry: the one
    for "abc". The second is a delta whose base lies inside the first, and which
    declares the size [size]. *)
Definition inner : bytes := 51 :: stored_deflate (bs "abc").
Definition odd_pack (size : N) : bytes :=
  bs "PACK" ++ [0; 0; 0; 2] ++ [0; 0; 0; 2] ++ (63 :: stored_deflate inner) ++
  (96 + size :: 19 :: stored_deflate [3; 2; 144; 2]) ++ repeat 7 20.
Definition no_store : storage := fun _ => Err EIo.
Definition objects_of (r : res pack) : option (N * list object) :=
  match r with Ok p => Some (p_number p, map (fun x => obj_of (snd x)) (by_hash (p_cache p))) | _ => None end.

Lemma odd_runs : forall m size, (size =? 4) || (size =? 9) = true ->
  bytes_ok (odd_pack size) /\ exists p, decode m stored no_store 5 (odd_pack size) = Ok p /\ p_number p = 2 /\ length (by_hash (p_cache p)) = 3%nat /\
    map (fun x => obj_of (snd x)) (by_hash (p_cache p)) = [(Blob, bs "ab"); (Blob, inner); (Blob, bs "abc")] /\
    forallb (fun x => match hash_object (p_cache p) (fst x) with Some y => beq (m_data y) (m_data (snd x)) | None => false end) (by_hash (p_cache p)) = true.
Proof.
  intros m size H. assert (K : size = 4 \/ size = 9) by lia.
  destruct K as [->| ->]; destruct m; (split; [apply Forall_forall; intros x Hx; apply N.ltb_lt;
    revert x Hx; apply forallb_forall; vm_compute; reflexivity|]);
  (eexists; split; [vm_compute; reflexivity|]); vm_compute; repeat split.
Qed.
Lemma small_hdr : forall m t s, s < 16 -> t < 8 -> hdr_says m [t * 16 + s] t s.
Proof.
  intros m t s Hs Ht. split; [|split].
  - exists (t * 16 + s). constructor. lia.
  - intros _. exists s. split; [constructor; exact Hs|]. rewrite N.mod_small; [reflexivity|].
    change (2 ^ 61) with 2305843009213693952. lia.
  - intros _. cbn. lia.
Qed.
Lemma abc_leads : forall m, leads m (bs "abc") [3; 2; 144; 2] (bs "ab").
Proof.
  intros m. exists [3], 3, [2], 2, [144; 2]. split; [reflexivity|].
  split; [constructor; lia|]. split; [constructor; lia|]. split; [reflexivity|]. split; [reflexivity|].
  split; [intros _; cbn; lia|].
  change [144; 2] with ([144; 2] ++ []). change (bs "ab") with (bs "ab" ++ []) at 1.
  constructor; [|constructor]. apply in_copy with (off := 0) (size := 2) (p := []) (q := bs "c"); try reflexivity.
  exists [None; None; None; None], [Some 2; None; None]. repeat (split; [reflexivity|]). split; [|repeat split].
  repeat constructor. 
Qed.
Lemma odd_inner : forall m size, reads_at m stored no_store (odd_pack size) 20 (Blob, bs "abc") 35.
Proof.
  intros m size.
  apply (r_whole m stored no_store (odd_pack size) (firstn 20 (odd_pack size)) Blob 3 [51] (skipn 21 (odd_pack size)) (bs "abc") 14).
  - reflexivity.
  - apply (small_hdr m 3 3); lia.
  - constructor.
  - vm_compute. reflexivity.
Qed.
Lemma odd_row : forall m size, size < 16 ->
  in_a_row m stored no_store (odd_pack size) 12 [(12, (Blob, inner)); (39, (Blob, bs "ab"))] 56.
Proof.
  intros m size Hs. apply row_cons with (q := 39); [|apply row_cons with (q := 56); [|constructor]].
  - apply (r_whole m stored no_store (odd_pack size) (firstn 12 (odd_pack size)) Blob 3 [63] (skipn 13 (odd_pack size)) inner 26).
    + reflexivity.
    + apply (small_hdr m 3 15); lia.
    + constructor.
    + vm_compute. reflexivity.
  - apply (r_ofs m stored no_store (odd_pack size) (firstn 39 (odd_pack size)) [96 + size] size [19] 19 (skipn 41 (odd_pack size)) [3; 2; 144; 2] 15 Blob (bs "abc") (bs "ab") 35).
    + reflexivity.
    + apply (small_hdr m 6 size); lia.
    + split; [exists [], 19; repeat split; constructor|reflexivity].
    + vm_compute. discriminate.
    + vm_compute. reflexivity.
    + apply odd_inner.
    + apply abc_leads.
Qed.

(** Beside C139_sound: a pack that is decoded. *)
Example C139_ex : forall m, bytes_ok (odd_pack 4) /\ to_bytes stored /\ sized no_store /\
  exists p, decode m stored no_store 5 (odd_pack 4) = Ok p /\ p_number p = 2 /\
  in_a_row m stored no_store (odd_pack 4) 12 [(12, (Blob, inner)); (39, (Blob, bs "ab"))] 56.
Proof.
  intros m. destruct (odd_runs m 4 eq_refl) as (B & p & E & Hn & _).
  split; [exact B|]. split; [exact stored_to_bytes|]. split; [intros s b X; discriminate X|]. exists p.
  split; [exact E|]. split; [exact Hn|]. apply odd_row. lia.
Qed.

(** The size that a delta entry declares is not compared with anything: an entry that
    announces nine bytes where the delta has four is accepted. *)
Theorem C139_delta_size_refuted : forall m, exists c st fuel file p objs e a hdr size ofs d s delta used,
  bytes_ok file /\ to_bytes c /\ sized st /\ decode m c st fuel file = Ok p /\
  in_a_row m c st file 12 objs e /\ In (nlen a) (map fst objs) /\ nlen objs = p_number p /\
  file = a ++ hdr ++ ofs ++ s /\ header 6 hdr size /\ ofs_format ofs d /\ inflate c s = Some (delta, used) /\
  nlen delta <> size.
Proof.
  intros m. destruct (odd_runs m 9 eq_refl) as (B & p & E & Hn & _).
  exists stored, no_store, 5%nat, (odd_pack 9), p, [(12, (Blob, inner)); (39, (Blob, bs "ab"))], 56.
  exists (firstn 39 (odd_pack 9)), [105], 9, [19], 19, (skipn 41 (odd_pack 9)), [3; 2; 144; 2], 15%nat.
  split; [exact B|]. split; [exact stored_to_bytes|]. split; [intros s b X; discriminate X|]. split; [exact E|].
  split; [apply odd_row; lia|]. split; [right; left; reflexivity|]. split; [rewrite Hn; reflexivity|].
  split; [reflexivity|]. split.
  { split; [change [105] with [6 * 16 + 9]; constructor; lia|]. split; [cbn; lia|reflexivity]. }
  split; [split; [exists [], 19; repeat split; constructor|reflexivity]|]. split; [vm_compute; reflexivity|].
  discriminate.
Qed.
(** The base of an offset delta need not be an entry: a place inside another entry will do,
    and the object found there is filed among the objects of the pack, of which there are
    then more than the header announces. *)
Theorem C139_inside_refuted : forall m, exists c st fuel file p objs e x next,
  bytes_ok file /\ to_bytes c /\ sized st /\ decode m c st fuel file = Ok p /\
  in_a_row m c st file 12 objs e /\ nlen objs = p_number p /\ p_number p = 2 /\
  (exists q, reads_at m c st file q x next /\ ~ In q (map fst objs)) /\ ~ In x (map snd objs) /\
  nlen (by_hash (p_cache p)) = 3 /\ In x (map (fun y => obj_of (snd y)) (by_hash (p_cache p))).
Proof.
  intros m. destruct (odd_runs m 4 eq_refl) as (B & p & E & Hn & Hl & Hm & _).
  exists stored, no_store, 5%nat, (odd_pack 4), p, [(12, (Blob, inner)); (39, (Blob, bs "ab"))], 56, (Blob, bs "abc"), 35.
  split; [exact B|]. split; [exact stored_to_bytes|]. split; [intros s b X; discriminate X|]. split; [exact E|].
  split; [apply odd_row; lia|]. split; [rewrite Hn; reflexivity|]. split; [exact Hn|].
  split; [exists 20; split; [apply odd_inner|intros [X|[X|[]]]; discriminate X]|].
  split; [intros [X|[X|[]]]; discriminate X|]. split; [unfold nlen; rewrite Hl; reflexivity|].
  rewrite Hm. right. right. left. reflexivity.
Qed.

(** Beside C139_wrong_size: the first entry of a pack of one object says it has four bytes. *)
Example C139_wrong_size_ex : pack_body stored no_store 1 (bs "PACK" ++ [0; 0; 0; 2] ++ [0; 0; 0; 1]) [] /\
  header 3 [52] 4 /\ inflate stored (stored_deflate (bs "abc")) = Some (bs "abc", 14%nat) /\
  decode Release stored no_store 1 ((bs "PACK" ++ [0; 0; 0; 2] ++ [0; 0; 0; 1]) ++ [52] ++ stored_deflate (bs "abc")) = Err EInvalidObjectInfo.
Proof.
  assert (P : pack_body stored no_store 1 (bs "PACK" ++ [0; 0; 0; 2] ++ [0; 0; 0; 1]) []).
  { constructor; (do 4 eexists; split; [reflexivity|split; [repeat constructor|reflexivity]]). }
  assert (Hh : header 3 [52] 4).
  { split; [change [52] with [3 * 16 + 4]; constructor; lia|]. split; [cbn; lia|reflexivity]. }
  assert (Z : inflate stored (stored_deflate (bs "abc")) = Some (bs "abc", 14%nat)) by (vm_compute; reflexivity).
  split; [exact P|]. split; [exact Hh|]. split; [exact Z|].
  apply (C139_wrong_size Release stored no_store 0 1 _ [] Blob 3 [52] 4 (stored_deflate (bs "abc")) (bs "abc") 14 P); try assumption.
  - reflexivity.
  - intros x y h [].
  - intros x y [].
  - constructor.
  - discriminate.
Qed.

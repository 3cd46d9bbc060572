(** C01-C05: the integer encodings of src/git/utils.rs. Formats: SpecFormat. *)

From Verif Require Import Base BaseLemmas ModelUtils ModelObject SpecFormat ProofUtils.
Open Scope N_scope.

(** C01. *)
Theorem C01_size_roundtrip : forall m n rest, n < 2 ^ 64 ->
  read_size_encoding m (write_size_encoding n ++ rest) = Ok (n, rest).
Proof. exact size_roundtrip. Qed.

(** The bytes written are git's size encoding of n, in at most ten bytes, and any
    encoding of that format and length is read back, not only the library's own. *)
Theorem C01_size_format : forall n, n < 2 ^ 64 ->
  leb128 (write_size_encoding n) n /\ (length (write_size_encoding n) <= 10)%nat.
Proof. intros n H. split; [apply write_size_leb|exact (write_size_len10 n H)]. Qed.
Theorem C01_size_decoding : forall m l n rest,
  leb128 l n -> (length l <= 10)%nat -> n < 2 ^ 64 ->
  read_size_encoding m (l ++ rest) = Ok (n, rest).
Proof. exact read_size_leb. Qed.

Example C01_ex : read_size_encoding Debug (write_size_encoding 18446744073709551615 ++ [1; 2])
                 = Ok (18446744073709551615, [1; 2])
  /\ leb128 [255; 129; 0] 255 /\ read_size_encoding Debug [255; 129; 0; 9] = Ok (255, [9]).
Proof.
  repeat split. change 255 with (127 + 128 * (1 + 128 * 0)).
  change (127 + 128 * (1 + 128 * 0)) with (128 + 127) at 1.
  apply leb_more; [reflexivity|]. change 129 with (128 + 1). apply leb_more; [reflexivity|].
  apply leb_last. reflexivity.
Qed.

(** C02. *)
Theorem C02_header_roundtrip : forall m t s rest, s < 2 ^ 61 ->
  read_type_and_size m (entry_header t s ++ rest) = Ok (type2_number t, s, rest).
Proof. exact header_roundtrip. Qed.
Theorem C02_header_format : forall t s, entry_hdr (type2_number t) (entry_header t s) s.
Proof. exact entry_header_format. Qed.
Theorem C02_header_decoding : forall m t l s rest,
  t < 8 -> entry_hdr t l s -> (length l <= 10)%nat -> s < 2 ^ 61 ->
  read_type_and_size m (l ++ rest) = Ok (t, s, rest).
Proof. exact read_entry_hdr. Qed.
(** The type numbers are those of git's format. *)
Theorem C02_type_numbers :
  type2_number Commit = 1 /\ type2_number Tree = 2 /\ type2_number Blob = 3 /\ type2_number Tag = 4 /\
  type2_number OffsetDelta = 6 /\ type2_number HashDelta = 7 /\
  forall n t, number_type n = Ok t <-> type2_number t = n.
Proof.
  repeat split.
  - intros H. destruct n as [|[[[|[]|]|[|[]|]|]|[[|[]|]|[|[]|]|]|]]; simpl in H; try discriminate;
      injection H as <-; reflexivity.
  - intros <-. destruct t; reflexivity.
Qed.
(** From 2^61 on no input at all is read as that size. *)
Theorem C02_large_sizes : forall m t s rest t' s' rest', 2 ^ 61 <= s ->
  read_type_and_size m (entry_header t s ++ rest) = Ok (t', s', rest') -> s' <> s.
Proof.
  intros m t s rest t' s' rest' Hs H ->. apply read_type_and_size_bound in H. lia.
Qed.
Example C02_ex : read_type_and_size Debug (entry_header OffsetDelta 2305843009213693951 ++ [7])
                 = Ok (6, 2305843009213693951, [7])
  /\ read_type_and_size Release (entry_header Blob (2 ^ 61) ++ [7]) = Ok (3, 0, [7]).
Proof. split; vm_compute; reflexivity. Qed.

(** C03: exactly which distances survive. *)
Theorem C03_offset_roundtrip_iff : forall m n rest, n < 2 ^ 64 ->
  ((exists l, write_offset_encoding m n = Ok l /\ read_offset_encoding m (l ++ rest) = Ok (n, rest))
   <-> ~ zero_digit n).
Proof.
  intros m n rest Hn. split.
  - intros (l & Hw & Hr) Hz. destruct m.
    + apply write_offset_debug_panic in Hz. congruence.
    + destruct (write_offset_bad_release n rest Hz Hn) as (l' & n' & Hw' & Hr' & Hne).
      rewrite Hw in Hw'. injection Hw' as <-. rewrite Hr in Hr'. injection Hr' as <-. congruence.
  - intros Hz. destruct (write_offset_good m n Hz) as (l & Hw & Hf).
    exists l. split; [assumption|]. apply read_offset_format; assumption.
Qed.
(** What the encoder writes for those distances is git's encoding. *)
Theorem C03_offset_format : forall m n, ~ zero_digit n ->
  exists l, write_offset_encoding m n = Ok l /\ ofs_format l n.
Proof. exact write_offset_good. Qed.
Theorem C03_offset_small : forall n, n < 16384 -> ~ zero_digit n.
Proof. exact zero_digit_small. Qed.
Theorem C03_offset_debug_panics : forall n, write_offset_encoding Debug n = Panic <-> zero_digit n.
Proof. exact write_offset_debug_panic. Qed.
Theorem C03_offset_release_wrong : forall n rest, zero_digit n -> n < 2 ^ 64 ->
  exists l n', write_offset_encoding Release n = Ok l /\
    read_offset_encoding Release (l ++ rest) = Ok (n', rest) /\ n' <> n.
Proof. exact write_offset_bad_release. Qed.
Theorem C03_offset_roundtrip_refuted : forall m, exists n, n < 2 ^ 64 /\
  ~ exists l, write_offset_encoding m n = Ok l /\ read_offset_encoding m l = Ok (n, []).
Proof.
  intros m. exists 16384. split; [reflexivity|]. intros (l & Hw & Hr). destruct m.
  - vm_compute in Hw. discriminate.
  - vm_compute in Hw. injection Hw as <-. vm_compute in Hr. discriminate.
Qed.
Example C03_ex : zero_digit 16384 /\ ~ zero_digit 16383 /\ ~ zero_digit 16512 /\
  write_offset_encoding Release 16384 = Ok [128; 255; 0] /\
  read_offset_encoding Release [128; 255; 0] = Ok (32768, []) /\
  write_offset_encoding Debug 16512 = Ok [128; 128; 0].
Proof.
  split; [exists 1; vm_compute; repeat split; discriminate|].
  split; [apply zero_digit_small; reflexivity|].
  split; [|vm_compute; auto].
  intros H. apply write_offset_debug_panic in H. vm_compute in H. discriminate.
Qed.

(** C04. *)
Theorem C04_offset_decoding : forall m l n rest, ofs_format l n -> n < 2 ^ 64 ->
  read_offset_encoding m (l ++ rest) = Ok (n, rest).
Proof. exact read_offset_format. Qed.
(** Every distance has an encoding in that format. *)
Theorem C04_offset_total : forall n, exists l, ofs_format l n.
Proof. exact ofs_format_total. Qed.
Example C04_ex : ofs_format [128; 254; 0] 32640 /\ ofs_format [255; 0] 16384.
Proof.
  split; split; [exists [128; 254], 0|reflexivity|exists [255], 0|reflexivity];
    repeat split; repeat constructor; lia.
Qed.

(** C05. *)
Theorem C05_u32_roundtrip : forall v rest, v < 2 ^ 32 -> read_u32 (u32_vec v ++ rest) = Ok (v, rest).
Proof. exact u32_roundtrip. Qed.
Theorem C05_u32_format : forall v, v < 2 ^ 32 -> be32_value (u32_vec v) v.
Proof. exact u32_vec_value. Qed.
Theorem C05_u32_decoding : forall l v rest, be32_value l v -> read_u32 (l ++ rest) = Ok (v, rest).
Proof. exact read_u32_value. Qed.
Theorem C05_u32_short : forall s, (length s < 4)%nat -> read_u32 s = Err EIo.
Proof. exact read_u32_short. Qed.
Example C05_ex : u32_vec 4294967295 = [255; 255; 255; 255] /\
  read_u32 [1; 2; 3; 4; 5] = Ok (16909060, [5]) /\ read_u32 [1; 2; 3] = Err EIo.
Proof. repeat split. Qed.

(** Independent specification of the integer formats of git pack files, taken
    from git's documentation (Documentation/gitformat-pack.txt), not from the
    code under study. *)

From Verif Require Import Base.
Open Scope N_scope.

(** "Size encoding": from each byte the seven least significant bits form the
    number, least significant part first; as long as the top bit is 1 the next
    byte is to be included. Redundant trailing zero groups are allowed. *)
Inductive leb128 : bytes -> N -> Prop :=
| leb_last : forall b, b < 128 -> leb128 [b] b
| leb_more : forall b l n, b < 128 -> leb128 l n -> leb128 ((128 + b) :: l) (b + 128 * n).

(** Pack entry header: type in bits 4-6 of the first byte, the low four bits of
    the size in bits 0-3, the rest of the size as a size encoding. *)
Inductive entry_hdr (t : N) : bytes -> N -> Prop :=
| hdr_short : forall s, s < 16 -> entry_hdr t [t * 16 + s] s
| hdr_long : forall s l n, s < 16 -> leb128 l n ->
    entry_hdr t ((128 + t * 16 + s) :: l) (s + 16 * n).

(** "Offset encoding": n bytes with the top bit set in all but the last one. The
    offset is the number constructed by concatenating the lower 7 bits of each
    byte, and for n >= 2 adding 2^7 + 2^14 + ... + 2^(7*(n-1)) to the result. *)
Definition ofs_shape (l : bytes) : Prop :=
  exists p b, l = p ++ [b] /\ Forall (fun x => 128 <= x < 256) p /\ b < 128.
Definition ofs_concat (l : bytes) : N := fold_left (fun a x => a * 128 + x mod 128) l 0.
Fixpoint ofs_bias (k : nat) : N :=
  match k with
  | O => 0
  | S j => 2 ^ (7 * N.of_nat (S j)) + ofs_bias j
  end.
Definition ofs_value (l : bytes) : N := ofs_concat l + ofs_bias (length l - 1).
Definition ofs_format (l : bytes) (n : N) : Prop := ofs_shape l /\ ofs_value l = n.

(** [n] has a zero base-128 digit strictly between its lowest and its highest
    digit (or in the second place): some digit number i >= 1 below the leading
    one is zero. *)
Definition zero_digit (n : N) : Prop :=
  exists i, 1 <= i /\ 0 < n / 128 ^ i /\ (n / 128 ^ i) mod 128 = 0.

(** Big-endian 32-bit integers. *)
Definition be32_value (l : bytes) (v : N) : Prop :=
  exists a b c d, l = [a; b; c; d] /\ bytes_ok l /\
    v = a * 2 ^ 24 + b * 2 ^ 16 + c * 2 ^ 8 + d.

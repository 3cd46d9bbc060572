(** Independent specification vocabulary for object ids, object framing and
    compression. *)

From Verif Require Import Base Digest ModelObject.
Open Scope N_scope.

(** Hexadecimal text, either case. *)
Inductive hex_digit_of : N -> N -> Prop :=
| hd_dec : forall v, v < 10 -> hex_digit_of (48 + v) v
| hd_low : forall v, 10 <= v < 16 -> hex_digit_of (87 + v) v
| hd_up : forall v, 10 <= v < 16 -> hex_digit_of (55 + v) v.
Inductive hex_text : bytes -> bytes -> Prop :=
| ht_nil : hex_text [] []
| ht_cons : forall a b x y s h, hex_digit_of a x -> hex_digit_of b y -> hex_text s h ->
    hex_text (a :: b :: s) (16 * x + y :: h).

(** [s] is a textual form of the 20-byte id [h]. *)
Definition id_text (s h : bytes) : Prop := length h = 20%nat /\ hex_text s h.
Definition id_ok (h : bytes) : Prop := length h = 20%nat /\ bytes_ok h.

Definition lower (c : N) : N := if (65 <=? c) && (c <=? 90) then c + 32 else c.

(** Decimal numerals without leading zeros. *)
Definition decimal (l : bytes) (n : N) : Prop :=
  Forall (fun c => 48 <= c <= 57) l /\
  fold_left (fun a c => a * 10 + (c - 48)) l 0 = n /\
  (l = [48] \/ exists c r, l = c :: r /\ c <> 48).

(** The four kinds of whole objects and their git names. *)
Inductive base_name : otype -> bytes -> Prop :=
| bn_commit : base_name Commit (bs "commit")
| bn_tree : base_name Tree (bs "tree")
| bn_blob : base_name Blob (bs "blob")
| bn_tag : base_name Tag (bs "tag").
Definition is_base (t : otype) : Prop := exists n, base_name t n.

(** [content] is the git object framing of ([t], [data]) with declared length [n]. *)
Definition framed (t : otype) (n : N) (data content : bytes) : Prop :=
  exists name dec, base_name t name /\ decimal dec n /\
    content = name ++ [32] ++ dec ++ [0] ++ data.

(** A well-formed object in memory. *)
Definition wf_object (m : meta) : Prop :=
  is_base (m_t m) /\ m_size m = nlen (m_data m) /\ m_delta_header m = [] /\ bytes_ok (m_data m) /\
  nlen (m_data m) < U64 /\
  exists content, framed (m_t m) (nlen (m_data m)) (m_data m) content /\ m_id m = sha1 content.

(** Assumption on zlib: inflating a deflated byte string followed by anything
    returns the string and consumes exactly the deflated bytes. *)
Definition codec_ok (c : codec) : Prop :=
  forall d rest, bytes_ok d -> inflate c (deflate c d ++ rest) = Some (d, length (deflate c d)).

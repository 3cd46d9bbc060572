(** Independent specification of version-2 pack index files
    (Documentation/gitformat-pack.txt), for packs below 4 GiB. *)

From Verif Require Import Base Digest ModelObject ModelPack ModelIdx SpecFormat SpecObject SpecPack.
Open Scope N_scope.

(** One line of the index: id, CRC-32 of the entry, offset in the pack. *)
Record line : Type := mkLine { l_id : hash; l_crc : N; l_off : N }.

Definition before (a b : line) : Prop := bcmp (l_id a) (l_id b) = Lt.
(** Ids in strictly ascending order. *)
Inductive ascending : list line -> Prop :=
| asc_nil : ascending []
| asc_cons : forall x l, Forall (before x) l -> ascending l -> ascending (x :: l).

(** Number of ids whose first byte is at most [b]; exactly [b]. *)
Definition first_byte (h : hash) (b : N) : Prop := exists t, h = b :: t.
Inductive counted (P : hash -> Prop) : list line -> N -> Prop :=
| ct_nil : counted P [] 0
| ct_yes : forall x l n, P (l_id x) -> counted P l n -> counted P (x :: l) (n + 1)
| ct_no : forall x l n, ~ P (l_id x) -> counted P l n -> counted P (x :: l) n.
Definition at_most (b : N) (h : hash) : Prop := exists b', first_byte h b' /\ b' <= b.

(** A table of big-endian 32-bit numbers. *)
Definition table (file : bytes) (vals : list N) : Prop :=
  exists ws, Forall2 be32_value ws vals /\ file = concat ws.

(** The index file of the lines [ls] for the pack with checksum [sig]. *)
Definition git_idx (file : bytes) (ls : list line) (sig : hash) : Prop :=
  exists version fan fan_vals ids crcs offs body,
    be32_value version 2 /\
    table fan fan_vals /\ length fan_vals = 256%nat /\
    (forall b v, nth_error fan_vals (N.to_nat b) = Some v -> counted (at_most b) ls v) /\
    ids = concat (map l_id ls) /\ table crcs (map l_crc ls) /\ table offs (map l_off ls) /\
    Forall (fun x => id_ok (l_id x)) ls /\ ascending ls /\ id_ok sig /\
    body = [255; 116; 79; 99] ++ version ++ fan ++ ids ++ crcs ++ offs ++ sig /\
    file = body ++ sha1 body.

(** The same file with another version number and other last 20 bytes. *)
Definition tampered_idx (file : bytes) (ls : list line) (sig : hash) (version : N) (trailer : bytes) : Prop :=
  exists w good v2 rest old, git_idx good ls sig /\ be32_value v2 2 /\ be32_value w version /\
    length old = 20%nat /\ length trailer = 20%nat /\
    good = [255; 116; 79; 99] ++ v2 ++ rest ++ old /\
    file = [255; 116; 79; 99] ++ w ++ rest ++ trailer.

(** Lower-case hexadecimal text of a byte string. *)
Definition lower_hex (s b : bytes) : Prop := hex_text s b /\ map lower s = s.

(** An index line as the parsed item: the CRC is kept as hexadecimal text. *)
Definition shows (it : idx_item) (x : line) : Prop :=
  i_id it = l_id x /\ i_offset it = l_off x /\
  exists w, be32_value w (l_crc x) /\ lower_hex (i_crc32 it) w.

(** Caches filled by [update] only. *)
Inductive filled : cache -> Prop :=
| f_empty : filled cache_empty
| f_update : forall k o off, filled k -> id_ok (m_id o) -> filled (cache_update k o off).

(** The lines describe the objects [objs] of a pack (given with their offsets): every
    line is the id and the offset of an object, and every object has a line, giving
    the offset of that object (one of them, if the pack repeats it). *)
Definition index_of (ls : list line) (objs : list (N * object)) : Prop :=
  (forall x, In x ls -> exists o, In (l_off x, o) objs /\ obj_id o (l_id x)) /\
  (forall off o h, In (off, o) objs -> obj_id o h -> exists x, In x ls /\ l_id x = h /\ In (l_off x, o) objs).

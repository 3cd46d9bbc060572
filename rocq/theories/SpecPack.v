(** Independent specification of git pack files (Documentation/gitformat-pack.txt)
    and of what a decoded pack must hold. *)

From Verif Require Import Base Digest ModelObject ModelDelta ModelPack SpecFormat SpecObject SpecDelta SpecDiff.
Open Scope N_scope.

(** A whole object: type and content. Its id is the SHA-1 of the git framing. *)
Definition object : Type := (otype * bytes)%type.
Definition obj_id (o : object) (h : hash) : Prop :=
  exists content, framed (fst o) (nlen (snd o)) (snd o) content /\ h = sha1 content.
(** The object as the code represents it. *)
Definition as_meta (o : object) (h : hash) : meta :=
  mkMeta (fst o) h (nlen (snd o)) (snd o) [].

(** Type numbers of whole objects in pack entries. *)
Inductive pack_code : otype -> N -> Prop :=
| pc_commit : pack_code Commit 1
| pc_tree : pack_code Tree 2
| pc_blob : pack_code Blob 3
| pc_tag : pack_code Tag 4.

(** [z] is a complete zlib stream with content [d], whatever follows it. *)
Definition zstream (c : codec) (z d : bytes) : Prop :=
  forall rest, inflate c (z ++ rest) = Some (d, length z).

(** The decompressor reads from left to right: what it made of some input it makes of
    every longer one. *)
Definition streaming (c : codec) : Prop :=
  forall a d k, inflate c a = Some (d, k) -> (k <= length a)%nat /\ forall s, inflate c (a ++ s) = Some (d, k).

(** The storage knows [o] under the id [h] (asked for in lower-case hexadecimal). *)
Definition knows (st : storage) (h : hash) (o : object) : Prop :=
  exists s h', id_text s h /\ map lower s = s /\ st s = Ok (as_meta o h').

(** Entry header as git writes it: at most ten bytes, sizes below 2^61. *)
Definition header (t : N) (hdr : bytes) (size : N) : Prop :=
  entry_hdr t hdr size /\ (length hdr <= 10)%nat /\ size < 2 ^ 61.

(** One entry of a pack, at offset [off], after the entries [objs]; it is a whole
    object, a delta against an entry [dist] bytes before, or a delta against an
    object named by id: an earlier entry or, failing that, one of the storage. *)
Inductive entry (c : codec) (st : storage) (off : N) (objs : list (N * object)) : bytes -> object -> Prop :=
| e_whole : forall t n hdr z data, pack_code t n -> header n hdr (nlen data) -> zstream c z data ->
    entry c st off objs (hdr ++ z) (t, data)
| e_ofs : forall t base hdr dist ofs z delta data, header 6 hdr (nlen delta) -> ofs_format ofs dist ->
    0 < dist <= off -> In (off - dist, (t, base)) objs -> zstream c z delta -> git_delta base delta data ->
    nlen data < 2 ^ 61 ->
    entry c st off objs (hdr ++ ofs ++ z) (t, data)
| e_ref : forall t base hdr h z delta data o, header 7 hdr (nlen delta) -> id_ok h ->
    In (o, (t, base)) objs -> obj_id (t, base) h -> zstream c z delta -> git_delta base delta data ->
    nlen data < 2 ^ 61 ->
    entry c st off objs (hdr ++ h ++ z) (t, data)
| e_ext : forall t base hdr h z delta data, header 7 hdr (nlen delta) -> id_ok h -> is_base t ->
    (forall o x, In (o, x) objs -> ~ obj_id x h) -> knows st h (t, base) -> nlen base < 2 ^ 61 ->
    zstream c z delta -> git_delta base delta data ->
    nlen data < 2 ^ 61 ->
    entry c st off objs (hdr ++ h ++ z) (t, data).

(** Header and the entries so far: file content and objects with their offsets. *)
Inductive pack_body (c : codec) (st : storage) (n : N) : bytes -> list (N * object) -> Prop :=
| pb_header : forall v w, be32_value v 2 -> be32_value w n ->
    pack_body c st n (bs "PACK" ++ v ++ w) []
| pb_entry : forall b objs e o, pack_body c st n b objs -> entry c st (nlen b) objs e o ->
    pack_body c st n (b ++ e) (objs ++ [(nlen b, o)]).

(** A pack: header announcing the right number of objects, the entries, and the
    SHA-1 of all that. *)
Definition git_pack (c : codec) (st : storage) (file : bytes) (objs : list (N * object)) : Prop :=
  exists b, pack_body c st (nlen objs) b objs /\ file = b ++ sha1 b.

(** No two different objects of the list have the same id. *)
Definition no_collision (l : list object) : Prop :=
  forall a b h, In a l -> In b l -> obj_id a h -> obj_id b h -> a = b.

(** The cache holds exactly the objects [l], each under its id. *)
Definition holds (k : cache) (l : list object) : Prop :=
  forall h m, hash_object k h = Some m <-> exists o, In o l /\ obj_id o h /\ m = as_meta o h.
(** The objects are found at their offsets, and the offset recorded for an id is
    that of an entry with that id. *)
Definition located (k : cache) (l : list (N * object)) : Prop :=
  (forall off o, In (off, o) l -> exists h, obj_id o h /\ offset_object k off = Some (as_meta o h)) /\
  (forall off o h, In (off, o) l -> obj_id o h ->
     exists off' o', In (off', o') l /\ obj_id o' h /\ bt_get h (by_offset k) = Some off').

(** [l] are the loose objects below the directory [root] of the file system, in
    directory order: the files root/xx/name are deflated objects whose path is that
    of some id. *)
Inductive loose_dir (c : codec) (root : list bytes) : fs -> list object -> Prop :=
| ld_nil : loose_dir c root [] []
| ld_other : forall p x f l, (forall a b, p = root ++ [a; b] -> length a <> 2%nat) ->
    loose_dir c root f l -> loose_dir c root ((p, x) :: f) l
| ld_loose : forall h t d content a b f l, id_text (a ++ b) h -> length a = 2%nat -> map lower (a ++ b) = a ++ b ->
    framed t (nlen d) d content -> bytes_ok d -> nlen d < 2 ^ 61 ->
    loose_dir c root f l -> loose_dir c root ((root ++ [a; b], deflate c content) :: f) ((t, d) :: l).

(** [name] ends in "pack". *)
Definition pack_name (name : bytes) : Prop := exists stem, name = stem ++ bs "pack".
(** [file] is the content of the first pack file in the directory root/pack, and
    all names before it have at least four bytes. *)
Definition first_pack (f : fs) (root : list bytes) (file : bytes) : Prop :=
  exists pre name post, f = pre ++ (root ++ [bs "pack"; name], file) :: post /\ pack_name name /\
    forall n x, In (root ++ [bs "pack"; n], x) pre -> (4 <= length n)%nat /\ ~ pack_name n.

(** The object in memory as type and content. *)
Definition obj_of (m : meta) : object := (m_t m, m_data m).
(** Objects the encoders can write: well-formed and of a size the entry header can hold. *)
Definition encodable (m : meta) : Prop := wf_object m /\ nlen (m_data m) < 2 ^ 61.

(** The diff engine answers every question with an edit script. *)
Definition diff_ok (diff : bytes -> bytes -> list call) : Prop :=
  forall old new, edit_script old new (diff old new).

(** At [off] there is an offset-delta entry that names itself as its base: type 6 in
    the first byte (headers of more than ten bytes overflow), distance 0 modulo
    2^64. *)
Definition self_ref (file : bytes) (off : N) : Prop :=
  exists b hdr x ofs d rest, file_at file off = (b :: hdr) ++ ofs ++ rest /\ leb128 (b :: hdr) x /\
    ((b / 16) mod 8 = 6 \/ (10 < length (b :: hdr))%nat) /\ ofs_format ofs d /\ d mod 2 ^ 64 = 0.

(** Every object is filed under the id of its own content, has a recorded offset,
    and every recorded offset belongs to an object of the cache. *)
Definition addressed (k : cache) : Prop :=
  (forall h m, hash_object k h = Some m -> exists o, obj_id o h /\ m = as_meta o h) /\
  (forall off h, nm_get off (offset_hash k) = Some h -> exists m, hash_object k h = Some m) /\
  (forall h off, bt_get h (by_offset k) = Some off -> exists m, hash_object k h = Some m) /\
  (forall h m, hash_object k h = Some m -> exists off, bt_get h (by_offset k) = Some off).

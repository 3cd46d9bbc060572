(** Model of src/git/pack/cache.rs, src/git/pack/mod.rs, src/git/pack/encode.rs and
    src/git/pack/multidecode.rs (without the index and without the decoded-object
    map, see ModelIdx and ModelDecode). *)

From Verif Require Import Base Digest ModelUtils ModelObject ModelDelta.
Open Scope N_scope.

(** [BTreeMap<Hash, _>]: association list in ascending order of the key. Also used
    for [HashMap<Hash, _>] where only [get] and [insert] occur, so that the
    iteration order is never observed. *)
Fixpoint bt_insert {A} (k : hash) (v : A) (l : list (hash * A)) : list (hash * A) :=
  match l with
  | [] => [(k, v)]
  | (k', v') :: r =>
    match bcmp k k' with
    | Lt => (k, v) :: l
    | Eq => (k, v) :: r
    | Gt => (k', v') :: bt_insert k v r
    end
  end.
Fixpoint bt_get {A} (k : hash) (l : list (hash * A)) : option A :=
  match l with
  | [] => None
  | (k', v) :: r => if beq k k' then Some v else bt_get k r
  end.

(** [BTreeMap<u64, _>], used with [get] and [insert] only. *)
Definition nm_insert {A} (k : N) (v : A) (l : list (N * A)) : list (N * A) :=
  (k, v) :: filter (fun e => negb (fst e =? k)) l.
Fixpoint nm_get {A} (k : N) (l : list (N * A)) : option A :=
  match l with
  | [] => None
  | (k', v) :: r => if k =? k' then Some v else nm_get k r
  end.

(** cache.rs 14-20. The counters [base] and [delta] are u32 in the code and only
    used for logging; they are unbounded here. *)
Record cache : Type := mkCache {
  by_hash : list (hash * meta);
  by_offset : list (hash * N);
  offset_hash : list (N * hash);
  c_base : N;
  c_delta : N }.
Definition cache_empty : cache := mkCache [] [] [] 0 0.

(** cache.rs 25-30 [update]. *)
Definition cache_update (k : cache) (o : meta) (offset : N) : cache :=
  mkCache (bt_insert (m_id o) o (by_hash k)) (bt_insert (m_id o) offset (by_offset k))
          (nm_insert offset (m_id o) (offset_hash k)) (c_base k) (c_delta k).

(** cache.rs 38-46 [offset_object], [hash_object]. *)
Definition offset_object (k : cache) (offset : N) : option meta :=
  match nm_get offset (offset_hash k) with
  | Some h => bt_get h (by_hash k)
  | None => None
  end.
Definition hash_object (k : cache) (h : hash) : option meta := bt_get h (by_hash k).

(** mod.rs 180-190, 208: counters. *)
Definition inc_base (k : cache) : cache :=
  mkCache (by_hash k) (by_offset k) (offset_hash k) (c_base k + 1) (c_delta k).
Definition inc_delta (k : cache) : cache :=
  mkCache (by_hash k) (by_offset k) (offset_hash k) (c_base k) (c_delta k + 1).

(** [ObjectStorage::get_hash_object] (gust/driver/mod.rs): an arbitrary function of
    the hexadecimal id. *)
Definition storage := bytes -> res meta.

(** utils.rs 216-227 [seek], [get_offset]: what remains of the file at a position.
    Positions past the end are allowed and leave nothing to read. *)
Definition file_at (file : bytes) (pos : N) : bytes := skipn (N.to_nat pos) file.

(** mod.rs 168-241 [next_object]: the object, the file position afterwards and the
    new cache. [read_zlib_stream_exact] (utils.rs 233-245) leaves the position just
    after the stream. The decompressor is run to the end before its output is
    looked at: for a corrupt stream the model panics (the [unwrap]s on
    [read_to_end], [read_size_encoding] and [read_bytes]) even where the lazy
    reader would have found a different error first. [fuel] bounds the recursion
    depth. *)
Fixpoint next_object (m : build) (c : codec) (st : storage) (fuel : nat) (file : bytes)
  (offset : N) (k : cache) : res (meta * N * cache) :=
  match fuel with
  | O => OutOfFuel
  | S f =>
    let s := file_at file offset in
    let? (type_num, size, r) := unwrap (read_type_and_size m s) in
    let pos_of (rest : bytes) := offset + (nlen s - nlen rest) in
    if (1 <=? type_num) && (type_num <=? 4) then
      let? (contents, used) := unwrap_opt (inflate c r) in
      if negb (nlen contents =? size) then Err EInvalidObjectInfo
      else
        let? t := number_type type_num in
        let? obj := meta_new t contents in
        Ok (obj, pos_of r + N.of_nat used, cache_update (inc_base k) obj offset)
    else if type_num =? 6 then
      let? (delta_offset, r2) := unwrap (read_offset_encoding m r) in
      if offset <? delta_offset then Err EInvalidObjectInfo
      else
        let base_offset := offset - delta_offset in
        let? (base, k1) :=
          match offset_object k base_offset with
          | Some o => Ok (o, k)
          | None => let? (o, _, k') := next_object m c st f file base_offset k in Ok (o, k')
          end in
        let? (delta, used) := unwrap_opt (inflate c r2) in
        let? obj := apply_delta m base delta in
        Ok (obj, pos_of r2 + N.of_nat used, cache_update (inc_delta k1) obj offset)
    else if type_num =? 7 then
      let? (h, r2) := unwrap (read_hash r) in
      let? base :=
        match hash_object k h with
        | Some o => Ok o
        | None => unwrap (st (to_plain_str h))
        end in
      let? (delta, used) := unwrap_opt (inflate c r2) in
      let? obj := apply_delta m base delta in
      Ok (obj, pos_of r2 + N.of_nat used, cache_update k obj offset)
    else
      let? _ := number_type type_num in Err EInvalidObjectType
  end.

(** mod.rs 35-42. The fields [head], [version] and [pack_file] are constants once
    the header is checked. *)
Record pack : Type := mkPack { p_number : N; p_signature : hash; p_cache : cache }.

(** hash.rs 36: [Hash::default()]. *)
Definition hash_default : hash := repeat 0 20.

(** mod.rs 92-124 [check_header]: the number of objects and the rest of the file. *)
Definition check_header (file : bytes) : res (N * bytes) :=
  let? (magic, s1) := unwrap (read_bytes 4 file) in
  if negb (beq magic (bs "PACK")) then Err EInvalidPackHeader
  else
    let? (version, s2) := unwrap (read_u32 s1) in
    if negb (version =? 2) then Err EInvalidPackFile
    else unwrap (read_u32 s2).

(** mod.rs 61-81: the loop over the objects, starting at position [pos]; the
    [u32::try_from] comes after the object has been read. *)
Fixpoint decode_loop (m : build) (c : codec) (st : storage) (fuel : nat) (file : bytes)
  (n : nat) (pos : N) (k : cache) : res (N * cache) :=
  match n with
  | O => Ok (pos, k)
  | S n' =>
    let? (_, pos', k') := next_object m c st fuel file pos k in
    if 2 ^ 32 <=? pos then Panic else decode_loop m c st fuel file n' pos' k'
  end.

(** mod.rs 51-88 [decode]. *)
Definition decode (m : build) (c : codec) (st : storage) (fuel : nat) (file : bytes) : res pack :=
  let? (n, rest) := check_header file in
  let? (pos, k) := decode_loop m c st fuel file (N.to_nat n) (nlen file - nlen rest) cache_empty in
  let? (id, _) := unwrap (read_bytes 20 (file_at file pos)) in
  let? sig := hash_from_row id in
  Ok (mkPack n sig k).

(** mod.rs 156-164 [decode_raw_data]: object count, signature, raw entries. *)
Definition decode_raw_data (file : bytes) : res (N * hash * bytes) :=
  let? (n, raw) := unwrap (check_header file) in
  if (length raw <? 20)%nat then Panic
  else
    let? info := slice 0 (length raw - 20) raw in
    let? tail := slice_from (length raw - 20) raw in
    let? sig := hash_from_row tail in
    Ok (n, sig, info).

(** encode.rs 33-47 [encode_header] for [number_of_objects] = [n]. *)
Definition encode_header (n : N) : res bytes :=
  if n =? 0 then Panic
  else if negb (n <? 2 ^ 32) then Panic
  else Ok ([80; 65; 67; 75; 0; 0; 0; 2] ++ u32_vec (n mod U32)).

(** encode.rs 67-94 [encode], argument [Some a]; the appended checksum is
    [append_hash_signature] (49-53). *)
Definition encode_entries (c : codec) (l : list meta) : bytes := flat_map (convert_to_vec c) l.
Definition encode (c : codec) (l : list meta) : res (pack * bytes) :=
  let? header := encode_header (nlen l) in
  let result := header ++ encode_entries c l in
  let sig := hash_new result in
  Ok (mkPack (nlen l) sig cache_empty, result ++ sig).

(** encode.rs 83-89: argument [None], the cached objects in id order. *)
Definition encode_cache (c : codec) (k : cache) : res (pack * bytes) :=
  let? (p, b) := encode c (map snd (by_hash k)) in
  Ok (mkPack (p_number p) (p_signature p) k, b).

(** encode.rs 113-128: search of the best base among the preceding [steps] objects,
    [j] steps back. [best] is the number of bytes matched by the best candidate so
    far: all rates have the target's length as denominator, so the comparison of
    rates is one of matched bytes (f64 rounding is not modelled). *)
Fixpoint window (diff : bytes -> bytes -> list call) (ms : list meta) (new : meta) (i : nat)
  (steps j : nat) (best_j : option nat) (best : nat) : option nat :=
  match steps with
  | O => best_j
  | S s =>
    if (i <? j)%nat then best_j
    else match nth_error ms (i - j) with
         | None => best_j
         | Some base =>
           if negb (otype_eqb (m_t new) (m_t base)) then best_j
           else
             let ssam := script_ssam (diff (m_data base) (m_data new)) in
             if (best <? ssam)%nat && rate_above_half ssam (length (m_data new))
             then window diff ms new i s (S j) (Some j) ssam
             else window diff ms new i s (S j) best_j best
         end
  end.
Definition SLIDING_WINDOW : nat := 10.

(** encode.rs 109-148: the loop over the objects [todo], of which the first has
    index [i]; [offs] are the offsets of the entries written so far. The index is
    an i32 in the code (fewer than 2^31 objects are assumed). *)
Definition delta_entry (m : build) (diff : bytes -> bytes -> list call) (ms : list meta)
  (new : meta) (i : nat) (result : bytes) (offs : list N) : res meta :=
  match window diff ms new i (SLIDING_WINDOW - 1) 1 None 0 with
  | None => Ok new
  | Some j =>
    let? base := unwrap_opt (nth_error ms (i - j)) in
    let? off := unwrap_opt (nth_error offs (i - j)) in
    let? z := get_delta_metadata base new (diff_ops (diff (m_data base) (m_data new))) in
    let? d := sub64 m (nlen result) off in
    let? h := write_offset_encoding m d in
    Ok (change_to_delta new OffsetDelta z h)
  end.
Fixpoint delta_loop (m : build) (c : codec) (diff : bytes -> bytes -> list call) (ms : list meta)
  (todo : list meta) (i : nat) (result : bytes) (offs : list N) : res bytes :=
  match todo with
  | [] => Ok result
  | new :: rest =>
    let? final := delta_entry m diff ms new i result offs in
    delta_loop m c diff ms rest (S i) (result ++ convert_to_vec c final) (offs ++ [nlen result])
  end.

(** encode.rs 100-152 [encode_delta]. *)
Definition encode_delta (m : build) (c : codec) (diff : bytes -> bytes -> list call)
  (ms : list meta) : res (pack * bytes) :=
  let? header := encode_header (nlen ms) in
  let? result := delta_loop m c diff ms ms 0 header [] in
  let sig := hash_new result in
  Ok (mkPack (nlen ms) sig cache_empty, result ++ sig).

(** encode.rs 158-182 [pack_loose]: an unreadable name or a missing file panics, an
    [Err] only prints a message and the object is left out. *)
Fixpoint read_loose_all (c : codec) (f : fs) (root : list bytes) (ids : list bytes)
  : res (list meta) :=
  match ids with
  | [] => Ok []
  | s :: r =>
    let? h := unwrap (hash_from_str s) in
    match read_object_from_file c f (loose_path root h) with
    | Ok o => let? l := read_loose_all c f root r in Ok (o :: l)
    | Err _ => read_loose_all c f root r
    | Panic => Panic
    | OutOfFuel => OutOfFuel
    end
  end.
Definition pack_loose (c : codec) (f : fs) (root : list bytes) (ids : list bytes)
  : res (pack * bytes) :=
  let? l := read_loose_all c f root ids in encode c l.

(** encode.rs 215-259 [find_all_loose]: the files root/xx/name in directory order
    (unspecified by the operating system; here the order of the list). Names are
    assumed to be UTF-8; subdirectories of root/xx are not modelled. *)
Fixpoint strip_path (root p : list bytes) : option (list bytes) :=
  match root, p with
  | [], _ => Some p
  | a :: root', b :: p' => if beq a b then strip_path root' p' else None
  | _ :: _, [] => None
  end.
Fixpoint find_all_loose (f : fs) (root : list bytes) : res (list bytes) :=
  match f with
  | [] => Ok []
  | (p, _) :: r =>
    match strip_path root p with
    | Some [a; b] =>
      if (length a =? 2)%nat then
        let? h := unwrap (hash_from_str (a ++ b)) in
        let? l := find_all_loose r root in Ok (to_plain_str h :: l)
      else find_all_loose r root
    | _ => find_all_loose r root
    end
  end.

(** encode.rs 268-287 [find_pack_file]: the first file below root/pack whose name
    ends in "pack"; a name shorter than four bytes panics, and so does reading when
    there is none (the directory itself is opened). *)
Fixpoint find_pack_file (f : fs) (root : list bytes) : res bytes :=
  match f with
  | [] => Panic
  | (p, content) :: r =>
    match strip_path (root ++ [bs "pack"]) p with
    | Some [name] =>
      if (length name <? 4)%nat then Panic
      else if beq (skipn (length name - 4) name) (bs "pack") then Ok content
      else find_pack_file r root
    | _ => find_pack_file r root
    end
  end.

(** Name of a pack file (encode.rs 311-315). *)
Definition pack_path (target : list bytes) (sig : hash) : list bytes :=
  target ++ [bs "pack-" ++ to_plain_str sig ++ bs ".pack"].

(** encode.rs 188-204, 262-265 [pack_loose_files], [pack_loose_from_dir]. *)
Definition pack_loose_files (c : codec) (f : fs) (ids : list bytes) (root target : list bytes)
  : res (pack * fs) :=
  let? (p, b) := pack_loose c f root ids in
  Ok (p, fs_put f (pack_path target (p_signature p)) b).
Definition pack_loose_from_dir (c : codec) (f : fs) (root target : list bytes) : res (pack * fs) :=
  let? ids := find_all_loose f root in pack_loose_files c f ids root target.

(** encode.rs 289-320 [pack_object_dir]. *)
Definition pack_object_dir (c : codec) (f : fs) (root target : list bytes) : res (pack * fs) :=
  let? file := find_pack_file f root in
  let? (n1, _, raw) := decode_raw_data file in
  let? ids := find_all_loose f root in
  let? (lp, ldata) := pack_loose c f root ids in
  let n := n1 + p_number lp in
  let? header := encode_header n in
  let? lraw := get_pack_raw_data ldata in
  let result := header ++ raw ++ lraw in
  let sig := hash_new result in
  Ok (mkPack n sig cache_empty, fs_put f (pack_path target sig) (result ++ sig)).

(** multidecode.rs 48-71 [decode_with_cache]: every error becomes a panic. *)
Definition decode_with_cache (m : build) (c : codec) (st : storage) (fuel : nat) (file : bytes)
  (k : cache) : res (pack * cache) :=
  let? (n, rest) := unwrap (check_header file) in
  let? (pos, k') := unwrap (decode_loop m c st fuel file (N.to_nat n) (nlen file - nlen rest) k) in
  let? (id, _) := unwrap (read_bytes 20 (file_at file pos)) in
  let? sig := hash_from_row id in
  Ok (mkPack n sig cache_empty, k').

(** multidecode.rs 74-92 [multi_decode] on the contents of the pack files in order of
    creation time. Line 88 adds the count of the local [_pack_], which is still the
    default 0: the pack returned by [decode_with_cache] is dropped. *)
Fixpoint multi_loop (m : build) (c : codec) (st : storage) (fuel : nat) (files : list bytes)
  (total : N) (k : cache) : res (N * cache) :=
  match files with
  | [] => Ok (total, k)
  | f :: r =>
    let? (_, k') := decode_with_cache m c st fuel f k in
    let local_number := 0 in
    multi_loop m c st fuel r (total + local_number) k'
  end.
Definition multi_decode (m : build) (c : codec) (st : storage) (fuel : nat) (files : list bytes)
  : res pack :=
  let? (n, k) := multi_loop m c st fuel files 0 cache_empty in
  Ok (mkPack n hash_default k).

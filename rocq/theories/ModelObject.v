(** Model of src/git/hash.rs, src/git/object/types.rs and
    src/git/object/metadata.rs. *)

From Verif Require Import Base Digest ModelUtils.
Open Scope N_scope.

(** object/types.rs 21-28. *)
Inductive otype : Type := Commit | Tree | Blob | Tag | OffsetDelta | HashDelta.

Definition otype_eqb (a b : otype) : bool :=
  match a, b with
  | Commit, Commit | Tree, Tree | Blob, Blob | Tag, Tag
  | OffsetDelta, OffsetDelta | HashDelta, HashDelta => true
  | _, _ => false
  end.

(** types.rs 31-42 [Display]. *)
Definition otype_display (t : otype) : bytes :=
  match t with
  | Blob => bs "blob" | Tree => bs "tree" | Commit => bs "commit" | Tag => bs "tag"
  | OffsetDelta => bs "OffsetDelta" | HashDelta => bs "HashDelta"
  end.

(** types.rs 48-56 [to_bytes]. *)
Definition otype_to_bytes (t : otype) : bytes :=
  match t with
  | Blob => [98; 108; 111; 98]
  | Tree => [116; 114; 101; 101]
  | Commit => [99; 111; 109; 109; 105; 116]
  | Tag => [116; 97; 103]
  | _ => []
  end.

(** types.rs 60-68 [from_string]. *)
Definition otype_from_string (s : bytes) : res otype :=
  if beq s (bs "blob") then Ok Blob
  else if beq s (bs "tree") then Ok Tree
  else if beq s (bs "commit") then Ok Commit
  else if beq s (bs "tag") then Ok Tag
  else Err EInvalidObjectType.

(** types.rs 72-81 [type2_number]. *)
Definition type2_number (t : otype) : N :=
  match t with
  | Commit => 1 | Tree => 2 | Blob => 3 | Tag => 4 | OffsetDelta => 6 | HashDelta => 7
  end.

(** types.rs 85-95 [number_type]: panics on any other number. *)
Definition number_type (n : N) : res otype :=
  match n with
  | 1 => Ok Commit | 2 => Ok Tree | 3 => Ok Blob | 4 => Ok Tag
  | 6 => Ok OffsetDelta | 7 => Ok HashDelta
  | _ => Panic
  end.

(** An object id ([Hash(\[u8; 20\])], hash.rs 36) is a byte string; only strings of
    20 bytes occur, see [from_row] and [hash_from_bytes]. *)
Definition hash := bytes.

(** hash.rs 57-64 [Hash::new]. *)
Definition hash_new (data : bytes) : hash := sha1 data.

(** hash.rs 98-105 [hex_char_value]. *)
Definition hex_char_value (c : N) : option N :=
  if (48 <=? c) && (c <=? 57) then Some (c - 48)
  else if (97 <=? c) && (c <=? 102) then Some (c - 97 + 10)
  else if (65 <=? c) && (c <=? 70) then Some (c - 65 + 10)
  else None.

(** hash.rs 110-128 [from_bytes]: pairs of hex digits, an odd rest is rejected,
    and exactly 20 bytes must result. *)
Fixpoint hex_pairs (l : bytes) : option bytes :=
  match l with
  | [] => Some []
  | [_] => None
  | a :: b :: r =>
    match hex_char_value a, hex_char_value b with
    | Some x, Some y =>
      match hex_pairs r with
      | Some t => Some (N.lor (N.shiftl x 4 mod U8) y :: t)
      | None => None
      end
    | _, _ => None
    end
  end.
Definition hash_from_bytes (s : bytes) : option hash :=
  match hex_pairs s with
  | Some h => if (length h =? 20)%nat then Some h else None
  | None => None
  end.

(** hash.rs 166-173 [FromStr]. *)
Definition hash_from_str (s : bytes) : res hash :=
  match hash_from_bytes s with
  | Some h => Ok h
  | None => Err EInvalidHashValue
  end.

(** hash.rs 133-135 [from_row]. *)
Definition hash_from_row (s : bytes) : res hash :=
  if (length s =? 20)%nat then Ok s else Panic.

(** hash.rs 139-141 [get_first]. *)
Definition hash_get_first (h : hash) : N := nth 0 h 0.

(** hash.rs 145-147 [to_plain_str], i.e. [hex::encode]: lower-case digits. *)
Definition hex_digit (n : N) : N := if n <? 10 then 48 + n else 87 + n.
Definition hex_encode (l : bytes) : bytes :=
  flat_map (fun b => [hex_digit (N.shiftr b 4); hex_digit (N.land b 15)]) l.
Definition to_plain_str (h : hash) : bytes := hex_encode h.

(** hash.rs 150-161 [to_folder], [to_filename]. *)
Definition to_folder (h : hash) : bytes := firstn 2 (to_plain_str h).
Definition to_filename (h : hash) : bytes := skipn 2 (to_plain_str h).

(** metadata.rs 22-29. [HashType] has the single value [Sha1] and is omitted. *)
Record meta : Type := mkMeta {
  m_t : otype;
  m_id : hash;
  m_size : N;
  m_data : bytes;
  m_delta_header : bytes }.

(** hash.rs 69-93 [from_meta]: the bytes fed to SHA-1; delta types panic. *)
Definition hash_preimage (t : otype) (data : bytes) : res bytes :=
  match t with
  | Commit => Ok (bs "commit" ++ bs " " ++ to_decimal (nlen data) ++ [0] ++ data)
  | Tree => Ok (bs "tree" ++ bs " " ++ to_decimal (nlen data) ++ [0] ++ data)
  | Blob => Ok (bs "blob" ++ bs " " ++ to_decimal (nlen data) ++ [0] ++ data)
  | Tag => Ok (bs "tag" ++ bs " " ++ to_decimal (nlen data) ++ [0] ++ data)
  | _ => Panic
  end.
Definition hash_from_meta (t : otype) (data : bytes) : res hash :=
  let? p := hash_preimage t data in Ok (sha1 p).

(** metadata.rs 39-53 [MetaData::new]. *)
Definition meta_new (t : otype) (data : bytes) : res meta :=
  let? h := hash_from_meta t data in
  Ok (mkMeta t h (nlen data) data []).

(** metadata.rs 166-171 [change_to_delta]: the id is kept. *)
Definition change_to_delta (m : meta) (t : otype) (changed header : bytes) : meta :=
  mkMeta t (m_id m) (nlen changed) changed header.

(** External zlib (crates deflate and flate2). [inflate s] reads one zlib stream
    from the front of [s]; it returns the content and the number of input bytes
    of the stream ([total_in] after reading to the end), or [None] if the input
    does not start with a valid stream. *)
Record codec : Type := mkCodec {
  deflate : bytes -> bytes;
  inflate : bytes -> option (bytes * nat) }.

(** metadata.rs 91-107: header byte and size bytes of a pack entry. The addition
    on line 93 is on u8 and cannot overflow for the six types. *)
Fixpoint size_bytes_loop (fuel : nat) (n : N) : bytes :=
  match fuel with
  | O => []
  | S f => if 0 <? n then
             if 0 <? N.shiftr n 7
             then (N.lor 128 n mod U8) :: size_bytes_loop f (N.shiftr n 7)
             else [n mod U8]
           else []
  end.
Definition entry_header (t : otype) (size : N) : bytes :=
  (N.lor 128 (N.shiftl (type2_number t) 4) + N.land size 15) ::
  (let n := N.shiftr size 4 in
   if 0 <? n then size_bytes_loop (S (N.size_nat n)) n else [0]).

(** metadata.rs 91-124 [convert_to_vec]. *)
Definition convert_to_vec (c : codec) (m : meta) : bytes :=
  entry_header (m_t m) (m_size m) ++
  match m_t m with
  | OffsetDelta | HashDelta => m_delta_header m
  | _ => []
  end ++ deflate c (m_data m).

(** A file system: path to content. Directories are implicit ([create_dir_all],
    metadata.rs 74, is the identity here); a path is a list of components. *)
Definition fs := list (list bytes * bytes).
Definition path_eqb (a b : list bytes) : bool :=
  (length a =? length b)%nat && forallb (fun p => beq (fst p) (snd p)) (combine a b).
Fixpoint fs_get (f : fs) (p : list bytes) : option bytes :=
  match f with
  | [] => None
  | (q, c) :: r => if path_eqb q p then Some c else fs_get r p
  end.
Definition fs_put (f : fs) (p : list bytes) (c : bytes) : fs :=
  (p, c) :: filter (fun e => negb (path_eqb (fst e) p)) f.

(** Path of a loose object below [root] (metadata.rs 72-78). *)
Definition loose_path (root : list bytes) (h : hash) : list bytes :=
  root ++ [to_folder h; to_filename h].

(** metadata.rs 62-88 [write_to_file]: returns the new file system and the path. *)
Definition write_to_file (c : codec) (f : fs) (root : list bytes) (m : meta)
  : fs * list bytes :=
  let content := otype_to_bytes (m_t m) ++ [32] ++ to_decimal (nlen (m_data m)) ++ [0] ++ m_data m in
  let p := loose_path root (m_id m) in
  (fs_put f p (deflate c content), p).

(** metadata.rs 129-162 [read_object_from_file]. The size (143-149) is parsed and
    otherwise unused; the bytes are mapped to chars, so only ASCII digits parse. *)
Definition read_object_from_file (c : codec) (f : fs) (p : list bytes) : res meta :=
  let? file := unwrap_opt (fs_get f p) in
  let? d := unwrap_opt (inflate c file) in
  let decoded := fst d in
  let? type_index := unwrap_opt (find_byte 32 decoded) in
  let t := firstn type_index decoded in
  let? size_index := unwrap_opt (find_byte 0 decoded) in
  let? size_text := slice (type_index + 1) size_index decoded in
  let? _ := unwrap_opt (parse_usize size_text) in
  let? data := slice_from (size_index + 1) decoded in
  let? name := utf8_unwrap t in
  if beq name (bs "blob") then meta_new Blob data
  else if beq name (bs "tree") then meta_new Tree data
  else if beq name (bs "commit") then meta_new Commit data
  else if beq name (bs "tag") then meta_new Tag data
  else Err EInvalidObjectType.

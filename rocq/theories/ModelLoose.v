(** Objects read one by one from an object directory: src/git/object/delta.rs 102-187
    ([read_object]), [parse_from_file] of the base objects, src/git/protocol/pack.rs
    287-380 ([find_common_base], [parse_tree]), and pack directories: src/git/utils.rs
    272-305 ([find_all_pack_file]), src/git/pack/multidecode.rs 18-44 and 74-92. *)

From Verif Require Import Base Digest ModelUtils ModelObject ModelBase ModelPack.
Open Scope N_scope.

(** hash.rs 38-50 [Display]: red and bold, when crate colored decides to colour
    ([colour]: standard output is a terminal, or the environment asks for it). *)
Definition escape (s : bytes) : bytes := 27 :: bs "[" ++ s ++ bs "m".
Definition hash_display (colour : bool) (h : hash) : bytes :=
  if colour then escape (bs "1;31") ++ to_plain_str h ++ escape (bs "0") else to_plain_str h.

(** delta.rs 169-187 [decimal_char_value], [parse_decimal]. *)
Definition decimal_char_value (c : N) : option N :=
  if (48 <=? c) && (c <=? 57) then Some (c - 48) else None.
Fixpoint parse_decimal_loop (s : bytes) (value : N) : option N :=
  match s with
  | [] => Some value
  | c :: r =>
    match decimal_char_value c with
    | None => None
    | Some d =>
      if value * 10 <? U64 then
        if value * 10 + d <? U64 then parse_decimal_loop r (value * 10 + d) else None
      else None
    end
  end.
Definition parse_decimal (s : bytes) : option N := parse_decimal_loop s 0.

(** delta.rs 122 [OBJECTS_DIRECTORY], below the working directory. *)
Definition objects_directory : list bytes := [bs ".git"; bs "objects"].

(** delta.rs 126-167 [read_unpacked_object]. The patterns of the match on lines 137-148
    are variables, so that the first arm is taken for every name: each object is read as
    a commit. The stream is inflated as a whole; the code inflates as it reads, and an
    error of the stream panics wherever it is met (or comes after an [Err], which
    [read_object] turns into a panic as well). [Vec::with_capacity] (159) panics for a
    size above isize::MAX, where the lengths differ anyway. *)
Definition read_unpacked_object (colour : bool) (c : codec) (f : fs) (h : hash) : res meta :=
  let text := hash_display colour h in
  let? file := unwrap_opt (fs_get f (objects_directory ++ [firstn 2 text; skipn 2 text])) in
  let? d := unwrap_opt (inflate c file) in
  let? (_, r1) := unwrap (read_until_delimiter 32 (fst d)) in
  let? (size, contents) := unwrap (read_until_delimiter 0 r1) in
  match parse_decimal size with
  | None => Err EDeltaObjError
  | Some n => if nlen contents =? n then meta_new Commit contents else Err EDeltaObjError
  end.

(** delta.rs 104-120 [read_object]. *)
Definition read_object (colour : bool) (c : codec) (f : fs) (h : hash) : res meta :=
  let? object := unwrap (read_unpacked_object colour c f h) in
  let? object_hash := hash_from_meta (m_t object) (m_data object) in
  if beq object_hash h then Ok object else Err EDeltaObjError.

(** base/mod.rs 41-47 [parse_meta]; blob.rs 54-57, commit.rs 53-56, tree.rs 144-147
    [parse_from_file]. *)
Definition parse_meta (c : codec) (f : fs) (p : list bytes) : res meta := unwrap (read_object_from_file c f p).
Definition blob_from_file (c : codec) (f : fs) (p : list bytes) : res blob :=
  let? m := parse_meta c f p in Ok (blob_new m).
Definition commit_from_file (c : codec) (f : fs) (p : list bytes) : res commit :=
  let? m := parse_meta c f p in unwrap (commit_new m).
Definition tree_from_file (c : codec) (f : fs) (p : list bytes) : res tree :=
  let? m := parse_meta c f p in unwrap (tree_new m).

(** protocol/pack.rs 335-380 [parse_tree]: [result] and [basic_objects] are the two
    mutable arguments, lists here. [Arc::try_unwrap] on a fresh object succeeds. The
    depth of the recursion is not known beforehand: [fuel]. The loop over the entries
    (356-379) is [parse_items]; [rec] is [parse_tree] on an entry. *)
Fixpoint parse_items (rec : hash -> list (hash * meta) -> list hash -> res (list (hash * meta) * list hash))
  (c : codec) (f : fs) (root : list bytes) (init_basic : bool) (l : list tree_item)
  (result : list (hash * meta)) (basic : list hash) : res (list (hash * meta) * list hash) :=
  match l with
  | [] => Ok (result, basic)
  | i :: r =>
    if existsb (beq (ti_id i)) basic then parse_items rec c f root init_basic r result basic
    else
      let? (result', basic') :=
        match ti_type i with
        | IBlob =>
          if init_basic then Ok (result, basic)
          else let? b := blob_from_file c f (loose_path root (ti_id i)) in
               Ok (bt_insert (m_id (b_meta b)) (b_meta b) result, basic)
        | ITree => rec (ti_id i) result basic
        | IBlobExecutable | ICommit | ILink => Panic
        end in
      parse_items rec c f root init_basic r result' (ti_id i :: basic')
  end.
Fixpoint parse_tree (fuel : nat) (c : codec) (f : fs) (root : list bytes) (init_basic : bool) (tree_id : hash)
  (result : list (hash * meta)) (basic : list hash) : res (list (hash * meta) * list hash) :=
  match fuel with
  | O => OutOfFuel
  | S fuel' =>
    if existsb (beq tree_id) basic then Ok (result, basic)
    else
      let? t := tree_from_file c f (loose_path root tree_id) in
      parse_items (parse_tree fuel' c f root init_basic) c f root init_basic (t_items t)
        (if init_basic then result else bt_insert tree_id (t_meta t) result) (tree_id :: basic)
  end.

(** protocol/pack.rs 287-333 [find_common_base]. A commit that the client does not have
    is cloned into [commits] (308), so that its metadata has two owners and
    [Arc::try_unwrap] (309) fails: the [unwrap] panics before the parents are looked at,
    and the loop over [commits] (329-332) finds none. *)
Definition find_common_base (fuel : nat) (c : codec) (f : fs) (root : list bytes) (obj_id : hash)
  (have : list bytes) : res (list (hash * meta)) :=
  let? commit := commit_from_file c f (loose_path root obj_id) in
  if existsb (beq (to_plain_str obj_id)) have then
    let? (result, _) := parse_tree fuel c f root true (cm_tree_id commit) [] [] in
    Ok result
  else Panic.

(** A directory entry: name, time of creation (not every file system keeps one), content. *)
Record dir_entry : Type := mkEntry { d_name : bytes; d_created : option N; d_content : bytes }.

(** Slices of a [str] panic outside it and inside a character. *)
Definition str_boundary (l : bytes) (i : nat) : bool :=
  (i <=? length l)%nat && match nth_error l i with Some b => negb (cont b) | None => true end.

(** utils.rs 272-305 [get_hash_form_filename], [find_all_pack_file]: the entries in the
    order of the listing. An entry that cannot be listed is skipped by the code; there is
    none here. *)
Definition ends_pack (name : bytes) : res bool :=
  let? name := utf8_unwrap name in
  if (length name <? 4)%nat then Panic
  else if str_boundary name (length name - 4) then Ok (beq (skipn (length name - 4) name) (bs "pack"))
  else Panic.
Definition hash_from_filename (name : bytes) : res hash :=
  if str_boundary name 5 && str_boundary name 45
  then unwrap (hash_from_str (firstn 40 (skipn 5 name)))
  else Panic.
Fixpoint find_all_pack_file (l : list dir_entry) : res (list dir_entry * list hash) :=
  match l with
  | [] => Ok ([], [])
  | e :: r =>
    let? is_pack := ends_pack (d_name e) in
    if (is_pack : bool) then
      let? h := hash_from_filename (d_name e) in
      let? (files, hashes) := find_all_pack_file r in
      Ok (e :: files, h :: hashes)
    else find_all_pack_file r
  end.

(** multidecode.rs 18-30 [Ord for Pack], 85 [sort] (stable). With two packs or more every
    one is compared, and a file without time of creation panics. *)
Fixpoint by_created (x : N * dir_entry) (l : list (N * dir_entry)) : list (N * dir_entry) :=
  match l with
  | [] => [x]
  | y :: r => if fst x <=? fst y then x :: y :: r else y :: by_created x r
  end.
Fixpoint created_times (l : list dir_entry) : res (list (N * dir_entry)) :=
  match l with
  | [] => Ok []
  | e :: r =>
    let? t := unwrap_opt (d_created e) in
    let? r' := created_times r in
    Ok ((t, e) :: r')
  end.
Definition sort_packs (l : list dir_entry) : res (list dir_entry) :=
  match l with
  | [] | [_] => Ok l
  | _ => let? timed := created_times l in Ok (map snd (fold_right by_created [] timed))
  end.

(** multidecode.rs 74-92 [multi_decode] on a directory. *)
Definition multi_decode_dir (m : build) (c : codec) (st : storage) (fuel : nat) (l : list dir_entry) : res pack :=
  let? (files, _) := find_all_pack_file l in
  let? sorted := sort_packs files in
  multi_decode m c st fuel (map d_content sorted).

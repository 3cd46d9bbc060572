(** Model of src/git/object/base/: sign.rs, tree.rs, commit.rs, tag.rs, blob.rs. The
    [Display] and [Ord] instances are in ModelDecode where they are used. *)

From Verif Require Import Base Digest ModelUtils ModelObject.
Open Scope N_scope.

(** sign.rs 15-21. *)
Record sign : Type := mkSign {
  s_t : bytes;
  s_name : bytes;
  s_email : bytes;
  s_timestamp : N;
  s_timezone : bytes }.

(** [email_start - 1] on usize (sign.rs 52): for [email_start] = 0 the debug build
    panics, and the release build wraps to a range end that panics. *)
Definition pred_or_panic (n : nat) : res nat :=
  match n with O => Panic | S k => Ok k end.

(** sign.rs 40-71 [decode_from_data]; it assigns every field of the receiver. *)
Definition sign_decode (data : bytes) : res sign :=
  let? name_start := unwrap_opt (find_byte 32 data) in
  let? ts := slice 0 name_start data in
  let? t := utf8_unwrap ts in
  let? email_start := unwrap_opt (find_byte 60 data) in
  let? email_end := unwrap_opt (find_byte 62 data) in
  let? e1 := pred_or_panic email_start in
  let? ns := slice (name_start + 1) e1 data in
  let? name := utf8_unwrap ns in
  let? es := slice (email_start + 1) email_end data in
  let? email := utf8_unwrap es in
  let? rest := slice_from (email_end + 2) data in
  let? split := unwrap_opt (find_byte 32 rest) in
  let? digits := slice 0 split rest in
  let? digits := utf8_unwrap digits in
  let? timestamp := unwrap_opt (parse_usize digits) in
  let? zs := slice_from (split + 1) rest in
  let? zone := utf8_unwrap zs in
  Ok (mkSign t name email timestamp zone).

(** sign.rs 75-91 [encode_to_data]. *)
Definition sign_encode (s : sign) : bytes :=
  s_t s ++ [32] ++ s_name s ++ [32] ++ [60] ++ s_email s ++ [62] ++ [32] ++
  to_decimal (s_timestamp s) ++ [32] ++ s_timezone s.

(** tree.rs 22-30. *)
Inductive item_type : Type := IBlob | IBlobExecutable | ITree | ICommit | ILink.

(** tree.rs 49-57 [to_bytes]. *)
Definition item_mode (t : item_type) : bytes :=
  match t with
  | IBlob => bs "100644"
  | IBlobExecutable => bs "100755"
  | ITree => bs "40000"
  | ILink => bs "120000"
  | ICommit => bs "160000"
  end.

(** tree.rs 61-76 [tree_item_type_from]; building the error message panics on a mode
    that is not UTF-8. *)
Definition tree_item_type_from (mode : bytes) : res item_type :=
  if beq mode (bs "40000") then Ok ITree
  else if beq mode (bs "100644") then Ok IBlob
  else if beq mode (bs "100755") then Ok IBlobExecutable
  else if beq mode (bs "120000") then Ok ILink
  else if beq mode (bs "160000") then Ok ICommit
  else if beq mode (bs "100664") then Ok IBlob
  else if beq mode (bs "100640") then Ok IBlob
  else let? _ := utf8_unwrap mode in Err EInvalidTreeItem.

(** tree.rs 80-93. *)
Record tree_item : Type := mkTreeItem {
  ti_mode : bytes;
  ti_type : item_type;
  ti_id : hash;
  ti_filename : bytes }.
Record tree : Type := mkTree {
  t_meta : meta;
  t_items : list tree_item;
  t_name : bytes }.

(** tree.rs 161-187: the loop at position [index], [rest] being [data\[index..\]].
    Every round consumes at least 21 bytes. *)
Fixpoint tree_items_loop (fuel : nat) (rest : bytes) (items : list tree_item)
  : res (list tree_item) :=
  match rest with
  | [] => Ok items
  | _ :: _ =>
    match fuel with
    | O => OutOfFuel
    | S f =>
      let? mode_index := unwrap_opt (find_byte 32 rest) in
      let? mode := slice 0 mode_index rest in
      let? item_type := unwrap (tree_item_type_from mode) in
      let? filename_index := unwrap_opt (find_byte 0 rest) in
      let? fs := slice (mode_index + 1) filename_index rest in
      let? filename := utf8_unwrap fs in
      let? ids := slice (filename_index + 1) (filename_index + 21) rest in
      let? id := hash_from_row ids in
      tree_items_loop f (skipn (filename_index + 21) rest)
                      (items ++ [mkTreeItem mode item_type id filename])
    end
  end.

(** tree.rs 148-157 [Tree::new] with [decode_metadata] (159-188) on a fresh tree. *)
Definition tree_new (m : meta) : res tree :=
  let? items := tree_items_loop (length (m_data m)) (m_data m) [] in
  Ok (mkTree m items []).

(** tree.rs 191-203 [encode_metadata]. *)
Definition tree_item_bytes (i : tree_item) : bytes :=
  ti_mode i ++ [32] ++ ti_filename i ++ [0] ++ ti_id i.
Definition tree_encode (t : tree) : res meta :=
  meta_new Tree (flat_map tree_item_bytes (t_items t)).

(** blob.rs 17-21, 60-65, 75-82. *)
Record blob : Type := mkBlob { b_filename : bytes; b_meta : meta }.
Definition blob_new (m : meta) : blob := mkBlob [] m.
Definition blob_to_tree_item (b : blob) (filename : bytes) : tree_item :=
  mkTreeItem (item_mode IBlob) IBlob (m_id (b_meta b)) filename.

(** commit.rs 24-31. *)
Record commit : Type := mkCommit {
  cm_meta : meta;
  cm_tree_id : hash;
  cm_parents : list hash;
  cm_author : sign;
  cm_committer : sign;
  cm_message : bytes }.

(** commit.rs 102-108: the loop over the parents. [data] is not advanced, only
    [index] is; every round adds at least one to it. *)
Fixpoint parents_loop (fuel : nat) (index author_begin : nat) (data : bytes) (parents : list hash)
  : res (list hash) :=
  if (index <? author_begin)%nat then
    match fuel with
    | O => OutOfFuel
    | S f =>
      let? parent_begin := unwrap_opt (find_byte 32 data) in
      let? parent_end := unwrap_opt (find_byte 10 data) in
      let? text := slice (parent_begin + 1) parent_end data in
      let? h := unwrap_opt (hash_from_bytes text) in
      parents_loop f (index + parent_end + 1) author_begin data (parents ++ [h])
    end
  else Ok parents.

(** The first line of [data] and what follows its line feed, as in
    [data\[..data.find_byte(0x0a).unwrap()\]]. *)
Definition take_line (data : bytes) : res (bytes * bytes) :=
  let? e := unwrap_opt (find_byte 10 data) in
  let? line := slice 0 e data in
  let? rest := slice_from (e + 1) data in
  Ok (line, rest).

(** The value of a header line "key value": from the first space to the first line
    feed, and what follows (commit.rs 91-94, tag.rs 78-81). *)
Definition header_value (data : bytes) : res (bytes * bytes) :=
  let? b := unwrap_opt (find_byte 32 data) in
  let? e := unwrap_opt (find_byte 10 data) in
  let? v := slice (b + 1) e data in
  let? rest := slice_from (e + 1) data in
  Ok (v, rest).

(** commit.rs 57-80 [Commit::new] with [decode_meta] (87-127) on a fresh commit. *)
Definition commit_new (m : meta) : res commit :=
  let? (tree_text, data) := header_value (m_data m) in
  let? tree_id := unwrap_opt (hash_from_bytes tree_text) in
  let? author_begin := unwrap_opt (find_sub (bs "author") data) in
  let? parents :=
    match find_sub (bs "parent") data with
    | Some _ => parents_loop (S author_begin) 0 author_begin data []
    | None => Ok []
    end in
  let? data := slice_from author_begin data in
  let? (author_data, data) := take_line data in
  let? author := sign_decode author_data in
  let? (committer_data, data) := take_line data in
  let? committer := sign_decode committer_data in
  let? message := utf8_unwrap data in
  Ok (mkCommit m tree_id parents author committer message).

(** commit.rs 137-158 [encode_metadata]. *)
Definition parent_line (h : hash) : bytes := bs "parent" ++ [32] ++ to_plain_str h ++ [10].
Definition commit_encode (c : commit) : res meta :=
  meta_new Commit
    (bs "tree" ++ [32] ++ to_plain_str (cm_tree_id c) ++ [10] ++
     flat_map parent_line (cm_parents c) ++
     sign_encode (cm_author c) ++ [10] ++
     sign_encode (cm_committer c) ++ [10] ++
     cm_message c).

(** tag.rs 22-29. *)
Record tag : Type := mkTag {
  tg_meta : meta;
  tg_object : hash;
  tg_t : otype;
  tg_tag : bytes;
  tg_tagger : sign;
  tg_message : bytes }.

(** tag.rs 53-70 [Tag::new] with [decode_metadata] (74-110) on a fresh tag. *)
Definition tag_new (m : meta) : res tag :=
  let? (object_text, data) := header_value (m_data m) in
  let? object := unwrap_opt (hash_from_bytes object_text) in
  let? (type_text, data) := header_value data in
  let? type_text := utf8_unwrap type_text in
  let? t := unwrap (otype_from_string type_text) in
  let? (tag_text, data) := header_value data in
  let? name := utf8_unwrap tag_text in
  let? tagger_begin := unwrap_opt (find_sub (bs "tagger") data) in
  let? tagger_end := unwrap_opt (find_byte 10 data) in
  let? tagger_data := slice tagger_begin tagger_end data in
  let? tagger := sign_decode tagger_data in
  let? data := slice_from (tagger_end + 1) data in
  let? e := unwrap_opt (find_byte 10 data) in
  let? ms := slice_from e data in
  let? message := utf8_unwrap ms in
  Ok (mkTag m object t name tagger message).

(** tag.rs 114-137 [encode_metadata]. *)
Definition tag_encode (t : tag) : res meta :=
  meta_new Tag
    (bs "object" ++ [32] ++ to_plain_str (tg_object t) ++ [10] ++
     bs "type" ++ [32] ++ otype_display (tg_t t) ++ [10] ++
     bs "tag" ++ [32] ++ tg_tag t ++ [10] ++
     sign_encode (tg_tagger t) ++ [10] ++
     tg_message t).

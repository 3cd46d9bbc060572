(** Independent specification of the contents of git trees, commits and tags, after
    git's documentation (git-fast-import, gitformat-pack, gitcore-tutorial) and
    object layout, and of UTF-8. *)

From Verif Require Import Base ModelObject ModelBase SpecObject SpecIdx.
Open Scope N_scope.

(** UTF-8 (RFC 3629): the encoding of a sequence of Unicode scalar values. *)
Definition scalar (c : N) : Prop := c < 55296 \/ 57344 <= c < 1114112.
Definition utf8_char (c : N) : bytes :=
  if c <? 128 then [c]
  else if c <? 2048 then [192 + c / 64; 128 + c mod 64]
  else if c <? 65536 then [224 + c / 4096; 128 + c / 64 mod 64; 128 + c mod 64]
  else [240 + c / 262144; 128 + c / 4096 mod 64; 128 + c / 64 mod 64; 128 + c mod 64].
Definition utf8_text (l : bytes) : Prop := exists cs, Forall scalar cs /\ l = flat_map utf8_char cs.

(** Modes of tree entries and what they denote. 100664 and 100640 are regular files
    with historical permission bits. *)
Inductive git_mode : bytes -> item_type -> Prop :=
| gm_tree : git_mode (bs "40000") ITree
| gm_file : git_mode (bs "100644") IBlob
| gm_exec : git_mode (bs "100755") IBlobExecutable
| gm_link : git_mode (bs "120000") ILink
| gm_submodule : git_mode (bs "160000") ICommit
| gm_group : git_mode (bs "100664") IBlob
| gm_group_read : git_mode (bs "100640") IBlob.

(** Content of a tree whose entries are [items]: mode, space, name, NUL, raw id, with
    an arbitrary predicate [name_ok] on names besides being free of NUL. *)
Inductive tree_content (name_ok : bytes -> Prop) : list tree_item -> bytes -> Prop :=
| tc_nil : tree_content name_ok [] []
| tc_cons : forall mode t id name items rest,
    git_mode mode t -> name_ok name -> ~ In 0 name -> length id = 20%nat ->
    tree_content name_ok items rest ->
    tree_content name_ok (mkTreeItem mode t id name :: items)
      (mode ++ [32] ++ name ++ [0] ++ id ++ rest).
Definition git_tree : list tree_item -> bytes -> Prop := tree_content utf8_text.

Definition legal_item (i : tree_item) : Prop :=
  git_mode (ti_mode i) (ti_type i) /\ utf8_text (ti_filename i) /\ ~ In 0 (ti_filename i) /\
  length (ti_id i) = 20%nat.

(** An identity line: role, name, e-mail in angle brackets, seconds, zone. *)
Definition ident_line (s : sign) (line : bytes) : Prop :=
  exists dec, decimal dec (s_timestamp s) /\
    line = s_t s ++ [32] ++ s_name s ++ [32; 60] ++ s_email s ++ [62; 32] ++ dec ++ [32] ++ s_timezone s.

(** The fields of an identity as Rust can hold them ([String], [usize]). *)
Definition sign_typed (s : sign) : Prop :=
  utf8_text (s_t s) /\ utf8_text (s_name s) /\ utf8_text (s_email s) /\ utf8_text (s_timezone s) /\
  s_timestamp s < 2 ^ 64.
(** No delimiter where the line format cannot express it. *)
Definition sign_clean (s : sign) : Prop :=
  ~ In 32 (s_t s) /\ ~ In 60 (s_t s) /\ ~ In 62 (s_t s) /\
  ~ In 60 (s_name s) /\ ~ In 62 (s_name s) /\ ~ In 62 (s_email s).
Definition one_line (s : sign) : Prop :=
  ~ In 10 (s_t s) /\ ~ In 10 (s_name s) /\ ~ In 10 (s_email s) /\ ~ In 10 (s_timezone s).
(** An identity with a given role that git would write. *)
Definition ident_of (role : bytes) (s : sign) : Prop :=
  s_t s = role /\ sign_typed s /\ sign_clean s /\ one_line s.

(** Lines with a key and the hexadecimal text of an id. *)
Definition id_line (key : bytes) (h : hash) (line : bytes) : Prop :=
  exists hex, length h = 20%nat /\ lower_hex hex h /\ line = key ++ [32] ++ hex ++ [10].

(** Content of a commit object. [message] is everything after the committer line,
    that is, further headers (encoding, gpgsig, mergetag), the blank line and the
    message proper. *)
Definition git_commit (tree_id : hash) (parents : list hash) (author committer : sign)
  (message content : bytes) : Prop :=
  exists tree_line parent_lines author_line committer_line,
    id_line (bs "tree") tree_id tree_line /\
    Forall2 (id_line (bs "parent")) parents parent_lines /\
    ident_line author author_line /\ ident_line committer committer_line /\
    content = tree_line ++ concat parent_lines ++ author_line ++ [10] ++ committer_line ++ [10] ++ message.

(** Content of an annotated tag; [message] is everything after the tagger line. *)
Definition git_tag (object : hash) (t : otype) (name : bytes) (tagger : sign)
  (message content : bytes) : Prop :=
  exists object_line tname tagger_line,
    id_line (bs "object") object object_line /\ base_name t tname /\ ident_line tagger tagger_line /\
    content = object_line ++ bs "type " ++ tname ++ [10] ++ bs "tag " ++ name ++ [10] ++
              tagger_line ++ [10] ++ message.

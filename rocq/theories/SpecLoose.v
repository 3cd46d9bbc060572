(** Independent vocabulary for object directories and pack directories
    (Documentation/gitrepository-layout.txt, gitformat-pack.txt). *)

From Verif Require Import Base Digest ModelObject ModelBase ModelLoose SpecObject SpecIdx SpecBase.
Open Scope N_scope.

(** The file of the object with id [h] below the object directory [dir]: a directory
    named by the first two characters of the lower-case text of the id, a file named by
    the other characters. *)
Definition object_file (dir : list bytes) (h : hash) (p : list bytes) : Prop :=
  exists a b, length a = 2%nat /\ lower_hex (a ++ b) h /\ length h = 20%nat /\ p = dir ++ [a; b].

(** The directory holds the object ([t], [data]) under its id [h]. *)
Definition loose (c : codec) (f : fs) (dir : list bytes) (h : hash) (t : otype) (data : bytes) : Prop :=
  exists p content, object_file dir h p /\ framed t (nlen data) data content /\ sha1 content = h /\
    bytes_ok data /\ nlen data < 2 ^ 64 /\ fs_get f p = Some (deflate c content).

(** The directory holds nothing but objects: every file two levels below it is named by
    forty hexadecimal digits. *)
Definition only_objects (f : fs) (dir : list bytes) : Prop :=
  forall a b, fs_get f (dir ++ [a; b]) <> None -> length a = 2%nat /\ exists h, id_text (a ++ b) h.

(** Trees of at most [n] levels that hold only plain files and directories, all present. *)
Inductive plain_tree (c : codec) (f : fs) (dir : list bytes) : nat -> hash -> Prop :=
| pt_tree : forall n h data items, loose c f dir h Tree data -> git_tree items data ->
    (forall i, In i items -> ti_type i = IBlob \/ ti_type i = ITree) ->
    (forall i, In i items -> ti_type i = ITree -> plain_tree c f dir n (ti_id i)) ->
    plain_tree c f dir (S n) h.

(** Decimal numerals, leading zeros and the empty one included. *)
Definition numeral (s : bytes) (n : N) : Prop :=
  Forall (fun c => 48 <= c <= 57) s /\ fold_left (fun a c => a * 10 + (c - 48)) s 0 = n.

(** Names of files in a pack directory. A pack by git's layout; a name by which the last
    four characters can be asked for. *)
Definition git_pack_name (name : bytes) : Prop :=
  exists hex h, length h = 20%nat /\ lower_hex hex h /\ name = bs "pack-" ++ hex ++ bs ".pack".
Definition ends_in (suffix name : bytes) : Prop := exists p, name = p ++ suffix.
Definition long_name (name : bytes) : Prop :=
  exists p q, name = p ++ q /\ length q = 4%nat /\ utf8_text p /\ utf8_text q.
(** The characters 5 to 44 of the name are the text of the id [h]. *)
Definition named_by (name : bytes) (h : hash) : Prop :=
  exists p hex r, name = p ++ hex ++ r /\ length p = 5%nat /\ id_text hex h.
(** The packs among the entries of a listing, in its order, with the ids in their names. *)
Inductive packs_of : list dir_entry -> list dir_entry -> list hash -> Prop :=
| po_nil : packs_of [] [] []
| po_pack : forall e l files hs h, long_name (d_name e) -> ends_in (bs "pack") (d_name e) -> named_by (d_name e) h ->
    packs_of l files hs -> packs_of (e :: l) (e :: files) (h :: hs)
| po_other : forall e l files hs, long_name (d_name e) -> ~ ends_in (bs "pack") (d_name e) ->
    packs_of l files hs -> packs_of (e :: l) files hs.
(** Later in the list, not created earlier. *)
Definition not_later (a b : dir_entry) : Prop :=
  match d_created a, d_created b with Some x, Some y => x <= y | _, _ => False end.

(** Vocabulary for the storage properties: object graphs, what rows stand for, and
    the assumptions on the database server. *)

From Coq Require Import Permutation.
From Verif Require Import Base Digest ModelObject ModelBase ModelPack ModelStorage SpecObject SpecIdx SpecBase SpecPack SpecPath.
Open Scope N_scope.

(** Row and hash-map orders are orders; the collation is reflexive and tells apart
    different ids in lower-case hexadecimal. *)
Definition env_ok (e : env) : Prop :=
  (forall t A (l : list A), Permutation (ord e t A l) l) /\
  (forall a, teq e a a = true) /\
  (forall a b g h, lower_hex a g -> lower_hex b h -> length g = 20%nat -> length h = 20%nat ->
     teq e a b = true -> a = b).

(** A commit with the given root tree. *)
Definition commit_root (data : bytes) (tid : hash) : Prop :=
  exists ps a c msg, git_commit tid ps a c msg data /\ ident_of (bs "author") a /\
    ident_of (bs "committer") c /\ utf8_text msg.

(** What a tree entry of a given type names; submodules name a commit. *)
Definition entry_type (t : item_type) : otype :=
  match t with ITree => Tree | ICommit => Commit | _ => Blob end.
(** [refers o t h]: the object [o] names, as part of its content, an object of type
    [t] with id [h]. Parents of commits are not part of the content. *)
Inductive refers : object -> otype -> hash -> Prop :=
| rf_root : forall d tid, commit_root d tid -> refers (Commit, d) Tree tid
| rf_entry : forall d items i, git_tree items d -> In i items ->
    refers (Tree, d) (entry_type (ti_type i)) (ti_id i).

(** The commits of [S] and all that their trees lead to within [S]. *)
Inductive reach (S : object -> Prop) : object -> Prop :=
| rc_commit : forall d, S (Commit, d) -> reach S (Commit, d)
| rc_refers : forall o t h d, reach S o -> refers o t h -> t <> Commit -> S (t, d) -> obj_id (t, d) h ->
    reach S (t, d).

(** Nothing is missing: every name met on the way is that of an object of [S]. *)
Definition complete (S : object -> Prop) : Prop :=
  forall o t h, reach S o -> refers o t h -> t <> Commit /\ exists d, S (t, d) /\ obj_id (t, d) h.
(** Weaker: the root trees are there, and what is there has the type its name says. *)
Definition rooted (S : object -> Prop) : Prop :=
  forall d tid, S (Commit, d) -> commit_root d tid -> exists d', S (Tree, d') /\ obj_id (Tree, d') tid.
Definition well_typed (S : object -> Prop) : Prop :=
  forall o t h o', reach S o -> refers o t h -> S o' -> obj_id o' h -> fst o' = t.
Definition collision_free (S : object -> Prop) : Prop :=
  forall a b h, S a -> S b -> obj_id a h -> obj_id b h -> a = b.
(** No tree contains itself. *)
Definition acyclic (S : object -> Prop) : Prop :=
  exists rank : hash -> nat, forall d h h', S (Tree, d) -> obj_id (Tree, d) h -> refers (Tree, d) Tree h' ->
    (rank h' < rank h)%nat.

(** Objects git would send: commits and trees parse, names in a tree differ. *)
Definition sound_object (o : object) : Prop :=
  bytes_ok (snd o) /\ nlen (snd o) < 2 ^ 61 /\
  match fst o with
  | Commit => exists tid, commit_root (snd o) tid
  | Tree => exists items, git_tree items (snd o) /\ NoDup (map ti_filename items)
  | Blob => True
  | Tag => exists h t name g kept, git_tag h t name g ([10] ++ kept) (snd o) /\ utf8_text name /\ ~ In 10 name /\
             ident_of (bs "tagger") g /\ utf8_text ([10] ++ kept)
  | _ => False
  end.

(** The number of characters of a text. *)
Definition text_len (l : bytes) (n : nat) : Prop :=
  exists cs, Forall scalar cs /\ l = flat_map utf8_char cs /\ length cs = n.
(** Values the columns can hold. *)
Definition fits_columns (path : bytes) (o : object) : Prop :=
  match fst o with
  | Commit => nlen (snd o) <= 65535 /\ exists n, text_len path n /\ (n <= 128)%nat
  | Tree => nlen (snd o) <= 16777215 /\ nlen (snd o) < 10485760 /\
            forall items i, git_tree items (snd o) -> In i items ->
              exists n, text_len (ti_filename i) n /\ (n <= 128)%nat
  | _ => nlen (snd o) <= 16777215
  end.

(** What the theorems ask of the objects of a push: git wrote them, nothing is missing
    (no submodules), ids differ, no tree contains itself, and all fits the columns. *)
Record history (path : bytes) (objs : list object) : Prop := {
  hs_sound : Forall sound_object objs;
  hs_complete : complete (fun o => In o objs);
  hs_free : collision_free (fun o => In o objs);
  hs_acyclic : acyclic (fun o => In o objs);
  hs_fits : forall o, reach (fun o => In o objs) o -> fits_columns path o }.

(** What rows stand for. *)
Inductive node_for : node_row -> object -> Prop :=
| nf_tree : forall r h d, obj_id (Tree, d) h -> lower_hex (n_git_id r) h -> n_type r = bs "tree" -> n_data r = d ->
    node_for r (Tree, d)
| nf_blob : forall r h d, obj_id (Blob, d) h -> lower_hex (n_git_id r) h -> n_type r = bs "blob" -> n_data r = d ->
    node_for r (Blob, d).
Inductive commit_for : commit_row -> object -> Prop :=
| cf_commit : forall r h tid d, obj_id (Commit, d) h -> lower_hex (c_git_id r) h -> commit_root d tid ->
    lower_hex (c_tree r) tid -> c_meta r = d -> commit_for r (Commit, d).

(** Every row stands for a sound object. *)
Definition sound_db (d : db) : Prop :=
  (forall r, In r (d_nodes d) -> exists o, node_for r o /\ sound_object o) /\
  (forall r, In r (d_commits d) -> exists o, commit_for r o /\ sound_object o).
(** The objects available to the repository at [path]: its commits, and all trees and
    blobs (they are shared between repositories). *)
Definition repo_objects (e : env) (d : db) (path : bytes) (o : object) : Prop :=
  (exists r, In r (d_nodes d) /\ node_for r o) \/
  (exists r, In r (d_commits d) /\ teq e (c_repo_path r) path = true /\ commit_for r o).

(** Weaker than [sound_db]: the ids of all trees and blobs are those of their content;
    only what the repository at [path] leads to has to be sound. *)
Definition honest_db (e : env) (d : db) (path : bytes) : Prop :=
  (forall r, In r (d_nodes d) -> exists o, node_for r o) /\
  (forall r, In r (d_commits d) -> teq e (c_repo_path r) path = true -> exists o, commit_for r o) /\
  (forall o, reach (repo_objects e d path) o -> sound_object o).

(** Fewer than 2^32 objects, the most a pack can announce. *)
Definition few (S : object -> Prop) : Prop := exists l, nlen l < 2 ^ 32 /\ forall o, S o -> In o l.

(** The server has no statement left that fails. *)
Definition no_failure (w : world) : Prop := w_fails w = [].

(** [id] is that of a stored commit whose root tree is stored. *)
Definition has_commit (d : db) (id : bytes) : Prop :=
  exists row data tid n tree, In row (d_commits d) /\ c_git_id row = id /\ commit_for row (Commit, data) /\
    commit_root data tid /\ In n (d_nodes d) /\ node_for n (Tree, tree) /\ obj_id (Tree, tree) tid.
Definition refs_stored (d : db) : Prop := forall r, In r (d_refs d) -> has_commit d (r_ref_git_id r).

(** Every reference has its own key, below the next one to be given out. *)
Definition refs_table (d : db) : Prop :=
  NoDup (map r_id (d_refs d)) /\ forall r, In r (d_refs d) -> r_id r < d_next_ref d.

(** Every name of the object graph met on the way is that of some object of [S]. *)
Definition self_contained (S : object -> Prop) : Prop :=
  forall o t h, reach S o -> refers o t h -> exists o', S o' /\ obj_id o' h.

(** Rows added to the tables. *)
Definition with_nodes (d : db) (l : list node_row) : db := mkDb (d_nodes d ++ l) (d_commits d) (d_refs d) (d_next_ref d).
Definition with_rows (d : db) (l : list node_row) (cl : list commit_row) : db :=
  mkDb (d_nodes d ++ l) (d_commits d ++ cl) (d_refs d) (d_next_ref d).

(** The row of a root tree has no name. *)
Definition root_row (c : commit_row) (r : node_row) : Prop :=
  n_git_id r = c_tree c /\ n_type r = bs "tree" /\ n_name r = [] /\ n_mode r = [].
(** [i] is an entry of a tree that [objs] reaches. *)
Definition is_entry (objs : list object) (i : tree_item) : Prop :=
  exists d items, reach (fun o => In o objs) (Tree, d) /\ git_tree items d /\ In i items.
(** The row of an entry has its name and mode. *)
Definition named_row (objs : list object) (r : node_row) : Prop := exists i, is_entry objs i /\ lower_hex (n_git_id r) (ti_id i) /\
  n_name r = ti_filename i /\ n_mode r = ti_mode i /\
  n_type r = match entry_type (ti_type i) with Tree => bs "tree" | _ => bs "blob" end.
(** One row for each commit, and one for each object that is in a tree. *)
Definition rows_shape (objs : list object) (rows : list node_row) (crows : list commit_row) : Prop :=
  exists roots entries, Permutation rows (roots ++ entries) /\ Forall2 root_row crows roots /\
    NoDup (map n_git_id entries) /\ Forall (named_row objs) entries /\
    forall i, is_entry objs i -> exists r, In r entries /\ lower_hex (n_git_id r) (ti_id i).

(** [rows] and [crows] stand for what [objs] reaches. *)
Record rows_for (path : bytes) (objs : list object) (rows : list node_row) (crows : list commit_row) : Prop := {
  rf_nodes : forall r, In r rows -> exists o, node_for r o /\ reach (fun o => In o objs) o;
  rf_nodes_all : forall o, reach (fun o => In o objs) o -> fst o <> Commit -> exists r, In r rows /\ node_for r o;
  rf_commits : forall r, In r crows -> c_repo_path r = path /\ exists o, commit_for r o /\ In o objs;
  rf_commits_all : forall d, In (Commit, d) objs -> exists r, In r crows /\ c_repo_path r = path /\ commit_for r (Commit, d);
  rf_commits_once : NoDup (map c_git_id crows);
  rf_shape : rows_shape objs rows crows }.

(** Changes to the table of references. *)
Definition with_refs (d : db) (l : list ref_row) : db := mkDb (d_nodes d) (d_commits d) l (d_next_ref d).
Definition with_id (r : ref_row) (i : bytes) : ref_row := mkRef (r_id r) (r_repo_path r) (r_ref_name r) i.

(** The head of a path that is below a repository. *)
Definition is_head (e : env) (path : bytes) (r : ref_row) : Prop :=
  like e path (r_repo_path r) = true /\ teq e (r_ref_name r) master = true.
Definition found_node (e : env) (d : db) (path : bytes) (n : node_row) : Prop :=
  exists name, last_name path name /\ In n (d_nodes d) /\
    (teq e (n_name n) name = true \/
     (forall x, In x (d_nodes d) -> teq e (n_name x) name = false) /\ teq e (n_name n) [] = true).

(** The references the storage reports. *)
Definition listing (rows : list ref_row) (l : list (bytes * bytes)) : Prop :=
  NoDup (map fst l) /\
  (forall i n, In (i, n) l -> exists r, In r rows /\ r_ref_git_id r = i /\ r_ref_name r = n) /\
  (forall r, In r rows -> exists n, In (r_ref_git_id r, n) l).

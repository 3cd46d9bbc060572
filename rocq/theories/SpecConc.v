(** Vocabulary for requests served at the same time. *)

From Verif Require Import Base ModelObject ModelBase ModelPack ModelStorage ModelProto ModelService ModelConc.
From Verif Require Import SpecObject SpecIdx SpecBase SpecPack SpecPath SpecStorage SpecService.
Open Scope N_scope.

(** The states the database goes through. *)
Definition moment (e : env) (schedule : list nat) (ts : serving) (w : world) (d : db) : Prop :=
  exists s1 s2, schedule = s1 ++ s2 /\ d = w_db (snd (interleave e s1 ts w)).
(** Request [i] has been answered. *)
Definition replied (ts : serving) (i : nat) (reply : bytes) : Prop := nth_error ts i = Some (PRet (Ok reply)).

(** Rows that contain whatever their trees name. *)
Definition closed_rows (l : list node_row) : Prop :=
  forall r x items i, In r l -> node_for r (Tree, x) -> bytes_ok x -> git_tree items x -> In i items ->
    exists r', In r' l /\ lower_hex (n_git_id r') (ti_id i).
(** The root tree of a commit is stored with all that belongs to it. *)
Definition whole (d : db) (c : commit_row) : Prop :=
  exists l, (forall r, In r l -> In r (d_nodes d)) /\ closed_rows l /\
    exists r, In r l /\ n_git_id r = c_tree c /\ n_type r = bs "tree".
(** A commit of a path below a repository: made up for an advertisement. *)
Definition derived (d : db) (c : commit_row) : Prop :=
  exists r, In r (d_refs d) /\ within (c_repo_path c) (r_repo_path r) /\ r_repo_path r <> c_repo_path c.

(** No repository has a path above [path]. *)
Definition top_level (e : env) (d : db) (path : bytes) : Prop :=
  forall r p, In r (d_refs d) -> teq e p path = true -> within p (r_repo_path r) -> r_repo_path r = p.
(** No tree has a submodule. *)
Definition no_submodules (S : object -> Prop) : Prop := forall o t h, reach S o -> refers o t h -> t <> Commit.
(** Request [i] has ended without an answer. *)
Definition aborted (ts : serving) (i : nat) : Prop := exists o, nth_error ts i = Some (PRet o) /\ forall a, o <> Ok a.
(** The seconds in which parts of a request arrive. *)
Definition arrives (r : request) (t : N) : Prop :=
  match r with QHttp now _ _ _ _ _ => now = t | QSsh now _ _ => exists n, now n = t end.
(** The rows of [l] are stored. *)
Definition rows_stored (path : bytes) (l : list object) (d : db) : Prop :=
  exists rows crows, rows_for path l rows crows /\ incl rows (d_nodes d) /\ incl crows (d_commits d).
(** No other request uses the second [t]. *)
Definition own_second (rs : list request) (i : nat) (t : N) : Prop :=
  forall j r, nth_error rs j = Some r -> j <> i -> ~ arrives r t.
(** The other requests are about other repositories. *)
Definition own_repo (e : env) (rs : list request) (i : nat) (path : bytes) : Prop :=
  forall j r p, nth_error rs j = Some r -> j <> i -> about r p -> teq e p path = false.

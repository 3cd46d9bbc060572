(** Paths of repositories: what std::path documents, without its algorithms. *)

From Verif Require Import Base.
Open Scope N_scope.

(** A path is cut at its slashes. *)
Inductive path_parts : bytes -> list bytes -> Prop :=
| pa_last : forall x, ~ In 47 x -> path_parts x [x]
| pa_more : forall x p l, ~ In 47 x -> path_parts p l -> path_parts (x ++ 47 :: p) (x :: l).
(** Repeated slashes and single dots mean nothing. *)
Definition empty_part (x : bytes) : Prop := x = [] \/ x = [46].
Inductive path_names : list bytes -> list bytes -> Prop :=
| pn_nil : path_names [] []
| pn_skip : forall x l n, empty_part x -> path_names l n -> path_names (x :: l) n
| pn_name : forall x l n, ~ empty_part x -> path_names l n -> path_names (x :: l) (x :: n).
(** The names of a path; [true] if it starts at the root. A dot counts at the very start. *)
Inductive path_reads : bytes -> bool -> list bytes -> Prop :=
| pr_root : forall p l n, path_parts p l -> path_names l n -> path_reads (47 :: p) true n
| pr_dot : forall p l n, path_parts p ([46] :: l) -> path_names l n -> path_reads p false ([46] :: n)
| pr_rel : forall p x l n, path_parts p (x :: l) -> x <> [46] -> hd 0 p <> 47 -> path_names (x :: l) n -> path_reads p false n.
(** [p] is [q] or something in it; everything is in the empty path. *)
Definition within (p q : bytes) : Prop :=
  path_reads q false [] \/ exists root n more, path_reads q root n /\ path_reads p root (n ++ more).

(** The last name of a path, if it is not "..": only slashes and dots come after it. *)
Definition last_name (p name : bytes) : Prop :=
  exists pre post, p = pre ++ name ++ concat (map (cons 47) post) /\ (pre = [] \/ exists q, pre = q ++ [47]) /\
    ~ In 47 name /\ ~ empty_part name /\ name <> [46; 46] /\ Forall empty_part post.

(** A path without parts that mean nothing, for which all this is simple. *)
Definition plain_path (p : bytes) : Prop :=
  exists root l, l <> [] /\ Forall (fun x => ~ In 47 x /\ ~ empty_part x) l /\ (root = [] \/ root = [47]) /\
    exists q, path_parts q l /\ p = root ++ q.

(** The file a path leads to when there are no symbolic links: from the root, or from
    the working directory, ".." goes up and stays at the top. *)
Inductive leads : list bytes -> list bytes -> Prop :=
| ld_nil : leads [] []
| ld_skip : forall l n x, leads l n -> empty_part x -> leads (l ++ [x]) n
| ld_up : forall l n, leads l n -> leads (l ++ [[46; 46]]) (removelast n)
| ld_down : forall l n x, leads l n -> ~ empty_part x -> x <> [46; 46] -> leads (l ++ [x]) (n ++ [x]).
Definition file_at (p : bytes) (f : list bytes) : Prop :=
  exists l n, path_parts p l /\ leads l n /\ f = (if hd 0 p =? 47 then [47] else [46]) :: n.
(** Pieces put together with slashes; a piece that starts at the root makes those before
    it void. *)
Inductive joins : list bytes -> bytes -> Prop :=
| jn_last : forall x, joins [x] x
| jn_more : forall x y l p, hd 0 p <> 47 -> joins (y :: l) p -> joins (x :: y :: l) (x ++ 47 :: p)
| jn_root : forall x y l p, hd 0 p = 47 -> joins (y :: l) p -> joins (x :: y :: l) p.

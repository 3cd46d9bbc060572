(** Vocabulary for the classification of decoded objects. *)

From Coq Require Import Permutation.
From Verif Require Import Base ModelObject ModelBase ModelPack ModelDecode.
Open Scope N_scope.

Definition of_type (t : otype) (l : list meta) : list meta := filter (fun m => otype_eqb (m_t m) t) l.

(** The four lists hold, together, each object exactly once, in the list of its type,
    parsed. *)
Record classified (objs : list meta) (bs : list blob) (cs : list commit) (ts : list tree) (gs : list tag)
  : Prop := {
  cl_blobs : Permutation (map b_meta bs) (of_type Blob objs);
  cl_commits : Permutation (map cm_meta cs) (of_type Commit objs);
  cl_trees : Permutation (map t_meta ts) (of_type Tree objs);
  cl_tags : Permutation (map tg_meta gs) (of_type Tag objs);
  cl_blobs_parsed : Forall (fun b => b = blob_new (b_meta b)) bs;
  cl_commits_parsed : Forall (fun c => commit_new (cm_meta c) = Ok c) cs;
  cl_trees_parsed : Forall (fun t => tree_new (t_meta t) = Ok t) ts;
  cl_tags_parsed : Forall (fun t => tag_new (tg_meta t) = Ok t) gs }.

(** An object that parses as what its type says. *)
Definition parses (m : meta) : Prop :=
  match m_t m with
  | Blob => True
  | Commit => exists c, commit_new m = Ok c
  | Tree => exists t, tree_new m = Ok t
  | Tag => exists t, tag_new m = Ok t
  | _ => False
  end.

(** Descending order of (name, size); equal elements may be in any order. *)
Definition before (n1 : bytes) (s1 : N) (n2 : bytes) (s2 : N) : Prop :=
  bcmp n2 n1 = Lt \/ n1 = n2 /\ s2 <= s1.
Inductive descending {A} (name : A -> bytes) (size : A -> N) : list A -> Prop :=
| d_nil : descending name size []
| d_one : forall a, descending name size [a]
| d_cons : forall a b l, before (name a) (size a) (name b) (size b) ->
    descending name size (b :: l) -> descending name size (a :: b :: l).

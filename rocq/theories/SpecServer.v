(** A server seen by the clients of one repository (C113): a list of references and a list of
    objects, without tables, rows or requests. *)

From Verif Require Import Base ModelUtils ModelObject ModelPack ModelPkt ModelStorage ModelProto ModelLfs ModelGateway ModelService.
From Verif Require Import SpecObject SpecBase SpecIdx SpecPack SpecPkt SpecStorage SpecProto SpecService PropPkt.
Open Scope N_scope.

(** What has been pushed to the repository: the references (name, id) in the order of their
    creation, and the objects. *)
Record store := mkStore { s_refs : list (bytes * bytes); s_objs : list object }.
Definition store_new : store := mkStore [] [].

(** A push: of a new reference, or from an old id to a new one. *)
Inductive push :=
| PCreate (name new : bytes) (objs : list object)
| PUpdate (old name new : bytes) (objs : list object).
Definition p_objs (p : push) : list object := match p with PCreate _ _ o => o | PUpdate _ _ _ o => o end.
Definition p_name (p : push) : bytes := match p with PCreate n _ _ => n | PUpdate _ n _ _ => n end.
Definition p_new (p : push) : bytes := match p with PCreate _ n _ => n | PUpdate _ _ n _ => n end.
Definition p_old (p : push) : bytes := match p with PCreate _ _ _ => repeat 48 40 | PUpdate o _ _ _ => o end.

(** The id of a reference: 40 lower-case digits, not all zero. *)
Definition ref_id (i : bytes) : Prop := (exists h, id_ok h /\ lower_hex i h) /\ i <> repeat 48 40.
(** The push brings a history of its own, and together with what was pushed before there is
    still one object to an id and no tree in itself. *)
Definition brings (path : bytes) (A : store) (objs : list object) : Prop :=
  history path objs /\ (exists d, In (Commit, d) objs) /\ history path (s_objs A ++ objs) /\ nlen (s_objs A ++ objs) < 2 ^ 32.
(** Pushes the server can take: a new name of at most 31 characters, or an update of the
    only reference with the old id. [same] is the equality of texts of the database. *)
Inductive allowed (same : bytes -> bytes -> bool) (path : bytes) (A : store) : push -> Prop :=
| al_create : forall name new objs, ref_id new -> word name -> (exists k, text_len name k /\ (k <= 31)%nat) ->
    brings path A objs -> allowed same path A (PCreate name new objs)
| al_update : forall old name new objs l1 n l2, ref_id old -> ref_id new -> word name -> nlen name <= 60000 ->
    s_refs A = l1 ++ (n, old) :: l2 -> (forall m i, In (m, i) (l1 ++ l2) -> same i old = false) ->
    brings path A objs -> allowed same path A (PUpdate old name new objs).
(** An update from an id that no reference has: the server does not answer it. What it brings
    is kept. *)
Inductive stale (path : bytes) (A : store) : push -> Prop :=
| st_update : forall old name new objs, ref_id old -> ref_id new -> word name -> nlen name <= 60000 ->
    (forall n i, In (n, i) (s_refs A) -> i <> old) -> brings path A objs -> stale path A (PUpdate old name new objs).
Definition kept (A : store) (p : push) : store := mkStore (s_refs A) (s_objs A ++ p_objs p).
(** What is then pushed. The name of a reference is kept with a NUL at its end. *)
Inductive after (A : store) : push -> store -> Prop :=
| af_create : forall name new objs, after A (PCreate name new objs) (mkStore (s_refs A ++ [(name ++ [0], new)]) (s_objs A ++ objs))
| af_update : forall old name new objs l1 n l2, s_refs A = l1 ++ (n, old) :: l2 -> ~ In old (map snd (l1 ++ l2)) ->
    after A (PUpdate old name new objs) (mkStore (l1 ++ (n, new) :: l2) (s_objs A ++ objs)).

(** The head: the id of the reference called master. *)
Definition head_id (same : bytes -> bytes -> bool) (A : store) (id : bytes) : Prop :=
  (exists n, In (n, id) (s_refs A) /\ same n (bs "refs/heads/master") = true) /\
  forall n i, In (n, i) (s_refs A) -> same n (bs "refs/heads/master") = true -> i = id.
(** The references shown: of those with one id, one. *)
Definition shown (A : store) (l : list (bytes * bytes)) : Prop :=
  NoDup (map fst l) /\ (forall i n, In (i, n) l -> In (n, i) (s_refs A)) /\ (forall n i, In (n, i) (s_refs A) -> exists m, In (i, m) l).
(** The head that a greeting names. *)
Definition greeted (same : bytes -> bytes -> bool) (A : store) (id : bytes) : Prop :=
  head_id same A id \/ s_refs A = [] /\ id = repeat 48 40.

(** The bytes of a push: one command, and a pack that contains all it needs. *)
Definition pack_for (c : codec) (p : push) (pack : bytes) : Prop :=
  nlen pack < 2 ^ 32 /\ forall st, exists objs, git_pack c st pack objs /\ map snd objs = p_objs p.

(** ** A push that is sent again (C129) *)

(** The push has been accepted, and its reference has not been moved since. *)
Definition sent (A : store) (p : push) : Prop :=
  incl (p_objs p) (s_objs A) /\
  match p with
  | PCreate name new _ => In (name ++ [0], new) (s_refs A)
  | PUpdate old _ _ _ => forall n i, In (n, i) (s_refs A) -> i <> old
  end.
(** Who asks for references or for objects cannot tell the two stores apart. *)
Definition looks_same (same : bytes -> bytes -> bool) (A B : store) : Prop :=
  (forall id, greeted same A id <-> greeted same B id) /\ (forall l, shown A l <-> shown B l) /\
  forall o, reach (fun o => In o (s_objs A)) o <-> reach (fun o => In o (s_objs B)) o.
(** A push with which nothing is wrong in itself. *)
Definition well_made (path : bytes) (p : push) : Prop :=
  ref_id (p_new p) /\ word (p_name p) /\ (exists k, text_len (p_name p) k /\ (k <= 31)%nat) /\ history path (p_objs p) /\ (exists d, In (Commit, d) (p_objs p)) /\
  match p with PCreate _ _ _ => True | PUpdate old _ _ _ => ref_id old end.

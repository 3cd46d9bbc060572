(** Vocabulary for requests to git-lfs served at the same time. *)

From Coq Require Import ZArith.
From Verif Require Import Base ModelObject ModelLfs ModelLfsConc SpecObject SpecLfs.
Open Scope N_scope.

(** All requests have arrived, none has begun. *)
Definition arrived (v : lenv) (xs : list lfs_event) : lserving := map (lfs_p v) xs.
(** Request [i] has ended with the outcome [r]. *)
Definition ended (ts : lserving) (i : nat) (r : res lfs_reply) : Prop := nth_error ts i = Some (LRet r).

(** The objects in the table have names of ids. *)
Definition word_ids (w : lfs) : Prop := forall m, In m (l_meta w) -> id_word (mt_oid m).
(** The content of an object was announced; what its file has; the content is stored. *)
Definition announced (v : lenv) (w : lfs) (oid content : bytes) : Prop :=
  content_id oid content /\ exists m, object_row v w oid m /\ mt_size m = Z.of_nat (length content).
Definition file_has (v : lenv) (w : lfs) (oid : bytes) (c : option bytes) : Prop :=
  exists p, store_path v oid = Ok p /\ can_open v p = true /\ fs_get (l_files w) p = c.
Definition stored (v : lenv) (w : lfs) (oid content : bytes) : Prop := announced v w oid content /\ file_has v w oid (Some content).
(** Requests that upload or download an object. *)
Definition uploads (v : lenv) (oid : bytes) (x : lfs_event) : Prop := match x with EUpload o _ => l_teq v o oid = true | _ => False end.
Definition downloads (v : lenv) (oid : bytes) (x : lfs_event) : Prop := match x with EDownload o => l_teq v o oid = true | _ => False end.
(** Every upload of the object carries [content]. *)
Definition uploads_only (v : lenv) (oid content : bytes) (x : lfs_event) : Prop := match x with EUpload o b => l_teq v o oid = true -> b = content | _ => True end.
Definition accepted : res lfs_reply := Ok (ROk 200 BEmpty).

(** What a request is about: the refs of locks, the ids of objects. *)
Definition refs_of (x : lfs_event) : list bytes :=
  match x with
  | EList q => [text (q_refspec q)] | EVerify (Some rq) => [v_ref rq] | ELock (Some rq) _ _ => [lr_ref rq] | EUnlock _ (Some (Some rq)) => [ul_ref rq]
  | _ => []
  end.
Definition objects_of (x : lfs_event) : list bytes :=
  match x with EBatch (Some (_, l)) => map ob_oid l | EUpload o _ | EDownload o => [o] | _ => [] end.
Definition unrelated (v : lenv) (x y : lfs_event) : Prop :=
  (forall a b, In a (refs_of x) -> In b (refs_of y) -> l_teq v a b = false) /\ (forall a b, In a (objects_of x) -> In b (objects_of y) -> l_teq v a b = false).
(** Ids of five characters or more; a store that has only such. *)
Definition long_id (o : bytes) : Prop := id_word o /\ 5 <= nlen o.
Definition long_store (v : lenv) (w : lfs) : Prop :=
  (forall m, In m (l_meta w) -> long_id (mt_oid m)) /\ forall p c, In (p, c) (l_files w) -> exists o, long_id o /\ store_path v o = Ok p.
(** Two states have the same locks for a ref; the same of an object. *)
Definition same_locks (v : lenv) (w w' : lfs) (ref : bytes) : Prop :=
  filter (fun r => l_teq v (fst r) ref) (l_locks w) = filter (fun r => l_teq v (fst r) ref) (l_locks w').
Definition same_object (v : lenv) (w w' : lfs) (oid : bytes) : Prop :=
  filter (fun r => l_teq v (mt_oid r) oid) (l_meta w) = filter (fun r => l_teq v (mt_oid r) oid) (l_meta w') /\
  forall p, store_path v oid = Ok p -> fs_get (l_files w) p = fs_get (l_files w') p.

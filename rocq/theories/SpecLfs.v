(** Vocabulary for the LFS properties. *)

From Coq Require Import ZArith Permutation Sorting.Sorted.
From Verif Require Import Base Digest ModelObject ModelPkt ModelStorage ModelLfs SpecObject SpecIdx SpecBase.
Open Scope N_scope.

(** Locks whose texts are valid UTF-8, as every [String] is. *)
Definition owner_text (o : option bytes) : Prop := match o with Some n => utf8_text n | None => True end.
Definition lock_text (x : lock) : Prop := utf8_text (lk_id x) /\ utf8_text (lk_path x) /\ utf8_text (lk_at x) /\ owner_text (lk_owner x).
(** The collation is an equivalence; JSON texts are not empty, reading gives back what was
    written, and fewer locks do not take more room. *)
Definition lenv_ok (v : lenv) : Prop :=
  (forall a, l_teq v a a = true) /\ (forall a b, l_teq v a b = l_teq v b a) /\
  (forall a b c, l_teq v a b = true -> l_teq v b c = true -> l_teq v a c = true) /\
  (forall l, Forall lock_text l -> js_enc v l <> [] /\ js_dec v (js_enc v l) = Some l) /\
  (forall l1 x l2, chars (js_enc v (l1 ++ l2)) <= chars (js_enc v (l1 ++ x :: l2))).

(** The locks of a ref. *)
Definition locks_of (v : lenv) (w : lfs) (ref : bytes) (l : list lock) : Prop :=
  match filter (fun r => l_teq v (fst r) ref) (l_locks w) with
  | [] => l = []
  | [(_, d)] => js_dec v d = Some l
  | _ => False
  end.

(** The order of the locks: by the text of their time. *)
Definition earlier (a b : lock) : Prop := bcmp (lk_at a) (lk_at b) <> Gt.

(** Numbers drawn for locks: eight digits (http.rs 209-216). Texts are valid UTF-8. *)
Definition lock_number (id : bytes) : Prop := length id = 8%nat /\ Forall (fun b => 48 <= b <= 56) id.
Definition event_ok (x : lfs_event) : Prop :=
  match x with
  | ELock body id now => lock_number id /\ utf8_text now /\ match body with Some rq => utf8_text (lr_path rq) | None => True end
  | _ => True
  end.
(** States that requests lead to from a server without locks. *)
Definition reachable (v : lenv) (w : lfs) : Prop :=
  exists events w0, Forall event_ok events /\ l_locks w0 = [] /\ fst (lfs_run v events w0) = w.

(** Object ids as the routes take them. *)
Definition id_char (b : N) : bool := ((97 <=? b) && (b <=? 122)) || ((48 <=? b) && (b <=? 57)).
Definition id_word (w : bytes) : Prop := w <> [] /\ forallb id_char w = true.
(** The collation tells such ids apart. *)
Definition ids_differ (v : lenv) : Prop := forall a b, id_word a -> id_word b -> l_teq v a b = true -> a = b.
(** The LFS id of a content. *)
Definition content_id (oid content : bytes) : Prop := lower_hex oid (sha256 content).

(** Content is stored under its id. *)
Definition good_store (v : lenv) (w : lfs) : Prop :=
  (forall m, In m (l_meta w) -> id_word (mt_oid m)) /\
  (forall o p d, id_word o -> store_path v o = Ok p -> fs_get (l_files w) p = Some d -> content_id o d).
(** Batches name objects as the routes do. *)
Definition batch_ok (x : lfs_event) : Prop :=
  match x with EBatch (Some (_, objs)) => Forall (fun o => id_word (ob_oid o)) objs | _ => True end.
(** An upload carries the content of its id, or was accepted. *)
Definition upload_ok (x : lfs_event) (r : res lfs_reply) : Prop :=
  match x with EUpload oid body => content_id oid body \/ r = Ok (ROk 200 BEmpty) | _ => True end.

(** The row that a statement finds. *)
Definition object_row (v : lenv) (w : lfs) (oid : bytes) (m : meta_row) : Prop :=
  exists l1 l2, l_meta w = l1 ++ m :: l2 /\ l_teq v (mt_oid m) oid = true /\ Forall (fun x => l_teq v (mt_oid x) oid = false) l1.
Definition no_object_row (v : lenv) (w : lfs) (oid : bytes) : Prop := Forall (fun x => l_teq v (mt_oid x) oid = false) (l_meta w).
(** Something stands where the content of an object belongs. *)
Definition present (v : lenv) (w : lfs) (oid : bytes) : Prop :=
  exists p, store_path v oid = Ok p /\ can_open v p = true /\ (is_dir v (l_files w) p = true \/ exists d, fs_get (l_files w) p = Some d).
(** The entry for one object of a batch, and the row written for it. *)
Inductive entry (v : lenv) (w : lfs) (op : bytes) (o : object_request) : repr -> list meta_row -> Prop :=
| entry_here : forall m, object_row v w (ob_oid o) m -> present v w (mt_oid m) ->
    entry v w op o (mkRepr (mt_oid m) (mt_size m) (Some true) (Some (bs "download", object_link (ob_user o) (ob_repo o) (l_url v) (ob_oid o))) None) []
| entry_again : forall m, op = bs "upload" -> object_row v w (ob_oid o) m -> ~ present v w (mt_oid m) ->
    entry v w op o (mkRepr (mt_oid m) (mt_size m) (Some true) (Some (bs "upload", object_link (ob_user o) (ob_repo o) (l_url v) (ob_oid o))) None) []
| entry_new : op = bs "upload" -> no_object_row v w (ob_oid o) ->
    entry v w op o (mkRepr (ob_oid o) (ob_size o) (Some true) (Some (bs "upload", object_link (ob_user o) (ob_repo o) (l_url v) (ob_oid o))) None)
      [mkMeta (ob_oid o) (ob_size o) true]
| entry_missing : op <> bs "upload" -> no_object_row v w (ob_oid o) \/ (exists m, object_row v w (ob_oid o) m /\ ~ present v w (mt_oid m)) ->
    entry v w op o (mkRepr (ob_oid o) (ob_size o) None None (Some (404, bs "Not found"))) [].
(** Objects that the table of objects can hold. *)
Definition object_ok (o : object_request) : Prop :=
  id_word (ob_oid o) /\ nlen (ob_oid o) <= 100 /\ (-2147483648 <= ob_size o <= 2147483647)%Z.

(** Replies of the git-lfs API as JSON values (docs/api of git-lfs: locking.md, batch.md). *)

From Coq Require Import ZArith.
From Verif Require Import Base ModelLfs SpecBase SpecLfs SpecJson.
Open Scope N_scope.

Definition lock_is (x : lock) (v : json) : Prop := lock_value (lk_id x) (lk_path x) (lk_at x) (lk_owner x) v.
(** List of locks: [{"locks": [...], "next_cursor": ...}]. *)
Definition list_reply (l : list lock) (next : bytes) (v : json) : Prop :=
  exists m a, v = VObj m /\ member m (bs "locks") (VArr a) /\ Forall2 lock_is l a /\ member m (bs "next_cursor") (VText next).
(** List for verification: [{"ours": [...], "theirs": [...], "next_cursor": ...}]. *)
Definition verify_reply (ours theirs : list lock) (next : bytes) (v : json) : Prop :=
  exists m a b, v = VObj m /\ member m (bs "ours") (VArr a) /\ Forall2 lock_is ours a /\
    member m (bs "theirs") (VArr b) /\ Forall2 lock_is theirs b /\ member m (bs "next_cursor") (VText next).
(** Lock made or removed: [{"lock": {...}}]. *)
Definition lock_reply (x : lock) (v : json) : Prop :=
  exists m y, v = VObj m /\ member m (bs "lock") y /\ lock_is x y.
(** One object of a batch: its action with link, header and time, or its error. *)
Definition link_json (href expires : bytes) (v : json) : Prop :=
  exists m h, v = VObj m /\ member m (bs "href") (VText href) /\ member m (bs "expires_at") (VText expires) /\
    member m (bs "header") (VObj h) /\ Forall (fun x => exists t, snd x = VText t) h.
Definition object_reply (expires : bytes) (x : repr) (v : json) : Prop :=
  exists m, v = VObj m /\ member m (bs "oid") (VText (rp_oid x)) /\ member m (bs "size") (VInt (rp_size x)) /\
    match rp_auth x with Some b => member m (bs "authenticated") (VBool b) | None => no_member m (bs "authenticated") end /\
    match rp_action x with
    | Some (a, href) => exists y, member m (bs "actions") (VObj [(a, y)]) /\ link_json href expires y
    | None => no_member m (bs "actions")
    end /\
    match rp_error x with
    | Some (c, t) => exists e, member m (bs "error") (VObj e) /\ member e (bs "code") (VInt (Z.of_N c)) /\ member e (bs "message") (VText t)
    | None => no_member m (bs "error")
    end.
Definition batch_reply (expires : bytes) (l : list repr) (v : json) : Prop :=
  exists m a, v = VObj m /\ member m (bs "transfer") (VText (bs "basic")) /\ member m (bs "objects") (VArr a) /\ Forall2 (object_reply expires) l a.
Definition reply_json (expires : bytes) (b : lfs_body) (v : json) : Prop :=
  match b with
  | BLocks l next => list_reply l next v
  | BVerify o t next => verify_reply o t next v
  | BLock x => lock_reply x v
  | BBatch l => batch_reply expires l v
  | BData _ | BEmpty => False
  end.

(** Texts of a request; rust strings are UTF-8. *)
Definition object_text (o : object_request) : Prop := utf8_text (ob_oid o) /\ utf8_text (ob_user o) /\ utf8_text (ob_repo o).
Definition request_text (x : lfs_event) : Prop :=
  event_ok x /\ match x with EBatch (Some (_, l)) => Forall object_text l | _ => True end.
Definition json_request (x : lfs_event) : Prop := match x with EUpload _ _ | EDownload _ => False | _ => True end.
(** A batch request: transfers, operation and objects. *)
Definition batch_json (op : bytes) (l : list object_request) (v : json) : Prop :=
  exists m ts a, v = VObj m /\ member m (bs "transfers") (VArr (map VText ts)) /\ member m (bs "operation") (VText op) /\
    member m (bs "objects") (VArr a) /\ Forall2 (fun y o => object_json (ob_oid o) (ob_size o) (ob_user o) (ob_repo o) y /\ fits (ob_size o)) a l.
(** What the server takes for a batch. *)
Definition takes_batch (v : json) (op : bytes) (l : list object_request) : Prop :=
  exists s ts a, laid_out v s [bs "transfers"; bs "operation"; bs "objects"] [Some (VArr (map VText ts)); Some (VText op); Some (VArr a)] /\
    Forall2 (fun y o => takes_object y (ob_oid o) (ob_size o) (ob_user o) (ob_repo o)) a l.

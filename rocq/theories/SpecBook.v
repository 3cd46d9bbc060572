(** The lock server as a book: for each ref the locks that are held, earliest first. *)

From Coq Require Import ZArith Permutation Sorting.Sorted.
From Verif Require Import Base BaseLemmas ModelObject ModelLfs SpecObject SpecLfs.
Open Scope N_scope.

Definition book : Type := bytes -> list lock.

(** Locks a page of [n] shows, and where the next one begins: the last lock is left out
    when it would be alone on the next page (C63). *)
Inductive page (n : nat) : list lock -> list lock -> bytes -> Prop :=
| page_all : forall l, (length l <= n)%nat -> page n l l []
| page_but_one : forall l x, length l = n -> page n (l ++ [x]) l []
| page_more : forall l x y r, length l = n -> page n (l ++ x :: y :: r) l (lk_id x).
(** The locks from the one with the number [c] on. *)
Inductive since (c : bytes) : list lock -> list lock -> Prop :=
| since_here : forall l x r, ~ In c (map lk_id l) -> lk_id x = c -> since c (l ++ x :: r) (x :: r).

(** A path is held when it has a lock; the empty path when there is any lock (C61). *)
Definition held (path : bytes) (l : list lock) : Prop := In path (map lk_path l) \/ path = [] /\ l <> [].
(** The locks with a new one. *)
Definition with_lock (x : lock) (l l' : list lock) : Prop := Permutation l' (x :: l) /\ StronglySorted earlier l'.

Section Book.
(** Which refs are the same, and which locks there is room for. *)
Context (same : bytes -> bytes -> bool) (room : bytes -> list lock -> Prop).

Definition written_for (ref : bytes) (l : list lock) (b b' : book) : Prop := forall r, b' r = if same r ref then l else b r.

(** One request: the book before, the request, the book after and the outcome. *)
Inductive book_step (b : book) : lfs_event -> book -> res lfs_reply -> Prop :=
| step_lock : forall path ref id now l' b', let x := mkLock id path now None in
    ~ held path (b ref) -> with_lock x (b ref) l' -> room ref l' -> written_for ref l' b b' ->
    book_step b (ELock (Some (mkLockReq path ref)) id now) b' (Ok (ROk 201 (BLock x)))
| step_full : forall path ref id now l' msg, ~ held path (b ref) -> with_lock (mkLock id path now None) (b ref) l' -> ~ room ref l' ->
    book_step b (ELock (Some (mkLockReq path ref)) id now) b (Ok (RFail 500 msg))
| step_held : forall path ref id now msg, held path (b ref) ->
    book_step b (ELock (Some (mkLockReq path ref)) id now) b (Ok (RFail 409 msg))
(** Numbers are meant to be unique; all locks with the number go, and the last is named. *)
| step_unlock : forall id force ref l1 x l2 b', id <> [] -> b ref = l1 ++ x :: l2 -> lk_id x = id -> ~ In id (map lk_id l2) ->
    written_for ref (filter (fun y => negb (beq (lk_id y) id)) (b ref)) b b' ->
    book_step b (EUnlock id (Some (Some (mkUnlock force ref)))) b' (Ok (ROk 200 (BLock x)))
| step_unlock_unknown : forall id force ref msg, id <> [] -> ~ In id (map lk_id (b ref)) ->
    book_step b (EUnlock id (Some (Some (mkUnlock force ref)))) b (Ok (RFail 500 msg))
| step_unlock_bad : forall id body msg, id = [] \/ body = None -> book_step b (EUnlock id body) b (Ok (RFail 400 msg))
(** Listing: everything, or (C64) what the path says when taken as cursor and as limit too. *)
| step_list : forall q, text (q_path q) = [] -> book_step b (EList q) b (Ok (ROk 200 (BLocks (b (text (q_refspec q))) [])))
| step_list_unknown : forall q msg, text (q_path q) <> [] -> ~ In (text (q_path q)) (map lk_id (b (text (q_refspec q)))) ->
    book_step b (EList q) b (Ok (RFail 500 msg))
| step_list_page : forall q l s next, let p := text (q_path q) in p <> [] -> since p (b (text (q_refspec q))) l ->
    page (N.to_nat (dec_value 0 p)) (filter (fun x => beq (lk_path x) p) l) s next ->
    book_step b (EList q) b (Ok (ROk 200 (BLocks s next)))
(** Verifying: a page from the start or the cursor, of 100 locks when no other number is
    given; all are ours. *)
| step_verify : forall ref cursor limit z l s next, z = match limit with Some z => if Z.eqb z 0 then 100%Z else z | None => 100%Z end -> (0 <= z)%Z ->
    text cursor = [] /\ l = b ref \/ text cursor <> [] /\ since (text cursor) (b ref) l -> page (Z.to_nat z) l s next ->
    book_step b (EVerify (Some (mkVerify ref cursor limit))) b (Ok (ROk 200 (BVerify s [] next)))
| step_verify_unknown : forall ref cursor limit msg, text cursor <> [] -> ~ In (text cursor) (map lk_id (b ref)) ->
    book_step b (EVerify (Some (mkVerify ref cursor limit))) b (Ok (RFail 500 msg))
| step_verify_negative : forall ref cursor z, (z < 0)%Z -> text cursor = [] \/ In (text cursor) (map lk_id (b ref)) ->
    book_step b (EVerify (Some (mkVerify ref cursor (Some z)))) b Panic
(** Requests that are not understood end without an answer; contents do not matter. *)
| step_not_understood : forall x, (exists id now, x = ELock None id now) \/ (exists id, id <> [] /\ x = EUnlock id (Some None)) \/ x = EVerify None ->
    book_step b x b Panic
| step_content : forall x r, match x with EBatch _ | EUpload _ _ | EDownload _ => True | _ => False end -> book_step b x b r.

Inductive book_run : book -> list lfs_event -> book -> list (res lfs_reply) -> Prop :=
| run_end : forall b, book_run b [] b []
| run_more : forall b x b1 r l b2 rs, book_step b x b1 r -> book_run b1 l b2 rs -> book_run b (x :: l) b2 (r :: rs).
End Book.

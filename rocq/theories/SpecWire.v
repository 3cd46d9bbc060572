(** The lock API as HTTP clients see it: what a request asks of the book of locks, and what a
    response says of its answer. *)

From Coq Require Import ZArith.
From Verif Require Import Base ModelObject ModelLfs ModelGateway ModelHttp SpecObject SpecBase SpecJson SpecReply SpecLfs SpecPath SpecGateway SpecHttp SpecBook.
Open Scope N_scope.

(** What is taken from a body: what its JSON value gives, and nothing from what keeps not to
    the grammar. (A body may keep to the grammar and have no value: a string that is no
    text. Such bodies may be taken for anything.) *)
Definition reads_as {A} (takes : json -> A -> Prop) (body : bytes) (o : option A) : Prop :=
  (forall x, document x body -> match o with Some a => takes x a | None => forall a, ~ takes x a end) /\
  (~ json_syntax body -> o = None).

(** The number of a lock in the path of a request to unlock it. *)
Definition unlock_path (path id : bytes) : Prop :=
  ~ In 47 id /\ ends (bs "/" ++ id ++ bs "/unlock") path \/ path = bs "/unlock" /\ id = [].
(** The fields of a query. *)
Definition query_fields (k : list (bytes * bytes)) (q : lock_query) : Prop :=
  (forall x, q_path q = Some x <-> In (bs "path", x) k) /\ (forall x, q_id q = Some x <-> In (bs "id", x) k) /\
  (forall x, q_cursor q = Some x <-> In (bs "cursor", x) k) /\ (forall x, q_limit q = Some x <-> In (bs "limit", x) k) /\
  (forall x, q_refspec q = Some x <-> In (bs "refspec", x) k).

Inductive asks (d : draw) : http_request -> lfs_event -> Prop :=
| asks_lock : forall path q body o, rooted path -> ends (bs "/locks") path ->
    reads_as (fun x a => takes_lock_request x (lr_path a) (lr_ref a)) body o ->
    asks d (mkHttp MPost path q body) (ELock o (dr_id d) (dr_time d))
| asks_verify : forall path q body o, rooted path -> ends (bs "/locks/verify") path ->
    reads_as (fun x a => takes_verify x (v_ref a) (v_cursor a) (v_limit a)) body o ->
    asks d (mkHttp MPost path q body) (EVerify o)
| asks_unlock : forall path q id body o, rooted path -> unlock_path path id -> body <> [] ->
    reads_as (fun x a => exists f, takes_unlock x f (ul_ref a) /\ ul_force a = match f with Some y => y | None => false end) body o ->
    asks d (mkHttp MPost path q body) (EUnlock id (Some o))
| asks_unlock_empty : forall path q id, rooted path -> unlock_path path id -> asks d (mkHttp MPost path q []) (EUnlock id None)
| asks_list : forall path q body l k lq, rooted path -> ends (bs "/locks") path -> (forall oid, ~ names_object path oid) ->
    form l q -> repaired_form l k -> fields_once k -> query_fields k lq -> asks d (mkHttp MGet path q body) (EList lq).

(** A reply in a response; no response when the handler gives none. *)
Definition says (expires : bytes) (r : res lfs_reply) (a : res response) : Prop :=
  match r, a with
  | Ok (ROk s x), Ok y => rs_status y = s /\ json_head y /\ exists j, document j (rs_body y) /\ reply_json expires x j
  | Ok (RFail s m), Ok y => rs_status y = s /\ plain_error y /\ rs_body y = m
  | Panic, Panic => True
  | _, _ => False
  end.

(** Requests of the lock API. *)
Definition lock_api (rq : http_request) : Prop :=
  rooted (hr_path rq) /\
  (hr_method rq = MGet /\ ends (bs "/locks") (hr_path rq) /\ (forall oid, ~ names_object (hr_path rq) oid) \/
   hr_method rq = MPost /\ exists s, In s [bs "/locks"; bs "/locks/verify"; bs "/unlock"] /\ ends s (hr_path rq)).

Section Wire.
Context (same : bytes -> bytes -> bool) (room : bytes -> list lock -> Prop).
(** One request: the book before, the request, the book after and the response. *)
Inductive wire_step (b : book) (d : draw) (rq : http_request) : book -> res response -> Prop :=
| wire_book : forall x b' r a, asks d rq x -> book_step same room b x b' r -> says (dr_expires d) r a -> wire_step b d rq b' a
| wire_twice : forall l k a, lock_api rq -> hr_method rq = MGet -> form l (hr_query rq) -> repaired_form l k -> ~ fields_once k ->
    rs_status a = 400 -> plain_error a -> wire_step b d rq b (Ok a)
| wire_other : forall a, ~ lock_api rq -> wire_step b d rq b a.
Inductive wire_run : book -> list (draw * http_request) -> book -> list (res response) -> Prop :=
| wire_end : forall b, wire_run b [] b []
| wire_more : forall b d rq b1 a l b2 rs, wire_step b d rq b1 a -> wire_run b1 l b2 rs -> wire_run b ((d, rq) :: l) b2 (a :: rs).
End Wire.

(** What the program draws: a number for the lock, and texts. *)
Definition draw_ok (d : draw) : Prop := lock_number (dr_id d) /\ utf8_text (dr_time d) /\ utf8_text (dr_expires d).

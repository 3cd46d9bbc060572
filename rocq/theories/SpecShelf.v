(** The content server as a shelf: the sizes that were announced and the contents that were
    written; and what HTTP requests ask of it. *)

From Coq Require Import ZArith.
From Verif Require Import Base BaseLemmas ModelObject ModelStorage ModelLfs ModelGateway ModelHttp SpecObject SpecBase SpecJson SpecReply SpecLfs SpecPath SpecGateway SpecHttp SpecWire.
Open Scope N_scope.

Record shelf : Type := mkShelf { announced : bytes -> option Z; filed : bytes -> option bytes }.
Definition bare : shelf := mkShelf (fun _ => None) (fun _ => None).

(** Ids that have a place of their own and fit the table; SHA-256 ids do. *)
Definition proper (oid : bytes) : Prop := id_word oid /\ (5 <= length oid <= 100)%nat.
Definition sets {A} (k : bytes) (a : option A) (f f' : bytes -> option A) : Prop := forall x, f' x = if beq x k then a else f x.
Definition alike {A} (f f' : bytes -> option A) : Prop := forall x, f' x = f x.
(** The content of its id, of the size that was announced. *)
Definition right_content (oid : bytes) (z : Z) (d : bytes) : Prop := z = Z.of_nat (length d) /\ content_id oid d.
(** Sizes that the table holds. *)
Definition column (z : Z) : Prop := (-2147483648 <= z <= 2147483647)%Z.

Section Shelf.
(** Where an object is fetched and sent. *)
Context (link : object_request -> bytes).

(** One object of a batch: its entry, or none when the program gives up. *)
Inductive take_object (op : bytes) (s : shelf) (o : object_request) : shelf -> option repr -> Prop :=
| take_here : forall z d, announced s (ob_oid o) = Some z -> filed s (ob_oid o) = Some d ->
    take_object op s o s (Some (mkRepr (ob_oid o) z (Some true) (Some (bs "download", link o)) None))
| take_awaited : forall z, op = bs "upload" -> announced s (ob_oid o) = Some z -> filed s (ob_oid o) = None ->
    take_object op s o s (Some (mkRepr (ob_oid o) z (Some true) (Some (bs "upload", link o)) None))
| take_new : forall s', op = bs "upload" -> announced s (ob_oid o) = None -> column (ob_size o) ->
    sets (ob_oid o) (Some (ob_size o)) (announced s) (announced s') -> alike (filed s) (filed s') ->
    take_object op s o s' (Some (mkRepr (ob_oid o) (ob_size o) (Some true) (Some (bs "upload", link o)) None))
| take_large : op = bs "upload" -> announced s (ob_oid o) = None -> ~ column (ob_size o) -> take_object op s o s None
| take_missing : op <> bs "upload" -> announced s (ob_oid o) = None \/ filed s (ob_oid o) = None ->
    take_object op s o s (Some (mkRepr (ob_oid o) (ob_size o) None None (Some (404, bs "Not found")))).
Inductive take_objects (op : bytes) : shelf -> list object_request -> shelf -> option (list repr) -> Prop :=
| take_end : forall s, take_objects op s [] s (Some [])
| take_stop : forall s o l s1, take_object op s o s1 None -> take_objects op s (o :: l) s1 None
| take_next : forall s o l s1 r s2 rs, take_object op s o s1 (Some r) -> take_objects op s1 l s2 rs ->
    take_objects op s (o :: l) s2 (option_map (cons r) rs).

Definition content_event (x : lfs_event) : Prop := match x with EBatch _ | EUpload _ _ | EDownload _ => True | _ => False end.
(** One request: the shelf before, the request, the shelf after and the outcome. A content
    that is refused has replaced the one before, and the size is to be announced again. *)
Inductive shelf_step (s : shelf) : lfs_event -> shelf -> res lfs_reply -> Prop :=
| step_batch : forall op l s' rs, take_objects op s l s' (Some rs) -> shelf_step s (EBatch (Some (op, l))) s' (Ok (ROk 200 (BBatch rs)))
| step_batch_stop : forall op l s', take_objects op s l s' None -> shelf_step s (EBatch (Some (op, l))) s' Panic
| step_batch_none : shelf_step s (EBatch None) s Panic
| step_upload : forall oid d z s', announced s oid = Some z -> right_content oid z d ->
    alike (announced s) (announced s') -> sets oid (Some d) (filed s) (filed s') -> shelf_step s (EUpload oid d) s' (Ok (ROk 200 BEmpty))
| step_upload_wrong : forall oid d z s' msg, announced s oid = Some z -> ~ right_content oid z d ->
    sets oid None (announced s) (announced s') -> sets oid (Some d) (filed s) (filed s') -> shelf_step s (EUpload oid d) s' (Ok (RFail 406 msg))
| step_upload_unknown : forall oid d, announced s oid = None -> shelf_step s (EUpload oid d) s Panic
| step_download : forall oid z d, announced s oid = Some z -> filed s oid = Some d -> shelf_step s (EDownload oid) s (Ok (ROk 200 (BData d)))
| step_download_none : forall oid, announced s oid = None \/ filed s oid = None -> shelf_step s (EDownload oid) s Panic
| step_lock_request : forall x r, ~ content_event x -> shelf_step s x s r.

(** What a request over HTTP asks. *)
Inductive asks_content : http_request -> lfs_event -> Prop :=
| asks_batch : forall path q body o, rooted path -> ends (bs "/objects/batch") path ->
    reads_as (fun x a => takes_batch x (fst a) (snd a)) body o -> asks_content (mkHttp MPost path q body) (EBatch o)
| asks_put : forall path q body oid, rooted path -> names_object path oid -> asks_content (mkHttp MPut path q body) (EUpload oid body)
| asks_get : forall path q body oid l k, rooted path -> names_object path oid -> form l q -> repaired_form l k -> fields_once k ->
    asks_content (mkHttp MGet path q body) (EDownload oid).
(** What a response says. *)
Definition says_content (expires : bytes) (r : res lfs_reply) (a : res response) : Prop :=
  match r, a with
  | Ok (ROk s (BData d)), Ok y => rs_status y = s /\ rs_body y = d
  | Ok (ROk s BEmpty), Ok y => rs_status y = s /\ rs_body y = []
  | Ok (ROk s x), Ok y => rs_status y = s /\ json_head y /\ exists j, document j (rs_body y) /\ reply_json expires x j
  | Ok (RFail s m), Ok y => rs_status y = s /\ plain_error y /\ rs_body y = m
  | Panic, Panic => True
  | _, _ => False
  end.
(** Requests of the content API. *)
Definition content_api (rq : http_request) : Prop :=
  rooted (hr_path rq) /\
  ((hr_method rq = MGet \/ hr_method rq = MPut) /\ (exists oid, names_object (hr_path rq) oid) \/
   hr_method rq = MPost /\ ends (bs "/objects/batch") (hr_path rq)).
Inductive content_step (s : shelf) (d : draw) (rq : http_request) : shelf -> res response -> Prop :=
| content_shelf : forall x s' r a, asks_content rq x -> shelf_step s x s' r -> says_content (dr_expires d) r a -> content_step s d rq s' a
| content_twice : forall l k a, content_api rq -> hr_method rq = MGet -> form l (hr_query rq) -> repaired_form l k -> ~ fields_once k ->
    rs_status a = 400 -> plain_error a -> content_step s d rq s (Ok a)
| content_other : forall a, ~ content_api rq -> content_step s d rq s a.
Inductive content_run : shelf -> list (draw * http_request) -> shelf -> list (res response) -> Prop :=
| content_end : forall s, content_run s [] s []
| content_more : forall s d rq s1 a l s2 rs, content_step s d rq s1 a -> content_run s1 l s2 rs -> content_run s ((d, rq) :: l) s2 (a :: rs).
End Shelf.

(** Batches name objects by proper ids. *)
Definition batch_fits (x : lfs_event) : Prop :=
  match x with EBatch (Some (_, l)) => Forall (fun o => proper (ob_oid o)) l | _ => True end.
Definition batches_fit (rq : http_request) : Prop := forall x, asks_content rq x -> batch_fits x.

(** Requests that say of one content what is so: who sends it sends [d], who announces it
    gives its size. *)
Definition honest (oid d : bytes) (rq : http_request) : Prop :=
  forall x, asks_content rq x ->
    match x with
    | EUpload o body => o = oid -> body = d
    | EBatch (Some (op, l)) => op = bs "upload" -> Forall (fun o => ob_oid o = oid -> ob_size o = Z.of_nat (length d)) l
    | _ => True
    end.
(** A request to send an object, to fetch it, and one of several objects. *)
Definition sends (oid d : bytes) (rq : http_request) : Prop :=
  exists path q, rooted path /\ names_object path oid /\ rq = mkHttp MPut path q d.
Definition fetches (oid : bytes) (rq : http_request) : Prop :=
  exists path q body l k, rooted path /\ names_object path oid /\ form l q /\ repaired_form l k /\ fields_once k /\ rq = mkHttp MGet path q body.
Definition inquires (op : bytes) (l : list object_request) (rq : http_request) : Prop :=
  exists path q body j, rooted path /\ ends (bs "/objects/batch") path /\ document j body /\ takes_batch j op l /\ rq = mkHttp MPost path q body.
Definition status (n : N) (a : res response) : Prop := exists y, a = Ok y /\ rs_status y = n.

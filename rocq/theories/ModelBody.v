(** Model of how the bodies of HTTP requests are taken in: the loops over the stream of a
    body in src/git/protocol/http.rs and src/git/lfs/http.rs, in front of the handlers of
    ModelHttp. *)

From Verif Require Import Base ModelUtils ModelObject ModelPkt ModelStorage ModelProto ModelLfs ModelJson ModelGateway ModelHttp.
Open Scope N_scope.

(** What [body.next()] gives before it gives [None]: data, or an error of the connection
    (here [None]). *)
Definition chunk : Type := option bytes.

(** protocol/http.rs 66-70 and 93-96, lfs/http.rs 97-101, 173-177, 265-269, 348-352 and
    447-451: all data is appended, an error is unwrapped. *)
Fixpoint collect (acc : bytes) (l : list chunk) : res bytes :=
  match l with
  | [] => Ok acc
  | Some x :: r => collect (acc ++ x) r
  | None :: _ => Panic
  end.

(** A request and its body. *)
Record streamed : Type := mkStream { sm_method : method; sm_path : bytes; sm_query : bytes; sm_chunks : list chunk }.

(** lfs/http.rs 421-468: the row is looked up before the body is taken in. *)
Definition lfs_upload_stream (v : lenv) (oid : bytes) (l : list chunk) : L lfs_reply :=
  do! m := lfs_get_meta v oid in
  do! m := llift (unwrap_opt m) in
  do! body := llift (collect [] l) in
  do! ok := store_put v m body in
  if ok then lret (ROk 200 BEmpty)
  else do! _ := lunwrap (lfs_delete_meta v oid) in lret (RFail 406 (bs "Header not acceptable!")).

(** Whether the handler takes the body in before anything else; the others but an upload
    leave it alone. *)
Definition body_first (a : action) : bool :=
  match a with
  | ABatch | AVerify | ALock | AUnlock _ | AUploadPack _ | AReceivePack _ => true
  | _ => false
  end.
Definition act_stream (e : env) (b : build) (c : codec) (fuel : nat) (cut : bytes -> list bytes) (v : lenv) (d : draw)
  (m : method) (l : list chunk) (a : action) (w : site) : site * res response :=
  match a with
  | AUpload oid =>
    let (x, r) := lfs_upload_stream v oid l (snd w) in
    ((fst w, x), let? r := r in Ok (lfs_response (dr_expires d) r))
  | _ =>
    if body_first a then
      match collect [] l with
      | Ok body => act e b c fuel cut v d m body a w
      | Err x => (w, Err x)
      | Panic => (w, Panic)
      | OutOfFuel => (w, OutOfFuel)
      end
    else act e b c fuel cut v d m [] a w
  end.
(** api/lib.rs 63-68 and 76-80, as in [http_handle]. *)
Definition stream_handle (e : env) (b : build) (c : codec) (fuel : nat) (cut : bytes -> list bytes) (v : lenv) (d : draw)
  (rq : streamed) (w : site) : site * res response :=
  let call service q :=
    match gateway (sm_method rq) (sm_path rq) service q with
    | Ok a => act_stream e b c fuel cut v d (sm_method rq) (sm_chunks rq) a w
    | Err x => (w, Err x)
    | Panic => (w, Panic)
    | OutOfFuel => (w, OutOfFuel)
    end in
  match sm_method rq, sm_path rq with
  | MGet, 47 :: _ :: _ =>
    match get_params (sm_query rq) with
    | inl n => (w, Ok (query_response n))
    | Coq.Init.Datatypes.inr (service, q) => call service q
    end
  | _, _ => call None (mkQuery None None None None None)
  end.

(** Model of the server as HTTP clients see it: src/gateway/api/lib.rs 35-214 with the
    heads of the responses (src/git/protocol/http.rs 20-33, src/git/lfs/http.rs) and the
    queries of requests (crates axum 0.6 and serde_urlencoded). Requests are those that
    hyper accepts; a request for the head of a page is taken as one for the page; headers
    that hyper adds to every response (Date, Content-Length) are left out. *)

From Verif Require Import Base ModelUtils ModelObject ModelPkt ModelStorage ModelProto ModelLfs ModelJson ModelGateway.
Open Scope N_scope.

(** ** Queries *)

(** [String::from_utf8_lossy]: U+FFFD for every longest part that starts a character and
    does not go on as one (core::str::lossy [Utf8Chunks]). *)
Definition fffd : bytes := [239; 191; 189].
Fixpoint lossy (l : bytes) : bytes :=
  match l with
  | [] => []
  | b0 :: r0 =>
    if b0 <? 128 then b0 :: lossy r0
    else if inr 194 223 b0 then
      match r0 with
      | b1 :: r1 => if cont b1 then [b0; b1] ++ lossy r1 else fffd ++ lossy r0
      | [] => fffd
      end
    else if inr 224 239 b0 then
      match r0 with
      | b1 :: r1 =>
        if (if b0 =? 224 then inr 160 191 b1 else if b0 =? 237 then inr 128 159 b1 else cont b1)
        then match r1 with
             | b2 :: r2 => if cont b2 then [b0; b1; b2] ++ lossy r2 else fffd ++ lossy r1
             | [] => fffd
             end
        else fffd ++ lossy r0
      | [] => fffd
      end
    else if inr 240 244 b0 then
      match r0 with
      | b1 :: r1 =>
        if (if b0 =? 240 then inr 144 191 b1 else if b0 =? 244 then inr 128 143 b1 else cont b1)
        then match r1 with
             | b2 :: r2 =>
               if cont b2 then
                 match r2 with
                 | b3 :: r3 => if cont b3 then [b0; b1; b2; b3] ++ lossy r3 else fffd ++ lossy r2
                 | [] => fffd
                 end
               else fffd ++ lossy r1
             | [] => fffd
             end
        else fffd ++ lossy r0
      | [] => fffd
      end
    else fffd ++ lossy r0
  end.
(** crate percent-encoding [percent_decode]: a percent sign without two hex digits stands
    for itself. *)
Fixpoint percent_decode (l : bytes) : bytes :=
  match l with
  | [] => []
  | c :: r =>
    if c =? 37 then
      match r with
      | x :: y :: r' =>
        match hex_digit_val x, hex_digit_val y with
        | Some a, Some b => (16 * a + b) :: percent_decode r'
        | _, _ => c :: percent_decode r
        end
      | _ => c :: percent_decode r
      end
    else c :: percent_decode r
  end.
(** crate form_urlencoded [decode]: plus signs, then percent signs, then the text. *)
Definition form_decode (l : bytes) : bytes :=
  lossy (percent_decode (map (fun c => if c =? 43 then 32 else c) l)).
(** [splitn(2, '=')], an empty second part when there is none. *)
Fixpoint split_eq (l : bytes) : bytes * bytes :=
  match l with
  | [] => ([], [])
  | c :: r => if c =? 61 then ([], r) else let (a, b) := split_eq r in (c :: a, b)
  end.
(** crate form_urlencoded [parse]: the parts between ampersands that are not empty. *)
Definition form_parse (query : bytes) : list (bytes * bytes) :=
  map (fun s => let (n, x) := split_eq s in (form_decode n, form_decode x))
    (filter (fun s => negb (beq s [])) (split_on 38 query)).
(** 34-42 [GetParams] with serde's derived reader: a field of the struct may come once,
    others are skipped; the error is the name of the field that came twice. *)
Definition get_fields : list bytes := [bs "service"; bs "refspec"; bs "id"; bs "path"; bs "limit"; bs "cursor"].
Definition find_field (n : bytes) (l : list (bytes * bytes)) : option bytes :=
  match find (fun x => beq (fst x) n) l with Some x => Some (snd x) | None => None end.
Fixpoint read_fields (l seen : list (bytes * bytes)) : bytes + list (bytes * bytes) :=
  match l with
  | [] => Coq.Init.Datatypes.inr seen
  | (n, x) :: r =>
    if existsb (beq n) get_fields then
      match find_field n seen with
      | Some _ => inl n
      | None => read_fields r (seen ++ [(n, x)])
      end
    else read_fields r seen
  end.
(** The service and the query of the locks (94-100), or the field that came twice. *)
Definition get_params (query : bytes) : bytes + (option bytes * lock_query) :=
  match read_fields (form_parse query) [] with
  | inl n => inl n
  | Coq.Init.Datatypes.inr l =>
    let f n := find_field (bs n) l in
    Coq.Init.Datatypes.inr (f "service"%string, mkQuery (f "path"%string) (f "id"%string) (f "cursor"%string) (f "limit"%string) (f "refspec"%string))
  end.

(** ** Responses *)

Record response : Type := mkResponse { rs_status : N; rs_headers : list (bytes * bytes); rs_body : bytes }.
(** axum, [impl IntoResponse for (StatusCode, String)]. *)
Definition text_response (status : N) (msg : bytes) : response :=
  mkResponse status [(bs "Content-Type", bs "text/plain; charset=utf-8")] msg.
(** protocol/http.rs 20-33 [build_res_header] and api/lib.rs 123-138; the status of
    [Response::builder] is 200. The order of the two headers is not determined. *)
Definition git_response (content_type body : bytes) : response :=
  mkResponse 200 [(bs "Content-Type", content_type); (bs "Cache-Control", bs "no-cache, max-age=0, must-revalidate")] body.
(** lfs/http.rs 31-33, 90-91, 166-167, 258-259, 411-413 (JSON), 463-465 (an upload) and
    496-500 (a download, which has no type); errors are those of axum. *)
Definition lfs_response (expires : bytes) (r : lfs_reply) : response :=
  match r with
  | RFail s m => text_response s m
  | ROk s b =>
    mkResponse s
      match b with
      | BData _ => []
      | BEmpty => [(bs "Content-Type", bs "application/vnd.git-lfs")]
      | _ => [(bs "Content-Type", bs "application/vnd.git-lfs+json")]
      end (reply_body expires r)
  end.
(** 106-111, 141-145, 184-188, 208-213 and the router of axum. *)
Definition refused_response (m : method) (status : N) : response :=
  if status =? 403 then
    text_response 403 (bs "Operation not supported" ++ match m with MGet => [10] | _ => [] end)
  else mkResponse status (if status =? 405 then [(bs "Allow", bs "GET,HEAD,POST,PUT")] else []) [].
(** axum [QueryRejection]. *)
Definition query_response (n : bytes) : response :=
  text_response 400 (bs "Failed to deserialize query string: duplicate field `" ++ n ++ bs "`").

(** ** Requests *)

(** The path and the query are those of the request's target. *)
Record http_request : Type := mkHttp { hr_method : method; hr_path : bytes; hr_query : bytes; hr_body : bytes }.
(** What the program draws or reads from the clock meanwhile: the second, the number and the
    time of a new lock, and the time its links expire. *)
Record draw : Type := mkDraw { dr_now : N; dr_id : bytes; dr_time : bytes; dr_expires : bytes }.
(** The tables and files of the repositories, and those of git-lfs. *)
Definition site : Type := world * lfs.

(** The event of git-lfs behind an action. *)
Definition lfs_action (d : draw) (body : bytes) (a : action) : option lfs_event :=
  match a with
  | ADownload oid => Some (EDownload oid)
  | AUpload oid => Some (EUpload oid body)
  | ABatch => Some (batch_event body)
  | AList q => Some (EList q)
  | AVerify => Some (verify_event body)
  | ALock => Some (lock_event body (dr_id d) (dr_time d))
  | AUnlock id => Some (unlock_event id body)
  | _ => None
  end.
(** 76-214: the handler called and the response made of what it returns. *)
Definition git_action (e : env) (b : build) (c : codec) (fuel : nat) (cut : bytes -> list bytes) (d : draw)
  (m : method) (body : bytes) (a : action) : M response :=
  match a with
  | AInfoRefs s repo => let! x := http_info_refs e repo s in ret (git_response (bs "application/x-" ++ s ++ bs "-advertisement") x)
  | AUploadPack repo => let! x := http_upload_pack e c fuel cut repo body in ret (git_response (bs "application/x-git-upload-pack-result") x)
  | AReceivePack repo => let! x := http_receive_pack e b c fuel (dr_now d) repo body in ret (git_response (bs "application/x-git-receive-pack-result") x)
  | ARefused status => ret (refused_response m status)
  | _ => lift Panic
  end.
Definition act (e : env) (b : build) (c : codec) (fuel : nat) (cut : bytes -> list bytes) (v : lenv) (d : draw)
  (m : method) (body : bytes) (a : action) (w : site) : site * res response :=
  match lfs_action d body a with
  | Some x => let (l, r) := lfs_handle v x (snd w) in
              ((fst w, l), let? r := r in Ok (lfs_response (dr_expires d) r))
  | None => let (w', r) := git_action e b c fuel cut d m body a (fst w) in ((w', snd w), r)
  end.
(** 63-68 and 76-80: the route, then the query (of requests to get something only), then
    the handler. *)
Definition http_handle (e : env) (b : build) (c : codec) (fuel : nat) (cut : bytes -> list bytes) (v : lenv) (d : draw)
  (rq : http_request) (w : site) : site * res response :=
  let call service q :=
    match gateway (hr_method rq) (hr_path rq) service q with
    | Ok a => act e b c fuel cut v d (hr_method rq) (hr_body rq) a w
    | Err x => (w, Err x)
    | Panic => (w, Panic)
    | OutOfFuel => (w, OutOfFuel)
    end in
  match hr_method rq, hr_path rq with
  | MGet, 47 :: _ :: _ =>
    match get_params (hr_query rq) with
    | inl n => (w, Ok (query_response n))
    | Coq.Init.Datatypes.inr (service, q) => call service q
    end
  | _, _ => call None (mkQuery None None None None None)
  end.
(** Requests one after the other. *)
Fixpoint http_run (e : env) (b : build) (c : codec) (fuel : nat) (cut : bytes -> list bytes) (v : lenv)
  (l : list (draw * http_request)) (w : site) : site * list (res response) :=
  match l with
  | [] => (w, [])
  | (d, rq) :: r => let (w1, x) := http_handle e b c fuel cut v d rq w in
                    let (w2, xs) := http_run e b c fuel cut v r w1 in (w2, x :: xs)
  end.

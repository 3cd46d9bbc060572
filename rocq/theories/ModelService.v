(** Model of the server as clients see it: requests over HTTP (src/gateway/api/lib.rs,
    the git part) and SSH sessions (src/git/protocol/ssh.rs), one after the other. *)

From Verif Require Import Base ModelUtils ModelObject ModelPkt ModelStorage ModelProto ModelLfs ModelGateway.
Open Scope N_scope.

(** [now] is the second the request arrives in; for an SSH session each packet has
    its own. *)
Inductive request : Type :=
| QHttp (now : N) (m : method) (path : bytes) (service : option bytes) (q : lock_query) (body : bytes)
| QSsh (now : nat -> N) (cmd : bytes) (packets : list bytes).

(** api/lib.rs 76-214 for HTTP: the handlers of git-lfs work on other tables (ModelLfs)
    and leave those of the repositories alone. ssh.rs 60-110 for SSH: one command, then
    the packets; the command has been trimmed. *)
Definition serve (e : env) (b : build) (c : codec) (fuel : nat) (cut : bytes -> list bytes) (r : request) : M bytes :=
  match r with
  | QHttp now m path service q body =>
    let! a := lift (gateway m path service q) in
    match a with
    | AInfoRefs s repo => http_info_refs e repo s
    | AUploadPack repo => http_upload_pack e c fuel cut repo body
    | AReceivePack repo => http_receive_pack e b c fuel now repo body
    | _ => ret []
    end
  | QSsh now cmd packets =>
    let! (pp, a) := ssh_command e cmd in
    let! (_, s) := ssh_session e b c fuel cut now pp packets in
    ret (a ++ s)
  end.

(** The requests in order. A panic ends the task of its connection and nothing else
    (crates tokio, hyper and russh): the next request is served from the state it
    left. *)
Fixpoint serve_all (e : env) (b : build) (c : codec) (fuel : nat) (cut : bytes -> list bytes) (l : list request)
  (w : world) : world :=
  match l with
  | [] => w
  | r :: l' => serve_all e b c fuel cut l' (fst (serve e b c fuel cut r w))
  end.

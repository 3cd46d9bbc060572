(** Model of one SSH connection (src/git/protocol/ssh.rs) and of the host key of the
    SSH server (src/gateway/ssh_server.rs). *)

From Verif Require Import Base ModelUtils ModelObject ModelPack ModelPkt ModelStorage ModelProto.
Open Scope N_scope.

(** How a client introduces itself. That a client who names a key has it is checked by
    the crate russh, before its key is accepted. *)
Inductive credential : Type :=
| CNone (user : bytes)
| CPassword (user password : bytes)
| CKey (user key : bytes).
(** ssh.rs 73-86 [auth_publickey], [auth_password]. The handler has no [auth_none]: the
    default of russh rejects. *)
Definition auth (x : credential) : bool :=
  match x with CNone _ => false | CPassword _ _ => true | CKey _ _ => true end.

(** What arrives over one connection, in order. Channels are opened without further
    effect (ssh.rs 45-56). *)
Inductive ssh_event : Type :=
| EAuth (x : credential)
| EExec (channel : N) (command : bytes)
| EData (now : N) (channel : N) (data : bytes).

(** ssh.rs 22-31: of the handler only [pack_protocol] matters, one for all channels;
    [new_client] (ssh.rs 33-39) copies that of the server, which stays [None]. Whether a
    client has been accepted is known to russh. *)
Record conn : Type := mkConn { cn_in : bool; cn_proto : option proto }.
Definition conn_new : conn := mkConn false None.

(** ssh.rs 58-71 [exec_request] (for commands that are UTF-8) and 87-110 [data]: the
    handler afterwards and what is sent, with its channel. Before the client has been
    accepted russh passes nothing on. *)
Definition conn_step (e : env) (m : build) (c : codec) (fuel : nat) (cut : bytes -> list bytes) (s : conn)
  (ev : ssh_event) : M (conn * list (N * bytes)) :=
  match ev with
  | EAuth x => ret (mkConn (cn_in s || auth x) (cn_proto s), [])
  | EExec ch cmd =>
    if cn_in s then
      let! (pp, reply) := ssh_command e (trim cmd) in
      ret (mkConn (cn_in s) (Some pp), [(ch, reply)])
    else ret (s, [])
  | EData now ch d =>
    if cn_in s then
      let! pp := lift (unwrap_opt (cn_proto s)) in
      let! (pp', reply) := ssh_data e m c fuel cut now pp d in
      ret (mkConn (cn_in s) (Some pp'), [(ch, reply)])
    else ret (s, [])
  end.
(** The events in order; a panic ends the connection. *)
Fixpoint conn_run (e : env) (m : build) (c : codec) (fuel : nat) (cut : bytes -> list bytes) (s : conn)
  (l : list ssh_event) : M (conn * list (N * bytes)) :=
  match l with
  | [] => ret (s, [])
  | ev :: r =>
    let! (s1, a) := conn_step e m c fuel cut s ev in
    let! (s2, b) := conn_run e m c fuel cut s1 r in
    ret (s2, a ++ b)
  end.

(** ** The host key *)

(** ed25519_dalek [Keypair]. *)
Record keypair : Type := mkKey { k_secret : bytes; k_public : bytes }.
(** [Keypair::to_bytes]: the secret, then the public half. *)
Definition key_bytes (k : keypair) : bytes := k_secret k ++ k_public k.
(** [Keypair::from_bytes]: 64 bytes of which the last 32 are a point of the curve; that
    the halves belong together is not checked. *)
Definition key_of (point : bytes -> bool) (data : bytes) : option keypair :=
  if (length data =? 64)%nat && point (skipn 32 data)
  then Some (mkKey (firstn 32 data) (skipn 32 data)) else None.
(** ssh_server.rs 50-72 [load_key] with its [unwrap] (22). [fresh] is the key pair
    generated if there is no file, [creatable] whether the file can be made. *)
Definition load_key (point : bytes -> bool) (path : list bytes) (creatable : bool) (fresh : keypair) (f : fs)
  : fs * res keypair :=
  match fs_get f path with
  | None => if creatable then (fs_put f path (key_bytes fresh), Ok fresh) else (f, Panic)
  | Some data => (f, unwrap_opt (key_of point data))
  end.
(** The same, interrupted after [n] bytes of the file have been written. *)
Definition load_key_cut (path : list bytes) (fresh : keypair) (n : nat) (f : fs) : fs :=
  match fs_get f path with
  | None => fs_put f path (firstn n (key_bytes fresh))
  | Some _ => f
  end.
(** The server started again and again: the key of each start. *)
Fixpoint starts (point : bytes -> bool) (path : list bytes) (l : list (bool * keypair)) (f : fs)
  : fs * list (res keypair) :=
  match l with
  | [] => (f, [])
  | (cr, k) :: r =>
    let (f1, x) := load_key point path cr k f in
    let (f2, xs) := starts point path r f1 in (f2, x :: xs)
  end.

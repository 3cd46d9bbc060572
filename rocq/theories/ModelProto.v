(** Model of the sessions: PackProtocol (src/git/protocol/mod.rs, pack.rs), the HTTP
    entry points (src/git/protocol/http.rs) and the SSH handler (ssh.rs) over the
    storage of ModelStorage. *)

From Verif Require Import Base Digest ModelUtils ModelObject ModelBase ModelDelta ModelPack ModelDecode ModelPkt ModelStorage.
Open Scope N_scope.

(** protocol/mod.rs 26-34 [PackProtocol], without the storage. *)
Record proto : Type := mkProto {
  pp_protocol : protocol; pp_path : bytes; pp_service : option service;
  pp_caps : list capability; pp_cmds : list ref_command }.
(** protocol/mod.rs 216-230 [PackProtocol::new]. *)
Definition proto_new (path service_text : bytes) (p : protocol) : res proto :=
  match service_text with
  | [] => Ok (mkProto p path None [] [])
  | _ => let? s := unwrap_opt (service_from_str service_text) in Ok (mkProto p path (Some s) [] [])
  end.

(** pack.rs 46-71 [git_info_refs]. *)
Definition git_info_refs (e : env) (pp : proto) : M bytes :=
  let! s := lift (unwrap_opt (pp_service pp)) in
  let! head := get_head_object_id e (pp_path pp) in
  let! refs := get_ref_object_id e (pp_path pp) in
  ret (info_refs (pp_protocol pp) s head refs).

(** pack.rs 134-139, 147-156: the acknowledgement loops with the lookups. *)
Fixpoint ack_haves_db (e : env) (have : list bytes) (buf : bytes) : M bytes :=
  match have with
  | [] => ret buf
  | h :: r =>
    let! known := get_commit_by_hash e h in
    ack_haves_db e r (if known then add_pkt_line buf (bs "ACK " ++ h ++ bs " common" ++ [10]) else buf)
  end.
Fixpoint ack_wants_db (e : env) (no_done : bool) (want : list bytes) (buf : bytes) : M bytes :=
  match want with
  | [] => ret buf
  | h :: r =>
    let! known := get_commit_by_hash e h in
    let buf1 := if known then add_pkt_line buf (bs "ACK " ++ h ++ bs " common" ++ [10]) else buf in
    ack_wants_db e no_done r
      (if no_done then add_pkt_line buf1 (bs "ACK " ++ h ++ bs " ready" ++ [10]) else buf1)
  end.

(** pack.rs 73-167 [git_upload_pack]: the session afterwards, the pack and the
    acknowledgements. The sets are iterated in any order. *)
Definition git_upload_pack (e : env) (c : codec) (fuel : nat) (pp : proto) (body : bytes)
  : M (proto * bytes * bytes) :=
  let! (want, have, caps, _) := lift (upload_loop fuel true [] [] (pp_caps pp) body) in
  let pp' := mkProto (pp_protocol pp) (pp_path pp) (pp_service pp) caps (pp_cmds pp) in
  match have with
  | [] =>
    let! data := munwrap (get_full_pack_data e c fuel (pp_path pp)) in
    ret (pp', data, add_pkt_line [] (bs "NAK" ++ [10]))
  | _ =>
    let! (data, buf) :=
      (if has_cap MultiAckDetailed caps then
         let! hs := shuffle e have in
         let! buf := ack_haves_db e hs [] in
         let! data := munwrap (get_incremental_pack_data e c fuel (pp_path pp) want have) in
         let! ws := shuffle e want in
         let! buf := ack_wants_db e (has_cap NoDone caps) ws buf in
         ret (data, buf)
       else ret ([], [])) in
    ret (pp', data, add_pkt_line buf (bs "ACK " ++ hard_coded_id ++ [32; 10]))
  end.

(** pack.rs 176: the name of the temporary file at second [now]. *)
Definition temp_path (now : N) : list bytes := [bs "temp-" ++ to_decimal now ++ bs ".pack"].
(** pack.rs 177-182: opened for writing without truncation, then [write_all]. *)
Definition write_temp (p : list bytes) (body : bytes) : M unit := fun w =>
  let old := match fs_get (w_files w) p with Some x => x | None => [] end in
  (mkWorld (w_db w) (w_log w) (w_fails w) (w_tick w)
     (fs_put (w_files w) p (body ++ skipn (length body) old)), Ok tt).
(** pack.rs 185, 197. *)
Definition read_temp (p : list bytes) : M bytes := fun w => (w, unwrap_opt (fs_get (w_files w) p)).
Definition fs_remove (f : fs) (p : list bytes) : fs := filter (fun e => negb (path_eqb (fst e) p)) f.
Definition remove_temp (p : list bytes) : M unit := fun w =>
  match fs_get (w_files w) p with
  | Some _ => (mkWorld (w_db w) (w_log w) (w_fails w) (w_tick w) (fs_remove (w_files w) p), Ok tt)
  | None => (w, Panic)
  end.

(** protocol/mod.rs 164-180 [unpack] followed by [.unwrap()] (pack.rs 183-189): a pack
    that cannot be decoded aborts the request. *)
Definition unpack_pack (e : env) (m : build) (c : codec) (fuel : nat) (file : bytes) : M pack := fun w =>
  let r := unwrap (decode m c (get_hash_object e w) fuel file) in
  (mkWorld (w_db w) (w_log w) (w_fails w) (S (w_tick w)) (w_files w), r).

(** [self.command_list.last_mut()] replaced by [c]. *)
Definition set_last (c : ref_command) (l : list ref_command) : list ref_command := removelast l ++ [c].

(** pack.rs 199-211: the report. *)
Definition report (caps : list capability) (cmds : list ref_command) : bytes :=
  let status := fold_left (fun b c => add_pkt_line b (get_status c)) cmds
                  (add_pkt_line [] (bs "unpack ok" ++ [10])) ++ flush_pkt in
  build_side_band_format caps status (nlen status) ++ flush_pkt.

(** pack.rs 169-223 [git_receive_pack], at second [now]. [save_packfile] returns Ok or
    panics; its error branch (194-195) is kept. *)
Definition git_receive_pack (e : env) (m : build) (c : codec) (fuel : nat) (now : N) (pp : proto) (body : bytes)
  : M (proto * bytes) :=
  if starts_with (bs "PACK") body then
    let! cmd := lift (unwrap_opt (nth_error (pp_cmds pp) (length (pp_cmds pp) - 1))) in
    let! _ := write_temp (temp_path now) body in
    let! file := read_temp (temp_path now) in
    let! p := unpack_pack e m c fuel file in
    let cmd1 := cmd_unpacked cmd None in
    let! cmd2 := (fun w =>
      match save_packfile e fuel (p_cache p) (pp_path pp) w with
      | (w', Ok _) => (let! _ := handle_refs e cmd1 (pp_path pp) in ret cmd1) w'
      | (w', Err _) => (w', Ok (cmd_failed cmd1 (bs "db operation failed")))
      | (w', Panic) => (w', Panic)
      | (w', OutOfFuel) => (w', OutOfFuel)
      end) in
    let! _ := remove_temp (temp_path now) in
    let cmds := set_last cmd2 (pp_cmds pp) in
    ret (mkProto (pp_protocol pp) (pp_path pp) (pp_service pp) (pp_caps pp) cmds,
         report (pp_caps pp) cmds)
  else
    let! (n, line, rest) := lift (read_pkt_line body) in
    if (n =? 0) && (match line with [] => true | _ => false end) then ret (pp, rest)
    else
      let! (cmd, tail) := lift (parse_ref_update line) in
      let! text := lift (utf8_unwrap tail) in
      let! r := lift (slice_from 4 rest) in
      ret (mkProto (pp_protocol pp) (pp_path pp) (pp_service pp)
             (parse_capabilities (pp_caps pp) text) (pp_cmds pp ++ [cmd]), r).

(** http.rs 87-111: a push over HTTP; the session is called twice. The session has no
    service (api/lib.rs 245-246). *)
Definition http_receive_pack (e : env) (m : build) (c : codec) (fuel : nat) (now : N) (path body : bytes) : M bytes :=
  let! pp := lift (proto_new path [] Http) in
  let! (pp1, data) := git_receive_pack e m c fuel now pp body in
  let! (_, reply) := git_receive_pack e m c fuel now pp1 data in
  ret reply.

(** http.rs 35-85: a fetch over HTTP; [cut] is how the reader cuts the pack. *)
Definition http_upload_pack (e : env) (c : codec) (fuel : nat) (cut : bytes -> list bytes) (path body : bytes)
  : M bytes :=
  let! pp := lift (proto_new path [] Http) in
  let! (pp, data, buf) := git_upload_pack e c fuel pp body in
  ret (buf ++ concat (send_pack (pp_caps pp) (cut data))).

(** api/lib.rs 115-143: the advertisement over HTTP, for the given service. *)
Definition http_info_refs (e : env) (path service_text : bytes) : M bytes :=
  let! pp := lift (proto_new path service_text Http) in
  git_info_refs e pp.

(** ssh.rs 141-157 [handle_git_command]; [path[2..end]] also panics inside a character. *)
Definition ssh_command (e : env) (cmd : bytes) : M (proto * bytes) :=
  let words := split_on 32 cmd in
  let! path := lift (unwrap_opt (nth_error words 1)) in
  let! n := lift (if (length path <? 5)%nat then Panic else Ok (length path - 5)%nat) in
  let! repo := lift (slice 2 n path) in
  let! repo := lift (utf8_unwrap repo) in
  let! pp := lift (proto_new repo (hd [] words) Ssh) in
  let! reply := git_info_refs e pp in
  let! _ := lift (utf8_unwrap reply) in
  ret (pp, reply).

(** ssh.rs 87-110, 159-202: one packet of data from the client: the session and what
    is sent back. *)
Definition ssh_data (e : env) (m : build) (c : codec) (fuel : nat) (cut : bytes -> list bytes) (now : N)
  (pp : proto) (data : bytes) : M (proto * bytes) :=
  match pp_service pp with
  | Some UploadPack =>
    let! (pp', pack, buf) := git_upload_pack e c fuel pp data in
    let! _ := lift (utf8_unwrap buf) in
    ret (pp', buf ++ concat (send_pack (pp_caps pp') (cut pack)))
  | Some ReceivePack => git_receive_pack e m c fuel now pp data
  | None => lift Panic
  end.
(** A connection: the packets in order, the replies concatenated. *)
Fixpoint ssh_session (e : env) (m : build) (c : codec) (fuel : nat) (cut : bytes -> list bytes) (now : nat -> N)
  (pp : proto) (packets : list bytes) : M (proto * bytes) :=
  match packets with
  | [] => ret (pp, [])
  | d :: r =>
    let! (pp1, a) := ssh_data e m c fuel cut (now (length r)) pp d in
    let! (pp2, b) := ssh_session e m c fuel cut now pp1 r in
    ret (pp2, a ++ b)
  end.

(** pack.rs 176-198: what one push does with its temporary file, as steps that other
    pushes may come between (the write and the read are single steps). *)
Inductive file_step : Type := FWrite | FRead | FRemove.
Definition run_step (now : N) (body : bytes) (s : file_step) : M (option bytes) :=
  match s with
  | FWrite => let! _ := write_temp (temp_path now) body in ret None
  | FRead => let! b := read_temp (temp_path now) in ret (Some b)
  | FRemove => let! _ := remove_temp (temp_path now) in ret None
  end.
(** Several pushes, numbered; push [i] arrives in second [now i] with body [body i].
    The result lists what each read gave. *)
Fixpoint run_steps (now : nat -> N) (body : nat -> bytes) (l : list (nat * file_step)) : M (list (nat * bytes)) :=
  match l with
  | [] => ret []
  | (i, s) :: r =>
    let! o := run_step (now i) (body i) s in
    let! rest := run_steps now body r in
    ret (match o with Some b => [(i, b)] | None => [] end ++ rest)
  end.

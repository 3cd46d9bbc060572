(** Requests served at the same time. The handlers of ModelStorage, ModelProto and
    ModelService once more, as programs that other requests may come between: one
    action is one statement, one operation on the temporary file, or the decoding of
    a pack. That each program, run without others, is the handler of that name is
    proved (ProofConc). *)

From Verif Require Import Base Digest ModelUtils ModelObject ModelBase ModelDelta ModelPack ModelDecode ModelPkt ModelStorage ModelProto.
From Verif Require Import ModelLfs ModelGateway ModelService.
Open Scope N_scope.

(** What cannot be interrupted. Decoding a pack is taken as one action although its
    lookups of missing bases are statements of their own. *)
Inductive act : Type -> Type :=
| DSelect : forall T : Type, (db -> list T) -> act (list T)
| DExecute : (db -> option db) -> act bool
| DShuffle : forall T : Type, list T -> act (list T)
| DWrite : list bytes -> bytes -> act unit
| DRead : list bytes -> act bytes
| DRemove : list bytes -> act unit
| DUnpack : build -> codec -> nat -> bytes -> act pack.
Arguments DSelect {T}.
Arguments DShuffle {T}.
Definition perform (e : env) {X} (a : act X) : M X :=
  match a in act X return M X with
  | DSelect q => select e q
  | DExecute f => execute f
  | DShuffle l => shuffle e l
  | DWrite p b => write_temp p b
  | DRead p => read_temp p
  | DRemove p => remove_temp p
  | DUnpack m c fuel file => unpack_pack e m c fuel file
  end.

(** A handler: an outcome, or an action and what follows its outcome. *)
Inductive prog (A : Type) : Type :=
| PRet (r : res A)
| PAct (X : Type) (a : act X) (k : res X -> prog A).
Arguments PRet {A}.
Arguments PAct {A X}.
Fixpoint run (e : env) {A} (p : prog A) : M A :=
  match p with
  | PRet r => lift r
  | PAct a k => fun w => let (w', r) := perform e a w in run e (k r) w'
  end.

(** Sequencing; [then_any] also continues after errors and panics. *)
Fixpoint then_any {A B} (p : prog A) (k : res A -> prog B) : prog B :=
  match p with
  | PRet r => k r
  | PAct a k1 => PAct a (fun r => then_any (k1 r) k)
  end.
Definition pbind {A B} (p : prog A) (k : A -> prog B) : prog B :=
  then_any p (fun r => match r with
                       | Ok a => k a | Err x => PRet (Err x) | Panic => PRet Panic | OutOfFuel => PRet OutOfFuel
                       end).
Definition pret {A} (a : A) : prog A := PRet (Ok a).
Definition do {X} (a : act X) : prog X := PAct a PRet.
Definition punwrap {A} (p : prog A) : prog A := then_any p (fun r => PRet (unwrap r)).
Notation "'let*' p ':=' m 'in' k" :=
  (pbind m (fun x => match x with p => k end))
  (at level 200, p pattern, m at level 100, k at level 200, right associativity).

(** ** Storage (storage.rs, as in ModelStorage) *)

Definition one_row {T} (q : db -> list T) : prog (option T) :=
  let* l := do (DSelect q) in pret (hd_error l).

(** storage.rs 551-579 [save_nodes], as [insert_batches]. *)
Fixpoint batches_p (e : env) (bs : list (list node_row)) : prog unit :=
  match bs with
  | [] => pret tt
  | b :: r => let* ok := do (DExecute (insert_nodes e b)) in
              if ok then batches_p e r else PRet Panic
  end.
(** storage.rs 709-726 [batch_save_model], as [insert_all]. *)
Fixpoint insert_all_p (ins : list (db -> option db)) : prog unit :=
  match ins with
  | [] => pret tt
  | f :: r => let* _ := do (DExecute f) in insert_all_p r
  end.
(** storage.rs 581-593 [save_commits]. *)
Definition save_commits_p (path : bytes) (cs : list commit) : prog unit :=
  insert_all_p (map insert_commits (chunks (length cs) 100 (map (commit_to_row path) cs))).
(** storage.rs 95-98, as [save_objects]. *)
Definition save_objects_p (e : env) (fuel : nat) (om : omap) (path : bytes) : prog unit :=
  let* nodes := PRet (build_node_tree fuel om) in
  let* _ := batches_p e (batches 0 [] nodes) in
  save_commits_p path (om_commits om).
(** storage.rs 89-100 [save_packfile]. *)
Definition save_packfile_p (e : env) (fuel : nat) (k : cache) (path : bytes) : prog unit :=
  let* om := PRet (update_seq k omap_default) in
  let* bs := do (DShuffle (om_blobs om)) in
  let* ts := do (DShuffle (om_trees om)) in
  let* gs := do (DShuffle (om_tags om)) in
  let* cs := do (DShuffle (om_commits om)) in
  save_objects_p e fuel (mkOmap (om_map_hash om) bs ts gs cs (om_name_map om)) path.

(** storage.rs 515-526 [update_refs]: the SELECT, the UPDATE and the SELECT of the row
    that was updated are three actions. *)
Definition update_refs_p (e : env) (cmd : ref_command) (path : bytes) : prog unit :=
  let* o := one_row (fun d => filter (fun r => teq e (r_ref_git_id r) (rc_old_id cmd) &&
                                               teq e (r_repo_path r) path) (d_refs d)) in
  let* r := PRet (unwrap_opt o) in
  let* ok := do (DExecute (set_ref (r_id r) (rc_new_id cmd))) in
  if ok
  then let* back := one_row (fun d => filter (fun x => r_id x =? r_id r) (d_refs d)) in
       let* _ := PRet (unwrap_opt back) in pret tt
  else PRet Panic.
(** storage.rs 81-87 [handle_refs]. *)
Definition handle_refs_p (e : env) (cmd : ref_command) (path : bytes) : prog unit :=
  match rc_type cmd with
  | Create => insert_all_p [insert_ref path (rc_ref_name cmd) (rc_new_id cmd)]
  | Delete => PRet Panic
  | Update => update_refs_p e cmd path
  end.

(** storage.rs 67-79 [get_ref_object_id]. *)
Definition get_ref_object_id_p (e : env) (path : bytes) : prog (list (bytes * bytes)) :=
  let* rows := do (DSelect (fun d => filter (fun r => teq e (r_repo_path r) path) (d_refs d))) in
  do (DShuffle (fold_left (fun m r => bt_insert (r_ref_git_id r) (r_ref_name r) m) rows [])).
(** storage.rs 641-658 [search_root_node_by_path]. *)
Definition search_root_p (e : env) (path : bytes) : prog (option node_row) :=
  let* name := PRet (unwrap_opt (file_name path)) in
  let* o := one_row (fun d => filter (fun n => teq e (n_name n) name) (d_nodes d)) in
  match o with
  | Some n => pret (Some n)
  | None => one_row (fun d => filter (fun n => teq e (n_name n) []) (d_nodes d))
  end.
(** storage.rs 610-639 [generate_child_commit_and_refs]. *)
Definition child_p (e : env) (r : ref_row) (path : bytes) : prog bytes :=
  let* o := one_row (fun d => filter (fun c => teq e (c_git_id c) (r_ref_git_id r)) (d_commits d)) in
  let* row := PRet (unwrap_opt o) in
  let* root := search_root_p e path in
  match root with
  | Some n =>
    let* c := PRet (build_from_model_and_root row n) in
    let* _ := save_commits_p path [c] in
    let id := to_plain_str (m_id (cm_meta c)) in
    let* _ := insert_all_p [insert_ref path (r_ref_name r) id] in
    pret id
  | None => pret zero_id
  end.
(** storage.rs 44-65 [get_head_object_id]. *)
Definition head_p (e : env) (path : bytes) : prog bytes :=
  let* rows := do (DSelect (fun d => filter (fun r => like e path (r_repo_path r) && teq e (r_ref_name r) master) (d_refs d))) in
  match find (fun r => beq path (r_repo_path r)) rows with
  | Some r => pret (r_ref_git_id r)
  | None =>
    match find (fun r => path_starts_with path (r_repo_path r)) rows with
    | Some r => child_p e r path
    | None => pret zero_id
    end
  end.

(** storage.rs 483-494 [get_all_commits_by_path]. *)
Definition all_commits_p (e : env) (path : bytes) : prog (list meta) :=
  let* rows := do (DSelect (fun d => filter (fun c => teq e (c_repo_path c) path) (d_commits d))) in
  PRet (commit_metas rows).
(** storage.rs 681-705 [get_child_trees]. *)
Fixpoint child_trees_p (fuel : nat) (e : env) (root : node_row) (hm : hmap) : prog hmap :=
  let* tm := PRet (meta_new Tree (n_data root)) in
  let* t := PRet (tree_new tm) in
  let ids := filter (fun i => match bt_get i hm with Some _ => false | None => true end)
               (map (fun i => to_plain_str (ti_id i)) (t_items t)) in
  let* rows := do (DSelect (fun d => filter (in_ids e ids) (d_nodes d))) in
  let* hm' :=
    (fix go (rows : list node_row) (hm : hmap) : prog hmap :=
       match rows with
       | [] => pret hm
       | c :: r =>
         if beq (n_type c) (bs "tree") then
           match fuel with
           | O => PRet OutOfFuel
           | S f => let* hm1 := child_trees_p f e c hm in go r hm1
           end
         else
           let* m := PRet (meta_new Blob (n_data c)) in
           go r (bt_insert (to_plain_str (m_id m)) m hm)
       end) rows hm in
  pret (bt_insert (to_plain_str (m_id (t_meta t))) (t_meta t) hm').
(** storage.rs 115-125: the loop over the commits. *)
Fixpoint full_loop_p (fuel : nat) (e : env) (trees : list (hash * node_row)) (cs : list commit) (hm : hmap) : prog hmap :=
  match cs with
  | [] => pret hm
  | c :: r =>
    let hm1 := bt_insert (to_plain_str (m_id (cm_meta c))) (cm_meta c) hm in
    match bt_get (cm_tree_id c) trees with
    | Some root => let* hm2 := child_trees_p fuel e root hm1 in full_loop_p fuel e trees r hm2
    | None => PRet (Err EGeneral)
    end
  end.
(** storage.rs 126-127: the pack of the collected objects. *)
Definition encode_map_p (c : codec) (hm : hmap) : prog bytes :=
  let* l := do (DShuffle (map snd hm)) in
  let* (_, file) := PRet (encode c l) in
  pret file.
(** storage.rs 102-128 [get_full_pack_data]. *)
Definition full_pack_p (e : env) (c : codec) (fuel : nat) (path : bytes) : prog bytes :=
  let* metas := all_commits_p e path in
  let* cs := PRet (parse_commits metas) in
  let* rows := do (DSelect (fun d => filter (in_ids e (map (fun x => to_plain_str (cm_tree_id x)) cs)) (d_nodes d))) in
  let* trees := PRet (index_by_hash rows []) in
  let* hm := full_loop_p fuel e trees cs [] in
  encode_map_p c hm.
(** storage.rs 139-148: the loop of [get_incremental_pack_data]. *)
Fixpoint incremental_loop_p (fuel : nat) (e : env) (want : list bytes) (metas : list meta) (hm : hmap) : prog hmap :=
  match metas with
  | [] => pret hm
  | m :: r =>
    if existsb (beq (to_plain_str (m_id m))) want then
      let* c := PRet (commit_new m) in
      let* o := one_row (fun d => filter (fun n => teq e (n_git_id n) (to_plain_str (cm_tree_id c))) (d_nodes d)) in
      match o with
      | Some root => let* hm1 := child_trees_p fuel e root hm in incremental_loop_p fuel e want r hm1
      | None => PRet (Err EGeneral)
      end
    else incremental_loop_p fuel e want r hm
  end.
(** storage.rs 130-152 [get_incremental_pack_data]. *)
Definition incremental_pack_p (e : env) (c : codec) (fuel : nat) (path : bytes) (want : list bytes) : prog bytes :=
  let* metas := all_commits_p e path in
  let* hm := incremental_loop_p fuel e want metas [] in
  encode_map_p c hm.
(** storage.rs 154-165 [get_commit_by_hash]. *)
Definition known_p (e : env) (id : bytes) : prog bool :=
  let* o := one_row (fun d => filter (fun c => teq e (c_git_id c) id) (d_commits d)) in
  pret match o with Some _ => true | None => false end.

(** ** Sessions (protocol/*.rs, as in ModelProto) *)

(** pack.rs 46-71 [git_info_refs]. *)
Definition info_refs_p (e : env) (pp : proto) : prog bytes :=
  let* s := PRet (unwrap_opt (pp_service pp)) in
  let* head := head_p e (pp_path pp) in
  let* refs := get_ref_object_id_p e (pp_path pp) in
  pret (info_refs (pp_protocol pp) s head refs).
(** pack.rs 134-139. *)
Fixpoint ack_haves_p (e : env) (have : list bytes) (buf : bytes) : prog bytes :=
  match have with
  | [] => pret buf
  | h :: r =>
    let* known := known_p e h in
    ack_haves_p e r (if known then add_pkt_line buf (bs "ACK " ++ h ++ bs " common" ++ [10]) else buf)
  end.
(** pack.rs 147-156. *)
Fixpoint ack_wants_p (e : env) (no_done : bool) (want : list bytes) (buf : bytes) : prog bytes :=
  match want with
  | [] => pret buf
  | h :: r =>
    let* known := known_p e h in
    let buf1 := if known then add_pkt_line buf (bs "ACK " ++ h ++ bs " common" ++ [10]) else buf in
    ack_wants_p e no_done r
      (if no_done then add_pkt_line buf1 (bs "ACK " ++ h ++ bs " ready" ++ [10]) else buf1)
  end.
(** pack.rs 73-167 [git_upload_pack]. *)
Definition upload_p (e : env) (c : codec) (fuel : nat) (pp : proto) (body : bytes) : prog (proto * bytes * bytes) :=
  let* (want, have, caps, _) := PRet (upload_loop fuel true [] [] (pp_caps pp) body) in
  let pp' := mkProto (pp_protocol pp) (pp_path pp) (pp_service pp) caps (pp_cmds pp) in
  match have with
  | [] =>
    let* data := punwrap (full_pack_p e c fuel (pp_path pp)) in
    pret (pp', data, add_pkt_line [] (bs "NAK" ++ [10]))
  | _ =>
    let* (data, buf) :=
      (if has_cap MultiAckDetailed caps then
         let* hs := do (DShuffle have) in
         let* buf := ack_haves_p e hs [] in
         let* data := punwrap (incremental_pack_p e c fuel (pp_path pp) want) in
         let* ws := do (DShuffle want) in
         let* buf := ack_wants_p e (has_cap NoDone caps) ws buf in
         pret (data, buf)
       else pret ([], [])) in
    pret (pp', data, add_pkt_line buf (bs "ACK " ++ hard_coded_id ++ [32; 10]))
  end.
(** pack.rs 169-223 [git_receive_pack]. *)
Definition receive_p (e : env) (m : build) (c : codec) (fuel : nat) (now : N) (pp : proto) (body : bytes)
  : prog (proto * bytes) :=
  if starts_with (bs "PACK") body then
    let* cmd := PRet (unwrap_opt (nth_error (pp_cmds pp) (length (pp_cmds pp) - 1))) in
    let* _ := do (DWrite (temp_path now) body) in
    let* file := do (DRead (temp_path now)) in
    let* p := do (DUnpack m c fuel file) in
    let cmd1 := cmd_unpacked cmd None in
    let* cmd2 := then_any (save_packfile_p e fuel (p_cache p) (pp_path pp)) (fun r =>
      match r with
      | Ok _ => let* _ := handle_refs_p e cmd1 (pp_path pp) in pret cmd1
      | Err _ => pret (cmd_failed cmd1 (bs "db operation failed"))
      | Panic => PRet Panic
      | OutOfFuel => PRet OutOfFuel
      end) in
    let* _ := do (DRemove (temp_path now)) in
    let cmds := set_last cmd2 (pp_cmds pp) in
    pret (mkProto (pp_protocol pp) (pp_path pp) (pp_service pp) (pp_caps pp) cmds,
          report (pp_caps pp) cmds)
  else
    let* (n, line, rest) := PRet (read_pkt_line body) in
    if (n =? 0) && (match line with [] => true | _ => false end) then pret (pp, rest)
    else
      let* (cmd, tail) := PRet (parse_ref_update line) in
      let* text := PRet (utf8_unwrap tail) in
      let* r := PRet (slice_from 4 rest) in
      pret (mkProto (pp_protocol pp) (pp_path pp) (pp_service pp)
              (parse_capabilities (pp_caps pp) text) (pp_cmds pp ++ [cmd]), r).
(** http.rs 87-111. *)
Definition http_receive_p (e : env) (m : build) (c : codec) (fuel : nat) (now : N) (path body : bytes) : prog bytes :=
  let* pp := PRet (proto_new path [] Http) in
  let* (pp1, data) := receive_p e m c fuel now pp body in
  let* (_, reply) := receive_p e m c fuel now pp1 data in
  pret reply.
(** http.rs 35-85. *)
Definition http_upload_p (e : env) (c : codec) (fuel : nat) (cut : bytes -> list bytes) (path body : bytes) : prog bytes :=
  let* pp := PRet (proto_new path [] Http) in
  let* (pp, data, buf) := upload_p e c fuel pp body in
  pret (buf ++ concat (send_pack (pp_caps pp) (cut data))).
(** api/lib.rs 115-143: the advertisement over HTTP. *)
Definition http_info_refs_p (e : env) (path service_text : bytes) : prog bytes :=
  let* pp := PRet (proto_new path service_text Http) in
  info_refs_p e pp.
(** ssh.rs 141-157 [handle_git_command]. *)
Definition ssh_command_p (e : env) (cmd : bytes) : prog (proto * bytes) :=
  let words := split_on 32 cmd in
  let* path := PRet (unwrap_opt (nth_error words 1)) in
  let* n := PRet (if (length path <? 5)%nat then Panic else Ok (length path - 5)%nat) in
  let* repo := PRet (slice 2 n path) in
  let* repo := PRet (utf8_unwrap repo) in
  let* pp := PRet (proto_new repo (hd [] words) Ssh) in
  let* reply := info_refs_p e pp in
  let* _ := PRet (utf8_unwrap reply) in
  pret (pp, reply).
(** ssh.rs 87-110, 159-202. *)
Definition ssh_data_p (e : env) (m : build) (c : codec) (fuel : nat) (cut : bytes -> list bytes) (now : N)
  (pp : proto) (data : bytes) : prog (proto * bytes) :=
  match pp_service pp with
  | Some UploadPack =>
    let* (pp', pack, buf) := upload_p e c fuel pp data in
    let* _ := PRet (utf8_unwrap buf) in
    pret (pp', buf ++ concat (send_pack (pp_caps pp') (cut pack)))
  | Some ReceivePack => receive_p e m c fuel now pp data
  | None => PRet Panic
  end.
(** ssh.rs 60-110: the packets of a session. *)
Fixpoint ssh_session_p (e : env) (m : build) (c : codec) (fuel : nat) (cut : bytes -> list bytes) (now : nat -> N)
  (pp : proto) (packets : list bytes) : prog (proto * bytes) :=
  match packets with
  | [] => pret (pp, [])
  | d :: r =>
    let* (pp1, a) := ssh_data_p e m c fuel cut (now (length r)) pp d in
    let* (pp2, b) := ssh_session_p e m c fuel cut now pp1 r in
    pret (pp2, a ++ b)
  end.

(** ** Requests (as in ModelService) *)

Definition serve_p (e : env) (b : build) (c : codec) (fuel : nat) (cut : bytes -> list bytes) (r : request) : prog bytes :=
  match r with
  | QHttp now m path service q body =>
    let* a := PRet (gateway m path service q) in
    match a with
    | AInfoRefs s repo => http_info_refs_p e repo s
    | AUploadPack repo => http_upload_p e c fuel cut repo body
    | AReceivePack repo => http_receive_p e b c fuel now repo body
    | _ => pret []
    end
  | QSsh now cmd packets =>
    let* (pp, a) := ssh_command_p e cmd in
    let* (_, s) := ssh_session_p e b c fuel cut now pp packets in
    pret (a ++ s)
  end.

(** Requests being served: what each has still to do. *)
Definition serving := list (prog bytes).
Fixpoint set_nth {A} (n : nat) (x : A) (l : list A) : list A :=
  match n, l with
  | O, _ :: r => x :: r
  | S m, y :: r => y :: set_nth m x r
  | _, [] => []
  end.
(** Request [i] does its next action. *)
Definition advance (e : env) (i : nat) (ts : serving) (w : world) : serving * world :=
  match nth_error ts i with
  | Some (PAct a k) => let (w', r) := perform e a w in (set_nth i (k r) ts, w')
  | _ => (ts, w)
  end.
(** The order in which they do so is arbitrary. *)
Fixpoint interleave (e : env) (schedule : list nat) (ts : serving) (w : world) : serving * world :=
  match schedule with
  | [] => (ts, w)
  | i :: s => let (ts', w') := advance e i ts w in interleave e s ts' w'
  end.
(** All requests have arrived, none has begun. *)
Definition started (e : env) (b : build) (c : codec) (fuel : nat) (cut : bytes -> list bytes) (rs : list request) : serving :=
  map (serve_p e b c fuel cut) rs.

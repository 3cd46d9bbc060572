(** Model of the wire format functions of src/git/protocol/pack.rs, of
    src/git/protocol/mod.rs, and of the sending loops of http.rs and ssh.rs. *)

From Verif Require Import Base ModelUtils ModelObject.
Open Scope N_scope.

(** ** pkt-lines *)

(** [format!("{n:04x}")]: lower-case hexadecimal, padded with zeros to four digits. *)
Fixpoint hex_aux (fuel : nat) (n : N) (acc : bytes) : bytes :=
  match fuel with
  | O => acc
  | S f => let acc' := hex_digit (n mod 16) :: acc in
           if n <? 16 then acc' else hex_aux f (n / 16) acc'
  end.
Definition to_hex (n : N) : bytes := hex_aux (S (N.size_nat n)) n [].
Definition hex4 (n : N) : bytes := let h := to_hex n in repeat 48 (4 - length h) ++ h.

(** [usize::from_str_radix(s, 16)]: an optional leading ['+'], then at least one
    digit of either case, checked against overflow. *)
Fixpoint parse_hex_digits (acc : N) (l : bytes) : option N :=
  match l with
  | [] => Some acc
  | c :: r => match hex_char_value c with
              | None => None
              | Some d => if acc * 16 + d <? U64 then parse_hex_digits (acc * 16 + d) r else None
              end
  end.
Definition parse_hex_usize (l : bytes) : option N :=
  match l with
  | [] => None
  | c :: r => if (c =? 43) && negb (match r with [] => true | _ => false end)
              then parse_hex_digits 0 r else parse_hex_digits 0 l
  end.

(** [Bytes::copy_to_bytes], [Bytes::split_off] (crate bytes): panic when too short. *)
Definition copy_to_bytes (n : nat) (b : bytes) : res (bytes * bytes) :=
  if (n <=? length b)%nat then Ok (firstn n b, skipn n b) else Panic.

(** protocol/pack.rs 383-387 [add_pkt_line_string]. *)
Definition add_pkt_line (buf s : bytes) : bytes := buf ++ hex4 (nlen s + 4) ++ s.

(** protocol/pack.rs 390-406 [read_pkt_line]: length, line, remaining input. A length
    of 1 to 3 underflows: an overflow panic in debug builds, and in release builds a
    huge length for which [copy_to_bytes] panics. *)
Definition read_pkt_line (b : bytes) : res (N * bytes * bytes) :=
  match b with
  | [] => Ok (0, [], [])
  | _ =>
    let? (l, r) := copy_to_bytes 4 b in
    let? s := utf8_unwrap l in
    let? n := unwrap_opt (parse_hex_usize s) in
    if n =? 0 then Ok (0, [], r)
    else if n <? 4 then Panic
    else let? (line, r') := copy_to_bytes (N.to_nat (n - 4)) r in Ok (n, line, r')
  end.

(** protocol/pack.rs 31 [PKT_LINE_END_MARKER]. *)
Definition flush_pkt : bytes := [48; 48; 48; 48].

(** ** Capabilities *)

(** protocol/mod.rs 67-79. *)
Inductive capability : Type :=
| MultiAck | MultiAckDetailed | NoDone | SideBand | SideBand64k
| ReportStatus | ReportStatusv2 | OfsDelta | DeepenSince | DeepenNot.
Definition cap_eqb (a b : capability) : bool :=
  match a, b with
  | MultiAck, MultiAck | MultiAckDetailed, MultiAckDetailed | NoDone, NoDone
  | SideBand, SideBand | SideBand64k, SideBand64k | ReportStatus, ReportStatus
  | ReportStatusv2, ReportStatusv2 | OfsDelta, OfsDelta
  | DeepenSince, DeepenSince | DeepenNot, DeepenNot => true
  | _, _ => false
  end.
Definition has_cap (c : capability) (l : list capability) : bool := existsb (cap_eqb c) l.

(** protocol/mod.rs 81-99 [Capability::from_str]. *)
Definition cap_from_str (s : bytes) : option capability :=
  if beq s (bs "report-status") then Some ReportStatus
  else if beq s (bs "report-status-v2") then Some ReportStatusv2
  else if beq s (bs "side-band") then Some SideBand
  else if beq s (bs "side-band-64k") then Some SideBand64k
  else if beq s (bs "ofs-delta") then Some OfsDelta
  else if beq s (bs "multi_ack") then Some MultiAck
  else if beq s (bs "multi_ack_detailed") then Some MultiAckDetailed
  else if beq s (bs "no-done") then Some NoDone
  else if beq s (bs "deepen-since") then Some DeepenSince
  else if beq s (bs "deepen-not") then Some DeepenNot
  else None.

(** [str::split(' ')] *)
Fixpoint split_on (c : N) (l : bytes) : list bytes :=
  match l with
  | [] => [[]]
  | x :: r => if x =? c then [] :: split_on c r
              else match split_on c r with
                   | [] => [[x]]
                   | w :: ws => (x :: w) :: ws
                   end
  end.

(** [str::trim]: the characters with the Unicode property White_Space, in UTF-8. *)
Definition white_chars : list bytes :=
  [[9]; [10]; [11]; [12]; [13]; [32]; [194; 133]; [194; 160]; [225; 154; 128];
   [226; 128; 128]; [226; 128; 129]; [226; 128; 130]; [226; 128; 131]; [226; 128; 132];
   [226; 128; 133]; [226; 128; 134]; [226; 128; 135]; [226; 128; 136]; [226; 128; 137];
   [226; 128; 138]; [226; 128; 168]; [226; 128; 169]; [226; 128; 175]; [226; 129; 159];
   [227; 128; 128]].
Definition skip_one (pats : list bytes) (l : bytes) : option bytes :=
  match find (fun p => starts_with p l) pats with
  | Some p => Some (skipn (length p) l)
  | None => None
  end.
Fixpoint skip_all (fuel : nat) (pats : list bytes) (l : bytes) : bytes :=
  match fuel with
  | O => l
  | S f => match skip_one pats l with Some r => skip_all f pats r | None => l end
  end.
Definition trim_start (l : bytes) : bytes := skip_all (length l) white_chars l.
Definition trim_end (l : bytes) : bytes := rev (skip_all (length l) (map (@rev N) white_chars) (rev l)).
Definition trim (l : bytes) : bytes := trim_end (trim_start l).

(** protocol/pack.rs 255-263 [parse_capabilities]: the capabilities are appended. *)
Definition parse_capabilities (caps : list capability) (s : bytes) : list capability :=
  caps ++ flat_map (fun w => match cap_from_str (trim w) with Some c => [c] | None => [] end) (split_on 32 s).

(** ** Side-band *)

(** protocol/pack.rs 226-239 [build_side_band_format]; protocol/mod.rs 110-118. *)
Definition build_side_band_format (caps : list capability) (data : bytes) (len : N) : bytes :=
  if has_cap SideBand caps || has_cap SideBand64k caps
  then hex4 (len + 5) ++ [1] ++ data else data.

(** protocol/http.rs 35-57 [send_pack] and protocol/ssh.rs 174-188: the pieces sent to
    the client, when the reader delivers the pack in the pieces [chunks]. *)
Definition send_pack (caps : list capability) (chunks : list bytes) : list bytes :=
  map (fun c => build_side_band_format caps c (nlen c)) chunks ++ [flush_pkt].

(** ** Fetch requests *)

(** [HashSet::insert] *)
Definition set_insert (x : bytes) (l : list bytes) : list bytes :=
  if existsb (beq x) l then l else l ++ [x].

(** protocol/pack.rs 77-107: the loop over the request lines; result: wants, haves,
    capabilities, remaining input. At the end of the input [read_pkt_line] keeps
    returning an empty line, so that the loop does not end. *)
Fixpoint upload_loop (fuel : nat) (first : bool) (want have : list bytes) (caps : list capability)
  (b : bytes) : res (list bytes * list bytes * list capability * bytes) :=
  match fuel with
  | O => OutOfFuel
  | S f =>
    let? (n, line, r) := read_pkt_line b in
    if (n =? 0) && (match line with [] => true | _ => false end)
    then upload_loop f first want have caps r
    else
      let? cmd := slice 0 4 line in
      if beq cmd (bs "want") then
        let? s := slice 5 45 line in
        let? id := utf8_unwrap s in
        let want' := set_insert id want in
        if first then
          let? t := slice_from 46 line in
          let? t := utf8_unwrap t in
          upload_loop f false want' have (parse_capabilities caps t) r
        else upload_loop f first want' have caps r
      else if beq cmd (bs "have") then
        let? s := slice 5 45 line in
        let? id := utf8_unwrap s in
        let have' := set_insert id have in
        if first then
          let? t := slice_from 46 line in
          let? t := utf8_unwrap t in
          upload_loop f false want have' (parse_capabilities caps t) r
        else upload_loop f first want have' caps r
      else if beq cmd (bs "done") then Ok (want, have, caps, r)
      else upload_loop f first want have caps r
  end.

(** protocol/pack.rs 118-163: the acknowledgements. [known] says whether
    [get_commit_by_hash] succeeds; [want] and [have] in iteration order of the sets. *)
Definition hard_coded_id : bytes := bs "27dd8d4cf39f3868c6eee38b601bc9e9939304f5".
Fixpoint ack_haves (known : bytes -> bool) (have : list bytes) (buf : bytes) : bytes :=
  match have with
  | [] => buf
  | h :: r =>
    let buf' := if known h then add_pkt_line buf (bs "ACK " ++ h ++ bs " common" ++ [10]) else buf in
    ack_haves known r buf'
  end.
Fixpoint ack_wants (known : bytes -> bool) (no_done : bool) (want : list bytes) (buf : bytes) : bytes :=
  match want with
  | [] => buf
  | h :: r =>
    let buf1 := if known h then add_pkt_line buf (bs "ACK " ++ h ++ bs " common" ++ [10]) else buf in
    let buf2 := if no_done then add_pkt_line buf1 (bs "ACK " ++ h ++ bs " ready" ++ [10]) else buf1 in
    ack_wants known no_done r buf2
  end.
Definition ack_reply (known : bytes -> bool) (caps : list capability) (want have : list bytes) : bytes :=
  match have with
  | [] => add_pkt_line [] (bs "NAK" ++ [10])
  | _ =>
    let buf := if has_cap MultiAckDetailed caps
               then ack_wants known (has_cap NoDone caps) want (ack_haves known have [])
               else [] in
    add_pkt_line buf (bs "ACK " ++ hard_coded_id ++ [32; 10])
  end.

(** ** Push commands *)

(** gust/driver/mod.rs 27-30 [ZERO_ID]. *)
Definition zero_id : bytes := repeat 48 40.

(** protocol/mod.rs 124-140. *)
Inductive command : Type := Create | Delete | Update.
Record ref_command : Type := mkCmd {
  rc_ref_name : bytes; rc_old_id : bytes; rc_new_id : bytes;
  rc_status : bytes; rc_error_msg : bytes; rc_type : command }.

(** protocol/mod.rs 147-163 [RefCommand::new]. *)
Definition ref_command_new (old_id new_id ref_name : bytes) : ref_command :=
  let t := if beq zero_id old_id then Create
           else if beq zero_id new_id then Delete else Update in
  mkCmd ref_name old_id new_id (bs "ok") [] t.

(** protocol/mod.rs 165-180 [unpack], the part that concerns the command: [None] is
    success, [Some msg] an error with that message. *)
Definition cmd_unpacked (c : ref_command) (err : option bytes) : ref_command :=
  match err with
  | None => mkCmd (rc_ref_name c) (rc_old_id c) (rc_new_id c) (bs "ok") (rc_error_msg c) (rc_type c)
  | Some msg => mkCmd (rc_ref_name c) (rc_old_id c) (rc_new_id c) (bs "ng") msg (rc_type c)
  end.

(** protocol/mod.rs 182-195 [get_status]. *)
Definition get_status (c : ref_command) : bytes :=
  if beq (bs "ok") (rc_status c) then rc_status c ++ [32] ++ rc_ref_name c
  else rc_status c ++ [32] ++ rc_ref_name c ++ [32] ++ rc_error_msg c.

(** protocol/mod.rs 197-200 [failed]. *)
Definition cmd_failed (c : ref_command) (msg : bytes) : ref_command :=
  mkCmd (rc_ref_name c) (rc_old_id c) (rc_new_id c) (bs "ng") msg (rc_type c).

(** [u8::is_ascii_whitespace] *)
Definition ascii_white (c : N) : bool :=
  (c =? 32) || (c =? 9) || (c =? 10) || (c =? 12) || (c =? 13).

(** protocol/pack.rs 275-285 [read_until_white_space]: word and remaining input. *)
Fixpoint until_white (b : bytes) : bytes * bytes :=
  match b with
  | [] => ([], [])
  | c :: r => if ascii_white c then ([], r) else let (w, t) := until_white r in (c :: w, t)
  end.
Definition read_until_white_space (b : bytes) : res (bytes * bytes) :=
  let (w, t) := until_white b in
  let? s := utf8_unwrap w in
  Ok (s, t).

(** protocol/pack.rs 266-272 [parse_ref_update]: command and rest of the line. *)
Definition parse_ref_update (line : bytes) : res (ref_command * bytes) :=
  let? (o, r1) := read_until_white_space line in
  let? (n, r2) := read_until_white_space r1 in
  let? (name, r3) := read_until_white_space r2 in
  Ok (ref_command_new o n name, r3).

(** protocol/pack.rs 241-253 [build_smart_reply]; protocol/mod.rs 29-63. *)
Inductive protocol : Type := Local | Http | Ssh | GitProto.
Inductive service : Type := UploadPack | ReceivePack.
Definition service_name (s : service) : bytes :=
  match s with UploadPack => bs "git-upload-pack" | ReceivePack => bs "git-receive-pack" end.
Definition service_from_str (s : bytes) : option service :=
  if beq s (bs "git-upload-pack") then Some UploadPack
  else if beq s (bs "git-receive-pack") then Some ReceivePack else None.
Definition build_smart_reply (p : protocol) (ref_list : list bytes) (sv : bytes) : bytes :=
  let s0 := match p with
            | Http => add_pkt_line [] (bs "# service=" ++ sv ++ [10]) ++ flush_pkt
            | _ => []
            end in
  fold_left add_pkt_line ref_list s0 ++ flush_pkt.

(** protocol/pack.rs 33-43 and 55-60: capability lists. *)
Definition cap_list (s : service) : bytes :=
  match s with
  | UploadPack => bs "shallow deepen-since deepen-not deepen-relative multi_ack_detailed no-done "
  | ReceivePack => bs "report-status report-status-v2 delete-refs quiet atomic "
  end ++ bs "side-band-64k ofs-delta object-format=sha1".

(** protocol/pack.rs 46-70 [git_info_refs], given the answers of the storage (in
    iteration order of the map). The service is always present where it is called. *)
Definition info_refs (p : protocol) (s : service) (head : bytes) (refs : list (bytes * bytes)) : bytes :=
  let name := if beq head zero_id then bs "capabilities^{}" else bs "HEAD" in
  let first := head ++ [32] ++ name ++ [0] ++ cap_list s ++ [10] in
  build_smart_reply p (first :: map (fun x => fst x ++ [32] ++ snd x ++ [10]) refs) (service_name s).

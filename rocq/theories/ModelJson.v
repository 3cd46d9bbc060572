(** Model of the JSON of git-lfs: the bodies of requests and replies and the column data of
    the table locks. The types are those of src/git/lfs/structs.rs, whose (de)serialisers
    serde derives; reading and writing is serde_json (from_slice, from_str, to_string).
    Every reader is followed by unwrap, so only success and failure are told apart, not the
    errors. *)

From Coq Require Import ZArith.
From Verif Require Import Base ModelObject ModelLfs.
Open Scope N_scope.

(** ** Reading (serde_json read.rs, de.rs) *)

(** A value as it stands in the text: strings and numbers are kept as written, as fields
    that are not known are skipped without being looked at (de.rs ignore_value). *)
Inductive jv : Type :=
| JNull | JBool (b : bool) | JNum (text : bytes) | JStr (raw : bytes)
| JArr (l : list jv) | JObj (l : list (bytes * jv)).

(** de.rs parse_whitespace. *)
Definition is_ws (b : N) : bool := (b =? 32) || (b =? 9) || (b =? 10) || (b =? 13).
Fixpoint skip_ws (l : bytes) : bytes :=
  match l with b :: r => if is_ws b then skip_ws r else l | [] => [] end.

(** read.rs decode_hex_val: 0-9, A-F, a-f. *)
Definition hex_digit_val (c : N) : option N :=
  if (48 <=? c) && (c <=? 57) then Some (c - 48)
  else if (65 <=? c) && (c <=? 70) then Some (c - 55)
  else if (97 <=? c) && (c <=? 102) then Some (c - 87) else None.
Definition hex4_val (l : bytes) : option (N * bytes) :=
  match l with
  | a :: b :: c :: d :: r =>
    match hex_digit_val a, hex_digit_val b, hex_digit_val c, hex_digit_val d with
    | Some x, Some y, Some z, Some t => Some (((x * 16 + y) * 16 + z) * 16 + t, r)
    | _, _, _, _ => None
    end
  | _ => None
  end.
(** read.rs ignore_str, ignore_escape: the text of a string after its opening quote. *)
Definition simple_escape (c : N) : bool := existsb (N.eqb c) [34; 92; 47; 98; 102; 110; 114; 116].
Fixpoint raw_string (fuel : nat) (l : bytes) : option (bytes * bytes) :=
  match fuel with
  | O => None
  | S f =>
    match l with
    | [] => None
    | b :: r =>
      if b =? 34 then Some ([], r)
      else if b =? 92 then
        match r with
        | [] => None
        | c :: r1 =>
          if c =? 117 then
            match hex4_val r1 with
            | Some (_, q) => match raw_string f q with Some (t, z) => Some (b :: c :: firstn 4 r1 ++ t, z) | None => None end
            | None => None
            end
          else if simple_escape c then
            match raw_string f r1 with Some (t, z) => Some (b :: c :: t, z) | None => None end
          else None
        end
      else if b <? 32 then None
      else match raw_string f r with Some (t, z) => Some (b :: t, z) | None => None end
    end
  end.
(** char::encode_utf8. *)
Definition encode_utf8 (c : N) : bytes :=
  if c <? 128 then [c]
  else if c <? 2048 then [N.lor 192 (N.shiftr c 6); N.lor 128 (N.land c 63)]
  else if c <? 65536 then [N.lor 224 (N.shiftr c 12); N.lor 128 (N.land (N.shiftr c 6) 63); N.lor 128 (N.land c 63)]
  else [N.lor 240 (N.shiftr c 18); N.lor 128 (N.land (N.shiftr c 12) 63); N.lor 128 (N.land (N.shiftr c 6) 63); N.lor 128 (N.land c 63)].
(** read.rs parse_escape, parse_str_bytes: what a string stands for; then str::from_utf8. *)
Definition escaped (c : N) : N :=
  if c =? 98 then 8 else if c =? 102 then 12 else if c =? 110 then 10 else if c =? 114 then 13
  else if c =? 116 then 9 else c.
Definition low_surrogate (n : N) : bool := (56320 <=? n) && (n <=? 57343).
Definition high_surrogate (n : N) : bool := (55296 <=? n) && (n <=? 56319).
(** parse_escape, decode_hex_escape: one character of a "u" escape and the rest. *)
Definition unicode_escape (l : bytes) : option (bytes * bytes) :=
  match hex4_val l with
  | Some (n, q) =>
    if low_surrogate n then None
    else if high_surrogate n then
      match q with
      | a :: b :: q1 =>
        if (a =? 92) && (b =? 117) then
          match hex4_val q1 with
          | Some (n2, q2) =>
            if low_surrogate n2
            then Some (encode_utf8 (N.lor (N.shiftl (n - 55296) 10) (n2 - 56320) + 65536), q2) else None
          | None => None
          end
        else None
      | _ => None
      end
    else Some (encode_utf8 n, q)
  | None => None
  end.
Fixpoint unescape (fuel : nat) (l : bytes) : option bytes :=
  match fuel with
  | O => None
  | S f =>
    match l with
    | [] => Some []
    | b :: r =>
      if b =? 92 then
        match r with
        | [] => None
        | c :: r1 =>
          if c =? 117 then
            match unicode_escape r1 with
            | Some (x, q) => match unescape f q with Some t => Some (x ++ t) | None => None end
            | None => None
            end
          else match unescape f r1 with Some t => Some (escaped c :: t) | None => None end
        end
      else match unescape f r with Some t => Some (b :: t) | None => None end
    end
  end.
Definition string_of (raw : bytes) : option bytes :=
  match unescape (S (length raw)) raw with
  | Some t => if utf8_valid t then Some t else None
  | None => None
  end.

(** de.rs ignore_number: the text of a number. *)
Definition digit_byte (b : N) : bool := (48 <=? b) && (b <=? 57).
Fixpoint digits_of (l : bytes) : bytes * bytes :=
  match l with
  | b :: r => if digit_byte b then let (d, q) := digits_of r in (b :: d, q) else ([], l)
  | [] => ([], [])
  end.
(** The rest after one given byte. *)
Definition after (b : N) (l : bytes) : option bytes :=
  match l with c :: r => if c =? b then Some r else None | [] => None end.
Definition int_text (l : bytes) : option (bytes * bytes) :=
  match digits_of l with
  | ([], _) => None
  | (b :: d, q) => if (b =? 48) && negb (beq d []) then None else Some (b :: d, q)
  end.
Definition frac_text (l : bytes) : option (bytes * bytes) :=
  match after 46 l with
  | Some r => match digits_of r with ([], _) => None | (d, q) => Some (46 :: d, q) end
  | None => Some ([], l)
  end.
Definition exp_sign (l : bytes) : bytes * bytes :=
  match l with c :: r => if (c =? 43) || (c =? 45) then ([c], r) else ([], l) | [] => ([], []) end.
Definition exp_text (l : bytes) : option (bytes * bytes) :=
  match l with
  | b :: r =>
    if (b =? 101) || (b =? 69) then
      let (s, r1) := exp_sign r in
      match digits_of r1 with ([], _) => None | (d, q) => Some (b :: s ++ d, q) end
    else Some ([], l)
  | [] => Some ([], [])
  end.
Definition num_sign (l : bytes) : bytes * bytes :=
  match after 45 l with Some r => ([45], r) | None => ([], l) end.
Definition number_text (l : bytes) : option (bytes * bytes) :=
  let (s, l1) := num_sign l in
  match int_text l1 with
  | Some (d, l2) =>
    match frac_text l2 with
    | Some (f, l3) => match exp_text l3 with Some (x, l4) => Some (s ++ d ++ f ++ x, l4) | None => None end
    | None => None
    end
  | None => None
  end.

(** de.rs ignore_value, SeqAccess, MapAccess: one value and the rest. *)
Definition word_at (w l : bytes) : option bytes := if starts_with w l then Some (skipn (length w) l) else None.
Fixpoint jvalue (fuel : nat) (l : bytes) : option (jv * bytes) :=
  match fuel with
  | O => None
  | S f =>
    match skip_ws l with
    | [] => None
    | b :: r =>
      if b =? 110 then match word_at (bs "ull") r with Some q => Some (JNull, q) | None => None end
      else if b =? 116 then match word_at (bs "rue") r with Some q => Some (JBool true, q) | None => None end
      else if b =? 102 then match word_at (bs "alse") r with Some q => Some (JBool false, q) | None => None end
      else if b =? 34 then match raw_string (S (length r)) r with Some (t, q) => Some (JStr t, q) | None => None end
      else if b =? 91 then
        match after 93 (skip_ws r) with
        | Some q => Some (JArr [], q)
        | None => match jelems f r with Some (x, q) => Some (JArr x, q) | None => None end
        end
      else if b =? 123 then
        match after 125 (skip_ws r) with
        | Some q => Some (JObj [], q)
        | None => match jmembers f r with Some (x, q) => Some (JObj x, q) | None => None end
        end
      else if (b =? 45) || digit_byte b then
        match number_text (b :: r) with Some (t, q) => Some (JNum t, q) | None => None end
      else None
    end
  end
(** One element or more, up to the closing bracket. *)
with jelems (fuel : nat) (l : bytes) : option (list jv * bytes) :=
  match fuel with
  | O => None
  | S f =>
    match jvalue f l with
    | Some (x, r) =>
      match after 93 (skip_ws r), after 44 (skip_ws r) with
      | Some q, _ => Some ([x], q)
      | None, Some q => match jelems f q with Some (xs, z) => Some (x :: xs, z) | None => None end
      | None, None => None
      end
    | None => None
    end
  end
(** One member or more, up to the closing brace. *)
with jmembers (fuel : nat) (l : bytes) : option (list (bytes * jv) * bytes) :=
  match fuel with
  | O => None
  | S f =>
    match after 34 (skip_ws l) with
    | Some r =>
      match raw_string (S (length r)) r with
      | Some (k, r1) =>
        match after 58 (skip_ws r1) with
        | Some r2 =>
          match jvalue f r2 with
          | Some (x, r3) =>
            match after 125 (skip_ws r3), after 44 (skip_ws r3) with
            | Some q, _ => Some ([(k, x)], q)
            | None, Some q => match jmembers f q with Some (xs, z) => Some ((k, x) :: xs, z) | None => None end
            | None, None => None
            end
          | None => None
          end
        | None => None
        end
      | None => None
      end
    | None => None
    end
  end.
(** de.rs from_trait: the value, then nothing but whitespace. *)
Definition jtext (l : bytes) : option jv :=
  match jvalue (S (2 * length l)) l with
  | Some (x, r) => match skip_ws r with [] => Some x | _ => None end
  | None => None
  end.

(** ** Types (serde derive) *)

Definition d_string (v : jv) : option bytes := match v with JStr raw => string_of raw | _ => None end.
Definition d_bool (v : jv) : option bool := match v with JBool b => Some b | _ => None end.
(** de.rs parse_integer, parse_number, then visit_u64, visit_i64, visit_f64 of i64: a
    number with fraction or exponent, "-0" and numbers out of range are refused. *)
Definition d_i64 (v : jv) : option Z :=
  match v with
  | JNum t =>
    match after 45 t with
    | Some d => if forallb digit_byte d && negb (beq d [48]) then parse_i64 t else None
    | None => if forallb digit_byte t then parse_i64 t else None
    end
  | _ => None
  end.
Definition d_option {A} (f : jv -> option A) (v : jv) : option (option A) :=
  match v with JNull => Some None | _ => match f v with Some x => Some (Some x) | None => None end end.
Fixpoint d_list {A} (f : jv -> option A) (l : list jv) : option (list A) :=
  match l with
  | [] => Some []
  | x :: r => match f x, d_list f r with Some a, Some b => Some (a :: b) | _, _ => None end
  end.
Definition d_vec {A} (f : jv -> option A) (v : jv) : option (list A) :=
  match v with JArr l => d_list f l | _ => None end.

(** The fields of a struct, in the order of its declaration: by name from an object (every
    name is read as a string; a known one may come once; unknown ones are skipped), by
    position from an array. The flag tells which. *)
Fixpoint keys_of (l : list (bytes * jv)) : option (list (bytes * jv)) :=
  match l with
  | [] => Some []
  | (k, x) :: r => match string_of k, keys_of r with Some n, Some q => Some ((n, x) :: q) | _, _ => None end
  end.
Definition one_of (l : list (bytes * jv)) (n : bytes) : option (option jv) :=
  match filter (fun m => beq (fst m) n) l with [] => Some None | [m] => Some (Some (snd m)) | _ => None end.
Fixpoint by_name (l : list (bytes * jv)) (names : list bytes) : option (list (option jv)) :=
  match names with
  | [] => Some []
  | n :: r => match one_of l n, by_name l r with Some a, Some b => Some (a :: b) | _, _ => None end
  end.
Fixpoint by_place (l : list jv) (names : list bytes) : option (list (option jv)) :=
  match names, l with
  | [], [] => Some []
  | [], _ => None
  | _ :: r, [] => match by_place [] r with Some b => Some (None :: b) | None => None end
  | _ :: r, x :: q => match by_place q r with Some b => Some (Some x :: b) | None => None end
  end.
Definition d_struct (names : list bytes) (v : jv) : option (bool * list (option jv)) :=
  match v with
  | JObj l => match keys_of l with
              | Some m => match by_name m names with Some f => Some (false, f) | None => None end
              | None => None
              end
  | JArr l => match by_place l names with Some f => Some (true, f) | None => None end
  | _ => None
  end.
(** A field that must be there; an Option, which may be missing from an object; a field
    with #[serde(default)], which may be missing. *)
Definition req {A} (f : jv -> option A) (o : option jv) : option A := match o with Some x => f x | None => None end.
Definition opt {A} (seq : bool) (f : jv -> option A) (o : option jv) : option (option A) :=
  match o with Some x => d_option f x | None => if seq then None else Some None end.
Definition dflt (o : option jv) : option bytes := match o with Some x => d_string x | None => Some [] end.

(** structs.rs 101-104 [User], 114-117 [Ref]: one field. *)
Definition d_named (v : jv) : option bytes :=
  match d_struct [bs "name"] v with
  | Some (_, [n]) => req d_string n
  | _ => None
  end.
(** structs.rs 106-112 [Lock]. *)
Definition d_lock (v : jv) : option lock :=
  match d_struct [bs "id"; bs "path"; bs "locked_at"; bs "owner"] v with
  | Some (s, [i; p; a; o]) =>
    match req d_string i, req d_string p, req d_string a, opt s d_named o with
    | Some i, Some p, Some a, Some o => Some (mkLock i p a o)
    | _, _, _, _ => None
    end
  | _ => None
  end.
Definition from_text {A} (d : jv -> option A) (l : bytes) : option A :=
  match jtext l with Some v => d v | None => None end.
(** storage.rs 267, 345, 416: [Vec<Lock>]. *)
Definition read_locks (l : bytes) : option (list lock) := from_text (d_vec d_lock) l.
(** structs.rs 119-124 [LockRequest]. *)
Definition d_lock_request (v : jv) : option lock_request :=
  match d_struct [bs "path"; bs "ref"] v with
  | Some (_, [p; r]) =>
    match req d_string p, req d_named r with Some p, Some r => Some (mkLockReq p r) | _, _ => None end
  | _ => None
  end.
(** structs.rs 132-137 [UnlockRequest]; http.rs 291 [unwrap_or(false)]. *)
Definition d_unlock (v : jv) : option unlock_request :=
  match d_struct [bs "force"; bs "ref"] v with
  | Some (s, [f; r]) =>
    match opt s d_bool f, req d_named r with
    | Some f, Some r => Some (mkUnlock (match f with Some b => b | None => false end) r)
    | _, _ => None
    end
  | _ => None
  end.
(** structs.rs 151-157 [VerifiableLockRequest]. *)
Definition d_verify (v : jv) : option verify_request :=
  match d_struct [bs "ref"; bs "cursor"; bs "limit"] v with
  | Some (s, [r; c; n]) =>
    match req d_named r, opt s d_string c, opt s d_i64 n with
    | Some r, Some c, Some n => Some (mkVerify r c n)
    | _, _, _ => None
    end
  | _ => None
  end.
(** structs.rs 5-17 [RequestVars]; password is read and not used, authorization is
    overwritten (http.rs 356-359). *)
Definition d_object (v : jv) : option object_request :=
  match d_struct [bs "oid"; bs "size"; bs "user"; bs "password"; bs "repo"; bs "authorization"] v with
  | Some (_, [o; z; u; p; r; a]) =>
    match req d_string o, req d_i64 z, dflt u, dflt p, dflt r, dflt a with
    | Some o, Some z, Some u, Some _, Some r, Some _ => Some (mkObj o z u r)
    | _, _, _, _, _, _ => None
    end
  | _ => None
  end.
(** structs.rs 55-60 [BatchVars]: transfers is read and not used. *)
Definition d_batch (v : jv) : option (bytes * list object_request) :=
  match d_struct [bs "transfers"; bs "operation"; bs "objects"] v with
  | Some (_, [t; o; l]) =>
    match req (d_vec d_string) t, req d_string o, req (d_vec d_object) l with
    | Some _, Some o, Some l => Some (o, l)
    | _, _, _ => None
    end
  | _ => None
  end.

(** ** Writing (serde_json ser.rs, compact) *)

(** format_escaped_str. *)
Definition json_char (b : N) : bytes :=
  if b =? 34 then [92; 34] else if b =? 92 then [92; 92] else if b =? 8 then [92; 98]
  else if b =? 9 then [92; 116] else if b =? 10 then [92; 110] else if b =? 12 then [92; 102]
  else if b =? 13 then [92; 114]
  else if b <? 32 then [92; 117; 48; 48; hex_digit (N.shiftr b 4); hex_digit (N.land b 15)]
  else [b].
Definition json_text (t : bytes) : bytes := [34] ++ flat_map json_char t ++ [34].
Fixpoint json_items (l : list bytes) : bytes :=
  match l with [] => [] | [x] => x | x :: r => x ++ [44] ++ json_items r end.
Definition json_list (l : list bytes) : bytes := [91] ++ json_items l ++ [93].
Definition json_field (f : bytes * bytes) : bytes := json_text (fst f) ++ [58] ++ snd f.
Definition json_struct (l : list (bytes * bytes)) : bytes := [123] ++ json_items (map json_field l) ++ [125].
(** structs.rs 106-112. *)
Definition json_lock (x : lock) : bytes :=
  json_struct [(bs "id", json_text (lk_id x)); (bs "path", json_text (lk_path x)); (bs "locked_at", json_text (lk_at x));
               (bs "owner", match lk_owner x with None => bs "null" | Some n => json_struct [(bs "name", json_text n)] end)].
(** storage.rs 358, 376, 466. *)
Definition write_locks (l : list lock) : bytes := json_list (map json_lock l).
(** structs.rs 76-81 [Link]; the header has one entry, as authorization is empty (http.rs
    356-359, 522-527); [expires] is the text of the time. *)
Definition json_link (expires href : bytes) : bytes :=
  json_struct [(bs "href", json_text href); (bs "header", json_struct [(bs "Accept", json_text (bs "application/vnd.git-lfs"))]);
               (bs "expires_at", json_text expires)].
(** structs.rs 89-99 [Representation]: options that are None are left out; actions has one
    entry; 83-87 [ObjectError]. *)
Definition json_repr (expires : bytes) (x : repr) : bytes :=
  json_struct ([(bs "oid", json_text (rp_oid x)); (bs "size", z_text (rp_size x))] ++
    match rp_auth x with Some b => [(bs "authenticated", if b : bool then bs "true" else bs "false")] | None => [] end ++
    match rp_action x with Some (a, href) => [(bs "actions", json_struct [(a, json_link expires href)])] | None => [] end ++
    match rp_error x with
    | Some (c, m) => [(bs "error", json_struct [(bs "code", to_decimal c); (bs "message", json_text m)])]
    | None => []
    end).
(** The body of a reply: structs.rs 145-149 [LockList], 159-164 [VerifiableLockList],
    126-130 and 139-143 [LockResponse] and [UnlockResponse], 69-74 [BatchResponse]; errors
    are their message (axum). *)
Definition reply_body (expires : bytes) (r : lfs_reply) : bytes :=
  match r with
  | RFail _ m => m
  | ROk _ b =>
    match b with
    | BLocks l next => json_struct [(bs "locks", write_locks l); (bs "next_cursor", json_text next)]
    | BVerify o t next => json_struct [(bs "ours", write_locks o); (bs "theirs", write_locks t); (bs "next_cursor", json_text next)]
    | BLock x => json_struct [(bs "lock", json_lock x); (bs "message", json_text [])]
    | BBatch l => json_struct [(bs "transfer", json_text (bs "basic")); (bs "objects", json_list (map (json_repr expires) l));
                               (bs "hash_algo", json_text (bs "sha256"))]
    | BEmpty => []
    | BData d => d
    end
  end.

(** ** Requests with their bodies (http.rs 103-104, 179, 275-282, 354) *)
Definition verify_event (body : bytes) : lfs_event := EVerify (from_text d_verify body).
Definition lock_event (body id now : bytes) : lfs_event := ELock (from_text d_lock_request body) id now.
Definition unlock_event (id body : bytes) : lfs_event :=
  EUnlock id (match body with [] => None | _ => Some (from_text d_unlock body) end).
Definition batch_event (body : bytes) : lfs_event := EBatch (from_text d_batch body).

(** Model of git-lfs: src/git/lfs/http.rs, src/git/lfs/structs.rs, the LFS methods of
    src/gust/driver/database/mysql/storage.rs (197-479) and
    src/gust/driver/lfs_content_store/mod.rs. Requests are taken after
    serde_json::from_slice (a body that does not parse is [None]; every handler then
    panics) and replies before serde_json::to_string. *)

From Coq Require Import ZArith.
From Verif Require Import Base Digest ModelUtils ModelObject ModelPkt ModelStorage.
Open Scope N_scope.

(** ** State *)

(** structs.rs 106-112 [Lock], 101-104 [User]. *)
Record lock : Type := mkLock { lk_id : bytes; lk_path : bytes; lk_at : bytes; lk_owner : option bytes }.
(** structs.rs 62-67 [MetaObject]; entity/src/meta.rs. *)
Record meta_row : Type := mkMeta { mt_oid : bytes; mt_size : Z; mt_exist : bool }.
(** The tables locks (id, data) and meta, the file system, and the outcomes of the coming
    statements as in ModelStorage. The tables of ModelStorage are not touched. *)
Record lfs : Type := mkLfs {
  l_locks : list (bytes * bytes); l_meta : list meta_row; l_files : fs; l_fails : list bool }.

(** What the program does not determine: the collation of the server; serde_json on lists
    of locks; which paths the operating system accepts; how many bytes of a buffer one
    [write] takes; whether sea-orm reports the INSERT of a row as a success when the primary
    key is a text not marked auto_increment = false, as in entity/src/meta.rs and
    entity/src/locks.rs (sea-orm 0.11 returns DbErr::UnpackInsertId after the INSERT).
    [l_base] is config.lfs_content_path and [l_url] "http://host:port". *)
Record lenv : Type := mkLenv {
  l_teq : bytes -> bytes -> bool;
  js_enc : list lock -> bytes;
  js_dec : bytes -> option (list lock);
  can_open : list bytes -> bool;
  write_len : bytes -> nat;
  key_insert_ok : bool;
  l_base : bytes;
  l_url : bytes }.

Definition L (A : Type) : Type := lfs -> lfs * res A.
Definition lret {A} (a : A) : L A := fun w => (w, Ok a).
Definition llift {A} (r : res A) : L A := fun w => (w, r).
Definition lbind {A B} (m : L A) (k : A -> L B) : L B := fun w =>
  match m w with
  | (w', Ok a) => k a w'
  | (w', Err e) => (w', Err e)
  | (w', Panic) => (w', Panic)
  | (w', OutOfFuel) => (w', OutOfFuel)
  end.
Notation "'do!' p ':=' m 'in' k" :=
  (lbind m (fun x => match x with p => k end))
  (at level 200, p pattern, m at level 100, k at level 200, right associativity).
Definition lunwrap {A} (m : L A) : L A := fun w => let (w', r) := m w in (w', unwrap r).

Definition lattempt : L bool := fun w =>
  match l_fails w with
  | [] => (w, Ok true)
  | b :: r => (mkLfs (l_locks w) (l_meta w) (l_files w) r, Ok (negb b))
  end.
(** [find_by_id(k).one().await.unwrap()]: at most one row has the primary key. *)
Definition find_lock_row (v : lenv) (k : bytes) : L (option (bytes * bytes)) :=
  do! ok := lattempt in
  if ok then fun w => (w, Ok (find (fun r => l_teq v (fst r) k) (l_locks w))) else llift Panic.
Definition find_meta_row (v : lenv) (k : bytes) : L (option meta_row) :=
  do! ok := lattempt in
  if ok then fun w => (w, Ok (find (fun r => l_teq v (mt_oid r) k) (l_meta w))) else llift Panic.
(** Statements that change a table; the result says whether they succeeded. *)
Definition exec_locks (f : list (bytes * bytes) -> option (list (bytes * bytes))) : L bool :=
  do! ok := lattempt in
  if ok then fun w => match f (l_locks w) with
                      | Some t => (mkLfs t (l_meta w) (l_files w) (l_fails w), Ok true)
                      | None => (w, Ok false)
                      end
  else lret false.
Definition exec_meta (f : list meta_row -> option (list meta_row)) : L bool :=
  do! ok := lattempt in
  if ok then fun w => match f (l_meta w) with
                      | Some t => (mkLfs (l_locks w) t (l_files w) (l_fails w), Ok true)
                      | None => (w, Ok false)
                      end
  else lret false.

(** The result of [Insert::exec] and of [ActiveModel::update], which reads the row back. *)
Definition inserted (v : lenv) (m : L bool) : L bool := do! ok := m in lret (ok && key_insert_ok v).
Definition updated (m : L bool) : L bool := do! ok := m in if ok then lattempt else lret false.

(** ** Schema: locks (id varchar(200), data varchar(10000)); meta (oid varchar(100), size
    int, exist tinyint); primary keys id and oid. *)
Definition insert_lock (v : lenv) (k d : bytes) (t : list (bytes * bytes)) : option (list (bytes * bytes)) :=
  if varchar 200 k && varchar 10000 d && negb (existsb (fun r => l_teq v (fst r) k) t)
  then Some (t ++ [(k, d)]) else None.
Definition update_lock (v : lenv) (k d : bytes) (t : list (bytes * bytes)) : option (list (bytes * bytes)) :=
  if varchar 10000 d && existsb (fun r => l_teq v (fst r) k) t
  then Some (map (fun r => if l_teq v (fst r) k then (fst r, d) else r) t) else None.
Definition remove_lock (v : lenv) (k : bytes) (t : list (bytes * bytes)) : option (list (bytes * bytes)) :=
  Some (filter (fun r => negb (l_teq v (fst r) k)) t).
Definition int_ok (z : Z) : bool := (-2147483648 <=? z)%Z && (z <=? 2147483647)%Z.
Definition insert_meta (v : lenv) (r : meta_row) (t : list meta_row) : option (list meta_row) :=
  if varchar 100 (mt_oid r) && int_ok (mt_size r) && negb (existsb (fun x => l_teq v (mt_oid x) (mt_oid r)) t)
  then Some (t ++ [r]) else None.
Definition remove_meta (v : lenv) (k : bytes) (t : list meta_row) : option (list meta_row) :=
  Some (filter (fun r => negb (l_teq v (mt_oid r) k)) t).

(** ** Meta data (storage.rs) *)

(** 197-211 [lfs_get_meta]; the error has no content. *)
Definition lfs_get_meta (v : lenv) (oid : bytes) : L (option meta_row) := find_meta_row v oid.
(** 213-246 [lfs_put_meta]. *)
Definition lfs_put_meta (v : lenv) (oid : bytes) (size : Z) : L meta_row :=
  do! r := find_meta_row v oid in
  match r with
  | Some x => lret (mkMeta (mt_oid x) (mt_size x) true)
  | None =>
    do! ok := inserted v (exec_meta (insert_meta v (mkMeta oid size true))) in
    if ok then lret (mkMeta oid size true) else llift (Err EGeneral)
  end.
(** 248-256 [lfs_delete_meta]. *)
Definition lfs_delete_meta (v : lenv) (oid : bytes) : L unit :=
  do! ok := exec_meta (remove_meta v oid) in
  if ok then lret tt else llift (Err EGeneral).

(** ** Locks (storage.rs) *)

(** 258-272 [lfs_get_locks]. *)
Definition lfs_get_locks (v : lenv) (refspec : bytes) : L (option (list lock)) :=
  do! r := find_lock_row v refspec in
  match r with
  | Some (_, d) => do! l := llift (unwrap_opt (js_dec v d)) in lret (Some l)
  | None => lret None
  end.

(** [str::parse::<i64>()]. *)
Definition parse_i64 (l : bytes) : option Z :=
  match l with
  | 45 :: [] => None
  | 45 :: r => match parse_digits 0 r with
               | Some n => if n <=? 9223372036854775808 then Some (- Z.of_N n)%Z else None
               | None => None
               end
  | _ => match parse_usize l with
         | Some n => if n <=? 9223372036854775807 then Some (Z.of_N n) else None
         | None => None
         end
  end.
(** [i64::to_string]. *)
Definition z_text (z : Z) : bytes :=
  if (z <? 0)%Z then 45 :: to_decimal (Z.to_N (- z)) else to_decimal (Z.to_N z).

(** 290-304: the position of the cursor (as i32: a list of more than 2^31 locks does not
    fit the column). *)
Fixpoint lock_index (cursor : bytes) (l : list lock) : option nat :=
  match l with
  | [] => None
  | x :: r => if beq (lk_id x) cursor then Some O else option_map S (lock_index cursor r)
  end.
(** 320-329: the limit. *)
Definition cut_locks (limit : bytes) (l : list lock) : res (list lock * bytes) :=
  match limit with
  | [] => Ok (l, [])
  | _ =>
    let? size := unwrap_opt (parse_i64 limit) in
    let size := Z.min size (Z.of_nat (length l)) in
    if (size <? 0)%Z then Panic
    else
      let? next := (if (size + 1 <? Z.of_nat (length l))%Z
                    then let? x := unwrap_opt (nth_error l (Z.to_nat size)) in Ok (lk_id x) else Ok []) in
      Ok (firstn (Z.to_nat size) l, next)
  end.
(** 274-332 [lfs_get_filtered_locks]. *)
Definition filtered_locks (path cursor limit : bytes) (l : list lock) : res (list lock * bytes) :=
  let? l := (match cursor with
             | [] => Ok l
             | _ => match lock_index cursor l with Some i => Ok (skipn i l) | None => Err EGeneral end
             end) in
  let l := match path with [] => l | _ => filter (fun x => beq (lk_path x) path) l end in
  cut_locks limit l.
Definition lfs_get_filtered_locks (v : lenv) (refspec path cursor limit : bytes) : L (list lock * bytes) :=
  do! r := lfs_get_locks v refspec in
  llift (filtered_locks path cursor limit (match r with Some l => l | None => [] end)).

(** 349-353, 368-372: [sort_by] on the text of the time; stable. *)
Fixpoint insert_at (x : lock) (l : list lock) : list lock :=
  match l with
  | [] => [x]
  | y :: r => match bcmp (lk_at x) (lk_at y) with Gt => y :: insert_at x r | _ => x :: l end
  end.
Fixpoint sort_locks (l : list lock) : list lock :=
  match l with
  | [] => []
  | x :: r => insert_at x (sort_locks r)
  end.
(** 343-348: the data column; an empty one stands for no locks. *)
Definition row_locks (v : lenv) (d : bytes) : res (list lock) :=
  match d with [] => Ok [] | _ => unwrap_opt (js_dec v d) end.
(** 334-388 [lfs_add_lock] in two steps: the SELECT, and what is done with its result. *)
Definition add_lock_read (v : lenv) (repo : bytes) : L (option (bytes * bytes)) := find_lock_row v repo.
Definition add_lock_write (v : lenv) (repo : bytes) (locks : list lock) (row : option (bytes * bytes)) : L unit :=
  do! ok := (match row with
    | Some (k, d) =>
      do! old := llift (row_locks v d) in
      updated (exec_locks (update_lock v k (js_enc v (sort_locks (old ++ locks)))))
    | None => inserted v (exec_locks (insert_lock v repo (js_enc v (sort_locks locks))))
    end) in
  if ok then lret tt else llift (Err EGeneral).
Definition lfs_add_lock (v : lenv) (repo : bytes) (locks : list lock) : L unit :=
  do! row := add_lock_read v repo in
  add_lock_write v repo locks row.

(** 390-479 [lfs_delete_lock]: the loop over the locks: what was found and what remains,
    [None] for the error on an owned lock. *)
Fixpoint scan_locks (id : bytes) (force : bool) (l : list lock) (found : lock) : option (lock * list lock) :=
  match l with
  | [] => Some (found, [])
  | x :: r =>
    if beq (lk_id x) id then
      if (match lk_owner x with Some _ => true | None => false end) && negb force then None
      else scan_locks id force r x
    else
      match scan_locks id force r found with
      | Some (f, rest) => Some (f, if (0 <? nlen (lk_id x)) then x :: rest else rest)
      | None => None
      end
  end.
(** The text of [DateTime::<Utc>::MIN_UTC]. *)
Definition min_utc : bytes := bs "-262144-01-01T00:00:00+00:00".
Definition empty_lock : lock := mkLock [] [] min_utc None.
Definition lfs_delete_lock (v : lenv) (repo id : bytes) (force : bool) : L lock :=
  do! row := find_lock_row v repo in
  match row with
  | None => llift (Err EGeneral)
  | Some (k, d) =>
    do! l := llift (row_locks v d) in
    match scan_locks id force l empty_lock with
    | None => llift (Err EGeneral)
    | Some (x, rest) =>
      match lk_id x, rest with
      | [], _ => llift (Err EGeneral)
      | _, [] => do! ok := exec_locks (remove_lock v repo) in if ok then lret x else llift Panic
      | _, _ => do! ok := updated (exec_locks (update_lock v k (js_enc v rest))) in
                if ok then lret x else llift (Err EGeneral)
      end
    end
  end.

(** ** Content store *)

(** PathBuf::push: an absolute path replaces. *)
Definition path_join (a b : bytes) : bytes :=
  match b with
  | 47 :: _ => b
  | _ => match rev a with
         | [] | 47 :: _ => a ++ b
         | _ => a ++ [47] ++ b
         end
  end.
(** lfs_content_store/mod.rs 55-65 [transform_key]; [&key[a..b]] panics inside a
    character. *)
Definition char_boundary (l : bytes) (i : nat) : bool :=
  match nth_error l i with Some b => negb (cont b) | None => true end.
Definition transform_key (key : bytes) : res bytes :=
  if nlen key <? 5 then Ok key
  else if char_boundary key 2 && char_boundary key 4
  then Ok (path_join (path_join (firstn 2 key) (firstn 2 (skipn 2 key))) (skipn 4 key))
  else Panic.
(** The file that a path names: "." and empty components are skipped and ".." goes up;
    there are no symbolic links. The working directory is a root of its own. *)
Fixpoint walk (l : list bytes) (acc : list bytes) : list bytes :=
  match l with
  | [] => rev acc
  | c :: r => if beq c [] || beq c [46] then walk r acc
              else if beq c [46; 46] then walk r (tl acc) else walk r (c :: acc)
  end.
Definition resolve (p : bytes) : list bytes :=
  match p with 47 :: _ => [47] :: walk (split_on 47 p) [] | _ => [46] :: walk (split_on 47 p) [] end.
Definition store_path (v : lenv) (oid : bytes) : res (list bytes) :=
  let? k := transform_key oid in Ok (resolve (path_join (l_base v) k)).
(** [p] is a directory: a file is below it or it leads to the content directory
    ([ContentStore::new], 13-16, creates that). Directories without files are not kept. *)
Definition is_dir (v : lenv) (f : fs) (p : list bytes) : bool :=
  is_prefix p (resolve (l_base v)) || existsb (fun x => is_prefix p (fst x) && negb (path_eqb p (fst x))) f.
(** 48-52 [exist]. *)
Definition store_exist (v : lenv) (oid : bytes) : L bool := fun w =>
  (w, let? p := store_path v oid in
      Ok (can_open v p && (is_dir v (l_files w) p || match fs_get (l_files w) p with Some _ => true | None => false end))).
(** 30-46 [put]: the file is written before anything is checked. *)
Definition store_put (v : lenv) (m : meta_row) (body : bytes) : L bool := fun w =>
  match store_path v (mt_oid m) with
  | Ok p =>
    if can_open v p && negb (is_dir v (l_files w) p) &&
       negb (existsb (fun x => is_prefix (fst x) p && negb (path_eqb p (fst x))) (l_files w))
    then
      let part := firstn (write_len v body) body in
      (mkLfs (l_locks w) (l_meta w) (fs_put (l_files w) p part) (l_fails w),
       Ok (Z.eqb (Z.of_nat (length part)) (mt_size m) && beq (hex_encode (sha256 body)) (mt_oid m)))
    else (w, Panic)
  | _ => (w, Panic)
  end.
(** 18-28 [get] and http.rs 493-494: opening a directory succeeds and reading it fails. *)
Definition store_get (v : lenv) (m : meta_row) : L bytes := fun w =>
  (w, let? p := unwrap (store_path v (mt_oid m)) in
      if can_open v p then unwrap_opt (fs_get (l_files w) p) else Panic).

(** ** Handlers (http.rs) *)

(** structs.rs 28-47 [internal_link] with the subpath "objects". *)
Definition object_link (user repo url oid : bytes) : bytes :=
  let p := match user with [] => [] | _ => path_join [] user end in
  let p := match repo with [] => p | _ => path_join p repo end in
  path_join (path_join (path_join p url) (bs "objects")) oid.
(** structs.rs 89-99 [Representation]; an action is its name and link. The header of a
    link is always "Accept: application/vnd.git-lfs" ([authorization] is cleared, http.rs
    356-359), and the time it expires is left out. *)
Record repr : Type := mkRepr {
  rp_oid : bytes; rp_size : Z; rp_auth : option bool; rp_action : option (bytes * bytes); rp_error : option (N * bytes) }.
(** structs.rs 5-17 [RequestVars], the fields in use. *)
Record object_request : Type := mkObj { ob_oid : bytes; ob_size : Z; ob_user : bytes; ob_repo : bytes }.

Inductive lfs_body : Type :=
| BLock (l : lock) | BLocks (l : list lock) (next : bytes) | BVerify (ours theirs : list lock) (next : bytes)
| BBatch (l : list repr) | BData (d : bytes) | BEmpty.
(** A response, or the status and text of an error. *)
Inductive lfs_reply : Type := ROk (status : N) (b : lfs_body) | RFail (status : N) (msg : bytes).

(** What [match … { Ok(_) => …, Err(_) => … }] sees. *)
Definition ltry {A} (m : L A) : L (option A) := fun w =>
  match m w with
  | (w', Ok a) => (w', Ok (Some a))
  | (w', Err _) => (w', Ok None)
  | (w', Panic) => (w', Panic)
  | (w', OutOfFuel) => (w', OutOfFuel)
  end.

(** structs.rs 166-173 [LockListQuery]. *)
Record lock_query : Type := mkQuery {
  q_path : option bytes; q_id : option bytes; q_cursor : option bytes; q_limit : option bytes; q_refspec : option bytes }.
Definition text (o : option bytes) : bytes := match o with Some t => t | None => [] end.
(** 23-80 [lfs_retrieve_lock]: cursor and limit are read from the path parameter (37-48). *)
Definition lfs_retrieve_lock (v : lenv) (q : lock_query) : L lfs_reply :=
  let p := text (q_path q) in
  do! r := ltry (lfs_get_filtered_locks v (text (q_refspec q)) p p p) in
  match r with
  | Some (l, next) => lret (ROk 200 (BLocks l next))
  | None => lret (RFail 500 (bs "Lookup operation failed!"))
  end.

(** structs.rs 151-157 [VerifiableLockRequest]. *)
Record verify_request : Type := mkVerify { v_ref : bytes; v_cursor : option bytes; v_limit : option Z }.
(** 82-156 [lfs_verify_lock]. *)
Definition lfs_verify_lock (v : lenv) (body : option verify_request) : L lfs_reply :=
  do! rq := llift (unwrap_opt body) in
  let limit := match v_limit rq with Some z => z | None => 0%Z end in
  let limit := if Z.eqb limit 0 then 100%Z else limit in
  do! r := ltry (lfs_get_filtered_locks v (v_ref rq) [] (text (v_cursor rq)) (z_text limit)) in
  match r with
  | Some (l, next) =>
    let mine x := match lk_owner x with None => true | Some _ => false end in
    lret (ROk 200 (BVerify (filter mine l) (filter (fun x => negb (mine x)) l) next))
  | None => lret (RFail 500 (bs "Lookup operation failed!"))
  end.

(** structs.rs 119-124 [LockRequest]. *)
Record lock_request : Type := mkLockReq { lr_path : bytes; lr_ref : bytes }.
(** 158-246 [lfs_create_lock], in three steps: the check (one SELECT), the SELECT of
    [lfs_add_lock] and its write. [id] is the number drawn and [now] the time. *)
Definition create_check (v : lenv) (rq : lock_request) : L (option lfs_reply) :=
  do! r := ltry (lfs_get_filtered_locks v (lr_ref rq) (lr_path rq) [] (bs "1")) in
  match r with
  | None => lret (Some (RFail 500 (bs "Failed when filtering locks!")))
  | Some (l, _) => match l with
                   | [] => lret None
                   | _ => lret (Some (RFail 409 (bs "Lock already exist")))
                   end
  end.
Definition create_write (v : lenv) (rq : lock_request) (id now : bytes) (row : option (bytes * bytes)) : L lfs_reply :=
  let l := mkLock id (lr_path rq) now None in
  do! r := ltry (add_lock_write v (lr_ref rq) [l] row) in
  match r with
  | Some _ => lret (ROk 201 (BLock l))
  | None => lret (RFail 500 (bs "Failed when adding locks!"))
  end.
Definition lfs_create_lock (v : lenv) (body : option lock_request) (id now : bytes) : L lfs_reply :=
  do! rq := llift (unwrap_opt body) in
  do! c := create_check v rq in
  match c with
  | Some reply => lret reply
  | None => do! row := add_lock_read v (lr_ref rq) in create_write v rq id now row
  end.

(** structs.rs 132-137 [UnlockRequest]; [force] after unwrap_or(false). *)
Record unlock_request : Type := mkUnlock { ul_force : bool; ul_ref : bytes }.
(** 248-332 [lfs_delete_lock]; the outer [None] is an empty body. *)
Definition lfs_delete (v : lenv) (id : bytes) (body : option (option unlock_request)) : L lfs_reply :=
  match id with
  | [] => lret (RFail 400 (bs "Invalid lock id!"))
  | _ =>
    match body with
    | None => lret (RFail 400 (bs "Deserialize operation failed!"))
    | Some b =>
      do! rq := llift (unwrap_opt b) in
      do! r := ltry (lfs_delete_lock v (ul_ref rq) id (ul_force rq)) in
      match r with
      | None => lret (RFail 500 (bs "Delete operation failed!"))
      | Some x =>
        if beq (lk_id x) [] && beq (lk_path x) [] && (match lk_owner x with None => true | _ => false end) && beq (lk_at x) min_utc
        then lret (RFail 404 (bs "Unable to find lock!"))
        else lret (ROk 200 (BLock x))
      end
    end
  end.

(** 503-586 [represent] as it is called. *)
Definition represent (v : lenv) (o : object_request) (m : meta_row) (action : bytes) : repr :=
  mkRepr (mt_oid m) (mt_size m) (Some true)
    (Some (action, object_link (ob_user o) (ob_repo o) (l_url v) (ob_oid o))) None.
(** 373-398: one object of a batch. *)
Definition batch_object (v : lenv) (op : bytes) (o : object_request) : L repr :=
  do! m := lfs_get_meta v (ob_oid o) in
  do! here := (match m with Some x => store_exist v (mt_oid x) | None => lret false end) in
  match m, here with
  | Some x, true => lret (represent v o x (bs "download"))
  | _, _ =>
    if beq op (bs "upload") then
      do! x := lunwrap (lfs_put_meta v (ob_oid o) (ob_size o)) in
      lret (represent v o x (bs "upload"))
    else lret (mkRepr (ob_oid o) (ob_size o) None None (Some (404, bs "Not found")))
  end.
Fixpoint batch_objects (v : lenv) (op : bytes) (l : list object_request) : L (list repr) :=
  match l with
  | [] => lret []
  | o :: r => do! a := batch_object v op o in do! b := batch_objects v op r in lret (a :: b)
  end.
(** 334-419 [lfs_process_batch]: operation and objects. *)
Definition lfs_process_batch (v : lenv) (body : option (bytes * list object_request)) : L lfs_reply :=
  do! (op, objs) := llift (unwrap_opt body) in
  do! l := batch_objects v op objs in
  lret (ROk 200 (BBatch l)).

(** 421-468 [lfs_upload_object]. *)
Definition lfs_upload_object (v : lenv) (oid body : bytes) : L lfs_reply :=
  do! m := lfs_get_meta v oid in
  do! m := llift (unwrap_opt m) in
  do! ok := store_put v m body in
  if ok then lret (ROk 200 BEmpty)
  else do! _ := lunwrap (lfs_delete_meta v oid) in lret (RFail 406 (bs "Header not acceptable!")).
(** 470-501 [lfs_download_object]. *)
Definition lfs_download_object (v : lenv) (oid : bytes) : L lfs_reply :=
  do! m := lfs_get_meta v oid in
  do! m := llift (unwrap_opt m) in
  do! d := store_get v m in
  lret (ROk 200 (BData d)).

(** ** Requests one after the other; a request that panics ends there. *)
Inductive lfs_event : Type :=
| EList (q : lock_query) | EVerify (body : option verify_request)
| ELock (body : option lock_request) (id now : bytes)
| EUnlock (id : bytes) (body : option (option unlock_request))
| EBatch (body : option (bytes * list object_request))
| EUpload (oid body : bytes) | EDownload (oid : bytes).
Definition lfs_handle (v : lenv) (x : lfs_event) : L lfs_reply :=
  match x with
  | EList q => lfs_retrieve_lock v q
  | EVerify b => lfs_verify_lock v b
  | ELock b id now => lfs_create_lock v b id now
  | EUnlock id b => lfs_delete v id b
  | EBatch b => lfs_process_batch v b
  | EUpload oid b => lfs_upload_object v oid b
  | EDownload oid => lfs_download_object v oid
  end.
Fixpoint lfs_run (v : lenv) (l : list lfs_event) (w : lfs) : lfs * list (res lfs_reply) :=
  match l with
  | [] => (w, [])
  | x :: r => let (w1, a) := lfs_handle v x w in let (w2, b) := lfs_run v r w1 in (w2, a :: b)
  end.

(** ** Lock requests at the same time: each goes through the steps of [lfs_create_lock];
    the schedule says whose turn it is. *)
Inductive lock_stage : Type :=
| CStart | CChecked | CRead (row : option (bytes * bytes)) | CDone (r : res lfs_reply).
Definition lock_step (v : lenv) (rq : lock_request) (id now : bytes) (s : lock_stage) (w : lfs) : lfs * lock_stage :=
  match s with
  | CStart => match create_check v rq w with
              | (w', Ok None) => (w', CChecked)
              | (w', Ok (Some reply)) => (w', CDone (Ok reply))
              | (w', Err e) => (w', CDone (Err e))
              | (w', Panic) => (w', CDone Panic)
              | (w', OutOfFuel) => (w', CDone OutOfFuel)
              end
  | CChecked => match add_lock_read v (lr_ref rq) w with
                | (w', Ok row) => (w', CRead row)
                | (w', Err e) => (w', CDone (Err e))
                | (w', Panic) => (w', CDone Panic)
                | (w', OutOfFuel) => (w', CDone OutOfFuel)
                end
  | CRead row => let (w', r) := create_write v rq id now row w in (w', CDone r)
  | CDone r => (w, CDone r)
  end.
Fixpoint lock_schedule (v : lenv) (rq : nat -> lock_request) (id now : nat -> bytes) (sched : list nat)
  (s : nat -> lock_stage) (w : lfs) : lfs * (nat -> lock_stage) :=
  match sched with
  | [] => (w, s)
  | i :: r => let (w', s') := lock_step v (rq i) (id i) (now i) (s i) w in
              lock_schedule v rq id now r (fun j => if Nat.eqb j i then s' else s j) w'
  end.

(** Requests to git-lfs served at the same time. The handlers of ModelLfs once more, as
    programs that other requests may come between: one action is one statement or one
    operation on the content store. That each program, run without others, is the handler
    of that name is proved (ProofLfsConc). *)

From Coq Require Import ZArith.
From Verif Require Import Base Digest ModelUtils ModelObject ModelPkt ModelStorage ModelLfs.
From Verif Require ModelConc.
Open Scope N_scope.

(** What cannot be interrupted. [File::create] and [write] are two calls; opening a file
    and reading it to its end are taken as one, so that a download sees the file at one
    moment. *)
Inductive lact : Type -> Type :=
| AFindLocks : bytes -> lact (option (bytes * bytes))
| AFindMeta : bytes -> lact (option meta_row)
| AExecLocks : (list (bytes * bytes) -> option (list (bytes * bytes))) -> lact bool
| AExecMeta : (list meta_row -> option (list meta_row)) -> lact bool
| AReadBack : lact bool
| AExist : bytes -> lact bool
| ACreate : bytes -> lact (list bytes)
| AWrite : list bytes -> bytes -> lact nat
| AGet : meta_row -> lact bytes.
(** lfs_content_store/mod.rs 31-35: the directories, and the file cut to nothing. *)
Definition file_create (v : lenv) (oid : bytes) : L (list bytes) := fun w =>
  match store_path v oid with
  | Ok p =>
    if can_open v p && negb (is_dir v (l_files w) p) &&
       negb (existsb (fun x => is_prefix (fst x) p && negb (path_eqb p (fst x))) (l_files w))
    then (mkLfs (l_locks w) (l_meta w) (fs_put (l_files w) p []) (l_fails w), Ok p)
    else (w, Panic)
  | _ => (w, Panic)
  end.
(** mod.rs 36: one [write] at the start of the file, over what is there. *)
Definition file_write (v : lenv) (p : list bytes) (body : bytes) : L nat := fun w =>
  let part := firstn (write_len v body) body in
  let old := match fs_get (l_files w) p with Some d => d | None => [] end in
  (mkLfs (l_locks w) (l_meta w) (fs_put (l_files w) p (part ++ skipn (length part) old)) (l_fails w), Ok (length part)).
Definition lperform (v : lenv) {X} (a : lact X) : L X :=
  match a in lact X return L X with
  | AFindLocks k => find_lock_row v k
  | AFindMeta k => find_meta_row v k
  | AExecLocks f => exec_locks f
  | AExecMeta f => exec_meta f
  | AReadBack => lattempt
  | AExist oid => store_exist v oid
  | ACreate oid => file_create v oid
  | AWrite p b => file_write v p b
  | AGet m => store_get v m
  end.

(** A handler: an outcome, or an action and what follows its outcome. *)
Inductive lprog (A : Type) : Type :=
| LRet (r : res A)
| LAct (X : Type) (a : lact X) (k : res X -> lprog A).
Arguments LRet {A}.
Arguments LAct {A X}.
Fixpoint lrun (v : lenv) {A} (p : lprog A) : L A :=
  match p with
  | LRet r => llift r
  | LAct a k => fun w => let (w', r) := lperform v a w in lrun v (k r) w'
  end.
(** Sequencing; [lthen] also continues after errors and panics. *)
Fixpoint lthen {A B} (p : lprog A) (k : res A -> lprog B) : lprog B :=
  match p with
  | LRet r => k r
  | LAct a k1 => LAct a (fun r => lthen (k1 r) k)
  end.
Definition lpbind {A B} (p : lprog A) (k : A -> lprog B) : lprog B :=
  lthen p (fun r => match r with
                    | Ok a => k a | Err x => LRet (Err x) | Panic => LRet Panic | OutOfFuel => LRet OutOfFuel
                    end).
Definition lpret {A} (a : A) : lprog A := LRet (Ok a).
Definition ldo {X} (a : lact X) : lprog X := LAct a LRet.
(** [unwrap], and what [match … { Ok(_) => …, Err(_) => … }] sees. *)
Definition lpunwrap {A} (p : lprog A) : lprog A := lthen p (fun r => LRet (unwrap r)).
Definition lptry {A} (p : lprog A) : lprog (option A) :=
  lthen p (fun r => match r with
                    | Ok a => LRet (Ok (Some a)) | Err _ => LRet (Ok None) | Panic => LRet Panic | OutOfFuel => LRet OutOfFuel
                    end).
Notation "'let^' p ':=' m 'in' k" :=
  (lpbind m (fun x => match x with p => k end))
  (at level 200, p pattern, m at level 100, k at level 200, right associativity).

(** ** Storage (storage.rs, as in ModelLfs) *)

Definition inserted_p (v : lenv) (p : lprog bool) : lprog bool := let^ ok := p in lpret (ok && key_insert_ok v).
Definition updated_p (p : lprog bool) : lprog bool := let^ ok := p in if ok then ldo AReadBack else lpret false.
(** 213-246 [lfs_put_meta]: the SELECT and the INSERT are two actions. *)
Definition put_meta_p (v : lenv) (oid : bytes) (size : Z) : lprog meta_row :=
  let^ r := ldo (AFindMeta oid) in
  match r with
  | Some x => lpret (mkMeta (mt_oid x) (mt_size x) true)
  | None =>
    let^ ok := inserted_p v (ldo (AExecMeta (insert_meta v (mkMeta oid size true)))) in
    if ok then lpret (mkMeta oid size true) else LRet (Err EGeneral)
  end.
(** 248-256 [lfs_delete_meta]. *)
Definition delete_meta_p (v : lenv) (oid : bytes) : lprog unit :=
  let^ ok := ldo (AExecMeta (remove_meta v oid)) in
  if ok then lpret tt else LRet (Err EGeneral).
(** 258-332 [lfs_get_locks], [lfs_get_filtered_locks]. *)
Definition filtered_p (v : lenv) (refspec path cursor limit : bytes) : lprog (list lock * bytes) :=
  let^ r := ldo (AFindLocks refspec) in
  let^ l := (match r with
             | Some (_, d) => LRet (unwrap_opt (js_dec v d))
             | None => lpret []
             end) in
  LRet (filtered_locks path cursor limit l).
(** 334-388 [lfs_add_lock]. *)
Definition add_lock_p (v : lenv) (repo : bytes) (locks : list lock) : lprog unit :=
  let^ row := ldo (AFindLocks repo) in
  let^ ok := (match row with
    | Some (k, d) =>
      let^ old := LRet (row_locks v d) in
      updated_p (ldo (AExecLocks (update_lock v k (js_enc v (sort_locks (old ++ locks))))))
    | None => inserted_p v (ldo (AExecLocks (insert_lock v repo (js_enc v (sort_locks locks)))))
    end) in
  if ok then lpret tt else LRet (Err EGeneral).
(** 390-479 [lfs_delete_lock]. *)
Definition delete_lock_p (v : lenv) (repo id : bytes) (force : bool) : lprog lock :=
  let^ row := ldo (AFindLocks repo) in
  match row with
  | None => LRet (Err EGeneral)
  | Some (k, d) =>
    let^ l := LRet (row_locks v d) in
    match scan_locks id force l empty_lock with
    | None => LRet (Err EGeneral)
    | Some (x, rest) =>
      match lk_id x, rest with
      | [], _ => LRet (Err EGeneral)
      | _, [] => let^ ok := ldo (AExecLocks (remove_lock v repo)) in if ok then lpret x else LRet Panic
      | _, _ => let^ ok := updated_p (ldo (AExecLocks (update_lock v k (js_enc v rest)))) in
                if ok then lpret x else LRet (Err EGeneral)
      end
    end
  end.

(** ** Content store: mod.rs 30-46 [put]. *)
Definition put_p (m : meta_row) (body : bytes) : lprog bool :=
  let^ p := ldo (ACreate (mt_oid m)) in
  let^ n := ldo (AWrite p body) in
  lpret (Z.eqb (Z.of_nat n) (mt_size m) && beq (hex_encode (sha256 body)) (mt_oid m)).

(** ** Handlers (http.rs, as in ModelLfs) *)

(** 23-80 [lfs_retrieve_lock]. *)
Definition list_p (v : lenv) (q : lock_query) : lprog lfs_reply :=
  let p := text (q_path q) in
  let^ r := lptry (filtered_p v (text (q_refspec q)) p p p) in
  match r with
  | Some (l, next) => lpret (ROk 200 (BLocks l next))
  | None => lpret (RFail 500 (bs "Lookup operation failed!"))
  end.
(** 82-156 [lfs_verify_lock]. *)
Definition verify_p (v : lenv) (body : option verify_request) : lprog lfs_reply :=
  let^ rq := LRet (unwrap_opt body) in
  let limit := match v_limit rq with Some z => z | None => 0%Z end in
  let limit := if Z.eqb limit 0 then 100%Z else limit in
  let^ r := lptry (filtered_p v (v_ref rq) [] (text (v_cursor rq)) (z_text limit)) in
  match r with
  | Some (l, next) =>
    let mine x := match lk_owner x with None => true | Some _ => false end in
    lpret (ROk 200 (BVerify (filter mine l) (filter (fun x => negb (mine x)) l) next))
  | None => lpret (RFail 500 (bs "Lookup operation failed!"))
  end.
(** 158-246 [lfs_create_lock]. *)
Definition lock_p (v : lenv) (body : option lock_request) (id now : bytes) : lprog lfs_reply :=
  let^ rq := LRet (unwrap_opt body) in
  let^ r := lptry (filtered_p v (lr_ref rq) (lr_path rq) [] (bs "1")) in
  match r with
  | None => lpret (RFail 500 (bs "Failed when filtering locks!"))
  | Some ([], _) =>
    let l := mkLock id (lr_path rq) now None in
    let^ r := lptry (add_lock_p v (lr_ref rq) [l]) in
    match r with
    | Some _ => lpret (ROk 201 (BLock l))
    | None => lpret (RFail 500 (bs "Failed when adding locks!"))
    end
  | Some (_, _) => lpret (RFail 409 (bs "Lock already exist"))
  end.
(** 248-332 [lfs_delete_lock]. *)
Definition unlock_p (v : lenv) (id : bytes) (body : option (option unlock_request)) : lprog lfs_reply :=
  match id with
  | [] => lpret (RFail 400 (bs "Invalid lock id!"))
  | _ =>
    match body with
    | None => lpret (RFail 400 (bs "Deserialize operation failed!"))
    | Some b =>
      let^ rq := LRet (unwrap_opt b) in
      let^ r := lptry (delete_lock_p v (ul_ref rq) id (ul_force rq)) in
      match r with
      | None => lpret (RFail 500 (bs "Delete operation failed!"))
      | Some x =>
        if beq (lk_id x) [] && beq (lk_path x) [] && (match lk_owner x with None => true | _ => false end) && beq (lk_at x) min_utc
        then lpret (RFail 404 (bs "Unable to find lock!"))
        else lpret (ROk 200 (BLock x))
      end
    end
  end.
(** 373-398: one object of a batch. *)
Definition batch_object_p (v : lenv) (op : bytes) (o : object_request) : lprog repr :=
  let^ m := ldo (AFindMeta (ob_oid o)) in
  let^ here := (match m with Some x => ldo (AExist (mt_oid x)) | None => lpret false end) in
  match m, here with
  | Some x, true => lpret (represent v o x (bs "download"))
  | _, _ =>
    if beq op (bs "upload") then
      let^ x := lpunwrap (put_meta_p v (ob_oid o) (ob_size o)) in
      lpret (represent v o x (bs "upload"))
    else lpret (mkRepr (ob_oid o) (ob_size o) None None (Some (404, bs "Not found")))
  end.
Fixpoint batch_objects_p (v : lenv) (op : bytes) (l : list object_request) : lprog (list repr) :=
  match l with
  | [] => lpret []
  | o :: r => let^ a := batch_object_p v op o in let^ b := batch_objects_p v op r in lpret (a :: b)
  end.
(** 334-419 [lfs_process_batch]. *)
Definition batch_p (v : lenv) (body : option (bytes * list object_request)) : lprog lfs_reply :=
  let^ (op, objs) := LRet (unwrap_opt body) in
  let^ l := batch_objects_p v op objs in
  lpret (ROk 200 (BBatch l)).
(** 421-468 [lfs_upload_object]. *)
Definition upload_object_p (v : lenv) (oid body : bytes) : lprog lfs_reply :=
  let^ m := ldo (AFindMeta oid) in
  let^ m := LRet (unwrap_opt m) in
  let^ ok := put_p m body in
  if ok then lpret (ROk 200 BEmpty)
  else let^ _ := lpunwrap (delete_meta_p v oid) in lpret (RFail 406 (bs "Header not acceptable!")).
(** 470-501 [lfs_download_object]. *)
Definition download_object_p (v : lenv) (oid : bytes) : lprog lfs_reply :=
  let^ m := ldo (AFindMeta oid) in
  let^ m := LRet (unwrap_opt m) in
  let^ d := ldo (AGet m) in
  lpret (ROk 200 (BData d)).
Definition lfs_p (v : lenv) (x : lfs_event) : lprog lfs_reply :=
  match x with
  | EList q => list_p v q
  | EVerify b => verify_p v b
  | ELock b id now => lock_p v b id now
  | EUnlock id b => unlock_p v id b
  | EBatch b => batch_p v b
  | EUpload oid b => upload_object_p v oid b
  | EDownload oid => download_object_p v oid
  end.

(** ** Requests being served: what each has still to do. Request [i] does its next action;
    the order in which they do so is arbitrary. *)
Definition lserving := list (lprog lfs_reply).
Definition ladvance (v : lenv) (i : nat) (ts : lserving) (w : lfs) : lserving * lfs :=
  match nth_error ts i with
  | Some (LAct a k) => let (w', r) := lperform v a w in (ModelConc.set_nth i (k r) ts, w')
  | _ => (ts, w)
  end.
Fixpoint linterleave (v : lenv) (schedule : list nat) (ts : lserving) (w : lfs) : lserving * lfs :=
  match schedule with
  | [] => (ts, w)
  | i :: s => let (ts', w') := ladvance v i ts w in linterleave v s ts' w'
  end.

(** One server for git and git-lfs. api/lib.rs 48-77 [http_server], 79-217: the handlers
    of both run in one process, with one database and one working directory. The tables of
    git (ModelStorage) and of git-lfs (ModelLfs) are different ones; the files of both are on
    one disk. *)

From Verif Require Import Base Digest ModelUtils ModelObject ModelBase ModelPack ModelStorage ModelProto ModelLfs ModelGateway ModelService ModelConc ModelLfsConc.
Open Scope N_scope.

(** pack.rs 178-197: the name of the temporary file is a relative one; ModelLfs writes the
    working directory as ".". *)
Definition here {X} (a : act X) : act X :=
  match a in act X return act X with
  | DSelect q => DSelect q
  | DExecute f => DExecute f
  | DShuffle l => DShuffle l
  | DWrite p b => DWrite ([46] :: p) b
  | DRead p => DRead ([46] :: p)
  | DRemove p => DRemove ([46] :: p)
  | DUnpack m c fuel file => DUnpack m c fuel file
  end.

(** The disk is in [w_files] of the one and [l_files] of the other, which are the same. The
    outcomes of the coming statements are kept in two streams, one for each. *)
Definition world_disk (w : world) (f : fs) : world := mkWorld (w_db w) (w_log w) (w_fails w) (w_tick w) f.
Definition lfs_disk (l : lfs) (f : fs) : lfs := mkLfs (l_locks l) (l_meta l) f (l_fails l).

(** Whose turn it is: a request to git or one to git-lfs does its next action. *)
Inductive turn : Type := TGit (i : nat) | TLfs (i : nat).
Definition take_turn (e : env) (v : lenv) (t : turn) (x : serving * lserving * (world * lfs)) : serving * lserving * (world * lfs) :=
  let '(gs, ls, (w, l)) := x in
  match t with
  | TGit i =>
    match nth_error gs i with
    | Some (PAct a k) => let (w', r) := perform e (here a) w in (set_nth i (k r) gs, ls, (w', lfs_disk l (w_files w')))
    | _ => x
    end
  | TLfs i =>
    match nth_error ls i with
    | Some (LAct a k) => let (l', r) := lperform v a l in (gs, set_nth i (k r) ls, (world_disk w (l_files l'), l'))
    | _ => x
    end
  end.
(** In any order. *)
Fixpoint side_by_side (e : env) (v : lenv) (schedule : list turn) (x : serving * lserving * (world * lfs)) : serving * lserving * (world * lfs) :=
  match schedule with
  | [] => x
  | t :: s => side_by_side e v s (take_turn e v t x)
  end.

(** Model of src/gateway/api/lib.rs: which handler a request over HTTP is given to.
    Requests are taken with their query parsed ([Query<GetParams>], 35-42). *)

From Verif Require Import Base ModelUtils ModelPkt ModelLfs.
Open Scope N_scope.

(** [str::replace(pat, "")]: every occurrence from left to right, without overlap;
    [skip] counts the bytes of the current occurrence that are left. *)
Fixpoint replaced (pat : bytes) (skip : nat) (l : bytes) : bytes :=
  match l with
  | [] => []
  | x :: r => match skip with
              | S k => replaced pat k r
              | O => if starts_with pat l then replaced pat (length pat - 1) r else x :: replaced pat 0 r
              end
  end.
(** 44-46 [remove_git_suffix]. *)
Definition remove_git_suffix (path suffix : bytes) : bytes := replaced suffix 0 (replaced (bs ".git") 0 path).

(** [Regex::is_match] looks for a match anywhere; [$] is the end of the text. *)
Fixpoint tails (l : bytes) : list bytes := match l with [] => [[]] | _ :: r => l :: tails r end.
(** The expression [s$]. *)
Definition ends_in (s l : bytes) : bool := existsb (beq s) (tails l).
(** 86, 199: [/objects/[a-z0-9]+$]. *)
Definition oid_char (b : N) : bool := ((97 <=? b) && (b <=? 122)) || ((48 <=? b) && (b <=? 57)).
Definition object_path (l : bytes) : bool :=
  existsb (fun t => starts_with (bs "/objects/") t &&
                    match skipn 9 t with [] => false | w => forallb oid_char w end) (tails l).
(** [tokens[tokens.len() - n]]. *)
Definition token (n : nat) (path : bytes) : res bytes :=
  let t := split_on 47 path in
  if (length t <? n)%nat then Panic else unwrap_opt (nth_error t (length t - n)%nat).

Inductive method : Type := MGet | MPost | MPut | MOther.
(** The handler called and what it is called with besides the body. *)
Inductive action : Type :=
| ADownload (oid : bytes) | AUpload (oid : bytes) | ABatch
| AList (q : lock_query) | AVerify | ALock | AUnlock (id : bytes)
| AInfoRefs (service repo : bytes) | AUploadPack (repo : bytes) | AReceivePack (repo : bytes)
| ARefused (status : N).

(** 76-147 [get_method_router]; [service] and the query of the locks are parameters. *)
Definition get_router (path : bytes) (service : option bytes) (q : lock_query) : res action :=
  if object_path path then let? oid := token 1 path in Ok (ADownload oid)
  else if ends_in (bs "/locks") path then Ok (AList q)
  else if negb (ends_in (bs "/info/refs") path) then Ok (ARefused 403)
  else
    let? s := unwrap_opt service in
    if beq s (bs "git-upload-pack") || beq s (bs "git-receive-pack")
    then Ok (AInfoRefs s (remove_git_suffix path (bs "/info/refs")))
    else Ok (ARefused 403).
(** 149-189 [post_method_router]. *)
Definition post_router (path : bytes) : res action :=
  if ends_in (bs "/locks/verify") path then Ok AVerify
  else if ends_in (bs "/locks") path then Ok ALock
  else if ends_in (bs "/unlock") path then let? id := token 2 path in Ok (AUnlock id)
  else if ends_in (bs "/objects/batch") path then Ok ABatch
  else if ends_in (bs "/git-upload-pack") path then Ok (AUploadPack (remove_git_suffix path (bs "/git-upload-pack")))
  else if ends_in (bs "/git-receive-pack") path then Ok (AReceivePack (remove_git_suffix path (bs "/git-receive-pack")))
  else Ok (ARefused 403).
(** 191-214 [put_method_router]. *)
Definition put_router (path : bytes) : res action :=
  if object_path path then let? oid := token 1 path in Ok (AUpload oid)
  else Ok (ARefused 403).
(** 61-68: the route "/*path" takes a path with something behind the slash; the router
    itself answers 404 and 405. HEAD is routed as GET. *)
Definition gateway (m : method) (path : bytes) (service : option bytes) (q : lock_query) : res action :=
  match path with
  | 47 :: _ :: _ =>
    match m with
    | MGet => get_router path service q
    | MPost => post_router path
    | MPut => put_router path
    | MOther => Ok (ARefused 405)
    end
  | _ => Ok (ARefused 404)
  end.

(** Vocabulary for what requests may do to the database. *)

From Verif Require Import Base ModelObject ModelPack ModelPkt ModelStorage ModelProto ModelLfs ModelGateway ModelService.
From Verif Require Import SpecObject SpecBase SpecIdx SpecPack SpecPkt SpecStorage.
Open Scope N_scope.

(** The repository a request is about, if any. *)
Inductive about : request -> bytes -> Prop :=
| ab_info : forall now m path service q body s repo, gateway m path service q = Ok (AInfoRefs s repo) ->
    about (QHttp now m path service q body) repo
| ab_fetch : forall now m path service q body repo, gateway m path service q = Ok (AUploadPack repo) ->
    about (QHttp now m path service q body) repo
| ab_push : forall now m path service q body repo, gateway m path service q = Ok (AReceivePack repo) ->
    about (QHttp now m path service q body) repo
(** git-upload-pack '/repo.git' *)
| ab_ssh : forall now cmd packets verb quote repo tail more, ~ In 32 verb ->
    cmd = verb ++ [32] ++ (quote ++ repo ++ tail) ++ more -> length quote = 2%nat -> length tail = 5%nat ->
    ~ In 32 (quote ++ repo ++ tail) -> (more = [] \/ exists m, more = 32 :: m) ->
    about (QSsh now cmd packets) repo.

(** A row of a tree or a blob, under the id of its content. *)
Definition addressed_row (r : node_row) : Prop := exists o, node_for r o.
(** A row of a commit of [p], under the id of its content. *)
Definition addressed_commit (p : bytes) (r : commit_row) : Prop :=
  c_repo_path r = p /\ exists h, obj_id (Commit, c_meta r) h /\ lower_hex (c_git_id r) h.
(** A reference that may only have been moved if it is one of [p]. *)
Definition kept_ref (e : env) (p : bytes) (r r' : ref_row) : Prop :=
  r_id r' = r_id r /\ r_repo_path r' = r_repo_path r /\ r_ref_name r' = r_ref_name r /\
  (r_ref_git_id r' = r_ref_git_id r \/ teq e (r_repo_path r) p = true).
(** From [d] to [d'], rows are only added: trees and blobs under the id of their
    content, commits of [p] likewise, references of [p]; references of [p] may be moved. *)
Record only_at (e : env) (p : bytes) (d d' : db) : Prop := {
  oa_nodes : exists l, d_nodes d' = d_nodes d ++ l /\ Forall addressed_row l;
  oa_commits : exists l, d_commits d' = d_commits d ++ l /\ Forall (addressed_commit p) l;
  oa_refs : exists k l, d_refs d' = k ++ l /\ Forall2 (kept_ref e p) (d_refs d) k /\ Forall (fun r => r_repo_path r = p) l }.
(** Nothing stored is lost. *)
Record nothing_lost (d d' : db) : Prop := {
  nl_nodes : exists l, d_nodes d' = d_nodes d ++ l;
  nl_commits : exists l, d_commits d' = d_commits d ++ l;
  nl_refs : exists l, map (fun r => (r_id r, r_repo_path r, r_ref_name r)) (d_refs d') =
                      map (fun r => (r_id r, r_repo_path r, r_ref_name r)) (d_refs d) ++ l }.

(** [l] leads from [d] to [d'] in steps of [R]. *)
Fixpoint chain (R : db -> db -> Prop) (d : db) (l : list db) (d' : db) : Prop :=
  match l with [] => d = d' | x :: l' => R d x /\ chain R x l' d' end.

(** Equality of the collation is an equivalence. *)
Definition teq_equiv (e : env) : Prop :=
  (forall a b, teq e a b = teq e b a) /\ (forall a b c, teq e a b = true -> teq e b c = true -> teq e a c = true).

(** What is stored for a repository. *)
Definition commits_at (e : env) (d : db) (path : bytes) : list commit_row :=
  filter (fun c => teq e (c_repo_path c) path) (d_commits d).
Definition refs_of (e : env) (d : db) (path : bytes) : list ref_row :=
  filter (fun r => teq e (r_repo_path r) path) (d_refs d).

(** The request of a clone: wants but no haves, the first line asking for side-band,
    then "done". *)
Definition clone_request (body : bytes) : Prop :=
  exists items t b x line, req_bytes items b /\ first_tail items (Some t) /\ utf8_text t /\
    (cap_word t (bs "side-band") \/ cap_word t (bs "side-band-64k")) /\
    (forall id tail, ~ In (RHave id tail) items) /\ pkt_line (bs "done" ++ x) line /\ body = b ++ line.
(** What the client of a clone gets: no acknowledgement, then a pack with exactly the
    objects of [R], each once. *)
Definition clone_reply (c : codec) (st : storage) (reply : bytes) (R : object -> Prop) : Prop :=
  exists nak s pack objs, reply = nak ++ s /\ pkt_line (bs "NAK" ++ [10]) nak /\ band_stream 65520 s pack /\
    git_pack c st pack objs /\ NoDup (map snd objs) /\ forall o, In o (map snd objs) <-> R o.

(** Vocabulary for the gateway properties. *)

From Verif Require Import Base ModelPkt ModelLfs ModelGateway SpecLfs.
Open Scope N_scope.

Definition occurs (pat l : bytes) : Prop := exists a b, l = a ++ pat ++ b.
Definition ends (s l : bytes) : Prop := exists a, l = a ++ s.

(** The suffixes by which git asks for its services. *)
Definition git_suffixes : list bytes := [bs "/info/refs"; bs "/git-upload-pack"; bs "/git-receive-pack"].

(** Paths of requests: a slash and something behind it. *)
Definition rooted (path : bytes) : Prop := exists p, path = 47 :: p /\ p <> [].
(** The path ends in an object of the LFS. *)
Definition names_object (path oid : bytes) : Prop := id_word oid /\ ends (bs "/objects/" ++ oid) path.

(** Who answers what. *)
Inductive get_spec (path : bytes) (service : option bytes) (q : lock_query) : res action -> Prop :=
| get_object : forall oid, names_object path oid -> get_spec path service q (Ok (ADownload oid))
| get_locks : (forall oid, ~ names_object path oid) -> ends (bs "/locks") path -> get_spec path service q (Ok (AList q))
| get_refs : forall s, ends (bs "/info/refs") path -> service = Some s -> In s [bs "git-upload-pack"; bs "git-receive-pack"] ->
    get_spec path service q (Ok (AInfoRefs s (remove_git_suffix path (bs "/info/refs"))))
| get_bad_service : forall s, ends (bs "/info/refs") path -> service = Some s -> ~ In s [bs "git-upload-pack"; bs "git-receive-pack"] ->
    get_spec path service q (Ok (ARefused 403))
| get_no_service : ends (bs "/info/refs") path -> service = None -> get_spec path service q Panic
| get_other : (forall oid, ~ names_object path oid) -> ~ ends (bs "/locks") path -> ~ ends (bs "/info/refs") path ->
    get_spec path service q (Ok (ARefused 403)).
Definition post_suffixes : list bytes :=
  [bs "/locks/verify"; bs "/locks"; bs "/unlock"; bs "/objects/batch"; bs "/git-upload-pack"; bs "/git-receive-pack"].
Inductive post_spec (path : bytes) : res action -> Prop :=
| post_verify : ends (bs "/locks/verify") path -> post_spec path (Ok AVerify)
| post_lock : ends (bs "/locks") path -> post_spec path (Ok ALock)
| post_unlock : forall id, ~ In 47 id -> ends (bs "/" ++ id ++ bs "/unlock") path -> post_spec path (Ok (AUnlock id))
| post_unlock_none : path = bs "/unlock" -> post_spec path (Ok (AUnlock []))
| post_batch : ends (bs "/objects/batch") path -> post_spec path (Ok ABatch)
| post_upload_pack : ends (bs "/git-upload-pack") path -> post_spec path (Ok (AUploadPack (remove_git_suffix path (bs "/git-upload-pack"))))
| post_receive_pack : ends (bs "/git-receive-pack") path -> post_spec path (Ok (AReceivePack (remove_git_suffix path (bs "/git-receive-pack"))))
| post_other : (forall s, In s post_suffixes -> ~ ends s path) -> post_spec path (Ok (ARefused 403)).
Inductive put_spec (path : bytes) : res action -> Prop :=
| put_object : forall oid, names_object path oid -> put_spec path (Ok (AUpload oid))
| put_other : (forall oid, ~ names_object path oid) -> put_spec path (Ok (ARefused 403)).

(** Model of the MySQL storage driver for repositories:
    src/gust/driver/database/mysql/storage.rs (without the LFS methods, see
    ModelLfs), src/gust/driver/structure/mod.rs, src/gust/driver/structure/nodes.rs
    and of RefCommand::convert_to_model (src/git/protocol/mod.rs). *)

From Verif Require Import Base Digest ModelUtils ModelObject ModelBase ModelPack ModelDecode ModelPkt.
Open Scope N_scope.

(** ** Tables *)

(** entity/src/node.rs; the columns id, node_id, content_sha, created_at and
    updated_at, which the code writes but never reads, are left out. *)
Record node_row : Type := mkNode {
  n_git_id : bytes; n_type : bytes; n_name : bytes; n_mode : bytes; n_data : bytes }.
(** entity/src/commit.rs, without id, created_at, updated_at; the columns pid,
    author, committer and content are never set. *)
Record commit_row : Type := mkCommitRow {
  c_git_id : bytes; c_tree : bytes; c_meta : bytes; c_repo_path : bytes }.
(** entity/src/refs.rs, without created_at, updated_at. *)
Record ref_row : Type := mkRef {
  r_id : N; r_repo_path : bytes; r_ref_name : bytes; r_ref_git_id : bytes }.
Record db : Type := mkDb {
  d_nodes : list node_row; d_commits : list commit_row; d_refs : list ref_row; d_next_ref : N }.
Definition db_empty : db := mkDb [] [] [] 1.

(** What the program does not determine: the collation of the server ([teq], used by
    [=] and [IN] on text columns), the SQL operator LIKE with the pattern
    CONCAT(repo_path, '%') ([like path repo_path]), the order in which rows and the
    entries of hash maps and hash sets come ([ord], a function of a counter of
    statements and iterations, so that two of them may use different orders), and
    whether an INSERT of zero rows is accepted. *)
Record env : Type := mkEnv {
  teq : bytes -> bytes -> bool;
  like : bytes -> bytes -> bool;
  ord : nat -> forall A : Type, list A -> list A;
  empty_insert : bool }.

(** ** Statements *)

(** State of the server: the database, its states after each statement that changed
    it (oldest first), the outcomes of the coming statements ([true] = fails; all
    succeed when the list is used up), the counter for [ord], and the files in the
    working directory. *)
Record world : Type := mkWorld {
  w_db : db; w_log : list db; w_fails : list bool; w_tick : nat; w_files : fs }.

Definition M (A : Type) : Type := world -> world * res A.
Definition ret {A} (a : A) : M A := fun w => (w, Ok a).
Definition lift {A} (r : res A) : M A := fun w => (w, r).
Definition mbind {A B} (m : M A) (k : A -> M B) : M B := fun w =>
  match m w with
  | (w', Ok a) => k a w'
  | (w', Err e) => (w', Err e)
  | (w', Panic) => (w', Panic)
  | (w', OutOfFuel) => (w', OutOfFuel)
  end.
Notation "'let!' p ':=' m 'in' k" :=
  (mbind m (fun x => match x with p => k end))
  (at level 200, p pattern, m at level 100, k at level 200, right associativity).

(** [.unwrap()] on the result of an async function. *)
Definition munwrap {A} (m : M A) : M A := fun w => let (w', r) := m w in (w', unwrap r).

(** Next order of the oracle. *)
Definition tick : M nat := fun w =>
  (mkWorld (w_db w) (w_log w) (w_fails w) (S (w_tick w)) (w_files w), Ok (w_tick w)).
Definition shuffle {A} (e : env) (l : list A) : M (list A) :=
  let! t := tick in ret (ord e t A l).

(** The outcome of the next statement. *)
Definition attempt : M bool := fun w =>
  match w_fails w with
  | [] => (w, Ok true)
  | b :: r => (mkWorld (w_db w) (w_log w) r (w_tick w) (w_files w), Ok (negb b))
  end.

(** A SELECT; every one in this file is followed by [.unwrap()]. *)
Definition select {A} (e : env) (q : db -> list A) : M (list A) :=
  let! ok := attempt in
  if ok then fun w => shuffle e (q (w_db w)) w else lift Panic.
(** [.one()]: LIMIT 1. *)
Definition select_one {A} (e : env) (q : db -> list A) : M (option A) :=
  let! l := select e q in ret (hd_error l).

(** An INSERT, UPDATE or DELETE: one transaction (autocommit). [f] is [None] when the
    server rejects the statement; then nothing changes. The result says whether the
    statement succeeded. *)
Definition execute (f : db -> option db) : M bool :=
  let! ok := attempt in
  if ok then fun w =>
    match f (w_db w) with
    | Some d => (mkWorld d (w_log w ++ [d]) (w_fails w) (w_tick w) (w_files w), Ok true)
    | None => (w, Ok false)
    end
  else ret false.

(** ** Schema (Dump20230523.sql), strict mode: VARCHAR(n) holds n characters, BLOB 65535
    bytes, MEDIUMBLOB 16777215 bytes; a row with a longer value is rejected together
    with the whole statement. *)
Definition chars (l : bytes) : N := nlen (filter (fun b => negb ((128 <=? b) && (b <? 192))) l).
Definition varchar (n : N) (l : bytes) : bool := chars l <=? n.
Definition node_fits (r : node_row) : bool :=
  varchar 64 (n_git_id r) && varchar 16 (n_type r) && varchar 128 (n_name r) &&
  (nlen (n_mode r) <=? 65535) && (nlen (n_data r) <=? 16777215).
Definition commit_fits (r : commit_row) : bool :=
  varchar 40 (c_git_id r) && varchar 40 (c_tree r) && (nlen (c_meta r) <=? 65535) &&
  varchar 128 (c_repo_path r).
Definition ref_fits (r : ref_row) : bool :=
  varchar 64 (r_repo_path r) && varchar 32 (r_ref_name r) && varchar 40 (r_ref_git_id r).

Definition insert_nodes (e : env) (l : list node_row) (d : db) : option db :=
  match l with
  | [] => if empty_insert e then Some d else None
  | _ => if forallb node_fits l
         then Some (mkDb (d_nodes d ++ l) (d_commits d) (d_refs d) (d_next_ref d)) else None
  end.
Definition insert_commits (l : list commit_row) (d : db) : option db :=
  if forallb commit_fits l
  then Some (mkDb (d_nodes d) (d_commits d ++ l) (d_refs d) (d_next_ref d)) else None.
Definition insert_ref (path name id : bytes) (d : db) : option db :=
  let r := mkRef (d_next_ref d) path name id in
  if ref_fits r
  then Some (mkDb (d_nodes d) (d_commits d) (d_refs d ++ [r]) (d_next_ref d + 1)) else None.
Definition set_ref (i : N) (new_id : bytes) (d : db) : option db :=
  if varchar 40 new_id
  then Some (mkDb (d_nodes d) (d_commits d)
               (map (fun r => if r_id r =? i
                              then mkRef (r_id r) (r_repo_path r) (r_ref_name r) new_id else r)
                    (d_refs d)) (d_next_ref d)) else None.

(** ** Paths (std::path). A component is its text; the root directory is "/" and a
    leading "." stays. *)
Definition normal_part (p : bytes) : bool := negb (beq p []) && negb (beq p [46]).
Definition components (p : bytes) : list bytes :=
  let l := split_on 47 p in
  if hd 0 p =? 47 then [47] :: filter normal_part l
  else if beq (hd [] l) [46] then [46] :: filter normal_part (tl l)
  else filter normal_part l.
Fixpoint is_prefix (a b : list bytes) : bool :=
  match a, b with
  | [], _ => true
  | x :: a', y :: b' => beq x y && is_prefix a' b'
  | _, _ => false
  end.
(** Path::starts_with, Path::file_name. *)
Definition path_starts_with (p q : bytes) : bool := is_prefix (components q) (components p).
Definition file_name (p : bytes) : option bytes :=
  match rev (components p) with
  | c :: _ => if beq c [47] || beq c [46] || beq c [46; 46] then None else Some c
  | [] => None
  end.

(** ** Node trees (structure/mod.rs, structure/nodes.rs) *)

(** nodes.rs 33-53: TreeNode ([dir] = true) and FileNode, with the row that
    [convert_to_model] (134-149, 217-230) makes of them. *)
Inductive tnode : Type := TNode (dir : bool) (row : node_row) (children : list tnode).
Definition tn_dir (n : tnode) : bool := let (d, _, _) := n in d.
Definition tn_row (n : tnode) : node_row := let (_, r, _) := n in r.
Definition tn_children (n : tnode) : list tnode := let (_, _, c) := n in c.

(** mod.rs 105-134, 43-62 [convert_to_node]. *)
Definition tree_to_node (t : tree) (item : option tree_item) : tnode :=
  TNode true (mkNode (to_plain_str (m_id (t_meta t))) (bs "tree")
                match item with Some i => ti_filename i | None => [] end
                match item with Some i => ti_mode i | None => [] end
                (m_data (t_meta t))) [].
Definition blob_to_node (b : blob) (item : tree_item) : tnode :=
  TNode false (mkNode (to_plain_str (m_id (b_meta b))) (bs "blob") (ti_filename item) (ti_mode item)
                 (m_data (b_meta b))) [].

(** nodes.rs 155-157, 236-238 [add_child]. *)
Definition add_child (n c : tnode) : res tnode :=
  if tn_dir n then Ok (TNode true (tn_row n) (tn_children n ++ [c])) else Panic.
(** nodes.rs 151-153, 329-332 [find_child]: the children before, the child, those after. *)
Fixpoint split_child (name : bytes) (l : list tnode) : option (list tnode * tnode * list tnode) :=
  match l with
  | [] => None
  | c :: r => if beq (n_name (tn_row c)) name then Some ([], c, r)
              else match split_child name r with
                   | Some (a, x, b) => Some (c :: a, x, b)
                   | None => None
                   end
  end.
Definition find_child (n : tnode) (name : bytes) : res (list tnode * tnode * list tnode) :=
  if tn_dir n then unwrap_opt (split_child name (tn_children n)) else Panic.

Definition is_tree_item (i : tree_item) : bool := match ti_type i with ITree => true | _ => false end.

(** nodes.rs 318-344 [Repo::build_node_tree] on the entries of a tree; [cache] is
    [tree_build_cache]. Fuel bounds the depth of the recursion. *)
Fixpoint build_items (fuel : nat) (trees : list (hash * tree)) (blobs : list (hash * blob)) :
  list tree_item -> tnode -> list hash -> res (tnode * list hash) :=
  fix go (items : list tree_item) (node : tnode) (cache : list hash) :=
    match items with
    | [] => Ok (node, cache)
    | i :: r =>
      if existsb (beq (ti_id i)) cache then go r node cache
      else if is_tree_item i then
        let? t := unwrap_opt (bt_get (ti_id i) trees) in
        let? node1 := add_child node (tree_to_node t (Some i)) in
        let? (a, child, b) := find_child node1 (ti_filename i) in
        match fuel with
        | O => OutOfFuel
        | S f =>
          let? (child', cache') := build_items f trees blobs (t_items t) child cache in
          go r (TNode true (tn_row node1) (a ++ child' :: b)) (ti_id i :: cache')
        end
      else
        let? b := unwrap_opt (bt_get (ti_id i) blobs) in
        let? node1 := add_child node (blob_to_node b i) in
        go r node1 (ti_id i :: cache)
    end.

(** nodes.rs 347-357 [convert_node_to_model]: preorder. *)
Fixpoint flatten (n : tnode) : list node_row :=
  match n with TNode _ row l => row :: flat_map flatten l end.

(** nodes.rs 307-314: all commits, with the cache shared between them. *)
Fixpoint build_commits (fuel : nat) (trees : list (hash * tree)) (blobs : list (hash * blob))
  (cs : list commit) (cache : list hash) : res (list node_row) :=
  match cs with
  | [] => Ok []
  | c :: r =>
    let? t := unwrap_opt (bt_get (cm_tree_id c) trees) in
    let? (root, cache') := build_items fuel trees blobs (t_items t) (tree_to_node t None) cache in
    let? rest := build_commits fuel trees blobs r cache' in
    Ok (flatten root ++ rest)
  end.
(** nodes.rs 281-316 [build_node_tree]. *)
Definition build_node_tree (fuel : nat) (om : omap) : res (list node_row) :=
  build_commits fuel
    (fold_left (fun m t => bt_insert (m_id (t_meta t)) t m) (om_trees om) [])
    (fold_left (fun m b => bt_insert (m_id (b_meta b)) b m) (om_blobs om) [])
    (om_commits om) [].

(** ** Writing *)

(** storage.rs 551-579 [save_nodes]: the batches. *)
Definition batch_limit : N := 10 * 1024 * 1024.
Fixpoint batches (sum : N) (batch : list node_row) (l : list node_row) : list (list node_row) :=
  match l with
  | [] => match batch with [] => [] | _ => [batch] end
  | r :: l' =>
    let size := nlen (n_data r) in
    if (sum + size <? batch_limit) && (length batch <? 50)%nat
    then batches (sum + size) (batch ++ [r]) l'
    else batch :: batches 0 [r] l'
  end.
Fixpoint insert_batches (e : env) (bs : list (list node_row)) : M unit :=
  match bs with
  | [] => ret tt
  | b :: r => let! ok := execute (insert_nodes e b) in
              if ok then insert_batches e r else lift Panic
  end.
Definition save_nodes (e : env) (l : list node_row) : M unit := insert_batches e (batches 0 [] l).

(** storage.rs 709-726 [batch_save_model]: chunks of 100; the results are collected
    and dropped. *)
Fixpoint chunks {A} (fuel n : nat) (l : list A) : list (list A) :=
  match fuel, l with
  | S f, _ :: _ => firstn n l :: chunks f n (skipn n l)
  | _, _ => []
  end.
Fixpoint insert_all (ins : list (db -> option db)) : M unit :=
  match ins with
  | [] => ret tt
  | f :: r => let! _ := execute f in insert_all r
  end.

(** structure/mod.rs 88-102 [Commit::convert_to_model], storage.rs 581-593 [save_commits]. *)
Definition commit_to_row (path : bytes) (c : commit) : commit_row :=
  mkCommitRow (to_plain_str (m_id (cm_meta c))) (to_plain_str (cm_tree_id c)) (m_data (cm_meta c)) path.
Definition save_commits (path : bytes) (cs : list commit) : M unit :=
  insert_all (map insert_commits (chunks (length cs) 100 (map (commit_to_row path) cs))).

(** storage.rs 89-100 [save_packfile]. The order of the vectors made by
    [update_from_cache] depends on the scheduling of its threads: any order. *)
Definition save_objects (e : env) (fuel : nat) (om : omap) (path : bytes) : M unit :=
  let! nodes := lift (build_node_tree fuel om) in
  let! _ := save_nodes e nodes in
  save_commits path (om_commits om).
Definition save_packfile (e : env) (fuel : nat) (k : cache) (path : bytes) : M unit :=
  let! om := lift (update_seq k omap_default) in
  let! bs := shuffle e (om_blobs om) in
  let! ts := shuffle e (om_trees om) in
  let! gs := shuffle e (om_tags om) in
  let! cs := shuffle e (om_commits om) in
  save_objects e fuel (mkOmap (om_map_hash om) bs ts gs cs (om_name_map om)) path.

(** ** References *)

(** storage.rs 507-513 [save_refs], protocol/mod.rs 202-211 [convert_to_model]. *)
Definition save_refs (cmd : ref_command) (path : bytes) : M unit :=
  insert_all [insert_ref path (rc_ref_name cmd) (rc_new_id cmd)].
(** storage.rs 515-526 [update_refs]. [ActiveModel::update] sends the UPDATE and, as MySQL
    has no RETURNING, reads the row again by its key (sea-orm, executor/update.rs). *)
Definition update_refs (e : env) (cmd : ref_command) (path : bytes) : M unit :=
  let! o := select_one e (fun d => filter (fun r => teq e (r_ref_git_id r) (rc_old_id cmd) &&
                                                    teq e (r_repo_path r) path) (d_refs d)) in
  let! r := lift (unwrap_opt o) in
  let! ok := execute (set_ref (r_id r) (rc_new_id cmd)) in
  if ok
  then let! back := select_one e (fun d => filter (fun x => r_id x =? r_id r) (d_refs d)) in
       let! _ := lift (unwrap_opt back) in ret tt
  else lift Panic.
(** storage.rs 528-538 [delete_refs]: [Entity::delete] of an active model whose
    primary key is not set panics (sea-orm, query/delete.rs). *)
Definition delete_refs (cmd : ref_command) (path : bytes) : M unit := lift Panic.
(** storage.rs 81-87 [handle_refs]. *)
Definition handle_refs (e : env) (cmd : ref_command) (path : bytes) : M unit :=
  match rc_type cmd with
  | Create => save_refs cmd path
  | Delete => delete_refs cmd path
  | Update => update_refs e cmd path
  end.

(** storage.rs 67-79 [get_ref_object_id]: a hash map from object id to name; the
    list is its iteration. *)
Definition get_ref_object_id (e : env) (path : bytes) : M (list (bytes * bytes)) :=
  let! rows := select e (fun d => filter (fun r => teq e (r_repo_path r) path) (d_refs d)) in
  shuffle e (fold_left (fun m r => bt_insert (r_ref_git_id r) (r_ref_name r) m) rows []).

Definition master : bytes := bs "refs/heads/master".
(** storage.rs 496-505 [search_refs]. *)
Definition search_refs (e : env) (path : bytes) : M (list ref_row) :=
  select e (fun d => filter (fun r => like e path (r_repo_path r) && teq e (r_ref_name r) master) (d_refs d)).

(** storage.rs 641-658 [search_root_node_by_path]. *)
Definition search_root_node_by_path (e : env) (path : bytes) : M (option node_row) :=
  let! name := lift (unwrap_opt (file_name path)) in
  let! o := select_one e (fun d => filter (fun n => teq e (n_name n) name) (d_nodes d)) in
  match o with
  | Some n => ret (Some n)
  | None => select_one e (fun d => filter (fun n => teq e (n_name n) []) (d_nodes d))
  end.

(** structure/mod.rs 80-86 [build_from_model_and_root]. *)
Definition build_from_model_and_root (row : commit_row) (root : node_row) : res commit :=
  let? cm := meta_new Commit (c_meta row) in
  let? c := commit_new cm in
  let? id := unwrap (hash_from_str (n_git_id root)) in
  let c1 := mkCommit (cm_meta c) id [] (cm_author c) (cm_committer c) (cm_message c) in
  let? m := unwrap (commit_encode c1) in
  Ok (mkCommit m id [] (cm_author c) (cm_committer c) (cm_message c)).

(** storage.rs 610-639 [generate_child_commit_and_refs]. *)
Definition generate_child_commit_and_refs (e : env) (r : ref_row) (path : bytes) : M bytes :=
  let! o := select_one e (fun d => filter (fun c => teq e (c_git_id c) (r_ref_git_id r)) (d_commits d)) in
  let! row := lift (unwrap_opt o) in
  let! root := search_root_node_by_path e path in
  match root with
  | Some n =>
    let! c := lift (build_from_model_and_root row n) in
    let! _ := save_commits path [c] in
    let id := to_plain_str (m_id (cm_meta c)) in
    let! _ := insert_all [insert_ref path (r_ref_name r) id] in
    ret id
  | None => ret zero_id
  end.

(** storage.rs 44-65 [get_head_object_id]. *)
Definition get_head_object_id (e : env) (path : bytes) : M bytes :=
  let! rows := search_refs e path in
  match find (fun r => beq path (r_repo_path r)) rows with
  | Some r => ret (r_ref_git_id r)
  | None =>
    match find (fun r => path_starts_with path (r_repo_path r)) rows with
    | Some r => generate_child_commit_and_refs e r path
    | None => ret zero_id
    end
  end.

(** ** Reading *)

(** [HashMap<String, MetaData>]. *)
Definition hmap := list (bytes * meta).

(** storage.rs 483-494 [get_all_commits_by_path]. *)
Fixpoint commit_metas (rows : list commit_row) : res (list meta) :=
  match rows with
  | [] => Ok []
  | c :: r => let? m := meta_new Commit (c_meta c) in let? l := commit_metas r in Ok (m :: l)
  end.
Definition get_all_commits_by_path (e : env) (path : bytes) : M (list meta) :=
  let! rows := select e (fun d => filter (fun c => teq e (c_repo_path c) path) (d_commits d)) in
  lift (commit_metas rows).

Definition in_ids (e : env) (ids : list bytes) (n : node_row) : bool := existsb (teq e (n_git_id n)) ids.

(** storage.rs 681-705 [get_child_trees]. The recursion is over the rows of the
    database, so the fuel bounds its depth. *)
Fixpoint get_child_trees (fuel : nat) (e : env) (root : node_row) (hm : hmap) : M hmap :=
  let! tm := lift (meta_new Tree (n_data root)) in
  let! t := lift (tree_new tm) in
  let ids := filter (fun i => match bt_get i hm with Some _ => false | None => true end)
               (map (fun i => to_plain_str (ti_id i)) (t_items t)) in
  let! rows := select e (fun d => filter (in_ids e ids) (d_nodes d)) in
  let! hm' :=
    (fix go (rows : list node_row) (hm : hmap) : M hmap :=
       match rows with
       | [] => ret hm
       | c :: r =>
         if beq (n_type c) (bs "tree") then
           match fuel with
           | O => lift OutOfFuel
           | S f => let! hm1 := get_child_trees f e c hm in go r hm1
           end
         else
           let! m := lift (meta_new Blob (n_data c)) in
           go r (bt_insert (to_plain_str (m_id m)) m hm)
       end) rows hm in
  ret (bt_insert (to_plain_str (m_id (t_meta t))) (t_meta t) hm').

(** storage.rs 660-677 [get_node_by_id], [get_nodes_by_ids]. *)
Definition get_node_by_id (e : env) (id : bytes) : M (option node_row) :=
  select_one e (fun d => filter (fun n => teq e (n_git_id n) id) (d_nodes d)).
Fixpoint index_by_hash (rows : list node_row) (m : list (hash * node_row)) : res (list (hash * node_row)) :=
  match rows with
  | [] => Ok m
  | n :: r => let? h := unwrap (hash_from_str (n_git_id n)) in index_by_hash r (bt_insert h n m)
  end.
Definition get_nodes_by_ids (e : env) (ids : list bytes) : M (list (hash * node_row)) :=
  let! rows := select e (fun d => filter (in_ids e ids) (d_nodes d)) in
  lift (index_by_hash rows []).

Fixpoint parse_commits (l : list meta) : res (list commit) :=
  match l with
  | [] => Ok []
  | m :: r => let? c := commit_new m in let? cs := parse_commits r in Ok (c :: cs)
  end.

(** storage.rs 115-125: the loop over the commits. *)
Fixpoint full_loop (fuel : nat) (e : env) (trees : list (hash * node_row)) (cs : list commit) (hm : hmap) : M hmap :=
  match cs with
  | [] => ret hm
  | c :: r =>
    let hm1 := bt_insert (to_plain_str (m_id (cm_meta c))) (cm_meta c) hm in
    match bt_get (cm_tree_id c) trees with
    | Some root => let! hm2 := get_child_trees fuel e root hm1 in full_loop fuel e trees r hm2
    | None => lift (Err EGeneral)
    end
  end.
(** storage.rs 102-128 [get_full_pack_data]. *)
Definition encode_map (e : env) (c : codec) (hm : hmap) : M bytes :=
  let! l := shuffle e (map snd hm) in
  let! (_, file) := lift (encode c l) in
  ret file.
Definition get_full_pack_data (e : env) (c : codec) (fuel : nat) (path : bytes) : M bytes :=
  let! metas := get_all_commits_by_path e path in
  let! cs := lift (parse_commits metas) in
  let! trees := get_nodes_by_ids e (map (fun x => to_plain_str (cm_tree_id x)) cs) in
  let! hm := full_loop fuel e trees cs [] in
  encode_map e c hm.

(** storage.rs 139-148: the loop of [get_incremental_pack_data]. *)
Fixpoint incremental_loop (fuel : nat) (e : env) (want : list bytes) (metas : list meta) (hm : hmap) : M hmap :=
  match metas with
  | [] => ret hm
  | m :: r =>
    if existsb (beq (to_plain_str (m_id m))) want then
      let! c := lift (commit_new m) in
      let! o := get_node_by_id e (to_plain_str (cm_tree_id c)) in
      match o with
      | Some root => let! hm1 := get_child_trees fuel e root hm in incremental_loop fuel e want r hm1
      | None => lift (Err EGeneral)
      end
    else incremental_loop fuel e want r hm
  end.
(** storage.rs 130-152 [get_incremental_pack_data]; [have] is not used. *)
Definition get_incremental_pack_data (e : env) (c : codec) (fuel : nat) (path : bytes) (want have : list bytes)
  : M bytes :=
  let! metas := get_all_commits_by_path e path in
  let! hm := incremental_loop fuel e want metas [] in
  encode_map e c hm.

(** storage.rs 154-165 [get_commit_by_hash]: only whether it is found is used. *)
Definition get_commit_by_hash (e : env) (id : bytes) : M bool :=
  let! o := select_one e (fun d => filter (fun c => teq e (c_git_id c) id) (d_commits d)) in
  ret match o with Some _ => true | None => false end.

(** storage.rs 167-195 [get_hash_object], as the storage a pack is decoded with. The
    lookups of one decoding use one order and do not fail. *)
Definition get_hash_object (e : env) (w : world) : storage := fun id =>
  match ord e (w_tick w) _ (filter (fun n => teq e (n_git_id n) id) (d_nodes (w_db w))) with
  | n :: _ => meta_new (if beq (n_type n) (bs "tree") then Tree else Blob) (n_data n)
  | [] => Err ENotFoundHash
  end.

(** Model of src/git/pack/decode.rs, of [decode_by_idx] (src/git/pack/mod.rs) and of
    [Pack::write] (src/git/pack/encode.rs). *)

From Coq Require Import Permutation.
From Verif Require Import Base Digest ModelUtils ModelObject ModelBase ModelDelta ModelPack ModelIdx.
Open Scope N_scope.

(** base/mod.rs 21-26. *)
Inductive obj_class : Type :=
| CBlob (b : blob) | CCommit (c : commit) | CTree (t : tree) | CTag (t : tag).

(** decode.rs 29-37. The maps are hash maps used with [get] and [insert] only. *)
Record omap : Type := mkOmap {
  om_map_hash : list (hash * obj_class);
  om_blobs : list blob;
  om_trees : list tree;
  om_tags : list tag;
  om_commits : list commit;
  om_name_map : list (hash * bytes) }.
Definition omap_default : omap := mkOmap [] [] [] [] [] [].

(** The four shared vectors of [update_from_cache] (decode.rs 46-49). *)
Record vecs : Type := mkVecs {
  v_blobs : list blob; v_commits : list commit; v_trees : list tree; v_tags : list tag }.
Definition vecs_empty : vecs := mkVecs [] [] [] [].

(** decode.rs 53-69: the body of the parallel loop for one object. The write lock of
    the vector is held while the object is parsed and pushed. *)
Definition push_object (m : meta) (v : vecs) : res vecs :=
  match m_t m with
  | Blob => Ok (mkVecs (v_blobs v ++ [blob_new m]) (v_commits v) (v_trees v) (v_tags v))
  | Commit => let? c := commit_new m in
              Ok (mkVecs (v_blobs v) (v_commits v ++ [c]) (v_trees v) (v_tags v))
  | Tag => let? t := tag_new m in
           Ok (mkVecs (v_blobs v) (v_commits v) (v_trees v) (v_tags v ++ [t]))
  | Tree => let? t := tree_new m in
            Ok (mkVecs (v_blobs v) (v_commits v) (v_trees v ++ [t]) (v_tags v))
  | _ => Panic
  end.

(** The thread pool (decode.rs 44-70, crate rayon). Each worker has a queue of objects
    still to be handled; it first takes the write lock of the vector for the type of
    the next object ([Busy]), then parses and pushes, releasing the lock. A panic in a
    worker is propagated to the caller. *)
Inductive worker : Type := Ready (q : list meta) | Busy (m : meta) (q : list meta).
Inductive pool : Type := Running (ws : list worker) (v : vecs) | Crashed.
Definition holds (t : otype) (w : worker) : Prop :=
  match w with Busy m _ => m_t m = t | Ready _ => False end.
Inductive pool_step : pool -> pool -> Prop :=
| ps_lock : forall a m q b v,
    Forall (fun w => ~ holds (m_t m) w) (a ++ b) ->
    pool_step (Running (a ++ Ready (m :: q) :: b) v) (Running (a ++ Busy m q :: b) v)
| ps_push : forall a m q b v v', push_object m v = Ok v' ->
    pool_step (Running (a ++ Busy m q :: b) v) (Running (a ++ Ready q :: b) v')
| ps_panic : forall a m q b v, push_object m v = Panic ->
    pool_step (Running (a ++ Busy m q :: b) v) Crashed.
Inductive pool_steps : pool -> pool -> Prop :=
| pss_refl : forall p, pool_steps p p
| pss_step : forall p q r, pool_step p q -> pool_steps q r -> pool_steps p r.
Definition pool_done (ws : list worker) : Prop := Forall (fun w => w = Ready []) ws.

(** decode.rs 41-74 [update_from_cache]: the outcomes over all distributions of the
    objects to workers and all interleavings. [map_hash] and [name_map] are not
    touched. *)
Definition queue (w : worker) : list meta := match w with Ready q => q | Busy m q => m :: q end.
Definition update_from_cache (k : cache) (om om' : omap) : Prop :=
  exists qs ws v, Permutation (concat qs) (map snd (by_hash k)) /\
    pool_steps (Running (map Ready qs) vecs_empty) (Running ws v) /\ pool_done ws /\
    om' = mkOmap (om_map_hash om) (v_blobs v) (v_trees v) (v_tags v) (v_commits v) (om_name_map om).

(** The same with a single worker, as a function. *)
Fixpoint push_all (l : list meta) (v : vecs) : res vecs :=
  match l with
  | [] => Ok v
  | m :: r => let? v' := push_object m v in push_all r v'
  end.
Definition update_seq (k : cache) (om : omap) : res omap :=
  let? v := push_all (map snd (by_hash k)) vecs_empty in
  Ok (mkOmap (om_map_hash om) (v_blobs v) (v_trees v) (v_tags v) (v_commits v) (om_name_map om)).

(** decode.rs 114-126: the entries of the trees are recorded in [name_map] and looked
    up in [map_hash]. The second component is false when one is missing. *)
Fixpoint check_items (mh : list (hash * obj_class)) (items : list tree_item) (nm : list (hash * bytes))
  : list (hash * bytes) * bool :=
  match items with
  | [] => (nm, true)
  | i :: r =>
    let nm' := bt_insert (ti_id i) (ti_filename i) nm in
    match bt_get (ti_id i) mh with
    | None => (nm', false)
    | Some _ => check_items mh r nm'
    end
  end.
Fixpoint check_trees (mh : list (hash * obj_class)) (ts : list tree) (nm : list (hash * bytes))
  : list (hash * bytes) * bool :=
  match ts with
  | [] => (nm, true)
  | t :: r =>
    let (nm', ok) := check_items mh (t_items t) nm in
    if ok then check_trees mh r nm' else (nm', false)
  end.

(** decode.rs 129-143: names for trees and blobs. *)
Definition name_tree (nm : list (hash * bytes)) (t : tree) : tree :=
  match bt_get (m_id (t_meta t)) nm with
  | Some n => mkTree (t_meta t) (t_items t) n
  | None => t
  end.
Definition name_blob (nm : list (hash * bytes)) (b : blob) : blob :=
  match bt_get (m_id (b_meta b)) nm with
  | Some n => mkBlob n (b_meta b)
  | None => b
  end.

(** [Vec::sort]: a stable sort. *)
Fixpoint sort_insert {A} (cmp : A -> A -> comparison) (x : A) (l : list A) : list A :=
  match l with
  | [] => [x]
  | y :: r => match cmp y x with
              | Lt => y :: sort_insert cmp x r
              | _ => x :: l
              end
  end.
Fixpoint stable_sort {A} (cmp : A -> A -> comparison) (l : list A) : list A :=
  match l with
  | [] => []
  | x :: r => sort_insert cmp x (stable_sort cmp r)
  end.
(** tree.rs 95-103, blob.rs 23-31, tag.rs 31-35, commit.rs 33-37. *)
Definition tree_cmp (a b : tree) : comparison :=
  match bcmp (t_name b) (t_name a) with
  | Eq => m_size (t_meta b) ?= m_size (t_meta a)
  | o => o
  end.
Definition blob_cmp (a b : blob) : comparison :=
  match bcmp (b_filename b) (b_filename a) with
  | Eq => m_size (b_meta b) ?= m_size (b_meta a)
  | o => o
  end.
Definition tag_cmp (a b : tag) : comparison := m_size (tg_meta b) ?= m_size (tg_meta a).
Definition commit_cmp (a b : commit) : comparison := m_size (cm_meta b) ?= m_size (cm_meta a).

(** tree.rs 114-121, blob.rs 43-50, tag.rs 44-48, commit.rs 45-49: [==]. *)
Definition tree_eqb (a b : tree) : bool := beq (t_name a) (t_name b).
Definition blob_eqb (a b : blob) : bool := beq (b_filename a) (b_filename b).
Definition tag_eqb (a b : tag) : bool := m_size (tg_meta a) =? m_size (tg_meta b).
Definition commit_eqb (a b : commit) : bool := m_size (cm_meta a) =? m_size (cm_meta b).

(** decode.rs 111-151 [check_completeness]: the map afterwards and the result. *)
Definition check_completeness (om : omap) : omap * res unit :=
  let (nm, ok) := check_trees (om_map_hash om) (om_trees om) (om_name_map om) in
  if ok then
    (mkOmap (om_map_hash om)
       (stable_sort blob_cmp (map (name_blob nm) (om_blobs om)))
       (stable_sort tree_cmp (map (name_tree nm) (om_trees om)))
       (stable_sort tag_cmp (om_tags om))
       (stable_sort commit_cmp (om_commits om)) nm, Ok tt)
  else
    (mkOmap (om_map_hash om) (om_blobs om) (om_trees om) (om_tags om) (om_commits om) nm,
     Err EUnCompletedPackObject).

(** decode.rs 155-172 [vec_sliding_window]. [Arc::try_unwrap] is applied to a fresh
    clone, whose reference count is at least two, so that the [unwrap] panics. *)
Definition arc_try_unwrap_clone (m : meta) : res meta := Panic.
Fixpoint unwrap_metas (l : list meta) : res (list meta) :=
  match l with
  | [] => Ok []
  | m :: r => let? x := arc_try_unwrap_clone m in let? y := unwrap_metas r in Ok (x :: y)
  end.
Definition vec_sliding_window (om : omap) : res (list meta) :=
  unwrap_metas (map cm_meta (om_commits om) ++ map tg_meta (om_tags om) ++
                map t_meta (om_trees om) ++ map b_meta (om_blobs om)).

(** encode.rs 322-332 [Pack::write]. *)
Definition pack_write (m : build) (c : codec) (diff : bytes -> bytes -> list call) (om : omap)
  (f : fs) (target : list bytes) : res (omap * fs) :=
  let (om', r) := check_completeness om in
  let? _ := unwrap r in
  let? l := vec_sliding_window om' in
  let? (p, data) := encode_delta m c diff l in
  Ok (om', fs_put f (pack_path target (p_signature p)) data).

(** mod.rs 137-145: one object per index line, errors become panics. *)
Fixpoint by_idx_loop (m : build) (c : codec) (st : storage) (fuel : nat) (file : bytes)
  (items : list idx_item) (k : cache) : res cache :=
  match items with
  | [] => Ok k
  | it :: r =>
    let? (_, _, k') := unwrap (next_object m c st fuel file (i_offset it) k) in
    by_idx_loop m c st fuel file r k'
  end.

(** mod.rs 128-150 [decode_by_idx]. The decoded-object map is computed (it panics on
    objects that do not parse) and dropped; [result] keeps its default. *)
Definition decode_by_idx (m : build) (c : codec) (st : storage) (fuel : nat) (x : idx) (file : bytes)
  : res pack :=
  let? _ := check_header file in
  if 2 ^ 32 <=? x_number x then Panic
  else
    let? k := by_idx_loop m c st fuel file (x_items x) cache_empty in
    let? _ := update_seq k omap_default in
    Ok (mkPack (x_number x) (x_pack_signature x) cache_empty).

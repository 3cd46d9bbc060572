(** C138: git requests while database statements fail. *)

From Coq Require Import Permutation.
From Verif Require Import Base BaseLemmas Digest ModelUtils ModelObject ModelBase ModelPack ModelDecode ModelPkt ModelStorage ModelProto
  StoredZlib SpecObject SpecFormat SpecIdx SpecBase SpecPack SpecPkt SpecPath SpecStorage SpecProto ProofUtils ProofObject ProofUtf8 ProofBase ProofPack ProofPkt ProofReq
  ProofPath ProofEncode ProofNodes ProofStorage ProofPush ProofClone ProofRepo ProofRefs ProofSession ProofGraph ProofExample PropPkt PropStorage PropProto PropPath PropFit ProofService PropService.
Open Scope N_scope.

(** The same world when no statement fails. *)
Definition working (w : world) : world := mkWorld (w_db w) (w_log w) [] (w_tick w) (w_files w).
(** A request that is aborted, or does what it does when no statement fails. *)
Definition honest {A} (f : M A) : Prop := forall w w' r, f w = (w', r) -> r = Panic \/ f (working w) = (working w', r).

Lemma honest_ret : forall A (a : A), honest (ret a).
Proof. intros A a w w' r E. injection E as <- <-. right. reflexivity. Qed.
Lemma honest_lift : forall A (x : res A), honest (lift x).
Proof. intros A x w w' r E. injection E as <- <-. right. reflexivity. Qed.
Lemma honest_bind_when : forall A B (P : A -> Prop) (f : M A) (k : A -> M B), honest f ->
  (forall w w' a, f w = (w', Ok a) -> P a) -> (forall a, P a -> honest (k a)) -> honest (mbind f k).
Proof.
  intros A B P f k Hf Hp Hk w w' r E. unfold mbind in *. destruct (f w) as [w1 x] eqn:E1. destruct (Hf _ _ _ E1) as [->|K].
  - injection E as <- <-. left. reflexivity.
  - rewrite K. destruct x as [a|g| |]; try (injection E as <- <-; right; reflexivity). exact (Hk a (Hp _ _ _ E1) _ _ _ E).
Qed.
Lemma honest_bind : forall A B (f : M A) (k : A -> M B), honest f -> (forall a, honest (k a)) -> honest (mbind f k).
Proof. intros A B f k Hf Hk. apply (honest_bind_when _ _ (fun _ => True)); auto. Qed.
Lemma honest_munwrap : forall A (f : M A), honest f -> honest (munwrap f).
Proof.
  intros A f Hf w w' r E. unfold munwrap in *. destruct (f w) as [w1 x] eqn:E1. injection E as <- <-. destruct (Hf _ _ _ E1) as [->|K]; [left; reflexivity|].
  rewrite K. right. reflexivity.
Qed.
Lemma honest_shuffle : forall A e (l : list A), honest (shuffle e l).
Proof. intros A e l w w' r E. unfold shuffle, tick, mbind, ret in *. injection E as <- <-. right. reflexivity. Qed.
Lemma honest_select : forall A e (q : db -> list A), honest (select e q).
Proof.
  intros A e q w w' r. unfold select, attempt. unfold mbind at 1 2. cbn [working w_fails w_db]. destruct (w_fails w) as [|b l]; intros E.
  - exact (honest_shuffle _ e (q (w_db w)) _ _ _ E).
  - destruct b; cbn [negb] in E; [injection E as <- <-; left; reflexivity|]. exact (honest_shuffle _ e (q (w_db w)) _ _ _ E).
Qed.
Lemma honest_one : forall A e (q : db -> list A), honest (select_one e q).
Proof. intros. apply honest_bind; [apply honest_select|intros; apply honest_ret]. Qed.

Ltac honest := repeat match goal with
  | |- honest (mbind _ _) => apply honest_bind; [|intros]
  | |- honest (ret _) => apply honest_ret
  | |- honest (lift _) => apply honest_lift
  | |- honest (munwrap _) => apply honest_munwrap
  | |- honest (shuffle _ _) => apply honest_shuffle
  | |- honest (select _ _) => apply honest_select
  | |- honest (select_one _ _) => apply honest_one
  | |- honest (match ?x with _ => _ end) => destruct x
  | |- honest (let (_, _) := ?x in _) => destruct x
  end.

Lemma honest_children : forall fuel e root hm, honest (get_child_trees fuel e root hm).
Proof.
  induction fuel as [|fuel IH]; intros e root hm; cbn [get_child_trees]; honest.
  - revert hm. induction a1 as [|x l IHl]; intros hm; honest. apply IHl.
  - revert hm. induction a1 as [|x l IHl]; intros hm; honest; [apply IH|apply IHl|apply IHl].
Qed.
Lemma honest_full : forall fuel e trees cs hm, honest (full_loop fuel e trees cs hm).
Proof. intros fuel e trees cs. induction cs as [|c cs IH]; intros hm; cbn [full_loop]; honest; [apply honest_children|apply IH]. Qed.
Lemma honest_incremental : forall fuel e want ms hm, honest (incremental_loop fuel e want ms hm).
Proof.
  intros fuel e want ms. induction ms as [|x ms IH]; intros hm; cbn [incremental_loop]; honest;
    [unfold get_node_by_id; honest|apply honest_children|apply IH|apply IH].
Qed.
Lemma honest_haves : forall e l buf, honest (ack_haves_db e l buf).
Proof. intros e l. induction l as [|x l IH]; intros buf; cbn [ack_haves_db]; unfold get_commit_by_hash; honest; apply IH. Qed.
Lemma honest_wants : forall e nd l buf, honest (ack_wants_db e nd l buf).
Proof. intros e nd l. induction l as [|x l IH]; intros buf; cbn [ack_wants_db]; unfold get_commit_by_hash; honest; apply IH. Qed.
Lemma honest_upload : forall e c fuel pp body, honest (git_upload_pack e c fuel pp body).
Proof.
  intros e c fuel pp body. unfold git_upload_pack, get_full_pack_data, get_incremental_pack_data, get_all_commits_by_path, get_nodes_by_ids, encode_map.
  honest; try apply honest_full; try apply honest_incremental; try apply honest_haves; try apply honest_wants.
Qed.

(** ** Fetches *)

(** A fetch during which statements fail is aborted, or its reply is the one it has when
    none fails: a failing database is never taken for an empty one. *)
Theorem C138_fetch : forall e c fuel cut path body w w' r, http_upload_pack e c fuel cut path body w = (w', r) ->
  r = Panic \/ http_upload_pack e c fuel cut path body (working w) = (working w', r).
Proof. intros e c fuel cut path body. change (honest (http_upload_pack e c fuel cut path body)). unfold http_upload_pack. honest. apply honest_upload. Qed.
Theorem C138_fetch_ssh : forall e b c fuel cut now packets pp w w' r, pp_service pp = Some UploadPack ->
  ssh_session e b c fuel cut now pp packets w = (w', r) ->
  r = Panic \/ ssh_session e b c fuel cut now pp packets (working w) = (working w', r).
Proof.
  intros e b c fuel cut now packets pp w w' r Hs. revert w w' r. change (honest (ssh_session e b c fuel cut now pp packets)).
  revert pp Hs. induction packets as [|d l IH]; intros pp Hs; cbn [ssh_session]; [apply honest_ret|].
  apply (honest_bind_when _ _ (fun x => pp_service (fst x) = Some UploadPack)).
  - unfold ssh_data. rewrite Hs. honest. apply honest_upload.
  - intros w w' [pp' a] E. unfold ssh_data in E. rewrite Hs in E. apply mbind_inv in E as (w1 & [[q d'] buf] & E1 & E).
    apply mbind_inv in E as (w2 & u & _ & E). injection E as _ <- _. apply upload_path in E1. cbn [fst]. rewrite (proj2 E1). exact Hs.
  - intros [pp1 a] H1. honest. apply IH. exact H1.
Qed.

(** ** Advertisements *)

Lemma honest_head : forall e path w, env_ok e ->
  (forall r, In r (d_refs (w_db w)) -> is_head e path r -> within path (r_repo_path r) -> r_repo_path r = path) ->
  forall w' r, get_head_object_id e path w = (w', r) -> r = Panic \/ get_head_object_id e path (working w) = (working w', r).
Proof.
  intros e path w He Nb w' r E. unfold get_head_object_id in *. unfold mbind in *. destruct (search_refs e path w) as [w1 x] eqn:E1.
  destruct (honest_select _ _ _ _ _ _ E1) as [->|K]; [injection E as <- <-; left; reflexivity|].
  fold (search_refs e path) in K. rewrite K. destruct x as [rows|g| |]; try (injection E as <- <-; right; reflexivity).
  assert (Hr : forall y, In y rows -> In y (d_refs (w_db w)) /\ is_head e path y).
  { unfold search_refs, select, attempt, mbind at 1 in K. cbn [working w_fails] in K. unfold shuffle, tick, mbind, ret in K. cbn [w_db w_tick] in K.
    apply (f_equal snd) in K. cbn [snd] in K. injection K as <-. intros y Hy. apply (Permutation_in _ (proj1 He (w_tick w) _ _)), filter_In in Hy as [Hy B].
    apply andb_true_iff in B. split; [exact Hy|exact B]. }
  destruct (find (fun y => beq path (r_repo_path y)) rows) as [y|] eqn:F1; [injection E as <- <-; right; reflexivity|].
  destruct (find (fun y => path_starts_with path (r_repo_path y)) rows) as [y|] eqn:F2; [|injection E as <- <-; right; reflexivity].
  exfalso. apply find_some in F2 as [Hy B]. apply starts_with_within in B. destruct (Hr y Hy) as [H1 H2]. pose proof (Nb y H1 H2 B) as Ep.
  pose proof (find_none _ _ F1 y Hy) as B'. cbn beta in B'. rewrite Ep, beq_refl in B'. discriminate.
Qed.
(** The same of advertisements, unless the path is below another repository. *)
Theorem C138_discovery : forall e path service w w' r, env_ok e ->
  (forall x, In x (d_refs (w_db w)) -> is_head e path x -> within path (r_repo_path x) -> r_repo_path x = path) ->
  http_info_refs e path service w = (w', r) ->
  r = Panic \/ http_info_refs e path service (working w) = (working w', r).
Proof.
  intros e path service w w' r He Nb E. unfold http_info_refs in *. unfold lift in *. unfold mbind at 1 in E. unfold mbind at 1.
  destruct (proto_new path service Http) as [pp|g| |] eqn:Ep; try (injection E as <- <-; right; reflexivity).
  assert (Pp : pp_path pp = path).
  { unfold proto_new in Ep. destruct service; [injection Ep as <-; reflexivity|]. destruct (service_from_str _); [injection Ep as <-; reflexivity|discriminate]. }
  unfold git_info_refs in *. rewrite Pp in *. unfold lift in *. unfold mbind at 1 in E. unfold mbind at 1.
  destruct (pp_service pp) as [s|]; cbn [unwrap_opt] in *; [|injection E as <- <-; left; reflexivity].
  unfold mbind at 1 in E. unfold mbind at 1. destruct (get_head_object_id e path w) as [w1 x] eqn:E1.
  destruct (honest_head e path w He Nb _ _ E1) as [->|K]; [injection E as <- <-; left; reflexivity|]. rewrite K.
  destruct x as [head|g| |]; try (injection E as <- <-; right; reflexivity). revert E.
  revert w1 w' r E1 K. intros w1 w' r _ _. revert w1 w' r.
  match goal with |- forall w1 w' r, ?f w1 = _ -> _ => change (honest f) end. unfold get_ref_object_id. honest.
Qed.

(** ** Pushes *)

Lemma insert_batches_any : forall e bs w, exists w', insert_batches e bs w = (w', Panic) \/
  insert_batches e bs w = (w', Ok tt) /\ d_nodes (w_db w') = d_nodes (w_db w) ++ concat bs.
Proof.
  intros e bs. induction bs as [|b bs IH]; intros w; [exists w; right; split; [reflexivity|symmetry; apply app_nil_r]|].
  cbn [insert_batches concat]. destruct (execute_any (insert_nodes e b) w) as (w1 & ok & E & _ & K). rewrite (mbind_ok _ _ _ _ _ _ _ E).
  destruct K as [(_ & _ & ->)|(d & Ed & D & _ & ->)]; [exists w1; left; reflexivity|]. destruct (IH w1) as (w' & [H|[H1 H2]]); exists w'; [left; exact H|right].
  split; [exact H1|]. rewrite H2, D, app_assoc. f_equal. unfold insert_nodes in Ed. destruct b as [|x b].
  - destruct (empty_insert e); [|discriminate]. injection Ed as <-. symmetry. apply app_nil_r.
  - destruct (forallb node_fits (x :: b)); [|discriminate]. injection Ed as <-. reflexivity.
Qed.
Definition same_nodes (w w' : world) : Prop := d_nodes (w_db w') = d_nodes (w_db w).
Lemma sn_trans : forall a b c, same_nodes a b -> same_nodes b c -> same_nodes a c.
Proof. intros a b c H K. unfold same_nodes in *. congruence. Qed.
Lemma sn_execute : forall f, (forall d d', f d = Some d' -> d_nodes d' = d_nodes d) -> keeps same_nodes (execute f).
Proof.
  intros f H w. unfold same_nodes. destruct (execute_any f w) as (w1 & ok & E & _ & K). rewrite E. cbn [fst].
  destruct K as [(-> & _)|(d & Ed & -> & _)]; [reflexivity|exact (H _ _ Ed)].
Qed.
Lemma sn_all : forall l, Forall (fun f => forall d d', f d = Some d' -> d_nodes d' = d_nodes d) l -> keeps same_nodes (insert_all l).
Proof.
  induction 1 as [|f l Hf _ IH]; [intros w; reflexivity|]. cbn [insert_all]. apply (keeps_bind same_nodes sn_trans); [exact (sn_execute f Hf)|intros; exact IH].
Qed.
Lemma sn_same : forall A (f : M A), reads f -> keeps same_nodes f.
Proof. intros A f H w. unfold same_nodes. rewrite (proj1 (H w)). reflexivity. Qed.
Lemma sn_commits : forall path cs, keeps same_nodes (save_commits path cs).
Proof.
  intros path cs. apply sn_all. apply Forall_forall. intros f Hf d d' E. apply in_map_iff in Hf as (l & <- & _). unfold insert_commits in E.
  destruct (forallb commit_fits l); [injection E as <-; reflexivity|discriminate].
Qed.
Lemma sn_refs : forall e cmd path, keeps same_nodes (handle_refs e cmd path).
Proof.
  intros e cmd path. unfold handle_refs. destruct (rc_type cmd).
  - apply sn_all. constructor; [|constructor]. intros d d' E. unfold insert_ref in E. destruct (ref_fits _); [injection E as <-; reflexivity|discriminate].
  - apply (keeps_lift same_nodes). reflexivity.
  - unfold update_refs. apply (keeps_bind same_nodes sn_trans); [apply sn_same, reads_select_one|]. intros o.
    apply (keeps_bind same_nodes sn_trans); [apply sn_same, reads_lift|]. intros x.
    apply (keeps_bind same_nodes sn_trans).
    + apply sn_execute. intros d d' E. unfold set_ref in E. destruct (varchar _ _); [injection E as <-; reflexivity|discriminate].
    + intros [|]; [|apply sn_same, reads_lift]. apply (keeps_bind same_nodes sn_trans); [apply sn_same, reads_select_one|]. intros back.
      apply (keeps_bind same_nodes sn_trans); [apply sn_same, reads_lift|]. intros _. apply sn_same, reads_ret.
Qed.
Lemma sn_remove : forall p, keeps same_nodes (remove_temp p).
Proof. intros p w. unfold same_nodes, remove_temp. destruct (fs_get (w_files w) p); reflexivity. Qed.

(** Whatever statements fail, a push that is not aborted has stored its trees and blobs. *)
Theorem C138_push : forall e m c now path old new name caps body pack objs w,
  env_ok e -> word old -> word new -> word name -> utf8_text caps -> push_request old new name caps pack body ->
  git_pack c (get_hash_object e w) pack objs -> nlen pack < 2 ^ 32 -> graph (map snd objs) ->
  exists fuel0, forall fuel, (fuel0 <= fuel)%nat -> forall w' r, http_receive_pack e m c fuel now path body w = (w', r) ->
    r = Panic \/ forall o, reach (fun o => In o (map snd objs)) o -> fst o <> Commit -> exists n, In n (d_nodes (w_db w')) /\ node_for n o.
Proof.
  intros e m c now path old new name caps body pack objs w He Ho Hn Hm Hc Rq G Hl Hg.
  destruct (first_run e m c now path old new name caps pack body Ho Hn Hm Hc Rq) as (cl & _ & E).
  set (cmd := ref_command_new old new (name ++ [0])) in *.
  destruct (receive_start e m c now (mkProto Http path None cl [cmd]) [] cmd pack [] objs w eq_refl G Hl (gr_free _ Hg))
    as (wu & k & file & _ & _ & _ & _ & Hh & Hk & K). rewrite app_nil_r in K. cbn [pp_path] in K.
  destruct Hg as [Hso Co Cf Ac]. destruct (save_packfile_any e k (map snd objs) path He Hk Hh Hso wu) as (w1 & om & _ & _ & _ & _ & V & ES).
  destruct Ac as (rank & Ac). set (fuel0 := list_max (map (fun c => rank (cm_tree_id c)) (om_commits om))).
  destruct (rows_at (map snd objs) _ _ _ V Hso (holds_no_collision _ _ Hh) Co rank Ac fuel0) as (rows & EB & _ & _ & Ra & _).
  { intros x Hx. assert (Kx : (list_max (map (fun c => rank (cm_tree_id c)) (om_commits om)) <= fuel0)%nat) by apply Nat.le_refl.
    apply list_max_le in Kx. rewrite Forall_forall in Kx. apply Kx. apply in_map_iff. eauto. }
  assert (EB' : forall fuel, (fuel0 <= fuel)%nat -> build_node_tree fuel om = Ok rows)
    by (intros fuel Hfu; exact (build_commits_more _ _ _ _ _ _ _ Hfu EB)).
  exists (Nat.max 1 fuel0). intros fuel Hf w' r R. rewrite E in R. destruct (insert_batches_any e (batches 0 [] rows) w1) as (w2 & [E2|[E2 D2]]).
  - left. unfold mbind at 1 in R. rewrite (proj1 (K fuel0 w2)) in R; [congruence| |exact Hf].
    intros f Hfu. rewrite ES. unfold save_objects. rewrite (EB' f Hfu). unfold mbind at 1, lift. unfold save_nodes, mbind. rewrite E2. reflexivity.
  - right. rewrite batches_concat in D2. cbn [app] in D2. destruct (save_commits_any path (om_commits om) w2) as (w3 & E3).
    pose proof (sn_commits path (om_commits om) w2) as S3. rewrite E3 in S3. cbn [fst] in S3. unfold same_nodes in S3.
    assert (Es : forall f, (fuel0 <= f)%nat -> save_packfile e f k path wu = (w3, Ok tt)).
    { intros f Hfu. rewrite ES. unfold save_objects. rewrite (EB' f Hfu). unfold mbind at 1, lift. unfold save_nodes. rewrite (mbind_ok _ _ _ _ _ _ _ E2). exact E3. }
    assert (Sn : same_nodes w3 w').
    { unfold mbind at 1 in R. rewrite (proj2 (K fuel0 w3) Es fuel Hf) in R. cbn [app pp_protocol pp_service pp_caps] in R.
      match type of R with match ?f w3 with _ => _ end = _ => assert (Kp : keeps same_nodes f) end.
      { apply (keeps_bind same_nodes sn_trans); [apply sn_refs|]. intros _. apply (keeps_bind same_nodes sn_trans); [apply sn_remove|].
        intros _. apply sn_same, reads_ret. }
      specialize (Kp w3). match type of R with match ?x with _ => _ end = _ => destruct x as [w4 [[a b0]|g| |]] end; injection R as <- _; exact Kp. }
    intros o Hr Nc. destruct (Ra o Hr Nc) as (n & In_n & Hn'). exists n. split; [|exact Hn']. rewrite Sn, S3, D2. apply in_or_app. right. exact In_n.
Qed.

(** A new branch at a commit that is stored already, sent with a pack of no objects, while
    the database is out: nothing is written and the reply says that it was. *)
Theorem C138_branch_outage : forall e m c now path new h name caps body pack w rest,
  env_ok e -> w_fails w = true :: rest -> id_ok h -> lower_hex new h -> word name -> nlen name <= 60000 -> utf8_text caps ->
  push_request (repeat 48 40) new name caps pack body -> git_pack c (get_hash_object e w) pack [] -> nlen pack < 2 ^ 32 ->
  exists fuel0 w' reply cl, caps_in caps cl /\ status_reply cl [bs "ok " ++ name ++ [0]] reply /\ w_db w' = w_db w /\
    forall fuel, (fuel0 <= fuel)%nat -> http_receive_pack e m c fuel now path body w = (w', Ok reply).
Proof.
  intros e m c now path new h name caps body pack w rest He Fw Hh Hx Hm Lm Hc Rq G Hl.
  destruct (first_run e m c now path (repeat 48 40) new name caps pack body zero_word (hex_word _ _ Hx Hh) Hm Hc Rq) as (cl & Hcl & E).
  set (cmd := ref_command_new (repeat 48 40) new (name ++ [0])) in *.
  destruct (receive_start e m c now (mkProto Http path None cl [cmd]) [] cmd pack [] [] w eq_refl G Hl) as (wu & k & file & Du & Lu & Fu & Fi & Hh' & Hk & K);
    [intros a b x []|]. rewrite app_nil_r in K. cbn [pp_path map] in *.
  destruct (save_packfile_any e k [] path He Hk Hh' (Forall_nil _) wu) as (w1 & om & D1 & L1 & F1 & Fi1 & V & ES).
  assert (Oc : om_commits om = []).
  { destruct (om_commits om) as [|x l] eqn:Ex; [reflexivity|]. destruct (ve_commits _ _ _ _ V x (or_introl eq_refl)) as (d & hh & [] & _). }
  assert (Es : forall fuel, (0 <= fuel)%nat -> save_packfile e fuel k path wu = (w1, Ok tt)).
  { intros fuel _. rewrite ES. unfold save_objects, build_node_tree. rewrite Oc. reflexivity. }
  pose proof (proj2 (K O w1) Es) as Er. cbn [app pp_protocol pp_service pp_caps] in Er.
  set (w2 := mkWorld (w_db w1) (w_log w1) rest (w_tick w1) (w_files w1)).
  assert (Eh : handle_refs e (cmd_unpacked cmd None) path w1 = (w2, Ok tt)).
  { unfold handle_refs. change (rc_type (cmd_unpacked cmd None)) with Create. cbv iota. unfold save_refs. cbn [insert_all].
    unfold execute, attempt, mbind. rewrite F1, Fu, Fw. reflexivity. }
  exists 1%nat, (mkWorld (w_db w2) (w_log w2) (w_fails w2) (w_tick w2) (fs_remove (w_files w2) (temp_path now))). eexists. exists cl.
  split; [exact Hcl|]. split; [exact (status_ok cl (repeat 48 40) new name Lm)|]. split; [cbn [w_db w2]; rewrite D1; exact Du|].
  intros fuel Hf. rewrite E. unfold mbind at 1. rewrite Er by (cbn; lia). rewrite (mbind_ok _ _ _ _ _ _ _ Eh). unfold mbind, remove_temp.
  cbn [w2 w_files]. rewrite Fi1, Fi, fs_get_put_same. reflexivity.
Qed.

(** ** Cases *)

Definition ex_fails (l : list bool) : world := mkWorld (w_db ex_world) [] l 0 [].
Lemma ex_fails_db : forall l, w_db (ex_fails l) = w_db ex_world.
Proof. intros l. unfold ex_fails. generalize (w_db ex_world). reflexivity. Qed.
Lemma ex_fails_refs : forall l, d_refs (w_db (ex_fails l)) = [ex_ref].
Proof. intros l. rewrite ex_fails_db. exact ex_world_refs. Qed.
Lemma ex_fails_commits : forall l, exists x, In x (d_commits (w_db (ex_fails l))).
Proof.
  intros l. rewrite ex_fails_db. assert (K : match d_commits (w_db ex_world) with [] => false | _ => true end = true) by (vm_compute; reflexivity).
  revert K. generalize (d_commits (w_db ex_world)). intros [|x t] K; [discriminate K|exists x; left; reflexivity].
Qed.
(** A fetch and an advertisement that are aborted, and ones that are not. *)
Example C138_fetch_ex : snd (http_upload_pack ex_env stored 50 ex_cut (bs "/demo") clone_body (ex_fails [false; true])) = Panic /\
  is_ok (snd (http_upload_pack ex_env stored 50 ex_cut (bs "/demo") clone_body (ex_fails [false; false; false; false; false; true]))) = true.
Proof. vm_compute. split; reflexivity. Qed.
Example C138_discovery_ex : snd (http_info_refs ex_env (bs "/demo") (bs "git-upload-pack") (ex_fails [false; true])) = Panic /\
  is_ok (snd (http_info_refs ex_env (bs "/demo") (bs "git-upload-pack") (ex_fails [false; false; true]))) = true /\
  (forall x, In x (d_refs (w_db (ex_fails [false; true]))) -> is_head ex_env (bs "/demo") x -> within (bs "/demo") (r_repo_path x) -> r_repo_path x = bs "/demo").
Proof.
  split; [vm_compute; reflexivity|]. split; [vm_compute; reflexivity|]. intros x Hx _ _.
  rewrite ex_fails_refs in Hx. destruct Hx as [<-|[]]. reflexivity.
Qed.
(** Below a repository it is different: the reply leaves out a reference that could not be written. *)
Theorem C138_below_refuted : exists e path service w w' r, env_ok e /\ http_info_refs e path service w = (w', Ok r) /\
  snd (http_info_refs e path service (working w)) <> Ok r.
Proof.
  assert (B : beq (ok_text (snd (http_info_refs ex_env (bs "/demo/lib") (bs "git-upload-pack") (ex_fails [false; false; false; false; true]))))
    (ok_text (snd (http_info_refs ex_env (bs "/demo/lib") (bs "git-upload-pack") (working (ex_fails [false; false; false; false; true]))))) = false) by (vm_compute; reflexivity).
  assert (O : is_ok (snd (http_info_refs ex_env (bs "/demo/lib") (bs "git-upload-pack") (ex_fails [false; false; false; false; true]))) = true) by (vm_compute; reflexivity).
  exists ex_env, (bs "/demo/lib"), (bs "git-upload-pack"), (ex_fails [false; false; false; false; true]).
  destruct (http_info_refs ex_env (bs "/demo/lib") (bs "git-upload-pack") (ex_fails [false; false; false; false; true])) as [w' [r|g| |]]; cbn [snd is_ok] in O; try discriminate O.
  exists w', r. split; [exact ex_env_ok|]. split; [reflexivity|]. intros K. rewrite K in B. cbn [snd ok_text] in B. rewrite beq_refl in B. discriminate B.
Qed.

Definition empty_pack : bytes := (bs "PACK" ++ u32_vec 2 ++ u32_vec 0) ++ sha1 (bs "PACK" ++ u32_vec 2 ++ u32_vec 0).
Lemma empty_pack_git : forall c st, git_pack c st empty_pack [].
Proof. intros c st. eexists. split; [|reflexivity]. apply pb_header; apply u32_vec_value; reflexivity. Qed.
Lemma dev_word : word (bs "refs/heads/dev").
Proof.
  split; [|apply utf8_spec; reflexivity]. apply Forall_forall. intros b Hb Hw.
  assert (K : forallb (fun b => negb (existsb (N.eqb b) [32; 9; 10; 12; 13])) (bs "refs/heads/dev") = true) by reflexivity.
  rewrite forallb_forall in K. specialize (K b Hb). apply negb_true_iff in K.
  assert (K2 : existsb (N.eqb b) [32; 9; 10; 12; 13] = true) by (apply existsb_exists; exists b; split; [exact Hw|apply N.eqb_refl]). congruence.
Qed.
Example C138_branch_outage_ex :
  push_request (repeat 48 40) (to_plain_str (oid ex_top)) (bs "refs/heads/dev") ex_caps empty_pack
    (push_body (repeat 48 40) (to_plain_str (oid ex_top)) (bs "refs/heads/dev") ex_caps empty_pack) /\
  git_pack stored (get_hash_object ex_env (ex_fails [true; true; true])) empty_pack [] /\ nlen empty_pack < 2 ^ 32 /\
  id_ok (oid ex_top) /\ lower_hex (to_plain_str (oid ex_top)) (oid ex_top) /\ word (bs "refs/heads/dev") /\ nlen (bs "refs/heads/dev") <= 60000 /\
  utf8_text ex_caps /\ w_fails (ex_fails [true; true; true]) = [true; true; true] /\ exists x, In x (d_commits (w_db (ex_fails [true; true; true]))).
Proof.
  split; [apply push_body_request; rewrite !nlen_app, (plain_len _ ex_top_id); vm_compute; discriminate|]. split; [apply empty_pack_git|].
  split; [vm_compute; reflexivity|]. split; [exact ex_top_id|]. split; [apply plain_lower; exact ex_top_id|]. split; [exact dev_word|].
  split; [vm_compute; discriminate|]. split; [apply utf8_spec; reflexivity|]. split; [reflexivity|apply ex_fails_commits].
Qed.
(** So the reply says "ok" of a reference that the database does not get. *)
Theorem C138_created_refuted : exists e m c fuel now path new name caps pack body w w' reply cl,
  env_ok e /\ push_request (repeat 48 40) new name caps pack body /\ git_pack c (get_hash_object e w) pack [] /\
  http_receive_pack e m c fuel now path body w = (w', Ok reply) /\ status_reply cl [bs "ok " ++ name ++ [0]] reply /\ d_refs (w_db w') = d_refs (w_db w).
Proof.
  destruct C138_branch_outage_ex as (Rq & G & Hl & Hi & Hx & Hm & Lm & Hc & Fw & _).
  destruct (C138_branch_outage ex_env Release stored 7 (bs "/demo") _ _ _ _ _ _ _ _ ex_env_ok Fw Hi Hx Hm Lm Hc Rq G Hl) as (fuel0 & w' & reply & cl & _ & St & D & E).
  exists ex_env, Release, stored, fuel0, 7, (bs "/demo"). do 5 eexists. exists (ex_fails [true; true; true]), w', reply, cl.
  split; [exact ex_env_ok|]. split; [exact Rq|]. split; [exact G|]. split; [exact (E fuel0 (Nat.le_refl _))|]. split; [exact St|]. rewrite D. reflexivity.
Qed.

(** A push whose trees and blobs are refused is aborted; one whose commit is refused is not. *)
Definition out (l : list bool) : world := mkWorld db_empty [] l 0 [].
Example C138_push_ex : exists objs, git_pack stored (get_hash_object ex_env (out [true])) (pack_of ex_hist) objs /\ graph (map snd objs) /\
  snd (http_receive_pack ex_env Release stored 50 7 (bs "/demo") ex_body (out [true])) = Panic /\
  let (w', r) := http_receive_pack ex_env Release stored 50 7 (bs "/demo") ex_body (out [false; true]) in
  is_ok r = true /\ length (d_nodes (w_db w')) = 3%nat /\ d_commits (w_db w') = [].
Proof.
  destruct (ex_pack (get_hash_object ex_env (out [true]))) as (objs & G & E). exists objs. rewrite E. split; [exact G|]. split.
  - assert (Hs : history (bs "/demo") ex_hist) by (apply ex_hist_ok; reflexivity).
    split; [exact (hs_sound _ _ Hs)|exact (hs_complete _ _ Hs)|exact (hs_free _ _ Hs)|exact (hs_acyclic _ _ Hs)].
  - split; [vm_compute; reflexivity|]. vm_compute. repeat split.
Qed.
Example C138_fetch_ssh_ex :
  snd (ssh_session ex_env Release stored 50 ex_cut (fun _ => 7) (mkProto Ssh (bs "/demo") (Some UploadPack) [] []) [clone_body] (ex_fails [false; true])) = Panic /\
  is_ok (snd (ssh_session ex_env Release stored 50 ex_cut (fun _ => 7) (mkProto Ssh (bs "/demo") (Some UploadPack) [] []) [clone_body] (ex_fails [false; false; false; false; false; true]))) = true.
Proof. vm_compute. split; reflexivity. Qed.

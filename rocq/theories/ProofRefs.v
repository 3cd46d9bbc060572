(** Proofs about references: updates, subdirectory heads, crashes and failures. *)

From Coq Require Import Permutation Sorted.
From Verif Require Import Base BaseLemmas Digest ModelObject ModelBase ModelPack ModelDecode ModelPkt ModelStorage.
From Verif Require Import SpecObject SpecIdx SpecBase SpecPack SpecDecode SpecPath SpecStorage.
From Verif Require Import ProofUtf8 ProofObject ProofPack ProofIdx ProofBase ProofEncode ProofDecode ProofNodes ProofStorage ProofPush ProofClone ProofRepo ProofPath.
Open Scope N_scope.

(** ** Statements whose outcome is dropped *)

Lemma execute_any : forall f w, exists w' b, execute f w = (w', Ok b) /\ w_files w' = w_files w /\
  (w_db w' = w_db w /\ w_log w' = w_log w /\ b = false \/
   exists d, f (w_db w) = Some d /\ w_db w' = d /\ w_log w' = w_log w ++ [d] /\ b = true).
Proof.
  intros f w. unfold execute, mbind, attempt. destruct (w_fails w) as [|[] r].
  - destruct (f (w_db w)) as [d|] eqn:E.
    + eexists _, _. split; [reflexivity|]. split; [reflexivity|]. right. eauto.
    + eexists _, _. split; [reflexivity|]. auto.
  - eexists _, _. split; [reflexivity|]. auto.
  - cbn [negb]. cbn [w_db]. destruct (f (w_db w)) as [d|] eqn:E.
    + eexists _, _. split; [reflexivity|]. split; [reflexivity|]. right. eauto.
    + eexists _, _. split; [reflexivity|]. auto.
Qed.
Lemma insert_all_any : forall ins w, exists w', insert_all ins w = (w', Ok tt).
Proof.
  induction ins as [|f ins IH]; intros w; [eexists; reflexivity|]. cbn [insert_all].
  destruct (execute_any f w) as (w1 & b & E & _). rewrite (mbind_ok _ _ _ _ _ _ _ E). apply IH.
Qed.
Lemma save_commits_any : forall path cs w, exists w', save_commits path cs w = (w', Ok tt).
Proof. intros. apply insert_all_any. Qed.

(** ** Reference tables *)

Lemma insert_ref_table : forall p n i d d', insert_ref p n i d = Some d' -> refs_table d -> refs_table d'.
Proof.
  intros p n i d d' H [T1 T2]. unfold insert_ref in H. destruct (ref_fits _); [|discriminate]. injection H as <-.
  split; cbn [d_refs d_next_ref].
  - rewrite map_app. cbn [map r_id]. apply Permutation_NoDup with (l := d_next_ref d :: map r_id (d_refs d)).
    + apply Permutation_cons_append.
    + constructor; [|exact T1]. intros K. apply in_map_iff in K as (r & E & Hr). apply T2 in Hr. lia.
  - intros r Hr. apply in_app_or in Hr as [Hr|[<-|[]]]; [apply T2 in Hr; lia|cbn [r_id]; lia].
Qed.
Lemma set_ref_table : forall i n d d', set_ref i n d = Some d' -> refs_table d -> refs_table d'.
Proof.
  intros i n d d' H [T1 T2]. unfold set_ref in H. destruct (varchar 40 n); [|discriminate]. injection H as <-.
  split; cbn [d_refs d_next_ref].
  - rewrite map_map. replace (map _ (d_refs d)) with (map r_id (d_refs d)); [exact T1|].
    apply map_ext. intros r. destruct (r_id r =? i); reflexivity.
  - intros r Hr. apply in_map_iff in Hr as (x & <- & Hx). apply T2 in Hx. destruct (r_id x =? i); exact Hx.
Qed.

Lemma set_ref_row : forall d r new, refs_table d -> varchar 40 new = true -> In r (d_refs d) ->
  exists l1 l2, d_refs d = l1 ++ r :: l2 /\ set_ref (r_id r) new d = Some (with_refs d (l1 ++ with_id r new :: l2)).
Proof.
  intros d r new [T _] V Hr. apply in_split in Hr as (l1 & l2 & E). exists l1, l2. split; [exact E|].
  unfold set_ref. rewrite V. unfold with_refs. do 2 f_equal. rewrite E in T |- *.
  rewrite map_app in T. cbn [map] in T. pose proof (NoDup_remove_2 _ _ _ T) as N. rewrite in_app_iff in N.
  rewrite map_app. cbn [map]. rewrite N.eqb_refl. f_equal; [|f_equal].
  - rewrite <- (map_id l1) at 2. apply map_ext_in. intros x Hx. destruct (N.eqb_spec (r_id x) (r_id r)) as [K|]; [|reflexivity].
    destruct N. left. rewrite <- K. apply in_map. exact Hx.
  - rewrite <- (map_id l2) at 2. apply map_ext_in. intros x Hx. destruct (N.eqb_spec (r_id x) (r_id r)) as [K|]; [|reflexivity].
    destruct N. right. rewrite <- K. apply in_map. exact Hx.
Qed.

(** An update moves one of the references of the repository that have the old id. *)
Lemma update_run : forall e cmd path w, env_ok e -> no_failure w -> refs_table (w_db w) -> varchar 40 (rc_new_id cmd) = true ->
  (exists w' r l1 l2, update_refs e cmd path w = (w', Ok tt) /\
     teq e (r_ref_git_id r) (rc_old_id cmd) = true /\ teq e (r_repo_path r) path = true /\
     d_refs (w_db w) = l1 ++ r :: l2 /\ w_db w' = with_refs (w_db w) (l1 ++ with_id r (rc_new_id cmd) :: l2) /\
     moved w w' [w_db w']) \/
  (exists w', update_refs e cmd path w = (w', Panic) /\ w_db w' = w_db w /\ w_log w' = w_log w /\
     forall r, In r (d_refs (w_db w)) -> teq e (r_ref_git_id r) (rc_old_id cmd) = true -> teq e (r_repo_path r) path = true -> False).
Proof.
  intros e cmd path w He Q T V. unfold update_refs.
  destruct (select_one_run _ e (fun d => filter (fun r => teq e (r_ref_git_id r) (rc_old_id cmd) &&
     teq e (r_repo_path r) path) (d_refs d)) w He Q) as (w1 & o & E & M & K).
  rewrite (mbind_ok _ _ _ _ _ _ _ E). destruct o as [r|].
  - left. apply filter_In in K as [Hr K]. apply andb_true_iff in K as [K1 K2].
    destruct (set_ref_row _ _ _ T V Hr) as (l1 & l2 & El & Es).
    assert (D1 : w_db w1 = w_db w) by exact (mv_db _ _ _ M).
    destruct (execute_run (set_ref (r_id r) (rc_new_id cmd)) w1 (with_refs (w_db w) (l1 ++ with_id r (rc_new_id cmd) :: l2)) (mv_quiet _ _ _ M)) as (w2 & E2 & M2);
      [rewrite D1; exact Es|].
    assert (D2 : w_db w2 = with_refs (w_db w) (l1 ++ with_id r (rc_new_id cmd) :: l2)) by (rewrite (mv_db _ _ _ M2); reflexivity).
    destruct (select_one_run _ e (fun d => filter (fun x => r_id x =? r_id r) (d_refs d)) w2 He (mv_quiet _ _ _ M2)) as (w3 & o3 & E3 & M3 & K3).
    destruct o3 as [r3|].
    2:{ exfalso. rewrite D2 in K3. cbn [with_refs d_refs] in K3. rewrite filter_app in K3. cbn [filter with_id r_id] in K3. rewrite N.eqb_refl in K3.
        destruct (filter (fun x => r_id x =? r_id r) l1); discriminate. }
    exists w3, r, l1, l2. unfold lift at 1. cbn [unwrap_opt]. unfold mbind at 1. rewrite (mbind_ok _ _ _ _ _ _ _ E2), (mbind_ok _ _ _ _ _ _ _ E3).
    rewrite <- (mv_db _ _ _ M3 : w_db w3 = w_db w2) in D2. rewrite D2. repeat (split; [assumption||reflexivity|]).
    exact (moved_trans _ _ _ _ _ (moved_trans _ _ _ _ _ M M2) M3).
  - right. exists w1. split; [reflexivity|]. split; [exact (mv_db _ _ _ M)|]. split; [rewrite (mv_log _ _ _ M); apply app_nil_r|].
    intros r Hr K1 K2. assert (Hf : In r []) by (rewrite <- K; apply filter_In; rewrite K1, K2; auto). destruct Hf.
Qed.

Lemma create_run : forall cmd path w, no_failure w ->
  ref_fits (mkRef (d_next_ref (w_db w)) path (rc_ref_name cmd) (rc_new_id cmd)) = true ->
  exists w', save_refs cmd path w = (w', Ok tt) /\ moved w w' [w_db w'] /\
    w_db w' = mkDb (d_nodes (w_db w)) (d_commits (w_db w))
                (d_refs (w_db w) ++ [mkRef (d_next_ref (w_db w)) path (rc_ref_name cmd) (rc_new_id cmd)]) (d_next_ref (w_db w) + 1).
Proof.
  intros cmd path w Q F. unfold save_refs. cbn [insert_all].
  destruct (execute_run (insert_ref path (rc_ref_name cmd) (rc_new_id cmd)) w
     (mkDb (d_nodes (w_db w)) (d_commits (w_db w))
                (d_refs (w_db w) ++ [mkRef (d_next_ref (w_db w)) path (rc_ref_name cmd) (rc_new_id cmd)]) (d_next_ref (w_db w) + 1)) Q) as (w1 & E & M).
  { unfold insert_ref. rewrite F. reflexivity. }
  exists w1. rewrite (mbind_ok _ _ _ _ _ _ _ E). split; [reflexivity|]. pose proof (mv_db _ _ _ M) as D. cbn [last] in D. rewrite D.
  split; [exact M|reflexivity].
Qed.

(** ** Subdirectory commits *)

Lemma child_commit : forall row n d tid ps a c msg h, c_meta row = d -> git_commit tid ps a c msg d ->
  ident_of (bs "author") a -> ident_of (bs "committer") c -> utf8_text msg -> id_ok h -> n_git_id n = to_plain_str h ->
  exists d' h', build_from_model_and_root row n = Ok (mkCommit (as_meta (Commit, d') h') h [] a c msg) /\
    obj_id (Commit, d') h' /\ git_commit h [] a c msg d'.
Proof.
  intros row n d tid ps a c msg h Ed G Ha Hc Hm Hh En. unfold build_from_model_and_root.
  destruct (meta_new_obj Commit (c_meta row)) as (h0 & Hi0 & Em); [eexists; constructor|]. rewrite Em. cbn [bind].
  pose proof G as G'. apply git_commit_eq in G' as (H1 & H2 & D).
  destruct Hc as (Hc0 & Hc1 & Hc2 & Hc3).
  rewrite (commit_new_content (as_meta (Commit, c_meta row) h0) _ _ _ _ _ H1 H2 Ha Hc1 Hc2 Hc3 (eq_trans Ed D)).
  rewrite utf8_unwrap_text by exact Hm. cbn [bind cm_meta cm_author cm_committer cm_message].
  rewrite En, hash_roundtrip by exact Hh. cbn [unwrap bind]. unfold commit_encode.
  cbn [cm_tree_id cm_parents cm_author cm_committer cm_message flat_map].
  match goal with |- context [meta_new Commit ?x] => set (d' := x) end.
  destruct (meta_new_obj Commit d') as (h' & Hi' & Em'); [eexists; constructor|]. rewrite Em'. cbn [unwrap bind].
  exists d', h'. split; [reflexivity|]. split; [exact Hi'|]. apply git_commit_eq. split; [exact Hh|]. split; [constructor|].
  unfold d', commit_content. cbn [flat_map app]. reflexivity.
Qed.

Lemma chars_ascii_len : forall l, (forall b, In b l -> b < 128) -> chars l = nlen l.
Proof.
  induction l as [|b l IH]; intros H; [reflexivity|]. unfold chars in *. cbn [filter].
  pose proof (H b (or_introl eq_refl)) as Hb. destruct (N.leb_spec 128 b); [lia|]. cbn [andb negb].
  rewrite !nlen_cons, IH; [reflexivity|]. intros x Hx. apply H. right. exact Hx.
Qed.

Lemma find_none_perm : forall A (f : A -> bool) l l', Permutation l l' -> find f l = None -> forall x, In x l' -> f x = false.
Proof. intros A f l l' P H x Hx. apply (find_none _ _ H). apply (Permutation_in _ (Permutation_sym P)). exact Hx. Qed.

Lemma search_root_run : forall e path w, env_ok e -> no_failure w -> exists w' r, search_root_node_by_path e path w = (w', r) /\
  moved w w' [] /\ (r = Panic \/ exists o, r = Ok o /\ match o with Some n => found_node e (w_db w) path n | None => forall n, In n (d_nodes (w_db w)) -> teq e (n_name n) [] = false end).
Proof.
  intros e path w He Q. unfold search_root_node_by_path, lift. destruct (file_name path) as [name|] eqn:F.
  2:{ exists w, Panic. split; [reflexivity|]. split; [apply moved_refl; exact Q|auto]. }
  cbn [unwrap_opt]. unfold mbind at 1.
  destruct (select_one_run _ e (fun d => filter (fun n => teq e (n_name n) name) (d_nodes d)) w He Q) as (w1 & o & E & M & K).
  rewrite (mbind_ok _ _ _ _ _ _ _ E). destruct o as [n|].
  - apply filter_In in K as [K1 K2]. exists w1, (Ok (Some n)). split; [reflexivity|]. split; [exact M|]. right. exists (Some n).
    split; [reflexivity|]. exists name. split; [apply file_name_last; exact F|]. auto.
  - destruct (select_one_run _ e (fun d => filter (fun n => teq e (n_name n) []) (d_nodes d)) w1 He (mv_quiet _ _ _ M)) as (w2 & o & E2 & M2 & K2).
    exists w2, (Ok o). split; [exact E2|]. split; [exact (moved_trans _ _ _ _ _ M M2)|]. right. exists o. split; [reflexivity|].
    rewrite (mv_db _ _ _ M) in K2. cbn [last] in K2. destruct o as [n|].
    2:{ intros x Hx. destruct (teq e (n_name x) []) eqn:T; [|reflexivity].
        assert (Hf : In x []) by (rewrite <- K2; apply filter_In; auto). destruct Hf. }
    apply filter_In in K2 as [K2 K3].
    exists name. split; [apply file_name_last; exact F|]. split; [exact K2|]. right. split; [|exact K3].
    intros x Hx. destruct (teq e (n_name x) name) eqn:T; [|reflexivity].
    assert (Hf : In x []) by (rewrite <- K; apply filter_In; auto). destruct Hf.
Qed.

Lemma head_below : forall e path w, env_ok e -> no_failure w -> sound_db (w_db w) ->
  (forall r, In r (d_refs (w_db w)) -> is_head e path r -> r_repo_path r <> path) ->
  varchar 64 path = true -> (forall r, In r (d_refs (w_db w)) -> varchar 32 (r_ref_name r) = true) ->
  forall w' id, get_head_object_id e path w = (w', Ok id) ->
  (id = zero_id /\ w_db w' = w_db w /\ no_failure w' /\
    ((forall r, In r (d_refs (w_db w)) -> is_head e path r -> ~ within path (r_repo_path r)) \/
     (forall n, In n (d_nodes (w_db w)) -> teq e (n_name n) [] = false))) \/
  exists r row n d tid ps a c msg h d' h',
    In r (d_refs (w_db w)) /\ is_head e path r /\ within path (r_repo_path r) /\
    In row (d_commits (w_db w)) /\ teq e (c_git_id row) (r_ref_git_id r) = true /\ c_meta row = d /\ git_commit tid ps a c msg d /\
    found_node e (w_db w) path n /\ id_ok h /\ n_git_id n = to_plain_str h /\
    git_commit h [] a c msg d' /\ ident_of (bs "author") a /\ ident_of (bs "committer") c /\ utf8_text msg /\
    obj_id (Commit, d') h' /\ id = to_plain_str h' /\
    d_nodes (w_db w') = d_nodes (w_db w) /\
    d_commits (w_db w') = d_commits (w_db w) ++
      (if nlen d' <=? 65535 then [mkCommitRow (to_plain_str h') (to_plain_str h) d' path] else []) /\
    d_refs (w_db w') = d_refs (w_db w) ++ [mkRef (d_next_ref (w_db w)) path (r_ref_name r) id] /\ no_failure w'.
Proof.
  intros e path w He Q Sd No Vp Vn w' id E. unfold get_head_object_id, search_refs in E.
  destruct (select_run _ e (fun d => filter (fun r => like e path (r_repo_path r) && teq e (r_ref_name r) master) (d_refs d)) w Q) as (w1 & E1 & M1).
  rewrite (mbind_ok _ _ _ _ _ _ _ E1) in E.
  pose proof (proj1 He (w_tick w) _ (filter (fun r => like e path (r_repo_path r) && teq e (r_ref_name r) master) (d_refs (w_db w)))) as P.
  revert P E. generalize (ord e (w_tick w) _ (filter (fun r => like e path (r_repo_path r) && teq e (r_ref_name r) master) (d_refs (w_db w)))) as rows.
  intros rows P E. clear E1.
  assert (Hin : forall r, In r rows -> In r (d_refs (w_db w)) /\ is_head e path r).
  { intros r Hr. apply (Permutation_in _ P), filter_In in Hr as [Hr K]. apply andb_true_iff in K. split; [exact Hr|exact K]. }
  destruct (find (fun r => beq path (r_repo_path r)) rows) as [r|] eqn:F1.
  { apply find_some in F1 as [Hr B]. apply beq_eq in B. apply Hin in Hr as [Hr Hh]. destruct (No r Hr Hh). auto. }
  destruct (find (fun r => path_starts_with path (r_repo_path r)) rows) as [r|] eqn:F2.
  2:{ left. unfold ret in E. injection E as <- <-. split; [reflexivity|]. split; [exact (mv_db _ _ _ M1)|]. split; [exact (mv_quiet _ _ _ M1)|].
      left. intros r Hr Hh Hw. apply starts_with_within in Hw.
      assert (K : path_starts_with path (r_repo_path r) = false).
      { apply (find_none _ _ F2). apply (Permutation_in _ (Permutation_sym P)), filter_In. split; [exact Hr|]. apply andb_true_iff. exact Hh. }
      rewrite Hw in K. discriminate. }
  apply find_some in F2 as [Hr Ps]. apply starts_with_within in Ps. apply Hin in Hr as [Hr Hh]. unfold generate_child_commit_and_refs in E.
  pose proof (mv_db _ _ _ M1) as D1. cbn [last] in D1.
  destruct (select_one_run _ e (fun d => filter (fun c => teq e (c_git_id c) (r_ref_git_id r)) (d_commits d)) w1 He (mv_quiet _ _ _ M1)) as (w2 & o & E2 & M2 & K2).
  rewrite (mbind_ok _ _ _ _ _ _ _ E2) in E. unfold lift at 1 in E. destruct o as [row|]; [|discriminate]. cbn [unwrap_opt] in E.
  unfold mbind at 1 in E. rewrite D1 in K2. apply filter_In in K2 as [Hrow Trow].
  destruct (search_root_run e path w2 He (mv_quiet _ _ _ M2)) as (w3 & rr & E3 & M3 & K3).
  pose proof (mv_db _ _ _ M2) as D2. cbn [last] in D2. rewrite D1 in D2. rewrite D2 in K3.
  pose proof (mv_db _ _ _ M3) as D3. cbn [last] in D3. rewrite D2 in D3.
  unfold mbind at 1 in E. rewrite E3 in E. destruct K3 as [->|(o & -> & K3)]; [discriminate|]. destruct o as [n|].
  2:{ left. unfold ret in E. injection E as <- <-. split; [reflexivity|]. split; [exact D3|]. split; [exact (mv_quiet _ _ _ M3)|]. right. exact K3. }
  destruct (proj2 Sd row Hrow) as (oc & Hc & _). inversion Hc as [row' h0 tid d Hi0 L0 (ps & a & c & msg & G & Ha & Hcm & Hm) L1 Ed]; subst row' oc.
  assert (Hn : In n (d_nodes (w_db w))) by (destruct K3 as (? & _ & K3 & _); exact K3).
  destruct (proj1 Sd n Hn) as (on & Hno & _). destruct (node_for_id _ _ Hno) as (h & Hi & En & _).
  destruct (child_commit row n d tid ps a c msg h Ed G Ha Hcm Hm (obj_id_ok _ _ Hi) En) as (d' & h' & Eb & Hi' & G').
  unfold lift at 1 in E. rewrite Eb in E. unfold mbind at 1 in E. cbn [cm_meta as_meta m_id] in E.
  right. exists r, row, n, d, tid, ps, a, c, msg, h, d', h'.
  repeat (split; [first [assumption|reflexivity|exact (obj_id_ok _ _ Hi)]|]).
  unfold save_commits in E. cbn [length map chunks firstn skipn insert_all commit_to_row cm_meta as_meta m_id m_data cm_tree_id snd] in E.
  set (crow := mkCommitRow (to_plain_str h') (to_plain_str h) d' path) in *.
  assert (V40 : forall x, id_ok x -> varchar 40 (to_plain_str x) = true).
  { intros x Hx. unfold varchar. apply N.leb_le. pose proof (plain_chars x Hx). lia. }
  assert (Fc : commit_fits crow = (nlen d' <=? 65535)).
  { unfold commit_fits. cbn [c_git_id c_tree c_meta c_repo_path crow].
    rewrite (V40 h' (obj_id_ok _ _ Hi')), (V40 h (obj_id_ok _ _ Hi)). cbn [andb].
    replace (varchar 128 path) with true; [apply andb_true_r|]. symmetry. unfold varchar in *. apply N.leb_le. apply N.leb_le in Vp. lia. }
  assert (Ex : exists w4, execute (insert_commits [crow]) w3 = (w4, Ok (nlen d' <=? 65535)) /\ no_failure w4 /\
    d_nodes (w_db w4) = d_nodes (w_db w) /\ d_refs (w_db w4) = d_refs (w_db w) /\ d_next_ref (w_db w4) = d_next_ref (w_db w) /\
    d_commits (w_db w4) = d_commits (w_db w) ++ (if nlen d' <=? 65535 then [crow] else [])).
  { destruct (nlen d' <=? 65535) eqn:L.
    - destruct (execute_run (insert_commits [crow]) w3 (mkDb (d_nodes (w_db w)) (d_commits (w_db w) ++ [crow]) (d_refs (w_db w)) (d_next_ref (w_db w)))
        (mv_quiet _ _ _ M3)) as (w4 & E4 & M4).
      { unfold insert_commits. cbn [forallb]. rewrite Fc. cbn [andb]. rewrite D3. reflexivity. }
      exists w4. split; [exact E4|]. split; [exact (mv_quiet _ _ _ M4)|]. rewrite (mv_db _ _ _ M4). cbn [last d_nodes d_refs d_next_ref d_commits]. auto.
    - exists w3. unfold execute, attempt, mbind. rewrite (mv_quiet _ _ _ M3). unfold insert_commits. cbn [forallb]. rewrite Fc. cbn [andb].
      split; [reflexivity|]. split; [exact (mv_quiet _ _ _ M3)|]. rewrite D3, app_nil_r. auto. }
  destruct Ex as (w4 & E4 & Q4 & N4 & R4 & X4 & C4).
  assert (E4' : mbind (execute (insert_commits [crow])) (fun _ => ret tt) w3 = (w4, Ok tt)) by (rewrite (mbind_ok _ _ _ _ _ _ _ E4); reflexivity).
  rewrite (mbind_ok _ _ _ _ _ _ _ E4') in E.
  destruct (create_run (mkCmd (r_ref_name r) [] (to_plain_str h') [] [] Create) path w4 Q4) as (w5 & E5 & M5 & D5).
  { unfold ref_fits. cbn [r_repo_path r_ref_name r_ref_git_id rc_ref_name rc_new_id].
    rewrite Vp, (Vn r Hr), (V40 h' (obj_id_ok _ _ Hi')). reflexivity. }
  unfold save_refs in E5. cbn [rc_ref_name rc_new_id] in E5, D5.
  rewrite (mbind_ok _ _ _ _ _ _ _ E5) in E. unfold ret in E. injection E as <- <-.
  split; [reflexivity|]. rewrite D5. cbn [d_nodes d_commits d_refs]. rewrite N4, C4, R4, X4.
  repeat (split; [reflexivity|]). exact (mv_quiet _ _ _ M5).
Qed.

(** Asked again, the head is the reference that was stored. *)
Lemma head_stored : forall e path w r, env_ok e -> no_failure w -> In r (d_refs (w_db w)) -> is_head e path r -> r_repo_path r = path ->
  (forall x, In x (d_refs (w_db w)) -> is_head e path x -> r_repo_path x = path -> r_ref_git_id x = r_ref_git_id r) ->
  exists w', get_head_object_id e path w = (w', Ok (r_ref_git_id r)) /\ w_db w' = w_db w /\ w_log w' = w_log w.
Proof.
  intros e path w r He Q Hr Hh Hp Uq. unfold get_head_object_id, search_refs.
  destruct (select_run _ e (fun d => filter (fun r => like e path (r_repo_path r) && teq e (r_ref_name r) master) (d_refs d)) w Q) as (w1 & E1 & M1).
  exists w1. rewrite (mbind_ok _ _ _ _ _ _ _ E1). pose proof (proj1 He (w_tick w) _ (filter (fun r => like e path (r_repo_path r) && teq e (r_ref_name r) master) (d_refs (w_db w)))) as P.
  split; [|split; [exact (mv_db _ _ _ M1)|rewrite (mv_log _ _ _ M1); apply app_nil_r]].
  assert (Hi : forall x, In x (ord e (w_tick w) _ (filter (fun r => like e path (r_repo_path r) && teq e (r_ref_name r) master) (d_refs (w_db w)))) <-> In x (d_refs (w_db w)) /\ is_head e path x).
  { intros x. transitivity (In x (filter (fun r => like e path (r_repo_path r) && teq e (r_ref_name r) master) (d_refs (w_db w)))).
    - split; apply Permutation_in; [exact P|apply Permutation_sym; exact P].
    - rewrite filter_In, andb_true_iff. reflexivity. }
  destruct (find (fun r => beq path (r_repo_path r)) _) as [x|] eqn:F.
  - apply find_some in F as [Hx B]. apply beq_eq in B. apply Hi in Hx as [Hx Hxh]. rewrite (Uq x Hx Hxh (eq_sym B)). reflexivity.
  - pose proof (find_none _ _ F r (proj2 (Hi r) (conj Hr Hh))) as B. cbn beta in B. rewrite Hp, beq_refl in B. discriminate.
Qed.

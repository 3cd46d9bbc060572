(** C106, C107: which repository answers for a path. *)

From Coq Require Import Permutation.
From Verif Require Import Base BaseLemmas Digest ModelObject ModelBase ModelPack ModelDecode ModelPkt ModelStorage ModelProto StoredZlib
  SpecObject SpecIdx SpecBase SpecPack SpecPkt SpecPath SpecStorage SpecProto ProofObject ProofUtf8 ProofBase ProofPack ProofPkt ProofReq
  ProofPath ProofEncode ProofNodes ProofStorage ProofPush ProofClone ProofRepo ProofRefs ProofSession ProofGraph ProofExample PropPkt PropStorage PropProto.
Open Scope N_scope.

(** ** C106: repositories end at directory boundaries *)

Lemma reads_total : forall p, exists root n, path_reads p root n.
Proof.
  assert (T : forall p, exists l, path_parts p l /\ l <> []).
  { induction p as [|b p (l & H & K)]; [exists [[]]; split; [constructor; intros []|discriminate]|].
    destruct (N.eq_dec b 47) as [->|Nb]; [exists ([] :: l); split; [apply (pa_more [] p l); [intros []|exact H]|discriminate]|].
    destruct H as [x Hx|x p l Hx H].
    - exists [b :: x]. split; [constructor; intros [Z|Z]; auto|discriminate].
    - exists ((b :: x) :: l). split; [apply (pa_more (b :: x)); [intros [Z|Z]; auto|exact H]|discriminate]. }
  assert (Nn : forall l, exists n, path_names l n).
  { induction l as [|x l (n & H)]; [exists []; constructor|]. destruct (beq x []) eqn:B1; [apply beq_eq in B1; exists n; apply pn_skip; [left; exact B1|exact H]|].
    destruct (beq x [46]) eqn:B2; [apply beq_eq in B2; exists n; apply pn_skip; [right; exact B2|exact H]|].
    exists (x :: n). apply pn_name; [|exact H]. apply beq_neq in B1, B2. intros [Z|Z]; contradiction. }
  intros p. destruct (N.eq_dec (hd 0 p) 47) as [Hp|Hp].
  - destruct p as [|b p]; [discriminate|]. cbn [hd] in Hp. subst b. destruct (T p) as (l & H & _). destruct (Nn l) as (n & K). exists true, n. exact (pr_root p l n H K).
  - destruct (T p) as ([|x l] & H & K); [destruct (K eq_refl)|]. destruct (beq x [46]) eqn:B.
    + apply beq_eq in B. subst x. destruct (Nn l) as (n & Kn). exists false, ([46] :: n). exact (pr_dot p l n H Kn).
    + apply beq_neq in B. destruct (Nn (x :: l)) as (n & Kn). exists false, n. exact (pr_rel p x l n H B Hp Kn).
Qed.
(** A repository is in itself. *)
Lemma within_refl : forall p, within p p.
Proof. intros p. destruct (reads_total p) as (root & n & H). right. exists root, n, []. rewrite app_nil_r. auto. Qed.

Lemma head_outside : forall e path w, env_ok e -> no_failure w ->
  (forall r, In r (d_refs (w_db w)) -> is_head e path r -> ~ within path (r_repo_path r)) ->
  exists w', get_head_object_id e path w = (w', Ok (repeat 48 40)) /\ w_db w' = w_db w /\ w_log w' = w_log w /\ no_failure w'.
Proof.
  intros e path w He Q No. unfold get_head_object_id, search_refs.
  destruct (select_run _ e (fun d => filter (fun r => like e path (r_repo_path r) && teq e (r_ref_name r) master) (d_refs d)) w Q) as (w1 & E1 & M1).
  rewrite (mbind_ok _ _ _ _ _ _ _ E1). pose proof (proj1 He (w_tick w) _ (filter (fun r => like e path (r_repo_path r) && teq e (r_ref_name r) master) (d_refs (w_db w)))) as P.
  assert (K : forall r, In r (ord e (w_tick w) _ (filter (fun r => like e path (r_repo_path r) && teq e (r_ref_name r) master) (d_refs (w_db w)))) ->
    ~ within path (r_repo_path r)).
  { intros r Hr. apply (Permutation_in _ P), filter_In in Hr as [Hr K]. apply andb_true_iff in K. exact (No r Hr K). }
  destruct (find (fun r => beq path (r_repo_path r)) _) as [r|] eqn:F1.
  { apply find_some in F1 as [Hr B]. apply beq_eq in B. destruct (K r Hr). rewrite <- B. apply within_refl. }
  destruct (find (fun r => path_starts_with path (r_repo_path r)) _) as [r|] eqn:F2.
  { apply find_some in F2 as [Hr B]. apply starts_with_within in B. destruct (K r Hr B). }
  exists w1. split; [reflexivity|]. split; [exact (mv_db _ _ _ M1)|]. split; [rewrite (mv_log _ _ _ M1); apply app_nil_r|exact (mv_quiet _ _ _ M1)].
Qed.

(** Outside every repository: the advertisement of an empty repository, and nothing
    is stored. *)
Theorem C106_outside : forall e pp s w, env_ok e -> no_failure w -> pp_service pp = Some s -> short_refs (w_db w) ->
  (forall r, In r (d_refs (w_db w)) -> is_head e (pp_path pp) r -> ~ within (pp_path pp) (r_repo_path r)) ->
  exists w' out refs, git_info_refs e pp w = (w', Ok out) /\ w_db w' = w_db w /\ w_log w' = w_log w /\
    advert (over_http pp) s (repeat 48 40) refs out /\ listing (refs_at e (w_db w) (pp_path pp)) refs.
Proof.
  intros e pp s w He Q Hs Sh No. destruct (head_outside e _ w He Q No) as (w1 & E & D & L & Q1).
  destruct (info_run e pp s w w1 _ He Hs E Q1) as (w' & out & refs & A & B & C & _ & K); [rewrite D; exact Sh|vm_compute; discriminate|].
  rewrite D in B, K. rewrite L in C. exists w', out, refs. auto.
Qed.
(** The same for paths without empty parts, whatever the database takes as a match. *)
Theorem C106_boundary : forall e pp s w, env_ok e -> no_failure w -> pp_service pp = Some s -> short_refs (w_db w) ->
  plain_path (pp_path pp) -> (forall r, In r (d_refs (w_db w)) -> plain_path (r_repo_path r)) ->
  (forall r, In r (d_refs (w_db w)) -> pp_path pp <> r_repo_path r) ->
  (forall r rest, In r (d_refs (w_db w)) -> pp_path pp <> r_repo_path r ++ 47 :: rest) ->
  exists w' out refs, git_info_refs e pp w = (w', Ok out) /\ w_db w' = w_db w /\ w_log w' = w_log w /\
    advert (over_http pp) s (repeat 48 40) refs out /\ listing (refs_at e (w_db w) (pp_path pp)) refs.
Proof.
  intros e pp s w He Q Hs Sh Pp Pr N1 N2. apply (C106_outside e pp s w He Q Hs Sh). intros r Hr _ Hw.
  apply (within_plain _ _ Pp (Pr r Hr)) in Hw as [Z|(rest & Z)]; [exact (N1 r Hr Z)|exact (N2 r rest Hr Z)].
Qed.

(** Inside a repository: the request succeeds, and stores a reference of its own for
    the path, whose commit is the head announced. *)
Theorem C106_inside : forall e path w r name, env_ok e -> no_failure w -> sound_db (w_db w) -> refs_stored (w_db w) ->
  In r (d_refs (w_db w)) -> is_head e path r -> within path (r_repo_path r) ->
  (forall r, In r (d_refs (w_db w)) -> is_head e path r -> r_repo_path r <> path) ->
  last_name path name -> (exists n, text_len path n /\ (n <= 64)%nat) ->
  (forall r, In r (d_refs (w_db w)) -> exists n, text_len (r_ref_name r) n /\ (n <= 32)%nat) ->
  (exists n, In n (d_nodes (w_db w)) /\ n_name n = []) ->
  exists w' id r', get_head_object_id e path w = (w', Ok id) /\ no_failure w' /\
    In r' (d_refs (w_db w)) /\ is_head e path r' /\ within path (r_repo_path r') /\
    d_refs (w_db w') = d_refs (w_db w) ++ [mkRef (d_next_ref (w_db w)) path (r_ref_name r') id].
Proof.
  intros e path w r name He Q Sd St Hr Hh Hw No Ln (k & Tk & Lk) Vn (n0 & Hn0 & Nn0).
  assert (Vp : varchar 64 path = true) by (apply N.leb_le; rewrite (chars_text _ _ Tk); lia).
  assert (Vr : forall r, In r (d_refs (w_db w)) -> varchar 32 (r_ref_name r) = true).
  { intros x Hx. destruct (Vn x Hx) as (j & Tj & Lj). apply N.leb_le. rewrite (chars_text _ _ Tj). lia. }
  assert (Ok1 : exists w' id, get_head_object_id e path w = (w', Ok id)).
  { unfold get_head_object_id, search_refs.
    destruct (select_run _ e (fun d => filter (fun r => like e path (r_repo_path r) && teq e (r_ref_name r) master) (d_refs d)) w Q) as (w1 & E1 & M1).
    rewrite (mbind_ok _ _ _ _ _ _ _ E1). pose proof (proj1 He (w_tick w) _ (filter (fun r => like e path (r_repo_path r) && teq e (r_ref_name r) master) (d_refs (w_db w)))) as P.
    destruct (find (fun r => beq path (r_repo_path r)) _) as [x|] eqn:F1; [eexists _, _; reflexivity|].
    destruct (find (fun r => path_starts_with path (r_repo_path r)) _) as [x|] eqn:F2; [|eexists _, _; reflexivity].
    apply find_some in F2 as [Hx _]. apply (Permutation_in _ P), filter_In in Hx as [Hx _]. clear E1.
    unfold generate_child_commit_and_refs. pose proof (mv_db _ _ _ M1) as D1. cbn [last] in D1.
    destruct (select_one_run _ e (fun d => filter (fun c => teq e (c_git_id c) (r_ref_git_id x)) (d_commits d)) w1 He (mv_quiet _ _ _ M1)) as (w2 & o & E2 & M2 & K2).
    rewrite (mbind_ok _ _ _ _ _ _ _ E2). rewrite D1 in K2. destruct (St x Hx) as (row & data & tid & nd & tree & Hrow & Eid & _).
    destruct o as [row'|].
    2:{ assert (Hf : In row []) by (rewrite <- K2; apply filter_In; split; [exact Hrow|rewrite Eid; apply (proj1 (proj2 He))]). destruct Hf. }
    apply filter_In in K2 as [Hrow' _]. unfold lift at 1. cbn [unwrap_opt]. unfold mbind at 1.
    pose proof (mv_db _ _ _ M2) as D2. cbn [last] in D2. rewrite D1 in D2.
    destruct (search_root_run e path w2 He (mv_quiet _ _ _ M2)) as (w3 & rr & E3 & M3 & K3). rewrite D2 in K3.
    destruct K3 as [->|(o & -> & K3)].
    { exfalso. revert E3. unfold search_root_node_by_path, lift. rewrite (proj2 (file_name_last path name) Ln). cbn [unwrap_opt]. unfold mbind at 1.
      destruct (select_one_run _ e (fun d => filter (fun n => teq e (n_name n) name) (d_nodes d)) w2 He (mv_quiet _ _ _ M2)) as (w4 & o & E4 & M4 & _).
      rewrite (mbind_ok _ _ _ _ _ _ _ E4). destruct o; [discriminate|].
      destruct (select_one_run _ e (fun d => filter (fun n => teq e (n_name n) []) (d_nodes d)) w4 He (mv_quiet _ _ _ M4)) as (w5 & o & E5 & _). rewrite E5. discriminate. }
    rewrite (mbind_ok _ _ _ _ _ _ _ E3). destruct o as [n|]; [|eexists _, _; reflexivity].
    destruct (proj2 Sd row' Hrow') as (oc & Hc & _). inversion Hc as [row'' h0 tid' d Hi0 L0 (ps & a & c & msg & G & Ha & Hcm & Hm) L1 Ed]; subst row'' oc.
    assert (Hn : In n (d_nodes (w_db w))) by (destruct K3 as (? & _ & K3 & _); exact K3).
    destruct (proj1 Sd n Hn) as (on & Hno & _). destruct (node_for_id _ _ Hno) as (h & Hi & En & _).
    destruct (child_commit row' n d tid' ps a c msg h Ed G Ha Hcm Hm (obj_id_ok _ _ Hi) En) as (d' & h' & Eb & Hi' & G').
    unfold lift at 1. rewrite Eb. unfold mbind at 1. cbn [cm_meta as_meta m_id].
    match goal with |- context [mbind (save_commits path ?l) _ ?w0] => destruct (save_commits_any path l w0) as (w4 & E4) end. rewrite (mbind_ok _ _ _ _ _ _ _ E4).
    match goal with |- context [mbind (insert_all ?l) _ ?w0] => destruct (insert_all_any l w0) as (w5 & E5) end. rewrite (mbind_ok _ _ _ _ _ _ _ E5).
    eexists _, _. reflexivity. }
  destruct Ok1 as (w' & id & E). exists w', id.
  destruct (head_below e path w He Q Sd No Vp Vr w' id E) as [(_ & _ & _ & [Z|Z])|(x & row & nd & d & tid & ps & a & c & msg & h & d' & h' & H1 & H2 & Hwi & H)].
  - destruct (Z r Hr Hh Hw).
  - specialize (Z n0 Hn0). rewrite Nn0, (proj1 (proj2 He)) in Z. discriminate.
  - exists x. split; [exact E|]. split; [apply H|]. split; [exact H1|]. split; [exact H2|]. split; [exact Hwi|apply H].
Qed.
(** /demolition is matched by LIKE, but is not in /demo. *)
Example C106_outside_ex : d_refs (w_db ex_world) = [ex_ref] /\ is_head ex_env (bs "/demolition") ex_ref /\
  (forall r, In r (d_refs (w_db ex_world)) -> is_head ex_env (bs "/demolition") r -> ~ within (bs "/demolition") (r_repo_path r)).
Proof.
  split; [exact ex_world_refs|]. split; [split; reflexivity|]. intros r Hr _ K. rewrite ex_world_refs in Hr. destruct Hr as [<-|[]].
  apply starts_with_within in K. vm_compute in K. discriminate.
Qed.
Lemma plain_two : forall a b, ~ In 47 a -> ~ empty_part a -> ~ In 47 b -> ~ empty_part b -> plain_path (47 :: a ++ 47 :: b).
Proof.
  intros a b H1 H2 H3 H4. exists [47], [a; b]. split; [discriminate|]. split; [repeat constructor; assumption|]. split; [auto|].
  exists (a ++ 47 :: b). split; [|reflexivity]. apply pa_more; [exact H1|]. constructor. exact H3.
Qed.
Lemma plain_one : forall a, ~ In 47 a -> ~ empty_part a -> plain_path (47 :: a).
Proof.
  intros a H1 H2. exists [47], [a]. split; [discriminate|]. split; [repeat constructor; assumption|]. split; [auto|].
  exists a. split; [constructor; exact H1|reflexivity].
Qed.
Lemma no_slash : forall a, forallb (fun b => negb (b =? 47)) a = true -> ~ In 47 a.
Proof. intros a H K. rewrite forallb_forall in H. apply H in K. discriminate. Qed.
Example C106_boundary_ex : plain_path (bs "/demolition") /\ (forall r, In r (d_refs (w_db ex_world)) -> plain_path (r_repo_path r)) /\
  (forall r, In r (d_refs (w_db ex_world)) -> bs "/demolition" <> r_repo_path r) /\
  (forall r rest, In r (d_refs (w_db ex_world)) -> bs "/demolition" <> r_repo_path r ++ 47 :: rest).
Proof.
  split; [apply (plain_one (bs "demolition")); [apply no_slash; reflexivity|intros [K|K]; discriminate K]|].
  rewrite ex_world_refs. split; [|split].
  - intros r [<-|[]]. apply (plain_one (bs "demo")); [apply no_slash; reflexivity|intros [K|K]; discriminate K].
  - intros r [<-|[]]. discriminate.
  - intros r rest [<-|[]]. discriminate.
Qed.
Example C106_inside_ex : sound_db (w_db ex_world) /\ refs_stored (w_db ex_world) /\ In ex_ref (d_refs (w_db ex_world)) /\
  is_head ex_env (bs "/demo/lib") ex_ref /\ within (bs "/demo/lib") (r_repo_path ex_ref) /\
  (forall r, In r (d_refs (w_db ex_world)) -> is_head ex_env (bs "/demo/lib") r -> r_repo_path r <> bs "/demo/lib") /\
  last_name (bs "/demo/lib") (bs "lib") /\ (exists n, text_len (bs "/demo/lib") n /\ (n <= 64)%nat) /\
  (forall r, In r (d_refs (w_db ex_world)) -> exists n, text_len (r_ref_name r) n /\ (n <= 32)%nat) /\
  (exists n, In n (d_nodes (w_db ex_world)) /\ n_name n = []).
Proof.
  split; [exact ex_world_sound|]. split; [exact ex_world_stored|]. rewrite ex_world_refs. split; [left; reflexivity|]. split; [split; reflexivity|].
  split; [apply starts_with_within; vm_compute; reflexivity|]. split; [intros r [<-|[]] _; discriminate|].
  split; [apply file_name_last; vm_compute; reflexivity|]. split; [exists 9%nat; split; [exact demo_lib_text|lia]|].
  split; [intros r [<-|[]]; exists 18%nat; split; [exact ex_ref_text|lia]|].
  assert (K : existsb (fun n => beq (n_name n) []) (d_nodes (w_db ex_world)) = true) by (vm_compute; reflexivity).
  apply existsb_exists in K as (n & Hn & K). apply beq_eq in K. exists n. split; [exact Hn|exact K].
Qed.

(** ** C107: nested repositories *)

(** With one repository to choose from, that one answers: the commit has the
    author, committer and message of its head. *)
Theorem C107_single : forall e path w r w' id, env_ok e -> no_failure w -> sound_db (w_db w) ->
  (forall x, In x (d_refs (w_db w)) -> is_head e path x -> within path (r_repo_path x) -> x = r) -> r_repo_path r <> path ->
  (exists n, text_len path n /\ (n <= 64)%nat) ->
  (forall r, In r (d_refs (w_db w)) -> exists n, text_len (r_ref_name r) n /\ (n <= 32)%nat) ->
  get_head_object_id e path w = (w', Ok id) -> id <> repeat 48 40 ->
  In r (d_refs (w_db w)) /\
  exists row tid ps a c msg h d' h', In row (d_commits (w_db w)) /\ teq e (c_git_id row) (r_ref_git_id r) = true /\
    git_commit tid ps a c msg (c_meta row) /\ git_commit h [] a c msg d' /\ obj_id (Commit, d') h' /\ lower_hex id h' /\
    d_refs (w_db w') = d_refs (w_db w) ++ [mkRef (d_next_ref (w_db w)) path (r_ref_name r) id].
Proof.
  intros e path w r w' id He Q Sd Uq Np Tp Vn E Nz.
  destruct (C57_child_commit e path w w' id He Q Sd) as (x & row & n & tid & ps & a & c & msg & h & d' & h' & H1 & H2 & H3 & H4 & H5 & H6 & _ & _ & H7 & _ & _ & H8 & H9 & _ & _ & H10 & _);
    [|assumption|assumption|exact E|exact Nz|].
  - intros x Hx Hh Ex. assert (x = r) by (apply Uq; [exact Hx|exact Hh|rewrite Ex; apply within_refl]). subst x. contradiction.
  - assert (x = r) by (apply Uq; assumption). subst x. split; [exact H1|]. exists row, tid, ps, a, c, msg, h, d', h'. auto 10.
Qed.
Example C107_single_ex : exists id, get_head_object_id ex_env (bs "/demo/lib") ex_world = (fst (get_head_object_id ex_env (bs "/demo/lib") ex_world), Ok id) /\
  id <> repeat 48 40 /\ (forall x, In x (d_refs (w_db ex_world)) -> is_head ex_env (bs "/demo/lib") x -> within (bs "/demo/lib") (r_repo_path x) -> x = ex_ref) /\
  r_repo_path ex_ref <> bs "/demo/lib".
Proof.
  destruct C57_ex as (id & E & K). exists id. split; [exact E|]. split; [apply K|].
  split; [intros x Hx _ _; rewrite ex_world_refs in Hx; destruct Hx as [<-|[]]; reflexivity|discriminate].
Qed.

(** /demo/sub is pushed after /demo, with another history. *)
Definition nested_world : world := fst (http_receive_pack ex_env Release stored 50 8 (bs "/demo/sub") ex_body3 ex_world).
Definition nested_ref : ref_row := mkRef 2 (bs "/demo/sub") (bs "refs/heads/master" ++ [0]) (to_plain_str (oid ex_top3)).
Definition nested_child : object := commit_on (oid ex_lib) [] (bs "first").
Notation nested_run := (get_head_object_id ex_env (bs "/demo/sub/lib") nested_world).
Lemma nested_facts : forallb (fun b => b) [forallb (row_check (ex_hist ++ ex_hist3)) (d_nodes (w_db nested_world));
  forallb (commit_check [(ex_top, oid ex_root); (ex_top3, oid ex_root3)]) (d_commits (w_db nested_world));
  existsb (commit_check [(ex_top, oid ex_root)]) (d_commits (w_db nested_world)); existsb (row_check [ex_root]) (d_nodes (w_db nested_world));
  existsb (commit_check [(ex_top3, oid ex_root3)]) (d_commits (w_db nested_world)); existsb (row_check [ex_root3]) (d_nodes (w_db nested_world));
  is_ok (snd nested_run); beq (ok_text (snd nested_run)) (to_plain_str (oid nested_child));
  existsb (fun c => beq (c_git_id c) (to_plain_str (oid nested_child)) && beq (c_meta c) (snd nested_child)) (d_commits (w_db (fst nested_run)))] = true.
Proof. vm_compute. reflexivity. Qed.
Lemma nested_refs : d_refs (w_db nested_world) = [ex_ref; nested_ref].
Proof. vm_compute. reflexivity. Qed.
Lemma nested_nth : forall k b, nth_error [forallb (row_check (ex_hist ++ ex_hist3)) (d_nodes (w_db nested_world));
  forallb (commit_check [(ex_top, oid ex_root); (ex_top3, oid ex_root3)]) (d_commits (w_db nested_world));
  existsb (commit_check [(ex_top, oid ex_root)]) (d_commits (w_db nested_world)); existsb (row_check [ex_root]) (d_nodes (w_db nested_world));
  existsb (commit_check [(ex_top3, oid ex_root3)]) (d_commits (w_db nested_world)); existsb (row_check [ex_root3]) (d_nodes (w_db nested_world));
  is_ok (snd nested_run); beq (ok_text (snd nested_run)) (to_plain_str (oid nested_child));
  existsb (fun c => beq (c_git_id c) (to_plain_str (oid nested_child)) && beq (c_meta c) (snd nested_child)) (d_commits (w_db (fst nested_run)))] k = Some b -> b = true.
Proof. intros k b H. pose proof nested_facts as F. rewrite forallb_forall in F. exact (F b (nth_error_In _ _ H)). Qed.
Lemma nested_sound : sound_db (w_db nested_world).
Proof.
  refine (db_check (ex_hist ++ ex_hist3) [(ex_top, oid ex_root); (ex_top3, oid ex_root3)] _ _ _ (nested_nth 0 _ eq_refl) (nested_nth 1 _ eq_refl)).
  - apply Forall_app. split; [apply (hs_sound (bs "/demo")); apply ex_hist_ok; reflexivity|apply (hs_sound _ _ ex_hist3_ok)].
  - intros o h Hc. apply two_pairs in Hc as [[-> ->]|[-> ->]].
    + split; [left; reflexivity|]. split; [apply oid_ok, tree_base|exact ex_top_root].
    + split; [apply in_or_app; right; left; reflexivity|]. split; [apply oid_ok, tree_base|exact ex_top3_root].
Qed.
Lemma nested_id3 : forall o, In o ex_hist3 -> obj_id o (oid o).
Proof. intros o Ho. apply oid_id. pose proof (hs_sound _ _ ex_hist3_ok) as F. rewrite Forall_forall in F. auto. Qed.
Lemma nested_stored : refs_stored (w_db nested_world).
Proof.
  intros r Hr. rewrite nested_refs in Hr. destruct Hr as [<-|[<-|[]]].
  - change (r_ref_git_id ex_ref) with (to_plain_str (oid ex_top)).
    apply (has_check _ ex_top ex_root); [apply ex_id_ok; left; reflexivity|apply ex_id_ok; right; left; reflexivity|exact ex_top_root|reflexivity|reflexivity|
      exact (nested_nth 2 _ eq_refl)|exact (nested_nth 3 _ eq_refl)].
  - change (r_ref_git_id nested_ref) with (to_plain_str (oid ex_top3)).
    apply (has_check _ ex_top3 ex_root3); [apply nested_id3; left; reflexivity|apply nested_id3; right; left; reflexivity|exact ex_top3_root|reflexivity|reflexivity|
      exact (nested_nth 4 _ eq_refl)|exact (nested_nth 5 _ eq_refl)].
Qed.
Lemma commit_on_git : forall tid text, id_ok tid -> utf8_text ([10] ++ text) -> git_commit tid [] an_author a_committer ([10] ++ text) (snd (commit_on tid [] text)).
Proof. intros tid text H1 H2. apply git_commit_eq; auto. Qed.

Lemma run_of : forall A B (x : A * res B) b, snd x = Ok b -> x = (fst x, Ok b).
Proof. intros A B [x y] b H. cbn [snd] in H. subst y. reflexivity. Qed.

(** A path in /demo/sub is answered from /demo, whose reference comes first. *)
Theorem C107_nearest_refuted : exists e w path near far w' id row crow cfar cnear a c mfar mnear h hf hn,
  env_ok e /\ no_failure w /\ sound_db (w_db w) /\ refs_stored (w_db w) /\
  In near (d_refs (w_db w)) /\ In far (d_refs (w_db w)) /\ is_head e path near /\ is_head e path far /\
  within path (r_repo_path near) /\ within (r_repo_path near) (r_repo_path far) /\ ~ within (r_repo_path far) (r_repo_path near) /\
  (forall r, In r (d_refs (w_db w)) -> r_repo_path r <> path) /\
  obj_id (Commit, cfar) hf /\ lower_hex (r_ref_git_id far) hf /\ git_commit (oid ex_root) [] a c mfar cfar /\
  obj_id (Commit, cnear) hn /\ lower_hex (r_ref_git_id near) hn /\ git_commit (oid ex_root3) [] a c mnear cnear /\ mnear <> mfar /\
  get_head_object_id e path w = (w', Ok id) /\ In row (d_commits (w_db w')) /\ c_git_id row = id /\ c_meta row = crow /\
  git_commit h [] a c mfar crow.
Proof.
  pose proof (nested_nth 6 _ eq_refl) as K6. cbv beta in K6. apply is_ok_ex in K6 as (id & E).
  pose proof (nested_nth 7 _ eq_refl) as K7. pose proof (nested_nth 8 _ eq_refl) as K8. cbv beta in K7, K8.
  apply existsb_exists in K8 as (row & Hr & K8). apply andb_true_iff in K8 as [K8 K9]. apply beq_eq in K7, K8, K9.
  rewrite E in K7. cbn [ok_text] in K7.
  exists ex_env, nested_world, (bs "/demo/sub/lib"), nested_ref, ex_ref, (fst (get_head_object_id ex_env (bs "/demo/sub/lib") nested_world)), id, row, (snd nested_child), (snd ex_top), (snd ex_top3),
    an_author, a_committer, ([10] ++ bs "first"), ([10] ++ bs "third"), (oid ex_lib), (oid ex_top), (oid ex_top3).
  split; [exact ex_env_ok|]. split; [vm_compute; reflexivity|]. split; [exact nested_sound|]. split; [exact nested_stored|]. rewrite nested_refs.
  split; [right; left; reflexivity|]. split; [left; reflexivity|]. split; [split; reflexivity|]. split; [split; reflexivity|].
  split; [apply starts_with_within; vm_compute; reflexivity|]. split; [apply starts_with_within; vm_compute; reflexivity|].
  split; [intros K; apply starts_with_within in K; vm_compute in K; discriminate|].
  split; [intros r [<-|[<-|[]]]; discriminate|].
  split; [change (Commit, snd ex_top) with ex_top; apply ex_id_ok; left; reflexivity|].
  split; [change (r_ref_git_id ex_ref) with (to_plain_str (oid ex_top)); apply plain_lower, oid_ok, commit_base|].
  split; [apply commit_on_git; [apply oid_ok, tree_base|apply utf8_spec; reflexivity]|].
  split; [change (Commit, snd ex_top3) with ex_top3; apply nested_id3; left; reflexivity|].
  split; [change (r_ref_git_id nested_ref) with (to_plain_str (oid ex_top3)); apply plain_lower, oid_ok, commit_base|].
  split; [apply commit_on_git; [apply oid_ok, tree_base|apply utf8_spec; reflexivity]|]. split; [discriminate|].
  split; [exact (run_of _ _ _ _ E)|]. split; [exact Hr|]. split; [rewrite K8, K7; reflexivity|]. split; [exact K9|].
  apply commit_on_git; [apply oid_ok, tree_base|apply utf8_spec; reflexivity].
Qed.

(** A concrete server and concrete histories, for the cases beside the theorems on
    storage and sessions. *)

From Coq Require Import Permutation.
From Verif Require Import Base BaseLemmas Digest ModelUtils ModelObject ModelBase ModelPack ModelDecode ModelStorage StoredZlib
  SpecObject SpecIdx SpecBase SpecPack SpecStorage ProofObject ProofUtf8 ProofBase ProofPack ProofEncode
  ProofNodes ProofStorage ProofPush ProofClone ProofGraph.
Open Scope N_scope.

(** A collation that ignores case and NUL; LIKE on a literal prefix; rows and maps in
    order; an INSERT of zero rows is rejected. *)
Definition folded (l : bytes) : bytes :=
  filter (fun b => negb (b =? 0)) (map (fun b => if (65 <=? b) && (b <=? 90) then b + 32 else b) l).
Definition ex_env : env :=
  mkEnv (fun a b => beq (folded a) (folded b)) (fun path repo => starts_with (folded repo) (folded path)) (fun _ _ l => l) false.
Lemma folded_hex : forall s h, lower_hex s h -> folded s = s.
Proof.
  intros s h H. apply lower_hex_plain in H. subst s. unfold to_plain_str.
  assert (K : forall b, In b (hex_encode h) -> 48 <= b <= 57 \/ 97 <= b).
  { intros b Hb. apply in_flat_map in Hb as (x & _ & Hb).
    assert (D : forall d, 48 <= hex_digit d <= 57 \/ 97 <= hex_digit d) by (intros d; unfold hex_digit; destruct (d <? 10) eqn:E; [apply N.ltb_lt in E|apply N.ltb_ge in E]; lia).
    destruct Hb as [<-|[<-|[]]]; apply D. }
  revert K. generalize (hex_encode h) as l. induction l as [|b l IH]; intros K; [reflexivity|].
  unfold folded. cbn [map filter]. assert (Kb := K b (or_introl eq_refl)).
  replace ((65 <=? b) && (b <=? 90)) with false
    by (symmetry; destruct (65 <=? b) eqn:E1; [|reflexivity]; apply N.leb_le in E1; apply N.leb_gt; lia).
  replace (b =? 0) with false by (symmetry; apply N.eqb_neq; lia). cbn [negb]. f_equal. apply IH. intros x Hx. apply K. right. exact Hx.
Qed.
Lemma ex_env_ok : env_ok ex_env.
Proof.
  split; [intros; apply Permutation_refl|]. split; [intros a; apply beq_refl|].
  intros a b g h Ha Hb _ _ E. apply beq_eq in E. rewrite (folded_hex _ _ Ha), (folded_hex _ _ Hb) in E. exact E.
Qed.

(** A world without failures and files. *)
Definition world_of (d : db) : world := mkWorld d [] [] 0 [].

Definition an_author : sign := mkSign (bs "author") (bs "Ann") (bs "ann@example.org") 1649521615 (bs "+0800").
Definition a_committer : sign := mkSign (bs "committer") (bs "Ann") (bs "ann@example.org") 1649521615 (bs "+0800").
Lemma an_author_of : ident_of (bs "author") an_author.
Proof.
  split; [reflexivity|]. split; [repeat split; try (apply utf8_spec; reflexivity); reflexivity|].
  repeat split; intros H; repeat destruct H as [H|H]; try discriminate; contradiction.
Qed.
Lemma a_committer_of : ident_of (bs "committer") a_committer.
Proof.
  split; [reflexivity|]. split; [repeat split; try (apply utf8_spec; reflexivity); reflexivity|].
  repeat split; intros H; repeat destruct H as [H|H]; try discriminate; contradiction.
Qed.
Definition commit_on (tree_id : hash) (parents : list hash) (text : bytes) : object :=
  (Commit, commit_content tree_id parents an_author a_committer ([10] ++ text)).
Lemma commit_on_root : forall tid ps text, id_ok tid -> Forall id_ok ps -> utf8_text ([10] ++ text) ->
  commit_root (snd (commit_on tid ps text)) tid.
Proof.
  intros tid ps text H1 H2 H3. exists ps, an_author, a_committer, ([10] ++ text).
  split; [apply git_commit_eq; auto|]. split; [exact an_author_of|]. split; [exact a_committer_of|exact H3].
Qed.
Definition entry_of (mode name : bytes) (o : object) : bytes := mode ++ [32] ++ name ++ [0] ++ oid o.

Lemma entry_of_tree : forall mode t name o items rest, git_mode mode t -> utf8_text name -> ~ In 0 name -> id_ok (oid o) ->
  git_tree items rest -> git_tree (mkTreeItem mode t (oid o) name :: items) (entry_of mode name o ++ rest).
Proof.
  intros mode t name o items rest H1 H2 H3 H4 H5. unfold entry_of.
  replace ((mode ++ [32] ++ name ++ [0] ++ oid o) ++ rest) with (mode ++ [32] ++ name ++ [0] ++ oid o ++ rest) by (rewrite <- !app_assoc; reflexivity).
  apply tc_cons; [exact H1|exact H2|exact H3|exact (proj1 H4)|exact H5].
Qed.

(** The pack an encoder makes of a list of objects. *)
Definition pack_of (objs : list object) : bytes :=
  match encode stored (map (fun o => as_meta o (oid o)) objs) with Ok (_, f) => f | _ => [] end.
Lemma pack_of_git : forall objs st, objs <> [] -> nlen objs < 2 ^ 32 -> Forall sound_object objs ->
  exists pobjs, git_pack stored st (pack_of objs) pobjs /\ map snd pobjs = objs.
Proof.
  intros objs st N L F. set (ms := map (fun o => as_meta o (oid o)) objs).
  destruct (encode_ok stored ms) as (p & f & E).
  { unfold ms. destruct objs; [contradiction|discriminate]. }
  { unfold ms, nlen. rewrite map_length. exact L. }
  assert (En : Forall encodable ms).
  { apply Forall_forall. intros m Hm. unfold ms in Hm. apply in_map_iff in Hm as (o & <- & Ho). rewrite Forall_forall in F. specialize (F o Ho).
    pose proof (oid_id o F) as Hi. destruct F as (F1 & F2 & F3). destruct (obj_id_base _ _ Hi) as (nm & Hb).
    split; [|exact F2]. unfold as_meta. split; [exists nm; exact Hb|]. cbn [m_size m_data m_id m_delta_header m_t].
    do 2 (split; [reflexivity|]). split; [exact F1|]. split; [|exact Hi].
    apply N.lt_trans with (2 ^ 61); [exact F2|reflexivity]. }
  destruct (encode_git_pack stored st ms p f stored_ok En E) as (pobjs & G & Ep & _).
  exists pobjs. unfold pack_of. fold ms. rewrite E. split; [exact G|]. rewrite Ep. unfold ms. rewrite map_map.
  rewrite <- (map_id objs) at 2. apply map_ext. intros [t d]. reflexivity.
Qed.

(** A blob, a tree with it, a root with both, a commit and a tag of it. *)
Definition ex_blob : object := (Blob, bs "hello").
Definition ex_lib : object := (Tree, entry_of (bs "100644") (bs "a") ex_blob).
Definition ex_root : object := (Tree, entry_of (bs "100644") (bs "README") ex_blob ++ entry_of (bs "40000") (bs "lib") ex_lib).
Definition ex_top : object := commit_on (oid ex_root) [] (bs "first").
Definition ex_tag : object :=
  (Tag, bs "object " ++ to_plain_str (oid ex_top) ++ [10] ++ bs "type commit" ++ [10] ++ bs "tag v1" ++ [10] ++
        bs "tagger Ann <ann@example.org> 1649521615 +0800" ++ [10; 10] ++ bs "one").
Definition ex_hist : list object := [ex_top; ex_root; ex_lib; ex_blob].

Lemma oid_ok : forall t d, is_base t -> id_ok (oid (t, d)).
Proof. intros t d H. destruct (meta_new_obj t d H) as (h & Hi & _). rewrite (oid_eq _ _ Hi). exact (obj_id_ok _ _ Hi). Qed.
Lemma tree_base : is_base Tree. Proof. eexists. constructor. Qed.
Lemma commit_base : is_base Commit. Proof. eexists. constructor. Qed.
Lemma blob_base : is_base Blob. Proof. eexists. constructor. Qed.
Lemma commit_on_sound : forall tid ps text, id_ok tid -> Forall id_ok ps -> utf8_text ([10] ++ text) ->
  exists t, commit_root (snd (commit_on tid ps text)) t.
Proof. intros. eexists. apply commit_on_root; assumption. Qed.
Lemma ex_top_root : commit_root (snd ex_top) (oid ex_root).
Proof. apply commit_on_root; [apply oid_ok, tree_base|constructor|apply utf8_spec; reflexivity]. Qed.
Lemma ex_lib_tree : git_tree [mkTreeItem (bs "100644") IBlob (oid ex_blob) (bs "a")] (snd ex_lib).
Proof.
  change (snd ex_lib) with (entry_of (bs "100644") (bs "a") ex_blob). rewrite <- (app_nil_r (entry_of _ _ _)).
  apply entry_of_tree; [constructor|apply utf8_spec; reflexivity|intros H; repeat destruct H as [H|H]; try discriminate; contradiction|
    apply oid_ok, blob_base|constructor].
Qed.
Lemma ex_root_tree : git_tree [mkTreeItem (bs "100644") IBlob (oid ex_blob) (bs "README"); mkTreeItem (bs "40000") ITree (oid ex_lib) (bs "lib")] (snd ex_root).
Proof.
  change (snd ex_root) with (entry_of (bs "100644") (bs "README") ex_blob ++ entry_of (bs "40000") (bs "lib") ex_lib).
  rewrite <- (app_nil_r (entry_of (bs "40000") _ _)).
  apply entry_of_tree; [constructor|apply utf8_spec; reflexivity|intros H; repeat destruct H as [H|H]; try discriminate; contradiction|
    apply oid_ok, blob_base|].
  apply entry_of_tree; [constructor|apply utf8_spec; reflexivity|intros H; repeat destruct H as [H|H]; try discriminate; contradiction|
    apply oid_ok, tree_base|constructor].
Qed.
Lemma ex_tag_sound : sound_object ex_tag.
Proof.
  split; [apply Forall_forall; intros b Hb; apply N.ltb_lt; revert b Hb; apply forallb_forall; vm_compute; reflexivity|]. split; [vm_compute; reflexivity|].
  exists (oid ex_top), Commit, (bs "v1"), (mkSign (bs "tagger") (bs "Ann") (bs "ann@example.org") 1649521615 (bs "+0800")), (bs "one").
  split; [apply git_tag_eq; split; [apply oid_ok, commit_base|split; [apply commit_base|reflexivity]]|].
  split; [apply utf8_spec; reflexivity|]. split; [intros H; repeat destruct H as [H|H]; try discriminate; contradiction|].
  split; [|apply utf8_spec; reflexivity].
  split; [reflexivity|]. split; [repeat split; try (apply utf8_spec; reflexivity); reflexivity|].
  repeat split; intros H; repeat destruct H as [H|H]; try discriminate; contradiction.
Qed.

Lemma history_check : forall path objs, graph_check objs = true -> short_name path = true ->
  (forall d, In (Commit, d) objs -> exists tid, commit_root d tid) -> (forall d, In (Tag, d) objs -> sound_object (Tag, d)) ->
  history path objs.
Proof.
  intros path objs H P Hc Hg. unfold graph_check in H. apply andb_true_iff in H as [H Sm]. apply andb_true_iff in H as [H Sc]. split; [exact (check_sound objs H Hc Hg)|exact (check_complete objs H Hc Hg)|exact (check_free objs H)|
    exact (check_acyclic objs H)|exact (check_fits objs H Hc Hg Sc Sm path P)].
Qed.
Lemma ex_hist_ok : forall path, short_name path = true -> history path ex_hist /\ history path (ex_tag :: ex_hist).
Proof.
  intros path P.
  assert (K : forall d, In (Commit, d) (ex_tag :: ex_hist) -> exists tid, commit_root d tid).
  { intros d H. exists (oid ex_root). destruct H as [H|[H|H]]; [discriminate H| |].
    - rewrite (object_eq _ _ _ H). exact ex_top_root.
    - repeat destruct H as [H|H]; try discriminate H; contradiction. }
  split; apply history_check; [vm_compute; reflexivity|exact P|intros d H; apply K; right; exact H|
    intros d H; repeat destruct H as [H|H]; try discriminate H; contradiction|vm_compute; reflexivity|exact P|exact K|].
  intros d [H|H]; [rewrite <- H; exact ex_tag_sound|repeat destruct H as [H|H]; try discriminate H; contradiction].
Qed.

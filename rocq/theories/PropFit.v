(** C137: pushes of what the columns of the database do not hold. *)

From Coq Require Import Permutation.
From Verif Require Import Base BaseLemmas Digest ModelUtils ModelObject ModelBase ModelPack ModelDecode ModelPkt ModelStorage ModelProto
  StoredZlib SpecObject SpecIdx SpecBase SpecPack SpecPkt SpecPath SpecStorage SpecProto ProofObject ProofUtf8 ProofBase ProofPack ProofPkt ProofReq
  ProofPath ProofEncode ProofNodes ProofStorage ProofPush ProofClone ProofRepo ProofRefs ProofSession ProofGraph ProofExample PropPkt PropStorage PropProto.
Open Scope N_scope.

(** A text of more than [n] characters. *)
Definition longer (n : nat) (l : bytes) : Prop := exists k, text_len l k /\ (n < k)%nat.
Definition at_most (n : nat) (l : bytes) : Prop := exists k, text_len l k /\ (k <= n)%nat.
(** The graph of a push, whatever the columns. *)
Record graph (objs : list object) : Prop := {
  gr_sound : Forall sound_object objs;
  gr_complete : complete (fun o => In o objs);
  gr_free : collision_free (fun o => In o objs);
  gr_acyclic : acyclic (fun o => In o objs) }.
(** The trees and blobs fit. *)
Definition nodes_fit (path : bytes) (objs : list object) : Prop :=
  forall o, reach (fun o => In o objs) o -> fst o <> Commit -> fits_columns path o.
Definition commits_in (objs : list object) : list object := filter (fun o => match fst o with Commit => true | _ => false end) objs.
(** A tree or blob does not fit: its content, or its name wherever it has one. *)
Inductive too_big (objs : list object) : Prop :=
| tb_data : forall o, reach (fun o => In o objs) o -> fst o <> Commit -> 16777215 < nlen (snd o) -> too_big objs
| tb_name : forall i, is_entry objs i ->
    (forall j, is_entry objs j -> ti_id j = ti_id i -> longer 128 (ti_filename j)) -> too_big objs.

(** ** Statements that are turned down *)

Lemma execute_refused : forall f w, no_failure w -> f (w_db w) = None -> execute f w = (w, Ok false).
Proof. intros f w Q E. unfold execute, attempt, mbind at 1. rewrite Q. cbn [negb]. rewrite E. reflexivity. Qed.

Lemma insert_chunks_any : forall ls w, no_failure w -> exists w' l, insert_all (map insert_commits ls) w = (w', Ok tt) /\ moved w w' l /\
  w_db w' = mkDb (d_nodes (w_db w)) (d_commits (w_db w) ++ concat (filter (forallb commit_fits) ls)) (d_refs (w_db w)) (d_next_ref (w_db w)).
Proof.
  induction ls as [|b ls IH]; intros w Q.
  - exists w, []. split; [reflexivity|]. split; [apply moved_refl; exact Q|]. cbn [filter concat]. rewrite app_nil_r. destruct (w_db w); reflexivity.
  - cbn [map insert_all filter]. destruct (forallb commit_fits b) eqn:F.
    + set (d1 := mkDb (d_nodes (w_db w)) (d_commits (w_db w) ++ b) (d_refs (w_db w)) (d_next_ref (w_db w))).
      assert (E : insert_commits b (w_db w) = Some d1) by (unfold insert_commits; rewrite F; reflexivity).
      destruct (execute_run _ w d1 Q E) as (w1 & E1 & M1). destruct (IH w1 (mv_quiet _ _ _ M1)) as (w' & l & E2 & M2 & D).
      exists w', ([d1] ++ l). split; [rewrite (mbind_ok _ _ _ _ _ _ _ E1); exact E2|]. split; [eapply moved_trans; eassumption|].
      rewrite D, (mv_db _ _ _ M1). cbn [last d1 d_nodes d_commits d_refs d_next_ref concat]. rewrite app_assoc. reflexivity.
    + assert (E : insert_commits b (w_db w) = None) by (unfold insert_commits; rewrite F; reflexivity).
      rewrite (mbind_ok _ _ _ _ _ _ _ (execute_refused _ w Q E)). apply IH. exact Q.
Qed.

Lemma insert_batches_refused : forall e bs w, no_failure w -> forallb node_fits (concat bs) = false ->
  exists w' p q, insert_batches e bs w = (w', Panic) /\ concat bs = p ++ q /\ w_db w' = with_nodes (w_db w) p.
Proof.
  intros e bs. induction bs as [|b bs IH]; intros w Q F; [discriminate|]. cbn [insert_batches concat].
  destruct (insert_nodes e b (w_db w)) as [d1|] eqn:E.
  - assert (Ed : d1 = with_nodes (w_db w) b /\ forallb node_fits b = true).
    { unfold insert_nodes in E. destruct b as [|r b].
      - destruct (empty_insert e); [|discriminate]. injection E as <-. unfold with_nodes. rewrite app_nil_r. destruct (w_db w); split; reflexivity.
      - destruct (forallb node_fits (r :: b)); [|discriminate]. injection E as <-. split; reflexivity. }
    destruct Ed as [-> Fb]. destruct (execute_run _ w _ Q E) as (w1 & E1 & M1). cbn [concat] in F. rewrite forallb_app, Fb in F.
    destruct (IH w1 (mv_quiet _ _ _ M1) F) as (w' & p & q & E2 & Ep & D). exists w', (b ++ p), q.
    split; [rewrite (mbind_ok _ _ _ _ _ _ _ E1); exact E2|]. split; [rewrite Ep, app_assoc; reflexivity|].
    rewrite D, (mv_db _ _ _ M1). unfold with_nodes. cbn [last d_nodes d_commits d_refs d_next_ref]. rewrite app_assoc. reflexivity.
  - exists w, [], (b ++ concat bs). split; [rewrite (mbind_ok _ _ _ _ _ _ _ (execute_refused _ w Q E)); reflexivity|].
    split; [reflexivity|]. unfold with_nodes. rewrite app_nil_r. destruct (w_db w); reflexivity.
Qed.

(** ** The objects of a push *)

Section Store.
Context (e : env) (k : cache) (objs : list object) (path : bytes).
Context (He : env_ok e) (Hk : sorted_cache k) (Hh : SpecPack.holds k objs) (Hg : graph objs).

Lemma commit_count : forall bl ts cs, vectors objs bl ts cs -> (length cs <= length (commits_in objs))%nat.
Proof.
  intros bl ts cs V. rewrite <- (map_length (fun c => m_data (cm_meta c)) cs).
  replace (length (commits_in objs)) with (length (map snd (commits_in objs))) by apply map_length. apply NoDup_incl_length.
  - pose proof (ve_commits_nodup _ _ _ _ V) as N. pose proof (ve_commits _ _ _ _ V) as Vc. clear V. induction cs as [|c cs IH]; [constructor|].
    cbn [map] in *. inversion N as [|? ? N1 N2]; subst. constructor; [|apply IH; [exact N2|intros; apply Vc; right; assumption]].
    intros K. apply in_map_iff in K as (x & E & Hx). apply N1. apply in_map_iff. exists x. split; [|exact Hx].
    destruct (Vc c (or_introl eq_refl)) as (d & h & _ & Hi & Em & _). destruct (Vc x (or_intror Hx)) as (d' & h' & _ & Hi' & Em' & _).
    rewrite Em, Em' in *. cbn [as_meta m_data m_id snd] in *. subst d'. symmetry. exact (obj_id_fun _ _ _ Hi Hi').
  - intros x Hx. apply in_map_iff in Hx as (c & <- & Hc). destruct (ve_commits _ _ _ _ V c Hc) as (d & h & Ho & _ & Em & _).
    apply in_map_iff. exists (Commit, d). rewrite Em. split; [reflexivity|]. apply filter_In. auto.
Qed.

(** Chunks of one hundred commits, those with a row that does not fit left out. *)
Lemma store_any : nodes_fit path objs -> forall w, no_failure w -> exists fuel0 w' rows parts,
  (forall fuel, (fuel0 <= fuel)%nat -> save_packfile e fuel k path w = (w', Ok tt)) /\ no_failure w' /\ w_files w' = w_files w /\
  w_db w' = with_rows (w_db w) rows (concat (filter (forallb commit_fits) parts)) /\
  rows_for path objs rows (concat parts) /\ ((length (commits_in objs) <= 100)%nat -> (length parts <= 1)%nat).
Proof.
  intros Ft w Q. destruct Hg as [Hso Co Cf Ac]. destruct (save_packfile_start e k objs path He Hk Hh Hso w Q) as (w1 & om & M1 & V & ES).
  destruct Ac as (rank & Ac). set (fuel0 := list_max (map (fun c => rank (cm_tree_id c)) (om_commits om))).
  destruct (save_rows_nodes e k objs path Hh Hso Co rank Ac Ft om fuel0 V) as (rows & EB & FN & FB & Rf).
  { intros c Hc. assert (K : (list_max (map (fun c => rank (cm_tree_id c)) (om_commits om)) <= fuel0)%nat) by apply Nat.le_refl.
    apply list_max_le in K. rewrite Forall_forall in K. apply K. apply in_map_iff. eauto. }
  assert (EB' : forall fuel, (fuel0 <= fuel)%nat -> build_node_tree fuel om = Ok rows)
    by (intros fuel Hfu; exact (build_commits_more _ _ _ _ _ _ _ Hfu EB)).
  destruct (insert_batches_run e (batches 0 [] rows) w1 (mv_quiet _ _ _ M1) FB) as (w2 & l2 & E2 & M2 & D2 & _);
    [rewrite batches_concat; exact FN|]. rewrite batches_concat in D2. cbn [app] in D2.
  set (parts := chunks (length (om_commits om)) 100 (map (commit_to_row path) (om_commits om))).
  destruct (insert_chunks_any parts w2 (mv_quiet _ _ _ M2)) as (w3 & l3 & E3 & M3 & D3).
  pose proof (mv_db _ _ _ M1) as B1. cbn [last] in B1.
  assert (Ec : concat parts = map (commit_to_row path) (om_commits om)) by (apply chunks_concat; [lia|rewrite map_length; lia]).
  exists fuel0, w3, rows, parts. split; [|split; [|split; [|split; [|split]]]].
  - intros fuel Hfu. rewrite ES. unfold save_objects. rewrite (EB' fuel Hfu). unfold mbind at 1, lift. unfold save_nodes. rewrite (mbind_ok _ _ _ _ _ _ _ E2). exact E3.
  - exact (mv_quiet _ _ _ M3).
  - rewrite (mv_files _ _ _ M3), (mv_files _ _ _ M2). exact (mv_files _ _ _ M1).
  - rewrite D3, D2, B1. reflexivity.
  - rewrite Ec. exact Rf.
  - intros L. pose proof (commit_count _ _ _ V) as Lc. unfold parts. destruct (om_commits om) as [|c cs]; [cbn; lia|].
    cbn [length map chunks]. rewrite skipn_all2 by (cbn [length] in *; rewrite map_length; lia).
    destruct (length cs); cbn [chunks length]; lia.
Qed.

Lemma store_refused : too_big objs -> forall w, no_failure w -> exists fuel0 w' p,
  (forall fuel, (fuel0 <= fuel)%nat -> save_packfile e fuel k path w = (w', Panic)) /\ w_db w' = with_nodes (w_db w) p /\
  forall r, In r p -> exists o, node_for r o /\ reach (fun o => In o objs) o.
Proof.
  intros Tb w Q. destruct Hg as [Hso Co Cf Ac]. destruct (save_packfile_start e k objs path He Hk Hh Hso w Q) as (w1 & om & M1 & V & ES).
  destruct Ac as (rank & Ac). set (fuel0 := list_max (map (fun c => rank (cm_tree_id c)) (om_commits om))).
  destruct (rows_at objs _ _ _ V Hso (holds_no_collision _ _ Hh) Co rank Ac fuel0) as (rows & EB & Rn & Rs & Ra & Rw).
  { intros c Hc. assert (K : (list_max (map (fun c => rank (cm_tree_id c)) (om_commits om)) <= fuel0)%nat) by apply Nat.le_refl.
    apply list_max_le in K. rewrite Forall_forall in K. apply K. apply in_map_iff. eauto. }
  assert (EB' : forall fuel, (fuel0 <= fuel)%nat -> build_node_tree fuel om = Ok rows)
    by (intros fuel Hfu; exact (build_commits_more _ _ _ _ _ _ _ Hfu EB)).
  assert (FN : forallb node_fits rows = false).
  { assert (Ex : exists r, In r rows /\ node_fits r = false).
    { destruct Tb as [o Hr Nc Lo|i Hi Hj].
      - destruct (Ra o Hr Nc) as (r & Ir & Hn). exists r. split; [exact Ir|]. unfold node_fits.
        assert (Ed : n_data r = snd o) by (destruct Hn; cbn [snd]; assumption). rewrite Ed, (proj2 (N.leb_gt _ _) Lo), andb_false_r. reflexivity.
      - destruct (Rw path) as (roots & entries & P & _ & _ & Fn & Al). destruct (Al i Hi) as (r & Ir & Lr). exists r.
        split; [apply (Permutation_in _ (Permutation_sym P)), in_or_app; right; exact Ir|].
        rewrite Forall_forall in Fn. destruct (Fn r Ir) as (j & Ij & Lj & En & _).
        assert (Id : ti_id j = ti_id i).
        { assert (Ok1 : forall x, is_entry objs x -> id_ok (ti_id x)).
          { intros x (d & its & Rx & Gx & Ix). rewrite Forall_forall in Hso. pose proof (git_tree_ids _ _ Gx (proj1 (Hso _ (reach_S _ _ Rx)))) as F.
            rewrite Forall_forall in F. exact (F x Ix). }
          apply to_plain_str_inj; [exact (Ok1 j Ij)|exact (Ok1 i Hi)|]. rewrite <- (lower_hex_plain _ _ Lj). exact (lower_hex_plain _ _ Lr). }
        destruct (Hj j Ij Id) as (n & Tn & Ln). unfold node_fits, varchar. rewrite En, (chars_text _ _ Tn).
        replace (N.of_nat n <=? 128) with false by (symmetry; apply N.leb_gt; lia). rewrite !andb_false_r. reflexivity. }
    destruct Ex as (r & Ir & Fr). apply not_true_iff_false. intros K. rewrite forallb_forall in K. rewrite (K r Ir) in Fr. discriminate. }
  destruct (insert_batches_refused e (batches 0 [] rows) w1 (mv_quiet _ _ _ M1)) as (w2 & p & q & E2 & Ep & D2);
    [rewrite batches_concat; exact FN|]. rewrite batches_concat in Ep. cbn [app] in Ep.
  pose proof (mv_db _ _ _ M1) as B1. cbn [last] in B1.
  exists fuel0, w2, p. split; [|split].
  - intros fuel Hfu. rewrite ES. unfold save_objects. rewrite (EB' fuel Hfu). unfold mbind at 1, lift. unfold save_nodes, mbind. rewrite E2. reflexivity.
  - rewrite D2, B1. reflexivity.
  - intros r Hr. apply Rs. rewrite Ep. apply in_or_app. left. exact Hr.
Qed.
End Store.

(** ** Pushes *)

Lemma push_any : forall e m c now path old new name caps body pack objs w,
  env_ok e -> no_failure w -> word old -> word new -> word name -> nlen name <= 60000 -> utf8_text caps ->
  push_request old new name caps pack body ->
  git_pack c (get_hash_object e w) pack objs -> nlen pack < 2 ^ 32 -> graph (map snd objs) -> nodes_fit path (map snd objs) ->
  exists fuel0 w1 rows parts cl, caps_in caps cl /\ no_failure w1 /\
    w_db w1 = with_rows (w_db w) rows (concat (filter (forallb commit_fits) parts)) /\ rows_for path (map snd objs) rows (concat parts) /\
    ((length (commits_in (map snd objs)) <= 100)%nat -> (length parts <= 1)%nat) /\
    forall w2, handle_refs e (cmd_unpacked (ref_command_new old new (name ++ [0])) None) path w1 = (w2, Ok tt) -> w_files w2 = w_files w1 ->
    exists w' reply, w_db w' = w_db w2 /\ w_fails w' = w_fails w2 /\ status_reply cl [bs "ok " ++ name ++ [0]] reply /\
      forall fuel, (fuel0 <= fuel)%nat -> http_receive_pack e m c fuel now path body w = (w', Ok reply).
Proof.
  intros e m c now path old new name caps body pack objs w He Q Ho Hn Hm Lm Hc Rq G Hl Hg Hf.
  destruct (first_run e m c now path old new name caps pack body Ho Hn Hm Hc Rq) as (cl & Hcl & E).
  set (cmd := ref_command_new old new (name ++ [0])) in *.
  destruct (receive_start e m c now (mkProto Http path None cl [cmd]) [] cmd pack [] objs w eq_refl G Hl (gr_free _ Hg))
    as (wu & k & file & Du & _ & Fa & Fi & Hh & Hk & K). rewrite app_nil_r in K. cbn [pp_path] in K.
  assert (Qu : no_failure wu) by (unfold no_failure; rewrite Fa; exact Q).
  destruct (store_any e k (map snd objs) path He Hk Hh Hg Hf wu Qu) as (fuel0 & w1 & rows & parts & Es & Q1 & F1 & D1 & Rf & Lp).
  rewrite Du in D1. exists (Nat.max 1 fuel0), w1, rows, parts, cl. split; [exact Hcl|]. split; [exact Q1|]. split; [exact D1|]. split; [exact Rf|]. split; [exact Lp|].
  intros w2 E2 F2. pose proof (proj2 (K fuel0 w1) Es) as Er. cbn [app pp_protocol pp_service pp_caps] in Er.
  assert (Gt : fs_get (w_files w2) (temp_path now) = Some file) by (rewrite F2, F1, Fi; apply fs_get_put_same).
  exists (mkWorld (w_db w2) (w_log w2) (w_fails w2) (w_tick w2) (fs_remove (w_files w2) (temp_path now))). eexists.
  split; [reflexivity|]. split; [reflexivity|]. split; [exact (status_ok cl old new name Lm)|].
  intros fuel Hfu. rewrite E. unfold mbind at 1. rewrite (Er fuel Hfu). rewrite (mbind_ok _ _ _ _ _ _ _ E2). unfold mbind, remove_temp. rewrite Gt. reflexivity.
Qed.

(** A new reference whose name, or whose repository, is too long for the columns: the
    objects are stored, the reply says that the reference was created, and it was not. *)
Theorem C137_long_name : forall e m c now path new h name caps body pack objs w,
  env_ok e -> no_failure w -> id_ok h -> lower_hex new h -> word name -> nlen name <= 60000 -> utf8_text caps ->
  (longer 31 name \/ longer 64 path) ->
  push_request (repeat 48 40) new name caps pack body ->
  git_pack c (get_hash_object e w) pack objs -> nlen pack < 2 ^ 32 -> history path (map snd objs) ->
  exists fuel0 w' reply rows crows cl, caps_in caps cl /\ status_reply cl [bs "ok " ++ name ++ [0]] reply /\
    rows_for path (map snd objs) rows crows /\ w_db w' = with_rows (w_db w) rows crows /\ no_failure w' /\
    forall fuel, (fuel0 <= fuel)%nat -> http_receive_pack e m c fuel now path body w = (w', Ok reply).
Proof.
  intros e m c now path new h name caps body pack objs w He Q Hh Hx Hm Lm Hc Lg Rq G Hl Hs.
  destruct (push_one e m c now path _ new name caps body pack objs w He Q zero_word (hex_word _ _ Hx Hh) Hm Lm Hc Rq G Hl Hs)
    as (fuel0 & w1 & rows & crows & cl & Hcl & Q1 & W1 & Rf & _ & K).
  destruct (save_refs_cases (cmd_unpacked (ref_command_new (repeat 48 40) new (name ++ [0])) None) path w1 Q1) as (w2 & E2 & F2 & Q2 & [(F & _)|(_ & D2 & _)]).
  { exfalso. unfold ref_fits, varchar, cmd_unpacked, ref_command_new in F. cbn [r_repo_path r_ref_name r_ref_git_id rc_ref_name rc_new_id] in F.
    apply andb_true_iff in F as [F _]. apply andb_true_iff in F as [F1 F3]. rewrite N.leb_le in F1, F3. rewrite chars_app in F3. change (chars [0]) with 1 in F3.
    destruct Lg as [(k & Tk & Lk)|(k & Tk & Lk)]; apply chars_text in Tk; rewrite Tk in *; lia. }
  destruct (K w2) as (w' & reply & D & Q' & St & _ & E); [exact E2|exact F2|].
  exists fuel0, w', reply, rows, crows, cl. split; [exact Hcl|]. split; [exact St|]. split; [exact Rf|].
  split; [rewrite D, D2; exact W1|]. split; [unfold no_failure; rewrite Q'; exact Q2|exact E].
Qed.

(** Commits of more than 65535 bytes are not stored, nor are any of the commits whose
    INSERT they share; the reference is created and the reply says so. *)
Theorem C137_big_commit : forall e m c now path new h name caps body pack objs w,
  env_ok e -> no_failure w -> id_ok h -> lower_hex new h -> word name -> utf8_text caps -> at_most 31 name -> at_most 64 path ->
  push_request (repeat 48 40) new name caps pack body ->
  git_pack c (get_hash_object e w) pack objs -> nlen pack < 2 ^ 32 -> graph (map snd objs) -> nodes_fit path (map snd objs) ->
  exists fuel0 w' reply rows crows kept cl, caps_in caps cl /\ status_reply cl [bs "ok " ++ name ++ [0]] reply /\
    rows_for path (map snd objs) rows crows /\
    w_db w' = mkDb (d_nodes (w_db w) ++ rows) (d_commits (w_db w) ++ kept)
                   (d_refs (w_db w) ++ [mkRef (d_next_ref (w_db w)) path (name ++ [0]) new]) (d_next_ref (w_db w) + 1) /\
    (forall r, In r kept -> In r crows /\ nlen (c_meta r) <= 65535) /\
    ((length (commits_in (map snd objs)) <= 100)%nat -> (exists d, In (Commit, d) (map snd objs) /\ 65535 < nlen d) -> kept = []) /\
    forall fuel, (fuel0 <= fuel)%nat -> http_receive_pack e m c fuel now path body w = (w', Ok reply).
Proof.
  intros e m c now path new h name caps body pack objs w He Q Hh Hx Hm Hc (k & Tk & Lk) (k' & Tp & Lp) Rq G Hl Hg Hf.
  assert (Lm : nlen name <= 60000).
  { destruct Tk as (cs & Fs & -> & Ec). assert (B : (length (flat_map utf8_char cs) <= 4 * length cs)%nat).
    { clear. induction cs as [|x cs IH]; [cbn; lia|]. cbn [flat_map]. rewrite app_length. cbn [length].
      assert (length (utf8_char x) <= 4)%nat; [|lia]. unfold utf8_char. repeat destruct (_ <? _); cbn [length]; lia. }
    unfold nlen. rewrite Ec in B. lia. }
  destruct (push_any e m c now path _ new name caps body pack objs w He Q zero_word (hex_word _ _ Hx Hh) Hm Lm Hc Rq G Hl Hg Hf)
    as (fuel0 & w1 & rows & parts & cl & Hcl & Q1 & W1 & Rf & L1 & K).
  destruct (create_run (cmd_unpacked (ref_command_new (repeat 48 40) new (name ++ [0])) None) path w1 Q1) as (w2 & E2 & M2 & D2).
  { unfold ref_fits, cmd_unpacked, ref_command_new. cbn [r_repo_path r_ref_name r_ref_git_id rc_ref_name rc_new_id].
    assert (V1 : varchar 64 path = true) by (apply N.leb_le; rewrite (chars_text _ _ Tp); lia).
    assert (V2 : varchar 32 (name ++ [0]) = true) by (apply N.leb_le; rewrite chars_app, (chars_text _ _ Tk); change (chars [0]) with 1; lia).
    assert (V3 : varchar 40 new = true) by (apply N.leb_le; rewrite (lower_hex_plain _ _ Hx); apply plain_chars; exact Hh).
    rewrite V1, V2, V3. reflexivity. }
  destruct (K w2) as (w' & reply & D & Q' & St & E); [exact E2|exact (mv_files _ _ _ M2)|].
  exists fuel0, w', reply, rows, (concat parts), (concat (filter (forallb commit_fits) parts)), cl.
  split; [exact Hcl|]. split; [exact St|]. split; [exact Rf|]. split; [rewrite D, D2, W1; reflexivity|]. split; [|split; [|exact E]].
  - intros r Hr. apply in_concat in Hr as (p & Hp & Hr). apply filter_In in Hp as [Hp Fp]. split; [apply in_concat; eauto|].
    rewrite forallb_forall in Fp. specialize (Fp r Hr). unfold commit_fits in Fp. rewrite !andb_true_iff, N.leb_le in Fp. apply Fp.
  - intros Lc (d & Hd & Ld). specialize (L1 Lc). destruct (rf_commits_all _ _ _ _ Rf d Hd) as (r & Ir & _ & Cr).
    destruct parts as [|p [|]]; [reflexivity| |cbn [length] in L1; lia]. cbn [concat] in Ir. rewrite app_nil_r in Ir.
    replace (filter (forallb commit_fits) [p]) with (@nil (list commit_row)); [reflexivity|]. cbn [filter].
    destruct (forallb commit_fits p) eqn:Fp; [|reflexivity]. rewrite forallb_forall in Fp. specialize (Fp r Ir). unfold commit_fits in Fp.
    rewrite !andb_true_iff, N.leb_le in Fp. assert (Em : c_meta r = d) by (inversion Cr; assumption). rewrite Em in Fp. lia.
Qed.

(** A tree or blob that does not fit: the push is never acknowledged, and no reference and
    no commit is written. *)
Theorem C137_big_node : forall e m c now path old new name caps body pack objs w,
  env_ok e -> no_failure w -> word old -> word new -> word name -> utf8_text caps ->
  push_request old new name caps pack body ->
  git_pack c (get_hash_object e w) pack objs -> nlen pack < 2 ^ 32 -> graph (map snd objs) -> too_big (map snd objs) ->
  exists fuel0 w' p, w_db w' = with_nodes (w_db w) p /\
    (forall r, In r p -> exists o, node_for r o /\ reach (fun o => In o (map snd objs)) o) /\
    forall fuel, (fuel0 <= fuel)%nat -> http_receive_pack e m c fuel now path body w = (w', Panic).
Proof.
  intros e m c now path old new name caps body pack objs w He Q Ho Hn Hm Hc Rq G Hl Hg Tb.
  destruct (first_run e m c now path old new name caps pack body Ho Hn Hm Hc Rq) as (cl & _ & E).
  set (cmd := ref_command_new old new (name ++ [0])) in *.
  destruct (receive_start e m c now (mkProto Http path None cl [cmd]) [] cmd pack [] objs w eq_refl G Hl (gr_free _ Hg))
    as (wu & k & file & Du & _ & Fa & _ & Hh & Hk & K). rewrite app_nil_r in K. cbn [pp_path] in K.
  assert (Qu : no_failure wu) by (unfold no_failure; rewrite Fa; exact Q).
  destruct (store_refused e k (map snd objs) path He Hk Hh Hg Tb wu Qu) as (fuel0 & w1 & p & Es & D1 & Rp).
  exists (Nat.max 1 fuel0), w1, p. rewrite Du in D1. split; [exact D1|]. split; [exact Rp|].
  intros fuel Hf. rewrite E. unfold mbind. rewrite (proj1 (K fuel0 w1) Es fuel Hf). reflexivity.
Qed.

(** ** Cases *)

Definition long_ref : bytes := bs "refs/heads/feature/a-long-branch-name".
Definition long_body : bytes := push_body (repeat 48 40) (to_plain_str (oid ex_top)) long_ref ex_caps (pack_of ex_hist).
Lemma long_ref_word : word long_ref.
Proof.
  split; [|apply utf8_spec; reflexivity]. apply Forall_forall. intros b Hb Hw.
  assert (K : forallb (fun b => negb (existsb (N.eqb b) [32; 9; 10; 12; 13])) long_ref = true) by reflexivity.
  rewrite forallb_forall in K. specialize (K b Hb). apply negb_true_iff in K.
  assert (K2 : existsb (N.eqb b) [32; 9; 10; 12; 13] = true) by (apply existsb_exists; exists b; split; [exact Hw|apply N.eqb_refl]). congruence.
Qed.
Lemma long_ref_long : longer 31 long_ref.
Proof. exists 37%nat. split; [exact (ascii_text long_ref eq_refl)|lia]. Qed.
Example C137_long_name_ex : exists objs, push_request (repeat 48 40) (to_plain_str (oid ex_top)) long_ref ex_caps (pack_of ex_hist) long_body /\
  git_pack stored (get_hash_object ex_env (world_of db_empty)) (pack_of ex_hist) objs /\ nlen (pack_of ex_hist) < 2 ^ 32 /\ history (bs "/demo") (map snd objs) /\
  id_ok (oid ex_top) /\ lower_hex (to_plain_str (oid ex_top)) (oid ex_top) /\ word long_ref /\ nlen long_ref <= 60000 /\ utf8_text ex_caps /\ longer 31 long_ref.
Proof.
  destruct (ex_pack (get_hash_object ex_env (world_of db_empty))) as (objs & G & E). exists objs. rewrite E.
  split; [apply push_body_request; rewrite !nlen_app, (plain_len _ ex_top_id); vm_compute; discriminate|]. split; [exact G|]. split; [exact ex_pack_small|].
  split; [apply ex_hist_ok; reflexivity|]. split; [exact ex_top_id|]. split; [apply plain_lower; exact ex_top_id|].
  split; [exact long_ref_word|]. split; [vm_compute; discriminate|]. split; [apply utf8_spec; reflexivity|exact long_ref_long].
Qed.

(** "ok" does not mean that the reference exists. *)
Theorem C137_created_refuted : exists m c now path new name caps body pack w fuel w' reply cl,
  no_failure w /\ push_request (repeat 48 40) new name caps pack body /\ caps_in caps cl /\
  http_receive_pack ex_env m c fuel now path body w = (w', Ok reply) /\ status_reply cl [bs "ok " ++ name ++ [0]] reply /\
  d_refs (w_db w') = [].
Proof.
  destruct C137_long_name_ex as (objs & R & G & L & H & H1 & H2 & H3 & H4 & H5 & H6).
  destruct (C137_long_name ex_env Release stored 0 (bs "/demo") _ _ _ _ _ _ _ (world_of db_empty) ex_env_ok eq_refl H1 H2 H3 H4 H5 (or_introl H6) R G L H)
    as (fuel0 & w' & reply & rows & crows & cl & C & St & _ & D & _ & E).
  exists Release, stored, 0, (bs "/demo"), (to_plain_str (oid ex_top)), long_ref, ex_caps, long_body, (pack_of ex_hist), (world_of db_empty), fuel0, w', reply, cl.
  split; [reflexivity|]. split; [exact R|]. split; [exact C|]. split; [apply E; apply Nat.le_refl|]. split; [exact St|].
  rewrite D. reflexivity.
Qed.

Lemma graph_shape : forall objs, shape_check objs = true -> (forall d, In (Commit, d) objs -> exists tid, commit_root d tid) ->
  (forall d, ~ In (Tag, d) objs) -> graph objs.
Proof.
  intros objs H Hc Hg. assert (Ht : forall d, In (Tag, d) objs -> sound_object (Tag, d)) by (intros d K; destruct (Hg d K)).
  split; [exact (check_sound objs H Hc Ht)|exact (check_complete objs H Hc Ht)|exact (check_free objs H)|exact (check_acyclic objs H)].
Qed.

(** A commit with a message of 65536 bytes. *)
Definition big_text : bytes := repeat 97 (N.to_nat 65536).
Definition big_top : object := commit_on (oid ex_root) [] big_text.
Definition big_hist : list object := [big_top; ex_root; ex_lib; ex_blob].
Lemma big_root : commit_root (snd big_top) (oid ex_root).
Proof. apply commit_on_root; [apply oid_ok, tree_base|constructor|apply utf8_spec; vm_compute; reflexivity]. Qed.
Lemma big_shape : shape_check big_hist = true. Proof. vm_compute. reflexivity. Qed.
Lemma big_commits : forall d, In (Commit, d) big_hist -> exists tid, commit_root d tid.
Proof.
  intros d [E|[E|[E|[E|[]]]]]; try discriminate (f_equal fst E). exists (oid ex_root).
  replace d with (snd big_top) by exact (f_equal snd E). exact big_root.
Qed.
Lemma big_tags : forall d, ~ In (Tag, d) big_hist.
Proof. intros d [E|[E|[E|[E|[]]]]]; discriminate (f_equal fst E). Qed.
Lemma big_graph : graph big_hist.
Proof. exact (graph_shape _ big_shape big_commits big_tags). Qed.
Lemma big_nodes : nodes_fit (bs "/demo") big_hist.
Proof.
  intros o. apply (check_fits_nodes big_hist big_shape big_commits (fun d K => False_ind _ (big_tags d K))). vm_compute. reflexivity.
Qed.
Lemma big_id : id_ok (oid big_top). Proof. apply oid_ok, commit_base. Qed.
Definition big_body : bytes := push_body (repeat 48 40) (to_plain_str (oid big_top)) (bs "refs/heads/master") ex_caps (pack_of big_hist).
Example C137_big_commit_ex : exists objs, push_request (repeat 48 40) (to_plain_str (oid big_top)) (bs "refs/heads/master") ex_caps (pack_of big_hist) big_body /\
  git_pack stored (get_hash_object ex_env (world_of db_empty)) (pack_of big_hist) objs /\ nlen (pack_of big_hist) < 2 ^ 32 /\
  graph (map snd objs) /\ nodes_fit (bs "/demo") (map snd objs) /\ (length (commits_in (map snd objs)) <= 100)%nat /\
  (exists d, In (Commit, d) (map snd objs) /\ 65535 < nlen d) /\
  id_ok (oid big_top) /\ lower_hex (to_plain_str (oid big_top)) (oid big_top) /\ word (bs "refs/heads/master") /\ utf8_text ex_caps /\
  at_most 31 (bs "refs/heads/master") /\ at_most 64 (bs "/demo").
Proof.
  destruct (pack_of_git big_hist (get_hash_object ex_env (world_of db_empty))) as (objs & G & E); [discriminate|reflexivity|exact (gr_sound _ big_graph)|].
  exists objs. rewrite E.
  split; [apply push_body_request; rewrite !nlen_app, (plain_len _ big_id); vm_compute; discriminate|]. split; [exact G|].
  split; [vm_compute; reflexivity|]. split; [exact big_graph|]. split; [exact big_nodes|]. split; [cbn; lia|].
  split; [exists (snd big_top); split; [left; reflexivity|vm_compute; reflexivity]|]. split; [exact big_id|]. split; [apply plain_lower; exact big_id|].
  split; [exact master_word|]. split; [apply utf8_spec; reflexivity|].
  split; [exists 17%nat; split; [exact (ascii_text (bs "refs/heads/master") eq_refl)|lia]|exists 5%nat; split; [exact (ascii_text (bs "/demo") eq_refl)|lia]].
Qed.

(** A reference that was just created may name a commit that is not stored. *)
Theorem C137_commit_stored_refuted : exists m c now path new name caps body pack w fuel w' reply cl,
  no_failure w /\ push_request (repeat 48 40) new name caps pack body /\ caps_in caps cl /\
  http_receive_pack ex_env m c fuel now path body w = (w', Ok reply) /\ status_reply cl [bs "ok " ++ name ++ [0]] reply /\
  map r_ref_git_id (d_refs (w_db w')) = [new] /\ d_commits (w_db w') = [].
Proof.
  destruct C137_big_commit_ex as (objs & R & G & L & H & Hf & Lc & Bc & H1 & H2 & H3 & H4 & H5 & H6).
  destruct (C137_big_commit ex_env Release stored 0 (bs "/demo") _ _ _ _ _ _ _ (world_of db_empty) ex_env_ok eq_refl H1 H2 H3 H4 H5 H6 R G L H Hf)
    as (fuel0 & w' & reply & rows & crows & kept & cl & C & St & _ & D & _ & K & E).
  exists Release, stored, 0, (bs "/demo"), (to_plain_str (oid big_top)), (bs "refs/heads/master"), ex_caps, big_body, (pack_of big_hist), (world_of db_empty), fuel0, w', reply, cl.
  split; [reflexivity|]. split; [exact R|]. split; [exact C|]. split; [apply E; apply Nat.le_refl|]. split; [exact St|].
  rewrite D, (K Lc Bc). split; reflexivity.
Qed.

(** A file with a name of 129 characters. *)
Definition long_file : bytes := repeat 97 129.
Definition long_root : object := (Tree, entry_of (bs "100644") long_file ex_blob).
Definition long_top : object := commit_on (oid long_root) [] (bs "long").
Definition long_hist : list object := [long_top; long_root; ex_blob].
Lemma long_commit_root : commit_root (snd long_top) (oid long_root).
Proof. apply commit_on_root; [apply oid_ok, tree_base|constructor|apply utf8_spec; reflexivity]. Qed.
Definition long_item : tree_item := mkTreeItem (bs "100644") IBlob (oid ex_blob) long_file.
Lemma long_root_tree : git_tree [long_item] (snd long_root).
Proof.
  change (snd long_root) with (entry_of (bs "100644") long_file ex_blob). rewrite <- (app_nil_r (entry_of _ _ _)).
  apply entry_of_tree; [constructor|apply utf8_spec; reflexivity|intros H; apply repeat_spec in H; discriminate|apply oid_ok, blob_base|constructor].
Qed.
Lemma long_graph : graph long_hist.
Proof.
  apply graph_shape; [vm_compute; reflexivity| |].
  - intros d [E|[E|[E|[]]]]; try discriminate (f_equal fst E). exists (oid long_root).
    replace d with (snd long_top) by exact (f_equal snd E). exact long_commit_root.
  - intros d [E|[E|[E|[]]]]; discriminate (f_equal fst E).
Qed.
Lemma long_too_big : too_big long_hist.
Proof.
  apply tb_name with (i := long_item).
  - exists (snd long_root), [long_item]. split; [|split; [exact long_root_tree|left; reflexivity]].
    apply (reach_root _ long_top long_root (oid long_root)); [apply reach_commit; [left; reflexivity|reflexivity]|reflexivity|exact long_commit_root|
      right; left; reflexivity|reflexivity|]. apply oid_id. pose proof (gr_sound _ long_graph) as F. rewrite Forall_forall in F. apply F. right. left. reflexivity.
  - intros j (d & items & Rd & Gd & Ij) _. apply reach_S in Rd. destruct Rd as [E|[E|[E|[]]]]; try discriminate (f_equal fst E).
    assert (Ed : d = snd long_root) by exact (eq_sym (f_equal snd E)). rewrite Ed in Gd. rewrite (git_tree_fun _ _ _ Gd long_root_tree) in Ij.
    destruct Ij as [<-|[]]. exists 129%nat. split; [exact (ascii_text long_file eq_refl)|lia].
Qed.
Lemma long_id : id_ok (oid long_top). Proof. apply oid_ok, commit_base. Qed.
Definition long_file_body : bytes := push_body (repeat 48 40) (to_plain_str (oid long_top)) (bs "refs/heads/master") ex_caps (pack_of long_hist).
Example C137_big_node_ex : exists objs, push_request (repeat 48 40) (to_plain_str (oid long_top)) (bs "refs/heads/master") ex_caps (pack_of long_hist) long_file_body /\
  git_pack stored (get_hash_object ex_env (world_of db_empty)) (pack_of long_hist) objs /\ nlen (pack_of long_hist) < 2 ^ 32 /\
  graph (map snd objs) /\ too_big (map snd objs) /\ word (repeat 48 40) /\ word (to_plain_str (oid long_top)) /\
  word (bs "refs/heads/master") /\ utf8_text ex_caps.
Proof.
  destruct (pack_of_git long_hist (get_hash_object ex_env (world_of db_empty))) as (objs & G & E); [discriminate|reflexivity|exact (gr_sound _ long_graph)|].
  exists objs. rewrite E.
  split; [apply push_body_request; rewrite !nlen_app, (plain_len _ long_id); vm_compute; discriminate|]. split; [exact G|].
  split; [vm_compute; reflexivity|]. split; [exact long_graph|]. split; [exact long_too_big|]. split; [exact zero_word|].
  split; [apply (hex_word _ (oid long_top)); [apply plain_lower; exact long_id|exact long_id]|]. split; [exact master_word|apply utf8_spec; reflexivity].
Qed.

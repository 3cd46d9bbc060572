(** C51-C60: pushes, clones and references over the storage. *)

From Coq Require Import Permutation.
From Verif Require Import Base BaseLemmas Digest ModelUtils ModelObject ModelBase ModelPack ModelDecode ModelPkt ModelStorage
  StoredZlib SpecObject SpecIdx SpecBase SpecPack SpecStorage ProofObject ProofUtf8 ProofBase ProofPack ProofEncode
  ProofNodes ProofStorage ProofPush ProofClone ProofRepo ProofRefs ProofSession ProofGraph ProofExample.
Open Scope N_scope.

(** ** C51: push, then clone *)

(** The general case: the repository may already have content. *)
Theorem C51_push_then_clone : forall e m c st st' path file objs w,
  env_ok e -> codec_ok c -> no_failure w -> sound_db (w_db w) -> complete (repo_objects e (w_db w) path) ->
  git_pack c st file objs -> nlen file < 2 ^ 32 -> history path (map snd objs) ->
  let old := repo_objects e (w_db w) path in
  let new := fun o => In o (map snd objs) in
  collision_free (fun o => old o \/ new o) -> acyclic (fun o => old o \/ new o) ->
  few (fun o => reach old o \/ reach new o) -> (exists d, old (Commit, d) \/ new (Commit, d)) ->
  exists fuel0 p w1, forall fuel, (fuel0 <= fuel)%nat ->
    decode m c st fuel file = Ok p /\ save_packfile e fuel (p_cache p) path w = (w1, Ok tt) /\
    exists w2 out pobjs, get_full_pack_data e c fuel path w1 = (w2, Ok out) /\ w_db w2 = w_db w1 /\
      git_pack c st' out pobjs /\ NoDup (map snd pobjs) /\
      forall o, In o (map snd pobjs) <-> reach old o \/ reach new o.
Proof.
  intros e m c st st' path file objs w He Hc Q Sd Co G Hl [H1 H2 H3 H4 H5] old new Cf Ac Fw Ne.
  destruct (decode_git_pack_junk m c st file objs [] G H3 Hl) as (p & Ed & Hh & Hk). rewrite app_nil_r in Ed.
  destruct (push_then_clone e He (p_cache p) (map snd objs) path w Q Hk Hh H1 Sd Co H2 Cf Ac H5 c st' Hc Fw Ne) as (fuel0 & w1 & K).
  exists (Nat.max 1 fuel0), p, w1. intros fuel Hf. split; [apply Ed; lia|]. apply K. lia.
Qed.

Lemma empty_repo : forall e d path o, d_nodes d = [] -> d_commits d = [] -> ~ repo_objects e d path o.
Proof. intros e d path o E1 E2 [(r & H & _)|(r & H & _)]; [rewrite E1 in H|rewrite E2 in H]; destruct H. Qed.
Lemma git_pack_few : forall c st file objs, git_pack c st file objs -> nlen objs < 2 ^ 32.
Proof.
  intros c st file objs (b & H & _).
  exact (proj1 (body_header _ _ _ _ _ H)).
Qed.

(** An empty database: what comes back is what the commits of the push reach. *)
Theorem C51_first_push_then_clone : forall e m c st st' path file objs w,
  env_ok e -> codec_ok c -> no_failure w -> d_nodes (w_db w) = [] -> d_commits (w_db w) = [] ->
  git_pack c st file objs -> nlen file < 2 ^ 32 -> history path (map snd objs) -> (exists d, In (Commit, d) (map snd objs)) ->
  exists fuel0 p w1, forall fuel, (fuel0 <= fuel)%nat ->
    decode m c st fuel file = Ok p /\ save_packfile e fuel (p_cache p) path w = (w1, Ok tt) /\
    exists w2 out pobjs, get_full_pack_data e c fuel path w1 = (w2, Ok out) /\ w_db w2 = w_db w1 /\
      git_pack c st' out pobjs /\ NoDup (map snd pobjs) /\
      forall o, In o (map snd pobjs) <-> reach (fun o => In o (map snd objs)) o.
Proof.
  intros e m c st st' path file objs w He Hc Q E1 E2 G Hl Hs (d0 & Hd0).
  pose proof (empty_repo e (w_db w) path) as Em. specialize Em with (1 := E1) (2 := E2).
  assert (Nr : forall o, ~ reach (repo_objects e (w_db w) path) o) by (intros o Hr; exact (Em _ (reach_S _ _ Hr))).
  destruct (C51_push_then_clone e m c st st' path file objs w He Hc Q) as (fuel0 & p & w1 & K); try assumption.
  - split; intros r Hr; [rewrite E1 in Hr|rewrite E2 in Hr]; destruct Hr.
  - intros o t h Hr. destruct (Nr _ Hr).
  - intros a b h [Ha|Ha] [Hb|Hb]; try (exfalso; exact (Em _ Ha)); try (exfalso; exact (Em _ Hb)). exact (hs_free _ _ Hs a b h Ha Hb).
  - destruct (hs_acyclic _ _ Hs) as (rank & Hr). exists rank. intros d h h' [Ha|Ha]; [destruct (Em _ Ha)|]. exact (Hr d h h' Ha).
  - exists (map snd objs). split; [unfold nlen; rewrite map_length; exact (git_pack_few _ _ _ _ G)|].
    intros o [Ho|Ho]; [destruct (Nr _ Ho)|exact (reach_S _ _ Ho)].
  - eauto.
  - exists fuel0, p, w1. intros fuel Hf. destruct (K fuel Hf) as (K1 & K2 & w2 & out & pobjs & K3 & K4 & K5 & K6 & K7).
    split; [exact K1|]. split; [exact K2|]. exists w2, out, pobjs. do 4 (split; [assumption|]). intros o. rewrite K7.
    split; [intros [Ho|Ho]; [destruct (Nr _ Ho)|exact Ho]|auto].
Qed.

Definition no_objects : storage := fun _ => Err ENotFoundHash.
Lemma ex_pack : forall st, exists objs, git_pack stored st (pack_of ex_hist) objs /\ map snd objs = ex_hist.
Proof. intros st. apply pack_of_git; [discriminate|reflexivity|]. apply (hs_sound (bs "/demo")). apply ex_hist_ok. reflexivity. Qed.
Lemma ex_pack_small : nlen (pack_of ex_hist) < 2 ^ 32.
Proof. vm_compute. reflexivity. Qed.
Lemma ex_blob_reached : reach (fun o => In o ex_hist) ex_blob.
Proof.
  assert (So : forall o, In o ex_hist -> obj_id o (oid o)).
  { intros o Ho. apply oid_id. pose proof (hs_sound _ _ (proj1 (ex_hist_ok (bs "/demo") eq_refl))) as F. rewrite Forall_forall in F. auto. }
  assert (R1 : reach (fun o => In o ex_hist) ex_root).
  { apply (reach_root _ ex_top ex_root (oid ex_root)); [apply reach_commit; [left; reflexivity|reflexivity]|reflexivity|exact ex_top_root|
      right; left; reflexivity|reflexivity|apply So; right; left; reflexivity]. }
  apply (reach_item _ ex_root ex_blob _ (bs "100644") IBlob (oid ex_blob) (bs "README") R1 eq_refl ex_root_tree);
    [left; reflexivity|discriminate|right; right; right; left; reflexivity|reflexivity|apply So; right; right; right; left; reflexivity].
Qed.
Example C51_ex : exists objs, git_pack stored no_objects (pack_of ex_hist) objs /\ nlen (pack_of ex_hist) < 2 ^ 32 /\
  history (bs "/demo") (map snd objs) /\ (exists d, In (Commit, d) (map snd objs)) /\ env_ok ex_env /\ codec_ok stored /\
  no_failure (world_of db_empty) /\ reach (fun o => In o (map snd objs)) ex_blob.
Proof.
  destruct (ex_pack no_objects) as (objs & G & E). exists objs. rewrite E. split; [exact G|]. split; [exact ex_pack_small|].
  split; [apply ex_hist_ok; reflexivity|]. split; [exists (snd ex_top); left; reflexivity|]. split; [exact ex_env_ok|].
  split; [exact stored_ok|]. split; [reflexivity|exact ex_blob_reached].
Qed.

(** ** C52: tags *)

Lemma reach_no_tag : forall S d, ~ reach S (Tag, d).
Proof.
  intros S d H. inversion H as [|o t h d' Hr Hf N Hd Hi]; subst. inversion Hf as [|d1 items i G Ii E1 E2]; subst.
  destruct (ti_type i); discriminate.
Qed.
(** No clone of any repository returns a tag. *)
Theorem C52_no_tag_returned : forall e c st path w, env_ok e -> codec_ok c -> no_failure w -> sound_db (w_db w) ->
  let S := repo_objects e (w_db w) path in
  collision_free S -> well_typed S -> acyclic S -> rooted S -> (exists d, S (Commit, d)) -> few (reach S) ->
  exists fuel0, forall fuel, (fuel0 <= fuel)%nat -> exists w' out objs,
    get_full_pack_data e c fuel path w = (w', Ok out) /\ git_pack c st out objs /\ forall d, ~ In (Tag, d) (map snd objs).
Proof.
  intros e c st path w He Hc Q Sd S Cf Wt (rank & Ac) Ro Ne Fw.
  destruct (clone_run e He (w_db w) path (sound_honest _ _ _ Sd) Cf Wt rank (fun d h h' H => Ac d h h' (reach_S _ _ H)) Ro Ne Fw c st Hc w Q eq_refl) as (fuel0 & K).
  exists fuel0. intros fuel Hf. destruct (K fuel Hf) as (w' & out & objs & E & _ & G & _ & Io). exists w', out, objs.
  split; [exact E|]. split; [exact G|]. intros d Hd. apply Io in Hd. exact (reach_no_tag _ _ Hd).
Qed.
Theorem C52_tag_lost_refuted : exists e m c path file objs tag w, env_ok e /\ codec_ok c /\ no_failure w /\ w_db w = db_empty /\
  git_pack c no_objects file objs /\ history path (map snd objs) /\ In (Tag, tag) (map snd objs) /\
  exists fuel0 p w1, forall fuel, (fuel0 <= fuel)%nat ->
    decode m c no_objects fuel file = Ok p /\ save_packfile e fuel (p_cache p) path w = (w1, Ok tt) /\
    exists w2 out pobjs, get_full_pack_data e c fuel path w1 = (w2, Ok out) /\ git_pack c no_objects out pobjs /\
      ~ In (Tag, tag) (map snd pobjs).
Proof.
  destruct (pack_of_git (ex_tag :: ex_hist) no_objects) as (objs & G & E); [discriminate|reflexivity|
    apply (hs_sound (bs "/demo")); apply ex_hist_ok; reflexivity|].
  exists ex_env, Release, stored, (bs "/demo"), (pack_of (ex_tag :: ex_hist)), objs, (snd ex_tag), (world_of db_empty).
  split; [exact ex_env_ok|]. split; [exact stored_ok|]. split; [reflexivity|]. split; [reflexivity|]. split; [exact G|].
  assert (Hs : history (bs "/demo") (map snd objs)) by (rewrite E; apply ex_hist_ok; reflexivity).
  split; [exact Hs|]. split; [rewrite E; left; reflexivity|].
  destruct (C51_first_push_then_clone ex_env Release stored no_objects no_objects (bs "/demo") _ objs (world_of db_empty)
    ex_env_ok stored_ok eq_refl eq_refl eq_refl G) as (f1 & p1 & w1 & K1);
    [vm_compute; reflexivity|exact Hs|rewrite E; exists (snd ex_top); right; left; reflexivity|].
  exists f1, p1, w1. intros fuel Hf. destruct (K1 fuel Hf) as (D1 & S1 & w2 & out & pobjs & E3 & _ & G3 & _ & Io).
  split; [exact D1|]. split; [exact S1|]. exists w2, out, pobjs. split; [exact E3|]. split; [exact G3|].
  intros Hi. apply Io in Hi. exact (reach_no_tag _ _ Hi).
Qed.

(** ** C53: pushes that rely on what is stored *)

Theorem C53_missing_object_aborts : forall e m c st path file objs, env_ok e -> git_pack c st file objs -> nlen file < 2 ^ 32 ->
  let new := fun o => In o (map snd objs) in
  Forall sound_object (map snd objs) -> collision_free new -> acyclic new -> ~ self_contained new ->
  exists p, forall w, exists fuel0, forall fuel, (fuel0 <= fuel)%nat ->
    decode m c st fuel file = Ok p /\
    exists w', save_packfile e fuel (p_cache p) path w = (w', Panic) /\ w_db w' = w_db w /\ w_log w' = w_log w.
Proof.
  intros e m c st path file objs He G Hl new Hs Cf Ac Ns.
  destruct (decode_git_pack_junk m c st file objs [] G Cf Hl) as (p & Ed & Hh & Hk). rewrite app_nil_r in Ed.
  exists p. intros w. destruct (push_not_contained e (p_cache p) (map snd objs) path He Hk Hh Hs Ac Ns w) as (fuel0 & K).
  exists (Nat.max 1 fuel0). intros fuel Hf. split; [apply Ed; lia|]. apply K. lia.
Qed.

(** The state after the first push. *)
Lemma first_push : forall e m c st path file objs w,
  env_ok e -> no_failure w -> d_nodes (w_db w) = [] -> d_commits (w_db w) = [] ->
  git_pack c st file objs -> nlen file < 2 ^ 32 -> history path (map snd objs) ->
  exists fuel0 p w1, no_failure w1 /\ sound_db (w_db w1) /\ d_refs (w_db w1) = d_refs (w_db w) /\
    (forall o, repo_objects e (w_db w1) path o <-> reach (fun o => In o (map snd objs)) o) /\
    forall fuel, (fuel0 <= fuel)%nat -> decode m c st fuel file = Ok p /\ save_packfile e fuel (p_cache p) path w = (w1, Ok tt).
Proof.
  intros e m c st path file objs w He Q E1 E2 G Hl Hs.
  destruct (decode_git_pack_junk m c st file objs [] G (hs_free _ _ Hs) Hl) as (p & Ed & Hh & Hk). rewrite app_nil_r in Ed.
  pose proof (empty_repo e (w_db w) path) as Em. specialize Em with (1 := E1) (2 := E2).
  destruct (push_state e He (p_cache p) (map snd objs) path w Q Hk Hh (hs_sound _ _ Hs)) as (fuel0 & w1 & l & rows & crows & E & M & D & _ & _ & Sd & Io & _).
  - split; intros r Hr; [rewrite E1 in Hr|rewrite E2 in Hr]; destruct Hr.
  - intros o t h Hr. destruct (Em _ (reach_S _ _ Hr)).
  - exact (hs_complete _ _ Hs).
  - intros a b h [Ha|Ha] [Hb|Hb]; try (exfalso; exact (Em _ Ha)); try (exfalso; exact (Em _ Hb)). exact (hs_free _ _ Hs a b h Ha Hb).
  - destruct (hs_acyclic _ _ Hs) as (rank & Hr). exists rank. intros d h h' [Ha|Ha]; [destruct (Em _ Ha)|]. exact (Hr d h h' Ha).
  - exact (hs_fits _ _ Hs).
  - exists (Nat.max 1 fuel0), p, w1. split; [exact (mv_quiet _ _ _ M)|]. split; [exact Sd|]. split; [rewrite D; reflexivity|].
    split; [intros o; rewrite Io; split; [intros [Ho|Ho]; [destruct (Em _ Ho)|exact Ho]|auto]|].
    intros fuel Hf. split; [apply Ed; lia|apply E; lia].
Qed.

(** A second commit that adds a file and keeps the first. *)
Definition ex_blob2 : object := (Blob, bs "second").
Definition ex_root2 : object := (Tree, entry_of (bs "100644") (bs "README") ex_blob ++ entry_of (bs "100644") (bs "new") ex_blob2).
Definition ex_top2 : object := commit_on (oid ex_root2) [oid ex_top] (bs "second").
Definition ex_next : list object := [ex_top2; ex_root2; ex_blob2].
Lemma ex_root2_tree : git_tree [mkTreeItem (bs "100644") IBlob (oid ex_blob) (bs "README"); mkTreeItem (bs "100644") IBlob (oid ex_blob2) (bs "new")] (snd ex_root2).
Proof.
  change (snd ex_root2) with (entry_of (bs "100644") (bs "README") ex_blob ++ entry_of (bs "100644") (bs "new") ex_blob2).
  rewrite <- (app_nil_r (entry_of (bs "100644") (bs "new") _)).
  apply entry_of_tree; [constructor|apply utf8_spec; reflexivity|intros H; repeat destruct H as [H|H]; try discriminate; contradiction|
    apply oid_ok, blob_base|].
  apply entry_of_tree; [constructor|apply utf8_spec; reflexivity|intros H; repeat destruct H as [H|H]; try discriminate; contradiction|
    apply oid_ok, blob_base|constructor].
Qed.
Lemma ex_top2_root : commit_root (snd ex_top2) (oid ex_root2).
Proof. apply commit_on_root; [apply oid_ok, tree_base|apply Forall_cons; [apply oid_ok, commit_base|apply Forall_nil]|apply utf8_spec; reflexivity]. Qed.
Lemma bytes_check : forall l, forallb (fun b => b <? 256) l = true -> bytes_ok l.
Proof. intros l H. apply Forall_forall. intros b Hb. rewrite forallb_forall in H. apply N.ltb_lt, H, Hb. Qed.
Lemma ex_next_sound : Forall sound_object ex_next.
Proof.
  repeat apply Forall_cons; [| | |apply Forall_nil].
  - split; [apply bytes_check; vm_compute; reflexivity|]. split; [vm_compute; reflexivity|]. exists (oid ex_root2). exact ex_top2_root.
  - split; [apply bytes_check; vm_compute; reflexivity|]. split; [vm_compute; reflexivity|]. eexists. split; [exact ex_root2_tree|].
    apply distinct_nodup. reflexivity.
  - split; [apply bytes_check; vm_compute; reflexivity|]. split; [vm_compute; reflexivity|]. exact I.
Qed.
Lemma ids_free : forall objs, distinct (map oid objs) = true -> collision_free (fun o => In o objs).
Proof.
  intros objs H a b h Ha Hb Ia Ib. apply oid_eq in Ia, Ib. apply distinct_nodup in H. revert H Ha Hb. induction objs as [|o l IH]; intros K Ha Hb; [contradiction|].
  cbn [map] in K. inversion K as [|? ? N1 N2]; subst. destruct Ha as [->|Ha], Hb as [->|Hb]; [reflexivity| | |auto].
  - destruct N1. rewrite <- Ib. apply in_map_iff. eauto.
  - destruct N1. rewrite Ib. apply in_map_iff. eauto.
Qed.
Lemma tree_in_next : forall d, In (Tree, d) ex_next -> d = snd ex_root2.
Proof.
  intros d [H|[H|[H|[]]]]; [discriminate (f_equal fst H)|exact (object_eq _ _ _ H)|discriminate (f_equal fst H)].
Qed.
Lemma ex_next_acyclic : acyclic (fun o => In o ex_next).
Proof.
  exists (fun _ => O). intros d h h' Hd _ Hf. apply tree_in_next in Hd. subst d.
  destruct (refers_tree_inv _ _ _ _ Hf ex_root2_tree) as (mode & ty & name & Hi & E).
  destruct Hi as [Hi|[Hi|[]]]; apply item_inv in Hi as (<- & <- & <- & <-); discriminate E.
Qed.
Lemma ex_next_not_contained : ~ self_contained (fun o => In o ex_next).
Proof.
  intros H. assert (R : reach (fun o => In o ex_next) ex_root2).
  { apply (reach_root _ ex_top2 ex_root2 (oid ex_root2)); [apply reach_commit; [left; reflexivity|reflexivity]|reflexivity|exact ex_top2_root|
      right; left; reflexivity|reflexivity|].
    apply oid_id. pose proof ex_next_sound as F. rewrite Forall_forall in F. apply F. right. left. reflexivity. }
  destruct (H _ _ _ R (refers_item ex_root2 _ (bs "100644") IBlob (oid ex_blob) (bs "README") eq_refl ex_root2_tree (or_introl eq_refl)))
    as (o & Ho & Hi). apply oid_eq in Hi.
  assert (K : existsb (fun x => beq (oid x) (oid ex_blob)) ex_next = false) by (vm_compute; reflexivity).
  assert (K' : existsb (fun x => beq (oid x) (oid ex_blob)) ex_next = true).
  { apply existsb_exists. exists o. split; [exact Ho|]. rewrite Hi. apply beq_refl. }
  congruence.
Qed.
Example C53_ex : exists objs, git_pack stored no_objects (pack_of ex_next) objs /\ map snd objs = ex_next /\ nlen (pack_of ex_next) < 2 ^ 32 /\
  Forall sound_object ex_next /\ collision_free (fun o => In o ex_next) /\ acyclic (fun o => In o ex_next) /\ ~ self_contained (fun o => In o ex_next).
Proof.
  destruct (pack_of_git ex_next no_objects) as (objs & G & E); [discriminate|reflexivity|exact ex_next_sound|].
  exists objs. split; [exact G|]. split; [exact E|]. split; [vm_compute; reflexivity|]. split; [exact ex_next_sound|].
  split; [apply ids_free; vm_compute; reflexivity|]. split; [exact ex_next_acyclic|exact ex_next_not_contained].
Qed.

(** A push on top of an earlier one, all of whose names are those of objects in the
    pack or stored for the repository, aborts. *)
Theorem C53_incremental_push_refuted : exists e m c path objs file w, env_ok e /\ codec_ok c /\ no_failure w /\ sound_db (w_db w) /\
  git_pack c no_objects file objs /\ Forall sound_object (map snd objs) /\
  (forall o t h, reach (fun o => In o (map snd objs)) o -> refers o t h ->
     exists o', (In o' (map snd objs) \/ repo_objects e (w_db w) path o') /\ obj_id o' h) /\
  exists p fuel0, forall fuel, (fuel0 <= fuel)%nat -> decode m c no_objects fuel file = Ok p /\
    exists w', save_packfile e fuel (p_cache p) path w = (w', Panic) /\ w_db w' = w_db w.
Proof.
  destruct (ex_pack no_objects) as (o1 & G1 & E1). destruct C53_ex as (o2 & G2 & E2 & L2 & S2 & F2 & A2 & N2).
  assert (Hs : history (bs "/demo") (map snd o1)) by (rewrite E1; apply ex_hist_ok; reflexivity).
  destruct (first_push ex_env Release stored no_objects (bs "/demo") _ o1 (world_of db_empty) ex_env_ok eq_refl eq_refl eq_refl G1 ex_pack_small Hs)
    as (_ & _ & w & Q & Sd & _ & Io & _).
  rewrite <- E2 in S2, F2, A2, N2.
  destruct (C53_missing_object_aborts ex_env Release stored no_objects (bs "/demo") _ o2 ex_env_ok G2 L2 S2 F2 A2 N2) as (p & K).
  destruct (K w) as (fuel0 & K'). exists ex_env, Release, stored, (bs "/demo"), o2, (pack_of ex_next), w.
  split; [exact ex_env_ok|]. split; [exact stored_ok|]. split; [exact Q|]. split; [exact Sd|]. split; [exact G2|]. split; [exact S2|]. split.
  - intros o t h Hr Hf. pose proof (reach_S _ _ Hr) as Ho. cbn beta in Ho. rewrite E2 in Ho |- *.
    assert (So : forall x, In x ex_next -> obj_id x (oid x)) by (intros x Hx; apply oid_id; pose proof ex_next_sound as F; rewrite Forall_forall in F; auto).
    destruct Ho as [<-|[<-|[<-|[]]]].
    + destruct (refers_commit_inv _ _ _ _ Hf ex_top2_root) as [-> ->].
      exists ex_root2. split; [left; right; left; reflexivity|apply So; right; left; reflexivity].
    + destruct (refers_tree_inv _ _ _ _ Hf ex_root2_tree) as (mode & ty & name & Hi & E).
      destruct Hi as [Hi|[Hi|[]]]; apply item_inv in Hi as (<- & <- & <- & <-).
      * exists ex_blob. split; [right; apply Io; rewrite E1; exact ex_blob_reached|].
        apply oid_id. pose proof (hs_sound _ _ Hs) as F. rewrite E1, Forall_forall in F. apply F. right. right. right. left. reflexivity.
      * exists ex_blob2. split; [left; right; right; left; reflexivity|apply So; right; right; left; reflexivity].
    + inversion Hf.
  - exists p, fuel0. intros fuel Hf. destruct (K' fuel Hf) as (K1 & w' & K2 & K3 & _). split; [exact K1|]. eauto.
Qed.

(** ** C54: incremental fetches *)

(** What the server has for the repository, with those of its commits only that are
    wanted by their hexadecimal ids. *)
Definition wanted_objects (e : env) (d : db) (path : bytes) (want : list bytes) (o : object) : Prop :=
  repo_objects e d path o /\ (fst o = Commit -> exists s h, In s want /\ lower_hex s h /\ obj_id o h).

Lemma wanted_eq : forall e d path want o, wanted_objects e d path want o <-> SW e d path want o.
Proof.
  intros e d path want [t dd]. unfold wanted_objects, SW, wanted. cbn [fst snd]. split; intros [H1 H2]; (split; [exact H1|]); intros ->.
  - destruct (H2 eq_refl) as (s & h & Hs & Hl & Hi). exists h. split; [exact Hi|]. rewrite <- (lower_hex_plain _ _ Hl). exact Hs.
  - destruct (H2 eq_refl) as (h & Hi & Hs). exists (to_plain_str h), h. split; [exact Hs|]. split; [|exact Hi].
    apply plain_lower. exact (obj_id_ok _ _ Hi).
Qed.

(** The pack has exactly the trees and blobs of the wanted commits, and no commit;
    if no wanted commit is there, the request aborts. The haves play no role. *)
Theorem C54_incremental_pack : forall e c st path want have w, env_ok e -> codec_ok c -> no_failure w -> sound_db (w_db w) ->
  let S := repo_objects e (w_db w) path in
  let W := wanted_objects e (w_db w) path want in
  collision_free S -> well_typed S -> acyclic S -> rooted S -> few (fun o => fst o <> Commit /\ reach W o) ->
  exists fuel0, forall fuel, (fuel0 <= fuel)%nat ->
    ((exists d, W (Commit, d)) -> exists w' out objs,
       get_incremental_pack_data e c fuel path want have w = (w', Ok out) /\ w_db w' = w_db w /\ git_pack c st out objs /\
       NoDup (map snd objs) /\ forall o, In o (map snd objs) <-> fst o <> Commit /\ reach W o) /\
    ((forall d, ~ W (Commit, d)) -> exists w',
       get_incremental_pack_data e c fuel path want have w = (w', Panic) /\ w_db w' = w_db w).
Proof.
  intros e c st path want have w He Hc Q Sd S W Cf Wt (rank & Ac) Ro (l & Hl & Fl).
  assert (Ew : forall o, RW e (w_db w) path want o <-> fst o <> Commit /\ reach W o).
  { intros o. unfold RW, W. rewrite (reach_ext _ _ (wanted_eq e (w_db w) path want)). reflexivity. }
  assert (Wc : forall d, W (Commit, d) <-> S (Commit, d) /\ wanted want d).
  { intros d. unfold W. rewrite wanted_eq. unfold SW, S. cbn [fst snd]. intuition. }
  destruct (incremental_run e He (w_db w) path (sound_honest _ _ _ Sd) Cf Wt rank (fun d h h' H => Ac d h h' (reach_S _ _ H)) want Ro) with (c := c) (st := st) (have := have) (w := w) as (fuel0 & K); try assumption.
  { exists l. split; [exact Hl|]. intros o Ho. apply Fl, Ew, Ho. }
  { reflexivity. }
  exists fuel0. intros fuel Hf. destruct (K fuel Hf) as [K1 K2]. split.
  - intros (d & Hd). destruct K1 as (w' & out & objs & E & M & G & N & Io); [exists d; apply Wc; exact Hd|].
    exists w', out, objs. split; [exact E|]. split; [exact (mv_db _ _ _ M)|]. split; [exact G|]. split; [exact N|].
    intros o. rewrite Io. apply Ew.
  - intros Hn. apply K2. intros d Hs Hw. exact (Hn d (proj2 (Wc d) (conj Hs Hw))).
Qed.

Lemma stored_rooted : forall e d path new, (forall o, repo_objects e d path o <-> reach new o) -> complete new -> collision_free new -> acyclic new ->
  let S := repo_objects e d path in collision_free S /\ well_typed S /\ acyclic S /\ rooted S /\ complete S.
Proof.
  intros e d path new H Co Cf Ac S.
  assert (C1 : collision_free S) by (apply (collision_sub _ new); [intros o Ho; apply H in Ho; exact (reach_S _ _ Ho)|exact Cf]).
  assert (C2 : complete S) by (apply (complete_ext (reach new)); [intros o; symmetry; apply H|apply complete_reach; exact Co]).
  split; [exact C1|]. split; [exact (complete_typed _ C1 C2)|]. split; [|split; [exact (complete_rooted _ C2)|exact C2]].
  apply (acyclic_sub _ new); [intros o Ho; apply H in Ho; exact (reach_S _ _ Ho)|exact Ac].
Qed.

(** The demo repository after its first push. *)
Lemma ex_state : exists w, no_failure w /\ sound_db (w_db w) /\ d_refs (w_db w) = [] /\
  (forall o, repo_objects ex_env (w_db w) (bs "/demo") o <-> reach (fun o => In o ex_hist) o) /\
  exists fuel0 p, forall fuel, (fuel0 <= fuel)%nat ->
    decode Release stored no_objects fuel (pack_of ex_hist) = Ok p /\ save_packfile ex_env fuel (p_cache p) (bs "/demo") (world_of db_empty) = (w, Ok tt).
Proof.
  destruct (ex_pack no_objects) as (o1 & G1 & E1).
  assert (Hs : history (bs "/demo") (map snd o1)) by (rewrite E1; apply ex_hist_ok; reflexivity).
  destruct (first_push ex_env Release stored no_objects (bs "/demo") _ o1 (world_of db_empty) ex_env_ok eq_refl eq_refl eq_refl G1 ex_pack_small Hs)
    as (fuel0 & p & w & Q & Sd & Er & Io & K). exists w. split; [exact Q|]. split; [exact Sd|]. split; [exact Er|]. rewrite E1 in Io.
  split; [exact Io|]. eauto.
Qed.
Lemma ex_wanted : forall w, (forall o, repo_objects ex_env (w_db w) (bs "/demo") o <-> reach (fun o => In o ex_hist) o) ->
  wanted_objects ex_env (w_db w) (bs "/demo") [to_plain_str (oid ex_top)] ex_top.
Proof.
  intros w Io. split; [apply Io; apply reach_commit; [left; reflexivity|reflexivity]|].
  intros _. exists (to_plain_str (oid ex_top)), (oid ex_top). split; [left; reflexivity|].
  assert (Hi : obj_id ex_top (oid ex_top)).
  { apply oid_id. pose proof (hs_sound _ _ (proj1 (ex_hist_ok (bs "/demo") eq_refl))) as F. rewrite Forall_forall in F. apply F. left. reflexivity. }
  split; [apply plain_lower; exact (obj_id_ok _ _ Hi)|exact Hi].
Qed.
Lemma ex_few : forall (S : object -> Prop), (forall o, S o -> In o ex_hist) -> few S.
Proof. intros S H. exists ex_hist. split; [reflexivity|exact H]. Qed.
Example C54_ex : exists w, no_failure w /\ sound_db (w_db w) /\
  let S := repo_objects ex_env (w_db w) (bs "/demo") in
  let W := wanted_objects ex_env (w_db w) (bs "/demo") [to_plain_str (oid ex_top)] in
  collision_free S /\ well_typed S /\ acyclic S /\ rooted S /\ few (fun o => fst o <> Commit /\ reach W o) /\ exists d, W (Commit, d).
Proof.
  destruct ex_state as (w & Q & Sd & _ & Io & _). exists w. split; [exact Q|]. split; [exact Sd|]. intros S W.
  destruct (ex_hist_ok (bs "/demo") eq_refl) as [[H1 H2 H3 H4 H5] _].
  destruct (stored_rooted _ _ _ _ Io H2 H3 H4) as (C1 & C2 & C3 & C4 & _). do 4 (split; [assumption|]). split.
  - apply ex_few. intros o [_ Ho]. apply reach_S in Ho as [Ho _]. apply Io in Ho. exact (reach_S _ _ Ho).
  - exists (snd ex_top). exact (ex_wanted w Io).
Qed.
Theorem C54_wanted_commit_refuted : exists e c path want have w d, env_ok e /\ codec_ok c /\ no_failure w /\ sound_db (w_db w) /\
  wanted_objects e (w_db w) path want (Commit, d) /\
  exists fuel0, forall fuel, (fuel0 <= fuel)%nat -> exists w' out objs,
    get_incremental_pack_data e c fuel path want have w = (w', Ok out) /\ git_pack c no_objects out objs /\ ~ In (Commit, d) (map snd objs).
Proof.
  destruct C54_ex as (w & Q & Sd & C1 & C2 & C3 & C4 & C5 & d & C6).
  destruct (C54_incremental_pack ex_env stored no_objects (bs "/demo") [to_plain_str (oid ex_top)] [] w ex_env_ok stored_ok Q Sd C1 C2 C3 C4 C5) as (fuel0 & K).
  exists ex_env, stored, (bs "/demo"), [to_plain_str (oid ex_top)], [], w, d.
  split; [exact ex_env_ok|]. split; [exact stored_ok|]. split; [exact Q|]. split; [exact Sd|]. split; [exact C6|].
  exists fuel0. intros fuel Hf. destruct (K fuel Hf) as [K1 _]. destruct K1 as (w' & out & objs & E & _ & G & _ & Io); [eauto|].
  exists w', out, objs. split; [exact E|]. split; [exact G|]. intros Hi. apply Io in Hi as [N _]. apply N. reflexivity.
Qed.

(** ** C55: updates of references *)

(** Either one reference with the old id, in a repository the server takes for this
    one, gets the new id and nothing else changes; or there is none and the request
    aborts. The name in the command plays no role. *)
Theorem C55_one_reference : forall e cmd path w, env_ok e -> no_failure w -> refs_table (w_db w) ->
  (exists h, id_ok h /\ lower_hex (rc_new_id cmd) h) ->
  (exists w' r l1 l2, update_refs e cmd path w = (w', Ok tt) /\
     teq e (r_ref_git_id r) (rc_old_id cmd) = true /\ teq e (r_repo_path r) path = true /\
     d_refs (w_db w) = l1 ++ r :: l2 /\ w_db w' = with_refs (w_db w) (l1 ++ with_id r (rc_new_id cmd) :: l2)) \/
  (exists w', update_refs e cmd path w = (w', Panic) /\ w_db w' = w_db w /\
     forall r, In r (d_refs (w_db w)) -> teq e (r_ref_git_id r) (rc_old_id cmd) = true -> teq e (r_repo_path r) path = true -> False).
Proof.
  intros e cmd path w He Q T (h & Hh & Hl).
  assert (V : varchar 40 (rc_new_id cmd) = true).
  { rewrite (lower_hex_plain _ _ Hl). apply N.leb_le, plain_chars. exact Hh. }
  destruct (update_run e cmd path w He Q T V) as [(w' & r & l1 & l2 & E & K1 & K2 & K3 & K4 & _)|(w' & E & D & _ & K)].
  - left. exists w', r, l1, l2. auto.
  - right. exists w'. auto.
Qed.
(** If exactly one reference of the repository has the old id, it is moved. *)
Theorem C55_only_candidate : forall e cmd path w l1 r l2, env_ok e -> no_failure w -> refs_table (w_db w) ->
  (exists h, id_ok h /\ lower_hex (rc_new_id cmd) h) ->
  d_refs (w_db w) = l1 ++ r :: l2 -> r_ref_git_id r = rc_old_id cmd -> teq e (r_repo_path r) path = true ->
  (forall x, In x (l1 ++ l2) -> teq e (r_ref_git_id x) (rc_old_id cmd) = true -> teq e (r_repo_path x) path = true -> False) ->
  exists w', update_refs e cmd path w = (w', Ok tt) /\ w_db w' = with_refs (w_db w) (l1 ++ with_id r (rc_new_id cmd) :: l2).
Proof.
  intros e cmd path w l1 r l2 He Q T Hn El E1 E2 Uq. pose proof (proj1 (proj2 He)) as Rf.
  destruct (C55_one_reference e cmd path w He Q T Hn) as [(w' & r' & a & b & E & K1 & K2 & Er & D)|(w' & E & D & K)].
  - assert (Hr : r' = r).
    { assert (Hi : In r' (l1 ++ r :: l2)) by (rewrite <- El, Er; apply in_elt). apply in_app_iff in Hi as [Hi|[Hi|Hi]]; [| |].
      - destruct (Uq r'); [apply in_or_app; auto|assumption|assumption].
      - congruence.
      - destruct (Uq r'); [apply in_or_app; auto|assumption|assumption]. }
    subst r'. destruct T as [Nd _]. rewrite Er in El.
    assert (Ea : a = l1 /\ b = l2).
    { rewrite Er in Nd. assert (Nl : NoDup (a ++ r :: b)) by (apply (NoDup_map_inv r_id); exact Nd). clear Uq Nd Er. revert l1 El Nl. clear. induction a as [|x a IH]; intros [|y l1] El Nl; cbn [app] in El.
      - injection El as ->. auto.
      - injection El as -> ->. exfalso. inversion Nl as [|? ? N1 N2]; subst. apply N1. apply in_elt.
      - injection El as -> <-. exfalso. inversion Nl as [|? ? N1 N2]; subst. apply N1. apply in_elt.
      - injection El as -> El. inversion Nl; subst. destruct (IH l1 El) as [-> ->]; [assumption|auto]. }
    destruct Ea as [-> ->]. exists w'. auto.
  - destruct (K r); [rewrite El; apply in_elt|rewrite E1; apply Rf|exact E2].
Qed.

Definition two_refs (a b : bytes) : db :=
  mkDb [] [] [mkRef 1 (bs "/demo") (bs "refs/heads/master") a; mkRef 2 (bs "/demo") (bs "refs/heads/dev") b] 3.
Lemma two_refs_table : forall a b, refs_table (two_refs a b).
Proof.
  intros a b. split; [cbn; repeat constructor; cbn; intuition discriminate|]. intros r [<-|[<-|[]]]; reflexivity.
Qed.
Example C55_ex : exists w cmd l1 r l2, no_failure w /\ refs_table (w_db w) /\ (exists h, id_ok h /\ lower_hex (rc_new_id cmd) h) /\
  d_refs (w_db w) = l1 ++ r :: l2 /\ r_ref_git_id r = rc_old_id cmd /\ r_repo_path r = bs "/demo" /\
  (forall x, In x (l1 ++ l2) -> teq ex_env (r_ref_git_id x) (rc_old_id cmd) = true -> teq ex_env (r_repo_path x) (bs "/demo") = true -> False) /\ l1 ++ l2 <> [].
Proof.
  exists (world_of (two_refs (to_plain_str (repeat 1 20)) (to_plain_str (repeat 2 20)))),
    (ref_command_new (to_plain_str (repeat 2 20)) (to_plain_str (repeat 3 20)) (bs "refs/heads/dev")),
    [mkRef 1 (bs "/demo") (bs "refs/heads/master") (to_plain_str (repeat 1 20))],
    (mkRef 2 (bs "/demo") (bs "refs/heads/dev") (to_plain_str (repeat 2 20))), [].
  split; [reflexivity|]. split; [apply two_refs_table|].
  split; [exists (repeat 3 20); assert (Hi : id_ok (repeat 3 20)) by (split; [reflexivity|apply bytes_check; reflexivity]); split; [exact Hi|apply plain_lower; exact Hi]|].
  do 3 (split; [reflexivity|]). split; [|discriminate]. intros x [<-|[]] E _. vm_compute in E. discriminate.
Qed.
(** Two references on one commit: a command for one moves the other. *)
Theorem C55_other_moved_refuted : exists e cmd path w w' r1 r2, env_ok e /\ no_failure w /\ refs_table (w_db w) /\
  d_refs (w_db w) = [r1; r2] /\ r_repo_path r1 = path /\ r_repo_path r2 = path /\ r_ref_name r1 <> r_ref_name r2 /\
  rc_ref_name cmd = r_ref_name r2 /\ rc_old_id cmd = r_ref_git_id r2 /\ rc_old_id cmd <> rc_new_id cmd /\
  update_refs e cmd path w = (w', Ok tt) /\ d_refs (w_db w') = [with_id r1 (rc_new_id cmd); r2].
Proof.
  set (a := to_plain_str (repeat 1 20)). set (b := to_plain_str (repeat 3 20)).
  exists ex_env, (ref_command_new a b (bs "refs/heads/dev")), (bs "/demo"), (world_of (two_refs a a)).
  eexists. exists (mkRef 1 (bs "/demo") (bs "refs/heads/master") a), (mkRef 2 (bs "/demo") (bs "refs/heads/dev") a).
  split; [exact ex_env_ok|]. split; [reflexivity|]. split; [apply two_refs_table|]. do 3 (split; [reflexivity|]). split; [discriminate|].
  do 2 (split; [reflexivity|]). split; [discriminate|]. split; [vm_compute; reflexivity|]. vm_compute. reflexivity.
Qed.

(** ** C56: batches *)

Theorem C56_all_rows_in_order : forall l, concat (batches 0 [] l) = l /\ Forall (fun b => (length b <= 50)%nat) (batches 0 [] l).
Proof. intros l. split; [apply batches_concat|apply batches_len; cbn; lia]. Qed.
(** Each batch is one statement: all rows arrive, and a server that stops in between
    has a prefix of them. *)
Theorem C56_saved : forall e l w, no_failure w -> Forall (fun r => node_fits r = true) l ->
  match l with [] => True | r :: _ => nlen (n_data r) < 10 * 1024 * 1024 end ->
  exists w' states, save_nodes e l w = (w', Ok tt) /\ w_log w' = w_log w ++ states /\ w_db w' = with_nodes (w_db w) l /\
    forall d, In d states -> exists p q, l = p ++ q /\ d = with_nodes (w_db w) p.
Proof.
  intros e l w Q F H.
  destruct (insert_batches_run e (batches 0 [] l) w Q) as (w' & st & E & M & D & L).
  - apply Forall_impl with (P := fun x => x <> []); [auto|]. destruct l as [|r l]; [constructor|]. apply batches_start. exact H.
  - rewrite batches_concat. apply forallb_forall. rewrite Forall_forall in F. exact F.
  - rewrite batches_concat in D, L. exists w', st. split; [exact E|]. split; [exact (mv_log _ _ _ M)|]. auto.
Qed.
Example C56_ex : Forall (fun r => node_fits r = true) (repeat (mkNode (bs "id") (bs "blob") (bs "n") [] (bs "data")) 120) /\
  length (batches 0 [] (repeat (mkNode (bs "id") (bs "blob") (bs "n") [] (bs "data")) 120)) = 3%nat.
Proof. split; [|vm_compute; reflexivity]. apply Forall_forall. intros r Hr. apply repeat_spec in Hr. subst. reflexivity. Qed.

Definition big_row (n : N) : node_row := mkNode (bs "id") (bs "blob") (bs "n") [] (repeat 0 (N.to_nat n)).
Lemma big_row_len : forall n, nlen (n_data (big_row n)) = n.
Proof. intros n. unfold big_row, nlen. cbn [n_data]. rewrite repeat_length. lia. Qed.
Lemma three_rows : forall r, nlen (n_data r) = 6291456 -> batches 0 [] [r; r; r] = [[r]; [r; r]].
Proof.
  intros r E. cbn [batches]. rewrite E. reflexivity.
Qed.
(** The size of the row that starts a batch is not counted. *)
Theorem C56_limit_refuted : exists l, Forall (fun r => nlen (n_data r) < 10 * 1024 * 1024) l /\
  exists b, In b (batches 0 [] l) /\ 10 * 1024 * 1024 < fold_right (fun r n => nlen (n_data r) + n) 0 b.
Proof.
  pose proof (big_row_len 6291456) as E. generalize dependent (big_row 6291456). intros r E.
  exists [r; r; r]. split; [repeat constructor; rewrite E; reflexivity|].
  exists [r; r]. split; [rewrite (three_rows r E); right; left; reflexivity|]. cbn [fold_right]. rewrite E. reflexivity.
Qed.
(** A large first row makes the first batch empty; a server that rejects an INSERT
    without rows then aborts the push. *)
Theorem C56_large_first_row : forall e r l w, no_failure w -> 10 * 1024 * 1024 <= nlen (n_data r) ->
  hd_error (batches 0 [] (r :: l)) = Some [] /\
  (empty_insert e = false -> save_nodes e (r :: l) w = (w, Panic)).
Proof.
  intros e r l w Q H. cbn [batches]. rewrite N.add_0_l. replace (nlen (n_data r) <? batch_limit) with false by (symmetry; apply N.ltb_ge; exact H).
  cbn [andb hd_error]. split; [reflexivity|]. intros E. unfold save_nodes. cbn [batches]. rewrite N.add_0_l.
  replace (nlen (n_data r) <? batch_limit) with false by (symmetry; apply N.ltb_ge; exact H). cbn [andb insert_batches].
  unfold execute, attempt, mbind. rewrite Q. cbn [negb insert_nodes]. rewrite E. reflexivity.
Qed.
Example C56_large_ex : no_failure (world_of db_empty) /\ exists r, 10 * 1024 * 1024 <= nlen (n_data r) /\ node_fits r = true.
Proof.
  split; [reflexivity|]. exists (big_row 10485760). pose proof (big_row_len 10485760) as E. unfold node_fits.
  assert (H : forall d : bytes, nlen d = 10485760 -> nlen d <=? 16777215 = true) by (intros d ->; reflexivity).
  split; [rewrite E; discriminate|]. rewrite (H _ E). reflexivity.
Qed.

(** A checker for finite object graphs, for the concrete cases beside the theorems. *)

From Coq Require Import Permutation.
From Verif Require Import Base BaseLemmas Digest ModelUtils ModelObject ModelBase ModelPack ModelStorage
  SpecObject SpecIdx SpecBase SpecPack SpecStorage ProofObject ProofUtf8 ProofBase ProofPack ProofNodes ProofStorage ProofPush ProofClone ProofReq.
Open Scope N_scope.

(** The id of an object, its root tree, its entries. *)
Definition oid (o : object) : hash := match meta_new (fst o) (snd o) with Ok m => m_id m | _ => [] end.
Lemma oid_eq : forall o h, obj_id o h -> oid o = h.
Proof. intros o h H. unfold oid. rewrite (meta_new_id _ _ H). reflexivity. Qed.
Lemma oid_id : forall o, sound_object o -> obj_id o (oid o).
Proof.
  intros [t d] (_ & _ & H). destruct (meta_new_obj t d) as (h & Hi & _).
  { cbn [fst] in H. destruct t; try contradiction; eexists; constructor. }
  rewrite (oid_eq _ _ Hi). exact Hi.
Qed.
Definition bare (o : object) : meta := mkMeta (fst o) [] (nlen (snd o)) (snd o) [].
Definition root_of (o : object) : option hash := match commit_new (bare o) with Ok c => Some (cm_tree_id c) | _ => None end.
Definition entries_of (o : object) : option (list tree_item) := match tree_new (bare o) with Ok t => Some (t_items t) | _ => None end.

Definition otype_eqb (a b : otype) : bool :=
  match a, b with
  | Commit, Commit | Tree, Tree | Blob, Blob | Tag, Tag | OffsetDelta, OffsetDelta | HashDelta, HashDelta => true
  | _, _ => false
  end.
Lemma otype_eqb_eq : forall a b, otype_eqb a b = true -> a = b.
Proof. intros [] []; (reflexivity || discriminate). Qed.

(** [ids] pairs the objects with their ids. *)
Definition named (ids : list (object * hash)) (t : otype) (h : hash) : bool :=
  existsb (fun x => otype_eqb (fst (fst x)) t && beq (snd x) h) ids.
Fixpoint place (ids : list (object * hash)) (h : hash) : nat :=
  match ids with
  | [] => O
  | x :: r => if beq (snd x) h then length ids else place r h
  end.
Definition short_name (l : bytes) : bool := forallb (fun b => b <? 128) l && (nlen l <=? 128).
Definition entry_check (ids : list (object * hash)) (h : hash) (i : tree_item) : bool :=
  negb (otype_eqb (entry_type (ti_type i)) Commit) && named ids (entry_type (ti_type i)) (ti_id i) &&
  (negb (otype_eqb (entry_type (ti_type i)) Tree) || (place ids (ti_id i) <? place ids h)%nat).
Fixpoint distinct (l : list bytes) : bool :=
  match l with [] => true | x :: r => negb (existsb (beq x) r) && distinct r end.
Definition object_check (ids : list (object * hash)) (x : object * hash) : bool :=
  (nlen (snd (fst x)) <=? 10485759) && forallb (fun b => b <? 256) (snd (fst x)) &&
  match fst (fst x) with
  | Commit => match root_of (fst x) with Some tid => named ids Tree tid | None => false end
  | Tree => match entries_of (fst x) with
            | Some items => distinct (map ti_filename items) && forallb (entry_check ids (snd x)) items
            | None => false end
  | Blob | Tag => true
  | _ => false
  end.
(** The graph, and what the columns for it hold. *)
Definition shape_check (objs : list object) : bool :=
  let ids := map (fun o => (o, oid o)) objs in
  distinct (map snd ids) && forallb (object_check ids) ids.
Definition small_commit (o : object) : bool :=
  match fst o with Commit => nlen (snd o) <=? 65535 | _ => true end.
Definition small_names (o : object) : bool :=
  match fst o with
  | Tree => match entries_of o with Some items => forallb (fun i => short_name (ti_filename i)) items | None => false end
  | _ => true
  end.
Definition graph_check (objs : list object) : bool :=
  shape_check objs && forallb small_commit objs && forallb small_names objs.

Lemma distinct_nodup : forall l, distinct l = true -> NoDup l.
Proof.
  induction l as [|x l IH]; cbn [distinct]; intros H; [constructor|]. apply andb_true_iff in H as [H1 H2]. constructor; [|auto].
  intros Hi. apply negb_true_iff in H1. apply (existsb_beq x l) in Hi. congruence.
Qed.

Section Check.
Context (objs : list object) (H : shape_check objs = true).
Context (Hc : forall d, In (Commit, d) objs -> exists tid, commit_root d tid) (Hg : forall d, In (Tag, d) objs -> sound_object (Tag, d)).
Let ids := map (fun o => (o, oid o)) objs.
Let S := fun o => In o objs.

Lemma checked : forall o, In o objs -> object_check ids (o, oid o) = true.
Proof.
  intros o Ho. unfold shape_check in H. apply andb_true_iff in H as [_ K]. rewrite forallb_forall in K. apply K.
  apply in_map_iff. eauto.
Qed.
Lemma check_entries : forall d items, In (Tree, d) objs -> git_tree items d -> NoDup (map ti_filename items) /\ forall i, In i items -> entry_check ids (oid (Tree, d)) i = true.
Proof.
  intros d items Hd G. pose proof (checked _ Hd) as K. unfold object_check in K. cbn [fst snd] in K. apply andb_true_iff in K as [_ K].
  unfold entries_of in K. rewrite (git_tree_new (bare (Tree, d)) items G) in K. cbn [t_items] in K. apply andb_true_iff in K as [K1 K2].
  split; [apply distinct_nodup; exact K1|]. apply forallb_forall. exact K2.
Qed.
Lemma check_size : forall o, In o objs -> nlen (snd o) <= 10485759 /\ bytes_ok (snd o).
Proof.
  intros o Ho. pose proof (checked _ Ho) as K. unfold object_check in K. cbn [fst snd] in K.
  apply andb_true_iff in K as [K _]. apply andb_true_iff in K as [K1 K2]. apply N.leb_le in K1. split; [exact K1|].
  rewrite forallb_forall in K2. apply Forall_forall. intros b Hb. apply N.ltb_lt, K2, Hb.
Qed.
Lemma check_sound : Forall sound_object objs.
Proof.
  apply Forall_forall. intros [t d] Ho. destruct (check_size _ Ho) as [K1 K2]. cbn [snd] in *.
  destruct (otype_eqb t Tag) eqn:Et; [apply otype_eqb_eq in Et; subst; auto|].
  split; [exact K2|]. split; [cbn [snd]; lia|]. pose proof (checked _ Ho) as K. unfold object_check in K. cbn [fst snd] in K |- *.
  apply andb_true_iff in K as [_ K]. destruct t; try discriminate; [auto| |exact I].
  unfold entries_of in K. destruct (tree_new (bare (Tree, d))) as [t| | |] eqn:E; try discriminate.
  apply tree_new_spec in E as (_ & _ & G). cbn [bare m_data snd] in G. exists (t_items t). split; [exact G|].
  exact (proj1 (check_entries _ _ Ho G)).
Qed.
Lemma named_in : forall t h, named ids t h = true -> exists d, In (t, d) objs /\ obj_id (t, d) h.
Proof.
  intros t h K. unfold named in K. apply existsb_exists in K as (x & Hx & K). apply in_map_iff in Hx as ([t' d] & <- & Ho).
  cbn [fst snd] in K. apply andb_true_iff in K as [K1 K2]. apply otype_eqb_eq in K1. apply beq_eq in K2. subst.
  exists d. split; [exact Ho|]. apply oid_id. pose proof check_sound as F. rewrite Forall_forall in F. auto.
Qed.
Lemma check_complete : complete S.
Proof.
  intros o t h Hr Hf. pose proof (reach_S _ _ Hr) as Ho. inversion Hf as [d tid Cr|d items i G Hi]; subst.
  - split; [discriminate|]. apply named_in. pose proof (checked _ Ho) as K. unfold object_check in K. cbn [fst snd] in K.
    apply andb_true_iff in K as [_ K]. unfold root_of in K. destruct (commit_root_new (bare (Commit, d)) _ Cr) as (c & E & _ & Et).
    rewrite E, Et in K. exact K.
  - pose proof (proj2 (check_entries _ _ Ho G) i Hi) as K. unfold entry_check in K.
    apply andb_true_iff in K as [K _]. apply andb_true_iff in K as [K1 K2]. split.
    + intros E. rewrite E in K1. discriminate.
    + apply named_in. exact K2.
Qed.
Lemma check_free : collision_free S.
Proof.
  intros a b h Ha Hb Ia Ib. apply oid_eq in Ia, Ib. unfold shape_check in H. apply andb_true_iff in H as [K _].
  apply distinct_nodup in K. rewrite map_map in K. cbn [snd] in K. unfold S in *. revert K Ha Hb. clear -Ia Ib. induction objs as [|o l IH]; intros K Ha Hb; [contradiction|].
  cbn [map] in K. inversion K as [|? ? N1 N2]; subst. destruct Ha as [->|Ha], Hb as [->|Hb]; [reflexivity| | |auto].
  - destruct N1. rewrite <- Ib. apply in_map_iff. eauto.
  - destruct N1. rewrite Ib. apply in_map_iff. eauto.
Qed.
Lemma check_acyclic : acyclic S.
Proof.
  exists (place ids). intros d h h' Ho Hi Hf. apply oid_eq in Hi. subst h. inversion Hf as [|d' items i G Hi E1 Et E3]; subst.
  pose proof (proj2 (check_entries _ _ Ho G) i Hi) as K. unfold entry_check in K.
  apply andb_true_iff in K as [_ K]. rewrite Et in K. cbn [otype_eqb negb orb] in K.
  rewrite Et. apply Nat.ltb_lt. exact K.
Qed.
Lemma text_ascii : forall l, Forall (fun b => b < 128) l -> text_len l (length l).
Proof.
  intros l F. exists l. split; [|split; [|reflexivity]].
  - eapply Forall_impl; [|exact F]. intros b K. cbn beta in K. left. lia.
  - induction F as [|b l K F IH]; [reflexivity|]. cbn [flat_map]. unfold utf8_char at 1. rewrite (proj2 (N.ltb_lt b 128) K). cbn [app]. congruence.
Qed.
Lemma short_text : forall l, short_name l = true -> exists n, text_len l n /\ (n <= 128)%nat.
Proof.
  intros l Q. unfold short_name in Q. apply andb_true_iff in Q as [Q1 Q2]. exists (length l). apply N.leb_le in Q2. unfold nlen in Q2.
  split; [|lia]. apply text_ascii. rewrite forallb_forall in Q1. apply Forall_forall. intros b Hb. apply N.ltb_lt, Q1, Hb.
Qed.
Lemma check_fits_nodes : forallb small_names objs = true -> forall path o, reach S o -> fst o <> Commit -> fits_columns path o.
Proof.
  intros Sm path o Hr Nc. pose proof (reach_S _ _ Hr) as Ho. destruct (check_size _ Ho) as [K _].
  destruct o as [t d]. unfold fits_columns. cbn [fst snd] in *. destruct t; try (cbn; lia); [contradiction|].
  split; [lia|]. split; [lia|]. intros items i G Hi. rewrite forallb_forall in Sm. specialize (Sm _ Ho). unfold small_names in Sm. cbn [fst] in Sm.
  unfold entries_of in Sm. rewrite (git_tree_new (bare (Tree, d)) items G) in Sm. cbn [t_items] in Sm. rewrite forallb_forall in Sm.
  apply short_text, Sm, Hi.
Qed.
Lemma check_fits : forallb small_commit objs = true -> forallb small_names objs = true ->
  forall path, short_name path = true -> forall o, reach S o -> fits_columns path o.
Proof.
  intros Sc Sm path Sp o Hr. destruct (otype_eqb (fst o) Commit) eqn:E.
  - apply otype_eqb_eq in E. pose proof (reach_S _ _ Hr) as Ho. rewrite forallb_forall in Sc. specialize (Sc _ Ho).
    unfold small_commit in Sc. unfold fits_columns. rewrite E in *. apply N.leb_le in Sc. split; [exact Sc|apply short_text; exact Sp].
  - apply check_fits_nodes; [exact Sm|exact Hr|]. intros K. rewrite K in E. discriminate.
Qed.
End Check.

(** Paths through a graph. *)
Lemma reach_commit : forall (S : object -> Prop) o, S o -> fst o = Commit -> reach S o.
Proof. intros S [t d] H E. cbn [fst] in E. subst. apply rc_commit. exact H. Qed.
Lemma reach_root : forall (S : object -> Prop) o x tid, reach S o -> fst o = Commit -> commit_root (snd o) tid -> S x -> fst x = Tree -> obj_id x tid -> reach S x.
Proof.
  intros S [t d] [t' d'] tid H E Cr Hx Ex Hi. cbn [fst snd] in *. subst. eapply rc_refers; [exact H|apply rf_root; exact Cr|discriminate|exact Hx|exact Hi].
Qed.
Lemma reach_item : forall (S : object -> Prop) o x items mode t h name, reach S o -> fst o = Tree -> git_tree items (snd o) ->
  In (mkTreeItem mode t h name) items -> entry_type t <> Commit -> S x -> fst x = entry_type t -> obj_id x h -> reach S x.
Proof.
  intros S [t0 d] [t' d'] items mode t h name H E G Hi N Hx Ex Hid. cbn [fst snd] in *. subst.
  eapply rc_refers; [exact H|exact (rf_entry d items _ G Hi)|exact N|exact Hx|exact Hid].
Qed.
Lemma refers_root : forall o tid, fst o = Commit -> commit_root (snd o) tid -> refers o Tree tid.
Proof. intros [t d] tid E H. cbn [fst snd] in *. subst. apply rf_root. exact H. Qed.
Lemma refers_item : forall o items mode t h name, fst o = Tree -> git_tree items (snd o) -> In (mkTreeItem mode t h name) items ->
  refers o (entry_type t) h.
Proof. intros [t0 d] items mode t h name E G Hi. cbn [fst snd] in *. subst. exact (rf_entry d items _ G Hi). Qed.
Lemma object_eq : forall (t : otype) (d : bytes) (o : object), o = (t, d) -> d = snd o.
Proof. intros t d o ->. reflexivity. Qed.
Lemma refers_tree_inv : forall d t h items, refers (Tree, d) t h -> git_tree items d -> exists mode ty name,
  In (mkTreeItem mode ty h name) items /\ t = entry_type ty.
Proof.
  intros d t h items H G. inversion H as [|d' items' i G' Hi]; subst. rewrite (git_tree_fun _ _ _ G' G) in Hi.
  destruct i as [mode ty id name]. exists mode, ty, name. auto.
Qed.
Lemma refers_commit_inv : forall d t h tid, refers (Commit, d) t h -> commit_root d tid -> t = Tree /\ h = tid.
Proof. intros d t h tid H C. inversion H as [d' tid' C'|]; subst. split; [reflexivity|exact (commit_root_fun _ _ _ C' C)]. Qed.
Lemma item_inv : forall a b h c a' b' h' c', mkTreeItem a b h c = mkTreeItem a' b' h' c' -> a = a' /\ b = b' /\ h = h' /\ c = c'.
Proof. intros a b h c a' b' h' c' H. injection H as -> -> -> ->. auto. Qed.

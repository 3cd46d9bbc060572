(** C108: comparing objects. *)

From Verif Require Import Base BaseLemmas Digest ModelObject ModelBase ModelDecode SpecObject SpecBase ProofObject ProofBase ProofDecode ProofExample PropPack PropBase PropDecode.
Open Scope N_scope.

(** What the traits Ord and Eq demand. *)
Record lawful_order {A} (cmp : A -> A -> comparison) : Prop := {
  lo_refl : forall a, cmp a a = Eq;
  lo_sym : forall a b, cmp b a = CompOpp (cmp a b);
  lo_lt : forall a b c, cmp a b = Lt -> cmp b c = Lt -> cmp a c = Lt;
  lo_eq : forall a b c, cmp a b = Eq -> cmp b c = cmp a c }.
Record equivalence {A} (eqb : A -> A -> bool) : Prop := {
  eq_refl' : forall a, eqb a a = true;
  eq_sym' : forall a b, eqb a b = eqb b a;
  eq_trans' : forall a b c, eqb a b = true -> eqb b c = true -> eqb a c = true }.
(** Comparing as equal is the same as being equal. *)
Definition agree {A} (cmp : A -> A -> comparison) (eqb : A -> A -> bool) : Prop := forall a b, eqb a b = true <-> cmp a b = Eq.

Lemma size_order : forall A (size : A -> N), lawful_order (fun a b => size b ?= size a).
Proof.
  intros A size. constructor.
  - intros a. apply N.compare_refl.
  - intros a b. apply N.compare_antisym.
  - intros a b c H K. rewrite N.compare_lt_iff in *. lia.
  - intros a b c H. apply N.compare_eq_iff in H. rewrite H. reflexivity.
Qed.
Lemma name_order : forall A (name : A -> bytes) (size : A -> N),
  lawful_order (fun a b => match bcmp (name b) (name a) with Eq => size b ?= size a | o => o end).
Proof.
  intros A name size. constructor.
  - intros a. rewrite bcmp_refl. apply N.compare_refl.
  - intros a b. rewrite (bcmp_antisym (name b) (name a)). destruct (bcmp (name b) (name a)); [apply N.compare_antisym|reflexivity|reflexivity].
  - intros a b c H K. destruct (bcmp (name b) (name a)) eqn:E1; try discriminate H.
    + apply bcmp_eq in E1. rewrite <- E1. destruct (bcmp (name c) (name b)) eqn:E2; try discriminate K; [|reflexivity].
      rewrite N.compare_lt_iff in *. lia.
    + destruct (bcmp (name c) (name b)) eqn:E2; try discriminate K.
      * apply bcmp_eq in E2. rewrite E2, E1. reflexivity.
      * rewrite (bcmp_trans _ _ _ E2 E1). reflexivity.
  - intros a b c H. destruct (bcmp (name b) (name a)) eqn:E1; try discriminate H. apply bcmp_eq in E1. apply N.compare_eq_iff in H. rewrite E1, H. reflexivity.
Qed.
(** The orders are total orders and the equalities are equivalences, so sorting is
    well defined. *)
Theorem C108_orders : lawful_order commit_cmp /\ lawful_order tag_cmp /\ lawful_order tree_cmp /\ lawful_order blob_cmp.
Proof. split; [apply size_order|]. split; [apply size_order|]. split; [apply name_order|apply name_order]. Qed.
Theorem C108_equalities : equivalence commit_eqb /\ equivalence tag_eqb /\ equivalence tree_eqb /\ equivalence blob_eqb.
Proof.
  assert (Ns : forall A (f : A -> N), equivalence (fun a b => f a =? f b)).
  { intros A f. constructor; [intros; apply N.eqb_refl|intros; apply N.eqb_sym|]. intros a b c H K. rewrite N.eqb_eq in *. congruence. }
  assert (Bs : forall A (f : A -> bytes), equivalence (fun a b => beq (f a) (f b))).
  { intros A f. constructor; [intros; apply beq_refl| |].
    - intros a b. destruct (beq (f a) (f b)) eqn:E; symmetry; [apply beq_eq in E; rewrite E; apply beq_refl|apply beq_neq in E; apply beq_neq; congruence].
    - intros a b c H K. rewrite beq_eq in *. congruence. }
  repeat split; try apply Ns; apply Bs.
Qed.
Theorem C108_agree_size : agree commit_cmp commit_eqb /\ agree tag_cmp tag_eqb.
Proof. split; intros a b; unfold commit_eqb, tag_eqb, commit_cmp, tag_cmp; rewrite N.eqb_eq, N.compare_eq_iff; split; congruence. Qed.
(** Trees and blobs: never told apart by [==] after decoding; the order tells them
    apart by size. *)
Theorem C108_decoded_equal : forall m1 m2 a b, tree_new m1 = Ok a -> tree_new m2 = Ok b -> tree_eqb a b = true /\ blob_eqb (blob_new m1) (blob_new m2) = true.
Proof.
  intros m1 m2 a b E1 E2. unfold tree_new in *. apply bind_ok in E1 as (i1 & _ & E1). apply bind_ok in E2 as (i2 & _ & E2).
  injection E1 as <-. injection E2 as <-. split; reflexivity.
Qed.
Definition fine {A} (r : res A) : bool := match r with Ok _ => true | _ => false end.
Lemma trees_equal : forall m1 m2, fine (tree_new m1) = true -> fine (tree_new m2) = true -> m_size m1 <> m_size m2 ->
  exists a b, tree_new m1 = Ok a /\ tree_new m2 = Ok b /\ tree_eqb a b = true /\ tree_cmp a b <> Eq /\
  blob_eqb (blob_new m1) (blob_new m2) = true /\ blob_cmp (blob_new m1) (blob_new m2) <> Eq.
Proof.
  intros m1 m2 F1 F2 Ns. destruct (tree_new m1) as [a| | |] eqn:E1; try discriminate F1. destruct (tree_new m2) as [b| | |] eqn:E2; try discriminate F2.
  exists a, b. split; [reflexivity|]. split; [reflexivity|]. destruct (C108_decoded_equal _ _ _ _ E1 E2) as (K1 & K2). split; [exact K1|].
  unfold tree_new in E1, E2. apply bind_ok in E1 as (i1 & _ & E1). apply bind_ok in E2 as (i2 & _ & E2). injection E1 as <-. injection E2 as <-.
  unfold tree_cmp, blob_cmp, blob_new. cbn [t_name t_meta b_filename b_meta]. rewrite bcmp_refl.
  split; [|split; [exact K2|]]; intros K; apply N.compare_eq_iff in K; congruence.
Qed.
Theorem C108_agree_refuted : exists m1 m2 a b, tree_new m1 = Ok a /\ tree_new m2 = Ok b /\ tree_eqb a b = true /\ tree_cmp a b <> Eq /\
  blob_eqb (blob_new m1) (blob_new m2) = true /\ blob_cmp (blob_new m1) (blob_new m2) <> Eq.
Proof.
  exists tree_x, (ex_obj Tree []). apply trees_equal; [vm_compute; reflexivity|vm_compute; reflexivity|]. apply N.eqb_neq. vm_compute. reflexivity.
Qed.
(** Different commits of one size are equal for [==]. *)
Definition ex_two (text : bytes) : meta := ex_obj Commit (snd (commit_on ex_id1 [] text)).
Lemma commits_equal : forall m1 m2, fine (commit_new m1) = true -> fine (commit_new m2) = true -> m_size m1 = m_size m2 ->
  exists a b, commit_new m1 = Ok a /\ commit_new m2 = Ok b /\ commit_eqb a b = true.
Proof.
  intros m1 m2 F1 F2 Es. destruct (commit_new m1) as [a| | |] eqn:E1; try discriminate F1. destruct (commit_new m2) as [b| | |] eqn:E2; try discriminate F2.
  exists a, b. split; [reflexivity|]. split; [reflexivity|]. unfold commit_eqb. rewrite (commit_new_meta _ _ E1), (commit_new_meta _ _ E2). apply N.eqb_eq. exact Es.
Qed.
Theorem C108_identity_refuted : exists m1 m2 a b, commit_new m1 = Ok a /\ commit_new m2 = Ok b /\ commit_eqb a b = true /\ m_id m1 <> m_id m2 /\ m_data m1 <> m_data m2.
Proof.
  destruct (commits_equal (ex_two (bs "first")) (ex_two (bs "third"))) as (a & b & K1 & K2 & K3);
    [vm_compute; reflexivity|vm_compute; reflexivity|apply N.eqb_eq; vm_compute; reflexivity|].
  exists (ex_two (bs "first")), (ex_two (bs "third")), a, b. split; [exact K1|]. split; [exact K2|]. split; [exact K3|].
  split; apply beq_neq; vm_compute; reflexivity.
Qed.
Example C108_ex : exists a b, commit_cmp a b = Lt /\ exists c d, tree_cmp c d = Gt.
Proof.
  exists (mkCommit (ex_two (bs "longer")) [] [] an_author an_author []), (mkCommit (ex_two (bs "short")) [] [] an_author an_author []). split; [vm_compute; reflexivity|].
  exists (mkTree tree_x [] (bs "a")), (mkTree tree_x [] (bs "b")). vm_compute. reflexivity.
Qed.

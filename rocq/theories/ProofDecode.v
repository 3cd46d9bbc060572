(** Classification of the decoded objects, completeness check. *)

From Coq Require Import Permutation Wellfounded.
From Verif Require Import Base BaseLemmas ModelUtils ModelObject ModelBase ModelDelta ModelPack ModelIdx
  ModelDecode SpecObject SpecBase SpecDecode ProofObject ProofBase ProofPack.
Open Scope N_scope.

(** ** Parsing never gets stuck *)

Definition ok_or_panic {A} (r : res A) : Prop := (exists a, r = Ok a) \/ r = Panic.
Lemma oop_ok : forall A (a : A), ok_or_panic (Ok a).
Proof. intros. left. eexists. reflexivity. Qed.
Lemma oop_panic : forall A, @ok_or_panic A Panic.
Proof. intros. right. reflexivity. Qed.
Lemma oop_bind : forall A B (r : res A) (k : A -> res B), ok_or_panic r ->
  (forall a, r = Ok a -> ok_or_panic (k a)) -> ok_or_panic (bind r k).
Proof. intros A B r k [[a ->]| ->] H; [cbn [bind]; auto|right; reflexivity]. Qed.
Lemma oop_unwrap_opt : forall A (o : option A), ok_or_panic (unwrap_opt o).
Proof. intros A [a|]; [apply oop_ok|apply oop_panic]. Qed.
Lemma oop_unwrap : forall A (r : res A), r <> OutOfFuel -> ok_or_panic (unwrap r).
Proof. intros A [a| | |] H; [apply oop_ok|apply oop_panic|apply oop_panic|contradiction]. Qed.
Lemma oop_slice : forall A i j (l : list A), ok_or_panic (slice i j l).
Proof. intros. apply slice_ok_or_panic. Qed.
Lemma oop_slice_from : forall A i (l : list A), ok_or_panic (slice_from i l).
Proof. intros. unfold slice_from. destruct (_ <=? _)%nat; [apply oop_ok|apply oop_panic]. Qed.
Lemma oop_utf8 : forall l, ok_or_panic (utf8_unwrap l).
Proof. intros. unfold utf8_unwrap. destruct (utf8_valid l); [apply oop_ok|apply oop_panic]. Qed.
Lemma oop_pred : forall n, ok_or_panic (pred_or_panic n).
Proof. intros [|n]; [apply oop_panic|apply oop_ok]. Qed.
#[global] Hint Resolve oop_ok oop_panic oop_unwrap_opt oop_slice oop_slice_from oop_utf8 oop_pred : oop.
Ltac oop := repeat (apply oop_bind; [solve [auto with oop]|intros ? _; cbn beta iota]); auto with oop.

Lemma sign_decode_oop : forall d, ok_or_panic (sign_decode d).
Proof. intros d. unfold sign_decode. oop. Qed.
Lemma header_value_oop : forall d, ok_or_panic (header_value d).
Proof. intros d. unfold header_value. oop. Qed.
Lemma take_line_oop : forall d, ok_or_panic (take_line d).
Proof. intros d. unfold take_line. oop. Qed.
#[global] Hint Resolve sign_decode_oop header_value_oop take_line_oop : oop.
Lemma parents_loop_oop : forall fuel i ab d acc, (ab - i < fuel)%nat -> ok_or_panic (parents_loop fuel i ab d acc).
Proof.
  induction fuel as [|f IH]; intros i ab d acc H; [lia|]. cbn [parents_loop].
  destruct (Nat.ltb_spec i ab); [|apply oop_ok].
  do 4 (apply oop_bind; [auto with oop|intros ? _]). apply IH. lia.
Qed.
Lemma commit_new_oop : forall m, ok_or_panic (commit_new m).
Proof.
  intros m. unfold commit_new.
  apply oop_bind; [auto with oop|]. intros [tt data] _.
  do 2 (apply oop_bind; [auto with oop|intros ? _]).
  apply oop_bind.
  { destruct (find_sub (bs "parent") data); [apply parents_loop_oop; lia|apply oop_ok]. }
  intros ps _. apply oop_bind; [auto with oop|intros ? _].
  apply oop_bind; [auto with oop|]. intros [al d2] _. apply oop_bind; [auto with oop|intros ? _].
  apply oop_bind; [auto with oop|]. intros [cl d3] _. oop.
Qed.
Lemma tag_new_oop : forall m, ok_or_panic (tag_new m).
Proof.
  intros m. unfold tag_new.
  apply oop_bind; [auto with oop|]. intros [tt data] _. apply oop_bind; [auto with oop|intros ? _].
  apply oop_bind; [auto with oop|]. intros [ty d2] _. apply oop_bind; [auto with oop|intros ? _].
  apply oop_bind.
  { apply oop_unwrap. unfold otype_from_string. repeat (destruct (beq _ _); [discriminate|]). discriminate. }
  intros ? _. apply oop_bind; [auto with oop|]. intros [nm d3] _. oop.
Qed.
Lemma push_object_oop : forall m v, ok_or_panic (push_object m v).
Proof.
  intros m v. unfold push_object. destruct (m_t m); auto with oop.
  - apply oop_bind; [apply commit_new_oop|intros; apply oop_ok].
  - apply oop_bind; [apply tree_new_total|intros; apply oop_ok].
  - apply oop_bind; [apply tag_new_oop|intros; apply oop_ok].
Qed.

Lemma push_parses : forall m v, (exists v', push_object m v = Ok v') <-> parses m.
Proof.
  intros m v. unfold push_object, parses. destruct (m_t m); split; intros H;
    try (destruct H as [v' H]; discriminate); try contradiction; try (eexists; reflexivity); try exact I.
  - destruct H as [v' H]. apply bind_ok in H as (c & H & _). exists c. assumption.
  - destruct H as [c H]. rewrite H. eexists. reflexivity.
  - destruct H as [v' H]. apply bind_ok in H as (c & H & _). exists c. assumption.
  - destruct H as [c H]. rewrite H. eexists. reflexivity.
  - destruct H as [v' H]. apply bind_ok in H as (c & H & _). exists c. assumption.
  - destruct H as [c H]. rewrite H. eexists. reflexivity.
Qed.

(** ** The thread pool *)

Ltac peel H := repeat (apply bind_ok in H; let x := fresh in destruct H as (x & _ & H); try destruct x as [? ?]; cbn beta iota in H).
Lemma commit_new_meta : forall m c, commit_new m = Ok c -> cm_meta c = m.
Proof. intros m c H. unfold commit_new in H. peel H. injection H as <-. reflexivity. Qed.
Lemma tag_new_meta : forall m c, tag_new m = Ok c -> tg_meta c = m.
Proof. intros m c H. unfold tag_new in H. peel H. injection H as <-. reflexivity. Qed.
Lemma tree_new_meta : forall m c, tree_new m = Ok c -> t_meta c = m.
Proof. intros m c H. apply tree_new_spec in H. apply H. Qed.

(** What the vectors hold, given the objects [done] handled so far. *)
Definition vinv (done : list meta) (v : vecs) : Prop :=
  classified done (v_blobs v) (v_commits v) (v_trees v) (v_tags v) /\ Forall parses done.

Lemma of_type_app : forall t a b, of_type t (a ++ b) = of_type t a ++ of_type t b.
Proof. intros. apply filter_app. Qed.
Lemma of_type_one : forall t m, of_type t [m] = if otype_eqb (m_t m) t then [m] else [].
Proof. reflexivity. Qed.
Lemma of_type_perm : forall t a b, Permutation a b -> Permutation (of_type t a) (of_type t b).
Proof.
  intros t a b H. unfold of_type. induction H as [|x a b _ IH|x y a|a b c _ IH1 _ IH2]; simpl.
  - constructor.
  - destruct (otype_eqb (m_t x) t); [constructor|]; assumption.
  - destruct (otype_eqb (m_t x) t), (otype_eqb (m_t y) t); try apply Permutation_refl. apply perm_swap.
  - eapply Permutation_trans; eassumption.
Qed.
Lemma vinv_empty : vinv [] vecs_empty.
Proof. split; [constructor; simpl; constructor|constructor]. Qed.
Lemma vinv_perm : forall a b v, Permutation a b -> vinv a v -> vinv b v.
Proof.
  intros a b v H [C P]. split; [|eapply Permutation_Forall; eassumption].
  destruct C. constructor; try assumption; eapply Permutation_trans; try eassumption; apply of_type_perm; assumption.
Qed.
Lemma vinv_push : forall done v m v', vinv done v -> push_object m v = Ok v' -> vinv (done ++ [m]) v'.
Proof.
  intros done v m v' [C P] H.
  assert (Pm : parses m) by (apply (push_parses m v); exists v'; assumption).
  split; [|apply Forall_app; split; [assumption|constructor; [assumption|constructor]]].
  destruct C as [C1 C2 C3 C4 C5 C6 C7 C8]. unfold push_object in H. unfold parses in Pm.
  destruct (m_t m) eqn:T; try contradiction.
  - apply bind_ok in H as (c & E & H). injection H as <-. apply commit_new_meta in E as Em.
    constructor; cbn [v_blobs v_commits v_trees v_tags]; rewrite ?of_type_app, ?map_app;
      rewrite ?of_type_one, ?T; cbn [otype_eqb]; rewrite ?app_nil_r; try assumption.
    + cbn [map]. rewrite Em. apply Permutation_app; [assumption|apply Permutation_refl].
    + apply Forall_app. split; [assumption|]. constructor; [rewrite Em; assumption|constructor].
  - apply bind_ok in H as (c & E & H). injection H as <-. apply tree_new_meta in E as Em.
    constructor; cbn [v_blobs v_commits v_trees v_tags]; rewrite ?of_type_app, ?map_app;
      rewrite ?of_type_one, ?T; cbn [otype_eqb]; rewrite ?app_nil_r; try assumption.
    + cbn [map]. rewrite Em. apply Permutation_app; [assumption|apply Permutation_refl].
    + apply Forall_app. split; [assumption|]. constructor; [rewrite Em; assumption|constructor].
  - injection H as <-.
    constructor; cbn [v_blobs v_commits v_trees v_tags]; rewrite ?of_type_app, ?map_app;
      rewrite ?of_type_one, ?T; cbn [otype_eqb]; rewrite ?app_nil_r; try assumption.
    + cbn [map blob_new b_meta]. apply Permutation_app; [assumption|apply Permutation_refl].
    + apply Forall_app. split; [assumption|]. constructor; [reflexivity|constructor].
  - apply bind_ok in H as (c & E & H). injection H as <-. apply tag_new_meta in E as Em.
    constructor; cbn [v_blobs v_commits v_trees v_tags]; rewrite ?of_type_app, ?map_app;
      rewrite ?of_type_one, ?T; cbn [otype_eqb]; rewrite ?app_nil_r; try assumption.
    + cbn [map]. rewrite Em. apply Permutation_app; [assumption|apply Permutation_refl].
    + apply Forall_app. split; [assumption|]. constructor; [rewrite Em; assumption|constructor].
Qed.

Definition pending (ws : list worker) : list meta := concat (map queue ws).
Lemma pending_mid : forall a w b, pending (a ++ w :: b) = pending a ++ queue w ++ pending b.
Proof. intros. unfold pending. rewrite map_app, concat_app. reflexivity. Qed.

(** Invariant of the pool for the objects [all]. *)
Definition pinv (all : list meta) (p : pool) : Prop :=
  match p with
  | Running ws v => exists done, vinv done v /\ Permutation (done ++ pending ws) all /\
      (forall a w b, ws = a ++ w :: b -> match w with
                     | Busy m _ => Forall (fun w' => ~ holds (m_t m) w') (a ++ b)
                     | Ready _ => True end)
  | Crashed => ~ Forall parses all
  end.

Lemma pinv_start : forall qs, pinv (concat qs) (Running (map Ready qs) vecs_empty).
Proof.
  intros qs. exists []. split; [apply vinv_empty|]. split.
  - simpl. unfold pending. rewrite map_map. cbn [queue]. rewrite map_id. apply Permutation_refl.
  - intros a w b E. assert (Hi : In w (map Ready qs)) by (rewrite E; apply in_or_app; right; left; reflexivity).
    apply in_map_iff in Hi as (q & <- & _). exact I.
Qed.

Lemma app_mid_cases : forall A (a b c d : list A) x y, a ++ x :: b = c ++ y :: d ->
  (a = c /\ x = y /\ b = d) \/ (exists e, c = a ++ x :: e /\ b = e ++ y :: d) \/
  (exists e, a = c ++ y :: e /\ d = e ++ x :: b).
Proof.
  induction a as [|z a IH]; intros b c d x y E; destruct c as [|w c]; simpl in E.
  - left. injection E as -> ->. auto.
  - right. left. injection E as -> ->. exists c. auto.
  - right. right. injection E as -> <-. exists a. auto.
  - injection E as -> E. destruct (IH _ _ _ _ _ E) as [(-> & -> & ->)|[(e & -> & ->)|(e & -> & ->)]];
      [left; auto|right; left; exists e; auto|right; right; exists e; auto].
Qed.

Lemma pinv_step : forall all p q, pinv all p -> pool_step p q -> pinv all q.
Proof.
  intros all p q H S. inversion S; subst; clear S; destruct H as (done & V & P & L).
  - exists done. split; [assumption|]. split.
    { rewrite pending_mid in *. exact P. }
    intros a' w b' E. apply app_mid_cases in E as [(<- & <- & <-)|[(e & -> & ->)|(e & -> & ->)]].
    + assumption.
    + (* another worker to the right *)
      destruct w as [|m' q']; [exact I|].
      assert (K := L (a ++ Ready (m :: q0) :: e) (Busy m' q') b').
      rewrite <- app_assoc in K. specialize (K eq_refl).
      rewrite <- app_assoc in K. cbn [app] in K. apply Forall_app in K as [K1 K2].
      inversion K2 as [|? ? _ K3]; subst. apply Forall_app in K3 as [K3 K4].
      rewrite <- app_assoc. cbn [app]. apply Forall_app. split; [assumption|].
      constructor; [|apply Forall_app; split; assumption].
      apply Forall_app in H0 as [_ H0]. apply Forall_app in H0 as [_ H0]. inversion H0 as [|? ? H1 _]; subst.
      cbn [holds] in *. congruence.
    + destruct w as [|m' q']; [exact I|].
      assert (K := L a' (Busy m' q') (e ++ Ready (m :: q0) :: b)).
      rewrite <- app_assoc in K. specialize (K eq_refl).
      apply Forall_app in K as [K1 K2]. apply Forall_app in K2 as [K2 K3]. inversion K3 as [|? ? _ K4]; subst.
      apply Forall_app. split; [assumption|]. apply Forall_app. split; [assumption|].
      constructor; [|assumption].
      apply Forall_app in H0 as [H0 _]. apply Forall_app in H0 as [_ H0]. inversion H0 as [|? ? H1 _]; subst.
      cbn [holds] in *. congruence.
  - exists (done ++ [m]). split; [eapply vinv_push; eassumption|]. split.
    { rewrite pending_mid in *. cbn [queue] in *. eapply Permutation_trans; [|exact P].
      rewrite <- app_assoc. apply Permutation_app_head. cbn [app]. apply Permutation_middle. }
    intros a' w b' E. apply app_mid_cases in E as [(<- & <- & <-)|[(e & -> & ->)|(e & -> & ->)]].
    + exact I.
    + destruct w as [|m' q']; [exact I|].
      assert (K := L (a ++ Busy m q0 :: e) (Busy m' q') b').
      rewrite <- app_assoc in K. specialize (K eq_refl).
      rewrite <- app_assoc in K. cbn [app] in K. apply Forall_app in K as [K1 K2].
      inversion K2 as [|? ? _ K3]; subst.
      rewrite <- app_assoc. cbn [app]. apply Forall_app. split; [assumption|]. constructor; [intros []|assumption].
    + destruct w as [|m' q']; [exact I|].
      assert (K := L a' (Busy m' q') (e ++ Busy m q0 :: b)).
      rewrite <- app_assoc in K. specialize (K eq_refl).
      apply Forall_app in K as [K1 K2]. apply Forall_app in K2 as [K2 K3]. inversion K3 as [|? ? _ K4]; subst.
      apply Forall_app. split; [assumption|]. apply Forall_app. split; [assumption|]. constructor; [intros []|assumption].
  - intros F. apply (Permutation_Forall (Permutation_sym P)) in F. apply Forall_app in F as [_ F].
    rewrite pending_mid in F. apply Forall_app in F as [_ F]. cbn [queue] in F. inversion F as [|? ? F1 _]; subst.
    apply (push_parses m v) in F1 as [v' F1]. congruence.
Qed.
Lemma pinv_steps : forall all p q, pool_steps p q -> pinv all p -> pinv all q.
Proof. induction 1; intros H1; [assumption|]. apply IHpool_steps. eapply pinv_step; eassumption. Qed.

(** Every execution is finite: each step does one of two things per object. *)
Definition work (ws : list worker) : nat :=
  fold_right (fun w n => match w with Ready q => 2 * length q | Busy _ q => 1 + 2 * length q end + n)%nat O ws.
Lemma work_mid : forall a w b, work (a ++ w :: b) =
  (work a + match w with Ready q => 2 * length q | Busy _ q => 1 + 2 * length q end + work b)%nat.
Proof. induction a as [|x a IH]; intros w b; cbn [app work fold_right]; [reflexivity|]. fold (work (a ++ w :: b)). rewrite IH. fold (work a). lia. Qed.
Definition pool_work (p : pool) : nat := match p with Running ws _ => S (work ws) | Crashed => O end.
Lemma pool_step_work : forall p q, pool_step p q -> (pool_work q < pool_work p)%nat.
Proof. intros p q H. inversion H; subst; cbn [pool_work]; rewrite ?work_mid; simpl length; lia. Qed.

(** No deadlock. *)
Definition is_ready (w : worker) : Prop := match w with Ready _ => True | Busy _ _ => False end.
Lemma is_ready_dec : forall w, {is_ready w} + {~ is_ready w}.
Proof. intros [q|m q]; simpl; auto. Qed.
Lemma is_idle_dec : forall w, {w = Ready []} + {w <> Ready []}.
Proof. intros [[|x q]|m q]; [left; reflexivity|right; discriminate|right; discriminate]. Qed.
Lemma pool_progress : forall all ws v, pinv all (Running ws v) -> pool_done ws \/ exists q, pool_step (Running ws v) q.
Proof.
  intros all ws v (done & V & P & L).
  destruct (Forall_Exists_dec is_ready is_ready_dec ws) as [F|E].
  - destruct (Forall_Exists_dec (fun w => w = Ready []) is_idle_dec ws) as [D|E].
    + left. exact D.
    + right. apply Exists_exists in E as (w & Hi & Hw). apply in_split in Hi as (a & b & ->).
      apply Forall_app in F as [F1 F2]. inversion F2 as [|? ? Fw F3]; subst.
      destruct w as [[|m q]|m q]; [contradiction| |contradiction].
      eexists. apply ps_lock. apply Forall_app. split; eapply Forall_impl; try eassumption;
        intros [q'|m' q'] K; cbn [holds]; tauto.
  - right. apply Exists_exists in E as (w & Hi & Hw). apply in_split in Hi as (a & b & ->).
    destruct w as [q|m q]; [contradiction Hw; exact I|].
    destruct (push_object_oop m v) as [[v' E]|E]; eexists; [eapply ps_push|eapply ps_panic]; eassumption.
Qed.

Lemma pool_done_pending : forall ws, pool_done ws -> pending ws = [].
Proof. induction 1 as [|w ws -> _ IH]; [reflexivity|exact IH]. Qed.
Lemma pool_done_inv : forall all ws v, pool_done ws -> pinv all (Running ws v) -> vinv all v.
Proof.
  intros all ws v D (done & V & P & _). rewrite (pool_done_pending ws D), app_nil_r in P.
  eapply vinv_perm; eassumption.
Qed.

(** One worker. *)
Lemma push_all_steps : forall l v v', push_all l v = Ok v' -> pool_steps (Running [Ready l] v) (Running [Ready []] v').
Proof.
  induction l as [|m l IH]; intros v v' H; cbn [push_all] in H.
  - injection H as <-. constructor.
  - apply bind_ok in H as (v1 & H1 & H). eapply pss_step; [apply (ps_lock [] m l []); constructor|].
    eapply pss_step; [apply (ps_push [] m l []); exact H1|]. apply IH. exact H.
Qed.
Lemma push_all_oop : forall l v, ok_or_panic (push_all l v).
Proof.
  induction l as [|m l IH]; intros v; cbn [push_all]; [apply oop_ok|].
  apply oop_bind; [apply push_object_oop|]. intros v1 _. apply IH.
Qed.
Lemma push_all_parses : forall l v, (exists v', push_all l v = Ok v') <-> Forall parses l.
Proof.
  induction l as [|m l IH]; intros v; cbn [push_all].
  - split; intros _; [constructor|eexists; reflexivity].
  - split.
    + intros [v' H]. apply bind_ok in H as (v1 & H1 & H). constructor.
      * apply (push_parses m v). eexists. eassumption.
      * apply (IH v1). eexists. eassumption.
    + intros F. inversion F as [|? ? F1 F2]; subst. apply (push_parses m v) in F1 as [v1 E].
      rewrite E. cbn [bind]. apply IH. assumption.
Qed.
Lemma update_seq_is_update : forall k om om', update_seq k om = Ok om' -> update_from_cache k om om'.
Proof.
  intros k om om' H. unfold update_seq in H. apply bind_ok in H as (v & H1 & H2). injection H2 as <-.
  exists [map snd (by_hash k)], [Ready []], v. split; [simpl; rewrite app_nil_r; apply Permutation_refl|].
  split; [apply push_all_steps; assumption|]. split; [constructor; [reflexivity|constructor]|reflexivity].
Qed.

(** ** Completeness check *)

Lemma check_items_spec : forall mh items nm, snd (check_items mh items nm) = true <->
  Forall (fun i => bt_get (ti_id i) mh <> None) items.
Proof.
  induction items as [|i items IH]; intros nm; cbn [check_items]; [split; [constructor|reflexivity]|].
  destruct (bt_get (ti_id i) mh) eqn:E; cbn [snd].
  - rewrite IH. split; intros H; [constructor; [congruence|assumption]|inversion H; assumption].
  - split; intros H; [discriminate|]. inversion H; contradiction.
Qed.
Lemma check_trees_spec : forall mh ts nm, snd (check_trees mh ts nm) = true <->
  Forall (fun t => Forall (fun i => bt_get (ti_id i) mh <> None) (t_items t)) ts.
Proof.
  induction ts as [|t ts IH]; intros nm; cbn [check_trees]; [split; [constructor|reflexivity]|].
  pose proof (check_items_spec mh (t_items t) nm) as S.
  destruct (check_items mh (t_items t) nm) as [nm' ok]. cbn [snd] in S. destruct ok.
  - rewrite IH. split; intros H; [constructor; [apply S; reflexivity|assumption]|inversion H; assumption].
  - cbn [snd]. split; intros H; [discriminate|]. inversion H; subst. apply S in H2. discriminate.
Qed.

Lemma sort_insert_perm : forall A cmp (x : A) l, Permutation (x :: l) (sort_insert cmp x l).
Proof.
  induction l as [|y l IH]; cbn [sort_insert]; [apply Permutation_refl|].
  destruct (cmp y x); try apply Permutation_refl.
  eapply Permutation_trans; [apply perm_swap|]. constructor. exact IH.
Qed.
Lemma stable_sort_perm : forall A cmp (l : list A), Permutation l (stable_sort cmp l).
Proof.
  induction l as [|x l IH]; cbn [stable_sort]; [constructor|].
  eapply Permutation_trans; [|apply sort_insert_perm]. constructor. exact IH.
Qed.

Section Sorting.
  Context {A : Type} (name : A -> bytes) (size : A -> N) (cmp : A -> A -> comparison).
  Hypothesis cmp_def : forall a b, cmp a b =
    match bcmp (name b) (name a) with Eq => size b ?= size a | o => o end.
  Lemma cmp_lt : forall a b, cmp a b = Lt -> before (name a) (size a) (name b) (size b).
  Proof.
    intros a b H. rewrite cmp_def in H. unfold before. destruct (bcmp (name b) (name a)) eqn:E; try discriminate.
    - right. apply bcmp_eq in E. split; [congruence|]. apply N.lt_le_incl. exact H.
    - left. reflexivity.
  Qed.
  Lemma cmp_ge : forall a b, cmp b a <> Lt -> before (name a) (size a) (name b) (size b).
  Proof.
    intros a b H. rewrite cmp_def in H. unfold before. destruct (bcmp (name a) (name b)) eqn:E.
    - right. apply bcmp_eq in E. split; [assumption|]. apply N.compare_ge_iff. exact H.
    - contradiction.
    - left. rewrite bcmp_antisym, E. reflexivity.
  Qed.
  Lemma sort_insert_desc : forall x l, descending name size l -> descending name size (sort_insert cmp x l).
  Proof.
    intros x l H. induction H as [|a|a b l Hab Hl IH]; cbn [sort_insert].
    - constructor.
    - destruct (cmp a x) eqn:E; (constructor; [|constructor]);
        [apply cmp_ge|apply cmp_lt|apply cmp_ge]; congruence.
    - destruct (cmp a x) eqn:E.
      + constructor; [apply cmp_ge; congruence|]. constructor; assumption.
      + cbn [sort_insert] in IH. destruct (cmp b x) eqn:E2.
        * constructor; [apply cmp_lt; assumption|exact IH].
        * constructor; [assumption|exact IH].
        * constructor; [apply cmp_lt; assumption|exact IH].
      + constructor; [apply cmp_ge; congruence|]. constructor; assumption.
  Qed.
  Lemma stable_sort_desc : forall l, descending name size (stable_sort cmp l).
  Proof. induction l as [|x l IH]; cbn [stable_sort]; [constructor|]. apply sort_insert_desc. exact IH. Qed.
End Sorting.

Lemma unwrap_metas_spec : forall l, unwrap_metas l = match l with [] => Ok [] | _ => Panic end.
Proof. intros [|m l]; reflexivity. Qed.

Lemma name_tree_meta : forall nm t, t_meta (name_tree nm t) = t_meta t /\ t_items (name_tree nm t) = t_items t.
Proof. intros. unfold name_tree. destruct (bt_get _ _); split; reflexivity. Qed.
Lemma name_blob_meta : forall nm b, b_meta (name_blob nm b) = b_meta b.
Proof. intros. unfold name_blob. destruct (bt_get _ _); reflexivity. Qed.

Lemma check_items_names : forall mh items nm nm' ok h n, check_items mh items nm = (nm', ok) -> bt_get h nm' = Some n ->
  bt_get h nm = Some n \/ exists i, In i items /\ ti_id i = h /\ ti_filename i = n.
Proof.
  induction items as [|i items IH]; intros nm nm' ok h n H G; cbn [check_items] in H.
  - injection H as <- _. left. assumption.
  - assert (K : bt_get h (bt_insert (ti_id i) (ti_filename i) nm) = Some n ->
      bt_get h nm = Some n \/ exists j, In j (i :: items) /\ ti_id j = h /\ ti_filename j = n).
    { destruct (bcmp h (ti_id i)) eqn:C.
      - apply bcmp_eq in C. subst h. rewrite bt_get_insert_same. intros E. right. exists i.
        split; [left; reflexivity|]. split; [reflexivity|congruence].
      - rewrite bt_get_insert_other; [auto|]. intros ->. rewrite bcmp_refl in C. discriminate.
      - rewrite bt_get_insert_other; [auto|]. intros ->. rewrite bcmp_refl in C. discriminate. }
    destruct (bt_get (ti_id i) mh).
    + destruct (IH _ _ _ _ _ H G) as [E|(j & J & J')]; [auto|]. right. exists j. split; [right; assumption|assumption].
    + injection H as <- _. auto.
Qed.
Lemma check_trees_names : forall mh ts nm nm' ok h n, check_trees mh ts nm = (nm', ok) -> bt_get h nm' = Some n ->
  bt_get h nm = Some n \/ exists t i, In t ts /\ In i (t_items t) /\ ti_id i = h /\ ti_filename i = n.
Proof.
  induction ts as [|t ts IH]; intros nm nm' ok h n H G; cbn [check_trees] in H.
  - injection H as <- _. left. assumption.
  - destruct (check_items mh (t_items t) nm) as [nm1 ok1] eqn:E.
    assert (K : bt_get h nm1 = Some n -> bt_get h nm = Some n \/
      exists t' i, In t' (t :: ts) /\ In i (t_items t') /\ ti_id i = h /\ ti_filename i = n).
    { intros X. destruct (check_items_names _ _ _ _ _ _ _ E X) as [Y|(i & I1 & I2)]; [auto|].
      right. exists t, i. split; [left; reflexivity|auto]. }
    destruct ok1; [|injection H as <- _; auto].
    destruct (IH _ _ _ _ _ H G) as [Y|(t' & i & I1 & I2)]; [auto|]. right. exists t', i. split; [right; assumption|assumption].
Qed.

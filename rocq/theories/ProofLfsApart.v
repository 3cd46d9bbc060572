(** Requests to git-lfs that have nothing to do with each other. *)

From Coq Require Import ZArith.
From Verif Require Import Base BaseLemmas Digest ModelUtils ModelObject ModelPkt ModelStorage ModelLfs ModelLfsConc.
From Verif Require Import SpecObject SpecLfs SpecLfsConc ProofObject ProofLfs ProofContent ProofLfsConc PropContent PropLfsConc.
From Verif Require ModelConc.
Open Scope N_scope.

(** ** Programs all of whose actions are of one kind *)

Section Only.
Context (v : lenv) (I : lfs -> Prop) (P : forall X, lact X -> Prop).
Fixpoint only {A} (Q : res A -> Prop) (p : lprog A) : Prop :=
  match p with
  | LRet r => Q r
  | LAct a k => P _ a /\ forall w, I w -> only Q (k (snd (lperform v a w)))
  end.
Lemma only_weaken : forall A (Q Q' : res A -> Prop) p, (forall r, Q r -> Q' r) -> only Q p -> only Q' p.
Proof. intros A Q Q' p W. induction p as [r|X a k IH]; cbn [only]; [apply W|]. intros [H1 H2]. split; [exact H1|]. intros w Hw. apply IH, H2, Hw. Qed.
Lemma only_then : forall A B (R : res A -> Prop) (Q : res B -> Prop) p k, only R p -> (forall r, R r -> only Q (k r)) -> only Q (lthen p k).
Proof. intros A B R Q p k. induction p as [r|X a k1 IH]; cbn [only lthen]; intros H K; [apply K, H|]. destruct H as [H1 H2]. split; [exact H1|]. intros w Hw. apply IH; [apply H2, Hw|exact K]. Qed.
Definition anything {A} (r : res A) : Prop := True.
Lemma only_bind : forall A B (R : A -> Prop) p (k : A -> lprog B), only (on_ok R) p -> (forall a, R a -> only anything (k a)) -> only anything (lpbind p k).
Proof. intros A B R p k H K. unfold lpbind. apply (only_then _ _ (on_ok R)); [exact H|]. intros [a|x| |] Hr; [apply K, Hr| | |]; exact Logic.I. Qed.
Lemma only_any : forall A B p (k : A -> lprog B), only anything p -> (forall a, only anything (k a)) -> only anything (lpbind p k).
Proof. intros A B p k H K. apply (only_bind _ _ (fun _ => True)); [|auto]. apply (only_weaken _ anything); [|exact H]. intros [| | |] _; exact Logic.I. Qed.
Lemma only_try : forall A (p : lprog A), only anything p -> only anything (lptry p).
Proof. intros A p H. apply (only_then _ _ anything); [exact H|]. intros [| | |] _; exact Logic.I. Qed.
Lemma only_unwrap : forall A (p : lprog A), only anything p -> only anything (lpunwrap p).
Proof. intros A p H. apply (only_then _ _ anything); [exact H|]. intros r _. exact Logic.I. Qed.
Lemma only_do : forall X (a : lact X) (Q : res X -> Prop), P X a -> (forall w, I w -> Q (snd (lperform v a w))) -> only Q (ldo a).
Proof. intros X a Q H K. split; [exact H|]. exact K. Qed.
Lemma only_act : forall X (a : lact X), P X a -> only anything (ldo a).
Proof. intros X a H. apply only_do; [exact H|]. intros. exact Logic.I. Qed.
Lemma only_ends : forall (T : lfs -> lfs -> Prop), (forall X (a : lact X) w, P X a -> I w -> T w (fst (lperform v a w))) -> forall A Q (p : lprog A), only Q p -> ends v I T Q p.
Proof. intros T H A Q p. induction p as [r|X a k IH]; cbn [only ends]; [auto|]. intros [H1 H2] w Hw. split; [apply H; assumption|apply IH, H2, Hw]. Qed.
End Only.

(** ** One request among others that do not touch what it depends on *)

Section Local.
Context (v : lenv) (I : lfs -> Prop) (P : forall X, lact X -> Prop) (E : lfs -> lfs -> Prop).
Context (Erefl : forall w, E w w) (Esym : forall a b, E a b -> E b a) (Etrans : forall a b c, E a b -> E b c -> E a c).
(** Actions that depend on a part of the state, keep what they rely on, and change no other part. *)
Context (Lo : forall X (a : lact X) w w', P X a -> I w -> I w' -> E w w' -> snd (lperform v a w) = snd (lperform v a w') /\ E (fst (lperform v a w)) (fst (lperform v a w'))).
Context (Ke : forall X (a : lact X) w, P X a -> I w -> I (fst (lperform v a w))).
(** Such a program, among others that do not touch that part, does what it does alone. *)
Lemma interleave_local : forall i p schedule ts w, nth_error ts i = Some p -> only v I P anything p -> I w ->
  (forall j q, nth_error ts j = Some q -> j <> i -> ends v I (fun w w' => I w' /\ E w w') anything q) ->
  forall r, nth_error (fst (linterleave v schedule ts w)) i = Some (LRet r) -> snd (lrun v p w) = r /\ E (snd (linterleave v schedule ts w)) (fst (lrun v p w)).
Proof.
  intros i p schedule ts w N On Hw Oth.
  destruct (linterleave_keeps v (fun ts w1 => I w1 /\ exists q wa, nth_error ts i = Some q /\ lrun v p w = lrun v q wa /\ I wa /\ E w1 wa /\ only v I P anything q /\
      forall j q, nth_error ts j = Some q -> j <> i -> ends v I (fun w w' => I w' /\ E w w') anything q)) with (schedule := schedule) (ts := ts) (w := w) as [H1 (q & wa & N2 & Er & Ia & Ea & _)].
  - clear -Esym Etrans Lo Ke. intros j ts w1 X a k (I1 & q & wa & Nq & Er & Ia & Ea & On & Oth) Nj. destruct (Nat.eq_dec j i) as [->|Ne].
    + rewrite Nq in Nj. injection Nj as ->. cbn [only] in On. destruct On as [Pa On]. destruct (Lo X a w1 wa Pa I1 Ia Ea) as (L1 & L2). split; [apply Ke; assumption|].
      exists (k (snd (lperform v a w1))), (fst (lperform v a wa)). split; [exact (set_same _ _ _ _ _ Nq)|]. split.
      { rewrite Er. cbn [lrun]. rewrite L1. destruct (lperform v a wa). reflexivity. }
      split; [apply Ke; assumption|]. split; [exact L2|]. split; [apply On, I1|]. intros m q2 Hm Nm. rewrite set_other in Hm by congruence. exact (Oth m q2 Hm Nm).
    + pose proof (Oth j _ Nj Ne) as O. cbn [ends] in O. destruct (O w1 I1) as [[O1 O2] O3]. split; [exact O1|]. exists q, wa. split; [rewrite set_other by exact Ne; exact Nq|]. split; [exact Er|].
      split; [exact Ia|]. split; [exact (Etrans _ _ _ (Esym _ _ O2) Ea)|]. split; [exact On|]. intros m q2 Hm Nm. destruct (Nat.eq_dec j m) as [<-|Nm2].
      * rewrite (set_same _ _ _ _ _ Nj) in Hm. injection Hm as <-. exact O3.
      * rewrite set_other in Hm by exact Nm2. exact (Oth m q2 Hm Nm).
  - split; [exact Hw|]. exists p, w. split; [exact N|]. split; [reflexivity|]. split; [exact Hw|]. split; [apply Erefl|]. auto.
  - intros r Hr. rewrite Hr in N2. injection N2 as <-. rewrite Er. cbn [lrun llift fst snd]. auto.
Qed.
End Local.

(** ** Locks *)

Lemma find_filter : forall A (f : A -> bool) l, find f l = hd_error (filter f l).
Proof. intros A f l. induction l as [|x l IH]; [reflexivity|]. cbn [find filter]. destruct (f x); [reflexivity|exact IH]. Qed.
Lemma existsb_filter : forall A (f : A -> bool) l, existsb f l = match filter f l with [] => false | _ => true end.
Proof. intros A f l. induction l as [|x l IH]; [reflexivity|]. cbn [existsb filter]. destruct (f x); [reflexivity|exact IH]. Qed.
Lemma filter_map_in : forall A (f : A -> bool) (g : A -> A) l, (forall x, f (g x) = f x) -> filter f (map g l) = map g (filter f l).
Proof. intros A f g l H. induction l as [|x l IH]; [reflexivity|]. cbn [map filter]. rewrite H. destruct (f x); cbn [map]; rewrite IH; reflexivity. Qed.
Lemma filter_map_out : forall A (f : A -> bool) (g : A -> A) l, (forall x, f x = true -> g x = x) -> (forall x, f (g x) = f x) -> filter f (map g l) = filter f l.
Proof.
  intros A f g l H1 H2. rewrite filter_map_in by exact H2. induction l as [|x l IH]; [reflexivity|]. cbn [filter]. destruct (f x) eqn:F; [|exact IH]. cbn [map]. rewrite IH, H1 by exact F. reflexivity.
Qed.
Lemma filter_filter_out : forall A (f g : A -> bool) l, (forall x, f x = true -> g x = true) -> filter f (filter g l) = filter f l.
Proof.
  intros A f g l H. induction l as [|x l IH]; [reflexivity|]. cbn [filter]. destruct (g x) eqn:G; cbn [filter]; destruct (f x) eqn:F; rewrite ?IH; try reflexivity. rewrite (H x F) in G. discriminate.
Qed.
Section Locks.
Context (v : lenv) (Hv : lenv_ok v) (ref : bytes).
Definition calm (w : lfs) : Prop := l_fails w = [].
Lemma teq_alike : forall a b x, l_teq v a b = true -> l_teq v x a = l_teq v x b.
Proof.
  intros a b x H. destruct Hv as (_ & Sy & Tr & _). destruct (l_teq v x a) eqn:A, (l_teq v x b) eqn:B; try reflexivity.
  - rewrite (Tr _ _ _ A H) in B. discriminate.
  - rewrite Sy in H. rewrite (Tr _ _ _ B H) in A. discriminate.
Qed.
Lemma find_quiet : forall k w, calm w -> lperform v (AFindLocks k) w = (w, Ok (find (fun r => l_teq v (fst r) k) (l_locks w))).
Proof. intros k w H. cbn [lperform]. destruct (find_lock_any v k w) as (w' & _ & _ & K). apply K, H. Qed.
Lemma back_quiet : forall w, calm w -> lperform v AReadBack w = (w, Ok true).
Proof. intros w H. cbn [lperform]. unfold lattempt. rewrite H. reflexivity. Qed.
(** A statement that depends on the rows of the ref and changes no others. *)
Definition local_table (f : list (bytes * bytes) -> option (list (bytes * bytes))) : Prop := forall t t', filter (fun r => l_teq v (fst r) ref) t = filter (fun r => l_teq v (fst r) ref) t' ->
  match f t, f t' with Some u, Some u' => filter (fun r => l_teq v (fst r) ref) u = filter (fun r => l_teq v (fst r) ref) u' | None, None => True | _, _ => False end.
Lemma insert_local : forall d, local_table (insert_lock v ref d).
Proof.
  intros d t t' H. unfold insert_lock. rewrite !existsb_filter, H. destruct (_ && _ && _); [|exact Logic.I]. rewrite !filter_app, H. reflexivity.
Qed.
Lemma update_local : forall k d, l_teq v k ref = true -> local_table (update_lock v k d).
Proof.
  intros k d Hk t t' H. unfold update_lock.
  assert (X : forall t : list (bytes * bytes), existsb (fun r => l_teq v (fst r) k) t = existsb (fun r => l_teq v (fst r) ref) t) by (intros u; induction u as [|x u IH]; [reflexivity|]; cbn [existsb]; rewrite IH, (teq_alike _ _ _ Hk); reflexivity).
  rewrite !X, !existsb_filter, H. destruct (_ && _); [|exact Logic.I].
  rewrite !filter_map_in by (intros x; destruct (l_teq v (fst x) k); reflexivity). rewrite H. reflexivity.
Qed.
Lemma remove_local : local_table (remove_lock v ref).
Proof.
  intros t t' H. unfold remove_lock. assert (X : forall t : list (bytes * bytes), filter (fun r => l_teq v (fst r) ref) (filter (fun r => negb (l_teq v (fst r) ref)) t) = []).
  { intros u. induction u as [|x u IH]; [reflexivity|]. cbn [filter]. destruct (l_teq v (fst x) ref) eqn:F; cbn [negb filter]; [exact IH|]. rewrite F. exact IH. }
  rewrite !X. reflexivity.
Qed.

(** Actions on the locks of the ref. *)
Definition on_ref {X} (a : lact X) : Prop :=
  match a with
  | AFindLocks k => k = ref
  | AExecLocks f => (exists d, f = insert_lock v ref d) \/ (exists k d, l_teq v k ref = true /\ f = update_lock v k d) \/ f = remove_lock v ref
  | AReadBack => True
  | _ => False
  end.
Lemma ref_local : forall X (a : lact X) w w', on_ref a -> calm w -> calm w' -> same_locks v w w' ref ->
  snd (lperform v a w) = snd (lperform v a w') /\ same_locks v (fst (lperform v a w)) (fst (lperform v a w')) ref.
Proof.
  intros X a w w' Ha Hw Hw' He. destruct a as [k|k|f|f| |o|o|p b|m]; cbn [on_ref] in Ha; try contradiction.
  - subst k. rewrite !find_quiet by assumption. cbn [fst snd]. rewrite !find_filter. unfold same_locks in He. rewrite He. auto.
  - assert (Hf : local_table f) by (destruct Ha as [(d & ->)|[(k & d & T & ->)| ->]]; [apply insert_local|apply update_local, T|apply remove_local]).
    cbn [lperform]. rewrite !exec_locks_quiet by assumption. pose proof (Hf (l_locks w) (l_locks w') He) as K.
    destruct (f (l_locks w)), (f (l_locks w')); try contradiction; (split; [reflexivity|]); [exact K|exact He].
  - rewrite !back_quiet by assumption. auto.
Qed.
Lemma only_find : only v calm (@on_ref) (on_ok (fun o : option (bytes * bytes) => match o with Some (k, _) => l_teq v k ref = true | None => True end)) (ldo (AFindLocks ref)).
Proof.
  apply only_do; [reflexivity|]. intros w Hw. rewrite find_quiet by assumption. cbn [snd on_ok]. destruct (find _ (l_locks w)) as [[k d]|] eqn:F; [|exact Logic.I]. apply find_some in F as [_ F]. exact F.
Qed.
Lemma only_filtered : forall p c l, only v calm (@on_ref) anything (filtered_p v ref p c l).
Proof.
  intros p c l. unfold filtered_p. eapply only_bind; [exact only_find|]. intros o _. apply only_any; [|intros; exact Logic.I]. destruct o as [[k d]|]; exact Logic.I.
Qed.
Lemma only_updated : forall k d, l_teq v k ref = true -> only v calm (@on_ref) anything (updated_p (ldo (AExecLocks (update_lock v k d)))).
Proof. intros k d H. apply only_any; [apply only_act; right; left; eauto|]. intros [|]; [apply only_act; exact Logic.I|exact Logic.I]. Qed.
Lemma only_lock_event : forall x, refs_of x = [ref] -> only v calm (@on_ref) anything (lfs_p v x).
Proof.
  intros [q|[rq|]|[rq|] i n|i [[rq|]|]|b|o b|o] Er; try discriminate; cbn [refs_of] in Er; try (injection Er as Er); cbn [lfs_p].
  - unfold list_p. cbv zeta. rewrite Er. apply only_any; [apply only_try, only_filtered|]. intros [[l n]|]; exact Logic.I.
  - unfold verify_p, lpbind at 1. cbn [unwrap_opt lthen]. cbv zeta. rewrite Er. apply only_any; [apply only_try, only_filtered|]. intros [[l n]|]; exact Logic.I.
  - unfold lock_p, lpbind at 1. cbn [unwrap_opt lthen]. rewrite Er. apply only_any; [apply only_try, only_filtered|]. intros [[[|x l] nx]|]; try exact Logic.I. cbv zeta.
    apply only_any; [|intros [|]; exact Logic.I]. apply only_try. unfold add_lock_p. eapply only_bind; [exact only_find|]. intros row Hrow. apply only_any; [|intros [|]; exact Logic.I].
    destruct row as [[k d]|].
    + apply only_any; [exact Logic.I|]. intros old. apply only_updated, Hrow.
    + unfold inserted_p. apply only_any; [apply only_act; left; eauto|intros; exact Logic.I].
  - unfold unlock_p. destruct i as [|c i]; [exact Logic.I|]. unfold lpbind at 1. cbn [unwrap_opt lthen]. rewrite Er. apply only_any; [apply only_try|].
    + unfold delete_lock_p. eapply only_bind; [exact only_find|]. intros row Hrow. destruct row as [[k d]|]; [|exact Logic.I]. apply only_any; [exact Logic.I|]. intros l.
      destruct (scan_locks _ _ _ _) as [[x rest]|]; [|exact Logic.I]. destruct (lk_id x); [exact Logic.I|]. destruct rest.
      * apply only_any; [apply only_act; right; right; reflexivity|]. intros [|]; exact Logic.I.
      * apply only_any; [apply only_updated, Hrow|]. intros [|]; exact Logic.I.
    + intros [x|]; [|exact Logic.I]. destruct (_ && _); exact Logic.I.
Qed.
(** Actions on another ref do not touch them. *)
Lemma ref_foreign : forall X (a : lact X) r w, l_teq v ref r = false ->
  match a with
  | AFindLocks k => k = r
  | AExecLocks f => (exists d, f = insert_lock v r d) \/ (exists k d, l_teq v k r = true /\ f = update_lock v k d) \/ f = remove_lock v r
  | AReadBack => True
  | _ => False
  end -> calm w -> same_locks v w (fst (lperform v a w)) ref.
Proof.
  intros X a r w N Ha Hw. pose proof Hv as (Re & Sy & Tr & _). destruct a as [k|k|f|f| |o|o|p b|m]; try contradiction.
  - rewrite find_quiet by assumption. reflexivity.
  - cbn [lperform]. rewrite exec_locks_quiet by assumption. destruct (f (l_locks w)) as [t|] eqn:F; [|reflexivity]. unfold same_locks. cbn [fst with_locks l_locks].
    assert (Out : forall k x : bytes, l_teq v k r = true -> l_teq v x ref = true -> l_teq v x k = false).
    { intros k x Hk Hx. destruct (l_teq v x k) eqn:B; [|reflexivity]. rewrite (Tr ref x r) in N; [discriminate|rewrite Sy; exact Hx|exact (Tr _ _ _ B Hk)]. }
    destruct Ha as [(d & ->)|[(k & d & T & ->)| ->]].
    + unfold insert_lock in F. destruct (_ && _ && _); [|discriminate]. injection F as <-. rewrite filter_app. cbn [filter fst]. rewrite Sy, N, app_nil_r. reflexivity.
    + unfold update_lock in F. destruct (_ && _); [|discriminate]. injection F as <-. symmetry. apply filter_map_out.
      * intros [x c] Hx. cbn [fst] in *. rewrite (Out k x T Hx). reflexivity.
      * intros [x c]. cbn [fst]. destruct (l_teq v x k); reflexivity.
    + unfold remove_lock in F. injection F as <-. symmetry. apply filter_filter_out. intros [x c] Hx. cbn [fst] in *. rewrite (Out r x (Re r) Hx). reflexivity.
  - rewrite back_quiet by assumption. reflexivity.
Qed.
End Locks.

(** ** Objects *)

Lemma filter_comm : forall A (f g : A -> bool) l, filter f (filter g l) = filter g (filter f l).
Proof. intros A f g l. induction l as [|x l IH]; [reflexivity|]. cbn [filter]. destruct (g x) eqn:G, (f x) eqn:F; cbn [filter]; rewrite ?F, ?G, IH; reflexivity. Qed.
Section Objects.
Context (v : lenv) (Hv : lenv_ok v) (Df : ids_differ v) (os : list bytes) (Lg : Forall long_id os).
Definition tidy (w : lfs) : Prop := calm w /\ long_store v w.
Definition on_objects {X} (a : lact X) : Prop :=
  match a with
  | AFindMeta o | AExist o | ACreate o => In o os
  | AExecMeta f => exists o, In o os /\ ((exists z, f = insert_meta v (mkMeta o z true)) \/ f = remove_meta v o)
  | AWrite p b => exists o, In o os /\ store_path v o = Ok p
  | AGet m => In (mt_oid m) os
  | _ => False
  end.
Definition same_objects (w w' : lfs) : Prop := forall o, In o os -> same_object v w w' o.
Lemma long_in : forall o, In o os -> long_id o.
Proof. exact (proj1 (Forall_forall _ _) Lg). Qed.
Lemma meta_quiet : forall k w, calm w -> lperform v (AFindMeta k) w = (w, Ok (find (fun r => l_teq v (mt_oid r) k) (l_meta w))).
Proof. intros k w H. cbn [lperform]. destruct (find_meta_any v k w) as (w' & _ & _ & K). apply K, H. Qed.
Lemma exec_quiet : forall f w, calm w -> lperform v (AExecMeta f) w = match f (l_meta w) with Some t => (mkLfs (l_locks w) t (l_files w) (l_fails w), Ok true) | None => (w, Ok false) end.
Proof. intros f w H. cbn [lperform]. unfold exec_meta, lattempt, lbind. rewrite H. destruct (f (l_meta w)); rewrite ?H; reflexivity. Qed.
Lemma put_get : forall f p c q, fs_get (fs_put f p c) q = if path_eqb q p then Some c else fs_get f q.
Proof.
  intros f p c q. destruct (path_eqb q p) eqn:E; [apply path_eqb_eq in E as ->; apply fs_get_put_same|]. apply fs_get_put_other. intros ->.
  assert (path_eqb p p = true) by (apply path_eqb_eq; reflexivity). congruence.
Qed.
(** Nothing is below the file of an object, and no file above. *)
Lemma plain_dir : forall w o p, tidy w -> long_id o -> store_path v o = Ok p -> is_dir v (l_files w) p = false.
Proof.
  intros w o p [_ [_ Fi]] [Ho Lo] Ep. unfold is_dir. apply orb_false_iff. split.
  - destruct (is_prefix p _) eqn:E; [|reflexivity]. apply is_prefix_app in E as (r & E). rewrite store_path_word in Ep by exact Ho. injection Ep as <-. rewrite <- app_assoc in E.
    apply (f_equal (@length _)) in E. rewrite !app_length in E. unfold id_parts in E. destruct (_ <? _); cbn in E; lia.
  - apply not_true_is_false. intros E. apply existsb_exists in E as ([q c] & Hin & E). cbn [fst] in E. apply andb_true_iff in E as [E1 E2]. destruct (Fi q c Hin) as (o2 & [H2 L2] & Eq).
    pose proof (C67_no_nesting v o o2 p q Ho H2 Lo L2 Ep Eq E1) as K. subst o2. rewrite Ep in Eq. injection Eq as <-.
    assert (path_eqb p p = true) by (apply path_eqb_eq; reflexivity). rewrite H in E2. discriminate.
Qed.
Lemma plain_up : forall w o p, tidy w -> long_id o -> store_path v o = Ok p -> existsb (fun x => is_prefix (fst x) p && negb (path_eqb p (fst x))) (l_files w) = false.
Proof.
  intros w o p [_ [_ Fi]] [Ho Lo] Ep. apply not_true_is_false. intros E. apply existsb_exists in E as ([q c] & Hin & E). cbn [fst] in E. apply andb_true_iff in E as [E1 E2]. destruct (Fi q c Hin) as (o2 & [H2 L2] & Eq).
  pose proof (C67_no_nesting v o2 o q p H2 Ho L2 Lo Eq Ep E1) as K. subst o2. rewrite Ep in Eq. injection Eq as <-.
  assert (path_eqb p p = true) by (apply path_eqb_eq; reflexivity). rewrite H in E2. discriminate.
Qed.
Lemma create_quiet : forall w o, tidy w -> long_id o -> exists p, store_path v o = Ok p /\
  lperform v (ACreate o) w = if can_open v p then (mkLfs (l_locks w) (l_meta w) (fs_put (l_files w) p []) (l_fails w), Ok p) else (w, Panic).
Proof.
  intros w o Hw Ho. pose proof (store_path_word v o (proj1 Ho)) as E. eexists. split; [exact E|]. cbn [lperform]. unfold file_create. rewrite E, (plain_dir w o _ Hw Ho E), (plain_up w o _ Hw Ho E).
  destruct (can_open v _); reflexivity.
Qed.
Lemma exist_quiet : forall w o, tidy w -> long_id o -> exists p, store_path v o = Ok p /\
  lperform v (AExist o) w = (w, Ok (can_open v p && match fs_get (l_files w) p with Some _ => true | None => false end)).
Proof.
  intros w o Hw Ho. pose proof (store_path_word v o (proj1 Ho)) as E. eexists. split; [exact E|]. cbn [lperform]. unfold store_exist. rewrite E. cbn [bind]. rewrite (plain_dir w o _ Hw Ho E). reflexivity.
Qed.
Lemma same_put : forall w w' p c, same_objects w w' -> same_objects (mkLfs (l_locks w) (l_meta w) (fs_put (l_files w) p c) (l_fails w)) (mkLfs (l_locks w') (l_meta w') (fs_put (l_files w') p c) (l_fails w')).
Proof. intros w w' p c H o Ho. destruct (H o Ho) as [H1 H2]. split; [exact H1|]. intros q Hq. cbn [l_files]. rewrite !put_get. destruct (path_eqb q p); [reflexivity|apply H2, Hq]. Qed.
Lemma object_local : forall X (a : lact X) w w', on_objects a -> tidy w -> tidy w' -> same_objects w w' ->
  snd (lperform v a w) = snd (lperform v a w') /\ same_objects (fst (lperform v a w)) (fst (lperform v a w')).
Proof.
  intros X a w w' Ha Hw Hw' He. destruct a as [k|o|f|f| |o|o|p b|m]; cbn [on_objects] in Ha; try contradiction.
  - rewrite !meta_quiet by (apply Hw || apply Hw'). cbn [fst snd]. rewrite !find_filter, (proj1 (He o Ha)). auto.
  - rewrite !exec_quiet by (apply Hw || apply Hw'). destruct Ha as (o & Ho & [(z & ->)| ->]).
    + unfold insert_meta. cbn [mt_oid mt_size]. rewrite !existsb_filter, (proj1 (He o Ho)). destruct (_ && _ && _); [|auto]. cbn [fst snd]. split; [reflexivity|].
      intros o2 Ho2. destruct (He o2 Ho2) as [H1 H2]. split; [cbn [l_meta]; rewrite !filter_app, H1; reflexivity|exact H2].
    + unfold remove_meta. cbn [fst snd]. split; [reflexivity|]. intros o2 Ho2. destruct (He o2 Ho2) as [H1 H2]. split; [cbn [l_meta]; rewrite filter_comm, H1, filter_comm; reflexivity|exact H2].
  - destruct (exist_quiet w o Hw (long_in o Ha)) as (p & Ep & E1). destruct (exist_quiet w' o Hw' (long_in o Ha)) as (p' & Ep' & E2). rewrite Ep in Ep'. injection Ep' as <-. rewrite E1, E2. cbn [fst snd].
    rewrite (proj2 (He o Ha) p Ep). auto.
  - destruct (create_quiet w o Hw (long_in o Ha)) as (p & Ep & E1). destruct (create_quiet w' o Hw' (long_in o Ha)) as (p' & Ep' & E2). rewrite Ep in Ep'. injection Ep' as <-. rewrite E1, E2.
    destruct (can_open v p); [|auto]. cbn [fst snd]. split; [reflexivity|apply same_put, He].
  - destruct Ha as (o & Ho & Ep). cbn [lperform]. unfold file_write. cbv zeta. cbn [fst snd]. split; [reflexivity|]. rewrite (proj2 (He o Ho) p Ep). apply same_put, He.
  - cbn [lperform]. unfold store_get. cbn [fst snd]. split; [|exact He]. destruct (store_path v (mt_oid m)) as [p| | |] eqn:Ep; try reflexivity. cbn [unwrap bind]. rewrite (proj2 (He _ Ha) p Ep). reflexivity.
Qed.
Lemma put_in : forall f p c q d, In (q, d) (fs_put f p c) -> q = p \/ In (q, d) f.
Proof. intros f p c q d H. unfold fs_put in H. destruct H as [H|H]; [injection H as -> _; auto|]. apply filter_In in H as [H _]. auto. Qed.
Lemma tidy_put : forall w o p c, tidy w -> long_id o -> store_path v o = Ok p -> tidy (mkLfs (l_locks w) (l_meta w) (fs_put (l_files w) p c) (l_fails w)).
Proof. intros w o p c [H1 [H2 H3]] Ho Ep. split; [exact H1|]. split; [exact H2|]. intros q d Hq. apply put_in in Hq as [->|Hq]; [exists o; auto|exact (H3 q d Hq)]. Qed.
Lemma object_tidy : forall X (a : lact X) w, on_objects a -> tidy w -> tidy (fst (lperform v a w)).
Proof.
  intros X a w Ha Hw. destruct a as [k|o|f|f| |o|o|p b|m]; cbn [on_objects] in Ha; try contradiction.
  - rewrite meta_quiet by apply Hw. exact Hw.
  - rewrite exec_quiet by apply Hw. destruct Hw as [H1 [H2 H3]]. destruct Ha as (o & Ho & [(z & ->)| ->]).
    + unfold insert_meta. destruct (_ && _ && _); [|split; [|split]; assumption]. split; [exact H1|]. split; [|exact H3]. intros m Hm. cbn [fst l_meta] in Hm. apply in_app_or in Hm as [Hm|[<-|[]]]; [apply H2, Hm|apply long_in, Ho].
    + unfold remove_meta. split; [exact H1|]. split; [|exact H3]. intros m Hm. cbn [fst l_meta] in Hm. apply filter_In in Hm as [Hm _]. apply H2, Hm.
  - exact Hw.
  - destruct (create_quiet w o Hw (long_in o Ha)) as (p & Ep & ->). destruct (can_open v p); [|exact Hw]. apply (tidy_put w o p); [exact Hw|apply long_in, Ha|exact Ep].
  - destruct Ha as (o & Ho & Ep). apply (tidy_put w o p); [exact Hw|apply long_in, Ho|exact Ep].
  - exact Hw.
Qed.
(** What a request about these objects does. *)
Lemma only_row : forall o, In o os -> only v tidy (@on_objects) (on_ok (fun r : option meta_row => match r with Some m => mt_oid m = o | None => True end)) (ldo (AFindMeta o)).
Proof.
  intros o Ho. apply only_do; [exact Ho|]. intros w Hw. rewrite meta_quiet by apply Hw. cbn [snd on_ok]. destruct (find _ (l_meta w)) as [m|] eqn:F; [|exact Logic.I]. apply find_some in F as [F1 F2].
  apply Df; [apply Hw, F1|apply long_in, Ho|exact F2].
Qed.
Lemma only_batch : forall op l, (forall o, In o l -> In (ob_oid o) os) -> only v tidy (@on_objects) anything (batch_objects_p v op l).
Proof.
  intros op l. induction l as [|o l IH]; intros H; [exact Logic.I|]. cbn [batch_objects_p]. apply only_any; [|intros; apply only_any; [apply IH; intros; apply H; right; assumption|intros; exact Logic.I]].
  assert (Ho : In (ob_oid o) os) by (apply H; left; reflexivity). unfold batch_object_p. eapply only_bind; [exact (only_row _ Ho)|]. intros r Hr.
  apply only_any; [destruct r as [m|]; [apply only_act; cbn [on_objects]; rewrite Hr; exact Ho|exact Logic.I]|]. intros h.
  assert (K : only v tidy (@on_objects) anything (if beq op (bs "upload") then let^ x := lpunwrap (put_meta_p v (ob_oid o) (ob_size o)) in lpret (represent v o x (bs "upload"))
      else lpret (mkRepr (ob_oid o) (ob_size o) None None (Some (404, bs "Not found"))))).
  { destruct (beq op (bs "upload")); [|exact Logic.I]. apply only_any; [apply only_unwrap|intros; exact Logic.I]. unfold put_meta_p. eapply only_bind; [exact (only_row _ Ho)|]. intros [m|] _; [exact Logic.I|].
    apply only_any; [|intros [|]; exact Logic.I]. apply only_any; [|intros; exact Logic.I]. apply only_act. exists (ob_oid o). split; [exact Ho|]. left. eexists. reflexivity. }
  destruct r; [destruct h; [exact Logic.I|exact K]|exact K].
Qed.
Lemma only_object_event : forall x, refs_of x = [] -> (forall o, In o (objects_of x) -> In o os) -> only v tidy (@on_objects) anything (lfs_p v x).
Proof.
  intros [q|[rq|]|[rq|] i n|i [[rq|]|]|[[op l]|]|o b|o] Er H; try discriminate; cbn [lfs_p]; try exact Logic.I.
  - unfold unlock_p. destruct i; exact Logic.I.
  - unfold unlock_p. destruct i; exact Logic.I.
  - unfold batch_p, lpbind at 1. cbn [unwrap_opt lthen]. apply only_any; [|intros; exact Logic.I]. apply only_batch. intros o Ho. apply H. cbn [objects_of]. apply in_map, Ho.
  - assert (Ho : In o os) by (apply H; left; reflexivity). unfold upload_object_p. eapply only_bind; [exact (only_row _ Ho)|]. intros [m|] Hm; [|exact Logic.I]. unfold lpbind at 1. cbn [unwrap_opt lthen].
    apply only_any.
    + unfold put_p. apply (only_bind v tidy _ _ _ (fun p => exists o, In o os /\ store_path v o = Ok p)).
      * apply only_do; [cbn [on_objects]; rewrite Hm; exact Ho|]. intros w Hw. rewrite Hm. destruct (create_quiet w o Hw (long_in o Ho)) as (p & Ep & ->). destruct (can_open v p); [|exact Logic.I].
        cbn [snd on_ok]. exists o. auto.
      * intros p Hp. apply only_any; [apply only_act; exact Hp|intros; exact Logic.I].
    + intros [|]; [exact Logic.I|]. apply only_any; [apply only_unwrap|intros; exact Logic.I]. unfold delete_meta_p. apply only_any; [|intros [|]; exact Logic.I]. apply only_act. exists o. auto.
  - assert (Ho : In o os) by (apply H; left; reflexivity). unfold download_object_p. eapply only_bind; [exact (only_row _ Ho)|]. intros [m|] Hm; [|exact Logic.I]. unfold lpbind at 1. cbn [unwrap_opt lthen].
    apply only_any; [apply only_act; cbn [on_objects]; rewrite Hm; exact Ho|intros; exact Logic.I].
Qed.
End Objects.
(** Actions on other objects do not touch these. *)
Lemma object_foreign : forall v os os2 X (a : lact X) w, lenv_ok v -> Forall long_id os -> Forall long_id os2 -> (forall a b, In a os -> In b os2 -> l_teq v a b = false) ->
  on_objects v os2 a -> tidy v w -> same_objects v os w (fst (lperform v a w)).
Proof.
  intros v os os2 X a w Hv Lg Lg2 Ap Ha Hw o Ho. pose proof Hv as (Re & Sy & Tr & _).
  assert (Put : forall o2 p c, In o2 os2 -> store_path v o2 = Ok p -> same_object v w (mkLfs (l_locks w) (l_meta w) (fs_put (l_files w) p c) (l_fails w)) o).
  { intros o2 p c Ho2 Ep. split; [reflexivity|]. intros q Hq. cbn [l_files]. rewrite fs_get_put_other; [reflexivity|]. intros ->.
    pose proof (C67_distinct v o o2 p (proj1 (long_in os Lg o Ho)) (proj1 (long_in os2 Lg2 o2 Ho2)) Hq Ep) as ->. pose proof (Ap o2 o2 Ho Ho2) as K. rewrite Re in K. discriminate. }
  destruct a as [k|o2|f|f| |o2|o2|p b|m]; cbn [on_objects] in Ha; try contradiction.
  - rewrite meta_quiet by apply Hw. split; reflexivity.
  - rewrite exec_quiet by apply Hw. destruct Ha as (o2 & Ho2 & [(z & ->)| ->]).
    + unfold insert_meta. destruct (_ && _ && _); [|split; reflexivity]. split; [|reflexivity]. cbn [fst l_meta]. rewrite filter_app. cbn [filter mt_oid]. rewrite Sy, (Ap o o2 Ho Ho2), app_nil_r. reflexivity.
    + unfold remove_meta. split; [|reflexivity]. cbn [fst l_meta]. symmetry. apply filter_filter_out. intros m Hm. destruct (l_teq v (mt_oid m) o2) eqn:B; [|reflexivity].
      pose proof (Ap o o2 Ho Ho2) as K. rewrite (Tr o (mt_oid m) o2) in K; [discriminate|rewrite Sy; exact Hm|exact B].
  - split; reflexivity.
  - destruct (create_quiet v w o2 Hw (long_in os2 Lg2 o2 Ha)) as (p & Ep & ->). destruct (can_open v p); [|split; reflexivity]. exact (Put o2 p [] Ha Ep).
  - destruct Ha as (o2 & Ho2 & Ep). exact (Put o2 p _ Ho2 Ep).
  - split; reflexivity.
Qed.

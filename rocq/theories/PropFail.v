(** C134: git-lfs requests of which a database statement fails. *)

From Coq Require Import ZArith Permutation.
From Verif Require Import Base BaseLemmas Digest ModelUtils ModelObject ModelPkt ModelStorage ModelLfs SpecObject SpecBase SpecJson SpecLfs SpecBook ProofLfs PropLocks PropLockList PropAnswer PropBook.
Open Scope N_scope.

(** ** No success is reported *)

(** The statements that were sent between two states, and their outcomes. *)
Definition sent (w w' : lfs) (used : list bool) : Prop := l_fails w = used ++ l_fails w'.

(** What may come out after a failure. *)
Definition after_failure {A} (P : A -> Prop) (m : L A) : Prop := forall w w' r, m w = (w', r) ->
  exists used, sent w w' used /\ (In true used -> forall a, r = Ok a -> P a).
Definition yields {A} (P : A -> Prop) (m : L A) : Prop := forall w w' a, m w = (w', Ok a) -> P a.
Definition nothing {A} (a : A) : Prop := False.

Lemma af_bind : forall A B (P : A -> Prop) (Q : B -> Prop) m k, after_failure P m -> (forall a, after_failure Q (k a)) -> (forall a, P a -> yields Q (k a)) ->
  after_failure Q (lbind m k).
Proof.
  intros A B P Q m k Hm Hk Hy w w' r E. unfold lbind in E. destruct (m w) as [w1 r1] eqn:E1. destruct (Hm _ _ _ E1) as (u1 & S1 & F1).
  destruct r1 as [a|e| |]; try (injection E as <- <-; exists u1; split; [exact S1|intros _ b Hb; discriminate]).
  destruct (Hk a _ _ _ E) as (u2 & S2 & F2). exists (u1 ++ u2). split; [unfold sent in *; rewrite S1, S2; apply app_assoc|].
  intros Hi b ->. apply in_app_or in Hi as [Hi|Hi]; [|exact (F2 Hi b eq_refl)]. exact (Hy a (F1 Hi a eq_refl) _ _ _ E).
Qed.
Lemma af_step : forall A B (Q : B -> Prop) (m : L A) k, after_failure nothing m -> (forall a, after_failure Q (k a)) -> after_failure Q (lbind m k).
Proof. intros A B Q m k Hm Hk. apply (af_bind _ _ nothing); [exact Hm|exact Hk|intros a []]. Qed.
Lemma af_still : forall A (P : A -> Prop) m, (forall w, l_fails (fst (m w)) = l_fails w) -> after_failure P m.
Proof. intros A P m H w w' r E. exists []. split; [unfold sent; rewrite <- (H w), E; reflexivity|intros []]. Qed.
Lemma af_ret : forall A (P : A -> Prop) a, after_failure P (lret a).
Proof. intros A P a0. apply af_still. reflexivity. Qed.
Lemma af_lift : forall A (P : A -> Prop) r, after_failure P (llift r).
Proof. intros A P r. apply af_still. reflexivity. Qed.
Lemma af_attempt : after_failure (fun ok => ok = false) lattempt.
Proof.
  intros w w' r E. unfold lattempt in E. destruct (l_fails w) as [|b l] eqn:F; injection E as <- <-; unfold sent; cbn [l_fails]; rewrite ?F.
  - exists []. split; [reflexivity|intros []].
  - exists [b]. split; [reflexivity|]. intros [->|[]] a Ha. injection Ha as <-. reflexivity.
Qed.
Lemma af_find_lock : forall v k, after_failure nothing (find_lock_row v k).
Proof.
  intros v k. apply (af_bind _ _ _ _ _ _ af_attempt); [intros [|]; apply af_still; reflexivity|]. intros y ->. intros w w' z E. discriminate.
Qed.
Lemma af_find_meta : forall v k, after_failure nothing (find_meta_row v k).
Proof.
  intros v k. apply (af_bind _ _ _ _ _ _ af_attempt); [intros [|]; apply af_still; reflexivity|]. intros y ->. intros w w' z E. discriminate.
Qed.
Lemma af_exec_locks : forall f, after_failure (fun ok => ok = false) (exec_locks f).
Proof.
  intros f. apply (af_bind _ _ _ _ _ _ af_attempt).
  - intros [|]; apply af_still; [|reflexivity]. intros w. destruct (f (l_locks w)); reflexivity.
  - intros y ->. intros w w' z E. injection E as _ <-. reflexivity.
Qed.
Lemma af_exec_meta : forall f, after_failure (fun ok => ok = false) (exec_meta f).
Proof.
  intros f. apply (af_bind _ _ _ _ _ _ af_attempt).
  - intros [|]; apply af_still; [|reflexivity]. intros w. destruct (f (l_meta w)); reflexivity.
  - intros y ->. intros w w' z E. injection E as _ <-. reflexivity.
Qed.
Lemma af_inserted : forall v m, after_failure (fun ok => ok = false) m -> after_failure (fun ok => ok = false) (inserted v m).
Proof.
  intros v m H. apply (af_bind _ _ _ _ _ _ H); [intros a; apply af_ret|]. intros a ->. intros w w' b E. injection E as _ <-. reflexivity.
Qed.
Lemma af_updated : forall m, after_failure (fun ok => ok = false) m -> after_failure (fun ok => ok = false) (updated m).
Proof.
  intros m H. apply (af_bind _ _ _ _ _ _ H); [intros [|]; [apply af_attempt|apply af_ret]|]. intros a ->. intros w w' b E. injection E as _ <-. reflexivity.
Qed.
Lemma af_ok : forall A (m : L bool) (a : A) r, after_failure (fun ok => ok = false) m -> (forall x, r <> Ok x) ->
  after_failure nothing (lbind m (fun ok => if ok then lret a else llift r)).
Proof.
  intros A m a r H Hr. apply (af_bind _ _ _ _ _ _ H); [intros [|]; [apply af_ret|apply af_lift]|]. intros b ->. intros w w' x E. injection E as _ E. exact (Hr _ E).
Qed.
Lemma af_try : forall A (m : L A), after_failure nothing m -> after_failure (fun o => o = None) (ltry m).
Proof.
  intros A m H w w' r E. unfold ltry in E. destruct (m w) as [w1 r1] eqn:E1. destruct (H _ _ _ E1) as (u & S1 & F). exists u.
  destruct r1; injection E as <- <-; (split; [exact S1|]); intros Hi z Ha; try discriminate Ha; injection Ha as <-; [destruct (F Hi _ eq_refl)|reflexivity].
Qed.
Lemma af_unwrap : forall A (m : L A), after_failure nothing m -> after_failure nothing (lunwrap m).
Proof.
  intros A m H w w' r E. unfold lunwrap in E. destruct (m w) as [w1 r1] eqn:E1. destruct (H _ _ _ E1) as (u & S1 & F). exists u.
  destruct r1; injection E as <- <-; (split; [exact S1|]); intros Hi z Ha; try discriminate Ha. exact (F Hi _ eq_refl).
Qed.
Lemma af_filtered : forall v ref path cursor limit, after_failure nothing (lfs_get_filtered_locks v ref path cursor limit).
Proof.
  intros v ref path cursor limit. apply af_step; [|intros a; apply af_lift]. apply af_step; [apply af_find_lock|].
  intros [[k d]|]; [apply af_step; [apply af_lift|intros a; apply af_ret]|apply af_ret].
Qed.
Lemma af_put : forall v oid size, after_failure nothing (lfs_put_meta v oid size).
Proof.
  intros v oid size. apply af_step; [apply af_find_meta|]. intros [x|]; [apply af_ret|]. apply af_ok; [apply af_inserted, af_exec_meta|discriminate].
Qed.
Lemma af_delete_lock : forall v ref id force, after_failure nothing (lfs_delete_lock v ref id force).
Proof.
  intros v ref id force. apply af_step; [apply af_find_lock|]. intros [[k d]|]; [|apply af_lift]. apply af_step; [apply af_lift|]. intros l.
  destruct (scan_locks id force l empty_lock) as [[x rest]|]; [|apply af_lift]. destruct (lk_id x) as [|b i]; [apply af_lift|].
  destruct rest; apply af_ok; try discriminate; [apply af_exec_locks|apply af_updated, af_exec_locks].
Qed.
Lemma af_add_write : forall v ref l row, after_failure nothing (add_lock_write v ref l row).
Proof.
  intros v ref l row. apply af_ok; [|discriminate]. destruct row as [[k d]|]; [|apply af_inserted, af_exec_locks].
  apply af_step; [apply af_lift|]. intros old. apply af_updated, af_exec_locks.
Qed.
Lemma af_batch : forall v op l, after_failure nothing (batch_objects v op l).
Proof.
  intros v op. induction l as [|o l IH]; [apply af_ret|]. cbn [batch_objects]. apply af_step; [|intros a; apply af_step; [exact IH|intros b; apply af_ret]].
  apply af_step; [apply af_find_meta|]. intros m. apply af_step; [destruct m; [apply af_still; reflexivity|apply af_ret]|]. intros here.
  destruct m as [x|]; [destruct here; [apply af_ret|]|]; (destruct (beq op (bs "upload")); [|apply af_ret]); (apply af_step; [apply af_unwrap, af_put|intros y; apply af_ret]).
Qed.
Lemma put_still : forall v m body w, l_fails (fst (store_put v m body w)) = l_fails w.
Proof. intros v m body w. unfold store_put. destruct (store_path v (mt_oid m)); try reflexivity. destruct (_ && _); reflexivity. Qed.
Definition failure (r : lfs_reply) : Prop := match r with ROk _ _ => False | RFail _ _ => True end.
Lemma af_handle : forall v x, after_failure failure (lfs_handle v x).
Proof.
  intros v [q|b|b id now|id b|b|oid body|oid]; cbn [lfs_handle].
  - apply (af_bind _ _ (fun o => o = None)); [apply af_try, af_filtered|intros [[l n]|]; apply af_ret|]. intros a ->. intros w w' r E. injection E as _ <-. exact Logic.I.
  - apply af_step; [apply af_lift|]. intros rq. apply (af_bind _ _ (fun o => o = None)); [apply af_try, af_filtered|intros [[l n]|]; apply af_ret|].
    intros a ->. intros w w' r E. injection E as _ <-. exact Logic.I.
  - apply af_step; [apply af_lift|]. intros rq. apply (af_bind _ _ (fun o => match o with Some r => failure r | None => False end)).
    + apply (af_bind _ _ (fun o => o = None)); [apply af_try, af_filtered|intros [[[|y l] n]|]; apply af_ret|]. intros a ->. intros w w' r E. injection E as _ <-. exact Logic.I.
    + intros [r|]; [apply af_ret|]. apply af_step; [apply af_find_lock|]. intros row. apply (af_bind _ _ (fun o => o = None)); [apply af_try, af_add_write|intros [u|]; apply af_ret|].
      intros a ->. intros w w' r E. injection E as _ <-. exact Logic.I.
    + intros [r|] Hr; [|destruct Hr]. intros w w' a E. injection E as _ <-. exact Hr.
  - destruct id as [|i id]; [apply af_ret|]. destruct b as [b|]; [|apply af_ret]. apply af_step; [apply af_lift|]. intros rq.
    apply (af_bind _ _ (fun o => o = None)); [apply af_try, af_delete_lock|intros [x|]; [destruct (_ && _ && _ && _)|]; apply af_ret|].
    intros a ->. intros w w' r E. injection E as _ <-. exact Logic.I.
  - apply af_step; [apply af_lift|]. intros [op objs]. apply af_step; [apply af_batch|intros l; apply af_ret].
  - apply af_step; [apply af_find_meta|]. intros m. apply af_step; [apply af_lift|]. intros x. apply af_step; [apply af_still, put_still|].
    intros [|]; [apply af_ret|]. apply af_step; [apply af_unwrap, af_ok; [apply af_exec_meta|discriminate]|]. intros u. apply af_ret.
  - apply af_step; [apply af_find_meta|]. intros m. apply af_step; [apply af_lift|]. intros x. apply af_step; [apply af_still; reflexivity|]. intros d. apply af_ret.
Qed.
(** When a statement of a request fails, the request is not answered as done. *)
Theorem C134_honest : forall v x w w' used status body, lfs_handle v x w = (w', Ok (ROk status body)) -> sent w w' used -> ~ In true used.
Proof.
  intros v x w w' used status body E S1 Hi. destruct (af_handle v x _ _ _ E) as (u & S2 & F).
  assert (u = used) by (unfold sent in *; rewrite S1 in S2; symmetry; exact (app_inv_tail _ _ _ S2)). subst u. exact (F Hi _ eq_refl).
Qed.

(** ** What is left behind *)

(** A state whose next statements have the given outcomes ([true]: fails). *)
Definition with_fails (t : list bool) (w : lfs) : lfs := mkLfs (l_locks w) (l_meta w) (l_files w) t.
(** The statement after [n] good ones fails. *)
Definition failing (n : nat) (t : list bool) (w : lfs) : lfs := with_fails (repeat false n ++ true :: t) w.

Lemma find_lock_good : forall v k w t, l_fails w = false :: t ->
  find_lock_row v k w = (mkLfs (l_locks w) (l_meta w) (l_files w) t, Ok (find (fun r => l_teq v (fst r) k) (l_locks w))).
Proof. intros v k w t F. unfold find_lock_row, lbind, lattempt. rewrite F. reflexivity. Qed.
Lemma find_lock_bad : forall v k w t, l_fails w = true :: t -> find_lock_row v k w = (mkLfs (l_locks w) (l_meta w) (l_files w) t, Panic).
Proof. intros v k w t F. unfold find_lock_row, lbind, lattempt. rewrite F. reflexivity. Qed.
Lemma exec_good : forall f w t l, l_fails w = false :: t -> f (l_locks w) = Some l -> exec_locks f w = (mkLfs l (l_meta w) (l_files w) t, Ok true).
Proof. intros f w t l F E. unfold exec_locks, lbind, lattempt. rewrite F. cbn [negb l_locks l_meta l_files l_fails]. rewrite E. reflexivity. Qed.
Lemma exec_bad : forall f w t, l_fails w = true :: t -> exec_locks f w = (mkLfs (l_locks w) (l_meta w) (l_files w) t, Ok false).
Proof. intros f w t F. unfold exec_locks, lbind, lattempt. rewrite F. reflexivity. Qed.

Lemma check_good : forall v rq w t l, lenv_ok v -> table_ok v (l_locks w) -> locks_of v w (lr_ref rq) l -> picks (lr_path rq) l = [] -> l_fails w = false :: t ->
  create_check v rq w = (with_fails t w, Ok None).
Proof.
  intros v rq w t l Hv Ht Hl P F.
  assert (E : lfs_get_locks v (lr_ref rq) w = (with_fails t w, Ok (match l with [] => None | _ => Some l end))).
  { unfold lfs_get_locks. rewrite (lbind_ok _ _ _ _ _ _ _ (find_lock_good v (lr_ref rq) w t F)).
    destruct (row_of v w (lr_ref rq) l Hv Ht Hl) as [[-> K]|(k & N1 & K & _ & _ & _ & [N3 _] & _)]; rewrite K; [reflexivity|].
    rewrite (proj2 (js_back v l Hv N3)). destruct l; [contradiction|reflexivity]. }
  unfold create_check, ltry, lfs_get_filtered_locks. unfold lbind at 1. unfold lbind at 1. rewrite E. unfold llift.
  replace (match match l with [] => None | _ => Some l end with Some l0 => l0 | None => [] end) with l by (destruct l; reflexivity).
  destruct (checked (lr_path rq) l) as (next & ->). rewrite P. reflexivity.
Qed.
Lemma create_steps : forall v rq id now w t l, lenv_ok v -> table_ok v (l_locks w) -> locks_of v w (lr_ref rq) l -> picks (lr_path rq) l = [] -> l_fails w = false :: false :: t ->
  lfs_create_lock v (Some rq) id now w = create_write v rq id now (find (fun r => l_teq v (fst r) (lr_ref rq)) (l_locks w)) (with_fails t w).
Proof.
  intros v rq id now w t l Hv Ht Hl P F. unfold lfs_create_lock, llift. unfold lbind at 1. cbn [unwrap_opt].
  rewrite (lbind_ok _ _ _ _ _ _ _ (check_good v rq w (false :: t) l Hv Ht Hl P F)). unfold add_lock_read.
  rewrite (lbind_ok _ _ _ _ _ _ _ (find_lock_good v (lr_ref rq) (with_fails (false :: t) w) t eq_refl)). reflexivity.
Qed.

(** A lock request. If it can only have been refused, nothing has changed. But the row of
    a ref that has locks is read again after the UPDATE, and when this fails the request
    is answered 500 although the lock is there. *)
Theorem C134_lock : forall v w ref path l id now t, lenv_ok v -> reachable v w -> l_fails w = [] -> locks_of v w ref l -> path <> [] -> ~ In path (map lk_path l) ->
  lock_number id -> utf8_text path -> utf8_text now ->
  let lock := lfs_create_lock v (Some (mkLockReq path ref)) id now in
  lock (failing 0 t w) = (with_fails t w, Panic) /\ lock (failing 1 t w) = (with_fails t w, Panic) /\
  (exists msg, lock (failing 2 t w) = (with_fails t w, Ok (RFail 500 msg))) /\
  (l <> [] -> forall w1 x, lock w = (w1, Ok (ROk 201 (BLock x))) -> exists msg, lock (failing 3 t w) = (with_fails t w1, Ok (RFail 500 msg))).
Proof.
  intros v w ref path l id now t Hv Hr Q Hl Np Ni Hid Hp Hn lock. pose proof (reachable_table v w Hv Hr) as Ht.
  assert (P : picks path l = []) by (destruct path; [contradiction|apply no_path_left; exact Ni]).
  assert (Hl' : forall f, locks_of v (with_fails f w) ref l) by (intros f; exact Hl).
  split; [|split; [|split]].
  - unfold lock, lfs_create_lock, llift. unfold lbind at 1. cbn [unwrap_opt]. unfold create_check, ltry, lfs_get_filtered_locks, lfs_get_locks, lbind.
    rewrite (find_lock_bad v _ (failing 0 t w) t eq_refl). reflexivity.
  - unfold lock, lfs_create_lock, llift. unfold lbind at 1. cbn [unwrap_opt].
    rewrite (lbind_ok _ _ _ _ _ _ _ (check_good v (mkLockReq path ref) (failing 1 t w) (true :: t) l Hv Ht (Hl' _) P eq_refl)). unfold add_lock_read, lbind.
    rewrite (find_lock_bad v _ (with_fails (true :: t) (failing 1 t w)) t eq_refl). reflexivity.
  - eexists. unfold lock. rewrite (create_steps v (mkLockReq path ref) id now (failing 2 t w) (true :: t) l Hv Ht (Hl' _) P eq_refl).
    unfold create_write, ltry, add_lock_write. change (l_locks (failing 2 t w)) with (l_locks w). cbn [lr_ref].
    destruct (row_of v w ref l Hv Ht Hl) as [[-> K]|(k & N1 & K & _ & _ & _ & [N3 _] & _)]; rewrite K.
    + unfold lbind, inserted, lbind. erewrite (fun f => exec_bad f (with_fails (true :: t) (failing 2 t w)) t eq_refl). reflexivity.
    + assert (D : row_locks v (js_enc v l) = Ok l).
      { unfold row_locks. destruct (js_back v l Hv N3) as [J1 J2]. rewrite J2. destruct (js_enc v l); [contradiction|reflexivity]. }
      rewrite D. unfold llift, lbind, updated, lbind. erewrite (fun f => exec_bad f (with_fails (true :: t) (failing 2 t w)) t eq_refl). reflexivity.
  - intros Nl w1 x E. eexists. unfold lock. rewrite (create_steps v (mkLockReq path ref) id now (failing 3 t w) (false :: true :: t) l Hv Ht (Hl' _) P eq_refl).
    assert (E0 : create_write v (mkLockReq path ref) id now (find (fun r => l_teq v (fst r) ref) (l_locks w)) w = (w1, Ok (ROk 201 (BLock x)))).
    { rewrite <- E. unfold lock. destruct (create_check_any v (mkLockReq path ref) w l Hv Ht Hl) as (w' & _ & _ & Qt). destruct (Qt Q) as [_ E1]. clear Qt. cbn [lr_path] in E1. rewrite P in E1.
      unfold lfs_create_lock, llift. unfold lbind at 1. cbn [unwrap_opt]. rewrite (lbind_ok _ _ _ _ _ _ _ E1). unfold add_lock_read. cbn [lr_ref].
      destruct (find_lock_any v ref w) as (w2 & _ & _ & Q2). destruct (Q2 Q) as [_ E2]. rewrite (lbind_ok _ _ _ _ _ _ _ E2). reflexivity. }
    unfold create_write, ltry, add_lock_write in *. change (l_locks (failing 3 t w)) with (l_locks w). cbn [lr_ref] in *.
    destruct (row_of v w ref l Hv Ht Hl) as [[-> K]|(k & N1 & K & _ & _ & _ & [N3 _] & _)]; [contradiction|]. rewrite K in *.
    assert (D : row_locks v (js_enc v l) = Ok l).
    { unfold row_locks. destruct (js_back v l Hv N3) as [J1 J2]. rewrite J2. destruct (js_enc v l); [contradiction|reflexivity]. }
    rewrite D in *. unfold llift, lbind in *. rewrite updated_quiet, exec_locks_quiet in E0 by exact Q.
    destruct (update_lock v k _ (l_locks w)) as [u|] eqn:Eu; [|discriminate E0]. injection E0 as <- _.
    unfold updated, lbind. erewrite (fun f => exec_good f (with_fails (false :: true :: t) (failing 3 t w)) (true :: t) u eq_refl); [reflexivity|exact Eu].
Qed.

Lemma delete_row : forall v w ref l1 x l2, lenv_ok v -> reachable v w -> locks_of v w ref (l1 ++ x :: l2) -> NoDup (map lk_id (l1 ++ x :: l2)) ->
  exists k c cs, lk_id x = c :: cs /\ find (fun r => l_teq v (fst r) ref) (l_locks w) = Some (k, js_enc v (l1 ++ x :: l2)) /\ row_locks v (js_enc v (l1 ++ x :: l2)) = Ok (l1 ++ x :: l2) /\
    forall force, scan_locks (lk_id x) force (l1 ++ x :: l2) empty_lock = Some (x, l1 ++ l2).
Proof.
  intros v w ref l1 x l2 Hv Hr Hl Hd. pose proof (reachable_table v w Hv Hr) as Ht.
  destruct (row_of v w ref _ Hv Ht Hl) as [[El _]|(k & N1 & F & Hi & Hk & N2 & [N3 N3'] & N4)]; [destruct l1; discriminate|].
  assert (Hx : lock_ok x) by (rewrite Forall_forall in N3; apply N3; apply in_or_app; right; left; reflexivity).
  assert (Nx : 0 < nlen (lk_id x)) by (apply number_nonempty, Hx).
  assert (N3r : Forall lock_ok (l1 ++ l2)) by (apply Forall_app in N3 as [A B]; inversion B; apply Forall_app; auto).
  rewrite map_app in Hd. cbn [map] in Hd. apply NoDup_remove in Hd as [_ Hd]. rewrite <- map_app in Hd.
  pose proof (fun force => scan_found (lk_id x) force l1 x l2 empty_lock eq_refl Hd (oks_nonempty _ N3r) (proj1 Hx)) as Sc.
  destruct (lk_id x) as [|c cs]; [discriminate|]. exists k, c, cs. split; [reflexivity|]. split; [exact F|]. split; [|exact Sc].
  unfold row_locks. destruct (js_back v (l1 ++ x :: l2) Hv N3) as [J1 J2]. rewrite J2. destruct (js_enc v (l1 ++ x :: l2)); [contradiction|reflexivity].
Qed.

(** An unlock request. The DELETE of the row of a ref's last lock aborts the handler when
    it fails; a failed UPDATE is answered 500; but the read after the UPDATE comes too late. *)
Theorem C134_unlock : forall v w ref l1 x l2 force t, lenv_ok v -> reachable v w -> l_fails w = [] -> locks_of v w ref (l1 ++ x :: l2) -> NoDup (map lk_id (l1 ++ x :: l2)) ->
  let unlock := lfs_delete v (lk_id x) (Some (Some (mkUnlock force ref))) in
  unlock (failing 0 t w) = (with_fails t w, Panic) /\
  (l1 ++ l2 = [] -> unlock (failing 1 t w) = (with_fails t w, Panic)) /\
  (l1 ++ l2 <> [] -> (exists msg, unlock (failing 1 t w) = (with_fails t w, Ok (RFail 500 msg))) /\
     forall w1 y, unlock w = (w1, Ok (ROk 200 (BLock y))) -> exists msg, unlock (failing 2 t w) = (with_fails t w1, Ok (RFail 500 msg))).
Proof.
  intros v w ref l1 x l2 force t Hv Hr Q Hl Hd unlock. destruct (delete_row v w ref l1 x l2 Hv Hr Hl Hd) as (k & c & cs & Ei & F & D & Sc). specialize (Sc force). rewrite Ei in Sc.
  assert (Un : unlock = lfs_delete v (c :: cs) (Some (Some (mkUnlock force ref)))) by (unfold unlock; rewrite Ei; reflexivity). clearbody unlock. subst unlock.
  assert (St : forall t0 w0, l_locks w0 = l_locks w -> l_fails w0 = false :: t0 -> lfs_delete_lock v ref (c :: cs) force w0 =
    (match l1 ++ l2 with
     | [] => (do! ok := exec_locks (remove_lock v ref) in if ok then lret x else llift Panic)
     | _ => (do! ok := updated (exec_locks (update_lock v k (js_enc v (l1 ++ l2)))) in if ok then lret x else llift (Err EGeneral))
     end) (with_fails t0 w0)).
  { intros t0 w0 L0 F0. unfold lfs_delete_lock. rewrite (lbind_ok _ _ _ _ _ _ _ (find_lock_good v ref w0 t0 F0)), L0, F. rewrite D. unfold llift at 1. unfold lbind at 1. rewrite Sc, Ei.
    unfold with_fails. rewrite L0. destruct (l1 ++ l2); reflexivity. }
  split; [|split].
  - unfold lfs_delete, llift. unfold lbind at 1. cbn [unwrap_opt ul_ref ul_force]. unfold ltry, lfs_delete_lock, lbind.
    rewrite (find_lock_bad v _ (failing 0 t w) t eq_refl). reflexivity.
  - intros El. unfold lfs_delete, llift. unfold lbind at 1. cbn [unwrap_opt ul_ref ul_force]. unfold ltry, lbind. rewrite (St (true :: t) (failing 1 t w) eq_refl eq_refl), El.
    unfold lbind. erewrite exec_bad by reflexivity. reflexivity.
  - intros Nl. split.
    + eexists. unfold lfs_delete, llift. unfold lbind at 1. cbn [unwrap_opt ul_ref ul_force]. unfold ltry, lbind. rewrite (St (true :: t) (failing 1 t w) eq_refl eq_refl).
      destruct (l1 ++ l2) as [|z r]; [contradiction|]. unfold updated, lbind. erewrite exec_bad by reflexivity. reflexivity.
    + intros w1 y E. eexists. unfold lfs_delete, llift in *. unfold lbind at 1. unfold lbind at 1 in E. cbn [unwrap_opt ul_ref ul_force] in *. unfold ltry, lbind in *.
      rewrite (St (false :: true :: t) (failing 2 t w) eq_refl eq_refl).
      assert (E1 : lfs_delete_lock v ref (c :: cs) force w = match l1 ++ l2 with [] => lfs_delete_lock v ref (c :: cs) force w | _ => match update_lock v k (js_enc v (l1 ++ l2)) (l_locks w) with Some u => (with_locks w u, Ok x) | None => (w, Err EGeneral) end end).
      { destruct (l1 ++ l2) as [|z r] eqn:El; [reflexivity|]. unfold lfs_delete_lock. destruct (find_lock_any v ref w) as (w2 & _ & _ & Q2). destruct (Q2 Q) as [_ E2]. rewrite (lbind_ok _ _ _ _ _ _ _ E2), F, D.
        unfold llift. unfold lbind at 1. rewrite Sc, Ei. unfold lbind. rewrite updated_quiet, exec_locks_quiet by exact Q. destruct (update_lock v k _ (l_locks w)); reflexivity. }
      rewrite E1 in E. destruct (l1 ++ l2) as [|z r]; [contradiction|]. destruct (update_lock v k (js_enc v (z :: r)) (l_locks w)) as [u|] eqn:Eu; [|discriminate E].
      rewrite Ei in E. unfold lret in E. apply (f_equal fst) in E. cbn [fst] in E. subst w1.
      unfold updated, lbind. erewrite exec_good; [|reflexivity|exact Eu]. reflexivity.
Qed.

(** "A request of which a statement failed changes nothing": not so. The request for a
    second lock is answered 500, and the lock is there all the same. *)
Theorem C134_refuted : exists v w l x w' msg, lenv_ok v /\ reachable v w /\ l_fails w = [] /\ locks_of v w ex_main l /\ ~ In (lk_path x) (map lk_path l) /\
  lfs_create_lock v (Some (mkLockReq (lk_path x) ex_main)) (lk_id x) (lk_at x) (failing 3 [] w) = (w', Ok (RFail 500 msg)) /\ locks_of v w' ex_main (l ++ [x]).
Proof.
  exists ex_lenv, ex_lfs, ex_main_locks, (ex_lock (bs "00000006") (bs "d.png") (bs "2023-05-23T10:00:06+00:00")).
  eexists. eexists. split; [exact ex_lenv_ok|]. split; [exact ex_reachable|]. split; [vm_compute; reflexivity|]. split; [exact ex_locks_of|]. split; [intros [H|[H|[]]]; discriminate|].
  split; [vm_compute; reflexivity|]. unfold locks_of. vm_compute. reflexivity.
Qed.
(** Cases that meet the hypotheses: a lock and an unlock of a ref with two locks, and an
    unlock of a ref with one. *)
Example C134_ex :
  (lock_number (bs "00000006") /\ utf8_text (bs "d.png") /\ ~ In (bs "d.png") (map lk_path ex_main_locks) /\ ex_main_locks <> [] /\
   exists w1 x, lfs_create_lock ex_lenv (Some (mkLockReq (bs "d.png") ex_main)) (bs "00000006") (bs "2023-05-23T10:00:06+00:00") ex_lfs = (w1, Ok (ROk 201 (BLock x)))) /\
  locks_of ex_lenv ex_lfs (bs "refs/heads/dev") ([] ++ ex_lock (bs "00000005") (bs "a.png") (bs "2023-05-23T10:00:05+00:00") :: []) /\
  NoDup (map lk_id ex_main_locks).
Proof.
  split.
  - split; [apply number_check; reflexivity|]. split; [exists (bs "d.png"); split; [repeat constructor; left; reflexivity|reflexivity]|]. split; [intros [H|[H|[]]]; discriminate|]. split; [discriminate|].
    eexists. eexists. vm_compute. reflexivity.
  - split; [unfold locks_of; vm_compute; reflexivity|]. repeat constructor; cbn; intros H; intuition discriminate.
Qed.

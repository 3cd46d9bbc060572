(** Proofs about requests to git-lfs served at the same time. *)

From Coq Require Import ZArith.
From Verif Require Import Base BaseLemmas Digest ModelUtils ModelObject ModelPkt ModelStorage ModelLfs ModelLfsConc.
From Verif Require Import SpecObject SpecLfs ProofObject ProofLfs.
From Verif Require ModelConc.
Open Scope N_scope.

(** ** The programs are the handlers *)

Section Run.
Context (v : lenv).
(** [p] does what [m] does. *)
Definition ldoes {A} (p : lprog A) (m : L A) : Prop := forall w, lrun v p w = m w.
Lemma lrun_then : forall A B (p : lprog A) (k : res A -> lprog B) w,
  lrun v (lthen p k) w = let (w', r) := lrun v p w in lrun v (k r) w'.
Proof.
  intros A B p k. induction p as [r|X a k1 IH]; intros w; [reflexivity|]. cbn [lthen lrun]. destruct (lperform v a w) as [w' r]. apply IH.
Qed.
Lemma ldoes_bind : forall A B (p : lprog A) (m : L A) (k : A -> lprog B) (k' : A -> L B), ldoes p m -> (forall a, ldoes (k a) (k' a)) ->
  ldoes (lpbind p k) (lbind m k').
Proof.
  intros A B p m k k' H1 H2 w. unfold lpbind, lbind. rewrite lrun_then, H1. destruct (m w) as [w' [a|x| |]]; try reflexivity. apply H2.
Qed.
Lemma ldoes_ret : forall A (a : A), ldoes (lpret a) (lret a).
Proof. intros A a w. reflexivity. Qed.
Lemma ldoes_lift : forall A (r : res A), ldoes (LRet r) (llift r).
Proof. intros A r w. reflexivity. Qed.
Lemma ldoes_do : forall X (a : lact X), ldoes (ldo a) (lperform v a).
Proof. intros X a w. unfold ldo. cbn [lrun]. destruct (lperform v a w) as [w' r]. reflexivity. Qed.
Lemma ldoes_locks : forall k, ldoes (ldo (AFindLocks k)) (find_lock_row v k).
Proof. intros k. apply ldoes_do. Qed.
Lemma ldoes_meta : forall k, ldoes (ldo (AFindMeta k)) (find_meta_row v k).
Proof. intros k. apply ldoes_do. Qed.
Lemma ldoes_exec : forall f, ldoes (ldo (AExecLocks f)) (exec_locks f).
Proof. intros f. apply ldoes_do. Qed.
Lemma ldoes_exec_meta : forall f, ldoes (ldo (AExecMeta f)) (exec_meta f).
Proof. intros f. apply ldoes_do. Qed.
Lemma ldoes_back : ldoes (ldo AReadBack) lattempt.
Proof. apply ldoes_do. Qed.
Lemma ldoes_exist : forall o, ldoes (ldo (AExist o)) (store_exist v o).
Proof. intros o. apply ldoes_do. Qed.
Lemma ldoes_get : forall m, ldoes (ldo (AGet m)) (store_get v m).
Proof. intros m. apply ldoes_do. Qed.
Lemma ldoes_unwrap : forall A (p : lprog A) m, ldoes p m -> ldoes (lpunwrap p) (lunwrap m).
Proof. intros A p m H w. unfold lpunwrap, lunwrap. rewrite lrun_then, H. destruct (m w). reflexivity. Qed.
Lemma ldoes_try : forall A (p : lprog A) m, ldoes p m -> ldoes (lptry p) (ltry m).
Proof. intros A p m H w. unfold lptry, ltry. rewrite lrun_then, H. destruct (m w) as [w' [a|x| |]]; reflexivity. Qed.
Create HintDb ldoes.
Hint Resolve ldoes_ret ldoes_lift ldoes_locks ldoes_meta ldoes_exec ldoes_exec_meta ldoes_back ldoes_exist ldoes_get ldoes_unwrap ldoes_try ldoes_bind : ldoes.
Ltac lstep := apply ldoes_bind; [auto with ldoes|intros].

Lemma ldoes_inserted : forall p m, ldoes p m -> ldoes (inserted_p v p) (inserted v m).
Proof. intros p m H. apply ldoes_bind; [exact H|]. intros a. apply ldoes_ret. Qed.
Lemma ldoes_updated : forall p m, ldoes p m -> ldoes (updated_p p) (updated m).
Proof. intros p m H. apply ldoes_bind; [exact H|]. intros [|]; auto with ldoes. Qed.
Hint Resolve ldoes_inserted ldoes_updated : ldoes.
Lemma ldoes_put_meta : forall o z, ldoes (put_meta_p v o z) (lfs_put_meta v o z).
Proof. intros o z. unfold put_meta_p, lfs_put_meta. lstep. destruct a as [x|]; [auto with ldoes|]. lstep. destruct a; auto with ldoes. Qed.
Lemma ldoes_delete_meta : forall o, ldoes (delete_meta_p v o) (lfs_delete_meta v o).
Proof. intros o. unfold delete_meta_p, lfs_delete_meta. lstep. destruct a; auto with ldoes. Qed.
Lemma ldoes_filtered : forall r p c l, ldoes (filtered_p v r p c l) (lfs_get_filtered_locks v r p c l).
Proof.
  intros r p c l w. unfold filtered_p, lfs_get_filtered_locks, lfs_get_locks, lpbind. rewrite lrun_then, ldoes_locks. unfold lbind.
  destruct (find_lock_row v r w) as [w' [[[k d]|]|x| |]]; try reflexivity. cbn [lthen lrun]. destruct (js_dec v d); reflexivity.
Qed.
Lemma ldoes_add : forall r l, ldoes (add_lock_p v r l) (lfs_add_lock v r l).
Proof.
  intros r l. unfold add_lock_p, lfs_add_lock, add_lock_read, add_lock_write. lstep. apply ldoes_bind; [|intros [|]; auto with ldoes].
  destruct a as [[k d]|]; [lstep|]; auto with ldoes.
Qed.
Lemma ldoes_delete : forall r i f, ldoes (delete_lock_p v r i f) (ModelLfs.lfs_delete_lock v r i f).
Proof.
  intros r i f. unfold delete_lock_p, ModelLfs.lfs_delete_lock. lstep. destruct a as [[k d]|]; [|auto with ldoes]. lstep.
  destruct (scan_locks i f a empty_lock) as [[x rest]|]; [|auto with ldoes]. destruct (lk_id x); [auto with ldoes|].
  destruct rest; lstep; destruct a0; auto with ldoes.
Qed.
Lemma fs_put_twice : forall f p a b, fs_put (fs_put f p a) p b = fs_put f p b.
Proof.
  intros f p a b. unfold fs_put. f_equal. cbn [filter fst]. replace (path_eqb p p) with true by (symmetry; apply path_eqb_eq; reflexivity). cbn [negb].
  induction f as [|x f IH]; [reflexivity|]. cbn [filter]. destruct (negb (path_eqb (fst x) p)) eqn:E; [|exact IH]. cbn [filter]. rewrite E, IH. reflexivity.
Qed.
Lemma ldoes_put : forall m b, ldoes (put_p m b) (store_put v m b).
Proof.
  intros m b w. unfold put_p, store_put, lpbind. rewrite lrun_then, ldoes_do. cbn [lperform]. unfold file_create.
  destruct (store_path v (mt_oid m)) as [p|e| |]; try reflexivity. destruct (_ && _ && _); [|reflexivity].
  rewrite lrun_then, ldoes_do. cbn [lperform]. unfold file_write. cbn [l_files l_locks l_meta l_fails]. rewrite fs_get_put_same, fs_put_twice, skipn_nil, app_nil_r. reflexivity.
Qed.
Hint Resolve ldoes_put_meta ldoes_delete_meta ldoes_filtered ldoes_add ldoes_delete ldoes_put : ldoes.
Lemma find_lock_no_error : forall k w w' x, find_lock_row v k w <> (w', Err x).
Proof. intros k w w' x. unfold find_lock_row, lbind. destruct (lattempt w) as [w1 [[|]|e| |]] eqn:E; try discriminate. unfold lattempt in E. destruct (l_fails w); discriminate. Qed.
Lemma ldoes_lock : forall b i n, ldoes (lock_p v b i n) (lfs_create_lock v b i n).
Proof.
  intros b i n w. unfold lock_p, lfs_create_lock, lpbind, llift. unfold lbind at 1. destruct b as [rq|]; [|reflexivity]. cbn [unwrap_opt lthen].
  rewrite lrun_then. unfold create_check. rewrite (ldoes_try _ _ _ (ldoes_filtered _ _ _ _)). unfold lbind at 1. unfold lbind at 1.
  destruct (ltry _ w) as [w' [[[[|x l] nx]|]|e| |]]; try reflexivity. unfold lret at 1 2. cbn [lthen].
  rewrite lrun_then, (ldoes_try _ _ _ (ldoes_add _ _)). unfold lfs_add_lock, create_write, add_lock_read. unfold ltry at 1. unfold lbind at 1 2.
  destruct (find_lock_row v (lr_ref rq) w') as [w2 [row|e| |]] eqn:E; try reflexivity; [|exfalso; exact (find_lock_no_error _ _ _ _ E)].
  cbv zeta. unfold lbind, ltry. destruct (add_lock_write v (lr_ref rq) _ row w2) as [w3 [u|e| |]]; reflexivity.
Qed.
Lemma ldoes_batch : forall op l, ldoes (batch_objects_p v op l) (batch_objects v op l).
Proof.
  intros op l. induction l as [|o l IH]; [apply ldoes_ret|]. cbn [batch_objects_p batch_objects]. apply ldoes_bind; [|intros; lstep; auto with ldoes].
  unfold batch_object_p, batch_object, lfs_get_meta. lstep. apply ldoes_bind; [destruct a; auto with ldoes|].
  intros h. assert (K : ldoes (if beq op (bs "upload") then let^ x := lpunwrap (put_meta_p v (ob_oid o) (ob_size o)) in lpret (represent v o x (bs "upload"))
      else lpret (mkRepr (ob_oid o) (ob_size o) None None (Some (404, bs "Not found"))))
     (if beq op (bs "upload") then do! x := lunwrap (lfs_put_meta v (ob_oid o) (ob_size o)) in lret (represent v o x (bs "upload"))
      else lret (mkRepr (ob_oid o) (ob_size o) None None (Some (404, bs "Not found"))))).
  { destruct (beq op (bs "upload")); [|auto with ldoes]. lstep. auto with ldoes. }
  destruct a; [destruct h; [auto with ldoes|exact K]|exact K].
Qed.
Lemma ldoes_event : forall x, ldoes (lfs_p v x) (lfs_handle v x).
Proof.
  intros [q|b|b i n|i b|b|o b|o]; cbn [lfs_p lfs_handle].
  - unfold list_p, lfs_retrieve_lock. cbv zeta. lstep. destruct a as [[l n]|]; auto with ldoes.
  - unfold verify_p, lfs_verify_lock. lstep. cbv zeta. lstep. destruct a0 as [[l n]|]; auto with ldoes.
  - apply ldoes_lock.
  - unfold unlock_p, lfs_delete. destruct i as [|c i]; [auto with ldoes|]. destruct b as [b|]; [|auto with ldoes]. lstep. lstep.
    destruct a0 as [x|]; [|auto with ldoes]. destruct (_ && _); auto with ldoes.
  - unfold batch_p, lfs_process_batch. lstep. destruct a as [op l]. apply ldoes_bind; [apply ldoes_batch|]. auto with ldoes.
  - unfold upload_object_p, lfs_upload_object, lfs_get_meta. lstep. lstep. lstep. destruct a1; [auto with ldoes|]. lstep. auto with ldoes.
  - unfold download_object_p, lfs_download_object, lfs_get_meta. lstep. lstep. lstep. auto with ldoes.
Qed.
End Run.

(** ** Interleavings *)

Lemma linterleave_app : forall v s1 s2 ts w, linterleave v (s1 ++ s2) ts w = linterleave v s2 (fst (linterleave v s1 ts w)) (snd (linterleave v s1 ts w)).
Proof.
  intros v s1. induction s1 as [|i s1 IH]; intros s2 ts w; [reflexivity|]. cbn [app linterleave]. destruct (ladvance v i ts w) as [ts' w']. apply IH.
Qed.
Lemma set_same : forall A (l : list A) i x y, nth_error l i = Some y -> nth_error (ModelConc.set_nth i x l) i = Some x.
Proof. intros A l. induction l as [|z l IH]; intros [|i] x y H; try discriminate; cbn in *; [reflexivity|]. eapply IH, H. Qed.
Lemma set_other : forall A (l : list A) i j x, i <> j -> nth_error (ModelConc.set_nth i x l) j = nth_error l j.
Proof. intros A l. induction l as [|z l IH]; intros [|i] [|j] x H; cbn; try reflexivity; [contradiction|]. apply IH. congruence. Qed.
Lemma set_length : forall A (l : list A) i x, length (ModelConc.set_nth i x l) = length l.
Proof. intros A l. induction l as [|z l IH]; intros [|i] x; cbn; try reflexivity. f_equal. apply IH. Qed.
(** One step: nothing, or the action of one request. *)
Lemma ladvance_cases : forall v i ts w, ladvance v i ts w = (ts, w) \/
  exists X (a : lact X) k, nth_error ts i = Some (LAct a k) /\ ladvance v i ts w = (ModelConc.set_nth i (k (snd (lperform v a w))) ts, fst (lperform v a w)).
Proof.
  intros v i ts w. unfold ladvance. destruct (nth_error ts i) as [[r|X a k]|] eqn:E; [left; reflexivity| |left; reflexivity].
  right. exists X, a, k. split; [reflexivity|]. destruct (lperform v a w). reflexivity.
Qed.
(** An invariant of states and remaining programs, kept by every step. *)
Lemma linterleave_keeps : forall v (P : lserving -> lfs -> Prop),
  (forall i ts w X (a : lact X) k, P ts w -> nth_error ts i = Some (LAct a k) -> P (ModelConc.set_nth i (k (snd (lperform v a w))) ts) (fst (lperform v a w))) ->
  forall schedule ts w, P ts w -> P (fst (linterleave v schedule ts w)) (snd (linterleave v schedule ts w)).
Proof.
  intros v P St schedule. induction schedule as [|i s IH]; intros ts w H; [exact H|]. cbn [linterleave].
  destruct (ladvance_cases v i ts w) as [E|(X & a & k & N & E)]; rewrite E; apply IH; [exact H|]. apply St; assumption.
Qed.

(** Programs whose steps from states of [I] are steps of [T] and which end with an outcome of [Q]. *)
Section Safe.
Context (v : lenv) (I : lfs -> Prop) (T : lfs -> lfs -> Prop).
Fixpoint ends {A} (Q : res A -> Prop) (p : lprog A) : Prop :=
  match p with
  | LRet r => Q r
  | LAct a k => forall w, I w -> T w (fst (lperform v a w)) /\ ends Q (k (snd (lperform v a w)))
  end.
Lemma ends_weaken : forall A (Q Q' : res A -> Prop) p, (forall r, Q r -> Q' r) -> ends Q p -> ends Q' p.
Proof. intros A Q Q' p W. induction p as [r|X a k IH]; cbn [ends]; [apply W|]. intros H w Hw. destruct (H w Hw). split; [assumption|]. apply IH. assumption. Qed.
Lemma ends_then : forall A B (P : res A -> Prop) (Q : res B -> Prop) p k, ends P p -> (forall r, P r -> ends Q (k r)) -> ends Q (lthen p k).
Proof.
  intros A B P Q p k. induction p as [r|X a k1 IH]; cbn [ends lthen]; intros H K; [apply K, H|]. intros w Hw. destruct (H w Hw) as [H1 H2]. split; [exact H1|]. apply IH; assumption.
Qed.
Definition on_ok {A} (P : A -> Prop) (r : res A) : Prop := match r with Ok a => P a | _ => True end.
Lemma ends_bind : forall A B (P : A -> Prop) (Q : res B -> Prop) p k, ends (on_ok P) p -> (forall r, (forall b, r <> Ok b) -> Q r) -> (forall a, P a -> ends Q (k a)) -> ends Q (lpbind p k).
Proof.
  intros A B P Q p k H B1 K. unfold lpbind. apply (ends_then _ _ (on_ok P)); [exact H|]. intros [a|x| |] Hr; [apply K, Hr| | |]; cbn [ends]; apply B1; discriminate.
Qed.
Lemma ends_do : forall X (a : lact X) (Q : res X -> Prop), (forall w, I w -> T w (fst (lperform v a w)) /\ Q (snd (lperform v a w))) -> ends Q (ldo a).
Proof. intros X a Q H w Hw. exact (H w Hw). Qed.
End Safe.

(** ** Requests other than uploads *)

Section Others.
Context (v : lenv) (I : lfs -> Prop) (T : lfs -> lfs -> Prop).
Context (Hq : forall w w', l_meta w' = l_meta w -> l_files w' = l_files w -> (l_fails w = [] -> l_fails w' = []) -> I w -> T w w').
Context (Hi : forall w w' r, id_word (mt_oid r) -> l_meta w' = l_meta w ++ [r] -> l_files w' = l_files w -> (l_fails w = [] -> l_fails w' = []) -> I w -> T w w').
Notation any := (fun _ => True).
Lemma keep_alike : forall w w', alike w w' -> (l_fails w = [] -> w' = w) -> I w -> T w w'.
Proof. intros w w' [A1 A2 A3] F. apply Hq; [exact A2|exact A3|]. intros E. rewrite (F E). exact E. Qed.
Lemma keep_locks_row : forall k w, I w -> T w (fst (lperform v (AFindLocks k) w)).
Proof.
  intros k w Hw. cbn [lperform]. destruct (find_lock_any v k w) as (w' & A & [E|E] & F); rewrite E; apply (keep_alike w w' A); try exact Hw; intros K; apply F, K.
Qed.
Lemma keep_meta_row : forall k w, I w -> T w (fst (lperform v (AFindMeta k) w)).
Proof.
  intros k w Hw. cbn [lperform]. destruct (find_meta_any v k w) as (w' & A & [E|E] & F); rewrite E; apply (keep_alike w w' A); try exact Hw; intros K; apply F, K.
Qed.
Lemma meta_found : forall k w, on_ok (fun o => match o with Some m => In m (l_meta w) /\ l_teq v (mt_oid m) k = true | None => True end) (snd (lperform v (AFindMeta k) w)).
Proof.
  intros k w. cbn [lperform]. destruct (find_meta_any v k w) as (w' & A & [E|E] & F); rewrite E; cbn [snd on_ok]; [exact Logic.I|].
  destruct (find _ (l_meta w)) as [m|] eqn:K; [|exact Logic.I]. apply find_some in K. exact K.
Qed.
Lemma keep_exec_locks : forall f w, I w -> T w (fst (lperform v (AExecLocks f) w)).
Proof.
  intros f w Hw. cbn [lperform]. destruct (exec_locks_any f w) as (w' & b & E & M & F & _ & Q). rewrite E. apply (Hq w); try assumption. intros K. apply Q, K.
Qed.
Lemma keep_back : forall w, I w -> T w (fst (lperform v AReadBack w)).
Proof. intros w Hw. cbn [lperform]. destruct (lattempt_any w) as (w' & b & E & A & F). rewrite E. apply (keep_alike w w' A); [|exact Hw]. intros K. apply F, K. Qed.
Lemma exec_meta_any : forall f w, exists w' b, exec_meta f w = (w', Ok b) /\ l_locks w' = l_locks w /\ l_files w' = l_files w /\
  (b = false /\ l_meta w' = l_meta w \/ b = true /\ f (l_meta w) = Some (l_meta w')) /\ (l_fails w = [] -> l_fails w' = [] /\ (b = false -> w' = w /\ f (l_meta w) = None)).
Proof.
  intros f w. unfold exec_meta. destruct (lattempt_any w) as (w1 & b & E & [A1 A2 A3] & Q). rewrite (lbind_ok _ _ _ _ _ _ _ E). destruct b.
  - rewrite A2. destruct (f (l_meta w)) as [t|] eqn:F.
    + exists (mkLfs (l_locks w1) t (l_files w1) (l_fails w1)), true. cbn. repeat (split; [assumption || reflexivity|]). split; [right; auto|].
      intros K. destruct (Q K) as [-> _]. split; [exact K|discriminate].
    + exists w1, false. repeat (split; [assumption || reflexivity|]). split; [left; auto|]. intros K. destruct (Q K) as [-> _]. auto.
  - exists w1, false. repeat (split; [assumption || reflexivity|]). split; [left; auto|]. intros K. destruct (Q K) as [_ K2]. discriminate.
Qed.
Lemma keep_insert : forall r w, id_word (mt_oid r) -> I w -> T w (fst (lperform v (AExecMeta (insert_meta v r)) w)).
Proof.
  intros r w Hr Hw. cbn [lperform]. destruct (exec_meta_any (insert_meta v r) w) as (w' & b & E & M & F & [[-> K]|[-> K]] & Q); rewrite E; cbn [fst].
  - apply (Hq w); try assumption. intros N. apply Q, N.
  - unfold insert_meta in K. destruct (_ && _ && _); [|discriminate]. injection K as K. apply (Hi w w' r); try assumption; [symmetry; exact K|]. intros N. apply Q, N.
Qed.
Create HintDb ends.
Lemma ends_true : forall A (r : res A), ends v I T any (LRet r).
Proof. intros. exact Logic.I. Qed.
Lemma ends_any : forall A B (p : lprog A) (k : A -> lprog B), ends v I T any p -> (forall a, ends v I T any (k a)) -> ends v I T any (lpbind p k).
Proof. intros A B p k H K. apply (ends_bind v I T A B (fun _ => True)); [|auto|auto]. apply (ends_weaken v I T A any); [|exact H]. intros [| | |] _; exact Logic.I. Qed.
Lemma ends_any_then : forall A B (p : lprog A) (k : res A -> lprog B), ends v I T any p -> (forall a, ends v I T any (k a)) -> ends v I T any (lthen p k).
Proof. intros A B p k H K. apply (ends_then v I T A B any); auto. Qed.
Lemma ends_try : forall A (p : lprog A), ends v I T any p -> ends v I T any (lptry p).
Proof. intros A p H. apply ends_any_then; [exact H|]. intros [| | |]; apply ends_true. Qed.
Lemma ends_unwrap : forall A (p : lprog A), ends v I T any p -> ends v I T any (lpunwrap p).
Proof. intros A p H. apply ends_any_then; [exact H|]. intros; apply ends_true. Qed.
Lemma ends_locks_row : forall k, ends v I T any (ldo (AFindLocks k)).
Proof. intros k. apply ends_do. intros w Hw. split; [apply keep_locks_row, Hw|exact Logic.I]. Qed.
Lemma ends_meta_row : forall k, ends v I T any (ldo (AFindMeta k)).
Proof. intros k. apply ends_do. intros w Hw. split; [apply keep_meta_row, Hw|exact Logic.I]. Qed.
Lemma ends_exec_locks : forall f, ends v I T any (ldo (AExecLocks f)).
Proof. intros f. apply ends_do. intros w Hw. split; [apply keep_exec_locks, Hw|exact Logic.I]. Qed.
Lemma ends_back : ends v I T any (ldo AReadBack).
Proof. apply ends_do. intros w Hw. split; [apply keep_back, Hw|exact Logic.I]. Qed.
Lemma ends_exist : forall o, ends v I T any (ldo (AExist o)).
Proof. intros o. apply ends_do. intros w Hw. split; [apply (Hq w); auto|exact Logic.I]. Qed.
Lemma ends_get : forall m, ends v I T any (ldo (AGet m)).
Proof. intros m. apply ends_do. intros w Hw. split; [apply (Hq w); auto|exact Logic.I]. Qed.
Lemma ends_updated : forall p, ends v I T any p -> ends v I T any (updated_p p).
Proof. intros p H. apply ends_any; [exact H|]. intros [|]; [exact ends_back|apply ends_true]. Qed.
Lemma ends_inserted : forall p, ends v I T any p -> ends v I T any (inserted_p v p).
Proof. intros p H. apply ends_any; [exact H|]. intros; apply ends_true. Qed.
Hint Resolve ends_true ends_try ends_unwrap ends_locks_row ends_meta_row ends_exec_locks ends_back ends_exist ends_get ends_updated ends_inserted : ends.
Ltac estep := apply ends_any; [auto with ends|intros].
Lemma ends_filtered : forall r p c l, ends v I T any (filtered_p v r p c l).
Proof. intros. unfold filtered_p. estep. apply ends_any; [|intros; apply ends_true]. destruct a as [[k d]|]; apply ends_true. Qed.
Hint Resolve ends_filtered : ends.
Lemma ends_put_meta : forall o z, id_word o -> ends v I T any (put_meta_p v o z).
Proof.
  intros o z Ho. unfold put_meta_p. estep. destruct a as [x|]; [apply ends_true|]. apply ends_any; [|intros [|]; apply ends_true]. apply ends_inserted.
  apply ends_do. intros w Hw. split; [apply keep_insert; [exact Ho|exact Hw]|exact Logic.I].
Qed.
Lemma ends_batch : forall op l, Forall (fun o => id_word (ob_oid o)) l -> ends v I T any (batch_objects_p v op l).
Proof.
  intros op l H. induction H as [|o l Ho _ IH]; [apply ends_true|]. cbn [batch_objects_p]. apply ends_any; [|intros; apply ends_any; [exact IH|intros; apply ends_true]].
  unfold batch_object_p. estep. apply ends_any; [destruct a; [apply ends_exist|apply ends_true]|]. intros h.
  assert (K : ends v I T any (if beq op (bs "upload") then let^ x := lpunwrap (put_meta_p v (ob_oid o) (ob_size o)) in lpret (represent v o x (bs "upload"))
      else lpret (mkRepr (ob_oid o) (ob_size o) None None (Some (404, bs "Not found"))))).
  { destruct (beq op (bs "upload")); [|apply ends_true]. apply ends_any; [apply ends_unwrap, ends_put_meta, Ho|intros; apply ends_true]. }
  destruct a; [destruct h; [apply ends_true|exact K]|exact K].
Qed.
Lemma ends_other : forall x, batch_ok x -> match x with EUpload _ _ => False | _ => True end -> ends v I T any (lfs_p v x).
Proof.
  intros [q|b|b i n|i b|b|o b|o] Hb Hx; cbn [lfs_p].
  - unfold list_p. cbv zeta. estep. destruct a as [[l n]|]; apply ends_true.
  - unfold verify_p. estep. cbv zeta. estep. destruct a0 as [[l n]|]; apply ends_true.
  - unfold lock_p. estep. estep. destruct a0 as [[[|x l] nx]|]; try apply ends_true. cbv zeta. apply ends_any; [|intros [|]; apply ends_true]. apply ends_try.
    unfold add_lock_p. estep. apply ends_any; [|intros [|]; apply ends_true]. destruct a0 as [[k d]|]; [estep|]; auto with ends.
  - unfold unlock_p. destruct i as [|c i]; [apply ends_true|]. destruct b as [b|]; [|apply ends_true]. estep. apply ends_any.
    + apply ends_try. unfold delete_lock_p. estep. destruct a0 as [[k d]|]; [|apply ends_true]. estep. destruct (scan_locks _ _ _ _) as [[x rest]|]; [|apply ends_true].
      destruct (lk_id x); [apply ends_true|]. destruct rest; estep; destruct a1; apply ends_true.
    + intros [x|]; [|apply ends_true]. destruct (_ && _); apply ends_true.
  - unfold batch_p. destruct b as [[op l]|]; [|exact Logic.I]. unfold lpbind at 1. cbn [unwrap_opt lthen]. cbn [batch_ok] in Hb.
    apply ends_any; [apply ends_batch, Hb|intros; apply ends_true].
  - destruct Hx.
  - unfold download_object_p. estep. estep. estep. apply ends_true.
Qed.
End Others.

(** ** Every request, when uploads keep the invariant *)

Lemma started_nth : forall v xs i p, nth_error (map (lfs_p v) xs) i = Some p -> exists x, nth_error xs i = Some x /\ p = lfs_p v x.
Proof.
  intros v xs i p H. rewrite nth_error_map in H. destruct (nth_error xs i) as [x|]; [|discriminate]. injection H as <-. exists x. auto.
Qed.
(** Programs that keep [I] keep it in every order; each ends as it should. *)
Lemma interleave_ends : forall v (I : lfs -> Prop) (Q : nat -> res lfs_reply -> Prop) schedule ts w, I w ->
  (forall i p, nth_error ts i = Some p -> ends v I (fun _ => I) (Q i) p) ->
  I (snd (linterleave v schedule ts w)) /\ forall i r, nth_error (fst (linterleave v schedule ts w)) i = Some (LRet r) -> Q i r.
Proof.
  intros v I Q schedule ts w Hw Ht.
  destruct (linterleave_keeps v (fun ts w => I w /\ forall i p, nth_error ts i = Some p -> ends v I (fun _ => I) (Q i) p)) with (schedule := schedule) (ts := ts) (w := w) as [H1 H2].
  - clear. intros i ts w X a k [Hw Ht] N. pose proof (Ht i _ N) as E. cbn [ends] in E. destruct (E w Hw) as [E1 E2]. split; [exact E1|].
    intros j p Hj. destruct (Nat.eq_dec i j) as [<-|Nj].
    + rewrite (set_same _ _ _ _ _ N) in Hj. injection Hj as <-. exact E2.
    + rewrite set_other in Hj by exact Nj. apply Ht, Hj.
  - auto.
  - split; [exact H1|]. intros i r N. exact (H2 i _ N).
Qed.

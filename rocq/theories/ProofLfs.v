(** Lemmas about LFS requests. *)

From Coq Require Import ZArith Permutation Sorting.Sorted.
From Verif Require Import Base BaseLemmas Digest ModelObject ModelPkt ModelStorage ModelLfs SpecObject SpecIdx SpecBase SpecLfs ProofUtf8.
Open Scope N_scope.

Lemma lbind_ok : forall A B (m : L A) (k : A -> L B) w w' a, m w = (w', Ok a) -> lbind m k w = k a w'.
Proof. intros A B m k w w' a H. unfold lbind. rewrite H. reflexivity. Qed.

(** ** The state apart from the outcomes of statements *)
Record alike (w w' : lfs) : Prop := { al_locks : l_locks w' = l_locks w; al_meta : l_meta w' = l_meta w; al_files : l_files w' = l_files w }.
Lemma alike_refl : forall w, alike w w.
Proof. intros w. split; reflexivity. Qed.
Lemma alike_trans : forall a b c, alike a b -> alike b c -> alike a c.
Proof. intros a b c [H1 H2 H3] [K1 K2 K3]. split; congruence. Qed.

Lemma lattempt_any : forall w, exists w' b, lattempt w = (w', Ok b) /\ alike w w' /\ (l_fails w = [] -> w' = w /\ b = true).
Proof.
  intros w. unfold lattempt. destruct (l_fails w) as [|b r] eqn:E.
  - exists w, true. repeat split; reflexivity.
  - exists (mkLfs (l_locks w) (l_meta w) (l_files w) r), (negb b). split; [reflexivity|]. split; [split; reflexivity|discriminate].
Qed.
Lemma find_lock_any : forall v k w, exists w', alike w w' /\
  (find_lock_row v k w = (w', Panic) \/ find_lock_row v k w = (w', Ok (find (fun r => l_teq v (fst r) k) (l_locks w)))) /\
  (l_fails w = [] -> w' = w /\ find_lock_row v k w = (w, Ok (find (fun r => l_teq v (fst r) k) (l_locks w)))).
Proof.
  intros v k w. unfold find_lock_row. destruct (lattempt_any w) as (w' & b & E & A & Q). rewrite (lbind_ok _ _ _ _ _ _ _ E).
  exists w'. split; [exact A|]. destruct b.
  - rewrite (al_locks _ _ A). split; [right; reflexivity|]. intros F. destruct (Q F) as [-> _]. auto.
  - split; [left; reflexivity|]. intros F. destruct (Q F) as [_ K]. discriminate.
Qed.
Lemma find_meta_any : forall v k w, exists w', alike w w' /\
  (find_meta_row v k w = (w', Panic) \/ find_meta_row v k w = (w', Ok (find (fun r => l_teq v (mt_oid r) k) (l_meta w)))) /\
  (l_fails w = [] -> w' = w /\ find_meta_row v k w = (w, Ok (find (fun r => l_teq v (mt_oid r) k) (l_meta w)))).
Proof.
  intros v k w. unfold find_meta_row. destruct (lattempt_any w) as (w' & b & E & A & Q). rewrite (lbind_ok _ _ _ _ _ _ _ E).
  exists w'. split; [exact A|]. destruct b.
  - rewrite (al_meta _ _ A). split; [right; reflexivity|]. intros F. destruct (Q F) as [-> _]. auto.
  - split; [left; reflexivity|]. intros F. destruct (Q F) as [_ K]. discriminate.
Qed.

Definition with_locks (w : lfs) (t : list (bytes * bytes)) : lfs := mkLfs t (l_meta w) (l_files w) (l_fails w).
(** A statement on the locks: done or not. *)
Lemma exec_locks_any : forall f w, exists w' b, exec_locks f w = (w', Ok b) /\ l_meta w' = l_meta w /\ l_files w' = l_files w /\
  (b = false /\ l_locks w' = l_locks w \/ b = true /\ f (l_locks w) = Some (l_locks w')) /\
  (l_fails w = [] -> l_fails w' = [] /\ (b = false -> w' = w /\ f (l_locks w) = None)).
Proof.
  intros f w. unfold exec_locks. destruct (lattempt_any w) as (w1 & b & E & [A1 A2 A3] & Q). rewrite (lbind_ok _ _ _ _ _ _ _ E). destruct b.
  - rewrite A1. destruct (f (l_locks w)) as [t|] eqn:F.
    + exists (mkLfs t (l_meta w1) (l_files w1) (l_fails w1)), true. cbn. split; [reflexivity|]. split; [exact A2|]. split; [exact A3|].
      split; [right; auto|]. intros Z. destruct (Q Z) as [-> _]. split; [exact Z|discriminate].
    + exists w1, false. split; [reflexivity|]. split; [exact A2|]. split; [exact A3|]. split; [left; auto|].
      intros Z. destruct (Q Z) as [-> _]. auto.
  - exists w1, false. split; [reflexivity|]. split; [exact A2|]. split; [exact A3|]. split; [left; auto|].
    intros Z. destruct (Q Z) as [_ K]. discriminate.
Qed.
Lemma exec_locks_quiet : forall f w, l_fails w = [] ->
  exec_locks f w = match f (l_locks w) with Some t => (with_locks w t, Ok true) | None => (w, Ok false) end.
Proof. intros f w H. unfold exec_locks, lbind, lattempt. rewrite H. reflexivity. Qed.
Lemma updated_quiet : forall f w, l_fails w = [] -> updated (exec_locks f) w = exec_locks f w.
Proof.
  intros f w H. unfold updated, lbind. rewrite exec_locks_quiet by exact H. destruct (f (l_locks w)); [|reflexivity].
  unfold lattempt. cbn [with_locks l_fails]. rewrite H. reflexivity.
Qed.
Lemma inserted_quiet : forall v f w, l_fails w = [] ->
  inserted v (exec_locks f) w = match f (l_locks w) with Some t => (with_locks w t, Ok (key_insert_ok v)) | None => (w, Ok false) end.
Proof.
  intros v f w H. unfold inserted, lbind. rewrite exec_locks_quiet by exact H. destruct (f (l_locks w)); reflexivity.
Qed.
Lemma updated_any : forall f w, exists w' b, updated (exec_locks f) w = (w', Ok b) /\ l_meta w' = l_meta w /\ l_files w' = l_files w /\
  (l_locks w' = l_locks w \/ f (l_locks w) = Some (l_locks w')).
Proof.
  intros f w. unfold updated. destruct (exec_locks_any f w) as (w1 & b & E & M1 & F1 & C & _). rewrite (lbind_ok _ _ _ _ _ _ _ E). destruct b.
  - destruct (lattempt_any w1) as (w2 & b & E2 & [A1 A2 A3] & _). rewrite E2. exists w2, b. split; [reflexivity|]. split; [congruence|].
    split; [congruence|]. destruct C as [[D _]|[_ D]]; [discriminate|]. right. congruence.
  - exists w1, false. split; [reflexivity|]. split; [exact M1|]. split; [exact F1|]. destruct C as [[_ D]|[D _]]; [left; exact D|discriminate].
Qed.
Lemma inserted_any : forall v f w, exists w' b, inserted v (exec_locks f) w = (w', Ok b) /\ l_meta w' = l_meta w /\ l_files w' = l_files w /\
  (l_locks w' = l_locks w \/ f (l_locks w) = Some (l_locks w')).
Proof.
  intros v f w. unfold inserted. destruct (exec_locks_any f w) as (w1 & b & E & M1 & F1 & C & _). rewrite (lbind_ok _ _ _ _ _ _ _ E).
  exists w1, (b && key_insert_ok v). split; [reflexivity|]. split; [exact M1|]. split; [exact F1|]. destruct C as [[_ D]|[_ D]]; auto.
Qed.

(** ** Sorting *)
Lemma insert_at_perm : forall x l, Permutation (insert_at x l) (x :: l).
Proof.
  intros x l. induction l as [|y l IH]; [apply Permutation_refl|]. cbn [insert_at].
  destruct (bcmp (lk_at x) (lk_at y)); [apply Permutation_refl|apply Permutation_refl|].
  eapply Permutation_trans; [apply perm_skip, IH|apply perm_swap].
Qed.
Lemma sort_locks_perm : forall l, Permutation (sort_locks l) l.
Proof.
  induction l as [|x l IH]; [apply Permutation_refl|]. cbn [sort_locks]. eapply Permutation_trans; [apply insert_at_perm|apply perm_skip, IH].
Qed.
Lemma earlier_trans : forall a b c, earlier a b -> earlier b c -> earlier a c.
Proof.
  unfold earlier. intros a b c H1 H2 K. destruct (bcmp (lk_at a) (lk_at b)) eqn:A; [apply bcmp_eq in A; rewrite A in K; contradiction| |contradiction].
  destruct (bcmp (lk_at b) (lk_at c)) eqn:B; [apply bcmp_eq in B; rewrite B in A; congruence| |contradiction].
  rewrite (bcmp_trans _ _ _ A B) in K. discriminate.
Qed.
Lemma insert_at_sorted : forall x l, StronglySorted earlier l -> StronglySorted earlier (insert_at x l).
Proof.
  intros x l H. induction H as [|y l H IH F]; [repeat constructor|]. cbn [insert_at]. destruct (bcmp (lk_at x) (lk_at y)) eqn:C.
  - constructor; [constructor; assumption|]. constructor; [unfold earlier; congruence|]. eapply Forall_impl; [|exact F].
    intros z. apply earlier_trans. unfold earlier. congruence.
  - constructor; [constructor; assumption|]. constructor; [unfold earlier; congruence|]. eapply Forall_impl; [|exact F].
    intros z. apply earlier_trans. unfold earlier. congruence.
  - constructor; [exact IH|]. eapply Permutation_Forall; [apply Permutation_sym, insert_at_perm|]. constructor; [|exact F].
    unfold earlier. rewrite bcmp_antisym, C. discriminate.
Qed.
Lemma sort_locks_sorted : forall l, StronglySorted earlier (sort_locks l).
Proof. induction l as [|x l IH]; [constructor|]. apply insert_at_sorted, IH. Qed.
Lemma filter_sorted : forall f l, StronglySorted earlier l -> StronglySorted earlier (filter f l).
Proof.
  intros f l H. induction H as [|y l H IH F]; [constructor|]. cbn [filter]. destruct (f y); [|exact IH]. constructor; [exact IH|].
  apply Forall_forall. intros z Hz. apply filter_In in Hz as [Hz _]. rewrite Forall_forall in F. apply F, Hz.
Qed.

(** ** Invariant of the table of locks *)
Definition lock_ok (x : lock) : Prop := lk_owner x = None /\ lock_number (lk_id x) /\ utf8_text (lk_path x) /\ utf8_text (lk_at x).
Lemma lock_ok_text : forall l, Forall lock_ok l -> Forall lock_text l.
Proof.
  intros l H. eapply Forall_impl; [|exact H]. intros x (A & [_ B] & C & D). unfold lock_text. rewrite A. repeat split; try assumption.
  apply utf8_text_ascii. eapply Forall_impl; [|exact B]. cbn. intros b L. lia.
Qed.
Lemma js_back : forall v l, lenv_ok v -> Forall lock_ok l -> js_enc v l <> [] /\ js_dec v (js_enc v l) = Some l.
Proof. intros v l (_ & _ & _ & J & _) H. apply J, lock_ok_text, H. Qed.
Definition row_ok (v : lenv) (r : bytes * bytes) : Prop :=
  exists l, snd r = js_enc v l /\ l <> [] /\ NoDup (map lk_path l) /\ (Forall lock_ok l /\ StronglySorted earlier l) /\ chars (snd r) <= 10000.
Definition keys_apart (v : lenv) (t : list (bytes * bytes)) : Prop := ForallOrdPairs (fun a b => l_teq v (fst a) (fst b) = false) t.
Definition table_ok (v : lenv) (t : list (bytes * bytes)) : Prop := Forall (row_ok v) t /\ keys_apart v t.

Lemma filter_none : forall A (f : A -> bool) l, (forall x, In x l -> f x = false) -> filter f l = [].
Proof.
  intros A f. induction l as [|x l IH]; intros H; [reflexivity|]. cbn [filter]. rewrite (H x (or_introl eq_refl)). apply IH.
  intros y Hy. apply H. right. exact Hy.
Qed.
Lemma keys_filter : forall v t k, lenv_ok v -> keys_apart v t ->
  filter (fun r => l_teq v (fst r) k) t = match find (fun r => l_teq v (fst r) k) t with Some r => [r] | None => [] end.
Proof.
  intros v t k (_ & Sy & Tr & _) H. induction H as [|r t F H IH]; [reflexivity|]. cbn [filter find]. destruct (l_teq v (fst r) k) eqn:E; [|exact IH].
  f_equal. apply filter_none. intros x Hx. rewrite Forall_forall in F. specialize (F x Hx). destruct (l_teq v (fst x) k) eqn:K; [|reflexivity].
  rewrite Sy in K. rewrite (Tr _ _ _ E K) in F. discriminate.
Qed.
Lemma locks_of_find : forall v w ref l, lenv_ok v -> table_ok v (l_locks w) ->
  (locks_of v w ref l <-> match find (fun r => l_teq v (fst r) ref) (l_locks w) with Some (_, d) => js_dec v d = Some l | None => l = [] end).
Proof.
  intros v w ref l Hv [_ Hk]. unfold locks_of. rewrite (keys_filter v _ ref Hv Hk). destruct (find _ _) as [[k d]|]; reflexivity.
Qed.
(** What the row of a ref says. *)
Lemma row_of : forall v w ref l, lenv_ok v -> table_ok v (l_locks w) -> locks_of v w ref l ->
  (l = [] /\ find (fun r => l_teq v (fst r) ref) (l_locks w) = None) \/
  (exists k, l <> [] /\ find (fun r => l_teq v (fst r) ref) (l_locks w) = Some (k, js_enc v l) /\ In (k, js_enc v l) (l_locks w) /\ l_teq v k ref = true /\
     NoDup (map lk_path l) /\ (Forall lock_ok l /\ StronglySorted earlier l) /\ chars (js_enc v l) <= 10000).
Proof.
  intros v w ref l Hv [Hr Hk] H. apply locks_of_find in H; [|exact Hv|split; assumption].
  destruct (find _ _) as [[k d]|] eqn:F; [|left; auto]. right. apply find_some in F as [Hi Ht]. rewrite Forall_forall in Hr.
  destruct (Hr _ Hi) as (l' & E & N1 & N2 & N3 & N4). cbn [fst snd] in *. subst d. destruct Hv as (_ & _ & _ & Js & _).
  rewrite (proj2 (Js l' (lock_ok_text _ (proj1 N3)))) in H. injection H as <-. exists k. auto 8.
Qed.
Lemma locks_exist : forall v w ref, lenv_ok v -> table_ok v (l_locks w) -> exists l, locks_of v w ref l.
Proof.
  intros v w ref Hv Ht. destruct (find (fun r => l_teq v (fst r) ref) (l_locks w)) as [[k d]|] eqn:F.
  - pose proof (proj1 Ht) as Hr. rewrite Forall_forall in Hr. destruct (Hr _ (proj1 (find_some _ _ F))) as (l & E & _ & _ & N3 & _). exists l.
    apply locks_of_find; [exact Hv|exact Ht|]. rewrite F. cbn [snd] in E. subst d. apply js_back; [exact Hv|apply N3].
  - exists []. apply locks_of_find; [exact Hv|exact Ht|]. rewrite F. reflexivity.
Qed.
Lemma locks_unique : forall v w ref l l', lenv_ok v -> table_ok v (l_locks w) -> locks_of v w ref l -> locks_of v w ref l' -> l = l'.
Proof.
  intros v w ref l l' Hv Ht H1 H2. apply locks_of_find in H1, H2; try assumption. destruct (find _ _) as [[k d]|]; congruence.
Qed.

(** Changing the row of one key. *)
Lemma update_apart : forall v k (d : bytes) t, keys_apart v t -> keys_apart v (map (fun r => if l_teq v (fst r) k then (fst r, d) else r) t).
Proof.
  intros v k d t H. induction H as [|r t F H IH]; [constructor|]. cbn [map]. constructor; [|exact IH]. apply Forall_forall. intros x Hx.
  apply in_map_iff in Hx as (y & <- & Hy). rewrite Forall_forall in F. specialize (F y Hy).
  destruct (l_teq v (fst r) k), (l_teq v (fst y) k); exact F.
Qed.
Lemma find_update_other : forall v k (d : bytes) t ref, lenv_ok v -> l_teq v k ref = false ->
  find (fun r => l_teq v (fst r) ref) (map (fun r => if l_teq v (fst r) k then (fst r, d) else r) t) = find (fun r => l_teq v (fst r) ref) t.
Proof.
  intros v k d t ref (_ & Sy & Tr & _) H. induction t as [|r t IH]; [reflexivity|]. cbn [map find].
  destruct (l_teq v (fst r) k) eqn:E; cbn [fst].
  - destruct (l_teq v (fst r) ref) eqn:K; [|exact IH]. rewrite Sy in E. rewrite (Tr _ _ _ E K) in H. discriminate.
  - rewrite IH. reflexivity.
Qed.
Lemma find_update_same : forall v k (d : bytes) t ref, lenv_ok v -> l_teq v k ref = true -> existsb (fun r => l_teq v (fst r) k) t = true ->
  exists k', find (fun r => l_teq v (fst r) ref) (map (fun r => if l_teq v (fst r) k then (fst r, d) else r) t) = Some (k', d).
Proof.
  intros v k d t ref (_ & Sy & Tr & _) H. induction t as [|r t IH]; [discriminate|]. cbn [existsb map find]. intros X.
  destruct (l_teq v (fst r) k) eqn:E; cbn [fst].
  - rewrite (Tr _ _ _ E H). eauto.
  - destruct (l_teq v (fst r) ref) eqn:K; [rewrite Sy in H; rewrite (Tr _ _ _ K H) in E; discriminate|apply IH, X].
Qed.
Lemma find_snoc : forall A (f : A -> bool) t x, find f (t ++ [x]) = match find f t with Some y => Some y | None => if f x then Some x else None end.
Proof. intros A f t x. induction t as [|y t IH]; [reflexivity|]. cbn [app find]. destruct (f y); [reflexivity|exact IH]. Qed.
Lemma existsb_find : forall A (f : A -> bool) t, existsb f t = match find f t with Some _ => true | None => false end.
Proof. intros A f t. induction t as [|y t IH]; [reflexivity|]. cbn [existsb find]. destruct (f y); [reflexivity|exact IH]. Qed.
Lemma snoc_apart : forall v t k d, lenv_ok v -> keys_apart v t -> existsb (fun r => l_teq v (fst r) k) t = false -> keys_apart v (t ++ [(k, d)]).
Proof.
  intros v t k d Hv H. induction H as [|r t F H IH]; intros X; [repeat constructor|]. cbn [existsb] in X. apply orb_false_iff in X as [X1 X2].
  cbn [app]. constructor; [|apply IH, X2]. apply Forall_app. split; [exact F|]. constructor; [exact X1|constructor].
Qed.
Lemma filter_apart : forall v t f, keys_apart v t -> keys_apart v (filter f t).
Proof.
  intros v t f H. induction H as [|r t F H IH]; [constructor|]. cbn [filter]. destruct (f r); [|exact IH]. constructor; [|exact IH].
  apply Forall_forall. intros x Hx. apply filter_In in Hx as [Hx _]. rewrite Forall_forall in F. apply F, Hx.
Qed.
Lemma varchar_le : forall n l, varchar n l = true <-> chars l <= n.
Proof. intros n l. unfold varchar. apply N.leb_le. Qed.

Lemma insert_ok : forall v k l t t', lenv_ok v -> table_ok v t -> l <> [] -> NoDup (map lk_path l) -> Forall lock_ok l /\ StronglySorted earlier l ->
  insert_lock v k (js_enc v l) t = Some t' -> table_ok v t'.
Proof.
  intros v k l t t' Hv [Hr Hk] N1 N2 N3. unfold insert_lock. destruct (varchar 200 k); [|discriminate].
  destruct (varchar 10000 (js_enc v l)) eqn:V; [|discriminate]. apply varchar_le in V.
  destruct (existsb (fun r => l_teq v (fst r) k) t) eqn:X; [discriminate|]. cbn. intros [= <-]. split.
  - apply Forall_app. split; [exact Hr|]. constructor; [|constructor]. exists l. cbn [snd]. auto.
  - apply snoc_apart; assumption.
Qed.
Lemma update_ok : forall v k l t t', table_ok v t -> l <> [] -> NoDup (map lk_path l) -> Forall lock_ok l /\ StronglySorted earlier l ->
  update_lock v k (js_enc v l) t = Some t' -> table_ok v t'.
Proof.
  intros v k l t t' [Hr Hk] N1 N2 N3. unfold update_lock. destruct (varchar 10000 (js_enc v l)) eqn:V; [|discriminate]. apply varchar_le in V.
  destruct (existsb _ t); [|discriminate]. intros [= <-]. split; [|apply update_apart, Hk]. apply Forall_forall. intros x Hx.
  apply in_map_iff in Hx as (y & <- & Hy). rewrite Forall_forall in Hr. destruct (l_teq v (fst y) k); [|apply Hr, Hy]. exists l. cbn [snd]. auto.
Qed.

(** ** Steps of a lock request *)
Lemma sorted_new : forall l x, NoDup (map lk_path l) -> Forall lock_ok l -> lock_ok x -> ~ In (lk_path x) (map lk_path l) ->
  sort_locks (l ++ [x]) <> [] /\ NoDup (map lk_path (sort_locks (l ++ [x]))) /\ (Forall lock_ok (sort_locks (l ++ [x])) /\ StronglySorted earlier (sort_locks (l ++ [x]))).
Proof.
  intros l x N1 N2 N3 N4. pose proof (sort_locks_perm (l ++ [x])) as P. split; [|split].
  - intros E. rewrite E in P. apply Permutation_nil in P. destruct l; discriminate.
  - eapply Permutation_NoDup; [apply Permutation_sym, Permutation_map, P|]. rewrite map_app. cbn [map].
    eapply Permutation_NoDup; [apply Permutation_cons_append|]. constructor; assumption.
  - split; [|apply sort_locks_sorted]. eapply Permutation_Forall; [apply Permutation_sym, P|]. apply Forall_app. auto.
Qed.

(** The list after the filter of a lock request. *)
Definition picks (path : bytes) (l : list lock) : list lock := match path with [] => l | _ => filter (fun x => beq (lk_path x) path) l end.
Lemma checked : forall path l, exists next, filtered_locks path [] (bs "1") l = Ok (firstn 1 (picks path l), next).
Proof.
  intros path l. unfold filtered_locks. cbn [bind]. fold (picks path l). generalize (picks path l). intros l'. unfold cut_locks.
  change (bs "1") with [49] at 1. cbn beta iota zeta. change (unwrap_opt (parse_i64 (bs "1"))) with (@Ok Z 1%Z). cbn [bind].
  destruct l' as [|x [|y [|z l']]]; try (eexists; reflexivity).
  replace (Z.min 1 (Z.of_nat (length (x :: y :: z :: l')))) with 1%Z by (cbn [length]; lia).
  replace (1 <? 0)%Z with false by reflexivity.
  replace (1 + 1 <? Z.of_nat (length (x :: y :: z :: l')))%Z with true by (symmetry; apply Z.ltb_lt; cbn [length]; lia). eexists. reflexivity.
Qed.
Lemma no_path_left : forall path l, filter (fun x => beq (lk_path x) path) l = [] <-> ~ In path (map lk_path l).
Proof.
  intros path l. split.
  - intros H Hi. apply in_map_iff in Hi as (x & E & Hx). assert (K : In x (filter (fun x => beq (lk_path x) path) l)).
    { apply filter_In. split; [exact Hx|]. apply beq_eq. exact E. } rewrite H in K. exact K.
  - intros H. apply filter_none. intros x Hx. apply (proj2 (beq_neq _ _)). intros E. apply H. rewrite <- E. apply in_map, Hx.
Qed.

Lemma picks_none : forall path l, picks path l = [] -> ~ In path (map lk_path l).
Proof. intros [|a path] l H; [cbn in H; subst l; intros []|apply no_path_left; exact H]. Qed.

Lemma get_locks_any : forall v ref w l, lenv_ok v -> table_ok v (l_locks w) -> locks_of v w ref l -> exists w', alike w w' /\
  (lfs_get_locks v ref w = (w', Panic) \/ lfs_get_locks v ref w = (w', Ok (match l with [] => None | _ => Some l end))) /\
  (l_fails w = [] -> w' = w /\ lfs_get_locks v ref w = (w, Ok (match l with [] => None | _ => Some l end))).
Proof.
  intros v ref w l Hv Ht Hl. destruct (find_lock_any v ref w) as (w' & A & C & Q). exists w'. split; [exact A|].
  assert (K : forall w1, find_lock_row v ref w = (w1, Ok (find (fun r => l_teq v (fst r) ref) (l_locks w))) ->
    lfs_get_locks v ref w = (w1, Ok (match l with [] => None | _ => Some l end))).
  { intros w1 E. unfold lfs_get_locks. rewrite (lbind_ok _ _ _ _ _ _ _ E). destruct (row_of v w ref l Hv Ht Hl) as [[-> F]|(k & N1 & F & _ & _ & _ & N3 & _)]; rewrite F.
    - reflexivity.
    - unfold llift, lbind. rewrite (proj2 (js_back v l Hv (proj1 N3))). destruct l; [contradiction|reflexivity]. }
  split.
  - destruct C as [C|C]; [left; unfold lfs_get_locks, lbind; rewrite C; reflexivity|right; apply K, C].
  - intros F. destruct (Q F) as [-> E]. split; [reflexivity|]. apply K, E.
Qed.
Lemma filtered_any : forall v ref path cursor limit w l, lenv_ok v -> table_ok v (l_locks w) -> locks_of v w ref l -> exists w', alike w w' /\
  (lfs_get_filtered_locks v ref path cursor limit w = (w', Panic) \/ lfs_get_filtered_locks v ref path cursor limit w = (w', filtered_locks path cursor limit l)) /\
  (l_fails w = [] -> w' = w /\ lfs_get_filtered_locks v ref path cursor limit w = (w, filtered_locks path cursor limit l)).
Proof.
  intros v ref path cursor limit w l Hv Ht Hl. destruct (get_locks_any v ref w l Hv Ht Hl) as (w' & A & C & Q). exists w'. split; [exact A|].
  assert (K : forall w1, lfs_get_locks v ref w = (w1, Ok (match l with [] => None | _ => Some l end)) ->
    lfs_get_filtered_locks v ref path cursor limit w = (w1, filtered_locks path cursor limit l)).
  { intros w1 E. unfold lfs_get_filtered_locks. rewrite (lbind_ok _ _ _ _ _ _ _ E). destruct l; reflexivity. }
  split.
  - destruct C as [C|C]; [left; unfold lfs_get_filtered_locks, lbind; rewrite C; reflexivity|right; apply K, C].
  - intros F. destruct (Q F) as [-> E]. split; [reflexivity|]. apply K, E.
Qed.

Lemma create_check_any : forall v rq w l, lenv_ok v -> table_ok v (l_locks w) -> locks_of v w (lr_ref rq) l -> exists w', alike w w' /\
  (create_check v rq w = (w', Panic) \/
   create_check v rq w = (w', Ok (match picks (lr_path rq) l with [] => None | _ => Some (RFail 409 (bs "Lock already exist")) end))) /\
  (l_fails w = [] -> w' = w /\ create_check v rq w = (w, Ok (match picks (lr_path rq) l with [] => None | _ => Some (RFail 409 (bs "Lock already exist")) end))).
Proof.
  intros v rq w l Hv Ht Hl. destruct (filtered_any v (lr_ref rq) (lr_path rq) [] (bs "1") w l Hv Ht Hl) as (w' & A & C & Q).
  destruct (checked (lr_path rq) l) as (next & Ec). rewrite Ec in C, Q. exists w'. split; [exact A|].
  assert (K : forall w1, lfs_get_filtered_locks v (lr_ref rq) (lr_path rq) [] (bs "1") w = (w1, Ok (firstn 1 (picks (lr_path rq) l), next)) ->
    create_check v rq w = (w1, Ok (match picks (lr_path rq) l with [] => None | _ => Some (RFail 409 (bs "Lock already exist")) end))).
  { intros w1 E. unfold create_check, ltry. unfold lbind at 1. rewrite E. destruct (picks (lr_path rq) l); reflexivity. }
  split.
  - destruct C as [C|C]; [left; unfold create_check, ltry, lbind; rewrite C; reflexivity|right; apply K, C].
  - intros F. destruct (Q F) as [-> E]. split; [reflexivity|]. apply K, E.
Qed.

(** What the write does with the row just read. *)
Lemma add_write_any : forall v ref x w l, lenv_ok v -> table_ok v (l_locks w) -> locks_of v w ref l -> lock_ok x -> ~ In (lk_path x) (map lk_path l) ->
  exists w' r, add_lock_write v ref [x] (find (fun r => l_teq v (fst r) ref) (l_locks w)) w = (w', r) /\ table_ok v (l_locks w') /\
    l_meta w' = l_meta w /\ l_files w' = l_files w.
Proof.
  intros v ref x w l Hv Ht Hl Hx Hp. unfold add_lock_write. destruct (row_of v w ref l Hv Ht Hl) as [[-> F]|(k & N1 & F & Hi & Hk & N2 & N3 & N4)]; rewrite F.
  - destruct (sorted_new [] x (NoDup_nil _) (Forall_nil _) Hx Hp) as (S1 & S2 & S3). cbn [app] in *.
    destruct (inserted_any v (insert_lock v ref (js_enc v (sort_locks [x]))) w) as (w' & b & E & M1 & F1 & C). rewrite (lbind_ok _ _ _ _ _ _ _ E).
    exists w', (if b then Ok tt else Err EGeneral). split; [destruct b; reflexivity|]. split; [|auto]. destruct C as [->|C]; [exact Ht|]. exact (insert_ok v _ _ _ _ Hv Ht S1 S2 S3 C).
  - destruct (sorted_new l x N2 (proj1 N3) Hx Hp) as (S1 & S2 & S3).
    assert (D : row_locks v (js_enc v l) = Ok l).
    { unfold row_locks. destruct (js_back v l Hv (proj1 N3)) as [J1 J2]. rewrite J2. destruct (js_enc v l); [contradiction|reflexivity]. }
    rewrite D. unfold llift. unfold lbind at 2.
    destruct (updated_any (update_lock v k (js_enc v (sort_locks (l ++ [x])))) w) as (w' & b & E & M1 & F1 & C). unfold lbind. rewrite E.
    exists w', (if b then Ok tt else Err EGeneral). split; [destruct b; reflexivity|]. split; [|auto]. destruct C as [->|C]; [exact Ht|]. exact (update_ok v _ _ _ _ Ht S1 S2 S3 C).
Qed.
Lemma alike_table : forall v w w', alike w w' -> table_ok v (l_locks w) -> table_ok v (l_locks w').
Proof. intros v w w' A H. rewrite (al_locks _ _ A). exact H. Qed.
Lemma alike_locks : forall v w w' ref l, alike w w' -> locks_of v w ref l -> locks_of v w' ref l.
Proof. intros v w w' ref l A H. unfold locks_of in *. rewrite (al_locks _ _ A). exact H. Qed.

Lemma create_table : forall v body id now w, lenv_ok v -> event_ok (ELock body id now) -> table_ok v (l_locks w) ->
  table_ok v (l_locks (fst (lfs_create_lock v body id now w))).
Proof.
  intros v body id now w Hv (Hid & Hn & Hb) Ht. unfold lfs_create_lock, llift. unfold lbind at 1. destruct body as [rq|]; [|exact Ht]. cbn [unwrap_opt].
  destruct (locks_exist v w (lr_ref rq) Hv Ht) as (l & Hl). destruct (create_check_any v rq w l Hv Ht Hl) as (w1 & A1 & C1 & _).
  pose proof (alike_table v w w1 A1 Ht) as Ht1. pose proof (alike_locks v w w1 _ _ A1 Hl) as Hl1.
  destruct C1 as [C1|C1]; [unfold lbind; rewrite C1; exact Ht1|]. rewrite (lbind_ok _ _ _ _ _ _ _ C1).
  destruct (picks (lr_path rq) l) as [|y ys] eqn:P; [|exact Ht1]. apply picks_none in P.
  unfold add_lock_read. destruct (find_lock_any v (lr_ref rq) w1) as (w2 & A2 & C2 & _).
  pose proof (alike_table v w1 w2 A2 Ht1) as Ht2. pose proof (alike_locks v w1 w2 _ _ A2 Hl1) as Hl2.
  destruct C2 as [C2|C2]; [unfold lbind; rewrite C2; exact Ht2|]. rewrite (lbind_ok _ _ _ _ _ _ _ C2).
  rewrite <- (al_locks _ _ A2). unfold create_write.
  destruct (add_write_any v (lr_ref rq) (mkLock id (lr_path rq) now None) w2 l Hv Ht2 Hl2 (conj eq_refl (conj Hid (conj Hb Hn))) P) as (w3 & r & E & T & _).
  unfold ltry. unfold lbind at 1. rewrite E. destruct r as [[]| | |]; exact T.
Qed.

(** ** Unlocking *)
Lemma scan_none : forall id force l f, ~ In id (map lk_id l) -> Forall (fun x => 0 < nlen (lk_id x)) l -> scan_locks id force l f = Some (f, l).
Proof.
  intros id force l. induction l as [|x l IH]; intros f H N; [reflexivity|]. cbn [scan_locks]. cbn [map In] in H. inversion N as [|? ? N1 N2]; subst.
  rewrite (proj2 (beq_neq _ _)) by tauto. rewrite IH by tauto. apply N.ltb_lt in N1. rewrite N1. reflexivity.
Qed.
Lemma scan_found : forall id force l1 x l2 f, lk_id x = id -> ~ In id (map lk_id (l1 ++ l2)) -> Forall (fun x => 0 < nlen (lk_id x)) (l1 ++ l2) ->
  lk_owner x = None -> scan_locks id force (l1 ++ x :: l2) f = Some (x, l1 ++ l2).
Proof.
  intros id force l1 x l2. induction l1 as [|y l1 IH]; intros f E H N O; cbn [app scan_locks].
  - rewrite (proj2 (beq_eq _ _) E), O. cbn [andb]. apply scan_none; assumption.
  - cbn [app map In] in H. inversion N as [|? ? N1 N2]; subst. rewrite (proj2 (beq_neq _ _)) by tauto. rewrite IH by tauto.
    apply N.ltb_lt in N1. rewrite N1. reflexivity.
Qed.
(** Whatever is scanned, a part of the list remains. *)
Lemma scan_sub : forall id force l f x r, scan_locks id force l f = Some (x, r) -> exists g, r = filter g l.
Proof.
  intros id force l f x r H. exists (fun y => negb (beq (lk_id y) id) && (0 <? nlen (lk_id y))). revert f x r H.
  induction l as [|y l IH]; intros f x r H; cbn [scan_locks filter] in *; [injection H as _ <-; reflexivity|].
  destruct (beq (lk_id y) id); cbn [negb andb].
  - destruct (_ && _); [discriminate|]. exact (IH _ _ _ H).
  - destruct (scan_locks id force l f) as [[f' r']|] eqn:E; [|discriminate]. injection H as _ <-. rewrite (IH _ _ _ E).
    destruct (0 <? nlen (lk_id y)); reflexivity.
Qed.
Lemma filter_nodup : forall A B (g : A -> B) (f : A -> bool) l, NoDup (map g l) -> NoDup (map g (filter f l)).
Proof.
  intros A B g f. induction l as [|x l IH]; intros H; [constructor|]. cbn [map filter] in *. inversion H as [|? ? H1 H2]; subst.
  destruct (f x); [|apply IH, H2]. cbn [map]. constructor; [|apply IH, H2]. intros K. apply H1. apply in_map_iff in K as (y & E & Hy).
  apply filter_In in Hy as [Hy _]. rewrite <- E. apply in_map, Hy.
Qed.
Lemma filter_forall : forall A (P : A -> Prop) f l, Forall P l -> Forall P (filter f l).
Proof. intros A P f l H. apply Forall_forall. intros x Hx. apply filter_In in Hx as [Hx _]. rewrite Forall_forall in H. apply H, Hx. Qed.
Lemma lunwrap_fst : forall A (m : L A) w, fst (lunwrap m w) = fst (m w).
Proof. intros A m w. unfold lunwrap. destruct (m w). reflexivity. Qed.

Lemma delete_lock_table : forall v ref id force w, lenv_ok v -> table_ok v (l_locks w) ->
  table_ok v (l_locks (fst (lfs_delete_lock v ref id force w))).
Proof.
  intros v ref id force w Hv Ht. unfold lfs_delete_lock. destruct (locks_exist v w ref Hv Ht) as (l & Hl).
  destruct (find_lock_any v ref w) as (w1 & A1 & C1 & _). pose proof (alike_table v w w1 A1 Ht) as Ht1.
  destruct C1 as [C1|C1]; [unfold lbind; rewrite C1; exact Ht1|]. rewrite (lbind_ok _ _ _ _ _ _ _ C1).
  destruct (row_of v w ref l Hv Ht Hl) as [[-> F]|(k & N1 & F & Hi & Hk & N2 & N3 & N4)]; rewrite F; [exact Ht1|].
  assert (D : row_locks v (js_enc v l) = Ok l).
  { unfold row_locks. destruct (js_back v l Hv (proj1 N3)) as [J1 J2]. rewrite J2. destruct (js_enc v l); [contradiction|reflexivity]. }
  rewrite D. unfold llift. unfold lbind at 1. destruct (scan_locks id force l empty_lock) as [[x rest]|] eqn:S; [|exact Ht1].
  destruct (lk_id x) as [|c cs]; [exact Ht1|]. destruct (scan_sub _ _ _ _ _ _ S) as (g & Eg). destruct rest as [|y rest].
  - destruct (exec_locks_any (remove_lock v ref) w1) as (w2 & b & E & _ & _ & C & _). unfold lbind. rewrite E.
    assert (T : table_ok v (l_locks w2)).
    { destruct C as [[_ ->]|[_ C]]; [exact Ht1|]. unfold remove_lock in C. injection C as <-. split; [apply filter_forall, Ht1|apply filter_apart, Ht1]. }
    destruct b; exact T.
  - destruct (updated_any (update_lock v k (js_enc v (y :: rest))) w1) as (w2 & b & E & _ & _ & C). unfold lbind. rewrite E.
    assert (T : table_ok v (l_locks w2)).
    { destruct C as [->|C]; [exact Ht1|]. apply (update_ok v k (y :: rest) (l_locks w1)); [exact Ht1|discriminate| | |exact C].
      - rewrite Eg. apply filter_nodup, N2.
      - rewrite Eg. split; [apply filter_forall, N3|apply filter_sorted, N3]. }
    destruct b; exact T.
Qed.
Lemma delete_table : forall v id body w, lenv_ok v -> table_ok v (l_locks w) -> table_ok v (l_locks (fst (lfs_delete v id body w))).
Proof.
  intros v id body w Hv Ht. unfold lfs_delete. destruct id as [|c id]; [exact Ht|]. destruct body as [[rq|]|]; [|exact Ht|exact Ht].
  unfold llift. unfold lbind at 1. cbn [unwrap_opt]. unfold ltry, lbind.
  pose proof (delete_lock_table v (ul_ref rq) (c :: id) (ul_force rq) w Hv Ht) as T.
  destruct (lfs_delete_lock v (ul_ref rq) (c :: id) (ul_force rq) w) as [w1 [x| | |]]; cbn [fst] in T; try exact T. destruct (_ && _); exact T.
Qed.

(** ** Requests that leave the locks alone *)
Definition keeps {A} (m : L A) : Prop := forall w, l_locks (fst (m w)) = l_locks w.
Lemma keeps_ret : forall A (r : res A), keeps (llift r).
Proof. intros A r w. reflexivity. Qed.
Lemma keeps_bind : forall A B (m : L A) (k : A -> L B), keeps m -> (forall a, keeps (k a)) -> keeps (lbind m k).
Proof.
  intros A B m k H1 H2 w. unfold lbind. specialize (H1 w). destruct (m w) as [w1 [a| | |]]; cbn [fst] in *; try exact H1. rewrite (H2 a w1). exact H1.
Qed.
Lemma keeps_try : forall A (m : L A), keeps m -> keeps (ltry m).
Proof. intros A m H w. unfold ltry. specialize (H w). destruct (m w) as [w1 [a| | |]]; exact H. Qed.
Lemma keeps_unwrap : forall A (m : L A), keeps m -> keeps (lunwrap m).
Proof. intros A m H w. rewrite lunwrap_fst. apply H. Qed.
Lemma keeps_find_lock : forall v k, keeps (find_lock_row v k).
Proof. intros v k w. destruct (find_lock_any v k w) as (w' & A & [E|E] & _); rewrite E; apply A. Qed.
Lemma keeps_find_meta : forall v k, keeps (find_meta_row v k).
Proof. intros v k w. destruct (find_meta_any v k w) as (w' & A & [E|E] & _); rewrite E; apply A. Qed.
Lemma keeps_attempt : keeps lattempt.
Proof. intros w. destruct (lattempt_any w) as (w' & b & E & A & _). rewrite E. apply A. Qed.
Lemma keeps_exec_meta : forall f, keeps (exec_meta f).
Proof.
  intros f. unfold exec_meta. apply keeps_bind; [exact keeps_attempt|]. intros [|]; [|apply keeps_ret]. intros w. destruct (f (l_meta w)); reflexivity.
Qed.
Lemma keeps_filtered : forall v r p c l, keeps (lfs_get_filtered_locks v r p c l).
Proof.
  intros. unfold lfs_get_filtered_locks. apply keeps_bind; [|intros; apply keeps_ret]. unfold lfs_get_locks. apply keeps_bind; [apply keeps_find_lock|].
  intros [[k d]|]; [|apply keeps_ret]. apply keeps_bind; intros; apply keeps_ret.
Qed.
Lemma keeps_put_meta : forall v o z, keeps (lfs_put_meta v o z).
Proof.
  intros. unfold lfs_put_meta. apply keeps_bind; [apply keeps_find_meta|]. intros [x|]; [apply keeps_ret|]. apply keeps_bind.
  - unfold inserted. apply keeps_bind; [apply keeps_exec_meta|intros; apply keeps_ret].
  - intros [|]; apply keeps_ret.
Qed.
Lemma keeps_batch : forall v op l, keeps (batch_objects v op l).
Proof.
  intros v op l. induction l as [|o l IH]; [apply keeps_ret|]. cbn [batch_objects]. apply keeps_bind; [|intros; apply keeps_bind; [exact IH|intros; apply keeps_ret]].
  unfold batch_object. apply keeps_bind; [apply keeps_find_meta|]. intros m. apply keeps_bind; [destruct m; [|apply keeps_ret]; intros w; reflexivity|].
  intros h. assert (K : keeps (if beq op (bs "upload") then do! x := lunwrap (lfs_put_meta v (ob_oid o) (ob_size o)) in lret (represent v o x (bs "upload"))
      else lret (mkRepr (ob_oid o) (ob_size o) None None (Some (404, bs "Not found"))))).
  { destruct (beq op (bs "upload")); [|apply keeps_ret]. apply keeps_bind; [apply keeps_unwrap, keeps_put_meta|intros; apply keeps_ret]. }
  destruct m; [destruct h; [apply keeps_ret|exact K]|exact K].
Qed.
Lemma keeps_upload : forall v o b, keeps (lfs_upload_object v o b).
Proof.
  intros. unfold lfs_upload_object. apply keeps_bind; [apply keeps_find_meta|]. intros m. apply keeps_bind; [apply keeps_ret|]. intros m'.
  apply keeps_bind.
  - intros w. unfold store_put. destruct (store_path v (mt_oid m')); try reflexivity. destruct (_ && _); reflexivity.
  - intros [|]; [apply keeps_ret|]. apply keeps_bind; [|intros; apply keeps_ret]. apply keeps_unwrap. unfold lfs_delete_meta.
    apply keeps_bind; [apply keeps_exec_meta|intros [|]; apply keeps_ret].
Qed.
Lemma keeps_download : forall v o, keeps (lfs_download_object v o).
Proof.
  intros. unfold lfs_download_object. apply keeps_bind; [apply keeps_find_meta|]. intros m. apply keeps_bind; [apply keeps_ret|]. intros m'.
  apply keeps_bind; [intros w; reflexivity|intros; apply keeps_ret].
Qed.
Lemma handle_table : forall v x w, lenv_ok v -> event_ok x -> table_ok v (l_locks w) -> table_ok v (l_locks (fst (lfs_handle v x w))).
Proof.
  intros v x w Hv Hx Ht. destruct x as [q|b|b id now|id b|b|o b|o]; cbn [lfs_handle].
  - unfold lfs_retrieve_lock. rewrite keeps_bind; [exact Ht|apply keeps_try, keeps_filtered|]. intros [[l n]|]; apply keeps_ret.
  - unfold lfs_verify_lock. rewrite keeps_bind; [exact Ht|apply keeps_ret|]. intros rq. cbv zeta. apply keeps_bind; [apply keeps_try, keeps_filtered|].
    intros [[l n]|]; apply keeps_ret.
  - apply create_table; assumption.
  - apply delete_table; assumption.
  - unfold lfs_process_batch. rewrite keeps_bind; [exact Ht|apply keeps_ret|]. intros [op l]. apply keeps_bind; [apply keeps_batch|intros; apply keeps_ret].
  - rewrite keeps_upload. exact Ht.
  - rewrite keeps_download. exact Ht.
Qed.
Lemma run_table : forall v l w, lenv_ok v -> Forall event_ok l -> table_ok v (l_locks w) -> table_ok v (l_locks (fst (lfs_run v l w))).
Proof.
  intros v l. induction l as [|x l IH]; intros w Hv H Ht; [exact Ht|]. inversion H as [|? ? H1 H2]; subst. cbn [lfs_run].
  pose proof (handle_table v x w Hv H1 Ht) as T. destruct (lfs_handle v x w) as [w1 a]. cbn [fst] in T. specialize (IH w1 Hv H2 T).
  destruct (lfs_run v l w1) as [w2 b]. exact IH.
Qed.
Lemma reachable_table : forall v w, lenv_ok v -> reachable v w -> table_ok v (l_locks w).
Proof.
  intros v w Hv (events & w0 & He & E0 & <-). apply run_table; [exact Hv|exact He|]. rewrite E0. split; constructor.
Qed.

(** C61-C65: git-lfs locks. *)

From Coq Require Import ZArith Permutation Sorting.Sorted.
From Verif Require Import Base BaseLemmas Digest ModelObject ModelPkt ModelStorage ModelLfs SpecObject SpecIdx SpecBase SpecLfs ModelJson ProofUtf8 ProofWrite ProofLfs.
Open Scope N_scope.

(** An instance of the environment: ASCII case is ignored, JSON as serde_json writes it. *)
Definition fold_case (b : N) : N := if (65 <=? b) && (b <=? 90) then b + 32 else b.
Definition ex_lenv : lenv :=
  mkLenv (fun a b => beq (map fold_case a) (map fold_case b)) write_locks read_locks (fun _ => true) (@length N) true
    (bs "lfs-content") (bs "http://localhost:8000").
Lemma ex_lenv_ok : lenv_ok ex_lenv.
Proof.
  split; [intros a; apply beq_eq; reflexivity|]. split.
  { intros a b. cbn. destruct (beq (map fold_case a) (map fold_case b)) eqn:E, (beq (map fold_case b) (map fold_case a)) eqn:F; try reflexivity;
    [apply beq_eq in E|apply beq_eq in F]; [rewrite (proj2 (beq_eq _ _) (eq_sym E)) in F|rewrite (proj2 (beq_eq _ _) (eq_sym F)) in E]; discriminate. }
  split; [intros a b c H1 H2; cbn in *; apply beq_eq in H1, H2; apply beq_eq; congruence|].
  split; [intros l H; split; [apply write_locks_some|apply locks_read_back, H]|exact write_fewer].
Qed.

(** ** C61: requests one after the other *)

Theorem C61_exclusive : forall v w ref, lenv_ok v -> reachable v w ->
  exists l, locks_of v w ref l /\ NoDup (map lk_path l) /\ StronglySorted earlier l.
Proof.
  intros v w ref Hv Hr. pose proof (reachable_table v w Hv Hr) as Ht. destruct (locks_exist v w ref Hv Ht) as (l & Hl). exists l. split; [exact Hl|].
  destruct (row_of v w ref l Hv Ht Hl) as [[-> _]|(k & _ & _ & _ & _ & N2 & [_ N3] & _)]; [split; constructor|auto].
Qed.
Theorem C61_conflict : forall v w ref path l id now, lenv_ok v -> reachable v w -> l_fails w = [] -> locks_of v w ref l ->
  path <> [] -> In path (map lk_path l) ->
  lfs_create_lock v (Some (mkLockReq path ref)) id now w = (w, Ok (RFail 409 (bs "Lock already exist"))).
Proof.
  intros v w ref path l id now Hv Hr Hf Hl Hp Hi. pose proof (reachable_table v w Hv Hr) as Ht.
  destruct (create_check_any v (mkLockReq path ref) w l Hv Ht Hl) as (w' & _ & _ & Q). destruct (Q Hf) as [_ E]. clear Q.
  unfold lfs_create_lock, llift. unfold lbind at 1. cbn [unwrap_opt]. rewrite (lbind_ok _ _ _ _ _ _ _ E). cbn [lr_path].
  destruct path as [|a path]; [contradiction|]. cbn [picks]. destruct (filter _ l) as [|y ys] eqn:P; [|reflexivity].
  apply no_path_left in P. contradiction.
Qed.
(** Other refs keep their locks. *)
Definition elsewhere (v : lenv) (ref : bytes) (w w' : lfs) : Prop :=
  (forall r l, l_teq v r ref = false -> (locks_of v w r l <-> locks_of v w' r l)) /\ l_meta w' = l_meta w /\ l_files w' = l_files w /\ l_fails w' = l_fails w.

Lemma create_free : forall v w ref path l id now, lenv_ok v -> table_ok v (l_locks w) -> lock_number id -> utf8_text path -> utf8_text now -> l_fails w = [] -> locks_of v w ref l ->
  picks path l = [] ->
  let x := mkLock id path now None in let l' := sort_locks (l ++ [x]) in
  (chars (js_enc v l') <= 10000 /\ (l = [] -> chars ref <= 200) ->
   exists w', lfs_create_lock v (Some (mkLockReq path ref)) id now w =
     (w', Ok (match l with [] => if key_insert_ok v then ROk 201 (BLock x) else RFail 500 (bs "Failed when adding locks!") | _ => ROk 201 (BLock x) end)) /\
     locks_of v w' ref l' /\ elsewhere v ref w w') /\
  (~ (chars (js_enc v l') <= 10000 /\ (l = [] -> chars ref <= 200)) ->
   lfs_create_lock v (Some (mkLockReq path ref)) id now w = (w, Ok (RFail 500 (bs "Failed when adding locks!")))).
Proof.
  intros v w ref path l id now Hv Ht Hid Htp Htn Hf Hl Hp x l'.
  assert (Hx : lock_ok x) by (split; [reflexivity|]; split; [exact Hid|split; assumption]).
  assert (E : lfs_create_lock v (Some (mkLockReq path ref)) id now w =
    create_write v (mkLockReq path ref) id now (find (fun r => l_teq v (fst r) ref) (l_locks w)) w).
  { destruct (create_check_any v (mkLockReq path ref) w l Hv Ht Hl) as (w' & _ & _ & Q). destruct (Q Hf) as [_ E]. clear Q. cbn [lr_path] in E. rewrite Hp in E.
    unfold lfs_create_lock, llift. unfold lbind at 1. cbn [unwrap_opt]. rewrite (lbind_ok _ _ _ _ _ _ _ E). unfold add_lock_read. cbn [lr_ref].
    destruct (find_lock_any v ref w) as (w2 & _ & _ & Q). destruct (Q Hf) as [_ E2]. rewrite (lbind_ok _ _ _ _ _ _ _ E2). reflexivity. }
  rewrite E. clear E. pose proof (create_table v (Some (mkLockReq path ref)) id now w Hv (conj Hid (conj Htn Htp)) Ht) as T'.
  unfold create_write. cbn [lr_path lr_ref]. fold x. unfold ltry, add_lock_write.
  destruct (row_of v w ref l Hv Ht Hl) as [[El F]|(k & N1 & F & Hi & Hk & N2 & N3 & N4)]; rewrite F.
  - subst l. cbn [app] in l'. unfold lbind. rewrite inserted_quiet by exact Hf. fold l'. unfold insert_lock.
    assert (X : existsb (fun r => l_teq v (fst r) ref) (l_locks w) = false) by (rewrite existsb_find, F; reflexivity). rewrite X.
    destruct (varchar 200 ref) eqn:V1; [destruct (varchar 10000 (js_enc v l')) eqn:V2|]; cbn [andb negb].
    + split.
      * intros _. exists (with_locks w (l_locks w ++ [(ref, js_enc v l')])). split; [destruct (key_insert_ok v); reflexivity|].
        assert (Tn : table_ok v (l_locks w ++ [(ref, js_enc v l')])).
        { destruct (sorted_new [] x (NoDup_nil _) (Forall_nil _) Hx (fun z => z)) as (S1 & S2 & S3).
          apply (insert_ok v ref l' (l_locks w)); try assumption. unfold insert_lock. rewrite V1, V2, X. reflexivity. }
        split.
        -- apply locks_of_find; [exact Hv|exact Tn|]. cbn [with_locks l_locks]. rewrite find_snoc, F. cbn [fst]. rewrite (proj1 Hv ref). apply js_back; [exact Hv|]. apply (sorted_new [] x (NoDup_nil _) (Forall_nil _) Hx (fun z => z)).
        -- split; [|auto]. intros r l0 Hr. rewrite !locks_of_find by (assumption || exact Tn). cbn [with_locks l_locks]. rewrite find_snoc. cbn [fst].
           destruct (find (fun r0 => l_teq v (fst r0) r) (l_locks w)); [reflexivity|]. rewrite (proj1 (proj2 Hv) ref r), Hr. reflexivity.
      * intros H. exfalso. apply H. apply varchar_le in V1, V2. auto.
    + split; [intros [H _]; apply varchar_le in H; congruence|reflexivity].
    + split; [intros [_ H]; specialize (H eq_refl); apply varchar_le in H; congruence|reflexivity].
  - assert (D : row_locks v (js_enc v l) = Ok l).
    { unfold row_locks. destruct (js_back v l Hv (proj1 N3)) as [J1 J2]. rewrite J2. destruct (js_enc v l); [contradiction|reflexivity]. }
    rewrite D. unfold llift, lbind. rewrite updated_quiet, exec_locks_quiet by exact Hf. fold l'. unfold update_lock.
    assert (X : existsb (fun r => l_teq v (fst r) k) (l_locks w) = true).
    { apply existsb_exists. exists (k, js_enc v l). split; [exact Hi|]. apply Hv. } rewrite X.
    destruct (varchar 10000 (js_enc v l')) eqn:V2; cbn [andb].
    + split; [|intros H; exfalso; apply H; apply varchar_le in V2; split; [exact V2|intros Z; contradiction]].
      intros _. exists (with_locks w (map (fun r => if l_teq v (fst r) k then (fst r, js_enc v l') else r) (l_locks w))).
      split; [destruct l; [contradiction|reflexivity]|].
      assert (Tn : table_ok v (map (fun r => if l_teq v (fst r) k then (fst r, js_enc v l') else r) (l_locks w))).
      { assert (Hn : ~ In (lk_path x) (map lk_path l)) by (apply picks_none; exact Hp).
        destruct (sorted_new l x N2 (proj1 N3) Hx Hn) as (S1 & S2 & S3). apply (update_ok v k l' (l_locks w)); try assumption.
        unfold update_lock. rewrite V2, X. reflexivity. }
      split.
      * apply locks_of_find; [exact Hv|exact Tn|]. cbn [with_locks l_locks].
        destruct (find_update_same v k (js_enc v l') (l_locks w) ref Hv Hk X) as (k' & ->). apply js_back; [exact Hv|]. apply (sorted_new l x N2 (proj1 N3) Hx), picks_none, Hp.
      * split; [|auto]. intros r l0 Hr. rewrite !locks_of_find by (assumption || exact Tn). cbn [with_locks l_locks].
        rewrite (find_update_other v k _ _ r Hv); [reflexivity|]. destruct (l_teq v k r) eqn:K; [|reflexivity].
        destruct Hv as (_ & Sy & Tr & _). rewrite Sy in K. rewrite (Tr _ _ _ K Hk) in Hr. discriminate.
    + split; [intros [H _]; apply varchar_le in H; congruence|reflexivity].
Qed.
Theorem C61_granted : forall v w ref path l id now, lenv_ok v -> reachable v w -> lock_number id -> utf8_text path -> utf8_text now -> l_fails w = [] -> locks_of v w ref l ->
  path <> [] -> ~ In path (map lk_path l) -> exists l', Permutation l' (mkLock id path now None :: l) /\ StronglySorted earlier l' /\
  (chars (js_enc v l') <= 10000 /\ (l = [] -> chars ref <= 200) ->
   exists w' reply, lfs_create_lock v (Some (mkLockReq path ref)) id now w = (w', Ok reply) /\ locks_of v w' ref l' /\ elsewhere v ref w w' /\
     (key_insert_ok v = true \/ l <> [] -> reply = ROk 201 (BLock (mkLock id path now None))) /\
     (key_insert_ok v = false -> l = [] -> reply = RFail 500 (bs "Failed when adding locks!"))) /\
  (~ (chars (js_enc v l') <= 10000 /\ (l = [] -> chars ref <= 200)) ->
   lfs_create_lock v (Some (mkLockReq path ref)) id now w = (w, Ok (RFail 500 (bs "Failed when adding locks!")))).
Proof.
  intros v w ref path l id now Hv Hr Hid Htp Htn Hf Hl Hp Hi. pose proof (reachable_table v w Hv Hr) as Ht.
  assert (P : picks path l = []) by (destruct path; [contradiction|apply no_path_left; exact Hi]).
  destruct (create_free v w ref path l id now Hv Ht Hid Htp Htn Hf Hl P) as [A B]. exists (sort_locks (l ++ [mkLock id path now None])).
  split; [eapply Permutation_trans; [apply sort_locks_perm|apply Permutation_sym, Permutation_cons_append]|]. split; [apply sort_locks_sorted|].
  split; [|exact B]. intros H. destruct (A H) as (w' & E & L & El). eexists. eexists. split; [exact E|]. split; [exact L|]. split; [exact El|].
  destruct l; destruct (key_insert_ok v); split; try reflexivity; try discriminate; intros [K|K]; try discriminate; contradiction.
Qed.
(** A lock on the empty path is refused as soon as the ref has any lock. *)
Theorem C61_empty_path : forall v w ref l id now, lenv_ok v -> reachable v w -> l_fails w = [] -> locks_of v w ref l -> l <> [] ->
  lfs_create_lock v (Some (mkLockReq [] ref)) id now w = (w, Ok (RFail 409 (bs "Lock already exist"))).
Proof.
  intros v w ref l id now Hv Hr Hf Hl Hi. pose proof (reachable_table v w Hv Hr) as Ht.
  destruct (create_check_any v (mkLockReq [] ref) w l Hv Ht Hl) as (w' & _ & _ & Q). destruct (Q Hf) as [_ E]. clear Q.
  unfold lfs_create_lock, llift. unfold lbind at 1. cbn [unwrap_opt]. rewrite (lbind_ok _ _ _ _ _ _ _ E). cbn [lr_path picks].
  destruct l; [contradiction|reflexivity].
Qed.

(** A history: two locks, one of them removed again, another ref. *)
Definition ex_main : bytes := bs "refs/heads/main".
Definition ex_lock (id path at_ : bytes) : lock := mkLock id path at_ None.
Definition ex_events : list lfs_event :=
  [ELock (Some (mkLockReq (bs "a.png") ex_main)) (bs "00000001") (bs "2023-05-23T10:00:02+00:00");
   ELock (Some (mkLockReq (bs "b.png") ex_main)) (bs "00000002") (bs "2023-05-23T10:00:01+00:00");
   ELock (Some (mkLockReq (bs "b.png") ex_main)) (bs "00000003") (bs "2023-05-23T10:00:03+00:00");
   ELock (Some (mkLockReq (bs "c.png") ex_main)) (bs "00000004") (bs "2023-05-23T10:00:04+00:00");
   ELock (Some (mkLockReq (bs "a.png") (bs "refs/heads/dev"))) (bs "00000005") (bs "2023-05-23T10:00:05+00:00");
   EUnlock (bs "00000004") (Some (Some (mkUnlock false ex_main)))].
Definition ex_start : lfs := mkLfs [] [] [] [].
Definition ex_lfs : lfs := fst (lfs_run ex_lenv ex_events ex_start).
Definition ex_main_locks : list lock := [ex_lock (bs "00000002") (bs "b.png") (bs "2023-05-23T10:00:01+00:00");
                                         ex_lock (bs "00000001") (bs "a.png") (bs "2023-05-23T10:00:02+00:00")].
Lemma number_check : forall id, (length id =? 8)%nat && forallb (fun b => (48 <=? b) && (b <=? 56)) id = true -> lock_number id.
Proof.
  intros id H. apply andb_true_iff in H as [H1 H2]. split; [apply Nat.eqb_eq, H1|]. apply Forall_forall. intros b Hb.
  rewrite forallb_forall in H2. specialize (H2 b Hb). apply andb_true_iff in H2 as [H2 H3]. apply N.leb_le in H2, H3. lia.
Qed.
Definition event_fine (e : lfs_event) : bool :=
  match e with
  | ELock body id now => (length id =? 8)%nat && forallb (fun b => (48 <=? b) && (b <=? 56)) id && utf8_valid now &&
      match body with Some rq => utf8_valid (lr_path rq) | None => true end
  | _ => true
  end.
Lemma events_check : forall l, forallb event_fine l = true -> Forall event_ok l.
Proof.
  intros l H. apply Forall_forall. intros e He. rewrite forallb_forall in H. specialize (H e He).
  destruct e as [| |body id now| | | |]; try exact I. cbn [event_fine] in H. apply andb_true_iff in H as [H H3]. apply andb_true_iff in H as [H1 H2].
  split; [apply number_check, H1|]. split; [apply utf8_spec, H2|]. destruct body as [rq|]; [apply utf8_spec, H3|exact I].
Qed.
Lemma ex_reachable : reachable ex_lenv ex_lfs.
Proof.
  exists ex_events, ex_start. split; [apply events_check; reflexivity|split; reflexivity].
Qed.
Lemma ex_locks_of : locks_of ex_lenv ex_lfs ex_main ex_main_locks.
Proof. vm_compute. reflexivity. Qed.
Example C61_ex : lenv_ok ex_lenv /\ reachable ex_lenv ex_lfs /\ l_fails ex_lfs = [] /\ locks_of ex_lenv ex_lfs ex_main ex_main_locks /\
  map (fun r => match r with Ok (ROk s _) | Ok (RFail s _) => s | _ => 0 end) (snd (lfs_run ex_lenv ex_events ex_start)) = [201; 201; 409; 201; 201; 200] /\
  In (bs "a.png") (map lk_path ex_main_locks) /\ ~ In (bs "d.png") (map lk_path ex_main_locks) /\
  chars (js_enc ex_lenv (sort_locks (ex_main_locks ++ [ex_lock (bs "00000006") (bs "d.png") (bs "2023-05-23T10:00:06+00:00")]))) <= 10000.
Proof.
  split; [exact ex_lenv_ok|]. split; [exact ex_reachable|]. split; [vm_compute; reflexivity|]. split; [exact ex_locks_of|]. split; [vm_compute; reflexivity|].
  split; [right; left; reflexivity|]. split; [intros [H|[H|[]]]; discriminate|]. vm_compute. discriminate.
Qed.

(** ** C65: unlocking *)

Lemma number_nonempty : forall id, lock_number id -> 0 < nlen id.
Proof. intros id [H _]. unfold nlen. rewrite H. reflexivity. Qed.
Lemma oks_nonempty : forall l, Forall lock_ok l -> Forall (fun x => 0 < nlen (lk_id x)) l.
Proof. intros l H. eapply Forall_impl; [|exact H]. intros x [_ [K _]]. apply number_nonempty, K. Qed.

Theorem C65_removed : forall v w ref l1 x l2 force, lenv_ok v -> reachable v w -> l_fails w = [] -> locks_of v w ref (l1 ++ x :: l2) ->
  NoDup (map lk_id (l1 ++ x :: l2)) ->
  exists w', lfs_delete v (lk_id x) (Some (Some (mkUnlock force ref))) w = (w', Ok (ROk 200 (BLock x))) /\ locks_of v w' ref (l1 ++ l2) /\ elsewhere v ref w w'.
Proof.
  intros v w ref l1 x l2 force Hv Hr Hf Hl Hd. pose proof (reachable_table v w Hv Hr) as Ht.
  destruct (row_of v w ref _ Hv Ht Hl) as [[El _]|(k & N1 & F & Hi & Hk & N2 & [N3 N3'] & N4)]; [destruct l1; discriminate|].
  assert (Hx : lock_ok x) by (rewrite Forall_forall in N3; apply N3; apply in_or_app; right; left; reflexivity).
  assert (Nx : 0 < nlen (lk_id x)) by (apply number_nonempty, Hx).
  assert (D : row_locks v (js_enc v (l1 ++ x :: l2)) = Ok (l1 ++ x :: l2)).
  { unfold row_locks. destruct (js_back v (l1 ++ x :: l2) Hv N3) as [J1 J2]. rewrite J2. destruct (js_enc v (l1 ++ x :: l2)); [contradiction|reflexivity]. }
  assert (N3r : Forall lock_ok (l1 ++ l2)) by (apply Forall_app in N3 as [A B]; inversion B; apply Forall_app; auto).
  assert (N2r : NoDup (map lk_path (l1 ++ l2))) by (rewrite map_app in *; cbn [map] in N2; apply NoDup_remove in N2; apply N2).
  assert (S3r : StronglySorted earlier (l1 ++ l2)).
  { clear -N3'. induction l1 as [|y l1 IH]; cbn [app] in *; [inversion N3'; assumption|]. inversion N3' as [|? ? H1 H2]; subst. constructor; [apply IH, H1|].
    apply Forall_app in H2 as [A B]. inversion B; subst. apply Forall_app. auto. }
  rewrite map_app in Hd. cbn [map] in Hd. apply NoDup_remove in Hd as [_ Hd]. rewrite <- map_app in Hd.
  pose proof (scan_found (lk_id x) force l1 x l2 empty_lock eq_refl Hd (oks_nonempty _ N3r) (proj1 Hx)) as Sc.
  assert (E : exists w', lfs_delete_lock v ref (lk_id x) force w = (w', Ok x) /\ locks_of v w' ref (l1 ++ l2) /\ elsewhere v ref w w').
  { unfold lfs_delete_lock. destruct (find_lock_any v ref w) as (w1 & _ & _ & Q). destruct (Q Hf) as [_ E1]. rewrite (lbind_ok _ _ _ _ _ _ _ E1), F. clear Q E1 w1.
    rewrite D. unfold llift. unfold lbind at 1. rewrite Sc. destruct (lk_id x) as [|c cs]; [discriminate|].
    destruct (l1 ++ l2) as [|y ys] eqn:El.
    - unfold lbind. rewrite exec_locks_quiet by exact Hf. unfold remove_lock.
      exists (with_locks w (filter (fun r => negb (l_teq v (fst r) ref)) (l_locks w))). split; [reflexivity|].
      assert (Tn : table_ok v (filter (fun r => negb (l_teq v (fst r) ref)) (l_locks w))) by (split; [apply filter_forall, Ht|apply filter_apart, Ht]).
      assert (Fo : forall r, l_teq v r ref = false -> find (fun r0 => l_teq v (fst r0) r) (filter (fun r => negb (l_teq v (fst r) ref)) (l_locks w)) =
        find (fun r0 => l_teq v (fst r0) r) (l_locks w)).
      { intros r Hr0. clear -Hv Hr0. destruct Hv as (_ & Sy & Tr & _). induction (l_locks w) as [|y t IH]; [reflexivity|]. cbn [filter find].
        destruct (l_teq v (fst y) ref) eqn:A; cbn [negb].
        - destruct (l_teq v (fst y) r) eqn:B; [|exact IH]. rewrite Sy in B. rewrite (Tr _ _ _ B A) in Hr0. discriminate.
        - cbn [find]. rewrite IH. reflexivity. }
      split.
      + apply locks_of_find; [exact Hv|exact Tn|]. cbn [with_locks l_locks].
        destruct (find (fun r => l_teq v (fst r) ref) (filter (fun r => negb (l_teq v (fst r) ref)) (l_locks w))) as [[k' d']|] eqn:F'; [|cbn beta iota; exact eq_refl].
        apply find_some in F' as [H1 H2]. apply filter_In in H1 as [_ H1]. cbn beta in H1, H2. rewrite H2 in H1. discriminate.
      + split; [|auto]. intros r l0 Hr0. rewrite !locks_of_find by (assumption || exact Tn). cbn [with_locks l_locks]. rewrite (Fo r Hr0). reflexivity.
    - unfold lbind. rewrite updated_quiet, exec_locks_quiet by exact Hf. unfold update_lock.
      assert (X : existsb (fun r => l_teq v (fst r) k) (l_locks w) = true).
      { apply existsb_exists. exists (k, js_enc v (l1 ++ x :: l2)). split; [exact Hi|]. apply Hv. }
      assert (V : varchar 10000 (js_enc v (y :: ys)) = true).
      { apply varchar_le. rewrite <- El. eapply N.le_trans; [apply Hv|exact N4]. }
      rewrite X, V. cbn [andb].
      assert (Tn : table_ok v (map (fun r => if l_teq v (fst r) k then (fst r, js_enc v (y :: ys)) else r) (l_locks w))).
      { apply (update_ok v k (y :: ys) (l_locks w)); [exact Ht|discriminate|exact N2r|split; [exact N3r|exact S3r]|]. unfold update_lock. rewrite V, X. reflexivity. }
      eexists. split; [reflexivity|]. split.
      + apply locks_of_find; [exact Hv|exact Tn|]. cbn [with_locks l_locks].
        destruct (find_update_same v k (js_enc v (y :: ys)) (l_locks w) ref Hv Hk X) as (k' & ->). apply js_back; [exact Hv|exact N3r].
      + split; [|auto]. intros r l0 Hr0. rewrite !locks_of_find by (assumption || exact Tn). cbn [with_locks l_locks].
        rewrite (find_update_other v k _ _ r Hv); [reflexivity|]. destruct (l_teq v k r) eqn:K; [|reflexivity].
        destruct Hv as (_ & Sy & Tr & _). rewrite Sy in K. rewrite (Tr _ _ _ K Hk) in Hr0. discriminate. }
  destruct E as (w' & E & R). exists w'. split; [|exact R]. unfold lfs_delete. destruct (lk_id x) as [|c cs] eqn:Ei; [discriminate|].
  unfold llift. unfold lbind at 1. cbn [unwrap_opt ul_ref ul_force]. unfold ltry, lbind. rewrite E, Ei. reflexivity.
Qed.
Theorem C65_unknown : forall v w ref l id force, lenv_ok v -> reachable v w -> l_fails w = [] -> locks_of v w ref l -> ~ In id (map lk_id l) -> id <> [] ->
  lfs_delete v id (Some (Some (mkUnlock force ref))) w = (w, Ok (RFail 500 (bs "Delete operation failed!"))).
Proof.
  intros v w ref l id force Hv Hr Hf Hl Hi Hn. pose proof (reachable_table v w Hv Hr) as Ht.
  assert (E : lfs_delete_lock v ref id force w = (w, Err EGeneral)).
  { unfold lfs_delete_lock. destruct (find_lock_any v ref w) as (w1 & _ & _ & Q). destruct (Q Hf) as [_ E1]. rewrite (lbind_ok _ _ _ _ _ _ _ E1).
    destruct (row_of v w ref _ Hv Ht Hl) as [[-> F]|(k & N1 & F & _ & Hk & N2 & [N3 N3'] & N4)]; rewrite F; [reflexivity|].
    assert (D : row_locks v (js_enc v l) = Ok l).
    { unfold row_locks. destruct (js_back v l Hv N3) as [J1 J2]. rewrite J2. destruct (js_enc v l); [contradiction|reflexivity]. }
    rewrite D. unfold llift. unfold lbind at 1. rewrite (scan_none id force l empty_lock Hi (oks_nonempty _ N3)). reflexivity. }
  unfold lfs_delete. destruct id as [|c id]; [contradiction|]. unfold llift. unfold lbind at 1. cbn [unwrap_opt ul_ref ul_force]. unfold ltry, lbind.
  rewrite E. reflexivity.
Qed.
Example C65_ex : exists l1 x l2, ex_main_locks = l1 ++ x :: l2 /\ l1 ++ l2 <> [] /\ NoDup (map lk_id (l1 ++ x :: l2)) /\ ~ In (bs "00000009") (map lk_id ex_main_locks).
Proof.
  exists [], (ex_lock (bs "00000002") (bs "b.png") (bs "2023-05-23T10:00:01+00:00")), [ex_lock (bs "00000001") (bs "a.png") (bs "2023-05-23T10:00:02+00:00")].
  split; [reflexivity|]. split; [discriminate|]. split; [|intros [H|[H|[]]]; discriminate].
  repeat constructor; cbn; intros H; intuition discriminate.
Qed.
(** The numbers are drawn at random and not compared with those in use: with the same
    number twice, unlocking removes both locks. *)
Definition ex_twice : list lfs_event :=
  [ELock (Some (mkLockReq (bs "a.png") ex_main)) (bs "00000001") (bs "2023-05-23T10:00:01+00:00");
   ELock (Some (mkLockReq (bs "b.png") ex_main)) (bs "00000001") (bs "2023-05-23T10:00:02+00:00")].
Theorem C65_same_number_refuted : exists v w ref l x y w' z, lenv_ok v /\ reachable v w /\ l_fails w = [] /\ locks_of v w ref l /\ In x l /\ In y l /\
  lk_path x <> lk_path y /\ lfs_delete v (lk_id x) (Some (Some (mkUnlock false ref))) w = (w', Ok (ROk 200 (BLock z))) /\ locks_of v w' ref [].
Proof.
  exists ex_lenv, (fst (lfs_run ex_lenv ex_twice ex_start)), ex_main.
  exists [ex_lock (bs "00000001") (bs "a.png") (bs "2023-05-23T10:00:01+00:00"); ex_lock (bs "00000001") (bs "b.png") (bs "2023-05-23T10:00:02+00:00")].
  eexists. eexists. exists ex_start. eexists. split; [exact ex_lenv_ok|].
  split; [exists ex_twice, ex_start; split; [apply events_check; reflexivity|split; reflexivity]|].
  split; [reflexivity|]. split; [vm_compute; reflexivity|]. split; [left; reflexivity|]. split; [right; left; reflexivity|]. split; [discriminate|].
  split; vm_compute; reflexivity.
Qed.

(** ** C62: requests at the same time *)

(** Running the steps of one request without another in between is the request. *)
Theorem C62_steps : forall v rq id now w, exists r,
  lock_schedule v (fun _ => rq) (fun _ => id) (fun _ => now) [0; 0; 0]%nat (fun _ => CStart) w =
    (fst (lfs_create_lock v (Some rq) id now w), r) /\ r O = CDone (snd (lfs_create_lock v (Some rq) id now w)).
Proof.
  intros v rq id now w. cbn [lock_schedule]. cbn [Nat.eqb lock_step]. unfold lfs_create_lock, llift, lbind. cbn [unwrap_opt].
  destruct (create_check v rq w) as [w1 [[reply|]|e| |]]; try (eexists; split; reflexivity). cbn [lock_step].
  destruct (add_lock_read v (lr_ref rq) w1) as [w2 [row|e| |]]; try (eexists; split; reflexivity).
  cbn [lock_step]. destruct (create_write v rq id now row w2) as [w3 r]. eexists; split; reflexivity.
Qed.

(** Requests on different refs do not disturb each other, whatever the schedule. *)
Definition rows (v : lenv) (w : lfs) (ref : bytes) : list (bytes * bytes) := filter (fun r => l_teq v (fst r) ref) (l_locks w).
Lemma find_hd : forall A (f : A -> bool) l, find f l = hd_error (filter f l).
Proof. induction l as [|x l IH]; [reflexivity|]. cbn. destruct (f x); [reflexivity|exact IH]. Qed.
Lemma existsb_hd : forall A (f : A -> bool) l, existsb f l = match filter f l with [] => false | _ => true end.
Proof. induction l as [|x l IH]; [reflexivity|]. cbn. destruct (f x); [reflexivity|exact IH]. Qed.
Lemma rows_alike : forall v w k ref, lenv_ok v -> l_teq v k ref = true -> rows v w k = rows v w ref.
Proof.
  intros v w k ref (_ & Sy & Tr & _) Hk. unfold rows. apply filter_ext. intros [a d]. cbn [fst].
  destruct (l_teq v a k) eqn:A; [symmetry; exact (Tr _ _ _ A Hk)|]. destruct (l_teq v a ref) eqn:B; [|reflexivity].
  rewrite Sy in Hk. rewrite (Tr _ _ _ B Hk) in A. discriminate.
Qed.
Lemma rows_update : forall v k d t ref, lenv_ok v ->
  filter (fun r => l_teq v (fst r) ref) (map (fun r => if l_teq v (fst r) k then (fst r, d) else r) t) =
  (if l_teq v k ref then map (fun r : bytes * bytes => (fst r, d : bytes)) else fun x => x) (filter (fun r => l_teq v (fst r) ref) t).
Proof.
  intros v k d t ref (_ & Sy & Tr & _). induction t as [|[a e] t IH]; [destruct (l_teq v k ref); reflexivity|]. cbn [map filter fst].
  destruct (l_teq v a k) eqn:A; cbn [fst].
  - destruct (l_teq v k ref) eqn:K.
    + rewrite (Tr _ _ _ A K). cbn [map fst]. f_equal. exact IH.
    + destruct (l_teq v a ref) eqn:B; [|exact IH]. rewrite Sy in A. rewrite (Tr _ _ _ A B) in K. discriminate.
  - destruct (l_teq v a ref) eqn:B; [|exact IH]. destruct (l_teq v k ref) eqn:K.
    + rewrite Sy in K. rewrite (Tr _ _ _ B K) in A. discriminate.
    + f_equal. exact IH.
Qed.
(** Checks and reads depend on the rows of the ref only, and change nothing. *)
Lemma find_lock_rows : forall v ref w, l_fails w = [] -> find_lock_row v ref w = (w, Ok (hd_error (rows v w ref))).
Proof. intros v ref w H. unfold find_lock_row, lattempt, lbind. rewrite H, find_hd. reflexivity. Qed.
Lemma check_rows : forall v rq w1, l_fails w1 = [] ->
  fst (create_check v rq w1) = w1 /\
  forall w2, l_fails w2 = [] -> rows v w1 (lr_ref rq) = rows v w2 (lr_ref rq) -> snd (create_check v rq w1) = snd (create_check v rq w2).
Proof.
  intros v rq w1 H. unfold create_check, ltry, lfs_get_filtered_locks, lfs_get_locks, lbind. rewrite find_lock_rows by exact H.
  split.
  - destruct (hd_error (rows v w1 (lr_ref rq))) as [[k d]|].
    + unfold llift. destruct (js_dec v d) as [l|]; [|reflexivity]. cbn [unwrap_opt]. cbn [lret].
      destruct (filtered_locks _ _ _ l) as [[[|x l'] n]|e| |]; reflexivity.
    + unfold llift. cbn [lret]. destruct (filtered_locks _ _ _ []) as [[[|x l'] n]|e| |]; reflexivity.
  - intros w2 H2 E. rewrite find_lock_rows by exact H2. rewrite <- E.
    destruct (hd_error (rows v w1 (lr_ref rq))) as [[k d]|].
    + unfold llift. destruct (js_dec v d) as [l|]; [|reflexivity]. cbn [unwrap_opt]. cbn [lret].
      destruct (filtered_locks _ _ _ l) as [[[|x l'] n]|e| |]; reflexivity.
    + unfold llift. cbn [lret]. destruct (filtered_locks _ _ _ []) as [[[|x l'] n]|e| |]; reflexivity.
Qed.
Definition same_rest (w w' : lfs) : Prop := l_meta w' = l_meta w /\ l_files w' = l_files w /\ l_fails w' = l_fails w.
(** What the write does to the rows. *)
Definition written (v : lenv) (rq : lock_request) (id now : bytes) (row : option (bytes * bytes)) (rs : list (bytes * bytes)) : list (bytes * bytes) * res lfs_reply :=
  let x := mkLock id (lr_path rq) now None in
  match row with
  | Some (k, d) =>
    match row_locks v d with
    | Ok old =>
      if varchar 10000 (js_enc v (sort_locks (old ++ [x]))) && (match rs with [] => false | _ => true end)
      then (map (fun r : bytes * bytes => (fst r, js_enc v (sort_locks (old ++ [x])))) rs, Ok (ROk 201 (BLock x)))
      else (rs, Ok (RFail 500 (bs "Failed when adding locks!")))
    | Err _ => (rs, Ok (RFail 500 (bs "Failed when adding locks!")))
    | Panic => (rs, Panic)
    | OutOfFuel => (rs, OutOfFuel)
    end
  | None =>
    if varchar 200 (lr_ref rq) && varchar 10000 (js_enc v [x]) && negb (match rs with [] => false | _ => true end)
    then (rs ++ [(lr_ref rq, js_enc v [x])], Ok (if key_insert_ok v then ROk 201 (BLock x) else RFail 500 (bs "Failed when adding locks!")))
    else (rs, Ok (RFail 500 (bs "Failed when adding locks!")))
  end.
Lemma write_rows : forall v rq id now row w, lenv_ok v -> l_fails w = [] -> (forall k d, row = Some (k, d) -> l_teq v k (lr_ref rq) = true) ->
  exists w' r, create_write v rq id now row w = (w', r) /\ same_rest w w' /\
  (rows v w' (lr_ref rq), r) = written v rq id now row (rows v w (lr_ref rq)) /\
  forall ref, l_teq v ref (lr_ref rq) = false -> rows v w' ref = rows v w ref.
Proof.
  intros v rq id now row w Hv Hf Hk.
  assert (Z : forall ref, l_teq v ref (lr_ref rq) = false -> l_teq v (lr_ref rq) ref = false) by (intros ref H; rewrite (proj1 (proj2 Hv)); exact H).
  unfold create_write, ltry, add_lock_write, written. destruct row as [[k d]|].
  - specialize (Hk k d eq_refl). unfold lbind, llift. destruct (row_locks v d) as [old|e| |];
      [|exists w; eexists; repeat split; reflexivity|exists w; eexists; repeat split; reflexivity|exists w; eexists; repeat split; reflexivity].
    rewrite updated_quiet, exec_locks_quiet by exact Hf. unfold update_lock. rewrite existsb_hd.
    change (filter (fun r => l_teq v (fst r) k) (l_locks w)) with (rows v w k). rewrite (rows_alike v w k (lr_ref rq) Hv Hk).
    destruct (_ && _); [|exists w; eexists; repeat split; reflexivity].
    eexists. eexists. split; [reflexivity|]. split; [repeat split|]. unfold rows at 1 3. cbn [with_locks l_locks]. split.
    + rewrite rows_update, Hk by exact Hv. reflexivity.
    + intros ref Hr. rewrite rows_update by exact Hv. replace (l_teq v k ref) with false; [reflexivity|]. symmetry. apply Z in Hr.
      destruct (l_teq v k ref) eqn:K; [|reflexivity]. destruct Hv as (_ & Sy & Tr & _). rewrite Sy in Hk. rewrite (Tr _ _ _ Hk K) in Hr. discriminate.
  - unfold lbind, llift. rewrite inserted_quiet by exact Hf. unfold insert_lock. rewrite existsb_hd.
    change (filter (fun r => l_teq v (fst r) (lr_ref rq)) (l_locks w)) with (rows v w (lr_ref rq)). cbn [sort_locks insert_at].
    destruct (_ && _ && _); [|exists w; eexists; repeat split; reflexivity].
    exists (with_locks w (l_locks w ++ [(lr_ref rq, js_enc v [mkLock id (lr_path rq) now None])])).
    exists (Ok (if key_insert_ok v then ROk 201 (BLock (mkLock id (lr_path rq) now None)) else RFail 500 (bs "Failed when adding locks!"))).
    split; [destruct (key_insert_ok v); reflexivity|]. split; [repeat split|].
    unfold rows. cbn [with_locks l_locks]. rewrite filter_app. cbn [filter fst]. split.
    + rewrite (proj1 Hv). reflexivity.
    + intros ref Hr. rewrite filter_app. cbn [filter fst]. rewrite (Z ref Hr), app_nil_r. reflexivity.
Qed.
Lemma rows_key : forall v w ref k d, hd_error (rows v w ref) = Some (k, d) -> l_teq v k ref = true.
Proof.
  intros v w ref k d H. assert (I : In (k, d) (rows v w ref)) by (destruct (rows v w ref); [discriminate|injection H as ->; left; reflexivity]).
  apply filter_In in I as [_ I]. exact I.
Qed.

Definition stage_ok (v : lenv) (w0 w : lfs) (rq : lock_request) (id now : bytes) (s : lock_stage) : Prop :=
  match s with
  | CStart => rows v w (lr_ref rq) = rows v w0 (lr_ref rq)
  | CChecked => rows v w (lr_ref rq) = rows v w0 (lr_ref rq) /\ snd (create_check v rq w0) = Ok None
  | CRead row => rows v w (lr_ref rq) = rows v w0 (lr_ref rq) /\ snd (create_check v rq w0) = Ok None /\ row = hd_error (rows v w0 (lr_ref rq))
  | CDone r => rows v w (lr_ref rq) = rows v (fst (lfs_create_lock v (Some rq) id now w0)) (lr_ref rq) /\ r = snd (lfs_create_lock v (Some rq) id now w0)
  end.
Lemma create_refused : forall v rq id now w, l_fails w = [] -> snd (create_check v rq w) <> Ok None ->
  lfs_create_lock v (Some rq) id now w =
    (w, match snd (create_check v rq w) with Ok (Some r) => Ok r | Ok None => Panic | Err e => Err e | Panic => Panic | OutOfFuel => OutOfFuel end).
Proof.
  intros v rq id now w Hf H. unfold lfs_create_lock, llift. unfold lbind at 1. cbn [unwrap_opt]. unfold lbind at 1.
  pose proof (proj1 (check_rows v rq w Hf)) as E. destruct (create_check v rq w) as [w1 [[r|]|e| |]]; cbn [fst] in E; subst w1; try reflexivity.
  contradiction H; reflexivity.
Qed.
Lemma create_goes_on : forall v rq id now w, l_fails w = [] -> snd (create_check v rq w) = Ok None ->
  lfs_create_lock v (Some rq) id now w = create_write v rq id now (hd_error (rows v w (lr_ref rq))) w.
Proof.
  intros v rq id now w Hf H. unfold lfs_create_lock, llift. unfold lbind at 1. cbn [unwrap_opt]. unfold lbind at 1.
  pose proof (proj1 (check_rows v rq w Hf)) as E. destruct (create_check v rq w) as [w1 r]. cbn [fst snd] in E, H. subst w1 r.
  unfold add_lock_read. rewrite (lbind_ok _ _ _ _ _ _ _ (find_lock_rows v (lr_ref rq) w Hf)). reflexivity.
Qed.
Lemma step_ok : forall v w0 w rq id now s, lenv_ok v -> l_fails w0 = [] -> l_fails w = [] -> stage_ok v w0 w rq id now s ->
  exists w' s', lock_step v rq id now s w = (w', s') /\ stage_ok v w0 w' rq id now s' /\ same_rest w w' /\
  forall ref, l_teq v ref (lr_ref rq) = false -> rows v w' ref = rows v w ref.
Proof.
  intros v w0 w rq id now s Hv H0 Hf Hs. destruct s as [| |row|r]; cbn [lock_step].
  - pose proof (check_rows v rq w Hf) as [E1 E2]. specialize (E2 w0 H0 Hs). pose proof (create_refused v rq id now w0 H0) as Rf. rewrite <- E2 in Rf.
    destruct (create_check v rq w) as [w1 r] eqn:Ec. cbn [fst snd] in E1, E2, Rf. subst w1. exists w.
    destruct r as [[reply|]|e| |]; (eexists; split; [reflexivity|]; split; [|split; [repeat split|reflexivity]]); cbn [stage_ok].
    2: { split; [exact Hs|]. symmetry. exact E2. }
    all: rewrite Rf by discriminate; split; [exact Hs|reflexivity].
  - destruct Hs as [Hs Hc]. unfold add_lock_read. rewrite find_lock_rows by exact Hf. exists w. eexists. split; [reflexivity|].
    split; [|split; [repeat split|reflexivity]]. cbn [stage_ok]. rewrite Hs. auto.
  - destruct Hs as (Hs & Hc & ->).
    destruct (write_rows v rq id now (hd_error (rows v w0 (lr_ref rq))) w Hv Hf (rows_key v w0 (lr_ref rq))) as (w' & r & E & Sr & Wr & Ot).
    destruct (write_rows v rq id now (hd_error (rows v w0 (lr_ref rq))) w0 Hv H0 (rows_key v w0 (lr_ref rq))) as (w0' & r0 & E0 & _ & Wr0 & _).
    rewrite E. exists w', (CDone r). split; [reflexivity|]. split; [|auto]. cbn [stage_ok]. rewrite (create_goes_on v rq id now w0 H0 Hc), E0. cbn [fst snd].
    rewrite Hs, <- Wr0 in Wr. split; congruence.
  - exists w, (CDone r). split; [reflexivity|]. split; [exact Hs|]. split; [repeat split|reflexivity].
Qed.
Lemma stage_rows : forall v w0 w w' rq id now s, rows v w' (lr_ref rq) = rows v w (lr_ref rq) -> stage_ok v w0 w rq id now s -> stage_ok v w0 w' rq id now s.
Proof. intros v w0 w w' rq id now s E. unfold stage_ok. rewrite E. exact (fun H => H). Qed.

Theorem C62_different_refs : forall v rq id now w sched w' s, lenv_ok v -> l_fails w = [] ->
  (forall i j, i <> j -> l_teq v (lr_ref (rq i)) (lr_ref (rq j)) = false) ->
  lock_schedule v rq id now sched (fun _ => CStart) w = (w', s) ->
  (forall i, match s i with
   | CDone r => let alone := lfs_create_lock v (Some (rq i)) (id i) (now i) w in
                r = snd alone /\ forall l, locks_of v w' (lr_ref (rq i)) l <-> locks_of v (fst alone) (lr_ref (rq i)) l
   | _ => forall l, locks_of v w' (lr_ref (rq i)) l <-> locks_of v w (lr_ref (rq i)) l
   end) /\
  (forall ref, (forall i, l_teq v ref (lr_ref (rq i)) = false) -> forall l, locks_of v w' ref l <-> locks_of v w ref l) /\
  l_meta w' = l_meta w /\ l_files w' = l_files w.
Proof.
  intros v rq id now w sched w' s Hv Hf Hd.
  assert (G : forall sched st w1 w2 st', l_fails w1 = [] -> (forall i, stage_ok v w w1 (rq i) (id i) (now i) (st i)) ->
    lock_schedule v rq id now sched st w1 = (w2, st') ->
    (forall i, stage_ok v w w2 (rq i) (id i) (now i) (st' i)) /\ same_rest w1 w2 /\
    forall ref, (forall i, l_teq v ref (lr_ref (rq i)) = false) -> rows v w2 ref = rows v w1 ref).
  { clear sched. induction sched as [|i sched IH]; intros st w1 w2 st' F1 Hs E; cbn [lock_schedule] in E.
    - injection E as <- <-. split; [exact Hs|]. split; [repeat split|reflexivity].
    - destruct (step_ok v w w1 (rq i) (id i) (now i) (st i) Hv Hf F1 (Hs i)) as (w3 & s3 & E3 & S3 & R3 & O3). rewrite E3 in E.
      destruct (IH (fun j => if Nat.eqb j i then s3 else st j) w3 w2 st') as (A & B & C).
      + destruct R3 as (_ & _ & R3). congruence.
      + intros j. destruct (Nat.eqb_spec j i) as [->|Hn]; [exact S3|]. apply (stage_rows v w w1); [|apply Hs]. apply O3, Hd, Hn.
      + exact E.
      + split; [exact A|]. split.
        * destruct B as (B1 & B2 & B3), R3 as (R1 & R2 & R3). split; [|split]; congruence.
        * intros ref Hr. rewrite (C ref Hr). apply O3, Hr. }
  intros E. destruct (G sched (fun _ => CStart) w w' s Hf (fun _ => eq_refl) E) as (A & (B1 & B2 & _) & C).
  assert (R : forall a b ref, rows v a ref = rows v b ref -> forall l, locks_of v a ref l <-> locks_of v b ref l).
  { intros a b ref Hr l. unfold locks_of. unfold rows in Hr. rewrite Hr. reflexivity. }
  split; [|split; [intros ref Hr; apply R, C, Hr|auto]]. intros i. specialize (A i). destruct (s i) as [| |row|r]; cbn [stage_ok] in A.
  - apply R, A.
  - apply R, A.
  - apply R, A.
  - destruct A as [A1 A2]. split; [exact A2|]. apply R, A1.
Qed.
Definition ex_req (i : nat) : lock_request :=
  match i with O => mkLockReq (bs "d.png") ex_main | _ => mkLockReq (bs "a.png") (to_decimal (N.of_nat i)) end.
Definition ex_number (i : nat) : bytes := match i with O => bs "00000011" | S O => bs "00000012" | _ => bs "00000013" end.
Definition ex_now (i : nat) : bytes := bs "2023-05-23T11:00:00+00:00".
Lemma digits_fold : forall n, map fold_case (to_decimal n) = to_decimal n.
Proof.
  intros n. pose proof (to_decimal_digits n) as H. induction H as [|x l Hx _ IH]; [reflexivity|]. cbn [map]. rewrite IH. f_equal.
  unfold is_digit in Hx. unfold fold_case. destruct (N.leb_spec 65 x); [lia|reflexivity].
Qed.
Example C62_ex : l_fails ex_lfs = [] /\ (forall i j, i <> j -> l_teq ex_lenv (lr_ref (ex_req i)) (lr_ref (ex_req j)) = false) /\
  exists w s, lock_schedule ex_lenv ex_req ex_number ex_now [0; 1; 0; 1; 1; 0]%nat (fun _ => CStart) ex_lfs = (w, s) /\
  match s 0%nat, s 1%nat with CDone (Ok (ROk a _)), CDone (Ok (ROk b _)) => a = 201 /\ b = 201 | _, _ => False end.
Proof.
  split; [vm_compute; reflexivity|]. split.
  - assert (M : forall i, l_teq ex_lenv ex_main (to_decimal i) = false).
    { intros i. apply beq_neq. rewrite digits_fold. intros E. pose proof (to_decimal_digits i) as H. rewrite <- E in H. inversion H as [|? ? Hd _]. unfold is_digit in Hd.
      vm_compute in Hd. destruct Hd as [_ Hd]. contradiction Hd; reflexivity. }
    intros [|i] [|j] H; [contradiction|exact (M _)|rewrite (proj1 (proj2 ex_lenv_ok)); exact (M _)|].
    apply beq_neq. cbn [ex_req lr_ref]. rewrite !digits_fold. intros E. apply to_decimal_inj in E. lia.
  - eexists. eexists. split; [apply surjective_pairing|]. vm_compute. auto.
Qed.

(** Two requests for one path at the same time: both are granted. *)
Definition ex_same (i : nat) : lock_request := mkLockReq (bs "d.png") ex_main.
Theorem C62_refuted : exists v w rq id now sched w' s x y l, lenv_ok v /\ reachable v w /\ l_fails w = [] /\ id 0%nat <> id 1%nat /\
  rq 0%nat = rq 1%nat /\ lock_schedule v rq id now sched (fun _ => CStart) w = (w', s) /\
  s 0%nat = CDone (Ok (ROk 201 (BLock x))) /\ s 1%nat = CDone (Ok (ROk 201 (BLock y))) /\ lk_path x = lk_path y /\ x <> y /\
  locks_of v w' (lr_ref (rq 0%nat)) l /\ In x l /\ In y l.
Proof.
  exists ex_lenv, ex_lfs, ex_same, ex_number, ex_now, [0; 1; 0; 0; 1; 1]%nat. eexists. eexists.
  exists (ex_lock (bs "00000011") (bs "d.png") (ex_now 0)), (ex_lock (bs "00000012") (bs "d.png") (ex_now 1)).
  exists (ex_main_locks ++ [ex_lock (bs "00000011") (bs "d.png") (ex_now 0); ex_lock (bs "00000012") (bs "d.png") (ex_now 1)]).
  split; [exact ex_lenv_ok|]. split; [exact ex_reachable|]. split; [vm_compute; reflexivity|]. split; [discriminate|]. split; [reflexivity|]. split; [apply surjective_pairing|].
  split; [vm_compute; reflexivity|]. split; [vm_compute; reflexivity|]. split; [reflexivity|]. split; [discriminate|]. split; [vm_compute; reflexivity|].
  split; apply in_or_app; right; cbn [In]; auto.
Qed.
(** Requests for two paths of one ref at the same time: both are granted and one lock is
    gone. *)
Definition ex_two (i : nat) : lock_request := mkLockReq (match i with O => bs "d.png" | _ => bs "e.png" end) ex_main.
Theorem C62_lost_refuted : exists v w rq id now sched w' s x y l, lenv_ok v /\ reachable v w /\ l_fails w = [] /\ id 0%nat <> id 1%nat /\
  lr_path (rq 0%nat) <> lr_path (rq 1%nat) /\ lock_schedule v rq id now sched (fun _ => CStart) w = (w', s) /\
  s 0%nat = CDone (Ok (ROk 201 (BLock x))) /\ s 1%nat = CDone (Ok (ROk 201 (BLock y))) /\
  locks_of v w' (lr_ref (rq 0%nat)) l /\ ~ In (lk_path x) (map lk_path l).
Proof.
  exists ex_lenv, ex_lfs, ex_two, ex_number, ex_now, [0; 0; 1; 1; 0; 1]%nat. eexists. eexists.
  exists (ex_lock (bs "00000011") (bs "d.png") (ex_now 0)), (ex_lock (bs "00000012") (bs "e.png") (ex_now 1)).
  exists (ex_main_locks ++ [ex_lock (bs "00000012") (bs "e.png") (ex_now 1)]).
  split; [exact ex_lenv_ok|]. split; [exact ex_reachable|]. split; [vm_compute; reflexivity|]. split; [discriminate|]. split; [discriminate|]. split; [apply surjective_pairing|].
  split; [vm_compute; reflexivity|]. split; [vm_compute; reflexivity|]. split; [vm_compute; reflexivity|].
  intros H. cbn in H. intuition discriminate.
Qed.

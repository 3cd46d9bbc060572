(** C124: the lock server answers as a book of locks. *)

From Coq Require Import ZArith Permutation Sorting.Sorted.
From Verif Require Import Base BaseLemmas Digest ModelUtils ModelObject ModelPkt ModelStorage ModelLfs SpecObject SpecBase SpecJson SpecLfs SpecBook ProofLfs PropLocks PropLockList PropAnswer.
Open Scope N_scope.

(** Room: the JSON text of the locks has 10000 characters at most, and the ref 200 when
    it gets its first lock. *)
Definition column_room (v : lenv) (ref : bytes) (l : list lock) : Prop := chars (js_enc v l) <= 10000 /\ (length l = 1%nat -> chars ref <= 200).
(** Requests as they come from the wire: the limit is an i64. *)
Definition request_ok (x : lfs_event) : Prop :=
  event_ok x /\ match x with EVerify (Some rq) => forall z, v_limit rq = Some z -> fits z | _ => True end.

Lemma locks_alike : forall v w r ref l, lenv_ok v -> l_teq v r ref = true -> locks_of v w ref l -> locks_of v w r l.
Proof.
  intros v w r ref l Hv E H. unfold locks_of in *. change (filter (fun x => l_teq v (fst x) r) (l_locks w)) with (rows v w r). rewrite (rows_alike v w r ref Hv E). exact H.
Qed.
Lemma written_locks : forall v w w' ref l b, lenv_ok v -> (forall r, locks_of v w r (b r)) -> locks_of v w' ref l -> elsewhere v ref w w' ->
  forall r, locks_of v w' r (if l_teq v r ref then l else b r).
Proof.
  intros v w w' ref l b Hv Hb Hl (He & _) r. destruct (l_teq v r ref) eqn:E; [exact (locks_alike v w' r ref l Hv E Hl)|]. apply (He r (b r) E), Hb.
Qed.

(** *** Pages *)
Lemma cut_shows : forall p z l s next, parse_i64 p = Some z -> p <> [] -> (0 <= z)%Z -> cut_locks p l = Ok (s, next) -> page (Z.to_nat z) l s next.
Proof.
  intros p z l s next P Np Hz E. unfold cut_locks in E. destruct p as [|c r] eqn:Ep; [contradiction|]. rewrite P in E. cbn [unwrap_opt bind] in E.
  destruct (Z.ltb_spec (Z.min z (Z.of_nat (length l))) 0) as [|_]; [lia|].
  destruct (Z.ltb_spec (Z.min z (Z.of_nat (length l)) + 1) (Z.of_nat (length l))) as [H|H].
  - replace (Z.min z (Z.of_nat (length l))) with z in E by lia. destruct (nth_error l (Z.to_nat z)) as [x|] eqn:N; [|discriminate]. cbn [unwrap_opt bind] in E. injection E as <- <-.
    apply nth_error_split in N as (l1 & l2 & -> & L1). rewrite <- L1. rewrite firstn_app, firstn_all, Nat.sub_diag. cbn [firstn]. rewrite app_nil_r.
    destruct l2 as [|y l2]; [rewrite app_length in H; cbn [length] in H; lia|]. apply page_more. reflexivity.
  - cbn [bind] in E. injection E as <- <-. destruct (Z_le_dec (Z.of_nat (length l)) z) as [L|L].
    + replace (Z.min z (Z.of_nat (length l))) with (Z.of_nat (length l)) by lia. rewrite Nat2Z.id, firstn_all. apply page_all. lia.
    + replace (Z.min z (Z.of_nat (length l))) with z by lia. assert (Ll : length l = S (Z.to_nat z)) by lia.
      destruct (exists_last (l := l) ltac:(intros ->; discriminate)) as (l1 & x & ->). rewrite app_length in Ll. cbn [length] in Ll.
      replace (Z.to_nat z) with (length l1) by lia. rewrite firstn_app, firstn_all, Nat.sub_diag. cbn [firstn]. rewrite app_nil_r. apply page_but_one. reflexivity.
Qed.
Lemma index_since : forall c l i, lock_index c l = Some i -> since c l (skipn i l).
Proof.
  intros c l. induction l as [|x l IH]; intros i E; [discriminate|]. cbn [lock_index] in E. destruct (beq (lk_id x) c) eqn:B.
  - injection E as <-. apply beq_eq in B. apply (since_here c [] x l); [intros []|exact B].
  - destruct (lock_index c l) as [j|]; [|discriminate]. injection E as <-. specialize (IH j eq_refl). cbn [skipn]. inversion IH as [l1 y r N Ey E1 E2].
    apply (since_here c (x :: l1) y r); [|exact Ey]. cbn [map In]. apply beq_neq in B. intros [K|K]; [exact (B K)|exact (N K)].
Qed.

(** *** Unlocking *)
Lemma scan_all : forall id force l f, Forall lock_ok l -> scan_locks id force l f =
  Some (last (filter (fun y => beq (lk_id y) id) l) f, filter (fun y => negb (beq (lk_id y) id)) l).
Proof.
  intros id force l. induction l as [|x l IH]; intros f H; [reflexivity|]. inversion H as [|? ? Hx Hl]; subst. cbn [scan_locks filter]. destruct (beq (lk_id x) id) eqn:E; cbn [negb].
  - destruct Hx as [-> _]. cbn [andb]. rewrite IH by exact Hl. f_equal. f_equal. destruct (filter (fun y => beq (lk_id y) id) l) as [|y r] eqn:F; [reflexivity|].
    cbn [last]. clear. revert y. induction r as [|z r IHr]; intros y; [reflexivity|]. cbn [last] in *. apply IHr.
  - rewrite IH by exact Hl. destruct Hx as (_ & Nx & _). pose proof (number_nonempty _ Nx) as P. apply N.ltb_lt in P. rewrite P. reflexivity.
Qed.

Lemma last_in : forall A (l : list A) d, l <> [] -> exists a x, l = a ++ [x] /\ last l d = x.
Proof.
  intros A l d H. destruct (exists_last H) as (a & x & ->). exists a, x. split; [reflexivity|apply last_last].
Qed.
(** The last lock with a number. *)
Lemma last_numbered : forall id l d, In id (map lk_id l) -> exists l1 x l2, l = l1 ++ x :: l2 /\ lk_id x = id /\ ~ In id (map lk_id l2) /\ last (filter (fun y => beq (lk_id y) id) l) d = x.
Proof.
  intros id l d. induction l as [|y l IH]; intros H; [destruct H|]. cbn [filter]. destruct (in_dec (list_eq_dec N.eq_dec) id (map lk_id l)) as [I|I].
  - destruct (IH I) as (l1 & x & l2 & -> & Ex & Nx & L). exists (y :: l1), x, l2. split; [reflexivity|]. split; [exact Ex|]. split; [exact Nx|].
    destruct (beq (lk_id y) id); [|exact L]. destruct (filter (fun z => beq (lk_id z) id) (l1 ++ x :: l2)) as [|z r] eqn:F; [|exact L].
    exfalso. assert (K : In x (filter (fun z => beq (lk_id z) id) (l1 ++ x :: l2))) by (apply filter_In; split; [apply in_or_app; right; left; reflexivity|apply beq_eq, Ex]).
    rewrite F in K. destruct K.
  - destruct H as [H|H]; [|contradiction]. exists [], y, l. split; [reflexivity|]. split; [exact H|]. split; [exact I|]. rewrite (proj2 (beq_eq _ _) H).
    rewrite filter_none; [reflexivity|]. intros z Hz. apply beq_neq. intros E. apply I. rewrite <- E. apply in_map, Hz.
Qed.
Lemma fewer_chars : forall v f l a, lenv_ok v -> chars (js_enc v (a ++ filter f l)) <= chars (js_enc v (a ++ l)).
Proof.
  intros v f l. induction l as [|x l IH]; intros a Hv; [apply N.le_refl|]. cbn [filter]. destruct (f x).
  - specialize (IH (a ++ [x]) Hv). rewrite <- !app_assoc in IH. exact IH.
  - eapply N.le_trans; [apply IH, Hv|]. apply Hv.
Qed.
Lemma unlock_any : forall v w ref l id force d, lenv_ok v -> table_ok v (l_locks w) -> l_fails w = [] -> locks_of v w ref l -> id <> [] -> In id (map lk_id l) ->
  exists w', lfs_delete v id (Some (Some (mkUnlock force ref))) w = (w', Ok (ROk 200 (BLock (last (filter (fun y => beq (lk_id y) id) l) d)))) /\
    locks_of v w' ref (filter (fun y => negb (beq (lk_id y) id)) l) /\ elsewhere v ref w w'.
Proof.
  intros v w ref l id force d Hv Ht Hf Hl Hn Hi0.
  destruct (row_of v w ref _ Hv Ht Hl) as [[El _]|(k & N1 & F & Hi & Hk & N2 & [N3 N3'] & N4)]; [subst l; destruct Hi0|].
  assert (D : row_locks v (js_enc v l) = Ok l).
  { unfold row_locks. destruct (js_back v l Hv N3) as [J1 J2]. rewrite J2. destruct (js_enc v l); [contradiction|reflexivity]. }
  set (rest := filter (fun y => negb (beq (lk_id y) id)) l).
  assert (N3r : Forall lock_ok rest) by (apply filter_forall, N3).
  assert (N2r : NoDup (map lk_path rest)) by (apply filter_nodup, N2).
  assert (S3r : StronglySorted earlier rest) by (apply filter_sorted, N3').
  destruct (last_numbered id l empty_lock Hi0) as (a & x & z & Ea & Ex & _ & Lx). destruct (last_numbered id l d Hi0) as (a' & x' & z' & Ea' & Ex' & Nz' & Lx').
  assert (Exx : last (filter (fun y => beq (lk_id y) id) l) d = last (filter (fun y => beq (lk_id y) id) l) empty_lock).
  { destruct (last_in _ (filter (fun y => beq (lk_id y) id) l) d) as (p & q & Ep & Eq).
    - intros E. assert (K : In x (filter (fun y => beq (lk_id y) id) l)) by (apply filter_In; split; [rewrite Ea; apply in_or_app; right; left; reflexivity|apply beq_eq, Ex]). rewrite E in K. destruct K.
    - rewrite Ep, !last_last. reflexivity. }
  rewrite Exx, Lx. clear a' x' z' Ea' Ex' Nz' Lx' Exx.
  pose proof (scan_all id force l empty_lock N3) as Sc. rewrite Lx in Sc. fold rest in Sc. 
  assert (E : exists w', lfs_delete_lock v ref id force w = (w', Ok x) /\ locks_of v w' ref rest /\ elsewhere v ref w w').
  { unfold lfs_delete_lock. destruct (find_lock_any v ref w) as (w1 & _ & _ & Q). destruct (Q Hf) as [_ E1]. rewrite (lbind_ok _ _ _ _ _ _ _ E1), F. clear Q E1 w1.
    rewrite D. unfold llift. unfold lbind at 1. rewrite Sc, Ex. destruct id as [|c cs]; [contradiction|].
    assert (V : chars (js_enc v rest) <= 10000) by (eapply N.le_trans; [exact (fewer_chars v _ l [] Hv)|exact N4]).
    destruct rest as [|y ys].
    - unfold lbind. rewrite exec_locks_quiet by exact Hf. unfold remove_lock.
      exists (with_locks w (filter (fun r => negb (l_teq v (fst r) ref)) (l_locks w))). split; [reflexivity|].
      assert (Tn : table_ok v (filter (fun r => negb (l_teq v (fst r) ref)) (l_locks w))) by (split; [apply filter_forall, Ht|apply filter_apart, Ht]).
      assert (Fo : forall r, l_teq v r ref = false -> find (fun r0 => l_teq v (fst r0) r) (filter (fun r => negb (l_teq v (fst r) ref)) (l_locks w)) =
        find (fun r0 => l_teq v (fst r0) r) (l_locks w)).
      { intros r Hr0. clear -Hv Hr0. destruct Hv as (_ & Sy & Tr & _). induction (l_locks w) as [|y t IH]; [reflexivity|]. cbn [filter find].
        destruct (l_teq v (fst y) ref) eqn:A; cbn [negb].
        - destruct (l_teq v (fst y) r) eqn:B; [|exact IH]. rewrite Sy in B. rewrite (Tr _ _ _ B A) in Hr0. discriminate.
        - cbn [find]. rewrite IH. reflexivity. }
      split.
      + apply locks_of_find; [exact Hv|exact Tn|]. cbn [with_locks l_locks].
        destruct (find (fun r => l_teq v (fst r) ref) (filter (fun r => negb (l_teq v (fst r) ref)) (l_locks w))) as [[k' d']|] eqn:F'; [|cbn beta iota; exact eq_refl].
        apply find_some in F' as [H1 H2]. apply filter_In in H1 as [_ H1]. cbn beta in H1, H2. rewrite H2 in H1. discriminate.
      + split; [|auto]. intros r l0 Hr0. rewrite !locks_of_find by (assumption || exact Tn). cbn [with_locks l_locks]. rewrite (Fo r Hr0). reflexivity.
    - unfold lbind. rewrite updated_quiet, exec_locks_quiet by exact Hf. unfold update_lock.
      assert (X : existsb (fun r => l_teq v (fst r) k) (l_locks w) = true).
      { apply existsb_exists. exists (k, js_enc v l). split; [exact Hi|]. apply Hv. }
      apply varchar_le in V. rewrite X, V. cbn [andb].
      assert (Tn : table_ok v (map (fun r => if l_teq v (fst r) k then (fst r, js_enc v (y :: ys)) else r) (l_locks w))).
      { apply (update_ok v k (y :: ys) (l_locks w)); [exact Ht|discriminate|exact N2r|split; [exact N3r|exact S3r]|]. unfold update_lock. rewrite V, X. reflexivity. }
      eexists. split; [reflexivity|]. split.
      + apply locks_of_find; [exact Hv|exact Tn|]. cbn [with_locks l_locks].
        destruct (find_update_same v k (js_enc v (y :: ys)) (l_locks w) ref Hv Hk X) as (k' & ->). apply js_back; [exact Hv|exact N3r].
      + split; [|auto]. intros r l0 Hr0. rewrite !locks_of_find by (assumption || exact Tn). cbn [with_locks l_locks].
        rewrite (find_update_other v k _ _ r Hv); [reflexivity|]. destruct (l_teq v k r) eqn:K; [|reflexivity].
        destruct Hv as (_ & Sy & Tr & _). rewrite Sy in K. rewrite (Tr _ _ _ K Hk) in Hr0. discriminate. }
  destruct E as (w' & E & R). exists w'. split; [|exact R]. unfold lfs_delete. destruct id as [|c cs]; [contradiction|].
  unfold llift. unfold lbind at 1. cbn [unwrap_opt ul_ref ul_force]. unfold ltry, lbind. rewrite E, Ex. reflexivity.
Qed.
Lemma unlock_none : forall v w ref l id force, lenv_ok v -> table_ok v (l_locks w) -> l_fails w = [] -> locks_of v w ref l -> id <> [] -> ~ In id (map lk_id l) ->
  lfs_delete v id (Some (Some (mkUnlock force ref))) w = (w, Ok (RFail 500 (bs "Delete operation failed!"))).
Proof.
  intros v w ref l id force Hv Ht Hf Hl Hn Hi.
  assert (E : lfs_delete_lock v ref id force w = (w, Err EGeneral)).
  { unfold lfs_delete_lock. destruct (find_lock_any v ref w) as (w1 & _ & _ & Q). destruct (Q Hf) as [_ E1]. rewrite (lbind_ok _ _ _ _ _ _ _ E1).
    destruct (row_of v w ref _ Hv Ht Hl) as [[-> F]|(k & N1 & F & _ & Hk & N2 & [N3 N3'] & N4)]; rewrite F; [reflexivity|].
    assert (D : row_locks v (js_enc v l) = Ok l).
    { unfold row_locks. destruct (js_back v l Hv N3) as [J1 J2]. rewrite J2. destruct (js_enc v l); [contradiction|reflexivity]. }
    rewrite D. unfold llift. unfold lbind at 1. rewrite (scan_none id force l empty_lock Hi (oks_nonempty _ N3)). reflexivity. }
  unfold lfs_delete. destruct id as [|c id]; [contradiction|]. unfold llift. unfold lbind at 1. cbn [unwrap_opt ul_ref ul_force]. unfold ltry, lbind.
  rewrite E. reflexivity.
Qed.

Lemma number_value : forall id, lock_number id -> parse_i64 id = Some (Z.of_N (dec_value 0 id)).
Proof.
  intros id [L D]. assert (Dg : Forall is_digit id) by (eapply Forall_impl; [|exact D]; unfold is_digit; cbn; intros; lia).
  pose proof (dec_value_bound id 0 Dg) as B. assert (Ln : nlen id = 8) by (unfold nlen; rewrite L; reflexivity). rewrite Ln in B. change ((0 + 1) * 10 ^ 8) with 100000000 in B.
  assert (P : parse_digits 0 id = Some (dec_value 0 id)) by (apply parse_digits_ok; [exact Dg|change U64 with 18446744073709551616; lia]).
  destruct id as [|c r]; [discriminate L|]. inversion Dg as [|? ? Dc _]; subst. unfold is_digit in Dc.
  assert (E : parse_i64 (c :: r) = match parse_digits 0 (c :: r) with Some n => if n <=? 9223372036854775807 then Some (Z.of_N n) else None | None => None end).
  { unfold parse_i64, parse_usize. destruct (N.eq_dec c 45); [lia|]. destruct (N.eq_dec c 43); [lia|].
    destruct c as [|p]; [reflexivity|]. do 6 (try (destruct p as [p|p|]; try reflexivity)); lia. }
  rewrite E, P. destruct (N.leb_spec (dec_value 0 (c :: r)) 9223372036854775807); [reflexivity|lia].
Qed.

(** *** Statements that succeed leave more that succeed *)
Definition quiet {A} (m : L A) : Prop := forall w, l_fails w = [] -> l_fails (fst (m w)) = [].
Lemma quiet_lift : forall A (r : res A), quiet (llift r).
Proof. intros A r w H. exact H. Qed.
Lemma quiet_ret : forall A (a : A), quiet (lret a).
Proof. intros A a w H. exact H. Qed.
Lemma quiet_bind : forall A B (m : L A) (k : A -> L B), quiet m -> (forall a, quiet (k a)) -> quiet (lbind m k).
Proof.
  intros A B m k Hm Hk w H. specialize (Hm w H). unfold lbind. destruct (m w) as [w1 [a|x| |]]; try exact Hm. apply (Hk a w1 Hm).
Qed.
Lemma quiet_try : forall A (m : L A), quiet m -> quiet (ltry m).
Proof. intros A m Hm w H. specialize (Hm w H). unfold ltry. destruct (m w) as [w1 [a|x| |]]; exact Hm. Qed.
Lemma quiet_unwrap : forall A (m : L A), quiet m -> quiet (lunwrap m).
Proof. intros A m Hm w H. rewrite lunwrap_fst. exact (Hm w H). Qed.
Lemma quiet_attempt : quiet lattempt.
Proof. intros w H. unfold lattempt. rewrite H. exact H. Qed.
Lemma quiet_read : forall A (f : lfs -> res A), quiet (fun w => (w, f w)).
Proof. intros A f w H. exact H. Qed.
Lemma quiet_find_meta : forall v k, quiet (find_meta_row v k).
Proof. intros v k. apply quiet_bind; [apply quiet_attempt|]. intros [|]; [exact (quiet_read _ (fun w => Ok _))|apply quiet_lift]. Qed.
Lemma quiet_exec_meta : forall f, quiet (exec_meta f).
Proof. intros f. apply quiet_bind; [apply quiet_attempt|]. intros [|]; [|apply quiet_ret]. intros w H. destruct (f (l_meta w)); exact H. Qed.
Lemma quiet_put_meta : forall v o z, quiet (lfs_put_meta v o z).
Proof.
  intros v o z. apply quiet_bind; [apply quiet_find_meta|]. intros [x|]; [apply quiet_ret|]. apply quiet_bind; [|intros [|]; apply quiet_lift || apply quiet_ret].
  apply quiet_bind; [apply quiet_exec_meta|]. intros b. apply quiet_ret.
Qed.
Lemma quiet_batch : forall v op l, quiet (batch_objects v op l).
Proof.
  intros v op l. induction l as [|o l IH]; [apply quiet_ret|]. cbn [batch_objects]. apply quiet_bind; [|intros a; apply quiet_bind; [exact IH|intros b; apply quiet_ret]].
  unfold batch_object. apply quiet_bind; [apply quiet_find_meta|]. intros m. apply quiet_bind; [destruct m; [intros w H; exact H|apply quiet_ret]|]. intros here.
  assert (X : quiet (if beq op (bs "upload") then do! x := lunwrap (lfs_put_meta v (ob_oid o) (ob_size o)) in lret (represent v o x (bs "upload"))
    else lret (mkRepr (ob_oid o) (ob_size o) None None (Some (404, bs "Not found"))))).
  { destruct (beq op (bs "upload")); [|apply quiet_ret]. apply quiet_bind; [apply quiet_unwrap, quiet_put_meta|]. intros x. apply quiet_ret. }
  destruct m as [x|]; [destruct here; [apply quiet_ret|exact X]|exact X].
Qed.
Lemma quiet_upload : forall v o b, quiet (lfs_upload_object v o b).
Proof.
  intros v o b. apply quiet_bind; [apply quiet_find_meta|]. intros m. apply quiet_bind; [apply quiet_lift|]. intros x. apply quiet_bind.
  - intros w H. unfold store_put. destruct (store_path v (mt_oid x)); [destruct (_ && _)|..]; exact H.
  - intros [|]; [apply quiet_ret|]. apply quiet_bind; [|intros u; apply quiet_ret]. apply quiet_unwrap. apply quiet_bind; [apply quiet_exec_meta|]. intros [|]; [apply quiet_ret|apply quiet_lift].
Qed.
Lemma quiet_download : forall v o, quiet (lfs_download_object v o).
Proof.
  intros v o. apply quiet_bind; [apply quiet_find_meta|]. intros m. apply quiet_bind; [apply quiet_lift|]. intros x. apply quiet_bind; [|intros d; apply quiet_ret]. intros w H. exact H.
Qed.

(** *** The book *)
Lemma picks_held : forall path l, picks path l = [] <-> ~ held path l.
Proof.
  intros path l. unfold held. destruct path as [|a path]; cbn [picks].
  - split; [intros -> [K|[_ K]]; [destruct K|congruence]|]. intros H. destruct l; [reflexivity|]. destruct H. right. split; [reflexivity|discriminate].
  - rewrite no_path_left. split; [intros H [K|[K _]]; [exact (H K)|discriminate]|intros H K; apply H; left; exact K].
Qed.
Lemma N_Z_to_nat : forall n, Z.to_nat (Z.of_N n) = N.to_nat n.
Proof. intros n. lia. Qed.
Lemma nle_dec : forall a b, {a <= b} + {~ a <= b}.
Proof. intros a b. destruct (a <=? b) eqn:E; [left; apply N.leb_le, E|right; apply N.leb_gt in E; lia]. Qed.
Lemma filtered_path : forall p l, p <> [] -> filtered_locks p p p l = match lock_index p l with Some i => cut_locks p (filter (fun z => beq (lk_path z) p) (skipn i l)) | None => Err EGeneral end.
Proof. intros [|c p] l H; [contradiction|]. unfold filtered_locks. destruct (lock_index (c :: p) l); reflexivity. Qed.
Lemma step_book : forall v x w b w' r, lenv_ok v -> key_insert_ok v = true -> l_fails w = [] -> table_ok v (l_locks w) -> request_ok x -> (forall ref, locks_of v w ref (b ref)) ->
  lfs_handle v x w = (w', r) -> exists b', book_step (l_teq v) (column_room v) b x b' r /\ (forall ref, locks_of v w' ref (b' ref)) /\ l_fails w' = [].
Proof.
  intros v x w b w' r Hv Hk Q Ht [Hx Hr] Hb E.
  assert (Oks : forall ref, Forall lock_ok (b ref)) by (intros ref; exact (locks_ok v w Hv Ht ref (b ref) (Hb ref))).
  assert (Same : forall y : lfs * res lfs_reply, lfs_handle v x w = y -> fst y = w -> book_step (l_teq v) (column_room v) b x b (snd y) ->
    exists b', book_step (l_teq v) (column_room v) b x b' r /\ (forall ref, locks_of v w' ref (b' ref)) /\ l_fails w' = []).
  { intros y Ey F St. rewrite E in Ey. subst y. cbn [fst snd] in *. subst w'. exists b. auto. }
  destruct x as [q|body|body id now|id body|body|oid body|oid]; cbn [lfs_handle] in *.
  - (* listing *)
    set (p := text (q_path q)). set (l := b (text (q_refspec q))).
    assert (Ep : lfs_retrieve_lock v q w = match filtered_locks p p p l with Ok (s, next) => (w, Ok (ROk 200 (BLocks s next))) | Err _ => (w, Ok (RFail 500 (bs "Lookup operation failed!")))
      | Panic => (w, Panic) | OutOfFuel => (w, OutOfFuel) end).
    { unfold lfs_retrieve_lock, ltry. fold p. unfold lbind at 1. rewrite (filtered_quiet v w Hv Ht Q _ p p p l (Hb _)). destruct (filtered_locks p p p l) as [[s n]| | |]; reflexivity. }
    assert (Dp : p = [] \/ p <> []) by (destruct p; [left; reflexivity|right; discriminate]). destruct Dp as [Np|Np].
    + rewrite Np in Ep. apply (Same _ Ep); [reflexivity|]. cbn. apply step_list. exact Np.
    + rewrite (filtered_path p l Np) in Ep. destruct (lock_index p l) as [i|] eqn:Ei.
      * assert (I : In p (map lk_id l)) by (destruct (in_dec (list_eq_dec N.eq_dec) p (map lk_id l)) as [I|I]; [exact I|apply index_none in I; congruence]).
        apply in_map_iff in I as (y & Ey & Iy). pose proof (Oks (text (q_refspec q))) as F. rewrite Forall_forall in F. destruct (F y Iy) as (_ & Ny & _). rewrite Ey in Ny.
        pose proof (number_value p Ny) as V. pose proof (cut_total p _ (filter (fun z => beq (lk_path z) p) (skipn i l)) V Np) as C.
        destruct (Z.ltb_spec (Z.of_N (dec_value 0 p)) 0) as [|_]; [lia|]. destruct C as ([s next] & C). rewrite C in Ep. apply (Same _ Ep); [reflexivity|]. cbn [snd].
        apply (step_list_page (l_teq v) (column_room v) b q (skipn i l) s next); [exact Np|apply index_since, Ei|].
        pose proof (cut_shows p _ _ s next V Np ltac:(lia) C) as Pg. rewrite N_Z_to_nat in Pg. exact Pg.
      * apply (Same _ Ep); [reflexivity|]. cbn [snd]. apply step_list_unknown; [exact Np|]. apply index_none, Ei.
  - (* verifying *)
    destruct body as [[ref cursor limit]|]; [|apply (Same _ eq_refl eq_refl); apply step_not_understood; right; right; reflexivity]. cbn [v_limit] in Hr.
    set (z := match limit with Some z => if Z.eqb z 0 then 100%Z else z | None => 100%Z end). set (l := b ref).
    assert (Ep : lfs_verify_lock v (Some (mkVerify ref cursor limit)) w = match filtered_locks [] (text cursor) (z_text z) l with
      | Ok (s, next) => (w, Ok (ROk 200 (BVerify (filter (fun x => match lk_owner x with None => true | Some _ => false end) s) (filter (fun x => negb (match lk_owner x with None => true | Some _ => false end)) s) next)))
      | Err _ => (w, Ok (RFail 500 (bs "Lookup operation failed!"))) | Panic => (w, Panic) | OutOfFuel => (w, OutOfFuel) end).
    { unfold lfs_verify_lock, llift. unfold lbind at 1. cbn [unwrap_opt v_limit v_ref v_cursor]. cbv zeta.
      replace (if Z.eqb match limit with Some z0 => z0 | None => 0%Z end 0 then 100%Z else match limit with Some z0 => z0 | None => 0%Z end) with z by (subst z; destruct limit; reflexivity).
      unfold ltry. unfold lbind at 1. rewrite (filtered_quiet v w Hv Ht Q ref [] (text cursor) (z_text z) l (Hb _)). destruct (filtered_locks [] (text cursor) (z_text z) l) as [[s n]| | |]; reflexivity. }
    assert (Fz : fits z) by (subst z; destruct limit as [y|]; [specialize (Hr y eq_refl); destruct (Z.eqb_spec y 0); [unfold fits; lia|exact Hr]|unfold fits; lia]).
    pose proof (parse_z_text z Fz) as V. pose proof (z_text_nonempty z) as Np.
    assert (Page : forall l', (forall y, In y l' -> In y l) -> (text cursor = [] /\ l' = l \/ text cursor <> [] /\ since (text cursor) l l') -> (0 <= z)%Z ->
      lfs_verify_lock v (Some (mkVerify ref cursor limit)) w = match cut_locks (z_text z) l' with
      | Ok (s, next) => (w, Ok (ROk 200 (BVerify (filter (fun x => match lk_owner x with None => true | Some _ => false end) s) (filter (fun x => negb (match lk_owner x with None => true | Some _ => false end)) s) next)))
      | Err _ => (w, Ok (RFail 500 (bs "Lookup operation failed!"))) | Panic => (w, Panic) | OutOfFuel => (w, OutOfFuel) end ->
      exists b', book_step (l_teq v) (column_room v) b (EVerify (Some (mkVerify ref cursor limit))) b' r /\ (forall ref, locks_of v w' ref (b' ref)) /\ l_fails w' = []).
    { intros l' Sub Si Hz Ev. pose proof (cut_total (z_text z) z l' V Np) as C. destruct (Z.ltb_spec z 0) as [|_]; [lia|]. destruct C as ([s next] & C). rewrite C in Ev.
      pose proof (cut_shows _ _ _ _ _ V Np Hz C) as Pg.
      assert (Os : Forall lock_ok s).
      { rewrite Forall_forall. intros y Hy. pose proof (Oks ref) as F. rewrite Forall_forall in F. apply F, Sub. inversion Pg; subst; [exact Hy|apply in_or_app; left; exact Hy|apply in_or_app; left; exact Hy]. }
      destruct (all_ours s Os) as [O1 O2]. rewrite O1, O2 in Ev. apply (Same _ Ev); [reflexivity|]. cbn [snd]. eapply step_verify; [reflexivity|exact Hz|exact Si|exact Pg]. }
    destruct (text cursor) as [|c r0] eqn:Ec.
    + cbn [filtered_locks bind] in Ep. destruct (Z_le_dec 0 z) as [Hz|Hz]; [apply (Page l); auto|].
      unfold filtered_locks in Ep. cbn [bind] in Ep. pose proof (cut_total (z_text z) z l V Np) as C. destruct (Z.ltb_spec z 0) as [_|]; [|lia]. rewrite C in Ep. apply (Same _ Ep); [reflexivity|]. cbn [snd].
      subst z. destruct limit as [y|]; [|lia]. destruct (Z.eqb_spec y 0); [lia|]. apply step_verify_negative; [lia|left; exact Ec].
    + unfold filtered_locks in Ep. destruct (lock_index (c :: r0) l) as [i|] eqn:Ei.
      * cbn [bind] in Ep. destruct (Z_le_dec 0 z) as [Hz|Hz].
        -- apply (Page (skipn i l)); [|right; split; [discriminate|apply index_since, Ei]|exact Hz|exact Ep].
           intros y Hy. rewrite <- (firstn_skipn i l). apply in_or_app. right. exact Hy.
        -- pose proof (cut_total (z_text z) z (skipn i l) V Np) as C. destruct (Z.ltb_spec z 0) as [_|]; [|lia]. rewrite C in Ep. apply (Same _ Ep); [reflexivity|]. cbn [snd].
           subst z. destruct limit as [y|]; [|lia]. destruct (Z.eqb_spec y 0); [lia|]. apply step_verify_negative; [lia|right]. rewrite Ec.
           destruct (in_dec (list_eq_dec N.eq_dec) (c :: r0) (map lk_id (b ref))) as [I|I]; [exact I|]. apply index_none in I. unfold l in Ei. congruence.
      * cbn [bind] in Ep. apply (Same _ Ep); [reflexivity|]. cbn [snd]. apply step_verify_unknown; rewrite Ec; [discriminate|]. apply index_none, Ei.
  - (* locking *)
    destruct body as [[path ref]|]; [|apply (Same _ eq_refl eq_refl); apply step_not_understood; left; eauto]. destruct Hx as (Hid & Hn & Hp). cbn [lr_path] in Hp.
    destruct (picks path (b ref)) as [|y ys] eqn:Pk.
    + pose proof (create_free v w ref path (b ref) id now Hv Ht Hid Hp Hn Q (Hb ref) Pk) as C. cbv zeta in C. set (l' := sort_locks (b ref ++ [mkLock id path now None])) in *. destruct C as [C1 C2].
      assert (Wl : with_lock (mkLock id path now None) (b ref) l').
      { split; [|apply sort_locks_sorted]. unfold l'. eapply Permutation_trans; [apply sort_locks_perm|]. apply Permutation_sym, Permutation_cons_append. }
      assert (Rm : column_room v ref l' <-> chars (js_enc v l') <= 10000 /\ (b ref = [] -> chars ref <= 200)).
      { unfold column_room. assert (Ll : length l' = S (length (b ref))) by (destruct Wl as [P _]; apply Permutation_length in P; exact P). rewrite Ll.
        split; intros [A B]; (split; [exact A|]); intros H; apply B; [rewrite H; reflexivity|destruct (b ref); [reflexivity|discriminate]]. }
      assert (Dc : {chars (js_enc v l') <= 10000 /\ (b ref = [] -> chars ref <= 200)} + {~ (chars (js_enc v l') <= 10000 /\ (b ref = [] -> chars ref <= 200))}).
      { destruct (nle_dec (chars (js_enc v l')) 10000) as [A|A]; [|right; tauto].
        destruct (nle_dec (chars ref) 200) as [B|B]; [left; auto|]. destruct (b ref); [right; intros [_ K]; exact (B (K eq_refl))|left; split; [exact A|discriminate]]. }
      destruct Dc as [D|D].
      * destruct (C1 D) as (w1 & E1 & L1 & El). rewrite E in E1. assert (Er : r = Ok (ROk 201 (BLock (mkLock id path now None)))) by (injection E1 as _ ->; destruct (b ref); [rewrite Hk|]; reflexivity).
        assert (Ew : w' = w1) by congruence. subst w1 r. clear E1. exists (fun r => if l_teq v r ref then l' else b r).
        split; [apply (step_lock _ _ b path ref id now l'); [apply picks_held, Pk|exact Wl|apply Rm, D|intros r; reflexivity]|].
        split; [apply (written_locks v w w' ref l' b Hv Hb L1 El)|]. destruct El as (_ & _ & _ & ->). exact Q.
      * apply (Same _ (C2 D)); [reflexivity|]. cbn [snd]. apply (step_full _ _ b path ref id now l'); [apply picks_held, Pk|exact Wl|]. intros K. apply D, Rm, K.
    + destruct (create_check_any v (mkLockReq path ref) w (b ref) Hv Ht (Hb ref)) as (w1 & _ & _ & K). destruct (K Q) as [_ E1]. cbn [lr_path] in E1. rewrite Pk in E1.
      assert (Ec : lfs_create_lock v (Some (mkLockReq path ref)) id now w = (w, Ok (RFail 409 (bs "Lock already exist")))).
      { unfold lfs_create_lock, llift. unfold lbind at 1. cbn [unwrap_opt]. rewrite (lbind_ok _ _ _ _ _ _ _ E1). reflexivity. }
      apply (Same _ Ec); [reflexivity|]. cbn [snd]. apply step_held.
      destruct (in_dec (list_eq_dec N.eq_dec) path (map lk_path (b ref))) as [I|I]; [left; exact I|]. right.
      destruct path as [|a path]; [split; [reflexivity|]; cbn [picks] in Pk; rewrite Pk; discriminate|]. apply no_path_left in I. cbn [picks] in Pk. congruence.
  - (* unlocking *)
    destruct id as [|c id]; [apply (Same _ eq_refl eq_refl); apply step_unlock_bad; left; reflexivity|].
    destruct body as [[[force ref]|]|].
    + destruct (in_dec (list_eq_dec N.eq_dec) (c :: id) (map lk_id (b ref))) as [I|I].
      * destruct (last_numbered (c :: id) (b ref) empty_lock I) as (l1 & y & l2 & El & Ey & Ny & Ly).
        destruct (unlock_any v w ref (b ref) (c :: id) force empty_lock Hv Ht Q (Hb ref) ltac:(discriminate) I) as (w1 & E1 & L1 & Ee). rewrite Ly in E1. rewrite E in E1. injection E1 as -> ->.
        eexists. split; [eapply (step_unlock _ _ b (c :: id) force ref l1 y l2); [discriminate|exact El|exact Ey|exact Ny|intros r; reflexivity]|].
        split; [apply (written_locks v w w1 ref _ b Hv Hb L1 Ee)|]. destruct Ee as (_ & _ & _ & ->). exact Q.
      * apply (Same _ (unlock_none v w ref (b ref) (c :: id) force Hv Ht Q (Hb ref) ltac:(discriminate) I)); [reflexivity|]. cbn [snd]. apply step_unlock_unknown; [discriminate|exact I].
    + apply (Same _ eq_refl eq_refl). apply step_not_understood. right. left. exists (c :: id). split; [discriminate|reflexivity].
    + apply (Same _ eq_refl eq_refl). apply step_unlock_bad. right. reflexivity.
  - exists b. split; [apply step_content; exact Logic.I|].
    assert (Kp : keeps (lfs_process_batch v body)) by (apply keeps_bind; [apply keeps_ret|]; intros [op objs]; apply keeps_bind; [apply keeps_batch|intros; apply keeps_ret]).
    assert (Kq : quiet (lfs_process_batch v body)) by (apply quiet_bind; [apply quiet_lift|]; intros [op objs]; apply quiet_bind; [apply quiet_batch|intros; apply quiet_ret]).
    specialize (Kp w). specialize (Kq w Q). rewrite E in Kp, Kq. cbn [fst] in *. split; [|exact Kq]. intros ref. unfold locks_of. rewrite Kp. apply Hb.
  - exists b. split; [apply step_content; exact Logic.I|]. pose proof (keeps_upload v oid body w) as Kp. pose proof (quiet_upload v oid body w Q) as Kq. rewrite E in Kp, Kq. cbn [fst] in *.
    split; [|exact Kq]. intros ref. unfold locks_of. rewrite Kp. apply Hb.
  - exists b. split; [apply step_content; exact Logic.I|]. pose proof (keeps_download v oid w) as Kp. pose proof (quiet_download v oid w Q) as Kq. rewrite E in Kp, Kq. cbn [fst] in *.
    split; [|exact Kq]. intros ref. unfold locks_of. rewrite Kp. apply Hb.
Qed.

(** From a server without locks: every history of requests is one of the book, and the
    tables hold what the book says. *)
Lemma run_book : forall v events w b w' rs, lenv_ok v -> key_insert_ok v = true -> l_fails w = [] -> table_ok v (l_locks w) -> Forall request_ok events -> (forall ref, locks_of v w ref (b ref)) ->
  lfs_run v events w = (w', rs) -> exists b', book_run (l_teq v) (column_room v) b events b' rs /\ (forall ref, locks_of v w' ref (b' ref)) /\ l_fails w' = [] /\ table_ok v (l_locks w').
Proof.
  intros v events. induction events as [|x events IH]; intros w b w' rs Hv Hk Q Ht Hr Hb E; cbn [lfs_run] in E.
  - injection E as <- <-. exists b. split; [apply run_end|auto].
  - inversion Hr as [|? ? Hx Hl]; subst. destruct (lfs_handle v x w) as [w1 a] eqn:E1. destruct (lfs_run v events w1) as [w2 rs2] eqn:E2. injection E as <- <-.
    destruct (step_book v x w b w1 a Hv Hk Q Ht Hx Hb E1) as (b1 & S1 & B1 & Q1).
    assert (T1 : table_ok v (l_locks w1)) by (pose proof (handle_table v x w Hv (proj1 Hx) Ht) as T; rewrite E1 in T; exact T).
    destruct (IH w1 b1 w2 rs2 Hv Hk Q1 T1 Hl B1 E2) as (b2 & S2 & B2). exists b2. split; [exact (run_more _ _ _ _ _ _ _ _ _ S1 S2)|exact B2].
Qed.
Lemma empty_table : forall v t, t = [] -> table_ok v t.
Proof. intros v t ->. split; constructor. Qed.
Theorem C124_book : forall v events w w' rs, lenv_ok v -> key_insert_ok v = true -> l_fails w = [] -> l_locks w = [] -> Forall request_ok events ->
  lfs_run v events w = (w', rs) -> exists b, book_run (l_teq v) (column_room v) (fun _ => []) events b rs /\ forall ref, locks_of v w' ref (b ref).
Proof.
  intros v events w w' rs Hv Hk Q L Hr E.
  destruct (run_book v events w (fun _ => []) w' rs Hv Hk Q (empty_table v _ L) Hr) as (b & R & B & _); [intros ref; unfold locks_of; rewrite L; reflexivity|exact E|]. exists b. auto.
Qed.

(** A lock is held until its number is unlocked: until then the path is refused to others
    and the lock is listed. *)
Definition releases (v : lenv) (ref : bytes) (x : lock) (y : lfs_event) : Prop :=
  match y with EUnlock id (Some (Some rq)) => id = lk_id x /\ l_teq v (ul_ref rq) ref = true | _ => False end.
Lemma book_keeps : forall v room b y b' r ref x, lenv_ok v -> book_step (l_teq v) room b y b' r -> ~ releases v ref x y -> In x (b ref) -> (forall r1 r2, l_teq v r1 r2 = true -> b r1 = b r2) -> In x (b' ref).
Proof.
  intros v room b y b' r ref x Hv St Nr Hx Cb. destruct St as [path rf id now l' b' z Nh [P _] _ W| | |id force rf l1 z l2 b' Ni El Ei Nl W| | | | | | | | | | ]; try exact Hx.
  - rewrite W. destruct (l_teq v ref rf) eqn:E; [|exact Hx]. apply (Permutation_in _ (Permutation_sym P)). right. rewrite <- (Cb _ _ E). exact Hx.
  - rewrite W. destruct (l_teq v ref rf) eqn:E; [|exact Hx]. apply filter_In. rewrite <- (Cb _ _ E). split; [exact Hx|]. apply negb_true_iff, beq_neq. intros K. apply Nr. cbn [releases ul_ref]. split; [symmetry; exact K|]. destruct Hv as (_ & Sy & _). rewrite Sy. exact E.
Qed.
Lemma book_compatible : forall v w b, lenv_ok v -> table_ok v (l_locks w) -> (forall ref, locks_of v w ref (b ref)) -> forall r1 r2, l_teq v r1 r2 = true -> b r1 = b r2.
Proof. intros v w b Hv Ht Hb r1 r2 E. apply (locks_unique v w r1 _ _ Hv Ht (Hb r1)). exact (locks_alike v w r1 r2 _ Hv E (Hb r2)). Qed.
Lemma run_keeps : forall v events w b w' rs ref x, lenv_ok v -> key_insert_ok v = true -> l_fails w = [] -> table_ok v (l_locks w) -> Forall request_ok events -> (forall ref, locks_of v w ref (b ref)) ->
  Forall (fun y => ~ releases v ref x y) events -> In x (b ref) -> lfs_run v events w = (w', rs) -> exists l, locks_of v w' ref l /\ In x l.
Proof.
  intros v events. induction events as [|y events IH]; intros w b w' rs ref x Hv Hk Q Ht Hr Hb Nr Hx E; cbn [lfs_run] in E.
  - injection E as <- <-. exists (b ref). auto.
  - inversion Hr as [|? ? Hy Hl]; subst. inversion Nr as [|? ? Ny Nl]; subst. destruct (lfs_handle v y w) as [w1 a] eqn:E1. destruct (lfs_run v events w1) as [w2 rs2] eqn:E2. injection E as <- <-.
    destruct (step_book v y w b w1 a Hv Hk Q Ht Hy Hb E1) as (b1 & S1 & B1 & Q1).
    assert (T1 : table_ok v (l_locks w1)) by (pose proof (handle_table v y w Hv (proj1 Hy) Ht) as T; rewrite E1 in T; exact T).
    apply (IH w1 b1 w2 rs2 ref x Hv Hk Q1 T1 Hl B1 Nl); [|exact E2]. apply (book_keeps v _ b y b1 a ref x Hv S1 Ny Hx). exact (book_compatible v w b Hv Ht Hb).
Qed.
Lemma book_there : forall v w, lenv_ok v -> table_ok v (l_locks w) -> exists b : book, forall r, locks_of v w r (b r).
Proof.
  intros v w Hv Ht.
  exists (fun r => match find (fun y => l_teq v (fst y) r) (l_locks w) with Some (_, d) => match js_dec v d with Some l => l | None => [] end | None => [] end).
  intros r. destruct (locks_exist v w r Hv Ht) as (l & Hl). pose proof Hl as Hl'. apply locks_of_find in Hl'; [|exact Hv|exact Ht].
  destruct (find (fun y => l_teq v (fst y) r) (l_locks w)) as [[k d]|]; [rewrite Hl'; exact Hl|subst l; exact Hl].
Qed.
Theorem C124_held : forall v w path ref id now w1 x events w' rs, lenv_ok v -> key_insert_ok v = true -> reachable v w -> l_fails w = [] ->
  request_ok (ELock (Some (mkLockReq path ref)) id now) -> lfs_create_lock v (Some (mkLockReq path ref)) id now w = (w1, Ok (ROk 201 (BLock x))) ->
  Forall request_ok events -> Forall (fun y => ~ releases v ref x y) events -> lfs_run v events w1 = (w', rs) ->
  (path <> [] -> forall id2 now2, exists msg, lfs_create_lock v (Some (mkLockReq path ref)) id2 now2 w' = (w', Ok (RFail 409 msg))) /\
  (forall q, text (q_refspec q) = ref -> text (q_path q) = [] -> exists l, lfs_retrieve_lock v q w' = (w', Ok (ROk 200 (BLocks l []))) /\ In x l).
Proof.
  intros v w path ref id now w1 x events w' rs Hv Hk Hr Q Hok E Hev Nr Er. pose proof (reachable_table v w Hv Hr) as Ht.
  destruct (book_there v w Hv Ht) as (b & Hb). destruct (step_book v (ELock (Some (mkLockReq path ref)) id now) w b w1 _ Hv Hk Q Ht Hok Hb E) as (b1 & S1 & B1 & Q1).
  assert (T1 : table_ok v (l_locks w1)) by (pose proof (create_table v (Some (mkLockReq path ref)) id now w Hv (proj1 Hok) Ht) as T; rewrite E in T; exact T).
  assert (Hx : lk_path x = path /\ In x (b1 ref)).
  { inversion S1 as [p r i n l' b2 z Nh [P _] _ W E1 E2 E3|p r i n l' msg| | | | | | | | | | | |y r K E1 E2 E3]; subst; [|destruct K]. subst z. split; [reflexivity|]. rewrite W, (proj1 Hv ref).
    apply (Permutation_in _ (Permutation_sym P)). left. reflexivity. }
  destruct Hx as [Ep Hx]. destruct (run_keeps v events w1 b1 w' rs ref x Hv Hk Q1 T1 Hev B1 Nr Hx Er) as (l & Hl & Ix).
  destruct (run_book v events w1 b1 w' rs Hv Hk Q1 T1 Hev B1 Er) as (b2 & _ & B2 & Q2 & T2). split.
  - intros Np id2 now2. eexists. destruct (create_check_any v (mkLockReq path ref) w' l Hv T2 Hl) as (w2 & _ & _ & K). destruct (K Q2) as [_ E1]. clear K.
    unfold lfs_create_lock, llift. unfold lbind at 1. cbn [unwrap_opt]. rewrite (lbind_ok _ _ _ _ _ _ _ E1). cbn [lr_path].
    destruct path as [|a path]; [contradiction|]. cbn [picks]. destruct (filter _ l) as [|y ys] eqn:P; [|reflexivity].
    exfalso. apply (proj1 (no_path_left _ _) P). rewrite <- Ep. apply in_map, Ix.
  - intros q Eq Ep2. exists l. split; [|exact Ix]. unfold lfs_retrieve_lock. rewrite Ep2, Eq. unfold ltry, lbind. rewrite (filtered_quiet v w' Hv T2 Q2 ref [] [] [] l Hl). reflexivity.
Qed.

Definition ex_new : lfs_event := ELock (Some (mkLockReq (bs "d.png") ex_main)) (bs "00000007") (bs "2023-05-23T10:00:07+00:00").
Definition ex_later : list lfs_event :=
  [EUnlock (bs "00000001") (Some (Some (mkUnlock false ex_main))); ELock (Some (mkLockReq (bs "d.png") ex_main)) (bs "00000008") (bs "2023-05-23T10:00:08+00:00");
   EUnlock (bs "00000007") (Some (Some (mkUnlock false (bs "refs/heads/dev"))))].
Lemma requests_check : forall l, forallb event_fine l = true -> forallb (fun x => match x with EVerify _ => false | _ => true end) l = true -> Forall request_ok l.
Proof.
  intros l H1 H2. apply Forall_forall. intros x Hx. split; [exact (proj1 (Forall_forall _ _) (events_check l H1) x Hx)|].
  rewrite forallb_forall in H2. specialize (H2 x Hx). destruct x; try exact Logic.I. discriminate.
Qed.
Example C124_ex : lenv_ok ex_lenv /\ key_insert_ok ex_lenv = true /\ l_fails ex_start = [] /\ l_locks ex_start = [] /\ Forall request_ok ex_events /\
  reachable ex_lenv ex_lfs /\ l_fails ex_lfs = [] /\ request_ok ex_new /\
  (exists w1 x, lfs_handle ex_lenv ex_new ex_lfs = (w1, Ok (ROk 201 (BLock x))) /\ lk_path x = bs "d.png" /\ Forall request_ok ex_later /\ Forall (fun y => ~ releases ex_lenv ex_main x y) ex_later /\
     map (fun r => match r with Ok (ROk s _) | Ok (RFail s _) => s | _ => 0 end) (snd (lfs_run ex_lenv ex_later w1)) = [200; 409; 500]).
Proof.
  split; [exact ex_lenv_ok|]. split; [reflexivity|]. split; [reflexivity|]. split; [reflexivity|]. split; [apply requests_check; reflexivity|].
  split; [exact ex_reachable|]. split; [vm_compute; reflexivity|]. split; [exact (Forall_inv (requests_check [ex_new] eq_refl eq_refl))|].
  eexists. exists (ex_lock (bs "00000007") (bs "d.png") (bs "2023-05-23T10:00:07+00:00")). split; [vm_compute; reflexivity|]. split; [reflexivity|]. split; [apply requests_check; reflexivity|].
  split; [|vm_compute; reflexivity]. repeat constructor; intros K; vm_compute in K; destruct K; discriminate.
Qed.

(** C63, C64: listing git-lfs locks. *)

From Coq Require Import ZArith Permutation Sorting.Sorted.
From Verif Require Import Base BaseLemmas Digest ModelObject ModelPkt ModelStorage ModelLfs SpecObject SpecIdx SpecLfs ProofLfs PropLocks.
Open Scope N_scope.

(** ** C63: the pages of lfs_verify_lock *)

(** Asking for pages of [k] locks until no cursor comes back. *)
Inductive pages (v : lenv) (w : lfs) (ref : bytes) (k : option Z) : option bytes -> list lock -> Prop :=
| pages_last : forall cursor ours theirs, lfs_verify_lock v (Some (mkVerify ref cursor k)) w = (w, Ok (ROk 200 (BVerify ours theirs []))) ->
    pages v w ref k cursor (ours ++ theirs)
| pages_more : forall cursor ours theirs next rest, lfs_verify_lock v (Some (mkVerify ref cursor k)) w = (w, Ok (ROk 200 (BVerify ours theirs next))) ->
    next <> [] -> pages v w ref k (Some next) rest -> pages v w ref k cursor ((ours ++ theirs) ++ rest).

Lemma parse_z_text : forall z, (-9223372036854775808 <= z <= 9223372036854775807)%Z -> parse_i64 (z_text z) = Some z.
Proof.
  intros z Hz. unfold z_text. destruct (Z.ltb_spec z 0) as [Hn|Hp].
  - cbn [parse_i64]. pose proof (to_decimal_digits (Z.to_N (- z))) as D. pose proof (to_decimal_value (Z.to_N (- z))) as V.
    assert (K : parse_digits 0 (to_decimal (Z.to_N (- z))) = Some (Z.to_N (- z))).
    { rewrite parse_digits_ok; [rewrite V; reflexivity|exact D|]. rewrite V. change U64 with 18446744073709551616. lia. }
    destruct (to_decimal (Z.to_N (- z))) as [|c r] eqn:E; [pose proof (to_decimal_nonempty (Z.to_N (- z))); contradiction|].
    rewrite K. replace (Z.to_N (- z) <=? 9223372036854775808) with true by (symmetry; apply N.leb_le; lia). f_equal. lia.
  - assert (K : parse_usize (to_decimal (Z.to_N z)) = Some (Z.to_N z)) by (apply parse_to_decimal; change U64 with 18446744073709551616; lia).
    pose proof (to_decimal_digits (Z.to_N z)) as D. destruct (to_decimal (Z.to_N z)) as [|c r] eqn:E; [discriminate|].
    assert (C : c <> 45) by (inversion D as [|? ? Dc _]; subst; unfold is_digit in Dc; lia).
    unfold parse_i64. transitivity (match parse_usize (c :: r) with Some n => if n <=? 9223372036854775807 then Some (Z.of_N n) else None | None => None end).
    { destruct c as [|p]; [reflexivity|]. do 7 (try (destruct p as [p|p|]; try reflexivity; try congruence)). }
    rewrite K. replace (Z.to_N z <=? 9223372036854775807) with true by (symmetry; apply N.leb_le; lia). f_equal. lia.
Qed.
Lemma z_text_nonempty : forall z, z_text z <> [].
Proof. intros z. unfold z_text. destruct (z <? 0)%Z; [discriminate|apply to_decimal_nonempty]. Qed.

Lemma cut_page : forall l k, (1 <= k <= 9223372036854775807)%Z -> cut_locks (z_text k) l =
  Ok (firstn (Z.to_nat k) l, match skipn (Z.to_nat k) l with x :: _ :: _ => lk_id x | _ => [] end).
Proof.
  intros l k Hk. unfold cut_locks. destruct (z_text k) as [|c r] eqn:E; [pose proof (z_text_nonempty k); contradiction|]. rewrite <- E, parse_z_text by lia.
  cbn [unwrap_opt bind]. destruct (Z.ltb_spec (Z.min k (Z.of_nat (length l))) 0) as [H|_]; [lia|].
  assert (Fn : firstn (Z.to_nat (Z.min k (Z.of_nat (length l)))) l = firstn (Z.to_nat k) l).
  { destruct (Z.min_spec k (Z.of_nat (length l))) as [[H1 ->]|[H1 ->]]; [reflexivity|]. rewrite !firstn_all2 by lia. reflexivity. }
  rewrite Fn. destruct (Z.ltb_spec (Z.min k (Z.of_nat (length l)) + 1) (Z.of_nat (length l))) as [H|H].
  - replace (Z.min k (Z.of_nat (length l))) with k by lia.
    pose proof (skipn_length (Z.to_nat k) l) as Ls. assert (Hs : firstn (Z.to_nat k) l ++ skipn (Z.to_nat k) l = l) by apply firstn_skipn.
    destruct (skipn (Z.to_nat k) l) as [|x [|y s]]; cbn [length] in Ls; [lia|lia|].
    rewrite <- Hs. rewrite nth_error_app2 by (rewrite firstn_length; lia). rewrite firstn_length. replace (_ - _)%nat with 0%nat by lia. cbn [nth_error unwrap_opt bind].
    rewrite Hs. reflexivity.
  - pose proof (skipn_length (Z.to_nat k) l) as Ls. destruct (skipn (Z.to_nat k) l) as [|x [|y s]]; cbn [length] in Ls; [reflexivity|reflexivity|lia].
Qed.
Lemma all_ours : forall l, Forall lock_ok l ->
  filter (fun x => match lk_owner x with None => true | Some _ => false end) l = l /\
  filter (fun x => negb (match lk_owner x with None => true | Some _ => false end)) l = [].
Proof.
  intros l H. induction H as [|x l [Hx _] _ [I1 I2]]; [auto|]. cbn [filter]. rewrite Hx. cbn [negb]. rewrite I1, I2. auto.
Qed.
Lemma lock_index_app : forall c l1 x l2, lk_id x = c -> ~ In c (map lk_id l1) -> lock_index c (l1 ++ x :: l2) = Some (length l1).
Proof.
  intros c l1 x l2 E. induction l1 as [|y l1 IH]; intros H; cbn [app lock_index].
  - rewrite (proj2 (beq_eq _ _) E). reflexivity.
  - cbn [map In] in H. rewrite (proj2 (beq_neq _ _)) by tauto. rewrite IH by tauto. reflexivity.
Qed.
(** One page, from the start or from the cursor of a lock. *)
Lemma one_page : forall v w ref l1 l2 cursor k, lenv_ok v -> table_ok v (l_locks w) -> l_fails w = [] -> locks_of v w ref (l1 ++ l2) -> NoDup (map lk_id (l1 ++ l2)) ->
  (1 <= k <= 9223372036854775807)%Z -> (match cursor with None => l1 = [] | Some c => exists x r, l2 = x :: r /\ lk_id x = c end) ->
  lfs_verify_lock v (Some (mkVerify ref cursor (Some k))) w =
    (w, Ok (ROk 200 (BVerify (firstn (Z.to_nat k) l2) [] (match skipn (Z.to_nat k) l2 with x :: _ :: _ => lk_id x | _ => [] end)))).
Proof.
  intros v w ref l1 l2 cursor k Hv Ht Hf Hl Hd Hk Hc. unfold lfs_verify_lock, llift. unfold lbind at 1. cbn [unwrap_opt v_limit v_ref v_cursor].
  destruct (Z.eqb_spec k 0) as [|_]; [lia|].
  destruct (filtered_any v ref [] (text cursor) (z_text k) w _ Hv Ht Hl) as (w' & _ & _ & Q). destruct (Q Hf) as [_ E]. clear Q w'.
  assert (Ok1 : Forall lock_ok (l1 ++ l2)).
  { destruct (row_of v w ref _ Hv Ht Hl) as [[-> _]|(k0 & N1 & F & Hi & Hk0 & N2 & [N3 N3'] & N4)]; [constructor|exact N3]. }
  assert (Fl : filtered_locks [] (text cursor) (z_text k) (l1 ++ l2) = cut_locks (z_text k) l2).
  { unfold filtered_locks. destruct cursor as [c|]; cbn [text].
    - destruct Hc as (x & r & -> & Ec). assert (Nc : c <> []).
      { rewrite Forall_forall in Ok1. assert (Hx : lock_ok x) by (apply Ok1, in_or_app; right; left; reflexivity). destruct Hx as [_ [Hx _]].
        pose proof (number_nonempty _ Hx) as P. rewrite Ec in P. destruct c; discriminate || discriminate. }
      destruct c as [|c0 c]; [contradiction|]. rewrite lock_index_app with (x := x) (l2 := r); [|exact Ec|].
      + cbn [bind]. rewrite skipn_app, skipn_all, Nat.sub_diag. reflexivity.
      + rewrite map_app in Hd. cbn [map] in Hd. apply NoDup_remove_2 in Hd. rewrite Ec in Hd. intros H. apply Hd, in_or_app. left. exact H.
    - subst l1. reflexivity. }
  rewrite Fl, cut_page in E by lia. unfold ltry, lbind. rewrite E.
  assert (Ok2 : Forall lock_ok (firstn (Z.to_nat k) l2)).
  { apply Forall_app in Ok1 as [_ Ok2]. rewrite <- (firstn_skipn (Z.to_nat k) l2) in Ok2. apply Forall_app in Ok2. apply Ok2. }
  destruct (all_ours _ Ok2) as [O1 O2]. rewrite O1, O2. reflexivity.
Qed.

Definition omits_last (k : Z) (l : list lock) : bool :=
  let n := Z.of_nat (length l) in (k <? n)%Z && ((n - 1) mod k =? 0)%Z.
Lemma removelast_skip : forall A n (l : list A), (2 <= length (skipn n l))%nat -> removelast l = firstn n l ++ removelast (skipn n l).
Proof.
  intros A n l H. rewrite <- (firstn_skipn n l) at 1. rewrite removelast_app; [reflexivity|]. destruct (skipn n l); [cbn in H; lia|discriminate].
Qed.
Lemma omits_step : forall k l, (1 <= k)%Z -> (2 <= length (skipn (Z.to_nat k) l))%nat -> omits_last k (skipn (Z.to_nat k) l) = omits_last k l.
Proof.
  intros k l Hk. rewrite skipn_length. intros H. unfold omits_last. rewrite skipn_length.
  rewrite Nat2Z.inj_sub by lia. rewrite Z2Nat.id by lia. set (n := Z.of_nat (length l)).
  replace (n - k - 1)%Z with (n - 1 + (-1) * k)%Z by lia. rewrite Z.mod_add by lia.
  destruct (Z.ltb_spec k n) as [H1|H1]; [|lia]. destruct (Z.ltb_spec k (n - k)) as [H2|H2]; [reflexivity|]. cbn [andb]. symmetry. apply Z.eqb_neq.
  replace (n - 1)%Z with ((n - 1 - k) + 1 * k)%Z by lia. rewrite Z.mod_add by lia. rewrite Z.mod_small by lia. lia.
Qed.

Theorem C63_listing : forall v w ref l k found, lenv_ok v -> reachable v w -> l_fails w = [] -> locks_of v w ref l -> NoDup (map lk_id l) ->
  (1 <= k <= 9223372036854775807)%Z ->
  pages v w ref (Some k) None found <-> found = if omits_last k l then removelast l else l.
Proof.
  intros v w ref l k found Hv Hr Hf Hl Hd Hk. pose proof (reachable_table v w Hv Hr) as Ht.
  assert (Ok1 : Forall lock_ok l).
  { destruct (row_of v w ref _ Hv Ht Hl) as [[-> _]|(k0 & N1 & F & Hi & Hk0 & N2 & [N3 N3'] & N4)]; [constructor|exact N3]. }
  assert (G : forall n l1 l2 cursor found, length l2 = n -> l1 ++ l2 = l -> (match cursor with None => l1 = [] | Some c => exists x r, l2 = x :: r /\ lk_id x = c end) ->
    pages v w ref (Some k) cursor found <-> found = if omits_last k l2 then removelast l2 else l2).
  { intros n. induction n as [n IH] using lt_wf_ind. intros l1 l2 cursor fd Hn Ha Hc.
    assert (P : lfs_verify_lock v (Some (mkVerify ref cursor (Some k))) w =
      (w, Ok (ROk 200 (BVerify (firstn (Z.to_nat k) l2) [] (match skipn (Z.to_nat k) l2 with x :: _ :: _ => lk_id x | _ => [] end))))).
    { apply (one_page v w ref l1 l2); try assumption; rewrite Ha; assumption. }
    assert (Fs : firstn (Z.to_nat k) l2 ++ skipn (Z.to_nat k) l2 = l2) by apply firstn_skipn. pose proof (skipn_length (Z.to_nat k) l2) as Ls.
    assert (Om : (length (skipn (Z.to_nat k) l2) < 2)%nat -> (if omits_last k l2 then removelast l2 else l2) = firstn (Z.to_nat k) l2).
    { intros Hs. unfold omits_last. destruct (Z.ltb_spec k (Z.of_nat (length l2))) as [H1|H1]; cbn [andb].
      - assert (En : Z.of_nat (length l2) = (k + 1)%Z) by lia. rewrite En. replace (k + 1 - 1)%Z with k by lia. rewrite Z.mod_same by lia. cbn [Z.eqb].
        destruct (skipn (Z.to_nat k) l2) as [|x [|y s]]; cbn [length] in *; [lia| |lia]. rewrite <- Fs at 1. rewrite removelast_last. reflexivity.
      - rewrite firstn_all2 by lia. reflexivity. }
    destruct (skipn (Z.to_nat k) l2) as [|x [|y s]] eqn:Sk.
    - rewrite Om by (cbn; lia). split.
      + intros Pg. inversion Pg as [? ours theirs E|? ours theirs next rest E Nn]; subst; rewrite P in E; injection E as <- <-; [apply app_nil_r|congruence].
      + intros ->. rewrite <- (app_nil_r (firstn _ _)). apply pages_last, P.
    - rewrite Om by (cbn; lia). split.
      + intros Pg. inversion Pg as [? ours theirs E|? ours theirs next rest E Nn]; subst; rewrite P in E; injection E as <- <-; [apply app_nil_r|congruence].
      + intros ->. rewrite <- (app_nil_r (firstn _ _)). apply pages_last, P.
    - assert (Nx : lk_id x <> []).
      { rewrite Forall_forall in Ok1. assert (Hx : lock_ok x) by (apply Ok1; rewrite <- Ha, <- Fs; apply in_or_app; right; apply in_or_app; right; left; reflexivity).
        destruct Hx as [_ [Hx _]]. pose proof (number_nonempty _ Hx) as Q. destruct (lk_id x); [discriminate|discriminate]. }
      cbn [length] in Ls.
      assert (I : forall rest, pages v w ref (Some k) (Some (lk_id x)) rest <-> rest = if omits_last k (x :: y :: s) then removelast (x :: y :: s) else x :: y :: s).
      { intros rest. apply (IH (length (x :: y :: s))) with (l1 := l1 ++ firstn (Z.to_nat k) l2).
        - cbn [length]. lia.
        - reflexivity.
        - rewrite <- app_assoc, Fs. exact Ha.
        - exists x, (y :: s). auto. }
      assert (Os : omits_last k l2 = omits_last k (x :: y :: s)).
      { rewrite <- Sk. symmetry. apply omits_step; [lia|]. rewrite Sk. cbn [length]. lia. }
      assert (Rm : (if omits_last k l2 then removelast l2 else l2) = firstn (Z.to_nat k) l2 ++ (if omits_last k (x :: y :: s) then removelast (x :: y :: s) else x :: y :: s)).
      { rewrite Os. destruct (omits_last k (x :: y :: s)); [|symmetry; exact Fs]. rewrite <- Sk. apply removelast_skip. rewrite Sk. cbn [length]. lia. }
      rewrite Rm. split.
      + intros Pg. inversion Pg as [? ours theirs E|? ours theirs next rest E Nn Pr]; subst; rewrite P in E; injection E as <- <- En; [congruence|].
        subst next. apply I in Pr. rewrite app_nil_r, Pr. reflexivity.
      + intros ->. rewrite <- (app_nil_r (firstn _ _)). eapply pages_more; [exact P|exact Nx|]. apply I. reflexivity. }
  apply (G (length l) [] l None found eq_refl eq_refl eq_refl).
Qed.
(** Without a limit, or with limit 0, pages have 100 locks. *)
Theorem C63_default : forall v w ref cursor, lfs_verify_lock v (Some (mkVerify ref cursor None)) w = lfs_verify_lock v (Some (mkVerify ref cursor (Some 100%Z))) w /\
  lfs_verify_lock v (Some (mkVerify ref cursor (Some 0%Z))) w = lfs_verify_lock v (Some (mkVerify ref cursor (Some 100%Z))) w.
Proof. intros. split; reflexivity. Qed.
(** A negative limit makes the handler panic. *)
Theorem C63_negative : forall v w ref l k, lenv_ok v -> reachable v w -> l_fails w = [] -> locks_of v w ref l -> (-9223372036854775808 <= k < 0)%Z ->
  lfs_verify_lock v (Some (mkVerify ref None (Some k))) w = (w, Panic).
Proof.
  intros v w ref l k Hv Hr Hf Hl Hk. pose proof (reachable_table v w Hv Hr) as Ht. unfold lfs_verify_lock, llift. unfold lbind at 1. cbn [unwrap_opt v_limit v_ref v_cursor text].
  destruct (Z.eqb_spec k 0) as [|_]; [lia|]. destruct (filtered_any v ref [] [] (z_text k) w l Hv Ht Hl) as (w' & _ & _ & Q). destruct (Q Hf) as [_ E]. clear Q w'.
  assert (P : filtered_locks [] [] (z_text k) l = Panic).
  { unfold filtered_locks, cut_locks. cbn [bind]. destruct (z_text k) as [|c r] eqn:Ez; [pose proof (z_text_nonempty k); contradiction|]. rewrite <- Ez, parse_z_text by lia.
    cbn [unwrap_opt bind]. destruct (Z.ltb_spec (Z.min k (Z.of_nat (length l))) 0); [reflexivity|lia]. }
  unfold ltry, lbind. rewrite E, P. reflexivity.
Qed.
(** Two locks, pages of one: the last lock is never listed. *)
Theorem C63_refuted : exists v w ref l k x, lenv_ok v /\ reachable v w /\ l_fails w = [] /\ locks_of v w ref l /\ NoDup (map lk_id l) /\ (1 <= k)%Z /\ In x l /\
  forall found, pages v w ref (Some k) None found -> ~ In x found.
Proof.
  exists ex_lenv, ex_lfs, ex_main, ex_main_locks, 1%Z, (ex_lock (bs "00000001") (bs "a.png") (bs "2023-05-23T10:00:02+00:00")).
  assert (Nd : NoDup (map lk_id ex_main_locks)) by (repeat constructor; cbn; intros H; intuition discriminate).
  split; [exact ex_lenv_ok|]. split; [exact ex_reachable|]. split; [vm_compute; reflexivity|]. split; [exact ex_locks_of|].
  split; [exact Nd|]. split; [discriminate|]. split; [right; left; reflexivity|].
  intros found H. apply (C63_listing _ _ _ _ _ _ ex_lenv_ok ex_reachable eq_refl ex_locks_of Nd) in H; [|split; discriminate].
  subst found. intros [H|[]]. discriminate.
Qed.
Example C63_ex : pages ex_lenv ex_lfs ex_main (Some 2%Z) None ex_main_locks /\ omits_last 2 ex_main_locks = false /\ omits_last 1 ex_main_locks = true.
Proof.
  split; [|split; reflexivity]. apply (C63_listing _ _ _ ex_main_locks _ _ ex_lenv_ok ex_reachable eq_refl ex_locks_of).
  - repeat constructor; cbn; intros H; intuition discriminate.
  - split; discriminate.
  - reflexivity.
Qed.

(** ** C64: the query of lfs_retrieve_lock *)

(** No path: all locks, whatever cursor, limit and id. *)
Theorem C64_no_path : forall v w q l, lenv_ok v -> reachable v w -> l_fails w = [] -> locks_of v w (text (q_refspec q)) l -> q_path q = None \/ q_path q = Some [] ->
  lfs_retrieve_lock v q w = (w, Ok (ROk 200 (BLocks l []))).
Proof.
  intros v w q l Hv Hr Hf Hl Hp. pose proof (reachable_table v w Hv Hr) as Ht. unfold lfs_retrieve_lock.
  replace (text (q_path q)) with (@nil N) by (destruct Hp as [->| ->]; reflexivity).
  destruct (filtered_any v (text (q_refspec q)) [] [] [] w l Hv Ht Hl) as (w' & _ & _ & Q). destruct (Q Hf) as [_ E]. unfold ltry, lbind. rewrite E. reflexivity.
Qed.
(** A path: the request fails unless a lock has the path as its id. *)
Theorem C64_path : forall v w q l p, lenv_ok v -> reachable v w -> l_fails w = [] -> locks_of v w (text (q_refspec q)) l -> q_path q = Some p -> p <> [] ->
  ~ In p (map lk_id l) -> lfs_retrieve_lock v q w = (w, Ok (RFail 500 (bs "Lookup operation failed!"))).
Proof.
  intros v w q l p Hv Hr Hf Hl Hp Hn Hi. pose proof (reachable_table v w Hv Hr) as Ht. unfold lfs_retrieve_lock. rewrite Hp. cbn [text].
  destruct (filtered_any v (text (q_refspec q)) p p p w l Hv Ht Hl) as (w' & _ & _ & Q). destruct (Q Hf) as [_ E].
  assert (F : filtered_locks p p p l = Err EGeneral).
  { unfold filtered_locks. assert (Ix : lock_index p l = None).
    { clear -Hi. induction l as [|x l IH]; [reflexivity|]. cbn [lock_index]. cbn [map In] in Hi. rewrite (proj2 (beq_neq _ _)) by tauto. rewrite IH by tauto. reflexivity. }
    destruct p; [contradiction|]. rewrite Ix. reflexivity. }
  unfold ltry, lbind. rewrite E, F. reflexivity.
Qed.
(** The path of a lock finds nothing, and cursor and limit do nothing. *)
Theorem C64_refuted : exists v w l x, lenv_ok v /\ reachable v w /\ l_fails w = [] /\ locks_of v w ex_main l /\ In x l /\
  lfs_retrieve_lock v (mkQuery (Some (lk_path x)) None None None (Some ex_main)) w = (w, Ok (RFail 500 (bs "Lookup operation failed!"))) /\
  (2 <= length l)%nat /\
  lfs_retrieve_lock v (mkQuery None None (Some (lk_id x)) (Some (bs "1")) (Some ex_main)) w = (w, Ok (ROk 200 (BLocks l []))).
Proof.
  exists ex_lenv, ex_lfs, ex_main_locks, (ex_lock (bs "00000001") (bs "a.png") (bs "2023-05-23T10:00:02+00:00")).
  split; [exact ex_lenv_ok|]. split; [exact ex_reachable|]. split; [vm_compute; reflexivity|]. split; [exact ex_locks_of|]. split; [right; left; reflexivity|].
  split; [|split; [apply le_n|]].
  - apply (C64_path ex_lenv ex_lfs (mkQuery (Some (bs "a.png")) None None None (Some ex_main)) ex_main_locks (bs "a.png") ex_lenv_ok ex_reachable eq_refl ex_locks_of eq_refl); [discriminate|].
    intros H. cbn in H. intuition discriminate.
  - apply (C64_no_path ex_lenv ex_lfs (mkQuery None None (Some (bs "00000001")) (Some (bs "1")) (Some ex_main)) ex_main_locks ex_lenv_ok ex_reachable eq_refl ex_locks_of). left. reflexivity.
Qed.

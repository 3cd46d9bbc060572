(** Lemmas for the gateway. *)

From Coq Require Import ZArith.
From Verif Require Import Base BaseLemmas ModelUtils ModelPkt ModelLfs ModelGateway SpecLfs SpecGateway ProofReq.
Open Scope N_scope.

(** ** Searching *)

Lemma tails_in : forall l t, In t (tails l) <-> exists a, l = a ++ t.
Proof.
  induction l as [|x l IH]; intros t; cbn [tails In].
  - split; [intros [<-|[]]; exists []; reflexivity|]. intros (a & E). destruct a; [left; exact E|discriminate].
  - rewrite IH. split.
    + intros [<-|(a & ->)]; [exists []; reflexivity|exists (x :: a); reflexivity].
    + intros ([|y a] & E); [left; exact E|]. right. exists a. injection E as _ E. exact E.
Qed.
Lemma ends_in_iff : forall s l, ends_in s l = true <-> ends s l.
Proof.
  intros s l. unfold ends_in. rewrite existsb_exists. split.
  - intros (t & Ht & E). apply beq_eq in E. subst t. apply tails_in in Ht. exact Ht.
  - intros H. exists s. split; [apply tails_in, H|apply beq_eq; reflexivity].
Qed.
Lemma ends_in_not : forall s l, ends_in s l = false <-> ~ ends s l.
Proof. intros s l. rewrite <- ends_in_iff. destruct (ends_in s l); split; congruence. Qed.
Lemma starts_with_iff : forall p l, starts_with p l = true <-> exists r, l = p ++ r.
Proof.
  induction p as [|x p IH]; intros l; cbn [starts_with]; [split; [exists l; reflexivity|reflexivity]|]. destruct l as [|y l]; [split; [discriminate|intros (r & E); discriminate]|].
  rewrite andb_true_iff, N.eqb_eq, IH. split.
  - intros [-> (r & ->)]. exists r. reflexivity.
  - intros (r & E). injection E as -> ->. split; [reflexivity|exists r; reflexivity].
Qed.
Lemma object_path_iff : forall l, object_path l = true <-> exists oid, names_object l oid.
Proof.
  intros l. unfold object_path. rewrite existsb_exists. split.
  - intros (t & Ht & E). apply andb_true_iff in E as [E1 E2]. apply starts_with_iff in E1 as (w & ->). apply tails_in in Ht.
    exists w. change (skipn 9 (bs "/objects/" ++ w)) with w in E2. destruct w as [|c w]; [discriminate|]. split; [split; [discriminate|exact E2]|exact Ht].
  - intros (w & [Hn Hw] & H). exists (bs "/objects/" ++ w). split; [apply tails_in, H|]. apply andb_true_iff. split; [apply starts_with_iff; exists w; reflexivity|].
    change (skipn 9 (bs "/objects/" ++ w)) with w. destruct w; [contradiction|exact Hw].
Qed.
Lemma object_path_not : forall l, object_path l = false <-> forall oid, ~ names_object l oid.
Proof.
  intros l. split.
  - intros H oid K. assert (object_path l = true) by (apply object_path_iff; exists oid; exact K). congruence.
  - intros H. destruct (object_path l) eqn:E; [|reflexivity]. apply object_path_iff in E as (oid & K). contradiction (H oid K).
Qed.

(** ** Tokens *)

Lemma split_app : forall c a b, split_on c (a ++ c :: b) = split_on c a ++ split_on c b.
Proof.
  intros c a b. induction a as [|x a IH]; cbn [app split_on]; [rewrite N.eqb_refl; reflexivity|]. destruct (x =? c); [rewrite IH; reflexivity|].
  rewrite IH. pose proof (split_on_ne c a). destruct (split_on c a); [contradiction|reflexivity].
Qed.
Lemma split_word : forall c w, ~ In c w -> split_on c w = [w].
Proof.
  intros c w. induction w as [|x w IH]; intros H; [reflexivity|]. cbn [split_on]. cbn [In] in H. destruct (N.eqb_spec x c) as [->|_]; [tauto|]. rewrite IH by tauto. reflexivity.
Qed.
Lemma word_no_slash : forall w, id_word w -> ~ In 47 w.
Proof. intros w [_ H] I. rewrite forallb_forall in H. specialize (H 47 I). discriminate. Qed.
Lemma token_last : forall a w, ~ In 47 w -> token 1 (a ++ 47 :: w) = Ok w.
Proof.
  intros a w H. unfold token. rewrite split_app, (split_word 47 w H), app_length. cbn [length].
  destruct (Nat.ltb_spec (length (split_on 47 a) + 1) 1) as [K|K]; [lia|]. replace (length (split_on 47 a) + 1 - 1)%nat with (length (split_on 47 a)) by lia.
  rewrite nth_error_app2 by lia. rewrite Nat.sub_diag. reflexivity.
Qed.
Lemma token_second : forall a id w, ~ In 47 w -> ~ In 47 id -> token 2 (a ++ 47 :: id ++ 47 :: w) = Ok id.
Proof.
  intros a id w H K. unfold token. rewrite split_app, split_app, (split_word 47 w H), (split_word 47 id K), app_length. cbn [length app].
  destruct (Nat.ltb_spec (length (split_on 47 a) + 2) 2) as [L|L]; [lia|]. replace (length (split_on 47 a) + 2 - 2)%nat with (length (split_on 47 a)) by lia.
  rewrite nth_error_app2 by lia. rewrite Nat.sub_diag. reflexivity.
Qed.
(** The last slash. *)
Lemma last_slash : forall (c : N) l, In c l -> exists a b, l = a ++ c :: b /\ ~ In c b.
Proof.
  intros c l. induction l as [|x l IH]; intros H; [destruct H|]. destruct (in_dec N.eq_dec c l) as [I|I].
  - destruct (IH I) as (a & b & -> & Hb). exists (x :: a), b. auto.
  - destruct H as [->|H]; [|contradiction]. exists [], l. auto.
Qed.
Lemma last_unique : forall (c : N) a b a' b', a ++ c :: b = a' ++ c :: b' -> ~ In c b -> ~ In c b' -> a = a' /\ b = b'.
Proof.
  intros c a. induction a as [|x a IH]; intros b [|y a'] b' E H H'; cbn [app] in E; injection E.
  - auto.
  - intros Eb ->. subst b. contradiction H. apply in_or_app. right. left. reflexivity.
  - intros Eb ->. subst b'. contradiction H'. apply in_or_app. right. left. reflexivity.
  - intros E' ->. destruct (IH _ _ _ E' H H') as [-> ->]. auto.
Qed.
(** Two suffixes that end in different words do not go together. *)
Lemma ends_word : forall s w l, ends (s ++ 47 :: w) l -> ~ In 47 w -> exists a, l = a ++ 47 :: w.
Proof. intros s w l (a & ->) _. exists (a ++ s). rewrite <- app_assoc. reflexivity. Qed.
Lemma ends_clash : forall s1 w1 s2 w2 l, ends (s1 ++ 47 :: w1) l -> ends (s2 ++ 47 :: w2) l -> ~ In 47 w1 -> ~ In 47 w2 -> w1 = w2.
Proof.
  intros s1 w1 s2 w2 l H1 H2 N1 N2. apply ends_word in H1 as (a & E1); [|exact N1]. apply ends_word in H2 as (b & E2); [|exact N2].
  rewrite E1 in E2. destruct (last_unique _ _ _ _ _ E2 N1 N2) as [_ E]. exact E.
Qed.

(** ** Replacing *)

Lemma replaced_skip : forall pat a b, replaced pat (length a) (a ++ b) = replaced pat 0 b.
Proof. intros pat a b. induction a as [|x a IH]; [reflexivity|]. exact IH. Qed.
Lemma replaced_at : forall pat b, pat <> [] -> replaced pat 0 (pat ++ b) = replaced pat 0 b.
Proof.
  intros pat b H. destruct pat as [|x p]; [contradiction|]. cbn [app replaced]. rewrite (proj2 (starts_with_iff (x :: p) (x :: p ++ b))) by (exists b; reflexivity).
  cbn [length]. replace (S (length p) - 1)%nat with (length p) by lia. apply replaced_skip.
Qed.
Lemma replaced_before : forall pat a r, (forall a1 a2, a = a1 ++ a2 -> a2 <> [] -> starts_with pat (a2 ++ r) = false) ->
  replaced pat 0 (a ++ r) = a ++ replaced pat 0 r.
Proof.
  intros pat a r. induction a as [|x a IH]; intros H; [reflexivity|]. cbn [app replaced]. pose proof (H [] (x :: a) eq_refl ltac:(discriminate)) as H0. cbn [app] in H0. rewrite H0.
  f_equal. apply IH. intros a1 a2 E N. apply (H (x :: a1)); [rewrite E; reflexivity|exact N].
Qed.
Lemma replaced_none : forall pat l, pat <> [] -> ~ occurs pat l -> replaced pat 0 l = l.
Proof.
  intros pat l Hp H. rewrite <- (app_nil_r l) at 1. rewrite replaced_before; [apply app_nil_r|]. intros a1 a2 E _. rewrite app_nil_r.
  destruct (starts_with pat a2) eqn:S; [|reflexivity]. apply starts_with_iff in S as (r & ->). contradiction H. exists a1, r. exact E.
Qed.
(** A pattern whose last byte is nowhere else in it does not overlap itself. *)
Lemma no_overlap : forall p z a2 b, ~ In z p -> a2 <> [] -> ~ occurs (p ++ [z]) a2 -> starts_with (p ++ [z]) (a2 ++ (p ++ [z]) ++ b) = false.
Proof.
  intros p z a2 b Hz Ha Ho. destruct (starts_with (p ++ [z]) (a2 ++ (p ++ [z]) ++ b)) eqn:S; [|reflexivity]. exfalso.
  apply starts_with_iff in S as (r & E). destruct (Nat.le_gt_cases (length (p ++ [z])) (length a2)) as [L|L].
  - apply Ho. exists [], (skipn (length (p ++ [z])) a2). cbn [app].
    assert (F : firstn (length (p ++ [z])) (a2 ++ (p ++ [z]) ++ b) = firstn (length (p ++ [z])) ((p ++ [z]) ++ r)) by (rewrite E; reflexivity).
    rewrite firstn_app in F. replace (length (p ++ [z]) - length a2)%nat with 0%nat in F by lia. rewrite firstn_O, app_nil_r in F.
    rewrite firstn_app, firstn_all, Nat.sub_diag, firstn_O, app_nil_r in F. rewrite <- F at 1. symmetry. apply firstn_skipn.
  - rewrite app_length in L. cbn [length] in L. assert (I : nth_error ((p ++ [z]) ++ r) (length p) = Some z).
    { rewrite <- app_assoc. rewrite nth_error_app2, Nat.sub_diag by lia. reflexivity. }
    rewrite <- E in I. destruct a2 as [|x a2]; [contradiction|]. cbn [length] in L. rewrite nth_error_app2 in I by (cbn [length]; lia).
    rewrite <- app_assoc in I. rewrite nth_error_app1 in I by (cbn [length]; lia). apply nth_error_In in I. contradiction.
Qed.
Lemma replaced_tail : forall p z a b, ~ In z p -> ~ occurs (p ++ [z]) a -> replaced (p ++ [z]) 0 (a ++ (p ++ [z]) ++ b) = a ++ replaced (p ++ [z]) 0 b.
Proof.
  intros p z a b Hz Ho. rewrite replaced_before.
  - f_equal. apply replaced_at. destruct p; discriminate.
  - intros a1 a2 E N. apply no_overlap; [exact Hz|exact N|]. intros (x & y & Ea). apply Ho. exists (a1 ++ x), y. rewrite E, Ea, !app_assoc. reflexivity.
Qed.
(** An occurrence does not reach over a byte that is not in the pattern. *)
Lemma occurs_stop : forall pat c a b, ~ In c pat -> occurs pat (a ++ c :: b) -> occurs pat a \/ occurs pat b.
Proof.
  intros pat c a b H (x & y & E). revert a E. induction x as [|d x IH]; intros a E; cbn [app] in E.
  - revert a E. clear -H. intros a E. left. exists []. cbn [app]. revert a E. induction pat as [|e pat IH]; intros a E.
    + exists a. reflexivity.
    + cbn [app] in E. destruct a as [|f a]; cbn [app] in E; injection E; intros E' E2; [subst e; contradiction H; left; reflexivity|].
      cbn [In] in H. destruct (IH ltac:(tauto) a E') as (r & ->). exists r. subst f. reflexivity.
  - destruct a as [|f a]; cbn [app] in E; injection E; intros E' E2.
    + right. exists x, y. exact E'.
    + destruct (IH a E') as [(u & w & ->)|K]; [left; exists (f :: u), w; reflexivity|right; exact K].
Qed.

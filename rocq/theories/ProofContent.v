(** Lemmas for the LFS content store. *)

From Coq Require Import ZArith Permutation.
From Verif Require Import Base BaseLemmas Digest ModelObject ModelPkt ModelStorage ModelLfs SpecObject SpecIdx SpecLfs ProofObject ProofIdx ProofReq ProofLfs ProofGateway.
Open Scope N_scope.

(** ** Paths *)

(** Names that [walk] leaves alone. *)
Definition plain_name (c : bytes) : Prop := c <> [] /\ c <> [46] /\ c <> [46; 46] /\ ~ In 47 c.
Definition id_parts (w : bytes) : list bytes := if nlen w <? 5 then [w] else [firstn 2 w; firstn 2 (skipn 2 w); skipn 4 w].

Lemma word_plain : forall w, id_word w -> plain_name w.
Proof.
  intros w H. pose proof (word_no_slash w H) as N. destruct H as [H1 H2]. repeat split; try assumption; intros ->; discriminate.
Qed.
Lemma sub_word : forall n w, id_word w -> skipn n w <> [] -> id_word (skipn n w).
Proof.
  intros n w [_ H] Hn. split; [exact Hn|]. rewrite <- (firstn_skipn n w) in H. rewrite forallb_app in H. apply andb_true_iff in H. apply H.
Qed.
Lemma pre_word : forall n w, id_word w -> firstn n w <> [] -> id_word (firstn n w).
Proof.
  intros n w [_ H] Hn. split; [exact Hn|]. rewrite <- (firstn_skipn n w) in H. rewrite forallb_app in H. apply andb_true_iff in H. apply H.
Qed.
Lemma long_parts : forall w : bytes, 5 <= nlen w -> firstn 2 w <> [] /\ firstn 2 (skipn 2 w) <> [] /\ skipn 2 w <> [] /\ skipn 4 w <> [].
Proof.
  intros w H. unfold nlen in H. do 5 (destruct w as [|? w]; [cbn in H; lia|]). repeat split; discriminate.
Qed.
Lemma id_parts_plain : forall w, id_word w -> Forall plain_name (id_parts w).
Proof.
  intros w H. unfold id_parts. destruct (N.ltb_spec (nlen w) 5) as [_|L].
  - constructor; [apply word_plain, H|constructor].
  - destruct (long_parts w L) as (A & B & C & D). constructor; [exact (word_plain _ (pre_word 2 w H A))|]. constructor; [exact (word_plain _ (pre_word 2 _ (sub_word 2 w H C) B))|].
    constructor; [exact (word_plain _ (sub_word 4 w H D))|constructor].
Qed.
Lemma id_parts_concat : forall w, concat (id_parts w) = w.
Proof.
  intros w. unfold id_parts. destruct (nlen w <? 5); cbn [concat]; [apply app_nil_r|]. rewrite app_nil_r.
  replace (skipn 4 w) with (skipn 2 (skipn 2 w)) by (destruct w as [|a [|b w]]; reflexivity). rewrite firstn_skipn. apply firstn_skipn.
Qed.
Lemma join_plain : forall a c, a <> [] -> last a 0 <> 47 -> plain_name c -> path_join a c = a ++ 47 :: c.
Proof.
  intros a c Ha Hl (Hc & _ & _ & Hs). unfold path_join.
  assert (R : exists x r, rev a = x :: r /\ x <> 47).
  { destruct (exists_last Ha) as (b & x & ->). rewrite last_last in Hl. rewrite rev_app_distr. exists x, (rev b). split; [reflexivity|exact Hl]. }
  destruct R as (x & r & -> & Hx). destruct c as [|c0 c]; [contradiction|].
  assert (H0 : c0 <> 47) by (intros ->; apply Hs; left; reflexivity).
  transitivity (match x :: r with [] | 47 :: _ => a ++ c0 :: c | _ => a ++ [47] ++ c0 :: c end).
  - destruct c0 as [|p]; [reflexivity|]. do 7 (try (destruct p as [p|p|]; try reflexivity; try congruence)).
  - destruct x as [|p]; [reflexivity|]. do 7 (try (destruct p as [p|p|]; try reflexivity; try congruence)).
Qed.
Lemma plain_last : forall c, plain_name c -> last c 0 <> 47.
Proof.
  intros c (Hc & _ & _ & Hs) E. destruct (exists_last Hc) as (b & x & ->). rewrite last_last in E. apply Hs. apply in_or_app. right. left. exact E.
Qed.
Lemma last_cons_app : forall (a : bytes) c, c <> [] -> last (a ++ 47 :: c) 0 = last c 0.
Proof.
  intros a c Hc. destruct (exists_last Hc) as (b & x & ->). rewrite last_last. replace (a ++ 47 :: b ++ [x]) with ((a ++ 47 :: b) ++ [x]) by (rewrite <- app_assoc; reflexivity). apply last_last.
Qed.
Lemma id_char_cont : forall b, id_char b = true -> cont b = false.
Proof.
  intros b H. unfold id_char in H. unfold cont. apply orb_true_iff in H as [H|H]; apply andb_true_iff in H as [H1 H2]; apply N.leb_le in H1, H2;
    destruct (N.leb_spec 128 b); try reflexivity; lia.
Qed.
Lemma id_boundary : forall w i, id_word w -> char_boundary w i = true.
Proof.
  intros w i [_ H]. unfold char_boundary. destruct (nth_error w i) as [b|] eqn:E; [|reflexivity]. rewrite id_char_cont; [reflexivity|].
  rewrite forallb_forall in H. apply H. eapply nth_error_In, E.
Qed.
(** The key of an id, its parts joined. *)
Lemma key_parts : forall w, id_word w -> exists k, transform_key w = Ok k /\ split_on 47 k = id_parts w /\ k <> [] /\ hd 0 k <> 47.
Proof.
  intros w H. unfold transform_key, id_parts. destruct (N.ltb_spec (nlen w) 5) as [_|L].
  - exists w. split; [reflexivity|]. pose proof (word_no_slash w H) as Ns. split; [apply split_word, Ns|]. split; [apply H|].
    destruct w as [|c w]; [destruct H; contradiction|]. cbn [hd]. intros ->. apply Ns. left. reflexivity.
  - rewrite !id_boundary by exact H. cbn [andb]. destruct (long_parts w L) as (A & B & C & D).
    assert (P1 : plain_name (firstn 2 w)) by exact (word_plain _ (pre_word 2 w H A)).
    assert (P2 : plain_name (firstn 2 (skipn 2 w))) by exact (word_plain _ (pre_word 2 _ (sub_word 2 w H C) B)).
    assert (P3 : plain_name (skipn 4 w)) by exact (word_plain _ (sub_word 4 w H D)).
    rewrite (join_plain _ _ A (plain_last _ P1) P2).
    rewrite join_plain; [|destruct (firstn 2 w); discriminate|rewrite last_cons_app by apply P2; apply plain_last, P2|exact P3].
    eexists. split; [reflexivity|]. split.
    + rewrite split_app, split_app, !split_word; [reflexivity|apply P3|apply P2|apply P1].
    + split; [destruct (firstn 2 w); discriminate|]. destruct w as [|c w]; [contradiction|]. cbn [firstn app hd]. pose proof (word_no_slash _ H) as Ns.
      intros ->. apply Ns. left. reflexivity.
Qed.
Lemma walk_app : forall a b acc, walk (a ++ b) acc = walk b (rev (walk a acc)).
Proof.
  induction a as [|c a IH]; intros b acc; cbn [app walk]; [rewrite rev_involutive; reflexivity|].
  destruct (beq c [] || beq c [46]); [apply IH|]. destruct (beq c [46; 46]); apply IH.
Qed.
Lemma walk_plain : forall l acc, Forall plain_name l -> walk l acc = rev acc ++ l.
Proof.
  intros l acc H. revert acc. induction H as [|c l (H1 & H2 & H3 & _) _ IH]; intros acc; cbn [walk]; [symmetry; apply app_nil_r|].
  rewrite (proj2 (beq_neq c [])), (proj2 (beq_neq c [46])), (proj2 (beq_neq c [46; 46])) by assumption. cbn [orb]. rewrite IH. cbn [rev]. rewrite <- app_assoc. reflexivity.
Qed.
Definition abs (p : bytes) : bytes := match p with 47 :: _ => [47] | _ => [46] end.
Lemma resolve_walk : forall p, resolve p = abs p :: walk (split_on 47 p) [].
Proof. intros p. unfold resolve, abs. destruct p as [|[|x] p]; try reflexivity. do 7 (try (destruct x as [x|x|]; try reflexivity)). Qed.
Lemma abs_app : forall a b, a <> [] -> abs (a ++ b) = abs a.
Proof. intros [|x a] b H; [contradiction|]. reflexivity. Qed.
Lemma abs_rel : forall k, hd 0 k <> 47 -> abs k = [46].
Proof. intros k H. destruct k as [|[|x] k]; try reflexivity. cbn [hd] in H. do 7 (try (destruct x as [x|x|]; try reflexivity)). contradiction H; reflexivity. Qed.
Lemma join_rel : forall a k, hd 0 k <> 47 -> k <> [] -> path_join a k = a ++ k /\ (a = [] \/ exists b, a = b ++ [47]) \/ path_join a k = a ++ 47 :: k /\ a <> [].
Proof.
  intros a k Hk Hn.
  assert (E : path_join a k = match rev a with [] | 47 :: _ => a ++ k | _ => a ++ [47] ++ k end).
  { unfold path_join. destruct k as [|[|p] k]; [contradiction|reflexivity|]. cbn [hd] in Hk. do 7 (try (destruct p as [p|p|]; try reflexivity; try congruence)). }
  rewrite E. destruct (rev a) as [|x r] eqn:R.
  - left. split; [reflexivity|]. left. apply (f_equal (@rev N)) in R. rewrite rev_involutive in R. exact R.
  - assert (Ea : a = rev r ++ [x]) by (apply (f_equal (@rev N)) in R; rewrite rev_involutive in R; exact R).
    destruct (N.eqb_spec x 47) as [->|Hx]; [left; split; [reflexivity|right; exists (rev r); exact Ea]|].
    right. split; [|intros ->; discriminate]. destruct x as [|p]; [reflexivity|]. do 7 (try (destruct p as [p|p|]; try reflexivity; try congruence)).
Qed.
Lemma store_path_word : forall v w, id_word w -> store_path v w = Ok (resolve (l_base v) ++ id_parts w).
Proof.
  intros v w H. unfold store_path. destruct (key_parts w H) as (k & -> & Sk & Nk & Hk). cbn [bind]. f_equal.
  pose proof (id_parts_plain w H) as Pl. rewrite !resolve_walk. destruct (join_rel (l_base v) k Hk Nk) as [[-> [Eb|(b & Eb)]]|[-> Nb]].
  - rewrite Eb. cbn [app]. rewrite (abs_rel k Hk), Sk, walk_plain by exact Pl. reflexivity.
  - rewrite abs_app by (rewrite Eb; destruct b; discriminate). cbn [app]. f_equal. rewrite Eb. rewrite <- app_assoc. cbn [app]. rewrite split_app, Sk.
    rewrite walk_app, walk_plain, rev_involutive by exact Pl. f_equal. replace (b ++ [47]) with (b ++ 47 :: []) by reflexivity. rewrite split_app, walk_app. cbn [split_on walk beq orb].
    rewrite rev_involutive. reflexivity.
  - rewrite abs_app by exact Nb. cbn [app]. f_equal. rewrite split_app, Sk, walk_app, walk_plain, rev_involutive by exact Pl. reflexivity.
Qed.

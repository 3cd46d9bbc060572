(** Paths. *)

From Verif Require Import Base BaseLemmas ModelPkt ModelStorage ModelLfs SpecPath ProofReq ProofGateway.
Open Scope N_scope.

Lemma parts_split : forall p l, path_parts p l <-> split_on 47 p = l.
Proof.
  intros p l. split.
  - induction 1 as [x Hx|x p l Hx _ IH]; [apply split_word, Hx|]. rewrite split_app, (split_word 47 x Hx), IH. reflexivity.
  - revert l. induction p as [|c p IH]; intros l <-; [apply (pa_last []); intros []|]. cbn [split_on]. destruct (N.eqb_spec c 47) as [->|Hc].
    + apply (pa_more []); [intros []|apply IH; reflexivity].
    + specialize (IH _ eq_refl). destruct (split_on 47 p) as [|w ws] eqn:E; [destruct (split_on_ne _ _ E)|].
      inversion IH as [x Hx E1 E2|x q l Hx Hl E1 E2]; subst.
      * apply pa_last. intros [K|K]; [apply Hc; exact K|exact (Hx K)].
      * apply (pa_more (c :: w)); [|exact Hl]. intros [K|K]; [apply Hc; exact K|exact (Hx K)].
Qed.
Lemma normal_part_spec : forall x, normal_part x = true <-> ~ empty_part x.
Proof.
  intros x. unfold normal_part, empty_part. rewrite andb_true_iff, !negb_true_iff, !beq_neq. tauto.
Qed.
Lemma normal_part_false : forall x, normal_part x = false <-> empty_part x.
Proof.
  intros x. unfold normal_part, empty_part. rewrite andb_false_iff, !negb_false_iff, !beq_eq. tauto.
Qed.
Lemma names_filter : forall l n, path_names l n <-> filter normal_part l = n.
Proof.
  intros l n. split.
  - induction 1 as [|x l n Hx _ IH|x l n Hx _ IH]; [reflexivity| |]; cbn [filter].
    + rewrite (proj2 (normal_part_false x) Hx). exact IH.
    + rewrite (proj2 (normal_part_spec x) Hx), IH. reflexivity.
  - revert n. induction l as [|x l IH]; intros n <-; [constructor|]. cbn [filter]. destruct (normal_part x) eqn:E.
    + apply pn_name; [apply normal_part_spec, E|apply IH; reflexivity].
    + apply pn_skip; [apply normal_part_false, E|apply IH; reflexivity].
Qed.

Lemma dot_list : forall (l : list bytes), (exists r, l = [46] :: r) \/ hd [0] l <> [46].
Proof. intros l. destruct l as [|x l]; [right; discriminate|]. destruct (list_eq_dec N.eq_dec x [46]) as [->|H]; [left; eauto|right; exact H]. Qed.
(** The three forms of [components]. *)
Lemma components_root : forall p, components (47 :: p) = [47] :: filter normal_part (split_on 47 p).
Proof. reflexivity. Qed.
Lemma components_dot : forall p r, hd 0 p <> 47 -> split_on 47 p = [46] :: r -> components p = [46] :: filter normal_part r.
Proof. intros p r Hp E. unfold components. rewrite E, (proj2 (N.eqb_neq _ _) Hp). reflexivity. Qed.
Lemma components_rel : forall p, hd 0 p <> 47 -> hd [0] (split_on 47 p) <> [46] -> components p = filter normal_part (split_on 47 p).
Proof.
  intros p Hp Hd. unfold components. rewrite (proj2 (N.eqb_neq _ _) Hp). destruct (split_on 47 p) as [|x l]; [reflexivity|].
  cbn [hd] in *. rewrite (proj2 (beq_neq _ _) Hd). reflexivity.
Qed.
Lemma head_slash : forall p : bytes, (exists q, p = 47 :: q) \/ hd 0 p <> 47.
Proof. intros p. destruct p as [|x p]; [right; discriminate|]. destruct (N.eq_dec x 47) as [->|H]; [left; eauto|right; exact H]. Qed.

Definition root_part (b : bool) : list bytes := if b then [[47]] else [].
Lemma reads_components : forall p b n, path_reads p b n <-> components p = root_part b ++ n /\ (b = true <-> hd 0 p = 47).
Proof.
  intros p b n. split.
  - intros [q l m Hl Hm|q l m Hl Hm|q x l m Hl Hx Hh Hm].
    + apply parts_split in Hl. apply names_filter in Hm. rewrite components_root, Hl, Hm. split; [reflexivity|]. cbn [hd]. tauto.
    + apply names_filter in Hm. assert (Hh : hd 0 q <> 47). { inversion Hl; subst; cbn [hd app]; discriminate. }
      apply parts_split in Hl. rewrite (components_dot _ _ Hh Hl), Hm. split; [reflexivity|]. split; [discriminate|contradiction].
    + apply parts_split in Hl. apply names_filter in Hm. rewrite (components_rel q Hh) by (rewrite Hl; exact Hx). rewrite Hl, Hm. split; [reflexivity|].
      split; [discriminate|contradiction].
  - intros [E Hb]. destruct (head_slash p) as [(q & ->)|Hh].
    + rewrite (proj2 Hb eq_refl) in *. rewrite components_root in E. cbn [root_part app] in E. injection E as <-.
      apply (pr_root q (split_on 47 q)); [apply parts_split; reflexivity|apply names_filter; reflexivity].
    + destruct b; [destruct Hh; apply Hb; reflexivity|]. cbn [root_part app] in E. destruct (split_on 47 p) as [|x l] eqn:Es; [destruct (split_on_ne _ _ Es)|].
      destruct (list_eq_dec N.eq_dec x [46]) as [->|Hx].
      * rewrite (components_dot p l Hh Es) in E. subst n. apply (pr_dot p l); [apply parts_split; exact Es|apply names_filter; reflexivity].
      * rewrite components_rel in E; [|exact Hh|rewrite Es; exact Hx]. rewrite Es in E. apply (pr_rel p x l); [apply parts_split; exact Es|exact Hx|exact Hh|].
        apply names_filter. exact E.
Qed.
Lemma is_prefix_spec : forall a b, is_prefix a b = true <-> exists r, b = a ++ r.
Proof.
  induction a as [|x a IH]; intros b; cbn [is_prefix]; [split; [exists b; reflexivity|reflexivity]|]. destruct b as [|y b]; [split; [discriminate|intros (r & E); discriminate E]|].
  rewrite andb_true_iff, beq_eq, IH. split.
  - intros (-> & r & ->). exists r. reflexivity.
  - intros (r & E). cbn [app] in E. injection E as -> ->. split; [reflexivity|exists r; reflexivity].
Qed.
Lemma reads_exists : forall p, exists b n, path_reads p b n.
Proof.
  intros p. destruct (head_slash p) as [(q & ->)|Hh].
  - exists true, (filter normal_part (split_on 47 q)). apply (pr_root q (split_on 47 q)); [apply parts_split|apply names_filter]; reflexivity.
  - exists false, (components p). apply reads_components. split; [reflexivity|]. split; [discriminate|contradiction].
Qed.
(** A part has no slash, so the root is told from the names. *)
Lemma names_noslash : forall p b n x, path_reads p b n -> In x n -> ~ In 47 x.
Proof.
  assert (A : forall p l, path_parts p l -> forall x, In x l -> ~ In 47 x).
  { induction 1 as [x Hx|x p l Hx _ IH]; intros y Hy; [destruct Hy as [<-|[]]; exact Hx|destruct Hy as [<-|Hy]; [exact Hx|exact (IH _ Hy)]]. }
  assert (B : forall l n, path_names l n -> forall x, In x n -> In x l).
  { induction 1 as [|x l n _ _ IH|x l n _ _ IH]; intros y Hy; [exact Hy|right; exact (IH _ Hy)|destruct Hy as [<-|Hy]; [left; reflexivity|right; exact (IH _ Hy)]]. }
  intros p b n x [q l m Hl Hm|q l m Hl Hm|q y l m Hl Hx Hh Hm] Hi.
  - apply (A _ _ Hl), (B _ _ Hm), Hi.
  - apply (A _ _ Hl). destruct Hi as [<-|Hi]; [left; reflexivity|right; exact (B _ _ Hm _ Hi)].
  - apply (A _ _ Hl), (B _ _ Hm), Hi.
Qed.
Theorem starts_with_within : forall p q, path_starts_with p q = true <-> within p q.
Proof.
  intros p q. unfold path_starts_with. rewrite is_prefix_spec. split.
  - intros (r & E). destruct (reads_exists q) as (b & n & Hq), (reads_exists p) as (b' & n' & Hp).
    pose proof (proj1 (reads_components _ _ _) Hq) as [Cq _]. pose proof (proj1 (reads_components _ _ _) Hp) as [Cp _].
    rewrite Cp, Cq in E. destruct b, b'; cbn [root_part app] in E.
    + injection E as ->. right. exists true, n, r. auto.
    + exfalso. apply (names_noslash p false n' [47] Hp); [rewrite E|]; left; reflexivity.
    + destruct n as [|x n]; cbn [app] in E.
      * left. exact Hq.
      * exfalso. injection E as E _. apply (names_noslash q false (x :: n) x Hq); [left; reflexivity|]. rewrite <- E. left. reflexivity.
    + subst n'. right. exists false, n, r. auto.
  - intros [Hq|(b & n & m & Hq & Hp)]; [apply reads_components in Hq as [-> _]; eexists; reflexivity|]. apply reads_components in Hq as [-> _], Hp as [-> _]. exists m. rewrite app_assoc. reflexivity.
Qed.

(** ** The last name *)

Lemma parts_join : forall p l, path_parts p l -> exists x r, l = x :: r /\ p = x ++ concat (map (cons 47) r).
Proof.
  induction 1 as [x Hx|x p l Hx _ (y & r & -> & ->)]; [exists x, []; rewrite app_nil_r; auto|]. exists x, (y :: r). auto.
Qed.
Lemma join_parts : forall r x, ~ In 47 x -> Forall (fun y => ~ In 47 y) r -> path_parts (x ++ concat (map (cons 47) r)) (x :: r).
Proof.
  induction r as [|y r IH]; intros x Hx F; [rewrite app_nil_r; constructor; exact Hx|]. inversion F as [|? ? F1 F2]; subst. cbn [map concat app].
  apply pa_more; [exact Hx|]. apply IH; assumption.
Qed.
Lemma last_filter : forall (l : list bytes) y n, filter normal_part l = n ++ [y] ->
  exists a b, l = a ++ y :: b /\ Forall empty_part b /\ ~ empty_part y.
Proof.
  induction l as [|x l IH]; intros y n E; [destruct n; discriminate E|]. cbn [filter] in E. destruct (normal_part x) eqn:Ex.
  - destruct n as [|z n]; cbn [app] in E; injection E as -> E.
    + exists [], l. split; [reflexivity|]. split; [|apply normal_part_spec, Ex]. apply Forall_forall. intros z Hz. apply normal_part_false.
      destruct (normal_part z) eqn:Ez; [|reflexivity]. assert (K : In z (filter normal_part l)) by (apply filter_In; auto). rewrite E in K. destruct K.
    + destruct (IH y n E) as (a & b & -> & K). exists (z :: a), b. auto.
  - destruct (IH y n E) as (a & b & -> & K). exists (x :: a), b. auto.
Qed.
Lemma filter_empty : forall b, Forall empty_part b -> filter normal_part b = [].
Proof. induction 1 as [|x b Hx _ IH]; [reflexivity|]. cbn [filter]. rewrite (proj2 (normal_part_false x) Hx). exact IH. Qed.
Lemma join_app : forall a b, concat (map (cons 47) (a ++ b)) = concat (map (cons 47) a) ++ concat (map (cons 47) b).
Proof. intros. rewrite map_app, concat_app. reflexivity. Qed.
Lemma split_noslash : forall p x, In x (split_on 47 p) -> ~ In 47 x.
Proof. intros p x H. assert (P := proj2 (parts_split p _) eq_refl). revert x H. induction P as [y Hy|y q l Hy _ IH]; intros x [<-|H]; auto; destruct H. Qed.
(** The parts of a path, its last name found. *)
Lemma found_last : forall q a name b, path_parts q (a ++ name :: b) -> Forall empty_part b -> ~ empty_part name -> name <> [46; 46] ->
  forall root, root = [] \/ root = [47] -> last_name (root ++ q) name.
Proof.
  intros q a name b P F N1 N2 root Hr.
  assert (Ns : ~ In 47 name) by (apply (split_noslash q); rewrite (proj1 (parts_split _ _) P); apply in_elt).
  destruct (parts_join _ _ P) as (x & r & E & ->). destruct a as [|y a]; cbn [app] in E; injection E as -> <-.
  - exists root, b. split; [reflexivity|]. split; [destruct Hr as [->| ->]; [left; reflexivity|right; exists []; reflexivity]|]. auto.
  - exists (root ++ x ++ concat (map (cons 47) a) ++ [47]), b. split.
    + rewrite join_app. cbn [map concat app]. rewrite <- !app_assoc. cbn [app]. reflexivity.
    + split; [right; exists (root ++ x ++ concat (map (cons 47) a)); rewrite <- !app_assoc; reflexivity|]. auto.
Qed.
Theorem file_name_last : forall p name, file_name p = Some name <-> last_name p name.
Proof.
  intros p name. split.
  - intros E. unfold file_name in E. destruct (rev (components p)) as [|c r] eqn:R; [discriminate E|].
    destruct (beq c [47] || beq c [46] || beq c [46; 46]) eqn:B; [discriminate E|]. injection E as ->.
    apply orb_false_iff in B as [B B3]. apply orb_false_iff in B as [B1 B2]. apply beq_neq in B1, B2, B3.
    assert (Ec : components p = rev r ++ [name]) by (rewrite <- (rev_involutive (components p)), R; reflexivity). clear R.
    assert (K : forall q l root, p = root ++ q -> (root = [] \/ root = [47]) -> split_on 47 q = l -> (exists n, filter normal_part l = n ++ [name]) -> last_name p name).
    { intros q l root -> Hr Hs (n & Hn). destruct (last_filter _ _ _ Hn) as (a & b & -> & F & N1). apply (found_last q a name b); try assumption. apply parts_split. exact Hs. }
    destruct (head_slash p) as [(q & ->)|Hh].
    + rewrite components_root in Ec. apply (K q (split_on 47 q) [47]); [reflexivity|right; reflexivity|reflexivity|].
      destruct (rev r) as [|z n]; cbn [app] in Ec; injection Ec as <- Ec; [destruct B1; reflexivity|]. exists n. exact Ec.
    + destruct (dot_list (split_on 47 p)) as [(l & Es)|Hd].
      * rewrite (components_dot p l Hh Es) in Ec. apply (K p ([46] :: l) []); [reflexivity|left; reflexivity|exact Es|]. cbn [filter].
        change (normal_part [46]) with false. destruct (rev r) as [|z n]; cbn [app] in Ec; injection Ec as <- Ec; [destruct B2; reflexivity|]. exists n. exact Ec.
      * rewrite (components_rel p Hh Hd) in Ec. apply (K p (split_on 47 p) []); [reflexivity|left; reflexivity|reflexivity|]. exists (rev r). exact Ec.
  - intros (pre & post & -> & Hpre & Ns & N1 & N2 & F).
    set (t := name ++ concat (map (cons 47) post)).
    assert (Fs : Forall (fun y => ~ In 47 y) post).
    { apply Forall_forall. intros y Hy. rewrite Forall_forall in F. destruct (F y Hy) as [->| ->]; [intros []|intros [K|[]]; discriminate K]. }
    assert (St : split_on 47 t = name :: post) by (apply parts_split, join_parts; assumption).
    assert (Ft : filter normal_part (name :: post) = [name]).
    { cbn [filter]. rewrite (proj2 (normal_part_spec name) N1), (filter_empty _ F). reflexivity. }
    assert (Cs : exists l, components (pre ++ t) = l ++ [name]).
    { destruct Hpre as [->|(q & ->)].
      - cbn [app]. assert (Hh : hd 0 t <> 47). { unfold t. destruct name as [|c name]; [destruct N1; left; reflexivity|]. cbn [app hd]. intros ->. apply Ns. left. reflexivity. }
        rewrite components_rel; [|exact Hh|rewrite St; cbn [hd]; intros ->; apply N1; right; reflexivity]. rewrite St, Ft. exists []. reflexivity.
      - rewrite <- app_assoc. cbn [app]. destruct (head_slash (q ++ 47 :: t)) as [(z & Ez)|Hh].
        + rewrite Ez, components_root. destruct q as [|c q]; cbn [app] in Ez.
          * injection Ez as <-. rewrite St, Ft. exists [[47]]. reflexivity.
          * injection Ez as -> <-. rewrite split_app, filter_app, St, Ft. exists ([47] :: filter normal_part (split_on 47 q)). reflexivity.
        + destruct (dot_list (split_on 47 (q ++ 47 :: t))) as [(l & Es)|Hd].
          * rewrite (components_dot _ l Hh Es). rewrite split_app, St in Es. destruct (split_on 47 q) as [|y ys] eqn:Eq; [destruct (split_on_ne _ _ Eq)|].
            cbn [app] in Es. injection Es as -> <-. rewrite filter_app, Ft. exists ([46] :: filter normal_part ys). reflexivity.
          * rewrite (components_rel _ Hh Hd), split_app, filter_app, St, Ft. eexists. reflexivity. }
    destruct Cs as (l & Ec). unfold file_name. rewrite Ec, rev_app_distr. cbn [rev app].
    rewrite (proj2 (beq_neq name [47])) by (intros ->; apply Ns; left; reflexivity).
    rewrite (proj2 (beq_neq name [46])) by (intros ->; apply N1; right; reflexivity).
    rewrite (proj2 (beq_neq name [46; 46])) by exact N2. reflexivity.
Qed.

(** ** Plain paths *)

Lemma plain_components : forall p, plain_path p -> exists b l q, l <> [] /\ path_parts q l /\ p = concat (root_part b) ++ q /\ components p = root_part b ++ l /\
  Forall (fun x => ~ In 47 x /\ ~ empty_part x) l.
Proof.
  intros p (root & l & Nl & F & Hr & q & P & ->).
  assert (Ef : filter normal_part l = l).
  { clear P Nl. induction F as [|x l [_ Hx] _ IH]; [reflexivity|]. cbn [filter]. rewrite (proj2 (normal_part_spec x) Hx), IH. reflexivity. }
  pose proof (proj1 (parts_split _ _) P) as S. destruct Hr as [->| ->].
  - exists false, l, q. split; [exact Nl|]. split; [exact P|]. split; [reflexivity|]. split; [|exact F]. cbn [root_part app].
    destruct l as [|x l]; [destruct (Nl eq_refl)|]. inversion F as [|? ? [F1 F2] _]; subst x0 l0.
    rewrite components_rel; [rewrite S; exact Ef| |rewrite S; cbn [hd]; intros ->; apply F2; right; reflexivity].
    destruct (parts_join _ _ P) as (y & r & E & ->). injection E as <- <-. destruct x as [|c x]; [destruct F2; left; reflexivity|]. cbn [app hd]. intros ->. apply F1. left. reflexivity.
  - exists true, l, q. split; [exact Nl|]. split; [exact P|]. split; [reflexivity|]. split; [|exact F]. cbn [app]. rewrite components_root, S, Ef. reflexivity.
Qed.
Lemma parts_app : forall q l more p, path_parts q l -> path_parts p (l ++ more) -> p = q ++ concat (map (cons 47) more).
Proof.
  intros q l more p Hq Hp. destruct (parts_join _ _ Hq) as (x & r & -> & ->). destruct (parts_join _ _ Hp) as (y & s & E & ->).
  cbn [app] in E. injection E as <- <-. rewrite join_app, app_assoc. reflexivity.
Qed.
Theorem within_plain : forall p q, plain_path p -> plain_path q -> (within p q <-> p = q \/ exists r, p = q ++ 47 :: r).
Proof.
  intros p q Hp Hq. destruct (plain_components p Hp) as (b & l & p' & Nl & P & Ep & Cp & Fp), (plain_components q Hq) as (b' & l' & q' & Nl' & P' & Eq & Cq & Fq).
  rewrite <- starts_with_within. unfold path_starts_with. rewrite is_prefix_spec, Cp, Cq. split.
  - intros (r & E). assert (b = b' /\ l = l' ++ r) as [<- ->].
    { destruct b, b'; cbn [root_part app] in E.
      - injection E as ->. auto.
      - exfalso. destruct l' as [|x l']; [destruct (Nl' eq_refl)|]. injection E as <- _. inversion Fq as [|? ? [K _] _]. apply K. left. reflexivity.
      - exfalso. subst l. inversion Fp as [|? ? [K _] _]. apply K. left. reflexivity.
      - auto. }
    rewrite Ep, Eq, (parts_app _ _ _ _ P' P), app_assoc. destruct r as [|x r]; [left; cbn [map concat]; rewrite app_nil_r; reflexivity|]. right.
    exists (x ++ concat (map (cons 47) r)). reflexivity.
  - intros K. assert (Cc : exists r, components p = components q ++ r).
    { destruct K as [->|(r & ->)]; [exists []; rewrite app_nil_r; reflexivity|]. exists (filter normal_part (split_on 47 r)).
      destruct (head_slash q) as [(z & ->)|Hh].
      - cbn [app]. rewrite !components_root, split_app, filter_app. reflexivity.
      - assert (Hh' : hd 0 (q ++ 47 :: r) <> 47).
        { destruct q as [|c q]; [|exact Hh]. exfalso. change (components []) with (@nil bytes) in Cq. destruct b', l'; try discriminate Cq. destruct (Nl' eq_refl). }
        assert (Hd : hd [0] (split_on 47 q) <> [46]).
        { destruct (dot_list (split_on 47 q)) as [(s & Es)|Hd]; [|exact Hd]. exfalso. rewrite (components_dot _ _ Hh Es) in Cq. destruct b'; [discriminate Cq|].
          cbn [root_part app] in Cq. subst l'. inversion Fq as [|? ? [_ K] _]. apply K. right. reflexivity. }
        rewrite (components_rel _ Hh Hd), (components_rel _ Hh'), split_app, filter_app; [reflexivity|].
        rewrite split_app. destruct (split_on 47 q) eqn:E; [destruct (split_on_ne _ _ E)|exact Hd]. }
    rewrite Cp, Cq in Cc. destruct Cc as (r & Ec). exists r. exact Ec.
Qed.

(** ** Files *)

Lemma walk_leads : forall l l0 acc, leads l0 (rev acc) -> leads (l0 ++ l) (walk l acc).
Proof.
  induction l as [|x l IH]; intros l0 acc H; [rewrite app_nil_r; exact H|].
  replace (l0 ++ x :: l) with ((l0 ++ [x]) ++ l) by (rewrite <- app_assoc; reflexivity). cbn [walk].
  destruct (beq x [] || beq x [46]) eqn:B1.
  - apply IH. apply ld_skip; [exact H|]. apply orb_true_iff in B1 as [B|B]; apply beq_eq in B; [left|right]; exact B.
  - apply orb_false_iff in B1 as [B1 B2]. apply beq_neq in B1, B2. destruct (beq x [46; 46]) eqn:B3.
    + apply beq_eq in B3. subst x. apply IH. replace (rev (tl acc)) with (removelast (rev acc)); [apply ld_up; exact H|].
      destruct acc as [|a acc]; [reflexivity|]. cbn [rev tl]. apply removelast_last.
    + apply beq_neq in B3. apply IH. cbn [rev]. apply ld_down; [exact H| |exact B3]. intros [K|K]; contradiction.
Qed.
Lemma resolve_hd : forall p, resolve p = (if hd 0 p =? 47 then [47] else [46]) :: walk (split_on 47 p) [].
Proof.
  intros [|b p]; [reflexivity|]. unfold resolve. cbn [hd]. destruct (N.eqb_spec b 47) as [->|Nb]; [reflexivity|].
  destruct b as [|[[[[[[]|[]|]|[[]|[]|]|]|[[[]|[]|]|[[]|[]|]|]|]|[[[[]|[]|]|[[]|[]|]|]|[[[]|[]|]|[[]|[]|]|]|]|]|[[[[[]|[]|]|[[]|[]|]|]|[[[]|[]|]|[[]|[]|]|]|]|[[[[]|[]|]|[[]|[]|]|]|[[[]|[]|]|[[]|[]|]|]|]|]|]];
    try reflexivity; destruct (Nb eq_refl).
Qed.
Lemma resolve_at : forall p, file_at p (resolve p).
Proof.
  intros p. exists (split_on 47 p), (walk (split_on 47 p) []). split; [apply parts_split; reflexivity|].
  split; [|apply resolve_hd]. apply (walk_leads _ [] []). constructor.
Qed.

(** Texts that lead to the same file: empty parts do not matter. *)
Definition part_ne (x : bytes) : bool := negb (beq x []).
Definition same_file (p q : bytes) : Prop := (hd 0 p =? 47) = (hd 0 q =? 47) /\ filter part_ne (split_on 47 p) = filter part_ne (split_on 47 q).
Lemma walk_filter : forall l acc, walk l acc = walk (filter part_ne l) acc.
Proof.
  induction l as [|x l IH]; intros acc; [reflexivity|]. cbn [filter]. unfold part_ne at 1. destruct (beq x []) eqn:B; cbn [negb].
  - cbn [walk]. rewrite B. apply IH.
  - cbn [walk]. rewrite B. cbn [orb]. destruct (beq x [46]); [apply IH|]. destruct (beq x [46; 46]); apply IH.
Qed.
Lemma same_resolve : forall p q, same_file p q -> resolve p = resolve q.
Proof. intros p q [H K]. rewrite !resolve_hd, H, walk_filter, K, <- walk_filter. reflexivity. Qed.
Definition joined (a b : bytes) : bytes := if hd 0 b =? 47 then b else a ++ 47 :: b.
Lemma join_cases : forall a b, path_join a b = if hd 0 b =? 47 then b else if (last a 0 =? 47) || beq a [] then a ++ b else a ++ [47] ++ b.
Proof.
  assert (T : forall (x : N) (A : Type) (u v : A), match x with 47 => u | _ => v end = if x =? 47 then u else v).
  { intros x A u v. destruct (N.eqb_spec x 47) as [->|Nb]; [reflexivity|].
    destruct x as [|[[[[[[]|[]|]|[[]|[]|]|]|[[[]|[]|]|[[]|[]|]|]|]|[[[[]|[]|]|[[]|[]|]|]|[[[]|[]|]|[[]|[]|]|]|]|]|[[[[[]|[]|]|[[]|[]|]|]|[[[]|[]|]|[[]|[]|]|]|]|[[[[]|[]|]|[[]|[]|]|]|[[[]|[]|]|[[]|[]|]|]|]|]|]];
      try reflexivity; destruct (Nb eq_refl). }
  intros a b. assert (R : match rev a with [] | 47 :: _ => a ++ b | _ => a ++ [47] ++ b end = if (last a 0 =? 47) || beq a [] then a ++ b else a ++ [47] ++ b).
  { destruct a as [|x a] using rev_ind; [reflexivity|]. rewrite rev_app_distr. cbn [rev app]. rewrite last_last.
    replace (beq (a ++ [x]) []) with false by (symmetry; apply beq_neq; destruct a; discriminate). rewrite orb_false_r. apply T. }
  destruct b as [|y b]; [exact R|]. cbn [hd]. unfold path_join. rewrite T. destruct (y =? 47); [reflexivity|]. exact R.
Qed.
Lemma hd_app_ne : forall (a b : bytes), a <> [] -> hd 0 (a ++ b) = hd 0 a.
Proof. intros [|x a] b H; [destruct (H eq_refl)|reflexivity]. Qed.
Lemma join_same : forall a b, a <> [] -> same_file (path_join a b) (joined a b).
Proof.
  intros a b H. rewrite join_cases. unfold joined. destruct (hd 0 b =? 47); [split; reflexivity|].
  replace (beq a []) with false by (symmetry; apply beq_neq; exact H). rewrite orb_false_r.
  destruct (N.eqb_spec (last a 0) 47) as [E|_]; [|split; reflexivity].
  split; [rewrite !hd_app_ne by exact H; reflexivity|]. destruct (exists_last H) as (a' & x & ->). rewrite last_last in E. subst x.
  rewrite <- !app_assoc. cbn [app]. rewrite !split_app. change (split_on 47 (47 :: b)) with ([] :: split_on 47 b).
  rewrite !filter_app. reflexivity.
Qed.
Lemma joined_same : forall a a' b b', a <> [] -> a' <> [] -> same_file a a' -> same_file b b' -> same_file (joined a b) (joined a' b').
Proof.
  intros a a' b b' H H' [A1 A2] [B1 B2]. unfold joined. rewrite B1. destruct (hd 0 b' =? 47) eqn:E; [split; congruence|].
  split; [rewrite !hd_app_ne by assumption; exact A1|]. rewrite !split_app, !filter_app, A2, B2. reflexivity.
Qed.
Lemma joins_step : forall x y l p, joins (y :: l) p -> joins (x :: y :: l) (joined x p).
Proof. intros x y l p H. unfold joined. destruct (N.eqb_spec (hd 0 p) 47); [apply jn_root|apply jn_more]; assumption. Qed.
Lemma joined_ne : forall a b, joined a b <> [].
Proof. intros a b. unfold joined. destruct b as [|y b]; [destruct a; discriminate|]. destruct (hd 0 (y :: b) =? 47); [discriminate|destruct a; discriminate]. Qed.
Lemma path_join_ne : forall a b, a <> [] -> path_join a b <> [].
Proof.
  intros a b H. rewrite join_cases. destruct (N.eqb_spec (hd 0 b) 47) as [E|_]; [intros ->; discriminate E|].
  destruct a as [|x a]; [destruct (H eq_refl)|]. destruct ((_ =? 47) || _); discriminate.
Qed.
Lemma joined_assoc : forall a b c, b <> [] -> joined (joined a b) c = joined a (joined b c).
Proof.
  intros a b c H. unfold joined. destruct (hd 0 c =? 47) eqn:E; [rewrite E; reflexivity|]. rewrite (hd_app_ne b) by exact H.
  destruct (hd 0 b =? 47); [reflexivity|]. rewrite <- app_assoc. reflexivity.
Qed.
Lemma same_refl : forall p, same_file p p.
Proof. split; reflexivity. Qed.
Lemma same_trans : forall p q r, same_file p q -> same_file q r -> same_file p r.
Proof. intros p q r [A B] [C D]. split; congruence. Qed.

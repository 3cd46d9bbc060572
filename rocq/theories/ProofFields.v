(** The deserialisers that serde derives, on what JSON texts stand for. *)

From Coq Require Import ZArith Lia.
From Verif Require Import Base BaseLemmas ModelObject ModelLfs ModelJson SpecBase SpecJson ProofUtf8 ProofSerde.
Open Scope N_scope.

Definition decodes {A} (d : jv -> option A) (P : json -> A -> Prop) : Prop :=
  forall j v, means j v -> forall a, d j = Some a <-> P v a.

Lemma dec_string : decodes d_string takes_text.
Proof.
  intros j v M a. unfold takes_text. inversion M; subst; cbn [d_string]; split; intros E; try discriminate.
  - rewrite H in E. injection E as <-. reflexivity.
  - injection E as <-. exact H.
Qed.
Lemma dec_bool : decodes d_bool takes_bool.
Proof.
  intros j v M a. unfold takes_bool. inversion M; subst; cbn [d_bool]; split; intros E; try discriminate; injection E as <-; reflexivity.
Qed.

(** ** Integers *)
Lemma digits_only : forall t, number t -> forallb digit_byte t = true -> exists n, decimal n t.
Proof.
  intros t (sign & n & int & frac & exp & S & D & F & X & ->) H. rewrite !forallb_app in H.
  apply andb_prop in H as [H1 H]. apply andb_prop in H as [H2 H]. apply andb_prop in H as [H3 H4].
  destruct S as [->| ->]; [|discriminate]. destruct F as [->|(d & -> & _)]; [|discriminate].
  destruct X as [->|(e & s & d & -> & [->| ->] & _)]; [|discriminate|discriminate].
  exists n. cbn. rewrite !app_nil_r. exact D.
Qed.
Lemma decimal_bound : forall n d m, decimal n d -> parse_digits 0 d = Some m -> m = n /\ n < U64.
Proof.
  intros n d m H. revert m. induction H as [n A|n d k A IH B C]; intros m E.
  - change [48 + n] with ([] ++ [48 + n]) in E. rewrite parse_digits_app in E by lia. cbn [parse_digits] in E.
    replace (0 * 10 + (48 + n - 48)) with n in E by lia. destruct (n <? U64) eqn:L; [|discriminate].
    injection E as <-. apply N.ltb_lt in L. auto.
  - rewrite parse_digits_app in E by lia. destruct (parse_digits 0 d) as [x|]; [|discriminate]. destruct (IH x eq_refl) as [-> _].
    replace (n * 10 + (48 + k - 48)) with (10 * n + k) in E by lia. destruct (10 * n + k <? U64) eqn:L; [|discriminate].
    injection E as <-. apply N.ltb_lt in L. auto.
Qed.
Lemma minus_digits : forall d, number (45 :: d) -> forallb digit_byte d = true -> exists n, decimal n d.
Proof.
  intros t (sign & n & int & frac & exp & S & D & F & X & E) H.
  destruct S as [->| ->].
  - destruct (decimal_head n int D) as (b & d' & -> & B & _). cbn in E. injection E as <- _. lia.
  - cbn in E. injection E as ->. apply digits_only; [|exact H]. exists [], n, int, frac, exp. auto 7.
Qed.
Lemma i64_integer : forall t z, number t -> d_i64 (JNum t) = Some z -> integer z t /\ fits z.
Proof.
  intros t z H E. cbn [d_i64] in E. destruct (number_head t H) as (b & t' & -> & B). destruct B as [->|B].
  - rewrite after_at in E. destruct (forallb digit_byte t') eqn:F; [|discriminate]. cbn [andb] in E.
    destruct (beq t' [48]) eqn:Z; [discriminate|]. cbn [negb] in E. destruct (minus_digits t' H F) as [n D].
    destruct (decimal_head n t' D) as (b & d & -> & _ & [[_ X]|[X _]]); [rewrite X in Z; discriminate|].
    cbn [parse_i64] in E. destruct (parse_digits 0 (b :: d)) as [m|] eqn:P; [|discriminate].
    destruct (decimal_bound _ _ _ D P) as [-> _]. destruct (n <=? 9223372036854775808) eqn:L; [|discriminate].
    apply N.leb_le in L. injection E as <-. split; [right; exists n, (b :: d); auto|unfold fits; lia].
  - rewrite after_not in E by lia. destruct (forallb digit_byte (b :: t')) eqn:F; [|discriminate].
    destruct (digits_only _ H F) as [n D].
    assert (E' : match parse_digits 0 (b :: t') with Some n => if n <=? 9223372036854775807 then Some (Z.of_N n) else None | None => None end = Some z).
    { rewrite <- E. destruct b as [|p]; [lia|]. do 6 (try (destruct p as [p|p|]; try reflexivity; try lia)). }
    clear E. destruct (parse_digits 0 (b :: t')) as [m|] eqn:P; [|discriminate].
    destruct (decimal_bound _ _ _ D P) as [-> _]. destruct (n <=? 9223372036854775807) eqn:L; [|discriminate].
    apply N.leb_le in L. injection E' as <-. split; [left; exists n; auto|unfold fits; lia].
Qed.
Lemma decimal_value : forall n d, decimal n d -> n = fold_left (fun a b => 10 * a + (b - 48)) d 0.
Proof. intros n d H. induction H as [n A|n d k A IH B C]; [cbn; lia|]. rewrite fold_left_app, <- IH. cbn. lia. Qed.
Lemma decimal_inj : forall n m d, decimal n d -> decimal m d -> n = m.
Proof. intros n m d A B. apply decimal_value in A, B. congruence. Qed.
Lemma integer_inj : forall y z t, integer y t -> integer z t -> y = z.
Proof.
  intros y z t [(n & -> & D)|(n & d & N & -> & D & ->)] [(m & -> & D')|(m & d' & N' & -> & D' & E)].
  - rewrite (decimal_inj _ _ _ D D'). reflexivity.
  - subst t. destruct (decimal_head _ _ D) as (b & q & X & B & _). injection X as <- _. lia.
  - destruct (decimal_head _ _ D') as (b & q & X & B & _). injection X as <- _. lia.
  - injection E as <-. rewrite (decimal_inj _ _ _ D D'). reflexivity.
Qed.
Lemma dec_i64 : decodes d_i64 takes_int.
Proof.
  intros j v M a. unfold takes_int. inversion M; subst; split; try (intros E; discriminate E); try (intros [E _]; discriminate E).
  - intros E. destruct (i64_integer t a (integer_number z t H) E) as [I F]. rewrite (integer_inj _ _ _ H I). auto.
  - intros [E F]. injection E as <-. apply integer_i64; assumption.
  - intros E. destruct (i64_integer t a H E) as [I _]. destruct (H0 a I).
Qed.

(** ** Lists *)
Lemma dec_list : forall {A} (d : jv -> option A) P, decodes d P -> forall js vs, Forall2 means js vs -> forall l,
  d_list d js = Some l <-> Forall2 P vs l.
Proof.
  intros A d P D js vs H. induction H as [|j v js vs M H IH]; intros l; cbn [d_list].
  - split; [intros E; injection E as <-; constructor|intros E; inversion E; reflexivity].
  - split.
    + intros E. destruct (d j) as [a|] eqn:Ea; [|discriminate]. destruct (d_list d js) as [b|] eqn:Eb; [|discriminate].
      injection E as <-. constructor; [apply (D j v M), Ea|apply IH; reflexivity].
    + intros E. inversion E as [|v' a vs' b Pa Pb]; subst. apply (D j v M) in Pa. apply IH in Pb. rewrite Pa, Pb. reflexivity.
Qed.
Definition takes_list {A} (P : json -> A -> Prop) (v : json) (l : list A) : Prop := exists vs, v = VArr vs /\ Forall2 P vs l.
Lemma dec_vec : forall {A} (d : jv -> option A) P, decodes d P -> decodes (d_vec d) (takes_list P).
Proof.
  intros A d P D j v M a. unfold takes_list. inversion M; subst; cbn [d_vec]; split; try (intros E; discriminate E); try (intros (vs & E & _); discriminate E).
  - intros E. exists m. split; [reflexivity|]. eapply dec_list; eassumption.
  - intros (vs & E & F). injection E as <-. eapply dec_list; eassumption.
Qed.

(** ** Fields *)
Definition om (o : option jv) (x : option json) : Prop :=
  match o, x with Some j, Some v => means j v | None, None => True | _, _ => False end.
Definition km (a : bytes * jv) (b : bytes * json) : Prop := fst a = fst b /\ means (snd a) (snd b).
Lemma keys_mean : forall l m, Forall2 (fun a b => string_of (fst a) = Some (fst b) /\ means (snd a) (snd b)) l m ->
  exists k, keys_of l = Some k /\ Forall2 km k m.
Proof.
  intros l m H. induction H as [|[a x] [b y] l m [A B] H (k & E & F)]; [exists []; split; [reflexivity|constructor]|].
  cbn in A, B. exists ((b, x) :: k). cbn [keys_of]. rewrite A, E. split; [reflexivity|]. constructor; [split; auto|exact F].
Qed.
Lemma filter_none : forall (k : list (bytes * jv)) m n, Forall2 km k m -> (filter (fun x => beq (fst x) n) k = [] <-> no_member m n).
Proof.
  intros k m n H. unfold no_member. induction H as [|[a x] [b y] k m [A B] H IH]; [cbn; tauto|]. cbn in A, B |- *. subst b.
  destruct (beq a n) eqn:E; cbn.
  - apply beq_eq in E. split; [discriminate|intros X; destruct X; auto].
  - rewrite IH. assert (a <> n) by (intros ->; rewrite beq_refl in E; discriminate). tauto.
Qed.
Lemma member_cons : forall a y m n x, a <> n -> (member ((a, y) :: m) n x <-> member m n x).
Proof.
  intros a y m n x N. split.
  - intros (l1 & l2 & E & A & B). destruct l1 as [|q l1]; cbn in E; injection E as E1 E2; [congruence|]. subst.
    exists l1, l2. cbn in A. tauto.
  - intros (l1 & l2 & -> & A & B). exists ((a, y) :: l1), l2. cbn. repeat split; auto. intros [X|X]; auto.
Qed.
Lemma one_spec : forall k m n o, Forall2 km k m ->
  (one_of k n = Some o -> exists x, om o x /\ match x with Some v => member m n v | None => no_member m n end) /\
  (forall x, match x with Some v => member m n v | None => no_member m n end -> exists o, one_of k n = Some o /\ om o x).
Proof.
  intros k m n o H. split.
  - unfold one_of. intros E. destruct (filter _ k) as [|q [|q' r]] eqn:F; [| |discriminate].
    + injection E as <-. exists None. split; [exact I|]. apply (filter_none k m n H), F.
    + injection E as <-. induction H as [|[a x] [b y] k m [A B] H IH]; [discriminate|]. cbn in A, B. subst b. cbn [filter fst] in F.
      destruct (beq a n) eqn:Q.
      * injection F as <- F. apply beq_eq in Q. subst a. exists (Some y). split; [exact B|]. exists [], m. split; [reflexivity|].
        split; [intros []|]. apply (filter_none k m n H), F.
      * destruct (IH F) as ([v|] & O & M); [|contradiction]. exists (Some v). split; [exact O|]. apply member_cons; [|exact M].
        intros ->. rewrite beq_refl in Q. discriminate.
  - clear o. intros [v|] M.
    + enough (X : exists q, filter (fun x => beq (fst x) n) k = [q] /\ means (snd q) v).
      { destruct X as (q & F & Q). exists (Some (snd q)). unfold one_of. rewrite F. split; [reflexivity|exact Q]. }
      induction H as [|[a x] [b y] k m [A B] H IH]; [destruct M as ([|? ?] & ? & E & _); discriminate|]. cbn in A, B. subst b.
      cbn [filter fst]. destruct (beq a n) eqn:Q.
      * apply beq_eq in Q. subst a. destruct M as (l1 & l2 & E & X & Y). destruct l1 as [|q l1]; cbn in E; injection E as E1 E2.
        -- subst. exists (n, x). split; [|exact B]. f_equal. apply (filter_none k l2 n H), Y.
        -- subst q. cbn in X. tauto.
      * apply IH. apply (member_cons a y m n v); [|exact M]. intros ->. rewrite beq_refl in Q. discriminate.
    + exists None. unfold one_of. rewrite (proj2 (filter_none k m n H) M). split; [reflexivity|exact I].
Qed.
Lemma by_name_spec : forall k m names, Forall2 km k m ->
  (forall os, by_name k names = Some os -> exists xs, Forall2 om os xs /\
     Forall2 (fun n o => match o with Some x => member m n x | None => no_member m n end) names xs) /\
  (forall xs, Forall2 (fun n o => match o with Some x => member m n x | None => no_member m n end) names xs ->
     exists os, by_name k names = Some os /\ Forall2 om os xs).
Proof.
  intros k m names H. induction names as [|n names [IH1 IH2]]; cbn [by_name]; split.
  - intros os E. injection E as <-. exists []. split; constructor.
  - intros xs E. inversion E. exists []. split; [reflexivity|constructor].
  - intros os E. destruct (one_of k n) as [a|] eqn:A; [|discriminate]. destruct (by_name k names) as [b|] eqn:B; [|discriminate].
    injection E as <-. destruct (IH1 b eq_refl) as (xs & X & Y). destruct (proj1 (one_spec k m n a H) A) as (x & O & M).
    exists (x :: xs). split; constructor; auto.
  - intros xs E. inversion E as [|n' x names' xs' M E']; subst. destruct (IH2 xs' E') as (os & A & B).
    destruct (proj2 (one_spec k m n None H) x M) as (o & C & D). rewrite C, A. exists (o :: os). split; [reflexivity|constructor; auto].
Qed.
Lemma by_place_spec : forall names js vs, Forall2 means js vs ->
  match by_place js names with
  | Some os => (length vs <= length names)%nat /\ Forall2 om os (map Some vs ++ repeat None (length names - length vs))
  | None => (length names < length vs)%nat
  end.
Proof.
  induction names as [|n names IH]; intros js vs H.
  - destruct H; cbn; [split; [lia|constructor]|lia].
  - destruct H as [|j v js vs M H]; cbn [by_place].
    + specialize (IH [] [] (Forall2_nil _)). destruct (by_place [] names) as [b|]; [|cbn in IH; lia].
      destruct IH as [_ IH]. cbn in IH |- *. rewrite Nat.sub_0_r in IH. split; [lia|constructor; [exact I|exact IH]].
    + specialize (IH js vs H). destruct (by_place js names) as [b|]; cbn in *; [|lia]. destruct IH as [L IH]. split; [lia|].
      constructor; [exact M|exact IH].
Qed.
Lemma struct_spec : forall j v names, means j v ->
  (forall s os, d_struct names j = Some (s, os) -> exists xs, Forall2 om os xs /\ laid_out v s names xs) /\
  (forall s xs, laid_out v s names xs -> exists os, d_struct names j = Some (s, os) /\ Forall2 om os xs).
Proof.
  intros j v names M. split.
  - intros s os E. inversion M as [| | | | |l m F|l m F]; subst; cbn [d_struct] in E; try discriminate.
    + pose proof (by_place_spec names l m F) as X. destruct (by_place l names) as [b|]; [|discriminate]. injection E as <- <-.
      destruct X as [L X]. eexists. split; [exact X|]. constructor. exact L.
    + destruct (keys_mean l m F) as (k & K & KM). rewrite K in E. destruct (by_name k names) as [b|] eqn:B; [|discriminate]. injection E as <- <-.
      destruct (proj1 (by_name_spec k m names KM) b B) as (xs & X & Y). exists xs. split; [exact X|constructor; exact Y].
  - intros s xs L. inversion L as [m names' os F|names' l Le]; subst; inversion M as [| | | | |l' m' F'|l' m' F']; subst; cbn [d_struct].
    + destruct (keys_mean _ _ F') as (k & K & KM). rewrite K. destruct (proj2 (by_name_spec k m names KM) xs F) as (os & A & B).
      rewrite A. eauto.
    + pose proof (by_place_spec names _ _ F') as X. destruct (by_place l' names) as [b|]; [|lia]. destruct X as [_ X]. eauto.
Qed.

Lemma req_iff : forall {A} (d : jv -> option A) P, decodes d P -> forall o x, om o x -> forall a,
  req d o = Some a <-> exists y, x = Some y /\ P y a.
Proof.
  intros A d P D [j|] [v|] M a; cbn in M |- *; try contradiction.
  - rewrite (D j v M a). split; [eauto|intros (y & E & H); injection E as <-; exact H].
  - split; [discriminate|intros (y & E & _); discriminate].
Qed.
Lemma opt_iff : forall {A} (d : jv -> option A) P s, decodes d P -> (forall a, ~ P VNull a) -> forall o x, om o x -> forall a,
  opt s d o = Some a <-> optional s P x a.
Proof.
  intros A d P s D NP [j|] [v|] M a; cbn in M; try contradiction; unfold opt, optional, d_option.
  - assert (J : d JNull = None).
    { destruct (d JNull) as [b|] eqn:E; [|reflexivity]. apply (D JNull VNull mn_null) in E. destruct (NP b E). }
    destruct a as [b|].
    + rewrite <- (D j v M b). split; intros E.
      * destruct j; try discriminate; match type of E with match d ?x with _ => _ end = _ => destruct (d x) as [c|]; [|discriminate] end;
          injection E as ->; reflexivity.
      * rewrite E. destruct j; try reflexivity. congruence.
    + split.
      * intros E. destruct j; [inversion M; reflexivity|..];
          match type of E with match d ?x with _ => _ end = _ => destruct (d x); discriminate end.
      * intros ->. inversion M. reflexivity.
  - destruct s, a; split; try discriminate; try contradiction; reflexivity.
Qed.
Lemma dflt_iff : forall o x, om o x -> forall t, dflt o = Some t <-> text_or_empty x t.
Proof.
  intros [j|] [v|] M t; cbn in M |- *; try contradiction; [apply (dec_string j v M t)|].
  split; [intros E; injection E; auto|intros ->; reflexivity].
Qed.

Lemma laid_out_length : forall v s names xs, laid_out v s names xs -> length xs = length names.
Proof.
  intros v s names xs H. destruct H as [m names os F|names l L]; [symmetry; induction F; cbn; congruence|].
  rewrite app_length, map_length, repeat_length. lia.
Qed.

Lemma dec_named : decodes d_named takes_name.
Proof.
  intros j v M a. unfold d_named, takes_name. destruct (struct_spec j v [bs "name"] M) as [S1 S2]. split.
  - intros E. destruct (d_struct _ j) as [[s os]|]; [|discriminate]. destruct (S1 s os eq_refl) as (xs & F & L).
    pose proof (laid_out_length _ _ _ _ L) as N. destruct xs as [|x [|? ?]]; try discriminate.
    inversion F as [|o x' r r' O F']; subst. inversion F'; subst. apply (req_iff _ _ dec_string _ _ O) in E.
    destruct E as (y & -> & ->). eauto.
  - intros (s & L). destruct (S2 _ _ L) as (os & -> & F). inversion F as [|o x' r r' O F']; subst. inversion F'; subst.
    apply (req_iff _ _ dec_string _ _ O). eexists. split; reflexivity.
Qed.
Lemma no_null_name : forall a, ~ takes_name VNull a.
Proof. intros a (s & L). inversion L. Qed.
Lemma no_null_bool : forall a, ~ takes_bool VNull a.
Proof. intros a H. discriminate H. Qed.
Lemma no_null_text : forall a, ~ takes_text VNull a.
Proof. intros a H. discriminate H. Qed.
Lemma no_null_int : forall a, ~ takes_int VNull a.
Proof. intros a [H _]. discriminate H. Qed.

Definition is_lock (v : json) (x : lock) : Prop := takes_lock v (lk_id x) (lk_path x) (lk_at x) (lk_owner x).
Lemma dec_lock : decodes d_lock is_lock.
Proof.
  intros j v M a. unfold d_lock, is_lock, takes_lock.
  destruct (struct_spec j v [bs "id"; bs "path"; bs "locked_at"; bs "owner"] M) as [S1 S2]. split.
  - intros E. destruct (d_struct _ j) as [[s os]|]; [|discriminate]. destruct (S1 s os eq_refl) as (xs & F & L).
    pose proof (laid_out_length _ _ _ _ L) as N. destruct xs as [|x1 [|x2 [|x3 [|x4 [|? ?]]]]]; try discriminate.
    inversion F as [|o1 ? ? ? O1 F1]; subst. inversion F1 as [|o2 ? ? ? O2 F2]; subst. inversion F2 as [|o3 ? ? ? O3 F3]; subst.
    inversion F3 as [|o4 ? ? ? O4 F4]; subst. inversion F4; subst.
    destruct (req d_string o1) as [i|] eqn:E1; [|discriminate]. destruct (req d_string o2) as [p|] eqn:E2; [|discriminate].
    destruct (req d_string o3) as [t|] eqn:E3; [|discriminate]. destruct (opt s d_named o4) as [w|] eqn:E4; [|discriminate].
    injection E as <-. cbn. apply (req_iff _ _ dec_string _ _ O1) in E1 as (y1 & -> & ->). apply (req_iff _ _ dec_string _ _ O2) in E2 as (y2 & -> & ->).
    apply (req_iff _ _ dec_string _ _ O3) in E3 as (y3 & -> & ->). apply (opt_iff _ _ s dec_named no_null_name _ _ O4) in E4. eauto.
  - intros (s & o & L & OW). destruct (S2 _ _ L) as (os & -> & F).
    inversion F as [|o1 ? ? ? O1 F1]; subst. inversion F1 as [|o2 ? ? ? O2 F2]; subst. inversion F2 as [|o3 ? ? ? O3 F3]; subst.
    inversion F3 as [|o4 ? ? ? O4 F4]; subst. inversion F4; subst.
    rewrite (proj2 (req_iff _ _ dec_string _ _ O1 (lk_id a))) by (eexists; split; reflexivity).
    rewrite (proj2 (req_iff _ _ dec_string _ _ O2 (lk_path a))) by (eexists; split; reflexivity).
    rewrite (proj2 (req_iff _ _ dec_string _ _ O3 (lk_at a))) by (eexists; split; reflexivity).
    rewrite (proj2 (opt_iff _ _ s dec_named no_null_name _ _ O4 (lk_owner a)) OW). destruct a. reflexivity.
Qed.
Definition is_lock_request (v : json) (x : lock_request) : Prop := takes_lock_request v (lr_path x) (lr_ref x).
Lemma dec_lock_request : decodes d_lock_request is_lock_request.
Proof.
  intros j v M a. unfold d_lock_request, is_lock_request, takes_lock_request.
  destruct (struct_spec j v [bs "path"; bs "ref"] M) as [S1 S2]. split.
  - intros E. destruct (d_struct _ j) as [[s os]|]; [|discriminate]. destruct (S1 s os eq_refl) as (xs & F & L).
    pose proof (laid_out_length _ _ _ _ L) as N. destruct xs as [|x1 [|x2 [|? ?]]]; try discriminate.
    inversion F as [|o1 ? ? ? O1 F1]; subst. inversion F1 as [|o2 ? ? ? O2 F2]; subst. inversion F2; subst.
    destruct (req d_string o1) as [i|] eqn:E1; [|discriminate]. destruct (req d_named o2) as [p|] eqn:E2; [|discriminate].
    injection E as <-. cbn. apply (req_iff _ _ dec_string _ _ O1) in E1 as (y1 & -> & ->). apply (req_iff _ _ dec_named _ _ O2) in E2 as (y2 & -> & T). eauto.
  - intros (s & x & L & T). destruct (S2 _ _ L) as (os & -> & F).
    inversion F as [|o1 ? ? ? O1 F1]; subst. inversion F1 as [|o2 ? ? ? O2 F2]; subst. inversion F2; subst.
    rewrite (proj2 (req_iff _ _ dec_string _ _ O1 (lr_path a))) by (eexists; split; reflexivity).
    rewrite (proj2 (req_iff _ _ dec_named _ _ O2 (lr_ref a))) by (eexists; split; [reflexivity|exact T]). destruct a. reflexivity.
Qed.
Definition is_unlock (v : json) (x : unlock_request) : Prop :=
  exists force, takes_unlock v force (ul_ref x) /\ ul_force x = match force with Some b => b | None => false end.
Lemma dec_unlock : decodes d_unlock is_unlock.
Proof.
  intros j v M a. unfold d_unlock, is_unlock, takes_unlock.
  destruct (struct_spec j v [bs "force"; bs "ref"] M) as [S1 S2]. split.
  - intros E. destruct (d_struct _ j) as [[s os]|]; [|discriminate]. destruct (S1 s os eq_refl) as (xs & F & L).
    pose proof (laid_out_length _ _ _ _ L) as N. destruct xs as [|x1 [|x2 [|? ?]]]; try discriminate.
    inversion F as [|o1 ? ? ? O1 F1]; subst. inversion F1 as [|o2 ? ? ? O2 F2]; subst. inversion F2; subst.
    destruct (opt s d_bool o1) as [i|] eqn:E1; [|discriminate]. destruct (req d_named o2) as [p|] eqn:E2; [|discriminate].
    injection E as <-. cbn. apply (opt_iff _ _ s dec_bool no_null_bool _ _ O1) in E1. apply (req_iff _ _ dec_named _ _ O2) in E2 as (y2 & -> & T).
    exists i. split; [eauto 6|reflexivity].
  - intros (f & (s & o & x & L & OF & T) & UF). destruct (S2 _ _ L) as (os & -> & F).
    inversion F as [|o1 ? ? ? O1 F1]; subst. inversion F1 as [|o2 ? ? ? O2 F2]; subst. inversion F2; subst.
    rewrite (proj2 (opt_iff _ _ s dec_bool no_null_bool _ _ O1 f) OF).
    rewrite (proj2 (req_iff _ _ dec_named _ _ O2 (ul_ref a))) by (eexists; split; [reflexivity|exact T]). rewrite <- UF. destruct a. reflexivity.
Qed.
Definition is_verify (v : json) (x : verify_request) : Prop := takes_verify v (v_ref x) (v_cursor x) (v_limit x).
Lemma dec_verify : decodes d_verify is_verify.
Proof.
  intros j v M a. unfold d_verify, is_verify, takes_verify.
  destruct (struct_spec j v [bs "ref"; bs "cursor"; bs "limit"] M) as [S1 S2]. split.
  - intros E. destruct (d_struct _ j) as [[s os]|]; [|discriminate]. destruct (S1 s os eq_refl) as (xs & F & L).
    pose proof (laid_out_length _ _ _ _ L) as N. destruct xs as [|x1 [|x2 [|x3 [|? ?]]]]; try discriminate.
    inversion F as [|o1 ? ? ? O1 F1]; subst. inversion F1 as [|o2 ? ? ? O2 F2]; subst. inversion F2 as [|o3 ? ? ? O3 F3]; subst. inversion F3; subst.
    destruct (req d_named o1) as [i|] eqn:E1; [|discriminate]. destruct (opt s d_string o2) as [p|] eqn:E2; [|discriminate].
    destruct (opt s d_i64 o3) as [q|] eqn:E3; [|discriminate].
    injection E as <-. cbn. apply (req_iff _ _ dec_named _ _ O1) in E1 as (y1 & -> & T). apply (opt_iff _ _ s dec_string no_null_text _ _ O2) in E2.
    apply (opt_iff _ _ s dec_i64 no_null_int _ _ O3) in E3. eauto 9.
  - intros (s & x & c & n & L & T & OC & ON). destruct (S2 _ _ L) as (os & -> & F).
    inversion F as [|o1 ? ? ? O1 F1]; subst. inversion F1 as [|o2 ? ? ? O2 F2]; subst. inversion F2 as [|o3 ? ? ? O3 F3]; subst. inversion F3; subst.
    rewrite (proj2 (req_iff _ _ dec_named _ _ O1 (v_ref a))) by (eexists; split; [reflexivity|exact T]).
    rewrite (proj2 (opt_iff _ _ s dec_string no_null_text _ _ O2 (v_cursor a)) OC).
    rewrite (proj2 (opt_iff _ _ s dec_i64 no_null_int _ _ O3 (v_limit a)) ON). destruct a. reflexivity.
Qed.
Definition is_object (v : json) (x : object_request) : Prop := takes_object v (ob_oid x) (ob_size x) (ob_user x) (ob_repo x).
Lemma dec_object : decodes d_object is_object.
Proof.
  intros j v M a. unfold d_object, is_object, takes_object.
  destruct (struct_spec j v [bs "oid"; bs "size"; bs "user"; bs "password"; bs "repo"; bs "authorization"] M) as [S1 S2]. split.
  - intros E. destruct (d_struct _ j) as [[s os]|]; [|discriminate]. destruct (S1 s os eq_refl) as (xs & F & L).
    pose proof (laid_out_length _ _ _ _ L) as N. destruct xs as [|x1 [|x2 [|x3 [|x4 [|x5 [|x6 [|? ?]]]]]]]; try discriminate.
    inversion F as [|o1 ? ? ? O1 F1]; subst. inversion F1 as [|o2 ? ? ? O2 F2]; subst. inversion F2 as [|o3 ? ? ? O3 F3]; subst.
    inversion F3 as [|o4 ? ? ? O4 F4]; subst. inversion F4 as [|o5 ? ? ? O5 F5]; subst. inversion F5 as [|o6 ? ? ? O6 F6]; subst. inversion F6; subst.
    destruct (req d_string o1) as [i|] eqn:E1; [|discriminate]. destruct (req d_i64 o2) as [z|] eqn:E2; [|discriminate].
    destruct (dflt o3) as [u|] eqn:E3; [|discriminate]. destruct (dflt o4) as [p|] eqn:E4; [|discriminate].
    destruct (dflt o5) as [r|] eqn:E5; [|discriminate]. destruct (dflt o6) as [t|] eqn:E6; [|discriminate].
    injection E as <-. cbn. apply (req_iff _ _ dec_string _ _ O1) in E1 as (y1 & -> & ->). apply (req_iff _ _ dec_i64 _ _ O2) in E2 as (y2 & -> & -> & FZ).
    apply (dflt_iff _ _ O3) in E3. apply (dflt_iff _ _ O4) in E4. apply (dflt_iff _ _ O5) in E5. apply (dflt_iff _ _ O6) in E6.
    exists s, x3, x4, x5, x6, p, t. auto 9.
  - intros (s & u & p & r & t & pt & tt & L & FZ & T3 & T4 & T5 & T6). destruct (S2 _ _ L) as (os & -> & F).
    inversion F as [|o1 ? ? ? O1 F1]; subst. inversion F1 as [|o2 ? ? ? O2 F2]; subst. inversion F2 as [|o3 ? ? ? O3 F3]; subst.
    inversion F3 as [|o4 ? ? ? O4 F4]; subst. inversion F4 as [|o5 ? ? ? O5 F5]; subst. inversion F5 as [|o6 ? ? ? O6 F6]; subst. inversion F6; subst.
    rewrite (proj2 (req_iff _ _ dec_string _ _ O1 (ob_oid a))) by (eexists; split; reflexivity).
    rewrite (proj2 (req_iff _ _ dec_i64 _ _ O2 (ob_size a))) by (eexists; split; [reflexivity|split; [reflexivity|exact FZ]]).
    rewrite (proj2 (dflt_iff _ _ O3 _) T3), (proj2 (dflt_iff _ _ O4 _) T4), (proj2 (dflt_iff _ _ O5 _) T5), (proj2 (dflt_iff _ _ O6 _) T6).
    destruct a. reflexivity.
Qed.
Definition is_batch (v : json) (x : bytes * list object_request) : Prop :=
  exists s t l ts, laid_out v s [bs "transfers"; bs "operation"; bs "objects"] [Some t; Some (VText (fst x)); Some l] /\
    takes_list takes_text t ts /\ takes_list is_object l (snd x).
Lemma dec_batch : decodes d_batch is_batch.
Proof.
  intros j v M a. unfold d_batch, is_batch.
  destruct (struct_spec j v [bs "transfers"; bs "operation"; bs "objects"] M) as [S1 S2].
  pose proof (dec_vec _ _ dec_string) as DT. pose proof (dec_vec _ _ dec_object) as DO. split.
  - intros E. destruct (d_struct _ j) as [[s os]|]; [|discriminate]. destruct (S1 s os eq_refl) as (xs & F & L).
    pose proof (laid_out_length _ _ _ _ L) as N. destruct xs as [|x1 [|x2 [|x3 [|? ?]]]]; try discriminate.
    inversion F as [|o1 ? ? ? O1 F1]; subst. inversion F1 as [|o2 ? ? ? O2 F2]; subst. inversion F2 as [|o3 ? ? ? O3 F3]; subst. inversion F3; subst.
    destruct (req (d_vec d_string) o1) as [i|] eqn:E1; [|discriminate]. destruct (req d_string o2) as [p|] eqn:E2; [|discriminate].
    destruct (req (d_vec d_object) o3) as [q|] eqn:E3; [|discriminate]. injection E as <-. cbn.
    apply (req_iff _ _ DT _ _ O1) in E1 as (y1 & -> & T1). apply (req_iff _ _ dec_string _ _ O2) in E2 as (y2 & -> & ->).
    pose proof (proj1 (req_iff _ _ DO _ _ O3 q) E3) as (y3 & Y3 & T3). subst x3. exists s, y1, y3, i. auto.
  - intros (s & t & l & ts & L & T1 & T3). destruct (S2 _ _ L) as (os & -> & F).
    inversion F as [|o1 ? ? ? O1 F1]; subst. inversion F1 as [|o2 ? ? ? O2 F2]; subst. inversion F2 as [|o3 ? ? ? O3 F3]; subst. inversion F3; subst.
    rewrite (proj2 (req_iff _ _ DT _ _ O1 ts)) by eauto.
    rewrite (proj2 (req_iff _ _ dec_string _ _ O2 (fst a))) by (eexists; split; reflexivity).
    rewrite (proj2 (req_iff _ _ DO _ _ O3 (snd a))) by eauto. destruct a. reflexivity.
Qed.
Lemma text_decodes : forall {A} (d : jv -> option A) P, decodes d P -> forall v t, document v t -> forall a, from_text d t = Some a <-> P v a.
Proof. intros A d P D v t H a. unfold from_text. destruct (document_read v t H) as (j & -> & M). apply D, M. Qed.

(** Lemmas about capability lists, fetch requests and push commands. *)

From Verif Require Import Base BaseLemmas ModelUtils ModelObject ModelBase ModelPkt
  SpecObject SpecIdx SpecBase SpecPkt ProofObject ProofUtf8 ProofPkt.
Open Scope N_scope.

(** ** Splitting and trimming *)

Lemma split_on_ne : forall c l, split_on c l <> [].
Proof. destruct l; cbn; [discriminate|]. destruct (n =? c); [discriminate|]. destruct (split_on c l); discriminate. Qed.

Lemma split_on_spec : forall c l w, In w (split_on c l) <->
  ~ In c w /\ exists pre post, l = pre ++ w ++ post /\
    (pre = [] \/ exists q, pre = q ++ [c]) /\ (post = [] \/ exists q, post = c :: q).
Proof.
  (* generalised: the first word is the one with an empty prefix *)
  assert (G : forall c l, exists w0 ws, split_on c l = w0 :: ws /\
    (forall w, w = w0 <-> ~ In c w /\ exists post, l = w ++ post /\ (post = [] \/ exists q, post = c :: q)) /\
    (forall w, In w ws <-> ~ In c w /\ exists pre post, l = (pre ++ [c]) ++ w ++ post /\
        (post = [] \/ exists q, post = c :: q))).
  { intros c. induction l as [|x l (w0 & ws & E & H0 & H1)].
    - exists [], []. split; [reflexivity|]. split.
      + intros w. split.
        * intros ->. split; [intros []|]. exists []. auto.
        * intros [_ (post & K & _)]. destruct w; [reflexivity|discriminate].
      + intros w. split; [intros []|]. intros [_ (pre & post & K & _)].
        destruct pre; discriminate.
    - cbn [split_on]. destruct (N.eqb_spec x c) as [->|Hx].
      + exists [], (split_on c l). split; [reflexivity|]. split.
        * intros w. split.
          -- intros ->. split; [intros []|]. exists (c :: l). split; [reflexivity|]. right. eauto.
          -- intros [Hw (post & K & _)]. destruct w as [|y w]; [reflexivity|].
             injection K as -> _. exfalso. apply Hw. left. reflexivity.
        * intros w. rewrite E. split.
          -- intros [Q|Hin].
             ++ symmetry in Q. apply H0 in Q as [Hw (post & -> & Hp)]. split; [assumption|].
                exists [], post. split; [reflexivity|assumption].
             ++ apply H1 in Hin as [Hw (pre & post & -> & Hp)]. split; [assumption|].
                exists (c :: pre), post. split; [reflexivity|assumption].
          -- intros [Hw (pre & post & K & Hp)]. destruct pre as [|y pre].
             ++ cbn in K. injection K as ->. left. symmetry. apply H0. split; [assumption|]. eauto.
             ++ cbn in K. injection K as <- ->. right. apply H1. split; [assumption|].
                exists pre, post. split; [reflexivity|assumption].
      + rewrite E. exists (x :: w0), ws. split; [reflexivity|]. split.
        * intros w. split.
          -- intros ->. destruct (proj1 (H0 w0) eq_refl) as [Hw (post & -> & Hp)].
             split; [intros [K|K]; [congruence|contradiction]|]. exists post. split; [reflexivity|assumption].
          -- intros [Hw (post & K & Hp)]. destruct w as [|y w].
             { destruct Hp as [->|(q & ->)]; [discriminate|]. injection K as -> _. congruence. }
             cbn in K. injection K as <- ->. f_equal. apply H0. split; [intros Q; apply Hw; right; assumption|]. eauto.
        * intros w. rewrite H1. split.
          -- intros [Hw (pre & post & -> & Hp)]. split; [assumption|].
             exists (x :: pre), post. split; [reflexivity|assumption].
          -- intros [Hw (pre & post & K & Hp)]. split; [assumption|].
             destruct pre as [|y pre]; [cbn in K; injection K as -> _; congruence|].
             cbn in K. injection K as <- ->. exists pre, post. split; [reflexivity|assumption]. }
  intros c l w. destruct (G c l) as (w0 & ws & E & H0 & H1). rewrite E. cbn [In]. split.
  - intros [Q|Hin].
    + symmetry in Q. apply H0 in Q as [Hw (post & -> & Hp)]. split; [assumption|].
      exists [], post. split; [reflexivity|]. split; [left; reflexivity|assumption].
    + apply H1 in Hin as [Hw (pre & post & -> & Hp)]. split; [assumption|].
      exists (pre ++ [c]), post. eauto.
  - intros [Hw (pre & post & -> & Hq & Hp)]. destruct Hq as [->|(q & ->)].
    + left. symmetry. apply H0. split; [assumption|]. exists post. split; [reflexivity|assumption].
    + right. apply H1. split; [assumption|]. exists q, post. split; [reflexivity|assumption].
Qed.

Definition compatible (p q : bytes) : bool := starts_with p q || starts_with q p.
Definition prefix_free (l : list bytes) : bool :=
  forallb (fun p => negb (beq p []) && forallb (fun q => negb (compatible p q) || beq p q) l) l.

Lemma starts_with_compat : forall p q r, starts_with p (q ++ r) = true -> compatible p q = true.
Proof.
  unfold compatible. induction p as [|x p IH]; intros q r H; [reflexivity|].
  destruct q as [|y q]; [reflexivity|]. cbn [app starts_with] in *.
  apply andb_true_iff in H as [H1 H2]. rewrite H1, (N.eqb_sym y x), H1. cbn [andb]. eapply IH. eassumption.
Qed.

Lemma skip_one_hit : forall pats p r, prefix_free pats = true -> In p pats -> skip_one pats (p ++ r) = Some r.
Proof.
  intros pats p r Hf Hin. unfold skip_one. unfold prefix_free in Hf. rewrite forallb_forall in Hf.
  destruct (find _ pats) as [q|] eqn:E.
  - apply find_some in E as [Hq Hs]. apply starts_with_compat in Hs.
    specialize (Hf _ Hq). apply andb_true_iff in Hf as [_ Hf]. rewrite forallb_forall in Hf.
    specialize (Hf _ Hin). rewrite Hs in Hf. cbn in Hf. apply beq_eq in Hf. subst q.
    rewrite skipn_app_exact. reflexivity.
  - pose proof (find_none _ _ E _ Hin) as K. cbn beta in K. rewrite starts_with_app in K. discriminate.
Qed.
Lemma skip_one_some : forall pats l r, skip_one pats l = Some r -> exists p, In p pats /\ l = p ++ r.
Proof.
  unfold skip_one. intros pats l r H. destruct (find _ pats) as [p|] eqn:E; [|discriminate].
  apply find_some in E as [Hp Hs]. injection H as <-. exists p. split; [assumption|].
  apply starts_with_true in Hs as [q ->]. rewrite skipn_app_exact. reflexivity.
Qed.
Lemma prefix_free_ne : forall pats p, prefix_free pats = true -> In p pats -> p <> [].
Proof.
  intros pats p Hf Hin. unfold prefix_free in Hf. rewrite forallb_forall in Hf.
  specialize (Hf _ Hin). apply andb_true_iff in Hf as [Hf _]. destruct p; [discriminate|discriminate].
Qed.
Lemma skip_all_out : forall pats fuel l, prefix_free pats = true -> (length l <= fuel)%nat ->
  exists cs, Forall (fun c => In c pats) cs /\ l = concat cs ++ skip_all fuel pats l.
Proof.
  intros pats fuel. induction fuel; intros l Hf Hl; cbn [skip_all].
  - exists []. split; [constructor|reflexivity].
  - destruct (skip_one pats l) as [r|] eqn:E.
    + apply skip_one_some in E as (p & Hp & ->).
      pose proof (prefix_free_ne _ _ Hf Hp). destruct p as [|x p]; [congruence|].
      destruct (IHfuel r) as (cs & Hcs & E2); [assumption|rewrite app_length in Hl; cbn in Hl; lia|].
      exists ((x :: p) :: cs). split; [apply Forall_cons; assumption|].
      cbn [concat]. rewrite <- app_assoc. f_equal. assumption.
    + exists []. split; [constructor|reflexivity].
Qed.
Lemma skip_all_hit : forall pats cs fuel x, prefix_free pats = true -> Forall (fun c => In c pats) cs ->
  skip_one pats x = None -> (length (concat cs ++ x) <= fuel)%nat ->
  skip_all fuel pats (concat cs ++ x) = x.
Proof.
  intros pats cs. induction cs as [|c cs IH]; intros fuel x Hf Hcs Hx Hl.
  - cbn. destruct fuel; [reflexivity|]. cbn. rewrite Hx. reflexivity.
  - inversion Hcs; subst. pose proof (prefix_free_ne _ _ Hf H1).
    destruct c as [|y c]; [congruence|].
    destruct fuel as [|fuel]; [cbn in Hl; lia|]. cbn [concat skip_all]. rewrite <- app_assoc.
    rewrite skip_one_hit by assumption. apply IH; try assumption.
    cbn [concat] in Hl. rewrite <- app_assoc in Hl. rewrite app_length in Hl. cbn in Hl. lia.
Qed.

Lemma white_free : prefix_free white_chars = true. Proof. vm_compute. reflexivity. Qed.
Lemma white_free_rev : prefix_free (map (@rev N) white_chars) = true. Proof. vm_compute. reflexivity. Qed.

Lemma white_char_in : forall c, white_char c <-> In c white_chars.
Proof.
  intros c. unfold white_chars. split.
  - intros H. inversion H; subst; cbn [In]; try tauto.
    + assert (c0 = 9 \/ c0 = 10 \/ c0 = 11 \/ c0 = 12 \/ c0 = 13 \/ c0 = 32) by lia.
      intuition (subst; tauto).
    + assert (c0 = 128 \/ c0 = 129 \/ c0 = 130 \/ c0 = 131 \/ c0 = 132 \/ c0 = 133 \/ c0 = 134 \/
              c0 = 135 \/ c0 = 136 \/ c0 = 137 \/ c0 = 138) by lia.
      intuition (subst; tauto).
  - intros H. cbn [In] in H.
    repeat (destruct H as [<-|H]; [first
      [apply wc_ascii; lia | apply wc_nel | apply wc_nbsp | apply wc_ogham | apply wc_en; lia
      | apply wc_line | apply wc_par | apply wc_narrow | apply wc_math | apply wc_ideo]|]).
    destruct H.
Qed.
Lemma blank_in : forall a, blank a <-> exists cs, Forall (fun c => In c white_chars) cs /\ a = concat cs.
Proof.
  intros a. split; intros (cs & H & ->); exists cs; (split; [|reflexivity]);
    (eapply Forall_impl; [|exact H]); intros c; apply white_char_in.
Qed.

(** A text whose first and last byte are visible ASCII characters. *)
Definition visible (c : N) : Prop := 32 < c < 127.
Definition solid (w : bytes) : Prop := (exists c r, w = c :: r /\ visible c) /\ (exists c r, w = r ++ [c] /\ visible c).

Definition heads_ok (pats : list bytes) : bool :=
  forallb (fun p => match p with [] => false | c :: _ => (c <=? 32) || (127 <? c) end) pats.
Lemma skip_one_visible : forall pats c r, heads_ok pats = true -> visible c -> skip_one pats (c :: r) = None.
Proof.
  intros pats c r Hh Hc. unfold skip_one. destruct (find _ pats) as [p|] eqn:E; [|reflexivity].
  apply find_some in E as [Hp Hs]. unfold heads_ok in Hh. rewrite forallb_forall in Hh.
  specialize (Hh _ Hp). destruct p as [|x p]; [discriminate|]. cbn in Hs.
  apply andb_true_iff in Hs as [Hs _]. unfold visible in Hc. lia.
Qed.

Lemma concat_rev_rev : forall cs : list bytes, rev (concat cs) = concat (rev (map (@rev N) cs)).
Proof.
  induction cs; [reflexivity|]. cbn [concat map rev]. rewrite rev_app_distr, concat_app, IHcs. cbn.
  rewrite app_nil_r. reflexivity.
Qed.
Lemma Forall_map_in : forall cs, Forall (fun c => In c white_chars) cs ->
  Forall (fun c => In c (map (@rev N) white_chars)) (rev (map (@rev N) cs)).
Proof.
  intros. apply Forall_rev. apply Forall_map. eapply Forall_impl; [|exact H]. intros. apply in_map. assumption.
Qed.

Lemma trim_spec : forall w name, solid name ->
  trim w = name <-> exists a b, blank a /\ blank b /\ w = a ++ name ++ b.
Proof.
  intros w name [(c0 & r0 & E0 & V0) (c1 & r1 & E1 & V1)]. split.
  - intros H. unfold trim in H.
    destruct (skip_all_out white_chars (length w) w white_free (le_n _)) as (ca & Ha & Ea).
    fold (trim_start w) in Ea. set (x := trim_start w) in *.
    unfold trim_end in H.
    destruct (skip_all_out (map (@rev N) white_chars) (length x) (rev x) white_free_rev) as (cb & Hb & Eb).
    { rewrite rev_length. apply le_n. }
    apply (f_equal (@rev N)) in Eb. rewrite rev_app_distr, rev_involutive, H in Eb.
    exists (concat ca), (rev (concat cb)). split; [apply blank_in; eauto|]. split.
    + apply blank_in. exists (rev (map (@rev N) cb)). split; [|apply concat_rev_rev].
      apply Forall_rev, Forall_map. eapply Forall_impl; [|exact Hb]. intros c Hc. cbn beta in Hc.
      apply in_map_iff in Hc as (y & <- & Hy). rewrite rev_involutive. assumption.
    + rewrite <- Eb. assumption.
  - intros (a & b & Ha & Hb & ->). apply blank_in in Ha as (ca & Ha & ->). apply blank_in in Hb as (cb & Hb & ->).
    unfold trim.
    assert (T : trim_start (concat ca ++ name ++ concat cb) = name ++ concat cb).
    { unfold trim_start. apply skip_all_hit; [apply white_free|assumption| |apply le_n].
      rewrite E0. cbn [app]. apply skip_one_visible; [vm_compute; reflexivity|assumption]. }
    rewrite T. unfold trim_end. rewrite rev_app_distr, concat_rev_rev.
    rewrite skip_all_hit.
    + apply rev_involutive.
    + apply white_free_rev.
    + apply Forall_map_in. assumption.
    + rewrite E1, rev_app_distr. cbn [rev app]. apply skip_one_visible; [vm_compute; reflexivity|assumption].
    + rewrite <- concat_rev_rev, <- rev_app_distr, rev_length. apply le_n.
Qed.

(** ** Capabilities *)

Lemma cap_from_str_spec : forall s c, cap_from_str s = Some c <-> s = cap_text c.
Proof.
  intros s c. split.
  - unfold cap_from_str.
    repeat (match goal with |- (if beq s ?k then _ else _) = _ -> _ => destruct (beq s k) eqn:E;
      [apply beq_eq in E; intros K; injection K as <-; exact E|clear E] end).
    discriminate.
  - intros ->. destruct c; vm_compute; reflexivity.
Qed.
Definition solidb (w : bytes) : bool :=
  match w with [] => false | c :: _ => (32 <? c) && (c <? 127) end &&
  match rev w with [] => false | c :: _ => (32 <? c) && (c <? 127) end.
Lemma solidb_ok : forall w, solidb w = true -> solid w.
Proof.
  unfold solidb. intros w H. apply andb_true_iff in H as [H1 H2]. split.
  - destruct w as [|c r]; [discriminate|]. exists c, r. split; [reflexivity|]. unfold visible. lia.
  - destruct (rev w) as [|c r] eqn:E; [discriminate|]. exists c, (rev r). split.
    + rewrite <- (rev_involutive w), E. reflexivity.
    + unfold visible. lia.
Qed.
Lemma cap_text_solid : forall c, solid (cap_text c).
Proof. intros. apply solidb_ok. destruct c; vm_compute; reflexivity. Qed.

Lemma white_32 : forall c, In c white_chars -> c = [32] \/ ~ In 32 c.
Proof.
  intros c H. assert (E : forallb (fun c => beq c [32] || negb (existsb (N.eqb 32) c)) white_chars = true)
    by (vm_compute; reflexivity).
  rewrite forallb_forall in E. specialize (E _ H). apply orb_true_iff in E as [E|E].
  - left. apply beq_eq. assumption.
  - right. intros K. apply negb_true_iff in E. rewrite <- not_true_iff_false in E. apply E.
    apply existsb_exists. exists 32. split; [assumption|reflexivity].
Qed.
Lemma blank_app : forall a b, blank a -> blank b -> blank (a ++ b).
Proof.
  intros a b (ca & Ha & ->) (cb & Hb & ->). exists (ca ++ cb). split; [apply Forall_app; auto|].
  rewrite concat_app. reflexivity.
Qed.
Lemma blank_nil : blank []. Proof. exists []. split; [constructor|reflexivity]. Qed.
Lemma blank_one : forall c, In c white_chars -> blank c.
Proof.
  intros. exists [c]. split; [apply Forall_cons; [apply white_char_in; assumption|constructor]|].
  cbn. rewrite app_nil_r. reflexivity.
Qed.

Lemma blank_left : forall cs pre, Forall (fun c => In c white_chars) cs -> (pre = [] \/ exists q, pre = q ++ [32]) ->
  exists pre' a', pre ++ concat cs = pre' ++ a' /\ blank a' /\ ~ In 32 a' /\ (pre' = [] \/ exists q, pre' = q ++ [32]).
Proof.
  induction cs as [|c cs IH] using rev_ind; intros pre H Hp.
  - exists pre, []. split; [reflexivity|]. split; [apply blank_nil|]. split; [intros []|assumption].
  - apply Forall_app in H as [H Hc]. inversion Hc; subst. rewrite concat_app. cbn [concat]. rewrite app_nil_r.
    destruct (white_32 _ H2) as [->|N32].
    + exists (pre ++ concat cs ++ [32]), []. split; [rewrite app_nil_r; reflexivity|].
      split; [apply blank_nil|]. split; [intros []|]. right. exists (pre ++ concat cs). apply app_assoc.
    + destruct (IH _ H Hp) as (pre' & a' & E & Ha & Na & Hpre). exists pre', (a' ++ c).
      rewrite !app_assoc, E. split; [reflexivity|]. split; [apply blank_app; [assumption|apply blank_one; assumption]|].
      split; [|assumption]. intros K. apply in_app_or in K. tauto.
Qed.
Lemma blank_right : forall cs post, Forall (fun c => In c white_chars) cs -> (post = [] \/ exists q, post = 32 :: q) ->
  exists b' post', concat cs ++ post = b' ++ post' /\ blank b' /\ ~ In 32 b' /\ (post' = [] \/ exists q, post' = 32 :: q).
Proof.
  induction cs as [|c cs IH]; intros post H Hp.
  - exists [], post. split; [reflexivity|]. split; [apply blank_nil|]. split; [intros []|assumption].
  - inversion H; subst. cbn [concat]. destruct (white_32 _ H2) as [->|N32].
    + exists [], ([32] ++ concat cs ++ post). split; [rewrite <- app_assoc; reflexivity|].
      split; [apply blank_nil|]. split; [intros []|]. right. eexists. reflexivity.
    + destruct (IH _ H3 Hp) as (b' & post' & E & Hb & Nb & Hpost). exists (c ++ b'), post'.
      rewrite <- !app_assoc, E. split; [reflexivity|]. split; [apply blank_app; [apply blank_one; assumption|assumption]|].
      split; [|assumption]. intros K. apply in_app_or in K. tauto.
Qed.

Lemma cap_text_32 : forall c, ~ In 32 (cap_text c).
Proof.
  intros c K. assert (E : existsb (N.eqb 32) (cap_text c) = true).
  { apply existsb_exists. exists 32. split; [assumption|reflexivity]. }
  destruct c; vm_compute in E; discriminate.
Qed.
Lemma parse_capabilities_spec : forall caps t c,
  In c (parse_capabilities caps t) <-> In c caps \/ cap_word t (cap_text c).
Proof.
  intros caps t c. unfold parse_capabilities. rewrite in_app_iff, in_flat_map.
  assert (E : (exists x, In x (split_on 32 t) /\ In c match cap_from_str (trim x) with Some c0 => [c0] | None => [] end)
    <-> cap_word t (cap_text c)); [|rewrite E; reflexivity]. split.
  - intros (w & Hw & Hc). destruct (cap_from_str (trim w)) as [c'|] eqn:E; [|destruct Hc].
    destruct Hc as [->|[]]. apply cap_from_str_spec in E. apply trim_spec in E as (a & b & Ha & Hb & ->); [|apply cap_text_solid].
    apply split_on_spec in Hw as [_ (pre & post & -> & Hp & Hq)].
    exists pre, a, b, post. rewrite <- !app_assoc. auto.
  - intros (pre & a & b & post & -> & Ha & Hb & Hp & Hq).
    apply blank_in in Ha as (ca & Ha & ->). apply blank_in in Hb as (cb & Hb & ->).
    destruct (blank_left _ _ Ha Hp) as (pre' & a' & E1 & Ha' & Na & Hp').
    destruct (blank_right _ _ Hb Hq) as (b' & post' & E2 & Hb' & Nb & Hq').
    exists (a' ++ cap_text c ++ b'). split.
    + apply split_on_spec. split.
      * intros K. apply in_app_or in K as [K|K]; [contradiction|]. apply in_app_or in K as [K|K]; [|contradiction].
        exact (cap_text_32 _ K).
      * exists pre', post'. split; [|auto]. rewrite app_assoc, E1, E2, <- !app_assoc. reflexivity.
    + assert (T : trim (a' ++ cap_text c ++ b') = cap_text c).
      { apply trim_spec; [apply cap_text_solid|]. eauto. }
      rewrite T. rewrite (proj2 (cap_from_str_spec _ c) eq_refl). left. reflexivity.
Qed.
Lemma has_cap_spec : forall c l, has_cap c l = true <-> In c l.
Proof.
  intros. unfold has_cap. rewrite existsb_exists. split.
  - intros (x & Hx & E). destruct c, x; try discriminate; assumption.
  - intros. exists c. split; [assumption|]. destruct c; reflexivity.
Qed.

(** ** Fetch requests *)

Lemma set_insert_in : forall x l y, In y (set_insert x l) <-> In y l \/ y = x.
Proof.
  intros. unfold set_insert. destruct (existsb (beq x) l) eqn:E.
  - apply existsb_exists in E as (z & Hz & Q). apply beq_eq in Q. subst. split; [tauto|]. intros [?| ->]; assumption.
  - rewrite in_app_iff. cbn. intuition.
Qed.
Lemma set_insert_nodup : forall x l, NoDup l -> NoDup (set_insert x l).
Proof.
  intros. unfold set_insert. destruct (existsb (beq x) l) eqn:E; [assumption|].
  rewrite <- (rev_involutive (l ++ [x])). apply NoDup_rev. rewrite rev_app_distr. cbn. constructor.
  - intros K. apply in_rev in K. rewrite <- not_true_iff_false in E. apply E.
    apply existsb_exists. exists x. split; [assumption|apply beq_refl].
  - apply NoDup_rev. assumption.
Qed.

Definition tail_caps (caps : list capability) (first : bool) (o : option bytes) : list capability :=
  match first, o with true, Some t => parse_capabilities caps t | _, _ => caps end.

(** One line of the request. *)
Lemma upload_step : forall f first want have caps p b r,
  pkt_line p b ->
  upload_loop (S f) first want have caps (b ++ r) =
  (let? cmd := slice 0 4 p in
      if beq cmd (bs "want") then
        let? s := slice 5 45 p in
        let? id := utf8_unwrap s in
        let want' := set_insert id want in
        if first then
          let? t := slice_from 46 p in
          let? t := utf8_unwrap t in
          upload_loop f false want' have (parse_capabilities caps t) r
        else upload_loop f first want' have caps r
      else if beq cmd (bs "have") then
        let? s := slice 5 45 p in
        let? id := utf8_unwrap s in
        let have' := set_insert id have in
        if first then
          let? t := slice_from 46 p in
          let? t := utf8_unwrap t in
          upload_loop f false want have' (parse_capabilities caps t) r
        else upload_loop f first want have' caps r
      else if beq cmd (bs "done") then Ok (want, have, caps, r)
      else upload_loop f first want have caps r).
Proof.
  intros. cbn [upload_loop]. rewrite (read_pkt _ _ r H). cbn [bind].
  replace (nlen p + 4 =? 0) with false by lia. reflexivity.
Qed.

Lemma upload_flush : forall f first want have caps r,
  upload_loop (S f) first want have caps (flush ++ r) = upload_loop f first want have caps r.
Proof. intros. cbn [upload_loop]. rewrite read_flush. reflexivity. Qed.

Definition result_of (items : list req_item) (want have want' have' : list bytes) : Prop :=
  (forall id, In id want' <-> In id want \/ exists t, In (RWant id t) items) /\
  (forall id, In id have' <-> In id have \/ exists t, In (RHave id t) items) /\
  (NoDup want -> NoDup want') /\ (NoDup have -> NoDup have').

Definition want_bytes : bytes := [119; 97; 110; 116].
Definition have_bytes : bytes := [104; 97; 118; 101].
Lemma want_cmd : forall id tail, bs "want " ++ id ++ tail = want_bytes ++ 32 :: id ++ tail. Proof. reflexivity. Qed.
Lemma have_cmd : forall id tail, bs "have " ++ id ++ tail = have_bytes ++ 32 :: id ++ tail. Proof. reflexivity. Qed.

Lemma slice_5_45 : forall k id tail, length k = 4%nat -> length id = 40%nat ->
  slice 5 45 (k ++ 32 :: id ++ tail) = Ok id.
Proof.
  intros. change (32 :: id ++ tail) with ([32] ++ id ++ tail). rewrite app_assoc.
  apply slice_mid; rewrite app_length; cbn [length]; lia.
Qed.
Lemma slice_46 : forall k id sep t, length k = 4%nat -> length id = 40%nat ->
  slice_from 46 (k ++ 32 :: id ++ sep :: t) = Ok t.
Proof.
  intros. replace (k ++ 32 :: id ++ sep :: t) with ((k ++ 32 :: id ++ [sep]) ++ t).
  - apply slice_from_app. rewrite app_length. cbn [length]. rewrite app_length. cbn [length]. lia.
  - rewrite <- app_assoc. cbn [app]. rewrite <- app_assoc. reflexivity.
Qed.

Lemma upload_items : forall items b, req_bytes items b ->
  forall first o want have caps rest fuel,
  (first = true -> first_tail items o /\ match o with Some t => utf8_text t | None => True end) ->
  exists first' want' have' ,
    upload_loop (length items + fuel) first want have caps (b ++ rest) =
    upload_loop fuel first' want' have' (tail_caps caps first o) rest /\
    result_of items want have want' have' /\
    (first' = true <-> first = true /\ o = None).
Proof.
  induction 1 as [|i l b bs' Hok Hb Hr IH]; intros first o want have caps rest fuel Ho.
  - exists first, want, have. split.
    + cbn. destruct first; [|reflexivity]. destruct (Ho eq_refl) as [K _]. inversion K; subst. reflexivity.
    + split; [split; [|split; [|split]]; try tauto; intros id; (split; [tauto|]; intros [?|(t & [])]; assumption)|].
      split; [|tauto]. intros ->. destruct (Ho eq_refl) as [K _]. inversion K. tauto.
  - cbn [length Nat.add]. rewrite <- app_assoc.
    assert (KEEP : forall first1 want1 have1 caps1 o1,
      (first1 = true -> first_tail l o1 /\ match o1 with Some t => utf8_text t | None => True end) ->
      upload_loop (S (length l + fuel)) first want have caps (b ++ bs' ++ rest) =
      upload_loop (length l + fuel) first1 want1 have1 caps1 (bs' ++ rest) ->
      tail_caps caps1 first1 o1 = tail_caps caps first o ->
      (forall id, In id want1 <-> In id want \/ exists t, i = RWant id t) ->
      (forall id, In id have1 <-> In id have \/ exists t, i = RHave id t) ->
      (NoDup want -> NoDup want1) -> (NoDup have -> NoDup have1) ->
      (first1 = true /\ o1 = None <-> first = true /\ o = None) ->
      exists first' want' have',
        upload_loop (S (length l + fuel)) first want have caps (b ++ bs' ++ rest) =
        upload_loop fuel first' want' have' (tail_caps caps first o) rest /\
        result_of (i :: l) want have want' have' /\ (first' = true <-> first = true /\ o = None)).
    { intros first1 want1 have1 caps1 o1 H1 E1 E2 Hw Hh Nw Nh Hf.
      destruct (IH first1 o1 want1 have1 caps1 rest fuel H1) as (f' & w' & h' & E & (R1 & R2 & R3 & R4) & F).
      exists f', w', h'. split; [rewrite E1, E, E2; reflexivity|]. split; [|rewrite F; assumption].
      split; [|split; [|split]]; try tauto.
      - intros id. rewrite R1, Hw. cbn [In]. split.
        + intros [[?|[t ?]]|[t ?]]; [tauto| |]; right; exists t; tauto.
        + intros [?|[t [?|?]]]; [tauto| |]; [left; right; eauto|right; eauto].
      - intros id. rewrite R2, Hh. cbn [In]. split.
        + intros [[?|[t ?]]|[t ?]]; [tauto| |]; right; exists t; tauto.
        + intros [?|[t [?|?]]]; [tauto| |]; [left; right; eauto|right; eauto]. }
    inversion Hb as [id tail b0 Hp|id tail b0 Hp| |p b0 Hp]; subst.
    + destruct Hok as [Hl Ha].
      assert (U : utf8_unwrap id = Ok id) by (apply utf8_unwrap_text, utf8_text_ascii, Ha).
      rewrite want_cmd in Hp.
      assert (W : forall x, In x (set_insert id want) <-> In x want \/ exists t, RWant id tail = RWant x t).
      { intros. rewrite set_insert_in. split; (intros [?|K]; [tauto|right]); [subst; eauto|]. destruct K as [t K]. congruence. }
      assert (Hv : forall x, In x have <-> In x have \/ exists t, RWant id tail = RHave x t).
      { intros. split; [tauto|]. intros [?|[t K]]; [assumption|discriminate]. }
      destruct first.
      * destruct (Ho eq_refl) as [T Tu]. inversion T; subst.
        apply (KEEP false (set_insert id want) have (parse_capabilities caps t) None); try assumption; try tauto.
        -- discriminate.
        -- rewrite (upload_step _ _ _ _ _ _ _ _ Hp). rewrite slice_prefix by reflexivity. cbn [bind].
           change (beq want_bytes (bs "want")) with true. cbv iota. rewrite slice_5_45 by (try reflexivity; assumption).
           cbn [bind]. rewrite U. cbn [bind]. rewrite slice_46 by (try reflexivity; assumption). cbn [bind].
           rewrite utf8_unwrap_text by assumption. reflexivity.
        -- apply set_insert_nodup.
        -- split; [intros [? _]|intros [_ ?]]; discriminate.
      * apply (KEEP false (set_insert id want) have caps None); try assumption; try tauto.
        -- discriminate.
        -- rewrite (upload_step _ _ _ _ _ _ _ _ Hp). rewrite slice_prefix by reflexivity. cbn [bind].
           change (beq want_bytes (bs "want")) with true. cbv iota. rewrite slice_5_45 by (try reflexivity; assumption).
           cbn [bind]. rewrite U. reflexivity.
        -- apply set_insert_nodup.
        -- split; intros [? _]; discriminate.
    + destruct Hok as [Hl Ha].
      assert (U : utf8_unwrap id = Ok id) by (apply utf8_unwrap_text, utf8_text_ascii, Ha).
      rewrite have_cmd in Hp.
      assert (W : forall x, In x (set_insert id have) <-> In x have \/ exists t, RHave id tail = RHave x t).
      { intros. rewrite set_insert_in. split; (intros [?|K]; [tauto|right]); [subst; eauto|]. destruct K as [t K]. congruence. }
      assert (Hv : forall x, In x want <-> In x want \/ exists t, RHave id tail = RWant x t).
      { intros. split; [tauto|]. intros [?|[t K]]; [assumption|discriminate]. }
      destruct first.
      * destruct (Ho eq_refl) as [T Tu]. inversion T; subst.
        apply (KEEP false want (set_insert id have) (parse_capabilities caps t) None); try assumption; try tauto.
        -- discriminate.
        -- rewrite (upload_step _ _ _ _ _ _ _ _ Hp). rewrite slice_prefix by reflexivity. cbn [bind].
           change (beq have_bytes (bs "want")) with false. change (beq have_bytes (bs "have")) with true.
           cbv iota. rewrite slice_5_45 by (try reflexivity; assumption).
           cbn [bind]. rewrite U. cbn [bind]. rewrite slice_46 by (try reflexivity; assumption). cbn [bind].
           rewrite utf8_unwrap_text by assumption. reflexivity.
        -- apply set_insert_nodup.
        -- split; [intros [? _]|intros [_ ?]]; discriminate.
      * apply (KEEP false want (set_insert id have) caps None); try assumption; try tauto.
        -- discriminate.
        -- rewrite (upload_step _ _ _ _ _ _ _ _ Hp). rewrite slice_prefix by reflexivity. cbn [bind].
           change (beq have_bytes (bs "want")) with false. change (beq have_bytes (bs "have")) with true.
           cbv iota. rewrite slice_5_45 by (try reflexivity; assumption).
           cbn [bind]. rewrite U. reflexivity.
        -- apply set_insert_nodup.
        -- split; intros [? _]; discriminate.
    + apply (KEEP first want have caps o); try tauto.
      * intros ->. destruct (Ho eq_refl) as [T Tu]. inversion T; subst. tauto.
      * intros id. split; [tauto|]. intros [?|[t K]]; [assumption|discriminate].
      * intros id. split; [tauto|]. intros [?|[t K]]; [assumption|discriminate].
    + cbn [item_ok] in Hok. destruct Hok as (L4 & N1 & N2 & N3).
      apply (KEEP first want have caps o); try tauto.
      * intros ->. destruct (Ho eq_refl) as [T Tu]. inversion T; subst. tauto.
      * rewrite (upload_step _ _ _ _ _ _ _ _ Hp).
        assert (S4 : slice 0 4 p = Ok (firstn 4 p)).
        { rewrite <- (firstn_skipn 4 p) at 1. apply slice_prefix. rewrite firstn_length. lia. }
        rewrite S4. cbn [bind]. apply beq_neq in N1, N2, N3. rewrite N1, N2, N3. reflexivity.
      * intros id. split; [tauto|]. intros [?|[t K]]; [assumption|discriminate].
      * intros id. split; [tauto|]. intros [?|[t K]]; [assumption|discriminate].
Qed.

Lemma upload_done : forall fuel first want have caps x b rest, pkt_line (bs "done" ++ x) b ->
  upload_loop (S fuel) first want have caps (b ++ rest) = Ok (want, have, caps, rest).
Proof.
  intros. rewrite (upload_step _ _ _ _ _ _ _ _ H). change (bs "done" ++ x) with ([100; 111; 110; 101] ++ x).
  rewrite slice_prefix by reflexivity. cbn [bind]. reflexivity.
Qed.

Lemma upload_end : forall fuel first want have caps, upload_loop fuel first want have caps [] = OutOfFuel.
Proof. induction fuel; intros; [reflexivity|]. cbn. apply IHfuel. Qed.

Lemma pkt_front_shrinks : forall b n p r, pkt_front b n p r -> b <> [] -> (length r < length b)%nat.
Proof.
  intros b n p r H Hb. destruct H as [|l rest Hl|l p rest Hl]; [congruence| |];
    pose proof (length_field_len _ _ Hl); rewrite !app_length; lia.
Qed.

Lemma slice_cases : forall i j (l : bytes), (exists x, slice i j l = Ok x) \/ slice i j l = Panic.
Proof. intros. unfold slice. destruct (_ && _); [left; eauto|right; reflexivity]. Qed.
Lemma slice_from_cases : forall i (l : bytes), (exists x, slice_from i l = Ok x) \/ slice_from i l = Panic.
Proof. intros. unfold slice_from. destruct (_ <=? _)%nat; [left; eauto|right; reflexivity]. Qed.
Lemma utf8_unwrap_cases : forall l, utf8_unwrap l = Ok l \/ utf8_unwrap l = Panic.
Proof. intros. unfold utf8_unwrap. destruct (utf8_valid l); auto. Qed.

Lemma upload_diverges : forall k b first want have caps, (length b <= k)%nat ->
  (forall fuel, upload_loop fuel first want have caps b = OutOfFuel) ->
  exists ps, all_read ps b /\ Forall (fun p => firstn 4 p <> bs "done") ps.
Proof.
  induction k; intros b first want have caps Hk H.
  - destruct b; [|cbn in Hk; lia]. exists []. split; constructor.
  - destruct b as [|c b']; [exists []; split; constructor|].
    remember (c :: b') as b eqn:Eb. assert (NE : b <> []) by (subst; discriminate). clear Eb c b'.
    destruct (read_pkt_line_cases b) as [(n & p & r & E)|E];
      [|specialize (H 1%nat); cbn [upload_loop] in H; rewrite E in H; discriminate].
    pose proof (proj1 (read_pkt_line_spec _ _ _ _) E) as Hf.
    pose proof (pkt_front_shrinks _ _ _ _ Hf NE) as Lr.
    assert (IH : forall first want have caps,
      (forall fuel, upload_loop fuel first want have caps r = OutOfFuel) -> firstn 4 p <> bs "done" ->
      exists ps, all_read ps b /\ Forall (fun p => firstn 4 p <> bs "done") ps).
    { intros f1 w1 h1 c1 K Hp. destruct (IHk r f1 w1 h1 c1) as (ps & A & F); [lia|assumption|].
      exists (p :: ps). split; [econstructor; eassumption|apply Forall_cons; assumption]. }
    assert (ST : forall f, (if (n =? 0) && (match p with [] => true | _ => false end)
      then upload_loop f first want have caps r
      else
      let? cmd := slice 0 4 p in
      if beq cmd (bs "want") then
        let? s := slice 5 45 p in
        let? id := utf8_unwrap s in
        let want' := set_insert id want in
        if first then
          let? t := slice_from 46 p in
          let? t := utf8_unwrap t in
          upload_loop f false want' have (parse_capabilities caps t) r
        else upload_loop f first want' have caps r
      else if beq cmd (bs "have") then
        let? s := slice 5 45 p in
        let? id := utf8_unwrap s in
        let have' := set_insert id have in
        if first then
          let? t := slice_from 46 p in
          let? t := utf8_unwrap t in
          upload_loop f false want have' (parse_capabilities caps t) r
        else upload_loop f first want have' caps r
      else if beq cmd (bs "done") then Ok (want, have, caps, r)
      else upload_loop f first want have caps r) = OutOfFuel).
    { intros f. specialize (H (S f)). cbn [upload_loop] in H. rewrite E in H. exact H. }
    clear H E. destruct ((n =? 0) && _) eqn:E0.
    { apply (IH first want have caps ST). destruct p; [discriminate|]. rewrite andb_false_r in E0. discriminate. }
    destruct (slice_cases 0 4 p) as [[cmd E1]|E1]; rewrite E1 in ST; [|specialize (ST O); discriminate].
    assert (C4 : firstn 4 p = cmd).
    { apply slice_ok in E1 as (a & c & -> & Ha & Hb). destruct a; [|discriminate]. exact (firstn_app_n _ 4 cmd c Hb). }
    cbn [bind] in ST.
    destruct (beq cmd (bs "want")) eqn:EW.
    + apply beq_eq in EW. rewrite EW in C4. assert (ND : firstn 4 p <> bs "done") by (rewrite C4; discriminate).
      destruct (slice_cases 5 45 p) as [[s Es]|Es]; rewrite Es in ST; [|specialize (ST O); discriminate]. cbn [bind] in ST.
      destruct (utf8_unwrap_cases s) as [Eu|Eu]; rewrite Eu in ST; [|specialize (ST O); discriminate]. cbn [bind] in ST.
      destruct first; [|exact (IH _ _ _ _ ST ND)].
      destruct (slice_from_cases 46 p) as [[t Et]|Et]; rewrite Et in ST; [|specialize (ST O); discriminate]. cbn [bind] in ST.
      destruct (utf8_unwrap_cases t) as [Ev|Ev]; rewrite Ev in ST; [|specialize (ST O); discriminate]. cbn [bind] in ST.
      exact (IH _ _ _ _ ST ND).
    + destruct (beq cmd (bs "have")) eqn:EH.
      * apply beq_eq in EH. rewrite EH in C4. assert (ND : firstn 4 p <> bs "done") by (rewrite C4; discriminate).
        destruct (slice_cases 5 45 p) as [[s Es]|Es]; rewrite Es in ST; [|specialize (ST O); discriminate]. cbn [bind] in ST.
        destruct (utf8_unwrap_cases s) as [Eu|Eu]; rewrite Eu in ST; [|specialize (ST O); discriminate]. cbn [bind] in ST.
        destruct first; [|exact (IH _ _ _ _ ST ND)].
        destruct (slice_from_cases 46 p) as [[t Et]|Et]; rewrite Et in ST; [|specialize (ST O); discriminate]. cbn [bind] in ST.
        destruct (utf8_unwrap_cases t) as [Ev|Ev]; rewrite Ev in ST; [|specialize (ST O); discriminate]. cbn [bind] in ST.
        exact (IH _ _ _ _ ST ND).
      * destruct (beq cmd (bs "done")) eqn:ED; [specialize (ST O); discriminate|].
        apply (IH _ _ _ _ ST). rewrite C4. apply beq_neq. assumption.
Qed.

(** ** Push commands *)

Lemma ascii_white_in : forall c, ascii_white c = true <-> In c [32; 9; 10; 12; 13].
Proof. intros. unfold ascii_white. cbn [In]. lia. Qed.
Lemma until_white_app : forall w t, no_white w -> ends_word t -> until_white (w ++ t) = (w, tl t).
Proof.
  induction w as [|c w IH]; intros t Hw Ht.
  - destruct Ht as [->|(c & r & -> & Hc)]; [reflexivity|]. cbn. apply ascii_white_in in Hc. rewrite Hc. reflexivity.
  - inversion Hw; subst. cbn. rewrite IH by assumption. destruct (ascii_white c) eqn:E; [|reflexivity].
    apply ascii_white_in in E. contradiction.
Qed.
Lemma read_word : forall w t, no_white w -> ends_word t -> utf8_text w -> read_until_white_space (w ++ t) = Ok (w, tl t).
Proof.
  intros. unfold read_until_white_space. rewrite until_white_app by assumption.
  rewrite utf8_unwrap_text by assumption. reflexivity.
Qed.

(** ** Acknowledgements *)

Lemma pkt_lines_app : forall ps b qs c, pkt_lines ps b -> pkt_lines qs c -> pkt_lines (ps ++ qs) (b ++ c).
Proof. induction 1; intros; [assumption|]. cbn [app]. rewrite <- app_assoc. constructor; auto. Qed.
Lemma add_pkt_lines : forall ps buf p, pkt_lines ps buf -> nlen p <= 65531 -> pkt_lines (ps ++ [p]) (add_pkt_line buf p).
Proof.
  intros. apply pkt_lines_app; [assumption|]. rewrite <- (app_nil_r (_ ++ p)). constructor; [|constructor].
  apply hex4_pkt. assumption.
Qed.

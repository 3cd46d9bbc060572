(** C92, C93: a push among other requests; requests come to an end. *)

From Coq Require Import Permutation.
From Verif Require Import Base BaseLemmas Digest ModelUtils ModelObject ModelBase ModelPack ModelDecode ModelPkt ModelStorage ModelProto
  ModelLfs ModelGateway ModelService ModelConc StoredZlib SpecObject SpecIdx SpecBase SpecPack SpecPkt SpecStorage SpecProto SpecGateway SpecService
  SpecConc ProofObject ProofUtf8 ProofBase ProofPack ProofPkt ProofReq ProofEncode ProofNodes ProofStorage ProofPush ProofClone ProofRepo ProofRefs
  ProofSession ProofGraph ProofExample PropPkt PropStorage PropProto PropGateway ProofService PropService ProofConc ProofWhole ProofSnapshot
  PropConc ProofTogether.
Open Scope N_scope.

(** ** C92: a push among other requests *)

(** A complete request to push the history [l]: [old] to [new]. *)
Definition full_push (c : codec) (r : request) (now : N) (path old new name caps : bytes) (l : list object) : Prop :=
  exists m p s q body pack h, r = QHttp now m p s q body /\ gateway m p s q = Ok (AReceivePack path) /\
    push_request old new name caps pack body /\ (forall st, exists objs, git_pack c st pack objs /\ map snd objs = l) /\ nlen pack < 2 ^ 32 /\
    history path l /\ id_ok h /\ lower_hex new h /\ word name /\ utf8_text caps /\
    (exists k, text_len name k /\ (k <= 31)%nat) /\ (exists k, text_len path k /\ (k <= 64)%nat).

Lemma short_name : forall name k, text_len name k -> (k <= 31)%nat -> nlen name <= 60000.
Proof.
  intros name k (cs & Fs & -> & Ec) Lk. assert (B : (length (flat_map utf8_char cs) <= 4 * length cs)%nat).
  { clear. induction cs as [|x cs IH]; [cbn; lia|]. cbn [flat_map]. rewrite app_length. cbn [length].
    assert (length (utf8_char x) <= 4)%nat; [|lia]. unfold utf8_char. repeat destruct (_ <? _); cbn [length]; lia. }
  unfold nlen. rewrite Ec in B. lia.
Qed.

Section Among.
Context (e : env) (b : build) (c : codec) (cut : bytes -> list bytes) (rs : list request) (i : nat) (r : request) (w : world).
Context (He : env_ok e) (Q : no_failure w) (T : refs_table (w_db w)) (Ni : nth_error rs i = Some r).
Context (now : N) (path old new name caps : bytes) (l : list object) (Hp : full_push c r now path old new name caps l) (Wo : word old).
Context (Os : own_second rs i now).
Context (L : db -> db -> Prop) (Lr : forall d, L d d) (Lt : forall x y z, L x y -> L y z -> L x z) (Ln : forall d d', L d d' -> nothing_lost d d').
Context (Lo : forall d d' j, j <> i -> refs_table d -> refs_table d' -> by_request e rs j d d' -> L d d').
Context (D0 D1 : db -> Prop) (S0 : stable L D0) (S1 : stable L D1).
Context (R0 : forall d d', d_refs d' = d_refs d -> d_next_ref d' = d_next_ref d -> D0 d -> D0 d') (W0 : D0 (w_db w)).
Context (Hr : forall bd w', at_db (temp_path now) (Some bd) (fun d => rows_stored path l d /\ D0 d) w' ->
  keeps e (temp_path now) L (ends (fun _ w2 => at_db (temp_path now) (Some bd) (fun d => rows_stored path l d /\ D1 d) w2))
    (handle_refs_p e (cmd_unpacked (ref_command_new old new (name ++ [0])) None) path) w').

Lemma push_among : exists fuel0 cl, caps_in caps cl /\ forall fuel schedule o, (fuel0 <= fuel)%nat ->
  let F := interleave e schedule (started e b c fuel cut rs) w in
  nth_error (fst F) i = Some (PRet o) ->
  (exists reply, o = Ok reply /\ status_reply cl [bs "ok " ++ name ++ [0]] reply) /\ rows_stored path l (w_db (snd F)) /\ D1 (w_db (snd F)).
Proof.
  destruct Hp as (m & p & s & q & body & pack & h & Er & Gw & Rq & Hg & Hn & Hh & Hi & Hx & Hm & Hc & (k & Tk & Lk) & _).
  destruct (hs_acyclic _ _ Hh) as (rank & Ac). destruct (root_bound rank l (hs_sound _ _ Hh)) as (n & Bn).
  destruct (first_prog e b c now path old new name caps pack body Wo (hex_word _ _ Hx Hi) Hm Hc Rq) as (cl & Hcl & Ep).
  exists (S n), cl. split; [exact Hcl|]. intros fuel schedule o Hf F Ho.
  set (tp := temp_path now).
  set (Qf := ends (fun reply w' => status_reply cl [bs "ok " ++ name ++ [0]] reply /\ at_db tp None (fun d => rows_stored path l d /\ D1 d) w')).
  assert (K : keeps e tp L Qf (serve_p e b c fuel cut r) w).
  { rewrite Er. unfold serve_p. rewrite Gw. unfold pbind at 1. cbn [then_any]. rewrite Ep.
    eapply keeps_bind; [eapply (ks_receive e He tp L Ln D0 S0 R0 path l rank fuel (hs_sound _ _ Hh) (hs_complete _ _ Hh) (hs_fits _ _ Hh) Ac); try eassumption|].
    - intros d tid Hd Ht. specialize (Bn d tid Hd Ht). lia.
    - reflexivity.
    - exact (hs_free _ _ Hh).
    - lia.
    - split; [exact Q|]. split; [reflexivity|exact W0].
    - intros [pp reply] w' [Ey A]. cbn [snd] in Ey. subst reply. eexists. split; [reflexivity|]. split; [apply status_ok; exact (short_name _ _ Tk Lk)|exact A]. }
  destruct (interleave_keeps e tp L Lr Lt i Qf) with (schedule := schedule) (ts := started e b c fuel cut rs) (w := w) (p := serve_p e b c fuel cut r) as (p' & Hp' & K').
  - intros x w1 w2 (a & Ea & St & (A1 & A2 & A3 & A4)) (B1 & B2 & B3). exists a. split; [exact Ea|]. split; [exact St|]. split; [auto|]. split; [congruence|].
    split; [exact (stored_stable L Ln path l _ _ A3 B3)|exact (S1 _ _ A4 B3)].
  - unfold started. rewrite nth_error_map, Ni. reflexivity.
  - exact K.
  - intros j x Nj Hj. unfold started in Hj. rewrite nth_error_map in Hj. destruct (nth_error rs j) as [r'|] eqn:Ej; [|discriminate Hj].
    cbn [option_map] in Hj. injection Hj as <-. apply av_serve. intros t At Et. apply temp_inj in Et. subst t. exact (Os j r' Ej Nj At).
  - intros s1 j s2 _ Nj. pose proof (prefix_hold e He b c fuel cut rs s1 w T) as [H _]. pose proof (prefix_table e He b c fuel cut rs s1 w T) as T1.
    pose proof (prefix_table e He b c fuel cut rs (s1 ++ [j]) w T) as T2. rewrite interleave_app in *. cbn [interleave] in *.
    pose proof (advance_holds e (by_request e rs) refs_table (fun _ _ _ => True) (by_request_lost e rs) (fun _ _ _ _ _ _ => I) j _ _ T1 H) as [A _]. cbv zeta in A.
    destruct (advance e j _ _) as [ts1 w1] eqn:Ea. cbn [fst snd] in *. destruct A as [[_ ->]|[A _]]; [apply Lr|]. exact (Lo _ _ _ Nj T1 T2 A).
  - change (interleave e schedule (started e b c fuel cut rs) w) with F in Hp', K'. rewrite Ho in Hp'. injection Hp' as <-. cbn [keeps] in K'.
    destruct K' as (reply & Ey & St & (_ & _ & A3 & A4)). split; [exists reply; auto|]. split; [exact A3|exact A4].
Qed.
End Among.

Lemma new_fits : forall path name new h k k' i, id_ok h -> lower_hex new h -> text_len name k -> (k <= 31)%nat -> text_len path k' -> (k' <= 64)%nat ->
  ref_fits (mkRef i path (name ++ [0]) new) = true.
Proof.
  intros path name new h k k' i Hh Hx Tk Lk Tp Lp. unfold ref_fits. cbn [r_repo_path r_ref_name r_ref_git_id].
  assert (V1 : varchar 64 path = true) by (apply N.leb_le; rewrite (chars_text _ _ Tp); lia).
  assert (V2 : varchar 32 (name ++ [0]) = true) by (apply N.leb_le; rewrite chars_app, (chars_text _ _ Tk); change (chars [0]) with 1; lia).
  assert (V3 : varchar 40 new = true) by (apply N.leb_le; rewrite (lower_hex_plain _ _ Hx); apply plain_chars; exact Hh).
  rewrite V1, V2, V3. reflexivity.
Qed.

(** Whatever else is served at the same time, and in whatever order: a push that creates a
    reference is answered with "ok" and what it brought is stored, when no other request
    uses its second. *)
Theorem C92_create : forall e b c cut rs i r now path new name caps l w,
  env_ok e -> no_failure w -> refs_table (w_db w) -> nth_error rs i = Some r ->
  full_push c r now path (repeat 48 40) new name caps l -> own_second rs i now ->
  exists fuel0 cl, caps_in caps cl /\ forall fuel schedule o, (fuel0 <= fuel)%nat ->
    let F := interleave e schedule (started e b c fuel cut rs) w in
    nth_error (fst F) i = Some (PRet o) ->
    (exists reply, o = Ok reply /\ status_reply cl [bs "ok " ++ name ++ [0]] reply) /\ rows_stored path l (w_db (snd F)) /\
    exists x, In x (d_refs (w_db (snd F))) /\ r_repo_path x = path /\ r_ref_name x = name ++ [0].
Proof.
  intros e b c cut rs i r now path new name caps l w He Q T Ni Hp Os.
  destruct (push_among e b c cut rs i r w He Q T Ni now path (repeat 48 40) new name caps l Hp zero_word Os nothing_lost lost_refl lost_trans (fun _ _ H => H))
    with (D0 := fun _ : db => True) (D1 := fun d : db => exists x, In x (d_refs d) /\ r_repo_path x = path /\ r_ref_name x = name ++ [0]) as (fuel0 & cl & H).
  - intros d d' j _ _ _ H. exact (by_request_lost e rs j d d' H).
  - intros d d' _ _. exact I.
  - intros d d' (x & Hx & E1 & E2) K. destruct (lost_ref _ _ _ K Hx) as (y & Hy & _ & E3 & E4). exists y. split; [exact Hy|]. split; congruence.
  - auto.
  - exact I.
  - destruct Hp as (m & p & s & q & body & pack & h & _ & _ & _ & _ & _ & _ & Hi & Hx & _ & _ & (k & Tk & Lk) & (k' & Tp & Lp)).
    intros bd w' A. apply (ks_create e (temp_path now) nothing_lost (fun _ _ H => H) (fun _ => True)); [intros d d' _ _; exact I|reflexivity| | |exact A].
    + intros d. exact (new_fits _ _ _ _ _ _ _ Hi Hx Tk Lk Tp Lp).
    + intros d _. eexists. split; [cbn [d_refs]; apply in_or_app; right; left; reflexivity|]. split; reflexivity.
  - exists fuel0, cl. exact H.
Qed.

(** What the requests about other repositories do to this one. *)
Definition apart (e : env) (path : bytes) (d d' : db) : Prop :=
  nothing_lost d d' /\ (refs_table d -> refs_table d') /\ refs_of e d' path = refs_of e d path.
Lemma apart_refl : forall e path d, apart e path d d.
Proof. intros e path d. split; [apply lost_refl|]. split; auto. Qed.
Lemma apart_trans : forall e path x y z, apart e path x y -> apart e path y z -> apart e path x z.
Proof. intros e path x y z (A1 & A2 & A3) (B1 & B2 & B3). split; [eapply lost_trans; eassumption|]. split; [auto|congruence]. Qed.
Lemma apart_step : forall e rs i path, teq_equiv e -> own_repo e rs i path ->
  forall d d' j, j <> i -> refs_table d -> refs_table d' -> by_request e rs j d d' -> apart e path d d'.
Proof.
  intros e rs i path Te Or d d' j Nj T T' H. split; [exact (by_request_lost e rs j d d' H)|]. split; [auto|]. destruct H as (r & p & Hr & A & S).
  apply (proj2 (only_others e p path d d' Te (Or _ _ _ Hr Nj A) (st_only _ _ _ _ S))).
Qed.

(** When the other requests are about other repositories, the references of the repository
    become what they become when the push is served alone. *)
Theorem C92_create_exact : forall e b c cut rs i r now path new name caps l w,
  env_ok e -> teq_equiv e -> no_failure w -> refs_table (w_db w) -> nth_error rs i = Some r ->
  full_push c r now path (repeat 48 40) new name caps l -> own_second rs i now -> own_repo e rs i path ->
  exists fuel0 cl, caps_in caps cl /\ forall fuel schedule o, (fuel0 <= fuel)%nat ->
    let F := interleave e schedule (started e b c fuel cut rs) w in
    nth_error (fst F) i = Some (PRet o) ->
    (exists reply, o = Ok reply /\ status_reply cl [bs "ok " ++ name ++ [0]] reply) /\ rows_stored path l (w_db (snd F)) /\
    exists n, refs_of e (w_db (snd F)) path = refs_of e (w_db w) path ++ [mkRef n path (name ++ [0]) new].
Proof.
  intros e b c cut rs i r now path new name caps l w He Te Q T Ni Hp Os Or.
  destruct (push_among e b c cut rs i r w He Q T Ni now path (repeat 48 40) new name caps l Hp zero_word Os (apart e path) (apart_refl e path) (apart_trans e path) (fun _ _ H => proj1 H) (apart_step e rs i path Te Or))
    with (D0 := fun d => refs_of e d path = refs_of e (w_db w) path)
         (D1 := fun d => exists n, refs_of e d path = refs_of e (w_db w) path ++ [mkRef n path (name ++ [0]) new]) as (fuel0 & cl & H).
  - intros d d' E (_ & _ & K). congruence.
  - intros d d' (n & E) (_ & _ & K). exists n. congruence.
  - intros d d' E _ D. unfold refs_of in *. rewrite E. exact D.
  - reflexivity.
  - destruct Hp as (m & p & s & q & body & pack & h & _ & _ & _ & _ & _ & _ & Hi & Hx & _ & _ & (k & Tk & Lk) & (k' & Tp & Lp)).
    intros bd w' A. apply (ks_create e (temp_path now) (apart e path) (fun _ _ H => proj1 H) (fun d => refs_of e d path = refs_of e (w_db w) path)); [|reflexivity| | |exact A].
    + intros d d' E (_ & _ & K). congruence.
    + intros d. exact (new_fits _ _ _ _ _ _ _ Hi Hx Tk Lk Tp Lp).
    + intros d E. exists (d_next_ref d). unfold refs_of in *. cbn [d_refs]. rewrite filter_app, E. cbn [filter r_repo_path]. rewrite (proj1 (proj2 He)). reflexivity.
  - exists fuel0, cl. exact H.
Qed.
(** The same for a push that updates a reference: the only one of the repository with the
    old id. *)
Theorem C92_update_exact : forall e b c cut rs i r now path old h0 new name caps l w l1 x l2,
  env_ok e -> teq_equiv e -> no_failure w -> refs_table (w_db w) -> nth_error rs i = Some r ->
  id_ok h0 -> lower_hex old h0 -> old <> repeat 48 40 -> new <> repeat 48 40 ->
  full_push c r now path old new name caps l -> own_second rs i now -> own_repo e rs i path ->
  refs_of e (w_db w) path = l1 ++ x :: l2 -> r_ref_git_id x = old -> (forall y, In y (l1 ++ l2) -> teq e (r_ref_git_id y) old = false) ->
  exists fuel0 cl, caps_in caps cl /\ forall fuel schedule o, (fuel0 <= fuel)%nat ->
    let F := interleave e schedule (started e b c fuel cut rs) w in
    nth_error (fst F) i = Some (PRet o) ->
    (exists reply, o = Ok reply /\ status_reply cl [bs "ok " ++ name ++ [0]] reply) /\ rows_stored path l (w_db (snd F)) /\
    refs_of e (w_db (snd F)) path = l1 ++ with_id x new :: l2.
Proof.
  intros e b c cut rs i r now path old h0 new name caps l w l1 x l2 He Te Q T Ni H0 X0 Z0 Z1 Hp Os Or El Ex Uq.
  destruct (push_among e b c cut rs i r w He Q T Ni now path old new name caps l Hp (hex_word _ _ X0 H0) Os (apart e path) (apart_refl e path) (apart_trans e path) (fun _ _ H => proj1 H) (apart_step e rs i path Te Or))
    with (D0 := fun d => refs_table d /\ refs_of e d path = l1 ++ x :: l2)
         (D1 := fun d => refs_table d /\ refs_of e d path = l1 ++ with_id x new :: l2) as (fuel0 & cl & Hcl & H).
  - intros d d' [E1 E2] (_ & K1 & K2). split; [auto|congruence].
  - intros d d' [E1 E2] (_ & K1 & K2). split; [auto|congruence].
  - intros d d' E1 E2 [D1 D2]. split; [unfold refs_table; rewrite E1, E2; exact D1|unfold refs_of; rewrite E1; exact D2].
  - split; [exact T|exact El].
  - destruct Hp as (m & p & s & q & body & pack & h & _ & _ & _ & _ & _ & _ & Hi & Hx & _).
    intros bd w' A. refine (ks_update e He (temp_path now) (apart e path) (fun _ _ H => proj1 H) path l bd (cmd_unpacked (ref_command_new old new (name ++ [0])) None) w' l1 x l2 _ _ _ _ _ A).
    + intros d d' (_ & K1 & K2) Td. auto.
    + unfold cmd_unpacked, ref_command_new. cbn [rc_type]. rewrite (proj2 (beq_neq zero_id old)) by (intros Z; apply Z0; rewrite <- Z; reflexivity).
      rewrite (proj2 (beq_neq zero_id new)) by (intros Z; apply Z1; rewrite <- Z; reflexivity). reflexivity.
    + apply N.leb_le. cbn [cmd_unpacked ref_command_new rc_new_id]. rewrite (lower_hex_plain _ _ Hx). apply plain_chars. exact Hi.
    + cbn [cmd_unpacked ref_command_new rc_old_id]. rewrite Ex. apply He.
    + exact Uq.
  - exists fuel0, cl. split; [exact Hcl|]. intros fuel schedule o Hf F Ho. destruct (H fuel schedule o Hf Ho) as (A1 & A2 & A3 & A4). auto.
Qed.

(** ** C93: requests come to an end *)

(** An outcome is final. *)
Lemma ended_stays : forall e i o schedule ts w, nth_error ts i = Some (PRet o) -> nth_error (fst (interleave e schedule ts w)) i = Some (PRet o).
Proof.
  intros e i o. induction schedule as [|j s IH]; intros ts w H; [exact H|]. cbn [interleave]. unfold advance.
  destruct (nth_error ts j) as [[r|X a k]|] eqn:E; try (apply IH; exact H). destruct (perform e a w) as [w1 x]. apply IH.
  destruct (Nat.eq_dec j i) as [->|N]; [congruence|]. rewrite set_nth_other by exact N. exact H.
Qed.
Lemma seq_from : forall n a, seq a n = map (fun x => a + x)%nat (seq 0 n).
Proof.
  induction n as [|n IH]; intros a; [reflexivity|]. cbn [seq map]. rewrite (IH (S a)), <- (seq_shift n 0), map_map. f_equal; [lia|].
  apply map_ext. intros x. lia.
Qed.
(** A request whose turn comes again and again ends, whatever the others do. *)
Theorem C93_ends : forall e ts i p w (turn : nat -> nat), nth_error ts i = Some p -> (forall n, exists m, (n <= m)%nat /\ turn m = i) ->
  exists n o, forall n', (n <= n')%nat -> nth_error (fst (interleave e (map turn (seq 0 n')) ts w)) i = Some (PRet o).
Proof.
  intros e ts i p w turn Hp Hf.
  assert (K : exists n o, nth_error (fst (interleave e (map turn (seq 0 n)) ts w)) i = Some (PRet o)).
  { revert ts w turn Hp Hf. induction p as [o|X a k IH]; intros ts w turn Hp Hf; [exists O, o; exact Hp|].
    destruct (Hf O) as (m & _ & Hm).
    assert (Sk : exists m', turn m' = i /\ forall x, (x < m')%nat -> turn x <> i).
    { induction m as [m IHm] using lt_wf_ind. destruct (existsb (fun x => Nat.eqb (turn x) i) (seq 0 m)) eqn:E.
      - apply existsb_exists in E as (x & Hx & Ex). apply in_seq in Hx. apply Nat.eqb_eq in Ex. apply (IHm x); [lia|exact Ex].
      - exists m. split; [exact Hm|]. intros x Hx Ex. assert (N : existsb (fun x => Nat.eqb (turn x) i) (seq 0 m) = true); [|congruence].
        apply existsb_exists. exists x. split; [apply in_seq; lia|apply Nat.eqb_eq; exact Ex]. }
    destruct Sk as (m' & Em & Hb).
    set (s := map turn (seq 0 m')) in *.
    assert (Hk : nth_error (fst (interleave e s ts w)) i = Some (PAct a k)).
    { rewrite interleave_skips; [exact Hp|]. unfold s. intros H. apply in_map_iff in H as (x & Ex & Hx). apply in_seq in Hx. apply (Hb x); [lia|exact Ex]. }
    set (z := interleave e s ts w) in *.
    set (y := advance e i (fst z) (snd z)).
    destruct (IH (snd (perform e a (snd z))) (fst y) (snd y) (fun n => turn (S m' + n)%nat)) as (n & o & Ho).
    - unfold y, advance. rewrite Hk. destruct (perform e a (snd z)) as [w1 x]. cbn [fst snd]. exact (set_nth_same _ _ _ _ _ Hk).
    - intros n. destruct (Hf (S m' + n)%nat) as (x & Hx & Ex). exists (x - S m')%nat. split; [lia|]. replace (S m' + (x - S m'))%nat with x by lia. exact Ex.
    - exists (S m' + n)%nat, o. rewrite <- Ho. f_equal. f_equal.
      assert (Es : map turn (seq 0 (S m' + n)) = s ++ i :: map (fun n => turn (S m' + n)%nat) (seq 0 n)).
      { replace (S m' + n)%nat with (m' + S n)%nat by lia. rewrite seq_app, map_app. f_equal. cbn [seq map Nat.add]. rewrite Em. f_equal.
        rewrite (seq_from n (S m')), map_map. reflexivity. }
      rewrite Es, interleave_app. fold z. cbn [interleave]. fold y. destruct y as [y1 y2]. reflexivity. }
  destruct K as (n & o & Ho). exists n, o. intros n' Hn. replace n' with (n + (n' - n))%nat by lia. rewrite seq_app, map_app, interleave_app. apply ended_stays. exact Ho.
Qed.
(** All of them end. *)
Theorem C93_all_end : forall e ts w (turn : nat -> nat), (forall i n, (i < length ts)%nat -> exists m, (n <= m)%nat /\ turn m = i) ->
  exists n, forall n', (n <= n')%nat -> forall i, (i < length ts)%nat -> exists o, nth_error (fst (interleave e (map turn (seq 0 n')) ts w)) i = Some (PRet o).
Proof.
  intros e ts w turn Hf.
  assert (K : forall k, (k <= length ts)%nat -> exists n, forall n', (n <= n')%nat -> forall i, (i < k)%nat ->
    exists o, nth_error (fst (interleave e (map turn (seq 0 n')) ts w)) i = Some (PRet o)).
  { induction k as [|k IH]; intros Hk; [exists O; intros; lia|]. destruct IH as (n & Hn); [lia|].
    destruct (nth_error ts k) as [p|] eqn:E; [|apply nth_error_None in E; lia].
    destruct (C93_ends e ts k p w turn E (fun n => Hf k n Hk)) as (n2 & o & Ho). exists (Nat.max n n2). intros n' Hn' i Hi.
    destruct (Nat.eq_dec i k) as [->|N]; [exists o; apply Ho; lia|apply Hn; lia]. }
  exact (K (length ts) (le_n _)).
Qed.
(** So a push that has its second to itself is answered with "ok" for good. *)
Theorem C93_push_answered : forall e b c cut rs i r now path new name caps l w,
  env_ok e -> no_failure w -> refs_table (w_db w) -> nth_error rs i = Some r ->
  full_push c r now path (repeat 48 40) new name caps l -> own_second rs i now ->
  exists fuel0 cl, caps_in caps cl /\ forall fuel (turn : nat -> nat), (fuel0 <= fuel)%nat -> (forall n, exists m, (n <= m)%nat /\ turn m = i) ->
    exists n reply, status_reply cl [bs "ok " ++ name ++ [0]] reply /\ forall n', (n <= n')%nat ->
      let F := interleave e (map turn (seq 0 n')) (started e b c fuel cut rs) w in
      replied (fst F) i reply /\ rows_stored path l (w_db (snd F)) /\
      exists x, In x (d_refs (w_db (snd F))) /\ r_repo_path x = path /\ r_ref_name x = name ++ [0].
Proof.
  intros e b c cut rs i r now path new name caps l w He Q T Ni Hp Os.
  destruct (C92_create e b c cut rs i r now path new name caps l w He Q T Ni Hp Os) as (fuel0 & cl & Hcl & H). exists fuel0, cl. split; [exact Hcl|].
  intros fuel turn Hf Ht.
  destruct (C93_ends e (started e b c fuel cut rs) i (serve_p e b c fuel cut r) w turn) as (n & o & Ho); [unfold started; rewrite nth_error_map, Ni; reflexivity|exact Ht|].
  destruct (H fuel _ o Hf (Ho n (le_n _))) as ((reply & Eo & St) & _). exists n, reply. split; [exact St|]. intros n' Hn F.
  specialize (Ho n' Hn). destruct (H fuel _ o Hf Ho) as (_ & A2 & A3). split; [unfold replied; rewrite <- Eo; exact Ho|]. split; assumption.
Qed.

(** ** Cases *)

Lemma demo_full : full_push stored push_demo 7 (bs "/demo") (repeat 48 40) (to_plain_str (oid ex_top)) (bs "refs/heads/master") ex_caps ex_hist.
Proof.
  exists MPost, (bs "/demo.git/git-receive-pack"), None, no_query, ex_body, (pack_of ex_hist), (oid ex_top).
  split; [reflexivity|]. split; [exact push_demo_at|].
  split; [apply push_body_request; rewrite !nlen_app, (plain_len _ ex_top_id); vm_compute; discriminate|].
  split; [intros st; destruct (ex_pack st) as (objs & G & E); exists objs; auto|].
  split; [exact ex_pack_small|]. split; [apply ex_hist_ok; reflexivity|]. split; [exact ex_top_id|]. split; [apply plain_lower; exact ex_top_id|].
  split; [exact master_word|]. split; [apply utf8_spec; reflexivity|].
  split; [exists 17%nat; split; [exact (ascii_text (bs "refs/heads/master") eq_refl)|lia]|exists 5%nat; split; [exact (ascii_text (bs "/demo") eq_refl)|lia]].
Qed.
Lemma together_second : own_second together 0 7.
Proof.
  intros j r Hj Nj A. destruct j as [|[|[|j]]]; [congruence|..]; cbn in Hj; [injection Hj as <-; discriminate A..|destruct j; discriminate Hj].
Qed.
Definition round (n : nat) : nat := n mod 3.
Lemma round_fair : forall i n, (i < 3)%nat -> exists m, (n <= m)%nat /\ round m = i.
Proof.
  intros i n H. exists (3 * n + i)%nat. split; [lia|]. unfold round. rewrite Nat.add_comm, Nat.mul_comm, Nat.mod_add by lia. apply Nat.mod_small. exact H.
Qed.
(** A push, a push to another repository and a clone, in turns. *)
Example C93_ex : exists fuel0 cl, caps_in ex_caps cl /\ forall fuel, (fuel0 <= fuel)%nat ->
  exists n reply, status_reply cl [bs "ok " ++ bs "refs/heads/master" ++ [0]] reply /\
    replied (fst (interleave ex_env (map round (seq 0 n)) (started ex_env Release stored fuel ex_cut together) (world_of db_empty))) 0 reply.
Proof.
  destruct (C93_push_answered ex_env Release stored ex_cut together 0 push_demo 7 (bs "/demo") (to_plain_str (oid ex_top)) (bs "refs/heads/master") ex_caps ex_hist (world_of db_empty))
    as (fuel0 & cl & Hcl & H); [exact ex_env_ok|reflexivity|split; [constructor|intros r []]|reflexivity|exact demo_full|exact together_second|].
  exists fuel0, cl. split; [exact Hcl|]. intros fuel Hf. destruct (H fuel round Hf) as (n & reply & St & K); [intros k; apply round_fair; lia|].
  exists n, reply. split; [exact St|]. apply (K n). lia.
Qed.
Example C93_all_ex : exists n, forall i, (i < 3)%nat ->
  exists o, nth_error (fst (interleave ex_env (map round (seq 0 n)) (started ex_env Release stored 50 ex_cut together) (world_of db_empty))) i = Some (PRet o).
Proof.
  destruct (C93_all_end ex_env (started ex_env Release stored 50 ex_cut together) (world_of db_empty) round) as (n & H); [intros i k Hi; apply round_fair; exact Hi|].
  exists n. intros i Hi. apply (H n (le_n _) i Hi).
Qed.

(** Pushes to two repositories: the first creates, or updates. *)
Definition apart_pushes : list request := [push_demo; push_other].
Lemma apart_second : own_second apart_pushes 0 7.
Proof. intros j r Hj Nj A. destruct j as [|[|j]]; [congruence|..]; cbn in Hj; [injection Hj as <-; discriminate A|destruct j; discriminate Hj]. Qed.
Lemma other_only : forall p, about push_other p -> teq ex_env p (bs "/demo") = false.
Proof. intros p A. rewrite (about_unique _ _ _ A (ab_push _ _ _ _ _ _ _ push_other_at)). reflexivity. Qed.
Lemma apart_repo : own_repo ex_env apart_pushes 0 (bs "/demo").
Proof. intros j r p Hj Nj A. destruct j as [|[|j]]; [congruence|..]; cbn in Hj; [injection Hj as <-; exact (other_only p A)|destruct j; discriminate Hj]. Qed.
Example C92_create_ex : env_ok ex_env /\ teq_equiv ex_env /\ no_failure ex_world /\ refs_table (w_db ex_world) /\ nth_error apart_pushes 0 = Some push_demo /\
  own_second apart_pushes 0 7 /\ own_repo ex_env apart_pushes 0 (bs "/demo") /\
  full_push stored push_demo 7 (bs "/demo") (repeat 48 40) (to_plain_str (oid ex_top)) (bs "refs/heads/master") ex_caps ex_hist /\
  forall fuel, exists n o, nth_error (fst (interleave ex_env (map round (seq 0 n)) (started ex_env Release stored fuel ex_cut apart_pushes) ex_world)) 0 = Some (PRet o).
Proof.
  split; [exact ex_env_ok|]. split; [exact ex_equiv|]. split; [exact ex_world_quiet|]. split; [exact ex_world_table|]. split; [reflexivity|].
  split; [exact apart_second|]. split; [exact apart_repo|]. split; [exact demo_full|]. intros fuel.
  destruct (C93_ends ex_env (started ex_env Release stored fuel ex_cut apart_pushes) 0 (serve_p ex_env Release stored fuel ex_cut push_demo) ex_world round eq_refl) as (n & o & H);
    [intros k; apply round_fair; lia|]. exists n, o. apply H. lia.
Qed.
Definition push_second : request := QHttp 7 MPost (bs "/demo.git/git-receive-pack") None no_query ex_body2.
Lemma second_full : full_push stored push_second 7 (bs "/demo") (to_plain_str (oid ex_top)) (to_plain_str (oid ex_second)) (bs "refs/heads/master") ex_caps ex_full.
Proof.
  assert (Is : id_ok (oid ex_second)) by apply oid_ok, commit_base.
  exists MPost, (bs "/demo.git/git-receive-pack"), None, no_query, ex_body2, (pack_of ex_full), (oid ex_second).
  split; [reflexivity|]. split; [exact push_demo_at|].
  split; [apply push_body_request; rewrite !nlen_app, (plain_len _ ex_top_id), (plain_len _ Is); vm_compute; discriminate|].
  split; [intros st; destruct (pack_of_git ex_full st) as (objs & G & E); [discriminate|reflexivity|apply (hs_sound _ _ ex_full_ok)|]; exists objs; auto|].
  split; [vm_compute; reflexivity|]. split; [exact ex_full_ok|]. split; [exact Is|]. split; [apply plain_lower; exact Is|].
  split; [exact master_word|]. split; [apply utf8_spec; reflexivity|].
  split; [exists 17%nat; split; [exact (ascii_text (bs "refs/heads/master") eq_refl)|lia]|exists 5%nat; split; [exact (ascii_text (bs "/demo") eq_refl)|lia]].
Qed.
Definition update_pushes : list request := [push_second; push_other].
Lemma update_second : own_second update_pushes 0 7.
Proof. intros j r Hj Nj A. destruct j as [|[|j]]; [congruence|..]; cbn in Hj; [injection Hj as <-; discriminate A|destruct j; discriminate Hj]. Qed.
Lemma update_repo : own_repo ex_env update_pushes 0 (bs "/demo").
Proof. intros j r p Hj Nj A. destruct j as [|[|j]]; [congruence|..]; cbn in Hj; [injection Hj as <-; exact (other_only p A)|destruct j; discriminate Hj]. Qed.
Example C92_update_ex : exists h0, id_ok h0 /\ lower_hex (to_plain_str (oid ex_top)) h0 /\
  to_plain_str (oid ex_top) <> repeat 48 40 /\ to_plain_str (oid ex_second) <> repeat 48 40 /\
  full_push stored push_second 7 (bs "/demo") (to_plain_str (oid ex_top)) (to_plain_str (oid ex_second)) (bs "refs/heads/master") ex_caps ex_full /\
  own_second update_pushes 0 7 /\ own_repo ex_env update_pushes 0 (bs "/demo") /\
  refs_of ex_env (w_db ex_world) (bs "/demo") = [] ++ ex_ref :: [] /\ r_ref_git_id ex_ref = to_plain_str (oid ex_top).
Proof.
  exists (oid ex_top). split; [exact ex_top_id|]. split; [apply plain_lower; exact ex_top_id|]. split; [apply beq_neq; vm_compute; reflexivity|].
  split; [apply beq_neq; vm_compute; reflexivity|]. split; [exact second_full|]. split; [exact update_second|]. split; [exact update_repo|].
  split; [unfold refs_of; rewrite ex_world_refs; reflexivity|reflexivity].
Qed.

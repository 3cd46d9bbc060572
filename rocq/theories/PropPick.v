(** C148: which objects a pack with deltas holds as deltas, and against which. *)

From Coq Require Import Lia.
From Verif Require Import Base BaseLemmas Digest ModelUtils ModelObject ModelDelta ModelPack
  SpecFormat SpecObject SpecDelta SpecDiff SpecPack StoredZlib
  ProofUtils ProofObject ProofDelta ProofDiff ProofPack ProofEncode ProofPackAny ProofPackDir PropDelta PropPack.
Open Scope N_scope.

(** ** Specification *)

(** How many bytes of the new content a script takes from the old one. *)
Definition matched (s : list call) : nat := list_sum (map (fun x => match x with CEqual _ _ n => n | _ => 0%nat end) s).
Definition common (diff : bytes -> bytes -> list call) (base new : meta) : nat := matched (diff (m_data base) (m_data new)).
(** More than half of the new content. *)
Definition similar (diff : bytes -> bytes -> list call) (base new : meta) : Prop := (length (m_data new) < 2 * common diff base new)%nat.
(** [base] is at most nine places before place [i], and all objects from there on are of
    the type of [new]. *)
Definition nearby (ms : list meta) (i : nat) (new : meta) (j : nat) (base : meta) : Prop :=
  (1 <= j <= 9)%nat /\ (j <= i)%nat /\ nth_error ms (i - j) = Some base /\
  forall k, (1 <= k <= j)%nat -> exists b, nth_error ms (i - k) = Some b /\ m_t b = m_t new.
(** The one that has most in common, of several the nearest. *)
Definition best (diff : bytes -> bytes -> list call) (ms : list meta) (i : nat) (new : meta) (j : nat) (base : meta) : Prop :=
  nearby ms i new j base /\ similar diff base new /\
  forall j' base', nearby ms i new j' base' -> (common diff base' new <= common diff base new)%nat /\ ((j' < j)%nat -> (common diff base' new < common diff base new)%nat).
(** The entry [e] of the object [new] at place [i]; [es] are the entries of the pack. *)
Definition written (m : build) (c : codec) (diff : bytes -> bytes -> list call) (ms : list meta) (es : list bytes) (i : nat) (new : meta) (e : bytes) : Prop :=
  ((forall j base, nearby ms i new j base -> ~ similar diff base new) /\
   exists n hdr z, pack_code (m_t new) n /\ entry_hdr n hdr (nlen (m_data new)) /\ zstream c z (m_data new) /\ e = hdr ++ z) \/
  exists j base hdr ofs z delta, best diff ms i new j base /\ entry_hdr 6 hdr (nlen delta) /\
    (m = Debug -> ofs_format ofs (nlen (concat (firstn j (skipn (i - j) es))))) /\
    zstream c z delta /\ git_delta (m_data base) delta (m_data new) /\ e = hdr ++ ofs ++ z.

(** ** The search *)

Lemma ssam_matched : forall s, script_ssam s = matched s.
Proof.
  intros s. unfold script_ssam, matched.
  assert (K : forall a, fold_left (fun a c => match c with CEqual _ _ len => a + len | _ => a end)%nat s a = (a + list_sum (map (fun x => match x with CEqual _ _ n => n | _ => 0%nat end) s))%nat).
  { induction s as [|x s IH]; intros a; cbn [fold_left map list_sum fold_right]; [lia|]. change (fold_right Nat.add 0%nat) with list_sum. rewrite IH. destruct x; lia. }
  rewrite K. reflexivity.
Qed.
Lemma otype_eqb_eq : forall a b, otype_eqb a b = true <-> a = b.
Proof. intros a b. split; [|intros ->; destruct b; reflexivity]. destruct a, b; intros H; try discriminate H; reflexivity. Qed.

Section Pick.
Context (diff : bytes -> bytes -> list call) (ms : list meta) (i : nat) (new : meta).
Definition so_far (j : nat) (best_j : option nat) (top : nat) : Prop :=
  match best_j with
  | None => top = 0%nat /\ forall k b, (1 <= k < j)%nat -> nth_error ms (i - k) = Some b -> ~ similar diff b new
  | Some j0 => exists b0, (1 <= j0 < j)%nat /\ (j0 <= i)%nat /\ nth_error ms (i - j0) = Some b0 /\ similar diff b0 new /\ top = common diff b0 new /\
      forall k b, (1 <= k < j)%nat -> nth_error ms (i - k) = Some b -> (common diff b new <= top)%nat /\ ((k < j0)%nat -> (common diff b new < top)%nat)
  end.
Lemma done_pick : forall j best_j top, (1 <= j <= 10)%nat -> (forall k, (1 <= k < j)%nat -> exists b, nth_error ms (i - k) = Some b /\ m_t b = m_t new) ->
  so_far j best_j top -> (forall k b, nearby ms i new k b -> (k < j)%nat) ->
  match best_j with Some j' => exists base, best diff ms i new j' base | None => forall k b, nearby ms i new k b -> ~ similar diff b new end.
Proof.
  intros j best_j top Hj Hk S Hn. destruct best_j as [j0|].
  - destruct S as (b0 & H1 & H2 & H3 & H4 & -> & H6). exists b0. split; [|split; [exact H4|]].
    + split; [lia|]. split; [exact H2|]. split; [exact H3|]. intros k K. apply Hk. lia.
    + intros k b N. pose proof (Hn k b N). destruct N as (N1 & _ & N3 & _). apply (H6 k b); [lia|exact N3].
  - destruct S as [_ S]. intros k b N. pose proof (Hn k b N). destruct N as (N1 & _ & N3 & _). apply (S k b); [lia|exact N3].
Qed.
Lemma window_pick : forall steps j best_j top, (1 <= j)%nat -> (j + steps = 10)%nat ->
  (forall k, (1 <= k < j)%nat -> exists b, nth_error ms (i - k) = Some b /\ m_t b = m_t new) -> so_far j best_j top ->
  match window diff ms new i steps j best_j top with Some j' => exists base, best diff ms i new j' base | None => forall k b, nearby ms i new k b -> ~ similar diff b new end.
Proof.
  induction steps as [|s IH]; intros j best_j top H1 H2 Hk S; cbn [window].
  - apply (done_pick j best_j top); [lia|exact Hk|exact S|]. intros k b ((_ & N) & _). lia.
  - destruct (Nat.ltb_spec i j) as [L|L].
    { apply (done_pick j best_j top); [lia|exact Hk|exact S|]. intros k b (_ & N & _). lia. }
    destruct (nth_error ms (i - j)) as [base|] eqn:E.
    2: { apply (done_pick j best_j top); [lia|exact Hk|exact S|]. intros k b (_ & _ & _ & N). destruct (Nat.lt_ge_cases k j) as [|G]; [assumption|].
      destruct (N j) as (x & X & _); [lia|]. congruence. }
    destruct (otype_eqb (m_t new) (m_t base)) eqn:T; cbn [negb].
    2: { apply (done_pick j best_j top); [lia|exact Hk|exact S|]. intros k b (_ & _ & _ & N). destruct (Nat.lt_ge_cases k j) as [|G]; [assumption|].
      destruct (N j) as (x & X & Y); [lia|]. rewrite E in X. injection X as <-. rewrite Y, (proj2 (otype_eqb_eq _ _) eq_refl) in T. discriminate T. }
    apply otype_eqb_eq in T. cbv zeta. rewrite ssam_matched. fold (common diff base new). unfold rate_above_half.
    assert (Hk' : forall k, (1 <= k < Datatypes.S j)%nat -> exists b, nth_error ms (i - k) = Some b /\ m_t b = m_t new).
    { intros k K. destruct (Nat.eq_dec k j) as [->|]; [exists base; split; [exact E|symmetry; exact T]|apply Hk; lia]. }
    destruct (Nat.ltb_spec top (common diff base new)) as [A|A]; destruct (Nat.ltb_spec (length (m_data new)) (2 * common diff base new)) as [B|B]; cbn [andb];
      apply IH; try lia; try exact Hk'.
    + exists base. split; [lia|]. split; [exact L|]. split; [exact E|]. split; [exact B|]. split; [reflexivity|]. intros k b K X.
      destruct (Nat.eq_dec k j) as [->|Nk]; [rewrite E in X; injection X as <-; lia|].
      assert (C : (common diff b new < common diff base new)%nat); [|lia]. destruct best_j as [j0|].
      * destruct S as (b0 & _ & _ & _ & _ & -> & S). destruct (S k b) as [C _]; [lia|exact X|lia].
      * destruct S as [_ S]. specialize (S k b ltac:(lia) X). unfold similar in S. lia.
    + destruct best_j as [j0|].
      * destruct S as (b0 & P1 & P2 & P3 & P4 & -> & S). exists b0. split; [lia|]. split; [exact P2|]. split; [exact P3|]. split; [exact P4|]. split; [reflexivity|].
        intros k b K X. destruct (Nat.eq_dec k j) as [->|Nk]; [|apply S; [lia|exact X]]. rewrite E in X. injection X as <-. unfold similar in P4. lia.
      * destruct S as [-> S]. split; [reflexivity|]. intros k b K X. destruct (Nat.eq_dec k j) as [->|Nk]; [|apply (S k); [lia|exact X]]. rewrite E in X. injection X as <-. unfold similar. lia.
    + destruct best_j as [j0|].
      * destruct S as (b0 & P1 & P2 & P3 & P4 & -> & S). exists b0. split; [lia|]. split; [exact P2|]. split; [exact P3|]. split; [exact P4|]. split; [reflexivity|].
        intros k b K X. destruct (Nat.eq_dec k j) as [->|Nk]; [|apply S; [lia|exact X]]. rewrite E in X. injection X as <-. lia.
      * destruct S as [-> S]. split; [reflexivity|]. intros k b K X. destruct (Nat.eq_dec k j) as [->|Nk]; [|apply (S k); [lia|exact X]]. rewrite E in X. injection X as <-. unfold similar. lia.
    + destruct best_j as [j0|].
      * destruct S as (b0 & P1 & P2 & P3 & P4 & -> & S). exists b0. split; [lia|]. split; [exact P2|]. split; [exact P3|]. split; [exact P4|]. split; [reflexivity|].
        intros k b K X. destruct (Nat.eq_dec k j) as [->|Nk]; [|apply S; [lia|exact X]]. rewrite E in X. injection X as <-. lia.
      * destruct S as [-> S]. split; [reflexivity|]. intros k b K X. destruct (Nat.eq_dec k j) as [->|Nk]; [|apply (S k); [lia|exact X]]. rewrite E in X. injection X as <-. unfold similar. lia.
Qed.
Lemma search : match window diff ms new i (SLIDING_WINDOW - 1) 1 None 0 with Some j' => exists base, best diff ms i new j' base | None => forall k b, nearby ms i new k b -> ~ similar diff b new end.
Proof. apply window_pick; [lia|reflexivity|intros k K; lia|]. split; [reflexivity|]. intros k b K. lia. Qed.
End Pick.

(** ** The file *)

(** Positions of the entries [es] that come after [hd]. *)
Definition places (hd : bytes) (es : list bytes) : list N := map (fun k => nlen (hd ++ concat (firstn k es))) (seq 0 (length es)).
Lemma places_snoc : forall hd es e, places hd (es ++ [e]) = places hd es ++ [nlen (hd ++ concat es)].
Proof.
  intros hd es e. unfold places. rewrite app_length. cbn [length]. rewrite Nat.add_1_r, seq_S, map_app. cbn [map Nat.add]. f_equal.
  - apply map_ext_in. intros k K. apply in_seq in K. rewrite firstn_app. replace (k - length es)%nat with 0%nat by lia. rewrite firstn_O, app_nil_r. reflexivity.
  - rewrite firstn_app, Nat.sub_diag, firstn_O, app_nil_r, firstn_all. reflexivity.
Qed.
Lemma places_nth : forall hd es k, (k < length es)%nat -> nth_error (places hd es) k = Some (nlen (hd ++ concat (firstn k es))).
Proof.
  intros hd es k K. unfold places. rewrite nth_error_map. 
  assert (E : nth_error (seq 0 (length es)) k = Some k).
  { rewrite (nth_error_nth' _ 0%nat) by (rewrite seq_length; exact K). rewrite seq_nth by exact K. reflexivity. }
  rewrite E. reflexivity.
Qed.
Lemma part_between : forall (es : list bytes) i j, length es = i -> (j <= i)%nat -> concat es = concat (firstn (i - j) es) ++ concat (firstn j (skipn (i - j) es)).
Proof.
  intros es i j L J. rewrite <- concat_app. f_equal. rewrite <- (firstn_skipn (i - j) es) at 1. f_equal. symmetry. apply firstn_all2. rewrite skipn_length. lia.
Qed.

Lemma sub_part : forall m x u v d, sub64 m (x + (u + v)) (x + u) = Ok d -> d = v.
Proof. intros m x u v d H. unfold sub64 in H. replace (x + u <=? x + (u + v)) with true in H by lia. injection H as <-. lia. Qed.

Section File.
Context (m : build) (c : codec) (diff : bytes -> bytes -> list call) (ms : list meta) (Hc : codec_ok c) (Hd : diff_ok diff)
  (Hm : Forall encodable ms) (Hs : Forall (fun x => nlen (m_data x) < 2 ^ 24) ms).
Lemma entry_pick : forall hd es i new f more, length es = i -> nth_error ms i = Some new ->
  delta_entry m diff ms new i (hd ++ concat es) (places hd es) = Ok f -> written m c diff ms (es ++ more) i new (convert_to_vec c f).
Proof.
  intros hd es i new f more Le Hnew H.
  assert (Wn : encodable new) by (eapply Forall_forall; [exact Hm|eapply nth_error_In; eassumption]).
  assert (Sn : nlen (m_data new) < 2 ^ 24) by (rewrite Forall_forall in Hs; apply Hs; eapply nth_error_In; eassumption).
  pose proof (search diff ms i new) as Se. unfold delta_entry in H. destruct (window _ _ _ _ _ _ _ _) as [j|].
  - right. destruct Se as (base & Be). exists j, base. pose proof Be as ((J1 & J2 & Eb & _) & _).
    rewrite Eb in H. cbn [unwrap_opt bind] in H.
    assert (Wb : encodable base) by (eapply Forall_forall; [exact Hm|eapply nth_error_In; eassumption]).
    assert (Sb : nlen (m_data base) < 2 ^ 24) by (rewrite Forall_forall in Hs; apply Hs; eapply nth_error_In; eassumption).
    assert (Lt : (i - j < length es)%nat) by (clear - J1 J2 Le; lia). rewrite (places_nth hd es (i - j) Lt) in H. cbn [unwrap_opt bind] in H.
    destruct (delta_reproduces Debug base new (diff (m_data base) (m_data new))) as (z & Ez & G & _).
    { apply Wb. } { apply Wn. } { apply Hd. } { change (2 ^ 24) with 16777216 in Sb. change (2 ^ 32) with 4294967296. lia. } { assumption. }
    rewrite Ez in H. cbn [bind] in H. apply bind_ok in H as (d & Ed & H). apply bind_ok in H as (h & Eh & H). injection H as <-.
    pose proof (part_between es i j Le J2) as Pb.
    assert (Vd : d = nlen (concat (firstn j (skipn (i - j) es)))).
    { apply (f_equal (@nlen N)) in Pb. rewrite nlen_app in Pb. rewrite !nlen_app, Pb in Ed. exact (sub_part _ _ _ _ _ Ed). }
    destruct (git_delta_bytes _ _ _ G) as [Bz _]; [apply Wn|].
    exists (entry_header OffsetDelta (nlen z)), h, (deflate c z), z. split; [exact Be|].
    split; [apply (entry_header_format OffsetDelta)|]. split.
    { intros ->. rewrite skipn_app, firstn_app, skipn_length. replace (j - (length es - (i - j)))%nat with 0%nat by lia. rewrite firstn_O, app_nil_r, <- Vd.
      apply write_offset_ok_debug. exact Eh. }
    split; [intros rest; apply Hc; exact Bz|]. split; [exact G|]. reflexivity.
  - left. split; [exact Se|]. injection H as <-. destruct Wn as [(Hb & Hz & _ & Hdt & _) Hl].
    exists (type2_number (m_t new)), (entry_header (m_t new) (m_size new)), (deflate c (m_data new)).
    split; [apply is_base_code; exact Hb|]. split; [rewrite Hz; apply entry_header_format|]. split; [intros rest; apply Hc; exact Hdt|].
    unfold convert_to_vec. destruct Hb as (nm & Hb). destruct Hb; reflexivity.
Qed.
Lemma loop_pick : forall todo hd es i r, todo = skipn i ms -> (i <= length ms)%nat -> length es = i ->
  delta_loop m c diff ms todo i (hd ++ concat es) (places hd es) = Ok r ->
  exists more, r = hd ++ concat (es ++ more) /\ length (es ++ more) = length ms /\
    forall k new e, (i <= k)%nat -> nth_error ms k = Some new -> nth_error (es ++ more) k = Some e -> written m c diff ms (es ++ more) k new e.
Proof.
  induction todo as [|x todo IH]; intros hd es i r Et Hi Le H; cbn [delta_loop] in H.
  - injection H as <-. exists []. rewrite app_nil_r. assert (L : length (skipn i ms) = 0%nat) by (rewrite <- Et; reflexivity). rewrite skipn_length in L.
    split; [reflexivity|]. split; [lia|]. intros k new e K E. assert (k < length ms)%nat by (apply nth_error_Some; congruence). lia.
  - apply bind_ok in H as (f & Ef & H).
    assert (Hx : nth_error ms i = Some x).
    { rewrite <- (firstn_skipn i ms), <- Et. rewrite nth_error_app2; rewrite firstn_length_le by assumption; [|lia]. rewrite Nat.sub_diag. reflexivity. }
    assert (Hlen : (i < length ms)%nat) by (apply nth_error_Some; congruence).
    rewrite <- places_snoc with (e := convert_to_vec c f) in H.
    replace ((hd ++ concat es) ++ convert_to_vec c f) with (hd ++ concat (es ++ [convert_to_vec c f])) in H by (rewrite concat_app; cbn [concat]; rewrite app_nil_r; apply app_assoc).
    destruct (IH hd (es ++ [convert_to_vec c f]) (S i) r) as (more & Er & El & K).
    { assert (X : todo = skipn 1 (skipn i ms)) by (rewrite <- Et; reflexivity). rewrite X, skipn_skipn', Nat.add_1_r. reflexivity. }
    { lia. } { rewrite app_length, Le. cbn [length]. lia. } { exact H. }
    exists (convert_to_vec c f :: more). rewrite <- app_assoc in Er, El, K. cbn [app] in Er, El, K.
    split; [exact Er|]. split; [exact El|]. intros k new e Hk En Ee. destruct (Nat.eq_dec k i) as [->|Nk]; [|apply K; [lia|exact En|exact Ee]].
    rewrite nth_error_app2 in Ee by lia. rewrite <- Le, Nat.sub_diag in Ee. injection Ee as <-. rewrite Hx in En. injection En as <-.
    exact (entry_pick hd es i x f (convert_to_vec c f :: more) Le Hx Ef).
Qed.
End File.

(** ** C148 *)

(** A pack written with deltas has one entry for each object, in order. An object is whole
    if nothing nearby has more than half of it; else it is a delta against the one nearby
    that has most of it, at the distance of its entry. *)
Theorem C148_choice : forall m c diff ms p file, codec_ok c -> diff_ok diff -> Forall encodable ms -> Forall (fun x => nlen (m_data x) < 2 ^ 24) ms ->
  encode_delta m c diff ms = Ok (p, file) ->
  exists v n es body, be32_value v 2 /\ be32_value n (nlen ms) /\ body = bs "PACK" ++ v ++ n ++ concat es /\ file = body ++ sha1 body /\ length es = length ms /\
    forall i new e, nth_error ms i = Some new -> nth_error es i = Some e -> written m c diff ms es i new e.
Proof.
  intros m c diff ms p file Hc Hd Hm Hs H. unfold encode_delta in H. apply bind_ok in H as (hdr & Hh & H).
  apply encode_header_ok in Hh as (Hn & ->). apply bind_ok in H as (r & Hr & H). injection H as _ <-.
  destruct (loop_pick m c diff ms Hc Hd Hm Hs ms (bs "PACK" ++ u32_vec 2 ++ u32_vec (nlen ms)) [] 0 r eq_refl (Nat.le_0_l _) eq_refl) as (es & Er & El & K).
  { cbn [concat]. rewrite app_nil_r. exact Hr. }
  cbn [app] in Er, El, K. exists (u32_vec 2), (u32_vec (nlen ms)), es, r. split; [apply u32_vec_value; reflexivity|]. split; [apply u32_vec_value; apply Hn|].
  split; [rewrite Er; cbn [app]; rewrite <- ?app_assoc; reflexivity|]. split; [reflexivity|]. split; [exact El|]. intros i new e. apply K. lia.
Qed.
(** There is one choice. *)
Theorem C148_one : forall diff ms i new j base j' base', best diff ms i new j base -> best diff ms i new j' base' -> j = j' /\ base = base'.
Proof.
  intros diff ms i new j base j' base' (N & S & B) (N' & S' & B'). destruct (B _ _ N') as [A1 A2]. destruct (B' _ _ N) as [A1' A2'].
  assert (E : j = j') by (destruct (Nat.lt_trichotomy j j') as [L|[L|L]]; [specialize (A2' L); lia|exact L|specialize (A2 L); lia]). split; [exact E|].
  subst j'. destruct N as (_ & _ & N & _), N' as (_ & _ & N' & _). congruence.
Qed.
(** A delta is against an object of the same type, and no object is one of its own bases. *)
Theorem C148_base : forall diff ms i new j base, best diff ms i new j base -> m_t base = m_t new /\ (i - j < i)%nat /\ nth_error ms (i - j) = Some base /\ (i <= (i - j) + 9)%nat.
Proof.
  intros diff ms i new j base ((N1 & N2 & N3 & N4) & _). destruct (N4 j) as (b & Eb & T); [lia|]. rewrite N3 in Eb. injection Eb as <-.
  split; [exact T|]. split; [lia|]. split; [exact N3|lia].
Qed.

(** ** Cases *)

(** The third of three texts is nearer to the first than to the second. *)
Definition pick_ms : list meta := [ex_obj Blob (bs "hello world"); ex_obj Blob (bs "hello there"); ex_obj Blob (bs "hello words")].
Example C148_ex : Forall encodable pick_ms /\ diff_ok prefix_diff /\ codec_ok stored /\ Forall (fun x => nlen (m_data x) < 2 ^ 24) pick_ms /\
  (exists p file, encode_delta Debug stored prefix_diff pick_ms = Ok (p, file)) /\
  best prefix_diff pick_ms 2 (ex_obj Blob (bs "hello words")) 2 (ex_obj Blob (bs "hello world")) /\
  best prefix_diff pick_ms 1 (ex_obj Blob (bs "hello there")) 1 (ex_obj Blob (bs "hello world")).
Proof.
  assert (B : is_base Blob) by (eexists; constructor).
  split; [unfold pick_ms; repeat (apply Forall_cons; [apply ex_obj_ok; [assumption|repeat constructor|reflexivity]|]); apply Forall_nil|].
  split; [apply prefix_diff_ok|]. split; [apply stored_ok|]. split; [repeat constructor|]. split.
  { destruct (encode_delta Debug stored prefix_diff pick_ms) as [[p file]| | |] eqn:E; try (exfalso; vm_compute in E; discriminate). eauto. }
  pose proof (search prefix_diff pick_ms 2 (ex_obj Blob (bs "hello words"))) as S2. pose proof (search prefix_diff pick_ms 1 (ex_obj Blob (bs "hello there"))) as S1.
  assert (W2 : window prefix_diff pick_ms (ex_obj Blob (bs "hello words")) 2 (SLIDING_WINDOW - 1) 1 None 0 = Some 2%nat) by (vm_compute; reflexivity).
  assert (W1 : window prefix_diff pick_ms (ex_obj Blob (bs "hello there")) 1 (SLIDING_WINDOW - 1) 1 None 0 = Some 1%nat) by (vm_compute; reflexivity).
  rewrite W2 in S2. rewrite W1 in S1. destruct S2 as (b2 & S2). destruct S1 as (b1 & S1).
  pose proof (C148_base _ _ _ _ _ _ S2) as (_ & _ & E2 & _). pose proof (C148_base _ _ _ _ _ _ S1) as (_ & _ & E1 & _).
  cbn [pick_ms nth_error Nat.sub] in E1, E2. injection E2 as <-. injection E1 as <-. split; assumption.
Qed.

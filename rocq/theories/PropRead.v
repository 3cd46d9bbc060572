(** C146: index and pack files that are read by name. *)

From Coq Require Import Lia.
From Verif Require Import Base BaseLemmas Digest ModelUtils ModelObject ModelDelta ModelPack ModelIdx ModelRead
  SpecFormat SpecObject SpecDelta SpecDiff SpecPack SpecIdx SpecStorage SpecService StoredZlib
  ProofUtils ProofObject ProofBase ProofShort ProofDelta ProofPack ProofEncode ProofPackAny ProofPackDir ProofIdx PropDelta PropPack PropIdx.
From Verif Require PropSsh.
Open Scope N_scope.

(** What is read of a file with content [d]: all of it, or some of it before an error; the
    file may also have been written only in part. *)
Inductive partly (d : bytes) : on_disk -> Prop :=
| pt_broken : forall a r, d = a ++ r -> r <> [] -> partly d (BrokenFile a)
| pt_short : forall a r, d = a ++ r -> r <> [] -> partly d (WholeFile a).

(** ** The length of an index *)

Lemma chunks_more : forall w n off a r l, chunks w n off a = Ok l -> chunks w n off (a ++ r) = Ok l.
Proof.
  intros w. induction n as [|n IH]; intros off a r l H; [exact H|]. cbn [chunks] in *. apply bind_ok in H as (s & Hs & H). apply bind_ok in H as (t & Ht & H).
  injection H as <-. apply slice_ok in Hs as (u & v & -> & L1 & L2).
  assert (E : slice off (off + w) ((u ++ s ++ v) ++ r) = Ok s) by (rewrite <- !app_assoc; apply slice_mid; lia).
  rewrite E. cbn [bind]. rewrite (IH _ _ r _ Ht). reflexivity.
Qed.
Lemma fan_total : forall m1 m2 fan k1 k2 n p1 p2 q1 q2 n1 r1 s1 n2 r2 s2,
  fan_loop m1 fan k1 n p1 q1 = Ok (n1, r1, s1) -> fan_loop m2 fan k2 n p2 q2 = Ok (n2, r2, s2) -> n1 = n2.
Proof.
  intros m1 m2. induction fan as [|b fan IH]; intros k1 k2 n p1 p2 q1 q2 n1 r1 s1 n2 r2 s2 H1 H2; cbn [fan_loop] in *; [congruence|].
  destruct (from_be b =? n); [eapply IH; eassumption|]. apply bind_ok in H1 as (d1 & _ & H1). apply bind_ok in H2 as (d2 & _ & H2). eapply IH; eassumption.
Qed.
Lemma idx_length : forall m x d y, idx_decode m x d = Ok y ->
  exists fan n r s, chunks 4 256 8 d = Ok fan /\ fan_loop m fan 0 0 (x_prefix x) (x_number x) = Ok (n, r, s) /\ length d = (1072 + 28 * N.to_nat n)%nat.
Proof.
  intros m x d y H. unfold idx_decode in H. apply bind_ok in H as (magic & _ & H). destruct (negb _); [discriminate H|].
  apply bind_ok in H as (v & _ & H). apply bind_ok in H as (fan & Hf & H). apply bind_ok in H as ([[n r] s] & Hn & H). cbv zeta in H.
  apply bind_ok in H as (ids & _ & H). apply bind_ok in H as (crcs & _ & H). apply bind_ok in H as (offs & _ & H).
  apply bind_ok in H as (sig & _ & H). apply bind_ok in H as (ps & _ & H). apply bind_ok in H as (rest & Hr & H). apply bind_ok in H as (isg & Hi & _).
  exists fan, n, r, s. split; [exact Hf|]. split; [exact Hn|]. apply slice_from_ok in Hr as (u & -> & Lu). unfold hash_from_row in Hi.
  destruct (Nat.eqb_spec (length rest) 20) as [Lr|]; [|discriminate Hi]. rewrite app_length, Lu, Lr. lia.
Qed.

Definition settled {A} (r : res A) : Prop := r <> OutOfFuel.
Lemma settled_bind : forall A B (r : res A) (k : A -> res B), settled r -> (forall a, settled (k a)) -> settled (bind r k).
Proof. intros A B [a| | |] k H1 H2; cbn [bind]; try discriminate; [apply H2|destruct H1; reflexivity]. Qed.
Lemma settled_slice : forall A i j (l : list A), settled (slice i j l).
Proof. intros. unfold slice. destruct (_ && _); discriminate. Qed.
Lemma settled_chunks : forall w n off d, settled (chunks w n off d).
Proof.
  intros w. induction n as [|n IH]; intros off d; cbn [chunks]; [discriminate|]. apply settled_bind; [apply settled_slice|]. intros a.
  apply settled_bind; [apply IH|]. intros b. discriminate.
Qed.
Lemma settled_fan : forall m fan k n p q, settled (fan_loop m fan k n p q).
Proof.
  intros m. induction fan as [|b fan IH]; intros k n p q; cbn [fan_loop]; [discriminate|]. destruct (_ =? _); [apply IH|].
  apply settled_bind; [|intros a; apply IH]. unfold sub64. destruct (_ <=? _), m; discriminate.
Qed.
Lemma settled_row : forall s, settled (hash_from_row s).
Proof. intros s. unfold hash_from_row. destruct (_ =? _)%nat; discriminate. Qed.
Lemma idx_no_fuel : forall m x d, idx_decode m x d <> OutOfFuel.
Proof.
  intros m x d. change (settled (idx_decode m x d)). unfold idx_decode. apply settled_bind; [apply settled_slice|]. intros magic. destruct (negb _); [discriminate|].
  apply settled_bind; [apply settled_slice|]. intros v. apply settled_bind; [apply settled_chunks|]. intros fan. apply settled_bind; [apply settled_fan|]. intros [[n r] s].
  cbv zeta. do 3 (apply settled_bind; [apply settled_chunks|]; intros ?). apply settled_bind; [apply settled_slice|]. intros sig.
  apply settled_bind; [apply settled_row|]. intros ps. apply settled_bind; [unfold slice_from; destruct (_ <=? _)%nat; discriminate|]. intros rest.
  apply settled_bind; [apply settled_row|]. intros i. discriminate.
Qed.

(** ** C146 *)

(** Of two index files that are accepted none is the beginning of the other. *)
Theorem C146_index_ends : forall m1 m2 x1 x2 y1 y2 d more, idx_decode m1 x1 d = Ok y1 -> idx_decode m2 x2 (d ++ more) = Ok y2 -> more = [].
Proof.
  intros m1 m2 x1 x2 y1 y2 d more H1 H2. apply idx_length in H1 as (f1 & n1 & r1 & s1 & F1 & L1 & E1). apply idx_length in H2 as (f2 & n2 & r2 & s2 & F2 & L2 & E2).
  rewrite (chunks_more _ _ _ _ more _ F1) in F2. injection F2 as <-. rewrite (fan_total _ _ _ _ _ _ _ _ _ _ _ _ _ _ _ _ L1 L2) in E1.
  rewrite app_length in E2. destruct more; [reflexivity|]. cbn [length] in E2. lia.
Qed.
(** So an index that is read only in part, or has bytes after its end, is not taken for
    another one: reading it aborts. *)
Theorem C146_index_partly : forall m x d f ls sig, git_idx d ls sig -> partly d f -> idx_decode_from_path m x f = Panic.
Proof.
  intros m x d f ls sig G P. destruct (C26_index_decoding m d ls sig G) as (y & E & _).
  assert (K : forall a r, d = a ++ r -> r <> [] -> unwrap (idx_decode m x a) = Panic).
  { intros a r -> Nr. destruct (idx_decode m x a) as [z|g| |] eqn:Ea; try reflexivity.
    - destruct Nr. exact (C146_index_ends _ _ _ _ _ _ _ _ Ea E).
    - destruct (idx_no_fuel _ _ _ Ea). }
  destruct P as [a r Ed Nr|a r Ed Nr]; cbn [idx_decode_from_path]; eapply K; eassumption.
Qed.
Theorem C146_index_longer : forall m x d more ls sig, git_idx d ls sig -> more <> [] -> idx_decode_from_path m x (WholeFile (d ++ more)) = Panic.
Proof.
  intros m x d more ls sig G Nm. destruct (C26_index_decoding m d ls sig G) as (y & E & _). cbn [idx_decode_from_path].
  destruct (idx_decode m x (d ++ more)) as [z|g| |] eqn:Ea; try reflexivity.
  - destruct Nm. exact (C146_index_ends _ _ _ _ _ _ _ _ E Ea).
  - destruct (idx_no_fuel _ _ _ Ea).
Qed.
(** A whole index gives its lines; no failure is reported but by aborting. *)
Theorem C146_index_whole : forall m d ls sig, git_idx d ls sig ->
  exists x, idx_decode_from_path m idx_default (WholeFile d) = Ok x /\ Forall2 shows (x_items x) ls /\ x_pack_signature x = sig.
Proof.
  intros m d ls sig G. destruct (C26_index_decoding m d ls sig G) as (x & E & _ & _ & H & S & _). exists x. cbn [idx_decode_from_path]. rewrite E. auto.
Qed.

Lemma read_parts : forall n s a b, read_bytes n s = Ok (a, b) -> a = firstn n s /\ b = skipn n s.
Proof. intros n s a b H. unfold read_bytes in H. destruct (n <=? length s)%nat; [|discriminate H]. injection H as <- <-. auto. Qed.
(** Packs: [decode_file] gives what [decode] gives, its checks never fail, and every error
    of [decode] aborts. *)
Theorem C146_pack_same : forall m c st fuel d p, pack_decode_file m c st fuel (WholeFile d) = Ok p <-> decode m c st fuel d = Ok p.
Proof.
  intros m c st fuel d p. cbn [pack_decode_file]. destruct (decode m c st fuel d) as [q|x| |] eqn:E; try (split; discriminate).
  assert (K : beq (firstn 4 d) (bs "PACK") && (from_be (firstn 4 (skipn 4 d)) =? 2) = true).
  { unfold decode in E. apply bind_ok in E as ([n rest] & H & _). unfold check_header in H. apply bind_ok in H as ([magic s1] & H1 & H).
    apply unwrap_ok in H1. apply read_parts in H1 as [-> ->].
    destruct (beq (firstn 4 d) (bs "PACK")); cbn [negb andb] in *; [|discriminate H]. apply bind_ok in H as ([v s2] & H2 & H).
    apply unwrap_ok in H2. unfold read_u32 in H2. apply bind_ok in H2 as ([b r] & H2 & H3). injection H3 as <- <-.
    apply read_parts in H2 as [-> ->].
    destruct (from_be (firstn 4 (skipn 4 d)) =? 2); cbn [negb] in H; [reflexivity|discriminate H]. }
  rewrite K. reflexivity.
Qed.
Theorem C146_pack_errors : forall m c st fuel f x, pack_decode_file m c st fuel f <> Err x.
Proof. intros m c st fuel [|d|d] x; cbn [pack_decode_file]; try discriminate; destruct (decode m c st fuel d); try discriminate; destruct (_ && _); discriminate. Qed.
(** A pack that is read only in part aborts. *)
Theorem C146_pack_partly : forall m c st fuel d objs f, streaming c -> git_pack c st d objs -> collision_free (fun o => In o (map snd objs)) -> nlen d < 2 ^ 32 ->
  partly d f -> pack_decode_file m c st (S fuel) f = Panic.
Proof.
  intros m c st fuel d objs f Hs G Nc Hl P.
  assert (K : forall a r, d = a ++ r -> r <> [] -> (exists x, decode m c st (S fuel) a = Err x) \/ decode m c st (S fuel) a = Panic)
    by (intros a r Ed Nr; exact (PropSsh.C105_prefix m c st fuel d objs a r Hs G Nc Hl Ed Nr)).
  destruct P as [a r Ed Nr|a r Ed Nr]; cbn [pack_decode_file]; destruct (K a r Ed Nr) as [(x & ->)| ->]; reflexivity.
Qed.
Theorem C146_no_file : forall m x c st fuel, idx_decode_from_path m x NoFile = Panic /\ pack_decode_file m c st fuel NoFile = Panic.
Proof. intros. split; reflexivity. Qed.

(** An index and a pack, cut anywhere. *)
Example C146_ex : forall m fuel st, exists file objs x ls sig, git_pack stored st file objs /\ git_idx (x_file_data x) ls sig /\ ls <> [] /\
  collision_free (fun o => In o (map snd objs)) /\ nlen file < 2 ^ 32 /\ streaming stored /\ (exists p, decode m stored st (S fuel) file = Ok p) /\
  (forall k, (k < length (x_file_data x))%nat -> partly (x_file_data x) (BrokenFile (firstn k (x_file_data x))) /\ partly (x_file_data x) (WholeFile (firstn k (x_file_data x)))) /\
  forall k, (k < length file)%nat -> partly file (BrokenFile (firstn k file)).
Proof.
  intros m fuel st. destruct (ex_pack st) as (file & objs & G & Ho & Hc & Hf & Hn).
  destruct (C26_index_format m stored st fuel file objs G Hc Hf) as (p' & x' & ls & Ed' & Ex' & Gi & [_ I2] & _).
  assert (C : forall (d : bytes) k, (k < length d)%nat -> d = firstn k d ++ skipn k d /\ skipn k d <> []).
  { intros d k Hk. split; [symmetry; apply firstn_skipn|]. intros K. apply (f_equal (@length N)) in K. rewrite skipn_length in K. cbn [length] in K. lia. }
  exists file, objs, x', ls, (skipn (length file - 20) file). split; [exact G|]. split; [exact Gi|]. split.
  { intros ->. destruct objs as [|[off o] objs]; [discriminate|]. destruct (decode_git_pack m stored st fuel file _ G Hc Hf) as (p2 & _ & _ & _ & _ & [L _]).
    destruct (L off o) as (h & Hh & _); [left; reflexivity|]. destruct (I2 off o h) as (z & [] & _); [left; reflexivity|exact Hh]. }
  split; [exact Hc|]. split; [exact Hf|]. split; [exact stored_streaming|]. split; [eauto|]. split.
  - intros k Hk. destruct (C _ _ Hk) as [E N]. split; econstructor; eassumption.
  - intros k Hk. destruct (C _ _ Hk) as [E N]. econstructor; eassumption.
Qed.

(** git-lfs push and pull over HTTP (C132). *)

From Coq Require Import ZArith.
From Verif Require Import Base BaseLemmas Digest ModelUtils ModelObject ModelPkt ModelStorage ModelProto ModelLfs ModelJson ModelGateway ModelHttp SpecObject SpecBase SpecJson SpecReply SpecLfs SpecPath
  SpecGateway SpecHttp SpecWire SpecShelf ProofGateway ProofLfs ProofContent ProofWrite ProofHttp ProofLossy ProofFields ProofExample StoredZlib PropGateway PropProto PropServer PropService PropLocks PropContent PropSerde PropHttp PropAnswer PropWire PropShelf.
Open Scope N_scope.

Lemma nth_error_skipn : forall A n (l : list A) i, nth_error (skipn n l) i = nth_error l (n + i).
Proof. intros A. induction n as [|n IH]; intros l i; [reflexivity|]. destruct l as [|x l]; [destruct i; reflexivity|]. apply IH. Qed.
Lemma nth_error_first : forall A n (l : list A) i, (i < n)%nat -> nth_error (firstn n l) i = nth_error l i.
Proof. intros A. induction n as [|n IH]; intros l i H; [lia|]. destruct l as [|x l]; [reflexivity|]. destruct i as [|i]; [reflexivity|]. cbn. apply IH. lia. Qed.
Lemma part_in : forall A n k (l : list A) x, In x (firstn n (skipn k l)) -> In x l.
Proof.
  intros A n k l x H. assert (H1 : In x (skipn k l)) by (rewrite <- (firstn_skipn n (skipn k l)); apply in_or_app; left; exact H).
  rewrite <- (firstn_skipn k l). apply in_or_app. right. exact H1.
Qed.
Section Transfer.
Context (link : object_request -> bytes) (oid d : bytes) (right : content_id oid d).
Notation size := (Z.of_nat (length d)).

(** Of the object nothing else is known. *)
Definition open_minded (s : shelf) : Prop := (announced s oid = None \/ announced s oid = Some size) /\ (filed s oid = None \/ filed s oid = Some d).
Definition ready (s : shelf) : Prop := announced s oid = Some size.
Definition there (s : shelf) : Prop := announced s oid = Some size /\ filed s oid = Some d.
(** Once it is so, it stays so. *)
Definition later (s s' : shelf) : Prop := open_minded s -> open_minded s' /\ (ready s -> ready s') /\ (there s -> there s').
Lemma later_refl : forall s, later s s.
Proof. intros s H. auto. Qed.
Lemma later_trans : forall a b c, later a b -> later b c -> later a c.
Proof. intros a b c H1 H2 H. destruct (H1 H) as (A1 & A2 & A3). destruct (H2 A1) as (B1 & B2 & B3). auto 6. Qed.

Lemma object_later : forall op s o s' r, take_object link op s o s' r -> (op = bs "upload" -> ob_oid o = oid -> ob_size o = size) -> later s s'.
Proof.
  intros op s o s' r T Ho. destruct T as [z d0 _ _|z _ _ _|s' Eo Ea Ec As Af|_ _ _|_ _]; try apply later_refl. intros [H1 H2]. unfold open_minded, ready, there. rewrite (As oid), (Af oid).
  destruct (beq oid (ob_oid o)) eqn:E.
  - apply beq_eq in E. rewrite (Ho Eo (eq_sym E)). split; [split; [right; reflexivity|exact H2]|]. split; [intros _; reflexivity|]. intros [_ K]. auto.
  - split; [split; assumption|]. auto.
Qed.
Lemma objects_later : forall op l s s' r, take_objects link op s l s' r -> (op = bs "upload" -> Forall (fun o => ob_oid o = oid -> ob_size o = size) l) -> later s s'.
Proof.
  intros op l s s' r T. induction T as [s|s o l s1 T1|s o l s1 r s2 rs T1 T2 IH]; intros Ho; [apply later_refl| |].
  - eapply object_later; [exact T1|]. intros E. specialize (Ho E). inversion Ho; assumption.
  - eapply later_trans; [eapply object_later; [exact T1|]|apply IH]; intros E; specialize (Ho E); inversion Ho; assumption.
Qed.
Lemma step_later : forall s dr rq s' a, content_step link s dr rq s' a -> honest oid d rq -> later s s'.
Proof.
  intros s dr rq s' a [x s1 r a0 As St _|l k a0 _ _ _ _ _ _ _|a0 _] Ho; try apply later_refl. specialize (Ho x As).
  destruct St as [op l s1 rs T|op l s1 T| |o b z s1 Ea Rc A1 A2|o b z s1 msg Ea Rc A1 A2|o b _|o z b _ _|o _|y r0 _]; try apply later_refl.
  - exact (objects_later _ _ _ _ _ T Ho).
  - exact (objects_later _ _ _ _ _ T Ho).
  - intros [H1 H2]. unfold open_minded, ready, there. rewrite (A1 oid), (A2 oid). destruct (beq oid o) eqn:E; [|auto]. apply beq_eq in E. rewrite (Ho (eq_sym E)).
    split; [split; [exact H1|right; reflexivity]|]. split; [exact (fun K => K)|]. intros [K _]. split; [exact K|reflexivity].
  - intros [H1 H2]. unfold open_minded, ready, there. rewrite (A1 oid), (A2 oid). destruct (beq oid o) eqn:E; [|auto]. apply beq_eq in E. rewrite <- E in *. rewrite (Ho eq_refl) in Rc. exfalso. apply Rc.
    split; [|exact right]. destruct H1 as [H1|H1]; congruence.
Qed.
Lemma run_later : forall s l s' rs, content_run link s l s' rs -> Forall (fun a => honest oid d (snd a)) l -> later s s'.
Proof.
  intros s l s' rs R. induction R as [s|s dr rq s1 a l s2 rs S1 R IH]; intros H; [apply later_refl|]. inversion H as [|? ? H1 H2]; subst.
  eapply later_trans; [exact (step_later _ _ _ _ _ S1 H1)|exact (IH H2)].
Qed.
Lemma run_at : forall s l s' rs, content_run link s l s' rs -> forall i dr rq, nth_error l i = Some (dr, rq) ->
  exists s1 s2 a, nth_error rs i = Some a /\ content_run link s (firstn i l) s1 (firstn i rs) /\ content_step link s1 dr rq s2 a /\ content_run link s2 (skipn (S i) l) s' (skipn (S i) rs).
Proof.
  intros s l s' rs R. induction R as [s|s dr rq s1 a l s2 rs S1 R IH]; intros [|i] dr' rq' H; try discriminate.
  - injection H as -> ->. exists s, s1, a. split; [reflexivity|]. split; [constructor|]. split; [exact S1|exact R].
  - destruct (IH i dr' rq' H) as (t1 & t2 & a' & N & R1 & S' & R2). exists t1, t2, a'. split; [exact N|]. split; [cbn [firstn]; econstructor; eassumption|]. split; assumption.
Qed.
Lemma run_between : forall s l s' rs i j di ri dj rj, content_run link s l s' rs -> open_minded s -> Forall (fun a => honest oid d (snd a)) l -> (i < j)%nat ->
  nth_error l i = Some (di, ri) -> nth_error l j = Some (dj, rj) ->
  exists s1 s2 a s3 s4 b, nth_error rs i = Some a /\ nth_error rs j = Some b /\ open_minded s1 /\ content_step link s1 di ri s2 a /\ open_minded s2 /\ later s2 s3 /\ open_minded s3 /\ content_step link s3 dj rj s4 b.
Proof.
  intros s l s' rs i j di ri dj rj R O H L Hi Hj. destruct (run_at _ _ _ _ R i di ri Hi) as (s1 & s2 & a & Na & R1 & S1 & R2).
  assert (Hj' : nth_error (skipn (S i) l) (j - S i) = Some (dj, rj)) by (rewrite nth_error_skipn; replace (S i + (j - S i))%nat with j by lia; exact Hj).
  destruct (run_at _ _ _ _ R2 _ dj rj Hj') as (s3 & s4 & b & Nb & R3 & S3 & _). rewrite nth_error_skipn in Nb. replace (S i + (j - S i))%nat with j in Nb by lia.
  assert (Sub : forall n k, Forall (fun a => honest oid d (snd a)) (firstn n (skipn k l))).
  { intros n k. rewrite Forall_forall in *. intros x Hx. apply H, (part_in _ n k), Hx. }
  assert (O1 : open_minded s1) by (apply (run_later _ _ _ _ R1); [exact (Sub i 0%nat)|exact O]).
  assert (Hr : honest oid d ri) by (apply nth_error_In in Hi; rewrite Forall_forall in H; exact (H _ Hi)).
  assert (O2 : open_minded s2) by (apply (step_later _ _ _ _ _ S1 Hr O1)). assert (L2 : later s2 s3) by (apply (run_later _ _ _ _ R3), Sub).
  exists s1, s2, a, s3, s4, b. split; [exact Na|]. split; [exact Nb|]. split; [exact O1|]. split; [exact S1|]. split; [exact O2|]. split; [exact L2|]. split; [apply L2, O2|exact S3].
Qed.

(** ** Single requests *)

Lemma inquire_step : forall op l s dr rq s' a, content_step link s dr rq s' a -> inquires op l rq ->
  exists o, take_objects link op s l s' o /\ match o with
            | Some rs => exists y j, a = Ok y /\ rs_status y = 200 /\ json_head y /\ document j (rs_body y) /\ batch_reply (dr_expires dr) rs j
            | None => a = Panic
            end.
Proof.
  intros op l s dr rq s' a S1 Iq. pose proof Iq as (path & q & body & j & Hr & He & Dj & Tj & Eq).
  destruct S1 as [x s1 r a As St Say|l0 k0 a Ap Em _ _ _ _ _|a Na].
  - rewrite (asks_once _ _ _ _ Iq As) in St. inversion St as [op' l' s2 rs T E1 E2 E3|op' l' s2 T E1 E2 E3| | | | | | |y r0 N E1 E2 E3]; subst.
    + exists (Some rs). split; [exact T|]. destruct a as [y| | |]; try contradiction Say. cbn [says_content reply_json] in Say. destruct Say as (S1 & S2 & jj & S3 & S4). exists y, jj. auto 6.
    + exists None. split; [exact T|]. destruct a; try contradiction Say. reflexivity.
    + contradiction (N Logic.I).
  - subst rq. discriminate Em.
  - subst rq. contradiction Na. split; [exact Hr|]. right. split; [reflexivity|exact He].
Qed.
Lemma send_step : forall s dr rq s' a b, content_step link s dr rq s' a -> sends oid b rq ->
  a = Panic /\ announced s oid = None \/
  exists y z, a = Ok y /\ announced s oid = Some z /\
    (rs_status y = 200 /\ right_content oid z b /\ alike (announced s) (announced s') /\ sets oid (Some b) (filed s) (filed s') \/ rs_status y = 406 /\ ~ right_content oid z b).
Proof.
  intros s dr rq s' a b S1 Sd. pose proof Sd as (path & q & Hr & Nm & Eq). destruct S1 as [x s1 r a As St Say|l0 k0 a Ap Em _ _ _ _ _|a Na].
  - rewrite (asks_sends _ _ _ _ Sd As) in St. inversion St as [| | |o b0 z s2 E1 E2 E3 E4 F1 F2 F3|o b0 z s2 msg E1 E2 E3 E4 F1 F2 F3|o b0 E1 F1 F2 F3| | |y r0 N F1 F2 F3]; subst.
    + destruct a as [y| | |]; try contradiction Say. destruct Say as [S1 S2]. right. exists y, z. auto 8.
    + destruct a as [y| | |]; try contradiction Say. destruct Say as (S1 & S2 & S3). right. exists y, z. auto 8.
    + destruct a as [y| | |]; try contradiction Say. auto.
    + contradiction (N Logic.I).
  - subst rq. discriminate Em.
  - subst rq. contradiction Na. split; [exact Hr|]. left. split; [right; reflexivity|exists oid; exact Nm].
Qed.
Lemma fetch_step : forall s dr rq s' a, content_step link s dr rq s' a -> fetches oid rq ->
  match a with Ok y => rs_status y = 200 /\ filed s oid = Some (rs_body y) | Panic => announced s oid = None \/ filed s oid = None | _ => False end.
Proof.
  intros s dr rq s' a S1 Fe. pose proof Fe as (path & q & body & l & k & Hr & Nm & F & R & O & Eq). destruct S1 as [x s1 r a As St Say|l0 k0 a Ap Em F' R' O' _ _|a Na].
  - rewrite (asks_fetches _ _ _ Fe As) in St. inversion St as [| | | | | |o z b E1 E2 F1 F2 F3|o E1 F1 F2 F3|y r0 N F1 F2 F3]; subst.
    + destruct a as [y| | |]; try contradiction Say. destruct Say as [S1 S2]. rewrite S2. auto.
    + destruct a as [y| | |]; try contradiction Say. exact E1.
    + contradiction (N Logic.I).
  - subst rq. cbn [hr_query] in F'. exfalso. apply O'. pose proof (form_any l q F) as X1. pose proof (form_any l0 q F') as X2. pose proof (repaired_mended l k R) as Y1. pose proof (repaired_mended l0 k0 R') as Y2.
    replace k0 with k by congruence. exact O.
  - subst rq. contradiction Na. split; [exact Hr|]. left. split; [left; reflexivity|exists oid; exact Nm].
Qed.

Lemma objects_ready : forall l s s' rs, take_objects link (bs "upload") s l s' (Some rs) -> open_minded s -> Forall (fun o => ob_oid o = oid -> ob_size o = size) l ->
  (exists o, In o l /\ ob_oid o = oid) -> ready s'.
Proof.
  intros l s s' rs T. remember (Some rs) as ors eqn:Er. remember (bs "upload") as op eqn:Eu. revert rs Er. induction T as [s|s o l s1 T1|s o l s1 r s2 [rs'|] T1 T2 IH]; intros rs Er O H (x & Hx & Ex); try discriminate; [contradiction Hx|].
  inversion H as [|? ? H1 H2]; subst. pose proof (object_later _ _ _ _ _ T1 (fun _ => H1)) as L1. pose proof (objects_later _ _ _ _ _ T2 (fun _ => H2)) as L2. destruct (L1 O) as (O1 & _ & _).
  destruct Hx as [<-|Hx]; [|apply (IH rs' eq_refl O1 H2); eauto]. apply (proj1 (proj2 (L2 O1))). unfold ready.
  inversion T1 as [z d0 E1 E2 F1 F2|z E0 E1 E2 F1 F2|s3 E0 E1 E2 E3 E4 F1 F2| |E0 _ F1 F2]; subst.
  - destruct O as [[O|O] _]; rewrite Ex in *; congruence.
  - destruct O as [[O|O] _]; rewrite Ex in *; congruence.
  - rewrite (E3 _), Ex, beq_refl, (H1 Ex). reflexivity.
  - contradiction E0. reflexivity.
Qed.
Lemma objects_entry : forall op l s s' rs, take_objects link op s l s' (Some rs) -> open_minded s -> (op = bs "upload" -> Forall (fun o => ob_oid o = oid -> ob_size o = size) l) ->
  forall k o, nth_error l k = Some o -> ob_oid o = oid ->
  (there s -> nth_error rs k = Some (mkRepr oid size (Some true) (Some (bs "download", link o)) None)) /\
  (filed s oid = None -> op = bs "upload" -> nth_error rs k = Some (mkRepr oid size (Some true) (Some (bs "upload", link o)) None)).
Proof.
  intros op l s s' rs T. remember (Some rs) as ors eqn:Er. revert rs Er. induction T as [s|s o l s1 T1|s o l s1 r s2 [rs'|] T1 T2 IH]; intros rs Er O H [|k] x Hx Ex; try discriminate.
  - injection Er as <-. injection Hx as ->. split.
    + intros [A1 A2]. inversion T1 as [z d0 E1 E2 F1 F2|z E0 E1 E2 F1 F2|s3 E0 E1 E2 E3 E4 F1 F2| |E0 E1 F1 F2]; subst s1 r; rewrite Ex in *; try congruence.
      * replace z with size by congruence. reflexivity.
      * destruct E1; congruence.
    + intros A2 Eo. specialize (H Eo). inversion H as [|? ? H1 H2]; subst x0 l0. inversion T1 as [z d0 E1 E2 F1 F2|z E0 E1 E2 F1 F2|s3 E0 E1 E2 E3 E4 F1 F2| |E0 E1 F1 F2]; subst r; rewrite Ex in *; try congruence.
      * replace z with size by (destruct O as [[O|O] _]; congruence). reflexivity.
      * rewrite (H1 eq_refl). reflexivity.
  - injection Er as <-. assert (H1 : op = bs "upload" -> ob_oid o = oid -> ob_size o = size) by (intros Eo; specialize (H Eo); inversion H; assumption).
    assert (H2 : op = bs "upload" -> Forall (fun o => ob_oid o = oid -> ob_size o = size) l) by (intros Eo; specialize (H Eo); inversion H; assumption).
    destruct (object_later _ _ _ _ _ T1 H1 O) as (O1 & _ & L1). destruct (IH rs' eq_refl O1 H2 k x Hx Ex) as [I1 I2]. split; [intros A; apply I1, L1, A|].
    intros A Eo. apply I2; [|exact Eo]. destruct T1 as [| |s3 _ _ _ _ Af| |]; try exact A. rewrite (Af oid). exact A.
Qed.
Lemma run_unfiled : forall s l s' rs, content_run link s l s' rs -> Forall (fun a => honest oid d (snd a) /\ ~ sends oid d (snd a)) l -> filed s oid = None -> filed s' oid = None.
Proof.
  intros s l s' rs R. induction R as [s|s dr rq s1 a l s2 rs S1 R IH]; intros H F; [exact F|]. inversion H as [|? ? [H1 H2] H3]; subst. cbn [snd] in H1, H2. apply (IH H3).
  destruct S1 as [x s1 r a0 As St _|l0 k a0 _ _ _ _ _ _ _|a0 _]; try exact F.
  assert (Up : forall o b, x = EUpload o b -> o <> oid).
  { intros o b -> ->. apply H2. specialize (H1 _ As eq_refl). subst b. inversion As; subst. eexists _, _. split; [eassumption|]. split; [eassumption|reflexivity]. }
  assert (Ob : forall op ol s0 s3 r0, take_objects link op s0 ol s3 r0 -> filed s3 oid = filed s0 oid).
  { intros op ol s0 s3 r0 T. assert (One : forall s0 o s3 r0, take_object link op s0 o s3 r0 -> filed s3 oid = filed s0 oid) by (intros ? ? ? ? [| |? _ _ _ _ Af| |]; try reflexivity; apply Af).
    induction T as [s0|s0 o l0 s4 T1|s0 o l0 s4 r1 s5 rs1 T1 T2 IHT]; [reflexivity|exact (One _ _ _ _ T1)|]. rewrite IHT. exact (One _ _ _ _ T1). }
  destruct St as [op l0 s1 rs0 T|op l0 s1 T| |o b z s1 _ _ _ A2|o b z s1 msg _ _ _ A2| | | |]; try exact F.
  - rewrite (Ob _ _ _ _ _ T). exact F.
  - rewrite (Ob _ _ _ _ _ T). exact F.
  - rewrite (A2 oid). replace (beq oid o) with false; [exact F|]. symmetry. apply beq_neq. intros E. exact (Up o b eq_refl (eq_sym E)).
  - rewrite (A2 oid). replace (beq oid o) with false; [exact F|]. symmetry. apply beq_neq. intros E. exact (Up o b eq_refl (eq_sym E)).
Qed.
End Transfer.

Section Server.
Context (e : env) (b : build) (c : codec) (fuel : nat) (cut : bytes -> list bytes) (v : lenv).
Notation run := (http_run e b c fuel cut v).
(** A server without contents, and requests with what is drawn meanwhile. *)
Definition new_server (w : site) : Prop := l_fails (snd w) = [] /\ l_meta (snd w) = [] /\ Forall (fun x => foreign v (fst x)) (l_files (snd w)).
Definition at_ (l : list (draw * http_request)) (i : nat) (P : draw -> http_request -> Prop) : Prop := exists dr rq, nth_error l i = Some (dr, rq) /\ P dr rq.
Definition answer (rs : list (res response)) (i : nat) (P : response -> Prop) : Prop := exists y, nth_error rs i = Some (Ok y) /\ P y.

Lemma bare_open : forall oid d, open_minded oid d bare.
Proof. intros oid d. split; left; reflexivity. Qed.
(** A batch of objects with sizes that the table holds is answered. *)
Theorem C132_answered : forall l w w' rs i op objs, serves v -> texts_ok v -> new_server w -> Forall (fun a => draw_ok (fst a) /\ batches_fit (snd a)) l -> run l w = (w', rs) ->
  at_ l i (fun _ rq => inquires op objs rq) -> Forall (fun o => column (ob_size o)) objs -> answer rs i (fun y => rs_status y = 200).
Proof.
  intros l w w' rs i op objs Sv Ut (Q & M & Fo) D E (dr & rq & Hi & Iq) Hc. destruct (C131_shelf e b c fuel cut v l w w' rs Sv Ut Q M Fo D E) as (s & R & _).
  destruct (run_at _ _ _ _ _ R i dr rq Hi) as (s1 & s2 & a & Na & _ & S1 & _). destruct (inquire_step _ _ _ _ _ _ _ _ S1 Iq) as ([es|] & T & A).
  - destruct A as (y & j & -> & S & _). exists y. auto.
  - exfalso. clear - T Hc. remember None as r eqn:Er. revert Er. induction T as [s|s o l s1 T1|s o l s1 r s2 [rs|] T1 T2 IH]; intros Er; try discriminate Er; inversion Hc as [|? ? H1 H2]; subst.
    + inversion T1. contradiction.
    + exact (IH H2 eq_refl).
Qed.
(** ** C122: uploads and batches *)

(** A state of a server that began without contents. *)
Definition reached (w : site) : Prop :=
  exists w0 l rs, new_server w0 /\ Forall (fun a => draw_ok (fst a) /\ batches_fit (snd a)) l /\ run l w0 = (w, rs).
Lemma reached_shelf : forall w, serves v -> texts_ok v -> reached w -> exists s, shelved v (snd w) s /\ holds v (snd w) s.
Proof.
  intros w Sv Ut (w0 & l & rs & (Q & M & Fo) & D & E). destruct (run_content e b c fuel cut v l w0 bare w rs Sv Ut (shelved_start v w0 Q M Fo) D E) as (s & _ & Sh).
  exists s. split; [exact Sh|exact (shelved_holds v w s Sv Sh)].
Qed.
(** An upload is answered exactly if the object has a row. *)
Theorem C122_upload : forall d path q body oid w, serves v -> texts_ok v -> reached w -> draw_ok d -> rooted path -> names_object path oid ->
  replied e b c fuel cut v d (mkHttp MPut path q body) w <-> exists m, object_row v (snd w) oid m.
Proof.
  intros d path q body oid w Sv Ut Re D Hr Nm. destruct (reached_shelf w Sv Ut Re) as (s & Sh & Ho & _).
  assert (Sd : sends oid body (mkHttp MPut path q body)) by (exists path, q; auto).
  assert (Bf : batches_fit (mkHttp MPut path q body)) by (intros x A; rewrite (asks_sends _ _ _ _ Sd A); exact Logic.I).
  destruct (step_content e b c fuel cut v d _ w s Sv Ut Sh D Bf) as (w' & s' & r & E & S1 & _). unfold replied. rewrite E. specialize (Ho oid).
  destruct (send_step _ _ _ _ _ _ _ _ S1 Sd) as [[-> K]|(y & z & -> & K & _)].
  - split; [intros (? & ? & X); discriminate X|]. intros (m & Rm). exfalso. assert (Some (mt_size m) = None) by (rewrite <- K; symmetry; apply Ho; [apply Nm|eauto]). discriminate.
  - split; [|intros _; eauto]. intros _. destruct (proj1 (Ho z (proj1 Nm)) K) as (m & Rm & _). eauto.
Qed.
(** The objects of a batch that have no row yet have a size that the table holds. *)
Definition can_announce (w : lfs) (l : list object_request) : Prop :=
  forall l1 o l2, l = l1 ++ o :: l2 -> column (ob_size o) \/ (exists m, object_row v w (ob_oid o) m) \/ exists o', In o' l1 /\ ob_oid o' = ob_oid o.
Lemma objects_stop : forall link op l s s', take_objects link op s l s' None -> op = bs "upload" /\ exists l1 o l2, l = l1 ++ o :: l2 /\ ~ column (ob_size o) /\ announced s (ob_oid o) = None /\ forall o', In o' l1 -> ob_oid o' <> ob_oid o.
Proof.
  intros link op l s s' T. remember None as r eqn:Er. revert Er. induction T as [s|s o l s1 T1|s o l s1 r s2 [rs|] T1 T2 IH]; intros Er; try discriminate Er.
  - inversion T1; subst. split; [reflexivity|]. exists [], o, l. split; [reflexivity|]. split; [assumption|]. split; [assumption|]. intros o' [].
  - destruct (IH eq_refl) as (-> & l1 & x & l2 & -> & C & A & N). split; [reflexivity|]. exists (o :: l1), x, l2. split; [reflexivity|]. split; [exact C|].
    assert (K : announced s (ob_oid x) = None /\ ob_oid o <> ob_oid x).
    { inversion T1; subst; try (split; [exact A|congruence]).
      match goal with K : sets _ _ _ _ |- _ => rewrite (K (ob_oid x)) in A end. destruct (beq (ob_oid x) (ob_oid o)) eqn:B; [discriminate|]. apply beq_neq in B. split; congruence. }
    split; [apply K|]. intros o' [<-|I]; [apply K|apply N, I].
Qed.
Lemma objects_go : forall link l s s' rs, take_objects link (bs "upload") s l s' (Some rs) -> forall l1 o l2, l = l1 ++ o :: l2 ->
  column (ob_size o) \/ announced s (ob_oid o) <> None \/ exists o', In o' l1 /\ ob_oid o' = ob_oid o.
Proof.
  intros link l s s' rs T. remember (Some rs) as r eqn:Er. remember (bs "upload") as op eqn:Eo. revert rs Er. induction T as [s|s o l s1 T1|s o l s1 r s2 [rs'|] T1 T2 IH]; intros rs Er l1 x l2 El; try discriminate Er.
  - destruct l1; discriminate El.
  - destruct l1 as [|o1 l1]; injection El as -> ->.
    + inversion T1; subst; try (right; left; congruence). left. assumption.
    + destruct (IH rs' eq_refl l1 x l2 eq_refl) as [K|[K|(o' & I & K)]]; [auto| |right; right; exists o'; split; [right; exact I|exact K]].
      inversion T1; subst; auto. match goal with H : sets _ _ _ _ |- _ => rewrite (H (ob_oid x)) in K end. destruct (beq (ob_oid x) (ob_oid o1)) eqn:B; [|auto].
      apply beq_eq in B. right. right. exists o1. split; [left; reflexivity|symmetry; exact B].
Qed.
(** A batch is answered exactly if the server can take the body and announce its objects. *)
Theorem C122_batch : forall d path q body x w, serves v -> texts_ok v -> reached w -> draw_ok d -> batches_fit (mkHttp MPost path q body) ->
  rooted path -> ends (bs "/objects/batch") path -> document x body ->
  replied e b c fuel cut v d (mkHttp MPost path q body) w <-> exists op l, takes_batch x op l /\ (op = bs "upload" -> can_announce (snd w) l).
Proof.
  intros d path q body x w Sv Ut Re D Bf Hr He Dx. destruct (reached_shelf w Sv Ut Re) as (s & Sh & Ho & _).
  destruct (step_content e b c fuel cut v d _ w s Sv Ut Sh D Bf) as (w' & s' & r & E & S1 & _). unfold replied. rewrite E.
  assert (Ann : forall o, id_word (ob_oid o) -> announced s (ob_oid o) <> None <-> exists m, object_row v (snd w) (ob_oid o) m).
  { intros o Hw. split.
    - destruct (announced s (ob_oid o)) as [z|] eqn:K; [|congruence]. intros _. destruct (proj1 (Ho (ob_oid o) z Hw) K) as (m & Rm & _). eauto.
    - intros (m & Rm) K. assert (Some (mt_size m) = None) by (rewrite <- K; symmetry; apply Ho; [exact Hw|eauto]). discriminate. }
  assert (Case : (exists op l, takes_batch x op l) \/ forall op l, ~ takes_batch x op l).
  { destruct (C94_exact x body Dx [] []) as (_ & _ & _ & X). unfold batch_event in X. destruct (from_text d_batch body) as [[op l]|] eqn:F; [left; exists op, l; apply X; reflexivity|].
    right. intros op l T. apply X in T. discriminate T. }
  destruct Case as [(op & l & T)|N].
  - assert (Iq : inquires op l (mkHttp MPost path q body)) by (exists path, q, body, x; auto 6).
    assert (Ok1 : asks_content (mkHttp MPost path q body) (EBatch (Some (op, l)))).
    { apply asks_batch; [exact Hr|exact He|]. split; [|intros NN; exfalso; apply NN, (C94_json_only body [] []); right; right; right; exists (op, l); apply (proj2 (proj2 (proj2 (C94_exact x body Dx [] [])))), T].
      intros x' Dx'. cbn [fst snd]. rewrite (C94_one_meaning _ _ _ Dx' Dx). exact T. }
    pose proof (Bf _ Ok1) as Pr. cbn [batch_fits] in Pr. rewrite Forall_forall in Pr.
    destruct (inquire_step _ _ _ _ _ _ _ _ S1 Iq) as ([es|] & Tk & A).
    + destruct A as (y & j & -> & _). split; [intros _|eauto]. exists op, l. split; [exact T|]. intros -> l1 o l2 El. destruct (objects_go _ _ _ _ _ Tk l1 o l2 El) as [K|[K|K]]; [auto| |auto].
      right. left. apply Ann; [|exact K]. apply Pr. rewrite El. apply in_or_app. right. left. reflexivity.
    + subst r. split; [intros (? & ? & K); discriminate K|]. intros (op' & l' & T' & Ca). exfalso.
      assert (Eq : (op', l') = (op, l)) by (destruct (C94_exact x body Dx [] []) as (_ & _ & _ & X); apply X in T, T'; congruence). injection Eq as -> ->.
      destruct (objects_stop _ _ _ _ _ Tk) as (-> & l1 & o & l2 & El & Nc & An & Nl). assert (Hw : id_word (ob_oid o)) by (apply Pr; rewrite El; apply in_or_app; right; left; reflexivity).
      destruct (Ca eq_refl l1 o l2 El) as [K|[K|(o' & I & K)]]; [contradiction|apply (Ann o Hw) in K; congruence|exact (Nl o' I K)].
  - split; [|intros (op & l & T & _); contradiction (N op l T)]. intros (w1 & y & K). exfalso. injection K as -> ->. inversion S1 as [x0 s1 r a As St Say|l0 k0 a Ap Em _ _ _ _ _|a Na]; subst.
    + inversion As as [p0 q0 b0 o _ _ R E1 E2| |]; subst. destruct R as [R _]. specialize (R x Dx). destruct o as [[op l]|]; [exact (N _ _ R)|].
      inversion St; subst; [exact Say|]. match goal with K : ~ content_event _ |- _ => exact (K Logic.I) end.
    + discriminate Em.
    + apply Na. split; [exact Hr|]. right. split; [reflexivity|exact He].
Qed.
(** ** C132 *)

(** Contents that all say the same of are transferred: what was announced can be sent, what
    was sent is offered and can be fetched, what was not sent is asked for, and what is
    fetched is the content. *)
Theorem C132_transfer : forall oid d l w w' rs, serves v -> texts_ok v -> new_server w -> content_id oid d ->
  Forall (fun a => draw_ok (fst a) /\ batches_fit (snd a) /\ honest oid d (snd a)) l -> run l w = (w', rs) ->
  (forall i j objs o, (i < j)%nat -> at_ l i (fun _ rq => inquires (bs "upload") objs rq) -> In o objs -> ob_oid o = oid -> answer rs i (fun y => rs_status y = 200) ->
     at_ l j (fun _ rq => sends oid d rq) -> answer rs j (fun y => rs_status y = 200)) /\
  (forall i j, (i < j)%nat -> at_ l i (fun _ rq => sends oid d rq) -> answer rs i (fun y => rs_status y = 200) ->
     at_ l j (fun _ rq => fetches oid rq) -> answer rs j (fun y => rs_status y = 200 /\ rs_body y = d)) /\
  (forall i j op objs k o, (i < j)%nat -> at_ l i (fun _ rq => sends oid d rq) -> answer rs i (fun y => rs_status y = 200) ->
     at_ l j (fun _ rq => inquires op objs rq) -> answer rs j (fun y => rs_status y = 200) -> nth_error objs k = Some o -> ob_oid o = oid ->
     at_ l j (fun dr _ => answer rs j (fun y => exists t es, document t (rs_body y) /\ batch_reply (dr_expires dr) es t /\
       nth_error es k = Some (mkRepr oid (Z.of_nat (length d)) (Some true) (Some (bs "download", link_of v o)) None)))) /\
  (forall j objs k o, (forall i, (i < j)%nat -> ~ at_ l i (fun _ rq => sends oid d rq)) ->
     at_ l j (fun _ rq => inquires (bs "upload") objs rq) -> answer rs j (fun y => rs_status y = 200) -> nth_error objs k = Some o -> ob_oid o = oid ->
     at_ l j (fun dr _ => answer rs j (fun y => exists t es, document t (rs_body y) /\ batch_reply (dr_expires dr) es t /\
       nth_error es k = Some (mkRepr oid (Z.of_nat (length d)) (Some true) (Some (bs "upload", link_of v o)) None)))) /\
  (forall j y, at_ l j (fun _ rq => fetches oid rq) -> nth_error rs j = Some (Ok y) -> rs_body y = d).
Proof.
  intros oid d l w w' rs Sv Ut (Q & M & Fo) Rc D E.
  assert (D1 : Forall (fun a => draw_ok (fst a) /\ batches_fit (snd a)) l) by (rewrite Forall_forall in *; intros x Hx; destruct (D x Hx) as (A & B & _); auto).
  assert (D2 : Forall (fun a => honest oid d (snd a)) l) by (rewrite Forall_forall in *; intros x Hx; apply (D x Hx)).
  destruct (C131_shelf e b c fuel cut v l w w' rs Sv Ut Q M Fo D1 E) as (s & R & _). pose proof (bare_open oid d) as Ob. clear E.
  assert (Hon : forall i dr rq, nth_error l i = Some (dr, rq) -> honest oid d rq) by (intros i dr rq Hi; apply nth_error_In in Hi; rewrite Forall_forall in D2; exact (D2 _ Hi)).
  assert (Sizes : forall rq objs op, honest oid d rq -> inquires op objs rq -> op = bs "upload" -> Forall (fun o => ob_oid o = oid -> ob_size o = Z.of_nat (length d)) objs).
  { intros rq objs op Ho Iq. pose proof Iq as (path & q & body & j & Hr & He & Dj & Tj & ->). apply (Ho (EBatch (Some (op, objs)))).
    apply asks_batch; [exact Hr|exact He|]. split; [|intros N; exfalso; apply N, (C94_json_only body [] []); right; right; right; exists (op, objs); apply (proj2 (proj2 (proj2 (C94_exact j body Dj [] [])))), Tj].
    intros x Dx. cbn [fst snd]. destruct (C94_exact x body Dx [] []) as (_ & _ & _ & X). apply X. apply (proj2 (proj2 (proj2 (C94_exact j body Dj [] [])))), Tj. }
  assert (Sent : forall s1 s2 dr rq y, content_step (link_of v) s1 dr rq s2 (Ok y) -> sends oid d rq -> rs_status y = 200 -> open_minded oid d s1 -> there oid d s2).
  { intros s1 s2 dr rq y S1 Sd Sy O1. destruct (send_step _ _ _ _ _ _ _ _ S1 Sd) as [[K _]|(y' & z & Ey & Ez & K)]; [discriminate K|]. injection Ey as <-.
    destruct K as [(_ & _ & A1 & A2)|(K & _)]; [|congruence]. split; [rewrite (A1 oid); destruct O1 as [[O1|O1] _]; congruence|rewrite (A2 oid), beq_refl; reflexivity]. }
  split; [|split; [|split; [|split]]].
  - intros i j objs o L (di & ri & Hi & Iq) Io Eo (y & Ny & Sy) (dj & rj & Hj & Sd).
    destruct (run_between _ oid d Rc _ _ _ _ i j di ri dj rj R Ob D2 L Hi Hj) as (s1 & s2 & a & s3 & s4 & b1 & Na & Nb & O1 & S1 & O2 & La & O3 & S3).
    rewrite Ny in Na. injection Na as <-. destruct (inquire_step _ _ _ _ _ _ _ _ S1 Iq) as ([es|] & T & A); [|discriminate A].
    assert (Rd : ready oid d s3). { apply (proj1 (proj2 (La O2))). apply (objects_ready _ oid d _ _ _ _ T O1); [apply (Sizes ri _ (bs "upload")); [exact (Hon _ _ _ Hi)|exact Iq|reflexivity]|exists o; auto]. }
    unfold ready in Rd. destruct (send_step _ _ _ _ _ _ _ _ S3 Sd) as [[_ K]|(y' & z & Ey & Ez & K)]; [congruence|]. subst b1.
    destruct K as [(K & _)|(_ & K)]; [exists y'; auto|]. exfalso. apply K. split; [congruence|exact Rc].
  - intros i j L (di & ri & Hi & Sd) (y & Ny & Sy) (dj & rj & Hj & Fe).
    destruct (run_between _ oid d Rc _ _ _ _ i j di ri dj rj R Ob D2 L Hi Hj) as (s1 & s2 & a & s3 & s4 & b1 & Na & Nb & O1 & S1 & O2 & La & O3 & S3).
    rewrite Ny in Na. injection Na as <-. pose proof (proj2 (proj2 (La O2)) (Sent _ _ _ _ _ S1 Sd Sy O1)) as [T1 T2].
    pose proof (fetch_step _ _ _ _ _ _ _ S3 Fe) as K. destruct b1 as [y'| | |]; try contradiction K; [|destruct K; congruence]. exists y'. split; [exact Nb|]. split; [apply K|]. destruct K. congruence.
  - intros i j op objs k o L (di & ri & Hi & Sd) (y & Ny & Sy) (dj & rj & Hj & Iq) (y2 & Ny2 & Sy2) Ho Eo.
    destruct (run_between _ oid d Rc _ _ _ _ i j di ri dj rj R Ob D2 L Hi Hj) as (s1 & s2 & a & s3 & s4 & b1 & Na & Nb & O1 & S1 & O2 & La & O3 & S3).
    rewrite Ny in Na. injection Na as <-. rewrite Ny2 in Nb. injection Nb as <-. pose proof (proj2 (proj2 (La O2)) (Sent _ _ _ _ _ S1 Sd Sy O1)) as Th.
    destruct (inquire_step _ _ _ _ _ _ _ _ S3 Iq) as ([es|] & T & A); [|discriminate A]. destruct A as (y3 & t & Ey & _ & _ & Dt & Bt). injection Ey as <-.
    exists dj, rj. split; [exact Hj|]. exists y2. split; [exact Ny2|]. exists t, es. split; [exact Dt|]. split; [exact Bt|].
    apply (objects_entry _ oid d _ _ _ _ _ T O3 (Sizes rj objs op (Hon _ _ _ Hj) Iq) k o Ho Eo), Th.
  - intros j objs k o Nobody (dj & rj & Hj & Iq) (y2 & Ny2 & Sy2) Ho Eo. destruct (run_at _ _ _ _ _ R j dj rj Hj) as (s3 & s4 & b1 & Nb & R1 & S3 & _). rewrite Ny2 in Nb. injection Nb as <-.
    assert (Un : filed s3 oid = None).
    { apply (run_unfiled _ oid d _ _ _ _ R1); [|reflexivity]. apply Forall_forall. intros [dx x] Hx. cbn [snd]. apply In_nth_error in Hx as (i & Hx).
      assert (Li : (i < j)%nat) by (assert (Ln : nth_error (firstn j l) i <> None) by congruence; apply nth_error_Some in Ln; rewrite firstn_length in Ln; lia).
      rewrite nth_error_first in Hx by exact Li. split; [exact (Hon _ _ _ Hx)|]. intros K. apply (Nobody i Li). exists dx, x. auto. }
    assert (O3 : open_minded oid d s3). { apply (run_later _ oid d Rc _ _ _ _ R1); [|exact Ob]. rewrite Forall_forall in *. intros x Hx. apply D2, (part_in _ j 0%nat l), Hx. }
    destruct (inquire_step _ _ _ _ _ _ _ _ S3 Iq) as ([es|] & T & A); [|discriminate A]. destruct A as (y3 & t & Ey & _ & _ & Dt & Bt). injection Ey as <-.
    exists dj, rj. split; [exact Hj|]. exists y2. split; [exact Ny2|]. exists t, es. split; [exact Dt|]. split; [exact Bt|].
    apply (objects_entry _ oid d _ _ _ _ _ T O3 (Sizes rj objs _ (Hon _ _ _ Hj) Iq) k o Ho Eo); [exact Un|reflexivity].
  - intros j y (dj & rj & Hj & Fe) Ny. destruct (run_at _ _ _ _ _ R j dj rj Hj) as (s3 & s4 & b1 & Nb & R1 & S3 & _). rewrite Ny in Nb. injection Nb as <-.
    assert (O3 : open_minded oid d s3). { apply (run_later _ oid d Rc _ _ _ _ R1); [|exact Ob]. rewrite Forall_forall in *. intros x Hx. apply D2, (part_in _ j 0%nat l), Hx. }
    pose proof (fetch_step _ _ _ _ _ _ _ S3 Fe) as [_ K]. destruct O3 as [_ [O3|O3]]; congruence.
Qed.
End Server.

Example C132_ex : serves ex_lenv /\ texts_ok ex_lenv /\ new_server ex_lenv (ex_world, ex_start) /\ content_id oid1 (bs "good") /\
  Forall (fun a => draw_ok (fst a) /\ batches_fit (snd a) /\ honest oid1 (bs "good") (snd a)) ex_transfer /\
  at_ ex_transfer 0 (fun _ rq => inquires (bs "upload") [mkObj oid1 4 [] []] rq) /\ at_ ex_transfer 1 (fun _ rq => sends oid1 (bs "good") rq) /\
  at_ ex_transfer 2 (fun _ rq => fetches oid1 rq) /\ at_ ex_transfer 3 (fun _ rq => inquires (bs "download") [mkObj oid1 4 [] []] rq) /\ column 4 /\
  map ex_status (snd (http_run ex_env Release stored 50 ex_cut ex_lenv ex_transfer (ex_world, ex_start))) = [200; 200; 200; 200].
Proof.
  split; [apply ex_serves|]. split; [apply ex_serves|]. split; [split; [reflexivity|split; [reflexivity|constructor]]|]. split; [exact (hex_lower (bs "good"))|].
  assert (Iq : forall op, utf8_text op -> inquires op [mkObj oid1 4 [] []] (ex_batch_rq op oid1 4)) by (intros op U; apply ex_inquires; [exact U|apply word_text, oid1_word|apply oid1_word|split; discriminate]).
  assert (Hb : forall op, utf8_text op -> honest oid1 (bs "good") (ex_batch_rq op oid1 4)).
  { intros op U x A. rewrite (asks_once _ _ _ _ (Iq op U) A). intros _. constructor; [intros _; reflexivity|constructor]. }
  assert (Hp : honest oid1 (bs "good") (ex_put oid1 (bs "good"))) by (intros x A; rewrite (asks_sends _ _ _ _ (ex_put_ok oid1 _ oid1_word) A); intros _; reflexivity).
  assert (Hg : honest oid1 (bs "good") (ex_get oid1)) by (intros x A; rewrite (asks_fetches _ _ _ (ex_get_ok oid1 oid1_word) A); exact Logic.I).
  destruct ex_draws as [D1 D2]. split.
  { unfold ex_transfer. repeat (apply Forall_cons; [split; [first [exact D1|exact D2]|cbn [snd]; split; [first [apply ex_put_fits|apply ex_get_fits|apply ex_batch_fits; ascii]|first [exact Hp|exact Hg|apply Hb; ascii]]]|]). apply Forall_nil. }
  unfold at_. cbn [ex_transfer nth_error]. split; [eexists _, _; split; [reflexivity|apply Iq; ascii]|]. split; [eexists _, _; split; [reflexivity|apply ex_put_ok, oid1_word]|].
  split; [eexists _, _; split; [reflexivity|apply ex_get_ok, oid1_word]|]. split; [eexists _, _; split; [reflexivity|apply Iq; ascii]|].
  split; [split; discriminate|]. vm_compute. reflexivity.
Qed.
Lemma status_replied : forall e b c fuel cut v d rq w, ex_status (snd (http_handle e b c fuel cut v d rq w)) <> 0 -> replied e b c fuel cut v d rq w.
Proof. intros e b c fuel cut v d rq w H. unfold replied. destruct (http_handle e b c fuel cut v d rq w) as [w' [r| | |]]; [eauto|..]; destruct H; reflexivity. Qed.
Example C122_contents_ex : exists w, reached ex_env Release stored 50 ex_cut ex_lenv w /\ names_object (bs "/demo.git/info/lfs/objects/" ++ oid1) oid1 /\
  (exists m, object_row ex_lenv (snd w) oid1 m) /\ can_announce ex_lenv (snd w) [mkObj oid1 4 [] []; mkObj oid1 5 [] []] /\ ~ can_announce ex_lenv ex_start [mkObj oid1 2147483648 [] []].
Proof.
  destruct C132_ex as (Sv & Ut & Nw & _ & D & _). exists (fst (http_run ex_env Release stored 50 ex_cut ex_lenv ex_transfer (ex_world, ex_start))).
  assert (R : reached ex_env Release stored 50 ex_cut ex_lenv (fst (http_run ex_env Release stored 50 ex_cut ex_lenv ex_transfer (ex_world, ex_start)))).
  { exists (ex_world, ex_start), ex_transfer. eexists. split; [exact Nw|]. split; [|apply surjective_pairing]. rewrite Forall_forall in *. intros x Hx. destruct (D x Hx) as (A & B & _). auto. }
  assert (Nm : names_object (bs "/demo.git/info/lfs/objects/" ++ oid1) oid1) by exact (object_url oid1 oid1_word).
  split; [exact R|]. split; [exact Nm|]. split; [|split].
  - apply (C122_upload ex_env Release stored 50 ex_cut ex_lenv ex_draw _ [] (bs "good") oid1 _ Sv Ut R (proj1 ex_draws) (object_rooted oid1) Nm). apply status_replied. vm_compute. discriminate.
  - intros l1 o l2 E. left. assert (I : In o [mkObj oid1 4 [] []; mkObj oid1 5 [] []]) by (rewrite E; apply in_or_app; right; left; reflexivity). destruct I as [<-|[<-|[]]]; split; discriminate.
  - intros K. destruct (K [] _ [] eq_refl) as [C|[(m & l1 & l2 & E & _)|(o' & [] & _)]]; [destruct C as [_ C]; apply C; reflexivity|]. destruct l1; discriminate E.
Qed.

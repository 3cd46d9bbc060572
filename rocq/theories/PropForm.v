(** C149: how a pack is written has no effect on what a push does. *)

From Coq Require Import Lia Sorted Permutation.
From Verif Require Import Base BaseLemmas Digest ModelUtils ModelObject ModelDelta ModelBase ModelPack ModelDecode ModelPkt ModelStorage ModelProto ModelLfs ModelGateway ModelService ModelRead
  StoredZlib SpecFormat SpecDelta SpecDiff SpecObject SpecIdx SpecBase SpecPack SpecPkt SpecStorage SpecProto SpecService ProofUtils ProofIdx ProofObject ProofUtf8 ProofBase ProofShort ProofDelta ProofPack ProofPkt ProofReq
  ProofEncode ProofPackAny ProofPackDir ProofNodes ProofStorage ProofRefs ProofSession ProofGraph ProofExample ProofPush ProofService PropPkt PropStorage PropProto PropGateway PropService PropFiles PropTail PropPack PropPick.
From Verif Require PropSsh PropRead.
Open Scope N_scope.

(** Two packs of the same objects, whatever the order of the entries, which of them are
    deltas and against what, how they are compressed, and how often one is repeated. *)
Definition same_objects (l l' : list (N * object)) : Prop := forall o, In o (map snd l) <-> In o (map snd l').

(** ** The cache of a decoded pack depends on the objects alone *)

Lemma sorted_same : forall A (l l' : list (hash * A)), StronglySorted lt_hash (map fst l) -> StronglySorted lt_hash (map fst l') ->
  (forall x, In x l <-> In x l') -> l = l'.
Proof.
  assert (Irr : forall h : hash, bcmp h h <> Lt) by (intros h E; rewrite bcmp_refl in E; discriminate).
  intros A. induction l as [|x l IH]; intros [|y l'] S S' H.
  - reflexivity.
  - destruct (proj2 (H y) (or_introl eq_refl)).
  - destruct (proj1 (H x) (or_introl eq_refl)).
  - cbn [map] in S, S'. inversion S as [|? ? S1 F]; subst. inversion S' as [|? ? S1' F']; subst. rewrite Forall_forall in F, F'.
    assert (E : x = y).
    { destruct (proj1 (H x) (or_introl eq_refl)) as [E|Hx]; [symmetry; exact E|]. destruct (proj2 (H y) (or_introl eq_refl)) as [E|Hy]; [exact E|].
      pose proof (F _ (in_map fst _ _ Hy)) as K. pose proof (F' _ (in_map fst _ _ Hx)) as K'. unfold lt_hash in K, K'. rewrite bcmp_antisym, K in K'. discriminate K'. }
    subst y. f_equal. apply IH; [exact S1|exact S1'|]. intros z. split; intros Hz.
    + destruct (proj1 (H z) (or_intror Hz)) as [E|Hz']; [|exact Hz']. subst z. destruct (Irr (fst x)). exact (F _ (in_map fst _ _ Hz)).
    + destruct (proj2 (H z) (or_intror Hz)) as [E|Hz']; [|exact Hz']. subst z. destruct (Irr (fst x)). exact (F' _ (in_map fst _ _ Hz)).
Qed.
Lemma same_cache : forall k k' l l', sorted_cache k -> sorted_cache k' -> SpecPack.holds k (map snd l) -> SpecPack.holds k' (map snd l') -> same_objects l l' ->
  by_hash k = by_hash k'.
Proof.
  intros k k' l l' S S' H H' E. apply sorted_same; [exact S|exact S'|].
  assert (G : forall h m, hash_object k h = Some m <-> hash_object k' h = Some m).
  { intros h m. split; intros K.
    - apply (proj1 (H h m)) in K as (o & Ho & K). apply (proj2 (H' h m)). exists o. split; [apply E; exact Ho|exact K].
    - apply (proj1 (H' h m)) in K as (o & Ho & K). apply (proj2 (H h m)). exists o. split; [apply E; exact Ho|exact K]. }
  intros [h m]. split; intros K.
  - apply bt_get_sorted in K; [|exact S]. apply G in K. exact (bt_get_in _ _ _ _ K).
  - apply bt_get_sorted in K; [|exact S']. apply G in K. exact (bt_get_in _ _ _ _ K).
Qed.
Lemma save_same : forall e fuel k k' path, by_hash k = by_hash k' -> save_packfile e fuel k path = save_packfile e fuel k' path.
Proof. intros e fuel k k' path E. unfold save_packfile, update_seq. rewrite E. reflexivity. Qed.
Lemma pack_magic : forall c st file objs, git_pack c st file objs -> exists x, file = bs "PACK" ++ x.
Proof. intros c st file objs (b & Hb & ->). destruct (pack_body_magic _ _ _ _ _ Hb) as (r & ->). rewrite <- app_assoc. eexists. reflexivity. Qed.
Lemma decoded : forall m c st fuel file objs, git_pack c st file objs -> no_collision (map snd objs) -> nlen file < 2 ^ 32 ->
  exists p, decode m c st (S fuel) file = Ok p /\ SpecPack.holds (p_cache p) (map snd objs) /\ sorted_cache (p_cache p).
Proof.
  intros m c st fuel file objs G Hc Hn. destruct (decode_git_pack_junk m c st file objs [] G Hc Hn) as (p & E & H). exists p. split; [|exact H].
  rewrite app_nil_r in E. apply E. lia.
Qed.

(** Both packs decode, and every object is found under the same id with the same content. *)
Theorem C149_decode : forall m c st fuel file file' objs objs', git_pack c st file objs -> git_pack c st file' objs' -> same_objects objs objs' ->
  no_collision (map snd objs) -> nlen file < 2 ^ 32 -> nlen file' < 2 ^ 32 ->
  exists p p', decode m c st (S fuel) file = Ok p /\ decode m c st (S fuel) file' = Ok p' /\ (forall h, hash_object (p_cache p') h = hash_object (p_cache p) h) /\
    by_hash (p_cache p') = by_hash (p_cache p).
Proof.
  intros m c st fuel file file' objs objs' G G' E Hc Hn Hn'.
  assert (Hc' : no_collision (map snd objs')) by (intros a b h Ha Hb; apply Hc; apply E; assumption).
  destruct (decoded m c st fuel file objs G Hc Hn) as (p & D & H & S). destruct (decoded m c st fuel file' objs' G' Hc' Hn') as (p' & D' & H' & S').
  pose proof (same_cache _ _ _ _ S S' H H' E) as K. exists p, p'. split; [exact D|]. split; [exact D'|].
  split; [intros h; unfold hash_object; rewrite K; reflexivity|symmetry; exact K].
Qed.

(** ** Pushes *)

Lemma receive_form : forall e m c fuel now pp file file' objs objs' w, fs_get (w_files w) (temp_path now) = None ->
  git_pack c (get_hash_object e w) file objs -> git_pack c (get_hash_object e w) file' objs' -> same_objects objs objs' ->
  no_collision (map snd objs) -> nlen file < 2 ^ 32 -> nlen file' < 2 ^ 32 ->
  same_but_file (git_receive_pack e m c (S fuel) now pp file w) (git_receive_pack e m c (S fuel) now pp file' w).
Proof.
  intros e m c fuel now pp file file' objs objs' w Hf G G' E Hc Hn Hn'.
  destruct (C149_decode m c (get_hash_object e w) fuel file file' objs objs' G G' E Hc Hn Hn') as (p & p' & D & D' & _ & K).
  destruct (pack_magic _ _ _ _ G) as (x & Ex). destruct (pack_magic _ _ _ _ G') as (x' & Ex').
  assert (S1 : starts_with (bs "PACK") file = true) by (rewrite Ex; apply starts_with_app).
  assert (S2 : starts_with (bs "PACK") file' = true) by (rewrite Ex'; apply starts_with_app).
  clear Ex Ex' x x' G G'. unfold git_receive_pack. rewrite S1, S2. clear S1 S2.
  destruct (nth_error (pp_cmds pp) (length (pp_cmds pp) - 1)) as [cmd|]; [|apply same_but_refl].
  cbn [unwrap_opt].
  assert (W : forall b, write_temp (temp_path now) b w = (refit (fs_put (w_files w) (temp_path now) b) w, Ok tt))
    by (intros b; unfold write_temp; rewrite Hf, skipn_nil, app_nil_r; reflexivity).
  assert (R : forall b, read_temp (temp_path now) (refit (fs_put (w_files w) (temp_path now) b) w) = (refit (fs_put (w_files w) (temp_path now) b) w, Ok b))
    by (intros b; unfold read_temp; cbn [refit w_files]; rewrite fs_get_put; reflexivity).
  set (w1 := mkWorld (w_db w) (w_log w) (w_fails w) (S (w_tick w)) (w_files w)).
  assert (U : forall b q, decode m c (get_hash_object e w) (S fuel) b = Ok q ->
    unpack_pack e m c (S fuel) b (refit (fs_put (w_files w) (temp_path now) b) w) = (refit (fs_put (w_files w) (temp_path now) b) w1, Ok q)).
  { intros b q Eq. unfold unpack_pack. change (get_hash_object e (refit (fs_put (w_files w) (temp_path now) b) w)) with (get_hash_object e w). rewrite Eq. reflexivity. }
  assert (Lf : forall A B (a : A) (k : A -> M B) v, mbind (lift (Ok a)) k v = k a v) by reflexivity. rewrite !Lf.
  rewrite (mbind_ok _ _ _ _ _ _ _ (W file)), (mbind_ok _ _ _ _ _ _ _ (R file)), (mbind_ok _ _ _ _ _ _ _ (U file p D)).
  rewrite (mbind_ok _ _ _ _ _ _ _ (W file')), (mbind_ok _ _ _ _ _ _ _ (R file')), (mbind_ok _ _ _ _ _ _ _ (U file' p' D')).
  cbv zeta. rewrite (save_same e (S fuel) (p_cache p') (p_cache p) (pp_path pp) K). apply blind_same.
  - intros f v. rewrite blind_save. destruct (save_packfile e (S fuel) (p_cache p) (pp_path pp) v) as [v' [u|y| |]]; cbn [fst snd]; try reflexivity.
    apply blind_bind; [apply blind_handle|]. intros u0. apply blind_ret.
  - intros cmd2 v. unfold mbind, remove_temp. cbn [refit w_files]. rewrite !fs_get_put. unfold ret. cbn [refit w_db w_log w_fails w_tick].
    rewrite !put_removed. apply same_but_refl.
Qed.

(** Pushes of the same objects get the same answer and leave the same rows, in the same
    order; if they are answered, nothing at all tells them apart. *)
Theorem C149_push : forall e m c fuel now path old new name caps file file' objs objs' body body' w, word old -> word new -> word name -> utf8_text caps ->
  push_request old new name caps file body -> push_request old new name caps file' body' -> fs_get (w_files w) (temp_path now) = None ->
  git_pack c (get_hash_object e w) file objs -> git_pack c (get_hash_object e w) file' objs' -> same_objects objs objs' ->
  no_collision (map snd objs) -> nlen file < 2 ^ 32 -> nlen file' < 2 ^ 32 ->
  exists w1 w2 r, http_receive_pack e m c (S fuel) now path body w = (w1, r) /\ http_receive_pack e m c (S fuel) now path body' w = (w2, r) /\
    w_db w2 = w_db w1 /\ w_log w2 = w_log w1 /\ ((exists reply, r = Ok reply) -> w2 = w1).
Proof.
  intros e m c fuel now path old new name caps file file' objs objs' body body' w Ho Hn Hm Hc Hr Hr' Hf G G' E Hk L L'.
  rewrite (two_calls e m c (S fuel) now path old new name caps _ body w Ho Hn Hm Hc Hr), (two_calls e m c (S fuel) now path old new name caps _ body' w Ho Hn Hm Hc Hr').
  pose proof (same_then _ _ _ _ (fun y : proto * bytes => let (_, reply) := y in ret reply) w
    (receive_form e m c fuel now (told path old new name caps) file file' objs objs' w Hf G G' E Hk L L')) as (E1 & E2 & E3).
  destruct (mbind (git_receive_pack e m c (S fuel) now (told path old new name caps) file) _ w) as [w1 r1].
  destruct (mbind (git_receive_pack e m c (S fuel) now (told path old new name caps) file') _ w) as [w2 r2]. cbn [fst snd] in *. subst r2.
  exists w1, w2, r1. split; [reflexivity|]. split; [reflexivity|]. split; [exact (f_equal w_db (eq_sym E2))|]. split; [exact (f_equal w_log (eq_sym E2))|].
  intros K. symmetry. exact (E3 K).
Qed.
Theorem C149_ssh : forall e m c fuel cut now path old new name caps line file file' objs objs' w w' pp reply, word old -> word new -> word name -> utf8_text caps ->
  PropSsh.push_line old new name caps line -> fs_get (w_files w) (temp_path (now 0%nat)) = None ->
  git_pack c (get_hash_object e w) file objs -> git_pack c (get_hash_object e w) file' objs' -> same_objects objs objs' ->
  no_collision (map snd objs) -> nlen file < 2 ^ 32 -> nlen file' < 2 ^ 32 ->
  ssh_session e m c (S fuel) cut now (mkProto Ssh path (Some ReceivePack) [] []) [line; file] w = (w', Ok (pp, reply)) ->
  ssh_session e m c (S fuel) cut now (mkProto Ssh path (Some ReceivePack) [] []) [line; file'] w = (w', Ok (pp, reply)).
Proof.
  intros e m c fuel cut now path old new name caps line file file' objs objs' w w' pp reply Ho Hn Hm Hc (b & Hb & ->) Hf G G' E Hk L L' H.
  cbn [ssh_session length] in *. unfold ssh_data at 1 in H. unfold ssh_data at 1. cbn [pp_service] in *.
  pose proof (command_run e m c (S fuel) (now 1%nat) (mkProto Ssh path (Some ReceivePack) [] []) _ _ caps b flush [] w Hb (parse_first old new name caps Ho Hn Hm) Hc eq_refl) as Q.
  rewrite (mbind_ok _ _ _ _ _ _ _ Q) in H. rewrite (mbind_ok _ _ _ _ _ _ _ Q). clear Q. cbn [pp_protocol pp_path pp_service pp_caps pp_cmds app] in *.
  set (q := mkProto Ssh path _ _ _) in *.
  assert (D : forall y, ssh_data e m c (S fuel) cut (now 0%nat) q y = git_receive_pack e m c (S fuel) (now 0%nat) q y) by reflexivity. rewrite D in H. rewrite D. clear D.
  pose proof (receive_form e m c fuel (now 0%nat) q file file' objs objs' w Hf G G' E Hk L L') as R.
  match type of H with mbind (mbind _ ?k1) ?k2 w = _ => pose proof (same_then _ _ _ _ k2 w (same_then _ _ _ _ k1 w R)) as (E1 & E2 & E3) end.
  rewrite H in E1, E2, E3. cbn [fst snd] in *. specialize (E3 (ex_intro _ _ eq_refl)).
  match goal with |- ?t = _ => rewrite (surjective_pairing t) end. rewrite <- E3, <- E1. reflexivity.
Qed.
(** In particular a list of objects written with deltas is stored as the list written
    without, in any order. *)
Theorem C149_encoders : forall e m c diff fuel now path old new name caps ms ms' p p' file file' body body' w, word old -> word new -> word name -> utf8_text caps ->
  codec_ok c -> diff_ok diff -> Forall encodable ms -> Forall (fun x => nlen (m_data x) < 2 ^ 24) ms -> Permutation ms ms' -> no_collision (map obj_of ms) ->
  encode_delta Debug c diff ms = Ok (p, file) -> encode c ms' = Ok (p', file') -> nlen file < 2 ^ 32 -> nlen file' < 2 ^ 32 ->
  push_request old new name caps file body -> push_request old new name caps file' body' -> fs_get (w_files w) (temp_path now) = None ->
  exists w1 w2 r, http_receive_pack e m c (S fuel) now path body w = (w1, r) /\ http_receive_pack e m c (S fuel) now path body' w = (w2, r) /\
    w_db w2 = w_db w1 /\ w_log w2 = w_log w1 /\ ((exists reply, r = Ok reply) -> w2 = w1).
Proof.
  intros e m c diff fuel now path old new name caps ms ms' p p' file file' body body' w Ho Hn Hm Hc Cc Dd Em Sm P Nc E1 E2 L L' R R' Hf.
  destruct (encode_delta_git_pack c (get_hash_object e w) diff ms p file Cc Dd Em Sm) as (objs & G & Eo & _); [apply (N.lt_trans _ _ _ L); reflexivity|exact E1|].
  destruct (encode_git_pack c (get_hash_object e w) ms' p' file' Cc) as (objs' & G' & Eo' & _).
  { rewrite Forall_forall in *. intros x Hx. apply Em. exact (Permutation_in _ (Permutation_sym P) Hx). } { exact E2. }
  refine (C149_push e m c fuel now path old new name caps file file' objs objs' body body' w Ho Hn Hm Hc R R' Hf G G' _ _ L L').
  - intros o. rewrite Eo, Eo'. split; apply Permutation_in; [|apply Permutation_sym]; apply Permutation_map; exact P.
  - rewrite Eo. exact Nc.
Qed.

(** ** A case *)

(** The history of the examples backwards, with everything twice. *)
Definition form_hist : list object := rev ex_hist ++ rev ex_hist.
Lemma form_hist_in : forall o, In o form_hist <-> In o ex_hist.
Proof. intros o. unfold form_hist. rewrite in_app_iff, <- in_rev. tauto. Qed.
Lemma form_sound : Forall sound_object form_hist.
Proof.
  pose proof (hs_sound _ _ (proj1 (ex_hist_ok (bs "/demo") eq_refl))) as F. rewrite Forall_forall in *. intros o Ho. apply F, form_hist_in. exact Ho.
Qed.
Lemma form_pack : forall st, exists objs, git_pack stored st (pack_of form_hist) objs /\ map snd objs = form_hist.
Proof. intros st. apply pack_of_git; [discriminate|reflexivity|exact form_sound]. Qed.
Lemma form_small : nlen (pack_of form_hist) < 2 ^ 32.
Proof. vm_compute. reflexivity. Qed.
Lemma form_differs : beq (pack_of form_hist) (pack_of ex_hist) = false.
Proof. vm_compute. reflexivity. Qed.
Lemma tail_plain : tail_push [] = http_receive_pack ex_env Release stored 50 7 (bs "demo")
    (push_body (repeat 48 40) (to_plain_str (oid ex_top)) (bs "refs/heads/master") ex_caps (pack_of ex_hist)) (world_of db_empty).
Proof. rewrite tail_unfold, app_nil_r. reflexivity. Qed.
Example C149_ex : exists objs objs', git_pack stored (get_hash_object ex_env (world_of db_empty)) (pack_of ex_hist) objs /\
  git_pack stored (get_hash_object ex_env (world_of db_empty)) (pack_of form_hist) objs' /\ same_objects objs objs' /\ no_collision (map snd objs) /\
  nlen (pack_of ex_hist) < 2 ^ 32 /\ nlen (pack_of form_hist) < 2 ^ 32 /\ pack_of form_hist <> pack_of ex_hist /\
  word (repeat 48 40) /\ word (to_plain_str (oid ex_top)) /\ word (bs "refs/heads/master") /\ utf8_text ex_caps /\
  tail_stored (tail_push []) = true /\
  http_receive_pack ex_env Release stored 50 7 (bs "demo")
    (push_body (repeat 48 40) (to_plain_str (oid ex_top)) (bs "refs/heads/master") ex_caps (pack_of form_hist)) (world_of db_empty) = tail_push [].
Proof.
  destruct (ex_pack (get_hash_object ex_env (world_of db_empty))) as (objs & G & Eo).
  destruct (form_pack (get_hash_object ex_env (world_of db_empty))) as (objs' & G' & Eo').
  assert (S : same_objects objs objs') by (intros o; rewrite Eo, Eo'; symmetry; apply form_hist_in).
  assert (N : no_collision (map snd objs)) by (rewrite Eo; exact (hs_free _ _ (proj1 (ex_hist_ok (bs "demo") eq_refl)))).
  exists objs, objs'. split; [exact G|]. split; [exact G'|]. split; [exact S|]. split; [exact N|]. split; [exact ex_pack_small|]. split; [exact form_small|].
  split; [intros E; pose proof form_differs as F; rewrite E, beq_refl in F; discriminate F|].
  split; [exact zero_word|]. split; [exact tail_word|]. split; [exact master_word|]. split; [exact tail_caps|]. split; [exact tail_checked|].
  pose proof (tail_answer _ tail_checked) as (w' & r & A). rewrite A. rewrite tail_plain in A.
  destruct (C149_push ex_env Release stored 49 7 (bs "demo") (repeat 48 40) (to_plain_str (oid ex_top)) (bs "refs/heads/master") ex_caps (pack_of ex_hist) (pack_of form_hist) objs objs' _ _
    (world_of db_empty) zero_word tail_word master_word tail_caps (tail_request _) (tail_request _) eq_refl G G' S N ex_pack_small form_small) as (w1 & w2 & r' & E1 & E2 & _ & _ & K).
  rewrite A in E1. injection E1 as <- <-. rewrite E2, (K (ex_intro _ r eq_refl)). reflexivity.
Qed.

(** Three texts, two of them written as deltas against the first; and the three whole,
    backwards. *)
Example C149_encoders_ex : Forall encodable pick_ms /\ diff_ok prefix_diff /\ codec_ok stored /\ Forall (fun x => nlen (m_data x) < 2 ^ 24) pick_ms /\
  Permutation pick_ms (rev pick_ms) /\ no_collision (map obj_of pick_ms) /\
  exists p p' file file', encode_delta Debug stored prefix_diff pick_ms = Ok (p, file) /\ encode stored (rev pick_ms) = Ok (p', file') /\
    nlen file < 2 ^ 32 /\ nlen file' < 2 ^ 32 /\ nlen file <> nlen file'.
Proof.
  destruct C148_ex as (A1 & A2 & A3 & A4 & _). split; [exact A1|]. split; [exact A2|]. split; [exact A3|]. split; [exact A4|]. split; [apply Permutation_rev|]. split.
  { assert (B : is_base Blob) by (eexists; constructor). apply ex_no_collision.
    - intros o [<-|[<-|[<-|[]]]]; exact B.
    - intros a b [<-|[<-|[<-|[]]]] [<-|[<-|[<-|[]]]] E; try reflexivity; exfalso; vm_compute in E; discriminate E. }
  destruct (encode_delta Debug stored prefix_diff pick_ms) as [[p file]| | |] eqn:E; try (exfalso; vm_compute in E; discriminate E).
  destruct (encode stored (rev pick_ms)) as [[p' file']| | |] eqn:E'; try (exfalso; vm_compute in E'; discriminate E').
  exists p, p', file, file'. split; [reflexivity|]. split; [reflexivity|]. vm_compute in E. vm_compute in E'. injection E as _ <-. injection E' as _ <-.
  repeat split; vm_compute; try reflexivity; discriminate.
Qed.

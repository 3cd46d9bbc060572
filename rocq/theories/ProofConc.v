(** Proofs about requests served at the same time. *)

From Coq Require Import Permutation.
From Verif Require Import Base BaseLemmas Digest ModelUtils ModelObject ModelBase ModelDelta ModelPack ModelDecode ModelPkt ModelStorage ModelProto.
From Verif Require Import ModelLfs ModelGateway ModelService ModelConc.
From Verif Require Import SpecObject SpecIdx SpecBase SpecPack SpecDecode SpecStorage SpecService SpecConc.
From Verif Require Import ProofUtf8 ProofObject ProofPack ProofPackAny ProofIdx ProofBase ProofDecode ProofNodes ProofStorage ProofPush ProofReq ProofGateway ProofService.
Open Scope N_scope.

(** ** The programs are the handlers *)

Section Run.
Context (e : env).
(** [p] does what [m] does. *)
Definition does {A} (p : prog A) (m : M A) : Prop := forall w, run e p w = m w.
Lemma run_then : forall A B (p : prog A) (k : res A -> prog B) w,
  run e (then_any p k) w = let (w', r) := run e p w in run e (k r) w'.
Proof.
  intros A B p k. induction p as [r|X a k1 IH]; intros w; [reflexivity|]. cbn [then_any run]. destruct (perform e a w) as [w' r]. apply IH.
Qed.
Lemma does_bind : forall A B (p : prog A) (m : M A) (k : A -> prog B) (k' : A -> M B), does p m -> (forall a, does (k a) (k' a)) ->
  does (pbind p k) (mbind m k').
Proof.
  intros A B p m k k' H1 H2 w. unfold pbind, mbind. rewrite run_then, H1. destruct (m w) as [w' [a|x| |]]; try reflexivity. apply H2.
Qed.
Lemma does_ret : forall A (a : A), does (pret a) (ret a).
Proof. intros A a w. reflexivity. Qed.
Lemma does_lift : forall A (r : res A), does (PRet r) (lift r).
Proof. intros A r w. reflexivity. Qed.
Lemma does_do : forall X (a : act X), does (do a) (perform e a).
Proof. intros X a w. unfold do. cbn [run]. destruct (perform e a w) as [w' r]. reflexivity. Qed.
Lemma does_select : forall T (q : db -> list T), does (do (DSelect q)) (select e q).
Proof. intros T q. apply does_do. Qed.
Lemma does_execute : forall f, does (do (DExecute f)) (execute f).
Proof. intros f. apply does_do. Qed.
Lemma does_shuffle : forall T (l : list T), does (do (DShuffle l)) (shuffle e l).
Proof. intros T l. apply does_do. Qed.
Lemma does_unwrap : forall A (p : prog A) m, does p m -> does (punwrap p) (munwrap m).
Proof. intros A p m H w. unfold punwrap, munwrap. rewrite run_then, H. destruct (m w). reflexivity. Qed.
Lemma does_one : forall T (q : db -> list T), does (one_row q) (select_one e q).
Proof. intros T q. apply does_bind; [apply does_select|]. intros l. apply does_ret. Qed.
Create HintDb does.
Hint Resolve does_ret does_lift does_select does_execute does_shuffle does_unwrap does_one does_bind : does.
Ltac dstep := apply does_bind; [auto with does|intros].

Lemma does_batches : forall bs, does (batches_p e bs) (insert_batches e bs).
Proof. induction bs as [|b bs IH]; cbn [batches_p insert_batches]; [auto with does|]. dstep. destruct a; auto with does. Qed.
Lemma does_insert_all : forall ins, does (insert_all_p ins) (insert_all ins).
Proof. induction ins as [|f ins IH]; cbn [insert_all_p insert_all]; [auto with does|]. dstep. exact IH. Qed.
Hint Resolve does_batches does_insert_all : does.
Lemma does_save_commits : forall path cs, does (save_commits_p path cs) (save_commits path cs).
Proof. intros path cs. apply does_insert_all. Qed.
Hint Resolve does_save_commits : does.
Lemma does_save_packfile : forall fuel k path, does (save_packfile_p e fuel k path) (save_packfile e fuel k path).
Proof. intros fuel k path. unfold save_packfile_p, save_packfile, save_objects_p, save_objects, save_nodes. do 7 dstep. auto with does. Qed.
Lemma does_handle : forall cmd path, does (handle_refs_p e cmd path) (handle_refs e cmd path).
Proof.
  intros cmd path. unfold handle_refs_p, handle_refs, save_refs, delete_refs. destruct (rc_type cmd); auto with does.
  unfold update_refs_p, update_refs. do 3 dstep. destruct a1; auto with does.
Qed.
Lemma does_ref_ids : forall path, does (get_ref_object_id_p e path) (get_ref_object_id e path).
Proof. intros path. unfold get_ref_object_id_p, get_ref_object_id. auto with does. Qed.
Lemma does_head : forall path, does (head_p e path) (get_head_object_id e path).
Proof.
  intros path. unfold head_p, get_head_object_id, search_refs. dstep. destruct (find _ _); [auto with does|]. destruct (find _ _); [|auto with does].
  unfold child_p, generate_child_commit_and_refs, search_root_p, search_root_node_by_path. dstep. dstep. apply does_bind.
  - dstep. dstep. destruct a3; auto with does.
  - intros [n|]; auto with does.
Qed.
Hint Resolve does_save_packfile does_handle does_ref_ids does_head : does.
Lemma does_all_commits : forall path, does (all_commits_p e path) (get_all_commits_by_path e path).
Proof. intros path. unfold all_commits_p, get_all_commits_by_path. auto with does. Qed.
Lemma does_child_trees : forall fuel root hm, does (child_trees_p fuel e root hm) (get_child_trees fuel e root hm).
Proof.
  induction fuel as [|fuel IH]; intros root hm; cbn [child_trees_p get_child_trees]; dstep; dstep; dstep; apply does_bind; [|auto with does| |auto with does];
    revert hm; induction a1 as [|c r IHr]; intros hm; [auto with does| |auto with does|]; destruct (beq (n_type c) (bs "tree")); auto with does.
Qed.
Hint Resolve does_all_commits does_child_trees : does.
Lemma does_full_loop : forall fuel trees cs hm, does (full_loop_p fuel e trees cs hm) (full_loop fuel e trees cs hm).
Proof.
  intros fuel trees. induction cs as [|c r IH]; intros hm; cbn [full_loop_p full_loop]; [auto with does|]. destruct (bt_get _ trees); auto with does.
Qed.
Lemma does_encode_map : forall c hm, does (encode_map_p c hm) (encode_map e c hm).
Proof. intros c hm. unfold encode_map_p, encode_map. dstep. dstep. destruct a0. auto with does. Qed.
Hint Resolve does_full_loop does_encode_map : does.
Lemma does_full : forall c fuel path, does (full_pack_p e c fuel path) (get_full_pack_data e c fuel path).
Proof.
  intros c fuel path. unfold full_pack_p, get_full_pack_data, get_nodes_by_ids. dstep. dstep. intros w. unfold pbind at 1. rewrite run_then, does_select.
  unfold mbind at 1 2. destruct (select e _ w) as [w' [rows|x| |]]; try reflexivity. revert w'.
  change (does (let* trees := PRet (index_by_hash rows []) in let* hm := full_loop_p fuel e trees a0 [] in encode_map_p c hm)
    (let! trees := lift (index_by_hash rows []) in let! hm := full_loop fuel e trees a0 [] in encode_map e c hm)).
  dstep. dstep. auto with does.
Qed.
Lemma does_incremental_loop : forall fuel want metas hm, does (incremental_loop_p fuel e want metas hm) (incremental_loop fuel e want metas hm).
Proof.
  intros fuel want. induction metas as [|m r IH]; intros hm; cbn [incremental_loop_p incremental_loop]; [auto with does|].
  destruct (existsb _ want); [|apply IH]. dstep. unfold get_node_by_id. dstep. destruct a0; auto with does.
Qed.
Hint Resolve does_full does_incremental_loop : does.
Lemma does_incremental : forall c fuel path want have, does (incremental_pack_p e c fuel path want) (get_incremental_pack_data e c fuel path want have).
Proof. intros c fuel path want have. unfold incremental_pack_p, get_incremental_pack_data. auto with does. Qed.
Lemma does_known : forall id, does (known_p e id) (get_commit_by_hash e id).
Proof. intros id. unfold known_p, get_commit_by_hash. auto with does. Qed.
Hint Resolve does_incremental does_known : does.
Lemma does_info : forall pp, does (info_refs_p e pp) (git_info_refs e pp).
Proof. intros pp. unfold info_refs_p, git_info_refs. auto 6 with does. Qed.
Lemma does_ack_haves : forall have buf, does (ack_haves_p e have buf) (ack_haves_db e have buf).
Proof. induction have as [|h r IH]; intros buf; cbn [ack_haves_p ack_haves_db]; auto with does. Qed.
Lemma does_ack_wants : forall nd want buf, does (ack_wants_p e nd want buf) (ack_wants_db e nd want buf).
Proof. intros nd. induction want as [|h r IH]; intros buf; cbn [ack_wants_p ack_wants_db]; auto with does. Qed.
Hint Resolve does_info does_ack_haves does_ack_wants : does.
Lemma does_upload : forall c fuel pp body, does (upload_p e c fuel pp body) (git_upload_pack e c fuel pp body).
Proof.
  intros c fuel pp body. unfold upload_p, git_upload_pack. dstep. destruct a as [[[want have] caps] rest]. destruct have as [|h have]; [auto with does|].
  apply does_bind; [|intros [d b]; auto with does]. destruct (has_cap MultiAckDetailed caps); [|auto with does]. do 5 dstep. auto with does.
Qed.
Hint Resolve does_upload : does.
Lemma does_receive : forall m c fuel now pp body, does (receive_p e m c fuel now pp body) (git_receive_pack e m c fuel now pp body).
Proof.
  intros m c fuel now pp body. unfold receive_p, git_receive_pack. destruct (starts_with (bs "PACK") body).
  - dstep. apply does_bind; [exact (does_do _ (DWrite (temp_path now) body))|]. intros _.
    apply does_bind; [exact (does_do _ (DRead (temp_path now)))|]. intros file.
    apply does_bind; [exact (does_do _ (DUnpack m c fuel file))|]. intros p. cbv zeta.
    apply does_bind.
    + intros w. rewrite run_then, does_save_packfile. destruct (save_packfile e fuel (p_cache p) (pp_path pp) w) as [w' [u|x| |]]; try reflexivity.
      apply (does_bind _ _ _ _ _ _ (does_handle _ _)). auto with does.
    + intros cmd2. apply does_bind; [exact (does_do _ (DRemove (temp_path now)))|]. auto with does.
  - dstep. destruct a as [[n line] rest]. destruct ((n =? 0) && _); [auto with does|]. dstep. destruct a as [cmd tail]. auto with does.
Qed.
Hint Resolve does_receive : does.
Lemma does_ssh_data : forall m c fuel cut now pp data, does (ssh_data_p e m c fuel cut now pp data) (ssh_data e m c fuel cut now pp data).
Proof.
  intros m c fuel cut now pp data. unfold ssh_data_p, ssh_data. destruct (pp_service pp) as [[|]|]; auto with does.
  dstep. destruct a as [[pp' pack] buf]. auto with does.
Qed.
Hint Resolve does_ssh_data : does.
Lemma does_ssh_session : forall m c fuel cut now packets pp, does (ssh_session_p e m c fuel cut now pp packets) (ssh_session e m c fuel cut now pp packets).
Proof.
  intros m c fuel cut now. induction packets as [|d r IH]; intros pp; cbn [ssh_session_p ssh_session]; [auto with does|].
  dstep. destruct a as [pp1 a]. dstep. destruct a0. auto with does.
Qed.
Lemma does_ssh_command : forall cmd, does (ssh_command_p e cmd) (ssh_command e cmd).
Proof. intros cmd. unfold ssh_command_p, ssh_command. do 7 dstep. auto with does. Qed.
Hint Resolve does_ssh_session does_ssh_command : does.
Lemma does_serve : forall b c fuel cut r, does (serve_p e b c fuel cut r) (serve e b c fuel cut r).
Proof.
  intros b c fuel cut r. destruct r as [now m path service q body|now cmd packets]; unfold serve_p, serve.
  - dstep. destruct a; auto with does.
    + unfold http_info_refs_p, http_info_refs. auto with does.
    + unfold http_upload_p, http_upload_pack. dstep. dstep. destruct a0 as [[pp data] buf]. auto with does.
    + unfold http_receive_p, http_receive_pack. dstep. dstep. destruct a0 as [pp1 data]. dstep. destruct a0. auto with does.
  - dstep. destruct a as [pp a]. dstep. destruct a0. auto with does.
Qed.
End Run.

(** ** Reasoning about one request while others are served *)

Section Hold.
Context (e : env) (He : env_ok e) (G : db -> db -> Prop) (V : db -> Prop).
Context (Gr : forall d, V d -> G d d) (Gl : forall d d', G d d' -> nothing_lost d d').

(** Whatever the others add meanwhile, each action of the program leads from one state
    to another as [G] says, and if it ends well, [Q] holds. All states satisfy [V]. *)
Fixpoint hold {A} (Q : A -> db -> Prop) (p : prog A) (d : db) : Prop :=
  match p with
  | PRet r => forall a, r = Ok a -> Q a d
  | PAct a k => forall w, nothing_lost d (w_db w) -> V (w_db w) ->
      G (w_db w) (w_db (fst (perform e a w))) /\
      (V (w_db (fst (perform e a w))) -> hold Q (k (snd (perform e a w))) (w_db (fst (perform e a w))))
  end.

Lemma hold_weaken : forall A (Q Q' : A -> db -> Prop) p d, (forall a d', V d' -> Q a d' -> Q' a d') -> V d -> hold Q p d -> hold Q' p d.
Proof.
  intros A Q Q' p d HQ. revert d. induction p as [r|X a k IH]; intros d Vd H; cbn [hold] in *; [auto|].
  intros w L Vw. destruct (H w L Vw) as [H1 H2]. split; [exact H1|]. intros V'. apply IH; auto.
Qed.
Lemma hold_later : forall A (Q : A -> db -> Prop) p d d', (forall a d1 d2, Q a d1 -> nothing_lost d1 d2 -> Q a d2) ->
  nothing_lost d d' -> hold Q p d -> hold Q p d'.
Proof.
  intros A Q p d d' S L H. destruct p as [r|X a k]; cbn [hold] in *; [eauto|].
  intros w L' Vw. apply H; [eapply lost_trans; eassumption|exact Vw].
Qed.
Lemma hold_then : forall A B (P : A -> db -> Prop) (Q : B -> db -> Prop) p k d, hold P p d -> V d ->
  (forall r d', V d' -> nothing_lost d d' -> (forall a, r = Ok a -> P a d') -> hold Q (k r) d') -> hold Q (then_any p k) d.
Proof.
  intros A B P Q p k. induction p as [r|X a k1 IH]; intros d H Vd K; cbn [hold then_any] in *.
  - apply K; [exact Vd|apply lost_refl|exact H].
  - intros w L Vw. destruct (H w L Vw) as [H1 H2]. split; [exact H1|]. intros V'. apply IH; [auto|exact V'|].
    intros r d' Vd' L'. apply K; [exact Vd'|]. eapply lost_trans; [exact L|]. eapply lost_trans; [apply Gl; exact H1|exact L'].
Qed.
(** What lasts, still holds at the end. *)
Lemma hold_frame : forall A (Q : A -> db -> Prop) (P : db -> Prop) p d, (forall d1 d2, P d1 -> nothing_lost d1 d2 -> P d2) ->
  P d -> hold Q p d -> hold (fun a d' => Q a d' /\ P d') p d.
Proof.
  intros A Q P p d S. revert d. induction p as [r|X a k IH]; intros d Pd H; cbn [hold] in *; [auto|].
  intros w L Vw. destruct (H w L Vw) as [H1 H2]. split; [exact H1|]. intros V'. apply IH; [|auto].
  eapply S; [|apply Gl; exact H1]. eapply S; [exact Pd|exact L].
Qed.
Lemma hold_bind : forall A B (P : A -> db -> Prop) (Q : B -> db -> Prop) p k d, hold P p d -> V d ->
  (forall a d', V d' -> nothing_lost d d' -> P a d' -> hold Q (k a) d') -> hold Q (pbind p k) d.
Proof.
  intros A B P Q p k d H Vd K. apply (hold_then _ _ P); [exact H|exact Vd|]. intros r d' Vd' L Hr.
  destruct r as [a|x| |]; [apply K; auto|..]; intros b E; discriminate.
Qed.
Lemma hold_lift : forall A (Q : A -> db -> Prop) (r : res A) d, (forall a, r = Ok a -> Q a d) -> hold Q (PRet r) d.
Proof. intros A Q r d H. exact H. Qed.
Lemma hold_ret : forall A (Q : A -> db -> Prop) a d, Q a d -> hold Q (pret a) d.
Proof. intros A Q a d H b E. injection E as <-. exact H. Qed.
(** Actions that leave the database as it is. *)
Lemma hold_quiet : forall X (Q : X -> db -> Prop) (a : act X) d, (forall w, w_db (fst (perform e a w)) = w_db w) ->
  (forall w x, nothing_lost d (w_db w) -> V (w_db w) -> snd (perform e a w) = Ok x -> Q x (w_db w)) -> hold Q (do a) d.
Proof.
  intros X Q a d Ha H. unfold do. cbn [hold]. intros w L Vw. rewrite Ha. split; [apply Gr; exact Vw|]. intros _ x E. apply (H w); assumption.
Qed.
Lemma select_snd : forall T (q : db -> list T) w l, snd (select e q w) = Ok l -> Permutation l (q (w_db w)).
Proof.
  intros T q w l H. unfold select, mbind in H. destruct (attempt w) as [w1 r] eqn:E.
  assert (S1 : same w w1) by (change w1 with (fst (w1, r)); rewrite <- E; apply reads_attempt).
  destruct r as [[|]|x| |]; try discriminate. unfold shuffle, mbind, tick, ret in H. cbn in H. injection H as <-.
  destruct S1 as [-> _]. apply He.
Qed.
Lemma hold_select : forall T (q : db -> list T) (Q : list T -> db -> Prop) d,
  (forall d' l, V d' -> nothing_lost d d' -> Permutation l (q d') -> Q l d') -> hold Q (do (DSelect q)) d.
Proof.
  intros T q Q d H. apply hold_quiet; [intros w; apply reads_select|]. intros w l L Vw E. apply H; [exact Vw|exact L|]. apply select_snd. exact E.
Qed.
Lemma hold_shuffle : forall T (l : list T) (Q : list T -> db -> Prop) d,
  (forall d' l', V d' -> nothing_lost d d' -> Permutation l' l -> Q l' d') -> hold Q (do (DShuffle l)) d.
Proof.
  intros T l Q d H. apply hold_quiet; [reflexivity|]. intros w l' L Vw E. apply H; [exact Vw|exact L|]. cbn in E. injection E as <-. apply He.
Qed.
Lemma hold_write : forall p b (Q : unit -> db -> Prop) d, (forall d' x, V d' -> nothing_lost d d' -> Q x d') -> hold Q (do (DWrite p b)) d.
Proof. intros p b Q d H. apply hold_quiet; [reflexivity|]. auto. Qed.
Lemma hold_read : forall p (Q : bytes -> db -> Prop) d, (forall d' x, V d' -> nothing_lost d d' -> Q x d') -> hold Q (do (DRead p)) d.
Proof. intros p Q d H. apply hold_quiet; [reflexivity|]. auto. Qed.
Lemma hold_remove : forall p (Q : unit -> db -> Prop) d, (forall d' x, V d' -> nothing_lost d d' -> Q x d') -> hold Q (do (DRemove p)) d.
Proof.
  intros p Q d H. apply hold_quiet; [|auto]. intros w. cbn [perform]. unfold remove_temp.
  destruct (fs_get (w_files w) p); reflexivity.
Qed.
Lemma hold_unpack : forall m c fuel file (Q : pack -> db -> Prop) d,
  (forall d' pk, V d' -> nothing_lost d d' -> all_named (p_cache pk) -> Q pk d') -> hold Q (do (DUnpack m c fuel file)) d.
Proof.
  intros m c fuel file Q d H. apply hold_quiet; [reflexivity|]. intros w pk L Vw E. apply H; [exact Vw|exact L|].
  apply (unpack_named e m c fuel file w (fst (unpack_pack e m c fuel file w))). rewrite <- E. apply surjective_pairing.
Qed.
Lemma hold_execute : forall f (Q : bool -> db -> Prop) d,
  (forall d1 d2, V d1 -> nothing_lost d d1 -> f d1 = Some d2 -> G d1 d2 /\ (V d2 -> Q true d2)) ->
  (forall d1, V d1 -> nothing_lost d d1 -> Q false d1) -> hold Q (do (DExecute f)) d.
Proof.
  intros f Q d H1 H2. unfold do. cbn [hold]. intros w L Vw. cbn [perform].
  assert (K : w_db (fst (execute f w)) = w_db w /\ (forall x, snd (execute f w) = Ok x -> x = false) \/
              f (w_db w) = Some (w_db (fst (execute f w))) /\ snd (execute f w) = Ok true).
  { unfold execute, mbind. destruct (attempt w) as [w1 r] eqn:E.
    assert (S1 : same w w1) by (change w1 with (fst (w1, r)); rewrite <- E; apply reads_attempt). destruct S1 as [S1 _].
    destruct r as [[|]|x| |]; cbn [fst snd]; try (left; split; [exact S1|]; intros b Eb; discriminate).
    - destruct (f (w_db w1)) as [d'|] eqn:Ef; cbn [fst snd ret].
      + right. rewrite <- S1. auto.
      + left. split; [exact S1|]. intros b Eb. injection Eb as <-. reflexivity.
    - left. split; [exact S1|]. intros b Eb. cbn in Eb. injection Eb as <-. reflexivity. }
  destruct K as [[E1 E2]|[E1 E2]].
  - rewrite E1. split; [apply Gr; exact Vw|]. intros _ x Ex. rewrite (E2 _ Ex). apply H2; assumption.
  - destruct (H1 _ _ Vw L E1) as [K1 K2]. split; [exact K1|]. intros V' x Ex. rewrite E2 in Ex. injection Ex as <-. auto.
Qed.

(** Nothing is said of the outcome. *)
Definition safe {A} (p : prog A) : Prop := forall d, V d -> hold (fun _ _ => True) p d.
Lemma safe_bind : forall A B (p : prog A) (k : A -> prog B), safe p -> (forall a, safe (k a)) -> safe (pbind p k).
Proof. intros A B p k H1 H2 d Vd. apply (hold_bind _ _ (fun _ _ => True)); [auto|exact Vd|]. intros a d' Vd' _ _. apply H2. exact Vd'. Qed.
Lemma safe_then : forall A B (p : prog A) (k : res A -> prog B), safe p -> (forall r, safe (k r)) -> safe (then_any p k).
Proof. intros A B p k H1 H2 d Vd. apply (hold_then _ _ (fun _ _ => True)); [auto|exact Vd|]. intros r d' Vd' _ _. apply H2. exact Vd'. Qed.
Lemma safe_lift : forall A (r : res A), safe (PRet r).
Proof. intros A r d Vd a E. exact I. Qed.
Lemma safe_ret : forall A (a : A), safe (pret a).
Proof. intros A a. apply safe_lift. Qed.
Lemma safe_unwrap : forall A (p : prog A), safe p -> safe (punwrap p).
Proof. intros A p H. apply safe_then; [exact H|]. intros r. apply safe_lift. Qed.
Lemma safe_select : forall T (q : db -> list T), safe (do (DSelect q)).
Proof. intros T q d Vd. apply hold_select. auto. Qed.
Lemma safe_shuffle : forall T (l : list T), safe (do (DShuffle l)).
Proof. intros T l d Vd. apply hold_shuffle. auto. Qed.
Lemma safe_one : forall T (q : db -> list T), safe (one_row q).
Proof. intros T q. apply safe_bind; [apply safe_select|]. intros l. apply safe_ret. Qed.
Create HintDb safe.
Hint Resolve safe_ret safe_lift safe_unwrap safe_select safe_shuffle safe_one : safe.
Ltac sstep := apply safe_bind; [auto with safe|intros].
Lemma safe_child_trees : forall fuel root hm, safe (child_trees_p fuel e root hm).
Proof.
  induction fuel as [fuel IH] using lt_wf_ind. intros root hm. destruct fuel as [|fuel];
    (cbn [child_trees_p]; sstep; sstep; sstep; apply safe_bind; [|auto with safe];
     revert hm; induction a1 as [|r rows IHr]; intros hm; [apply safe_ret|];
     destruct (beq (n_type r) (bs "tree"));
     [|sstep; apply IHr]).
  - apply safe_lift.
  - apply safe_bind; [apply IH; lia|]. intros hm1. apply IHr.
Qed.
Hint Resolve safe_child_trees : safe.
Lemma safe_full_loop : forall fuel trees cs hm, safe (full_loop_p fuel e trees cs hm).
Proof.
  intros fuel trees. induction cs as [|c cs IH]; intros hm; cbn [full_loop_p]; [apply safe_ret|].
  destruct (bt_get (cm_tree_id c) trees); [|apply safe_lift]. sstep. apply IH.
Qed.
Lemma safe_incremental_loop : forall fuel want metas hm, safe (incremental_loop_p fuel e want metas hm).
Proof.
  intros fuel want. induction metas as [|m metas IH]; intros hm; cbn [incremental_loop_p]; [apply safe_ret|].
  destruct (existsb _ want); [|apply IH]. sstep. sstep. destruct a0 as [r|]; [|apply safe_lift]. sstep. apply IH.
Qed.
Lemma safe_encode : forall c hm, safe (encode_map_p c hm).
Proof. intros c hm. unfold encode_map_p. sstep. sstep. destruct a0. auto with safe. Qed.
Hint Resolve safe_full_loop safe_incremental_loop safe_encode : safe.
Lemma safe_all_commits : forall path, safe (all_commits_p e path).
Proof. intros path. unfold all_commits_p. sstep. auto with safe. Qed.
Hint Resolve safe_all_commits : safe.
Lemma safe_full : forall c fuel path, safe (full_pack_p e c fuel path).
Proof. intros c fuel path. unfold full_pack_p. do 5 sstep. auto with safe. Qed.
Lemma safe_incremental : forall c fuel path want, safe (incremental_pack_p e c fuel path want).
Proof. intros c fuel path want. unfold incremental_pack_p. do 2 sstep. auto with safe. Qed.
Lemma safe_known : forall id, safe (known_p e id).
Proof. intros id. unfold known_p. sstep. auto with safe. Qed.
Hint Resolve safe_full safe_incremental safe_known : safe.
Lemma safe_ack_haves : forall have buf, safe (ack_haves_p e have buf).
Proof. induction have as [|h r IH]; intros buf; cbn [ack_haves_p]; [apply safe_ret|]. sstep. apply IH. Qed.
Lemma safe_ack_wants : forall nd want buf, safe (ack_wants_p e nd want buf).
Proof. intros nd. induction want as [|h r IH]; intros buf; cbn [ack_wants_p]; [apply safe_ret|]. sstep. apply IH. Qed.
Hint Resolve safe_ack_haves safe_ack_wants : safe.
Lemma safe_upload : forall c fuel pp body, safe (upload_p e c fuel pp body).
Proof.
  intros c fuel pp body. unfold upload_p. sstep. destruct a as [[[want have] caps] rest]. destruct have as [|h have].
  - sstep. auto with safe.
  - apply safe_bind; [|intros [d b]; auto with safe]. destruct (has_cap MultiAckDetailed caps); [|auto with safe].
    do 5 sstep. auto with safe.
Qed.
Hint Resolve safe_upload : safe.
Lemma upload_keeps : forall c fuel pp body d, V d ->
  hold (fun x _ => pp_path (fst (fst x)) = pp_path pp /\ pp_service (fst (fst x)) = pp_service pp) (upload_p e c fuel pp body) d.
Proof.
  intros c fuel pp body d Vd. unfold upload_p. apply (hold_bind _ _ (fun _ _ => True)); [apply hold_lift; auto|exact Vd|].
  intros [[[want have] caps] rest] d1 V1 _ _. cbv zeta. destruct have as [|h have].
  - apply (hold_bind _ _ (fun _ _ => True)); [apply safe_unwrap; [apply safe_full|exact V1]|exact V1|].
    intros data d2 V2 _ _. apply hold_ret. auto.
  - apply (hold_bind _ _ (fun _ _ => True)); [|exact V1|intros [data buf] d2 V2 _ _; apply hold_ret; auto].
    assert (S : safe (if has_cap MultiAckDetailed caps then
       let* hs := do (DShuffle (h :: have)) in let* buf := ack_haves_p e hs [] in
       let* data := punwrap (incremental_pack_p e c fuel (pp_path pp) want) in
       let* ws := do (DShuffle want) in let* buf := ack_wants_p e (has_cap NoDone caps) ws buf in pret (data, buf)
       else pret ([], []))); [|exact (S _ V1)].
    destruct (has_cap MultiAckDetailed caps); [|auto with safe]. do 5 sstep. auto with safe.
Qed.
Lemma safe_http_upload : forall c fuel cut path body, safe (http_upload_p e c fuel cut path body).
Proof. intros c fuel cut path body. unfold http_upload_p. sstep. sstep. destruct a0 as [[pp d] b]. auto with safe. Qed.
End Hold.

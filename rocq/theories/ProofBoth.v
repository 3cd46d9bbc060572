(** Git and git-lfs on one disk. *)

From Coq Require Import ZArith Lia.
From Verif Require Import Base BaseLemmas Digest ModelUtils ModelObject ModelBase ModelPack ModelDecode ModelPkt ModelStorage ModelProto
  ModelLfs ModelGateway ModelService ModelConc ModelLfsConc ModelBoth SpecObject SpecLfs SpecLfsConc ProofObject ProofStorage ProofSession ProofLfs ProofContent ProofLfsConc ProofLfsApart PropContent PropTail.
Open Scope N_scope.

(** ** Requests to git use temporary files only *)

Section Temps.
Context (e : env).
Definition at_temp {X} (a : act X) : Prop := match a with DWrite q _ => exists n, q = temp_path n | DRead q => exists n, q = temp_path n | DRemove q => exists n, q = temp_path n | _ => True end.
Fixpoint temps {A} (p : prog A) : Prop := match p with PRet _ => True | PAct a k => at_temp a /\ forall r, temps (k r) end.
Lemma tm_then : forall A B (p : prog A) (k : res A -> prog B), temps p -> (forall r, temps (k r)) -> temps (then_any p k).
Proof. intros A B p k H K. induction p as [r|X a k1 IH]; cbn in *; [apply K|]. destruct H as [H1 H2]. auto. Qed.
Lemma tm_bind : forall A B (p : prog A) (k : A -> prog B), temps p -> (forall a, temps (k a)) -> temps (pbind p k).
Proof. intros A B p k H K. apply tm_then; [exact H|]. intros [a| | |]; cbn; auto. Qed.
Lemma tm_do : forall X (a : act X), at_temp a -> temps (do a).
Proof. intros X a H. split; [exact H|]. intros r. exact I. Qed.
Lemma tm_lift : forall A (r : res A), temps (PRet r).
Proof. exact (fun _ _ => I). Qed.
Lemma tm_ret : forall A (a : A), temps (pret a).
Proof. exact (fun _ _ => I). Qed.
Lemma tm_unwrap : forall A (p : prog A), temps p -> temps (punwrap p).
Proof. intros A p H. apply tm_then; [exact H|]. intros r. exact I. Qed.
Lemma tm_select : forall T (q : db -> list T), temps (do (DSelect q)).
Proof. intros. apply tm_do. exact I. Qed.
Lemma tm_execute : forall f, temps (do (DExecute f)).
Proof. intros. apply tm_do. exact I. Qed.
Lemma tm_shuffle : forall T (l : list T), temps (do (DShuffle l)).
Proof. intros. apply tm_do. exact I. Qed.
Lemma tm_unpack : forall m c fuel f, temps (do (DUnpack m c fuel f)).
Proof. intros. apply tm_do. exact I. Qed.
Lemma tm_one : forall T (q : db -> list T), temps (one_row q).
Proof. intros. apply tm_bind; [apply tm_select|]. intros. exact I. Qed.
Create HintDb temps.
Hint Resolve tm_ret tm_lift tm_unwrap tm_select tm_execute tm_shuffle tm_unpack tm_one : temps.
Ltac tstep := apply tm_bind; [auto with temps|intros].
Lemma tm_child_trees : forall fuel root hm, temps (child_trees_p fuel e root hm).
Proof.
  induction fuel as [fuel IH] using lt_wf_ind. intros root hm. destruct fuel as [|fuel];
    (cbn [child_trees_p]; tstep; tstep; tstep; apply tm_bind; [|auto with temps];
     revert hm; induction a1 as [|r rows IHr]; intros hm; [apply tm_ret|];
     destruct (beq (n_type r) (bs "tree"));
     [|tstep; apply IHr]).
  - apply tm_lift.
  - apply tm_bind; [apply IH; lia|]. intros hm1. apply IHr.
Qed.
Hint Resolve tm_child_trees : temps.
Lemma tm_full_loop : forall fuel trees cs hm, temps (full_loop_p fuel e trees cs hm).
Proof.
  intros fuel trees. induction cs as [|c cs IH]; intros hm; cbn [full_loop_p]; [apply tm_ret|].
  destruct (bt_get (cm_tree_id c) trees); [|apply tm_lift]. tstep. apply IH.
Qed.
Lemma tm_incremental_loop : forall fuel want metas hm, temps (incremental_loop_p fuel e want metas hm).
Proof.
  intros fuel want. induction metas as [|m metas IH]; intros hm; cbn [incremental_loop_p]; [apply tm_ret|].
  destruct (existsb _ want); [|apply IH]. tstep. tstep. destruct a0 as [r|]; [|apply tm_lift]. tstep. apply IH.
Qed.
Lemma tm_encode : forall c hm, temps (encode_map_p c hm).
Proof. intros c hm. unfold encode_map_p. tstep. tstep. destruct a0. auto with temps. Qed.
Hint Resolve tm_full_loop tm_incremental_loop tm_encode : temps.
Lemma tm_all_commits : forall path, temps (all_commits_p e path).
Proof. intros path. unfold all_commits_p. tstep. auto with temps. Qed.
Hint Resolve tm_all_commits : temps.
Lemma tm_full : forall c fuel path, temps (full_pack_p e c fuel path).
Proof. intros c fuel path. unfold full_pack_p. do 5 tstep. auto with temps. Qed.
Lemma tm_incremental : forall c fuel path want, temps (incremental_pack_p e c fuel path want).
Proof. intros c fuel path want. unfold incremental_pack_p. do 2 tstep. auto with temps. Qed.
Lemma tm_known : forall id, temps (known_p e id).
Proof. intros id. unfold known_p. tstep. auto with temps. Qed.
Hint Resolve tm_full tm_incremental tm_known : temps.
Lemma tm_ack_haves : forall have buf, temps (ack_haves_p e have buf).
Proof. induction have as [|h r IH]; intros buf; cbn [ack_haves_p]; [apply tm_ret|]. tstep. apply IH. Qed.
Lemma tm_ack_wants : forall nd want buf, temps (ack_wants_p e nd want buf).
Proof. intros nd. induction want as [|h r IH]; intros buf; cbn [ack_wants_p]; [apply tm_ret|]. tstep. apply IH. Qed.
Hint Resolve tm_ack_haves tm_ack_wants : temps.
Lemma tm_upload : forall c fuel pp body, temps (upload_p e c fuel pp body).
Proof.
  intros c fuel pp body. unfold upload_p. tstep. destruct a as [[[want have] caps] rest]. destruct have as [|h have].
  - tstep. auto with temps.
  - apply tm_bind; [|intros [d b]; auto with temps]. destruct (has_cap MultiAckDetailed caps); [|auto with temps].
    do 5 tstep. auto with temps.
Qed.
Lemma tm_batches : forall bs, temps (batches_p e bs).
Proof. induction bs as [|b bs IH]; cbn [batches_p]; [apply tm_ret|]. tstep. destruct a; [exact IH|apply tm_lift]. Qed.
Lemma tm_insert_all : forall ins, temps (insert_all_p ins).
Proof. induction ins as [|f r IH]; cbn [insert_all_p]; [apply tm_ret|]. tstep. exact IH. Qed.
Hint Resolve tm_upload tm_batches tm_insert_all : temps.
Lemma tm_save_commits : forall path cs, temps (save_commits_p path cs).
Proof. intros. unfold save_commits_p. auto with temps. Qed.
Hint Resolve tm_save_commits : temps.
Lemma tm_save_objects : forall fuel om path, temps (save_objects_p e fuel om path).
Proof. intros. unfold save_objects_p. tstep. tstep. auto with temps. Qed.
Hint Resolve tm_save_objects : temps.
Lemma tm_save_packfile : forall fuel k path, temps (save_packfile_p e fuel k path).
Proof. intros. unfold save_packfile_p. do 5 tstep. auto with temps. Qed.
Lemma tm_handle : forall cmd path, temps (handle_refs_p e cmd path).
Proof.
  intros. unfold handle_refs_p. destruct (rc_type cmd); auto with temps. unfold update_refs_p. do 3 tstep.
  destruct a1; auto with temps. do 2 tstep. auto with temps.
Qed.
Hint Resolve tm_save_packfile tm_handle : temps.
Lemma tm_head : forall path, temps (head_p e path).
Proof.
  intros. unfold head_p. tstep. destruct (find _ a); [auto with temps|]. destruct (find _ a); [|auto with temps]. unfold child_p. do 2 tstep.
  apply tm_bind.
  - unfold search_root_p. tstep. tstep. destruct a3; auto with temps.
  - intros [n|]; [|auto with temps]. tstep. tstep. tstep. auto with temps.
Qed.
Hint Resolve tm_head : temps.
Lemma tm_info : forall pp, temps (info_refs_p e pp).
Proof. intros. unfold info_refs_p. tstep. tstep. apply tm_bind; [|auto with temps]. unfold get_ref_object_id_p. tstep. auto with temps. Qed.
Hint Resolve tm_info : temps.
Lemma tm_receive : forall m c fuel now pp body, temps (receive_p e m c fuel now pp body).
Proof.
  intros m c fuel now pp body. unfold receive_p. destruct (starts_with _ body).
  - tstep. apply tm_bind; [apply tm_do; exists now; reflexivity|]. intros _. apply tm_bind; [apply tm_do; exists now; reflexivity|]. intros file. tstep. apply tm_bind.
    + apply tm_then; [auto with temps|]. intros [u| | |]; auto with temps. tstep. auto with temps.
    + intros cmd2. apply tm_bind; [apply tm_do; exists now; reflexivity|]. auto with temps.
  - tstep. destruct a as [[n line] rest]. destruct (_ && _); [auto with temps|]. tstep. destruct a as [cmd tail]. tstep. tstep. auto with temps.
Qed.
Lemma tm_session : forall m c fuel cut now packets pp, temps (ssh_session_p e m c fuel cut now pp packets).
Proof.
  intros m c fuel cut now packets pp. revert pp. induction packets as [|d r IH]; intros pp; cbn [ssh_session_p]; [apply tm_ret|].
  apply tm_bind; [|intros [pp1 a]; apply tm_bind; [apply IH|intros [pp2 b]; auto with temps]].
  unfold ssh_data_p. destruct (pp_service pp) as [[]|]; [|apply tm_receive|apply tm_lift].
  apply tm_bind; [auto with temps|]. intros [[pp' pack] buf]. tstep. auto with temps.
Qed.
Lemma tm_serve : forall b c fuel cut r, temps (serve_p e b c fuel cut r).
Proof.
  intros b c fuel cut [now m path service q body|now cmd packets]; cbn [serve_p].
  - tstep. destruct a; try apply tm_ret.
    + unfold http_info_refs_p. tstep. auto with temps.
    + unfold http_upload_p. tstep. apply tm_bind; [auto with temps|]. intros [[pp data] buf]. auto with temps.
    + unfold http_receive_p. tstep. apply tm_bind; [apply tm_receive|]. intros [pp1 data].
      apply tm_bind; [apply tm_receive|]. intros [pp2 reply]. auto with temps.
  - apply tm_bind.
    + unfold ssh_command_p. do 7 tstep. auto with temps.
    + intros [pp a]. apply tm_bind; [apply tm_session|]. intros [pp2 s]. auto with temps.
Qed.
End Temps.

(** ** Requests to git-lfs about ids use the files of ids only *)

Section Words.
Context (v : lenv).
Definition on_words {X} (a : lact X) : Prop :=
  match a with
  | AExist o | ACreate o => id_word o
  | AExecMeta f => forall t t', (forall m, In m t -> id_word (mt_oid m)) -> f t = Some t' -> forall m, In m t' -> id_word (mt_oid m)
  | AWrite p b => exists o, id_word o /\ store_path v o = Ok p
  | AGet m => id_word (mt_oid m)
  | _ => True
  end.
Lemma insert_words : forall o z b, id_word o -> on_words (AExecMeta (insert_meta v (mkMeta o z b))).
Proof. intros o z b Ho t t' H E m Hm. unfold insert_meta in E. destruct (_ && _) in E; [|discriminate]. injection E as <-. apply in_app_or in Hm as [Hm|[<-|[]]]; [exact (H m Hm)|exact Ho]. Qed.
Lemma remove_words : forall o, on_words (AExecMeta (remove_meta v o)).
Proof. intros o t t' H E m Hm. unfold remove_meta in E. injection E as <-. apply filter_In in Hm as [Hm _]. exact (H m Hm). Qed.
Lemma word_row : forall k, only v word_ids (@on_words) (on_ok (fun r : option meta_row => match r with Some m => id_word (mt_oid m) | None => True end)) (ldo (AFindMeta k)).
Proof.
  intros k. apply only_do; [exact I|]. intros w Hw. cbn [lperform]. unfold find_meta_row, lattempt, lbind. destruct (l_fails w) as [|[|] r]; cbn [negb snd on_ok l_meta]; try exact I.
  all: match goal with |- match find ?f ?l with _ => _ end => destruct (find f l) as [m|] eqn:F; [|exact I]; apply find_some in F as [F _]; exact (Hw m F) end.
Qed.
Lemma word_filtered : forall r p c l, only v word_ids (@on_words) anything (filtered_p v r p c l).
Proof. intros. unfold filtered_p. apply only_any; [apply only_act; exact I|]. intros o. apply only_any; [|intros; exact I]. destruct o as [[k d]|]; exact I. Qed.
Lemma word_updated : forall f, only v word_ids (@on_words) anything (updated_p (ldo (AExecLocks f))).
Proof. intros f. apply only_any; [apply only_act; exact I|]. intros [|]; [apply only_act; exact I|exact I]. Qed.
Lemma word_batch : forall op l, (forall o, In o l -> id_word (ob_oid o)) -> only v word_ids (@on_words) anything (batch_objects_p v op l).
Proof.
  intros op l. induction l as [|o l IH]; intros H; [exact I|]. cbn [batch_objects_p]. apply only_any; [|intros; apply only_any; [apply IH; intros; apply H; right; assumption|intros; exact I]].
  assert (Ho : id_word (ob_oid o)) by (apply H; left; reflexivity). unfold batch_object_p. eapply only_bind; [exact (word_row _)|]. intros r Hr.
  apply only_any; [destruct r as [m|]; [apply only_act; exact Hr|exact I]|]. intros h.
  assert (K : only v word_ids (@on_words) anything (if beq op (bs "upload") then let^ x := lpunwrap (put_meta_p v (ob_oid o) (ob_size o)) in lpret (represent v o x (bs "upload"))
      else lpret (mkRepr (ob_oid o) (ob_size o) None None (Some (404, bs "Not found"))))).
  { destruct (beq op (bs "upload")); [|exact I]. apply only_any; [apply only_unwrap|intros; exact I]. unfold put_meta_p. apply only_any; [apply only_act; exact I|]. intros [m|]; [exact I|].
    apply only_any; [|intros [|]; exact I]. apply only_any; [|intros; exact I]. apply only_act. apply insert_words. exact Ho. }
  destruct r; [destruct h; [exact I|exact K]|exact K].
Qed.
Lemma word_event : forall x, Forall id_word (objects_of x) -> only v word_ids (@on_words) anything (lfs_p v x).
Proof.
  intros [q|[rq|]|[rq|] i n|i [[rq|]|]|[[op l]|]|o b|o] H; cbn [lfs_p]; try exact I.
  - unfold list_p. cbv zeta. apply only_any; [apply only_try, word_filtered|]. intros [[l n]|]; exact I.
  - unfold verify_p, lpbind at 1. cbn [unwrap_opt lthen]. cbv zeta. apply only_any; [apply only_try, word_filtered|]. intros [[l n]|]; exact I.
  - unfold lock_p, lpbind at 1. cbn [unwrap_opt lthen]. apply only_any; [apply only_try, word_filtered|]. intros [[[|x l] nx]|]; try exact I. cbv zeta.
    apply only_any; [|intros [|]; exact I]. apply only_try. unfold add_lock_p. apply only_any; [apply only_act; exact I|]. intros row. apply only_any; [|intros [|]; exact I].
    destruct row as [[k d]|].
    + apply only_any; [exact I|]. intros old. apply word_updated.
    + unfold inserted_p. apply only_any; [apply only_act; exact I|intros; exact I].
  - unfold unlock_p. destruct i as [|c i]; [exact I|]. unfold lpbind at 1. cbn [unwrap_opt lthen]. apply only_any; [apply only_try|].
    + unfold delete_lock_p. apply only_any; [apply only_act; exact I|]. intros row. destruct row as [[k d]|]; [|exact I]. apply only_any; [exact I|]. intros l.
      destruct (scan_locks _ _ _ _) as [[x rest]|]; [|exact I]. destruct (lk_id x); [exact I|]. destruct rest.
      * apply only_any; [apply only_act; exact I|]. intros [|]; exact I.
      * apply only_any; [apply word_updated|]. intros [|]; exact I.
    + intros [x|]; [|exact I]. destruct (_ && _); exact I.
  - unfold unlock_p. destruct i; exact I.
  - unfold unlock_p. destruct i; exact I.
  - unfold batch_p, lpbind at 1. cbn [unwrap_opt lthen]. apply only_any; [|intros; exact I]. apply word_batch. intros o Ho. rewrite Forall_forall in H. apply H. cbn [objects_of]. apply in_map, Ho.
  - unfold upload_object_p. eapply only_bind; [exact (word_row _)|]. intros [m|] Hm; [|exact I]. unfold lpbind at 1. cbn [unwrap_opt lthen]. apply only_any.
    + unfold put_p. apply (only_bind v word_ids _ _ _ (fun p => exists o, id_word o /\ store_path v o = Ok p)).
      * apply only_do; [exact Hm|]. intros w Hw. cbn [lperform]. unfold file_create. destruct (store_path v (mt_oid m)) as [p| | |] eqn:Ep; try exact I.
        destruct (_ && _); [|exact I]. cbn [snd on_ok]. exists (mt_oid m). auto.
      * intros p Hp. apply only_any; [apply only_act; exact Hp|intros; exact I].
    + intros [|]; [exact I|]. apply only_any; [apply only_unwrap|intros; exact I]. unfold delete_meta_p. apply only_any; [|intros [|]; exact I]. apply only_act. apply remove_words.
  - unfold download_object_p. eapply only_bind; [exact (word_row _)|]. intros [m|] Hm; [|exact I]. unfold lpbind at 1. cbn [unwrap_opt lthen].
    apply only_any; [apply only_act; exact Hm|intros; exact I].
Qed.
End Words.

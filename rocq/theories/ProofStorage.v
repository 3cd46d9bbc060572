(** Proofs about the storage layer: statements, push. *)

From Coq Require Import Permutation Sorted.
From Verif Require Import Base BaseLemmas Digest ModelObject ModelBase ModelPack ModelDecode ModelPkt ModelStorage.
From Verif Require Import SpecObject SpecIdx SpecBase SpecPack SpecDecode SpecStorage.
From Verif Require Import ProofUtf8 ProofObject ProofPack ProofIdx ProofBase ProofDecode ProofNodes.
Open Scope N_scope.

(** ** Statements without failures *)

(** From [w] to [w'] the database went through the states [l]. *)
Record moved (w w' : world) (l : list db) : Prop := {
  mv_log : w_log w' = w_log w ++ l;
  mv_db : w_db w' = last l (w_db w);
  mv_quiet : no_failure w';
  mv_files : w_files w' = w_files w }.

Lemma last_app : forall A (a b : list A) d, last (a ++ b) d = last b (last a d).
Proof.
  induction a as [|x a IH]; intros b d; [reflexivity|].
  destruct a as [|y a]; [|exact (IH b d)].
  destruct b as [|z b]; [reflexivity|]. cbn [app last].
  clear. revert z. induction b as [|w b IH]; intros z; [reflexivity|]. exact (IH w).
Qed.
Lemma moved_trans : forall w w1 w2 l1 l2, moved w w1 l1 -> moved w1 w2 l2 -> moved w w2 (l1 ++ l2).
Proof.
  intros w w1 w2 l1 l2 [A1 A2 A3 A4] [B1 B2 B3 B4]. split; [|rewrite B2, A2, last_app; reflexivity|assumption|congruence].
  rewrite B1, A1, app_assoc. reflexivity.
Qed.
Lemma moved_refl : forall w, no_failure w -> moved w w [].
Proof. intros w H. split; [rewrite app_nil_r| | |]; auto. Qed.

Lemma mbind_ok : forall A B (m : M A) (k : A -> M B) w w' a, m w = (w', Ok a) -> mbind m k w = k a w'.
Proof. intros A B m k w w' a H. unfold mbind. rewrite H. reflexivity. Qed.
Lemma mbind_inv : forall A B (m : M A) (k : A -> M B) w w' b, mbind m k w = (w', Ok b) ->
  exists w1 a, m w = (w1, Ok a) /\ k a w1 = (w', Ok b).
Proof.
  intros A B m k w w' b H. unfold mbind in H. destruct (m w) as [w1 [a|e| |]]; try discriminate. eauto.
Qed.

Lemma shuffle_run : forall A e (l : list A) w, no_failure w ->
  exists w', shuffle e l w = (w', Ok (ord e (w_tick w) A l)) /\ moved w w' [].
Proof.
  intros A e l w H. eexists. split; [reflexivity|]. split; cbn [w_log w_db w_files]; auto using app_nil_r.
Qed.
Lemma select_run : forall A e (q : db -> list A) w, no_failure w ->
  exists w', select e q w = (w', Ok (ord e (w_tick w) A (q (w_db w)))) /\ moved w w' [].
Proof.
  intros A e q w H. unfold select, attempt, mbind. rewrite H. apply shuffle_run. assumption.
Qed.
Lemma execute_run : forall f w d, no_failure w -> f (w_db w) = Some d ->
  exists w', execute f w = (w', Ok true) /\ moved w w' [d].
Proof.
  intros f w d H E. unfold execute, attempt, mbind. rewrite H, E. eexists. split; [reflexivity|].
  split; cbn [w_log w_db w_files last]; auto.
Qed.

(** ** Batches (C56) *)

Lemma batches_concat : forall l sum b, concat (batches sum b l) = b ++ l.
Proof.
  induction l as [|r l IH]; intros sum b; cbn [batches].
  - destruct b as [|x b]; [reflexivity|]. cbn [concat]. rewrite !app_nil_r. reflexivity.
  - destruct ((sum + nlen (n_data r) <? batch_limit) && (length b <? 50)%nat).
    + rewrite IH, <- app_assoc. reflexivity.
    + cbn [concat]. rewrite IH. reflexivity.
Qed.
Lemma batches_len : forall l sum b, (length b <= 50)%nat -> Forall (fun x => (length x <= 50)%nat) (batches sum b l).
Proof.
  induction l as [|r l IH]; intros sum b H; cbn [batches].
  - destruct b as [|x b]; [constructor|]. constructor; [exact H|constructor].
  - destruct (sum + nlen (n_data r) <? batch_limit) eqn:E1; cbn [andb].
    + destruct (Nat.ltb_spec (length b) 50) as [L|L].
      * apply IH. rewrite app_length. cbn [length]. lia.
      * constructor; [assumption|]. apply IH. cbn [length]. lia.
    + constructor; [assumption|]. apply IH. cbn [length]. lia.
Qed.
Lemma batches_nonempty : forall l sum b, b <> [] -> Forall (fun x => x <> []) (batches sum b l).
Proof.
  induction l as [|r l IH]; intros sum b H; cbn [batches].
  - destruct b as [|x b]; [constructor|]. constructor; [exact H|constructor].
  - destruct ((sum + nlen (n_data r) <? batch_limit) && (length b <? 50)%nat).
    + apply IH. destruct b; discriminate.
    + constructor; [assumption|]. apply IH. discriminate.
Qed.
Lemma batches_start : forall r l, nlen (n_data r) < batch_limit -> Forall (fun x => x <> []) (batches 0 [] (r :: l)).
Proof.
  intros r l H. cbn [batches]. rewrite N.add_0_l. apply N.ltb_lt in H. rewrite H. cbn [andb length].
  change (0 <? 50)%nat with true. cbn [andb app]. apply batches_nonempty. discriminate.
Qed.

Lemma insert_batches_run : forall e bs w, no_failure w -> Forall (fun b => b <> [] \/ empty_insert e = true) bs ->
  forallb node_fits (concat bs) = true ->
  exists w' l, insert_batches e bs w = (w', Ok tt) /\ moved w w' l /\
    w_db w' = mkDb (d_nodes (w_db w) ++ concat bs) (d_commits (w_db w)) (d_refs (w_db w)) (d_next_ref (w_db w)) /\
    forall d, In d l -> exists p q, concat bs = p ++ q /\
      d = mkDb (d_nodes (w_db w) ++ p) (d_commits (w_db w)) (d_refs (w_db w)) (d_next_ref (w_db w)).
Proof.
  intros e bs. induction bs as [|b bs IH]; intros w Q H F.
  - exists w, []. split; [reflexivity|]. split; [apply moved_refl; assumption|]. cbn [concat]. rewrite app_nil_r.
    split; [destruct (w_db w); reflexivity|intros ? []].
  - inversion H as [|? ? H1 H2]; subst. cbn [concat] in F. rewrite forallb_app in F. apply andb_true_iff in F as [F1 F2].
    set (d1 := mkDb (d_nodes (w_db w) ++ b) (d_commits (w_db w)) (d_refs (w_db w)) (d_next_ref (w_db w))).
    assert (E : insert_nodes e b (w_db w) = Some d1).
    { unfold insert_nodes. destruct b as [|r b].
      - destruct H1 as [H1| ->]; [contradiction|]. unfold d1. rewrite app_nil_r. destruct (w_db w); reflexivity.
      - rewrite F1. reflexivity. }
    destruct (execute_run _ w d1 Q E) as (w1 & E1 & M1).
    destruct (IH w1 (mv_quiet _ _ _ M1) H2 F2) as (w' & l & E2 & M2 & D & L).
    exists w', ([d1] ++ l). split; [|split; [|split]].
    + cbn [insert_batches]. rewrite (mbind_ok _ _ _ _ _ _ _ E1). exact E2.
    + eapply moved_trans; eassumption.
    + rewrite D, (mv_db _ _ _ M1). cbn [last d1 d_nodes d_commits d_refs d_next_ref concat].
      rewrite app_assoc. reflexivity.
    + intros d [<-|Hd].
      * exists b, (concat bs). split; [reflexivity|]. reflexivity.
      * destruct (L d Hd) as (p & q & Ec & ->). exists (b ++ p), q. cbn [concat]. rewrite Ec, app_assoc. split; [reflexivity|].
        rewrite (mv_db _ _ _ M1). cbn [last d1 d_nodes d_commits d_refs d_next_ref]. rewrite app_assoc. reflexivity.
Qed.

(** ** Commits *)

Lemma chunks_concat : forall A n fuel (l : list A), (0 < n)%nat -> (length l <= fuel)%nat -> concat (chunks fuel n l) = l.
Proof.
  intros A n. induction fuel as [|f IH]; intros l Hn Hl.
  - destruct l; [reflexivity|simpl in Hl; lia].
  - destruct l as [|x l]; [reflexivity|]. cbn [chunks concat]. rewrite IH; [apply firstn_skipn|assumption|].
    rewrite skipn_length. cbn [length] in *. lia.
Qed.
Lemma insert_commit_chunks_run : forall ls w, no_failure w -> forallb commit_fits (concat ls) = true ->
  exists w' l, insert_all (map insert_commits ls) w = (w', Ok tt) /\ moved w w' l /\
    w_db w' = mkDb (d_nodes (w_db w)) (d_commits (w_db w) ++ concat ls) (d_refs (w_db w)) (d_next_ref (w_db w)) /\
    forall d, In d l -> exists p q, concat ls = p ++ q /\
      d = mkDb (d_nodes (w_db w)) (d_commits (w_db w) ++ p) (d_refs (w_db w)) (d_next_ref (w_db w)).
Proof.
  induction ls as [|b ls IH]; intros w Q F.
  - exists w, []. split; [reflexivity|]. split; [apply moved_refl; assumption|]. cbn [concat]. rewrite app_nil_r.
    split; [destruct (w_db w); reflexivity|intros ? []].
  - cbn [concat] in F. rewrite forallb_app in F. apply andb_true_iff in F as [F1 F2].
    set (d1 := mkDb (d_nodes (w_db w)) (d_commits (w_db w) ++ b) (d_refs (w_db w)) (d_next_ref (w_db w))).
    assert (E : insert_commits b (w_db w) = Some d1) by (unfold insert_commits; rewrite F1; reflexivity).
    destruct (execute_run _ w d1 Q E) as (w1 & E1 & M1).
    destruct (IH w1 (mv_quiet _ _ _ M1) F2) as (w' & l & E2 & M2 & D & L).
    exists w', ([d1] ++ l). split; [|split; [|split]].
    + cbn [map insert_all]. rewrite (mbind_ok _ _ _ _ _ _ _ E1). exact E2.
    + eapply moved_trans; eassumption.
    + rewrite D, (mv_db _ _ _ M1). cbn [last d1 d_nodes d_commits d_refs d_next_ref concat].
      rewrite app_assoc. reflexivity.
    + intros d [<-|Hd].
      * exists b, (concat ls). split; reflexivity.
      * destruct (L d Hd) as (p & q & Ec & ->). exists (b ++ p), q. cbn [concat]. rewrite Ec, app_assoc. split; [reflexivity|].
        rewrite (mv_db _ _ _ M1). cbn [last d1 d_nodes d_commits d_refs d_next_ref]. rewrite app_assoc. reflexivity.
Qed.
Lemma save_commits_run : forall path cs w, no_failure w -> forallb commit_fits (map (commit_to_row path) cs) = true ->
  exists w' l, save_commits path cs w = (w', Ok tt) /\ moved w w' l /\
    w_db w' = mkDb (d_nodes (w_db w)) (d_commits (w_db w) ++ map (commit_to_row path) cs) (d_refs (w_db w)) (d_next_ref (w_db w)) /\
    forall d, In d l -> exists p q, map (commit_to_row path) cs = p ++ q /\
      d = mkDb (d_nodes (w_db w)) (d_commits (w_db w) ++ p) (d_refs (w_db w)) (d_next_ref (w_db w)).
Proof.
  intros path cs w Q F. unfold save_commits.
  assert (E : concat (chunks (length cs) 100 (map (commit_to_row path) cs)) = map (commit_to_row path) cs)
    by (apply chunks_concat; [lia|rewrite map_length; lia]).
  rewrite <- E in F. destruct (insert_commit_chunks_run _ w Q F) as (w' & l & E1 & M & D & L).
  rewrite E in D. exists w', l. split; [exact E1|]. split; [exact M|]. split; [exact D|].
  intros d Hd. destruct (L d Hd) as (p & q & Ep & ->). rewrite E in Ep. eauto.
Qed.

(** ** The objects of a pack as the code sees them *)

Lemma fold_bt_sound : forall A (key : A -> hash) l m h x,
  bt_get h (fold_left (fun m t => bt_insert (key t) t m) l m) = Some x ->
  bt_get h m = Some x \/ In x l /\ key x = h.
Proof.
  induction l as [|y l IH]; intros m h x H; [auto|]. cbn [fold_left] in H. apply IH in H as [H|[H1 H2]]; [|simpl; auto].
  destruct (list_eq_dec N.eq_dec h (key y)) as [->|Ne].
  - rewrite bt_get_insert_same in H. injection H as ->. simpl. auto.
  - rewrite bt_get_insert_other in H by assumption. auto.
Qed.
Lemma fold_bt_keep : forall A (key : A -> hash) l m h, ~ In h (map key l) ->
  bt_get h (fold_left (fun m t => bt_insert (key t) t m) l m) = bt_get h m.
Proof.
  induction l as [|y l IH]; intros m h H; [reflexivity|]. cbn [fold_left map In] in *. rewrite IH by tauto.
  apply bt_get_insert_other. intros ->. tauto.
Qed.
Lemma fold_bt_complete : forall A (key : A -> hash) l m x, NoDup (map key l) -> In x l ->
  bt_get (key x) (fold_left (fun m t => bt_insert (key t) t m) l m) = Some x.
Proof.
  induction l as [|y l IH]; intros m x N H; [destruct H|]. cbn [fold_left map] in *. inversion N as [|? ? N1 N2]; subst.
  destruct H as [->|H]; [|auto]. rewrite fold_bt_keep by assumption. apply bt_get_insert_same.
Qed.

(** The commit a content parses to. *)
Lemma commit_root_new : forall m tid, commit_root (m_data m) tid ->
  exists c, commit_new m = Ok c /\ cm_meta c = m /\ cm_tree_id c = tid.
Proof.
  intros m tid (ps & a & c & msg & H & Ha & (_ & Hc1 & Hc2 & Hc3) & Hm).
  apply git_commit_eq in H as (H1 & H2 & D).
  rewrite (commit_new_content m _ _ _ _ _ H1 H2 Ha Hc1 Hc2 Hc3 D). rewrite utf8_unwrap_text by assumption.
  cbn [bind]. eexists. repeat split.
Qed.
Lemma commit_root_ok : forall d tid, commit_root d tid -> id_ok tid.
Proof. intros d tid (ps & a & c & msg & H & _). apply git_commit_eq in H. apply H. Qed.
Lemma commit_root_fun : forall d a b, commit_root d a -> commit_root d b -> a = b.
Proof.
  intros d a b Ha Hb. destruct (commit_root_new (mkMeta Commit [] 0 d []) a Ha) as (c & E & _ & <-).
  destruct (commit_root_new (mkMeta Commit [] 0 d []) b Hb) as (c' & E' & _ & <-). congruence.
Qed.
Lemma git_tree_new : forall m items, git_tree items (m_data m) -> tree_new m = Ok (mkTree m items []).
Proof. intros m items H. apply tree_new_spec. auto. Qed.
Lemma git_tree_fun : forall d a b, git_tree a d -> git_tree b d -> a = b.
Proof.
  intros d a b Ha Hb. pose proof (git_tree_new (mkMeta Tree [] 0 d []) _ Ha) as E.
  rewrite (git_tree_new (mkMeta Tree [] 0 d []) _ Hb) in E. congruence.
Qed.
Lemma git_tree_ids : forall items d, git_tree items d -> bytes_ok d -> Forall (fun i => id_ok (ti_id i)) items.
Proof.
  induction 1 as [|mode t id name items rest Hm Hn H0 Hid Ht IH]; intros B; [constructor|].
  assert (K : bytes_ok id /\ bytes_ok rest).
  { unfold bytes_ok in *. repeat (apply Forall_app in B as [? B]). auto. }
  constructor; [|apply IH; apply K]. split; [exact Hid|apply K].
Qed.
Lemma sound_parses : forall o h, sound_object o -> obj_id o h -> parses (as_meta o h).
Proof.
  intros [t d] h (Hb & _ & S) Hi. unfold parses, as_meta. cbn [m_t fst snd] in *.
  apply obj_id_base in Hi as B. cbn [fst] in B. destruct t; try contradiction; [| |exact I|].
  - destruct S as (tid & S). destruct (commit_root_new (mkMeta Commit h (nlen d) d []) tid S) as (c & E & _). eauto.
  - destruct S as (items & S & _). eexists. apply git_tree_new. exact S.
  - destruct S as (ho & t & name & g & kept & G & Hn & Hn10 & Ht & Hm). apply git_tag_eq in G as (H1 & H2 & D).
    pose proof (tag_new_content (mkMeta Tag h (nlen d) d []) _ _ _ _ _ H1 H2 Hn Hn10 Ht D) as E.
    unfold tag_message in E. change ([10] ++ kept) with ([] ++ 10 :: kept) in E.
    rewrite find_byte_app in E by (intros []). cbn [option_map unwrap_opt bind length] in E.
    eexists. rewrite E. change ([] ++ 10 :: kept) with ([10] ++ kept). cbn [Nat.add].
    unfold slice_from. cbn [length Nat.leb skipn bind].
    rewrite utf8_unwrap_text by assumption. reflexivity.
Qed.

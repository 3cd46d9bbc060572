(** C66-C68, C79: git-lfs contents. *)

From Coq Require Import ZArith Permutation.
From Verif Require Import Base BaseLemmas Digest ModelObject ModelPkt ModelStorage ModelLfs ModelGateway SpecObject SpecIdx SpecPath SpecLfs SpecGateway
  ProofObject ProofIdx ProofReq ProofLfs ProofGateway ProofPath ProofContent PropLocks PropGateway.
Open Scope N_scope.

(** ** C67: paths of contents *)

Theorem C67_below : forall v oid, id_word oid -> exists below, store_path v oid = Ok (resolve (l_base v) ++ below) /\ below <> [].
Proof.
  intros v oid H. exists (id_parts oid). split; [apply store_path_word, H|]. unfold id_parts. destruct (nlen oid <? 5); discriminate.
Qed.
(** Which file any id names: that at base/ab/cd/rest, as the file system reads it. *)
Theorem C67_file : forall v oid p, l_base v <> [] -> store_path v oid = Ok p ->
  exists text, file_at text p /\
    ((length oid < 5)%nat /\ joins [l_base v; oid] text \/
     exists a b rest, oid = a ++ b ++ rest /\ length a = 2%nat /\ length b = 2%nat /\ rest <> [] /\ joins [l_base v; a; b; rest] text).
Proof.
  intros v oid p Hb E. unfold store_path, transform_key in E. destruct (N.ltb_spec (nlen oid) 5) as [L|L].
  - cbn [bind] in E. injection E as <-. exists (joined (l_base v) oid). split.
    + rewrite (same_resolve _ _ (join_same _ oid Hb)). apply resolve_at.
    + left. split; [unfold nlen in L; lia|]. apply joins_step. constructor.
  - destruct (char_boundary oid 2 && char_boundary oid 4); [|discriminate]. cbn [bind] in E. injection E as <-.
    unfold nlen in L. destruct oid as [|o1 [|o2 [|o3 [|o4 [|o5 r]]]]]; cbn [length] in L; try lia. cbn [firstn skipn].
    exists (joined (l_base v) (joined [o1; o2] (joined [o3; o4] (o5 :: r)))). split.
    + rewrite (same_resolve _ (joined (l_base v) (joined [o1; o2] (joined [o3; o4] (o5 :: r))))); [apply resolve_at|].
      apply (same_trans _ _ _ (join_same _ _ Hb)). apply joined_same; [exact Hb|exact Hb|apply same_refl|].
      rewrite <- joined_assoc by discriminate. apply (same_trans _ (joined (path_join [o1; o2] [o3; o4]) (o5 :: r))); [apply join_same, path_join_ne; discriminate|].
      apply joined_same; [apply path_join_ne; discriminate|apply joined_ne|apply join_same; discriminate|apply same_refl].
    + right. exists [o1; o2], [o3; o4], (o5 :: r). split; [reflexivity|]. split; [reflexivity|]. split; [reflexivity|]. split; [discriminate|].
      do 3 apply joins_step. constructor.
Qed.
Example C67_file_ex : exists p, l_base ex_lenv <> [] /\ store_path ex_lenv (bs "aabb/etc/../x") = Ok p /\ file_at (bs "/etc/../x") p /\ p = [[47]; bs "x"].
Proof. exists [[47]; bs "x"]. split; [discriminate|]. split; [vm_compute; reflexivity|]. split; [exact (resolve_at (bs "/etc/../x"))|reflexivity]. Qed.
Theorem C67_distinct : forall v a b p, id_word a -> id_word b -> store_path v a = Ok p -> store_path v b = Ok p -> a = b.
Proof.
  intros v a b p Ha Hb. rewrite !store_path_word by assumption. intros E1 E2. injection E1 as <-. injection E2 as E2. apply app_inv_head in E2.
  rewrite <- (id_parts_concat a), <- (id_parts_concat b). congruence.
Qed.
Lemma is_prefix_app : forall a b, is_prefix a b = true -> exists r, b = a ++ r.
Proof.
  induction a as [|x a IH]; intros [|y b] H; cbn [is_prefix] in H; try discriminate; try (eexists; reflexivity).
  apply andb_true_iff in H as [H1 H2]. apply beq_eq in H1. subst y. destruct (IH b H2) as (r & ->). exists r. reflexivity.
Qed.
(** No content stands where another needs a directory. *)
Theorem C67_no_nesting : forall v a b p q, id_word a -> id_word b -> 5 <= nlen a -> 5 <= nlen b -> store_path v a = Ok p -> store_path v b = Ok q ->
  is_prefix p q = true -> a = b.
Proof.
  intros v a b p q Ha Hb La Lb. rewrite !store_path_word by assumption. intros E1 E2. injection E1 as <-. injection E2 as <-. intros H.
  apply is_prefix_app in H as (r & E). rewrite <- app_assoc in E. apply app_inv_head in E.
  unfold id_parts in E. destruct (N.ltb_spec (nlen a) 5); [lia|]. destruct (N.ltb_spec (nlen b) 5); [lia|]. cbn [app] in E.
  pose proof (f_equal (fun l => nth 0 l []) E) as E1. pose proof (f_equal (fun l => nth 1 l []) E) as E2. pose proof (f_equal (fun l => nth 2 l []) E) as E3. cbn [nth] in E1, E2, E3.
  assert (K : forall w : bytes, firstn 2 w ++ firstn 2 (skipn 2 w) ++ skipn 4 w = w).
  { intros w. replace (skipn 4 w) with (skipn 2 (skipn 2 w)) by (destruct w as [|x [|y w]]; reflexivity). rewrite firstn_skipn. apply firstn_skipn. }
  rewrite <- (K a), <- (K b). congruence.
Qed.
(** Short ids do. *)
Theorem C67_short_refuted : exists v a b p q, id_word a /\ id_word b /\ a <> b /\ store_path v a = Ok p /\ store_path v b = Ok q /\ is_prefix p q = true.
Proof.
  exists ex_lenv, (bs "ab"), (bs "abcde"), [[46]; bs "lfs-content"; bs "ab"], [[46]; bs "lfs-content"; bs "ab"; bs "cd"; bs "e"].
  split; [split; [discriminate|reflexivity]|]. split; [split; [discriminate|reflexivity]|]. split; [discriminate|]. repeat split; vm_compute; reflexivity.
Qed.
Definition oid1 : bytes := hex_encode (sha256 (bs "good")).
Lemma oid1_word : id_word oid1.
Proof. split; [intros E; apply (f_equal (@length N)) in E; vm_compute in E; discriminate|vm_compute; reflexivity]. Qed.
Example C67_ex : id_word oid1 /\ 5 <= nlen oid1 /\ id_word (bs "ab") /\ exists p, store_path ex_lenv oid1 = Ok p /\ length p = 5%nat.
Proof.
  split; [exact oid1_word|]. split; [vm_compute; discriminate|]. split; [split; [discriminate|reflexivity]|].
  eexists. split; [apply store_path_word, oid1_word|]. vm_compute. reflexivity.
Qed.

(** ** C66: what downloads return *)

Lemma content_hex : forall o d, content_id o d -> hex_encode (sha256 d) = o.
Proof. intros o d H. symmetry. apply lower_hex_eq, H. Qed.

Lemma sha256_ok : forall m, length (sha256 m) = 32%nat /\ bytes_ok (sha256 m).
Proof.
  intros m. unfold sha256. destruct (fold_left sha256_block _ _) as [[[[[[[a b] c] d] e] f] g] h]. split; [reflexivity|].
  unfold bytes_ok. rewrite !Forall_app. repeat split; apply be32_bytes.
Qed.
Lemma hex_lower : forall m, lower_hex (hex_encode (sha256 m)) (sha256 m).
Proof.
  intros m. pose proof (hex_encode_text _ (proj2 (sha256_ok m))) as T. split; [exact T|]. rewrite <- (hex_text_lower _ _ T). reflexivity.
Qed.
Lemma hex_word : forall m, id_word (hex_encode (sha256 m)).
Proof.
  intros m. destruct (sha256_ok m) as [L B]. split.
  - destruct (sha256 m); [discriminate|discriminate].
  - apply forallb_forall. intros x Hx. apply in_flat_map in Hx as (b & Hb & Hx). unfold bytes_ok in B. rewrite Forall_forall in B. specialize (B b Hb). unfold byte_ok in B.
    assert (D : forall d, d < 16 -> id_char (hex_digit d) = true).
    { intros d Hd. unfold hex_digit, id_char. destruct (N.ltb_spec d 10).
      - replace (48 <=? 48 + d) with true by (symmetry; apply N.leb_le; lia). replace (48 + d <=? 57) with true by (symmetry; apply N.leb_le; lia). apply orb_true_r.
      - replace (97 <=? 87 + d) with true by (symmetry; apply N.leb_le; lia). replace (87 + d <=? 122) with true by (symmetry; apply N.leb_le; lia). reflexivity. }
    destruct Hx as [<-|[<-|[]]]; apply D; [rewrite shiftr_div; change (2 ^ 4) with 16; apply N.div_lt_upper_bound; lia|rewrite land_15; apply N.mod_lt; discriminate].
Qed.

Definition pres {A} (P : lfs -> Prop) (m : L A) : Prop := forall w, P w -> P (fst (m w)).
Section Store.
  Context (v : lenv).
  Lemma good_same : forall w w', l_meta w' = l_meta w -> l_files w' = l_files w -> good_store v w -> good_store v w'.
  Proof. intros w w' E1 E2 H. unfold good_store. rewrite E1, E2. exact H. Qed.
  Lemma pres_ret : forall A (r : res A), pres (good_store v) (llift r).
  Proof. intros A r w H. exact H. Qed.
  Lemma pres_bind : forall A B (m : L A) (k : A -> L B), pres (good_store v) m -> (forall a, pres (good_store v) (k a)) -> pres (good_store v) (lbind m k).
  Proof. intros A B m k H1 H2 w H. unfold lbind. specialize (H1 w H). destruct (m w) as [w1 [a| | |]]; cbn [fst] in *; try exact H1. apply (H2 a w1 H1). Qed.
  Lemma pres_try : forall A (m : L A), pres (good_store v) m -> pres (good_store v) (ltry m).
  Proof. intros A m H w Hw. unfold ltry. specialize (H w Hw). destruct (m w) as [w1 [a| | |]]; exact H. Qed.
  Lemma pres_unwrap : forall A (m : L A), pres (good_store v) m -> pres (good_store v) (lunwrap m).
  Proof. intros A m H w Hw. rewrite lunwrap_fst. apply H, Hw. Qed.
  Lemma pres_attempt : pres (good_store v) lattempt.
  Proof. intros w H. destruct (lattempt_any w) as (w' & b & E & A & _). rewrite E. eapply good_same; [apply A|apply A|exact H]. Qed.
  Lemma pres_find_lock : forall k, pres (good_store v) (find_lock_row v k).
  Proof. intros k. unfold find_lock_row. apply pres_bind; [exact pres_attempt|]. intros [|]; [intros w H; exact H|apply pres_ret]. Qed.
  Lemma pres_find_meta : forall k, pres (good_store v) (find_meta_row v k).
  Proof. intros k. unfold find_meta_row. apply pres_bind; [exact pres_attempt|]. intros [|]; [intros w H; exact H|apply pres_ret]. Qed.
  Lemma pres_exec_locks : forall f, pres (good_store v) (exec_locks f).
  Proof.
    intros f. unfold exec_locks. apply pres_bind; [exact pres_attempt|]. intros [|]; [|apply pres_ret]. intros w H. destruct (f (l_locks w)); [|exact H].
    eapply good_same; [| |exact H]; reflexivity.
  Qed.
  Lemma pres_exec_meta : forall f, (forall t t' m, f t = Some t' -> In m t' -> In m t \/ id_word (mt_oid m)) -> pres (good_store v) (exec_meta f).
  Proof.
    intros f Hf. unfold exec_meta. apply pres_bind; [exact pres_attempt|]. intros [|]; [|apply pres_ret]. intros w [H1 H2]. destruct (f (l_meta w)) as [t|] eqn:E; [|split; assumption].
    split; [|exact H2]. intros m Hm. cbn [fst l_meta] in Hm. destruct (Hf _ _ m E Hm) as [K|K]; [apply H1, K|exact K].
  Qed.
  Lemma pres_filtered : forall r p c l, pres (good_store v) (lfs_get_filtered_locks v r p c l).
  Proof.
    intros. unfold lfs_get_filtered_locks. apply pres_bind; [|intros; apply pres_ret]. unfold lfs_get_locks. apply pres_bind; [apply pres_find_lock|].
    intros [[k d]|]; [|apply pres_ret]. apply pres_bind; intros; apply pres_ret.
  Qed.
  Lemma pres_updated : forall f, pres (good_store v) (updated (exec_locks f)).
  Proof. intros f. unfold updated. apply pres_bind; [apply pres_exec_locks|]. intros [|]; [exact pres_attempt|apply pres_ret]. Qed.
  Lemma pres_create : forall b id now, pres (good_store v) (lfs_create_lock v b id now).
  Proof.
    intros. unfold lfs_create_lock. apply pres_bind; [apply pres_ret|]. intros rq. apply pres_bind.
    - unfold create_check. apply pres_bind; [apply pres_try, pres_filtered|]. intros [[[|x l] n]|]; apply pres_ret.
    - intros [r|]; [apply pres_ret|]. apply pres_bind; [apply pres_find_lock|]. intros row. unfold create_write. cbv zeta. apply pres_bind.
      + apply pres_try. unfold add_lock_write. apply pres_bind; [|intros [|]; apply pres_ret]. destruct row as [[k d]|].
        * apply pres_bind; [apply pres_ret|intros; apply pres_updated].
        * unfold inserted. apply pres_bind; [apply pres_exec_locks|intros; apply pres_ret].
      + intros [u|]; apply pres_ret.
  Qed.
  Lemma pres_delete : forall id b, pres (good_store v) (lfs_delete v id b).
  Proof.
    intros id b. unfold lfs_delete. destruct id as [|c id]; [apply pres_ret|]. destruct b as [b|]; [|apply pres_ret]. apply pres_bind; [apply pres_ret|]. intros rq.
    apply pres_bind.
    - apply pres_try. unfold lfs_delete_lock. apply pres_bind; [apply pres_find_lock|]. intros [[k d]|]; [|apply pres_ret]. apply pres_bind; [apply pres_ret|].
      intros l. destruct (scan_locks _ _ _ _) as [[x rest]|]; [|apply pres_ret]. destruct (lk_id x); [apply pres_ret|]. destruct rest as [|y rest].
      + apply pres_bind; [apply pres_exec_locks|]. intros [|]; apply pres_ret.
      + apply pres_bind; [apply pres_updated|]. intros [|]; apply pres_ret.
    - intros [x|]; [|apply pres_ret]. destruct (_ && _); apply pres_ret.
  Qed.
  Lemma pres_batch : forall op l, Forall (fun o => id_word (ob_oid o)) l -> pres (good_store v) (batch_objects v op l).
  Proof.
    intros op l H. induction H as [|o l Ho _ IH]; [apply pres_ret|]. cbn [batch_objects]. apply pres_bind; [|intros; apply pres_bind; [exact IH|intros; apply pres_ret]].
    unfold batch_object. apply pres_bind; [apply pres_find_meta|]. intros m. apply pres_bind; [destruct m; [|apply pres_ret]; intros w K; exact K|].
    intros h. assert (K : pres (good_store v) (if beq op (bs "upload") then do! x := lunwrap (lfs_put_meta v (ob_oid o) (ob_size o)) in lret (represent v o x (bs "upload"))
        else lret (mkRepr (ob_oid o) (ob_size o) None None (Some (404, bs "Not found"))))).
    { destruct (beq op (bs "upload")); [|apply pres_ret]. apply pres_bind; [|intros; apply pres_ret]. apply pres_unwrap. unfold lfs_put_meta.
      apply pres_bind; [apply pres_find_meta|]. intros [x|]; [apply pres_ret|]. apply pres_bind; [|intros [|]; apply pres_ret]. unfold inserted.
      apply pres_bind; [|intros; apply pres_ret]. apply pres_exec_meta. intros t t' x E Hx. unfold insert_meta in E. destruct (_ && _ && _); [|discriminate].
      injection E as <-. apply in_app_or in Hx as [Hx|[<-|[]]]; [left; exact Hx|right; exact Ho]. }
    destruct m; [destruct h; [apply pres_ret|exact K]|exact K].
  Qed.
  Context (whole : forall b, (length b <= write_len v b)%nat) (differ : ids_differ v).
  Lemma pres_upload : forall oid body w, good_store v w ->
    content_id oid body \/ snd (lfs_upload_object v oid body w) = Ok (ROk 200 BEmpty) -> good_store v (fst (lfs_upload_object v oid body w)).
  Proof.
    intros oid body w Hw. unfold lfs_upload_object, lfs_get_meta. destruct (find_meta_any v oid w) as (w1 & A & [E|E] & _);
      [unfold lbind; rewrite E; intros _; eapply good_same; [apply A|apply A|exact Hw]|].
    rewrite (lbind_ok _ _ _ _ _ _ _ E). assert (H1 : good_store v w1) by (eapply good_same; [apply A|apply A|exact Hw]).
    destruct (find (fun r => l_teq v (mt_oid r) oid) (l_meta w)) as [m|] eqn:F; [|intros _; exact H1].
    apply find_some in F as [Hm Ht]. assert (Hi : id_word (mt_oid m)) by (apply Hw, Hm). clear E.
    unfold llift, lbind, store_put. cbn [unwrap_opt]. rewrite store_path_word by exact Hi.
    set (p := resolve (l_base v) ++ id_parts (mt_oid m)). destruct (can_open v p && _ && _); [|intros _; exact H1].
    rewrite firstn_all2 by apply whole.
    set (w2 := mkLfs (l_locks w1) (l_meta w1) (fs_put (l_files w1) p body) (l_fails w1)).
    assert (G : content_id (mt_oid m) body -> good_store v w2).
    { intros C. split; [apply H1|]. intros o q d Ho Hp Hd. cbn [w2 l_files] in Hd. rewrite store_path_word in Hp by exact Ho. injection Hp as <-.
      destruct (list_eq_dec (list_eq_dec N.eq_dec) (resolve (l_base v) ++ id_parts o) p) as [Ep|Np].
      - rewrite Ep, fs_get_put_same in Hd. injection Hd as <-. unfold p in Ep. apply app_inv_head in Ep. rewrite <- (id_parts_concat o), Ep, id_parts_concat. exact C.
      - rewrite fs_get_put_other in Hd by exact Np. apply (proj2 H1 o (resolve (l_base v) ++ id_parts o) d Ho); [apply store_path_word, Ho|exact Hd]. }
    destruct (Z.eqb _ _ && beq (hex_encode (sha256 body)) (mt_oid m)) eqn:B.
    - intros _. apply G. apply andb_true_iff in B as [_ B]. apply beq_eq in B. rewrite <- B. apply hex_lower.
    - intros [C|C].
      + assert (E : mt_oid m = oid).
        { apply differ; [exact Hi| |exact Ht]. rewrite <- (content_hex _ _ C). apply hex_word. }
        assert (G2 : good_store v w2) by (apply G; rewrite E; exact C). unfold lfs_delete_meta.
        assert (K : pres (good_store v) (do! _ := lunwrap (do! ok := exec_meta (remove_meta v oid) in if ok then lret tt else llift (Err EGeneral)) in lret (RFail 406 (bs "Header not acceptable!")))).
        { apply pres_bind; [|intros; apply pres_ret]. apply pres_unwrap. apply pres_bind; [|intros [|]; apply pres_ret]. apply pres_exec_meta.
          intros t t' x Et Hx. injection Et as <-. apply filter_In in Hx as [Hx _]. left. exact Hx. }
        apply (K w2 G2).
      + exfalso. revert C. destruct (lunwrap _ w2) as [w3 [u|e| |]]; discriminate.
  Qed.
End Store.

Lemma handle_good : forall v x w, (forall b, (length b <= write_len v b)%nat) -> ids_differ v -> batch_ok x -> upload_ok x (snd (lfs_handle v x w)) ->
  good_store v w -> good_store v (fst (lfs_handle v x w)).
Proof.
  intros v x w Wh Df Hb Hu Hw. destruct x as [q|b|b id now|id b|b|o b|o]; cbn [lfs_handle] in *.
  - refine (pres_bind v _ _ _ _ _ _ w Hw); [apply pres_try, pres_filtered|]. intros [[l n]|]; apply pres_ret.
  - refine (pres_bind v _ _ _ _ _ _ w Hw); [apply pres_ret|]. intros rq. cbv zeta. apply pres_bind; [apply pres_try, pres_filtered|]. intros [[l n]|]; apply pres_ret.
  - apply pres_create, Hw.
  - apply pres_delete, Hw.
  - unfold lfs_process_batch. destruct b as [[op l]|]; [|exact Hw]. cbn [batch_ok] in Hb.
    refine (pres_bind v _ _ (batch_objects v op l) _ _ _ w Hw); [apply pres_batch, Hb|intros; apply pres_ret].
  - apply pres_upload; assumption.
  - refine (pres_bind v _ _ _ _ _ _ w Hw); [apply pres_find_meta|]. intros m. apply pres_bind; [apply pres_ret|]. intros m'. apply pres_bind; [intros w1 H1; exact H1|intros; apply pres_ret].
Qed.
Lemma run_good : forall v events w w' replies, (forall b, (length b <= write_len v b)%nat) -> ids_differ v -> Forall batch_ok events ->
  lfs_run v events w = (w', replies) -> Forall2 upload_ok events replies -> good_store v w -> good_store v w'.
Proof.
  intros v events. induction events as [|x events IH]; intros w w' replies Wh Df Hb E Hu Hw; cbn [lfs_run] in E.
  - injection E as <- _. exact Hw.
  - inversion Hb as [|? ? B1 B2]; subst. destruct (lfs_handle v x w) as [w1 a] eqn:Ex. destruct (lfs_run v events w1) as [w2 b] eqn:Er. injection E as <- <-.
    inversion Hu as [|? ? ? ? U1 U2]; subst. apply (IH w1 w2 b Wh Df B2 Er U2). replace w1 with (fst (lfs_handle v x w)) by (rewrite Ex; reflexivity).
    apply handle_good; try assumption. rewrite Ex. exact U1.
Qed.
(** Whatever statements failed on the way. *)
Theorem C66_downloads : forall v events w0 w replies oid w' d, (forall b, (length b <= write_len v b)%nat) -> ids_differ v -> good_store v w0 ->
  Forall batch_ok events -> lfs_run v events w0 = (w, replies) -> Forall2 upload_ok events replies -> id_word oid ->
  lfs_download_object v oid w = (w', Ok (ROk 200 (BData d))) -> content_id oid d.
Proof.
  intros v events w0 w replies oid w' d Wh Df H0 Hb Er Hu Ho E. pose proof (run_good v events w0 w replies Wh Df Hb Er Hu H0) as [G1 G2].
  unfold lfs_download_object, lfs_get_meta in E. destruct (find_meta_any v oid w) as (w1 & A & [F|F] & _); [unfold lbind in E; rewrite F in E; discriminate|].
  rewrite (lbind_ok _ _ _ _ _ _ _ F) in E. destruct (find (fun r => l_teq v (mt_oid r) oid) (l_meta w)) as [m|] eqn:Fm; [|discriminate].
  apply find_some in Fm as [Hm Ht]. assert (Em : mt_oid m = oid) by (apply Df; [apply G1, Hm|exact Ho|exact Ht]).
  unfold llift, lbind, store_get in E. cbn [unwrap_opt] in E. rewrite Em, store_path_word in E by exact Ho. cbn [unwrap bind] in E.
  destruct (can_open v _); [|discriminate]. destruct (fs_get (l_files w1) _) as [d'|] eqn:Eg; [|discriminate]. cbn [unwrap_opt lret] in E. injection E as _ <-.
  apply (G2 oid (resolve (l_base v) ++ id_parts oid)); [exact Ho|apply store_path_word, Ho|]. rewrite <- (al_files _ _ A). exact Eg.
Qed.
Lemma fold_word : forall a, id_word a -> map fold_case a = a.
Proof.
  intros a [_ H]. induction a as [|x a IH]; [reflexivity|]. cbn [forallb] in H. apply andb_true_iff in H as [Hx H]. cbn [map]. rewrite IH by exact H. f_equal.
  unfold id_char in Hx. unfold fold_case. destruct (N.leb_spec 65 x) as [L|L]; [|reflexivity]. destruct (N.leb_spec x 90) as [L2|L2]; [|reflexivity].
  apply orb_true_iff in Hx as [Hx|Hx]; apply andb_true_iff in Hx as [H1 H2]; apply N.leb_le in H1, H2; lia.
Qed.
Lemma ex_ids_differ : ids_differ ex_lenv.
Proof. intros a b Ha Hb E. apply beq_eq in E. rewrite (fold_word a Ha), (fold_word b Hb) in E. exact E. Qed.
Lemma start_good : forall v, good_store v ex_start.
Proof. intros v. split; [intros m []|intros o p d _ _ H; discriminate]. Qed.
Lemma honest_run : forall v events w, Forall (fun x => match x with EUpload o b => content_id o b | _ => True end) events ->
  Forall2 upload_ok events (snd (lfs_run v events w)).
Proof.
  intros v events. induction events as [|x events IH]; intros w H; [apply Forall2_nil|]. inversion H as [|? ? H1 H2]; subst. cbn [lfs_run].
  destruct (lfs_handle v x w) as [w1 a]. specialize (IH w1 H2). destruct (lfs_run v events w1) as [w2 b]. cbn [snd] in *. apply Forall2_cons; [|exact IH].
  destruct x; try exact I. left. exact H1.
Qed.
Definition ex_batch (op : bytes) : lfs_event := EBatch (Some (op, [mkObj oid1 4 [] []])).
Definition ex_upload : list lfs_event := [ex_batch (bs "upload"); EUpload oid1 (bs "good"); ex_batch (bs "download")].
Example C66_ex : (forall b, (length b <= write_len ex_lenv b)%nat) /\ ids_differ ex_lenv /\ good_store ex_lenv ex_start /\ Forall batch_ok ex_upload /\
  Forall2 upload_ok ex_upload (snd (lfs_run ex_lenv ex_upload ex_start)) /\ id_word oid1 /\
  snd (lfs_download_object ex_lenv oid1 (fst (lfs_run ex_lenv ex_upload ex_start))) = Ok (ROk 200 (BData (bs "good"))).
Proof.
  split; [intros b; apply le_n|]. split; [exact ex_ids_differ|]. split; [apply start_good|].
  split; [repeat constructor; apply oid1_word|]. split; [|split; [exact oid1_word|vm_compute; reflexivity]].
  apply honest_run. apply Forall_cons; [exact I|]. apply Forall_cons; [apply hex_lower|]. apply Forall_cons; [exact I|]. apply Forall_nil.
Qed.
(** An accepted content is replaced by a rejected upload. *)
Definition ex_spoilt : list lfs_event :=
  [ex_batch (bs "upload"); EUpload oid1 (bs "good"); EUpload oid1 (bs "evil"); ex_batch (bs "upload")].
Theorem C66_refuted : exists v events oid d, lenv_ok v /\ (forall b, (length b <= write_len v b)%nat) /\ ids_differ v /\ good_store v ex_start /\ Forall batch_ok events /\
  nth_error (snd (lfs_run v events ex_start)) 1 = Some (Ok (ROk 200 BEmpty)) /\ nth_error (snd (lfs_run v events ex_start)) 2 = Some (Ok (RFail 406 (bs "Header not acceptable!"))) /\
  snd (lfs_download_object v oid (fst (lfs_run v events ex_start))) = Ok (ROk 200 (BData d)) /\ ~ content_id oid d.
Proof.
  exists ex_lenv, ex_spoilt, oid1, (bs "evil"). split; [exact ex_lenv_ok|]. split; [intros b; apply le_n|]. split; [exact ex_ids_differ|]. split; [apply start_good|].
  split; [repeat constructor; apply oid1_word|]. split; [vm_compute; reflexivity|]. split; [vm_compute; reflexivity|]. split; [vm_compute; reflexivity|].
  intros H. apply content_hex in H. apply (f_equal (fun l => beq l oid1)) in H. vm_compute in H. discriminate.
Qed.
(** A write that takes only part of the content is accepted when the size announced is
    that of the part. *)
Definition short_lenv : lenv :=
  mkLenv (l_teq ex_lenv) ModelJson.write_locks ModelJson.read_locks (fun _ => true) (fun _ => 2%nat) true (bs "lfs-content") (bs "http://localhost:8000").
Theorem C66_short_write_refuted : exists v events oid d, ids_differ v /\ good_store v ex_start /\ Forall batch_ok events /\
  Forall2 upload_ok events (snd (lfs_run v events ex_start)) /\
  snd (lfs_download_object v oid (fst (lfs_run v events ex_start))) = Ok (ROk 200 (BData d)) /\ ~ content_id oid d.
Proof.
  exists short_lenv, [EBatch (Some (bs "upload", [mkObj oid1 2 [] []])); EUpload oid1 (bs "good")], oid1, (bs "go").
  split; [exact ex_ids_differ|]. split; [apply start_good|]. split; [repeat constructor; apply oid1_word|].
  split; [|split; [vm_compute; reflexivity|]].
  - apply honest_run. apply Forall_cons; [exact I|]. apply Forall_cons; [apply hex_lower|]. apply Forall_nil.
  - intros H. apply content_hex in H. apply (f_equal (fun l => beq l oid1)) in H. vm_compute in H. discriminate.
Qed.

(** An accepted upload can be downloaded. *)
Theorem C66_accepted : forall v w oid body w1, (forall b, (length b <= write_len v b)%nat) -> ids_differ v -> good_store v w -> id_word oid ->
  lfs_upload_object v oid body w = (w1, Ok (ROk 200 BEmpty)) -> l_fails w1 = [] ->
  content_id oid body /\ lfs_download_object v oid w1 = (w1, Ok (ROk 200 (BData body))).
Proof.
  intros v w oid body w1 Wh Df [G1 _] Ho E F. unfold lfs_upload_object, lfs_get_meta in E.
  destruct (find_meta_any v oid w) as (w2 & A & [K|K] & _); [unfold lbind in E; rewrite K in E; discriminate|].
  rewrite (lbind_ok _ _ _ _ _ _ _ K) in E. destruct (find (fun r => l_teq v (mt_oid r) oid) (l_meta w)) as [m|] eqn:Fm; [|discriminate].
  pose proof (find_some _ _ Fm) as [Hm Ht]. assert (Em : mt_oid m = oid) by (apply Df; [apply G1, Hm|exact Ho|exact Ht]). clear K.
  unfold llift, lbind, store_put in E. cbn [unwrap_opt] in E. rewrite Em, store_path_word in E by exact Ho.
  set (p := resolve (l_base v) ++ id_parts oid) in *. destruct (can_open v p) eqn:Ec; [|discriminate]. cbn [andb] in E.
  destruct (_ && _) in E; [|discriminate]. rewrite firstn_all2 in E by apply Wh.
  destruct (Z.eqb _ _ && beq (hex_encode (sha256 body)) oid) eqn:B.
  - apply andb_true_iff in B as [_ B]. apply beq_eq in B. injection E as <-. split; [rewrite <- B; apply hex_lower|].
    unfold lfs_download_object, lfs_get_meta.
    set (w3 := mkLfs (l_locks w2) (l_meta w2) (fs_put (l_files w2) p body) (l_fails w2)) in *.
    destruct (find_meta_any v oid w3) as (w4 & _ & _ & Q). destruct (Q F) as [-> Q2]. rewrite (lbind_ok _ _ _ _ _ _ _ Q2). cbn [w3 l_meta]. rewrite (al_meta _ _ A), Fm.
    unfold llift, lbind, store_get. cbn [unwrap_opt]. rewrite Em, store_path_word by exact Ho. cbn [unwrap bind]. fold p. rewrite Ec. cbn [w3 l_files]. rewrite fs_get_put_same. reflexivity.
  - exfalso. revert E. destruct (lunwrap _ _) as [w3 [u|e| |]]; discriminate.
Qed.

(** ** C68: batches *)

Lemma find_row : forall v w oid, match find (fun r => l_teq v (mt_oid r) oid) (l_meta w) with Some m => object_row v w oid m | None => no_object_row v w oid end.
Proof.
  intros v w oid. unfold object_row, no_object_row. induction (l_meta w) as [|x l IH]; [constructor|]. cbn [find]. destruct (l_teq v (mt_oid x) oid) eqn:E.
  - exists [], l. repeat split; [exact E|constructor].
  - destruct (find _ l) as [m|]; [|constructor; assumption]. destruct IH as (l1 & l2 & -> & T & F). exists (x :: l1), l2. repeat split; [exact T|constructor; assumption].
Qed.
Lemma exist_present : forall v w oid b, store_exist v oid w = (w, Ok b) -> if b then present v w oid else ~ present v w oid.
Proof.
  intros v w oid b E. injection E as E. unfold present. destruct (store_path v oid) as [p| | |]; try discriminate. cbn [bind] in E. injection E as <-.
  destruct (can_open v p) eqn:Ec; cbn [andb].
  - destruct (is_dir v (l_files w) p) eqn:Ed; cbn [orb]; [exists p; auto|]. destruct (fs_get (l_files w) p) as [d|] eqn:Eg; [exists p; repeat split; [exact Ec|right; exists d; exact Eg]|].
    intros (q & Eq & _ & [K|[d K]]); injection Eq as <-; congruence.
  - intros (q & Eq & K & _). injection Eq as <-. congruence.
Qed.
Lemma nlen_chars : forall o, id_word o -> nlen o <= 100 -> varchar 100 o = true.
Proof.
  intros o [_ H] L. unfold varchar, chars. apply N.leb_le. replace (filter _ o) with o; [exact L|]. clear L. induction o as [|x o IH]; [reflexivity|]. cbn [forallb] in H.
  apply andb_true_iff in H as [Hx H]. cbn [filter]. rewrite <- IH by exact H. replace (negb ((128 <=? x) && (x <? 192))) with true; [reflexivity|]. symmetry. unfold id_char in Hx.
  apply negb_true_iff. apply orb_true_iff in Hx as [Hx|Hx]; apply andb_true_iff in Hx as [H1 H2]; apply N.leb_le in H1, H2; apply andb_false_iff; left; apply N.leb_gt; lia.
Qed.
Lemma batch_one : forall v op o w, l_fails w = [] -> key_insert_ok v = true -> (forall m, In m (l_meta w) -> id_word (mt_oid m)) -> object_ok o ->
  exists r new, entry v w op o r new /\ batch_object v op o w = (mkLfs (l_locks w) (l_meta w ++ new) (l_files w) (l_fails w), Ok r).
Proof.
  intros v op o w F K G (Hw & Hl & Hs). unfold batch_object, lfs_get_meta. destruct (find_meta_any v (ob_oid o) w) as (w4 & _ & _ & Q). destruct (Q F) as [_ Q2]. clear Q w4.
  rewrite (lbind_ok _ _ _ _ _ _ _ Q2). pose proof (find_row v w (ob_oid o)) as Hr. 
  assert (Eb : forall m, id_word m -> exists b, store_exist v m w = (w, Ok b)).
  { intros m Hm. unfold store_exist. rewrite store_path_word by exact Hm. eexists. reflexivity. }
  assert (Ew : mkLfs (l_locks w) (l_meta w ++ []) (l_files w) (l_fails w) = w) by (rewrite app_nil_r; destruct w; reflexivity).
  destruct (find _ (l_meta w)) as [m|] eqn:Fm.
  - pose proof (find_some _ _ Fm) as [Hm Ht]. destruct (Eb (mt_oid m) (G m Hm)) as (b & Hb). pose proof (exist_present _ _ _ _ Hb) as Hp.
    rewrite (lbind_ok _ _ _ _ _ _ _ Hb). destruct b.
    + exists (represent v o m (bs "download")), []. split; [apply entry_here; assumption|]. rewrite Ew. reflexivity.
    + destruct (beq op (bs "upload")) eqn:Eo.
      * apply beq_eq in Eo. exists (represent v o m (bs "upload")), []. split; [apply entry_again; assumption|]. rewrite Ew.
        unfold lbind at 1. unfold lunwrap, lfs_put_meta. rewrite (lbind_ok _ _ _ _ _ _ _ Q2). reflexivity.
      * apply beq_neq in Eo. eexists _, []. split; [apply entry_missing; [exact Eo|right; exists m; split; assumption]|]. rewrite Ew. reflexivity.
  - rewrite (lbind_ok _ _ (lret false) _ w w false eq_refl). destruct (beq op (bs "upload")) eqn:Eo.
    + apply beq_eq in Eo. exists (represent v o (mkMeta (ob_oid o) (ob_size o) true) (bs "upload")), [mkMeta (ob_oid o) (ob_size o) true]. split; [apply entry_new; assumption|].
      unfold lbind at 1. unfold lunwrap, lfs_put_meta. rewrite (lbind_ok _ _ _ _ _ _ _ Q2). unfold inserted, exec_meta, lattempt, lbind. rewrite F. cbv beta iota zeta.
      unfold insert_meta. cbn [mt_oid mt_size]. rewrite nlen_chars by assumption.
      replace (int_ok (ob_size o)) with true by (symmetry; apply andb_true_iff; split; apply Z.leb_le; lia).
      replace (existsb _ (l_meta w)) with false; [cbn [andb negb]; rewrite K, ?F; reflexivity|]. symmetry. apply Bool.not_true_iff_false. intros X.
      apply existsb_exists in X as (x & Hx & Ex). unfold no_object_row in Hr. rewrite Forall_forall in Hr. rewrite (Hr x Hx) in Ex. discriminate.
    + apply beq_neq in Eo. eexists _, []. split; [apply entry_missing; [exact Eo|left; exact Hr]|]. rewrite Ew. reflexivity.
Qed.
Definition apart (v : lenv) (a b : object_request) : Prop := l_teq v (ob_oid a) (ob_oid b) = false.
Lemma present_files : forall v w w' oid, l_files w' = l_files w -> present v w' oid -> present v w oid.
Proof. intros v w w' oid E. unfold present. rewrite E. exact (fun H => H). Qed.
Lemma row_later : forall v w w' new oid m, l_meta w' = l_meta w ++ new -> Forall (fun x => l_teq v (mt_oid x) oid = false) new -> object_row v w' oid m -> object_row v w oid m.
Proof.
  intros v w w' new oid m E Hn (l1 & l2 & El & T & F). rewrite E in El. clear E. unfold object_row. revert l1 El F. induction (l_meta w) as [|x l IH]; intros l1 El F.
  - exfalso. cbn [app] in El. subst new. apply Forall_app in Hn as [_ Hn]. inversion Hn. congruence.
  - destruct l1 as [|y l1]; cbn [app] in El; injection El as Ex El.
    + subst x. exists [], l. repeat split; [exact T|constructor].
    + subst y. inversion F as [|? ? F1 F2]; subst. destruct (IH l1 El F2) as (a & b & -> & _ & Fa). exists (x :: a), b. repeat split; [exact T|constructor; assumption].
Qed.
Lemma entry_later : forall v w w' new op o r n, l_meta w' = l_meta w ++ new -> l_files w' = l_files w -> Forall (fun x => l_teq v (mt_oid x) (ob_oid o) = false) new ->
  entry v w' op o r n -> entry v w op o r n.
Proof.
  intros v w w' new op o r n Em Ef Hn H. assert (N : no_object_row v w' (ob_oid o) -> no_object_row v w (ob_oid o)).
  { unfold no_object_row. rewrite Em. intros K. apply Forall_app in K. apply K. }
  inversion H as [m R P|m U R P|U R|U R]; subst.
  - apply entry_here; [eapply row_later; eassumption|eapply present_files; eassumption].
  - apply entry_again; [reflexivity|eapply row_later; eassumption|]. intros K. apply P. eapply present_files; [|exact K]. symmetry. exact Ef.
  - apply entry_new; [reflexivity|apply N, R].
  - apply entry_missing; [exact U|]. destruct R as [R|(m & R & P)]; [left; apply N, R|right]. exists m. split; [eapply row_later; eassumption|].
    intros K. apply P. eapply present_files; [|exact K]. symmetry. exact Ef.
Qed.
Theorem C68_entries : forall v w op objs, lenv_ok v -> l_fails w = [] -> key_insert_ok v = true -> (forall m, In m (l_meta w) -> id_word (mt_oid m)) ->
  Forall object_ok objs -> ForallOrdPairs (apart v) objs ->
  exists entries new, lfs_process_batch v (Some (op, objs)) w =
      (mkLfs (l_locks w) (l_meta w ++ concat new) (l_files w) (l_fails w), Ok (ROk 200 (BBatch entries))) /\
    length entries = length objs /\ length new = length objs /\
    forall i o, nth_error objs i = Some o -> exists r n, nth_error entries i = Some r /\ nth_error new i = Some n /\ entry v w op o r n.
Proof.
  intros v w op objs V F K G Ho Hp.
  assert (X : exists entries new, batch_objects v op objs w = (mkLfs (l_locks w) (l_meta w ++ concat new) (l_files w) (l_fails w), Ok entries) /\
    length entries = length objs /\ length new = length objs /\
    forall i o, nth_error objs i = Some o -> exists r n, nth_error entries i = Some r /\ nth_error new i = Some n /\ entry v w op o r n).
  { revert w F G Ho. induction Hp as [|o objs Hd Hp IH]; intros w F G Ho.
    - exists [], []. split; [cbn [concat batch_objects]; rewrite app_nil_r; destruct w; reflexivity|]. repeat split. intros [|i] x E; discriminate.
    - inversion Ho as [|? ? O1 O2]; subst. destruct (batch_one v op o w F K G O1) as (r & n & En & Eb). set (w1 := mkLfs (l_locks w) (l_meta w ++ n) (l_files w) (l_fails w)) in *.
      assert (Nn : forall x, In x n -> mt_oid x = ob_oid o).
      { inversion En; subst; intros x Hx; try contradiction. destruct Hx as [<-|[]]. reflexivity. }
      destruct (IH w1 F) as (es & ns & Er & L1 & L2 & I1).
      + intros m Hm. apply in_app_or in Hm as [Hm|Hm]; [apply G, Hm|]. rewrite (Nn m Hm). apply O1.
      + exact O2.
      + exists (r :: es), (n :: ns). split; [|split; [cbn [length]; congruence|split; [cbn [length]; congruence|]]].
        * cbn [batch_objects]. rewrite (lbind_ok _ _ _ _ _ _ _ Eb). rewrite (lbind_ok _ _ _ _ _ _ _ Er). cbn [w1 l_locks l_meta l_files l_fails concat]. rewrite <- app_assoc. reflexivity.
        * intros [|i] x E; cbn [nth_error] in *; [injection E as <-; exists r, n; repeat split; exact En|].
          destruct (I1 i x E) as (r' & n' & E1 & E2 & E3). exists r', n'. split; [exact E1|]. split; [exact E2|].
          eapply (entry_later v w w1 n); [reflexivity|reflexivity| |exact E3]. rewrite Forall_forall. intros y Hy. rewrite (Nn y Hy).
          rewrite Forall_forall in Hd. apply Hd. eapply nth_error_In. exact E. }
  destruct X as (es & ns & E & R). exists es, ns. split; [|exact R]. unfold lfs_process_batch. rewrite (lbind_ok _ _ _ _ w w (op, objs) eq_refl). rewrite (lbind_ok _ _ _ _ _ _ _ E). reflexivity.
Qed.
(** Without user and repository in the request the links lead to the object. *)
Theorem C68_links : forall host oid service q, host <> [] -> (forall a, host <> a ++ [47]) -> id_word oid ->
  object_link [] [] host oid = host ++ bs "/objects/" ++ oid /\
  gateway MGet (bs "/objects/" ++ oid) service q = Ok (ADownload oid) /\ gateway MPut (bs "/objects/" ++ oid) service q = Ok (AUpload oid).
Proof.
  intros host oid service q H1 H2 Ho. assert (R : rooted (bs "/objects/" ++ oid)) by (eexists; split; [reflexivity|discriminate]).
  assert (Nm : names_object (bs "/objects/" ++ oid) oid) by (split; [exact Ho|exists []; reflexivity]).
  split; [|split; [apply (C71_get _ _ _ _ R); apply get_object, Nm|apply (C71_put _ service q _ R); apply put_object, Nm]].
  unfold object_link. assert (E : path_join [] host = host). { unfold path_join. destruct host as [|c host]; [contradiction|]. cbn [rev app]. destruct c as [|p]; [reflexivity|]. do 6 (try (destruct p as [p|p|]; try reflexivity)). }
  rewrite E. assert (J : forall a b, a <> [] -> (forall x, a <> x ++ [47]) -> (forall x, b <> 47 :: x) -> path_join a b = a ++ [47] ++ b).
  { clear. intros a b Ha Hs Hb. unfold path_join. assert (K : match rev a with | [] | 47 :: _ => a ++ b | _ => a ++ [47] ++ b end = a ++ [47] ++ b).
    { destruct (rev a) as [|c r] eqn:Er; [exfalso; apply Ha; apply (f_equal (@rev N)) in Er; rewrite rev_involutive in Er; exact Er|].
      destruct (N.eq_dec c 47) as [->|Nc]; [exfalso; apply (f_equal (@rev N)) in Er; rewrite rev_involutive in Er; apply (Hs (rev r)); exact Er|].
      destruct c as [|p]; [reflexivity|]. do 6 (try (destruct p as [p|p|]; try reflexivity; try congruence)). }
    destruct b as [|c b]; [exact K|]. destruct (N.eq_dec c 47) as [->|Nc]; [contradiction (Hb b eq_refl)|]. destruct c as [|p]; [exact K|]. do 6 (try (destruct p as [p|p|]; try exact K; try congruence)). }
  rewrite (J host (bs "objects")); [|exact H1|exact H2|intros x; discriminate].
  rewrite J; [rewrite <- !app_assoc; reflexivity| | |].
  - destruct host; [contradiction|discriminate].
  - intros x Ex. apply (f_equal (@rev N)) in Ex. rewrite !rev_app_distr in Ex. discriminate.
  - intros x Ex. destruct Ho as [_ Ho]. subst oid. discriminate.
Qed.
Definition oid2 : bytes := hex_encode (sha256 (bs "other")).
Definition ex_objs : list object_request := [mkObj oid1 4 [] []; mkObj oid2 5 [] []].
Lemma oid2_word : id_word oid2.
Proof. apply hex_word. Qed.
Example C68_ex : lenv_ok ex_lenv /\ l_fails ex_start = [] /\ key_insert_ok ex_lenv = true /\ Forall object_ok ex_objs /\ ForallOrdPairs (apart ex_lenv) ex_objs.
Proof.
  split; [exact ex_lenv_ok|]. split; [reflexivity|]. split; [reflexivity|]. split.
  - apply Forall_cons; [split; [exact oid1_word|split; [vm_compute; discriminate|split; discriminate]]|].
    apply Forall_cons; [split; [exact oid2_word|split; [vm_compute; discriminate|split; discriminate]]|apply Forall_nil].
  - apply FOP_cons; [|apply FOP_cons; [apply Forall_nil|apply FOP_nil]]. apply Forall_cons; [|apply Forall_nil]. vm_compute. reflexivity.
Qed.
(** An object of 2^31 bytes ends the request. *)
Theorem C68_large : forall v w op o l, l_fails w = [] -> op = bs "upload" -> no_object_row v w (ob_oid o) -> (2147483647 < ob_size o)%Z ->
  lfs_process_batch v (Some (op, o :: l)) w = (w, Panic).
Proof.
  intros v w op o l F -> R S. unfold lfs_process_batch. rewrite (lbind_ok _ _ _ _ w w (bs "upload", o :: l) eq_refl). cbn [batch_objects]. unfold batch_object, lfs_get_meta.
  destruct (find_meta_any v (ob_oid o) w) as (w4 & _ & _ & Q). destruct (Q F) as [_ Q2]. clear Q w4. pose proof (find_row v w (ob_oid o)) as Hr.
  destruct (find _ (l_meta w)) as [m|] eqn:Fm. { apply find_some in Fm as [Hm Ht]. unfold no_object_row in R. rewrite Forall_forall in R. rewrite (R m Hm) in Ht. discriminate. }
  assert (E : lunwrap (lfs_put_meta v (ob_oid o) (ob_size o)) w = (w, Panic)).
  { unfold lunwrap, lfs_put_meta. rewrite (lbind_ok _ _ _ _ _ _ _ Q2). unfold inserted, exec_meta, lattempt, lbind. rewrite F. cbv beta iota zeta. unfold insert_meta. cbn [mt_oid mt_size].
    replace (int_ok (ob_size o)) with false by (symmetry; apply andb_false_iff; right; apply Z.leb_gt; lia). rewrite andb_false_r. cbn [andb]. reflexivity. }
  assert (E2 : batch_object v (bs "upload") o w = (w, Panic)).
  { unfold batch_object, lfs_get_meta. rewrite (lbind_ok _ _ _ _ _ _ _ Q2). rewrite (lbind_ok _ _ (lret false) _ w w false eq_refl). rewrite beq_refl. unfold lbind. rewrite E. reflexivity. }
  unfold batch_object, lfs_get_meta in E2. unfold lbind at 1 2. rewrite E2. reflexivity.
Qed.
Theorem C68_refuted : exists v w op objs, lenv_ok v /\ l_fails w = [] /\ key_insert_ok v = true /\ Forall (fun o => id_word (ob_oid o)) objs /\
  ForallOrdPairs (apart v) objs /\ snd (lfs_process_batch v (Some (op, objs)) w) = Panic.
Proof.
  exists ex_lenv, ex_start, (bs "upload"), [mkObj oid1 2147483648 [] []]. split; [exact ex_lenv_ok|]. split; [reflexivity|]. split; [reflexivity|].
  split; [apply Forall_cons; [exact oid1_word|apply Forall_nil]|]. split; [apply FOP_cons; [apply Forall_nil|apply FOP_nil]|vm_compute; reflexivity].
Qed.
(** With a user or a repository the link is not one of this server. *)
Theorem C68_links_refuted : exists host user repo oid, id_word oid /\ object_link user repo host oid = bs "me/app/http://localhost:8000/objects/00ff".
Proof. exists (bs "http://localhost:8000"), (bs "me"), (bs "app"), (bs "00ff"). split; [split; [discriminate|reflexivity]|vm_compute; reflexivity]. Qed.
(** When sea-orm cannot tell the key of the row, the first batch for an object fails and
    the row stays. *)
Theorem C68_key_insert : forall v w o l, l_fails w = [] -> key_insert_ok v = false -> object_ok o -> no_object_row v w (ob_oid o) ->
  lfs_process_batch v (Some (bs "upload", o :: l)) w =
    (mkLfs (l_locks w) (l_meta w ++ [mkMeta (ob_oid o) (ob_size o) true]) (l_files w) (l_fails w), Panic).
Proof.
  intros v w o l F K (Hw & Hl & Hs) R. unfold lfs_process_batch. rewrite (lbind_ok _ _ _ _ w w (bs "upload", o :: l) eq_refl). cbn [batch_objects].
  destruct (find_meta_any v (ob_oid o) w) as (w4 & _ & _ & Q). destruct (Q F) as [_ Q2]. clear Q w4.
  destruct (find _ (l_meta w)) as [m|] eqn:Fm. { apply find_some in Fm as [Hm Ht]. unfold no_object_row in R. rewrite Forall_forall in R. rewrite (R m Hm) in Ht. discriminate. }
  set (w1 := mkLfs (l_locks w) (l_meta w ++ [mkMeta (ob_oid o) (ob_size o) true]) (l_files w) (l_fails w)).
  assert (E : lunwrap (lfs_put_meta v (ob_oid o) (ob_size o)) w = (w1, Panic)).
  { unfold lunwrap, lfs_put_meta. rewrite (lbind_ok _ _ _ _ _ _ _ Q2). unfold inserted, exec_meta, lattempt, lbind. rewrite F. cbv beta iota zeta. unfold insert_meta. cbn [mt_oid mt_size].
    rewrite nlen_chars by assumption. replace (int_ok (ob_size o)) with true by (symmetry; apply andb_true_iff; split; apply Z.leb_le; lia).
    replace (existsb _ (l_meta w)) with false; [unfold lret; cbn [andb negb fst snd]; rewrite K; cbn [andb]; unfold w1; rewrite ?F; reflexivity|]. symmetry. apply Bool.not_true_iff_false. intros X.
    apply existsb_exists in X as (x & Hx & Ex). unfold no_object_row in R. rewrite Forall_forall in R. rewrite (R x Hx) in Ex. discriminate. }
  assert (E2 : batch_object v (bs "upload") o w = (w1, Panic)).
  { unfold batch_object, lfs_get_meta. rewrite (lbind_ok _ _ _ _ _ _ _ Q2). rewrite (lbind_ok _ _ (lret false) _ w w false eq_refl). rewrite beq_refl. unfold lbind. rewrite E. reflexivity. }
  unfold lbind at 1 2. rewrite E2. reflexivity.
Qed.

(** ** C79: batches and files outside *)

(** Batches with ids as the routes take them depend only on files below the content
    directory. *)
Definition inside (v : lenv) (p : list bytes) : bool := is_prefix (resolve (l_base v)) p.
Lemma is_prefix_refl : forall a r, is_prefix a (a ++ r) = true.
Proof. induction a as [|x a IH]; intros r; [reflexivity|]. cbn [app is_prefix]. rewrite beq_refl. apply IH. Qed.
Lemma get_inside : forall v f p, inside v p = true -> fs_get (filter (fun x => inside v (fst x)) f) p = fs_get f p.
Proof.
  intros v f p H. induction f as [|[q c] f IH]; [reflexivity|]. cbn [filter fst fs_get]. destruct (inside v q) eqn:E.
  - cbn [fs_get]. rewrite IH. reflexivity.
  - rewrite IH. replace (path_eqb q p) with false; [reflexivity|]. symmetry. apply path_eqb_neq. intros ->. congruence.
Qed.
Lemma dir_inside : forall v f p, inside v p = true -> is_dir v (filter (fun x => inside v (fst x)) f) p = is_dir v f p.
Proof.
  intros v f p H. unfold is_dir. f_equal. induction f as [|[q c] f IH]; [reflexivity|]. cbn [filter fst existsb]. destruct (inside v q) eqn:E.
  - cbn [existsb]. rewrite IH. reflexivity.
  - rewrite IH. replace (is_prefix p q) with false; [reflexivity|]. symmetry. apply Bool.not_true_iff_false. intros K. apply is_prefix_app in K as (r & ->). unfold inside in *.
    apply is_prefix_app in H as (r' & ->). rewrite <- app_assoc, is_prefix_refl in E. discriminate.
Qed.
Definition like (v : lenv) (a b : lfs) : Prop := l_meta b = l_meta a /\ l_fails b = l_fails a /\
  filter (fun x => inside v (fst x)) (l_files b) = filter (fun x => inside v (fst x)) (l_files a).
Definition same (v : lenv) (A : Type) (m : L A) : Prop := forall a b, (forall x, In x (l_meta a) -> id_word (mt_oid x)) -> like v a b ->
  snd (m b) = snd (m a) /\ like v (fst (m a)) (fst (m b)) /\ forall x, In x (l_meta (fst (m a))) -> id_word (mt_oid x).
Theorem C79_inside : forall v op objs w w' w1 r, Forall (fun o => id_word (ob_oid o)) objs -> (forall m, In m (l_meta w) -> id_word (mt_oid m)) ->
  l_meta w' = l_meta w -> l_fails w' = l_fails w -> filter (fun x => inside v (fst x)) (l_files w') = filter (fun x => inside v (fst x)) (l_files w) ->
  lfs_process_batch v (Some (op, objs)) w = (w1, r) ->
  exists w1', lfs_process_batch v (Some (op, objs)) w' = (w1', r) /\ l_meta w1' = l_meta w1.
Proof.
  intros v op objs w w' w1 r Ho G Em Ef Ei E.
  assert (Sr : forall A (x : res A), same v A (llift x)) by (intros A x a b Ha Hb; split; [reflexivity|split; [exact Hb|exact Ha]]).
  assert (Sb : forall A B (m : L A) (k : A -> L B), same v A m -> (forall x, same v B (k x)) -> same v B (lbind m k)).
  { intros A B m k Hm Hk a b Ha Hb. destruct (Hm a b Ha Hb) as (E1 & E2 & E3). unfold lbind. destruct (m a) as [a1 ra], (m b) as [b1 rb]. cbn [fst snd] in *. subst rb.
    destruct ra as [x|x| |]; [apply (Hk x a1 b1 E3 E2)|auto|auto|auto]. }
  assert (Sa : same v bool lattempt).
  { intros a b Ha Hb. unfold lattempt. pose proof Hb as (L1 & L2 & L3). rewrite L2. destruct (l_fails a); (split; [reflexivity|]); (split; [|exact Ha]); [exact Hb|]. split; [exact L1|]. split; [reflexivity|exact L3]. }
  assert (Sf : forall k, same v _ (find_meta_row v k)).
  { intros k. unfold find_meta_row. apply Sb; [exact Sa|]. intros [|]; [|apply Sr]. intros a b Ha Hb. pose proof Hb as (L1 & L2 & L3). cbn [fst snd]. rewrite L1. split; [reflexivity|]. split; [exact Hb|exact Ha]. }
  assert (So : forall o, id_word (ob_oid o) -> same v _ (batch_object v op o)).
  { intros o Hw a b Ha Hb.
    assert (S2 : same v _ (if beq op (bs "upload") then do! x := lunwrap (lfs_put_meta v (ob_oid o) (ob_size o)) in lret (represent v o x (bs "upload"))
        else lret (mkRepr (ob_oid o) (ob_size o) None None (Some (404, bs "Not found"))))).
    { destruct (beq op (bs "upload")); [|apply Sr]. apply Sb; [|intros; apply Sr]. assert (Su : same v _ (lfs_put_meta v (ob_oid o) (ob_size o))).
      { unfold lfs_put_meta. apply Sb; [apply Sf|]. intros [x|]; [apply Sr|]. apply Sb; [|intros [|]; apply Sr]. unfold inserted. apply Sb; [|intros; apply Sr].
        unfold exec_meta. apply Sb; [exact Sa|]. intros [|]; [|apply Sr]. intros c d Hc Hd. pose proof Hd as (L1 & L2 & L3). rewrite L1. unfold insert_meta. destruct (_ && _ && _); cbn [fst snd].
        - split; [reflexivity|]. split; [split; [reflexivity|split; assumption]|]. intros x Hx. cbn [l_meta] in Hx. apply in_app_or in Hx as [Hx|[<-|[]]]; [apply Hc, Hx|exact Hw].
        - split; [reflexivity|]. split; [exact Hd|exact Hc]. }
      intros c d Hc Hd. destruct (Su c d Hc Hd) as (E1 & E2 & E3). unfold lunwrap. destruct (lfs_put_meta v (ob_oid o) (ob_size o) c), (lfs_put_meta v (ob_oid o) (ob_size o) d).
      cbn [fst snd] in *. subst. auto. }
    unfold batch_object, lfs_get_meta. destruct (Sf (ob_oid o) a b Ha Hb) as (E1 & E2 & E3).
    destruct (find_meta_any v (ob_oid o) a) as (a1 & A & Fa & _). destruct (find_meta_any v (ob_oid o) b) as (b1 & B & Fb & _).
    rewrite (proj1 Hb) in Fb. destruct Fa as [Fa|Fa]; rewrite Fa in E1, E2, E3; destruct Fb as [Fb|Fb]; rewrite Fb in E1, E2; cbn [fst snd] in *; try discriminate;
      [unfold lbind; rewrite Fa, Fb; cbn [fst snd]; auto|]. rewrite (lbind_ok _ _ _ _ _ _ _ Fa), (lbind_ok _ _ _ _ _ _ _ Fb).
    destruct (find (fun x => l_teq v (mt_oid x) (ob_oid o)) (l_meta a)) as [m|] eqn:Fm.
    - apply find_some in Fm as [Hm _]. assert (X : exists h, store_exist v (mt_oid m) a1 = (a1, Ok h) /\ store_exist v (mt_oid m) b1 = (b1, Ok h)).
      { unfold store_exist. rewrite store_path_word by apply Ha, Hm. cbn [bind]. set (p := _ ++ _). assert (Ip : inside v p = true) by apply is_prefix_refl.
        rewrite <- (dir_inside v (l_files b1)), <- (dir_inside v (l_files a1)), <- (get_inside v (l_files b1)), <- (get_inside v (l_files a1)) by exact Ip.
        destruct E2 as (_ & _ & ->). eexists. split; reflexivity. }
      destruct X as (h & X1 & X2). rewrite (lbind_ok _ _ _ _ _ _ _ X1), (lbind_ok _ _ _ _ _ _ _ X2). destruct h; [apply Sr; assumption|]. apply S2; assumption.
    - apply S2; assumption. }
  assert (Sl : same v _ (batch_objects v op objs)).
  { clear E. induction Ho as [|o l Hw _ IH]; [apply Sr|]. cbn [batch_objects]. apply Sb; [apply So, Hw|]. intros x. apply Sb; [exact IH|intros; apply Sr]. }
  destruct (Sl w w' G (conj Em (conj Ef Ei))) as (E1 & E2 & _).
  unfold lfs_process_batch in *. unfold llift, lbind in *. cbn [unwrap_opt] in *.
  destruct (batch_objects v op objs w) as [a ra], (batch_objects v op objs w') as [b rb]. cbn [fst snd] in *. subst rb.
  destruct ra; injection E as <- <-; eexists; (split; [reflexivity|apply E2]).
Qed.
Theorem C79_refuted : exists v w op oid, lenv_ok v /\ no_object_row v w oid /\
  let batch := lfs_process_batch v (Some (op, [mkObj oid 1 [] []])) in
  let twice f := snd (batch (mkLfs [] (l_meta (fst (batch w))) f [])) in
  exists p d, inside v p = false /\ twice [(p, d)] <> twice [].
Proof.
  exists ex_lenv, ex_start, (bs "upload"), (bs "aabb/etc/passwd"). split; [exact ex_lenv_ok|]. split; [constructor|]. cbv zeta.
  exists [[47]; bs "etc"; bs "passwd"], (bs "root"). split; [vm_compute; reflexivity|]. intros E.
  apply (f_equal (fun r => match r with Ok (ROk _ (BBatch [x])) => match rp_action x with Some (a, _) => beq a (bs "download") | None => false end | _ => false end)) in E.
  vm_compute in E. discriminate.
Qed.
Example C79_ex : Forall (fun o => id_word (ob_oid o)) ex_objs /\ filter (fun x => inside ex_lenv (fst x)) [([[47]; bs "etc"; bs "passwd"], bs "root")] = [] /\
  snd (lfs_process_batch ex_lenv (Some (bs "download", ex_objs)) ex_start) <> Panic.
Proof.
  split; [apply Forall_cons; [exact oid1_word|]; apply Forall_cons; [exact oid2_word|apply Forall_nil]|]. split; [vm_compute; reflexivity|]. intros E.
  apply (f_equal (fun r => match r with Ok _ => true | _ => false end)) in E. vm_compute in E. discriminate.
Qed.

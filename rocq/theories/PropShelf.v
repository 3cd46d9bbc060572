(** The content API, as events and over HTTP, is the shelf (C131). *)

From Coq Require Import ZArith.
From Verif Require Import Base BaseLemmas Digest ModelUtils ModelObject ModelPkt ModelStorage ModelProto ModelLfs ModelJson ModelGateway ModelHttp SpecObject SpecBase SpecJson SpecReply SpecLfs SpecPath
  SpecGateway SpecHttp SpecWire SpecShelf ProofUtf8 ProofObject ProofPath ProofGateway ProofLfs ProofContent ProofWrite ProofReply ProofHttp ProofFields ProofExample StoredZlib
  PropGateway PropProto PropServer PropService PropLocks PropContent PropSerde PropHttp PropAnswer PropWire.
Open Scope N_scope.
Notation alike := SpecShelf.alike.

(** ** Places *)

Definition place (v : lenv) (k : bytes) : list bytes := resolve (l_base v) ++ id_parts k.
(** Neither the content directory, nor on the way to it, nor in it. *)
Definition foreign (v : lenv) (p : list bytes) : Prop := (forall r, resolve (l_base v) <> p ++ r) /\ forall r, p <> resolve (l_base v) ++ r.
Definition placed (v : lenv) (f : fs) : Prop := Forall (fun x => foreign v (fst x) \/ exists k, proper k /\ fst x = place v k) f.

Lemma place_parts : forall v k, id_word k -> store_path v k = Ok (place v k).
Proof. intros v k H. apply store_path_word, H. Qed.
Lemma place_inj : forall v a b, place v a = place v b -> a = b.
Proof. intros v a b E. apply app_inv_head in E. rewrite <- (id_parts_concat a), <- (id_parts_concat b). congruence. Qed.
Lemma proper_len : forall k, proper k -> 5 <= nlen k /\ nlen k <= 100.
Proof. intros k [_ L]. unfold nlen. lia. Qed.
Lemma place_nest : forall v a b, proper a -> proper b -> is_prefix (place v a) (place v b) = true -> a = b.
Proof.
  intros v a b Ha Hb. apply (C67_no_nesting v a b); [exact (proj1 Ha)|exact (proj1 Hb)|apply proper_len, Ha|apply proper_len, Hb|apply place_parts, Ha|apply place_parts, Hb].
Qed.
Lemma app_compare : forall (A : Type) (a b r s : list A), a ++ r = b ++ s -> (exists t, a = b ++ t) \/ exists t, b = a ++ t.
Proof.
  intros A. induction a as [|x a IH]; intros b r s E; [right; exists b; reflexivity|]. destruct b as [|y b]; [left; exists (x :: a); reflexivity|].
  cbn [app] in E. injection E as -> E. destruct (IH b r s E) as [(t & ->)|(t & ->)]; [left|right]; exists t; reflexivity.
Qed.
Lemma place_no_dir : forall v f k, proper k -> placed v f -> is_dir v f (place v k) = false.
Proof.
  intros v f k Hk Pf. unfold is_dir. apply orb_false_iff. split.
  - apply Bool.not_true_iff_false. intros H. apply is_prefix_app in H as (r & E). unfold place in E. apply (f_equal (@length _)) in E. rewrite !app_length in E.
    unfold id_parts in E. destruct (_ <? _); cbn [length] in E; lia.
  - apply Bool.not_true_iff_false. intros H. apply existsb_exists in H as (x & Hx & H). apply andb_true_iff in H as [H1 H2]. unfold placed in Pf. rewrite Forall_forall in Pf.
    apply negb_true_iff, path_eqb_neq in H2. destruct (Pf x Hx) as [[_ F]|(j & Hj & Ej)].
    + apply is_prefix_app in H1 as (r & E). unfold place in E. rewrite <- app_assoc in E. exact (F _ E).
    + rewrite Ej in *. apply H2. f_equal. exact (place_nest v k j Hk Hj H1).
Qed.
Lemma place_way : forall v f k, proper k -> placed v f -> existsb (fun x => is_prefix (fst x) (place v k) && negb (path_eqb (place v k) (fst x))) f = false.
Proof.
  intros v f k Hk Pf. apply Bool.not_true_iff_false. intros H. apply existsb_exists in H as (x & Hx & H). apply andb_true_iff in H as [H1 H2]. unfold placed in Pf. rewrite Forall_forall in Pf.
  apply negb_true_iff, path_eqb_neq in H2. destruct (Pf x Hx) as [[F1 F2]|(j & Hj & Ej)].
  - apply is_prefix_app in H1 as (r & E). unfold place in E. symmetry in E. apply app_compare in E as [(t & E)|(t & E)]; [exact (F2 _ E)|exact (F1 _ E)].
  - rewrite Ej in *. apply H2. f_equal. symmetry. exact (place_nest v j k Hj Hk H1).
Qed.
Lemma placed_put : forall v f k d, proper k -> placed v f -> placed v (fs_put f (place v k) d).
Proof.
  intros v f k d Hk Pf. unfold placed, fs_put. constructor; [right; exists k; split; [exact Hk|reflexivity]|].
  unfold placed in Pf. rewrite Forall_forall in *. intros x Hx. apply Pf. apply filter_In in Hx. apply Hx.
Qed.

(** ** Rows *)

Definition size_of (l : list meta_row) (k : bytes) : option Z := option_map mt_size (find (fun r => beq (mt_oid r) k) l).
Section Shelf.
Context (v : lenv).
Definition link_of (o : object_request) : bytes := object_link (ob_user o) (ob_repo o) (l_url v) (ob_oid o).
(** What the server needs: contents are written whole and may be opened, sea-orm reports
    rows that it inserted. *)
Definition serves : Prop :=
  lenv_ok v /\ ids_differ v /\ key_insert_ok v = true /\ (forall b, (length b <= write_len v b)%nat) /\
  forall k p, proper k -> store_path v k = Ok p -> can_open v p = true.
Definition shelved (w : lfs) (s : shelf) : Prop :=
  l_fails w = [] /\ Forall (fun m => proper (mt_oid m)) (l_meta w) /\ placed v (l_files w) /\
  (forall k, announced s k = size_of (l_meta w) k) /\ forall k, proper k -> filed s k = fs_get (l_files w) (place v k).

Lemma teq_word : forall a b, lenv_ok v -> ids_differ v -> id_word a -> id_word b -> l_teq v a b = beq a b.
Proof.
  intros a b Hv Df Ha Hb. destruct (beq a b) eqn:E; [apply beq_eq in E; subst b; apply (proj1 Hv)|]. apply Bool.not_true_iff_false. intros T. apply beq_neq in E. apply E, Df; assumption.
Qed.
Lemma find_word : forall l k, lenv_ok v -> ids_differ v -> Forall (fun m => proper (mt_oid m)) l -> id_word k ->
  find (fun r => l_teq v (mt_oid r) k) l = find (fun r => beq (mt_oid r) k) l.
Proof.
  intros l k Hv Df Hl Hk. induction Hl as [|m l [Hm _] Hl IH]; [reflexivity|]. cbn [find]. rewrite (teq_word _ _ Hv Df Hm Hk), IH. reflexivity.
Qed.
Lemma find_quiet : forall k w, l_fails w = [] -> find_meta_row v k w = (w, Ok (find (fun r => l_teq v (mt_oid r) k) (l_meta w))).
Proof. intros k w F. destruct (find_meta_any v k w) as (w' & _ & _ & Q). apply (Q F). Qed.
Lemma size_row : forall l k z, size_of l k = Some z -> exists m, find (fun r => beq (mt_oid r) k) l = Some m /\ In m l /\ mt_oid m = k /\ mt_size m = z.
Proof.
  intros l k z H. unfold size_of in H. destruct (find _ l) as [m|] eqn:F; [|discriminate]. injection H as <-. exists m. pose proof (find_some _ _ F) as [Hm E]. apply beq_eq in E. auto.
Qed.
Lemma size_none : forall l k, size_of l k = None -> find (fun r => beq (mt_oid r) k) l = None.
Proof. intros l k H. unfold size_of in H. destruct (find _ l); [discriminate|reflexivity]. Qed.
Lemma size_add : forall l k z e, size_of l k = None -> forall x, size_of (l ++ [mkMeta k z e]) x = if beq x k then Some z else size_of l x.
Proof.
  intros l k z e H x. unfold size_of in *. induction l as [|m l IH]; cbn [app find].
  - cbn [mt_oid]. destruct (beq x k) eqn:E; [apply beq_eq in E; subst x; rewrite beq_refl; reflexivity|].
    apply beq_neq in E. replace (beq k x) with false by (symmetry; apply beq_neq; congruence). reflexivity.
  - cbn [find] in H. destruct (beq (mt_oid m) k) eqn:Em; [discriminate|]. destruct (beq (mt_oid m) x) eqn:Ex; [|exact (IH H)].
    apply beq_eq in Ex. subst x. rewrite Em. reflexivity.
Qed.
Lemma size_drop : forall l k x, size_of (filter (fun r => negb (beq (mt_oid r) k)) l) x = if beq x k then None else size_of l x.
Proof.
  intros l k x. unfold size_of. induction l as [|m l IH]; cbn [filter find]; [destruct (beq x k); reflexivity|].
  destruct (beq (mt_oid m) k) eqn:E; cbn [negb].
  - rewrite IH. apply beq_eq in E. destruct (beq x k) eqn:Ex; [reflexivity|]. rewrite E. apply beq_neq in Ex. replace (beq k x) with false by (symmetry; apply beq_neq; congruence). reflexivity.
  - cbn [find]. destruct (beq (mt_oid m) x) eqn:Ex; [|exact IH]. apply beq_eq in Ex. subst x. rewrite E. reflexivity.
Qed.
Lemma filter_word : forall l k, lenv_ok v -> ids_differ v -> Forall (fun m => proper (mt_oid m)) l -> id_word k ->
  filter (fun r => negb (l_teq v (mt_oid r) k)) l = filter (fun r => negb (beq (mt_oid r) k)) l.
Proof.
  intros l k Hv Df Hl Hk. induction Hl as [|m l [Hm _] Hl IH]; [reflexivity|]. cbn [filter]. rewrite (teq_word _ _ Hv Df Hm Hk), IH. reflexivity.
Qed.

(** ** Lock requests *)

Definition off (w w' : lfs) : Prop := l_meta w' = l_meta w /\ l_files w' = l_files w /\ (l_fails w = [] -> l_fails w' = []).
Definition leaves {A} (m : L A) : Prop := forall w, off w (fst (m w)).
Lemma leaves_ret : forall A (r : res A), leaves (llift r).
Proof. intros A r w. repeat split. exact (fun H => H). Qed.
Lemma leaves_bind : forall A B (m : L A) (k : A -> L B), leaves m -> (forall a, leaves (k a)) -> leaves (lbind m k).
Proof.
  intros A B m k H1 H2 w. unfold lbind. specialize (H1 w). destruct (m w) as [w1 [a| | |]]; cbn [fst] in *; try exact H1. specialize (H2 a w1).
  destruct H1 as (A1 & A2 & A3), H2 as (B1 & B2 & B3). split; [congruence|]. split; [congruence|auto].
Qed.
Lemma leaves_try : forall A (m : L A), leaves m -> leaves (ltry m).
Proof. intros A m H w. unfold ltry. specialize (H w). destruct (m w) as [w1 [a| | |]]; exact H. Qed.
Lemma leaves_attempt : leaves lattempt.
Proof. intros w. unfold lattempt. destruct (l_fails w) eqn:E; repeat split; [auto|cbn [fst]; rewrite E; discriminate]. Qed.
Lemma leaves_find : forall k, leaves (find_lock_row v k).
Proof. intros k. unfold find_lock_row. apply leaves_bind; [exact leaves_attempt|]. intros [|]; [intros w; repeat split; exact (fun H => H)|apply leaves_ret]. Qed.
Lemma leaves_exec : forall f, leaves (exec_locks f).
Proof.
  intros f. unfold exec_locks. apply leaves_bind; [exact leaves_attempt|]. intros [|]; [|apply leaves_ret]. intros w. destruct (f (l_locks w)); repeat split; exact (fun H => H).
Qed.
Lemma leaves_filtered : forall r p c l, leaves (lfs_get_filtered_locks v r p c l).
Proof.
  intros. unfold lfs_get_filtered_locks. apply leaves_bind; [|intros; apply leaves_ret]. unfold lfs_get_locks. apply leaves_bind; [apply leaves_find|].
  intros [[k d]|]; [|apply leaves_ret]. apply leaves_bind; intros; apply leaves_ret.
Qed.
Lemma leaves_updated : forall f, leaves (updated (exec_locks f)).
Proof. intros f. unfold updated. apply leaves_bind; [apply leaves_exec|]. intros [|]; [exact leaves_attempt|apply leaves_ret]. Qed.
Lemma lock_leaves : forall x, ~ content_event x -> leaves (lfs_handle v x).
Proof.
  intros [q|b|b id now|id b|b|o d|o] N; cbn [lfs_handle]; try (destruct N; exact Logic.I).
  - apply leaves_bind; [apply leaves_try, leaves_filtered|]. intros [[l n]|]; apply leaves_ret.
  - apply leaves_bind; [apply leaves_ret|]. intros rq. cbv zeta. apply leaves_bind; [apply leaves_try, leaves_filtered|]. intros [[l n]|]; apply leaves_ret.
  - unfold lfs_create_lock. apply leaves_bind; [apply leaves_ret|]. intros rq. apply leaves_bind.
    + unfold create_check. apply leaves_bind; [apply leaves_try, leaves_filtered|]. intros [[[|x l] n]|]; apply leaves_ret.
    + intros [r|]; [apply leaves_ret|]. apply leaves_bind; [apply leaves_find|]. intros row. unfold create_write. cbv zeta. apply leaves_bind.
      * apply leaves_try. unfold add_lock_write. apply leaves_bind; [|intros [|]; apply leaves_ret]. destruct row as [[k d]|].
        -- apply leaves_bind; [apply leaves_ret|intros; apply leaves_updated].
        -- unfold inserted. apply leaves_bind; [apply leaves_exec|intros; apply leaves_ret].
      * intros [u|]; apply leaves_ret.
  - unfold lfs_delete. destruct id as [|c id]; [apply leaves_ret|]. destruct b as [b|]; [|apply leaves_ret]. apply leaves_bind; [apply leaves_ret|]. intros rq. apply leaves_bind.
    + apply leaves_try. unfold lfs_delete_lock. apply leaves_bind; [apply leaves_find|]. intros [[k d]|]; [|apply leaves_ret]. apply leaves_bind; [apply leaves_ret|].
      intros l. destruct (scan_locks _ _ _ _) as [[x rest]|]; [|apply leaves_ret]. destruct (lk_id x); [apply leaves_ret|]. destruct rest as [|y rest].
      * apply leaves_bind; [apply leaves_exec|]. intros [|]; apply leaves_ret.
      * apply leaves_bind; [apply leaves_updated|]. intros [|]; apply leaves_ret.
    + intros [x|]; [|apply leaves_ret]. destruct (_ && _); apply leaves_ret.
Qed.

(** ** One request *)

Lemma shelved_present : forall w s k, serves -> shelved w s -> proper k ->
  store_exist v k w = (w, Ok match filed s k with Some _ => true | None => false end).
Proof.
  intros w s k (_ & _ & _ & _ & Op) (_ & _ & Pl & _ & Fi) Hk. unfold store_exist. rewrite (place_parts v k (proj1 Hk)). cbn [bind].
  rewrite (Op k _ Hk (place_parts v k (proj1 Hk))), (place_no_dir v _ k Hk Pl), (Fi k Hk). reflexivity.
Qed.
Lemma step_object : forall op o w s, serves -> shelved w s -> proper (ob_oid o) ->
  exists w' s' r, batch_object v op o w = (w', match r with Some x => Ok x | None => Panic end) /\ shelved w' s' /\ take_object link_of op s o s' r.
Proof.
  intros op o w s Sv Sh Hk. pose proof Sv as (Hv & Df & Ki & _ & _). pose proof Sh as (F & Ro & Pl & An & Fi). unfold batch_object, lfs_get_meta.
  rewrite (lbind_ok _ _ _ _ _ _ _ (find_quiet (ob_oid o) w F)), (find_word _ _ Hv Df Ro (proj1 Hk)).
  destruct (announced s (ob_oid o)) as [z|] eqn:Ea; pose proof Ea as Eb; rewrite An in Eb.
  - apply size_row in Eb as (m & Fm & Hm & Em & Ez). rewrite Fm, Em. rewrite (lbind_ok _ _ _ _ _ _ _ (shelved_present w s _ Sv Sh Hk)).
    destruct (filed s (ob_oid o)) as [d|] eqn:Ef.
    + exists w, s. eexists (Some _). split; [reflexivity|]. split; [exact Sh|]. unfold represent. rewrite Em, Ez. exact (take_here _ _ _ _ z d Ea Ef).
    + destruct (beq op (bs "upload")) eqn:Eo.
      * apply beq_eq in Eo. exists w, s. eexists (Some _). split; [|split; [exact Sh|exact (take_awaited _ _ _ _ z Eo Ea Ef)]].
        unfold lbind at 1. unfold lunwrap, lfs_put_meta. rewrite (lbind_ok _ _ _ _ _ _ _ (find_quiet (ob_oid o) w F)), (find_word _ _ Hv Df Ro (proj1 Hk)), Fm.
        cbn [lret unwrap]. unfold represent. cbn [mt_oid mt_size]. rewrite Em, Ez. reflexivity.
      * apply beq_neq in Eo. exists w, s. eexists (Some _). split; [reflexivity|]. split; [exact Sh|]. apply take_missing; [exact Eo|right; exact Ef].
  - apply size_none in Eb. rewrite Eb. rewrite (lbind_ok _ _ (lret false) _ w w false eq_refl). destruct (beq op (bs "upload")) eqn:Eo.
    2:{ apply beq_neq in Eo. exists w, s. eexists (Some _). split; [reflexivity|]. split; [exact Sh|]. apply take_missing; [exact Eo|left; exact Ea]. }
    apply beq_eq in Eo. unfold lbind at 1. unfold lunwrap, lfs_put_meta. rewrite (lbind_ok _ _ _ _ _ _ _ (find_quiet (ob_oid o) w F)), (find_word _ _ Hv Df Ro (proj1 Hk)), Eb.
    unfold inserted, exec_meta, lattempt, lbind. rewrite F. cbv beta iota zeta. unfold insert_meta. cbn [mt_oid mt_size]. rewrite nlen_chars by (apply Hk || apply proper_len, Hk).
    replace (existsb _ (l_meta w)) with false.
    2:{ symmetry. apply Bool.not_true_iff_false. intros X. apply existsb_exists in X as (x & Hx & Ex). rewrite Forall_forall in Ro.
        rewrite (teq_word _ _ Hv Df (proj1 (Ro x Hx)) (proj1 Hk)) in Ex. rewrite (find_none _ _ Eb x Hx) in Ex. discriminate. }
    rewrite andb_true_l, andb_true_r. unfold int_ok. destruct ((-2147483648 <=? ob_size o)%Z && (ob_size o <=? 2147483647)%Z) eqn:Ei.
    + rewrite Ki. set (m := mkMeta (ob_oid o) (ob_size o) true). exists (mkLfs (l_locks w) (l_meta w ++ [m]) (l_files w) (l_fails w)), (mkShelf (fun x => if beq x (ob_oid o) then Some (ob_size o) else announced s x) (filed s)).
      eexists (Some _). split; [reflexivity|]. split.
      * split; [exact F|]. split; [apply Forall_app; split; [exact Ro|constructor; [exact Hk|constructor]]|]. split; [exact Pl|]. split; [|exact Fi].
        intros k. cbn [announced l_meta]. unfold m. rewrite size_add by (unfold size_of; rewrite Eb; reflexivity). rewrite An. reflexivity.
      * apply take_new; [exact Eo|exact Ea| |intros x; reflexivity|intros x; reflexivity]. apply andb_true_iff in Ei as [E1 E2]. apply Z.leb_le in E1, E2. split; assumption.
    + exists w, s, None. split; [reflexivity|]. split; [exact Sh|]. apply take_large; [exact Eo|exact Ea|]. intros [E1 E2]. apply Z.leb_le in E1, E2. rewrite E1, E2 in Ei. discriminate.
Qed.
Lemma step_objects : forall op l w s, serves -> shelved w s -> Forall (fun o => proper (ob_oid o)) l ->
  exists w' s' r, batch_objects v op l w = (w', match r with Some x => Ok x | None => Panic end) /\ shelved w' s' /\ take_objects link_of op s l s' r.
Proof.
  intros op l w s Sv Sh Hl. revert w s Sh. induction Hl as [|o l Ho Hl IH]; intros w s Sh; [exists w, s, (Some []); split; [reflexivity|]; split; [exact Sh|constructor]|].
  destruct (step_object op o w s Sv Sh Ho) as (w1 & s1 & [r|] & E1 & Sh1 & T1); cbn [batch_objects].
  - destruct (IH w1 s1 Sh1) as (w2 & s2 & rs & E2 & Sh2 & T2). exists w2, s2, (option_map (cons r) rs). split; [|split; [exact Sh2|econstructor; eassumption]].
    rewrite (lbind_ok _ _ _ _ _ _ _ E1). unfold lbind. rewrite E2. destruct rs; reflexivity.
  - exists w1, s1, None. split; [unfold lbind; rewrite E1; reflexivity|]. split; [exact Sh1|constructor; exact T1].
Qed.
Lemma right_iff : forall oid z d, Z.eqb (Z.of_nat (length d)) z && beq (hex_encode (sha256 d)) oid = true <-> right_content oid z d.
Proof.
  intros oid z d. rewrite andb_true_iff, Z.eqb_eq, beq_eq. unfold right_content. split; intros [A B]; (split; [congruence|]).
  - rewrite <- B. apply hex_lower.
  - apply content_hex, B.
Qed.
Lemma shelved_put : forall w s k d, shelved w s -> proper k ->
  shelved (mkLfs (l_locks w) (l_meta w) (fs_put (l_files w) (place v k) d) (l_fails w)) (mkShelf (announced s) (fun x => if beq x k then Some d else filed s x)).
Proof.
  intros w s k d (F & Ro & Pl & An & Fi) Hk. split; [exact F|]. split; [exact Ro|]. split; [apply placed_put; assumption|]. split; [exact An|].
  intros x Hx. cbn [filed l_files]. destruct (beq x k) eqn:E; [apply beq_eq in E; subst x; rewrite fs_get_put_same; reflexivity|].
  rewrite fs_get_put_other; [apply Fi, Hx|]. intros E2. apply place_inj in E2. apply beq_neq in E. contradiction.
Qed.
(** The ids of single objects are as the routes give them. *)
Definition named_well (x : lfs_event) : Prop := match x with EUpload o _ | EDownload o => id_word o | _ => True end.
Lemma step_shelf : forall x w s, serves -> shelved w s -> batch_fits x -> named_well x ->
  exists w' s' r, lfs_handle v x w = (w', r) /\ shelved w' s' /\ shelf_step link_of s x s' r.
Proof.
  intros x w s Sv Sh Hb Hn. pose proof Sv as (Hv & Df & Ki & Wh & Op). pose proof Sh as (F & Ro & Pl & An & Fi).
  destruct x as [q|b|b id now|id b|b|oid d|oid]; cbn [lfs_handle].
  5:{ unfold lfs_process_batch. destruct b as [[op l]|]; [|exists w, s, Panic; split; [reflexivity|]; split; [exact Sh|constructor]]. cbn [batch_fits] in Hb.
      rewrite (lbind_ok _ _ _ _ w w (op, l) eq_refl). destruct (step_objects op l w s Sv Sh Hb) as (w' & s' & [rs|] & E & Sh' & T); exists w', s'.
      - exists (Ok (ROk 200 (BBatch rs))). split; [unfold lbind; rewrite E; reflexivity|]. split; [exact Sh'|constructor; exact T].
      - exists Panic. split; [unfold lbind; rewrite E; reflexivity|]. split; [exact Sh'|constructor; exact T]. }
  5:{ cbn [named_well] in Hn. unfold lfs_upload_object, lfs_get_meta. rewrite (lbind_ok _ _ _ _ _ _ _ (find_quiet oid w F)), (find_word _ _ Hv Df Ro Hn).
      destruct (announced s oid) as [z|] eqn:Ea; pose proof Ea as Eb; rewrite An in Eb.
      2:{ apply size_none in Eb. rewrite Eb. exists w, s, Panic. split; [reflexivity|]. split; [exact Sh|apply step_upload_unknown, Ea]. }
      apply size_row in Eb as (m & Fm & Hm & Em & Ez). rewrite Fm. rewrite (lbind_ok _ _ _ _ w w m eq_refl).
      assert (Hk : proper oid) by (rewrite Forall_forall in Ro; rewrite <- Em; exact (Ro m Hm)).
      set (w1 := mkLfs (l_locks w) (l_meta w) (fs_put (l_files w) (place v oid) d) (l_fails w)).
      assert (E : store_put v m d w = (w1, Ok (Z.eqb (Z.of_nat (length d)) z && beq (hex_encode (sha256 d)) oid))).
      { unfold store_put. rewrite Em, Ez, (place_parts v oid Hn), (Op oid _ Hk (place_parts v oid Hn)), (place_no_dir v _ oid Hk Pl), (place_way v _ oid Hk Pl).
        cbn [andb negb]. rewrite firstn_all2 by apply Wh. reflexivity. }
      rewrite (lbind_ok _ _ _ _ _ _ _ E). destruct (Z.eqb _ _ && beq _ _) eqn:Er.
      - exists w1. eexists. exists (Ok (ROk 200 BEmpty)). split; [reflexivity|]. split; [apply shelved_put; eassumption|].
        apply (step_upload _ _ oid d z); [exact Ea|apply right_iff, Er|intros x; reflexivity|intros x; reflexivity].
      - assert (Ed : lunwrap (lfs_delete_meta v oid) w1 = (mkLfs (l_locks w) (filter (fun r => negb (beq (mt_oid r) oid)) (l_meta w)) (l_files w1) [], Ok tt)).
        { unfold lunwrap, lfs_delete_meta, exec_meta, lattempt, lbind, remove_meta. cbn [w1 l_fails l_meta l_locks l_files]. rewrite F. cbv beta iota zeta. unfold w1. cbn [fst snd l_fails l_meta l_locks l_files unwrap lret].
          rewrite (filter_word _ _ Hv Df Ro Hn), F. reflexivity. }
        rewrite (lbind_ok _ _ _ _ _ _ _ Ed). pose proof (shelved_put w s oid d Sh Hk) as (F1 & Ro1 & Pl1 & An1 & Fi1).
        eexists. exists (mkShelf (fun x => if beq x oid then None else announced s x) (fun x => if beq x oid then Some d else filed s x)), (Ok (RFail 406 (bs "Header not acceptable!"))).
        split; [reflexivity|]. split.
        + split; [reflexivity|]. split; [|split; [exact Pl1|split; [|exact Fi1]]].
          * cbn [l_meta]. rewrite Forall_forall in *. intros x Hx. apply filter_In in Hx. apply Ro, Hx.
          * intros k. cbn [announced l_meta]. rewrite size_drop, An. reflexivity.
        + apply (step_upload_wrong _ _ oid d z); [exact Ea| |intros x; reflexivity|intros x; reflexivity]. intros R. apply right_iff in R. congruence. }
  5:{ cbn [named_well] in Hn. unfold lfs_download_object, lfs_get_meta. rewrite (lbind_ok _ _ _ _ _ _ _ (find_quiet oid w F)), (find_word _ _ Hv Df Ro Hn).
      destruct (announced s oid) as [z|] eqn:Ea; pose proof Ea as Eb; rewrite An in Eb.
      2:{ apply size_none in Eb. rewrite Eb. exists w, s, Panic. split; [reflexivity|]. split; [exact Sh|apply step_download_none; left; exact Ea]. }
      apply size_row in Eb as (m & Fm & Hm & Em & Ez). rewrite Fm. rewrite (lbind_ok _ _ _ _ w w m eq_refl).
      assert (Hk : proper oid) by (rewrite Forall_forall in Ro; rewrite <- Em; exact (Ro m Hm)).
      assert (E : store_get v m w = (w, unwrap_opt (filed s oid))).
      { unfold store_get. rewrite Em, (place_parts v oid Hn). cbn [unwrap bind]. rewrite (Op oid _ Hk (place_parts v oid Hn)), (Fi oid Hk). reflexivity. }
      exists w, s. unfold lbind. rewrite E. destruct (filed s oid) as [d|] eqn:Ef; eexists; (split; [reflexivity|]); (split; [exact Sh|]).
      - exact (step_download _ _ oid z d Ea Ef).
      - apply step_download_none. right. exact Ef. }
  all: match goal with |- exists _ _ _, ?m ?w0 = _ /\ _ /\ shelf_step _ ?s0 ?x _ _ =>
    assert (N : ~ content_event x) by (intros []); pose proof (lock_leaves x N w0) as (E1 & E2 & E3); cbn [lfs_handle] in E1, E2, E3; destruct (m w0) as [w' r]; cbn [fst] in E1, E2, E3; exists w', s0, r;
    split; [reflexivity|]; split; [unfold shelved; rewrite E1, E2; auto|apply step_lock_request, N] end.
Qed.
End Shelf.

(** ** Over HTTP *)

Lemma word_text : forall k, id_word k -> utf8_text k.
Proof.
  intros k [_ H]. apply utf8_text_ascii. apply Forall_forall. intros x Hx. rewrite forallb_forall in H. specialize (H x Hx). unfold id_char in H.
  apply orb_true_iff in H as [H|H]; apply andb_true_iff in H as [_ H]; apply N.leb_le in H; lia.
Qed.
Section Server.
Context (e : env) (b : build) (c : codec) (fuel : nat) (cut : bytes -> list bytes) (v : lenv).
Notation handle := (http_handle e b c fuel cut v).
Notation does := (act e b c fuel cut v).
Notation step := (content_step (link_of v)).
Definition texts_ok : Prop := utf8_text (l_url v).

Lemma shelved_texts : forall w s, shelved v w s -> meta_texts w.
Proof. intros w s (_ & Ro & _). unfold meta_texts. rewrite Forall_forall in *. intros m Hm. apply word_text, (Ro m Hm). Qed.
Lemma act_shelf : forall d m body a x w s, serves v -> texts_ok -> shelved v (snd w) s -> draw_ok d -> lfs_action d body a = Some x -> batch_fits x -> named_well x -> request_text x ->
  exists w' s' r y, does d m body a w = (w', r) /\ shelved v (snd w') s' /\ shelf_step (link_of v) s x s' y /\ (content_event x -> says_content (dr_expires d) y r) /\ (~ content_event x -> s' = s).
Proof.
  intros d m body a x w s Sv Ut Sh D A Bf Nw Rt. destruct (step_shelf v x (snd w) s Sv Sh Bf Nw) as (l & s' & y & E & Sh' & St). unfold act. rewrite A, E.
  eexists _, s', _, y. split; [reflexivity|]. split; [exact Sh'|]. split; [exact St|]. split.
  - intros Kx. destruct x as [q|b0|b0 id now|id b0|b0|oid d0|oid]; try contradiction Kx; inversion St; subst; cbn [bind says_content];
      try match goal with N : ~ content_event _ |- _ => contradiction (N Logic.I) end; try exact Logic.I; try (split; reflexivity).
    + split; [reflexivity|]. split; [apply header_one; reflexivity|]. apply body_json; [apply D|].
      cbn [lfs_handle] in E. unfold lfs_process_batch in E. rewrite (lbind_ok _ _ _ _ (snd w) (snd w) _ eq_refl) in E. cbn beta iota in E. destruct (batch_objects v op l0 (snd w)) as [w1 [x|e0| |]] eqn:Eb; unfold lbind in E; rewrite Eb in E; try discriminate E.
      injection E as _ ->. cbn [body_text]. eapply batch_objects_text; [exact Ut|exact (proj2 Rt)|exact (shelved_texts _ _ Sh)|exact Eb].
    + split; [reflexivity|]. split; [apply text_plain; cbn [In]; tauto|reflexivity].
  - intros Nx. inversion St; subst; try reflexivity; contradiction Nx; exact Logic.I.
Qed.
Lemma step_content : forall d rq w s, serves v -> texts_ok -> shelved v (snd w) s -> draw_ok d -> batches_fit rq ->
  exists w' s' r, handle d rq w = (w', r) /\ step s d rq s' r /\ shelved v (snd w') s'.
Proof.
  intros d rq w s Sv Ut Sh D Bf. destruct rq as [m path q body].
  assert (Git : forall a, ~ content_api (mkHttp m path q body) -> lfs_action d body a = None -> exists w' s' r, does d m body a w = (w', r) /\ step s d (mkHttp m path q body) s' r /\ shelved v (snd w') s').
  { intros a Na A. unfold act. rewrite A. destruct (git_action e b c fuel cut d m body a (fst w)) as [w1 y]. eexists _, s, _. split; [reflexivity|]. split; [apply content_other, Na|exact Sh]. }
  assert (Lock : forall a x, ~ content_api (mkHttp m path q body) -> lfs_action d body a = Some x -> ~ content_event x -> request_text x -> exists w' s' r, does d m body a w = (w', r) /\ step s d (mkHttp m path q body) s' r /\ shelved v (snd w') s').
  { intros a x Na A Nx Rt. destruct (act_shelf d m body a x w s Sv Ut Sh D A) as (w' & s' & r & y & E & Sh' & St & _ & Sm); [destruct x; try exact Logic.I; contradiction Nx; exact Logic.I|destruct x; try exact Logic.I; contradiction Nx; exact Logic.I|exact Rt|].
    rewrite (Sm Nx) in Sh'. exists w', s, r. split; [exact E|]. split; [apply content_other, Na|exact Sh']. }
  assert (Content : forall a x, lfs_action d body a = Some x -> content_event x -> asks_content (mkHttp m path q body) x -> named_well x -> request_text x -> exists w' s' r, does d m body a w = (w', r) /\ step s d (mkHttp m path q body) s' r /\ shelved v (snd w') s').
  { intros a x A Kx As Nw Rt. destruct (act_shelf d m body a x w s Sv Ut Sh D A (Bf x As) Nw Rt) as (w' & s' & r & y & E & Sh' & St & Say & _).
    exists w', s', r. split; [exact E|]. split; [|exact Sh']. exact (content_shelf _ s d _ x s' y r As St (Say Kx)). }
  destruct (rooted_dec path) as [Hr|Hr].
  2:{ rewrite handle_other by (right; exact Hr). rewrite (proj2 (C71_other m path None no_fields) Hr). unfold called. apply (Git (ARefused 404)); [intros [K _]; exact (Hr K)|reflexivity]. }
  pose proof (C96_requests body (dr_id d) (dr_time d) (proj1 D) (proj1 (proj2 D))) as (R1 & _ & R3 & R4).
  destruct m.
  - rewrite handle_get by exact Hr. destruct (query_cases q) as (l & k & F & R & G).
    assert (Api : content_api (mkHttp MGet path q body) -> exists oid, names_object path oid) by (intros [_ [(_ & K)|(K & _)]]; [exact K|discriminate K]).
    destruct G as [[O (sv & lq & Eq & Qf)]|[O (n & Eq)]]; rewrite Eq.
    + destruct (gateway MGet path sv lq) as [a|x| |] eqn:Eg; pose proof (proj1 (C71_get path sv lq _ Hr) Eg) as P; unfold called; inversion P as [oid N G|N L G|z L Es Is G|z L Es Is G|L Es G|N L1 L2 G]; subst.
      * apply (Content (ADownload oid) (EDownload oid)); [reflexivity|exact Logic.I|eapply asks_get; eassumption|exact (proj1 N)|split; exact Logic.I].
      * apply (Lock (AList lq) (EList lq)); [intros K; apply Api in K as (oid & K); exact (N oid K)|reflexivity|intros []|split; exact Logic.I].
      * apply Git; [intros K; apply Api in K as (oid & K); exact (names_refs path oid K L)|reflexivity].
      * apply Git; [intros K; apply Api in K as (oid & K); exact (names_refs path oid K L)|reflexivity].
      * apply Git; [intros K; apply Api in K as (oid & K); exact (N oid K)|reflexivity].
      * eexists _, s, _. split; [reflexivity|]. split; [|exact Sh]. apply content_other. intros K; apply Api in K as (oid & K); exact (names_refs path oid K L).
    + eexists _, s, _. split; [reflexivity|]. split; [|exact Sh]. destruct (object_path path) eqn:Eo.
      * apply object_path_iff in Eo as (oid & Eo). apply (content_twice _ s d _ l k); [split; [exact Hr|left; split; [left; reflexivity|exists oid; exact Eo]]|reflexivity|exact F|exact R|exact O|reflexivity|apply text_plain; cbn; tauto].
      * apply content_other. intros K. apply Api in K. apply object_path_iff in K. congruence.
  - rewrite handle_other by (left; discriminate).
    assert (Not : forall x, In x post_suffixes -> ends x path -> x <> bs "/objects/batch" -> ~ content_api (mkHttp MPost path q body)).
    { intros x Is Es N [_ [([K|K] & _)|(_ & Es')]]; try discriminate K. cbn [hr_path] in Es'.
      assert (Ip : In (bs "/objects/batch") post_suffixes) by (unfold post_suffixes; cbn [In]; tauto). pose proof (post_alone x _ path Is Ip N Es) as Z. apply ends_in_iff in Es'. congruence. }
    destruct (gateway MPost path None no_fields) as [a|x| |] eqn:Eg; pose proof (proj1 (C71_post path None no_fields _ Hr) Eg) as P; unfold called; inversion P as [L G|L G|id N L G|L G|L G|L G|L G|L G]; subst.
    + apply (Lock AVerify (verify_event body)); [apply (Not (bs "/locks/verify")); [unfold post_suffixes; cbn [In]; tauto|exact L|discriminate]|reflexivity|intros []|exact R3].
    + apply (Lock ALock (lock_event body (dr_id d) (dr_time d))); [apply (Not (bs "/locks")); [unfold post_suffixes; cbn [In]; tauto|exact L|discriminate]|reflexivity|intros []|exact R1].
    + apply (Lock (AUnlock id) (unlock_event id body)); [apply (Not (bs "/unlock")); [unfold post_suffixes; cbn [In]; tauto|exact (number_alone _ _ N L)|discriminate]|reflexivity|intros []|split; exact Logic.I].
    + apply (Lock (AUnlock []) (unlock_event [] body)); [apply (Not (bs "/unlock")); [unfold post_suffixes; cbn [In]; tauto|exists []; reflexivity|discriminate]|reflexivity|intros []|split; exact Logic.I].
    + apply (Content ABatch (batch_event body)); [reflexivity|exact Logic.I| |exact Logic.I|exact R4]. apply asks_batch; [exact Hr|exact L|].
      pose proof (body_reads d_batch is_batch body dec_batch) as [B1 B2]. split; [|exact B2]. intros x Hx. specialize (B1 x Hx). destruct (from_text d_batch body) as [[op l]|].
      * apply batch_taken, B1.
      * intros [op l] T. apply batch_taken in T. exact (B1 _ T).
    + apply Git; [apply (Not (bs "/git-upload-pack")); [unfold post_suffixes; cbn [In]; tauto|exact L|discriminate]|reflexivity].
    + apply Git; [apply (Not (bs "/git-receive-pack")); [unfold post_suffixes; cbn [In]; tauto|exact L|discriminate]|reflexivity].
    + apply Git; [|reflexivity]. intros [_ [([K|K] & _)|(_ & Es)]]; try discriminate K. apply (L (bs "/objects/batch")); [unfold post_suffixes; cbn [In]; tauto|exact Es].
  - rewrite handle_other by (left; discriminate). destruct (gateway MPut path None no_fields) as [a|x| |] eqn:Eg; pose proof (proj1 (C71_put path None no_fields _ Hr) Eg) as P; unfold called; inversion P as [oid N G|N G]; subst.
    + apply (Content (AUpload oid) (EUpload oid body)); [reflexivity|exact Logic.I|apply asks_put; assumption|exact (proj1 N)|split; exact Logic.I].
    + apply Git; [|reflexivity]. intros [_ [(_ & oid & K)|(K & _)]]; [exact (N oid K)|discriminate K].
  - rewrite handle_other by (left; discriminate). rewrite (proj1 (C71_other MOther path None no_fields) Hr). unfold called.
    apply (Git (ARefused 405)); [intros [_ [([K|K] & _)|(K & _)]]; discriminate K|reflexivity].
Qed.
Lemma run_content : forall l w s w' rs, serves v -> texts_ok -> shelved v (snd w) s -> Forall (fun a => draw_ok (fst a) /\ batches_fit (snd a)) l ->
  http_run e b c fuel cut v l w = (w', rs) -> exists s', content_run (link_of v) s l s' rs /\ shelved v (snd w') s'.
Proof.
  induction l as [|[d rq] l IH]; intros w s w' rs Sv Ut Sh D E; cbn [http_run] in E; [injection E as <- <-; exists s; split; [constructor|exact Sh]|].
  inversion D as [|? ? [D1 D2] D3]; subst. cbn [fst snd] in D1, D2. destruct (step_content d rq w s Sv Ut Sh D1 D2) as (w1 & s1 & r & E1 & S1 & Sh1). rewrite E1 in E.
  destruct (http_run e b c fuel cut v l w1) as [w2 rs2] eqn:E2. injection E as <- <-.
  destruct (IH w1 s1 w2 rs2 Sv Ut Sh1 D3 E2) as (s2 & R2 & Sh2). exists s2. split; [econstructor; eassumption|exact Sh2].
Qed.
Lemma row_finds : forall w k m, object_row v w k m -> find (fun r => l_teq v (mt_oid r) k) (l_meta w) = Some m.
Proof.
  intros w k m (l1 & l2 & -> & T & F). induction F as [|x l1 Fx F IH]; cbn [app find]; [rewrite T; reflexivity|]. rewrite Fx. exact IH.
Qed.
(** What the tables and the content directory hold. *)
Definition holds (w : lfs) (s : shelf) : Prop :=
  (forall k z, id_word k -> announced s k = Some z <-> exists m, object_row v w k m /\ mt_size m = z) /\
  forall k p, proper k -> store_path v k = Ok p -> filed s k = fs_get (l_files w) p.
Lemma shelved_start : forall w : site, l_fails (snd w) = [] -> l_meta (snd w) = [] -> Forall (fun x => foreign v (fst x)) (l_files (snd w)) -> shelved v (snd w) bare.
Proof.
  intros w Q M Fo. split; [exact Q|]. rewrite M. split; [apply Forall_nil|]. split; [unfold placed; rewrite Forall_forall in *; intros x Hx; left; exact (Fo x Hx)|]. split; [intros k; reflexivity|].
    intros k Hk. cbn [bare filed]. symmetry. clear - Fo. unfold place. induction Fo as [|[p d] f [_ F] Fo IH]; [reflexivity|]. cbn [fs_get]. cbn [fst] in F.
    replace (path_eqb p _) with false; [exact IH|]. symmetry. apply path_eqb_neq. apply F.
Qed.
Lemma shelved_holds : forall w' s, serves v -> shelved v (snd w') s -> holds (@snd world lfs w') s.
Proof.
  intros w' s Sv (F & Ro & Pl & An & Fi). destruct Sv as (Hv & Df & _). split.
  - intros k z Hk. rewrite An. unfold size_of. rewrite <- (find_word v _ k Hv Df Ro Hk). pose proof (find_row v (snd w') k) as Fr. destruct (find _ (l_meta (snd w'))) as [m|] eqn:Em.
    + cbn [option_map]. split; [intros K; injection K as <-; exists m; auto|]. intros (m' & Rm & <-). f_equal. f_equal.
        rewrite (row_finds _ _ _ Rm) in Em. congruence.
    + split; [discriminate|]. intros (m & Rm & _). rewrite (row_finds _ _ _ Rm) in Em. discriminate.
  - intros k p Hk Ep. rewrite (place_parts v k (proj1 Hk)) in Ep. injection Ep as <-. apply Fi, Hk.
Qed.
(** From a server without contents: every history of HTTP requests of whatever kind, with its
    responses, is one of the shelf, and the tables and files hold what the shelf says. *)
Theorem C131_shelf : forall l w w' rs, serves v -> texts_ok -> l_fails (snd w) = [] -> l_meta (snd w) = [] -> Forall (fun x => foreign v (fst x)) (l_files (snd w)) ->
  Forall (fun a => draw_ok (fst a) /\ batches_fit (snd a)) l -> http_run e b c fuel cut v l w = (w', rs) -> exists s, content_run (link_of v) bare l s rs /\ holds (snd w') s.
Proof.
  intros l w w' rs Sv Ut Q M Fo D E. destruct (run_content l w bare w' rs Sv Ut (shelved_start w Q M Fo) D E) as (s & R & Sh).
  exists s. split; [exact R|exact (shelved_holds _ _ Sv Sh)].
Qed.
End Server.

Lemma asks_once : forall rq x op l, inquires op l rq -> asks_content rq x -> x = EBatch (Some (op, l)).
Proof.
  intros rq x op l (path & q & body & j & Hr & He & Dj & Tj & ->) A. inversion A as [p0 q0 b0 o _ _ R E1 E2| |]; subst. f_equal.
  destruct R as [R _]. specialize (R j Dj). destruct (C94_exact j body Dj [] []) as (_ & _ & _ & X). destruct o as [[op' l']|]; cbn [fst snd] in R.
  - apply X in Tj. apply X in R. congruence.
  - contradiction (R (op, l) Tj).
Qed.
Lemma asks_sends : forall rq x oid d, sends oid d rq -> asks_content rq x -> x = EUpload oid d.
Proof.
  intros rq x oid d (path & q & Hr & Nm & ->) A. inversion A as [|p0 q0 b0 o _ Nm' E1 E2|]; subst. f_equal. exact (names_unique path _ _ Nm' Nm).
Qed.
Lemma asks_fetches : forall rq x oid, fetches oid rq -> asks_content rq x -> x = EDownload oid.
Proof.
  intros rq x oid (path & q & body & l & k & Hr & Nm & F & R & O & ->) A. inversion A as [| |p0 q0 b0 o l0 k0 _ Nm' _ _ _ E1 E2]; subst. f_equal. exact (names_unique path _ _ Nm' Nm).
Qed.

(** A client's batch of one object, and the requests to send and to fetch it. *)
Definition ex_want_tree (op oid : bytes) (z : Z) : json :=
  VObj [(bs "operation", VText op); (bs "transfers", VArr [VText (bs "basic")]); (bs "objects", VArr [VObj [(bs "oid", VText oid); (bs "size", VInt z)]])].
Definition ex_want (op oid : bytes) (z : Z) : bytes :=
  json_struct [(bs "operation", json_text op); (bs "transfers", json_list [json_text (bs "basic")]); (bs "objects", json_list [json_struct [(bs "oid", json_text oid); (bs "size", z_text z)]])].
Definition ex_batch_rq (op oid : bytes) (z : Z) : http_request := mkHttp MPost (bs "/demo.git/info/lfs/objects/batch") [] (ex_want op oid z).
Definition ex_put (oid d : bytes) : http_request := mkHttp MPut (bs "/demo.git/info/lfs/objects/" ++ oid) [] d.
Definition ex_get (oid : bytes) : http_request := mkHttp MGet (bs "/demo.git/info/lfs/objects/" ++ oid) [] [].
Lemma ex_inquires : forall op oid z, utf8_text op -> utf8_text oid -> oid <> [] -> fits z -> inquires op [mkObj oid z [] []] (ex_batch_rq op oid z).
Proof.
  intros op oid z Uo Ui Ne Iz. exists (bs "/demo.git/info/lfs/objects/batch"), [], (ex_want op oid z), (ex_want_tree op oid z).
  assert (D : document (ex_want_tree op oid z) (ex_want op oid z)).
  { unfold ex_want, ex_want_tree. apply spells_document, sp_struct. constructor; [write_field; apply sp_string, Uo|]. constructor; [write_field|].
    { apply sp_list. constructor; [apply sp_string; ascii|constructor]. }
    constructor; [write_field|constructor]. apply sp_list. constructor; [|constructor]. apply sp_struct. constructor; [write_field; apply sp_string, Ui|]. constructor; [write_field; apply sp_z|constructor]. }
  split; [eexists; split; [reflexivity|discriminate]|]. split; [exists (bs "/demo.git/info/lfs"); reflexivity|]. split; [exact D|]. split; [|reflexivity].
  apply (proj2 (proj2 (proj2 (C94_exact _ _ D [] [])))). apply (C94_batch op _ (ex_want_tree op oid z)); [|exact D].
  eexists _, [bs "basic"], _. split; [reflexivity|]. split; [at_member|]. split; [at_member|]. split; [at_member|].
  constructor; [|constructor]. split; [|exact Iz]. eexists _, [], []. split; [reflexivity|]. split; [at_member|]. split; [at_member|].
  repeat (split; [right; split; [absent|reflexivity]|]). right. split; [absent|reflexivity].
Qed.
Lemma ex_put_ok : forall oid d, id_word oid -> sends oid d (ex_put oid d).
Proof.
  intros oid d H. exists (bs "/demo.git/info/lfs/objects/" ++ oid), []. split; [eexists; split; [reflexivity|discriminate]|]. split; [|reflexivity].
  split; [exact H|]. exists (bs "/demo.git/info/lfs"). reflexivity.
Qed.
Lemma ex_get_ok : forall oid, id_word oid -> fetches oid (ex_get oid).
Proof.
  intros oid H. exists (bs "/demo.git/info/lfs/objects/" ++ oid), [], [], [], []. split; [eexists; split; [reflexivity|discriminate]|]. split; [split; [exact H|exists (bs "/demo.git/info/lfs"); reflexivity]|].
  split; [constructor|]. split; [constructor|]. split; [|reflexivity]. intros a f b0 g c0 E. destruct a; discriminate E.
Qed.
Lemma ex_serves : serves ex_lenv /\ texts_ok ex_lenv.
Proof.
  split; [|apply utf8_spec; reflexivity]. split; [exact ex_lenv_ok|]. split; [exact ex_ids_differ|]. split; [vm_compute; reflexivity|]. split; [intros b; apply le_n|reflexivity].
Qed.
Lemma oid1_proper : proper oid1.
Proof. split; [exact oid1_word|]. replace (length oid1) with 64%nat by (vm_compute; reflexivity). lia. Qed.
(** An object is announced, sent, fetched and asked for, then sent with another content. *)
Definition ex_transfer : list (draw * http_request) :=
  [(ex_draw, ex_batch_rq (bs "upload") oid1 4); (ex_draw, ex_put oid1 (bs "good")); (ex_draw2, ex_get oid1); (ex_draw2, ex_batch_rq (bs "download") oid1 4)].
Definition ex_spoils : list (draw * http_request) := [(ex_draw, ex_put oid1 (bs "evil")); (ex_draw2, ex_get oid1); (ex_draw, ex_batch_rq (bs "download") oid1 4)].
Lemma ex_batch_fits : forall op, utf8_text op -> batches_fit (ex_batch_rq op oid1 4).
Proof.
  intros op U x A. pose proof (ex_inquires op oid1 4 U (word_text _ oid1_word) (proj1 oid1_word)) as Iq. rewrite (asks_once _ _ _ _ (Iq ltac:(split; discriminate)) A).
  cbn [batch_fits]. constructor; [exact oid1_proper|constructor].
Qed.
Lemma ex_put_fits : forall d, batches_fit (ex_put oid1 d).
Proof. intros d x A. rewrite (asks_sends _ _ _ _ (ex_put_ok oid1 d oid1_word) A). exact Logic.I. Qed.
Lemma ex_get_fits : batches_fit (ex_get oid1).
Proof. intros x A. rewrite (asks_fetches _ _ _ (ex_get_ok oid1 oid1_word) A). exact Logic.I. Qed.
Example C131_ex : serves ex_lenv /\ texts_ok ex_lenv /\ l_fails ex_start = [] /\ l_meta ex_start = [] /\ Forall (fun x => foreign ex_lenv (fst x)) (l_files ex_start) /\
  Forall (fun a => draw_ok (fst a) /\ batches_fit (snd a)) (ex_transfer ++ ex_spoils) /\
  map ex_status (snd (http_run ex_env Release stored 50 ex_cut ex_lenv (ex_transfer ++ ex_spoils) (ex_world, ex_start))) = [200; 200; 200; 200; 406; 0; 200].
Proof.
  split; [apply ex_serves|]. split; [apply ex_serves|]. split; [reflexivity|]. split; [reflexivity|]. split; [constructor|]. split; [|vm_compute; reflexivity].
  destruct ex_draws as [D1 D2]. cbn [ex_transfer ex_spoils app].
  repeat (apply Forall_cons; [split; [first [exact D1|exact D2]|cbn [snd]; first [apply ex_put_fits|apply ex_get_fits|apply ex_batch_fits; ascii]]|]). apply Forall_nil.
Qed.

(** Replies are JSON. *)

From Coq Require Import ZArith Permutation Sorting.Sorted.
From Verif Require Import Base BaseLemmas ModelObject ModelLfs ModelJson SpecBase SpecIdx SpecLfs SpecJson SpecReply ProofUtf8 ProofSerde ProofFields ProofWrite ProofLfs.
Open Scope N_scope.

Definition repr_text (x : repr) : Prop :=
  utf8_text (rp_oid x) /\ match rp_action x with Some (a, href) => utf8_text a /\ utf8_text href | None => True end /\
  match rp_error x with Some (_, t) => utf8_text t | None => True end.
Definition body_text (b : lfs_body) : Prop :=
  match b with
  | BLocks l next => Forall lock_text l /\ utf8_text next
  | BVerify o t next => Forall lock_text o /\ Forall lock_text t /\ utf8_text next
  | BLock x => lock_text x
  | BBatch l => Forall repr_text l
  | BData _ | BEmpty => False
  end.
Lemma lock_tree_is : forall x, lock_is x (lock_tree x).
Proof.
  intros [i p a o]. unfold lock_is, lock_value, lock_tree. cbn [lk_id lk_path lk_at lk_owner]. eexists. split; [reflexivity|].
  split; [at_member|]. split; [at_member|]. split; [at_member|]. destruct o as [n|].
  - eexists. split; [at_member|]. eexists. split; [reflexivity|at_member].
  - right. at_member.
Qed.
Lemma lock_trees_are : forall l, Forall2 lock_is l (map lock_tree l).
Proof. induction l; constructor; [apply lock_tree_is|assumption]. Qed.

(** ** Objects of a batch *)
Definition link_tree (expires href : bytes) : json :=
  VObj [(bs "href", VText href); (bs "header", VObj [(bs "Accept", VText (bs "application/vnd.git-lfs"))]); (bs "expires_at", VText expires)].
Definition repr_tree (expires : bytes) (x : repr) : json :=
  VObj ([(bs "oid", VText (rp_oid x)); (bs "size", VInt (rp_size x))] ++
    match rp_auth x with Some b => [(bs "authenticated", VBool b)] | None => [] end ++
    match rp_action x with Some (a, href) => [(bs "actions", VObj [(a, link_tree expires href)])] | None => [] end ++
    match rp_error x with Some (c, m) => [(bs "error", VObj [(bs "code", VInt (Z.of_N c)); (bs "message", VText m)])] | None => [] end).
Lemma link_spelled : forall expires href, utf8_text expires -> utf8_text href -> spells (link_tree expires href) (json_link expires href).
Proof.
  intros expires href E H. apply sp_struct. constructor; [write_field; apply sp_string, H|]. constructor; [write_field|].
  - apply sp_struct. constructor; [write_field; apply sp_string; ascii|constructor].
  - constructor; [write_field; apply sp_string, E|constructor].
Qed.
Lemma repr_spelled : forall expires x, utf8_text expires -> repr_text x -> spells (repr_tree expires x) (json_repr expires x).
Proof.
  intros expires [o z au ac er] E (T1 & T2 & T3). unfold repr_tree, json_repr. cbn [rp_oid rp_size rp_auth rp_action rp_error] in *. apply sp_struct.
  cbn [app]. constructor; [write_field; apply sp_string, T1|]. constructor; [write_field; apply sp_z|].
  apply Forall2_app; [|apply Forall2_app].
  - destruct au as [b|]; [|constructor]. constructor; [write_field; destruct b; constructor|constructor].
  - destruct ac as [[a href]|]; [|constructor]. destruct T2 as [A H]. constructor; [write_field|constructor]. apply sp_struct.
    constructor; [split; [reflexivity|]; split; [exact A|apply link_spelled; assumption]|constructor].
  - destruct er as [[c m]|]; [|constructor]. constructor; [write_field|constructor]. apply sp_struct.
    constructor; [write_field; apply sp_n|]. constructor; [write_field; apply sp_string, T3|constructor].
Qed.
Lemma repr_tree_is : forall expires x, object_reply expires x (repr_tree expires x).
Proof.
  intros expires [o z au ac er]. unfold object_reply, repr_tree. cbn [rp_oid rp_size rp_auth rp_action rp_error]. eexists. split; [reflexivity|].
  destruct au as [b|], ac as [[a href]|], er as [[c t]|]; cbn [app];
    (split; [at_member|]; split; [at_member|]; split; [first [at_member|absent]|]; split;
     [first [absent|eexists; split; [at_member|]; eexists _, _; split; [reflexivity|]; split; [at_member|]; split; [at_member|]; split; [at_member|];
                    constructor; [eexists; reflexivity|constructor]]
     |first [absent|eexists; split; [at_member|]; split; at_member]]).
Qed.
Lemma body_json : forall expires s b, utf8_text expires -> body_text b ->
  exists v, document v (reply_body expires (ROk s b)) /\ reply_json expires b v.
Proof.
  intros expires s b E T. destruct b as [x|l next|o t next|l|d|]; cbn [body_text reply_body reply_json] in *; try contradiction.
  - exists (VObj [(bs "lock", lock_tree x); (bs "message", VText [])]). split.
    + apply spells_document, sp_struct. constructor; [write_field; apply lock_spelled, T|]. constructor; [write_field; apply sp_string; ascii|constructor].
    + eexists _, _. split; [reflexivity|]. split; [at_member|apply lock_tree_is].
  - destruct T as [T1 T2]. exists (VObj [(bs "locks", VArr (map lock_tree l)); (bs "next_cursor", VText next)]). split.
    + apply spells_document, sp_struct. constructor; [write_field; apply locks_spelled, T1|]. constructor; [write_field; apply sp_string, T2|constructor].
    + eexists _, _. split; [reflexivity|]. split; [at_member|]. split; [apply lock_trees_are|at_member].
  - destruct T as (T1 & T2 & T3). exists (VObj [(bs "ours", VArr (map lock_tree o)); (bs "theirs", VArr (map lock_tree t)); (bs "next_cursor", VText next)]). split.
    + apply spells_document, sp_struct. constructor; [write_field; apply locks_spelled, T1|]. constructor; [write_field; apply locks_spelled, T2|].
      constructor; [write_field; apply sp_string, T3|constructor].
    + eexists _, _, _. split; [reflexivity|]. split; [at_member|]. split; [apply lock_trees_are|]. split; [at_member|]. split; [apply lock_trees_are|at_member].
  - exists (VObj [(bs "transfer", VText (bs "basic")); (bs "objects", VArr (map (repr_tree expires) l)); (bs "hash_algo", VText (bs "sha256"))]). split.
    + apply spells_document, sp_struct. constructor; [write_field; apply sp_string; ascii|]. constructor; [write_field|].
      * apply sp_list. induction T; constructor; [apply repr_spelled; assumption|assumption].
      * constructor; [write_field; apply sp_string; ascii|constructor].
    + eexists _, _. split; [reflexivity|]. split; [at_member|]. split; [at_member|]. clear T. induction l; constructor; [apply repr_tree_is|assumption].
Qed.

(** ** The texts of replies *)
Lemma number_text_ok : forall id, lock_number id -> utf8_text id.
Proof. intros id [_ H]. apply utf8_text_ascii. eapply Forall_impl; [|exact H]. intros b B. cbv beta in B. lia. Qed.
Lemma filtered_texts : forall p c n l l' next, Forall lock_ok l -> filtered_locks p c n l = Ok (l', next) -> Forall lock_ok l' /\ utf8_text next.
Proof.
  intros p c n l l' next F H. unfold filtered_locks in H.
  assert (G : forall l1, Forall lock_ok l1 -> cut_locks n (match p with [] => l1 | _ => filter (fun x => beq (lk_path x) p) l1 end) = Ok (l', next) ->
    Forall lock_ok l' /\ utf8_text next).
  { intros l1 F1 E. set (l2 := match p with [] => l1 | _ => _ end) in E.
    assert (F2 : Forall lock_ok l2) by (unfold l2; destruct p; [exact F1|apply filter_forall, F1]). clearbody l2. unfold cut_locks in E.
    destruct n as [|n0 n]; [injection E as <- <-; split; [exact F2|ascii]|].
    destruct (parse_i64 (n0 :: n)) as [z|]; [|discriminate]. cbn [unwrap_opt bind] in E.
    destruct (_ <? 0)%Z; [discriminate|]. destruct (_ <? _)%Z.
    - destruct (nth_error l2 _) as [x|] eqn:X; [|discriminate]. cbn [unwrap_opt bind] in E. injection E as <- <-. split.
      + apply Forall_forall. intros y Hy. rewrite Forall_forall in F2. apply F2. rewrite <- (firstn_skipn (Z.to_nat (Z.min z (Z.of_nat (length l2)))) l2).
        apply in_or_app. left. exact Hy.
      + apply nth_error_In in X. rewrite Forall_forall in F2. apply number_text_ok, (F2 x X).
    - cbn [bind] in E. injection E as <- <-. split; [|ascii].
      apply Forall_forall. intros y Hy. rewrite Forall_forall in F2. apply F2. rewrite <- (firstn_skipn (Z.to_nat (Z.min z (Z.of_nat (length l2)))) l2).
      apply in_or_app. left. exact Hy. }
  destruct c as [|c0 c]; [apply (G l F H)|]. destruct (lock_index (c0 :: c) l) as [i|]; [|discriminate]. cbn [bind] in H. apply (G (skipn i l)); [|exact H].
  apply Forall_forall. intros y Hy. rewrite Forall_forall in F. apply F. rewrite <- (firstn_skipn i l). apply in_or_app. right. exact Hy.
Qed.
Lemma rows_ok : forall v w ref l, lenv_ok v -> table_ok v (l_locks w) -> locks_of v w ref l -> Forall lock_ok l.
Proof.
  intros v w ref l Hv Ht Hl. destruct (row_of v w ref _ Hv Ht Hl) as [[-> _]|(k0 & N1 & F & Hi & Hk0 & N2 & [N3 N3'] & N4)]; [constructor|exact N3].
Qed.
Lemma get_filtered_texts : forall v ref p c n w w' l' next, lenv_ok v -> table_ok v (l_locks w) ->
  lfs_get_filtered_locks v ref p c n w = (w', Ok (l', next)) -> Forall lock_ok l' /\ utf8_text next.
Proof.
  intros v ref p c n w w' l' next Hv Ht H. destruct (locks_exist v w ref Hv Ht) as (l & Hl).
  destruct (filtered_any v ref p c n w l Hv Ht Hl) as (w1 & _ & [E|E] & _); rewrite E in H; [discriminate|].
  injection H as _ H. eapply filtered_texts; [eapply rows_ok; eassumption|exact H].
Qed.
Lemma scan_in : forall id force l f x r, scan_locks id force l f = Some (x, r) -> x = f \/ In x l.
Proof.
  induction l as [|y l IH]; intros f x r H; cbn [scan_locks] in H; [injection H as <- _; auto|].
  destruct (beq (lk_id y) id).
  - destruct ((match lk_owner y with Some _ => true | None => false end) && negb force); [discriminate|].
    destruct (IH _ _ _ H) as [->|I]; right; [left; reflexivity|right; exact I].
  - destruct (scan_locks id force l f) as [[g rest]|] eqn:E; [|discriminate]. injection H as <- _.
    destruct (IH _ _ _ E) as [->|I]; [left; reflexivity|right; right; exact I].
Qed.
Lemma ltry_some : forall A (m : L A) w w' a, ltry m w = (w', Ok (Some a)) -> m w = (w', Ok a).
Proof. intros A m w w' a H. unfold ltry in H. destruct (m w) as [w1 [x| | |]]; try discriminate. congruence. Qed.
Lemma lbind_inv : forall A B (m : L A) (k : A -> L B) w w' b, lbind m k w = (w', Ok b) -> exists w1 a, m w = (w1, Ok a) /\ k a w1 = (w', Ok b).
Proof. intros A B m k w w' b H. unfold lbind in H. destruct (m w) as [w1 [a| | |]]; try discriminate. eauto. Qed.
Lemma find_row_in : forall v k w w' r, find_lock_row v k w = (w', Ok (Some r)) -> In r (l_locks w).
Proof.
  intros v k w w' r H. destruct (find_lock_any v k w) as (w1 & _ & [E|E] & _); rewrite E in H; [discriminate|].
  injection H as _ H. apply find_some in H. apply H.
Qed.
Lemma deleted_text : forall v ref id force w w' x, lenv_ok v -> table_ok v (l_locks w) ->
  lfs_delete_lock v ref id force w = (w', Ok x) -> lock_text x.
Proof.
  intros v ref id force w w' x Hv [Ht _] H. unfold lfs_delete_lock in H. apply lbind_inv in H as (w1 & row & F & H).
  destruct row as [[k d]|]; [|discriminate]. apply find_row_in in F. rewrite Forall_forall in Ht.
  destruct (Ht _ F) as (l & E & N & _ & [O _] & _). cbn [snd] in E. subst d.
  apply lbind_inv in H as (w2 & l0 & R & H). unfold llift in R. injection R as <- R. unfold row_locks in R.
  destruct (js_back v l Hv O) as [J1 J2]. rewrite J2 in R. destruct (js_enc v l); [contradiction|]. injection R as <-.
  destruct (scan_locks id force l empty_lock) as [[y rest]|] eqn:SC; [|discriminate]. destruct (lk_id y) as [|i0 i] eqn:I; [discriminate|].
  assert (X : y = x).
  { destruct rest as [|z zs]; apply lbind_inv in H as (w3 & ok & _ & H); destruct ok; try discriminate; unfold lret in H; injection H as _ H; exact H. }
  subst y. destruct (scan_in _ _ _ _ _ _ SC) as [->|Hin]; [discriminate|].
  pose proof (lock_ok_text l O) as T. rewrite Forall_forall in T. apply T, Hin.
Qed.
Lemma join_text : forall a b, utf8_text a -> utf8_text b -> utf8_text (path_join a b).
Proof.
  intros a b A B. unfold path_join.
  assert (G : utf8_text (match rev a with [] | 47 :: _ => a ++ b | _ => a ++ [47] ++ b end)).
  { assert (G1 : utf8_text (a ++ b)) by (apply utf8_text_app; assumption).
    assert (G2 : utf8_text (a ++ [47] ++ b)) by (apply utf8_text_app; [exact A|]; apply utf8_text_app; [ascii|exact B]).
    destruct (rev a) as [|c r]; [exact G1|]. repeat (destruct c as [|c] || destruct c as [c|c|]; try assumption). }
  destruct b as [|c r]; [exact G|]. repeat (destruct c as [|c] || destruct c as [c|c|]; try assumption).
Qed.
Lemma link_text : forall user repo url oid, utf8_text user -> utf8_text repo -> utf8_text url -> utf8_text oid -> utf8_text (object_link user repo url oid).
Proof.
  intros user repo url oid U R L O. unfold object_link. apply join_text; [|exact O]. apply join_text; [|ascii]. apply join_text; [|exact L].
  assert (P : utf8_text (match user with [] => [] | _ => path_join [] user end)) by (destruct user; [ascii|apply join_text; [ascii|exact U]]).
  destruct repo; [exact P|apply join_text; [exact P|exact R]].
Qed.

(** ** Batches *)
Definition meta_texts (w : lfs) : Prop := Forall (fun r => utf8_text (mt_oid r)) (l_meta w).
Lemma find_meta_text : forall v k w w' r, meta_texts w -> find_meta_row v k w = (w', Ok r) ->
  meta_texts w' /\ match r with Some x => utf8_text (mt_oid x) | None => True end.
Proof.
  intros v k w w' r M H. destruct (find_meta_any v k w) as (w1 & A & [E|E] & _); rewrite E in H; [discriminate|].
  injection H as <- <-. split; [unfold meta_texts; rewrite (al_meta _ _ A); exact M|].
  destruct (find _ (l_meta w)) as [x|] eqn:F; [|exact I]. apply find_some in F. unfold meta_texts in M. rewrite Forall_forall in M. apply M, F.
Qed.
Lemma attempt_meta : forall w w' r, lattempt w = (w', r) -> l_meta w' = l_meta w.
Proof. intros w w' r H. unfold lattempt in H. destruct (l_fails w); injection H as <- _; reflexivity. Qed.
Lemma put_meta_text : forall v oid size w w' x, utf8_text oid -> meta_texts w -> lfs_put_meta v oid size w = (w', Ok x) -> meta_texts w' /\ utf8_text (mt_oid x).
Proof.
  intros v oid size w w' x O M H. unfold lfs_put_meta in H. apply lbind_inv in H as (w1 & r & F & H).
  destruct (find_meta_text _ _ _ _ _ M F) as [M1 T]. destruct r as [y|]; [unfold lret in H; injection H as <- <-; split; [exact M1|exact T]|].
  apply lbind_inv in H as (w2 & ok & I & H). destruct ok; [|discriminate]. unfold lret in H. injection H as <- <-. split; [|exact O].
  unfold inserted in I. apply lbind_inv in I as (w3 & b & X & I). unfold lret in I. injection I as <- _.
  unfold exec_meta in X. apply lbind_inv in X as (w4 & c & A & X). apply attempt_meta in A.
  assert (M4 : meta_texts w4) by (unfold meta_texts; rewrite A; exact M1).
  destruct c; [|unfold lret in X; injection X as <- _; exact M4]. unfold insert_meta in X.
  destruct (_ && _ && _) in X; injection X as <- _; [|exact M4]. apply Forall_app. split; [exact M4|]. constructor; [exact O|constructor].
Qed.
Lemma batch_object_text : forall v op o w w' x, utf8_text (l_url v) -> object_text o -> meta_texts w -> batch_object v op o w = (w', Ok x) ->
  meta_texts w' /\ repr_text x.
Proof.
  intros v op o w w' x U (T1 & T2 & T3) M H. unfold batch_object in H. apply lbind_inv in H as (w1 & r & F & H). unfold lfs_get_meta in F.
  destruct (find_meta_text _ _ _ _ _ M F) as [M1 T]. apply lbind_inv in H as (w2 & here & X & H).
  assert (w2 = w1) by (destruct r; [unfold store_exist in X|unfold lret in X]; injection X as X _; congruence). subst w2.
  assert (R : forall m a, utf8_text (mt_oid m) -> utf8_text a -> repr_text (represent v o m a)).
  { intros m a Hm Ha. split; [exact Hm|]. split; [split; [exact Ha|apply link_text; assumption]|exact I]. }
  assert (G : (if beq op (bs "upload") then
      do! x := lunwrap (lfs_put_meta v (ob_oid o) (ob_size o)) in lret (represent v o x (bs "upload"))
    else lret (mkRepr (ob_oid o) (ob_size o) None None (Some (404, bs "Not found")))) w1 = (w', Ok x) -> meta_texts w' /\ repr_text x).
  { intros E. destruct (beq op (bs "upload")).
    - apply lbind_inv in E as (w3 & m & P & E). unfold lret in E. injection E as <- <-. unfold lunwrap in P.
      destruct (lfs_put_meta v (ob_oid o) (ob_size o) w1) as [w4 [y| | |]] eqn:Q; try discriminate. injection P as <- <-.
      destruct (put_meta_text _ _ _ _ _ _ T1 M1 Q) as [M3 Y]. split; [exact M3|apply R; [exact Y|ascii]].
    - unfold lret in E. injection E as <- <-. split; [exact M1|]. split; [exact T1|]. split; [exact I|ascii]. }
  destruct r as [y|]; [destruct here|]; [|exact (G H)|exact (G H)]. unfold lret in H. injection H as <- <-. split; [exact M1|apply R; [exact T|ascii]].
Qed.
Lemma batch_objects_text : forall v op l w w' x, utf8_text (l_url v) -> Forall object_text l -> meta_texts w -> batch_objects v op l w = (w', Ok x) ->
  Forall repr_text x.
Proof.
  intros v op l w w' x U F. revert w w' x. induction F as [|o l O F IH]; intros w w' x M H; cbn [batch_objects] in H.
  - unfold lret in H. injection H as _ <-. constructor.
  - apply lbind_inv in H as (w1 & a & A & H). destruct (batch_object_text _ _ _ _ _ _ U O M A) as [M1 R].
    apply lbind_inv in H as (w2 & b & B & H). unfold lret in H. injection H as _ <-. constructor; [exact R|]. eapply IH; eassumption.
Qed.

Definition lock_event_kind (x : lfs_event) : Prop := match x with EList _ | EVerify _ | ELock _ _ _ | EUnlock _ _ => True | _ => False end.
Lemma lock_texts : forall v x w w' s b, lenv_ok v -> table_ok v (l_locks w) -> event_ok x -> lock_event_kind x -> lfs_handle v x w = (w', Ok (ROk s b)) -> body_text b.
Proof.
  intros v x w w' s b Hv Ht E J H. destruct x as [q|body|body id now|id body|body|oid d|oid]; cbn [lfs_handle] in H; try contradiction.
  - unfold lfs_retrieve_lock in H. apply lbind_inv in H as (w1 & r & T & H). destruct r as [[l next]|]; [|discriminate].
    unfold lret in H. injection H as _ _ <-. apply ltry_some in T. destruct (get_filtered_texts _ _ _ _ _ _ _ _ _ Hv Ht T) as [A B].
    split; [apply lock_ok_text, A|exact B].
  - unfold lfs_verify_lock in H. apply lbind_inv in H as (w0 & rq & R & H). unfold llift in R. injection R as <- _.
    apply lbind_inv in H as (w1 & r & T & H). destruct r as [[l next]|]; [|discriminate].
    unfold lret in H. injection H as _ _ <-. apply ltry_some in T. destruct (get_filtered_texts _ _ _ _ _ _ _ _ _ Hv Ht T) as [A B].
    split; [apply filter_forall, lock_ok_text, A|]. split; [apply filter_forall, lock_ok_text, A|exact B].
  - unfold lfs_create_lock in H. apply lbind_inv in H as (w0 & rq & R & H). unfold llift in R. injection R as <- R.
    destruct body as [rq'|]; [|discriminate]. cbn [unwrap_opt] in R. injection R as ->.
    apply lbind_inv in H as (w1 & c & C & H). destruct c as [reply|].
    + unfold lret in H. injection H as -> ->. exfalso. unfold create_check in C. apply lbind_inv in C as (w2 & r & _ & C).
      destruct r as [[l next]|]; [destruct l|]; discriminate.
    + apply lbind_inv in H as (w2 & row & _ & H). unfold create_write in H. apply lbind_inv in H as (w3 & r & _ & H).
      destruct r; [|discriminate]. unfold lret in H. injection H as _ _ <-. destruct E as (E1 & E2 & E3).
      split; [apply number_text_ok, E1|]. split; [exact E3|]. split; [exact E2|exact I].
  - unfold lfs_delete in H. destruct id as [|i0 id]; [discriminate|]. destruct body as [body|]; [|discriminate].
    apply lbind_inv in H as (w0 & rq & R & H). unfold llift in R. injection R as <- _.
    apply lbind_inv in H as (w1 & r & T & H). destruct r as [x|]; [|discriminate]. apply ltry_some in T.
    destruct (_ && _ && _ && _) in H; [discriminate|]. unfold lret in H. injection H as _ _ <-. eapply deleted_text; eassumption.
Qed.
Lemma handle_texts : forall v x w w' s b, lenv_ok v -> table_ok v (l_locks w) -> utf8_text (l_url v) -> meta_texts w -> request_text x -> json_request x ->
  lfs_handle v x w = (w', Ok (ROk s b)) -> body_text b.
Proof.
  intros v x w w' s b Hv Ht U M [E O] J H. destruct x as [q|body|body id now|id body|body|oid d|oid]; cbn [json_request] in J; try contradiction;
    try (eapply lock_texts; [exact Hv|exact Ht|exact E|exact I|exact H]).
  cbn [lfs_handle] in H.
  unfold lfs_process_batch in H. apply lbind_inv in H as (w0 & [op l] & R & H). unfold llift in R. injection R as <- R.
  destruct body as [[op' l']|]; [|discriminate]. cbn [unwrap_opt] in R. injection R as -> ->.
  apply lbind_inv in H as (w1 & r & T & H). unfold lret in H. injection H as _ _ <-. eapply batch_objects_text; eassumption.
Qed.

(** ** The texts of requests *)
Lemma d_string_text : forall j t, d_string j = Some t -> utf8_text t.
Proof. intros j t H. destruct j; try discriminate. eapply string_text, H. Qed.
Lemma req_string_text : forall o t, req d_string o = Some t -> utf8_text t.
Proof. intros [j|] t H; [|discriminate]. eapply d_string_text, H. Qed.
Lemma dflt_text : forall o t, dflt o = Some t -> utf8_text t.
Proof. intros [j|] t H; [eapply d_string_text, H|injection H as <-; ascii]. Qed.
Lemma lock_request_text : forall t rq, from_text d_lock_request t = Some rq -> utf8_text (lr_path rq).
Proof.
  intros t rq H. unfold from_text in H. destruct (jtext t) as [j|]; [|discriminate]. unfold d_lock_request in H.
  destruct (d_struct _ j) as [[s [|p [|r [|]]]]|]; try discriminate. destruct (req d_string p) as [x|] eqn:P; [|discriminate].
  destruct (req d_named r); [|discriminate]. injection H as <-. eapply req_string_text, P.
Qed.
Lemma d_object_text : forall j o, d_object j = Some o -> object_text o.
Proof.
  intros j o H. unfold d_object in H. destruct (d_struct _ j) as [[s [|a [|b [|c [|d [|e [|f [|]]]]]]]]|]; try discriminate.
  destruct (req d_string a) as [x1|] eqn:A; [|discriminate]. destruct (req d_i64 b); [|discriminate]. destruct (dflt c) as [x2|] eqn:C; [|discriminate].
  destruct (dflt d); [|discriminate]. destruct (dflt e) as [x3|] eqn:E; [|discriminate]. destruct (dflt f); [|discriminate]. injection H as <-.
  split; [eapply req_string_text, A|]. split; eapply dflt_text; eassumption.
Qed.
Lemma batch_request_text : forall t op l, from_text d_batch t = Some (op, l) -> Forall object_text l.
Proof.
  intros t op l H. unfold from_text in H. destruct (jtext t) as [j|]; [|discriminate]. unfold d_batch in H.
  destruct (d_struct _ j) as [[s [|a [|b [|c [|]]]]]|]; try discriminate. destruct (req (d_vec d_string) a); [|discriminate].
  destruct (req d_string b); [|discriminate]. destruct c as [c|]; [|discriminate]. cbn [req] in H. destruct c as [| | | |js|]; try discriminate. cbn [d_vec] in H.
  destruct (d_list d_object js) as [x|] eqn:D; [|discriminate]. injection H as _ ->. clear -D. revert l D.
  induction js as [|y js IH]; intros l D; cbn [d_list] in D; [injection D as <-; constructor|].
  destruct (d_object y) as [o|] eqn:O; [|discriminate]. destruct (d_list d_object js) as [r|]; [|discriminate]. injection D as <-.
  constructor; [eapply d_object_text, O|apply IH; reflexivity].
Qed.

(** ** Messages of errors *)
Definition messages : list bytes :=
  [bs "Lookup operation failed!"; bs "Failed when filtering locks!"; bs "Lock already exist"; bs "Failed when adding locks!"; bs "Invalid lock id!";
   bs "Deserialize operation failed!"; bs "Delete operation failed!"; bs "Unable to find lock!"; bs "Header not acceptable!"].
Lemma fail_messages : forall v x w w' s m, lfs_handle v x w = (w', Ok (RFail s m)) -> In m messages.
Proof.
  assert (K : forall b : bytes, existsb (beq b) messages = true -> In b messages).
  { intros b H. apply existsb_exists in H as (y & I & E). apply beq_eq in E. subst y. exact I. }
  intros v x w w' s m H. destruct x as [q|body|body id now|id body|body|oid d|oid]; cbn [lfs_handle] in H.
  - unfold lfs_retrieve_lock in H. apply lbind_inv in H as (w1 & r & _ & H). destruct r as [[l next]|]; [discriminate|].
    unfold lret in H. injection H as _ _ <-. apply K. reflexivity.
  - unfold lfs_verify_lock in H. apply lbind_inv in H as (w0 & rq & _ & H).
    apply lbind_inv in H as (w1 & r & _ & H). destruct r as [[l next]|]; [discriminate|]. unfold lret in H. injection H as _ _ <-. apply K. reflexivity.
  - unfold lfs_create_lock in H. apply lbind_inv in H as (w0 & rq & _ & H).
    apply lbind_inv in H as (w1 & c & C & H). destruct c as [reply|].
    + unfold lret in H. injection H as -> ->. unfold create_check in C. apply lbind_inv in C as (w2 & r & _ & C).
      destruct r as [[l next]|]; [destruct l|]; try discriminate; unfold lret in C; injection C as _ _ <-; apply K; reflexivity.
    + apply lbind_inv in H as (w2 & row & _ & H). unfold create_write in H. apply lbind_inv in H as (w3 & r & _ & H).
      destruct r; [discriminate|]. unfold lret in H. injection H as _ _ <-. apply K. reflexivity.
  - unfold lfs_delete in H. destruct id as [|i0 id]; [unfold lret in H; injection H as _ _ <-; apply K; reflexivity|].
    destruct body as [body|]; [|unfold lret in H; injection H as _ _ <-; apply K; reflexivity].
    apply lbind_inv in H as (w0 & rq & _ & H). apply lbind_inv in H as (w1 & r & _ & H).
    destruct r as [x|]; [|unfold lret in H; injection H as _ _ <-; apply K; reflexivity].
    destruct (_ && _ && _ && _) in H; [|discriminate]. unfold lret in H. injection H as _ _ <-. apply K. reflexivity.
  - unfold lfs_process_batch in H. apply lbind_inv in H as (w0 & [op l] & _ & H). apply lbind_inv in H as (w1 & r & _ & H). discriminate.
  - unfold lfs_upload_object in H. apply lbind_inv in H as (w0 & a & _ & H). apply lbind_inv in H as (w1 & b & _ & H). apply lbind_inv in H as (w2 & c & _ & H).
    destruct c; [discriminate|]. apply lbind_inv in H as (w3 & u & _ & H). unfold lret in H. injection H as _ _ <-. apply K. reflexivity.
  - unfold lfs_download_object in H. repeat (apply lbind_inv in H as (? & ? & _ & H)). discriminate.
Qed.
Lemma messages_no_json : forall m, In m messages -> forall v, ~ document v m.
Proof.
  intros m H v D. destruct (document_read v m D) as (j & E & _).
  assert (Q : forallb (fun m => match jtext m with Some _ => false | None => true end) messages = true) by (vm_compute; reflexivity).
  rewrite forallb_forall in Q. specialize (Q m H). rewrite E in Q. discriminate.
Qed.

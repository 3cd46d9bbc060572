(** Which HTTP requests get an answer (C122), and escapes in the paths of URLs (C123). *)

From Coq Require Import Permutation ZArith.
From Verif Require Import Base BaseLemmas ModelUtils ModelObject ModelPkt ModelStorage ModelProto ModelLfs ModelJson ModelGateway ModelService ModelHttp SpecObject SpecBase
  SpecPkt SpecJson SpecPath SpecStorage SpecLfs SpecGateway SpecService SpecHttp ProofObject ProofUtf8 ProofReq ProofGateway ProofPkt ProofStorage ProofRefs ProofService ProofLfs ProofReply ProofHttp
  ProofPath ProofExample ProofSession StoredZlib PropProto PropGateway PropService PropLocks PropLockList PropContent PropSerde PropHttp ProofSerde ProofGrammar ProofFields ProofWrite.
Open Scope N_scope.

(** ** The handlers of git-lfs *)

Lemma index_none : forall c l, lock_index c l = None <-> ~ In c (map lk_id l).
Proof.
  intros c l. induction l as [|x l IH]; cbn [lock_index map In]; [tauto|]. destruct (beq (lk_id x) c) eqn:E.
  - apply beq_eq in E. split; [discriminate|]. intros H. destruct H. left. exact E.
  - apply beq_neq in E. destruct (lock_index c l); cbn; [split; [discriminate|intros H; exfalso]|].
    + apply H. right. destruct IH as [_ IH]. destruct (in_dec (list_eq_dec N.eq_dec) c (map lk_id l)) as [I|I]; [exact I|]. discriminate (IH I).
    + split; [|reflexivity]. intros _ [K|K]; [exact (E K)|]. exact (proj1 IH eq_refl K).
Qed.
Lemma dec_value_bound : forall l acc, Forall is_digit l -> dec_value acc l < (acc + 1) * 10 ^ nlen l.
Proof.
  induction l as [|c l IH]; intros acc H; [cbn [dec_value nlen length N.of_nat]; rewrite N.pow_0_r; lia|]. inversion H as [|? ? H1 H2]; subst. unfold is_digit in H1.
  cbn [dec_value]. rewrite nlen_cons. rewrite N.add_comm, N.pow_add_r, N.pow_1_r.
  eapply N.lt_le_trans; [apply IH, H2|]. transitivity ((acc + 1) * 10 * 10 ^ nlen l); [apply N.mul_le_mono_r; lia|lia].
Qed.
(** The number of a lock reads as a number. *)
Lemma number_parses : forall id, lock_number id -> exists z, parse_i64 id = Some z /\ (0 <= z)%Z.
Proof.
  intros id [L D]. assert (Dg : Forall is_digit id) by (eapply Forall_impl; [|exact D]; unfold is_digit; cbn; intros; lia).
  pose proof (dec_value_bound id 0 Dg) as B. assert (Ln : nlen id = 8) by (unfold nlen; rewrite L; reflexivity). rewrite Ln in B. change ((0 + 1) * 10 ^ 8) with 100000000 in B.
  assert (P : parse_digits 0 id = Some (dec_value 0 id)) by (apply parse_digits_ok; [exact Dg|change U64 with 18446744073709551616; lia]).
  exists (Z.of_N (dec_value 0 id)). split; [|lia]. destruct id as [|c r]; [discriminate L|]. inversion Dg as [|? ? Dc _]; subst. unfold is_digit in Dc.
  assert (E : parse_i64 (c :: r) = match parse_digits 0 (c :: r) with Some n => if n <=? 9223372036854775807 then Some (Z.of_N n) else None | None => None end).
  { unfold parse_i64, parse_usize. destruct (N.eq_dec c 45); [lia|]. destruct (N.eq_dec c 43); [lia|].
    destruct c as [|p]; [reflexivity|]. do 6 (try (destruct p as [p|p|]; try reflexivity)); lia. }
  rewrite E, P. destruct (N.leb_spec (dec_value 0 (c :: r)) 9223372036854775807); [reflexivity|lia].
Qed.
Lemma cut_total : forall n z l, parse_i64 n = Some z -> n <> [] -> if (z <? 0)%Z then cut_locks n l = Panic else exists x, cut_locks n l = Ok x.
Proof.
  intros n z l P N. unfold cut_locks. destruct n as [|c r]; [contradiction|]. rewrite P. cbn [unwrap_opt bind]. destruct (Z.ltb_spec z 0) as [K|K].
  - destruct (Z.ltb_spec (Z.min z (Z.of_nat (length l))) 0); [reflexivity|lia].
  - destruct (Z.ltb_spec (Z.min z (Z.of_nat (length l))) 0); [lia|]. destruct (Z.ltb_spec (Z.min z (Z.of_nat (length l)) + 1) (Z.of_nat (length l))) as [M|M]; [|cbn [bind]; eauto].
    destruct (nth_error l (Z.to_nat (Z.min z (Z.of_nat (length l))))) as [x|] eqn:E; [cbn [unwrap_opt bind]; eauto|]. apply nth_error_None in E. lia.
Qed.

Lemma object_row_unique : forall v w oid m m', object_row v w oid m -> object_row v w oid m' -> m = m'.
Proof.
  intros v w oid m m' (a & b & E & T & F) (a' & b' & E' & T' & F'). rewrite E in E'. clear E. revert a' F' E'. induction a as [|x a IH]; intros [|y a'] F' E'; cbn [app] in E'; injection E' as E1 E2; subst.
  - reflexivity.
  - inversion F'; congruence.
  - inversion F; congruence.
  - inversion F; inversion F'; subst. exact (IH H2 a' H6 E2).
Qed.
Section Answers.
Context (v : lenv) (w : lfs) (Hv : lenv_ok v) (Ht : table_ok v (l_locks w)) (Q : l_fails w = []).
Definition gives (x : lfs_event) : Prop := exists w' r, lfs_handle v x w = (w', Ok r).
Definition stops (x : lfs_event) : Prop := exists w', lfs_handle v x w = (w', Panic).
Lemma gives_or : forall x, gives x -> stops x -> False.
Proof. intros x (w1 & r & E) (w2 & E2). rewrite E in E2. discriminate. Qed.
Lemma locks_ok : forall ref l, locks_of v w ref l -> Forall lock_ok l.
Proof. intros ref l Hl. destruct (row_of v w ref l Hv Ht Hl) as [[-> _]|(k & _ & _ & _ & _ & _ & [N3 _] & _)]; [constructor|exact N3]. Qed.
Lemma filtered_quiet : forall ref path cursor limit l, locks_of v w ref l ->
  lfs_get_filtered_locks v ref path cursor limit w = (w, filtered_locks path cursor limit l).
Proof. intros. destruct (filtered_any v ref path cursor limit w l Hv Ht H) as (w' & _ & _ & K). apply K, Q. Qed.
Lemma list_gives : forall q, gives (EList q).
Proof.
  intros q. unfold gives. cbn [lfs_handle]. unfold lfs_retrieve_lock. destruct (locks_exist v w (text (q_refspec q)) Hv Ht) as (l & Hl). unfold ltry. unfold lbind at 1.
  rewrite (filtered_quiet _ (text (q_path q)) (text (q_path q)) (text (q_path q)) l Hl). set (p := text (q_path q)).
  assert (K : (exists x, filtered_locks p p p l = Ok x) \/ filtered_locks p p p l = Err EGeneral).
  { unfold filtered_locks. destruct p as [|c r] eqn:Ep; [left; cbn [bind cut_locks]; eauto|]. rewrite <- Ep. destruct (lock_index p l) as [i|] eqn:Ei; [|right; reflexivity]. left. cbn [bind].
    assert (I : In p (map lk_id l)).
    { destruct (in_dec (list_eq_dec N.eq_dec) p (map lk_id l)) as [I|I]; [exact I|]. apply index_none in I. congruence. }
    apply in_map_iff in I as (x & Ex & Ix). pose proof (locks_ok _ _ Hl) as F. rewrite Forall_forall in F. destruct (F x Ix) as (_ & Nx & _). rewrite Ex in Nx.
    destruct (number_parses p Nx) as (z & P & Hz).
    match goal with |- exists x, cut_locks p ?y = Ok x => pose proof (cut_total p z y P) as C end.
    destruct (Z.ltb_spec z 0); [lia|]. apply C. rewrite Ep. discriminate. }
  destruct K as [([l' n] & ->)| ->]; unfold lret; eauto.
Qed.
Lemma lock_gives : forall body id now, gives (ELock body id now) <-> body <> None.
Proof.
  intros body id now. split; [intros (w' & r & E) ->; discriminate E|]. destruct body as [rq|]; [|congruence]. intros _. unfold gives. cbn [lfs_handle]. unfold lfs_create_lock, llift. unfold lbind at 1. cbn [unwrap_opt].
  destruct (locks_exist v w (lr_ref rq) Hv Ht) as (l & Hl). destruct (create_check_any v rq w l Hv Ht Hl) as (w1 & _ & _ & K). destruct (K Q) as [_ E]. rewrite (lbind_ok _ _ _ _ _ _ _ E). clear K E.
  destruct (picks (lr_path rq) l) as [|y ys]; [|unfold lret; eauto]. unfold add_lock_read. destruct (find_lock_any v (lr_ref rq) w) as (w2 & _ & _ & K). destruct (K Q) as [_ E].
  rewrite (lbind_ok _ _ _ _ _ _ _ E). clear K E. unfold create_write, ltry. unfold lbind at 1. unfold add_lock_write.
  assert (X : exists w3 b, (match find (fun r => l_teq v (fst r) (lr_ref rq)) (l_locks w) with
    | Some (k, d) => lbind (llift (row_locks v d)) (fun old => updated (exec_locks (update_lock v k (js_enc v (sort_locks (old ++ [mkLock id (lr_path rq) now None]))))))
    | None => inserted v (exec_locks (insert_lock v (lr_ref rq) (js_enc v (sort_locks [mkLock id (lr_path rq) now None])))) end) w = (w3, Ok b)).
  { destruct (row_of v w (lr_ref rq) l Hv Ht Hl) as [[_ F]|(k & N1 & F & _ & _ & _ & N3 & _)]; rewrite F.
    - destruct (inserted_any v (insert_lock v (lr_ref rq) (js_enc v (sort_locks [mkLock id (lr_path rq) now None]))) w) as (w3 & b & E & _). eauto.
    - assert (D : row_locks v (js_enc v l) = Ok l). { unfold row_locks. destruct (js_back v l Hv (proj1 N3)) as [J1 J2]. rewrite J2. destruct (js_enc v l); [contradiction|reflexivity]. }
      rewrite D. unfold llift. unfold lbind.
      destruct (updated_any (update_lock v k (js_enc v (sort_locks (l ++ [mkLock id (lr_path rq) now None])))) w) as (w3 & b & E & _). eauto. }
  destruct X as (w3 & b & E). rewrite (lbind_ok _ _ _ _ _ _ _ E). destruct b; unfold lret, llift; eauto.
Qed.
Lemma unlock_gives : forall id body, gives (EUnlock id body) <-> (id = [] \/ body <> Some None).
Proof.
  intros id body. split.
  - intros (w' & r & E). destruct id as [|c id]; [left; reflexivity|]. right. intros ->. discriminate E.
  - intros H. unfold gives. cbn [lfs_handle]. unfold lfs_delete. destruct id as [|c id]; [unfold lret; eauto|]. destruct body as [[rq|]|]; [|destruct H as [H|H]; congruence|unfold lret; eauto].
    unfold llift. unfold lbind at 1. cbn [unwrap_opt]. clear H.
    assert (X : exists w3 r, lfs_delete_lock v (ul_ref rq) (c :: id) (ul_force rq) w = (w3, r) /\ ((exists x, r = Ok x) \/ exists e, r = Err e)).
    { unfold lfs_delete_lock. destruct (locks_exist v w (ul_ref rq) Hv Ht) as (l & Hl). destruct (find_lock_any v (ul_ref rq) w) as (w1 & _ & _ & K). destruct (K Q) as [_ E]. rewrite (lbind_ok _ _ _ _ _ _ _ E). clear K E.
      destruct (row_of v w (ul_ref rq) l Hv Ht Hl) as [[-> F]|(k & N1 & F & _ & _ & _ & N3 & _)]; rewrite F; [eexists; eexists; split; [reflexivity|eauto]|].
      assert (D : row_locks v (js_enc v l) = Ok l). { unfold row_locks. destruct (js_back v l Hv (proj1 N3)) as [J1 J2]. rewrite J2. destruct (js_enc v l); [contradiction|reflexivity]. }
      rewrite D. unfold llift. unfold lbind at 1. destruct (scan_locks _ _ l empty_lock) as [[x rest]|]; [|eexists; eexists; split; [reflexivity|eauto]].
      destruct (lk_id x); [eexists; eexists; split; [reflexivity|eauto]|]. destruct rest as [|y rest].
      - unfold lbind. rewrite exec_locks_quiet by exact Q. unfold remove_lock. eexists; eexists; split; [reflexivity|eauto].
      - destruct (updated_any (update_lock v k (js_enc v (y :: rest))) w) as (w3 & ok & E & _). rewrite (lbind_ok _ _ _ _ _ _ _ E). exists w3. destruct ok; eexists; (split; [reflexivity|eauto]). }
    destruct X as (w3 & r & E & [(x & ->)|(e & ->)]); unfold ltry, lbind; rewrite E; [destruct (_ && _)|]; unfold lret; eauto.
Qed.
(** A negative limit stops the handler, unless the cursor is unknown. *)
Definition cursor_known (l : list lock) (c : option bytes) : Prop := text c = [] \/ In (text c) (map lk_id l).
Lemma verify_gives : forall ref cursor limit l, locks_of v w ref l -> (forall z, limit = Some z -> fits z) ->
  gives (EVerify (Some (mkVerify ref cursor limit))) <-> ~ (cursor_known l cursor /\ exists z, limit = Some z /\ (z < 0)%Z).
Proof.
  intros ref cursor limit l Hl Fz. unfold gives. cbn [lfs_handle]. unfold lfs_verify_lock, llift. unfold lbind at 1. cbn [unwrap_opt v_limit v_ref v_cursor]. cbv zeta.
  set (z := if Z.eqb _ 0 then 100%Z else _).
  assert (Zf : fits z /\ ((z < 0)%Z <-> exists y, limit = Some y /\ (y < 0)%Z)).
  { subst z. destruct limit as [y|]; cbn beta iota.
    - specialize (Fz y eq_refl). destruct (Z.eqb_spec y 0) as [->|N]; [split; [unfold fits; lia|split; [lia|intros (u & E & K); injection E as <-; lia]]|].
      split; [exact Fz|]. split; [eauto|intros (u & E & K); injection E as <-; exact K].
    - cbn. split; [unfold fits; lia|split; [lia|intros (u & E & _); discriminate]]. }
  destruct Zf as [Zf Zn]. rewrite <- Zn. clearbody z. unfold ltry. unfold lbind at 1. rewrite (filtered_quiet _ [] (text cursor) (z_text z) l Hl).
  pose proof (parse_z_text z Zf) as P. pose proof (z_text_nonempty z) as Ne. unfold filtered_locks, cursor_known. destruct (text cursor) as [|c r] eqn:Ec.
  - cbn [bind]. pose proof (cut_total (z_text z) z l P Ne) as C. destruct (Z.ltb_spec z 0) as [K|K].
    + rewrite C. split; [intros (w' & r & E); discriminate E|]. intros H. destruct H. split; [left; reflexivity|exact K].
    + destruct C as ([l' n] & ->). split; [intros _ [_ K2]; lia|]. intros _. unfold lret. eauto.
  - destruct (lock_index (c :: r) l) as [i|] eqn:Ei.
    + cbn [bind]. pose proof (cut_total (z_text z) z (skipn i l) P Ne) as C. destruct (Z.ltb_spec z 0) as [K|K].
      * rewrite C. split; [intros (w' & x & E); discriminate E|]. intros H. destruct H. split; [right|exact K].
        destruct (in_dec (list_eq_dec N.eq_dec) (c :: r) (map lk_id l)) as [I|I]; [exact I|]. apply index_none in I. congruence.
      * destruct C as ([l' n] & ->). split; [intros _ [_ K2]; lia|]. intros _. unfold lret. eauto.
    + cbn [bind]. split; [|intros _; unfold lret; eauto]. intros _ [[K|K] _]; [discriminate|]. apply index_none in Ei. exact (Ei K).
Qed.
Lemma download_gives : forall oid, gives (EDownload oid) <-> exists m p d, object_row v w oid m /\ store_path v (mt_oid m) = Ok p /\ can_open v p = true /\ fs_get (l_files w) p = Some d.
Proof.
  intros oid. unfold gives. cbn [lfs_handle]. unfold lfs_download_object. destruct (find_meta_any v oid w) as (w1 & _ & _ & K). destruct (K Q) as [_ E]. clear K. change (lfs_get_meta v oid) with (find_meta_row v oid).
  rewrite (lbind_ok _ _ _ _ _ _ _ E). clear E. pose proof (find_row v w oid) as R. destruct (find (fun r => l_teq v (mt_oid r) oid) (l_meta w)) as [m|] eqn:F.
  - cbn [unwrap_opt]. unfold llift, lbind, store_get. destruct (store_path v (mt_oid m)) as [p|x| |] eqn:P; cbn [unwrap bind].
    + destruct (can_open v p) eqn:C; [destruct (fs_get (l_files w) p) as [d|] eqn:G; cbn [unwrap_opt]|].
      * split; [intros _; exists m, p, d; auto|]. intros _. unfold lret. eauto.
      * split; [intros (w' & r & X); discriminate X|]. intros (m' & p' & d & R' & P' & C' & G'). exfalso. rewrite <- (object_row_unique _ _ _ _ _ R R') in P'. congruence.
      * split; [intros (w' & r & X); discriminate X|]. intros (m' & p' & d & R' & P' & C' & G'). exfalso. rewrite <- (object_row_unique _ _ _ _ _ R R') in P'. congruence.
    + split; [intros (w' & r & X); discriminate X|]. intros (m' & p' & d & R' & P' & C' & G'). exfalso. rewrite <- (object_row_unique _ _ _ _ _ R R') in P'. congruence.
    + split; [intros (w' & r & X); discriminate X|]. intros (m' & p' & d & R' & P' & C' & G'). exfalso. rewrite <- (object_row_unique _ _ _ _ _ R R') in P'. congruence.
    + split; [intros (w' & r & X); discriminate X|]. intros (m' & p' & d & R' & P' & C' & G'). exfalso. rewrite <- (object_row_unique _ _ _ _ _ R R') in P'. congruence.
  - split; [intros (w' & r & X); discriminate X|]. intros (m' & p' & d & (l1 & l2 & El & T & _) & _). exfalso. unfold no_object_row in R. rewrite Forall_forall in R. rewrite (R m') in T; [discriminate|].
    rewrite El. apply in_or_app. right. left. reflexivity.
Qed.
End Answers.

(** ** C122 *)

Section Server.
Context (e : env) (b : build) (c : codec) (fuel : nat) (cut : bytes -> list bytes) (v : lenv).
Notation handle := (http_handle e b c fuel cut v).
(** A response is sent; otherwise the connection is closed without one. *)
Definition replied (d : draw) (rq : http_request) (w : site) : Prop := exists w' r, handle d rq w = (w', Ok r).
Definition steady (w : site) : Prop := reachable v (snd w) /\ l_fails (snd w) = [].

Lemma lfs_replied : forall d m body a x w, lfs_action d body a = Some x ->
  (exists w' r, act e b c fuel cut v d m body a w = (w', Ok r)) <-> gives v (snd w) x.
Proof.
  intros d m body a x w A. unfold act, gives. rewrite A. destruct (lfs_handle v x (snd w)) as [l [r|y| |]]; cbn [bind]; split; intros (w1 & r1 & E); try discriminate E; eauto.
Qed.
Lemma post_replied : forall d path q body a x w, rooted path -> post_spec path (Ok a) -> lfs_action d body a = Some x ->
  replied d (mkHttp MPost path q body) w <-> gives v (snd w) x.
Proof.
  intros d path q body a x w Hr P A. unfold replied. rewrite handle_other by (left; discriminate). rewrite (proj2 (C71_post path None no_fields _ Hr) P). apply (lfs_replied d MPost body a x w A).
Qed.
(** Locks are listed whatever the query. *)
Theorem C122_list : forall d path q body w, lenv_ok v -> steady w -> rooted path -> ends (bs "/locks") path -> (forall oid, ~ names_object path oid) ->
  replied d (mkHttp MGet path q body) w.
Proof.
  intros d path q body w Hv [R F] Hr El Hn. unfold replied. rewrite handle_get by exact Hr. destruct (get_params q) as [n|[s lq]]; [eauto|].
  rewrite (proj2 (C71_get path s lq _ Hr) (get_locks _ _ _ Hn El)). apply (lfs_replied d MGet body (AList lq) (EList lq) w eq_refl). apply list_gives; [exact Hv|apply reachable_table; assumption|exact F].
Qed.
(** Requests with a body of JSON: those that the server can take. *)
Theorem C122_lock : forall d path q body x w, lenv_ok v -> steady w -> rooted path -> ends (bs "/locks") path -> document x body ->
  replied d (mkHttp MPost path q body) w <-> exists p r, takes_lock_request x p r.
Proof.
  intros d path q body x w Hv [R F] Hr El D. rewrite (post_replied d path q body ALock _ w Hr (post_lock _ El) eq_refl). unfold lock_event.
  rewrite (lock_gives v (snd w) Hv (reachable_table _ _ Hv R) F). destruct (C94_exact x body D (dr_id d) (dr_time d)) as (X & _). unfold lock_event in X. split.
  - intros N. destruct (from_text d_lock_request body) as [rq|]; [|congruence]. exists (lr_path rq), (lr_ref rq). apply X. reflexivity.
  - intros (p & r & T). apply (X (mkLockReq p r)) in T. injection T as T. rewrite T. discriminate.
Qed.
Theorem C122_unlock : forall d path q id body x w, lenv_ok v -> steady w -> rooted path -> id <> [] -> ~ In 47 id -> ends (bs "/" ++ id ++ bs "/unlock") path -> document x body ->
  replied d (mkHttp MPost path q body) w <-> exists o r, takes_unlock x o r.
Proof.
  intros d path q id body x w Hv [R F] Hr Ni N El D. rewrite (post_replied d path q body (AUnlock id) _ w Hr (post_unlock _ id N El) eq_refl). unfold unlock_event.
  rewrite (unlock_gives v (snd w) Hv (reachable_table _ _ Hv R) F). destruct (C94_exact x body D id []) as (_ & X & _). unfold unlock_event in X.
  assert (B : body <> []). { intros ->. destruct (document_read _ _ D) as (j & E & _). discriminate E. }
  destruct body as [|z body]; [contradiction|]. split.
  - intros [K|K]; [contradiction|]. destruct (from_text d_unlock (z :: body)) as [rq|]; [|congruence].
    destruct (proj1 (X (ul_force rq) (ul_ref rq))) as (o & T & _); [exists (ul_force rq); destruct rq; split; reflexivity|]. eauto.
  - intros (o & r & T). right. destruct (proj2 (X (match o with Some y => y | None => false end) r) (ex_intro _ o (conj T eq_refl))) as (y & E & _). injection E as E. rewrite E. discriminate.
Qed.
Theorem C122_verify : forall d path q body x w, lenv_ok v -> steady w -> rooted path -> ends (bs "/locks/verify") path -> document x body ->
  replied d (mkHttp MPost path q body) w <->
    exists ref cursor limit l, takes_verify x ref cursor limit /\ locks_of v (snd w) ref l /\ ~ (cursor_known l cursor /\ exists z, limit = Some z /\ (z < 0)%Z).
Proof.
  intros d path q body x w Hv [R F] Hr El D. rewrite (post_replied d path q body AVerify _ w Hr (post_verify _ El) eq_refl). unfold verify_event.
  pose proof (reachable_table _ _ Hv R) as Ht. destruct (C94_exact x body D [] []) as (_ & _ & X & _). unfold verify_event in X.
  assert (Fz : forall ref cursor limit, takes_verify x ref cursor limit -> forall z, limit = Some z -> fits z).
  { intros ref cursor limit (s & y & c1 & n & _ & _ & _ & O) z ->. unfold optional in O. destruct n as [n|]; [|destruct O]. exact (proj2 O). }
  split.
  - intros G. destruct (from_text d_verify body) as [rq|]; [|destruct G as (w' & r & E); discriminate E]. pose proof (proj1 (X rq) eq_refl) as T.
    destruct (locks_exist v (snd w) (v_ref rq) Hv Ht) as (l & Hl). exists (v_ref rq), (v_cursor rq), (v_limit rq), l. split; [exact T|]. split; [exact Hl|].
    destruct rq as [ref cursor limit]. apply (verify_gives v (snd w) Hv Ht F ref cursor limit l Hl (Fz _ _ _ T)). exact G.
  - intros (ref & cursor & limit & l & T & Hl & N). pose proof (proj2 (X (mkVerify ref cursor limit)) T) as E. injection E as E. rewrite E.
    apply (verify_gives v (snd w) Hv Ht F ref cursor limit l Hl (Fz _ _ _ T)). exact N.
Qed.
(** A body that is not JSON. *)
Theorem C122_not_json : forall d path q s body w, rooted path -> In s [bs "/locks"; bs "/locks/verify"; bs "/objects/batch"] -> ends s path -> ~ json_syntax body ->
  ~ replied d (mkHttp MPost path q body) w.
Proof.
  intros d path q s body w Hr Hs El Nj. destruct Hs as [<-|[<-|[<-|[]]]].
  - rewrite (post_replied d path q body ALock _ w Hr (post_lock _ El) eq_refl). intros (w' & r & E). apply Nj, (C94_json_only body (dr_id d) (dr_time d)). left. unfold lock_event in *.
    destruct (from_text d_lock_request body) as [rq|]; [eauto|discriminate E].
  - rewrite (post_replied d path q body AVerify _ w Hr (post_verify _ El) eq_refl). intros (w' & r & E). apply Nj, (C94_json_only body (dr_id d) (dr_time d)). right. right. left. unfold verify_event in *.
    destruct (from_text d_verify body) as [rq|]; [eauto|discriminate E].
  - rewrite (post_replied d path q body ABatch _ w Hr (post_batch _ El) eq_refl). intros (w' & r & E). apply Nj, (C94_json_only body (dr_id d) (dr_time d)). right. right. right. unfold batch_event in *.
    destruct (from_text d_batch body) as [rq|]; [eauto|discriminate E].
Qed.
(** Contents: those that are there. *)
Theorem C122_download : forall d path q body oid w, l_fails (snd w) = [] -> rooted path -> names_object path oid -> (exists r, get_params q = Coq.Init.Datatypes.inr r) ->
  replied d (mkHttp MGet path q body) w <->
    exists m p x, object_row v (snd w) oid m /\ store_path v (mt_oid m) = Ok p /\ can_open v p = true /\ fs_get (l_files (snd w)) p = Some x.
Proof.
  intros d path q body oid w F Hr Hn ([s lq] & P). unfold replied. rewrite handle_get by exact Hr. rewrite P, (proj2 (C71_get path s lq _ Hr) (get_object _ _ _ oid Hn)).
  unfold called. rewrite (lfs_replied d MGet body (ADownload oid) (EDownload oid) w eq_refl). apply download_gives, F.
Qed.
Lemma head_answers : forall path w, env_ok e -> no_failure w -> ~ strictly_below e (w_db w) path -> exists w' h, get_head_object_id e path w = (w', Ok h) /\ no_failure w'.
Proof.
  intros path w He Q Ns. unfold get_head_object_id, search_refs.
  destruct (select_run _ e (fun d => filter (fun r => ModelStorage.like e path (r_repo_path r) && teq e (r_ref_name r) master) (d_refs d)) w Q) as (w1 & E1 & M1). rewrite (mbind_ok _ _ _ _ _ _ _ E1).
  pose proof (proj1 He (w_tick w) _ (filter (fun r => ModelStorage.like e path (r_repo_path r) && teq e (r_ref_name r) master) (d_refs (w_db w)))) as P.
  set (rows := ord e (w_tick w) ref_row _) in *. clearbody rows. pose proof (mv_quiet _ _ _ M1) as Q1.
  assert (Hi : forall x, In x rows <-> In x (d_refs (w_db w)) /\ is_head e path x).
  { intros x. transitivity (In x (filter (fun r => ModelStorage.like e path (r_repo_path r) && teq e (r_ref_name r) master) (d_refs (w_db w)))).
    - split; apply Permutation_in; [exact P|apply Permutation_sym; exact P].
    - rewrite filter_In, andb_true_iff. reflexivity. }
  destruct (find (fun r => beq path (r_repo_path r)) rows) as [r|] eqn:F; [unfold ret; eauto|]. destruct (find (fun r => path_starts_with path (r_repo_path r)) rows) as [r|] eqn:G; [|unfold ret; eauto].
  exfalso. apply Ns. split.
  - apply find_some in G as [I G]. exists r. apply Hi in I. split; [apply I|]. split; [apply I|]. apply starts_with_within, G.
  - intros x I Hx K. apply find_none with (x := x) in F; [rewrite K, beq_refl in F; discriminate|]. apply Hi. split; assumption.
Qed.
(** Discovery: answered unless no service is named. *)
Theorem C122_discovery : forall d path q l body w, env_ok e -> no_failure (fst w) -> rooted path -> ends (bs "/info/refs") path ->
  form l q -> form_text l -> fields_once l -> ~ strictly_below e (w_db (fst w)) (remove_git_suffix path (bs "/info/refs")) ->
  replied d (mkHttp MGet path q body) w <-> exists s, In (bs "service", s) l.
Proof.
  intros d path q l body w He Q Hr El Fo Ft Fn Ns. unfold replied. rewrite handle_get by exact Hr. rewrite (params_once l q Fo Ft Fn).
  pose proof (fun x => field_value l (bs "service") x Fn (or_introl eq_refl)) as V. set (o := find_field (bs "service") _) in *. clearbody o.
  set (lq := mkQuery _ _ _ _ _). clearbody lq. destruct o as [s|].
  - split; [intros _; exists s; apply V; reflexivity|]. intros _. destruct (in_dec (list_eq_dec N.eq_dec) s [bs "git-upload-pack"; bs "git-receive-pack"]) as [I|I].
    + rewrite (proj2 (C71_get path (Some s) lq _ Hr) (get_refs _ _ _ s El eq_refl I)). unfold called, act. cbn [lfs_action git_action]. unfold mbind at 1.
      assert (X : exists w' out, http_info_refs e (remove_git_suffix path (bs "/info/refs")) s (fst w) = (w', Ok out)).
      { unfold http_info_refs. set (repo := remove_git_suffix _ _) in *.
        assert (Ep : exists sv, proto_new repo s Http = Ok (mkProto Http repo (Some sv) [] [])) by (destruct I as [<-|[<-|[]]]; eexists; reflexivity).
        destruct Ep as (sv & Ep). rewrite Ep. unfold lift. unfold mbind at 1. unfold git_info_refs. cbn [pp_service pp_path unwrap_opt]. unfold lift. unfold mbind at 1.
        destruct (head_answers repo (fst w) He Q Ns) as (w1 & h & E1 & Q1). rewrite (mbind_ok _ _ _ _ _ _ _ E1). destruct (refs_listed e repo w1 He Q1) as (w2 & refs & E2 & _).
        rewrite (mbind_ok _ _ _ _ _ _ _ E2). unfold ret. eauto. }
      destruct X as (w' & out & ->). unfold ret. eauto.
    + rewrite (proj2 (C71_get path (Some s) lq _ Hr) (get_bad_service _ _ _ s El eq_refl I)). unfold called, act. cbn [lfs_action git_action]. unfold ret. eauto.
  - rewrite (proj2 (C71_get path None lq _ Hr) (get_no_service _ _ _ El eq_refl)). cbn [called]. split; [intros (w' & r & E); discriminate E|]. intros (s & I). apply V in I. discriminate I.
Qed.
(** Requests for which there is no handler. *)
Theorem C122_unknown : forall d m path q body w, ~ rooted path \/ m = MOther \/ m = MPost /\ (forall s, In s post_suffixes -> ~ ends s path) \/ m = MPut /\ (forall oid, ~ names_object path oid) ->
  replied d (mkHttp m path q body) w.
Proof.
  intros d m path q body w H.
  assert (K : forall st, gateway m path None no_fields = Ok (ARefused st) -> replied d (mkHttp m path q body) w \/ m = MGet /\ rooted path).
  { intros st G. destruct (rooted_dec path) as [Hr|Hr]; [destruct m; [right; auto| | |]; left; unfold replied; rewrite handle_other by (left; discriminate)|left; unfold replied; rewrite handle_other by (right; exact Hr)];
      rewrite G; unfold called, act; cbn [lfs_action git_action]; unfold ret; eauto. }
  destruct (rooted_dec path) as [Hr|Hr].
  - destruct H as [H|[->|[[-> H]|[-> H]]]]; [contradiction| | |].
    + destruct (K 405 (proj1 (C71_other MOther path None no_fields) Hr)) as [X|[X _]]; [exact X|discriminate X].
    + destruct (K 403 (proj2 (C71_post path None no_fields _ Hr) (post_other _ H))) as [X|[X _]]; [exact X|discriminate X].
    + destruct (K 403 (proj2 (C71_put path None no_fields _ Hr) (put_other _ H))) as [X|[X _]]; [exact X|discriminate X].
  - destruct (K 404 (proj2 (C71_other m path None no_fields) Hr)) as [X|[_ X]]; [exact X|contradiction].
Qed.
End Server.

Lemma object_url : forall oid, id_word oid -> names_object (bs "/demo.git/info/lfs/objects/" ++ oid) oid.
Proof. intros oid H. split; [exact H|]. exists (bs "/demo.git/info/lfs"). reflexivity. Qed.
Lemma object_rooted : forall oid, rooted (bs "/demo.git/info/lfs/objects/" ++ oid).
Proof. intros oid. eexists. split; [reflexivity|discriminate]. Qed.
Lemma needs_ref : forall m p r, takes_lock_request (VObj m) p r -> no_member m (bs "ref") -> False.
Proof.
  intros m p r (s & y & L & _) Ns. inversion L as [? ? ? F|]; subst. inversion F as [|? ? ? ? _ F1]; subst. inversion F1 as [|? ? ? ? F2 _]; subst. destruct F2 as (l1 & l2 & -> & _).
  apply Ns. rewrite map_app. apply in_or_app. right. left. reflexivity.
Qed.
(** An id that is well formed but not known, and a lock without a reference, which git-lfs
    clients need not name. *)
Theorem C122_refuted : exists e b c fuel cut v d path1 oid path2 x body w, env_ok e /\ lenv_ok v /\ no_failure (fst w) /\ steady v w /\
  rooted path1 /\ names_object path1 oid /\ rooted path2 /\ ends (bs "/locks") path2 /\ document (VObj x) body /\ member x (bs "path") (VText (bs "a.png")) /\
  ~ replied e b c fuel cut v d (mkHttp MGet path1 [] []) w /\ ~ replied e b c fuel cut v d (mkHttp MPost path2 [] body) w.
Proof.
  exists ex_env, Release, stored, 50%nat, ex_cut, ex_lenv, ex_draw, (bs "/demo.git/info/lfs/objects/" ++ oid1), oid1, (bs "/demo.git/info/lfs/locks"),
    [(bs "path", VText (bs "a.png"))], (json_struct [(bs "path", json_text (bs "a.png"))]), (ex_world, ex_lfs).
  assert (R1 : rooted (bs "/demo.git/info/lfs/objects/" ++ oid1)) by exact (object_rooted oid1).
  assert (R2 : rooted (bs "/demo.git/info/lfs/locks")) by (eexists; split; [reflexivity|discriminate]).
  assert (N1 : names_object (bs "/demo.git/info/lfs/objects/" ++ oid1) oid1) by exact (object_url oid1 oid1_word).
  assert (E2 : ends (bs "/locks") (bs "/demo.git/info/lfs/locks")) by (exists (bs "/demo.git/info/lfs"); reflexivity).
  assert (D : document (VObj [(bs "path", VText (bs "a.png"))]) (json_struct [(bs "path", json_text (bs "a.png"))])) by (apply spells_document, sp_struct; constructor; [write_field; apply sp_string; ascii|constructor]).
  assert (M : member [(bs "path", VText (bs "a.png"))] (bs "path") (VText (bs "a.png"))) by at_member.
  assert (Ns : no_member [(bs "path", VText (bs "a.png"))] (bs "ref")) by absent.
  assert (St : steady ex_lenv (ex_world, ex_lfs)) by (split; [exact ex_reachable|vm_compute; reflexivity]).
  split; [exact ex_env_ok|]. split; [exact ex_lenv_ok|]. split; [exact ex_world_quiet|]. split; [exact St|]. split; [exact R1|]. split; [exact N1|]. split; [exact R2|]. split; [exact E2|].
  split; [exact D|]. split; [exact M|]. split.
  - rewrite (C122_download ex_env Release stored 50 ex_cut ex_lenv ex_draw _ [] [] oid1 (ex_world, ex_lfs)); [|vm_compute; reflexivity|exact R1|exact N1|eexists; reflexivity].
    intros (m & p & y & (l1 & l2 & El & _) & _). assert (Z : l_meta ex_lfs = []) by (vm_compute; reflexivity). cbn [snd] in El. rewrite Z in El. destruct l1; discriminate El.
  - rewrite (C122_lock ex_env Release stored 50 ex_cut ex_lenv ex_draw _ [] _ _ (ex_world, ex_lfs) ex_lenv_ok St R2 E2 D).
    intros (p & r & T). exact (needs_ref _ _ _ T Ns).
Qed.
Lemma upload_steady : steady ex_lenv ex_site.
Proof.
  split; [|vm_compute; reflexivity]. exists ex_upload, ex_start. split; [|split; reflexivity]. unfold ex_upload, ex_batch. repeat constructor.
Qed.
Example C122_ex : lenv_ok ex_lenv /\ steady ex_lenv ex_site /\ env_ok ex_env /\ no_failure (fst ex_site) /\ form ex_fields ex_query /\
  document ex_tree ex_lock_body /\ (exists p r, takes_lock_request ex_tree p r) /\
  (exists m p x, object_row ex_lenv (snd ex_site) oid1 m /\ store_path ex_lenv (mt_oid m) = Ok p /\ can_open ex_lenv p = true /\ fs_get (l_files (snd ex_site)) p = Some x).
Proof.
  split; [exact ex_lenv_ok|]. split; [exact upload_steady|]. split; [exact ex_env_ok|]. split; [exact ex_world_quiet|]. split; [exact ex_form|]. split; [exact ex_document|]. split.
  - destruct (C94_exact ex_tree ex_lock_body ex_document [] []) as (X & _).
    pose proof (C94_lock _ _ _ ex_lock_body [] [] (proj1 C94_ex) ex_document) as E. apply (X (mkLockReq _ _)) in E. eauto.
  - apply download_gives; [vm_compute; reflexivity|]. unfold gives. cbn [lfs_handle].
    destruct C66_ex as (_ & _ & _ & _ & _ & _ & E). unfold ex_site. cbn [snd].
    destruct (lfs_download_object ex_lenv oid1 (fst (lfs_run ex_lenv ex_upload ex_start))) as [w' r]. cbn [snd] in E. rewrite E. eauto.
Qed.
(** ** C123 *)

Theorem C123_literal : forall r s suffix, In suffix git_suffixes -> path_spelt r s -> s <> r -> ~ occurs (bs ".git") s -> ~ occurs suffix s ->
  remove_git_suffix (s ++ bs ".git" ++ suffix) suffix <> r /\ remove_git_suffix (s ++ suffix) suffix <> r.
Proof. intros r s suffix Hs _ N O1 O2. destruct (C69_path s suffix Hs O1 O2) as [-> ->]. split; exact N. Qed.
Definition plain_url : bytes := bs "/demo.git/info/refs".
Definition escaped_url : bytes := bs "/d%65mo.git/info/refs".
Lemma path_self : forall t, forallb (fun b => negb (b =? 37)) t = true -> path_spelt t t.
Proof.
  induction t as [|b t IH]; intros H; [constructor|]. cbn [forallb] in H. apply andb_true_iff in H as [H1 H2]. apply ps_self; [|exact (IH H2)].
  intros ->. discriminate H1.
Qed.
Lemma path_then : forall t1 r1 t2 r2, path_spelt t1 r1 -> path_spelt t2 r2 -> path_spelt (t1 ++ t2) (r1 ++ r2).
Proof. intros t1 r1 t2 r2 H K. induction H; cbn [app] in *; [exact K|constructor; assumption|]. apply (ps_hex a b x y); assumption. Qed.
Lemma escaped_spelt : path_spelt plain_url escaped_url.
Proof.
  unfold plain_url, escaped_url. change (bs "/demo.git/info/refs") with (bs "/d" ++ [16 * 6 + 5] ++ bs "mo.git/info/refs"). change (bs "/d%65mo.git/info/refs") with (bs "/d" ++ bs "%65" ++ bs "mo.git/info/refs").
  apply path_then; [apply path_self; reflexivity|]. apply path_then; [|apply path_self; reflexivity]. apply (ps_hex 6 5 54 53 [] []); [apply (hx_digit 6); lia|apply (hx_digit 5); lia|constructor].
Qed.
Notation asked url := (http_handle ex_env Release stored 50 ex_cut ex_lenv ex_draw (mkHttp MGet url (bs "service=git-upload-pack") []) ex_site).
Definition told (h : bytes) (url : bytes) : bool := match snd (asked url) with Ok r => (rs_status r =? 200) && existsb (starts_with h) (tails (rs_body r)) | _ => false end.
Definition untold (h : bytes) (url : bytes) : bool := match snd (asked url) with Ok r => (rs_status r =? 200) && negb (existsb (starts_with h) (tails (rs_body r))) | _ => false end.
Lemma told_iff : forall h url, told h url = true -> exists r, asked url = (fst (asked url), Ok r) /\ rs_status r = 200 /\ occurs h (rs_body r).
Proof.
  intros h url. unfold told. generalize (asked url). intros [w [r| | |]]; cbn [fst snd]; try discriminate. intros H. apply andb_true_iff in H as [H1 H2]. exists r. split; [reflexivity|].
  split; [apply N.eqb_eq, H1|apply occurs_iff, H2].
Qed.
Lemma untold_iff : forall h url, untold h url = true -> exists r, asked url = (fst (asked url), Ok r) /\ rs_status r = 200 /\ ~ occurs h (rs_body r).
Proof.
  intros h url. unfold untold. generalize (asked url). intros [w [r| | |]]; cbn [fst snd]; try discriminate. intros H. apply andb_true_iff in H as [H1 H2]. exists r. split; [reflexivity|].
  split; [apply N.eqb_eq, H1|]. rewrite occurs_iff. apply negb_true_iff in H2. congruence.
Qed.
Lemma ref_there : forall d, d_refs d = [ex_ref] -> In (r_ref_git_id ex_ref) (map r_ref_git_id (d_refs d)).
Proof. intros d ->. left. reflexivity. Qed.
Theorem C123_refuted : exists e b c fuel cut v d t p1 p2 q w w1 r1 w2 r2, env_ok e /\ no_failure (fst w) /\ path_spelt t p1 /\ path_spelt t p2 /\
  http_handle e b c fuel cut v d (mkHttp MGet p1 q []) w = (w1, Ok r1) /\ http_handle e b c fuel cut v d (mkHttp MGet p2 q []) w = (w2, Ok r2) /\
  rs_status r1 = 200 /\ rs_status r2 = 200 /\ (exists h, occurs h (rs_body r1) /\ In h (map r_ref_git_id (d_refs (w_db (fst w)))) /\ ~ occurs h (rs_body r2)).
Proof.
  destruct (told_iff (r_ref_git_id ex_ref) plain_url) as (r1 & E1 & S1 & O1); [vm_compute; reflexivity|].
  destruct (untold_iff (r_ref_git_id ex_ref) escaped_url) as (r2 & E2 & S2 & O2); [vm_compute; reflexivity|].
  exists ex_env, Release, stored, 50%nat, ex_cut, ex_lenv, ex_draw, plain_url, plain_url, escaped_url, (bs "service=git-upload-pack"), ex_site. eexists. exists r1. eexists. exists r2.
  split; [exact ex_env_ok|]. split; [exact ex_world_quiet|]. split; [apply path_self; reflexivity|]. split; [exact escaped_spelt|]. split; [exact E1|]. split; [exact E2|].
  split; [exact S1|]. split; [exact S2|]. exists (r_ref_git_id ex_ref). split; [exact O1|]. split; [|exact O2].
  exact (ref_there (w_db (fst ex_site)) ex_world_refs).
Qed.
Example C123_ex : path_spelt (bs "/demo") (bs "/d%65mo") /\ bs "/d%65mo" <> bs "/demo" /\ ~ occurs (bs ".git") (bs "/d%65mo") /\ ~ occurs (bs "/info/refs") (bs "/d%65mo").
Proof.
  split; [|split; [discriminate|split; rewrite occurs_iff; vm_compute; discriminate]].
  change (bs "/demo") with (bs "/d" ++ [16 * 6 + 5] ++ bs "mo"). change (bs "/d%65mo") with (bs "/d" ++ bs "%65" ++ bs "mo").
  apply path_then; [apply path_self; reflexivity|]. apply path_then; [|apply path_self; reflexivity]. apply (ps_hex 6 5 54 53 [] []); [apply (hx_digit 6); lia|apply (hx_digit 5); lia|constructor].
Qed.

(** The lock API over HTTP is the book of locks (C130). *)

From Coq Require Import ZArith Permutation Sorting.Sorted.
From Verif Require Import Base BaseLemmas ModelUtils ModelObject ModelPkt ModelStorage ModelProto ModelLfs ModelJson ModelGateway ModelHttp SpecObject SpecBase SpecJson SpecReply SpecLfs SpecPath SpecStorage
  SpecGateway SpecService SpecHttp SpecBook SpecWire ProofUtf8 ProofGateway ProofLfs ProofReply ProofHttp ProofLossy ProofSerde ProofGrammar ProofFields ProofWrite ProofExample StoredZlib
  PropGateway PropProto PropService PropLocks PropLockList PropContent PropSerde PropHttp PropAnswer PropBook.
Open Scope N_scope.
Notation rooted := SpecGateway.rooted.

(** ** Bodies *)

Lemma body_reads : forall {A} (d : jv -> option A) (P : json -> A -> Prop) body, decodes d P -> reads_as P body (from_text d body).
Proof.
  intros A d P body D. split.
  - intros x Hx. destruct (from_text d body) as [a|] eqn:E; [apply (text_decodes d P D x body Hx a), E|].
    intros a Ha. apply (text_decodes d P D x body Hx a) in Ha. congruence.
  - intros N. destruct (from_text d body) as [a|] eqn:E; [|reflexivity]. destruct N. eapply text_syntax, E.
Qed.
Lemma parse_fits : forall t z, parse_i64 t = Some z -> fits z.
Proof.
  intros t z H. assert (K : (exists n, n <= 9223372036854775808 /\ z = (- Z.of_N n)%Z) \/ exists n, n <= 9223372036854775807 /\ z = Z.of_N n).
  { unfold parse_i64 in H. revert H. generalize (parse_usize t). intros u H.
    assert (P : match u with Some n => if n <=? 9223372036854775807 then Some (Z.of_N n) else None | None => None end = Some z -> exists n, n <= 9223372036854775807 /\ z = Z.of_N n).
    { intros G. destruct u as [n|]; [|discriminate]. destruct (N.leb_spec n 9223372036854775807); [|discriminate]. injection G as <-. eauto. }
    destruct t as [|c t]; [right; exact (P H)|]. destruct (N.eq_dec c 45) as [->|N].
    - destruct t as [|c t]; [discriminate|]. destruct (parse_digits 0 (c :: t)) as [n|]; [|discriminate]. destruct (N.leb_spec n 9223372036854775808); [|discriminate]. injection H as <-. left. eauto.
    - right. apply P. rewrite <- H. destruct c as [|p]; [reflexivity|]. do 6 (try (destruct p as [p|p|]; try reflexivity)). contradiction N. reflexivity. }
  unfold fits. destruct K as [(n & L & ->)|(n & L & ->)]; lia.
Qed.
Lemma verify_fits : forall body rq z, from_text d_verify body = Some rq -> v_limit rq = Some z -> fits z.
Proof.
  intros body rq z H E. unfold from_text in H. destruct (jtext body) as [j|]; [|discriminate]. unfold d_verify in H.
  destruct (d_struct _ j) as [[s [|r [|c [|n [|]]]]]|]; try discriminate. destruct (req d_named r); [|discriminate]. destruct (opt s d_string c); [|discriminate].
  destruct (opt s d_i64 n) as [lim|] eqn:O; [|discriminate]. injection H as <-. cbn [v_limit] in E. subst lim. unfold opt in O. destruct n as [n|]; [|destruct s; discriminate].
  unfold d_option in O. destruct n as [| |t| | |]; try discriminate; cbn [d_i64] in O; try discriminate.
  assert (K : parse_i64 t = Some z) by (destruct (after 45 t); [destruct (_ && _); [|discriminate]|destruct (forallb _ _); [|discriminate]]; destruct (parse_i64 t); congruence).
  eapply parse_fits, K.
Qed.

(** ** Queries *)

Lemma once_or_twice : forall k, fields_once k \/ exists k1 n x k2 y k3, k = k1 ++ [(n, x)] ++ k2 ++ [(n, y)] ++ k3 /\ meant n.
Proof.
  induction k as [|[n x] k IH]; [left; intros [|? a] f b g c E; discriminate E|]. destruct IH as [IH|(k1 & m & y & k2 & z & k3 & -> & M)]; [|right; exists ((n, x) :: k1), m, y, k2, z, k3; auto].
  destruct (in_dec (list_eq_dec N.eq_dec) n [bs "service"; bs "refspec"; bs "id"; bs "path"; bs "limit"; bs "cursor"]) as [M|M].
  - destruct (in_dec (list_eq_dec N.eq_dec) n (map fst k)) as [I|I].
    + right. apply in_map_iff in I as ([n' y] & En & I). cbn [fst] in En. subst n'. apply in_split in I as (k2 & k3 & ->). exists [], n, x, k2, y, k3. auto.
    + left. intros [|h a] f b g c E Mf; cbn [app] in E; injection E as E1 E2.
      * subst f. cbn [fst]. intros En. apply I. rewrite E2, map_app. apply in_or_app. right. left. symmetry. exact En.
      * exact (IH a f b g c E2 Mf).
  - left. intros [|h a] f b g c E Mf; cbn [app] in E; injection E as E1 E2; [subst f; contradiction|exact (IH a f b g c E2 Mf)].
Qed.
Lemma query_once : forall q l k, form l q -> repaired_form l k -> fields_once k -> exists s lq, get_params q = Coq.Init.Datatypes.inr (s, lq) /\ query_fields k lq.
Proof.
  intros q l k F R O. unfold get_params. rewrite (form_any l q F), (repaired_mended l k R), (read_once k [] O) by (intros f g []). do 2 eexists. split; [reflexivity|].
  unfold query_fields. cbn [app q_path q_id q_cursor q_limit q_refspec]. repeat split; intros; (apply field_value; [exact O|unfold meant; cbn [In]; tauto]) || (eapply field_value; [exact O|unfold meant; cbn [In]; tauto|eassumption]).
Qed.
Lemma query_cases : forall q, exists l k, form l q /\ repaired_form l k /\
  (fields_once k /\ (exists s lq, get_params q = Coq.Init.Datatypes.inr (s, lq) /\ query_fields k lq) \/ ~ fields_once k /\ exists n, get_params q = inl n).
Proof.
  intros q. destruct (C119_every q) as (l & k & F & R). exists l, k. split; [exact F|]. split; [exact R|].
  destruct (once_or_twice k) as [O|(k1 & n & x & k2 & y & k3 & -> & M)].
  - left. split; [exact O|]. exact (query_once q l k F R O).
  - right. split; [intros O; apply (O k1 (n, x) k2 (n, y) k3 eq_refl M); reflexivity|]. unfold get_params. rewrite (form_any l q F), (repaired_mended l _ R).
    destruct (read_twice k1 n x k2 y k3 [] M) as (m & -> & _). eauto.
Qed.
Lemma refs_no_locks : forall path, ends (bs "/info/refs") path -> (forall oid, ~ names_object path oid) /\ ends (bs "/locks") path -> False.
Proof.
  intros path H [_ K]. pose proof (ends_both _ _ path H K) as B. vm_compute in B. intuition discriminate.
Qed.
Lemma locks_page : forall path, (forall oid, ~ names_object path oid) /\ ends (bs "/locks") path \/ ~ ((forall oid, ~ names_object path oid) /\ ends (bs "/locks") path).
Proof.
  intros path. destruct (object_path path) eqn:Ho; [apply object_path_iff in Ho as (oid & Ho); right; intros [N _]; exact (N oid Ho)|].
  assert (N : forall oid, ~ names_object path oid) by (intros oid K; assert (T : object_path path = true) by (apply object_path_iff; eauto); congruence).
  destruct (ends_in (bs "/locks") path) eqn:E; [left; split; [exact N|apply ends_in_iff, E]|right; intros [_ K]; apply ends_in_iff in K; congruence].
Qed.

(** ** One request *)

Section Server.
Context (e : env) (b : build) (c : codec) (fuel : nat) (cut : bytes -> list bytes) (v : lenv).
Notation handle := (http_handle e b c fuel cut v).
Notation does := (act e b c fuel cut v).
Notation step := (wire_step (l_teq v) (column_room v)).
(** The tables hold what the book says. *)
Definition kept_by (w : site) (bk : book) : Prop :=
  l_fails (snd w) = [] /\ table_ok v (l_locks (snd w)) /\ forall ref, locks_of v (snd w) ref (bk ref).

Lemma act_book : forall d m body a x w w' r bk, lenv_ok v -> key_insert_ok v = true -> kept_by w bk -> draw_ok d -> lfs_action d body a = Some x -> request_ok x ->
  does d m body a w = (w', r) -> exists bk', kept_by w' bk' /\
    (lock_event_kind x -> exists y, book_step (l_teq v) (column_room v) bk x bk' y /\ says (dr_expires d) y r) /\ (~ lock_event_kind x -> bk' = bk).
Proof.
  intros d m body a x w w' r bk Hv Hk (Q & T & B) D A Rx E. unfold act in E. rewrite A in E. destruct (lfs_handle v x (snd w)) as [l y] eqn:H. injection E as <- <-.
  destruct (step_book v x (snd w) bk l y Hv Hk Q T Rx B H) as (bk' & St & B' & Q'). exists bk'. split; [|split].
  - split; [exact Q'|]. split; [|exact B']. pose proof (handle_table v x (snd w) Hv (proj1 Rx) T) as T'. rewrite H in T'. exact T'.
  - intros K. exists y. split; [exact St|]. destruct y as [[s z|s msg]|err| |]; cbn [bind says].
    + pose proof (lock_texts v x (snd w) l s z Hv T (proj1 Rx) K H) as Tx. destruct (body_json (dr_expires d) s z (proj2 (proj2 D)) Tx) as (j & Dj & Rj).
      split; [reflexivity|]. split; [|exists j; split; [exact Dj|exact Rj]]. pose proof (reply_kind v x (snd w) l _ H) as G. cbn in G. unfold fits_event in G.
      destruct x; try contradiction; destruct G as [_ G]; repeat match type of G with exists _, _ => destruct G as (? & G) end; subst z; apply header_one; reflexivity.
    + pose proof (reply_kind v x (snd w) l _ H) as G. cbn in G. unfold error_status in G. split; [reflexivity|]. split; [|reflexivity]. cbn [lfs_response]. apply text_plain. cbn [In] in *. tauto.
    + inversion St; subst; match goal with U : match x with _ => _ end |- _ => destruct x; contradiction end.
    + exact Logic.I.
    + inversion St; subst; match goal with U : match x with _ => _ end |- _ => destruct x; contradiction end.
  - intros K. destruct x; try (destruct K; exact Logic.I); inversion St; subst; try reflexivity; exfalso.
    all: repeat match goal with U : _ \/ _ |- _ => destruct U | U : exists _, _ |- _ => destruct U | U : _ /\ _ |- _ => destruct U end; discriminate.
Qed.
Lemma act_git : forall d m body a w w' r bk, kept_by w bk -> lfs_action d body a = None -> does d m body a w = (w', r) -> kept_by w' bk.
Proof.
  intros d m body a w w' r bk K A E. unfold act in E. rewrite A in E. destruct (git_action e b c fuel cut d m body a (fst w)) as [w1 y]. injection E as <- <-. exact K.
Qed.
Lemma number_alone : forall path id, ~ In 47 id -> ends (bs "/" ++ id ++ bs "/unlock") path -> ends (bs "/unlock") path.
Proof. intros path id _ (a & ->). exists (a ++ bs "/" ++ id). rewrite <- !app_assoc. reflexivity. Qed.
Lemma step_wire : forall d rq w w' r bk, lenv_ok v -> key_insert_ok v = true -> kept_by w bk -> draw_ok d -> handle d rq w = (w', r) ->
  exists bk', step bk d rq bk' r /\ kept_by w' bk'.
Proof.
  intros d rq w w' r bk Hv Hk Kb D E. destruct rq as [m path q body].
  assert (Other : forall a, ~ lock_api (mkHttp m path q body) -> (forall x, lfs_action d body a = Some x -> ~ lock_event_kind x) -> does d m body a w = (w', r) -> exists bk', step bk d (mkHttp m path q body) bk' r /\ kept_by w' bk').
  { intros a Na Ka Ea. exists bk. split; [apply wire_other, Na|]. destruct (lfs_action d body a) as [x|] eqn:A; [|eapply act_git; eassumption].
    assert (Rx : request_ok x) by (specialize (Ka x eq_refl); destruct x; try (destruct Ka; exact Logic.I); split; exact Logic.I).
    destruct (act_book d m body a x w w' r bk Hv Hk Kb D A Rx Ea) as (bk' & K' & _ & Same). rewrite (Same (Ka x eq_refl)) in K'. exact K'. }
  assert (Lock : forall a x, lfs_action d body a = Some x -> lock_event_kind x -> request_ok x -> asks d (mkHttp m path q body) x -> does d m body a w = (w', r) -> exists bk', step bk d (mkHttp m path q body) bk' r /\ kept_by w' bk').
  { intros a x A Kx Rx As Ea. destruct (act_book d m body a x w w' r bk Hv Hk Kb D A Rx Ea) as (bk' & K' & St & _). destruct (St Kx) as (y & Sy & Say). exists bk'. split; [|exact K'].
    exact (wire_book _ _ bk d _ x bk' y r As Sy Say). }
  destruct (rooted_dec path) as [Hr|Hr].
  2:{ rewrite handle_other in E by (right; exact Hr). rewrite (proj2 (C71_other m path None no_fields) Hr) in E. unfold called in E.
      apply (Other (ARefused 404)); [intros [K _]; exact (Hr K)|intros x A; discriminate A|exact E]. }
  destruct m.
  - rewrite handle_get in E by exact Hr. destruct (query_cases q) as (l & k & F & R & G).
    assert (Ap : (forall oid, ~ names_object path oid) -> ends (bs "/locks") path -> lock_api (mkHttp MGet path q body)) by (intros N L; split; [exact Hr|left; auto]).
    assert (Api : lock_api (mkHttp MGet path q body) -> (forall oid, ~ names_object path oid) /\ ends (bs "/locks") path) by (intros [_ [(_ & L & N)|(K & _)]]; [auto|discriminate K]).
    destruct G as [[O (s & lq & Eq & Qf)]|[O (n & Eq)]]; rewrite Eq in E.
    + pose proof (proj1 (C71_get path s lq _ Hr) eq_refl) as P. inversion P as [oid N G|N L G|z L Es Is G|z L Es Is G|L Es G|N L1 L2 G]; rewrite <- G in E; unfold called in E.
      * apply (Other (ADownload oid)); [intros K; exact (proj1 (Api K) oid N)|intros x A; injection A as <-; intros []|exact E].
      * apply (Lock (AList lq) (EList lq)); [reflexivity|exact Logic.I|split; exact Logic.I|eapply asks_list; eassumption|exact E].
      * match type of E with act _ _ _ _ _ _ _ _ _ ?a _ = _ => apply (Other a) end; [intros K; apply (refs_no_locks path L), Api, K|intros x A; discriminate A|exact E].
      * match type of E with act _ _ _ _ _ _ _ _ _ ?a _ = _ => apply (Other a) end; [intros K; apply (refs_no_locks path L), Api, K|intros x A; discriminate A|exact E].
      * injection E as <- <-. exists bk. split; [apply wire_other; intros K; apply (refs_no_locks path L), Api, K|exact Kb].
      * match type of E with act _ _ _ _ _ _ _ _ _ ?a _ = _ => apply (Other a) end; [intros K; exact (L1 (proj2 (Api K)))|intros x A; discriminate A|exact E].
    + injection E as <- <-. exists bk. split; [|exact Kb].
      destruct (locks_page path) as [[N L]|N]; [|apply wire_other; intros K; apply N, Api, K].
      apply (wire_twice _ _ bk d _ l k); [exact (Ap N L)|reflexivity|exact F|exact R|exact O|reflexivity|apply text_plain; cbn; tauto].
  - rewrite handle_other in E by (left; discriminate). pose proof (proj1 (C71_post path None no_fields _ Hr) eq_refl) as P.
    assert (Not : forall s, In s post_suffixes -> ends s path -> (forall s', In s' [bs "/locks"; bs "/locks/verify"; bs "/unlock"] -> s <> s') -> ~ lock_api (mkHttp MPost path q body)).
    { intros s Is Es N [_ [(K & _)|(_ & s' & Is' & Es')]]; [discriminate K|]. assert (Ip : In s' post_suffixes) by (unfold post_suffixes; cbn [In] in *; tauto).
      pose proof (post_alone s s' path Is Ip (N s' Is') Es) as Z. apply (proj2 (ends_in_iff s' path)) in Es'. congruence. }
    assert (Far : forall s, forallb (fun s' => negb (beq s s')) [bs "/locks"; bs "/locks/verify"; bs "/unlock"] = true -> forall s', In s' [bs "/locks"; bs "/locks/verify"; bs "/unlock"] -> s <> s').
    { intros s H s' I ->. rewrite forallb_forall in H. specialize (H s' I). rewrite beq_refl in H. discriminate. }
    assert (Un : forall id, unlock_path path id -> does d MPost body (AUnlock id) w = (w', r) -> exists bk', step bk d (mkHttp MPost path q body) bk' r /\ kept_by w' bk').
    { intros id U Ea. apply (Lock (AUnlock id) (unlock_event id body)); [reflexivity|exact Logic.I|split; exact Logic.I| |exact Ea].
      unfold unlock_event. destruct body as [|z body]; [apply asks_unlock_empty; assumption|].
      apply asks_unlock; [exact Hr|exact U|discriminate|apply (body_reads d_unlock is_unlock), dec_unlock]. }
    inversion P as [L G|L G|id N L G|L G|L G|L G|L G|L G]; rewrite <- G in E; unfold called in E.
    + apply (Lock AVerify (verify_event body)); [reflexivity|exact Logic.I| | |exact E].
      * split; [exact Logic.I|]. unfold verify_event. destruct (from_text d_verify body) as [a|] eqn:V; [|exact Logic.I]. intros z. exact (verify_fits body a z V).
      * apply asks_verify; [exact Hr|exact L|apply (body_reads d_verify is_verify), dec_verify].
    + apply (Lock ALock (lock_event body (dr_id d) (dr_time d))); [reflexivity|exact Logic.I| | |exact E].
      * split; [|exact Logic.I]. exact (proj1 (proj1 (C96_requests body (dr_id d) (dr_time d) (proj1 D) (proj1 (proj2 D))))).
      * apply asks_lock; [exact Hr|exact L|apply (body_reads d_lock_request is_lock_request), dec_lock_request].
    + apply (Un id); [left; split; [exact N|exact L]|exact E].
    + apply (Un []); [right; split; [exact L|reflexivity]|exact E].
    + apply (Other ABatch); [|intros x A; injection A as <-; intros []|exact E]. apply (Not (bs "/objects/batch")); [unfold post_suffixes; cbn [In]; tauto|exact L|apply Far; reflexivity].
    + match type of E with act _ _ _ _ _ _ _ _ _ ?a _ = _ => apply (Other a) end; [|intros x A; discriminate A|exact E]. apply (Not (bs "/git-upload-pack")); [unfold post_suffixes; cbn [In]; tauto|exact L|apply Far; reflexivity].
    + match type of E with act _ _ _ _ _ _ _ _ _ ?a _ = _ => apply (Other a) end; [|intros x A; discriminate A|exact E]. apply (Not (bs "/git-receive-pack")); [unfold post_suffixes; cbn [In]; tauto|exact L|apply Far; reflexivity].
    + match type of E with act _ _ _ _ _ _ _ _ _ ?a _ = _ => apply (Other a) end; [|intros x A; discriminate A|exact E]. intros [_ [(K & _)|(_ & s & Is & Es)]]; [discriminate K|]. apply (L s); [unfold post_suffixes; cbn [In] in *; tauto|exact Es].
  - rewrite handle_other in E by (left; discriminate). assert (No : ~ lock_api (mkHttp MPut path q body)) by (intros [_ [(K & _)|(K & _)]]; discriminate K).
    pose proof (proj1 (C71_put path None no_fields _ Hr) eq_refl) as P. inversion P as [oid N G|N G]; rewrite <- G in E; unfold called in E.
    + apply (Other (AUpload oid)); [exact No|intros x A; injection A as <-; intros []|exact E].
    + match type of E with act _ _ _ _ _ _ _ _ _ ?a _ = _ => apply (Other a) end; [exact No|intros x A; discriminate A|exact E].
  - rewrite handle_other in E by (left; discriminate). rewrite (proj1 (C71_other MOther path None no_fields) Hr) in E. unfold called in E.
    apply (Other (ARefused 405)); [intros [_ [(K & _)|(K & _)]]; discriminate K|intros x A; discriminate A|exact E].
Qed.

(** ** Histories *)

Lemma run_wire : forall l w bk w' rs, lenv_ok v -> key_insert_ok v = true -> kept_by w bk -> Forall (fun a => draw_ok (fst a)) l ->
  http_run e b c fuel cut v l w = (w', rs) -> exists bk', wire_run (l_teq v) (column_room v) bk l bk' rs /\ kept_by w' bk'.
Proof.
  induction l as [|[d rq] l IH]; intros w bk w' rs Hv Hk Kb D E; cbn [http_run] in E; [injection E as <- <-; exists bk; split; [constructor|exact Kb]|].
  inversion D as [|? ? D1 D2]; subst. destruct (handle d rq w) as [w1 r] eqn:E1. destruct (http_run e b c fuel cut v l w1) as [w2 rs2] eqn:E2. injection E as <- <-.
  destruct (step_wire d rq w w1 r bk Hv Hk Kb D1 E1) as (b1 & S1 & K1). destruct (IH w1 b1 w2 rs2 Hv Hk K1 D2 E2) as (b2 & R2 & K2). exists b2. split; [econstructor; eassumption|exact K2].
Qed.
(** From a server without locks: every history of HTTP requests of whatever kind, with its
    responses, is one of the book, and the tables hold what the book says. *)
Theorem C130_wire : forall l w w' rs, lenv_ok v -> key_insert_ok v = true -> l_fails (snd w) = [] -> l_locks (snd w) = [] -> Forall (fun a => draw_ok (fst a)) l ->
  http_run e b c fuel cut v l w = (w', rs) -> exists bk, wire_run (l_teq v) (column_room v) (fun _ => []) l bk rs /\ forall ref, locks_of v (snd w') ref (bk ref).
Proof.
  intros l w w' rs Hv Hk Q L D E. destruct (run_wire l w (fun _ => []) w' rs Hv Hk) as (bk & R & (_ & _ & B)); [|exact D|exact E|eauto].
  split; [exact Q|]. split; [apply empty_table, L|]. intros ref. unfold locks_of. rewrite L. reflexivity.
Qed.

(** A request frees a lock. *)
Definition frees (ref : bytes) (x : lock) (a : draw * http_request) : Prop := exists y, asks (fst a) (snd a) y /\ releases v ref x y.
Lemma run_holds : forall l w bk w' rs ref x, lenv_ok v -> key_insert_ok v = true -> kept_by w bk -> Forall (fun a => draw_ok (fst a)) l -> Forall (fun a => ~ frees ref x a) l -> In x (bk ref) ->
  http_run e b c fuel cut v l w = (w', rs) -> exists bk', kept_by w' bk' /\ In x (bk' ref).
Proof.
  induction l as [|[d rq] l IH]; intros w bk w' rs ref x Hv Hk Kb D F Hx E; cbn [http_run] in E; [injection E as <- <-; exists bk; auto|].
  inversion D as [|? ? D1 D2]; subst. inversion F as [|? ? F1 F2]; subst. destruct (handle d rq w) as [w1 r] eqn:E1. destruct (http_run e b c fuel cut v l w1) as [w2 rs2] eqn:E2. injection E as <- <-.
  destruct (step_wire d rq w w1 r bk Hv Hk Kb D1 E1) as (b1 & S1 & K1). apply (IH w1 b1 w2 rs2 ref x Hv Hk K1 D2 F2); [|exact E2].
  destruct S1 as [y b1 z a As St _|l0 k0 a _ _ _ _ _ _ _|a _]; [|exact Hx|exact Hx].
  apply (book_keeps v _ bk y b1 z ref x Hv St); [|exact Hx|exact (book_compatible v (snd w) bk Hv (proj1 (proj2 Kb)) (proj2 (proj2 Kb)))].
  intros K. apply F1. exists y. auto.
Qed.

Lemma lock_does : forall d path q body x p ref w, rooted path -> ends (bs "/locks") path -> document x body -> takes_lock_request x p ref ->
  handle d (mkHttp MPost path q body) w = does d MPost body ALock w /\ lfs_action d body ALock = Some (ELock (Some (mkLockReq p ref)) (dr_id d) (dr_time d)).
Proof.
  intros d path q body x p ref w Hr El Dx T. rewrite handle_other by (left; discriminate). rewrite (proj2 (C71_post path None no_fields _ Hr) (post_lock _ El)). split; [reflexivity|].
  cbn [lfs_action]. f_equal. destruct (C94_exact x body Dx (dr_id d) (dr_time d)) as (X & _). apply (X (mkLockReq p ref)), T.
Qed.
Lemma lock_event_ok : forall d body o, draw_ok d -> lfs_action d body ALock = Some o -> request_ok o.
Proof.
  intros d body o D A. injection A as <-. split; [|exact Logic.I]. exact (proj1 (proj1 (C96_requests body (dr_id d) (dr_time d) (proj1 D) (proj1 (proj2 D))))).
Qed.
(** A lock that was granted is held until a request frees it: the response names it, its
    path is refused to others, and listing shows it. *)
Theorem C130_held : forall d path q body x p ref w w1 r, lenv_ok v -> key_insert_ok v = true -> steady v w -> draw_ok d -> rooted path -> ends (bs "/locks") path -> document x body -> takes_lock_request x p ref ->
  handle d (mkHttp MPost path q body) w = (w1, Ok r) -> rs_status r = 201 ->
  let lk := mkLock (dr_id d) p (dr_time d) None in
  (exists j, document j (rs_body r) /\ lock_reply lk j) /\
  forall l w' rs, Forall (fun a => draw_ok (fst a)) l -> Forall (fun a => ~ frees ref lk a) l -> http_run e b c fuel cut v l w1 = (w', rs) ->
    (p <> [] -> forall d2 path2 q2 body2 x2, draw_ok d2 -> rooted path2 -> ends (bs "/locks") path2 -> document x2 body2 -> takes_lock_request x2 p ref ->
       exists w2 r2, handle d2 (mkHttp MPost path2 q2 body2) w' = (w2, Ok r2) /\ rs_status r2 = 409) /\
    (forall d2 path2 q2 body2 fs k, draw_ok d2 -> rooted path2 -> ends (bs "/locks") path2 -> (forall oid, ~ names_object path2 oid) -> form fs q2 -> repaired_form fs k -> fields_once k ->
       In (bs "refspec", ref) k -> (forall y, In (bs "path", y) k -> y = []) ->
       exists w2 r2 j ls, handle d2 (mkHttp MGet path2 q2 body2) w' = (w2, Ok r2) /\ rs_status r2 = 200 /\ json_head r2 /\ document j (rs_body r2) /\ list_reply ls [] j /\ In lk ls).
Proof.
  intros d path q body x p ref w w1 r Hv Hk [Hreach Q] D Hr El Dx T E S lk. pose proof (reachable_table v (snd w) Hv Hreach) as Ht. destruct (book_there v (snd w) Hv Ht) as (bk & Hb).
  destruct (lock_does d path q body x p ref w Hr El Dx T) as [Eh A]. rewrite Eh in E. clear Eh.
  destruct (act_book d MPost body ALock _ w w1 (Ok r) bk Hv Hk (conj Q (conj Ht Hb)) D A (lock_event_ok d body _ D A) E) as (b1 & K1 & St & _). destruct (St Logic.I) as (y & Sy & Say). clear St.
  assert (G : y = Ok (ROk 201 (BLock lk)) /\ In lk (b1 ref)).
  { inversion Sy as [p0 r0 i0 n0 l' b2 z Nh [P _] _ W E1 E2 E3|p0 r0 i0 n0 l' msg N1 N2 N3 E1 E2 E3|p0 r0 i0 n0 msg N1 E1 E2 E3| | | | | | | | | |y0 K0 E1 E2 E3|y0 r0 K0 E1 E2 E3]; subst.
    - split; [reflexivity|]. subst z. rewrite W, (proj1 Hv ref). apply (Permutation_in _ (Permutation_sym P)). left. reflexivity.
    - cbn [says] in Say. destruct Say as [Say _]. congruence.
    - cbn [says] in Say. destruct Say as [Say _]. congruence.
    - destruct Say.
    - destruct K0. }
  destruct G as [-> Hx]. cbn [says reply_json] in Say. destruct Say as (_ & _ & Say). split; [exact Say|]. clear Say Sy.
  intros l w' rs Dl Fl Er. destruct (run_holds l w1 b1 w' rs ref lk Hv Hk K1 Dl Fl Hx Er) as (b2 & K2 & Hx2). split.
  - intros Np d2 path2 q2 body2 x2 D2 Hr2 El2 Dx2 T2. destruct (lock_does d2 path2 q2 body2 x2 p ref w' Hr2 El2 Dx2 T2) as [Eh A2]. rewrite Eh.
    destruct (act e b c fuel cut v d2 MPost body2 ALock w') as [w2 r2] eqn:E2.
    destruct (act_book d2 MPost body2 ALock _ w' w2 r2 b2 Hv Hk K2 D2 A2 (lock_event_ok d2 body2 _ D2 A2) E2) as (b3 & _ & St & _). destruct (St Logic.I) as (y & Sy & Say).
    assert (H : SpecBook.held p (b2 ref)) by (left; change p with (lk_path lk); apply in_map, Hx2).
    inversion Sy as [p0 r0 i0 n0 l' b4 z Nh U1 U2 W F1 F2 F3|p0 r0 i0 n0 l' msg N1 N2 N3 F1 F2 F3|p0 r0 i0 n0 msg N1 F1 F2 F3| | | | | | | | | |y0 K0 F1 F2 F3|y0 r0 K0 F1 F2 F3]; subst; try contradiction.
    + destruct r2 as [r2| | |]; try contradiction. destruct Say as [Say _]. eauto.
    + exfalso. repeat match goal with U : _ \/ _ |- _ => destruct U | U : exists _, _ |- _ => destruct U | U : _ /\ _ |- _ => destruct U end; discriminate.
  - intros d2 path2 q2 body2 fs k D2 Hr2 El2 No F R O If Ip. rewrite handle_get by exact Hr2.
    destruct (query_once q2 fs k F R O) as (s1 & lq1 & -> & Qf). destruct Qf as (Fp & _ & _ & _ & Fr).
    rewrite (proj2 (C71_get path2 s1 lq1 _ Hr2) (get_locks _ _ _ No El2)). unfold called. destruct (act e b c fuel cut v d2 MGet body2 (AList lq1) w') as [w2 r2] eqn:E2.
    destruct (act_book d2 MGet body2 (AList lq1) (EList lq1) w' w2 r2 b2 Hv Hk K2 D2 eq_refl (conj Logic.I Logic.I) E2) as (b3 & _ & St & _). destruct (St Logic.I) as (y & Sy & Say).
    assert (Tp : text (q_path lq1) = []) by (destruct (q_path lq1) as [t|] eqn:Eq; [exact (Ip t (proj1 (Fp t) eq_refl))|reflexivity]).
    assert (Tr : text (q_refspec lq1) = ref) by (rewrite (proj2 (Fr ref) If); reflexivity).
    inversion Sy as [ | | | | | |q0 U1 F1 F2 F3|q0 msg U1 U2 F1 F2 F3|q0 l0 s0 next pp U1 U2 U3 F1 F2 F3| | | |y0 K0 F1 F2 F3|y0 r0 K0 F1 F2 F3]; subst; try contradiction.
    + destruct r2 as [r2| | |]; try contradiction. cbn [says reply_json] in Say. destruct Say as (S1 & S2 & j & S3 & S4). exists w2, r2, j, (b3 (text (q_refspec lq1))). auto 7.
    + exfalso. repeat match goal with U : _ \/ _ |- _ => destruct U | U : exists _, _ |- _ => destruct U | U : _ /\ _ |- _ => destruct U end; discriminate.
Qed.
End Server.

Definition ex_locks : bytes := bs "/demo.git/info/lfs/locks".
Definition ex_first_lock : http_request := mkHttp MPost ex_locks [] ex_lock_body.
Definition ex_draw2 : draw := mkDraw 8 (bs "00000008") (bs "2023-05-23T10:00:08+00:00") (bs "2023-05-24T10:00:08+00:00").
Definition ex_after : list (draw * http_request) :=
  [(ex_draw2, mkHttp MGet (bs "/demo.git/info/refs") ex_query []); (ex_draw2, ex_first_lock); (ex_draw2, mkHttp MGet ex_locks (bs "refspec=refs/heads/main") []);
   (ex_draw2, mkHttp MPost (bs "/demo.git/info/lfs/locks/00000006/unlock") [] [])].
Definition ex_status (r : res response) : N := match r with Ok r => rs_status r | _ => 0 end.
Lemma ex_draws : draw_ok ex_draw /\ draw_ok ex_draw2.
Proof.
  split; (split; [split; [reflexivity|apply Forall_forall; intros x H; cbn in H; repeat destruct H as [<-|H]; try contradiction; lia]|split; ascii]).
Qed.
Example C130_ex : lenv_ok ex_lenv /\ key_insert_ok ex_lenv = true /\ l_fails ex_start = [] /\ l_locks ex_start = [] /\ steady ex_lenv (ex_world, ex_start) /\ draw_ok ex_draw /\
  rooted ex_locks /\ ends (bs "/locks") ex_locks /\ document ex_tree ex_lock_body /\ takes_lock_request ex_tree ([240; 159; 152; 128] ++ bs ".png") ex_main /\
  ex_status (snd (ex_handle ex_draw ex_first_lock (ex_world, ex_start))) = 201 /\
  Forall (fun a => draw_ok (fst a)) ex_after /\ Forall (fun a => ~ frees ex_lenv ex_main (mkLock (dr_id ex_draw) ([240; 159; 152; 128] ++ bs ".png") (dr_time ex_draw) None) a) ex_after /\
  map ex_status (snd (http_run ex_env Release stored 50 ex_cut ex_lenv ex_after (fst (ex_handle ex_draw ex_first_lock (ex_world, ex_start))))) = [200; 409; 200; 400].
Proof.
  split; [exact ex_lenv_ok|]. split; [vm_compute; reflexivity|]. split; [reflexivity|]. split; [reflexivity|].
  split; [split; [exists [], ex_start; split; [constructor|split; reflexivity]|reflexivity]|]. split; [exact (proj1 ex_draws)|]. split; [eexists; split; [reflexivity|discriminate]|].
  split; [exists (bs "/demo.git/info/lfs"); reflexivity|]. split; [exact ex_document|]. split.
  { destruct (C94_exact ex_tree ex_lock_body ex_document [] []) as (X & _). pose proof (C94_lock _ _ _ ex_lock_body [] [] (proj1 C94_ex) ex_document) as E. exact (proj1 (X (mkLockReq _ _)) E). }
  split; [vm_compute; reflexivity|]. split; [repeat (constructor; [exact (proj2 ex_draws)|]); constructor|]. split; [|vm_compute; reflexivity].
  assert (No : forall path id, ends_in (bs "/unlock") path = false -> ~ unlock_path path id).
  { intros path id E [[N K]|[-> _]]; [|discriminate E]. apply (number_alone path id N) in K. apply ends_in_iff in K. congruence. }
  unfold ex_after. repeat (apply Forall_cons; [|]); [| | | |apply Forall_nil]; intros (y & As & Re); cbn [fst snd] in As; inversion As; subst; cbn [releases] in Re; try contradiction;
    match goal with K : unlock_path _ _ |- _ => eapply No; [|exact K]; vm_compute; reflexivity end.
Qed.

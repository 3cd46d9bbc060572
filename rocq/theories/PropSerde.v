(** C94-C98: the JSON of git-lfs requests, replies and stored locks. *)

From Coq Require Import ZArith Permutation Sorting.Sorted.
From Verif Require Import Base BaseLemmas ModelObject ModelLfs ModelJson SpecBase SpecIdx SpecLfs SpecJson SpecReply ProofUtf8 ProofSerde ProofFields ProofWrite
  ProofGrammar ProofLfs ProofReply PropLocks.
Open Scope N_scope.

(** ** C94: any spelling of a request *)

Lemma name_taken : forall x n, has_name x n -> takes_name x n.
Proof. intros x n (m & -> & M). exists false. constructor. constructor; [exact M|constructor]. Qed.
Definition field (m : list (bytes * json)) (k : bytes) (o : option json) : Prop := match o with Some x => member m k x | None => no_member m k end.
Lemma maybe_taken : forall {A} m k (f : A -> json) (P : json -> A -> Prop) o, maybe m k f o -> (forall a, o = Some a -> P (f a) a) ->
  exists x, field m k x /\ optional false P x o.
Proof.
  intros A m k f P [a|] H K; [exists (Some (f a)); split; [exact H|apply K; reflexivity]|].
  destruct H as [H|H]; [exists None; split; [exact H|reflexivity]|exists (Some VNull); split; [exact H|reflexivity]].
Qed.
Lemma empty_taken : forall m k t, or_empty m k t -> exists x, field m k x /\ text_or_empty x t.
Proof. intros m k t [H|[H ->]]; [exists (Some (VText t)); split; [exact H|reflexivity]|exists None; split; [exact H|reflexivity]]. Qed.

Theorem C94_lock : forall path ref v body id now, lock_json path ref v -> document v body ->
  lock_event body id now = ELock (Some (mkLockReq path ref)) id now.
Proof.
  intros path ref v body id now (m & x & -> & P & R & X) D. unfold lock_event. f_equal.
  apply (text_decodes _ _ dec_lock_request _ _ D). exists false, x. split; [|apply name_taken, X].
  constructor. constructor; [exact P|]. constructor; [exact R|constructor].
Qed.
Theorem C94_unlock : forall force ref v body id, unlock_json force ref v -> document v body ->
  unlock_event id body = EUnlock id (Some (Some (mkUnlock (match force with Some b => b | None => false end) ref))).
Proof.
  intros force ref v body id (m & x & -> & F & R & X) D. unfold unlock_event.
  assert (E : from_text d_unlock body = Some (mkUnlock (match force with Some b => b | None => false end) ref)).
  { apply (text_decodes _ _ dec_unlock _ _ D). destruct (maybe_taken m (bs "force") VBool takes_bool force F) as (o & O1 & O2); [reflexivity|].
    exists force. split; [|reflexivity]. exists false, o, x. split; [|split; [exact O2|apply name_taken, X]].
    constructor. constructor; [exact O1|]. constructor; [exact R|constructor]. }
  destruct body; [discriminate E|]. rewrite E. reflexivity.
Qed.
Theorem C94_verify : forall ref cursor limit v body, verify_json ref cursor limit v -> (forall z, limit = Some z -> fits z) -> document v body ->
  verify_event body = EVerify (Some (mkVerify ref cursor limit)).
Proof.
  intros ref cursor limit v body (m & x & -> & R & X & C & L) F D. unfold verify_event. f_equal.
  apply (text_decodes _ _ dec_verify _ _ D).
  destruct (maybe_taken m (bs "cursor") VText takes_text cursor C) as (c & C1 & C2); [reflexivity|].
  destruct (maybe_taken m (bs "limit") VInt takes_int limit L) as (n & N1 & N2); [intros z E; split; [reflexivity|apply F, E]|].
  exists false, x, c, n. split; [|split; [apply name_taken, X|split; assumption]].
  constructor. constructor; [exact R|]. constructor; [exact C1|]. constructor; [exact N1|constructor].
Qed.
Theorem C94_batch : forall op l v body, batch_json op l v -> document v body -> batch_event body = EBatch (Some (op, l)).
Proof.
  intros op l v body (m & ts & a & -> & T & O & A & F) D. unfold batch_event. f_equal. apply (text_decodes _ _ dec_batch _ _ D).
  exists false, (VArr (map VText ts)), (VArr a), ts. split; [|split].
  - constructor. constructor; [exact T|]. constructor; [exact O|]. constructor; [exact A|constructor].
  - exists (map VText ts). split; [reflexivity|]. clear T. induction ts; constructor; [reflexivity|assumption].
  - exists a. split; [reflexivity|]. cbn [snd]. clear A. induction F as [|y o a l (H & Z) F IH]; constructor; [|exact IH].
    destruct H as (n & p & b & -> & N1 & N2 & N3 & N4 & N5 & N6).
    apply empty_taken in N3 as (u & U1 & U2), N4 as (q & Q1 & Q2), N5 as (r & R1 & R2), N6 as (t & T1 & T2).
    exists false, u, q, r, t, p, b. split; [|auto]. constructor. repeat (constructor; [assumption|]). constructor.
Qed.
Lemma batch_taken : forall v op l, takes_batch v op l <-> is_batch v (op, l).
Proof.
  intros v op l. split.
  - intros (s & ts & a & L & F). exists s, (VArr (map VText ts)), (VArr a), ts. split; [exact L|]. split.
    + exists (map VText ts). split; [reflexivity|]. clear L. induction ts; constructor; [reflexivity|assumption].
    + exists a. split; [reflexivity|exact F].
  - intros (s & t & x & ts & L & (vs & -> & T) & (a & -> & F)). exists s, ts, a. split; [|exact F].
    replace (map VText ts) with vs; [exact L|]. clear L. induction T as [|y z vs ts Y T IH]; [reflexivity|]. cbn. rewrite Y, IH. reflexivity.
Qed.
(** Exactly which texts are taken, for which request. *)
Theorem C94_exact : forall v body, document v body -> forall id now,
  (forall rq, lock_event body id now = ELock (Some rq) id now <-> takes_lock_request v (lr_path rq) (lr_ref rq)) /\
  (forall force ref, (exists b, unlock_event id body = EUnlock id (Some (Some (mkUnlock b ref))) /\ b = force) <->
     exists o, takes_unlock v o ref /\ force = match o with Some b => b | None => false end) /\
  (forall rq, verify_event body = EVerify (Some rq) <-> takes_verify v (v_ref rq) (v_cursor rq) (v_limit rq)) /\
  (forall op l, batch_event body = EBatch (Some (op, l)) <-> takes_batch v op l).
Proof.
  intros v body D id now. split; [|split; [|split]].
  - intros rq. rewrite <- (text_decodes _ _ dec_lock_request _ _ D rq). unfold lock_event. split; [intros E; injection E; auto|intros ->; reflexivity].
  - intros force ref. assert (B : body <> []).
    { intros ->. destruct (document_read _ _ D) as (j & E & _). discriminate E. }
    pose proof (text_decodes _ _ dec_unlock _ _ D (mkUnlock force ref)) as T. cbn [ul_ref ul_force] in T. unfold is_unlock in T. cbn [ul_ref ul_force] in T.
    rewrite <- T. unfold unlock_event. destruct body as [|c body]; [contradiction|]. split.
    + intros (b & E & ->). injection E. auto.
    + intros ->. exists force. auto.
  - intros rq. rewrite <- (text_decodes _ _ dec_verify _ _ D rq). unfold verify_event. split; [intros E; injection E; auto|intros ->; reflexivity].
  - intros op l. rewrite batch_taken. rewrite <- (text_decodes _ _ dec_batch _ _ D (op, l)). unfold batch_event. split; [intros E; injection E; auto|intros ->; reflexivity].
Qed.
(** A body that is taken is JSON. *)
Theorem C94_json_only : forall body id now,
  ((exists rq, lock_event body id now = ELock (Some rq) id now) \/ (exists rq, unlock_event id body = EUnlock id (Some (Some rq))) \/
   (exists rq, verify_event body = EVerify (Some rq)) \/ (exists rq, batch_event body = EBatch (Some rq))) -> json_syntax body.
Proof.
  intros body id now [(rq & E)|[(rq & E)|[(rq & E)|(rq & E)]]].
  - injection E as E. eapply text_syntax, E.
  - unfold unlock_event in E. destruct body; [discriminate|]. injection E as E. eapply text_syntax, E.
  - injection E as E. eapply text_syntax, E.
  - injection E as E. eapply text_syntax, E.
Qed.
(** A body has one meaning. *)
Theorem C94_one_meaning : forall body x y, document x body -> document y body -> x = y.
Proof. exact document_one. Qed.

(** Blanks, escapes, another order and members that are not known. *)
Definition ex_lock_body : bytes := bs " {""more"": [true, {""x"":null}], ""ref"" :{""name"":""refs\/heads\/main""},
""path"":""\ud83d\uDE00.png"" } ".
Definition ex_tree : json :=
  VObj [(bs "more", VArr [VBool true; VObj [(bs "x", VNull)]]); (bs "ref", VObj [(bs "name", VText ex_main)]); (bs "path", VText ([240; 159; 152; 128] ++ bs ".png"))].
Lemma ex_document : document ex_tree ex_lock_body.
Proof.
  apply document_iff. exists (match jtext ex_lock_body with Some j => j | None => JNull end). split; [vm_compute; reflexivity|].
  assert (E : jtext ex_lock_body = Some (JObj [(bs "more", JArr [JBool true; JObj [(bs "x", JNull)]]);
    (bs "ref", JObj [(bs "name", JStr (bs "refs\/heads\/main"))]); (bs "path", JStr (bs "\ud83d\uDE00.png"))])) by (vm_compute; reflexivity).
  rewrite E. constructor. constructor; [split; [reflexivity|]|constructor; [split; [reflexivity|]|constructor; [split; [reflexivity|]|constructor]]]; cbn [fst snd].
  - constructor. constructor; [constructor|]. constructor; [|constructor]. constructor. constructor; [split; [reflexivity|constructor]|constructor].
  - constructor. constructor; [split; [reflexivity|]|constructor]. constructor. vm_compute. reflexivity.
  - constructor. vm_compute. reflexivity.
Qed.
Example C94_ex : lock_json ([240; 159; 152; 128] ++ bs ".png") ex_main ex_tree /\ document ex_tree ex_lock_body /\
  lock_event ex_lock_body (bs "00000001") [] = ELock (Some (mkLockReq ([240; 159; 152; 128] ++ bs ".png") ex_main)) (bs "00000001") [].
Proof.
  assert (H : lock_json ([240; 159; 152; 128] ++ bs ".png") ex_main ex_tree).
  { eexists _, _. split; [reflexivity|]. split; [at_member|]. split; [at_member|]. eexists. split; [reflexivity|at_member]. }
  split; [exact H|]. split; [exact ex_document|]. apply (C94_lock _ _ _ _ _ _ H ex_document).
Qed.
Definition ex_verify_body : bytes := bs "{""limit"":-12,""cursor"":null,""ref"":{""name"":""refs/heads/main""}}".
Definition ex_verify_tree : json := VObj [(bs "limit", VInt (-12)); (bs "cursor", VNull); (bs "ref", VObj [(bs "name", VText ex_main)])].
Example C94_verify_ex : verify_json ex_main None (Some (-12)%Z) ex_verify_tree /\ document ex_verify_tree ex_verify_body.
Proof.
  split.
  - eexists _, _. split; [reflexivity|]. split; [at_member|]. split; [eexists; split; [reflexivity|at_member]|]. split; [right; at_member|].
    cbn [maybe]. at_member.
  - replace ex_verify_body with (json_struct [(bs "limit", z_text (-12)); (bs "cursor", bs "null"); (bs "ref", json_struct [(bs "name", json_text ex_main)])])
      by (vm_compute; reflexivity).
    apply spells_document, sp_struct. constructor; [write_field; apply sp_z|]. constructor; [write_field; constructor|]. constructor; [write_field|constructor].
    apply sp_struct. constructor; [write_field; apply sp_string; ascii|constructor].
Qed.
Definition ex_batch_body : bytes := bs "{""operation"":""upload"",""transfers"":[""basic""],""objects"":[{""oid"":""abcdef"",""size"":4}],""hash_algo"":""sha256""}".
Definition ex_batch_tree : json :=
  VObj [(bs "operation", VText (bs "upload")); (bs "transfers", VArr [VText (bs "basic")]);
        (bs "objects", VArr [VObj [(bs "oid", VText (bs "abcdef")); (bs "size", VInt 4)]]); (bs "hash_algo", VText (bs "sha256"))].
Example C94_batch_ex : batch_json (bs "upload") [mkObj (bs "abcdef") 4 [] []] ex_batch_tree /\ document ex_batch_tree ex_batch_body.
Proof.
  split.
  - eexists _, [bs "basic"], _. split; [reflexivity|]. split; [at_member|]. split; [at_member|]. split; [at_member|].
    constructor; [|constructor]. split; [|split; discriminate]. eexists _, [], []. split; [reflexivity|]. split; [at_member|]. split; [at_member|].
    repeat (split; [right; split; [absent|reflexivity]|]). right. split; [absent|reflexivity].
  - replace ex_batch_body with (json_struct [(bs "operation", json_text (bs "upload")); (bs "transfers", json_list [json_text (bs "basic")]);
      (bs "objects", json_list [json_struct [(bs "oid", json_text (bs "abcdef")); (bs "size", z_text 4)]]); (bs "hash_algo", json_text (bs "sha256"))])
      by (vm_compute; reflexivity).
    apply spells_document, sp_struct. constructor; [write_field; apply sp_string; ascii|]. constructor; [write_field|].
    { apply sp_list. constructor; [apply sp_string; ascii|constructor]. }
    constructor; [write_field|].
    { apply sp_list. constructor; [|constructor]. apply sp_struct. constructor; [write_field; apply sp_string; ascii|]. constructor; [write_field; apply sp_z|constructor]. }
    constructor; [write_field; apply sp_string; ascii|constructor].
Qed.

(** ** C95: members that the API lets out *)

Lemma no_name : forall m t, document (VObj m) t -> no_member m (bs "ref") ->
  from_text d_lock_request t = None /\ from_text d_unlock t = None /\ from_text d_verify t = None.
Proof.
  intros m t D N.
  assert (K : forall x, ~ member m (bs "ref") x).
  { intros x (l1 & l2 & -> & _). apply N. rewrite map_app. apply in_or_app. right. left. reflexivity. }
  split; [|split].
  - destruct (from_text d_lock_request t) as [a|] eqn:E; [|reflexivity]. exfalso. apply (text_decodes _ _ dec_lock_request _ _ D) in E.
    destruct E as (s & x & L & _). inversion L as [? ? ? F|]; subst. inversion F as [|? ? ? ? _ F2]; subst. inversion F2; subst. eapply K; eassumption.
  - destruct (from_text d_unlock t) as [a|] eqn:E; [|reflexivity]. exfalso. apply (text_decodes _ _ dec_unlock _ _ D) in E.
    destruct E as (f & (s & o & x & L & _) & _). inversion L as [? ? ? F|]; subst. inversion F as [|? ? ? ? _ F2]; subst. inversion F2; subst. eapply K; eassumption.
  - destruct (from_text d_verify t) as [a|] eqn:E; [|reflexivity]. exfalso. apply (text_decodes _ _ dec_verify _ _ D) in E.
    destruct E as (s & x & c & n & L & _). inversion L as [? ? ? F|]; subst. inversion F; subst. eapply K; eassumption.
Qed.
(** Without ref the request is dropped; nothing is changed. *)
Theorem C95_ref_needed : forall v w m body id now, document (VObj m) body -> no_member m (bs "ref") ->
  lfs_handle v (lock_event body id now) w = (w, Panic) /\ (id <> [] -> lfs_handle v (unlock_event id body) w = (w, Panic)) /\
  lfs_handle v (verify_event body) w = (w, Panic).
Proof.
  intros v w m body id now D N. destruct (no_name m body D N) as (A & B & C). unfold lock_event, verify_event, unlock_event. rewrite A, B, C.
  split; [reflexivity|]. split; [|reflexivity]. intros I. assert (Nb : body <> []).
  { intros ->. destruct (document_read _ _ D) as (j & E & _). discriminate E. }
  destruct body; [contradiction|]. destruct id; [contradiction|]. reflexivity.
Qed.
Theorem C95_transfers_needed : forall v w m body, document (VObj m) body -> no_member m (bs "transfers") ->
  lfs_handle v (batch_event body) w = (w, Panic).
Proof.
  intros v w m body D N. unfold batch_event. destruct (from_text d_batch body) as [a|] eqn:E; [|reflexivity]. exfalso.
  apply (text_decodes _ _ dec_batch _ _ D) in E. destruct E as (s & t & l & ts & L & _). inversion L as [? ? ? F|]; subst. inversion F; subst.
  destruct H2 as (l1 & l2 & -> & _). apply N. rewrite map_app. apply in_or_app. right. left. reflexivity.
Qed.
Definition ex_plain_lock : json := VObj [(bs "path", VText (bs "a.png"))].
Definition ex_plain_batch : json :=
  VObj [(bs "operation", VText (bs "download")); (bs "objects", VArr [VObj [(bs "oid", VText (bs "abcdef")); (bs "size", VInt 4)]])].
Theorem C95_refuted : exists v w m1 m2 body1 body2, lenv_ok v /\ reachable v w /\ l_fails w = [] /\
  document (VObj m1) body1 /\ member m1 (bs "path") (VText (bs "a.png")) /\ no_member m1 (bs "ref") /\
  document (VObj m2) body2 /\ member m2 (bs "operation") (VText (bs "download")) /\
  (exists a, member m2 (bs "objects") (VArr [a]) /\ object_json (bs "abcdef") 4 [] [] a) /\ no_member m2 (bs "transfers") /\
  forall id now, lfs_handle v (lock_event body1 id now) w = (w, Panic) /\ lfs_handle v (batch_event body2) w = (w, Panic).
Proof.
  exists ex_lenv, ex_lfs, [(bs "path", VText (bs "a.png"))],
    [(bs "operation", VText (bs "download")); (bs "objects", VArr [VObj [(bs "oid", VText (bs "abcdef")); (bs "size", VInt 4)]])],
    (json_struct [(bs "path", json_text (bs "a.png"))]),
    (json_struct [(bs "operation", json_text (bs "download")); (bs "objects", json_list [json_struct [(bs "oid", json_text (bs "abcdef")); (bs "size", z_text 4)]])]).
  split; [exact ex_lenv_ok|]. split; [exact ex_reachable|]. split; [vm_compute; reflexivity|].
  match goal with |- document ?A ?x /\ _ => assert (D1 : document A x) end.
  { apply spells_document, sp_struct. constructor; [write_field; apply sp_string; ascii|constructor]. }
  split; [exact D1|]. split; [at_member|]. split; [absent|].
  match goal with |- document ?A ?x /\ _ => assert (D2 : document A x) end.
  { apply spells_document, sp_struct. constructor; [write_field; apply sp_string; ascii|]. constructor; [write_field|constructor].
    apply sp_list. constructor; [|constructor]. apply sp_struct. constructor; [write_field; apply sp_string; ascii|]. constructor; [write_field; apply sp_z|constructor]. }
  split; [exact D2|]. split; [at_member|]. split.
  { eexists. split; [at_member|]. eexists _, [], []. split; [reflexivity|]. split; [at_member|]. split; [at_member|].
    repeat (split; [right; split; [absent|reflexivity]|]). right. split; [absent|reflexivity]. }
  split; [absent|]. intros id now. split.
  - apply (C95_ref_needed ex_lenv ex_lfs _ _ id now D1). absent.
  - apply (C95_transfers_needed ex_lenv ex_lfs _ _ D2). absent.
Qed.

(** ** C96: replies *)

Theorem C96_replies : forall v w x w' s b expires, lenv_ok v -> reachable v w -> utf8_text (l_url v) -> Forall (fun r => utf8_text (mt_oid r)) (l_meta w) ->
  request_text x -> json_request x -> utf8_text expires -> lfs_handle v x w = (w', Ok (ROk s b)) ->
  exists j, document j (reply_body expires (ROk s b)) /\ reply_json expires b j.
Proof.
  intros v w x w' s b expires Hv Hr U M T J E H. apply body_json; [exact E|].
  eapply handle_texts; [exact Hv|apply reachable_table; [exact Hv|exact Hr]|exact U|exact M|exact T|exact J|exact H].
Qed.
(** Requests that come as bodies are texts. *)
Theorem C96_requests : forall body id now, lock_number id -> utf8_text now ->
  request_text (lock_event body id now) /\ request_text (unlock_event id body) /\ request_text (verify_event body) /\ request_text (batch_event body).
Proof.
  intros body id now I T. split; [|split; [|split]]; (split; [|]); try exact Logic.I; cbn [event_ok lock_event unlock_event verify_event batch_event].
  - split; [exact I|]. split; [exact T|]. destruct (from_text d_lock_request body) as [rq|] eqn:E; [eapply lock_request_text, E|exact Logic.I].
  - destruct (from_text d_batch body) as [[op l]|] eqn:E; [eapply batch_request_text, E|exact Logic.I].
Qed.
Example C96_ex : reachable ex_lenv ex_lfs /\ utf8_text (l_url ex_lenv) /\ Forall (fun r => utf8_text (mt_oid r)) (l_meta ex_lfs) /\
  snd (lfs_handle ex_lenv (verify_event ex_verify_body) ex_lfs) = Panic /\
  reply_body [] (match snd (lfs_handle ex_lenv (lock_event ex_lock_body (bs "00000011") (bs "2023-05-23T11:00:00+00:00")) ex_lfs) with Ok r => r | _ => RFail 0 [] end) =
    bs "{""lock"":{""id"":""00000011"",""path"":""" ++ [240; 159; 152; 128] ++ bs ".png"",""locked_at"":""2023-05-23T11:00:00+00:00"",""owner"":null},""message"":""""}".
Proof.
  split; [exact ex_reachable|]. split; [ascii|]. split; [constructor|]. split; vm_compute; reflexivity.
Qed.

(** ** C97: errors *)

(** Errors are never JSON. *)
Theorem C97_never : forall v x w w' s m expires, lfs_handle v x w = (w', Ok (RFail s m)) -> forall j, ~ document j (reply_body expires (RFail s m)).
Proof. intros v x w w' s m expires H. apply messages_no_json. eapply fail_messages, H. Qed.
(** A lock that is held: status 409 and a body that is not JSON. *)
Theorem C97_refuted : exists v w x w', lenv_ok v /\ reachable v w /\ l_fails w = [] /\ request_text x /\
  lfs_handle v x w = (w', Ok (RFail 409 (bs "Lock already exist"))) /\
  forall expires j, ~ document j (reply_body expires (RFail 409 (bs "Lock already exist"))).
Proof.
  assert (H : lfs_handle ex_lenv (ELock (Some (mkLockReq (bs "a.png") ex_main)) (bs "00000011") (bs "2023-05-23T11:00:00+00:00")) ex_lfs =
    (ex_lfs, Ok (RFail 409 (bs "Lock already exist")))) by (apply (C61_conflict _ _ _ _ ex_main_locks _ _ ex_lenv_ok ex_reachable);
      [vm_compute; reflexivity|exact ex_locks_of|discriminate|right; left; reflexivity]).
  exists ex_lenv, ex_lfs, (ELock (Some (mkLockReq (bs "a.png") ex_main)) (bs "00000011") (bs "2023-05-23T11:00:00+00:00")), ex_lfs.
  split; [exact ex_lenv_ok|]. split; [exact ex_reachable|]. split; [vm_compute; reflexivity|]. split.
  - split; [|exact I]. apply (Forall_inv (P := event_ok) (l := [])). apply events_check. reflexivity.
  - split; [exact H|]. intros expires. apply (C97_never _ _ _ _ _ _ expires H).
Qed.

(** ** C98: stored locks *)

(** Locks come back as they were stored. *)
Theorem C98_round_trip : forall l, Forall lock_text l -> exists j, document j (write_locks l) /\
  (exists a, j = VArr a /\ Forall2 lock_is l a) /\ read_locks (write_locks l) = Some l.
Proof.
  intros l H. exists (VArr (map lock_tree l)). split; [apply spells_document, locks_spelled, H|].
  split; [exists (map lock_tree l); split; [reflexivity|apply lock_trees_are]|apply locks_read_back, H].
Qed.
(** So serde_json is as the properties of locks (C61-C65) ask, under any collation. *)
Theorem C98_environment : forall teq open_ok wlen key base url, (forall a, teq a a = true) -> (forall a b, teq a b = teq b a) ->
  (forall a b c, teq a b = true -> teq b c = true -> teq a c = true) -> lenv_ok (mkLenv teq write_locks read_locks open_ok wlen key base url).
Proof.
  intros teq open_ok wlen key base url R S T. split; [exact R|]. split; [exact S|]. split; [exact T|].
  split; [intros l H; split; [apply write_locks_some|apply locks_read_back, H]|exact write_fewer].
Qed.
(** And a column written by any other JSON writer is read as it is meant. *)
Theorem C98_other_writers : forall a l text, document (VArr a) text -> Forall2 (fun y x => lock_is x y) a l -> read_locks text = Some l.
Proof.
  intros a l text D F. unfold read_locks. apply (text_decodes _ _ (dec_vec _ _ dec_lock) _ _ D). exists a. split; [reflexivity|]. clear D.
  induction F as [|y x a l H F IH]; constructor; [|exact IH]. destruct H as (m & -> & A & B & C & O). destruct (lk_owner x) as [n|] eqn:E.
  - destruct O as (z & Z & N). exists false, (Some z). rewrite E. split; [|apply name_taken, N].
    constructor. constructor; [exact A|]. constructor; [exact B|]. constructor; [exact C|]. constructor; [exact Z|constructor].
  - destruct O as [O|O]; [exists false, None|exists false, (Some VNull)]; rewrite E; (split; [|reflexivity]);
      constructor; (constructor; [exact A|]); (constructor; [exact B|]); (constructor; [exact C|]); (constructor; [exact O|constructor]).
Qed.
Example C98_ex : Forall lock_text [mkLock (bs "1") ([34; 92; 10; 195; 169] ++ bs "/x") (bs "now") (Some (bs "ann"))] /\
  write_locks [mkLock (bs "1") ([34; 92; 10; 195; 169] ++ bs "/x") (bs "now") (Some (bs "ann"))] =
    bs "[{""id"":""1"",""path"":""\""\\\n" ++ [195; 169] ++ bs "/x"",""locked_at"":""now"",""owner"":{""name"":""ann""}}]".
Proof.
  split; [|vm_compute; reflexivity]. constructor; [|constructor]. split; [ascii|]. split; [ascii|]. split; [ascii|ascii].
Qed.

(** C142: bodies of HTTP requests that arrive in pieces, or not to the end. *)

From Verif Require Import Base BaseLemmas ModelUtils ModelObject ModelPkt ModelStorage ModelProto ModelLfs ModelJson ModelGateway ModelService ModelHttp ModelBody
  SpecObject SpecStorage SpecLfs SpecGateway SpecHttp ProofReq ProofGateway ProofExample ProofLfs StoredZlib PropGateway PropService PropHttp ProofHttp PropLocks PropAnswer.
Open Scope N_scope.

(** The body that whole pieces make. *)
Definition all_of_body (l : list chunk) : bytes := flat_map (fun x => match x with Some d => d | None => [] end) l.
Definition intact (l : list chunk) : Prop := ~ In None l.

Lemma collect_acc : forall l acc, intact l -> collect acc l = Ok (acc ++ all_of_body l).
Proof.
  induction l as [|[x|] l IH]; intros acc H; cbn [collect].
  - unfold all_of_body. cbn. rewrite app_nil_r. reflexivity.
  - rewrite IH by (intros K; apply H; right; exact K). unfold all_of_body. cbn [flat_map]. rewrite app_assoc. reflexivity.
  - destruct H. left. reflexivity.
Qed.
Lemma collect_broken : forall l acc, In None l -> collect acc l = Panic.
Proof. induction l as [|[x|] l IH]; intros acc H; cbn [collect In] in *; [destruct H|destruct H as [H|H]; [discriminate|apply IH, H]|reflexivity]. Qed.

Section Bodies.
Context (e : env) (b : build) (c : codec) (fuel : nat) (cut : bytes -> list bytes) (v : lenv).

Lemma act_same : forall d m l a w, intact l -> act_stream e b c fuel cut v d m l a w = act e b c fuel cut v d m (all_of_body l) a w.
Proof.
  intros d m l a w H. assert (C : collect [] l = Ok (all_of_body l)) by (rewrite collect_acc by exact H; reflexivity).
  unfold act_stream. rewrite C. destruct a; cbn [body_first]; try reflexivity.
  unfold act. cbn [lfs_action lfs_handle]. unfold lfs_upload_stream. rewrite C. reflexivity.
Qed.

(** However the body is cut, the response and the effect are those of the whole body. *)
Theorem C142_pieces : forall d m path q l w, intact l ->
  stream_handle e b c fuel cut v d (mkStream m path q l) w = http_handle e b c fuel cut v d (mkHttp m path q (all_of_body l)) w.
Proof.
  intros d m path q l w H. unfold stream_handle, http_handle. cbn [sm_method sm_path sm_query sm_chunks hr_method hr_path hr_query hr_body].
  assert (A : forall s lq, match gateway m path s lq with Ok a => act_stream e b c fuel cut v d m l a w | Err x => (w, Err x) | Panic => (w, Panic) | OutOfFuel => (w, OutOfFuel) end =
    match gateway m path s lq with Ok a => act e b c fuel cut v d m (all_of_body l) a w | Err x => (w, Err x) | Panic => (w, Panic) | OutOfFuel => (w, OutOfFuel) end).
  { intros s lq. destruct (gateway m path s lq); try reflexivity. apply act_same, H. }
  destruct m; [|apply A|apply A|apply A]. 
  assert (P : match get_params q with inl n => (w, Ok (query_response n)) | Coq.Init.Datatypes.inr (s, lq) => match gateway MGet path s lq with Ok a => act_stream e b c fuel cut v d MGet l a w | Err x => (w, Err x) | Panic => (w, Panic) | OutOfFuel => (w, OutOfFuel) end end =
    match get_params q with inl n => (w, Ok (query_response n)) | Coq.Init.Datatypes.inr (s, lq) => match gateway MGet path s lq with Ok a => act e b c fuel cut v d MGet (all_of_body l) a w | Err x => (w, Err x) | Panic => (w, Panic) | OutOfFuel => (w, OutOfFuel) end end).
  { destruct (get_params q) as [n|[s lq]]; [reflexivity|apply A]. }
  destruct path as [|x [|y p]]; [apply A| |].
  - destruct x as [|x]; [apply A|]. do 6 (try (destruct x as [x|x|]; try apply A)).
  - destruct x as [|x]; [apply A|]. do 6 (try (destruct x as [x|x|]; try apply A)). exact P.
Qed.

Definition answer_to (d : draw) (m : method) (l : list chunk) (w : site) (a : res action) : site * res response :=
  match a with
  | Ok a => act_stream e b c fuel cut v d m l a w
  | Err x => (w, Err x)
  | Panic => (w, Panic)
  | OutOfFuel => (w, OutOfFuel)
  end.
Lemma stream_get : forall d path q l w, rooted path ->
  stream_handle e b c fuel cut v d (mkStream MGet path q l) w = match get_params q with
    | inl n => (w, Ok (query_response n))
    | Coq.Init.Datatypes.inr (s, lq) => answer_to d MGet l w (gateway MGet path s lq)
    end.
Proof. intros d path q l w (p & -> & Hp). destruct p as [|x p]; [congruence|]. unfold stream_handle. cbn [sm_method sm_path sm_query sm_chunks]. destruct (get_params q) as [n|[s lq]]; reflexivity. Qed.
Lemma stream_other : forall d m path q l w, m <> MGet \/ ~ rooted path ->
  stream_handle e b c fuel cut v d (mkStream m path q l) w = answer_to d m l w (gateway m path None (mkQuery None None None None None)).
Proof.
  intros d m path q l w H. unfold stream_handle. cbn [sm_method sm_path sm_query sm_chunks].
  destruct m; try reflexivity. destruct H as [H|H]; [congruence|].
  assert (N : forall x y p, path = x :: y :: p -> x <> 47) by (intros x y p -> ->; apply H; exists (y :: p); split; [reflexivity|discriminate]).
  destruct path as [|x [|y p]]; [reflexivity| |].
  - do 7 (try (destruct x as [|x]; try reflexivity)); do 7 (try (destruct x as [x|x|]; try reflexivity)).
  - specialize (N x y p eq_refl). destruct x as [|x]; [reflexivity|]. do 7 (try (destruct x as [x|x|]; try reflexivity; try congruence)).
Qed.

(** The requests that bring something: those of git and git-lfs that are posted, and
    uploads. *)
Definition brings (m : method) (path : bytes) : Prop :=
  rooted path /\ (m = MPost /\ (exists s, In s post_suffixes /\ ends s path) \/ m = MPut /\ exists oid, names_object path oid).
(** Nothing has happened to tables and files; statements may have been sent. *)
Definition untouched (w w' : site) : Prop :=
  fst w' = fst w /\ l_locks (snd w') = l_locks (snd w) /\ l_meta (snd w') = l_meta (snd w) /\ l_files (snd w') = l_files (snd w) /\
  (l_fails (snd w) = [] -> w' = w).
Lemma untouched_refl : forall w, untouched w w.
Proof. intros w. repeat split. Qed.
Lemma upload_broken : forall d m oid l w, In None l ->
  exists w', act_stream e b c fuel cut v d m l (AUpload oid) w = (w', Panic) /\ untouched w w'.
Proof.
  intros d m oid l [w x] H. unfold act_stream. cbn [fst snd]. unfold lfs_upload_stream, lfs_get_meta, find_meta_row, lbind, lattempt, llift.
  rewrite (collect_broken l [] H). destruct x as [xl xm xf [|y ys]]; cbn [l_fails l_locks l_meta l_files].
  - destruct (find _ xm); eexists; (split; [reflexivity|apply untouched_refl]).
  - destruct y; cbn [negb l_meta].
    + eexists. split; [reflexivity|]. repeat split. intros K. discriminate K.
    + destruct (find _ xm); eexists; (split; [reflexivity|]); repeat split; intros K; discriminate K.
Qed.
(** A body that breaks off: no response, and nothing has happened. *)
Theorem C142_broken : forall d m path q l w, In None l -> brings m path ->
  exists w', stream_handle e b c fuel cut v d (mkStream m path q l) w = (w', Panic) /\ untouched w w'.
Proof.
  intros d m path q l w H (Hr & [(-> & s & Hs & Es)|(-> & oid & Ho)]); (rewrite stream_other by (left; discriminate)); unfold answer_to.
  - destruct (gateway MPost path None (mkQuery None None None None None)) as [a|x| |] eqn:G.
    + assert (B : body_first a = true /\ forall oid, a <> AUpload oid).
      { apply (C71_post path None _ _ Hr) in G. inversion G as [K|K|id N K|K|K|K|K|K]; try (split; [reflexivity|discriminate]).
        contradiction (K s Hs Es). }
      exists w. split; [|apply untouched_refl]. unfold act_stream. rewrite (proj1 B), (collect_broken l [] H). destruct a; try reflexivity. contradiction (proj2 B oid eq_refl).
    + apply (C71_post path None _ _ Hr) in G. inversion G.
    + exists w. split; [reflexivity|apply untouched_refl].
    + apply (C71_post path None _ _ Hr) in G. inversion G.
  - rewrite (proj2 (C71_put path None _ _ Hr) (put_object _ oid Ho)). apply upload_broken, H.
Qed.
(** Of every other request the body is of no consequence, however it comes. *)
Theorem C142_ignored : forall d m path q l l' w, ~ brings m path ->
  stream_handle e b c fuel cut v d (mkStream m path q l) w = stream_handle e b c fuel cut v d (mkStream m path q l') w.
Proof.
  intros d m path q l l' w H.
  assert (A : forall a, body_first a = false -> (forall oid, a <> AUpload oid) -> act_stream e b c fuel cut v d m l a w = act_stream e b c fuel cut v d m l' a w).
  { intros a F N. unfold act_stream. rewrite F. destruct a; try reflexivity. contradiction (N oid eq_refl). }
  destruct (rooted_dec path) as [Hr|Hr].
  - destruct m.
    + rewrite !stream_get by exact Hr. destruct (get_params q) as [n|[s lq]]; [reflexivity|]. unfold answer_to.
      destruct (gateway MGet path s lq) as [a|x| |] eqn:G; try reflexivity. apply (C71_get path s lq _ Hr) in G. inversion G; apply A; try reflexivity; discriminate.
    + rewrite !stream_other by (left; discriminate). unfold answer_to.
      destruct (gateway MPost path None _) as [a|x| |] eqn:G; try reflexivity. apply (C71_post path None _ _ Hr) in G.
      assert (P : ~ exists s, In s post_suffixes /\ ends s path) by (intros P; apply H; split; [exact Hr|left; auto]).
      inversion G as [K|K|id N K|K|K|K|K|K]; try (contradiction P; eexists; split; [|exact K]; cbn; tauto).
      * contradiction P. exists (bs "/unlock"). split; [cbn; tauto|]. destruct K as (p & ->). exists (p ++ bs "/" ++ id). rewrite <- !app_assoc. reflexivity.
      * contradiction P. exists (bs "/unlock"). split; [cbn; tauto|]. exists []. exact K.
      * apply A; [reflexivity|discriminate].
    + rewrite !stream_other by (left; discriminate). unfold answer_to.
      destruct (gateway MPut path None _) as [a|x| |] eqn:G; try reflexivity. apply (C71_put path None _ _ Hr) in G. inversion G as [oid K|K].
      * contradiction H. split; [exact Hr|right; eauto].
      * apply A; [reflexivity|discriminate].
    + rewrite !stream_other by (left; discriminate). rewrite (proj1 (C71_other MOther path None _) Hr). unfold answer_to. apply A; [reflexivity|discriminate].
  - rewrite !stream_other by (right; exact Hr). rewrite (proj2 (C71_other m path None _) Hr). unfold answer_to. apply A; [reflexivity|discriminate].
Qed.
End Bodies.

(** ** Examples *)

Example C142_pieces_ex : intact [Some (bs "{""path"":""a.png"",""re"); Some []; Some (bs "f"":{""name"":""refs/heads/main""}}")] /\
  all_of_body [Some (bs "{""path"":""a.png"",""re"); Some []; Some (bs "f"":{""name"":""refs/heads/main""}}")] = bs "{""path"":""a.png"",""ref"":{""name"":""refs/heads/main""}}".
Proof. split; [|reflexivity]. intros [K|[K|[K|[]]]]; discriminate K. Qed.
(** A lock request whose last byte does not arrive: the lock is taken with it, and not
    without it. *)
Definition lock_body : bytes := bs "{""path"":""a.png"",""ref"":{""name"":""refs/heads/main""}}".
Definition lock_path : bytes := bs "/demo.git/info/lfs/locks".
Example C142_broken_ex : brings MPost lock_path /\ In None [Some (removelast lock_body); None] /\
  (exists w' r, stream_handle ex_env Release stored 50 ex_cut ex_lenv ex_draw (mkStream MPost lock_path [] [Some lock_body]) ex_site = (w', Ok r) /\ rs_status r = 201 /\
     length (l_locks (snd w')) = S (length (l_locks (snd ex_site)))) /\
  stream_handle ex_env Release stored 50 ex_cut ex_lenv ex_draw (mkStream MPost lock_path [] [Some (removelast lock_body); None]) ex_site = (ex_site, Panic).
Proof.
  split; [split; [exists (skipn 1 lock_path); split; [reflexivity|discriminate]|]; left; split; [reflexivity|]; exists (bs "/locks"); split; [cbn; tauto|exists (bs "/demo.git/info/lfs"); reflexivity]|].
  split; [right; left; reflexivity|]. split; [eexists _, _; split; [vm_compute; reflexivity|split; vm_compute; reflexivity]|vm_compute; reflexivity].
Qed.
Example C142_ignored_ex : ~ brings MGet lock_path /\ ~ brings MPost (bs "/demo.git/elsewhere").
Proof.
  split; intros (_ & [(K & s & Hs & Es)|(K & oid & Ho)]); try discriminate K.
  destruct Es as (a & E). apply (f_equal (fun x => hd 0 (rev x))) in E. rewrite rev_app_distr in E.
  cbn [post_suffixes In] in Hs. decompose [or] Hs; subst; try (vm_compute in E; discriminate E); contradiction.
Qed.

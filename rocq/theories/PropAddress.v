(** C141: the repository that an address names over SSH. *)

From Verif Require Import Base BaseLemmas ModelUtils ModelObject ModelPkt ModelStorage ModelProto ModelLfs ModelGateway ModelService
  SpecStorage SpecProto SpecGateway ProofReq ProofUtf8 ProofGateway ProofGraph ProofExample StoredZlib SpecObject SpecIdx SpecBase SpecPack PropGateway PropService PropSsh.
Open Scope N_scope.

(** What a git client sends for the path of an address (git's sq_quote_buf): the path in
    quotes, with a quote and an exclamation mark outside of them behind a backslash. *)
Definition quoted (p : bytes) : bytes :=
  flat_map (fun c => if (c =? 39) || (c =? 33) then [39; 92; c; 39] else [c]) p.
Definition git_command (s : service) (p : bytes) : bytes := service_text s ++ [32; 39] ++ quoted p ++ [39].
(** ssh://host/name.git and ssh://host/name *)
Definition with_git (name : bytes) : bytes := [47] ++ name ++ bs ".git".
Definition without_git (name : bytes) : bytes := [47] ++ name.

Lemma quoted_app : forall a b, quoted (a ++ b) = quoted a ++ quoted b.
Proof. intros. apply flat_map_app. Qed.
Lemma quoted_cons : forall c a, quoted (c :: a) = (if (c =? 39) || (c =? 33) then [39; 92; c; 39] else [c]) ++ quoted a.
Proof. reflexivity. Qed.
Lemma quoted_space : forall p, ~ In 32 p -> ~ In 32 (quoted p).
Proof.
  intros p H I. apply in_flat_map in I as (c & Hc & I). destruct ((c =? 39) || (c =? 33)); cbn [In] in I.
  - destruct I as [I|[I|[I|[I|[]]]]]; try discriminate I. subst c. exact (H Hc).
  - destruct I as [I|[]]. subst c. exact (H Hc).
Qed.
Lemma quoted_plain : forall p, ~ In 39 p -> ~ In 33 p -> quoted p = p.
Proof.
  induction p as [|c p IH]; intros H1 H2; [reflexivity|]. cbn [In] in H1, H2. rewrite quoted_cons.
  destruct (N.eqb_spec c 39); [subst; tauto|]. destruct (N.eqb_spec c 33); [subst; tauto|]. cbn [orb app]. rewrite IH by tauto. reflexivity.
Qed.
Lemma quoted_inj : forall a b, quoted a = quoted b -> a = b.
Proof.
  induction a as [|c a IH]; intros [|d b] H.
  - reflexivity.
  - rewrite quoted_cons in H. destruct ((d =? 39) || (d =? 33)); discriminate H.
  - rewrite quoted_cons in H. destruct ((c =? 39) || (c =? 33)); discriminate H.
  - rewrite !quoted_cons in H.
    destruct (N.eqb_spec c 39) as [C1|C1]; destruct (N.eqb_spec d 39) as [D1|D1];
      destruct (N.eqb_spec c 33) as [C2|C2]; destruct (N.eqb_spec d 33) as [D2|D2]; cbn [orb app] in H;
      injection H; intros; subst; try congruence; f_equal; apply IH; assumption.
Qed.
Lemma service_word : forall s, ~ In 32 (service_text s).
Proof. intros []; vm_compute; intuition discriminate. Qed.

(** The second word of the command and what the server leaves of it. *)
Lemma words_of : forall s w rest, ~ In 32 w -> (rest = [] \/ exists q, rest = 32 :: q) ->
  exists more, split_on 32 (service_text s ++ 32 :: w ++ rest) = service_text s :: w :: more.
Proof.
  intros s w rest Hw Hr. rewrite split_app, (split_word 32 _ (service_word s)). cbn [app]. destruct Hr as [->|[q ->]].
  - rewrite app_nil_r, (split_word 32 _ Hw). eexists. reflexivity.
  - rewrite split_app, (split_word 32 _ Hw). eexists. reflexivity.
Qed.
Definition cut_name (w : bytes) : bytes := firstn (length w - 7) (skipn 2 w).
Lemma cut_slice : forall w, (7 <= length w)%nat -> slice 2 (length w - 5) w = Ok (cut_name w).
Proof.
  intros w L. unfold slice, cut_name. destruct (Nat.leb_spec 2 (length w - 5)); [|lia].
  destruct (Nat.leb_spec (length w - 5) (length w)); [|lia]. cbn [andb]. replace (length w - 5 - 2)%nat with (length w - 7)%nat by lia. reflexivity.
Qed.
Lemma In_firstn_of : forall A n (l : list A) x, In x (firstn n l) -> In x l.
Proof. intros A n l x H. rewrite <- (firstn_skipn n l). apply in_or_app. left. exact H. Qed.
Lemma cut_space : forall w, ~ In 32 w -> ~ In 32 (cut_name w).
Proof.
  intros w H I. apply H. apply In_firstn_of in I. rewrite <- (firstn_skipn 2 w). apply in_or_app. right. exact I.
Qed.
Lemma cut_git : forall name, cut_name (bs "'/" ++ name ++ bs ".git'") = name.
Proof.
  intros name. unfold cut_name. rewrite !app_length. change (length (bs "'/")) with 2%nat. change (length (bs ".git'")) with 5%nat.
  replace (2 + (length name + 5) - 7)%nat with (length name) by lia. cbn [bs app skipn]. rewrite firstn_app, Nat.sub_diag, firstn_all, app_nil_r. reflexivity.
Qed.

(** ** C141 *)

(** Every command, whatever comes behind the second word: of that word the first two and
    the last five bytes are dropped, and what remains is served as the repository of that
    name ending in .git is. *)
Theorem C141_every : forall e s w rest world, ~ In 32 w -> (rest = [] \/ exists q, rest = 32 :: q) -> (7 <= length w)%nat ->
  ssh_command e (service_text s ++ 32 :: w ++ rest) world = ssh_command e (ssh_line s (firstn (length w - 7) (skipn 2 w))) world.
Proof.
  intros e s w rest world Hw Hr L. fold (cut_name w). unfold ssh_command, ssh_line.
  destruct (words_of s w rest Hw Hr) as (more & ->).
  change (bs " '/" ++ cut_name w ++ bs ".git'") with (32 :: (bs "'/" ++ cut_name w ++ bs ".git'")).
  assert (Hq : ~ In 32 (bs "'/" ++ cut_name w ++ bs ".git'")).
  { intros K. apply in_app_or in K as [K|K]; [vm_compute in K; intuition discriminate|].
    apply in_app_or in K as [K|K]; [exact (cut_space w Hw K)|vm_compute in K; intuition discriminate]. }
  rewrite (split_two _ _ (service_word s) Hq). cbn [nth_error unwrap_opt hd].
  assert (Lq : (7 <= length (bs "'/" ++ cut_name w ++ bs ".git'"))%nat).
  { rewrite !app_length. change (length (bs "'/")) with 2%nat. change (length (bs ".git'")) with 5%nat. lia. }
  remember (bs "'/" ++ cut_name w ++ bs ".git'") as q eqn:Eq.
  unfold lift at 1, mbind at 1. unfold lift at 1, mbind at 1. unfold lift at 1, mbind at 1.
  unfold lift at 2, mbind at 3. 
  destruct (Nat.ltb_spec (length w) 5); [lia|]. rewrite (cut_slice w L).
  unfold lift, mbind. destruct (Nat.ltb_spec (length q) 5); [lia|]. rewrite (cut_slice q Lq). subst q. rewrite cut_git. reflexivity.
Qed.
(** A word that is too short for that, or a command of one word, is not answered. *)
Theorem C141_never : forall e s w rest world, ~ In 32 w -> (rest = [] \/ exists q, rest = 32 :: q) -> (length w < 7)%nat ->
  ssh_command e (service_text s ++ 32 :: w ++ rest) world = (world, Panic).
Proof.
  intros e s w rest world Hw Hr L. unfold ssh_command. destruct (words_of s w rest Hw Hr) as (more & ->). cbn [nth_error unwrap_opt hd].
  unfold lift, mbind. destruct (Nat.ltb_spec (length w) 5); [reflexivity|]. unfold slice.
  destruct (Nat.leb_spec 2 (length w - 5)); [lia|]. reflexivity.
Qed.

(** An address with .git names the repository of exactly that name, as git quotes it... *)
Theorem C141_git : forall e s name world, ~ In 32 name ->
  ssh_command e (git_command s (with_git name)) world = ssh_command e (ssh_line s (quoted name)) world.
Proof.
  intros e s name world Hn.
  assert (E : git_command s (with_git name) = ssh_line s (quoted name)); [|rewrite E; reflexivity].
  unfold git_command, with_git, ssh_line. rewrite !quoted_app. cbn. rewrite <- ?app_assoc. reflexivity.
Qed.
(** ... so that different addresses name different repositories. *)
Theorem C141_git_different : forall e s1 s2 n1 n2 w1 w2 w1' w2' p1 p2 r1 r2, ~ In 32 n1 -> ~ In 32 n2 ->
  ssh_command e (git_command s1 (with_git n1)) w1 = (w1', Ok (p1, r1)) ->
  ssh_command e (git_command s2 (with_git n2)) w2 = (w2', Ok (p2, r2)) -> (pp_path p1 = pp_path p2 <-> n1 = n2).
Proof.
  intros e s1 s2 n1 n2 w1 w2 w1' w2' p1 p2 r1 r2 H1 H2 E1 E2. rewrite C141_git in E1, E2 by assumption.
  assert (K : forall s n w w' p r, ~ In 32 n -> ssh_command e (ssh_line s (quoted n)) w = (w', Ok (p, r)) -> pp_path p = quoted n).
  { intros s n w w' p r Hn E. unfold ssh_line in E. change (bs " '/" ++ quoted n ++ bs ".git'") with (32 :: bs "'/" ++ quoted n ++ bs ".git'") in E.
    eapply ssh_repo in E; [apply E|reflexivity|reflexivity|apply service_word|].
    intros I. apply in_app_or in I as [I|I]; [vm_compute in I; intuition discriminate|]. apply in_app_or in I as [I|I]; [exact (quoted_space n Hn I)|vm_compute in I; intuition discriminate]. }
  rewrite (K _ _ _ _ _ _ H1 E1), (K _ _ _ _ _ _ H2 E2). split; [apply quoted_inj|intros ->; reflexivity].
Qed.

(** Without .git the last four letters of the name are dropped instead: the whole session
    is that of another address; names of fewer than four letters are never answered. *)
Theorem C141_plain : forall e s name world, ~ In 32 name -> ~ In 39 name -> ~ In 33 name ->
  ssh_command e (git_command s (without_git name)) world =
    if (length name <? 4)%nat then (world, Panic) else ssh_command e (git_command s (with_git (firstn (length name - 4) name))) world.
Proof.
  intros e s name world H1 H2 H3.
  assert (E : git_command s (without_git name) = service_text s ++ 32 :: (bs "'/" ++ name ++ [39]) ++ []).
  { unfold git_command, without_git. rewrite quoted_app, (quoted_plain name H2 H3), app_nil_r. cbn. rewrite <- ?app_assoc. reflexivity. }
  assert (Hw : ~ In 32 (bs "'/" ++ name ++ [39])).
  { intros K. apply in_app_or in K as [K|K]; [vm_compute in K; intuition discriminate|]. apply in_app_or in K as [K|K]; [contradiction|vm_compute in K; intuition discriminate]. }
  assert (Lw : length (bs "'/" ++ name ++ [39]) = (length name + 3)%nat).
  { rewrite !app_length. change (length (bs "'/")) with 2%nat. cbn [length]. lia. }
  rewrite E. destruct (Nat.ltb_spec (length name) 4) as [L|L].
  - apply C141_never; [exact Hw|left; reflexivity|lia].
  - rewrite C141_every; [|exact Hw|left; reflexivity|lia].
    assert (Hf : forall x, In x (firstn (length name - 4) name) -> In x name) by (intros x; apply In_firstn_of).
    rewrite C141_git by (intros K; exact (H1 (Hf _ K))).
    rewrite quoted_plain; [|intros K; exact (H2 (Hf _ K))|intros K; exact (H3 (Hf _ K))].
    rewrite Lw. replace (length name + 3 - 7)%nat with (length name - 4)%nat by lia. cbn [bs app skipn].
    rewrite (firstn_app _ name). replace (length name - 4 - length name)%nat with O by lia. cbn [firstn]. rewrite app_nil_r. reflexivity.
Qed.
(** In particular two such addresses with the same beginning are one repository, whatever
    the session. *)
Theorem C141_neighbours : forall e b c fuel cut now s packets stem x y world, length x = 4%nat -> length y = 4%nat ->
  (forall k, In k [32; 39; 33] -> ~ In k (stem ++ x) /\ ~ In k (stem ++ y)) ->
  serve e b c fuel cut (QSsh now (git_command s (without_git (stem ++ x))) packets) world =
  serve e b c fuel cut (QSsh now (git_command s (without_git (stem ++ y))) packets) world.
Proof.
  intros e b c fuel cut now s packets stem x y world Lx Ly H. unfold serve, mbind.
  assert (K : forall z, length z = 4%nat -> ~ In 32 (stem ++ z) -> ~ In 39 (stem ++ z) -> ~ In 33 (stem ++ z) ->
    ssh_command e (git_command s (without_git (stem ++ z))) world = ssh_command e (git_command s (with_git stem)) world).
  { intros z Lz A B C. rewrite C141_plain by assumption. rewrite app_length, Lz.
    destruct (Nat.ltb_spec (length stem + 4) 4); [lia|]. replace (length stem + 4 - 4)%nat with (length stem) by lia.
    rewrite firstn_app, Nat.sub_diag, firstn_all, app_nil_r. reflexivity. }
  rewrite (K x), (K y); try assumption; try apply H; cbn [In]; tauto.
Qed.
(** A name with a space is cut at the space and then shortened by five letters. *)
Theorem C141_space : forall e s a b world, ~ In 32 a -> ~ In 39 a -> ~ In 33 a ->
  ssh_command e (git_command s (with_git (a ++ [32] ++ b))) world =
    if (length a <? 5)%nat then (world, Panic) else ssh_command e (git_command s (with_git (firstn (length a - 5) a))) world.
Proof.
  intros e s a b world H1 H2 H3.
  assert (E : git_command s (with_git (a ++ [32] ++ b)) = service_text s ++ 32 :: (bs "'/" ++ a) ++ 32 :: (quoted b ++ bs ".git'")).
  { unfold git_command, with_git. rewrite !quoted_app, (quoted_plain a H2 H3). cbn. rewrite <- ?app_assoc. cbn. rewrite <- ?app_assoc. reflexivity. }
  assert (Hw : ~ In 32 (bs "'/" ++ a)).
  { intros K. apply in_app_or in K as [K|K]; [vm_compute in K; intuition discriminate|contradiction]. }
  assert (Lw : length (bs "'/" ++ a) = (length a + 2)%nat).
  { rewrite !app_length. change (length (bs "'/")) with 2%nat. lia. }
  rewrite E. destruct (Nat.ltb_spec (length a) 5) as [L|L].
  - apply C141_never; [exact Hw|right; eexists; reflexivity|lia].
  - rewrite C141_every; [|exact Hw|right; eexists; reflexivity|lia].
    assert (Hf : forall x, In x (firstn (length a - 5) a) -> In x a) by (intros x; apply In_firstn_of).
    rewrite C141_git by (intros K; exact (H1 (Hf _ K))).
    rewrite quoted_plain; [|intros K; exact (H2 (Hf _ K))|intros K; exact (H3 (Hf _ K))].
    rewrite Lw. replace (length a + 2 - 7)%nat with (length a - 5)%nat by lia. reflexivity.
Qed.

(** ** Examples *)

Definition no_special (p : bytes) : bool := negb (existsb (fun c => (c =? 32) || (c =? 39) || (c =? 33)) p).
Lemma no_special_ok : forall p, no_special p = true -> forall k, In k [32; 39; 33] -> ~ In k p.
Proof.
  intros p H k Hk I. unfold no_special in H. apply negb_true_iff in H. assert (X : existsb (fun c => (c =? 32) || (c =? 39) || (c =? 33)) p = true); [|congruence].
  apply existsb_exists. exists k. split; [exact I|]. cbn [In] in Hk. destruct Hk as [<-|[<-|[<-|[]]]]; reflexivity.
Qed.
Definition seen_in (pat l : bytes) : bool := existsb (starts_with pat) (tails l).
(** A push, then the answer to a command. *)
Definition heard (e : env) (b : build) (c : codec) (fuel : nat) (cut : bytes -> list bytes) (push : request) (cmd x y : bytes) (w : world) : bool :=
  match serve e b c fuel cut push w with
  | (w1, Ok r) => seen_in x r &&
      match ssh_command e cmd w1 with (_, Ok (_, r2)) => seen_in y r2 | _ => false end
  | _ => false
  end.
Lemma heard_true : forall e b c fuel cut push cmd x y w, heard e b c fuel cut push cmd x y w = true ->
  exists w1 r1 w2 pp r2, serve e b c fuel cut push w = (w1, Ok r1) /\ occurs x r1 /\ ssh_command e cmd w1 = (w2, Ok (pp, r2)) /\ occurs y r2.
Proof.
  intros e b c fuel cut push cmd x y w H. unfold heard in H.
  destruct (serve e b c fuel cut push w) as [w1 [r1| | |]] eqn:E1; try discriminate. apply andb_true_iff in H as [H1 H].
  destruct (ssh_command e cmd w1) as [w2 [[pp r2]| | |]] eqn:E2; try discriminate. exists w1, r1, w2, pp, r2.
  split; [reflexivity|]. split; [apply occurs_iff; exact H1|]. split; [exact E2|]. apply occurs_iff. exact H.
Qed.
(** A first push through ssh://host/demo-old, and the greeting of ssh://host/demo-new. *)
Lemma old_heard : heard ex_env Release stored 50 ex_cut (QSsh (fun _ => 7) (git_command ReceivePack (without_git (bs "demo-old"))) [ex_ssh_head; pack_of ex_hist])
  (git_command UploadPack (without_git (bs "demo-new"))) (bs "ok refs/heads/master") (to_plain_str (oid ex_top) ++ bs " HEAD") (world_of db_empty) = true.
Proof. vm_compute. reflexivity. Qed.
(** What is pushed through one address is served through another. *)
Theorem C141_refuted : exists e b c fuel cut now line pack id n1 n2 w w1 r1 w2 pp r2, env_ok e /\ codec_ok c /\ d_refs (w_db w) = [] /\
  n1 <> n2 /\ ~ In 32 n1 /\ ~ In 32 n2 /\
  serve e b c fuel cut (QSsh now (git_command ReceivePack (without_git n1)) [line; pack]) w = (w1, Ok r1) /\ occurs (bs "ok refs/heads/master") r1 /\
  ssh_command e (git_command UploadPack (without_git n2)) w1 = (w2, Ok (pp, r2)) /\ occurs (id ++ bs " HEAD") r2.
Proof.
  destruct (heard_true _ _ _ _ _ _ _ _ _ _ old_heard) as (w1 & r1 & w2 & pp & r2 & E).
  exists ex_env, Release, stored, 50%nat, ex_cut, (fun _ => 7), ex_ssh_head, (pack_of ex_hist), (to_plain_str (oid ex_top)), (bs "demo-old"), (bs "demo-new"), (world_of db_empty), w1, r1, w2, pp, r2.
  split; [exact ex_env_ok|]. split; [exact stored_ok|]. split; [reflexivity|]. split; [discriminate|].
  split; [apply (no_special_ok (bs "demo-old")); [reflexivity|left; reflexivity]|].
  split; [apply (no_special_ok (bs "demo-new")); [reflexivity|left; reflexivity]|]. exact E.
Qed.
(** The premises of the others: a name with a quote, a name without .git, names with the
    same beginning, a name with a space. *)
Example C141_git_ex : ~ In 32 (bs "it's") /\ quoted (bs "it's") <> bs "it's" /\ git_command UploadPack (with_git (bs "it's")) = bs "git-upload-pack '/it'\''s.git'".
Proof. split; [vm_compute; intuition discriminate|]. split; [discriminate|reflexivity]. Qed.
Example C141_plain_ex : git_command UploadPack (without_git (bs "website")) = bs "git-upload-pack '/website'" /\
  forall e world, ssh_command e (bs "git-upload-pack '/website'") world = ssh_command e (bs "git-upload-pack '/web.git'") world /\
    ssh_command e (bs "git-upload-pack '/web'") world = (world, Panic).
Proof.
  split; [reflexivity|]. intros e world. pose proof (no_special_ok (bs "website") eq_refl) as K. pose proof (no_special_ok (bs "web") eq_refl) as K2. split.
  - change (bs "git-upload-pack '/website'") with (git_command UploadPack (without_git (bs "website"))).
    rewrite (C141_plain e UploadPack (bs "website") world (K 32 ltac:(cbn; tauto)) (K 39 ltac:(cbn; tauto)) (K 33 ltac:(cbn; tauto))). reflexivity.
  - change (bs "git-upload-pack '/web'") with (git_command UploadPack (without_git (bs "web"))).
    rewrite (C141_plain e UploadPack (bs "web") world (K2 32 ltac:(cbn; tauto)) (K2 39 ltac:(cbn; tauto)) (K2 33 ltac:(cbn; tauto))). reflexivity.
Qed.
Example C141_neighbours_ex : forall k, In k [32; 39; 33] -> ~ In k (bs "demo" ++ bs "-old") /\ ~ In k (bs "demo" ++ bs "-new").
Proof. intros k Hk. split; apply no_special_ok; auto. Qed.
Example C141_space_ex : forall e world,
  ssh_command e (bs "git-upload-pack '/project one.git'") world = ssh_command e (bs "git-upload-pack '/pr.git'") world /\
  ssh_command e (bs "git-upload-pack '/project two.git'") world = ssh_command e (bs "git-upload-pack '/pr.git'") world /\
  ssh_command e (bs "git-upload-pack '/my app.git'") world = (world, Panic).
Proof.
  intros e world. pose proof (no_special_ok (bs "project") eq_refl) as K. pose proof (no_special_ok (bs "my") eq_refl) as K2.
  change (bs "git-upload-pack '/project one.git'") with (git_command UploadPack (with_git (bs "project" ++ [32] ++ bs "one"))).
  change (bs "git-upload-pack '/project two.git'") with (git_command UploadPack (with_git (bs "project" ++ [32] ++ bs "two"))).
  change (bs "git-upload-pack '/my app.git'") with (git_command UploadPack (with_git (bs "my" ++ [32] ++ bs "app"))).
  rewrite !(C141_space e UploadPack (bs "project") _ world (K 32 ltac:(cbn; tauto)) (K 39 ltac:(cbn; tauto)) (K 33 ltac:(cbn; tauto))).
  rewrite (C141_space e UploadPack (bs "my") (bs "app") world (K2 32 ltac:(cbn; tauto)) (K2 39 ltac:(cbn; tauto)) (K2 33 ltac:(cbn; tauto))).
  repeat split.
Qed.

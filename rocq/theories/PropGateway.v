(** C69-C71: repositories and routes. *)

From Coq Require Import ZArith.
From Verif Require Import Base BaseLemmas ModelUtils ModelObject ModelPkt ModelStorage ModelProto ModelLfs ModelGateway
  SpecStorage SpecLfs SpecGateway ProofReq ProofGateway ProofExample.
Open Scope N_scope.

(** ** C69 *)

Lemma git_pattern : exists p z, bs ".git" = p ++ [z] /\ ~ In z p.
Proof. exists (bs ".gi"), 116. split; [reflexivity|]. intros H. vm_compute in H. intuition discriminate. Qed.
Lemma suffix_pattern : forall s, In s git_suffixes -> exists p z, s = p ++ [z] /\ ~ In z p.
Proof.
  intros s [<-|[<-|[<-|[]]]];
    [exists (bs "/info/ref"), 115|exists (bs "/git-upload-pac"), 107|exists (bs "/git-receive-pac"), 107]; (split; [reflexivity|]); intros H; vm_compute in H; intuition discriminate.
Qed.
Lemma suffix_slash : forall s, In s git_suffixes -> exists r, s = 47 :: r.
Proof. intros s [<-|[<-|[<-|[]]]]; eexists; reflexivity. Qed.
Lemma suffix_kept : forall s, In s git_suffixes -> ~ occurs (bs ".git") s.
Proof.
  intros s Hs (a & b & E). assert (I : In 46 s) by (rewrite E; apply in_or_app; right; left; reflexivity).
  clear E. destruct Hs as [<-|[<-|[<-|[]]]]; vm_compute in I; intuition discriminate.
Qed.
Lemma suffix_removed : forall s repo, In s git_suffixes -> ~ occurs s repo -> replaced s 0 (repo ++ s) = repo.
Proof.
  intros s repo Hs Ho. destruct (suffix_pattern s Hs) as (p & z & -> & Hz). pose proof (replaced_tail p z repo [] Hz Ho) as R.
  rewrite !app_nil_r in R. exact R.
Qed.
(** With and without ".git" at the end. *)
Theorem C69_path : forall repo s, In s git_suffixes -> ~ occurs (bs ".git") repo -> ~ occurs s repo ->
  remove_git_suffix (repo ++ bs ".git" ++ s) s = repo /\ remove_git_suffix (repo ++ s) s = repo.
Proof.
  intros repo s Hs Hg Ho. unfold remove_git_suffix. destruct git_pattern as (p & z & Ep & Hz). split.
  - assert (R : replaced (bs ".git") 0 (repo ++ bs ".git" ++ s) = repo ++ replaced (bs ".git") 0 s) by (rewrite Ep in *; apply replaced_tail; assumption).
    rewrite R, (replaced_none (bs ".git") s); [apply suffix_removed; assumption|discriminate|apply suffix_kept, Hs].
  - rewrite (replaced_none (bs ".git") (repo ++ s)); [apply suffix_removed; assumption|discriminate|].
    destruct (suffix_slash s Hs) as (r & Er). intros K. assert (Hr : ~ occurs (bs ".git") r).
    { intros (a & b & E). apply (suffix_kept s Hs). exists (47 :: a), b. rewrite Er, E. reflexivity. }
    rewrite Er in K. apply occurs_stop in K as [K|K]; [contradiction|contradiction|]. intros I. vm_compute in I. intuition discriminate.
Qed.
(** So different repositories are told apart. *)
Theorem C69_distinct : forall r1 r2 s, In s git_suffixes -> ~ occurs (bs ".git") r1 -> ~ occurs s r1 -> ~ occurs (bs ".git") r2 -> ~ occurs s r2 -> r1 <> r2 ->
  remove_git_suffix (r1 ++ bs ".git" ++ s) s <> remove_git_suffix (r2 ++ bs ".git" ++ s) s.
Proof.
  intros r1 r2 s Hs G1 O1 G2 O2 Hn. rewrite (proj1 (C69_path r1 s Hs G1 O1)), (proj1 (C69_path r2 s Hs G2 O2)). exact Hn.
Qed.
Lemma no_byte : forall (pat l : bytes) c, In c pat -> ~ In c l -> ~ occurs pat l.
Proof. intros pat l c H N (a & b & E). apply N. rewrite E. apply in_or_app. right. apply in_or_app. left. exact H. Qed.
Example C69_ex : In (bs "/info/refs") git_suffixes /\ ~ occurs (bs ".git") (bs "/org1/apps/App2") /\ ~ occurs (bs "/info/refs") (bs "/org1/apps/App2") /\
  remove_git_suffix (bs "/org1/apps/App2.git/info/refs") (bs "/info/refs") = bs "/org1/apps/App2".
Proof.
  split; [left; reflexivity|]. split; [apply (no_byte _ _ 46); [left; reflexivity|intros I; vm_compute in I; intuition discriminate]|].
  split; [apply (no_byte _ _ 102); vm_compute; intuition discriminate|]. vm_compute. reflexivity.
Qed.
(** Every occurrence is removed: two repositories become one, and a name is changed. *)
Theorem C69_refuted : exists r1 r2 s, In s git_suffixes /\ r1 <> r2 /\ remove_git_suffix (r1 ++ bs ".git" ++ s) s = remove_git_suffix (r2 ++ bs ".git" ++ s) s.
Proof. exists (bs "/u/me.github.io"), (bs "/u/mehub.io"), (bs "/info/refs"). split; [left; reflexivity|]. split; [discriminate|vm_compute; reflexivity]. Qed.
Theorem C69_suffix_refuted : exists r1 r2 s, In s git_suffixes /\ r1 <> r2 /\ ~ occurs (bs ".git") r1 /\ ~ occurs (bs ".git") r2 /\
  remove_git_suffix (r1 ++ bs ".git" ++ s) s = remove_git_suffix (r2 ++ bs ".git" ++ s) s.
Proof.
  exists (bs "/u/info/refs/x"), (bs "/u/x"), (bs "/info/refs"). split; [left; reflexivity|]. split; [discriminate|].
  split; [apply (no_byte _ _ 46); [left; reflexivity|intros I; vm_compute in I; intuition discriminate]|].
  split; [apply (no_byte _ _ 46); [left; reflexivity|intros I; vm_compute in I; intuition discriminate]|vm_compute; reflexivity].
Qed.

(** ** C71 *)

Lemma names_last : forall path oid, names_object path oid -> exists a, path = a ++ 47 :: oid /\ ~ In 47 oid.
Proof.
  intros path oid [Hw (a & ->)]. exists (a ++ bs "/objects"). split; [|apply word_no_slash, Hw]. rewrite <- app_assoc. reflexivity.
Qed.
Lemma names_unique : forall path o1 o2, names_object path o1 -> names_object path o2 -> o1 = o2.
Proof.
  intros path o1 o2 H1 H2. apply names_last in H1 as (a & E1 & N1). apply names_last in H2 as (b & E2 & N2). rewrite E1 in E2.
  destruct (last_unique _ _ _ _ _ E2 N1 N2) as [_ E]. exact E.
Qed.
Lemma names_refs : forall path oid, names_object path oid -> ~ ends (bs "/info/refs") path.
Proof.
  intros path oid [Hw (a & E)] (b & E2). rewrite E in E2. pose proof (word_no_slash _ Hw) as Nw.
  replace (a ++ bs "/objects/" ++ oid) with ((a ++ bs "/objects") ++ 47 :: oid) in E2 by (rewrite <- app_assoc; reflexivity).
  replace (b ++ bs "/info/refs") with ((b ++ bs "/info") ++ 47 :: bs "refs") in E2 by (rewrite <- app_assoc; reflexivity).
  destruct (last_unique _ _ _ _ _ E2 Nw) as [E3 _]; [intros I; vm_compute in I; intuition discriminate|].
  assert (L : last (a ++ bs "/objects") 0 = last (b ++ bs "/info") 0) by (rewrite E3; reflexivity).
  change (bs "/objects") with (bs "/object" ++ [115]) in L. change (bs "/info") with (bs "/inf" ++ [111]) in L. rewrite !app_assoc, !last_last in L. discriminate.
Qed.
Lemma locks_refs : forall path, ends (bs "/locks") path -> ends (bs "/info/refs") path -> False.
Proof.
  intros path (a & E) (b & E2). rewrite E in E2. assert (K : nth 1 (rev (a ++ bs "/locks")) 0 = nth 1 (rev (b ++ bs "/info/refs")) 0) by (rewrite E2; reflexivity).
  rewrite !rev_app_distr in K. discriminate.
Qed.
Lemma rooted_gateway : forall m path service q, rooted path -> gateway m path service q =
  match m with MGet => get_router path service q | MPost => post_router path | MPut => put_router path | MOther => Ok (ARefused 405) end.
Proof. intros m path service q (p & -> & Hp). destruct p; [contradiction|reflexivity]. Qed.

Theorem C71_get : forall path service q r, rooted path -> gateway MGet path service q = r <-> get_spec path service q r.
Proof.
  intros path service q r Hr. rewrite rooted_gateway by exact Hr. unfold get_router. destruct (object_path path) eqn:Ho.
  - apply object_path_iff in Ho as (oid & Ho). destruct (names_last path oid Ho) as (a & Ep & No). rewrite Ep at 1. rewrite token_last by exact No. cbn [bind]. split.
    + intros <-. apply get_object, Ho.
    + intros S. inversion S as [o H|H|s H|s H|H|H]; subst r; try contradiction (H oid Ho); try contradiction (names_refs _ _ Ho H).
      rewrite (names_unique path oid o Ho H). reflexivity.
  - pose proof (proj1 (object_path_not path) Ho) as No. destruct (ends_in (bs "/locks") path) eqn:Hl.
    + apply ends_in_iff in Hl. split.
      * intros <-. apply get_locks; assumption.
      * intros S. inversion S as [o H|H|s H|s H|H|H H2]; subst r; try reflexivity; try contradiction (No o H); try contradiction (locks_refs _ Hl H). contradiction.
    + pose proof (proj1 (ends_in_not _ _) Hl) as Nl. destruct (ends_in (bs "/info/refs") path) eqn:Hi; cbn [negb].
      * apply ends_in_iff in Hi. destruct service as [s|]; cbn [unwrap_opt bind].
        -- destruct (beq s (bs "git-upload-pack") || beq s (bs "git-receive-pack")) eqn:Es.
           ++ assert (I : In s [bs "git-upload-pack"; bs "git-receive-pack"]).
              { apply orb_true_iff in Es as [Es|Es]; apply beq_eq in Es; subst s; [left|right; left]; reflexivity. }
              split.
              ** intros <-. apply get_refs; auto.
              ** intros S. inversion S as [o H|H1 H|s' H E H1|s' H E H1|H E|H1 H2 H3]; subst r; try contradiction (No o H); try contradiction.
                 --- injection E as <-. reflexivity.
                 --- injection E as <-. contradiction.
                 --- discriminate.
           ++ assert (I : ~ In s [bs "git-upload-pack"; bs "git-receive-pack"]).
              { intros [<-|[<-|[]]]; discriminate. }
              split.
              ** intros <-. apply get_bad_service with s; auto.
              ** intros S. inversion S as [o H|H1 H|s' H E H1|s' H E H1|H E|H1 H2 H3]; subst r; try reflexivity; try contradiction (No o H); try contradiction.
                 --- injection E as <-. contradiction.
                 --- discriminate.
        -- split.
           ++ intros <-. apply get_no_service; auto.
           ++ intros S. inversion S as [o H|H1 H|s' H E H1|s' H E H1|H E|H1 H2 H3]; subst r; try reflexivity; try contradiction (No o H); try contradiction; discriminate.
      * pose proof (proj1 (ends_in_not _ _) Hi) as Ni. split.
        -- intros <-. apply get_other; assumption.
        -- intros S. inversion S as [o H|H1 H|s' H E H1|s' H E H1|H E|H1 H2 H3]; subst r; try reflexivity; try contradiction (No o H); contradiction.
Qed.
Theorem C71_put : forall path service q r, rooted path -> gateway MPut path service q = r <-> put_spec path r.
Proof.
  intros path service q r Hr. rewrite rooted_gateway by exact Hr. unfold put_router. destruct (object_path path) eqn:Ho.
  - apply object_path_iff in Ho as (oid & Ho). destruct (names_last path oid Ho) as (a & Ep & No). rewrite Ep at 1. rewrite token_last by exact No. cbn [bind]. split.
    + intros <-. apply put_object, Ho.
    + intros S. inversion S as [o H|H]; subst r; [|contradiction (H oid Ho)]. rewrite (names_unique path oid o Ho H). reflexivity.
  - pose proof (proj1 (object_path_not path) Ho) as No. split.
    + intros <-. apply put_other, No.
    + intros S. inversion S as [o H|H]; subst r; [contradiction (No o H)|reflexivity].
Qed.
(** The suffixes of POST requests exclude each other. *)
Lemma ends_both : forall s s' l, ends s l -> ends s' l -> starts_with (rev s) (rev s') || starts_with (rev s') (rev s) = true.
Proof.
  intros s s' l (a & E) (a' & E'). assert (R : rev s ++ rev a = rev s' ++ rev a') by (rewrite <- !rev_app_distr; congruence). clear E E'.
  revert R. generalize (rev s) (rev s') (rev a) (rev a'). clear. intros s. induction s as [|x s IH]; intros s' a a' R; [reflexivity|].
  destruct s' as [|y s']; [reflexivity|]. cbn [app] in R. injection R as -> R. cbn [starts_with]. rewrite N.eqb_refl. apply (IH s' a a' R).
Qed.
Lemma post_alone : forall s s' path, In s post_suffixes -> In s' post_suffixes -> s <> s' -> ends s path -> ends_in s' path = false.
Proof.
  intros s s' path Hs Hs' Hn H. apply ends_in_not. intros K. pose proof (ends_both s s' path H K) as B. clear H K.
  assert (T : forallb (fun x => forallb (fun y => beq x y || negb (starts_with (rev x) (rev y) || starts_with (rev y) (rev x))) post_suffixes) post_suffixes = true) by (vm_compute; reflexivity).
  rewrite forallb_forall in T. specialize (T s Hs). rewrite forallb_forall in T. specialize (T s' Hs'). rewrite B, orb_false_r in T. apply beq_eq in T. contradiction.
Qed.
Lemma unlock_id : forall path, rooted path -> ends (bs "/unlock") path ->
  path = bs "/unlock" \/ exists id, ~ In 47 id /\ ends (bs "/" ++ id ++ bs "/unlock") path.
Proof.
  intros path (p & Ep & _) (a & E). destruct a as [|x a]; [left; exact E|right]. rewrite Ep in E. injection E as <- Ep'.
  destruct (last_slash 47 (47 :: a) (or_introl eq_refl)) as (b & c & E & Hc). exists c. split; [exact Hc|]. exists b. rewrite Ep, Ep'.
  transitivity ((b ++ 47 :: c) ++ bs "/unlock"); [rewrite <- E; reflexivity|]. rewrite <- app_assoc. reflexivity.
Qed.
Lemma unlock_token : forall id path, ~ In 47 id -> ends (bs "/" ++ id ++ bs "/unlock") path -> token 2 path = Ok id.
Proof.
  intros id path H (a & ->). change (bs "/" ++ id ++ bs "/unlock") with (47 :: id ++ 47 :: bs "unlock"). apply token_second; [|exact H].
  intros I. vm_compute in I. intuition discriminate.
Qed.
Lemma unlock_ends : forall id path, ends (bs "/" ++ id ++ bs "/unlock") path -> ends (bs "/unlock") path.
Proof. intros id path (a & ->). exists (a ++ bs "/" ++ id). rewrite <- !app_assoc. reflexivity. Qed.


Theorem C71_post : forall path service q r, rooted path -> gateway MPost path service q = r <-> post_spec path r.
Proof.
  intros path service q r Hr. rewrite rooted_gateway by exact Hr.
  assert (M : forall s, existsb (beq s) post_suffixes = true -> In s post_suffixes).
  { intros s H. apply existsb_exists in H as (t & I & E). apply beq_eq in E. subst t. exact I. }
  assert (A : forall s s', existsb (beq s) post_suffixes = true -> existsb (beq s') post_suffixes = true -> s <> s' -> ends s path -> ends_in s' path = false).
  { intros s s' H H' Hn K. exact (post_alone s s' path (M s H) (M s' H') Hn K). }
  assert (U : forall id, ends (bs "/unlock") path -> token 2 path = Ok id -> post_router path = Ok (AUnlock id)).
  { intros id H T. unfold post_router. rewrite (A (bs "/unlock") (bs "/locks/verify")), (A (bs "/unlock") (bs "/locks")); try reflexivity; try discriminate; try exact H.
    rewrite (proj2 (ends_in_iff (bs "/unlock") path) H), T. reflexivity. }
  split.
  - intros <-. unfold post_router.
    destruct (ends_in (bs "/locks/verify") path) eqn:E0; [apply post_verify, ends_in_iff, E0|].
    destruct (ends_in (bs "/locks") path) eqn:E1; [apply post_lock, ends_in_iff, E1|].
    destruct (ends_in (bs "/unlock") path) eqn:E2.
    { apply ends_in_iff in E2. destruct (unlock_id path Hr E2) as [E|(id & Hi & E)].
      - assert (T : token 2 path = Ok []) by (rewrite E; reflexivity). rewrite T. apply post_unlock_none, E.
      - rewrite (unlock_token id path Hi E). apply post_unlock; assumption. }
    destruct (ends_in (bs "/objects/batch") path) eqn:E3; [apply post_batch, ends_in_iff, E3|].
    destruct (ends_in (bs "/git-upload-pack") path) eqn:E4; [apply post_upload_pack, ends_in_iff, E4|].
    destruct (ends_in (bs "/git-receive-pack") path) eqn:E5; [apply post_receive_pack, ends_in_iff, E5|].
    apply post_other. intros s [<-|[<-|[<-|[<-|[<-|[<-|[]]]]]]]; apply ends_in_not; assumption.
  - intros S. inversion S as [H|H|id Hi H|H|H|H|H|H]; subst r.
    + unfold post_router. rewrite (proj2 (ends_in_iff _ path) H). reflexivity.
    + unfold post_router. rewrite (A (bs "/locks") (bs "/locks/verify")) by (reflexivity || discriminate || exact H). rewrite (proj2 (ends_in_iff _ path) H). reflexivity.
    + apply U; [apply (unlock_ends id), H|apply unlock_token; assumption].
    + apply U; rewrite H; [exists []; reflexivity|reflexivity].
    + unfold post_router. rewrite (A (bs "/objects/batch") (bs "/locks/verify")), (A (bs "/objects/batch") (bs "/locks")), (A (bs "/objects/batch") (bs "/unlock")) by (reflexivity || discriminate || exact H). rewrite (proj2 (ends_in_iff _ path) H). reflexivity.
    + unfold post_router. rewrite (A (bs "/git-upload-pack") (bs "/locks/verify")), (A (bs "/git-upload-pack") (bs "/locks")), (A (bs "/git-upload-pack") (bs "/unlock")), (A (bs "/git-upload-pack") (bs "/objects/batch")) by (reflexivity || discriminate || exact H). rewrite (proj2 (ends_in_iff _ path) H). reflexivity.
    + unfold post_router. rewrite (A (bs "/git-receive-pack") (bs "/locks/verify")), (A (bs "/git-receive-pack") (bs "/locks")), (A (bs "/git-receive-pack") (bs "/unlock")), (A (bs "/git-receive-pack") (bs "/objects/batch")), (A (bs "/git-receive-pack") (bs "/git-upload-pack")) by (reflexivity || discriminate || exact H).
      rewrite (proj2 (ends_in_iff _ path) H). reflexivity.
    + unfold post_router. assert (N : forall s, In s post_suffixes -> ends_in s path = false) by (intros s Hs; apply ends_in_not, H, Hs).
      rewrite (N (bs "/locks/verify")), (N (bs "/locks")), (N (bs "/unlock")), (N (bs "/objects/batch")), (N (bs "/git-upload-pack")), (N (bs "/git-receive-pack")); try reflexivity;
        unfold post_suffixes; cbn [In]; auto 10.
Qed.
Theorem C71_other : forall m path service q, (rooted path -> gateway MOther path service q = Ok (ARefused 405)) /\ (~ rooted path -> gateway m path service q = Ok (ARefused 404)).
Proof.
  intros m path service q. split; [intros H; rewrite rooted_gateway by exact H; reflexivity|]. intros H. destruct path as [|x [|y p]]; [reflexivity| |].
  - cbn [gateway]. do 7 (try (destruct x as [|x]; try reflexivity)); do 7 (try (destruct x as [x|x|]; try reflexivity)).
  - destruct (N.eqb_spec x 47) as [->|Hx]; [contradiction H; exists (y :: p); split; [reflexivity|discriminate]|].
    unfold gateway. destruct x as [|x]; [reflexivity|]. do 7 (try (destruct x as [x|x|]; try reflexivity; try congruence)).
Qed.
Definition no_query : lock_query := mkQuery None None None None None.
Example C71_ex : rooted (bs "/u/r.git/info/lfs/objects/00ff") /\ names_object (bs "/u/r.git/info/lfs/objects/00ff") (bs "00ff") /\
  get_spec (bs "/u/r.git/info/lfs/objects/00ff") None no_query (Ok (ADownload (bs "00ff"))) /\
  get_spec (bs "/u/r.git/info/refs") (Some (bs "git-upload-pack")) no_query (Ok (AInfoRefs (bs "git-upload-pack") (bs "/u/r"))) /\
  post_spec (bs "/u/r.git/info/lfs/locks/00000001/unlock") (Ok (AUnlock (bs "00000001"))) /\
  get_spec (bs "/u/r.git") None no_query (Ok (ARefused 403)).
Proof.
  split; [eexists; split; [reflexivity|discriminate]|]. split; [split; [split; [discriminate|reflexivity]|exists (bs "/u/r.git/info/lfs"); reflexivity]|].
  split; [|split; [|split]].
  - apply (C71_get (bs "/u/r.git/info/lfs/objects/00ff") None no_query); [eexists; split; [reflexivity|discriminate]|vm_compute; reflexivity].
  - apply (C71_get (bs "/u/r.git/info/refs") (Some (bs "git-upload-pack")) no_query); [eexists; split; [reflexivity|discriminate]|vm_compute; reflexivity].
  - apply (C71_post (bs "/u/r.git/info/lfs/locks/00000001/unlock") None no_query); [eexists; split; [reflexivity|discriminate]|vm_compute; reflexivity].
  - apply (C71_get (bs "/u/r.git") None no_query); [eexists; split; [reflexivity|discriminate]|vm_compute; reflexivity].
Qed.

(** ** C70 *)

Lemma split_two : forall a b, ~ In 32 a -> ~ In 32 b -> split_on 32 (a ++ 32 :: b) = [a; b].
Proof. intros a b Ha Hb. rewrite split_app, (split_word 32 a Ha), (split_word 32 b Hb). reflexivity. Qed.
(** What [path[2..end]] leaves of a quoted path. *)
Lemma ssh_slice : forall a b name : bytes, length a = 2%nat -> length b = 5%nat -> slice 2 (length (a ++ name ++ b) - 5) (a ++ name ++ b) = Ok name.
Proof.
  intros a b name Ha Hb. unfold slice. rewrite !app_length, Ha, Hb.
  replace (2 + (length name + 5) - 5)%nat with (2 + length name)%nat by lia.
  destruct (Nat.leb_spec 2 (2 + length name)); [|lia]. destruct (Nat.leb_spec (2 + length name) (2 + (length name + 5))); [|lia]. cbn [andb].
  rewrite skipn_app, <- Ha, skipn_all, Nat.sub_diag. cbn [app skipn]. replace (length a + length name - length a)%nat with (length name) by lia.
  rewrite firstn_app, firstn_all, Nat.sub_diag, firstn_O, app_nil_r. reflexivity.
Qed.
Lemma utf8_same : forall l t, utf8_unwrap l = Ok t -> t = l.
Proof. intros l t. unfold utf8_unwrap. destruct (utf8_valid l); [intros E; injection E as <-; reflexivity|discriminate]. Qed.
Lemma ssh_repo : forall e w service a name b w' pp reply, length a = 2%nat -> length b = 5%nat -> ~ In 32 service -> ~ In 32 (a ++ name ++ b) ->
  ssh_command e (service ++ 32 :: a ++ name ++ b) w = (w', Ok (pp, reply)) -> pp_path pp = name /\ pp_protocol pp = Ssh.
Proof.
  intros e w service a name b w' pp reply Ha Hb Hs Hn. unfold ssh_command. rewrite split_two by assumption. cbn [nth_error unwrap_opt hd].
  unfold lift. unfold mbind at 1. unfold mbind at 1. destruct (Nat.ltb_spec (length (a ++ name ++ b)) 5) as [L|_]; [rewrite !app_length in L; lia|].
  unfold mbind at 1. rewrite ssh_slice by assumption. unfold mbind at 1. pose proof (utf8_same name) as U. destruct (utf8_unwrap name) as [t|x| |]; try discriminate. specialize (U t eq_refl). subst t.
  unfold mbind at 1. unfold proto_new. destruct service as [|c service].
  - unfold mbind. destruct (git_info_refs e _ w) as [w1 [r|x| |]]; try discriminate. destruct (utf8_unwrap r); try discriminate.
    unfold ret. intros E. injection E as _ <- _. split; reflexivity.
  - destruct (service_from_str (c :: service)) as [s|]; [|discriminate]. cbn [unwrap_opt bind].
    unfold mbind. destruct (git_info_refs e _ w) as [w1 [r|x| |]]; try discriminate. destruct (utf8_unwrap r); try discriminate.
    unfold ret. intros E. injection E as _ <- _. split; reflexivity.
Qed.
(** ssh://host/name.git: the command names '/name.git' and the repository is [name]; over
    HTTP it is [/name]. *)
Theorem C70_repositories : forall e w service name w' pp reply, ~ In 32 service -> ~ In 32 name -> ~ occurs (bs ".git") name -> ~ occurs (bs "/info/refs") (47 :: name) ->
  ssh_command e (service ++ bs " '/" ++ name ++ bs ".git'") w = (w', Ok (pp, reply)) ->
  pp_path pp = name /\ remove_git_suffix ((47 :: name) ++ bs ".git" ++ bs "/info/refs") (bs "/info/refs") = 47 :: name.
Proof.
  intros e w service name w' pp reply Hs Hn Hg Ho H. split.
  - change (bs " '/" ++ name ++ bs ".git'") with (32 :: bs "'/" ++ name ++ bs ".git'") in H. eapply ssh_repo in H; [apply H|reflexivity|reflexivity|exact Hs|].
    intros I. apply in_app_or in I as [I|I]; [vm_compute in I; intuition discriminate|]. apply in_app_or in I as [I|I]; [contradiction|vm_compute in I; intuition discriminate].
  - apply C69_path; [left; reflexivity| |exact Ho]. intros K. apply (occurs_stop _ 47 []) in K as [(a & b & E)|K]; [|contradiction|].
    + destruct a; discriminate.
    + intros I. vm_compute in I. intuition discriminate.
Qed.
(** host:name.git: the first letter of the name is dropped. *)
Theorem C70_short_form : forall e w service c name w' pp reply, ~ In 32 service -> ~ In 32 (c :: name) ->
  ssh_command e (service ++ bs " '" ++ (c :: name) ++ bs ".git'") w = (w', Ok (pp, reply)) -> pp_path pp = name.
Proof.
  intros e w service c name w' pp reply Hs Hn H. change (bs " '" ++ (c :: name) ++ bs ".git'") with (32 :: [39; c] ++ name ++ bs ".git'") in H.
  eapply ssh_repo in H; [apply H|reflexivity|reflexivity|exact Hs|].
  intros I. cbn [In] in Hn. apply in_app_or in I as [I|I]; [cbn [In] in I; intuition discriminate|]. apply in_app_or in I as [I|I]; [tauto|vm_compute in I; intuition discriminate].
Qed.
(** A pushed branch that a clone over HTTP is told of and a clone over SSH is not. *)
Definition one_id : bytes := bs "7687ecf38763edf06b1895128b7b6ce611ba5f90".
Definition one_ref : world := world_of (mkDb [] [] [mkRef 1 (bs "/org/app") (bs "refs/heads/main") one_id] 2).
Lemma occurs_iff : forall pat l, occurs pat l <-> existsb (starts_with pat) (tails l) = true.
Proof.
  intros pat l. rewrite existsb_exists. split.
  - intros (a & b & E). exists (pat ++ b). split; [apply tails_in; exists a; exact E|apply starts_with_iff; exists b; reflexivity].
  - intros (t & I & S). apply tails_in in I as (a & ->). apply starts_with_iff in S as (b & ->). exists a, b. reflexivity.
Qed.
Lemma answered : forall A (x : world * res A) (d : A) (ok : A -> bool),
  match snd x with Ok a => ok a | _ => false end = true -> exists w a, x = (w, Ok a) /\ ok a = true.
Proof. intros A [w [a|e| |]] d ok H; try discriminate. exists w, a. auto. Qed.
Theorem C70_refuted : exists e w name w1 r1 w2 pp r2, env_ok e /\ ~ In 32 name /\ ~ occurs (bs ".git") name /\
  http_info_refs e (remove_git_suffix (bs "/" ++ name ++ bs ".git/info/refs") (bs "/info/refs")) (bs "git-upload-pack") w = (w1, Ok r1) /\
  occurs (one_id ++ bs " refs/heads/main") r1 /\
  ssh_command e (bs "git-upload-pack '/" ++ name ++ bs ".git'") w = (w2, Ok (pp, r2)) /\ ~ occurs (one_id ++ bs " refs/heads/main") r2.
Proof.
  exists ex_env, one_ref, (bs "org/app").
  assert (Nn : ~ In 32 (bs "org/app")) by (intros I; vm_compute in I; intuition discriminate).
  assert (Ng : ~ occurs (bs ".git") (bs "org/app")) by (apply (no_byte _ _ 46); [left; reflexivity|intros I; vm_compute in I; intuition discriminate]).
  destruct (answered bytes (http_info_refs ex_env (remove_git_suffix (bs "/" ++ bs "org/app" ++ bs ".git/info/refs") (bs "/info/refs")) (bs "git-upload-pack") one_ref) []
    (fun r => existsb (starts_with (one_id ++ bs " refs/heads/main")) (tails r)) ltac:(vm_compute; reflexivity)) as (w1 & r1 & E1 & O1).
  destruct (answered (proto * bytes) (ssh_command ex_env (bs "git-upload-pack '/" ++ bs "org/app" ++ bs ".git'") one_ref) (mkProto Ssh [] None [] [], [])
    (fun r => negb (existsb (starts_with (one_id ++ bs " refs/heads/main")) (tails (snd r)))) ltac:(vm_compute; reflexivity)) as (w2 & [pp r2] & E2 & O2).
  exists w1, r1, w2, pp, r2. split; [exact ex_env_ok|]. split; [exact Nn|]. split; [exact Ng|]. split; [exact E1|]. split; [apply occurs_iff, O1|]. split; [exact E2|].
  intros K. apply occurs_iff in K. cbn [snd] in O2. rewrite K in O2. discriminate.
Qed.
(** Two repositories that are one over SSH. *)
Theorem C70_short_form_refuted : exists e w n1 n2 w1 p1 r1 w2 p2 r2, env_ok e /\ n1 <> n2 /\ ~ In 47 n1 /\ ~ In 47 n2 /\
  ssh_command e (bs "git-receive-pack '" ++ n1 ++ bs ".git'") w = (w1, Ok (p1, r1)) /\
  ssh_command e (bs "git-receive-pack '" ++ n2 ++ bs ".git'") w = (w2, Ok (p2, r2)) /\ pp_path p1 = pp_path p2.
Proof.
  exists ex_env, one_ref, (bs "cat"), (bs "rat").
  destruct (answered (proto * bytes) (ssh_command ex_env (bs "git-receive-pack '" ++ bs "cat" ++ bs ".git'") one_ref) (mkProto Ssh [] None [] [], [])
    (fun r => beq (pp_path (fst r)) (bs "at")) ltac:(vm_compute; reflexivity)) as (w1 & [p1 r1] & E1 & O1).
  destruct (answered (proto * bytes) (ssh_command ex_env (bs "git-receive-pack '" ++ bs "rat" ++ bs ".git'") one_ref) (mkProto Ssh [] None [] [], [])
    (fun r => beq (pp_path (fst r)) (bs "at")) ltac:(vm_compute; reflexivity)) as (w2 & [p2 r2] & E2 & O2).
  exists w1, p1, r1, w2, p2, r2. split; [exact ex_env_ok|]. split; [discriminate|].
  split; [intros I; vm_compute in I; intuition discriminate|]. split; [intros I; vm_compute in I; intuition discriminate|].
  split; [exact E1|]. split; [exact E2|]. apply beq_eq in O1, O2. cbn [fst] in O1, O2. congruence.
Qed.

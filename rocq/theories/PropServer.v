(** C113: the server answers the clients of a repository as a store of references and objects
    would, whatever is requested of other repositories in between. *)

From Coq Require Import Permutation.
From Verif Require Import Base BaseLemmas Digest ModelUtils ModelObject ModelBase ModelPack ModelDecode ModelPkt ModelStorage ModelProto ModelLfs ModelGateway ModelService
  StoredZlib SpecObject SpecIdx SpecBase SpecPack SpecPkt SpecStorage SpecProto SpecService ProofObject ProofUtf8 ProofBase ProofPack ProofPkt ProofReq
  ProofEncode ProofNodes ProofStorage ProofPush ProofClone ProofRepo ProofRefs ProofSession ProofGraph ProofExample ProofService PropPkt PropStorage PropProto PropGateway PropService PropSsh
  SpecServer PropFetch.
Open Scope N_scope.

(** ** Requests *)
Section Server.
Context (e : env) (b : build) (c : codec) (cut : bytes -> list bytes) (path : bytes).

(** The two requests that carry a push, over HTTP and over SSH. *)
Inductive carries (p : push) : bytes -> request -> Prop :=
| ca_http : forall now m url s q caps pack body, gateway m url s q = Ok (AReceivePack path) -> utf8_text caps ->
    push_request (p_old p) (p_new p) (p_name p) caps pack body -> pack_for c p pack ->
    carries p caps (QHttp now m url s q body)
| ca_ssh : forall now caps line pack, utf8_text caps -> push_line (p_old p) (p_new p) (p_name p) caps line -> pack_for c p pack ->
    carries p caps (QSsh now (ssh_line ReceivePack path) [line; pack]).
Definition by_ssh (r : request) : Prop := exists now cmd packets, r = QSsh now cmd packets.
(** There is a head to show, or nothing at all, not even for a directory above. *)
Definition can_greet (A : store) (w : world) : Prop :=
  ~ In 32 path /\ ((exists id, head_id (teq e) A id) \/ s_refs A = [] /\ forall r, In r (d_refs (w_db w)) -> ~ is_head e path r).
(** Requests for what is stored. *)
Inductive reading : request -> Prop :=
| rd_info : forall now m url s q body sv, gateway m url s q = Ok (AInfoRefs (service_text sv) path) -> reading (QHttp now m url s q body)
| rd_fetch : forall now m url s q body, gateway m url s q = Ok (AUploadPack path) -> reading (QHttp now m url s q body)
| rd_ssh : forall now packets, reading (QSsh now (ssh_line UploadPack path) packets).
Definition plain_fetch (r : request) : Prop := exists now m url s q body, r = QHttp now m url s q body /\ gateway m url s q = Ok (AUploadPack path).

(** The states a server comes to from the empty one, with what has been pushed to the
    repository: requests about other repositories, whatever they are and however they end;
    requests that read; requests of any kind that leave the tables as they were (C48 and C105
    name some); pushes the store allows; and updates from an id that is no longer there. *)
Inductive run : store -> world -> Prop :=
| run_start : forall w, w_db w = db_empty -> no_failure w -> run store_new w
| run_other : forall A w r fuel, run A w -> (forall p, about r p -> teq e p path = false) -> run A (fst (serve e b c fuel cut r w))
| run_read : forall A w r fuel, run A w -> reading r -> plain_fetch r \/ can_greet A w -> run A (fst (serve e b c fuel cut r w))
| run_idle : forall A w r fuel, run A w -> w_db (fst (serve e b c fuel cut r w)) = w_db w -> run A (fst (serve e b c fuel cut r w))
| run_push : forall A w p A' caps r fuel0 w' x, run A w -> allowed (teq e) path A p -> carries p caps r -> (by_ssh r -> can_greet A w) ->
    (forall fuel, (fuel0 <= fuel)%nat -> serve e b c fuel cut r w = (w', x)) -> after A p A' -> run A' w'
| run_stale : forall A w p caps r fuel0 w' x, run A w -> stale path A p -> carries p caps r -> (by_ssh r -> can_greet A w) ->
    (forall fuel, (fuel0 <= fuel)%nat -> serve e b c fuel cut r w = (w', x)) -> run (kept A p) w'.

(** ** The invariant *)
Context (He : env_ok e) (Te : teq_equiv e) (Hc : codec_ok c) (Hcut : forall d, pieces 65515 d (cut d))
  (Hp : exists k, text_len path k /\ (k <= 64)%nat) (Hl : like e path path = true).

Definition row_is (r : ref_row) (x : bytes * bytes) : Prop := r_repo_path r = path /\ r_ref_name r = fst x /\ r_ref_git_id r = snd x.
Record stands (A : store) (w : world) : Prop := {
  sd_quiet : no_failure w;
  sd_table : refs_table (w_db w);
  sd_nodes : Forall addressed_row (d_nodes (w_db w));
  sd_refs : Forall2 row_is (refs_of e (w_db w) path) (s_refs A);
  sd_short : forall n i, In (n, i) (s_refs A) -> utf8_text n /\ nlen n <= 128 /\ ref_id i;
  sd_commits : forall r, In r (commits_at e (w_db w) path) -> exists o, commit_for r o /\ In o (s_objs A);
  sd_all_commits : forall d, In (Commit, d) (s_objs A) -> exists r, In r (commits_at e (w_db w) path) /\ commit_for r (Commit, d);
  sd_all_nodes : forall o, reach (fun o => In o (s_objs A)) o -> fst o <> Commit -> exists r, In r (d_nodes (w_db w)) /\ node_for r o;
  sd_history : history path (s_objs A);
  sd_few : nlen (s_objs A) < 2 ^ 32;
  sd_some : s_refs A <> [] -> exists d, In (Commit, d) (s_objs A) }.

Lemma history_nil : history path [].
Proof.
  assert (N : forall o, ~ reach (fun o => In o (@nil object)) o) by (intros o H; destruct H as [d []|o t h d _ _ _ [] _]).
  split; [constructor| | | |].
  - intros o t h H. destruct (N o H).
  - intros a x h [].
  - exists (fun _ => 0%nat). intros d h h' [].
  - intros o H. destruct (N o H).
Qed.
Lemma stands_new : forall w, w_db w = db_empty -> no_failure w -> stands store_new w.
Proof.
  intros w D Q. split; try exact Q; try rewrite D; cbn.
  - split; [constructor|intros r []].
  - constructor.
  - constructor.
  - intros n i [].
  - intros r [].
  - intros d [].
  - intros o H. destruct H as [d []|o t h d _ _ _ [] _].
  - exact history_nil.
  - reflexivity.
  - intros K. destruct (K eq_refl).
Qed.
Lemma stands_same : forall A w w', stands A w -> no_failure w' -> refs_table (w_db w') -> same_repo e path (w_db w) (w_db w') ->
  (exists n, d_nodes (w_db w') = d_nodes (w_db w) ++ n /\ Forall addressed_row n) -> stands A w'.
Proof.
  intros A w w' [] Q T [S1 S2] (n & En & Fn). split; try assumption.
  - rewrite En. apply Forall_app. auto.
  - rewrite S2. assumption.
  - rewrite S1. assumption.
  - rewrite S1. assumption.
  - intros o Ho No. destruct (sd_all_nodes0 o Ho No) as (r & Hr & Hf). exists r. split; [rewrite En; apply in_or_app; auto|exact Hf].
Qed.
Lemma stands_other : forall A w r fuel, stands A w -> (forall p, about r p -> teq e p path = false) -> stands A (fst (serve e b c fuel cut r w)).
Proof.
  intros A w r fuel J O. assert (El : elsewhere e path [r]) by (intros r' p [<-|[]]; apply O).
  pose proof (elsewhere_chain e b c fuel cut path [r] w He Te (sd_table _ _ J) El) as (k & _ & C & n & En & Fn). cbn [serve_all] in C, En.
  destruct (serve_all_chain e He b c fuel cut [r] w) as (k0 & _ & C0). cbn [serve_all] in C0.
  apply (stands_same A w); [exact J|apply serve_quiet; [exact He|exact (sd_quiet _ _ J)]| | |eauto].
  - apply (chain_under refs_table) in C0 as [_ C0]; [exact C0|exact (sd_table _ _ J)].
  - refine (proj2 (chain_all (same_repo e path) _ _ _ _ _ C)); [split; reflexivity|]. intros a x y [A1 A2] [B1 B2]. split; congruence.
Qed.
Lemma stands_db : forall A w w', stands A w -> no_failure w' -> w_db w' = w_db w -> stands A w'.
Proof.
  intros A w w' J Q D. apply (stands_same A w); [exact J|exact Q|rewrite D; exact (sd_table _ _ J)|rewrite D; split; reflexivity|].
  exists []. rewrite D, app_nil_r. split; [reflexivity|constructor].
Qed.

(** What two histories with one object to an id lead to together. *)
Lemma reach_two : forall l1 l2, history path l1 -> history path l2 -> history path (l1 ++ l2) ->
  forall o, reach (fun o => In o (l1 ++ l2)) o <-> reach (fun o => In o l1) o \/ reach (fun o => In o l2) o.
Proof.
  intros l1 l2 H1 H2 H o. split.
  - intros Ho. induction Ho as [d Hd|o t h d Ho IH Rf Nt Hd Hi].
    + apply in_app_or in Hd as [Hd|Hd]; [left|right]; apply rc_commit; exact Hd.
    + assert (K : forall l, history path l -> (forall x, In x l -> In x (l1 ++ l2)) -> reach (fun o => In o l) o -> reach (fun o => In o l) (t, d)).
      { intros l Hy Sub Ho'. destruct (hs_complete _ _ Hy _ _ _ Ho' Rf) as (_ & d' & Hd' & Hi').
        rewrite (hs_free _ _ H (t, d) (t, d') h Hd (Sub _ Hd') Hi Hi'). eapply rc_refers; eassumption. }
      destruct IH as [IH|IH]; [left; apply (K l1)|right; apply (K l2)]; try assumption; intros x Hx; apply in_or_app; auto.
  - assert (K : forall l, (forall x, In x l -> In x (l1 ++ l2)) -> reach (fun o => In o l) o -> reach (fun o => In o (l1 ++ l2)) o).
    { intros l Sub Ho. induction Ho as [d Hd|o t h d Ho IH Rf Nt Hd Hi]; [apply rc_commit; auto|]. eapply rc_refers; [exact IH|exact Rf|exact Nt|exact (Sub _ Hd)|exact Hi]. }
    intros [Ho|Ho]; [apply (K l1)|apply (K l2)]; try exact Ho; intros x Hx; apply in_or_app; auto.
Qed.
Lemma ref_id_text : forall i, ref_id i -> utf8_text i /\ nlen i = 40.
Proof.
  intros i ((h & Hi & Hx) & _). split; [apply (hex_word _ _ Hx Hi)|]. rewrite (lower_hex_plain _ _ Hx). apply plain_len. exact Hi.
Qed.
Lemma name_bytes : forall name k, text_len name k -> (k <= 31)%nat -> nlen (name ++ [0]) <= 128.
Proof.
  intros name k (cs & Fs & -> & Ec) Lk. assert (B : (length (flat_map utf8_char cs) <= 4 * length cs)%nat).
  { clear. induction cs as [|x cs IH]; [cbn; lia|]. cbn [flat_map]. rewrite app_length. cbn [length].
    assert (length (utf8_char x) <= 4)%nat; [|lia]. unfold utf8_char. repeat destruct (_ <? _); cbn [length]; lia. }
  rewrite nlen_app. change (nlen [0]) with 1. unfold nlen. rewrite Ec in B. lia.
Qed.

(** Rows of a push on top of what stands. *)
Lemma commits_more : forall A w w' objs rows crows, stands A w -> rows_for path objs rows crows -> d_commits (w_db w') = d_commits (w_db w) ++ crows ->
  commits_at e (w_db w') path = commits_at e (w_db w) path ++ crows.
Proof.
  intros A w w' objs rows crows J Rf D. unfold commits_at. rewrite D, filter_app. f_equal.
  assert (K : forall r, In r crows -> teq e (c_repo_path r) path = true).
  { intros r Hr. rewrite (proj1 (rf_commits _ _ _ _ Rf r Hr)). apply He. }
  clear -K. induction crows as [|r l IH]; [reflexivity|]. cbn [filter]. rewrite (K r (or_introl eq_refl)). f_equal. apply IH. intros x Hx. apply K. right. exact Hx.
Qed.
Lemma stands_push : forall A w w' objs rows crows refs, stands A w -> brings path A objs -> rows_for path objs rows crows -> no_failure w' -> refs_table (w_db w') ->
  d_nodes (w_db w') = d_nodes (w_db w) ++ rows -> d_commits (w_db w') = d_commits (w_db w) ++ crows ->
  Forall2 row_is (refs_of e (w_db w') path) refs -> (forall n i, In (n, i) refs -> utf8_text n /\ nlen n <= 128 /\ ref_id i) ->
  stands (mkStore refs (s_objs A ++ objs)) w'.
Proof.
  intros A w w' objs rows crows refs J (Hs & (d0 & Hd0) & Hu & Fw) Rf Q T Dn Dc R Sh. pose proof (commits_more A w w' objs rows crows J Rf Dc) as Ec.
  split; cbn [s_refs s_objs]; try assumption.
  - rewrite Dn. apply Forall_app. split; [exact (sd_nodes _ _ J)|]. apply Forall_forall. intros r Hr. destruct (rf_nodes _ _ _ _ Rf r Hr) as (o & Ho & _). exists o. exact Ho.
  - intros r Hr. rewrite Ec in Hr. apply in_app_or in Hr as [Hr|Hr].
    + destruct (sd_commits _ _ J r Hr) as (o & Ho & Hi). exists o. split; [exact Ho|]. apply in_or_app. auto.
    + destruct (rf_commits _ _ _ _ Rf r Hr) as (_ & o & Ho & Hi). exists o. split; [exact Ho|]. apply in_or_app. auto.
  - intros d Hd. rewrite Ec. apply in_app_or in Hd as [Hd|Hd].
    + destruct (sd_all_commits _ _ J d Hd) as (r & Hr & Hf). exists r. split; [apply in_or_app; auto|exact Hf].
    + destruct (rf_commits_all _ _ _ _ Rf d Hd) as (r & Hr & _ & Hf). exists r. split; [apply in_or_app; auto|exact Hf].
  - intros o Ho No. rewrite Dn. apply (reach_two _ _ (sd_history _ _ J) Hs Hu) in Ho as [Ho|Ho].
    + destruct (sd_all_nodes _ _ J o Ho No) as (r & Hr & Hf). exists r. split; [apply in_or_app; auto|exact Hf].
    + destruct (rf_nodes_all _ _ _ _ Rf o Ho No) as (r & Hr & Hf). exists r. split; [apply in_or_app; auto|exact Hf].
  - intros _. exists d0. apply in_or_app. auto.
Qed.
Lemma forall2_split : forall (rows : list ref_row) l1 x l2, Forall2 row_is rows (l1 ++ x :: l2) ->
  exists k1 r k2, rows = k1 ++ r :: k2 /\ Forall2 row_is k1 l1 /\ row_is r x /\ Forall2 row_is k2 l2.
Proof.
  intros rows l1 x l2 H. apply Forall2_app_inv_r in H as (k1 & k2 & H1 & H2 & ->). inversion H2 as [|r y k2' l H3 H4]; subst. exists k1, r, k2'. auto.
Qed.
Lemma filter_split : forall {X} (f : X -> bool) l k1 r k2, filter f l = k1 ++ r :: k2 -> exists l1 l2, l = l1 ++ r :: l2 /\ filter f l1 = k1 /\ filter f l2 = k2.
Proof.
  intros X f. induction l as [|x l IH]; intros k1 r k2 H; [destruct k1; discriminate H|]. cbn [filter] in H. destruct (f x) eqn:F.
  - destruct k1 as [|y k1]; cbn [app] in H.
    + injection H as -> H. exists [], l. auto.
    + injection H as -> H. destruct (IH _ _ _ H) as (l1 & l2 & -> & <- & <-). exists (y :: l1), l2. cbn [filter app]. rewrite F. auto.
  - destruct (IH _ _ _ H) as (l1 & l2 & -> & <- & <-). exists (x :: l1), l2. cbn [filter app]. rewrite F. auto.
Qed.
Lemma rows_in : forall rows l, Forall2 row_is rows l -> (forall r, In r rows -> r_repo_path r = path /\ In (r_ref_name r, r_ref_git_id r) l) /\
  forall n i, In (n, i) l -> exists r, In r rows /\ r_repo_path r = path /\ r_ref_name r = n /\ r_ref_git_id r = i.
Proof.
  induction 1 as [|r [n i] rows l (H1 & H2 & H3) H [IH1 IH2]]; [split; [intros r []|intros n i []]|]. cbn [fst snd] in *. split.
  - intros x [<-|Hx]; [split; [exact H1|left; congruence]|]. destruct (IH1 x Hx). split; [assumption|right; assumption].
  - intros m j [K|K]; [injection K as <- <-; exists r; split; [left; reflexivity|auto]|]. destruct (IH2 m j K) as (x & Hx & Hy). exists x. split; [right; exact Hx|exact Hy].
Qed.

(** ** The greeting *)
Lemma path_text : utf8_text path.
Proof. destruct Hp as (k & (cs & F & -> & _) & _). exists cs. auto. Qed.
Lemma refs_text : forall A w, stands A w -> text_refs (refs_at e (w_db w) path).
Proof.
  intros A w J r Hr. destruct (rows_in _ _ (sd_refs _ _ J)) as [K _]. destruct (K r Hr) as (_ & Hi). destruct (sd_short _ _ J _ _ Hi) as (T & L & I).
  destruct (ref_id_text _ I) as [T2 L2]. split; [exact T2|]. split; [exact T|]. split; [lia|exact L].
Qed.
Lemma listing_shown : forall A w l, stands A w -> listing (refs_at e (w_db w) path) l -> shown A l.
Proof.
  intros A w l J (N & L1 & L2). destruct (rows_in _ _ (sd_refs _ _ J)) as [K1 K2]. split; [exact N|]. split.
  - intros i n Hi. destruct (L1 i n Hi) as (r & Hr & <- & <-). apply (K1 r Hr).
  - intros n i Hi. destruct (K2 n i Hi) as (r & Hr & _ & _ & <-). apply (L2 r Hr).
Qed.
Lemma head_run : forall A w, stands A w -> can_greet A w ->
  exists w1 id, get_head_object_id e path w = (w1, Ok id) /\ w_db w1 = w_db w /\ w_log w1 = w_log w /\ no_failure w1 /\ greeted (teq e) A id /\ utf8_text id /\ nlen id = 40.
Proof.
  intros A w J (_ & [(id & (n & Hn & Tn) & Uq)|(En & Nh)]).
  - destruct (rows_in _ _ (sd_refs _ _ J)) as [K1 K2]. destruct (K2 n id Hn) as (r & Hr & P1 & P2 & P3).
    pose proof (proj1 (filter_In _ _ _) Hr) as [Hr' _]. destruct (sd_short _ _ J _ _ Hn) as (_ & _ & I). destruct (ref_id_text _ I) as [T L].
    destruct (head_stored_quiet e path w r He (sd_quiet _ _ J) Hr') as (w1 & E & D & Lg & Q).
    + split; [rewrite P1; exact Hl|rewrite P2; exact Tn].
    + exact P1.
    + intros x Hx [_ Mx] Px. rewrite P3. apply (Uq (r_ref_name x)); [|exact Mx]. apply K1. apply filter_In. split; [exact Hx|]. rewrite Px. apply He.
    + rewrite P3 in E. exists w1, id. split; [exact E|]. split; [exact D|]. split; [exact Lg|]. split; [exact Q|]. split; [left; split; [exists n; auto|exact Uq]|auto].
  - destruct (head_none e path w He (sd_quiet _ _ J) Nh) as (w1 & E & D & Lg & Q). exists w1, (repeat 48 40). split; [exact E|]. split; [exact D|]. split; [exact Lg|].
    split; [exact Q|]. split; [right; auto|]. split; [apply ascii_utf8; reflexivity|reflexivity].
Qed.
Lemma http_greet : forall A w sv, stands A w -> can_greet A w ->
  exists w' out id refs, http_info_refs e path (service_text sv) w = (w', Ok out) /\ w_db w' = w_db w /\ no_failure w' /\ advert true sv id refs out /\ greeted (teq e) A id /\ shown A refs.
Proof.
  intros A w sv J G. destruct (head_run A w J G) as (w1 & id & E & D & _ & Q & Gr & T & L). destruct (refs_listed e path w1 He Q) as (w' & l & E2 & M & Li).
  assert (Tr : text_refs (refs_at e (w_db w1) path)) by (rewrite D; exact (refs_text A w J)). destruct (listing_refs _ _ _ _ Tr Li) as [Ls _].
  exists w', (info_refs Http sv id l), id, l.
  assert (Pn : proto_new path (service_text sv) Http = Ok (mkProto Http path (Some sv) [] [])) by (destruct sv; reflexivity).
  split; [|split; [|split; [|split; [|split; [exact Gr|]]]]].
  - unfold http_info_refs. unfold lift at 1. unfold mbind at 1. rewrite Pn. unfold git_info_refs. cbn [pp_service pp_path pp_protocol]. unfold lift. cbn [unwrap_opt]. unfold mbind at 1.
    rewrite (mbind_ok _ _ _ _ _ _ _ E), (mbind_ok _ _ _ _ _ _ _ E2). reflexivity.
  - rewrite (mv_db _ _ _ M). exact D.
  - exact (mv_quiet _ _ _ M).
  - apply (advert_ok Http); [apply head_line_short; lia|exact Ls].
  - apply (listing_shown A w); [exact J|]. rewrite <- D. exact Li.
Qed.
Lemma ssh_greet : forall A w sv, stands A w -> can_greet A w ->
  exists w' out id refs, ssh_command e (ssh_line sv path) w = (w', Ok (mkProto Ssh path (Some sv) [] [], out)) /\ w_db w' = w_db w /\ no_failure w' /\
    advert false sv id refs out /\ greeted (teq e) A id /\ shown A refs.
Proof.
  intros A w sv J G. destruct (head_run A w J G) as (w1 & id & E & D & _ & Q & Gr & T & L).
  destruct (greet_run e sv path w w1 id He (proj1 G) path_text E Q) as (w' & out & refs & E2 & D2 & _ & Q2 & _ & Ad & Li); [lia|exact T|rewrite D; exact (refs_text A w J)|].
  exists w', out, id, refs. split; [exact E2|]. split; [congruence|]. split; [exact Q2|]. split; [exact Ad|]. split; [exact Gr|]. apply (listing_shown A w); [exact J|]. rewrite <- D. exact Li.
Qed.

(** ** Pushes *)
Definition accepted (p : push) (caps reply : bytes) : Prop := exists cl, caps_in caps cl /\ status_reply cl [bs "ok " ++ p_name p ++ [0]] reply.
(** The answer: over SSH after the greeting. *)
Definition push_answer (A : store) (p : push) (caps : bytes) (r : request) (reply : bytes) : Prop :=
  match r with
  | QHttp _ _ _ _ _ _ => accepted p caps reply
  | QSsh _ _ _ => exists adv id refs rest, reply = adv ++ rest /\ advert false ReceivePack id refs adv /\ greeted (teq e) A id /\ shown A refs /\ accepted p caps rest
  end.

Lemma same_place : forall (l1 l1' l2 l2' : list (bytes * bytes)) n n' x, ~ In x (map snd (l1 ++ l2)) -> ~ In x (map snd (l1' ++ l2')) ->
  l1 ++ (n, x) :: l2 = l1' ++ (n', x) :: l2' -> l1 = l1' /\ n = n' /\ l2 = l2'.
Proof.
  induction l1 as [|a l1 IH]; intros l1' l2 l2' n n' x H1 H2 E; destruct l1' as [|a' l1']; cbn [app] in E.
  - injection E as -> ->. auto.
  - exfalso. injection E as <- E. apply H2. left. reflexivity.
  - exfalso. injection E as -> E. apply H1. left. reflexivity.
  - injection E as -> E. cbn [app map] in H1, H2. destruct (IH l1' l2 l2' n n' x) as (-> & -> & ->); auto; intros K; [apply H1|apply H2]; right; exact K.
Qed.
Lemma not_same : forall (l : list (bytes * bytes)) old, (forall m i, In (m, i) l -> teq e i old = false) -> ~ In old (map snd l).
Proof.
  intros l old H K. apply in_map_iff in K as ([m i] & E & K). cbn [snd] in E. subst i. apply H in K. rewrite (proj1 (proj2 He) old) in K. discriminate.
Qed.

Lemma create_done : forall A w w' name new objs rows crows, stands A w -> ref_id new -> utf8_text name -> (exists k, text_len name k /\ (k <= 31)%nat) -> brings path A objs ->
  rows_for path objs rows crows -> no_failure w' ->
  w_db w' = mkDb (d_nodes (w_db w) ++ rows) (d_commits (w_db w) ++ crows) (d_refs (w_db w) ++ [mkRef (d_next_ref (w_db w)) path (name ++ [0]) new]) (d_next_ref (w_db w) + 1) ->
  stands (mkStore (s_refs A ++ [(name ++ [0], new)]) (s_objs A ++ objs)) w'.
Proof.
  intros A w w' name new objs rows crows J Hi Tn (k & Tk & Lk) Br Rf Q D. apply (stands_push A w w' objs rows crows); try assumption; try (rewrite D; reflexivity).
  - rewrite D. apply table_snoc; [exact (sd_table _ _ J)|reflexivity].
  - unfold refs_of. rewrite D. cbn [d_refs]. rewrite filter_app. cbn [filter r_repo_path]. rewrite (proj1 (proj2 He) path). apply Forall2_app; [exact (sd_refs _ _ J)|].
    constructor; [|constructor]. split; [reflexivity|]. split; reflexivity.
  - intros n i Hn. apply in_app_or in Hn as [Hn|[Hn|[]]]; [exact (sd_short _ _ J _ _ Hn)|]. injection Hn as <- <-.
    split; [apply text_app; [exact Tn|apply ascii_utf8; reflexivity]|]. split; [exact (name_bytes _ _ Tk Lk)|exact Hi].
Qed.
Lemma update_place : forall A w old l1 n l2, stands A w -> s_refs A = l1 ++ (n, old) :: l2 -> (forall m i, In (m, i) (l1 ++ l2) -> teq e i old = false) ->
  exists k1 r k2, d_refs (w_db w) = k1 ++ r :: k2 /\ r_ref_git_id r = old /\ r_repo_path r = path /\ r_ref_name r = n /\
    (forall x, In x (k1 ++ k2) -> teq e (r_ref_git_id x) old = true -> teq e (r_repo_path x) path = true -> False) /\
    Forall2 row_is (filter (fun r => teq e (r_repo_path r) path) k1) l1 /\ Forall2 row_is (filter (fun r => teq e (r_repo_path r) path) k2) l2.
Proof.
  intros A w old l1 n l2 J E Uq. pose proof (sd_refs _ _ J) as F. rewrite E in F. apply forall2_split in F as (f1 & r & f2 & Ef & F1 & (P1 & P2 & P3) & F2).
  unfold refs_of in Ef. apply filter_split in Ef as (k1 & k2 & Ek & <- & <-). exists k1, r, k2. cbn [fst snd] in *. split; [exact Ek|]. split; [exact P3|]. split; [exact P1|]. split; [exact P2|].
  split; [|auto]. intros x Hx T1 T2. destruct (rows_in _ _ F1) as [K1 _]. destruct (rows_in _ _ F2) as [K2 _].
  assert (In (r_ref_name x, r_ref_git_id x) (l1 ++ l2)).
  { apply in_or_app. apply in_app_or in Hx as [Hx|Hx]; [left; apply K1|right; apply K2]; apply filter_In; auto. }
  apply Uq in H. congruence.
Qed.
Lemma update_done : forall A w w' old l1 n l2 new objs rows crows k1 r k2, stands A w -> s_refs A = l1 ++ (n, old) :: l2 -> ref_id new -> brings path A objs ->
  d_refs (w_db w) = k1 ++ r :: k2 -> r_repo_path r = path -> r_ref_name r = n ->
  Forall2 row_is (filter (fun r => teq e (r_repo_path r) path) k1) l1 -> Forall2 row_is (filter (fun r => teq e (r_repo_path r) path) k2) l2 ->
  rows_for path objs rows crows -> no_failure w' ->
  w_db w' = mkDb (d_nodes (w_db w) ++ rows) (d_commits (w_db w) ++ crows) (k1 ++ with_id r new :: k2) (d_next_ref (w_db w)) ->
  stands (mkStore (l1 ++ (n, new) :: l2) (s_objs A ++ objs)) w'.
Proof.
  intros A w w' old l1 n l2 new objs rows crows k1 r k2 J E Hi Br Ek Pr Nr F1 F2 Rf Q D. apply (stands_push A w w' objs rows crows); try assumption; try (rewrite D; reflexivity).
  - pose proof (sd_table _ _ J) as [T1 T2]. rewrite D. split; cbn [d_refs d_next_ref].
    + rewrite Ek in T1. rewrite map_app in *. cbn [map with_id r_id] in *. exact T1.
    + intros x Hx. rewrite Ek in T2. apply in_app_or in Hx as [Hx|[<-|Hx]].
      * apply T2. apply in_or_app. auto.
      * cbn [with_id r_id]. apply T2. apply in_or_app. right. left. reflexivity.
      * apply T2. apply in_or_app. right. right. exact Hx.
  - unfold refs_of. rewrite D. cbn [d_refs]. rewrite filter_app. cbn [filter with_id r_repo_path]. rewrite Pr, (proj1 (proj2 He) path). apply Forall2_app; [exact F1|].
    constructor; [|exact F2]. split; [exact Pr|]. split; [exact Nr|reflexivity].
  - intros m i Hm. apply in_app_or in Hm as [Hm|[Hm|Hm]].
    + apply (sd_short _ _ J). rewrite E. apply in_or_app. auto.
    + injection Hm as <- <-. destruct (sd_short _ _ J n old) as (T & L & _); [rewrite E; apply in_or_app; right; left; reflexivity|]. auto.
    + apply (sd_short _ _ J). rewrite E. apply in_or_app. right. right. exact Hm.
Qed.

Lemma push_run : forall A w p caps r, stands A w -> allowed (teq e) path A p -> carries p caps r -> (by_ssh r -> can_greet A w) ->
  exists fuel0 w' reply, (forall fuel, (fuel0 <= fuel)%nat -> serve e b c fuel cut r w = (w', Ok reply)) /\ push_answer A p caps r reply /\
    forall A', after A p A' -> stands A' w'.
Proof.
  intros A w p caps r J Al Ca Gr. destruct Al as [name new objs Hn Hw Ln Br|old name new objs l1 n l2 Ho Hn Hw Ln Es Uq Br].
  - pose proof Hn as ((h & Hi & Hx) & Nz).
    assert (Fin : forall w0 w' rows crows, w_db w0 = w_db w -> rows_for path objs rows crows -> no_failure w' ->
      w_db w' = mkDb (d_nodes (w_db w0) ++ rows) (d_commits (w_db w0) ++ crows) (d_refs (w_db w0) ++ [mkRef (d_next_ref (w_db w0)) path (name ++ [0]) new]) (d_next_ref (w_db w0) + 1) ->
      forall A', after A (PCreate name new objs) A' -> stands A' w').
    { intros w0 w' rows crows D0 Rf Q D A' Af. inversion Af; subst. rewrite D0 in D. eapply create_done; try eassumption. apply Hw. }
    inversion Ca as [now m url s q caps' pack body G Tc Rq (Lp & Gp)|now caps' line pack Tc Rq (Lp & Gp)]; subst; cbn [p_old p_new p_name p_objs] in *.
    + destruct (Gp (get_hash_object e w)) as (po & Gk & Eo). rewrite <- Eo in *.
      destruct (C46_create e b c now path new h name caps body pack po w He (sd_quiet _ _ J) Hi Hx Hw Tc Ln Hp Rq Gk Lp (proj1 Br))
        as (fuel0 & w' & reply & rows & crows & cl & Hcl & St & Rf & D & Q & E).
      exists fuel0, w', reply. split; [|split; [exists cl; auto|apply (Fin w w' rows crows); auto]].
      intros fuel Hf. unfold serve. rewrite G. unfold mbind, lift. apply E. exact Hf.
    + destruct (ssh_greet A w ReceivePack J) as (w0 & adv & id & refs & E0 & D0 & Q0 & Ad & Gd & Sn); [apply Gr; exists now, (ssh_line ReceivePack path), [line; pack]; reflexivity|].
      destruct (Gp (get_hash_object e w0)) as (po & Gk & Eo). rewrite <- Eo in *.
      destruct (C102_create e b c cut now path new h name caps line pack po w w0 adv E0 He Q0 Hi Hx Hw Tc Ln Hp Rq Gk Lp (proj1 Br))
        as (fuel0 & w' & reply & rows & crows & cl & Hcl & St & Rf & D & Q & E).
      exists fuel0, w', (adv ++ reply). split; [exact E|]. split; [|apply (Fin w0 w' rows crows); auto].
      exists adv, id, refs, reply. split; [reflexivity|]. split; [exact Ad|]. split; [exact Gd|]. split; [exact Sn|]. exists cl. auto.
  - pose proof Hn as ((h & Hi & Hx) & Nz). pose proof Ho as ((h0 & Hi0 & Hx0) & Nz0).
    destruct (update_place A w old l1 n l2 J Es Uq) as (k1 & row & k2 & Ek & P1 & P2 & P3 & Uq' & F1 & F2).
    assert (Fin : forall w0 w' rows crows, w_db w0 = w_db w -> rows_for path objs rows crows -> no_failure w' ->
      w_db w' = mkDb (d_nodes (w_db w0) ++ rows) (d_commits (w_db w0) ++ crows) (k1 ++ with_id row new :: k2) (d_next_ref (w_db w0)) ->
      forall A', after A (PUpdate old name new objs) A' -> stands A' w').
    { intros w0 w' rows crows D0 Rf Q D A' Af. inversion Af as [|o2 na2 ne2 ob2 m1 n2 m2 Es2 Nin]; subst. rewrite Es in Es2.
      destruct (same_place _ _ _ _ _ _ _ (not_same _ _ Uq) Nin Es2) as (<- & <- & <-). rewrite D0 in D. eapply update_done; try eassumption. reflexivity. }
    inversion Ca as [now m url s q caps' pack body G Tc Rq (Lp & Gp)|now caps' line pack Tc Rq (Lp & Gp)]; subst r; subst caps'; cbn [p_old p_new p_name p_objs] in *.
    + destruct (Gp (get_hash_object e w)) as (po & Gk & Eo). rewrite <- Eo in *.
      destruct (C46_update e b c now path old h0 new h name caps body pack po w k1 row k2 He (sd_quiet _ _ J) (sd_table _ _ J) Hi0 Hx0 Nz0 Hi Hx Nz Hw Ln Tc Rq Gk Lp (proj1 Br) Ek P1 P2 Uq')
        as (fuel0 & w' & reply & rows & crows & cl & Hcl & St & Rf & D & Q & E).
      exists fuel0, w', reply. split; [|split; [exists cl; auto|apply (Fin w w' rows crows); auto]].
      intros fuel Hf. unfold serve. rewrite G. unfold mbind, lift. apply E. exact Hf.
    + destruct (ssh_greet A w ReceivePack J) as (w0 & adv & id & refs & E0 & D0 & Q0 & Ad & Gd & Sn); [apply Gr; exists now, (ssh_line ReceivePack path), [line; pack]; reflexivity|].
      destruct (Gp (get_hash_object e w0)) as (po & Gk & Eo). rewrite <- Eo in *.
      assert (Ek0 : d_refs (w_db w0) = k1 ++ row :: k2) by (rewrite D0; exact Ek). assert (T0 : refs_table (w_db w0)) by (rewrite D0; exact (sd_table _ _ J)).
      destruct (C102_update e b c cut now path old h0 new h name caps line pack po w w0 adv k1 row k2 E0 He Q0 T0 Hi0 Hx0 Nz0 Hi Hx Nz Hw Ln Tc Rq Gk Lp (proj1 Br) Ek0 P1 P2 Uq')
        as (fuel0 & w' & reply & rows & crows & cl & Hcl & St & Rf & D & Q & E).
      exists fuel0, w', (adv ++ reply). split; [exact E|]. split; [|apply (Fin w0 w' rows crows); auto].
      exists adv, id, refs, reply. split; [reflexivity|]. split; [exact Ad|]. split; [exact Gd|]. split; [exact Sn|]. exists cl. auto.
Qed.

(** An update from an id that is not there ends the connection when its objects are stored. *)
Lemma stale_run : forall A w p caps r, stands A w -> stale path A p -> carries p caps r -> (by_ssh r -> can_greet A w) ->
  exists fuel0 w', (forall fuel, (fuel0 <= fuel)%nat -> serve e b c fuel cut r w = (w', Panic)) /\ d_refs (w_db w') = d_refs (w_db w) /\ stands (kept A p) w'.
Proof.
  intros A w p caps r J St Ca Gr. destruct St as [old name new objs Ho Hn Hw Ln No Br].
  pose proof Hn as ((h & Hi & Hx) & Nz). pose proof Ho as ((h0 & Hi0 & Hx0) & Nz0). set (cmd := cmd_unpacked (ref_command_new old new (name ++ [0])) None).
  assert (Ty : rc_type cmd = Update).
  { unfold cmd, cmd_unpacked, ref_command_new. cbn [rc_type]. rewrite (proj2 (beq_neq zero_id old)) by (intros Z; apply Nz0; rewrite <- Z; reflexivity).
    rewrite (proj2 (beq_neq zero_id new)) by (intros Z; apply Nz; rewrite <- Z; reflexivity). reflexivity. }
  assert (Fin : forall w0 w1 rows crows, w_db w0 = w_db w -> rows_for path objs rows crows -> no_failure w1 -> w_db w1 = with_rows (w_db w0) rows crows ->
    exists w2, handle_refs e cmd path w1 = (w2, Panic) /\ d_refs (w_db w2) = d_refs (w_db w) /\ (no_failure w2 -> stands (kept A (PUpdate old name new objs)) w2)).
  { intros w0 w1 rows crows D0 Rf Q1 W1. assert (T1 : refs_table (w_db w1)) by (rewrite W1, D0; exact (sd_table _ _ J)).
    assert (R1 : d_refs (w_db w1) = d_refs (w_db w)) by (rewrite W1, D0; reflexivity).
    destruct (C55_one_reference e cmd path w1 He Q1 T1) as [(w2 & r0 & a & z & _ & K1 & K2 & Er & _)|(w2 & E & D & _)]; [exists h; auto| |].
    - exfalso. assert (Ir : In r0 (refs_of e (w_db w) path)) by (apply filter_In; split; [rewrite <- R1, Er; apply in_or_app; right; left; reflexivity|exact K2]).
      destruct (rows_in _ _ (sd_refs _ _ J)) as [K _]. destruct (K r0 Ir) as [_ Ii]. apply (No _ _ Ii). destruct (sd_short _ _ J _ _ Ii) as (_ & _ & (h1 & Hi1 & Hx1) & _).
      exact (proj2 (proj2 He) _ _ _ _ Hx1 Hx0 (proj1 Hi1) (proj1 Hi0) K1).
    - exists w2. split; [unfold handle_refs; rewrite Ty; exact E|]. split; [rewrite D; exact R1|]. unfold kept. cbn [p_objs]. intros Q2.
      apply (stands_push A w w2 objs rows crows); try assumption.
      + rewrite D. exact T1.
      + rewrite D, W1, D0. reflexivity.
      + rewrite D, W1, D0. reflexivity.
      + unfold refs_of. rewrite D, R1. exact (sd_refs _ _ J).
      + exact (sd_short _ _ J). }
  inversion Ca as [now m url s q caps' pack body G Tc Rq (Lp & Gp)|now caps' line pack Tc Rq (Lp & Gp)]; subst r; subst caps'; cbn [p_old p_new p_name p_objs] in *.
  - destruct (Gp (get_hash_object e w)) as (po & Gk & Eo). rewrite <- Eo in *.
    destruct (push_one e b c now path old new name caps body pack po w He (sd_quiet _ _ J) (hex_word _ _ Hx0 Hi0) (hex_word _ _ Hx Hi) Hw Ln Tc Rq Gk Lp (proj1 Br))
      as (fuel0 & w1 & rows & crows & cl & _ & Q1 & W1 & Rf & K & _).
    destruct (Fin w w1 rows crows eq_refl Rf Q1 W1) as (w2 & E & R2 & S2). exists fuel0, w2.
    assert (Es : forall fuel, (fuel0 <= fuel)%nat -> serve e b c fuel cut (QHttp now m url s q body) w = (w2, Panic)) by (intros fuel Hf; unfold serve; rewrite G; unfold mbind, lift; exact (K w2 E fuel Hf)).
    split; [exact Es|]. split; [exact R2|]. apply S2. assert (X : no_failure (fst (serve e b c fuel0 cut (QHttp now m url s q body) w))) by (apply serve_quiet; [exact He|exact (sd_quiet _ _ J)]). rewrite (Es fuel0 (le_n _)) in X. exact X.
  - destruct (ssh_greet A w ReceivePack J) as (w0 & adv & id & refs & E0 & D0 & Q0 & _); [apply Gr; exists now, (ssh_line ReceivePack path), [line; pack]; reflexivity|].
    destruct (Gp (get_hash_object e w0)) as (po & Gk & Eo). rewrite <- Eo in *.
    destruct (ssh_push_one e b c cut now path old new name caps line pack po w0 He Q0 (hex_word _ _ Hx0 Hi0) (hex_word _ _ Hx Hi) Hw Ln Tc Rq Gk Lp (proj1 Br))
      as (fuel0 & w1 & rows & crows & cl & _ & Q1 & W1 & Rf & K & _).
    destruct (Fin w0 w1 rows crows D0 Rf Q1 W1) as (w2 & E & R2 & S2). exists fuel0, w2.
    assert (Es : forall fuel, (fuel0 <= fuel)%nat -> serve e b c fuel cut (QSsh now (ssh_line ReceivePack path) [line; pack]) w = (w2, Panic)) by
      (intros fuel Hf; unfold serve; rewrite (mbind_ok _ _ _ _ _ _ _ E0); unfold mbind; rewrite (K w2 E fuel Hf); reflexivity).
    split; [exact Es|]. split; [exact R2|]. apply S2. assert (X : no_failure (fst (serve e b c fuel0 cut (QSsh now (ssh_line ReceivePack path) [line; pack]) w))) by (apply serve_quiet; [exact He|exact (sd_quiet _ _ J)]). rewrite (Es fuel0 (le_n _)) in X. exact X.
Qed.

(** ** Every state of a run *)
Lemma stands_read : forall A w r fuel, stands A w -> reading r -> plain_fetch r \/ can_greet A w -> stands A (fst (serve e b c fuel cut r w)).
Proof.
  intros A w r fuel J R G. apply (stands_db A w); [exact J|apply serve_quiet; [exact He|exact (sd_quiet _ _ J)]|]. destruct R as [now m url s q body sv Gw|now m url s q body Gw|now packets].
  - destruct G as [(n2 & m2 & u2 & s2 & q2 & b2 & Eq & K)|G]; [injection Eq as <- <- <- <- <- <-; rewrite Gw in K; discriminate|].
    destruct (http_greet A w sv J G) as (w' & out & id & refs & E & D & _). unfold serve. rewrite Gw. unfold mbind, lift. rewrite E. exact D.
  - apply (C80_request e b c fuel cut now m url s q body w); rewrite Gw; discriminate.
  - destruct G as [(n2 & m2 & u2 & s2 & q2 & b2 & Eq & K)|G]; [discriminate Eq|].
    destruct (ssh_greet A w UploadPack J G) as (w' & out & id & refs & E & D & _). unfold serve. rewrite (mbind_ok _ _ _ _ _ _ _ E).
    pose proof (C80_ssh e b c fuel cut now packets (mkProto Ssh path (Some UploadPack) [] []) w' eq_refl) as (K & _).
    unfold mbind. destruct (ssh_session e b c fuel cut now _ packets w') as [w2 [[p2 x2]| | |]]; unfold ret; cbn [fst] in *; congruence.
Qed.
Lemma run_stands : forall A w, run A w -> stands A w.
Proof.
  induction 1 as [w D Q|A w r fuel _ IH O|A w r fuel _ IH R G|A w r fuel _ IH D|A w p A' caps r fuel0 w' x _ IH Al Ca Gr E Af|A w p caps r fuel0 w' x _ IH St Ca Gr E].
  - exact (stands_new w D Q).
  - exact (stands_other A w r fuel IH O).
  - exact (stands_read A w r fuel IH R G).
  - apply (stands_db A w); [exact IH|apply serve_quiet; [exact He|exact (sd_quiet _ _ IH)]|exact D].
  - destruct (push_run A w p caps r IH Al Ca Gr) as (fuel1 & w1 & reply & E1 & _ & K).
    pose proof (E (Nat.max fuel0 fuel1) ltac:(lia)) as X. rewrite (E1 (Nat.max fuel0 fuel1) ltac:(lia)) in X. injection X as <- _. exact (K A' Af).
  - destruct (stale_run A w p caps r IH St Ca Gr) as (fuel1 & w1 & E1 & _ & K).
    pose proof (E (Nat.max fuel0 fuel1) ltac:(lia)) as X. rewrite (E1 (Nat.max fuel0 fuel1) ltac:(lia)) in X. injection X as <- _. exact K.
Qed.
Lemma clone_run : forall A w st, stands A w -> (exists d, In (Commit, d) (s_objs A)) -> collision_free (repo_objects e (w_db w) path) ->
  exists fuel0, forall fuel, (fuel0 <= fuel)%nat -> exists w' file l, get_full_pack_data e c fuel path w = (w', Ok file) /\ moved w w' [] /\
    git_pack c st file l /\ NoDup (map snd l) /\ forall o, In o (map snd l) <-> reach (fun o => In o (s_objs A)) o.
Proof.
  intros A w st J (d0 & Hd0) Cf. set (R := reach (fun o => In o (s_objs A))). pose proof (sd_history _ _ J) as Hs. pose proof (sd_nodes _ _ J) as Fn. rewrite Forall_forall in Fn.
  assert (CI : forall r, In r (commits_at e (w_db w) path) <-> In r (d_commits (w_db w)) /\ teq e (c_repo_path r) path = true) by (intros r; apply filter_In).
  apply (clone_of e (w_db w) path R He); try assumption; try reflexivity; try exact (sd_quiet _ _ J).
  + intros r Hr Tr. destruct (sd_commits _ _ J r (proj2 (CI r) (conj Hr Tr))) as (o & Ho & _). eauto.
  + intros [t d] Ho. assert (Dt : t = Commit \/ t <> Commit) by (destruct t; (left; reflexivity) || (right; discriminate)). destruct Dt as [->|Nt].
    * right. destruct (sd_all_commits _ _ J d (reach_S _ _ Ho)) as (r & Hr & Hf). destruct (proj1 (CI r) Hr). eauto.
    * left. apply (sd_all_nodes _ _ J _ Ho Nt).
  + intros d [(r & _ & Hf)|(r & Hr & Tr & Hf)]; [inversion Hf|]. apply rc_commit.
    destruct (sd_commits _ _ J r (proj2 (CI r) (conj Hr Tr))) as (o & Ho & Io). rewrite (commit_for_fun _ _ _ Hf Ho). exact Io.
  + intros o Ho. unfold R. induction Ho as [d Hd|o t hh d Hr IH Rr Nt Hd Hid]; [apply rc_commit, rc_commit; exact Hd|].
    eapply rc_refers; [exact IH|exact Rr|exact Nt| |exact Hid]. eapply rc_refers; eassumption.
  + intros o Ho. pose proof (hs_sound _ _ Hs) as Fs. rewrite Forall_forall in Fs. apply Fs. exact (reach_S _ _ Ho).
  + intros o t hh Ho Rr. destruct (hs_complete _ _ Hs _ _ _ Ho Rr) as (Nt & d & Hd & Hid). split; [exact Nt|]. exists d. split; [|exact Hid].
    eapply rc_refers; eassumption.
  + destruct (hs_acyclic _ _ Hs) as (rank & Ac). exists rank. intros d x y Ho. apply Ac. exact (reach_S _ _ Ho).
  + exists (s_objs A). split; [exact (sd_few _ _ J)|]. intros o Ho. exact (reach_S _ _ Ho).
  + exists d0. apply rc_commit. exact Hd0.
Qed.

(** ** C113 *)

(** A push that the store allows is accepted, over HTTP and over SSH; what stands then is
    what the store has after it. *)
Theorem C113_push : forall A w p A' caps r, run A w -> allowed (teq e) path A p -> carries p caps r -> (by_ssh r -> can_greet A w) -> after A p A' ->
  exists fuel0 w' reply, (forall fuel, (fuel0 <= fuel)%nat -> serve e b c fuel cut r w = (w', Ok reply)) /\ push_answer A p caps r reply /\ run A' w'.
Proof.
  intros A w p A' caps r Ru Al Ca Gr Af. destruct (push_run A w p caps r (run_stands A w Ru) Al Ca Gr) as (fuel0 & w' & reply & E & An & _).
  exists fuel0, w', reply. split; [exact E|]. split; [exact An|]. exact (run_push A w p A' caps r fuel0 w' (Ok reply) Ru Al Ca Gr E Af).
Qed.
(** An update from an id that no reference has any more is not answered. No reference changes;
    its objects stay. *)
Theorem C113_stale : forall A w p caps r, run A w -> stale path A p -> carries p caps r -> (by_ssh r -> can_greet A w) ->
  exists fuel0 w', (forall fuel, (fuel0 <= fuel)%nat -> serve e b c fuel cut r w = (w', Panic)) /\ d_refs (w_db w') = d_refs (w_db w) /\ run (kept A p) w'.
Proof.
  intros A w p caps r Ru St Ca Gr. destruct (stale_run A w p caps r (run_stands A w Ru) St Ca Gr) as (fuel0 & w' & E & R & _).
  exists fuel0, w'. split; [exact E|]. split; [exact R|]. exact (run_stale A w p caps r fuel0 w' Panic Ru St Ca Gr E).
Qed.
(** The advertisement over HTTP shows the head and the references of the store. *)
Theorem C113_references : forall A w now m url s q body sv fuel, run A w -> can_greet A w -> gateway m url s q = Ok (AInfoRefs (service_text sv) path) ->
  exists w' reply id refs, serve e b c fuel cut (QHttp now m url s q body) w = (w', Ok reply) /\ advert true sv id refs reply /\ greeted (teq e) A id /\ shown A refs.
Proof.
  intros A w now m url s q body sv fuel Ru G Gw. destruct (http_greet A w sv (run_stands A w Ru) G) as (w' & out & id & refs & E & _ & _ & Ad & Gd & Sn).
  exists w', out, id, refs. split; [unfold serve; rewrite Gw; unfold mbind, lift; exact E|auto].
Qed.
(** A clone gets all that the store's commits lead to, each object once. *)
Theorem C113_clone : forall A w now m url s q body st, run A w -> (exists d, In (Commit, d) (s_objs A)) -> collision_free (repo_objects e (w_db w) path) ->
  gateway m url s q = Ok (AUploadPack path) -> clone_request body ->
  exists fuel0, forall fuel, (fuel0 <= fuel)%nat -> exists w' reply, serve e b c fuel cut (QHttp now m url s q body) w = (w', Ok reply) /\
    clone_reply c st reply (reach (fun o => In o (s_objs A))).
Proof.
  intros A w now m url s q body st Ru Hd Cf Gw Cr. pose proof (run_stands A w Ru) as J.
  destruct (http_clone e c cut path body w (w_db w) _ st Hcut Cr (clone_run A w st J Hd Cf) eq_refl) as (fuel0 & F). exists fuel0. intros fuel Hf.
  destruct (F fuel Hf) as (w' & reply & E & _ & Cl). exists w', reply. split; [unfold serve; rewrite Gw; unfold mbind, lift; exact E|exact Cl].
Qed.
(** Over SSH likewise, after a greeting with the head and the references of the store. *)
Theorem C113_ssh_clone : forall A w now body st, run A w -> can_greet A w -> (exists d, In (Commit, d) (s_objs A)) -> collision_free (repo_objects e (w_db w) path) ->
  clone_request body ->
  exists fuel0, forall fuel, (fuel0 <= fuel)%nat -> exists w' adv reply id refs, serve e b c fuel cut (QSsh now (ssh_line UploadPack path) [body]) w = (w', Ok (adv ++ reply)) /\
    advert false UploadPack id refs adv /\ greeted (teq e) A id /\ shown A refs /\ clone_reply c st reply (reach (fun o => In o (s_objs A))).
Proof.
  intros A w now body st Ru G Hd Cf Cr. pose proof (run_stands A w Ru) as J. destruct (ssh_greet A w UploadPack J G) as (w0 & adv & id & refs & E0 & D0 & Q0 & Ad & Gd & Sn).
  assert (J0 : stands A w0) by (apply (stands_db A w); assumption). assert (Cf0 : collision_free (repo_objects e (w_db w0) path)) by (rewrite D0; exact Cf).
  destruct (ssh_clone e b c cut now path body w0 (w_db w0) _ st Hcut Cr (clone_run A w0 st J0 Hd Cf0) eq_refl) as (fuel0 & F). exists fuel0. intros fuel Hf.
  destruct (F fuel Hf) as (w' & pp' & reply & E & _ & Cl). exists w', adv, reply, id, refs. split; [exact (session_serve _ _ _ _ _ _ _ _ _ _ _ _ _ _ _ _ E0 E)|auto].
Qed.
End Server.

(** ** A push over HTTP, another over SSH, then a clone *)
Definition ex_first : push := PCreate (bs "refs/heads/master") (to_plain_str (oid ex_top)) ex_hist.
Definition ex_next : push := PUpdate (to_plain_str (oid ex_top)) (bs "refs/heads/master") (to_plain_str (oid ex_second)) two_objs.
Definition store1 : store := mkStore [(bs "refs/heads/master" ++ [0], to_plain_str (oid ex_top))] ex_hist.
Definition store2 : store := mkStore [(bs "refs/heads/master" ++ [0], to_plain_str (oid ex_second))] (ex_hist ++ two_objs).
Definition next_line : bytes := push_body (to_plain_str (oid ex_top)) (to_plain_str (oid ex_second)) (bs "refs/heads/master") ex_caps [].

Lemma history_set : forall path l l', (forall o, In o l <-> In o l') -> history path l -> history path l'.
Proof.
  intros path l l' S H. assert (K : forall o, reach (fun o => In o l') o -> reach (fun o => In o l) o).
  { intros o Ho. induction Ho as [d Hd|o t h d Ho IH Rf Nt Hd Hi]; [apply rc_commit; apply S; exact Hd|]. eapply rc_refers; [exact IH|exact Rf|exact Nt|apply S; exact Hd|exact Hi]. }
  split.
  - pose proof (hs_sound _ _ H) as F. rewrite Forall_forall in *. intros o Ho. apply F, S, Ho.
  - intros o t h Ho Rf. destruct (hs_complete _ _ H o t h (K o Ho) Rf) as (N & d & Hd & Hi). split; [exact N|]. exists d. split; [apply S; exact Hd|exact Hi].
  - intros x y h Hx Hy. apply (hs_free _ _ H); apply S; assumption.
  - destruct (hs_acyclic _ _ H) as (rank & Ac). exists rank. intros d h h' Hd. apply Ac. apply S. exact Hd.
  - intros o Ho. apply (hs_fits _ _ H). exact (K o Ho).
Qed.
Lemma both_ok : history (bs "/demo") (ex_hist ++ two_objs).
Proof.
  apply (history_set _ two_objs); [|exact two_ok]. intros o. rewrite in_app_iff. split; [auto|]. intros [H|H]; [right; exact H|exact H].
Qed.
Lemma top_ref : ref_id (to_plain_str (oid ex_top)).
Proof. split; [exists (oid ex_top); split; [exact ex_top_id|apply plain_lower; exact ex_top_id]|]. vm_compute. discriminate. Qed.
Lemma second_ref : ref_id (to_plain_str (oid ex_second)).
Proof. split; [exists (oid ex_second); split; [exact second_id|apply plain_lower; exact second_id]|]. vm_compute. discriminate. Qed.
Lemma first_allowed : allowed (teq ex_env) (bs "/demo") store_new ex_first.
Proof.
  apply al_create; [exact top_ref|exact master_word|exists 17%nat; split; [exact (ascii_text (bs "refs/heads/master") eq_refl)|lia]|].
  pose proof (proj1 (ex_hist_ok (bs "/demo") eq_refl)) as H. split; [exact H|]. split; [exists (snd ex_top); left; reflexivity|]. split; [exact H|reflexivity].
Qed.
Lemma next_allowed : allowed (teq ex_env) (bs "/demo") store1 ex_next.
Proof.
  apply (al_update _ _ _ _ _ _ _ [] (bs "refs/heads/master" ++ [0]) []); [exact top_ref|exact second_ref|exact master_word|vm_compute; discriminate|reflexivity|intros m i []|].
  split; [exact two_ok|]. split; [exists (snd ex_second); left; reflexivity|]. split; [exact both_ok|reflexivity].
Qed.
Lemma next_request : push_line (to_plain_str (oid ex_top)) (to_plain_str (oid ex_second)) (bs "refs/heads/master") ex_caps next_line.
Proof. unfold push_line, next_line. apply push_body_request. rewrite !nlen_app, (plain_len _ second_id), (plain_len _ ex_top_id). vm_compute. discriminate. Qed.
Lemma next_carried : forall now, carries stored (bs "/demo") ex_next ex_caps (QSsh now (ssh_line ReceivePack (bs "/demo")) [next_line; pack_of two_objs]).
Proof.
  intros now. apply ca_ssh; [apply utf8_spec; reflexivity|exact next_request|split; [exact two_small|intros st; exact (two_pack st)]].
Qed.
Lemma first_request : push_request (repeat 48 40) (to_plain_str (oid ex_top)) (bs "refs/heads/master") ex_caps (pack_of ex_hist) ex_body.
Proof. destruct C46_create_ex as (objs & H & _). exact H. Qed.
Lemma first_carried : forall now, carries stored (bs "/demo") ex_first ex_caps (QHttp now MPost (bs "/demo.git/git-receive-pack") None no_query ex_body).
Proof.
  intros now. apply (ca_http _ _ _ now _ _ _ _ ex_caps (pack_of ex_hist)); [exact push_demo_at|apply utf8_spec; reflexivity|exact first_request|].
  split; [exact ex_pack_small|intros st; exact (ex_pack st)].
Qed.
Lemma demo_path : exists k, text_len (bs "/demo") k /\ (k <= 64)%nat.
Proof. exists 5%nat. split; [exact (ascii_text (bs "/demo") eq_refl)|lia]. Qed.
Lemma demo_like : like ex_env (bs "/demo") (bs "/demo") = true.
Proof. vm_compute. reflexivity. Qed.
Lemma demo_master : teq ex_env (bs "refs/heads/master" ++ [0]) (bs "refs/heads/master") = true.
Proof. vm_compute. reflexivity. Qed.
Lemma head_one : forall same n id objs, same n (bs "refs/heads/master") = true -> head_id same (mkStore [(n, id)] objs) id.
Proof. intros same n id objs H. split; [exists n; split; [left; reflexivity|exact H]|]. intros m i [E|[]] _. injection E as _ <-. reflexivity. Qed.
Lemma demo_greets : forall w, can_greet ex_env (bs "/demo") store1 w.
Proof.
  intros w. split; [vm_compute; intuition discriminate|]. left. exists (to_plain_str (oid ex_top)). apply head_one. exact demo_master.
Qed.
Lemma first_after : after store_new ex_first store1.
Proof. apply af_create. Qed.
Lemma next_after : after store1 ex_next store2.
Proof. apply (af_update store1 _ _ _ _ [] (bs "refs/heads/master" ++ [0]) []); [reflexivity|intros []]. Qed.

Notation ex_run := (run ex_env Release stored ex_cut (bs "/demo")).
Lemma run_first : exists w, ex_run store1 w /\ collision_free (repo_objects ex_env (w_db w) (bs "/demo")).
Proof.
  assert (R0 : ex_run store_new (world_of db_empty)) by (apply run_start; reflexivity).
  destruct (ex_pack (get_hash_object ex_env (world_of db_empty))) as (objs & G & Eo). pose proof (proj1 (ex_hist_ok (bs "/demo") eq_refl)) as Hs.
  pose proof (C46_create ex_env Release stored 7 (bs "/demo") (to_plain_str (oid ex_top)) (oid ex_top) (bs "refs/heads/master") ex_caps ex_body (pack_of ex_hist) objs (world_of db_empty)
    ex_env_ok eq_refl ex_top_id (plain_lower _ ex_top_id) master_word) as H. rewrite Eo in H.
  destruct H as (fuel0 & w & reply & rows & crows & cl & _ & _ & Rf & D & Q & E).
  - apply utf8_spec. reflexivity.
  - exists 17%nat. split; [exact (ascii_text (bs "refs/heads/master") eq_refl)|lia].
  - exact demo_path.
  - exact first_request.
  - exact G.
  - exact ex_pack_small.
  - exact Hs.
  - exists w. split.
    + apply (run_push ex_env Release stored ex_cut (bs "/demo") store_new (world_of db_empty) ex_first store1 ex_caps (QHttp 7 MPost (bs "/demo.git/git-receive-pack") None no_query ex_body)
        fuel0 w (Ok reply) R0 first_allowed (first_carried 7)).
      * intros (now & cmd & packets & K). discriminate K.
      * intros fuel Hf. unfold serve. rewrite push_demo_at. unfold mbind, lift. apply E. exact Hf.
      * exact first_after.
    + apply (free_sub _ (fun o => In o ex_hist)); [|exact (hs_free _ _ Hs)]. cbn [world_of w_db db_empty d_nodes d_commits d_refs d_next_ref app] in D. intros o [(r & Hr & Hf)|(r & Hr & _ & Hf)].
      * rewrite D in Hr. destruct (rf_nodes _ _ _ _ Rf r Hr) as (o' & Ho & Re). rewrite (node_for_fun _ _ _ Hf Ho). destruct Re; assumption.
      * rewrite D in Hr. destruct (rf_commits _ _ _ _ Rf r Hr) as (_ & o' & Ho & Re). rewrite (commit_for_fun _ _ _ Hf Ho). exact Re.
Qed.
Example C113_ex : exists w1, ex_run store1 w1 /\ (exists d, In (Commit, d) (s_objs store1)) /\ collision_free (repo_objects ex_env (w_db w1) (bs "/demo")) /\
  allowed (teq ex_env) (bs "/demo") store1 ex_next /\
  carries stored (bs "/demo") ex_next ex_caps (QSsh (fun _ => 8) (ssh_line ReceivePack (bs "/demo")) [next_line; pack_of two_objs]) /\ can_greet ex_env (bs "/demo") store1 w1 /\
  after store1 ex_next store2 /\ exists w2, ex_run store2 w2.
Proof.
  destruct run_first as (w1 & R1 & Cf). exists w1. split; [exact R1|]. split; [exists (snd ex_top); left; reflexivity|]. split; [exact Cf|]. split; [exact next_allowed|]. split; [exact (next_carried (fun _ => 8))|]. split; [exact (demo_greets w1)|].
  split; [exact next_after|].
  destruct (C113_push ex_env Release stored ex_cut (bs "/demo") ex_env_ok ex_equiv ex_cut_ok demo_path demo_like store1 w1 ex_next store2 ex_caps
    (QSsh (fun _ => 8) (ssh_line ReceivePack (bs "/demo")) [next_line; pack_of two_objs]) R1 next_allowed (next_carried (fun _ => 8)) (fun _ => demo_greets w1) next_after) as (fuel0 & w2 & reply & _ & _ & R2).
  exists w2. exact R2.
Qed.

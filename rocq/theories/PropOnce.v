(** C144: each name of a repository stands for one reference. *)

From Coq Require Import Permutation.
From Verif Require Import Base BaseLemmas Digest ModelUtils ModelObject ModelBase ModelPack ModelDecode ModelPkt ModelStorage ModelProto ModelLfs ModelGateway ModelService
  StoredZlib SpecObject SpecIdx SpecBase SpecPack SpecPkt SpecStorage SpecProto SpecService SpecFetch ProofObject ProofUtf8 ProofBase ProofPack ProofShort ProofPkt ProofReq
  ProofEncode ProofNodes ProofStorage ProofPush ProofClone ProofRepo ProofRefs ProofSession ProofGraph ProofExample ProofService PropPkt PropStorage PropProto PropGateway PropService PropSsh PropCaps.
Open Scope N_scope.

(** ** Vocabulary *)

(** The references of all repositories, each by its repository and its name. *)
Definition ref_keys (d : db) : list (bytes * bytes) := map (fun r => (r_repo_path r, r_ref_name r)) (d_refs d).
Definition one_each (d : db) : Prop := NoDup (ref_keys d).
Definition taken (d : db) (path name : bytes) : Prop := In (path, name) (ref_keys d).

(** Requests that create no reference whose name is taken: anything but a push; a push of
    one command, over HTTP or SSH, that does not create; one that creates a new name. Over
    SSH the name is to be new when the references have been shown. Where the references
    are shown, the search for a path is to find that path ([like] is MySQL's, of a pattern
    made from the path: a path with a backslash does not find itself). The bytes after the
    command are anything. *)
Inductive careful (e : env) (w : world) : request -> Prop :=
| cf_other : forall now m url s q body, (forall p, gateway m url s q <> Ok (AReceivePack p)) ->
    (forall t p, gateway m url s q = Ok (AInfoRefs t p) -> like e p p = true) -> careful e w (QHttp now m url s q body)
| cf_push : forall now m url s q body path old new name caps pack, gateway m url s q = Ok (AReceivePack path) ->
    word old -> word new -> word name -> utf8_text caps -> push_request old new name caps pack body ->
    (old = repeat 48 40 -> ~ taken (w_db w) path (name ++ [0])) -> careful e w (QHttp now m url s q body)
| cf_fetch_ssh : forall now rest packets, (forall p, about (QSsh now (bs "git-upload-pack " ++ rest) packets) p -> like e p p = true) ->
    careful e w (QSsh now (bs "git-upload-pack " ++ rest) packets)
| cf_push_ssh : forall now rest line pack old new name caps, word old -> word new -> word name -> utf8_text caps -> push_line old new name caps line ->
    (forall p, about (QSsh now (bs "git-receive-pack " ++ rest) [line; pack]) p -> like e p p = true) ->
    (forall w1 pp adv, ssh_command e (bs "git-receive-pack " ++ rest) w = (w1, Ok (pp, adv)) -> old = repeat 48 40 -> ~ taken (w_db w1) (pp_path pp) (name ++ [0])) ->
    careful e w (QSsh now (bs "git-receive-pack " ++ rest) [line; pack]).
(** Each request is careful when it comes. *)
Fixpoint all_careful (e : env) (b : build) (c : codec) (fuel : nat) (cut : bytes -> list bytes) (l : list request) (w : world) : Prop :=
  match l with
  | [] => True
  | r :: l' => careful e w r /\ all_careful e b c fuel cut l' (fst (serve e b c fuel cut r w))
  end.

(** ** What requests do to the names *)

Definition wkeys (w : world) : list (bytes * bytes) := ref_keys (w_db w).
Definition keyed (w w' : world) : Prop := wkeys w' = wkeys w.
Lemma keyed_refl : forall w, keyed w w. Proof. intros. reflexivity. Qed.
Lemma keyed_trans : forall a b c, keyed a b -> keyed b c -> keyed a c. Proof. unfold keyed. intros. congruence. Qed.
Definition still {A} (m : M A) : Prop := ProofService.keeps keyed m.
Lemma still_ret : forall A (a : A), still (ret a). Proof. exact (ProofService.keeps_ret keyed keyed_refl). Qed.
Lemma still_lift : forall A (r : res A), still (lift r). Proof. exact (ProofService.keeps_lift keyed keyed_refl). Qed.
Lemma still_bind : forall A B (m : M A) (k : A -> M B), still m -> (forall a, still (k a)) -> still (mbind m k).
Proof. exact (ProofService.keeps_bind keyed keyed_trans). Qed.
Lemma still_reads : forall A (m : M A), ProofService.reads m -> still m.
Proof. intros A m H w. destruct (H w) as (D & _). unfold keyed, wkeys. rewrite D. reflexivity. Qed.
Lemma still_calm : forall A (m : M A), calmly m -> still m.
Proof. intros A m H w. destruct (H w) as (D & _). unfold keyed, wkeys, ref_keys. rewrite D. reflexivity. Qed.
(** At most one name is added. *)
Definition adds {A} (P : bytes * bytes -> Prop) (m : M A) : Prop := forall w, keyed w (fst (m w)) \/ exists k, P k /\ wkeys (fst (m w)) = wkeys w ++ [k].
Lemma adds_still : forall A P (m : M A), still m -> adds P m. Proof. intros A P m H w. left. apply H. Qed.
Lemma adds_after : forall A B P (m : M A) (f : A -> M B), still m -> (forall a, adds P (f a)) -> adds P (mbind m f).
Proof.
  intros A B P m f H F w. specialize (H w). unfold mbind. destruct (m w) as [w1 [a|x| |]]; cbn [fst] in *; auto. unfold keyed in *. destruct (F a w1) as [E|(k & K & E)]; [left; congruence|].
  right. exists k. split; [exact K|congruence].
Qed.
Lemma adds_then : forall A B P (m : M A) (f : A -> M B), adds P m -> (forall a, still (f a)) -> adds P (mbind m f).
Proof.
  intros A B P m f H F w. specialize (H w). unfold mbind. destruct (m w) as [w1 [a|x| |]]; cbn [fst] in *; auto. pose proof (F a w1) as E. unfold keyed in *. rewrite E. exact H.
Qed.
Lemma adds_insert : forall (P : bytes * bytes -> Prop) path name id, P (path, name) -> adds P (insert_all [insert_ref path name id]).
Proof.
  intros P path name id H w. cbn [insert_all]. unfold mbind, execute. unfold mbind. pose proof (reads_attempt w) as (D & _).
  destruct (attempt w) as [w1 [[|]|x| |]]; cbn [fst] in D; cbn [fst ret]; try (left; unfold keyed, wkeys; cbn [fst]; rewrite D; reflexivity).
  destruct (insert_ref path name id (w_db w1)) as [d|] eqn:E; cbn [fst ret]; [|left; unfold keyed, wkeys; cbn [fst ret]; rewrite <- D; reflexivity].
  right. exists (path, name). split; [exact H|]. unfold insert_ref in E. destruct (ref_fits _); [|discriminate]. injection E as <-. unfold wkeys, ref_keys. cbn [w_db d_refs].
  rewrite D, map_app. reflexivity.
Qed.
Lemma still_set : forall i n, still (execute (set_ref i n)).
Proof.
  intros i n. apply still_bind; [apply still_reads, reads_attempt|]. intros [|]; [|apply still_ret]. intros w. destruct (set_ref i n (w_db w)) as [d|] eqn:E; [|apply keyed_refl].
  unfold set_ref in E. destruct (varchar 40 n); [|discriminate]. injection E as <-. unfold keyed, wkeys, ref_keys. cbn [fst w_db d_refs]. rewrite map_map. apply map_ext.
  intros r. destruct (r_id r =? i); reflexivity.
Qed.
Lemma handle_adds : forall e cmd path, adds (fun k => rc_type cmd = Create /\ k = (path, rc_ref_name cmd)) (handle_refs e cmd path).
Proof.
  intros e cmd path. unfold handle_refs. destruct (rc_type cmd) eqn:T.
  - apply adds_insert. auto.
  - apply adds_still, still_lift.
  - apply adds_still. unfold update_refs. apply still_bind; [apply still_reads, reads_select_one|]. intros o. apply still_bind; [apply still_lift|]. intros r.
    apply still_bind; [apply still_set|]. intros [|]; [|apply still_lift]. apply still_bind; [apply still_reads, reads_select_one|]. intros back.
    apply still_bind; [apply still_lift|]. intros _. apply still_ret.
Qed.
Lemma still_temp : forall p x, still (write_temp p x). Proof. intros p x w. reflexivity. Qed.
Lemma still_remove : forall p, still (remove_temp p). Proof. intros p w. unfold remove_temp. destruct (fs_get _ _); reflexivity. Qed.

Lemma receive_adds : forall e m c fuel now pp body cmd, nth_error (pp_cmds pp) (length (pp_cmds pp) - 1) = Some cmd ->
  adds (fun k => rc_type cmd = Create /\ k = (pp_path pp, rc_ref_name cmd)) (git_receive_pack e m c fuel now pp body).
Proof.
  intros e m c fuel now pp body cmd H. unfold git_receive_pack. rewrite H. destruct (starts_with (bs "PACK") body).
  - cbn [unwrap_opt]. intros w. unfold mbind at 1. cbn [lift]. revert w. 
    match goal with |- forall w, keyed w (fst (?t w)) \/ _ => change (adds (fun k => rc_type cmd = Create /\ k = (pp_path pp, rc_ref_name cmd)) t) end.
    apply adds_after; [apply still_temp|]. intros _. apply adds_after; [intros w; reflexivity|]. intros file.
    apply adds_after; [intros w; reflexivity|]. intros p. cbv zeta. apply adds_then.
    + intros w. pose proof (still_calm _ _ (calm_save_packfile e fuel (p_cache p) (pp_path pp)) w) as K.
      destruct (save_packfile e fuel (p_cache p) (pp_path pp) w) as [w1 [u|x| |]]; cbn [fst] in *; auto.
      pose proof (adds_then _ _ _ _ (fun _ => ret (cmd_unpacked cmd None)) (handle_adds e (cmd_unpacked cmd None) (pp_path pp)) (fun _ => still_ret _ _) w1) as A.
      unfold keyed in *. rewrite K in A. exact A.
    + intros cmd2. apply still_bind; [apply still_remove|]. intros _. apply still_ret.
  - apply adds_still. apply still_bind; [apply still_lift|]. intros [[n line] rest]. destruct ((n =? 0) && _); [apply still_ret|].
    apply still_bind; [apply still_lift|]. intros [cmd0 tail]. apply still_bind; [apply still_lift|]. intros text.
    apply still_bind; [apply still_lift|]. intros r. apply still_ret.
Qed.

(** Names that stand once still do. *)
Definition onced (w w' : world) : Prop := one_each (w_db w) -> one_each (w_db w').
Lemma once_keyed : forall w w', keyed w w' -> onced w w'.
Proof. unfold keyed, wkeys, onced, one_each. intros w w' E H. rewrite E. exact H. Qed.
Lemma onced_trans : forall a b c, onced a b -> onced b c -> onced a c. Proof. unfold onced. auto. Qed.
Definition once {A} (m : M A) : Prop := ProofService.keeps onced m.
Lemma once_still : forall A (m : M A), still m -> once m. Proof. intros A m H w. apply once_keyed, H. Qed.
Lemma once_bind : forall A B (m : M A) (k : A -> M B), once m -> (forall a, once (k a)) -> once (mbind m k).
Proof. exact (ProofService.keeps_bind onced onced_trans). Qed.
Lemma nodup_snoc : forall A (l : list A) x, NoDup l -> ~ In x l -> NoDup (l ++ [x]).
Proof. intros A l x H N. apply NoDup_rev in H. rewrite <- (rev_involutive (l ++ [x])). apply NoDup_rev. rewrite rev_app_distr. cbn [rev app]. constructor; [rewrite <- in_rev; exact N|exact H]. Qed.
Lemma adds_once : forall A P (m : M A) w, adds P m -> (forall k, P k -> ~ In k (wkeys w)) -> onced w (fst (m w)).
Proof.
  intros A P m w H N. destruct (H w) as [E|(k & Hk & E)]; [apply once_keyed; exact E|]. unfold onced, one_each. unfold wkeys in E. rewrite E. intros D.
  apply nodup_snoc; [exact D|]. apply N. exact Hk.
Qed.
Lemma still_search : forall e path, still (search_root_node_by_path e path).
Proof.
  intros e path. apply still_bind; [apply still_lift|]. intros n. apply still_bind; [apply still_reads, reads_select_one|]. intros [x|]; [apply still_ret|].
  apply still_reads, reads_select_one.
Qed.
Lemma child_adds : forall e r path, adds (fun k => k = (path, r_ref_name r)) (generate_child_commit_and_refs e r path).
Proof.
  intros e r path. apply adds_after; [apply still_reads, reads_select_one|]. intros o. apply adds_after; [apply still_lift|]. intros row.
  apply adds_after; [apply still_search|]. intros [n|]; [|apply adds_still, still_ret].
  apply adds_after; [apply still_lift|]. intros c. apply adds_after; [apply still_calm, calm_save_commits|]. intros _. cbv zeta.
  apply adds_then; [apply adds_insert; reflexivity|]. intros _. apply still_ret.
Qed.
Lemma head_once : forall e path, env_ok e -> like e path path = true -> once (get_head_object_id e path).
Proof.
  intros e path He Hl w. unfold get_head_object_id, search_refs.
  set (q := fun d => filter (fun r => like e path (r_repo_path r) && teq e (r_ref_name r) master) (d_refs d)).
  unfold mbind, select. unfold mbind at 1. pose proof (reads_attempt w) as (D & _).
  destruct (attempt w) as [w1 [[|]|x| |]]; cbn [fst] in D; try (apply once_keyed; unfold keyed, wkeys; cbn [fst lift]; rewrite D; reflexivity).
  unfold shuffle, mbind, tick, ret. cbn [fst]. pose proof (proj1 He (w_tick w1) _ (q (w_db w1))) as P.
  set (w2 := mkWorld _ _ _ _ _). assert (D2 : w_db w2 = w_db w) by exact D. 
  assert (T : onced w w2) by (apply once_keyed; unfold keyed, wkeys; rewrite D2; reflexivity).
  destruct (find (fun r => beq path (r_repo_path r)) _) as [r|] eqn:F; [exact T|].
  destruct (find (fun r => path_starts_with path (r_repo_path r)) _) as [r|] eqn:G; [|exact T].
  eapply onced_trans; [exact T|]. apply (adds_once _ _ _ _ (child_adds e r path)). intros k -> K.
  apply find_some in G as [G _]. apply (Permutation_in _ P) in G. apply filter_In in G as [_ G]. apply andb_true_iff in G as [_ G].
  unfold wkeys, ref_keys in K. rewrite D2, <- D in K. apply in_map_iff in K as (x & E & Hx).
  assert (Ep : r_repo_path x = path) by congruence. assert (En : r_ref_name x = r_ref_name r) by congruence.
  apply (find_none_perm _ _ _ _ P) with (x := x) in F; [rewrite Ep, beq_refl in F; discriminate|].
  unfold q. apply filter_In. split; [exact Hx|]. rewrite Ep, En, Hl, G. reflexivity.
Qed.
Lemma info_once : forall e pp, env_ok e -> like e (pp_path pp) (pp_path pp) = true -> once (git_info_refs e pp).
Proof.
  intros e pp He Hl. apply once_bind; [apply once_still, still_lift|]. intros s. apply once_bind; [apply head_once; assumption|]. intros h.
  apply once_still. apply still_bind; [|intros l; apply still_ret].
  apply still_bind; [apply still_reads, reads_select|]. intros rows. apply still_reads, reads_shuffle.
Qed.
Lemma once_lift : forall A B (r : res A) (k : A -> M B), (forall a, r = Ok a -> once (k a)) -> once (mbind (lift r) k).
Proof. intros A B r k H w. unfold mbind, lift. destruct r as [a|x| |]; try (intros K; exact K). apply H. reflexivity. Qed.
Lemma command_once : forall e cmd now packets, env_ok e -> (forall p, about (QSsh now cmd packets) p -> like e p p = true) -> once (ssh_command e cmd).
Proof.
  intros e cmd now packets He Hl. unfold ssh_command. cbv zeta. apply once_lift. intros path E1. destruct (nth_error (split_on 32 cmd) 1) as [x|] eqn:Hn; [|discriminate].
  injection E1 as ->. apply once_lift. intros n E2. destruct (length path <? 5)%nat; [discriminate|]. injection E2 as <-.
  apply once_lift. intros repo E3. unfold slice in E3. destruct (2 <=? length path - 5)%nat eqn:L; [|discriminate]. apply Nat.leb_le in L.
  destruct (length path - 5 <=? length path)%nat; [|discriminate]. injection E3 as <-.
  apply once_lift. intros repo E4. assert (Er : repo = firstn (length path - 7) (skipn 2 path)).
  { unfold utf8_unwrap in E4. destruct (utf8_valid _); [|discriminate]. injection E4 as <-. f_equal. lia. }
  apply once_lift. intros pp E5. apply proto_new_path in E5. apply once_bind.
  - apply info_once; [exact He|]. apply Hl. rewrite E5, Er. apply about_ssh. exists path. split; [exact Hn|]. split; [lia|reflexivity].
  - intros r. apply once_still. apply still_bind; [apply still_lift|]. intros _. apply still_ret.
Qed.
(** A fetching connection only reads after the references are shown. *)
Lemma fetch_still : forall e m c fuel cut now packets pp, pp_service pp = Some UploadPack -> still (ssh_session e m c fuel cut now pp packets).
Proof.
  intros e m c fuel cut now. induction packets as [|d r IH]; intros pp Hs; [apply still_ret|]. cbn [ssh_session].
  apply (ProofService.keeps_bind_when keyed keyed_trans _ _ (fun x => pp_service (fst x) = Some UploadPack)).
  - unfold ssh_data. rewrite Hs. apply still_bind; [apply still_reads, reads_upload|]. intros [[pp' pack] buf]. apply still_bind; [apply still_lift|]. intros _. apply still_ret.
  - intros w w' [pp1 a] E. cbn [fst]. unfold ssh_data in E. rewrite Hs in E. apply mbind_inv in E as (w1 & [[pp' pack] buf] & E1 & E).
    apply mbind_inv in E as (w2 & u & E2 & E). injection E as _ <- _. rewrite <- Hs. apply upload_path in E1 as [_ E1]. exact E1.
  - intros [pp1 a] Hp. apply still_bind; [apply IH; exact Hp|]. intros [pp2 b]. apply still_ret.
Qed.

Lemma last_one : forall (cmd : ref_command), nth_error [cmd] (length [cmd] - 1) = Some cmd. Proof. reflexivity. Qed.
Lemma create_only : forall old new name, rc_type (ref_command_new old new name) = Create -> old = repeat 48 40.
Proof.
  intros old new name H. unfold ref_command_new in H. cbn [rc_type] in H. destruct (beq zero_id old) eqn:E; [apply beq_eq in E; symmetry; exact E|].
  destruct (beq zero_id new); discriminate H.
Qed.
(** The second call of a push, or the second packet. *)
Lemma pack_once : forall A e m c fuel now pr path sv cl old new name pack (k : proto * bytes -> M A) w, (forall x, still (k x)) ->
  (old = repeat 48 40 -> ~ taken (w_db w) path (name ++ [0])) ->
  onced w (fst (mbind (git_receive_pack e m c fuel now (mkProto pr path sv cl [ref_command_new old new (name ++ [0])]) pack) k w)).
Proof.
  intros A e m c fuel now pr path sv cl old new name pack k w Hk Hn.
  eapply adds_once; [apply adds_then; [apply (receive_adds e m c fuel now (mkProto pr path sv cl [ref_command_new old new (name ++ [0])]) pack _ (last_one _))|exact Hk]|].
  intros x (T & ->). apply create_only in T. exact (Hn T).
Qed.

(** ** C144 *)

(** A request that creates no taken name leaves each name standing once, whatever
    statements fail. *)
Theorem C144_once : forall e b c fuel cut r w, env_ok e -> careful e w r -> one_each (w_db w) -> one_each (w_db (fst (serve e b c fuel cut r w))).
Proof.
  intros e b c fuel cut r w He H. change (onced w (fst (serve e b c fuel cut r w))). destruct H as
    [now m url s q body Np Hl|now m url s q body path old new name caps pack G Ho Hn Hm Hc Rq T|now rest packets Hl|now rest line pack old new name caps Ho Hn Hm Hc Rq Hl T].
  - unfold serve. apply once_lift. intros a G. destruct a; try (apply once_still, still_ret).
    + unfold http_info_refs. apply once_lift. intros pp E. apply proto_new_path in E. apply info_once; [exact He|]. rewrite E. eapply Hl. exact G.
    + apply once_still, still_reads, reads_http_upload.
    + destruct (Np _ G).
  - unfold serve. rewrite G. unfold mbind at 1. cbn [lift].
    destruct (first_run e b c now path old new name caps pack body Ho Hn Hm Hc Rq) as (cl & _ & E). rewrite E. apply pack_once; [|exact T].
    intros [pp x]. apply still_ret.
  - unfold serve. revert w.
    apply (ProofService.keeps_bind_when onced onced_trans _ _ (fun x => pp_service (fst x) = Some UploadPack)).
    + eapply command_once; [exact He|exact Hl].
    + intros w w' [pp adv] E. apply (command_proto _ (bs "git-upload-pack " ++ rest) UploadPack) in E as (path & ->); [reflexivity|reflexivity].
    + intros [pp adv] Hp. apply once_still. apply still_bind; [apply fetch_still; exact Hp|]. intros [pp2 x]. apply still_ret.
  - unfold serve. unfold mbind at 1. pose proof (command_once e _ _ _ He Hl w) as C. pose proof (T (fst (ssh_command e (bs "git-receive-pack " ++ rest) w))) as T1.
    destruct (ssh_command e (bs "git-receive-pack " ++ rest) w) as [w1 [[pp adv]|x| |]] eqn:E; try exact C. cbn [fst] in C, T1. eapply onced_trans; [exact C|].
    specialize (T1 pp adv eq_refl).
    apply (command_proto _ (bs "git-receive-pack " ++ rest) ReceivePack) in E as (path & ->); [|reflexivity]. cbn [pp_path] in T1. clear C T.
    destruct Rq as (x & Hb & ->). pose proof (parse_first old new name caps Ho Hn Hm) as Hp. cbn [ssh_session].
    unfold ssh_data at 1. cbn [pp_service]. 
    assert (K : forall f, onced w1 (fst (mbind (git_receive_pack e b c fuel f (mkProto Ssh path (Some ReceivePack) (parse_capabilities [] caps) [ref_command_new old new (name ++ [0])]) pack) (fun z => ret z) w1))).
    { intros f. apply pack_once; [intros z; apply still_ret|exact T1]. }
    pose proof (command_run e b c fuel (now 1%nat) (mkProto Ssh path (Some ReceivePack) [] []) _ _ caps x flush [] w1 Hb Hp Hc eq_refl) as E1.
    cbn [pp_protocol pp_path pp_service pp_caps pp_cmds app] in E1. cbn [length]. unfold mbind at 1. unfold mbind at 1. cbn [app]. rewrite E1.
    unfold mbind at 1. unfold mbind at 1. unfold ssh_data. cbn [pp_service]. specialize (K (now 0%nat)). unfold mbind at 1 in K.
    destruct (git_receive_pack e b c fuel (now 0%nat) _ pack w1) as [w2 [[pp2 y]|y| |]]; exact K.
Qed.
(** So do any number of such requests, from an empty server or any other. *)
Theorem C144_run : forall e b c fuel cut l w, env_ok e -> all_careful e b c fuel cut l w -> one_each (w_db w) -> one_each (w_db (serve_all e b c fuel cut l w)).
Proof.
  intros e b c fuel cut l. induction l as [|r l IH]; intros w He H O; [exact O|]. destruct H as [H1 H2]. cbn [serve_all]. apply IH; [exact He|exact H2|].
  apply C144_once; assumption.
Qed.

(** A push that creates a name that is taken is answered like any other. Afterwards the
    name stands twice: the references that were there, and a new one. *)
Theorem C144_taken : forall e m c now path new h name caps body pack objs w,
  env_ok e -> no_failure w -> id_ok h -> lower_hex new h -> word name -> utf8_text caps ->
  (exists k, text_len name k /\ (k <= 31)%nat) -> (exists k, text_len path k /\ (k <= 64)%nat) ->
  push_request (repeat 48 40) new name caps pack body ->
  git_pack c (get_hash_object e w) pack objs -> nlen pack < 2 ^ 32 -> history path (map snd objs) ->
  taken (w_db w) path (name ++ [0]) ->
  exists fuel0 w' reply cl row, caps_in caps cl /\ status_reply cl [bs "ok " ++ name ++ [0]] reply /\
    d_refs (w_db w') = d_refs (w_db w) ++ [row] /\ r_repo_path row = path /\ r_ref_name row = name ++ [0] /\ r_ref_git_id row = new /\
    ~ one_each (w_db w') /\ no_failure w' /\
    forall fuel, (fuel0 <= fuel)%nat -> http_receive_pack e m c fuel now path body w = (w', Ok reply).
Proof.
  intros e m c now path new h name caps body pack objs w He Q Hh Hx Hm Hc Tk Tp Rq G Hl Hs T.
  destruct (C46_create e m c now path new h name caps body pack objs w He Q Hh Hx Hm Hc Tk Tp Rq G Hl Hs)
    as (fuel0 & w' & reply & rows & crows & cl & Hcl & St & _ & D & Q' & R).
  exists fuel0, w', reply, cl, (mkRef (d_next_ref (w_db w)) path (name ++ [0]) new). rewrite D. cbn [d_refs r_repo_path r_ref_name r_ref_git_id].
  split; [exact Hcl|]. split; [exact St|]. split; [reflexivity|]. split; [reflexivity|]. split; [reflexivity|]. split; [reflexivity|]. split; [|split; [exact Q'|exact R]].
  unfold one_each, ref_keys. cbn [d_refs]. rewrite map_app. cbn [map r_repo_path r_ref_name]. intros N. apply NoDup_remove_2 in N. apply N. rewrite app_nil_r. exact T.
Qed.

(** A name that stands for two commits is shown with both. *)
Theorem C144_shown : forall e pp s w r1 r2 hd0, env_ok e -> no_failure w -> pp_service pp = Some s -> short_refs (w_db w) ->
  In hd0 (d_refs (w_db w)) -> is_head e (pp_path pp) hd0 -> r_repo_path hd0 = pp_path pp ->
  In r1 (d_refs (w_db w)) -> In r2 (d_refs (w_db w)) -> r_repo_path r1 = pp_path pp -> r_repo_path r2 = pp_path pp -> r_ref_name r1 = r_ref_name r2 ->
  (forall x, In x (d_refs (w_db w)) -> r_ref_git_id x = r_ref_git_id r1 \/ r_ref_git_id x = r_ref_git_id r2 -> r_ref_name x = r_ref_name r1) ->
  exists w' out head refs, git_info_refs e pp w = (w', Ok out) /\ w_db w' = w_db w /\ advert (over_http pp) s head refs out /\
    In (r_ref_git_id r1, r_ref_name r1) refs /\ In (r_ref_git_id r2, r_ref_name r1) refs.
Proof.
  intros e pp s w r1 r2 h He Q Hs Sh Hh Ih Ph H1 H2 P1 P2 En U.
  assert (K : exists w1 x, get_head_object_id e (pp_path pp) w = (w1, Ok (r_ref_git_id x)) /\ w_db w1 = w_db w /\ no_failure w1 /\ In x (d_refs (w_db w))).
  { unfold get_head_object_id, search_refs.
    destruct (select_run _ e (fun d => filter (fun r => like e (pp_path pp) (r_repo_path r) && teq e (r_ref_name r) master) (d_refs d)) w Q) as (w1 & E1 & M1).
    rewrite (mbind_ok _ _ _ _ _ _ _ E1). pose proof (proj1 He (w_tick w) _ (filter (fun r => like e (pp_path pp) (r_repo_path r) && teq e (r_ref_name r) master) (d_refs (w_db w)))) as P.
    destruct (find (fun r => beq (pp_path pp) (r_repo_path r)) _) as [x|] eqn:F.
    - exists w1, x. split; [reflexivity|]. split; [exact (mv_db _ _ _ M1)|]. split; [exact (mv_quiet _ _ _ M1)|]. apply find_some in F as [F _].
      apply (Permutation_in _ P) in F. apply filter_In in F. apply F.
    - apply (find_none_perm _ _ _ _ P) with (x := h) in F; [rewrite Ph, beq_refl in F; discriminate|]. apply filter_In. split; [exact Hh|]. apply andb_true_iff. exact Ih. }
  destruct K as (w1 & x & E & D & Q1 & Hx). rewrite <- D in Sh.
  destruct (info_run e pp s w w1 (r_ref_git_id x) He Hs E Q1 Sh) as (w' & out & refs & E2 & D2 & _ & _ & A & (_ & L1 & L2)); [rewrite D in Sh; apply Sh; exact Hx|].
  rewrite D in *. exists w', out, (r_ref_git_id x), refs. split; [exact E2|]. split; [exact D2|]. split; [exact A|].
  assert (T : forall r, In r (d_refs (w_db w)) -> r_repo_path r = pp_path pp -> r_ref_git_id r = r_ref_git_id r1 \/ r_ref_git_id r = r_ref_git_id r2 -> In (r_ref_git_id r, r_ref_name r1) refs).
  { intros r Hr Pr Ir. destruct (L2 r) as (n & Hn); [apply filter_In; split; [exact Hr|rewrite Pr; apply (proj1 (proj2 He))]|].
    destruct (L1 _ _ Hn) as (y & Hy & Ey & Ny). apply filter_In in Hy as [Hy _]. rewrite <- (U y Hy); [rewrite Ny; exact Hn|rewrite Ey; exact Ir]. }
  split; apply T; auto.
Qed.

(** ** Cases *)

Definition twice_body : bytes := push_body (repeat 48 40) (to_plain_str (oid ex_second)) (bs "refs/heads/master") ex_caps (pack_of ex_full).
Definition push_at (now : N) (body : bytes) : request := QHttp now MPost (bs "/demo.git/git-receive-pack") None no_query body.
Lemma ex_like : forall p, like ex_env p p = true.
Proof. intros p. cbn [like ex_env]. generalize (folded p) as l. induction l as [|a l IH]; [reflexivity|]. cbn [starts_with]. rewrite N.eqb_refl. exact IH. Qed.
(** The first push creates the name, a discovery shows it, a second push updates it. *)
Example C144_run_ex : all_careful ex_env Release stored 50 ex_cut
    [push_at 7 ex_body; QHttp 8 MGet (bs "/demo.git/info/refs") (Some (bs "git-upload-pack")) no_query []; push_at 9 ex_body2] (world_of db_empty) /\
  one_each (w_db (world_of db_empty)).
Proof.
  assert (Is : id_ok (oid ex_second)) by apply oid_ok, commit_base.
  split; [|constructor]. cbn [all_careful]. split; [|split; [|split; [|exact Logic.I]]].
  - eapply (cf_push _ _ _ _ _ _ _ _ (bs "/demo") (repeat 48 40) (to_plain_str (oid ex_top)) (bs "refs/heads/master") ex_caps (pack_of ex_hist)); try reflexivity.
    + exact zero_word.
    + exact (hex_word _ _ (plain_lower _ ex_top_id) ex_top_id).
    + exact master_word.
    + apply utf8_spec; reflexivity.
    + destruct C46_create_ex as (objs & H & _). exact H.
    + intros _ [].
  - apply cf_other; [intros p; vm_compute; discriminate|]. intros t p _. apply ex_like.
  - eapply (cf_push _ _ _ _ _ _ _ _ (bs "/demo") (to_plain_str (oid ex_top)) (to_plain_str (oid ex_second)) (bs "refs/heads/master") ex_caps (pack_of ex_full)); try reflexivity.
    + exact (hex_word _ _ (plain_lower _ ex_top_id) ex_top_id).
    + exact (hex_word _ _ (plain_lower _ Is) Is).
    + exact master_word.
    + apply utf8_spec; reflexivity.
    + destruct C46_update_ex as (objs & H & _). exact H.
    + intros E. exfalso. revert E. apply beq_neq. vm_compute. reflexivity.
Qed.
Lemma twice_request : push_request (repeat 48 40) (to_plain_str (oid ex_second)) (bs "refs/heads/master") ex_caps (pack_of ex_full) twice_body.
Proof.
  assert (Is : id_ok (oid ex_second)) by apply oid_ok, commit_base.
  apply push_body_request. rewrite !nlen_app, (plain_len _ Is). vm_compute. discriminate.
Qed.
Lemma twice_taken : taken (w_db ex_world) (bs "/demo") (bs "refs/heads/master" ++ [0]).
Proof. unfold taken, ref_keys. rewrite ex_world_refs. left. reflexivity. Qed.

Lemma twice_differ : to_plain_str (oid ex_top) <> to_plain_str (oid ex_second).
Proof. apply beq_neq. vm_compute. reflexivity. Qed.
Lemma twice_quiet : no_failure ex_world. Proof. vm_compute. reflexivity. Qed.
Lemma twice_small : nlen (pack_of ex_full) < 2 ^ 32. Proof. vm_compute. reflexivity. Qed.
Lemma ex_ref_head : is_head ex_env (bs "/demo") ex_ref. Proof. split; vm_compute; reflexivity. Qed.
Lemma name_fits : nlen (bs "refs/heads/master" ++ [0]) <= 128. Proof. vm_compute. discriminate. Qed.
Lemma twice_short : forall w' row, d_refs (w_db w') = [ex_ref; row] -> r_ref_name row = bs "refs/heads/master" ++ [0] -> r_ref_git_id row = to_plain_str (oid ex_second) ->
  id_ok (oid ex_second) -> short_refs (w_db w').
Proof.
  intros w' row Dr Rn Ri Is r Hr. rewrite Dr in Hr. destruct Hr as [<-|[<-|[]]].
  - apply ex_world_short. rewrite ex_world_refs. left. reflexivity.
  - rewrite Ri, Rn. split; [rewrite (plain_len _ Is); lia|exact name_fits].
Qed.
Lemma twice_shown : forall w' row, d_refs (w_db w') = [ex_ref; row] -> r_repo_path row = bs "/demo" -> r_ref_name row = bs "refs/heads/master" ++ [0] ->
  r_ref_git_id row = to_plain_str (oid ex_second) -> no_failure w' -> short_refs (w_db w') ->
  exists w2 out head refs, git_info_refs ex_env (mkProto Http (bs "/demo") (Some UploadPack) [] []) w' = (w2, Ok out) /\ advert true UploadPack head refs out /\
    In (to_plain_str (oid ex_top), bs "refs/heads/master" ++ [0]) refs /\ In (to_plain_str (oid ex_second), bs "refs/heads/master" ++ [0]) refs.
Proof.
  intros w' row Dr Rp Rn Ri Q Sh. assert (I1 : In ex_ref (d_refs (w_db w'))) by (rewrite Dr; left; reflexivity). assert (I2 : In row (d_refs (w_db w'))) by (rewrite Dr; right; left; reflexivity).
  assert (Rx : r_ref_name ex_ref = bs "refs/heads/master" ++ [0]) by reflexivity. assert (Ix : r_ref_git_id ex_ref = to_plain_str (oid ex_top)) by (unfold ex_ref; reflexivity).
  assert (Px : r_repo_path ex_ref = bs "/demo") by reflexivity. pose proof ex_ref_head as Hx.
  revert Dr Hx Rx Ix Px I1. generalize ex_ref as r0. rewrite <- Ri. generalize (to_plain_str (oid ex_top)) as i0. intros i0 r0 Dr Hx Rx Ix Px I1. rewrite <- Ix, <- Rx in *.
  destruct (C144_shown ex_env (mkProto Http (bs "/demo") (Some UploadPack) [] []) UploadPack w' r0 row r0 ex_env_ok Q eq_refl Sh I1 Hx Px I1 I2 Px Rp (eq_sym Rn))
    as (w2 & out & head & refs & E2 & _ & A & K1 & K2).
  { intros x Hx' _. rewrite Dr in Hx'. destruct Hx' as [<-|[<-|[]]]; [reflexivity|exact Rn]. }
  exists w2, out, head, refs. split; [exact E2|]. split; [exact A|]. split; [exact K1|exact K2].
Qed.

(** The master reference stands for one commit. A push that creates it, with another
    commit, is answered ok; then the name stands for both, and both are shown. *)
Theorem C144_refuted : exists e m c now path new name caps body pack objs w,
  env_ok e /\ no_failure w /\ one_each (w_db w) /\ taken (w_db w) path name /\ push_request (repeat 48 40) new (bs "refs/heads/master") caps pack body /\
  name = bs "refs/heads/master" ++ [0] /\ git_pack c (get_hash_object e w) pack objs /\
  exists fuel0 w' reply cl old, caps_in caps cl /\ status_reply cl [bs "ok " ++ name] reply /\ old <> new /\
    (forall fuel, (fuel0 <= fuel)%nat -> http_receive_pack e m c fuel now path body w = (w', Ok reply)) /\ ~ one_each (w_db w') /\
    exists w2 out head refs, git_info_refs e (mkProto Http path (Some UploadPack) [] []) w' = (w2, Ok out) /\ advert true UploadPack head refs out /\
      In (old, name) refs /\ In (new, name) refs.
Proof.
  assert (Is : id_ok (oid ex_second)) by apply oid_ok, commit_base.
  destruct (pack_of_git ex_full (get_hash_object ex_env ex_world)) as (objs & G & E); [discriminate|reflexivity|apply (hs_sound _ _ ex_full_ok)|].
  pose proof twice_quiet as Q.
  destruct (C144_taken ex_env Release stored 9 (bs "/demo") (to_plain_str (oid ex_second)) (oid ex_second) (bs "refs/heads/master") ex_caps twice_body (pack_of ex_full) objs ex_world
    ex_env_ok Q Is (plain_lower _ Is) master_word) as (fuel0 & w' & reply & cl & row & Hcl & St & Dr & Rp & Rn & Ri & No & Q' & Run).
  { apply utf8_spec; reflexivity. }
  { exists 17%nat. split; [exact (ascii_text (bs "refs/heads/master") eq_refl)|lia]. }
  { exists 5%nat. split; [exact (ascii_text (bs "/demo") eq_refl)|lia]. }
  { exact twice_request. } { exact G. } { exact twice_small. } { rewrite E. exact ex_full_ok. } { exact twice_taken. }
  rewrite ex_world_refs in Dr. cbn [app] in Dr.
  exists ex_env, Release, stored, 9, (bs "/demo"), (to_plain_str (oid ex_second)), (bs "refs/heads/master" ++ [0]), ex_caps, twice_body, (pack_of ex_full), objs, ex_world.
  split; [exact ex_env_ok|]. split; [exact Q|]. split; [unfold one_each, ref_keys; rewrite ex_world_refs; repeat constructor; intros []|].
  split; [exact twice_taken|]. split; [exact twice_request|]. split; [reflexivity|]. split; [exact G|].
  exists fuel0, w', reply, cl, (to_plain_str (oid ex_top)). split; [exact Hcl|]. split; [exact St|]. split; [exact twice_differ|].
  split; [exact Run|]. split; [exact No|].
  pose proof (twice_short w' row Dr Rn Ri Is) as Sh.
  destruct (twice_shown w' row Dr Rp Rn Ri Q' Sh) as (w2 & out & head & refs & K). exists w2, out, head, refs. exact K.
Qed.
(** Connections that push the first reference, and fetch. *)
Definition demo_words : bytes := bs "'/demo.git'".
Example C144_once_ex : careful ex_env (world_of db_empty) (QSsh (fun _ => 7) (bs "git-receive-pack " ++ demo_words) [ex_ssh_head; pack_of ex_hist]) /\
  careful ex_env ex_world (QSsh (fun _ => 7) (bs "git-upload-pack " ++ demo_words) [clone_body]).
Proof.
  split.
  - apply (cf_push_ssh _ _ _ _ _ _ (repeat 48 40) (to_plain_str (oid ex_top)) (bs "refs/heads/master") ex_caps); try exact zero_word; try exact master_word.
    + exact (hex_word _ _ (plain_lower _ ex_top_id) ex_top_id).
    + apply utf8_spec; reflexivity.
    + exact ex_ssh_line.
    + intros p _. apply ex_like.
    + intros w1 pp adv E _. assert (K : d_refs (w_db (fst (ssh_command ex_env (bs "git-receive-pack " ++ demo_words) (world_of db_empty)))) = []) by (vm_compute; reflexivity).
      rewrite E in K. cbn [fst] in K. unfold taken, ref_keys. rewrite K. intros [].
  - apply cf_fetch_ssh. intros p _. apply ex_like.
Qed.

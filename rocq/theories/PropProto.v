(** C41, C42, C46-C48, C57-C60, C72: sessions. *)

From Coq Require Import Permutation.
From Verif Require Import Base BaseLemmas Digest ModelUtils ModelObject ModelBase ModelPack ModelDecode ModelPkt ModelStorage ModelProto
  StoredZlib SpecObject SpecIdx SpecBase SpecPack SpecPkt SpecPath SpecStorage SpecProto ProofObject ProofUtf8 ProofBase ProofPack ProofPkt ProofReq
  ProofPath ProofEncode ProofNodes ProofStorage ProofPush ProofClone ProofRepo ProofRefs ProofSession ProofGraph ProofExample PropPkt PropStorage.
Open Scope N_scope.

(** ** C41: the advertisement *)

(** Ids and names as the columns hold them: 40 and 32 characters. *)
Definition short_refs (d : db) : Prop :=
  forall r, In r (d_refs d) -> nlen (r_ref_git_id r) <= 160 /\ nlen (r_ref_name r) <= 128.
(** The references of a repository. *)
Definition refs_at (e : env) (d : db) (path : bytes) : list ref_row :=
  filter (fun r => teq e (r_repo_path r) path) (d_refs d).
Definition over_http (pp : proto) : bool := match pp_protocol pp with Http => true | _ => false end.

Lemma head_line_short : forall s h, nlen h <= 160 -> nlen (head_line s h) <= 65531.
Proof.
  intros s h H. unfold head_line. destruct (beq h (repeat 48 40)); rewrite !nlen_app.
  - assert (K : nlen (bs " capabilities^{}") + (nlen [0] + (nlen (caps_of s) + nlen [10])) <= 1000) by (destruct s; vm_compute; discriminate). lia.
  - assert (K : nlen (bs " HEAD") + (nlen [0] + (nlen (caps_of s) + nlen [10])) <= 1000) by (destruct s; vm_compute; discriminate). lia.
Qed.
Lemma listing_short : forall e d path l, short_refs d -> listing (refs_at e d path) l -> Forall (fun x => nlen (ref_line x) <= 65531) l.
Proof.
  intros e d path l Sh (_ & L & _). apply Forall_forall. intros [i n] H. destruct (L i n H) as (r & Hr & <- & <-).
  apply filter_In in Hr as [Hr _]. destruct (Sh r Hr). unfold ref_line. rewrite !nlen_app. cbn [fst snd].
  assert (nlen (bs " ") + nlen [10] = 2) by reflexivity. lia.
Qed.
Lemma info_run : forall e pp s w w1 head, env_ok e -> pp_service pp = Some s ->
  get_head_object_id e (pp_path pp) w = (w1, Ok head) -> no_failure w1 -> short_refs (w_db w1) -> nlen head <= 160 ->
  exists w' out refs, git_info_refs e pp w = (w', Ok out) /\ w_db w' = w_db w1 /\ w_log w' = w_log w1 /\ no_failure w' /\
    advert (over_http pp) s head refs out /\ listing (refs_at e (w_db w1) (pp_path pp)) refs.
Proof.
  intros e pp s w w1 head He Hs E Q Sh Hh.
  destruct (refs_listed e (pp_path pp) w1 He Q) as (w' & l & E2 & M & L). unfold git_info_refs. rewrite Hs.
  exists w', (info_refs (pp_protocol pp) s head l), l. unfold lift. cbn [unwrap_opt]. unfold mbind at 1.
  rewrite (mbind_ok _ _ _ _ _ _ _ E), (mbind_ok _ _ _ _ _ _ _ E2). split; [reflexivity|]. split; [exact (mv_db _ _ _ M)|].
  split; [rewrite (mv_log _ _ _ M); apply app_nil_r|]. split; [exact (mv_quiet _ _ _ M)|]. split; [|exact L].
  apply advert_ok; [apply head_line_short; exact Hh|exact (listing_short _ _ _ _ Sh L)].
Qed.

Lemma head_none : forall e path w, env_ok e -> no_failure w -> (forall r, In r (d_refs (w_db w)) -> ~ is_head e path r) ->
  exists w', get_head_object_id e path w = (w', Ok (repeat 48 40)) /\ w_db w' = w_db w /\ w_log w' = w_log w /\ no_failure w'.
Proof.
  intros e path w He Q No. unfold get_head_object_id, search_refs.
  destruct (select_run _ e (fun d => filter (fun r => like e path (r_repo_path r) && teq e (r_ref_name r) master) (d_refs d)) w Q) as (w1 & E1 & M1).
  rewrite (mbind_ok _ _ _ _ _ _ _ E1). pose proof (proj1 He (w_tick w) _ (filter (fun r => like e path (r_repo_path r) && teq e (r_ref_name r) master) (d_refs (w_db w)))) as P.
  assert (Z : filter (fun r => like e path (r_repo_path r) && teq e (r_ref_name r) master) (d_refs (w_db w)) = []).
  { destruct (filter _ _) as [|r l] eqn:F; [reflexivity|]. assert (Hr : In r (r :: l)) by (left; reflexivity). rewrite <- F in Hr.
    apply filter_In in Hr as [Hr K]. apply andb_true_iff in K. destruct (No r Hr K). }
  rewrite Z in *. apply Permutation_sym, Permutation_nil in P. rewrite P. cbn [find]. exists w1. split; [reflexivity|].
  split; [exact (mv_db _ _ _ M1)|]. split; [rewrite (mv_log _ _ _ M1); apply app_nil_r|exact (mv_quiet _ _ _ M1)].
Qed.
Lemma head_stored_quiet : forall e path w r, env_ok e -> no_failure w -> In r (d_refs (w_db w)) -> is_head e path r -> r_repo_path r = path ->
  (forall x, In x (d_refs (w_db w)) -> is_head e path x -> r_repo_path x = path -> r_ref_git_id x = r_ref_git_id r) ->
  exists w', get_head_object_id e path w = (w', Ok (r_ref_git_id r)) /\ w_db w' = w_db w /\ w_log w' = w_log w /\ no_failure w'.
Proof.
  intros e path w r He Q Hr Hh Hp Uq. destruct (head_stored e path w r He Q Hr Hh Hp Uq) as (w' & E & D & L). exists w'.
  split; [exact E|]. split; [exact D|]. split; [exact L|]. revert E. unfold get_head_object_id, search_refs.
  destruct (select_run _ e (fun d => filter (fun r => like e path (r_repo_path r) && teq e (r_ref_name r) master) (d_refs d)) w Q) as (w1 & E1 & M1).
  rewrite (mbind_ok _ _ _ _ _ _ _ E1). pose proof (proj1 He (w_tick w) _ (filter (fun r => like e path (r_repo_path r) && teq e (r_ref_name r) master) (d_refs (w_db w)))) as P.
  destruct (find (fun r => beq path (r_repo_path r)) _) as [x|] eqn:F.
  - intros E. injection E as <- _. exact (mv_quiet _ _ _ M1).
  - intros _. apply (find_none_perm _ _ _ _ P) with (x := r) in F; [rewrite Hp, beq_refl in F; discriminate|].
    apply filter_In. split; [exact Hr|]. apply andb_true_iff. exact Hh.
Qed.

(** A repository with a master reference. *)
Theorem C41_repository : forall e pp s w r, env_ok e -> no_failure w -> pp_service pp = Some s -> short_refs (w_db w) ->
  In r (d_refs (w_db w)) -> is_head e (pp_path pp) r -> r_repo_path r = pp_path pp ->
  (forall x, In x (d_refs (w_db w)) -> is_head e (pp_path pp) x -> r_repo_path x = pp_path pp -> r_ref_git_id x = r_ref_git_id r) ->
  exists w' out refs, git_info_refs e pp w = (w', Ok out) /\ w_db w' = w_db w /\ w_log w' = w_log w /\
    advert (over_http pp) s (r_ref_git_id r) refs out /\ listing (refs_at e (w_db w) (pp_path pp)) refs.
Proof.
  intros e pp s w r He Q Hs Sh Hr Hh Hp Uq. destruct (head_stored_quiet e _ w r He Q Hr Hh Hp Uq) as (w1 & E & D & L & Q1).
  destruct (info_run e pp s w w1 _ He Hs E Q1) as (w' & out & refs & A & B & C & _ & K); [rewrite D; exact Sh|exact (proj1 (Sh r Hr))|].
  rewrite D in B, K. rewrite L in C. exists w', out, refs. auto.
Qed.
(** A path under which there is no repository, or one without a master reference. *)
Theorem C41_no_head : forall e pp s w, env_ok e -> no_failure w -> pp_service pp = Some s -> short_refs (w_db w) ->
  (forall r, In r (d_refs (w_db w)) -> ~ is_head e (pp_path pp) r) ->
  exists w' out refs, git_info_refs e pp w = (w', Ok out) /\ w_db w' = w_db w /\ w_log w' = w_log w /\
    advert (over_http pp) s (repeat 48 40) refs out /\ listing (refs_at e (w_db w) (pp_path pp)) refs.
Proof.
  intros e pp s w He Q Hs Sh No. destruct (head_none e _ w He Q No) as (w1 & E & D & L & Q1).
  destruct (info_run e pp s w w1 _ He Hs E Q1) as (w' & out & refs & A & B & C & _ & K); [rewrite D; exact Sh|vm_compute; discriminate|].
  rewrite D in B, K. rewrite L in C. exists w', out, refs. auto.
Qed.
Lemma plain_len : forall h, id_ok h -> nlen (to_plain_str h) = 40.
Proof.
  intros h [L _]. unfold to_plain_str, nlen. assert (K : forall l, length (hex_encode l) = (2 * length l)%nat).
  { induction l as [|b l IH]; [reflexivity|]. unfold hex_encode in *. cbn [flat_map app length]. rewrite IH. lia. }
  rewrite K, L. reflexivity.
Qed.
(** A path below a repository: if the request does not abort, the reply is the
    advertisement of the state it leaves, where the head announced is a reference. *)
Theorem C41_below : forall e pp s w w' out, env_ok e -> no_failure w -> pp_service pp = Some s -> short_refs (w_db w) -> sound_db (w_db w) ->
  (forall r, In r (d_refs (w_db w)) -> is_head e (pp_path pp) r -> r_repo_path r <> pp_path pp) ->
  (exists n, text_len (pp_path pp) n /\ (n <= 64)%nat) ->
  (forall r, In r (d_refs (w_db w)) -> exists n, text_len (r_ref_name r) n /\ (n <= 32)%nat) ->
  git_info_refs e pp w = (w', Ok out) ->
  exists head refs, advert (over_http pp) s head refs out /\ listing (refs_at e (w_db w') (pp_path pp)) refs /\
    (head = repeat 48 40 \/ exists r, In r (d_refs (w_db w')) /\ r_repo_path r = pp_path pp /\ teq e (r_ref_name r) master = true /\ r_ref_git_id r = head).
Proof.
  intros e pp s w w' out He Q Hs Sh Sd No (n & Tn & Ln) Vn E.
  assert (Vp : varchar 64 (pp_path pp) = true) by (apply N.leb_le; rewrite (chars_text _ _ Tn); lia).
  assert (Vr : forall r, In r (d_refs (w_db w)) -> varchar 32 (r_ref_name r) = true).
  { intros r Hr. destruct (Vn r Hr) as (k & Tk & Lk). apply N.leb_le. rewrite (chars_text _ _ Tk). lia. }
  destruct (get_head_object_id e (pp_path pp) w) as [w1 [head| | |]] eqn:Eh;
    try (exfalso; revert E; unfold git_info_refs; rewrite Hs; unfold lift; cbn [unwrap_opt]; unfold mbind at 1; unfold mbind at 1; rewrite Eh; discriminate).
  destruct (head_below e (pp_path pp) w He Q Sd No Vp Vr w1 head Eh) as [(-> & D & Q1 & _)|(r & row & nd & d & tid & ps & a & cc & msg & h & d' & h' & H1 & H2 & _ & _ & _ & _ & _ & _ & _ & _ & _ & _ & _ & _ & Hi & Ei & Dn & Dc & Dr & Q1)].
  - destruct (info_run e pp s w w1 _ He Hs Eh Q1) as (w'' & out' & refs & A & B & C & _ & K1 & K2); [rewrite D; exact Sh|vm_compute; discriminate|].
    rewrite A in E. injection E as <- <-. rewrite B. exists zero_id, refs. split; [exact K1|]. split; [exact K2|]. left. reflexivity.
  - assert (Lh : nlen head <= 160) by (rewrite Ei, (plain_len _ (obj_id_ok _ _ Hi)); lia).
    destruct (info_run e pp s w w1 _ He Hs Eh Q1) as (w'' & out' & refs & A & B & C & _ & K1 & K2); [|exact Lh|].
    { intros x Hx. rewrite Dr in Hx. apply in_app_iff in Hx as [Hx|[<-|[]]]; [exact (Sh x Hx)|]. split; [exact Lh|exact (proj2 (Sh r H1))]. }
    rewrite A in E. injection E as <- <-. rewrite B. exists head, refs. split; [exact K1|]. split; [exact K2|]. right.
    eexists. split; [rewrite Dr; apply in_elt|]. split; [reflexivity|]. split; [exact (proj2 H2)|reflexivity].
Qed.

(** Soundness of concrete tables. *)
Definition row_check (objs : list object) (r : node_row) : bool :=
  existsb (fun o => match fst o with
                    | Tree => beq (n_type r) (bs "tree") | Blob => beq (n_type r) (bs "blob") | _ => false end
                    && beq (n_data r) (snd o) && beq (n_git_id r) (to_plain_str (oid o))) objs.
Definition commit_check (roots : list (object * hash)) (r : commit_row) : bool :=
  existsb (fun x => match fst (fst x) with Commit => true | _ => false end && beq (c_meta r) (snd (fst x)) &&
    beq (c_git_id r) (to_plain_str (oid (fst x))) && beq (c_tree r) (to_plain_str (snd x))) roots.
Lemma row_checked : forall objs r, (forall o, In o objs -> obj_id o (oid o)) -> row_check objs r = true -> exists o, In o objs /\ node_for r o.
Proof.
  intros objs r Id K. apply existsb_exists in K as ([t x] & Ho & K). rewrite !andb_true_iff in K. destruct K as [[K1 K2] K3].
  cbn [fst snd] in *. apply beq_eq in K2, K3. exists (t, x). split; [exact Ho|].
  assert (Hl : lower_hex (n_git_id r) (oid (t, x))) by (rewrite K3; apply plain_lower, (obj_id_ok _ _ (Id _ Ho))).
  destruct t; try discriminate K1; apply beq_eq in K1.
  - exact (nf_tree r _ x (Id _ Ho) Hl K1 K2).
  - exact (nf_blob r _ x (Id _ Ho) Hl K1 K2).
Qed.
Lemma commit_checked : forall roots r, (forall o h, In (o, h) roots -> obj_id o (oid o) /\ id_ok h /\ commit_root (snd o) h) ->
  commit_check roots r = true -> exists o h, In (o, h) roots /\ commit_for r o /\ c_git_id r = to_plain_str (oid o) /\ fst o = Commit.
Proof.
  intros roots r Hr K. apply existsb_exists in K as ([[t x] h] & Ho & K). rewrite !andb_true_iff in K. destruct K as [[[K1 K2] K3] K4].
  cbn [fst snd] in *. apply beq_eq in K2, K3, K4. destruct (Hr _ _ Ho) as (Hi & R1 & R2). exists (t, x), h. split; [exact Ho|].
  destruct t; try discriminate K1.
  assert (Hl : lower_hex (c_git_id r) (oid (Commit, x))) by (rewrite K3; apply plain_lower, (obj_id_ok _ _ Hi)).
  assert (Ht : lower_hex (c_tree r) h) by (rewrite K4; apply plain_lower; exact R1).
  split; [exact (cf_commit r _ h x Hi Hl R2 Ht K2)|]. split; [exact K3|reflexivity].
Qed.
Lemma db_check : forall objs roots d, Forall sound_object objs ->
  (forall o h, In (o, h) roots -> In o objs /\ id_ok h /\ commit_root (snd o) h) ->
  forallb (row_check objs) (d_nodes d) = true -> forallb (commit_check roots) (d_commits d) = true -> sound_db d.
Proof.
  intros objs roots d F Hr H1 H2. rewrite Forall_forall in F. rewrite forallb_forall in H1, H2.
  assert (Id : forall o, In o objs -> obj_id o (oid o)) by (intros o Ho; apply oid_id, F, Ho). split.
  - intros r Hin. destruct (row_checked objs r Id (H1 r Hin)) as (o & Ho & Nf). exists o. split; [exact Nf|exact (F _ Ho)].
  - intros r Hin. destruct (commit_checked roots r) with (2 := H2 r Hin) as (o & h & Ho & Cf & _).
    + intros o h Ho. destruct (Hr o h Ho) as (Hi & R). split; [exact (Id _ Hi)|exact R].
    + exists o. split; [exact Cf|]. apply F. exact (proj1 (Hr o h Ho)).
Qed.
Lemma has_check : forall d c t, obj_id c (oid c) -> obj_id t (oid t) -> commit_root (snd c) (oid t) -> fst c = Commit -> fst t = Tree ->
  existsb (commit_check [(c, oid t)]) (d_commits d) = true -> existsb (row_check [t]) (d_nodes d) = true ->
  has_commit d (to_plain_str (oid c)).
Proof.
  intros d c t Hc Ht Hr Ec Et H1 H2. apply existsb_exists in H1 as (row & I1 & K1), H2 as (n & I2 & K2).
  destruct (commit_checked [(c, oid t)] row) with (2 := K1) as (o & h & [Eo|[]] & Cf & Eg & _).
  { intros o h [E|[]]. injection E as <- <-. split; [exact Hc|]. split; [exact (obj_id_ok _ _ Ht)|exact Hr]. }
  destruct (row_checked [t] n) with (2 := K2) as (o' & [<-|[]] & Nf); [intros o' [<-|[]]; exact Ht|].
  injection Eo as <- <-. destruct c as [ct cd], t as [tt td]. cbn [fst snd] in *. subst ct tt.
  exists row, cd, (oid (Tree, td)), n, td. auto 10.
Qed.

(** The demo repository with a master reference. *)
Definition push_body (old new name caps : bytes) (pack : bytes) : bytes :=
  add_pkt_line [] (old ++ [32] ++ new ++ [32] ++ name ++ [0; 32] ++ caps) ++ flush ++ pack.
Definition ex_caps : bytes := bs "report-status side-band-64k agent=git/2.40".
Definition ex_body : bytes := push_body (repeat 48 40) (to_plain_str (oid ex_top)) (bs "refs/heads/master") ex_caps (pack_of ex_hist).
Definition ex_run := http_receive_pack ex_env Release stored 50 7 (bs "/demo") ex_body (world_of db_empty).
Definition ex_world : world := fst ex_run.

Lemma ex_id_ok : forall o, In o ex_hist -> obj_id o (oid o).
Proof.
  intros o Ho. apply oid_id. pose proof (hs_sound _ _ (proj1 (ex_hist_ok (bs "/demo") eq_refl))) as F. rewrite Forall_forall in F. auto.
Qed.
Lemma one_pair : forall A B (a x : A) (b y : B), In (x, y) [(a, b)] -> x = a /\ y = b.
Proof. intros A B a x b y [E|[]]. injection E as -> ->. auto. Qed.
Lemma ex_rows_sound : forallb (row_check ex_hist) (d_nodes (w_db ex_world)) = true.
Proof. vm_compute. reflexivity. Qed.
Lemma ex_commits_sound : forallb (commit_check [(ex_top, oid ex_root)]) (d_commits (w_db ex_world)) = true.
Proof. vm_compute. reflexivity. Qed.
Lemma ex_world_sound : sound_db (w_db ex_world).
Proof.
  refine (db_check ex_hist [(ex_top, oid ex_root)] _ _ _ ex_rows_sound ex_commits_sound).
  - apply (hs_sound (bs "/demo")). apply ex_hist_ok. reflexivity.
  - intros o h Hc. apply one_pair in Hc as [-> ->]. split; [left; reflexivity|]. split; [apply oid_ok, tree_base|exact ex_top_root].
Qed.
Lemma ex_world_quiet : no_failure ex_world.
Proof. vm_compute. reflexivity. Qed.
Definition ex_ref : ref_row := mkRef 1 (bs "/demo") (bs "refs/heads/master" ++ [0]) (to_plain_str (oid ex_top)).
Lemma ex_world_refs : d_refs (w_db ex_world) = [ex_ref].
Proof. vm_compute. reflexivity. Qed.
Lemma ex_world_short : short_refs (w_db ex_world).
Proof.
  intros r Hr. rewrite ex_world_refs in Hr. destruct Hr as [<-|[]]. cbn [ex_ref r_ref_git_id r_ref_name].
  split; [|vm_compute; discriminate]. rewrite plain_len; [lia|]. apply oid_ok, commit_base.
Qed.
Lemma ex_world_stored : refs_stored (w_db ex_world).
Proof.
  intros r Hr. rewrite ex_world_refs in Hr. destruct Hr as [<-|[]]. change (r_ref_git_id ex_ref) with (to_plain_str (oid ex_top)).
  apply (has_check _ ex_top ex_root); [apply ex_id_ok; left; reflexivity|apply ex_id_ok; right; left; reflexivity|exact ex_top_root|reflexivity|reflexivity|
    vm_compute; reflexivity|vm_compute; reflexivity].
Qed.
Definition ex_session (path : bytes) : proto := mkProto Http path (Some UploadPack) [] [].
Example C41_ex : In ex_ref (d_refs (w_db ex_world)) /\ is_head ex_env (bs "/demo") ex_ref /\ r_repo_path ex_ref = bs "/demo" /\
  (forall x, In x (d_refs (w_db ex_world)) -> is_head ex_env (bs "/demo") x -> r_repo_path x = bs "/demo" -> r_ref_git_id x = r_ref_git_id ex_ref) /\
  no_failure ex_world /\ short_refs (w_db ex_world).
Proof.
  rewrite ex_world_refs. split; [left; reflexivity|]. split; [split; reflexivity|]. split; [reflexivity|].
  split; [intros x [<-|[]] _ _; reflexivity|]. split; [exact ex_world_quiet|exact ex_world_short].
Qed.
Example C41_no_head_ex : forall r, In r (d_refs (w_db ex_world)) -> ~ is_head ex_env (bs "/other") r.
Proof. intros r Hr. rewrite ex_world_refs in Hr. destruct Hr as [<-|[]]. intros [K _]. vm_compute in K. discriminate. Qed.
Definition is_ok {A} (r : res A) : bool := match r with Ok _ => true | _ => false end.
Lemma is_ok_ex : forall A (r : res A), is_ok r = true -> exists a, r = Ok a.
Proof. intros A [a| | |] H; try discriminate H. eauto. Qed.
Lemma ok_run : forall A (m : M A) w, is_ok (snd (m w)) = true -> exists a, m w = (fst (m w), Ok a).
Proof. intros A m w H. apply is_ok_ex in H as (a & E). exists a. rewrite <- E. destruct (m w); reflexivity. Qed.
Lemma demo_lib_text : text_len (bs "/demo/lib") 9.
Proof.
  exists (bs "/demo/lib"). split; [|split; [reflexivity|reflexivity]]. apply Forall_forall. intros x Hx. left.
  assert (K : forallb (fun x => x <? 128) (bs "/demo/lib") = true) by reflexivity. rewrite forallb_forall in K. apply K, N.ltb_lt in Hx. lia.
Qed.
Lemma ex_ref_text : text_len (r_ref_name ex_ref) 18.
Proof.
  exists (r_ref_name ex_ref). split; [|split; [reflexivity|reflexivity]]. apply Forall_forall. intros x Hx. left.
  assert (K : forallb (fun x => x <? 128) (r_ref_name ex_ref) = true) by reflexivity. rewrite forallb_forall in K. apply K, N.ltb_lt in Hx. lia.
Qed.
Example C41_below_ex : exists out, git_info_refs ex_env (ex_session (bs "/demo/lib")) ex_world =
    (fst (git_info_refs ex_env (ex_session (bs "/demo/lib")) ex_world), Ok out) /\ sound_db (w_db ex_world) /\
  (forall r, In r (d_refs (w_db ex_world)) -> is_head ex_env (bs "/demo/lib") r -> r_repo_path r <> bs "/demo/lib") /\
  (exists n, text_len (bs "/demo/lib") n /\ (n <= 64)%nat) /\
  (forall r, In r (d_refs (w_db ex_world)) -> exists n, text_len (r_ref_name r) n /\ (n <= 32)%nat).
Proof.
  destruct (ok_run _ (git_info_refs ex_env (ex_session (bs "/demo/lib"))) ex_world) as (out & E); [vm_compute; reflexivity|].
  exists out. split; [exact E|]. split; [exact ex_world_sound|]. rewrite ex_world_refs. split; [|split].
  - intros r [<-|[]] _. discriminate.
  - exists 9%nat. split; [exact demo_lib_text|lia].
  - intros r [<-|[]]. exists 18%nat. split; [exact ex_ref_text|lia].
Qed.

(** ** C42: no reference is left out *)

Lemma listing_all : forall rows l, listing rows l -> NoDup (map r_ref_git_id rows) ->
  forall r, In r rows -> In (r_ref_git_id r, r_ref_name r) l.
Proof.
  intros rows l (_ & L1 & L2) Nd r Hr. destruct (L2 r Hr) as (n & Hn). destruct (L1 _ _ Hn) as (x & Hx & E1 & E2).
  assert (x = r); [|congruence]. revert Nd Hr Hx E1. clear. induction rows as [|y rows IH]; intros Nd Hr Hx E; [destruct Hr|].
  inversion Nd as [|? ? N1 N2]; subst. destruct Hr as [->|Hr], Hx as [->|Hx]; [reflexivity| | |auto].
  - destruct N1. rewrite <- E. apply in_map. exact Hx.
  - destruct N1. rewrite E. apply in_map. exact Hr.
Qed.
(** With at most one reference per commit all are advertised. *)
Theorem C42_distinct_ids : forall e pp s w r, env_ok e -> no_failure w -> pp_service pp = Some s -> short_refs (w_db w) ->
  In r (d_refs (w_db w)) -> is_head e (pp_path pp) r -> r_repo_path r = pp_path pp ->
  (forall x, In x (d_refs (w_db w)) -> is_head e (pp_path pp) x -> r_repo_path x = pp_path pp -> r_ref_git_id x = r_ref_git_id r) ->
  NoDup (map r_ref_git_id (refs_at e (w_db w) (pp_path pp))) ->
  exists w' out refs, git_info_refs e pp w = (w', Ok out) /\ advert (over_http pp) s (r_ref_git_id r) refs out /\
    forall x, In x (refs_at e (w_db w) (pp_path pp)) -> In (r_ref_git_id x, r_ref_name x) refs.
Proof.
  intros e pp s w r He Q Hs Sh Hr Hh Hp Uq Nd. destruct (C41_repository e pp s w r He Q Hs Sh Hr Hh Hp Uq) as (w' & out & refs & E & _ & _ & A & L).
  exists w', out, refs. split; [exact E|]. split; [exact A|]. exact (listing_all _ _ L Nd).
Qed.
(** In general one line per commit, whatever the number of references on it. *)
Theorem C42_one_per_commit : forall rows l, listing rows l -> NoDup (map fst l) /\
  forall i, In i (map fst l) <-> In i (map r_ref_git_id rows).
Proof.
  intros rows l (Nd & L1 & L2). split; [exact Nd|]. intros i. rewrite !in_map_iff. split.
  - intros ([i' n] & E & Hi). cbn [fst] in E. subst i'. destruct (L1 _ _ Hi) as (r & Hr & E & _). eauto.
  - intros (r & <- & Hr). destruct (L2 r Hr) as (n & Hn). exists (r_ref_git_id r, n). auto.
Qed.
Example C42_ex : NoDup (map r_ref_git_id (refs_at ex_env (two_refs (bs "a1") (bs "b2")) (bs "/demo"))) /\
  length (refs_at ex_env (two_refs (bs "a1") (bs "b2")) (bs "/demo")) = 2%nat.
Proof. vm_compute. split; [repeat constructor; cbn; intuition discriminate|reflexivity]. Qed.

Fixpoint infix (x l : bytes) : bool :=
  starts_with x l || match l with [] => false | _ :: r => infix x r end.
Lemma infix_in : forall x l, (exists p q, l = p ++ x ++ q) -> infix x l = true.
Proof.
  intros x l (p & q & ->). induction p as [|b p IH]; cbn [app infix].
  - destruct (x ++ q) eqn:E; cbn [infix]; rewrite <- E, starts_with_app; reflexivity.
  - rewrite IH. apply orb_true_r.
Qed.
(** Two references on one commit: the name of one does not occur in the reply. *)
Theorem C42_missing_refuted : exists e pp w r w' out, env_ok e /\ no_failure w /\ pp_service pp = Some UploadPack /\ refs_table (w_db w) /\
  In r (d_refs (w_db w)) /\ r_repo_path r = pp_path pp /\ git_info_refs e pp w = (w', Ok out) /\
  ~ exists p q, out = p ++ r_ref_name r ++ q.
Proof.
  set (w := world_of (mkDb [] [] [mkRef 1 (bs "/demo") (bs "refs/heads/dev") (repeat 97 40); mkRef 2 (bs "/demo") (bs "refs/heads/master") (repeat 97 40)] 3)).
  exists ex_env, (ex_session (bs "/demo")), w, (mkRef 1 (bs "/demo") (bs "refs/heads/dev") (repeat 97 40)).
  destruct (ok_run _ (git_info_refs ex_env (ex_session (bs "/demo"))) w) as (out & E); [vm_compute; reflexivity|].
  exists (fst (git_info_refs ex_env (ex_session (bs "/demo")) w)), out. split; [exact ex_env_ok|]. split; [reflexivity|]. split; [reflexivity|].
  split; [split; [cbn; repeat constructor; cbn; intuition discriminate|intros r [<-|[<-|[]]]; reflexivity]|].
  split; [left; reflexivity|]. split; [reflexivity|]. split; [exact E|]. intros H. apply infix_in in H.
  assert (K : match snd (git_info_refs ex_env (ex_session (bs "/demo")) w) with Ok o => infix (bs "refs/heads/dev") o | _ => false end = false)
    by (vm_compute; reflexivity).
  rewrite E in K. cbn [snd] in K. cbn [r_ref_name] in H. rewrite H in K. discriminate.
Qed.

(** ** C46: a push of one reference *)

(** What git sends: one command with the capability list, a flush, the pack. *)
Definition push_request (old new name caps pack body : bytes) : Prop :=
  exists b, pkt_line (old ++ [32] ++ new ++ [32] ++ name ++ [0; 32] ++ caps) b /\ body = b ++ flush ++ pack.
(** The capabilities of a list of words. *)
Definition caps_in (text : bytes) (caps : list capability) : Prop :=
  forall c, In c caps <-> cap_word text (cap_text c).

Lemma hex_word : forall s h, lower_hex s h -> id_ok h -> word s.
Proof.
  intros s h H Hi. apply lower_hex_plain in H. subst s.
  assert (K : forall b, In b (to_plain_str h) -> 48 <= b <= 57 \/ 97 <= b <= 102).
  { intros b Hb. apply in_flat_map in Hb as (x & Hx & Hb). assert (Lx : x < 256) by (destruct Hi as [_ F]; exact (proj1 (Forall_forall _ _) F x Hx)).
    assert (D : forall d, d < 16 -> 48 <= hex_digit d <= 57 \/ 97 <= hex_digit d <= 102)
      by (intros d Hd; unfold hex_digit; destruct (d <? 10) eqn:E; [apply N.ltb_lt in E|apply N.ltb_ge in E]; lia).
    destruct Hb as [<-|[<-|[]]]; apply D; [rewrite N.shiftr_div_pow2; apply N.div_lt_upper_bound; [discriminate|exact Lx]|change 15 with (N.ones 4); rewrite N.land_ones; apply N.mod_upper_bound; discriminate]. }
  split.
  - apply Forall_forall. intros b Hb Hw. apply K in Hb. cbn [In] in Hw. lia.
  - apply utf8_text_ascii. apply Forall_forall. intros b Hb. apply K in Hb. lia.
Qed.
Lemma zero_word : word (repeat 48 40).
Proof.
  split.
  - apply Forall_forall. intros b Hb Hw. apply repeat_spec in Hb. cbn [In] in Hw. lia.
  - apply utf8_text_ascii. apply Forall_forall. intros b Hb. apply repeat_spec in Hb. lia.
Qed.

Lemma parse_first : forall old new name caps, word old -> word new -> word name ->
  parse_ref_update (old ++ [32] ++ new ++ [32] ++ name ++ [0; 32] ++ caps) = Ok (ref_command_new old new (name ++ [0]), caps).
Proof.
  intros old new name caps Ho Hn Hm.
  destruct (C49_first_command old new name [] (32 :: caps) Ho Hn Hm) as (cmd & E & E1 & E2 & E3);
    [split; [constructor|apply utf8_text_ascii; constructor]|right; exists 32, caps; split; [reflexivity|left; reflexivity]|].
  cbn [tl] in E. rewrite app_nil_r in E3. cbn [app] in E |- *. rewrite E. f_equal. f_equal.
  revert E. unfold parse_ref_update. destruct (read_until_white_space _) as [[o r1]| | |]; try discriminate. cbn [bind].
  destruct (read_until_white_space r1) as [[n r2]| | |]; try discriminate. cbn [bind].
  destruct (read_until_white_space r2) as [[nm r3]| | |]; try discriminate. cbn [bind]. intros E. injection E as <- _.
  cbn [ref_command_new rc_old_id rc_new_id rc_ref_name] in E1, E2, E3. subst. reflexivity.
Qed.
Lemma first_run : forall e m c now path old new name caps pack body, word old -> word new -> word name -> utf8_text caps ->
  push_request old new name caps pack body ->
  exists cl, caps_in caps cl /\ forall fuel w,
    http_receive_pack e m c fuel now path body w =
      (let! (_, reply) := git_receive_pack e m c fuel now
         (mkProto Http path None cl [ref_command_new old new (name ++ [0])]) pack in ret reply) w.
Proof.
  intros e m c now path old new name caps pack body Ho Hn Hm Hc (b & Hb & ->).
  exists (parse_capabilities [] caps). split.
  - intros x. rewrite parse_capabilities_spec. cbn [In]. tauto.
  - intros fuel w. unfold http_receive_pack, proto_new, lift, mbind at 1.
    pose proof (parse_first old new name caps Ho Hn Hm) as Hp.
    rewrite (mbind_ok _ _ _ _ _ _ _ (command_run e m c fuel now (mkProto Http path None [] []) _ _ caps b flush pack w Hb Hp Hc eq_refl)).
    reflexivity.
Qed.

Lemma status_ok : forall cl old new name, nlen name <= 60000 ->
  status_reply cl [bs "ok " ++ name ++ [0]] (report cl [cmd_unpacked (ref_command_new old new (name ++ [0])) None]).
Proof.
  intros cl old new name L.
  assert (E : get_status (cmd_unpacked (ref_command_new old new (name ++ [0])) None) = bs "ok " ++ name ++ [0]) by reflexivity.
  assert (Ln : nlen (bs "ok " ++ name ++ [0]) = nlen name + 4) by (rewrite !nlen_app; change (nlen (bs "ok ")) with 3; change (nlen [0]) with 1; lia).
  pose proof (report_ok cl [cmd_unpacked (ref_command_new old new (name ++ [0])) None]) as R. cbn [map fold_right] in R. rewrite E, Ln in R.
  apply R; [apply Forall_cons; [rewrite E, Ln; lia|apply Forall_nil]|intros _; lia].
Qed.

Lemma push_one : forall e m c now path old new name caps body pack objs w,
  env_ok e -> no_failure w -> word old -> word new -> word name -> nlen name <= 60000 -> utf8_text caps ->
  push_request old new name caps pack body ->
  git_pack c (get_hash_object e w) pack objs -> nlen pack < 2 ^ 32 -> history path (map snd objs) ->
  exists fuel0 w1 rows crows cl, caps_in caps cl /\ no_failure w1 /\
    w_db w1 = with_rows (w_db w) rows crows /\ rows_for path (map snd objs) rows crows /\
    (forall w2, handle_refs e (cmd_unpacked (ref_command_new old new (name ++ [0])) None) path w1 = (w2, Panic) ->
     forall fuel, (fuel0 <= fuel)%nat -> http_receive_pack e m c fuel now path body w = (w2, Panic)) /\
    forall w2, handle_refs e (cmd_unpacked (ref_command_new old new (name ++ [0])) None) path w1 = (w2, Ok tt) -> w_files w2 = w_files w1 ->
    exists w' reply, w_db w' = w_db w2 /\ w_fails w' = w_fails w2 /\ status_reply cl [bs "ok " ++ name ++ [0]] reply /\
      (forall q, q <> temp_path now -> fs_get (w_files w') q = fs_get (w_files w) q) /\
      forall fuel, (fuel0 <= fuel)%nat -> http_receive_pack e m c fuel now path body w = (w', Ok reply).
Proof.
  intros e m c now path old new name caps body pack objs w He Q Ho Hn Hm Lm Hc Rq G Hl [H1 H2 H3 H4 H5].
  destruct (first_run e m c now path old new name caps pack body Ho Hn Hm Hc Rq) as (cl & Hcl & E).
  set (cmd := ref_command_new old new (name ++ [0])) in *.
  destruct (receive_run e m c now (mkProto Http path None cl [cmd]) [] cmd pack [] objs w He Q eq_refl G Hl H3 H1 H2 H4 H5)
    as (fuel0 & w1 & l & rows & crows & _ & _ & Q1 & W1 & Rf & _ & Ep & Ek). rewrite app_nil_r in Ep, Ek.
  exists fuel0, w1, rows, crows, cl. split; [exact Hcl|]. split; [exact Q1|]. split; [exact W1|]. split; [exact Rf|]. split.
  - intros w2 E2 fuel Hf. rewrite E. unfold mbind. rewrite (Ep w2 E2 fuel Hf). reflexivity.
  - intros w2 E2 F2. destruct (Ek w2 E2 F2) as (w3 & D3 & _ & Q3 & Fs & _ & Eq). exists w3. eexists.
    split; [exact D3|]. split; [exact Q3|]. split; [|split; [exact Fs|]].
    2:{ intros fuel Hf. rewrite E. rewrite (mbind_ok _ _ _ _ _ _ _ (Eq fuel Hf)). reflexivity. }
    exact (status_ok cl old new name Lm).
Qed.

(** A new reference. The name is stored with the NUL that follows it on the wire (C49). *)
Theorem C46_create : forall e m c now path new h name caps body pack objs w,
  env_ok e -> no_failure w -> id_ok h -> lower_hex new h -> word name -> utf8_text caps ->
  (exists k, text_len name k /\ (k <= 31)%nat) -> (exists k, text_len path k /\ (k <= 64)%nat) ->
  push_request (repeat 48 40) new name caps pack body ->
  git_pack c (get_hash_object e w) pack objs -> nlen pack < 2 ^ 32 -> history path (map snd objs) ->
  exists fuel0 w' reply rows crows cl, caps_in caps cl /\ status_reply cl [bs "ok " ++ name ++ [0]] reply /\
    rows_for path (map snd objs) rows crows /\
    w_db w' = mkDb (d_nodes (w_db w) ++ rows) (d_commits (w_db w) ++ crows)
                   (d_refs (w_db w) ++ [mkRef (d_next_ref (w_db w)) path (name ++ [0]) new]) (d_next_ref (w_db w) + 1) /\
    no_failure w' /\
    forall fuel, (fuel0 <= fuel)%nat -> http_receive_pack e m c fuel now path body w = (w', Ok reply).
Proof.
  intros e m c now path new h name caps body pack objs w He Q Hh Hx Hm Hc (k & Tk & Lk) (k' & Tp & Lp) Rq G Hl Hs.
  assert (Lm : nlen name <= 60000).
  { destruct Tk as (cs & Fs & -> & Ec). assert (B : (length (flat_map utf8_char cs) <= 4 * length cs)%nat).
    { clear. induction cs as [|x cs IH]; [cbn; lia|]. cbn [flat_map]. rewrite app_length. cbn [length].
      assert (length (utf8_char x) <= 4)%nat; [|lia]. unfold utf8_char. repeat destruct (_ <? _); cbn [length]; lia. }
    unfold nlen. rewrite Ec in B. lia. }
  destruct (push_one e m c now path _ new name caps body pack objs w He Q zero_word (hex_word _ _ Hx Hh) Hm Lm Hc Rq G Hl Hs)
    as (fuel0 & w1 & rows & crows & cl & Hcl & Q1 & W1 & Rf & _ & K).
  destruct (create_run (cmd_unpacked (ref_command_new (repeat 48 40) new (name ++ [0])) None) path w1 Q1) as (w2 & E2 & M2 & D2).
  { unfold ref_fits, cmd_unpacked, ref_command_new. cbn [r_repo_path r_ref_name r_ref_git_id rc_ref_name rc_new_id].
    assert (V1 : varchar 64 path = true) by (apply N.leb_le; rewrite (chars_text _ _ Tp); lia).
    assert (V2 : varchar 32 (name ++ [0]) = true) by (apply N.leb_le; rewrite chars_app, (chars_text _ _ Tk); change (chars [0]) with 1; lia).
    assert (V3 : varchar 40 new = true) by (apply N.leb_le; rewrite (lower_hex_plain _ _ Hx); apply plain_chars; exact Hh).
    rewrite V1, V2, V3. reflexivity. }
  destruct (K w2) as (w' & reply & D & Q' & St & _ & E); [exact E2|exact (mv_files _ _ _ M2)|].
  exists fuel0, w', reply, rows, crows, cl. split; [exact Hcl|]. split; [exact St|]. split; [exact Rf|]. split; [|split; [|exact E]].
  - rewrite D, D2, W1. reflexivity.
  - unfold no_failure. rewrite Q'. exact (mv_quiet _ _ _ M2).
Qed.

(** An existing reference, the only one of the repository with the old id. *)
(** The reference may be one of a repository that the database takes for the same. *)
Lemma update_push : forall e m c now path old h0 new h name caps body pack objs w l1 r l2,
  env_ok e -> no_failure w -> refs_table (w_db w) -> id_ok h0 -> lower_hex old h0 -> old <> repeat 48 40 ->
  id_ok h -> lower_hex new h -> new <> repeat 48 40 -> word name -> nlen name <= 60000 -> utf8_text caps ->
  push_request old new name caps pack body ->
  git_pack c (get_hash_object e w) pack objs -> nlen pack < 2 ^ 32 -> history path (map snd objs) ->
  d_refs (w_db w) = l1 ++ r :: l2 -> r_ref_git_id r = old -> teq e (r_repo_path r) path = true ->
  (forall x, In x (l1 ++ l2) -> teq e (r_ref_git_id x) old = true -> teq e (r_repo_path x) path = true -> False) ->
  exists fuel0 w' reply rows crows cl, caps_in caps cl /\ status_reply cl [bs "ok " ++ name ++ [0]] reply /\
    rows_for path (map snd objs) rows crows /\
    w_db w' = mkDb (d_nodes (w_db w) ++ rows) (d_commits (w_db w) ++ crows) (l1 ++ with_id r new :: l2) (d_next_ref (w_db w)) /\
    no_failure w' /\
    forall fuel, (fuel0 <= fuel)%nat -> http_receive_pack e m c fuel now path body w = (w', Ok reply).
Proof.
  intros e m c now path old h0 new h name caps body pack objs w l1 r l2 He Q T H0 X0 Z0 Hh Hx Z1 Hm Lm Hc Rq G Hl Hs El E1 E2 Uq.
  destruct (push_one e m c now path old new name caps body pack objs w He Q (hex_word _ _ X0 H0) (hex_word _ _ Hx Hh) Hm Lm Hc Rq G Hl Hs)
    as (fuel0 & w1 & rows & crows & cl & Hcl & Q1 & W1 & Rf & _ & K).
  set (cmd := cmd_unpacked (ref_command_new old new (name ++ [0])) None) in *.
  assert (Ty : rc_type cmd = Update).
  { unfold cmd, cmd_unpacked, ref_command_new. cbn [rc_type]. rewrite (proj2 (beq_neq zero_id old)) by (intros Z; apply Z0; rewrite <- Z; reflexivity).
    rewrite (proj2 (beq_neq zero_id new)) by (intros Z; apply Z1; rewrite <- Z; reflexivity). reflexivity. }
  assert (T1 : refs_table (w_db w1)) by (rewrite W1; exact T).
  destruct (C55_only_candidate e cmd path w1 l1 r l2 He Q1 T1) as (w2 & Eu & Du); [exists h; auto|rewrite W1; exact El|exact E1|exact E2|exact Uq|].
  assert (V : varchar 40 (rc_new_id cmd) = true) by (apply N.leb_le; cbn [cmd cmd_unpacked ref_command_new rc_new_id]; rewrite (lower_hex_plain _ _ Hx); apply plain_chars; exact Hh).
  destruct (update_run e cmd path w1 He Q1 T1 V) as [(w2' & _ & _ & _ & Eu' & _ & _ & _ & _ & M2)|(w2' & Eu' & _)];
    rewrite Eu in Eu'; [injection Eu' as <-|discriminate].
  destruct (K w2) as (w' & reply & D & Q' & St & _ & E); [unfold handle_refs; rewrite Ty; exact Eu|exact (mv_files _ _ _ M2)|].
  exists fuel0, w', reply, rows, crows, cl. split; [exact Hcl|]. split; [exact St|]. split; [exact Rf|]. split; [|split; [|exact E]].
  - rewrite D, Du, W1. reflexivity.
  - unfold no_failure. rewrite Q'. exact (mv_quiet _ _ _ M2).
Qed.
Theorem C46_update : forall e m c now path old h0 new h name caps body pack objs w l1 r l2,
  env_ok e -> no_failure w -> refs_table (w_db w) -> id_ok h0 -> lower_hex old h0 -> old <> repeat 48 40 ->
  id_ok h -> lower_hex new h -> new <> repeat 48 40 -> word name -> nlen name <= 60000 -> utf8_text caps ->
  push_request old new name caps pack body ->
  git_pack c (get_hash_object e w) pack objs -> nlen pack < 2 ^ 32 -> history path (map snd objs) ->
  d_refs (w_db w) = l1 ++ r :: l2 -> r_ref_git_id r = old -> r_repo_path r = path ->
  (forall x, In x (l1 ++ l2) -> teq e (r_ref_git_id x) old = true -> teq e (r_repo_path x) path = true -> False) ->
  exists fuel0 w' reply rows crows cl, caps_in caps cl /\ status_reply cl [bs "ok " ++ name ++ [0]] reply /\
    rows_for path (map snd objs) rows crows /\
    w_db w' = mkDb (d_nodes (w_db w) ++ rows) (d_commits (w_db w) ++ crows) (l1 ++ with_id r new :: l2) (d_next_ref (w_db w)) /\
    no_failure w' /\
    forall fuel, (fuel0 <= fuel)%nat -> http_receive_pack e m c fuel now path body w = (w', Ok reply).
Proof.
  intros e m c now path old h0 new h name caps body pack objs w l1 r l2 He Q T H0 X0 Z0 Hh Hx Z1 Hm Lm Hc Rq G Hl Hs El E1 E2.
  apply (update_push e m c now path old h0 new h name caps body pack objs w l1 r l2 He Q T H0 X0 Z0 Hh Hx Z1 Hm Lm Hc Rq G Hl Hs El E1).
  rewrite E2. apply He.
Qed.

Lemma ex_top_id : id_ok (oid ex_top).
Proof. exact (obj_id_ok _ _ (ex_id_ok ex_top (or_introl eq_refl))). Qed.
Lemma push_body_request : forall old new name caps pack,
  nlen (old ++ [32] ++ new ++ [32] ++ name ++ [0; 32] ++ caps) <= 65531 -> push_request old new name caps pack (push_body old new name caps pack).
Proof. intros old new name caps pack H. eexists. split; [apply hex4_pkt; exact H|reflexivity]. Qed.
Lemma master_word : word (bs "refs/heads/master").
Proof.
  split; [|apply utf8_spec; reflexivity]. apply Forall_forall. intros b Hb Hw.
  assert (K : forallb (fun b => negb (existsb (N.eqb b) [32; 9; 10; 12; 13])) (bs "refs/heads/master") = true) by reflexivity.
  rewrite forallb_forall in K. specialize (K b Hb). apply negb_true_iff in K.
  assert (K2 : existsb (N.eqb b) [32; 9; 10; 12; 13] = true) by (apply existsb_exists; exists b; split; [exact Hw|apply N.eqb_refl]). congruence.
Qed.
Lemma ascii_text : forall l, forallb (fun x => x <? 128) l = true -> text_len l (length l).
Proof.
  intros l H. exists l. split; [|split; [|reflexivity]].
  - apply Forall_forall. intros x Hx. rewrite forallb_forall in H. apply H, N.ltb_lt in Hx. left. lia.
  - induction l as [|b l IH]; [reflexivity|]. cbn [forallb] in H. apply andb_true_iff in H as [Hb H]. cbn [flat_map]. unfold utf8_char at 1. rewrite Hb.
    cbn [app]. f_equal. apply IH. exact H.
Qed.
Example C46_create_ex : exists objs, push_request (repeat 48 40) (to_plain_str (oid ex_top)) (bs "refs/heads/master") ex_caps (pack_of ex_hist) ex_body /\
  git_pack stored (get_hash_object ex_env (world_of db_empty)) (pack_of ex_hist) objs /\ nlen (pack_of ex_hist) < 2 ^ 32 /\ history (bs "/demo") (map snd objs) /\
  id_ok (oid ex_top) /\ lower_hex (to_plain_str (oid ex_top)) (oid ex_top) /\ word (bs "refs/heads/master") /\ utf8_text ex_caps /\
  (exists k, text_len (bs "refs/heads/master") k /\ (k <= 31)%nat) /\ (exists k, text_len (bs "/demo") k /\ (k <= 64)%nat).
Proof.
  destruct (ex_pack (get_hash_object ex_env (world_of db_empty))) as (objs & G & E). exists objs. rewrite E.
  split; [apply push_body_request; rewrite !nlen_app, (plain_len _ ex_top_id); vm_compute; discriminate|]. split; [exact G|]. split; [exact ex_pack_small|].
  split; [apply ex_hist_ok; reflexivity|]. split; [exact ex_top_id|]. split; [apply plain_lower; exact ex_top_id|].
  split; [exact master_word|]. split; [apply utf8_spec; reflexivity|].
  split; [exists 17%nat; split; [exact (ascii_text (bs "refs/heads/master") eq_refl)|lia]|exists 5%nat; split; [exact (ascii_text (bs "/demo") eq_refl)|lia]].
Qed.

(** A second commit, pushed with all its objects. *)
Definition ex_second : object := commit_on (oid ex_root) [oid ex_top] (bs "second").
Definition ex_full : list object := [ex_second; ex_root; ex_lib; ex_blob].
Lemma ex_second_root : commit_root (snd ex_second) (oid ex_root).
Proof. apply commit_on_root; [apply oid_ok, tree_base|apply Forall_cons; [exact ex_top_id|apply Forall_nil]|apply utf8_spec; reflexivity]. Qed.
Lemma ex_full_ok : history (bs "/demo") ex_full.
Proof.
  apply history_check; [vm_compute; reflexivity|reflexivity| |].
  - intros d [E|[E|[E|[E|[]]]]]; try discriminate (f_equal fst E). exists (oid ex_root).
    replace d with (snd ex_second) by exact (f_equal snd E). exact ex_second_root.
  - intros d [E|[E|[E|[E|[]]]]]; discriminate (f_equal fst E).
Qed.
Definition ex_body2 : bytes :=
  push_body (to_plain_str (oid ex_top)) (to_plain_str (oid ex_second)) (bs "refs/heads/master") ex_caps (pack_of ex_full).
Example C46_update_ex : exists objs,
  push_request (to_plain_str (oid ex_top)) (to_plain_str (oid ex_second)) (bs "refs/heads/master") ex_caps (pack_of ex_full) ex_body2 /\
  git_pack stored (get_hash_object ex_env ex_world) (pack_of ex_full) objs /\ nlen (pack_of ex_full) < 2 ^ 32 /\ history (bs "/demo") (map snd objs) /\
  refs_table (w_db ex_world) /\ id_ok (oid ex_top) /\ id_ok (oid ex_second) /\
  to_plain_str (oid ex_top) <> repeat 48 40 /\ to_plain_str (oid ex_second) <> repeat 48 40 /\
  d_refs (w_db ex_world) = [] ++ ex_ref :: [] /\ r_ref_git_id ex_ref = to_plain_str (oid ex_top) /\ r_repo_path ex_ref = bs "/demo".
Proof.
  assert (Is : id_ok (oid ex_second)) by apply oid_ok, commit_base.
  destruct (pack_of_git ex_full (get_hash_object ex_env ex_world)) as (objs & G & E); [discriminate|reflexivity|apply (hs_sound _ _ ex_full_ok)|].
  exists objs. rewrite E.
  split; [apply push_body_request; rewrite !nlen_app, (plain_len _ ex_top_id), (plain_len _ Is); vm_compute; discriminate|].
  split; [exact G|]. split; [vm_compute; reflexivity|]. split; [exact ex_full_ok|].
  split; [split; [rewrite ex_world_refs; cbn; repeat constructor; intros []|intros r Hr; rewrite ex_world_refs in Hr; destruct Hr as [<-|[]]; vm_compute; reflexivity]|].
  split; [exact ex_top_id|]. split; [exact Is|]. split; [apply beq_neq; vm_compute; reflexivity|]. split; [apply beq_neq; vm_compute; reflexivity|].
  split; [exact ex_world_refs|]. split; reflexivity.
Qed.

(** ** C47: several references *)

(** Whatever follows the second command, nothing is stored and no reference changes. *)
Theorem C47_nothing_done : forall e m c fuel now path old new name caps old2 new2 name2 b1 b2 rest w,
  word old -> word new -> word name -> utf8_text caps ->
  pkt_line (old ++ [32] ++ new ++ [32] ++ name ++ [0; 32] ++ caps) b1 ->
  (exists h, id_ok h /\ lower_hex old2 h) -> pkt_line (old2 ++ [32] ++ new2 ++ [32] ++ name2) b2 ->
  fst (http_receive_pack e m c fuel now path (b1 ++ b2 ++ rest) w) = w.
Proof.
  intros e m c fuel now path old new name caps old2 new2 name2 b1 b2 rest w Ho Hn Hm Hc H1 (h & Hh & Hl) (f & Lf & Hf & ->).
  assert (Hp : starts_with (bs "PACK") ((old2 ++ [32] ++ new2 ++ [32] ++ name2) ++ rest) = false).
  { destruct (hex_word _ _ Hl Hh) as [W _]. pose proof (lower_hex_plain _ _ Hl) as E. pose proof (plain_len _ Hh) as L. rewrite <- E in L.
    destruct old2 as [|a o]; [discriminate L|]. change (bs "PACK") with (80 :: bs "ACK"). cbn [app starts_with].
    replace (80 =? a) with false; [reflexivity|]. symmetry. apply N.eqb_neq. intros <-.
    assert (K : In 80 (to_plain_str h)) by (rewrite <- E; left; reflexivity).
    apply in_flat_map in K as (x & _ & K).
    assert (D : forall d, hex_digit d <> 80) by (intros d; unfold hex_digit; destruct (d <? 10) eqn:B; [apply N.ltb_lt in B|apply N.ltb_ge in B]; lia).
    destruct K as [K|[K|[]]]; exact (D _ K). }
  unfold http_receive_pack, proto_new, lift, mbind at 1.
  destruct (C49_first_command old new name [] (32 :: caps) Ho Hn Hm) as (cmd & E & _);
    [split; [constructor|apply utf8_text_ascii; constructor]|right; exists 32, caps; split; [reflexivity|left; reflexivity]|].
  rewrite <- app_assoc.
  rewrite (mbind_ok _ _ _ _ _ _ _ (command_run e m c fuel now (mkProto Http path None [] []) _ cmd caps b1 f _ w H1 E Hc Lf)).
  cbn beta iota. unfold mbind.
  pose proof (nopack_run e m c fuel now (mkProto (pp_protocol (mkProto Http path None [] [])) (pp_path (mkProto Http path None [] []))
    (pp_service (mkProto Http path None [] [])) (parse_capabilities (pp_caps (mkProto Http path None [] [])) caps) (pp_cmds (mkProto Http path None [] []) ++ [cmd])) _ w Hp) as K.
  destruct (git_receive_pack _ _ _ _ _ _ _ w) as [w' [[? ?]| | |]]; cbn [fst] in K |- *; exact K.
Qed.

(** When the second command creates a reference, the reply is the rest of the request. *)
Theorem C47_request_echoed : forall e m c fuel now path old new name caps new2 name2 b1 b2 rest w,
  word old -> word new -> word name -> utf8_text caps ->
  pkt_line (old ++ [32] ++ new ++ [32] ++ name ++ [0; 32] ++ caps) b1 ->
  pkt_line (repeat 48 40 ++ [32] ++ new2 ++ [32] ++ name2) b2 ->
  http_receive_pack e m c fuel now path (b1 ++ b2 ++ rest) w =
    (w, Ok (repeat 48 36 ++ [32] ++ new2 ++ [32] ++ name2 ++ rest)).
Proof.
  intros e m c fuel now path old new name caps new2 name2 b1 b2 rest w Ho Hn Hm Hc H1 (f & Lf & Hf & ->).
  unfold http_receive_pack, proto_new, lift, mbind at 1.
  destruct (C49_first_command old new name [] (32 :: caps) Ho Hn Hm) as (cmd & E & _);
    [split; [constructor|apply utf8_text_ascii; constructor]|right; exists 32, caps; split; [reflexivity|left; reflexivity]|].
  rewrite <- app_assoc.
  rewrite (mbind_ok _ _ _ _ _ _ _ (command_run e m c fuel now (mkProto Http path None [] []) _ cmd caps b1 f _ w H1 E Hc Lf)).
  cbn beta iota. set (pp := mkProto _ _ _ _ _).
  assert (K : forall r, git_receive_pack e m c fuel now pp (flush ++ r) w = (w, Ok (pp, r))).
  { intros r. unfold git_receive_pack. change (starts_with (bs "PACK") (flush ++ r)) with false. cbv iota. rewrite read_flush. reflexivity. }
  replace ((repeat 48 40 ++ [32] ++ new2 ++ [32] ++ name2) ++ rest) with (flush ++ repeat 48 36 ++ [32] ++ new2 ++ [32] ++ name2 ++ rest)
    by (change (repeat 48 40) with (flush ++ repeat 48 36); rewrite <- !app_assoc; reflexivity).
  rewrite (mbind_ok _ _ _ _ _ _ _ (K _)). reflexivity.
Qed.
Lemma word_ascii : forall l, forallb (fun b => (b <? 128) && negb (existsb (N.eqb b) [32; 9; 10; 12; 13])) l = true -> word l.
Proof.
  intros l H. rewrite forallb_forall in H. split.
  - apply Forall_forall. intros b Hb Hw. apply H, andb_true_iff in Hb as [_ K]. apply negb_true_iff in K.
    assert (K2 : existsb (N.eqb b) [32; 9; 10; 12; 13] = true) by (apply existsb_exists; exists b; split; [exact Hw|apply N.eqb_refl]). congruence.
  - apply utf8_text_ascii. apply Forall_forall. intros b Hb. apply H, andb_true_iff in Hb as [K _]. apply N.ltb_lt. exact K.
Qed.
Lemma add_pkt_ok : forall s, nlen s <= 65531 -> pkt_line s (add_pkt_line [] s).
Proof. intros s H. apply hex4_pkt. exact H. Qed.
Lemma zeros_not_status : forall cl names r, ~ status_reply cl names (flush ++ r).
Proof.
  assert (Np : forall p b x r, pkt_line p b -> b ++ x <> flush ++ r).
  { intros p b x r (h & L & Hn & ->) E. rewrite <- app_assoc in E. destruct h as [|? [|? [|? [|? [|]]]]]; try discriminate L. injection E as -> -> -> -> _.
    pose proof (hex_numeral_fun _ _ Hn 0 (hex_numeral_zeros 4)) as K. lia. }
  intros cl names r (s & Hs & [[_ B]|(_ & _ & E)]).
  - inversion B as [E1 E2|d b s' ds Hd Hl Hp Hb E1 E2].
    + destruct s; discriminate E2.
    + exact (Np _ _ _ _ Hp E1).
  - inversion Hs as [|p b ps bs' Hp Hps E1 E2]; subst. rewrite <- app_assoc in E. symmetry in E. exact (Np _ _ _ _ Hp E).
Qed.

(** Two new references on a new server: the reply is not even a report. *)
Lemma two_new : forall new h pack, id_ok h -> lower_hex new h -> exists b1 b2,
  pkt_line (repeat 48 40 ++ [32] ++ new ++ [32] ++ bs "refs/heads/master" ++ [0; 32] ++ ex_caps) b1 /\
  pkt_line (repeat 48 40 ++ [32] ++ new ++ [32] ++ bs "refs/heads/dev") b2 /\
  forall fuel, w_db (fst (http_receive_pack ex_env Release stored fuel 7 (bs "/demo") (b1 ++ b2 ++ flush ++ pack) (world_of db_empty))) = db_empty /\
    forall cl names reply, snd (http_receive_pack ex_env Release stored fuel 7 (bs "/demo") (b1 ++ b2 ++ flush ++ pack) (world_of db_empty)) = Ok reply ->
      ~ status_reply cl names reply.
Proof.
  intros new h pack Hh Hl. assert (Ln : nlen new = 40) by (rewrite (lower_hex_plain _ _ Hl); exact (plain_len _ Hh)).
  assert (Wc : utf8_text ex_caps) by (apply utf8_spec; reflexivity).
  eexists. eexists. split; [apply add_pkt_ok; rewrite !nlen_app, Ln; vm_compute; discriminate|].
  split; [apply add_pkt_ok; rewrite !nlen_app, Ln; vm_compute; discriminate|]. intros fuel.
  rewrite (C47_request_echoed ex_env Release stored fuel 7 (bs "/demo") (repeat 48 40) new (bs "refs/heads/master") ex_caps new (bs "refs/heads/dev")).
  - split; [reflexivity|]. intros cl names reply Ek. cbn [snd] in Ek.
    assert (Er : reply = flush ++ repeat 48 32 ++ [32] ++ new ++ [32] ++ bs "refs/heads/dev" ++ flush ++ pack)
      by (symmetry; exact (f_equal (fun r => match r with Ok x => x | _ => reply end) Ek)).
    rewrite Er. apply zeros_not_status.
  - exact zero_word.
  - exact (hex_word _ _ Hl Hh).
  - exact master_word.
  - exact Wc.
  - apply add_pkt_ok; rewrite !nlen_app, Ln; vm_compute; discriminate.
  - apply add_pkt_ok; rewrite !nlen_app, Ln; vm_compute; discriminate.
Qed.
Theorem C47_two_references_refuted : exists e m c now path new h name1 name2 caps b1 b2 pack objs w,
  env_ok e /\ codec_ok c /\ no_failure w /\ w_db w = db_empty /\ id_ok h /\ lower_hex new h /\ word name1 /\ word name2 /\ utf8_text caps /\
  pkt_line (repeat 48 40 ++ [32] ++ new ++ [32] ++ name1 ++ [0; 32] ++ caps) b1 /\ pkt_line (repeat 48 40 ++ [32] ++ new ++ [32] ++ name2) b2 /\
  git_pack c no_objects pack objs /\ history path (map snd objs) /\ (exists d, In (Commit, d) (map snd objs) /\ obj_id (Commit, d) h) /\
  forall fuel, w_db (fst (http_receive_pack e m c fuel now path (b1 ++ b2 ++ flush ++ pack) w)) = db_empty /\
    forall cl names reply, snd (http_receive_pack e m c fuel now path (b1 ++ b2 ++ flush ++ pack) w) = Ok reply -> ~ status_reply cl names reply.
Proof.
  destruct (ex_pack no_objects) as (objs & G & E).
  destruct (two_new (to_plain_str (oid ex_top)) (oid ex_top) (pack_of ex_hist) ex_top_id (plain_lower _ ex_top_id)) as (b1 & b2 & P1 & P2 & K).
  exists ex_env, Release, stored, 7, (bs "/demo"), (to_plain_str (oid ex_top)), (oid ex_top), (bs "refs/heads/master"), (bs "refs/heads/dev"), ex_caps, b1, b2.
  exists (pack_of ex_hist), objs, (world_of db_empty).
  split; [exact ex_env_ok|]. split; [exact stored_ok|]. split; [reflexivity|]. split; [reflexivity|]. split; [exact ex_top_id|].
  split; [apply plain_lower; exact ex_top_id|]. split; [exact master_word|]. split; [apply word_ascii; reflexivity|]. split; [apply utf8_spec; reflexivity|].
  split; [exact P1|]. split; [exact P2|]. split; [exact G|]. rewrite E. split; [apply ex_hist_ok; reflexivity|].
  split; [exists (snd ex_top); split; [left; reflexivity|exact (ex_id_ok ex_top (or_introl eq_refl))]|exact K].
Qed.

(** ** C48: deleting a reference *)

(** git sends no pack with a deletion. *)
Theorem C48_nothing_deleted : forall e m c fuel now path old name caps body w, word old -> word name -> utf8_text caps ->
  push_request old (repeat 48 40) name caps [] body ->
  http_receive_pack e m c fuel now path body w = (w, Ok []).
Proof.
  intros e m c fuel now path old name caps body w Ho Hm Hc R.
  destruct (first_run e m c now path old (repeat 48 40) name caps [] body Ho zero_word Hm Hc R) as (cl & _ & E). rewrite E. reflexivity.
Qed.
(** With a pack, its content is stored, the reference stays and the request aborts. *)
Theorem C48_delete_with_pack : forall e m c now path old name caps body pack objs w,
  env_ok e -> no_failure w -> word old -> old <> repeat 48 40 -> word name -> nlen name <= 60000 -> utf8_text caps ->
  push_request old (repeat 48 40) name caps pack body ->
  git_pack c (get_hash_object e w) pack objs -> nlen pack < 2 ^ 32 -> history path (map snd objs) ->
  exists fuel0 w' rows crows, w_db w' = with_rows (w_db w) rows crows /\ rows_for path (map snd objs) rows crows /\
    forall fuel, (fuel0 <= fuel)%nat -> http_receive_pack e m c fuel now path body w = (w', Panic).
Proof.
  intros e m c now path old name caps body pack objs w He Q Ho Z Hm Lm Hc Rq G Hl Hs.
  destruct (push_one e m c now path old _ name caps body pack objs w He Q Ho zero_word Hm Lm Hc Rq G Hl Hs)
    as (fuel0 & w1 & rows & crows & cl & _ & _ & W1 & Rf & Ep & _).
  exists fuel0, w1, rows, crows. split; [exact W1|]. split; [exact Rf|]. apply Ep. unfold handle_refs.
  assert (Ty : rc_type (cmd_unpacked (ref_command_new old (repeat 48 40) (name ++ [0])) None) = Delete).
  { unfold cmd_unpacked, ref_command_new. cbn [rc_type]. rewrite (proj2 (beq_neq zero_id old)) by (intros K; apply Z; rewrite <- K; reflexivity). reflexivity. }
  rewrite Ty. reflexivity.
Qed.
Lemma delete_request : forall old, nlen old = 40 ->
  push_request old (repeat 48 40) (bs "refs/heads/master") ex_caps [] (push_body old (repeat 48 40) (bs "refs/heads/master") ex_caps []).
Proof. intros old L. apply push_body_request. rewrite !nlen_app, L. vm_compute. discriminate. Qed.
Theorem C48_delete_refuted : exists e w r body, env_ok e /\ no_failure w /\ refs_table (w_db w) /\ refs_stored (w_db w) /\
  In r (d_refs (w_db w)) /\ push_request (r_ref_git_id r) (repeat 48 40) (bs "refs/heads/master") ex_caps [] body /\
  teq e (r_ref_name r) (bs "refs/heads/master") = true /\
  forall m c fuel now, exists w', http_receive_pack e m c fuel now (r_repo_path r) body w = (w', Ok []) /\ In r (d_refs (w_db w')).
Proof.
  assert (Ln : nlen (r_ref_git_id ex_ref) = 40) by exact (plain_len _ ex_top_id).
  exists ex_env, ex_world, ex_ref, (push_body (r_ref_git_id ex_ref) (repeat 48 40) (bs "refs/heads/master") ex_caps []).
  split; [exact ex_env_ok|]. split; [exact ex_world_quiet|].
  assert (Hr : In ex_ref (d_refs (w_db ex_world))) by (rewrite ex_world_refs; left; reflexivity).
  split; [|split; [|split; [exact Hr|split; [exact (delete_request _ Ln)|split; [reflexivity|]]]]].
  - split; [rewrite ex_world_refs; cbn; repeat constructor; intros []|intros r Hr'; rewrite ex_world_refs in Hr'; destruct Hr' as [<-|[]]; vm_compute; reflexivity].
  - exact ex_world_stored.
  - intros m c fuel now. exists ex_world. split; [|exact Hr].
    apply (C48_nothing_deleted ex_env m c fuel now (r_repo_path ex_ref) (r_ref_git_id ex_ref) (bs "refs/heads/master") ex_caps);
      [exact (hex_word _ _ (plain_lower _ ex_top_id) ex_top_id)|exact master_word|apply utf8_spec; reflexivity|exact (delete_request _ Ln)].
Qed.

(** ** C57: commits of subdirectories *)

Theorem C57_child_commit : forall e path w w' id, env_ok e -> no_failure w -> sound_db (w_db w) ->
  (forall r, In r (d_refs (w_db w)) -> is_head e path r -> r_repo_path r <> path) ->
  (exists n, text_len path n /\ (n <= 64)%nat) ->
  (forall r, In r (d_refs (w_db w)) -> exists n, text_len (r_ref_name r) n /\ (n <= 32)%nat) ->
  get_head_object_id e path w = (w', Ok id) -> id <> repeat 48 40 ->
  exists r row n tid ps a c msg h d' h',
    In r (d_refs (w_db w)) /\ is_head e path r /\ within path (r_repo_path r) /\
    In row (d_commits (w_db w)) /\ teq e (c_git_id row) (r_ref_git_id r) = true /\ git_commit tid ps a c msg (c_meta row) /\
    found_node e (w_db w) path n /\ lower_hex (n_git_id n) h /\
    git_commit h [] a c msg d' /\ ident_of (bs "author") a /\ ident_of (bs "committer") c /\
    obj_id (Commit, d') h' /\ lower_hex id h' /\
    d_nodes (w_db w') = d_nodes (w_db w) /\
    d_commits (w_db w') = d_commits (w_db w) ++ (if nlen d' <=? 65535 then [mkCommitRow id (n_git_id n) d' path] else []) /\
    d_refs (w_db w') = d_refs (w_db w) ++ [mkRef (d_next_ref (w_db w)) path (r_ref_name r) id] /\
    (like e path path = true -> exists w'', get_head_object_id e path w' = (w'', Ok id) /\ w_db w'' = w_db w' /\ w_log w'' = w_log w').
Proof.
  intros e path w w' id He Q Sd No (n & Tn & Ln) Vn E Nz.
  assert (Vp : varchar 64 path = true) by (apply N.leb_le; rewrite (chars_text _ _ Tn); lia).
  assert (Vr : forall r, In r (d_refs (w_db w)) -> varchar 32 (r_ref_name r) = true).
  { intros r Hr. destruct (Vn r Hr) as (k & Tk & Lk). apply N.leb_le. rewrite (chars_text _ _ Tk). lia. }
  destruct (head_below e path w He Q Sd No Vp Vr w' id E) as [(Z & _)|(r & row & nd & d & tid & ps & a & c & msg & h & d' & h' & H1 & H2 & Hwi &
    H3 & H4 & H5 & H6 & H7 & H8 & H9 & H10 & H11 & H12 & _ & H13 & H14 & Dn & Dc & Dr & Q1)]; [destruct (Nz Z)|].
  exists r, row, nd, tid, ps, a, c, msg, h, d', h'. subst d. do 7 (split; [assumption|]).
  split; [rewrite H9; apply plain_lower; exact H8|]. do 4 (split; [assumption|]). split; [rewrite H14; apply plain_lower, (obj_id_ok _ _ H13)|].
  split; [exact Dn|]. split; [rewrite Dc, H14, H9; reflexivity|]. split; [exact Dr|]. intros Lk.
  apply (head_stored e path w' (mkRef (d_next_ref (w_db w)) path (r_ref_name r) id) He Q1); [rewrite Dr; apply in_elt|split; [exact Lk|exact (proj2 H2)]|reflexivity|].
  intros x Hx Hxh Hxp. rewrite Dr in Hx. apply in_app_iff in Hx as [Hx|[<-|[]]]; [|reflexivity]. destruct (No x Hx Hxh Hxp).
Qed.
Definition ok_text (r : res bytes) : bytes := match r with Ok a => a | _ => [] end.
Example C57_ex : exists id, get_head_object_id ex_env (bs "/demo/lib") ex_world = (fst (get_head_object_id ex_env (bs "/demo/lib") ex_world), Ok id) /\
  id <> repeat 48 40 /\ sound_db (w_db ex_world) /\ no_failure ex_world /\ like ex_env (bs "/demo/lib") (bs "/demo/lib") = true.
Proof.
  destruct (ok_run _ (get_head_object_id ex_env (bs "/demo/lib")) ex_world) as (id & E); [vm_compute; reflexivity|].
  exists id. split; [exact E|].
  assert (K : beq (ok_text (snd (get_head_object_id ex_env (bs "/demo/lib") ex_world))) (repeat 48 40) = false) by (vm_compute; reflexivity).
  rewrite E in K. cbn [snd ok_text] in K. split; [apply beq_neq; exact K|]. split; [exact ex_world_sound|]. split; [exact ex_world_quiet|reflexivity].
Qed.

(** ** C58: which tree a subdirectory gets *)

(** Once generated, the head of a subdirectory stays, also when the repository moves on. *)
Theorem C58_never_refreshed : forall e m c now path old h0 new h name caps body pack objs w l1 r l2 sub child,
  env_ok e -> no_failure w -> refs_table (w_db w) -> id_ok h0 -> lower_hex old h0 -> old <> repeat 48 40 ->
  id_ok h -> lower_hex new h -> new <> repeat 48 40 -> word name -> nlen name <= 60000 -> utf8_text caps ->
  push_request old new name caps pack body ->
  git_pack c (get_hash_object e w) pack objs -> nlen pack < 2 ^ 32 -> history path (map snd objs) ->
  d_refs (w_db w) = l1 ++ r :: l2 -> r_ref_git_id r = old -> r_repo_path r = path ->
  (forall x, In x (l1 ++ l2) -> teq e (r_ref_git_id x) old = true -> teq e (r_repo_path x) path = true -> False) ->
  sub <> path -> In child (d_refs (w_db w)) -> is_head e sub child -> r_repo_path child = sub ->
  (forall x, In x (d_refs (w_db w)) -> is_head e sub x -> r_repo_path x = sub -> r_ref_git_id x = r_ref_git_id child) ->
  exists fuel0 w' reply, (forall fuel, (fuel0 <= fuel)%nat -> http_receive_pack e m c fuel now path body w = (w', Ok reply)) /\
    In (with_id r new) (d_refs (w_db w')) /\
    exists w'', get_head_object_id e sub w' = (w'', Ok (r_ref_git_id child)) /\ w_db w'' = w_db w'.
Proof.
  intros e m c now path old h0 new h name caps body pack objs w l1 r l2 sub child He Q T H0 X0 Z0 Hh Hx Z1 Hm Lm Hc Rq G Hl Hs El E1 E2 Uq Ns Ic Hc1 Hc2 Uc.
  destruct (C46_update e m c now path old h0 new h name caps body pack objs w l1 r l2) as (fuel0 & w' & reply & rows & crows & cl & _ & _ & _ & D & Q' & E); try assumption.
  exists fuel0, w', reply. split; [exact E|]. rewrite D. cbn [d_refs]. split; [apply in_elt|].
  assert (Hi : In child (d_refs (w_db w'))).
  { rewrite D. cbn [d_refs]. rewrite El in Ic. apply in_app_iff in Ic as [Ic|[<-|Ic]].
    - apply in_or_app. left. exact Ic.
    - destruct Ns. congruence.
    - apply in_or_app. right. right. exact Ic. }
  destruct (head_stored e sub w' child He Q' Hi Hc1 Hc2) as (w'' & Eh & Dh & _).
  - intros x Ix Hx1 Hx2. rewrite D in Ix. cbn [d_refs] in Ix. apply in_app_iff in Ix as [Ix|[<-|Ix]].
    + apply Uc; [rewrite El; apply in_or_app; left; exact Ix|exact Hx1|exact Hx2].
    + destruct Ns. rewrite <- Hx2. exact E2.
    + apply Uc; [rewrite El; apply in_or_app; right; right; exact Ix|exact Hx1|exact Hx2].
  - rewrite <- D. eauto.
Qed.

(** The demo repository after a clone of its directory lib. *)
Definition ex_sub : world := fst (get_head_object_id ex_env (bs "/demo/lib") ex_world).
Definition ex_child : ref_row := mkRef 2 (bs "/demo/lib") (bs "refs/heads/master" ++ [0]) (ok_text (snd (get_head_object_id ex_env (bs "/demo/lib") ex_world))).
Lemma ex_sub_refs : d_refs (w_db ex_sub) = [ex_ref; ex_child].
Proof. vm_compute. reflexivity. Qed.
Lemma ex_not_child : teq ex_env (r_ref_git_id ex_child) (to_plain_str (oid ex_top)) = false.
Proof. vm_compute. reflexivity. Qed.
Example C58_ex : exists objs, refs_table (w_db ex_sub) /\ no_failure ex_sub /\ d_refs (w_db ex_sub) = [] ++ ex_ref :: [ex_child] /\
  git_pack stored (get_hash_object ex_env ex_sub) (pack_of ex_full) objs /\ history (bs "/demo") (map snd objs) /\
  (forall x, In x ([] ++ [ex_child]) -> teq ex_env (r_ref_git_id x) (to_plain_str (oid ex_top)) = true -> teq ex_env (r_repo_path x) (bs "/demo") = true -> False) /\
  is_head ex_env (bs "/demo/lib") ex_child /\ r_repo_path ex_child = bs "/demo/lib" /\
  (forall x, In x (d_refs (w_db ex_sub)) -> is_head ex_env (bs "/demo/lib") x -> r_repo_path x = bs "/demo/lib" -> r_ref_git_id x = r_ref_git_id ex_child).
Proof.
  destruct (pack_of_git ex_full (get_hash_object ex_env ex_sub)) as (objs & G & E); [discriminate|reflexivity|apply (hs_sound _ _ ex_full_ok)|].
  exists objs. rewrite E, ex_sub_refs.
  split; [split; [rewrite ex_sub_refs; cbn; repeat constructor; cbn; intuition discriminate|intros r Hr; rewrite ex_sub_refs in Hr; destruct Hr as [<-|[<-|[]]]; vm_compute; reflexivity]|].
  split; [vm_compute; reflexivity|]. split; [reflexivity|]. split; [exact G|]. split; [exact ex_full_ok|].
  split; [intros x [<-|[]] K _; rewrite ex_not_child in K; discriminate K|]. split; [split; reflexivity|]. split; [reflexivity|].
  intros x [<-|[<-|[]]] _ K; [discriminate K|reflexivity].
Qed.

(** A second repository, /other, that also has a directory lib, with another file. *)
Definition ex_blob3 : object := (Blob, bs "other").
Definition ex_lib3 : object := (Tree, entry_of (bs "100644") (bs "b") ex_blob3).
Definition ex_root3 : object := (Tree, entry_of (bs "40000") (bs "lib") ex_lib3).
Definition ex_top3 : object := commit_on (oid ex_root3) [] (bs "third").
Definition ex_hist3 : list object := [ex_top3; ex_root3; ex_lib3; ex_blob3].
Definition ex_body3 : bytes := push_body (repeat 48 40) (to_plain_str (oid ex_top3)) (bs "refs/heads/master") ex_caps (pack_of ex_hist3).
Definition ex_world3 : world := fst (http_receive_pack ex_env Release stored 50 8 (bs "/other") ex_body3 ex_world).
Lemma ex_top3_root : commit_root (snd ex_top3) (oid ex_root3).
Proof. apply commit_on_root; [apply oid_ok, tree_base|constructor|apply utf8_spec; reflexivity]. Qed.
Lemma ex_root3_tree : git_tree [mkTreeItem (bs "40000") ITree (oid ex_lib3) (bs "lib")] (snd ex_root3).
Proof.
  change (snd ex_root3) with (entry_of (bs "40000") (bs "lib") ex_lib3). rewrite <- (app_nil_r (entry_of _ _ _)).
  apply entry_of_tree; [constructor|apply utf8_spec; reflexivity|intros H; repeat destruct H as [H|H]; try discriminate; contradiction|
    apply oid_ok, tree_base|constructor].
Qed.
Lemma ex_hist3_ok : history (bs "/other") ex_hist3.
Proof.
  apply history_check; [vm_compute; reflexivity|reflexivity| |].
  - intros d [E|[E|[E|[E|[]]]]]; try discriminate (f_equal fst E). exists (oid ex_root3).
    replace d with (snd ex_top3) by exact (f_equal snd E). exact ex_top3_root.
  - intros d [E|[E|[E|[E|[]]]]]; discriminate (f_equal fst E).
Qed.
Lemma two_pairs : forall A B (a a' x : A) (b b' y : B), In (x, y) [(a, b); (a', b')] -> x = a /\ y = b \/ x = a' /\ y = b'.
Proof. intros A B a a' x b b' y [E|[E|[]]]; injection E as -> ->; auto. Qed.
Lemma ex_rows3 : forallb (row_check (ex_hist ++ ex_hist3)) (d_nodes (w_db ex_world3)) = true.
Proof. vm_compute. reflexivity. Qed.
Lemma ex_commits3 : forallb (commit_check [(ex_top, oid ex_root); (ex_top3, oid ex_root3)]) (d_commits (w_db ex_world3)) = true.
Proof. vm_compute. reflexivity. Qed.
Lemma ex_world3_sound : sound_db (w_db ex_world3).
Proof.
  refine (db_check (ex_hist ++ ex_hist3) [(ex_top, oid ex_root); (ex_top3, oid ex_root3)] _ _ _ ex_rows3 ex_commits3).
  - apply Forall_app. split; [apply (hs_sound (bs "/demo")); apply ex_hist_ok; reflexivity|apply (hs_sound _ _ ex_hist3_ok)].
  - intros o h Hc. apply two_pairs in Hc as [[-> ->]|[-> ->]].
    + split; [left; reflexivity|]. split; [apply oid_ok, tree_base|exact ex_top_root].
    + split; [apply in_or_app; right; left; reflexivity|]. split; [apply oid_ok, tree_base|exact ex_top3_root].
Qed.
Definition ex_ref3 : ref_row := mkRef 2 (bs "/other") (bs "refs/heads/master" ++ [0]) (to_plain_str (oid ex_top3)).
Lemma ex_world3_refs : d_refs (w_db ex_world3) = [ex_ref; ex_ref3].
Proof. vm_compute. reflexivity. Qed.

(** A row of the table of commits that has the given id and tree. *)
Definition child_on (d : db) (id tree : bytes) : bool := existsb (fun r => beq (c_git_id r) id && beq (c_tree r) tree) (d_commits d).
Lemma child_row : forall d id tree, child_on d id tree = true -> exists r, In r (d_commits d) /\ c_git_id r = id /\ c_tree r = tree.
Proof.
  intros d id tree H. apply existsb_exists in H as (r & Hr & K). apply andb_true_iff in K as [K1 K2]. apply beq_eq in K1, K2. eauto.
Qed.
Lemma head_child : forall e path w tree (P : db -> bool),
  (let x := get_head_object_id e path w in
   is_ok (snd x) && child_on (w_db (fst x)) (ok_text (snd x)) tree && P (w_db (fst x))) = true ->
  exists w' id row, get_head_object_id e path w = (w', Ok id) /\ In row (d_commits (w_db w')) /\ c_git_id row = id /\ c_tree row = tree /\ P (w_db w') = true.
Proof.
  intros e path w tree P H. cbv zeta in H. destruct (get_head_object_id e path w) as [w' [id| | |]]; try discriminate H.
  cbn [fst snd is_ok ok_text andb] in H. apply andb_true_iff in H as [H1 H2]. apply child_row in H1 as (row & Hr & K1 & K2).
  exists w', id, row. auto.
Qed.
Theorem C58_other_tree_refuted : exists e w repo r top root items item w' id row,
  env_ok e /\ no_failure w /\ sound_db (w_db w) /\
  In r (d_refs (w_db w)) /\ r_repo_path r = repo /\ obj_id (Commit, top) (oid (Commit, top)) /\ r_ref_git_id r = to_plain_str (oid (Commit, top)) /\
  commit_root top (oid (Tree, root)) /\ git_tree items root /\ In item items /\ ti_filename item = bs "lib" /\ ti_type item = ITree /\
  get_head_object_id e (repo ++ bs "/lib") w = (w', Ok id) /\ In row (d_commits (w_db w')) /\ c_git_id row = id /\
  c_tree row <> to_plain_str (ti_id item).
Proof.
  destruct (head_child ex_env (bs "/other/lib") ex_world3 (to_plain_str (oid ex_lib)) (fun _ => true)) as (w' & id & row & E & Hr & K1 & K2 & _);
    [vm_compute; reflexivity|].
  exists ex_env, ex_world3, (bs "/other"), ex_ref3, (snd ex_top3), (snd ex_root3), [mkTreeItem (bs "40000") ITree (oid ex_lib3) (bs "lib")],
    (mkTreeItem (bs "40000") ITree (oid ex_lib3) (bs "lib")), w', id, row.
  split; [exact ex_env_ok|]. split; [vm_compute; reflexivity|]. split; [exact ex_world3_sound|].
  split; [rewrite ex_world3_refs; right; left; reflexivity|]. split; [reflexivity|].
  split; [change (Commit, snd ex_top3) with ex_top3; apply oid_id; pose proof (hs_sound _ _ ex_hist3_ok) as F; rewrite Forall_forall in F; apply F; left; reflexivity|].
  split; [reflexivity|]. split; [exact ex_top3_root|]. split; [exact ex_root3_tree|]. split; [left; reflexivity|]. split; [reflexivity|]. split; [reflexivity|].
  split; [exact E|]. split; [exact Hr|]. split; [exact K1|]. rewrite K2. cbn [ti_id]. apply beq_neq. vm_compute. reflexivity.
Qed.
(** A file asked for as if it were a directory: the commit served has a blob as its tree. *)
Theorem C58_file_as_tree_refuted : exists e w path w' id row n blob, env_ok e /\ no_failure w /\ sound_db (w_db w) /\
  get_head_object_id e path w = (w', Ok id) /\ In row (d_commits (w_db w')) /\ c_git_id row = id /\
  In n (d_nodes (w_db w')) /\ n_git_id n = c_tree row /\ node_for n (Blob, blob).
Proof.
  destruct (head_child ex_env (bs "/demo/README") ex_world (to_plain_str (oid ex_blob))
    (fun d => existsb (fun n => row_check [ex_blob] n && beq (n_git_id n) (to_plain_str (oid ex_blob))) (d_nodes d))) as (w' & id & row & E & Hr & K1 & K2 & Kn);
    [vm_compute; reflexivity|].
  apply existsb_exists in Kn as (n & Hn & Kn). apply andb_true_iff in Kn as [Kn1 Kn2]. apply beq_eq in Kn2.
  destruct (row_checked [ex_blob] n) with (2 := Kn1) as (o & Ho & Nf).
  { intros o [<-|[]]. apply ex_id_ok. do 3 right. left. reflexivity. }
  exists ex_env, ex_world, (bs "/demo/README"), w', id, row, n, (snd ex_blob).
  split; [exact ex_env_ok|]. split; [exact ex_world_quiet|]. split; [exact ex_world_sound|]. split; [exact E|]. split; [exact Hr|]. split; [exact K1|].
  split; [exact Hn|]. split; [rewrite K2; exact Kn2|]. destruct Ho as [<-|[]]. exact Nf.
Qed.

(** ** C59: stopping in the middle of a push *)

(** [w_log] has the state of the database after each statement. *)
Theorem C59_crash : forall e m c now path old new name caps body pack objs w,
  env_ok e -> no_failure w -> word old -> word new -> word name -> utf8_text caps ->
  push_request old new name caps pack body ->
  git_pack c (get_hash_object e w) pack objs -> nlen pack < 2 ^ 32 -> history path (map snd objs) ->
  refs_table (w_db w) -> refs_stored (w_db w) ->
  (has_commit (w_db w) new \/ exists d h, In (Commit, d) (map snd objs) /\ obj_id (Commit, d) h /\ lower_hex new h) ->
  exists fuel0 w' r states, (forall fuel, (fuel0 <= fuel)%nat -> http_receive_pack e m c fuel now path body w = (w', r)) /\
    w_log w' = w_log w ++ states /\ w_db w' = last states (w_db w) /\ forall d, In d states -> refs_stored d.
Proof.
  intros e m c now path old new name caps body pack objs w He Q Ho Hn Hm Hc Rq G Hl [H1 H2 H3 H4 H5] T St Hi.
  destruct (first_run e m c now path old new name caps pack body Ho Hn Hm Hc Rq) as (cl & _ & E).
  destruct (receive_crash e m c now (mkProto Http path None cl [ref_command_new old new (name ++ [0])]) [] (ref_command_new old new (name ++ [0])) pack [] objs w
    He Q eq_refl G Hl H1 H2 H3 H4 H5 T St Hi) as (fuel0 & w' & r & l & K & A). rewrite app_nil_r in K.
  exists fuel0, w'. destruct r as [[pp reply]|er| |].
  - exists (Ok reply), l. split; [|exact A]. intros fuel Hf. rewrite E. unfold mbind. rewrite (K fuel Hf). reflexivity.
  - exists (Err er), l. split; [|exact A]. intros fuel Hf. rewrite E. unfold mbind. rewrite (K fuel Hf). reflexivity.
  - exists Panic, l. split; [|exact A]. intros fuel Hf. rewrite E. unfold mbind. rewrite (K fuel Hf). reflexivity.
  - exists OutOfFuel, l. split; [|exact A]. intros fuel Hf. rewrite E. unfold mbind. rewrite (K fuel Hf). reflexivity.
Qed.
Example C59_ex : refs_table (w_db ex_world) /\ refs_stored (w_db ex_world) /\ d_refs (w_db ex_world) <> [] /\
  exists objs, git_pack stored (get_hash_object ex_env ex_world) (pack_of ex_full) objs /\ history (bs "/demo") (map snd objs) /\
    exists d h, In (Commit, d) (map snd objs) /\ obj_id (Commit, d) h /\ lower_hex (to_plain_str (oid ex_second)) h.
Proof.
  destruct C46_update_ex as (objs & _ & G & _ & H & T & _ & I2 & _). split; [exact T|]. split; [exact ex_world_stored|].
  split; [rewrite ex_world_refs; discriminate|].
  destruct (pack_of_git ex_full (get_hash_object ex_env ex_world)) as (objs' & G' & E'); [discriminate|reflexivity|apply (hs_sound _ _ ex_full_ok)|].
  exists objs'. rewrite E'. split; [exact G'|]. split; [exact ex_full_ok|]. exists (snd ex_second), (oid ex_second). split; [left; reflexivity|].
  split; [|apply plain_lower; exact I2]. change (Commit, snd ex_second) with ex_second. apply oid_id. pose proof (hs_sound _ _ ex_full_ok) as F.
  rewrite Forall_forall in F. apply F. left. reflexivity.
Qed.
(** The id in the command is not checked: a push can leave a reference to nothing. *)
Definition ex_bad : bytes := push_body (repeat 48 40) (repeat 49 40) (bs "refs/heads/master") ex_caps (pack_of ex_hist).
Definition ex_bad_world : world := fst (http_receive_pack ex_env Release stored 50 7 (bs "/demo") ex_bad (world_of db_empty)).
Theorem C59_unknown_commit_refuted : exists e m c fuel now path body w w' reply r, env_ok e /\ codec_ok c /\ w_db w = db_empty /\ no_failure w /\
  http_receive_pack e m c fuel now path body w = (w', Ok reply) /\ In r (d_refs (w_db w')) /\ ~ has_commit (w_db w') (r_ref_git_id r).
Proof.
  destruct (ok_run _ (http_receive_pack ex_env Release stored 50 7 (bs "/demo") ex_bad) (world_of db_empty)) as (reply & E); [vm_compute; reflexivity|].
  exists ex_env, Release, stored, 50%nat, 7, (bs "/demo"), ex_bad, (world_of db_empty), ex_bad_world, reply, (mkRef 1 (bs "/demo") (bs "refs/heads/master" ++ [0]) (repeat 49 40)).
  split; [exact ex_env_ok|]. split; [exact stored_ok|]. split; [reflexivity|]. split; [reflexivity|]. split; [exact E|].
  assert (Er : d_refs (w_db ex_bad_world) = [mkRef 1 (bs "/demo") (bs "refs/heads/master" ++ [0]) (repeat 49 40)]) by (vm_compute; reflexivity).
  split; [rewrite Er; left; reflexivity|]. intros (row & d & tid & n & t & Hr & Eg & _).
  assert (K : existsb (fun r => beq (c_git_id r) (repeat 49 40)) (d_commits (w_db ex_bad_world)) = false) by (vm_compute; reflexivity).
  assert (K2 : existsb (fun r => beq (c_git_id r) (repeat 49 40)) (d_commits (w_db ex_bad_world)) = true).
  { apply existsb_exists. exists row. split; [exact Hr|]. apply beq_eq. exact Eg. }
  rewrite K in K2. discriminate.
Qed.

(** ** C60: failed writes *)

(** The outcome of the statements that store commits and references is ignored. *)
Theorem C60_errors_ignored : forall path cs cmd w, (exists w', save_commits path cs w = (w', Ok tt)) /\ (exists w', save_refs cmd path w = (w', Ok tt)).
Proof. intros path cs cmd w. split; [apply save_commits_any|apply insert_all_any]. Qed.
(** A push during which the second statement fails, as on a lost connection. *)
Definition ex_failing : world := mkWorld db_empty [] [false; true] 0 [].
Local Notation ex_push := (http_receive_pack ex_env Release stored 50 7 (bs "/demo") ex_body).
Definition ex_reply : bytes := report [ReportStatus; SideBand64k] [cmd_unpacked (ref_command_new (repeat 48 40) (to_plain_str (oid ex_top)) (bs "refs/heads/master" ++ [0])) None].
Lemma failed_run : forall (m : M bytes) w a v, beq (ok_text (snd (m w))) a && is_ok (snd (m w)) = true ->
  d_commits (w_db (fst (m w))) = [] -> d_refs (w_db (fst (m w))) = v ->
  exists w', m w = (w', Ok a) /\ d_commits (w_db w') = [] /\ d_refs (w_db w') = v.
Proof.
  intros m w a v H. destruct (m w) as [w' [x| | |]]; try (rewrite andb_false_r in H; discriminate H). cbn [snd fst ok_text is_ok] in *.
  rewrite andb_true_r in H. apply beq_eq in H. subst a. intros A B. exists w'. auto.
Qed.
Lemma ex_failed_reply : beq (ok_text (snd (ex_push ex_failing))) ex_reply && is_ok (snd (ex_push ex_failing)) = true.
Proof. vm_compute. reflexivity. Qed.
Lemma ex_failed_commits : d_commits (w_db (fst (ex_push ex_failing))) = [].
Proof. vm_compute. reflexivity. Qed.
Lemma ex_failed_refs : d_refs (w_db (fst (ex_push ex_failing))) = [ex_ref].
Proof. vm_compute. reflexivity. Qed.
Lemma ex_failed_run : exists w', ex_push ex_failing = (w', Ok ex_reply) /\
  d_commits (w_db w') = [] /\ d_refs (w_db w') = [ex_ref].
Proof. exact (failed_run ex_push ex_failing ex_reply [ex_ref] ex_failed_reply ex_failed_commits ex_failed_refs). Qed.
Theorem C60_reported_ok_refuted : exists e m c fuel now path body w w' reply cl name r, env_ok e /\ codec_ok c /\ w_db w = db_empty /\
  http_receive_pack e m c fuel now path body w = (w', Ok reply) /\ status_reply cl [bs "ok " ++ name ++ [0]] reply /\
  d_commits (w_db w') = [] /\ In r (d_refs (w_db w')) /\ ~ has_commit (w_db w') (r_ref_git_id r).
Proof.
  destruct ex_failed_run as (w' & E & Dc & Dr).
  exists ex_env, Release, stored, 50%nat, 7, (bs "/demo"), ex_body, ex_failing, w', ex_reply, [ReportStatus; SideBand64k], (bs "refs/heads/master"), ex_ref.
  split; [exact ex_env_ok|]. split; [exact stored_ok|]. split; [reflexivity|]. split; [exact E|].
  split; [apply status_ok; vm_compute; discriminate|]. split; [exact Dc|]. split; [rewrite Dr; left; reflexivity|].
  intros (row & d & tid & n & t & Hr & _). rewrite Dc in Hr. destruct Hr.
Qed.

(** ** C72: pushes at the same time *)

(** The steps of push [i] in [l] come in the order of the program. *)
Definition in_order (l : list (nat * file_step)) : Prop :=
  forall i, exists rest, map snd (filter (fun x => Nat.eqb (fst x) i) l) ++ rest = [FWrite; FRead; FRemove].
Definition reads (l : list (nat * file_step)) : list nat := map fst (filter (fun x => match snd x with FRead => true | _ => false end) l).
Lemma temp_inj : forall a b, temp_path a = temp_path b -> a = b.
Proof.
  intros a b H. apply to_decimal_inj. unfold temp_path in H. injection H as H. exact (app_inv_tail _ _ _ H).
Qed.
Definition on_disk (todo : list file_step) (b : bytes) : option bytes := match todo with [FRead; FRemove] | [FRemove] => Some b | _ => None end.
Lemma steps_run : forall now body (S : nat -> Prop) l todo w, (forall i j, S i -> S j -> now i = now j -> i = j) ->
  (forall x, In x l -> S (fst x)) -> (forall i, exists pre, pre ++ todo i = [FWrite; FRead; FRemove]) ->
  (forall i, exists rest, map snd (filter (fun x => Nat.eqb (fst x) i) l) ++ rest = todo i) ->
  (forall i, S i -> fs_get (w_files w) (temp_path (now i)) = on_disk (todo i) (body i)) ->
  exists w', run_steps now body l w = (w', Ok (map (fun i => (i, body i)) (reads l))).
Proof.
  intros now body S l. induction l as [|[i s] l IH]; intros todo w Hd Hs Hp Ho Hf; [exists w; reflexivity|].
  assert (Hsi : S i) by exact (Hs (i, s) (or_introl eq_refl)).
  assert (Hst : exists r, todo i = s :: r).
  { destruct (Ho i) as (rest & E). cbn [filter map fst] in E. rewrite Nat.eqb_refl in E. cbn [map snd app] in E. eexists. symmetry. exact E. }
  destruct Hst as (r & Er). pose proof (Hf i Hsi) as Fi. rewrite Er in Fi.
  set (todo' := fun j => if Nat.eqb j i then r else todo j).
  assert (Hp' : forall j, exists pre, pre ++ todo' j = [FWrite; FRead; FRemove]).
  { intros j. unfold todo'. destruct (Nat.eqb j i); [|apply Hp]. destruct (Hp i) as (pre & E). rewrite Er in E. exists (pre ++ [s]).
    rewrite <- app_assoc. exact E. }
  assert (Ho' : forall j, exists rest, map snd (filter (fun x => Nat.eqb (fst x) j) l) ++ rest = todo' j).
  { intros j. unfold todo'. destruct (Ho j) as (rest & E). cbn [filter fst] in E. exists rest.
    destruct (Nat.eqb j i) eqn:B.
    - apply Nat.eqb_eq in B. subst j. rewrite Nat.eqb_refl in E. cbn [map snd app] in E. rewrite Er in E. injection E as E. exact E.
    - rewrite Nat.eqb_sym, B in E. exact E. }
  assert (Hq : forall j, S j -> Nat.eqb j i = false -> temp_path (now j) <> temp_path (now i)).
  { intros j Hj B E. apply temp_inj in E. apply (Hd j i Hj Hsi) in E. apply Nat.eqb_neq in B. exact (B E). }
  assert (Hs' : forall x, In x l -> S (fst x)) by (intros x Hx; apply Hs; right; exact Hx).
  assert (Shape : (s = FWrite /\ r = [FRead; FRemove]) \/ (s = FRead /\ r = [FRemove]) \/ (s = FRemove /\ r = [])).
  { destruct (Hp i) as (pre & E). rewrite Er in E. destruct pre as [|a [|b [|c pre]]]; cbn [app] in E; injection E; intros; subst; auto.
    destruct pre; discriminate. }
  cbn [run_steps]. destruct Shape as [[-> ->]|[[-> ->]|[-> ->]]]; cbn [on_disk] in Fi; unfold run_step, mbind, ret, write_temp, read_temp, remove_temp; rewrite Fi; cbn [unwrap_opt].
  - rewrite skipn_nil, app_nil_r.
    destruct (IH todo' (mkWorld (w_db w) (w_log w) (w_fails w) (w_tick w) (fs_put (w_files w) (temp_path (now i)) (body i))) Hd Hs' Hp' Ho') as (w' & E).
    { intros j Hj. cbn [w_files]. unfold todo'. destruct (Nat.eqb j i) eqn:B.
      - apply Nat.eqb_eq in B. subst j. apply fs_get_put_same.
      - rewrite (fs_get_put_other _ _ _ _ (Hq j Hj B)). apply Hf, Hj. }
    exists w'. rewrite E. reflexivity.
  - destruct (IH todo' w Hd Hs' Hp' Ho') as (w' & E).
    { intros j Hj. unfold todo'. destruct (Nat.eqb j i) eqn:B; [apply Nat.eqb_eq in B; subst j; exact Fi|apply Hf, Hj]. }
    exists w'. rewrite E. reflexivity.
  - destruct (IH todo' (mkWorld (w_db w) (w_log w) (w_fails w) (w_tick w) (fs_remove (w_files w) (temp_path (now i)))) Hd Hs' Hp' Ho') as (w' & E).
    { intros j Hj. cbn [w_files]. unfold todo'. destruct (Nat.eqb j i) eqn:B.
      - apply Nat.eqb_eq in B. subst j. apply fs_get_remove_same.
      - rewrite (fs_get_remove_other _ _ _ (Hq j Hj B)). apply Hf, Hj. }
    exists w'. rewrite E. reflexivity.
Qed.
(** Any number of pushes, in any interleaving, in pairwise different seconds: no step
    fails and each push reads back its own body. *)
Theorem C72_different_seconds : forall now body l w, in_order l ->
  (forall i j, In i (map fst l) -> In j (map fst l) -> now i = now j -> i = j) ->
  (forall i, In i (map fst l) -> fs_get (w_files w) (temp_path (now i)) = None) ->
  exists w', run_steps now body l w = (w', Ok (map (fun i => (i, body i)) (reads l))).
Proof.
  intros now body l w Ho Hd Hf. apply (steps_run now body (fun i => In i (map fst l)) l (fun _ => [FWrite; FRead; FRemove]) w Hd).
  - intros x Hx. apply in_map, Hx.
  - intros i. exists []. reflexivity.
  - exact Ho.
  - exact Hf.
Qed.
Definition ex_steps : list (nat * file_step) := [(0, FWrite); (1, FWrite); (0, FRead); (1, FRead); (1, FRemove); (0, FRemove)]%nat.
Definition ex_bodies (i : nat) : bytes := match i with O => bs "PACK one" | _ => bs "PACK other" end.
Lemma ex_steps_order : in_order ex_steps.
Proof. intros [|[|i]]; [exists []; reflexivity|exists []; reflexivity|exists [FWrite; FRead; FRemove]; reflexivity]. Qed.
Example C72_ex : in_order ex_steps /\ (forall i j, In i (map fst ex_steps) -> In j (map fst ex_steps) -> N.of_nat i = N.of_nat j -> i = j) /\
  snd (run_steps N.of_nat ex_bodies ex_steps (world_of db_empty)) = Ok [(0%nat, bs "PACK one"); (1%nat, bs "PACK other")].
Proof. split; [exact ex_steps_order|]. split; [intros i j _ _; apply Nat2N.inj|reflexivity]. Qed.
(** In the same second one push reads the body of the other, and a push fails. *)
Theorem C72_same_second_refuted : exists now body l w i b w' r, in_order l /\ w_files w = [] /\ run_steps now body l w = (w', Ok r) /\
  In (i, b) r /\ b <> body i.
Proof.
  exists (fun _ => 7), ex_bodies, [(0, FWrite); (1, FWrite); (0, FRead)]%nat, (world_of db_empty), 0%nat, (bs "PACK other").
  eexists. eexists. split; [|split; [reflexivity|split; [reflexivity|split; [left; reflexivity|discriminate]]]].
  intros [|[|i]]; eexists; reflexivity.
Qed.
Theorem C72_same_second_panic_refuted : exists now body l w w', in_order l /\ w_files w = [] /\ run_steps now body l w = (w', Panic).
Proof.
  exists (fun _ => 7), ex_bodies, ex_steps, (world_of db_empty). eexists. split; [exact ex_steps_order|]. split; reflexivity.
Qed.
(** A file that an earlier push left behind is not truncated: a shorter pack written over
    it is read back with the rest of the old file after it. *)
Theorem C72_leftover : forall now body old w, fs_get (w_files w) (temp_path now) = Some old ->
  exists w', run_steps (fun _ => now) (fun _ => body) [(0, FWrite); (0, FRead)]%nat w = (w', Ok [(0%nat, body ++ skipn (length body) old)]).
Proof.
  intros now body old w E. eexists. cbn [run_steps]. unfold run_step, mbind, ret, write_temp, read_temp. rewrite E. cbn [w_files].
  rewrite fs_get_put_same. cbn [unwrap_opt app]. reflexivity.
Qed.

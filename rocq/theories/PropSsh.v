(** C101-C105: sessions over SSH, packs that are cut short. *)

From Coq Require Import Permutation.
From Verif Require Import Base BaseLemmas Digest ModelUtils ModelObject ModelBase ModelPack ModelDecode ModelPkt ModelStorage ModelProto ModelLfs ModelGateway ModelService
  StoredZlib SpecObject SpecIdx SpecBase SpecPack SpecPkt SpecStorage SpecProto SpecService ProofObject ProofUtf8 ProofBase ProofPack ProofShort ProofPkt ProofReq
  ProofEncode ProofNodes ProofStorage ProofPush ProofClone ProofRepo ProofRefs ProofSession ProofGraph ProofExample ProofService PropPkt PropStorage PropProto PropGateway PropService.
Open Scope N_scope.

(** ** C101: the answer to the command *)

(** git-upload-pack '/name.git' *)
Definition ssh_line (s : service) (name : bytes) : bytes := service_text s ++ bs " '/" ++ name ++ bs ".git'".
(** What is stored of the references of a repository is text. *)
Definition text_refs (l : list ref_row) : Prop := forall r, In r l ->
  utf8_text (r_ref_git_id r) /\ utf8_text (r_ref_name r) /\ nlen (r_ref_git_id r) <= 160 /\ nlen (r_ref_name r) <= 128.

Lemma open_run : forall e s name w, ~ In 32 name -> utf8_text name ->
  ssh_command e (ssh_line s name) w =
    (let! reply := git_info_refs e (mkProto Ssh name (Some s) [] []) in
     let! _ := lift (utf8_unwrap reply) in ret (mkProto Ssh name (Some s) [] [], reply)) w.
Proof.
  intros e s name w Hn Ht. unfold ssh_command, ssh_line.
  change (bs " '/" ++ name ++ bs ".git'") with (32 :: [39; 47] ++ name ++ bs ".git'").
  assert (Hs : ~ In 32 (service_text s)) by (destruct s; vm_compute; intuition discriminate).
  assert (Hq : ~ In 32 ([39; 47] ++ name ++ bs ".git'")).
  { intros K. apply in_app_or in K as [K|K]; [vm_compute in K; intuition discriminate|]. apply in_app_or in K as [K|K]; [exact (Hn K)|vm_compute in K; intuition discriminate]. }
  rewrite split_two by assumption. cbn [nth_error unwrap_opt hd]. unfold lift at 1, mbind at 1.
  destruct (Nat.ltb_spec (length ([39; 47] ++ name ++ bs ".git'")) 5) as [L|_]; [rewrite !app_length in L; cbn [length bs] in L; lia|].
  unfold lift at 1, mbind at 1. rewrite ssh_slice by reflexivity. unfold lift at 1, mbind at 1. rewrite utf8_unwrap_text by exact Ht.
  unfold lift at 1, mbind at 1. assert (P : proto_new name (service_text s) Ssh = Ok (mkProto Ssh name (Some s) [] [])) by (destruct s; reflexivity).
  rewrite P. reflexivity.
Qed.

Lemma text_app : forall a b, utf8_text a -> utf8_text b -> utf8_text (a ++ b).
Proof. intros a b (x & Fx & ->) (y & Fy & ->). exists (x ++ y). split; [apply Forall_app; auto|]. rewrite flat_map_app. reflexivity. Qed.
Lemma ascii_utf8 : forall l, forallb (fun x => x <? 128) l = true -> utf8_text l.
Proof. intros l H. apply utf8_text_ascii. apply Forall_forall. intros x Hx. rewrite forallb_forall in H. apply N.ltb_lt, H, Hx. Qed.
Lemma lines_text : forall ps s, pkt_lines ps s -> Forall utf8_text ps -> utf8_text s.
Proof.
  induction 1 as [|p b ps s Hp _ IH]; intros F; [apply ascii_utf8; reflexivity|]. inversion F as [|? ? F1 F2]; subst.
  apply text_app; [|auto]. destruct Hp as (h & Lh & Hh & ->). apply text_app; [|exact F1]. apply utf8_text_ascii, (length_field_ascii h (nlen p + 4)). left. auto.
Qed.
Lemma advert_text : forall s head refs out, advert false s head refs out -> utf8_text head ->
  (forall i n, In (i, n) refs -> utf8_text i /\ utf8_text n) -> utf8_text out.
Proof.
  intros s head refs out (top & lines & _ & Ht & Hl & ->) Hh Hr. rewrite (Ht eq_refl). cbn [app].
  apply text_app; [|apply ascii_utf8; reflexivity]. apply (lines_text _ _ Hl). constructor.
  - unfold head_line. destruct (beq head _); (apply text_app; [exact Hh|destruct s; apply ascii_utf8; vm_compute; reflexivity]).
  - apply Forall_forall. intros x Hx. apply in_map_iff in Hx as ([i n] & <- & Hx). destruct (Hr i n Hx) as [A B]. unfold ref_line. cbn [fst snd].
    apply text_app; [exact A|]. apply text_app; [apply ascii_utf8; reflexivity|]. apply text_app; [exact B|apply ascii_utf8; reflexivity].
Qed.
Lemma listing_refs : forall e d path l, text_refs (refs_at e d path) -> listing (refs_at e d path) l ->
  Forall (fun x => nlen (ref_line x) <= 65531) l /\ forall i n, In (i, n) l -> utf8_text i /\ utf8_text n.
Proof.
  intros e d path l Tr (_ & L & _). split.
  - apply Forall_forall. intros [i n] H. destruct (L i n H) as (r & Hr & <- & <-). destruct (Tr r Hr) as (_ & _ & A & B).
    unfold ref_line. rewrite !nlen_app. cbn [fst snd]. assert (nlen (bs " ") + nlen [10] = 2) by reflexivity. lia.
  - intros i n H. destruct (L i n H) as (r & Hr & <- & <-). destruct (Tr r Hr) as (A & B & _). auto.
Qed.
Lemma greet_run : forall e s name w w1 head, env_ok e -> ~ In 32 name -> utf8_text name ->
  get_head_object_id e name w = (w1, Ok head) -> no_failure w1 -> nlen head <= 160 -> utf8_text head -> text_refs (refs_at e (w_db w1) name) ->
  exists w' out refs, ssh_command e (ssh_line s name) w = (w', Ok (mkProto Ssh name (Some s) [] [], out)) /\ w_db w' = w_db w1 /\ w_log w' = w_log w1 /\
    no_failure w' /\ w_files w' = w_files w1 /\ advert false s head refs out /\ listing (refs_at e (w_db w1) name) refs.
Proof.
  intros e s name w w1 head He Hn Ht E Q Lh Th Tr. destruct (refs_listed e name w1 He Q) as (w' & l & E2 & M & L).
  destruct (listing_refs _ _ _ _ Tr L) as [Ls Lt].
  assert (A : advert false s head l (info_refs Ssh s head l)) by (apply (advert_ok Ssh); [apply head_line_short; exact Lh|exact Ls]).
  exists w', (info_refs Ssh s head l), l. split.
  - rewrite open_run by assumption. unfold git_info_refs. cbn [pp_service pp_path pp_protocol]. unfold lift at 1. cbn [unwrap_opt].
    unfold mbind at 1. unfold mbind at 1. rewrite (mbind_ok _ _ _ _ _ _ _ E), (mbind_ok _ _ _ _ _ _ _ E2). cbn [ret].
    unfold lift, mbind. rewrite utf8_unwrap_text; [reflexivity|]. exact (advert_text _ _ _ _ A Th Lt).
  - split; [exact (mv_db _ _ _ M)|]. split; [rewrite (mv_log _ _ _ M); apply app_nil_r|]. split; [exact (mv_quiet _ _ _ M)|].
    split; [exact (mv_files _ _ _ M)|]. auto.
Qed.

(** A name under which there is nothing: the client is told that there are no references. *)
Theorem C101_new : forall e s name w, env_ok e -> no_failure w -> ~ In 32 name -> utf8_text name ->
  (forall r, In r (d_refs (w_db w)) -> ~ is_head e name r) -> refs_at e (w_db w) name = [] ->
  exists w' out, ssh_command e (ssh_line s name) w = (w', Ok (mkProto Ssh name (Some s) [] [], out)) /\ w_db w' = w_db w /\ w_log w' = w_log w /\
    no_failure w' /\ advert false s (repeat 48 40) [] out.
Proof.
  intros e s name w He Q Hn Ht No Nr. destruct (head_none e name w He Q No) as (w1 & E & D & L & Q1).
  destruct (greet_run e s name w w1 _ He Hn Ht E Q1) as (w' & out & refs & A & B & C & Q2 & _ & K & Li);
    [vm_compute; discriminate|apply ascii_utf8; reflexivity|rewrite D, Nr; intros r []|].
  exists w', out. rewrite D in B, Li. rewrite L in C. split; [exact A|]. split; [exact B|]. split; [exact C|]. split; [exact Q2|].
  destruct refs as [|[i n] refs]; [exact K|]. destruct Li as (_ & Li & _). destruct (Li i n (or_introl eq_refl)) as (r & Hr & _). rewrite Nr in Hr. destruct Hr.
Qed.
(** A repository with a master reference: its id and the references. *)
Theorem C101_repository : forall e s name w r, env_ok e -> no_failure w -> ~ In 32 name -> utf8_text name -> text_refs (refs_at e (w_db w) name) ->
  In r (d_refs (w_db w)) -> is_head e name r -> r_repo_path r = name ->
  (forall x, In x (d_refs (w_db w)) -> is_head e name x -> r_repo_path x = name -> r_ref_git_id x = r_ref_git_id r) ->
  exists w' out refs, ssh_command e (ssh_line s name) w = (w', Ok (mkProto Ssh name (Some s) [] [], out)) /\ w_db w' = w_db w /\ w_log w' = w_log w /\
    no_failure w' /\ advert false s (r_ref_git_id r) refs out /\ listing (refs_at e (w_db w) name) refs.
Proof.
  intros e s name w r He Q Hn Ht Tr Hr Hh Hp Uq. destruct (head_stored_quiet e _ w r He Q Hr Hh Hp Uq) as (w1 & E & D & L & Q1).
  assert (Ir : In r (refs_at e (w_db w) name)) by (apply filter_In; split; [exact Hr|rewrite Hp; apply He]).
  destruct (Tr r Ir) as (T1 & _ & T3 & _).
  destruct (greet_run e s name w w1 _ He Hn Ht E Q1 T3 T1) as (w' & out & refs & A & B & C & Q2 & _ & K & Li); [rewrite D; exact Tr|].
  exists w', out, refs. rewrite D in B, Li. rewrite L in C. auto 10.
Qed.

(** ** C102: a push *)

(** The packet with the command: its line and a flush. *)
Definition push_line (old new name caps body : bytes) : Prop := push_request old new name caps [] body.

Lemma ssh_push_one : forall e m c cut now path old new name caps line pack objs w,
  env_ok e -> no_failure w -> word old -> word new -> word name -> nlen name <= 60000 -> utf8_text caps ->
  push_line old new name caps line ->
  git_pack c (get_hash_object e w) pack objs -> nlen pack < 2 ^ 32 -> history path (map snd objs) ->
  exists fuel0 w1 rows crows cl, caps_in caps cl /\ no_failure w1 /\
    w_db w1 = with_rows (w_db w) rows crows /\ rows_for path (map snd objs) rows crows /\
    (forall w2, handle_refs e (cmd_unpacked (ref_command_new old new (name ++ [0])) None) path w1 = (w2, Panic) ->
     forall fuel, (fuel0 <= fuel)%nat -> ssh_session e m c fuel cut now (mkProto Ssh path (Some ReceivePack) [] []) [line; pack] w = (w2, Panic)) /\
    forall w2, handle_refs e (cmd_unpacked (ref_command_new old new (name ++ [0])) None) path w1 = (w2, Ok tt) -> w_files w2 = w_files w1 ->
    exists w' pp' reply, w_db w' = w_db w2 /\ w_fails w' = w_fails w2 /\ status_reply cl [bs "ok " ++ name ++ [0]] reply /\
      forall fuel, (fuel0 <= fuel)%nat -> ssh_session e m c fuel cut now (mkProto Ssh path (Some ReceivePack) [] []) [line; pack] w = (w', Ok (pp', reply)).
Proof.
  intros e m c cut now path old new name caps line pack objs w He Q Ho Hn Hm Lm Hc (b & Hb & ->) G Hl [H1 H2 H3 H4 H5].
  assert (Hp : parse_ref_update (old ++ [32] ++ new ++ [32] ++ name ++ [0; 32] ++ caps) = Ok (ref_command_new old new (name ++ [0]), caps)).
  { exact (parse_first old new name caps Ho Hn Hm). }
  set (cmd := ref_command_new old new (name ++ [0])) in *. set (cl := parse_capabilities [] caps).
  destruct (receive_run e m c (now 0%nat) (mkProto Ssh path (Some ReceivePack) cl [cmd]) [] cmd pack [] objs w He Q eq_refl G Hl H3 H1 H2 H4 H5)
    as (fuel0 & w1 & l & rows & crows & _ & _ & Q1 & W1 & Rf & _ & Ep & Ek). rewrite app_nil_r in Ep, Ek.
  exists fuel0, w1, rows, crows, cl. split; [intros x; unfold cl; rewrite parse_capabilities_spec; cbn [In]; tauto|]. split; [exact Q1|]. split; [exact W1|]. split; [exact Rf|]. split.
  { intros w2 E2 fuel Hf. cbn [ssh_session length]. unfold ssh_data at 1. cbn [pp_service].
    rewrite (mbind_ok _ _ _ _ _ _ _ (command_run e m c fuel (now 1%nat) (mkProto Ssh path (Some ReceivePack) [] []) _ _ caps b flush [] w Hb Hp Hc eq_refl)).
    unfold ssh_data. cbn [pp_service pp_protocol pp_path pp_caps pp_cmds app]. fold cl. unfold mbind. rewrite (Ep w2 E2 fuel Hf). reflexivity. }
  intros w2 E2 F2. destruct (Ek w2 E2 F2) as (w3 & D3 & _ & Q3 & _ & _ & Eq). exists w3. eexists. eexists.
  split; [exact D3|]. split; [exact Q3|]. split.
  2:{ intros fuel Hf. cbn [ssh_session length]. unfold ssh_data at 1. cbn [pp_service].
      rewrite (mbind_ok _ _ _ _ _ _ _ (command_run e m c fuel (now 1%nat) (mkProto Ssh path (Some ReceivePack) [] []) _ _ caps b flush [] w Hb Hp Hc eq_refl)).
      unfold ssh_data. cbn [pp_service pp_protocol pp_path pp_caps pp_cmds app]. fold cl. unfold mbind. rewrite (Eq fuel Hf). cbn [ret app]. reflexivity. }
  rewrite app_nil_r. exact (status_ok cl old new name Lm).
Qed.

Lemma session_serve : forall e m c fuel cut now s path packets w0 w pp adv w' pp' reply,
  ssh_command e (ssh_line s path) w0 = (w, Ok (pp, adv)) -> ssh_session e m c fuel cut now pp packets w = (w', Ok (pp', reply)) ->
  serve e m c fuel cut (QSsh now (ssh_line s path) packets) w0 = (w', Ok (adv ++ reply)).
Proof. intros. unfold serve. unfold mbind at 1. rewrite H. unfold mbind. rewrite H0. reflexivity. Qed.
Lemma name_short : forall name k, text_len name k -> (k <= 31)%nat -> nlen name <= 60000.
Proof.
  intros name k (cs & Fs & -> & Ec) Lk. assert (B : (length (flat_map utf8_char cs) <= 4 * length cs)%nat).
  { clear. induction cs as [|x cs IH]; [cbn; lia|]. cbn [flat_map]. rewrite app_length. cbn [length].
    assert (length (utf8_char x) <= 4)%nat; [|lia]. unfold utf8_char. repeat destruct (_ <? _); cbn [length]; lia. }
  unfold nlen. rewrite Ec in B. lia.
Qed.

(** The command in one packet, the pack in the next: the same as over HTTP (C46). [w] is
    the state after the greeting (C101). *)
Theorem C102_create : forall e m c cut now path new h name caps line pack objs w0 w adv,
  ssh_command e (ssh_line ReceivePack path) w0 = (w, Ok (mkProto Ssh path (Some ReceivePack) [] [], adv)) ->
  env_ok e -> no_failure w -> id_ok h -> lower_hex new h -> word name -> utf8_text caps ->
  (exists k, text_len name k /\ (k <= 31)%nat) -> (exists k, text_len path k /\ (k <= 64)%nat) ->
  push_line (repeat 48 40) new name caps line ->
  git_pack c (get_hash_object e w) pack objs -> nlen pack < 2 ^ 32 -> history path (map snd objs) ->
  exists fuel0 w' reply rows crows cl, caps_in caps cl /\ status_reply cl [bs "ok " ++ name ++ [0]] reply /\
    rows_for path (map snd objs) rows crows /\
    w_db w' = mkDb (d_nodes (w_db w) ++ rows) (d_commits (w_db w) ++ crows)
                   (d_refs (w_db w) ++ [mkRef (d_next_ref (w_db w)) path (name ++ [0]) new]) (d_next_ref (w_db w) + 1) /\
    no_failure w' /\
    forall fuel, (fuel0 <= fuel)%nat -> serve e m c fuel cut (QSsh now (ssh_line ReceivePack path) [line; pack]) w0 = (w', Ok (adv ++ reply)).
Proof.
  intros e m c cut now path new h name caps line pack objs w0 w adv E0 He Q Hh Hx Hm Hc (k & Tk & Lk) (k' & Tp & Lp) Rq G Hl Hs.
  destruct (ssh_push_one e m c cut now path _ new name caps line pack objs w He Q zero_word (hex_word _ _ Hx Hh) Hm (name_short _ _ Tk Lk) Hc Rq G Hl Hs)
    as (fuel0 & w1 & rows & crows & cl & Hcl & Q1 & W1 & Rf & _ & K).
  destruct (create_run (cmd_unpacked (ref_command_new (repeat 48 40) new (name ++ [0])) None) path w1 Q1) as (w2 & E2 & M2 & D2).
  { unfold ref_fits, cmd_unpacked, ref_command_new. cbn [r_repo_path r_ref_name r_ref_git_id rc_ref_name rc_new_id].
    assert (V1 : varchar 64 path = true) by (apply N.leb_le; rewrite (chars_text _ _ Tp); lia).
    assert (V2 : varchar 32 (name ++ [0]) = true) by (apply N.leb_le; rewrite chars_app, (chars_text _ _ Tk); change (chars [0]) with 1; lia).
    assert (V3 : varchar 40 new = true) by (apply N.leb_le; rewrite (lower_hex_plain _ _ Hx); apply plain_chars; exact Hh).
    rewrite V1, V2, V3. reflexivity. }
  destruct (K w2) as (w' & pp' & reply & D & Q' & St & E); [exact E2|exact (mv_files _ _ _ M2)|].
  exists fuel0, w', reply, rows, crows, cl. split; [exact Hcl|]. split; [exact St|]. split; [exact Rf|]. split; [|split].
  - rewrite D, D2, W1. reflexivity.
  - unfold no_failure. rewrite Q'. exact (mv_quiet _ _ _ M2).
  - intros fuel Hf. eapply session_serve; [exact E0|exact (E fuel Hf)].
Qed.
Theorem C102_update : forall e m c cut now path old h0 new h name caps line pack objs w0 w adv l1 r l2,
  ssh_command e (ssh_line ReceivePack path) w0 = (w, Ok (mkProto Ssh path (Some ReceivePack) [] [], adv)) ->
  env_ok e -> no_failure w -> refs_table (w_db w) -> id_ok h0 -> lower_hex old h0 -> old <> repeat 48 40 ->
  id_ok h -> lower_hex new h -> new <> repeat 48 40 -> word name -> nlen name <= 60000 -> utf8_text caps ->
  push_line old new name caps line ->
  git_pack c (get_hash_object e w) pack objs -> nlen pack < 2 ^ 32 -> history path (map snd objs) ->
  d_refs (w_db w) = l1 ++ r :: l2 -> r_ref_git_id r = old -> r_repo_path r = path ->
  (forall x, In x (l1 ++ l2) -> teq e (r_ref_git_id x) old = true -> teq e (r_repo_path x) path = true -> False) ->
  exists fuel0 w' reply rows crows cl, caps_in caps cl /\ status_reply cl [bs "ok " ++ name ++ [0]] reply /\
    rows_for path (map snd objs) rows crows /\
    w_db w' = mkDb (d_nodes (w_db w) ++ rows) (d_commits (w_db w) ++ crows) (l1 ++ with_id r new :: l2) (d_next_ref (w_db w)) /\
    no_failure w' /\
    forall fuel, (fuel0 <= fuel)%nat -> serve e m c fuel cut (QSsh now (ssh_line ReceivePack path) [line; pack]) w0 = (w', Ok (adv ++ reply)).
Proof.
  intros e m c cut now path old h0 new h name caps line pack objs w0 w adv l1 r l2 E0 He Q T H0 X0 Z0 Hh Hx Z1 Hm Lm Hc Rq G Hl Hs El E1 E2 Uq.
  destruct (ssh_push_one e m c cut now path old new name caps line pack objs w He Q (hex_word _ _ X0 H0) (hex_word _ _ Hx Hh) Hm Lm Hc Rq G Hl Hs)
    as (fuel0 & w1 & rows & crows & cl & Hcl & Q1 & W1 & Rf & _ & K).
  set (cmd := cmd_unpacked (ref_command_new old new (name ++ [0])) None) in *.
  assert (Ty : rc_type cmd = Update).
  { unfold cmd, cmd_unpacked, ref_command_new. cbn [rc_type]. rewrite (proj2 (beq_neq zero_id old)) by (intros Z; apply Z0; rewrite <- Z; reflexivity).
    rewrite (proj2 (beq_neq zero_id new)) by (intros Z; apply Z1; rewrite <- Z; reflexivity). reflexivity. }
  assert (T1 : refs_table (w_db w1)) by (rewrite W1; exact T).
  destruct (C55_only_candidate e cmd path w1 l1 r l2 He Q1 T1) as (w2 & Eu & Du); [exists h; auto|rewrite W1; exact El|exact E1|rewrite E2; apply He|exact Uq|].
  assert (V : varchar 40 (rc_new_id cmd) = true) by (apply N.leb_le; cbn [cmd cmd_unpacked ref_command_new rc_new_id]; rewrite (lower_hex_plain _ _ Hx); apply plain_chars; exact Hh).
  destruct (update_run e cmd path w1 He Q1 T1 V) as [(w2' & _ & _ & _ & Eu' & _ & _ & _ & _ & M2)|(w2' & Eu' & _)];
    rewrite Eu in Eu'; [injection Eu' as <-|discriminate].
  destruct (K w2) as (w' & pp' & reply & D & Q' & St & E); [unfold handle_refs; rewrite Ty; exact Eu|exact (mv_files _ _ _ M2)|].
  exists fuel0, w', reply, rows, crows, cl. split; [exact Hcl|]. split; [exact St|]. split; [exact Rf|]. split; [|split].
  - rewrite D, Du, W1. reflexivity.
  - unfold no_failure. rewrite Q'. exact (mv_quiet _ _ _ M2).
  - intros fuel Hf. eapply session_serve; [exact E0|exact (E fuel Hf)].
Qed.

(** ** C103: a clone *)

Lemma ssh_clone : forall e m c cut now path body w D (R : object -> Prop) st,
  (forall d, pieces 65515 d (cut d)) -> clone_request body ->
  (exists fuel0, forall fuel, (fuel0 <= fuel)%nat -> exists w' file objs, get_full_pack_data e c fuel path w = (w', Ok file) /\ moved w w' [] /\
     git_pack c st file objs /\ NoDup (map snd objs) /\ forall o, In o (map snd objs) <-> R o) -> w_db w = D ->
  exists fuel0, forall fuel, (fuel0 <= fuel)%nat -> exists w' pp' reply,
    ssh_session e m c fuel cut now (mkProto Ssh path (Some UploadPack) [] []) [body] w = (w', Ok (pp', reply)) /\ w_db w' = D /\ clone_reply c st reply R.
Proof.
  intros e m c cut now path body w D R st Hcut (items & t & b & x & line & Rb & Ft & Ut & Cw & Nh & Pl & ->) (fuel0 & F) Ew.
  exists (Nat.max fuel0 (S (length items))). intros fuel Hf.
  destruct (C43_fetch_request items b x line [] (Some t) fuel Rb Pl Ft Ut) as (want & have & caps & Eu & _ & _ & Hh & _ & Hc); [lia|].
  rewrite app_nil_r in Eu.
  assert (Hv : have = []).
  { destruct have as [|i have]; [reflexivity|]. destruct (proj1 (Hh i) (or_introl eq_refl)) as (tl & K). destruct (Nh _ _ K). }
  subst have. destruct (F fuel) as (w' & file & objs & Eg & Mv & G & Nd & Io); [lia|].
  exists w', (mkProto Ssh path (Some UploadPack) caps []), (add_pkt_line [] (bs "NAK" ++ [10]) ++ concat (send_pack caps (cut file))). split; [|split].
  - assert (Eup : git_upload_pack e c fuel (mkProto Ssh path (Some UploadPack) [] []) (b ++ line) w =
      (w', Ok (mkProto Ssh path (Some UploadPack) caps [], file, add_pkt_line [] (bs "NAK" ++ [10])))).
    { unfold git_upload_pack. cbn [pp_caps pp_protocol pp_path pp_service pp_cmds].
      unfold mbind at 1. unfold lift. rewrite Eu. unfold mbind at 1. unfold munwrap. rewrite Eg. reflexivity. }
    assert (Ed : ssh_data e m c fuel cut (now 0%nat) (mkProto Ssh path (Some UploadPack) [] []) (b ++ line) w =
      (w', Ok (mkProto Ssh path (Some UploadPack) caps [], add_pkt_line [] (bs "NAK" ++ [10]) ++ concat (send_pack caps (cut file))))).
    { unfold ssh_data. cbn [pp_service]. rewrite (mbind_ok _ _ _ _ _ _ _ Eup). unfold lift, mbind.
      rewrite utf8_unwrap_text by (apply ascii_utf8; vm_compute; reflexivity). reflexivity. }
    cbn [ssh_session length]. rewrite (mbind_ok _ _ _ _ _ _ _ Ed). unfold mbind, ret. rewrite app_nil_r. reflexivity.
  - rewrite (mv_db _ _ _ Mv). exact Ew.
  - exists (add_pkt_line [] (bs "NAK" ++ [10])), (concat (send_pack caps (cut file))), file, objs. split; [reflexivity|].
    split; [apply hex4_pkt; vm_compute; discriminate|]. split; [|auto].
    apply C39_side_band_delivers; [|apply Hcut]. destruct Cw as [Cw|Cw]; [left|right]; apply Hc; exists t; split; try reflexivity; exact Cw.
Qed.

(** The first push to a repository, of its master branch, then any requests about other
    repositories, then a clone, all over SSH: the clone gets the head and the history
    that were pushed. *)
Theorem C103_push_then_clone : forall e bd c st cut now now2 path new h name caps line pack objs w body2,
  env_ok e -> teq_equiv e -> codec_ok c -> (forall d, pieces 65515 d (cut d)) ->
  no_failure w -> refs_table (w_db w) -> Forall addressed_row (d_nodes (w_db w)) -> commits_at e (w_db w) path = [] ->
  ~ In 32 path -> (forall r, In r (d_refs (w_db w)) -> ~ is_head e path r) -> refs_at e (w_db w) path = [] ->
  id_ok h -> lower_hex new h -> word name -> utf8_text caps -> like e path path = true -> teq e (name ++ [0]) master = true ->
  (exists k, text_len name k /\ (k <= 31)%nat) -> (exists k, text_len path k /\ (k <= 64)%nat) ->
  push_line (repeat 48 40) new name caps line -> (forall w1, w_db w1 = w_db w -> git_pack c (get_hash_object e w1) pack objs) -> nlen pack < 2 ^ 32 ->
  history path (map snd objs) -> (exists d, In (Commit, d) (map snd objs)) -> clone_request body2 ->
  exists fuel0 w1 adv reply cl, caps_in caps cl /\ advert false ReceivePack (repeat 48 40) [] adv /\ status_reply cl [bs "ok " ++ name ++ [0]] reply /\
    (forall fuel, (fuel0 <= fuel)%nat -> serve e bd c fuel cut (QSsh now (ssh_line ReceivePack path) [line; pack]) w = (w1, Ok (adv ++ reply))) /\
    forall f l, elsewhere e path l -> let w2 := serve_all e bd c f cut l w1 in
    collision_free (repo_objects e (w_db w2) path) ->
    exists fuel1, forall fuel, (fuel1 <= fuel)%nat -> exists w3 adv2 reply2,
      serve e bd c fuel cut (QSsh now2 (ssh_line UploadPack path) [body2]) w2 = (w3, Ok (adv2 ++ reply2)) /\ w_db w3 = w_db w2 /\
      advert false UploadPack new [(new, name ++ [0])] adv2 /\
      clone_reply c st reply2 (reach (fun o => In o (map snd objs))).
Proof.
  intros e bd c st cut now now2 path new h name caps line pack objs w body2 He Te Hc Hcut Q T Fa Nc Hsp Nh Nr Hi Hx Hw Hu Lk Tm Ln Lp Rq G Hl Hs Hd Cr.
  assert (Tp : utf8_text path) by (destruct Lp as (k & (cs & F & -> & _) & _); exists cs; auto).
  destruct (C101_new e ReceivePack path w He Q Hsp Tp Nh Nr) as (w0 & adv & E0 & D0 & _ & Q0 & Ad).
  destruct (C102_create e bd c cut now path new h name caps line pack objs w w0 adv E0 He Q0 Hi Hx Hw Hu Ln Lp Rq (G w0 D0) Hl Hs)
    as (fuel0 & w1 & reply & rows & crows & cl & Hcl & Sr & Rf & D1 & Q1 & E1). rewrite D0 in D1.
  exists fuel0, w1, adv, reply, cl. split; [exact Hcl|]. split; [exact Ad|]. split; [exact Sr|]. split; [exact E1|].
  intros f l El w2 Cf. set (row := mkRef (d_next_ref (w_db w)) path (name ++ [0]) new) in *.
  assert (T1 : refs_table (w_db w1)) by (rewrite D1; apply table_snoc; [exact T|reflexivity]).
  destruct (elsewhere_chain e bd c f cut path l w1 He Te T1 El) as (k & _ & C & n & En & Fn). fold w2 in C, En.
  assert (SR : same_repo e path (w_db w1) (w_db w2)).
  { refine (proj2 (chain_all (same_repo e path) _ _ _ _ _ C)); [split; reflexivity|]. intros a x y [A1 A2] [B1 B2]. split; congruence. }
  assert (Q2 : no_failure w2) by (apply serve_all_quiet; assumption).
  assert (Rr : refs_at e (w_db w2) path = [row]).
  { change (refs_at e (w_db w2) path) with (refs_of e (w_db w2) path). rewrite (proj2 SR). unfold refs_of. rewrite D1. cbn [d_refs].
    rewrite filter_app. unfold refs_at in Nr. rewrite Nr. cbn [app filter row r_repo_path]. rewrite (proj1 (proj2 He) path). reflexivity. }
  assert (Ir : In row (d_refs (w_db w2))).
  { assert (K : In row (refs_at e (w_db w2) path)) by (rewrite Rr; left; reflexivity). apply filter_In in K. apply K. }
  assert (Xr : forall x, In x (d_refs (w_db w2)) -> r_repo_path x = path -> x = row).
  { intros x Hx' Ex. assert (K : In x (refs_at e (w_db w2) path)) by (apply filter_In; split; [exact Hx'|rewrite Ex; apply He]).
    rewrite Rr in K. destruct K as [K|[]]; [symmetry; exact K]. }
  assert (Ln2 : nlen new = 40) by (rewrite (lower_hex_plain _ _ Hx); apply plain_len; exact Hi).
  assert (Tr : text_refs (refs_at e (w_db w2) path)).
  { rewrite Rr. intros x [<-|[]]. unfold row. cbn [r_ref_git_id r_ref_name]. split; [apply (hex_word _ _ Hx Hi)|]. split; [apply text_app; [apply Hw|apply ascii_utf8; reflexivity]|].
    split; [lia|]. destruct Ln as (kk & (cs & Fs & -> & Ec) & Lkk). assert (B : (length (flat_map utf8_char cs) <= 4 * length cs)%nat).
    { clear. induction cs as [|x cs IH]; [cbn; lia|]. cbn [flat_map]. rewrite app_length. cbn [length].
      assert (length (utf8_char x) <= 4)%nat; [|lia]. unfold utf8_char. repeat destruct (_ <? _); cbn [length]; lia. }
    rewrite nlen_app. change (nlen [0]) with 1. unfold nlen. rewrite Ec in B. lia. }
  destruct (C101_repository e UploadPack path w2 row He Q2 Hsp Tp Tr Ir) as (w3 & adv2 & refs & E3 & D3 & _ & Q3 & Ad3 & Li);
    [split; [exact Lk|exact Tm]|reflexivity|intros x H1 _ H2; rewrite (Xr x H1 H2); reflexivity|].
  rewrite Rr in Li. assert (Er : refs = [(new, name ++ [0])]).
  { destruct Li as (Nd & L1 & L2). destruct (L2 row (or_introl eq_refl)) as (n' & Hn').
    assert (K : forall i x, In (i, x) refs -> (i, x) = (new, name ++ [0])).
    { intros i x Hix. destruct (L1 i x Hix) as (r & [<-|[]] & <- & <-). reflexivity. }
    destruct refs as [|a [|b refs]]; [destruct Hn'| |].
    - destruct a as [i x]. rewrite (K i x (or_introl eq_refl)). reflexivity.
    - exfalso. destruct a as [i x], b as [i' x']. pose proof (K i x (or_introl eq_refl)) as K1. pose proof (K i' x' (or_intror (or_introl eq_refl))) as K2.
      injection K1 as -> ->. injection K2 as -> ->. cbn [map fst] in Nd. inversion Nd as [|? ? N _]. apply N. left. reflexivity. }
  subst refs.
  destruct (ssh_clone e bd c cut now2 path body2 w3 (w_db w3) (reach (fun o => In o (map snd objs))) st Hcut Cr) as (fuel1 & F1); [|reflexivity|].
  - apply (pushed_pack e c st path (map snd objs) rows crows (d_nodes (w_db w)) n w3); try assumption.
    + unfold nlen. rewrite map_length. exact (git_pack_few _ _ _ _ (G w eq_refl)).
    + rewrite D3, (proj1 SR). apply (own_commits e path (map snd objs) rows crows (w_db w)); try assumption. rewrite D1. reflexivity.
    + rewrite D3, En, D1. reflexivity.
    + rewrite D3. exact Cf.
  - exists fuel1. intros fuel Hf. destruct (F1 fuel Hf) as (w4 & pp4 & reply2 & E4 & D4 & K4). exists w4, adv2, reply2.
    split; [eapply session_serve; [exact E3|exact E4]|]. split; [congruence|]. split; [exact Ad3|exact K4].
Qed.

(** ** C104: packets *)

(** The packets are treated and answered in the order in which they come. *)
Theorem C104_in_order : forall e m c fuel cut now l1 l2 pp w,
  ssh_session e m c fuel cut now pp (l1 ++ l2) w =
    (let! (pp1, a) := ssh_session e m c fuel cut (fun n => now (n + length l2)%nat) pp l1 in
     let! (pp2, b) := ssh_session e m c fuel cut now pp1 l2 in ret (pp2, a ++ b)) w.
Proof.
  intros e m c fuel cut now. induction l1 as [|d l1 IH]; intros l2 pp w.
  - cbn [app ssh_session]. unfold mbind, ret. destruct (ssh_session e m c fuel cut now pp l2 w) as [w' [[pp2 b]| | |]]; reflexivity.
  - cbn [app ssh_session]. rewrite app_length. unfold mbind at 1 3 4. destruct (ssh_data e m c fuel cut (now (length l1 + length l2)%nat) pp d w) as [w1 [[pp1 a]| | |]]; [|reflexivity..].
    unfold mbind at 1 3. rewrite IH. unfold mbind, ret. destruct (ssh_session e m c fuel cut (fun n => now (n + length l2)%nat) pp1 l1 w1) as [w2 [[pp2 b]| | |]]; [|reflexivity..].
    destruct (ssh_session e m c fuel cut now pp2 l2 w2) as [w3 [[pp3 x]| | |]]; [|reflexivity..]. rewrite app_assoc. reflexivity.
Qed.

(** Only the temporary file of second [now] may differ. *)
Definition untouched (now : N) (w w' : world) : Prop :=
  w_db w' = w_db w /\ w_log w' = w_log w /\ forall p, p <> temp_path now -> fs_get (w_files w') p = fs_get (w_files w) p.
Lemma untouched_refl : forall now w, untouched now w w.
Proof. intros. split; [|split]; auto. Qed.

Lemma head_short : forall e m c fuel now pp old new name caps a r w, word old -> word new -> word name -> utf8_text caps ->
  push_line old new name caps (a ++ r) -> a <> [] -> r <> [] -> git_receive_pack e m c fuel now pp a w = (w, Panic).
Proof.
  intros e m c fuel now pp old new name caps a r w Ho Hn Hm Hc (b & Hb & E) Na Nr. rewrite app_nil_r in E.
  pose proof (parse_first old new name caps Ho Hn Hm) as Hp. remember (old ++ [32] ++ new ++ [32] ++ name ++ [0; 32] ++ caps) as text eqn:Et. clear Et.
  assert (St : starts_with (bs "PACK") a = false).
  { destruct (starts_with (bs "PACK") a) eqn:S; [|reflexivity]. exfalso. apply starts_with_true in S as (z & ->).
    destruct Hb as (h & Lh & Hh & ->). pose proof (hex_not_pack h _ (text ++ flush) Lh Hh) as K.
    rewrite app_assoc, <- E, <- app_assoc, starts_with_app in K. discriminate K. }
  unfold git_receive_pack. rewrite St. destruct (read_pkt_line_cases a) as [(n & line & rest & R)|R]; rewrite R; [|reflexivity].
  apply read_pkt_line_spec in R. assert (K : pkt_front (a ++ r) n line (rest ++ r)).
  { destruct R as [|l rest Hl|l p rest Hl]; [destruct (Na eq_refl)|rewrite <- app_assoc; constructor; exact Hl|].
    rewrite <- !app_assoc. constructor. exact Hl. }
  apply read_pkt_line_spec in K. rewrite E, (read_pkt _ _ flush Hb) in K. injection K as <- <- Er.
  unfold lift at 1, mbind at 1. match goal with |- context [(?x =? 0) && _] => replace (x =? 0) with false by (symmetry; apply N.eqb_neq; lia) end. cbn [andb].
  rewrite Hp. unfold lift at 1, mbind at 1. rewrite utf8_unwrap_text by exact Hc. unfold lift at 1, mbind at 1.
  unfold slice_from. destruct (Nat.leb_spec 4 (length rest)) as [L|L]; [exfalso|reflexivity].
  apply (f_equal (@length N)) in Er. rewrite app_length in Er. change (length flush) with 4%nat in Er. destruct r; [destruct (Nr eq_refl)|cbn [length] in Er; lia].
Qed.

Lemma pack_short : forall e m c fuel now pp cmds cmd file objs a r w, streaming c -> git_pack c (get_hash_object e w) file objs -> no_collision (map snd objs) ->
  nlen file < 2 ^ 32 -> file = a ++ r -> a <> [] -> r <> [] -> fs_get (w_files w) (temp_path now) = None -> pp_cmds pp = cmds ++ [cmd] ->
  exists w', git_receive_pack e m c (S fuel) now pp a w = (w', Panic) /\ untouched now w w'.
Proof.
  intros e m c fuel now pp cmds cmd file objs a r w Hs G Nc Hl E Na Nr Hf Ec.
  assert (Hd : exists x, file = bs "PACK" ++ x).
  { destruct G as (b & Hb & ->). destruct (body_header _ _ _ _ _ Hb) as (_ & x & ->). eexists. rewrite <- app_assoc. reflexivity. }
  assert (C : (length a < 4)%nat \/ exists z, a = bs "PACK" ++ z).
  { destruct Hd as (x & Ex). rewrite E in Ex. destruct (app_split _ _ _ _ Ex) as [(z & Ez & _)|(z & -> & _)]; [|eauto].
    apply (f_equal (@length N)) in Ez as L. rewrite app_length in L. change (length (bs "PACK")) with 4%nat in L.
    destruct z as [|u z]; [right; exists []; rewrite app_nil_r in *; symmetry; exact Ez|left; cbn [length] in L; lia]. }
  destruct C as [L|(z & Ez)].
  - exists w. split; [|apply untouched_refl]. unfold git_receive_pack. destruct (starts_with (bs "PACK") a) eqn:S.
    { apply starts_with_true in S as (y & ->). rewrite app_length in L. change (length (bs "PACK")) with 4%nat in L. lia. }
    unfold read_pkt_line. destruct a as [|v a]; [destruct (Na eq_refl)|]. unfold copy_to_bytes. destruct (Nat.leb_spec 4 (length (v :: a))); [lia|]. reflexivity.
  - set (w1 := mkWorld (w_db w) (w_log w) (w_fails w) (w_tick w) (fs_put (w_files w) (temp_path now) a)).
    assert (E1 : write_temp (temp_path now) a w = (w1, Ok tt)) by (unfold write_temp; rewrite Hf, skipn_nil, app_nil_r; reflexivity).
    assert (E2 : read_temp (temp_path now) w1 = (w1, Ok a)) by (unfold read_temp, w1; cbn [w_files]; rewrite fs_get_put_same; reflexivity).
    set (w2 := mkWorld (w_db w) (w_log w) (w_fails w) (S (w_tick w)) (fs_put (w_files w) (temp_path now) a)).
    assert (E3 : unpack_pack e m c (S fuel) a w1 = (w2, Panic)).
    { unfold unpack_pack. change (get_hash_object e w1) with (get_hash_object e w). rewrite (failed_unwrap _ _ (decode_short m c _ Hs fuel file objs a r G Nc Hl E Nr)). reflexivity. }
    exists w2. split.
    + assert (Sa : starts_with (bs "PACK") a = true) by (rewrite Ez; apply starts_with_app).
      unfold git_receive_pack. rewrite Sa. unfold lift at 1, mbind at 1. rewrite Ec, app_length, nth_error_app2 by (cbn [length]; lia).
      cbn [length]. replace (length cmds + 1 - 1 - length cmds)%nat with 0%nat by lia. cbn [nth_error unwrap_opt].
      rewrite (mbind_ok _ _ _ _ _ _ _ E1), (mbind_ok _ _ _ _ _ _ _ E2). unfold mbind at 1. rewrite E3. reflexivity.
    + split; [reflexivity|]. split; [reflexivity|]. intros p Hp. cbn [w2 w_files]. apply fs_get_put_other. exact Hp.
Qed.

Lemma mbind_stop : forall A B (x : M A) (k : A -> M B) w w', x w = (w', Panic) -> mbind x k w = (w', Panic).
Proof. intros A B x k w w' E. unfold mbind. rewrite E. reflexivity. Qed.

(** Something more in the packet with the command: it is sent back, nothing is stored. *)
Theorem C104_joined : forall e m c fuel cut now path old new name caps body x w,
  word old -> word new -> word name -> utf8_text caps -> push_request old new name caps x body ->
  exists pp', ssh_session e m c fuel cut now (mkProto Ssh path (Some ReceivePack) [] []) [body] w = (w, Ok (pp', x)).
Proof.
  intros e m c fuel cut now path old new name caps body x w Ho Hn Hm Hc (b & Hb & ->). eexists.
  cbn [ssh_session length]. unfold ssh_data. cbn [pp_service].
  rewrite (mbind_ok _ _ _ _ _ _ _ (command_run e m c fuel (now 0%nat) (mkProto Ssh path (Some ReceivePack) [] []) _ _ caps b flush x w Hb (parse_first old new name caps Ho Hn Hm) Hc eq_refl)).
  unfold mbind, ret. rewrite app_nil_r. reflexivity.
Qed.
(** The packet with the command is cut: the session ends, the rest is not looked at. *)
Theorem C104_head_cut : forall e m c fuel cut now path old new name caps a r more w,
  word old -> word new -> word name -> utf8_text caps -> push_line old new name caps (a ++ r) -> a <> [] -> r <> [] ->
  ssh_session e m c fuel cut now (mkProto Ssh path (Some ReceivePack) [] []) (a :: more) w = (w, Panic).
Proof.
  intros e m c fuel cut now path old new name caps a r more w Ho Hn Hm Hc Rq Na Nr. cbn [ssh_session]. unfold ssh_data. cbn [pp_service]. unfold mbind.
  rewrite (head_short e m c fuel _ _ old new name caps a r w Ho Hn Hm Hc Rq Na Nr). reflexivity.
Qed.
(** The pack is in more than one packet: the session ends at the first of them. *)
Theorem C104_split : forall e m c fuel cut now path old new name caps line pack objs a r more w,
  streaming c -> word old -> word new -> word name -> utf8_text caps -> push_line old new name caps line ->
  git_pack c (get_hash_object e w) pack objs -> collision_free (fun o => In o (map snd objs)) -> nlen pack < 2 ^ 32 ->
  pack = a ++ r -> a <> [] -> r <> [] -> fs_get (w_files w) (temp_path (now (length more))) = None ->
  exists w', ssh_session e m c (S fuel) cut now (mkProto Ssh path (Some ReceivePack) [] []) (line :: a :: more) w = (w', Panic) /\
    untouched (now (length more)) w w'.
Proof.
  intros e m c fuel cut now path old new name caps line pack objs a r more w Hs Ho Hn Hm Hc (b & Hb & ->) G Nc Hl E Na Nr Hf.
  destruct (pack_short e m c fuel (now (length more)) (mkProto Ssh path (Some ReceivePack) (parse_capabilities [] caps) [ref_command_new old new (name ++ [0])])
    [] (ref_command_new old new (name ++ [0])) pack objs a r w Hs G Nc Hl E Na Nr Hf eq_refl) as (w' & Ew & U).
  exists w'. split; [|exact U]. cbn [ssh_session]. unfold ssh_data at 1. cbn [pp_service].
  rewrite (mbind_ok _ _ _ _ _ _ _ (command_run e m c (S fuel) _ (mkProto Ssh path (Some ReceivePack) [] []) _ _ caps b flush [] w Hb (parse_first old new name caps Ho Hn Hm) Hc eq_refl)).
  cbn [pp_protocol pp_path pp_service pp_caps pp_cmds app]. unfold ssh_data at 1. cbn [pp_service]. exact (mbind_stop _ _ _ _ _ _ (mbind_stop _ _ _ _ _ _ Ew)).
Qed.
(** A packet of a fetch that does not contain the done line is never answered. *)
Theorem C104_no_done : forall e m c cut now path items body o more w, req_bytes items body -> first_tail items o ->
  match o with Some t => utf8_text t | None => True end ->
  forall fuel, ssh_session e m c fuel cut now (mkProto Ssh path (Some UploadPack) [] []) (body :: more) w = (w, OutOfFuel).
Proof.
  intros e m c cut now path items body o more w Rb Ft Ut fuel. cbn [ssh_session]. unfold ssh_data. cbn [pp_service]. unfold git_upload_pack. cbn [pp_caps].
  unfold mbind, lift. rewrite (C44_no_done_diverges items body o Rb Ft Ut fuel). reflexivity.
Qed.

(** ** C105: a push that is cut short *)

(** The decoder accepts no proper prefix of a pack. *)
Theorem C105_prefix : forall m c st fuel file objs a r, streaming c -> git_pack c st file objs -> collision_free (fun o => In o (map snd objs)) ->
  nlen file < 2 ^ 32 -> file = a ++ r -> r <> [] -> (exists x, decode m c st (S fuel) a = Err x) \/ decode m c st (S fuel) a = Panic.
Proof. intros m c st fuel file objs a r Hs G Nc Hl E Nr. exact (decode_short m c st Hs fuel file objs a r G Nc Hl E Nr). Qed.

(** Over HTTP: whatever part of the request arrives, nothing is stored and the client is
    not told that its push went well. *)
Theorem C105_http : forall e m c fuel now path old new name caps pack objs body a r w,
  streaming c -> word old -> word new -> word name -> utf8_text caps -> push_request old new name caps pack body ->
  git_pack c (get_hash_object e w) pack objs -> collision_free (fun o => In o (map snd objs)) -> nlen pack < 2 ^ 32 ->
  body = a ++ r -> r <> [] -> fs_get (w_files w) (temp_path now) = None ->
  exists w' res, http_receive_pack e m c (S fuel) now path a w = (w', res) /\ untouched now w w' /\ (res = Panic \/ res = Ok []).
Proof.
  intros e m c fuel now path old new name caps pack objs body a r w Hs Ho Hn Hm Hc (b & Hb & ->) G Nc Hl E Nr Hf.
  unfold http_receive_pack. set (pp := mkProto Http path None [] []).
  assert (Ep : lift (proto_new path [] Http) w = (w, Ok pp)) by reflexivity. rewrite (mbind_ok _ _ _ _ _ _ _ Ep).
  rewrite app_assoc in E. destruct (app_split _ _ _ _ E) as [(z & -> & Ez)|(z & Ez & Er)].
  - rewrite <- app_assoc.
    rewrite (mbind_ok _ _ _ _ _ _ _ (command_run e m c (S fuel) now pp _ _ caps b flush z w Hb (parse_first old new name caps Ho Hn Hm) Hc eq_refl)).
    cbn [pp pp_protocol pp_path pp_service pp_caps pp_cmds app]. destruct z as [|u z].
    + eexists w, _. split; [reflexivity|]. split; [apply untouched_refl|right; reflexivity].
    + destruct (pack_short e m c fuel now (mkProto Http path None (parse_capabilities [] caps) [ref_command_new old new (name ++ [0])])
        [] (ref_command_new old new (name ++ [0])) pack objs (u :: z) r w Hs G Nc Hl Ez ltac:(discriminate) Nr Hf eq_refl) as (w' & Ew & U).
      exists w', Panic. split; [unfold mbind; rewrite Ew; reflexivity|]. auto.
  - destruct a as [|u a]; [eexists w, _; split; [reflexivity|]; split; [apply untouched_refl|right; reflexivity]|].
    destruct z as [|v z].
    + rewrite app_nil_r in Ez. rewrite <- Ez, <- (app_nil_r (b ++ flush)), <- app_assoc.
      rewrite (mbind_ok _ _ _ _ _ _ _ (command_run e m c (S fuel) now pp _ _ caps b flush [] w Hb (parse_first old new name caps Ho Hn Hm) Hc eq_refl)).
      eexists w, _. split; [reflexivity|]. split; [apply untouched_refl|right; reflexivity].
    + exists w, Panic. split; [|split; [apply untouched_refl|auto]]. unfold mbind at 1.
      rewrite (head_short e m c (S fuel) now pp old new name caps (u :: a) (v :: z) w Ho Hn Hm Hc); [reflexivity| |discriminate|discriminate].
      exists b. rewrite app_nil_r. auto.
Qed.
(** Over SSH: the connection breaks in the command, or in the pack. *)
Theorem C105_ssh : forall e m c fuel cut now path old new name caps line pack objs packets w,
  streaming c -> word old -> word new -> word name -> utf8_text caps -> push_line old new name caps line ->
  git_pack c (get_hash_object e w) pack objs -> collision_free (fun o => In o (map snd objs)) -> nlen pack < 2 ^ 32 ->
  (packets = [] \/ (exists a r, line = a ++ r /\ a <> [] /\ r <> [] /\ packets = [a]) \/ packets = [line] \/
   exists a r, pack = a ++ r /\ a <> [] /\ r <> [] /\ packets = [line; a]) -> fs_get (w_files w) (temp_path (now 0%nat)) = None ->
  exists w' res, ssh_session e m c (S fuel) cut now (mkProto Ssh path (Some ReceivePack) [] []) packets w = (w', res) /\ untouched (now 0%nat) w w' /\
    (res = Panic \/ exists pp', res = Ok (pp', [])).
Proof.
  intros e m c fuel cut now path old new name caps line pack objs packets w Hs Ho Hn Hm Hc Rq G Nc Hl Hp Hf.
  destruct Hp as [->|[(a & r & -> & Na & Nr & ->)|[->|(a & r & Ep & Na & Nr & ->)]]].
  - eexists w, _. split; [reflexivity|]. split; [apply untouched_refl|]. right. eexists. reflexivity.
  - exists w, Panic. split; [|split; [apply untouched_refl|auto]]. exact (C104_head_cut e m c (S fuel) cut now path old new name caps a r [] w Ho Hn Hm Hc Rq Na Nr).
  - destruct (C104_joined e m c (S fuel) cut now path old new name caps line [] w Ho Hn Hm Hc Rq) as (pp' & E). eexists w, _. split; [exact E|].
    split; [apply untouched_refl|eauto].
  - destruct (C104_split e m c fuel cut now path old new name caps line pack objs a r [] w Hs Ho Hn Hm Hc Rq G Nc Hl Ep Na Nr Hf) as (w' & E & U).
    exists w', Panic. auto.
Qed.

(** ** Concrete cases *)

Definition ssh_head (old new name caps : bytes) : bytes := add_pkt_line [] (old ++ [32] ++ new ++ [32] ++ name ++ [0; 32] ++ caps) ++ flush.
Definition ex_ssh_head : bytes := ssh_head (repeat 48 40) (to_plain_str (oid ex_top)) (bs "refs/heads/master") ex_caps.
Lemma ssh_head_line : forall old new name caps, nlen (old ++ [32] ++ new ++ [32] ++ name ++ [0; 32] ++ caps) <= 65531 ->
  push_line old new name caps (ssh_head old new name caps).
Proof. intros old new name caps H. eexists. split; [apply hex4_pkt; exact H|]. rewrite app_nil_r. reflexivity. Qed.
Lemma ex_ssh_line : push_line (repeat 48 40) (to_plain_str (oid ex_top)) (bs "refs/heads/master") ex_caps ex_ssh_head.
Proof. apply ssh_head_line. rewrite !nlen_app, (plain_len _ ex_top_id). vm_compute. discriminate. Qed.
Lemma demo_text : utf8_text (bs "demo").
Proof. apply ascii_utf8. reflexivity. Qed.
Lemma demo_word : ~ In 32 (bs "demo").
Proof. vm_compute. intuition discriminate. Qed.

(** The premises of [C101_new]. *)
Example C101_new_ex : env_ok ex_env /\ no_failure (world_of db_empty) /\ ~ In 32 (bs "demo") /\ utf8_text (bs "demo") /\
  (forall r, In r (d_refs (w_db (world_of db_empty))) -> ~ is_head ex_env (bs "demo") r) /\ refs_at ex_env (w_db (world_of db_empty)) (bs "demo") = [] /\
  ssh_line UploadPack (bs "demo") = bs "git-upload-pack '/demo.git'".
Proof.
  split; [exact ex_env_ok|]. split; [reflexivity|]. split; [exact demo_word|]. split; [exact demo_text|]. split; [intros r []|]. split; reflexivity.
Qed.
(** The premises of [C101_repository]: a server with one reference in each of two repositories. *)
Definition ssh_ref : ref_row := mkRef 1 (bs "demo") (bs "refs/heads/master" ++ [0]) (to_plain_str (oid ex_top)).
Definition ssh_other : ref_row := mkRef 2 (bs "other") (bs "refs/heads/master" ++ [0]) (to_plain_str (oid ex_second)).
Definition ssh_world : world := world_of (mkDb [] [] [ssh_ref; ssh_other] 3).
Lemma ssh_refs : refs_at ex_env (w_db ssh_world) (bs "demo") = [ssh_ref].
Proof. vm_compute. reflexivity. Qed.
Lemma ssh_text : text_refs (refs_at ex_env (w_db ssh_world) (bs "demo")).
Proof.
  rewrite ssh_refs. intros r [<-|[]]. cbn [ssh_ref r_ref_git_id r_ref_name].
  split; [exact (proj2 (hex_word _ _ (plain_lower _ ex_top_id) ex_top_id))|]. split; [apply ascii_utf8; reflexivity|].
  split; [rewrite (plain_len _ ex_top_id); vm_compute; discriminate|vm_compute; discriminate].
Qed.
Example C101_repository_ex : env_ok ex_env /\ no_failure ssh_world /\ text_refs (refs_at ex_env (w_db ssh_world) (bs "demo")) /\
  In ssh_ref (d_refs (w_db ssh_world)) /\ is_head ex_env (bs "demo") ssh_ref /\ r_repo_path ssh_ref = bs "demo" /\
  (forall x, In x (d_refs (w_db ssh_world)) -> is_head ex_env (bs "demo") x -> r_repo_path x = bs "demo" -> r_ref_git_id x = r_ref_git_id ssh_ref).
Proof.
  split; [exact ex_env_ok|]. split; [reflexivity|]. split; [exact ssh_text|]. split; [left; reflexivity|].
  split; [split; vm_compute; reflexivity|]. split; [reflexivity|]. intros x [<-|[<-|[]]] _ H; [reflexivity|]. vm_compute in H. discriminate H.
Qed.
(** The premises of [C102_create]. *)
Example C102_create_ex : exists objs w adv, ssh_command ex_env (ssh_line ReceivePack (bs "demo")) (world_of db_empty) =
    (w, Ok (mkProto Ssh (bs "demo") (Some ReceivePack) [] [], adv)) /\
  env_ok ex_env /\ no_failure w /\ id_ok (oid ex_top) /\ lower_hex (to_plain_str (oid ex_top)) (oid ex_top) /\ word (bs "refs/heads/master") /\ utf8_text ex_caps /\
  (exists k, text_len (bs "refs/heads/master") k /\ (k <= 31)%nat) /\ (exists k, text_len (bs "demo") k /\ (k <= 64)%nat) /\
  push_line (repeat 48 40) (to_plain_str (oid ex_top)) (bs "refs/heads/master") ex_caps ex_ssh_head /\
  git_pack stored (get_hash_object ex_env w) (pack_of ex_hist) objs /\ nlen (pack_of ex_hist) < 2 ^ 32 /\ history (bs "demo") (map snd objs).
Proof.
  destruct C101_new_ex as (He & Q & Hn & Ht & N & R & _).
  destruct (C101_new ex_env ReceivePack (bs "demo") (world_of db_empty) He Q Hn Ht N R) as (w & adv & E & _ & _ & Q1 & _).
  destruct (ex_pack (get_hash_object ex_env w)) as (objs & G & Eo). exists objs, w, adv. rewrite Eo.
  split; [exact E|]. split; [exact He|]. split; [exact Q1|]. split; [exact ex_top_id|]. split; [apply plain_lower; exact ex_top_id|].
  split; [exact master_word|]. split; [apply utf8_spec; reflexivity|].
  split; [exists 17%nat; split; [exact (ascii_text (bs "refs/heads/master") eq_refl)|lia]|].
  split; [exists 4%nat; split; [exact (ascii_text (bs "demo") eq_refl)|lia]|].
  split; [exact ex_ssh_line|]. split; [exact G|]. split; [exact ex_pack_small|]. apply ex_hist_ok. reflexivity.
Qed.
(** The premises of [C102_update]: the reference is moved on by one commit. *)
Lemma ex_second_id : id_ok (oid ex_second).
Proof. apply oid_ok, commit_base. Qed.
Lemma demo_full_ok : history (bs "demo") ex_full.
Proof.
  apply history_check; [vm_compute; reflexivity|reflexivity| |].
  - intros d [E|[E|[E|[E|[]]]]]; try discriminate (f_equal fst E). exists (oid ex_root).
    replace d with (snd ex_second) by exact (f_equal snd E). exact ex_second_root.
  - intros d [E|[E|[E|[E|[]]]]]; discriminate (f_equal fst E).
Qed.
Example C102_update_ex : exists objs w adv line, ssh_command ex_env (ssh_line ReceivePack (bs "demo")) ssh_world =
    (w, Ok (mkProto Ssh (bs "demo") (Some ReceivePack) [] [], adv)) /\
  no_failure w /\ refs_table (w_db w) /\ to_plain_str (oid ex_top) <> repeat 48 40 /\ to_plain_str (oid ex_second) <> repeat 48 40 /\
  push_line (to_plain_str (oid ex_top)) (to_plain_str (oid ex_second)) (bs "refs/heads/master") ex_caps line /\
  git_pack stored (get_hash_object ex_env w) (pack_of ex_full) objs /\ nlen (pack_of ex_full) < 2 ^ 32 /\ history (bs "demo") (map snd objs) /\
  d_refs (w_db w) = [] ++ ssh_ref :: [ssh_other] /\ r_ref_git_id ssh_ref = to_plain_str (oid ex_top) /\ r_repo_path ssh_ref = bs "demo" /\
  (forall x, In x ([] ++ [ssh_other]) -> teq ex_env (r_ref_git_id x) (to_plain_str (oid ex_top)) = true -> teq ex_env (r_repo_path x) (bs "demo") = true -> False).
Proof.
  destruct C101_repository_ex as (He & Q & Tr & Hr & Hh & Hp & Uq).
  destruct (C101_repository ex_env ReceivePack (bs "demo") ssh_world ssh_ref He Q demo_word demo_text Tr Hr Hh Hp Uq) as (w & adv & refs & E & D & _ & Q1 & _ & _).
  destruct (pack_of_git ex_full (get_hash_object ex_env w)) as (objs & G & Eo); [discriminate|reflexivity|apply (hs_sound _ _ demo_full_ok)|].
  exists objs, w, adv. eexists. rewrite Eo, D. split; [exact E|]. split; [exact Q1|].
  split; [split; [cbn; repeat constructor; cbn; intuition discriminate|intros r [<-|[<-|[]]]; vm_compute; reflexivity]|].
  split; [apply beq_neq; vm_compute; reflexivity|]. split; [apply beq_neq; vm_compute; reflexivity|].
  split; [apply ssh_head_line; rewrite !nlen_app, (plain_len _ ex_top_id), (plain_len _ ex_second_id); vm_compute; discriminate|].
  split; [exact G|]. split; [vm_compute; reflexivity|]. split; [exact demo_full_ok|]. split; [reflexivity|]. split; [reflexivity|]. split; [reflexivity|].
  intros x [<-|[]] _ H. vm_compute in H. discriminate H.
Qed.
(** The premises of [C103_push_then_clone]: a push of [ex_hist] to an empty server, a push to
    another repository, a clone. *)
Definition ssh_push : request := QSsh (fun _ => 7) (ssh_line ReceivePack (bs "demo")) [ex_ssh_head; pack_of ex_hist].
Definition ssh_after : world := serve_all ex_env Release stored 50 ex_cut [push_other] (fst (serve ex_env Release stored 50 ex_cut ssh_push (world_of db_empty))).
Definition ssh_after_check : list bool :=
  [forallb (row_check (ex_hist ++ ex_hist3)) (d_nodes (w_db ssh_after));
   forallb (commit_check [(ex_top, oid ex_root); (ex_top3, oid ex_root3)]) (d_commits (w_db ssh_after)); nlen (d_nodes (w_db ssh_after)) =? 6].
Lemma ssh_after_checked : all_of ssh_after_check = true.
Proof. vm_compute. reflexivity. Qed.
Lemma ssh_after_free : collision_free (repo_objects ex_env (w_db ssh_after) (bs "demo")).
Proof.
  apply (free_sub _ (fun o => In o (ex_hist ++ ex_hist3))); [|exact (hs_free _ _ both_ok)].
  apply (repo_within _ [(ex_top, oid ex_root); (ex_top3, oid ex_root3)]); [exact both_id| |exact (all_of_in ssh_after_check 0 _ ssh_after_checked eq_refl)|exact (all_of_in ssh_after_check 1 _ ssh_after_checked eq_refl)].
  intros o h Hc. apply two_pairs in Hc as [[-> ->]|[-> ->]].
  - split; [left; reflexivity|]. split; [apply oid_ok, tree_base|exact ex_top_root].
  - split; [apply in_or_app; right; left; reflexivity|]. split; [apply oid_ok, tree_base|exact ex_top3_root].
Qed.
Example C103_ex : exists objs, teq_equiv ex_env /\ codec_ok stored /\ (forall d, pieces 65515 d (ex_cut d)) /\
  refs_table (w_db (world_of db_empty)) /\ Forall addressed_row (d_nodes (w_db (world_of db_empty))) /\ commits_at ex_env (w_db (world_of db_empty)) (bs "demo") = [] /\
  like ex_env (bs "demo") (bs "demo") = true /\ teq ex_env (bs "refs/heads/master" ++ [0]) master = true /\
  (forall w1, w_db w1 = w_db (world_of db_empty) -> git_pack stored (get_hash_object ex_env w1) (pack_of ex_hist) objs) /\
  history (bs "demo") (map snd objs) /\ (exists d, In (Commit, d) (map snd objs)) /\ clone_request clone_body /\
  elsewhere ex_env (bs "demo") [push_other] /\ collision_free (repo_objects ex_env (w_db ssh_after) (bs "demo")) /\
  nlen (d_nodes (w_db ssh_after)) = 6.
Proof.
  destruct (ex_pack (get_hash_object ex_env (world_of db_empty))) as (objs & G & E). exists objs. rewrite E.
  split; [exact ex_equiv|]. split; [exact stored_ok|]. split; [exact ex_cut_ok|].
  split; [split; [constructor|intros r []]|]. split; [constructor|]. split; [reflexivity|]. split; [vm_compute; reflexivity|]. split; [vm_compute; reflexivity|].
  split; [|split; [apply ex_hist_ok; reflexivity|]].
  { intros w1 D. replace (get_hash_object ex_env w1) with (get_hash_object ex_env (world_of db_empty)); [exact G|]. unfold get_hash_object. rewrite D. reflexivity. }
  split; [exists (snd ex_top); left; reflexivity|]. split; [exact clone_body_ok|]. split; [|split; [exact ssh_after_free|]].
  - intros r p [<-|[]] A. rewrite (about_unique _ _ _ A (ab_push _ _ _ _ _ _ _ push_other_at)). reflexivity.
  - apply N.eqb_eq. exact (all_of_in ssh_after_check 2 _ ssh_after_checked eq_refl).
Qed.

(** The premises of [C104_split], [C105_prefix], [C105_http] and [C105_ssh]: the push of [ex_hist]
    cut anywhere in its pack. *)
Example C104_split_ex : forall k, (0 < k < length (pack_of ex_hist))%nat -> exists objs,
  streaming stored /\ git_pack stored (get_hash_object ex_env (world_of db_empty)) (pack_of ex_hist) objs /\
  collision_free (fun o => In o (map snd objs)) /\ nlen (pack_of ex_hist) < 2 ^ 32 /\
  pack_of ex_hist = firstn k (pack_of ex_hist) ++ skipn k (pack_of ex_hist) /\ firstn k (pack_of ex_hist) <> [] /\ skipn k (pack_of ex_hist) <> [] /\
  fs_get (w_files (world_of db_empty)) (temp_path 7) = None /\ (200 < length (pack_of ex_hist))%nat.
Proof.
  intros k Hk. destruct (ex_pack (get_hash_object ex_env (world_of db_empty))) as (objs & G & E). exists objs. rewrite E.
  split; [exact stored_streaming|]. split; [exact G|]. split; [exact (hs_free _ _ (proj1 (ex_hist_ok (bs "demo") eq_refl)))|]. split; [exact ex_pack_small|].
  split; [symmetry; apply firstn_skipn|].
  split; [intros K; apply (f_equal (@length N)) in K; rewrite firstn_length in K; cbn [length] in K; lia|].
  split; [intros K; apply (f_equal (@length N)) in K; rewrite skipn_length in K; cbn [length] in K; lia|].
  split; [reflexivity|]. apply Nat.ltb_lt. vm_compute. reflexivity.
Qed.
(** A fetch whose packet stops before the done line. *)
Example C104_no_done_ex : req_bytes [RWant (repeat 97 40) (bs " multi_ack_detailed side-band-64k agent=git/2.40"); RFlush] (add_pkt_line [] want_line ++ flush) /\
  first_tail [RWant (repeat 97 40) (bs " multi_ack_detailed side-band-64k agent=git/2.40"); RFlush] (Some (bs "multi_ack_detailed side-band-64k agent=git/2.40")) /\
  utf8_text (bs "multi_ack_detailed side-band-64k agent=git/2.40").
Proof.
  split; [|split; [constructor|apply utf8_spec; reflexivity]].
  apply rb_cons.
  - split; [reflexivity|]. apply Forall_forall. intros x Hx. apply repeat_spec in Hx. subst x. reflexivity.
  - constructor. apply hex4_pkt. vm_compute. discriminate.
  - change flush with (flush ++ []). apply rb_cons; [exact Logic.I|constructor|constructor].
Qed.

(** The same bytes in two packets or in one: the first way they are a push, the second way
    they are sent back. *)
Theorem C104_refuted : exists e m c cut now cmd l1 l2 w, env_ok e /\ codec_ok c /\ no_failure w /\ concat l1 = concat l2 /\
  exists fuel0, forall fuel, (fuel0 <= fuel)%nat ->
    (exists r, d_refs (w_db (fst (serve e m c fuel cut (QSsh now cmd l1) w))) = [r]) /\ w_db (fst (serve e m c fuel cut (QSsh now cmd l2) w)) = w_db w /\ d_refs (w_db w) = [].
Proof.
  destruct C102_create_ex as (objs & w & adv & E & He & Q & Hi & Hx & Hw & Hc & Ln & Lp & Rq & G & Hl & Hs).
  exists ex_env, Release, stored, ex_cut, (fun _ => 7), (ssh_line ReceivePack (bs "demo")), [ex_ssh_head; pack_of ex_hist], [ex_ssh_head ++ pack_of ex_hist], (world_of db_empty).
  split; [exact He|]. split; [exact stored_ok|]. split; [reflexivity|]. split; [cbn [concat]; rewrite !app_nil_r; reflexivity|].
  destruct (C102_create ex_env Release stored ex_cut (fun _ => 7) (bs "demo") _ _ _ ex_caps ex_ssh_head (pack_of ex_hist) objs (world_of db_empty) w adv E He Q Hi Hx Hw Hc Ln Lp Rq G Hl Hs)
    as (fuel0 & w' & reply & rows & crows & cl & _ & _ & _ & D & _ & Es).
  assert (Dw : w_db w = db_empty).
  { destruct C101_new_ex as (_ & Q0 & Hn & Ht & N & R & _).
    destruct (C101_new ex_env ReceivePack (bs "demo") (world_of db_empty) He Q0 Hn Ht N R) as (w2 & adv2 & E2 & D2 & _). rewrite E in E2.
    injection E2 as <- _. exact D2. }
  exists fuel0. intros fuel Hf. split; [|split; [|reflexivity]].
  - rewrite (Es fuel Hf). cbn [fst]. rewrite D, Dw. eexists. reflexivity.
  - assert (Rj : push_request (repeat 48 40) (to_plain_str (oid ex_top)) (bs "refs/heads/master") ex_caps (pack_of ex_hist) (ex_ssh_head ++ pack_of ex_hist)).
    { destruct Rq as (b & Hb & ->). exists b. split; [exact Hb|]. rewrite app_nil_r, <- app_assoc. reflexivity. }
    destruct (C104_joined ex_env Release stored fuel ex_cut (fun _ => 7) (bs "demo") _ _ _ _ _ (pack_of ex_hist) w zero_word (hex_word _ _ Hx Hi) Hw Hc Rj) as (pp' & Ej).
    exact (eq_trans (f_equal (fun x => w_db (fst x)) (session_serve _ _ _ _ _ _ _ _ _ _ _ _ _ _ _ _ E Ej)) Dw).
Qed.

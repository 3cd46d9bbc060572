(** C109-C111: channels of an SSH connection, who may connect, the host key. *)

From Verif Require Import Base BaseLemmas Digest ModelUtils ModelObject ModelBase ModelPack ModelDecode ModelPkt ModelStorage ModelProto ModelLfs ModelGateway ModelService ModelConn
  StoredZlib SpecObject SpecIdx SpecBase SpecPack SpecPkt SpecStorage SpecProto SpecService SpecConn ProofObject ProofUtf8 ProofBase ProofPack ProofShort ProofPkt ProofReq
  ProofEncode ProofNodes ProofStorage ProofPush ProofClone ProofRepo ProofRefs ProofSession ProofGraph ProofExample ProofService PropPkt PropStorage PropProto PropGateway PropService PropSsh.
Open Scope N_scope.

(** ** C109: channels *)

Lemma on_app : forall ch a b, on_channel ch (a ++ b) = on_channel ch a ++ on_channel ch b.
Proof. intros ch a b. unfold on_channel. rewrite filter_app, map_app, concat_app. reflexivity. Qed.

(** The channel makes no difference but for where the answer goes. *)
Theorem C109_blind : forall e m c fuel cut l l' s w, Forall2 same_event l l' ->
  match conn_run e m c fuel cut s l w, conn_run e m c fuel cut s l' w with
  | (w1, Ok (s1, out1)), (w2, Ok (s2, out2)) => w1 = w2 /\ s1 = s2 /\ map snd out1 = map snd out2
  | (w1, Err x), (w2, Err y) => w1 = w2 /\ x = y
  | (w1, Panic), (w2, Panic) => w1 = w2
  | (w1, OutOfFuel), (w2, OutOfFuel) => w1 = w2
  | _, _ => False
  end.
Proof.
  intros e m c fuel cut l l' s w H. revert s w. induction H as [|a b l l' E H IH]; intros s w.
  - cbn. repeat split.
  - cbn [conn_run]. unfold mbind, ret.
    assert (K : match conn_step e m c fuel cut s a w, conn_step e m c fuel cut s b w with
      | (w1, Ok (s1, out1)), (w2, Ok (s2, out2)) => w1 = w2 /\ s1 = s2 /\ map snd out1 = map snd out2
      | (w1, Err x), (w2, Err y) => w1 = w2 /\ x = y
      | (w1, Panic), (w2, Panic) => w1 = w2
      | (w1, OutOfFuel), (w2, OutOfFuel) => w1 = w2
      | _, _ => False end).
    { destruct E as [x|x y cmd|now x y d]; cbn [conn_step]; unfold mbind, lift, ret.
      - repeat split.
      - destruct (cn_in s); [|repeat split]. destruct (ssh_command e (trim cmd) w) as [w1 [[pp reply]| | |]]; repeat split.
      - destruct (cn_in s); [|repeat split]. destruct (unwrap_opt (cn_proto s)) as [pp| | |]; [|repeat split..].
        destruct (ssh_data e m c fuel cut now pp d w) as [w1 [[pp' reply]| | |]]; repeat split. }
    destruct (conn_step e m c fuel cut s a w) as [w1 [[s1 o1]| | |]]; destruct (conn_step e m c fuel cut s b w) as [w2 [[s2 o2]| | |]]; try contradiction; try exact K.
    destruct K as (-> & -> & Eo). specialize (IH s2 w2).
    destruct (conn_run e m c fuel cut s2 l w2) as [w3 [[s3 o3]| | |]]; destruct (conn_run e m c fuel cut s2 l' w2) as [w4 [[s4 o4]| | |]]; try contradiction; try exact IH.
    destruct IH as (-> & -> & Eo'). rewrite !map_app, Eo, Eo'. repeat split.
Qed.

Lemma run_app : forall e m c fuel cut l1 l2 s w w1 s1 o1, conn_run e m c fuel cut s l1 w = (w1, Ok (s1, o1)) ->
  conn_run e m c fuel cut s (l1 ++ l2) w =
    (let! (s2, o2) := conn_run e m c fuel cut s1 l2 in ret (s2, o1 ++ o2)) w1.
Proof.
  intros e m c fuel cut. induction l1 as [|ev l1 IH]; intros l2 s w w1 s1 o1 E.
  - cbn [conn_run] in E. unfold ret in E. injection E as <- <- <-. cbn [app]. unfold mbind, ret.
    destruct (conn_run e m c fuel cut s l2 w) as [w2 [[s2 o2]| | |]]; reflexivity.
  - cbn [conn_run app] in E |- *. unfold mbind at 1 in E. unfold mbind at 1.
    destruct (conn_step e m c fuel cut s ev w) as [w2 [[s2 a]| | |]]; [|discriminate..]. unfold mbind at 1 in E.
    destruct (conn_run e m c fuel cut s2 l1 w2) as [w3 [[s3 b]| | |]] eqn:E3; [|discriminate..]. unfold ret in E. injection E as <- <- <-.
    unfold mbind at 1. rewrite (IH l2 s2 w2 w3 s3 b E3). unfold mbind, ret.
    destruct (conn_run e m c fuel cut s3 l2 w3) as [w4 [[s4 o4]| | |]]; [rewrite app_assoc|..]; reflexivity.
Qed.
Lemma run_packets : forall e m c fuel cut ch now packets pp w w' pp' text, ssh_session e m c fuel cut now pp packets w = (w', Ok (pp', text)) ->
  exists out, conn_run e m c fuel cut (mkConn true (Some pp)) (packets_on ch now packets) w = (w', Ok (mkConn true (Some pp'), out)) /\
    on_channel ch out = text /\ forall x, x <> ch -> on_channel x out = [].
Proof.
  intros e m c fuel cut ch now. induction packets as [|d r IH]; intros pp w w' pp' text E.
  - cbn [ssh_session] in E. unfold ret in E. injection E as <- <- <-. exists []. split; [reflexivity|split; [reflexivity|intros; reflexivity]].
  - cbn [ssh_session] in E. unfold mbind at 1 in E. cbn [packets_on conn_run conn_step cn_in cn_proto unwrap_opt]. unfold lift, mbind at 1 2 3.
    destruct (ssh_data e m c fuel cut (now (length r)) pp d w) as [w1 [[pp1 a]| | |]]; [|discriminate..]. unfold mbind at 1 in E. unfold ret at 1.
    destruct (ssh_session e m c fuel cut now pp1 r w1) as [w2 [[pp2 b]| | |]] eqn:E2; [|discriminate..]. unfold ret in E. injection E as <- <- <-.
    destruct (IH _ _ _ _ _ E2) as (out & Er & On & Off). exists ((ch, a) :: out). unfold mbind at 1. rewrite Er. unfold ret. split; [reflexivity|].
    change ((ch, a) :: out) with ([(ch, a)] ++ out). split.
    + rewrite on_app, On. unfold on_channel. cbn [filter map fst]. rewrite N.eqb_refl. cbn [map snd concat]. rewrite app_nil_r. reflexivity.
    + intros x Hx. rewrite on_app, (Off x Hx), app_nil_r. unfold on_channel. cbn [filter map fst]. rewrite (proj2 (N.eqb_neq ch x)) by (intros K; apply Hx; auto). reflexivity.
Qed.
Lemma serve_parts : forall e m c fuel cut now cmd packets w w' reply, serve e m c fuel cut (QSsh now cmd packets) w = (w', Ok reply) ->
  exists w1 pp adv pp' text, ssh_command e cmd w = (w1, Ok (pp, adv)) /\ ssh_session e m c fuel cut now pp packets w1 = (w', Ok (pp', text)) /\ reply = adv ++ text.
Proof.
  intros e m c fuel cut now cmd packets w w' reply E. unfold serve in E. unfold mbind at 1 in E.
  destruct (ssh_command e cmd w) as [w1 [[pp adv]| | |]] eqn:E1; [|discriminate..]. unfold mbind at 1 in E.
  destruct (ssh_session e m c fuel cut now pp packets w1) as [w2 [[pp' text]| | |]] eqn:E2; [|discriminate..]. unfold ret in E. injection E as <- <-.
  exists w1, pp, adv, pp', text. auto.
Qed.
Lemma on_one : forall ch a, on_channel ch [(ch, a)] = a.
Proof. intros ch a. unfold on_channel. cbn [filter map fst]. rewrite N.eqb_refl. cbn [map snd concat]. apply app_nil_r. Qed.
Lemma on_other : forall ch x a, x <> ch -> on_channel x [(ch, a)] = [].
Proof. intros ch x a H. unfold on_channel. cbn [filter map fst]. rewrite (proj2 (N.eqb_neq ch x)) by (intros K; apply H; auto). reflexivity. Qed.
Lemma exec_run : forall e m c fuel cut ch cmd p l w w1 pp adv, ssh_command e (trim cmd) w = (w1, Ok (pp, adv)) ->
  conn_run e m c fuel cut (mkConn true p) (EExec ch cmd :: l) w =
    (let! (s2, o2) := conn_run e m c fuel cut (mkConn true (Some pp)) l in ret (s2, (ch, adv) :: o2)) w1.
Proof.
  intros e m c fuel cut ch cmd p l w w1 pp adv E. cbn [conn_run conn_step cn_in]. unfold mbind at 1 2. rewrite E. reflexivity.
Qed.
Lemma auth_run : forall e m c fuel cut x s l w, auth x = true ->
  conn_run e m c fuel cut s (EAuth x :: l) w = conn_run e m c fuel cut (mkConn true (cn_proto s)) l w.
Proof.
  intros e m c fuel cut x s l w H. cbn [conn_run conn_step]. unfold mbind at 1, ret at 1. rewrite H, orb_true_r. unfold mbind, ret.
  destruct (conn_run e m c fuel cut (mkConn true (cn_proto s)) l w) as [w' [[s' o]| | |]]; reflexivity.
Qed.
Lemma one_session : forall e m c fuel cut s p w w' reply,
  serve e m c fuel cut (QSsh (ss_now s) (trim (ss_command s)) (ss_packets s)) w = (w', Ok reply) ->
  exists q out, conn_run e m c fuel cut (mkConn true p) (session_events s) w = (w', Ok (mkConn true q, out)) /\
    forall ch, on_channel ch out = on_channel ch [(ss_channel s, reply)].
Proof.
  intros e m c fuel cut [a now cmd packets] p w w' reply E. cbn [ss_now ss_command ss_packets ss_channel] in *.
  destruct (serve_parts _ _ _ _ _ _ _ _ _ _ _ E) as (w1 & pp & adv & pp' & text & E1 & E2 & ->).
  destruct (run_packets _ _ _ _ _ a _ _ _ _ _ _ _ E2) as (out & Er & On & Off).
  exists (Some pp'), ((a, adv) :: out). unfold session_events. cbn [ss_channel ss_now ss_command ss_packets].
  rewrite (exec_run _ _ _ _ _ a cmd p _ _ _ _ _ E1). unfold mbind. rewrite Er. unfold ret. split; [reflexivity|].
  intros ch. change ((a, adv) :: out) with ([(a, adv)] ++ out). rewrite on_app. destruct (N.eq_dec ch a) as [->|N].
  - rewrite !on_one, On. reflexivity.
  - rewrite !on_other, (Off ch N) by exact N. reflexivity.
Qed.

(** Sessions that take turns, on any channels, are what they are on connections of their
    own. *)
Theorem C109_turns : forall e m c fuel cut l p w w' out, each_alone (serve e m c fuel cut) l w w' out ->
  exists q out', conn_run e m c fuel cut (mkConn true p) (flat_map session_events l) w = (w', Ok (mkConn true q, out')) /\
    forall ch, on_channel ch out' = on_channel ch out.
Proof.
  intros e m c fuel cut l p w w' out H. revert p. induction H as [w|s l w w1 w2 reply out E H IH]; intros p.
  - exists p, []. split; reflexivity.
  - destruct (one_session _ _ _ _ _ s p _ _ _ E) as (q & o1 & E1 & On1). destruct (IH q) as (q' & o2 & E2 & On2). exists q', (o1 ++ o2).
    cbn [flat_map]. rewrite (run_app _ _ _ _ _ _ _ _ _ _ _ _ E1). unfold mbind. rewrite E2. unfold ret. split; [reflexivity|].
    intros ch. rewrite on_app, On1, On2. change ((ss_channel s, reply) :: out) with ([(ss_channel s, reply)] ++ out). rewrite on_app. reflexivity.
Qed.

(** A command on another channel takes over what is sent afterwards, on whatever channel. *)
Theorem C109_taken_over : forall e m c fuel cut a b cmd1 cmd2 now packets p w w1 pp1 adv1 w2 reply, a <> b ->
  ssh_command e (trim cmd1) w = (w1, Ok (pp1, adv1)) ->
  serve e m c fuel cut (QSsh now (trim cmd2) packets) w1 = (w2, Ok reply) ->
  exists q out adv2 text, reply = adv2 ++ text /\ (exists w' pp2, ssh_command e (trim cmd2) w1 = (w', Ok (pp2, adv2))) /\ on_channel b out = adv2 /\ on_channel a out = adv1 ++ text /\
    conn_run e m c fuel cut (mkConn true p) (EExec a cmd1 :: EExec b cmd2 :: packets_on a now packets) w = (w2, Ok (mkConn true q, out)).
Proof.
  intros e m c fuel cut a b cmd1 cmd2 now packets p w w1 pp1 adv1 w2 reply N E1 E.
  destruct (serve_parts _ _ _ _ _ _ _ _ _ _ _ E) as (w3 & pp & adv & pp' & text & E2 & E3 & ->).
  destruct (run_packets _ _ _ _ _ a _ _ _ _ _ _ _ E3) as (out & Er & On & Off).
  exists (Some pp'), ((a, adv1) :: (b, adv) :: out), adv, text. split; [reflexivity|]. split; [exists w3, pp; exact E2|].
  change ((a, adv1) :: (b, adv) :: out) with ([(a, adv1)] ++ [(b, adv)] ++ out). rewrite !on_app, on_one, on_one.
  rewrite (on_other a b) by auto. rewrite (on_other b a) by auto. rewrite On, (Off b) by auto. rewrite app_nil_r. split; [reflexivity|]. split; [reflexivity|].
  rewrite (exec_run _ _ _ _ _ a cmd1 p _ _ _ _ _ E1). unfold mbind. rewrite (exec_run _ _ _ _ _ b cmd2 _ _ _ _ _ _ E2). unfold mbind. rewrite Er. reflexivity.
Qed.
(** If it comes between the command and the pack of a push, the connection ends and
    nothing is stored. *)
Theorem C109_between : forall e m c fuel cut a b cmd now pp w w1 path adv pack more, cn_in pp = true ->
  ssh_command e (trim cmd) w = (w1, Ok (mkProto Ssh path (Some ReceivePack) [] [], adv)) ->
  starts_with (bs "PACK") pack = true ->
  conn_run e m c fuel cut pp (EExec b cmd :: EData now a pack :: more) w = (w1, Panic).
Proof.
  intros e m c fuel cut a b cmd now [i p] w w1 path adv pack more Hi E Hp. cbn [cn_in] in Hi. subst i.
  rewrite (exec_run _ _ _ _ _ b cmd p _ _ _ _ _ E). cbn [conn_run conn_step cn_in cn_proto unwrap_opt]. unfold lift, mbind at 1 2 3 4.
  unfold ssh_data, git_receive_pack. cbn [pp_service]. rewrite Hp. reflexivity.
Qed.
(** Data before any command ends the connection. *)
Theorem C109_no_command : forall e m c fuel cut a now d more w,
  conn_run e m c fuel cut (mkConn true None) (EData now a d :: more) w = (w, Panic).
Proof. reflexivity. Qed.

(** A push of [ex_hist] to a server without repositories. *)
Lemma first_push : forall path w, w_db w = db_empty -> no_failure w -> ~ In 32 path -> forallb (fun x => x <? 128) path = true -> (length path <= 64)%nat ->
  short_name path = true -> trim (ssh_line ReceivePack path) = ssh_line ReceivePack path ->
  exists w1 adv fuel0 w' reply cl r, ssh_command ex_env (trim (ssh_line ReceivePack path)) w = (w1, Ok (mkProto Ssh path (Some ReceivePack) [] [], adv)) /\
    w_db w1 = db_empty /\ no_failure w1 /\ status_reply cl [bs "ok refs/heads/master" ++ [0]] reply /\ d_refs (w_db w') = [r] /\ r_repo_path r = path /\
    forall fuel, (fuel0 <= fuel)%nat -> serve ex_env Release stored fuel ex_cut (QSsh (fun _ => 7) (trim (ssh_line ReceivePack path)) [ex_ssh_head; pack_of ex_hist]) w = (w', Ok (adv ++ reply)).
Proof.
  intros path w D Q Hn Ha Hl Hs Et. rewrite Et.
  destruct (C101_new ex_env ReceivePack path w ex_env_ok Q Hn (ascii_utf8 _ Ha)) as (w1 & adv & E & D1 & _ & Q1 & _); [rewrite D; intros r []|rewrite D; reflexivity|].
  destruct (ex_pack (get_hash_object ex_env w1)) as (objs & G & Eo).
  destruct (C102_create ex_env Release stored ex_cut (fun _ => 7) path (to_plain_str (oid ex_top)) (oid ex_top) (bs "refs/heads/master") ex_caps ex_ssh_head (pack_of ex_hist) objs w w1 adv)
    as (fuel0 & w' & reply & rows & crows & cl & _ & St & _ & D2 & _ & Es).
  - exact E.
  - exact ex_env_ok.
  - exact Q1.
  - exact ex_top_id.
  - apply plain_lower. exact ex_top_id.
  - exact master_word.
  - apply utf8_spec. reflexivity.
  - exists 17%nat. split; [exact (ascii_text (bs "refs/heads/master") eq_refl)|lia].
  - exists (length path). split; [exact (ascii_text path Ha)|exact Hl].
  - exact ex_ssh_line.
  - exact G.
  - exact ex_pack_small.
  - rewrite Eo. apply ex_hist_ok. exact Hs.
  - exists w1, adv, fuel0, w', reply, cl, (mkRef (d_next_ref (w_db w1)) path (bs "refs/heads/master" ++ [0]) (to_plain_str (oid ex_top))).
    split; [exact E|]. split; [rewrite D1; exact D|]. split; [exact Q1|]. split; [exact St|]. split; [rewrite D2, D1, D; reflexivity|]. split; [reflexivity|exact Es].
Qed.
Lemma demo_push : forall w, w_db w = db_empty -> no_failure w ->
  exists w1 adv fuel0 w' reply cl r, ssh_command ex_env (trim (ssh_line ReceivePack (bs "demo"))) w = (w1, Ok (mkProto Ssh (bs "demo") (Some ReceivePack) [] [], adv)) /\
    w_db w1 = db_empty /\ no_failure w1 /\ status_reply cl [bs "ok refs/heads/master" ++ [0]] reply /\ d_refs (w_db w') = [r] /\ r_repo_path r = bs "demo" /\
    forall fuel, (fuel0 <= fuel)%nat -> serve ex_env Release stored fuel ex_cut (QSsh (fun _ => 7) (trim (ssh_line ReceivePack (bs "demo"))) [ex_ssh_head; pack_of ex_hist]) w = (w', Ok (adv ++ reply)).
Proof. intros w D Q. apply first_push; [exact D|exact Q|exact demo_word|reflexivity|cbn; lia|reflexivity|vm_compute; reflexivity]. Qed.
Lemma other_push : forall w, w_db w = db_empty -> no_failure w ->
  exists w1 adv fuel0 w' reply cl r, ssh_command ex_env (trim (ssh_line ReceivePack (bs "other"))) w = (w1, Ok (mkProto Ssh (bs "other") (Some ReceivePack) [] [], adv)) /\
    w_db w1 = db_empty /\ no_failure w1 /\ status_reply cl [bs "ok refs/heads/master" ++ [0]] reply /\ d_refs (w_db w') = [r] /\ r_repo_path r = bs "other" /\
    forall fuel, (fuel0 <= fuel)%nat -> serve ex_env Release stored fuel ex_cut (QSsh (fun _ => 7) (trim (ssh_line ReceivePack (bs "other"))) [ex_ssh_head; pack_of ex_hist]) w = (w', Ok (adv ++ reply)).
Proof. intros w D Q. apply first_push; [exact D|exact Q|vm_compute; intuition discriminate|reflexivity|cbn; lia|reflexivity|vm_compute; reflexivity]. Qed.

(** On channel 0 a push to demo; before its first packet channel 1 gives a command for other.
    The push ends up in other, and is answered with ok. *)
Definition mixed_events : list ssh_event :=
  [EAuth (CKey (bs "git") (bs "key")); EExec 0 (ssh_line ReceivePack (bs "demo")); EExec 1 (ssh_line ReceivePack (bs "other"))] ++
  packets_on 0 (fun _ => 7) [ex_ssh_head; pack_of ex_hist].
Theorem C109_refuted : exists e m c cut events w, env_ok e /\ codec_ok c /\ no_failure w /\ w_db w = db_empty /\
  exists fuel0, forall fuel, (fuel0 <= fuel)%nat ->
    (exists w1 s1 out1 r1, conn_run e m c fuel cut conn_new (filter (belongs 0) events) w = (w1, Ok (s1, out1)) /\ d_refs (w_db w1) = [r1] /\ r_repo_path r1 = bs "demo") /\
    (exists w2 s2 out2 r2, conn_run e m c fuel cut conn_new events w = (w2, Ok (s2, out2)) /\ d_refs (w_db w2) = [r2] /\ r_repo_path r2 = bs "other" /\
       exists adv text cl, on_channel 0 out2 = adv ++ text /\ status_reply cl [bs "ok refs/heads/master" ++ [0]] text).
Proof.
  exists ex_env, Release, stored, ex_cut, mixed_events, (world_of db_empty).
  split; [exact ex_env_ok|]. split; [exact stored_ok|]. split; [reflexivity|]. split; [reflexivity|].
  destruct (demo_push (world_of db_empty) eq_refl eq_refl) as (wd & advd & fd & wd' & repd & cld & rd & Ed & Dd & Qd & _ & Rd & Pd & Sd).
  destruct (other_push wd Dd Qd) as (wo & advo & fo & wo' & repo & clo & ro & Eo & _ & _ & So & Ro & Po & Vo).
  exists (Nat.max fd fo). intros fuel Hf. specialize (Sd fuel ltac:(lia)). specialize (Vo fuel ltac:(lia)). split.
  - assert (Ef : filter (belongs 0) mixed_events = EAuth (CKey (bs "git") (bs "key")) :: session_events (mkSession 0 (fun _ => 7) (ssh_line ReceivePack (bs "demo")) [ex_ssh_head; pack_of ex_hist])).
    { unfold mixed_events, session_events. rewrite filter_app. reflexivity. }
    rewrite Ef. destruct (one_session ex_env Release stored fuel ex_cut (mkSession 0 (fun _ => 7) (ssh_line ReceivePack (bs "demo")) [ex_ssh_head; pack_of ex_hist]) None _ _ _ Sd) as (q & out & Er & _).
    exists wd', (mkConn true q), out, rd. rewrite auth_run by reflexivity. auto.
  - destruct (C109_taken_over ex_env Release stored fuel ex_cut 0 1 (ssh_line ReceivePack (bs "demo")) (ssh_line ReceivePack (bs "other")) (fun _ => 7) [ex_ssh_head; pack_of ex_hist] None _ _ _ _ _ _ ltac:(discriminate) Ed Vo)
      as (q & out & adv2 & text & Et & (w3 & pp3 & E3) & _ & On & Er).
    exists wo', (mkConn true q), out, ro. split; [|split; [exact Ro|split; [exact Po|]]].
    + unfold mixed_events. cbn [app]. rewrite auth_run by reflexivity. exact Er.
    + rewrite Eo in E3. injection E3 as _ _ <-. apply app_inv_head in Et. subst text. exists advd, repo, clo. auto.
Qed.
(** The premises of [C109_turns], [C109_between]: a look at other on channel 1, then a push to demo on
    channel 0. *)
Definition look_session : session := mkSession 1 (fun _ => 7) (ssh_line ReceivePack (bs "other")) [].
Definition push_session : session := mkSession 0 (fun _ => 7) (ssh_line ReceivePack (bs "demo")) [ex_ssh_head; pack_of ex_hist].
Example C109_turns_ex : exists fuel0, forall fuel, (fuel0 <= fuel)%nat -> exists w out r,
  each_alone (serve ex_env Release stored fuel ex_cut) [look_session; push_session] (world_of db_empty) w out /\ d_refs (w_db w) = [r] /\ r_repo_path r = bs "demo" /\
  starts_with (bs "PACK") (pack_of ex_hist) = true.
Proof.
  destruct (other_push (world_of db_empty) eq_refl eq_refl) as (wo & advo & _ & _ & _ & _ & _ & Eo & Do & Qo & _).
  destruct (demo_push wo Do Qo) as (wd & advd & fd & wd' & repd & cld & rd & Ed & Dd & Qd & _ & Rd & Pd & Sd).
  exists fd. intros fuel Hf. exists wd', [(1, advo ++ []); (0, advd ++ repd)], rd. split; [|split; [exact Rd|split; [exact Pd|vm_compute; reflexivity]]].
  apply (ea_cons _ look_session _ _ wo).
  - unfold look_session. cbn [ss_now ss_command ss_packets]. unfold serve. rewrite (mbind_ok _ _ _ _ _ _ _ Eo). reflexivity.
  - apply (ea_cons _ push_session _ _ wd'); [exact (Sd fuel Hf)|constructor].
Qed.

(** ** C110: who may connect *)

(** A client that has not been accepted has no effect and gets nothing. *)
Theorem C110_not_accepted : forall e m c fuel cut l p w, (forall x, In (EAuth x) l -> exists user, x = CNone user) ->
  conn_run e m c fuel cut (mkConn false p) l w = (w, Ok (mkConn false p, [])).
Proof.
  intros e m c fuel cut l p w H. induction l as [|ev l IH]; [reflexivity|].
  assert (K : conn_step e m c fuel cut (mkConn false p) ev w = (w, Ok (mkConn false p, []))).
  { destruct ev as [x|ch cmd|now ch d]; [|reflexivity..]. destruct (H x (or_introl eq_refl)) as (u & ->). reflexivity. }
  cbn [conn_run]. rewrite (mbind_ok _ _ _ _ _ _ _ K). rewrite (mbind_ok _ _ _ _ _ _ _ (IH (fun x Hx => H x (or_intror Hx)))). reflexivity.
Qed.
(** Every password and every key is accepted: what a client may do does not depend on who it
    says it is. *)
Theorem C110_anyone : forall e m c fuel cut x y l w, (forall u, x <> CNone u) -> (forall u, y <> CNone u) ->
  conn_run e m c fuel cut conn_new (EAuth x :: l) w = conn_run e m c fuel cut conn_new (EAuth y :: l) w.
Proof.
  intros e m c fuel cut x y l w Hx Hy.
  assert (A : forall z, (forall u, z <> CNone u) -> auth z = true) by (intros [u|u q|u k] Hz; [destruct (Hz u eq_refl)|reflexivity..]).
  rewrite !auth_run by (apply A; assumption). reflexivity.
Qed.
Lemma no_auth : forall y s, ~ In (EAuth y) (session_events s).
Proof.
  intros y s [K|K]; [discriminate K|]. revert K. generalize (ss_packets s). induction l as [|d l IH]; [intros []|]. intros [K|K]; [discriminate K|exact (IH K)].
Qed.
(** Whatever set of credentials is to be allowed: a client with any other creates a reference. *)
Theorem C110_refuted : exists e m c cut w, env_ok e /\ codec_ok c /\ no_failure w /\ d_refs (w_db w) = [] /\
  forall (allowed : credential -> Prop) x, ~ allowed x -> (forall u, x <> CNone u) ->
  exists events, offers_only x events /\
  exists fuel0, forall fuel, (fuel0 <= fuel)%nat -> exists w1 s out r, conn_run e m c fuel cut conn_new events w = (w1, Ok (s, out)) /\ In r (d_refs (w_db w1)).
Proof.
  exists ex_env, Release, stored, ex_cut, (world_of db_empty).
  split; [exact ex_env_ok|]. split; [exact stored_ok|]. split; [reflexivity|]. split; [reflexivity|].
  intros allowed x _ Hx. exists (EAuth x :: session_events push_session). split.
  { intros y [K|K]; [injection K; auto|]. destruct (no_auth _ _ K). }
  destruct (demo_push (world_of db_empty) eq_refl eq_refl) as (wd & advd & fd & wd' & repd & cld & rd & _ & _ & _ & _ & Rd & _ & Sd).
  exists fd. intros fuel Hf. destruct (one_session ex_env Release stored fuel ex_cut push_session None _ _ _ (Sd fuel Hf)) as (q & out & Er & _).
  exists wd', (mkConn true q), out, rd. split; [|rewrite Rd; left; reflexivity].
  rewrite auth_run; [exact Er|]. destruct x as [u|u p|u k]; [destruct (Hx u eq_refl)|reflexivity..].
Qed.
Example C110_ex : ~ (fun y => y = CPassword (bs "alice") (bs "secret")) (CPassword (bs "alice") (bs "guess")) /\ (forall u, CPassword (bs "alice") (bs "guess") <> CNone u) /\
  (forall x, In (EAuth x) [EAuth (CNone (bs "alice")); EExec 0 (ssh_line ReceivePack (bs "demo"))] -> exists user, x = CNone user).
Proof.
  split; [intros K; vm_compute in K; discriminate K|]. split; [discriminate|]. intros x [K|[K|[]]]; [injection K as <-; eexists; reflexivity|discriminate K].
Qed.

(** ** C111: the host key *)

(** A key pair as ed25519 makes them. *)
Definition good_key (point : bytes -> bool) (k : keypair) : Prop :=
  length (k_secret k) = 32%nat /\ length (k_public k) = 32%nat /\ point (k_public k) = true.
Lemma key_back : forall point k, good_key point k -> key_of point (key_bytes k) = Some k.
Proof.
  intros point [a b] (La & Lb & P). unfold key_of, key_bytes. cbn [k_secret k_public] in *. rewrite app_length, La, Lb.
  rewrite skipn_app, firstn_app, La, skipn_all2, firstn_all2 by lia. cbn [Nat.eqb Nat.add Nat.sub andb firstn skipn app]. rewrite P. cbn [andb]. rewrite app_nil_r. reflexivity.
Qed.
(** The first start makes the key; every later start, with whatever the random numbers would
    give, has the same key and leaves all files alone. *)
Theorem C111_stable : forall point path k f, good_key point k -> fs_get f path = None ->
  exists f1, load_key point path true k f = (f1, Ok k) /\ (forall p, p <> path -> fs_get f1 p = fs_get f p) /\
    forall later, starts point path later f1 = (f1, map (fun _ => Ok k) later).
Proof.
  intros point path k f G N. unfold load_key at 1. rewrite N. eexists. split; [reflexivity|]. split; [intros p Hp; apply fs_get_put_other; exact Hp|].
  induction later as [|[cr k'] later IH]; [reflexivity|]. cbn [starts]. unfold load_key at 1. rewrite fs_get_put_same, (key_back _ _ G). cbn [unwrap_opt]. rewrite IH. reflexivity.
Qed.
(** A file that is there is never written to: each start gives the key in it, or fails. *)
Theorem C111_kept : forall point path data f later, fs_get f path = Some data ->
  starts point path later f = (f, map (fun _ => match key_of point data with Some k => Ok k | None => Panic end) later).
Proof.
  intros point path data f later E. induction later as [|[cr k] later IH]; [reflexivity|]. cbn [starts]. unfold load_key. rewrite E, IH. destruct (key_of point data); reflexivity.
Qed.
(** Over all starts: none succeeds until the file can be made, then all have the key of the
    one that made it. *)
Theorem C111_starts : forall point path before k later f, good_key point k -> fs_get f path = None -> Forall (fun x => fst x = false) before ->
  exists f1, starts point path (before ++ (true, k) :: later) f = (f1, map (fun _ => Panic) before ++ map (fun _ => Ok k) ((true, k) :: later)) /\
    forall p, p <> path -> fs_get f1 p = fs_get f p.
Proof.
  intros point path before k later f G N B. destruct (C111_stable point path k f G N) as (f1 & E1 & E2 & E3). exists f1. split; [|exact E2].
  induction B as [|[cr k'] before Hc B IH]; cbn [app starts map].
  - rewrite E1, E3. reflexivity.
  - cbn [fst] in Hc. subst cr. unfold load_key at 1. rewrite N, IH. reflexivity.
Qed.
(** If the first start is interrupted before the whole file is written, no later start
    succeeds. *)
Theorem C111_cut_short : forall point path k n f later, good_key point k -> fs_get f path = None -> (n < 64)%nat ->
  snd (starts point path later (load_key_cut path k n f)) = map (fun _ => Panic) later.
Proof.
  intros point path k n f later (La & Lb & _) N Hn. unfold load_key_cut. rewrite N.
  rewrite (C111_kept point path (firstn n (key_bytes k))) by apply fs_get_put_same. cbn [snd].
  assert (E : key_of point (firstn n (key_bytes k)) = None).
  { unfold key_of. rewrite firstn_length. unfold key_bytes. rewrite app_length, La, Lb. rewrite (proj2 (Nat.eqb_neq _ _)) by lia. reflexivity. }
  rewrite E. reflexivity.
Qed.
(** A later start that is cut short, wherever, is of no consequence. *)
Theorem C111_cut_later : forall point path k k' n f later, good_key point k -> fs_get f path = Some (key_bytes k) ->
  starts point path later (load_key_cut path k' n f) = (f, map (fun _ => Ok k) later).
Proof.
  intros point path k k' n f later G E. unfold load_key_cut. rewrite E, (C111_kept point path _ f later E), (key_back _ _ G). reflexivity.
Qed.
Theorem C111_refuted : exists point path k n f later x, good_key point k /\ fs_get f path = None /\
  In x (snd (starts point path later (load_key_cut path k n f))) /\ forall k', x <> Ok k'.
Proof.
  exists (fun _ => true), [bs "id_rsa"], (mkKey (repeat 7 32) (repeat 9 32)), 0%nat, [], [(true, mkKey (repeat 8 32) (repeat 9 32))], Panic.
  split; [repeat split|]. split; [reflexivity|]. split; [|discriminate].
  rewrite C111_cut_short; [left; reflexivity|repeat split|reflexivity|lia].
Qed.
Example C111_ex : good_key (fun b => hd 0 b <? 128) (mkKey (repeat 7 32) (repeat 9 32)) /\ fs_get [([bs "other"], [1])] [bs "id_rsa"] = None /\
  snd (starts (fun b => hd 0 b <? 128) [bs "id_rsa"] [(true, mkKey (repeat 7 32) (repeat 9 32)); (true, mkKey (repeat 8 32) (repeat 9 32))] [([bs "other"], [1])]) =
    [Ok (mkKey (repeat 7 32) (repeat 9 32)); Ok (mkKey (repeat 7 32) (repeat 9 32))].
Proof. split; [repeat split|]. split; reflexivity. Qed.

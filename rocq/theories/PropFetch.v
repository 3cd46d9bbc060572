(** C112: fetches of limited depth. *)

From Verif Require Import Base BaseLemmas Digest ModelUtils ModelObject ModelBase ModelPack ModelDecode ModelPkt ModelStorage ModelProto ModelLfs ModelGateway ModelService
  StoredZlib SpecObject SpecIdx SpecBase SpecPack SpecPkt SpecStorage SpecProto SpecService SpecFetch ProofObject ProofUtf8 ProofBase ProofPack ProofShort ProofPkt ProofReq
  ProofEncode ProofNodes ProofStorage ProofPush ProofClone ProofRepo ProofRefs ProofSession ProofGraph ProofExample ProofService PropPkt PropStorage PropProto PropGateway PropService PropSsh.
Open Scope N_scope.

Lemma other_skipped : forall f first want have caps p b r, item_ok (ROther p) -> pkt_line p b ->
  upload_loop (S f) first want have caps (b ++ r) = upload_loop f first want have caps r.
Proof.
  intros f first want have caps p b r (L & W & H & D) Hb. rewrite (upload_step _ _ _ _ _ _ _ _ Hb).
  unfold slice at 1. rewrite (proj2 (Nat.leb_le 4 (length p)) L). cbn [Nat.leb andb skipn Nat.sub bind].
  rewrite (proj2 (beq_neq _ _) W), (proj2 (beq_neq _ _) H), (proj2 (beq_neq _ _) D). reflexivity.
Qed.
Lemma cut4 : forall a r : bytes, length a = 4%nat -> slice 0 4 (a ++ r) = Ok a.
Proof.
  intros a r L. unfold slice. rewrite app_length, L. cbn [Nat.leb andb Nat.sub skipn plus]. rewrite firstn_app, L, firstn_all2 by lia. cbn [Nat.sub firstn]. rewrite app_nil_r. reflexivity.
Qed.
Lemma more_ignored : forall l l' b b' line x rest, more_lines l l' -> req_bytes l b -> req_bytes l' b' -> pkt_line (bs "done" ++ x) line ->
  forall f f' first want have caps, (length l < f)%nat -> (length l' < f')%nat ->
  upload_loop f first want have caps (b ++ line ++ rest) = upload_loop f' first want have caps (b' ++ line ++ rest).
Proof.
  intros l l' b b' line x rest M. revert b b'. induction M as [|i l l' M IH|p l l' M IH]; intros b b' R R' Hd f f' first want have caps Hf Hf'.
  - inversion R; inversion R'; subst. cbn [length] in *. destruct f as [|f]; [lia|]. destruct f' as [|f']; [lia|]. cbn [app].
    rewrite !(upload_done _ _ _ _ _ _ _ _ Hd). reflexivity.
  - inversion R as [|? ? b1 b2 Ok1 B1 R2]; inversion R' as [|? ? b1' b2' Ok1' B1' R2']; subst. cbn [length] in *.
    destruct f as [|f]; [lia|]. destruct f' as [|f']; [lia|]. rewrite <- !app_assoc.
    pose proof (fun first want have caps => IH _ _ R2 R2' Hd f f' first want have caps ltac:(lia) ltac:(lia)) as E.
    inversion B1; subst; inversion B1'; subst.
    + match goal with A : pkt_line _ b1, B : pkt_line _ b1' |- _ => rewrite !(upload_step _ _ _ _ _ _ _ _ A), !(upload_step _ _ _ _ _ _ _ _ B) end.
      rewrite (cut4 (bs "want") (bs " " ++ id ++ tail) eq_refl : slice 0 4 (bs "want " ++ id ++ tail) = _). cbn [bind]. rewrite beq_refl. unfold bind.
      destruct (slice 5 45 (bs "want " ++ id ++ tail)) as [a| | |]; try reflexivity. destruct (utf8_unwrap a) as [y| | |]; try reflexivity.
      destruct first; [|apply E]. destruct (slice_from 46 (bs "want " ++ id ++ tail)) as [t| | |]; try reflexivity. destruct (utf8_unwrap t) as [z| | |]; try reflexivity. apply E.
    + match goal with A : pkt_line _ b1, B : pkt_line _ b1' |- _ => rewrite !(upload_step _ _ _ _ _ _ _ _ A), !(upload_step _ _ _ _ _ _ _ _ B) end.
      rewrite (cut4 (bs "have") (bs " " ++ id ++ tail) eq_refl : slice 0 4 (bs "have " ++ id ++ tail) = _). cbn [bind].
      rewrite (proj2 (beq_neq (bs "have") (bs "want")) ltac:(vm_compute; discriminate)), beq_refl. unfold bind.
      destruct (slice 5 45 (bs "have " ++ id ++ tail)) as [a| | |]; try reflexivity. destruct (utf8_unwrap a) as [y| | |]; try reflexivity.
      destruct first; [|apply E]. destruct (slice_from 46 (bs "have " ++ id ++ tail)) as [t| | |]; try reflexivity. destruct (utf8_unwrap t) as [z| | |]; try reflexivity. apply E.
    + rewrite !upload_flush. apply E.
    + rewrite !(other_skipped _ _ _ _ _ _ _ _ Ok1) by assumption. apply E.
  - inversion R' as [|? ? b1' b2' Ok1' B1' R2']; subst. cbn [length] in *. destruct f' as [|f']; [lia|]. rewrite <- !app_assoc.
    inversion B1'; subst. rewrite (other_skipped _ _ _ _ _ _ _ _ Ok1') by assumption. apply IH; try assumption; lia.
Qed.

(** Lines that limit the fetch make no difference at all. *)
Theorem C112_ignored : forall e c cut path l l' b b' x line rest, more_lines l l' -> req_bytes l b -> req_bytes l' b' -> pkt_line (bs "done" ++ x) line ->
  forall fuel w, (length l' < fuel)%nat ->
  http_upload_pack e c fuel cut path (b' ++ line ++ rest) w = http_upload_pack e c fuel cut path (b ++ line ++ rest) w.
Proof.
  intros e c cut path l l' b b' x line rest M R R' Hd fuel w Hf.
  assert (L : (length l <= length l')%nat) by (clear - M; induction M; cbn [length]; lia).
  unfold http_upload_pack, git_upload_pack.
  rewrite (mbind_ok _ _ _ _ _ _ _ (eq_refl : lift (proto_new path [] Http) w = (w, Ok (mkProto Http path None [] [])))).
  rewrite (mbind_ok _ _ _ _ _ _ _ (eq_refl : lift (proto_new path [] Http) w = (w, Ok (mkProto Http path None [] [])))). cbn [pp_caps].
  rewrite (more_ignored _ _ _ _ _ _ rest M R R' Hd fuel fuel true [] [] [] ltac:(lia) Hf). reflexivity.
Qed.

(** Nor over SSH, on the channel of an upload-pack command. *)
Theorem C112_ignored_ssh : forall e m c cut now pp l l' b b' x line rest, pp_service pp = Some UploadPack ->
  more_lines l l' -> req_bytes l b -> req_bytes l' b' -> pkt_line (bs "done" ++ x) line ->
  forall fuel w, (length l' < fuel)%nat ->
  ssh_data e m c fuel cut now pp (b' ++ line ++ rest) w = ssh_data e m c fuel cut now pp (b ++ line ++ rest) w.
Proof.
  intros e m c cut now pp l l' b b' x line rest Sv M R R' Hd fuel w Hf.
  assert (L : (length l <= length l')%nat) by (clear - M; induction M; cbn [length]; lia).
  unfold ssh_data. rewrite Sv. unfold git_upload_pack.
  rewrite (more_ignored _ _ _ _ _ _ rest M R R' Hd fuel fuel true [] [] (pp_caps pp) ltac:(lia) Hf). reflexivity.
Qed.

(** ** The answer never speaks of depth *)

(** An answer begins with a line whose payload begins with A or N. *)
Definition ack_front (b : bytes) : Prop := exists h ch r, b = h ++ ch :: r /\ length h = 4%nat /\ h <> flush /\ (ch = 65 \/ ch = 78).
Lemma front_app : forall a b, ack_front a -> ack_front (a ++ b).
Proof. intros a b (h & ch & r & -> & L & N & C). exists h, ch, (r ++ b). rewrite <- app_assoc. auto. Qed.
Lemma front_new : forall s ch r, s = ch :: r -> (ch = 65 \/ ch = 78) -> nlen s < 60000 -> ack_front (add_pkt_line [] s).
Proof.
  intros s ch r E C L. exists (hex4 (nlen s + 4)), ch, r. unfold add_pkt_line. cbn [app]. rewrite E at 2. split; [reflexivity|].
  split; [apply hex4_len; lia|]. split; [|exact C]. intros K. pose proof (hex4_numeral (nlen s + 4)) as H. rewrite K in H.
  pose proof (hex_numeral_fun _ _ H 0 (hex_numeral_zeros 4)). lia.
Qed.
Lemma ids_len : forall fuel first want have caps b want' have' caps' r, upload_loop fuel first want have caps b = Ok (want', have', caps', r) ->
  Forall (fun x => length x = 40%nat) want -> Forall (fun x => length x = 40%nat) have ->
  Forall (fun x => length x = 40%nat) want' /\ Forall (fun x => length x = 40%nat) have'.
Proof.
  assert (In1 : forall (p s id : bytes) (l : list bytes), slice 5 45 p = Ok s -> utf8_unwrap s = Ok id -> Forall (fun x => length x = 40%nat) l -> Forall (fun x => length x = 40%nat) (set_insert id l)).
  { intros p s id l A B F. unfold slice in A. destruct ((5 <=? 45)%nat && (45 <=? length p)%nat) eqn:C; [|discriminate]. assert (Es : s = firstn (45 - 5) (skipn 5 p)) by congruence. clear A.
    apply utf8_unwrap_spec in B as [-> _].
    apply andb_true_iff in C as [_ C]. apply Nat.leb_le in C. unfold set_insert. destruct (existsb _ l); [exact F|]. apply Forall_app. split; [exact F|].
    constructor; [rewrite Es, firstn_length, skipn_length; lia|constructor]. }
  induction fuel as [|fuel IH]; intros first want have caps b want' have' caps' r H Fw Fh; [discriminate|]. cbn [upload_loop] in H.
  destruct (read_pkt_line b) as [[[n p] b1]| | |]; cbn [bind] in H; try discriminate.
  destruct ((n =? 0) && _); [exact (IH _ _ _ _ _ _ _ _ _ H Fw Fh)|].
  destruct (slice 0 4 p) as [cmd| | |]; cbn [bind] in H; try discriminate.
  destruct (beq cmd (bs "want")); [|destruct (beq cmd (bs "have")); [|destruct (beq cmd (bs "done")); [injection H as <- <- <- <-; auto|exact (IH _ _ _ _ _ _ _ _ _ H Fw Fh)]]].
  all: destruct (slice 5 45 p) as [t| | |] eqn:Es; cbn [bind] in H; try discriminate; destruct (utf8_unwrap t) as [id| | |] eqn:Eu; cbn [bind] in H; try discriminate.
  all: pose proof (In1 p t id want Es Eu Fw) as Fw'; pose proof (In1 p t id have Es Eu Fh) as Fh'.
  all: destruct first; [|eapply IH; [exact H|assumption|assumption]].
  all: destruct (slice_from 46 p) as [t2| | |]; cbn [bind] in H; try discriminate; destruct (utf8_unwrap t2) as [t3| | |]; cbn [bind] in H; try discriminate.
  all: eapply IH; [exact H|assumption|assumption].
Qed.
Lemma front_line : forall buf x y, ack_front buf \/ buf = [] -> length x = 40%nat -> nlen y < 50000 ->
  ack_front (add_pkt_line buf (bs "ACK " ++ x ++ y)).
Proof.
  intros buf x y [F| ->] L Ly.
  - unfold add_pkt_line. apply front_app. exact F.
  - apply (front_new _ 65 (bs "CK " ++ x ++ y)); [reflexivity|left; reflexivity|]. rewrite !nlen_app. unfold nlen at 2. rewrite L. change (nlen (bs "ACK ")) with 4. lia.
Qed.
Lemma front_haves : forall e hs buf w w' out, Forall (fun x => length x = 40%nat) hs -> ack_front buf \/ buf = [] ->
  ack_haves_db e hs buf w = (w', Ok out) -> ack_front out \/ out = [].
Proof.
  induction hs as [|h hs IH]; intros buf w w' out F B E; cbn [ack_haves_db] in E.
  - unfold ret in E. injection E as _ <-. exact B.
  - apply Forall_cons_iff in F as [L F]. unfold mbind in E. destruct (get_commit_by_hash e h w) as [w1 [known| | |]]; try discriminate.
    apply (IH _ _ _ _ F) in E; [exact E|]. destruct known; [|exact B]. left. apply front_line; [exact B|exact L|reflexivity].
Qed.
Lemma front_wants : forall e nd hs buf w w' out, Forall (fun x => length x = 40%nat) hs -> ack_front buf \/ buf = [] ->
  ack_wants_db e nd hs buf w = (w', Ok out) -> ack_front out \/ out = [].
Proof.
  induction hs as [|h hs IH]; intros buf w w' out F B E; cbn [ack_wants_db] in E.
  - unfold ret in E. injection E as _ <-. exact B.
  - apply Forall_cons_iff in F as [L F]. unfold mbind in E. destruct (get_commit_by_hash e h w) as [w1 [known| | |]]; try discriminate.
    assert (B1 : ack_front (if known then add_pkt_line buf (bs "ACK " ++ h ++ bs " common" ++ [10]) else buf) \/ (if known then add_pkt_line buf (bs "ACK " ++ h ++ bs " common" ++ [10]) else buf) = []).
    { destruct known; [|exact B]. left. apply front_line; [exact B|exact L|reflexivity]. }
    apply (IH _ _ _ _ F) in E; [exact E|]. destruct nd; [|exact B1]. left. apply front_line; [exact B1|exact L|reflexivity].
Qed.
Lemma shuffled : forall e (l l' : list bytes) w w', env_ok e -> shuffle e l w = (w', Ok l') -> Forall (fun x => length x = 40%nat) l -> Forall (fun x => length x = 40%nat) l'.
Proof.
  intros e l l' w w' He E F. unfold shuffle, mbind, tick, ret in E. injection E as _ <-. apply Forall_forall. intros x Hx.
  rewrite Forall_forall in F. apply F. apply (Permutation.Permutation_in _ (proj1 He _ _ l) Hx).
Qed.
Lemma upload_front : forall e c fuel pp body w w' pp' pack buf, env_ok e -> git_upload_pack e c fuel pp body w = (w', Ok (pp', pack, buf)) -> ack_front buf.
Proof.
  intros e c fuel pp body w w' pp' pack buf He E. unfold git_upload_pack in E. unfold mbind at 1, lift in E.
  destruct (upload_loop fuel true [] [] (pp_caps pp) body) as [[[[want have] caps] r]| | |] eqn:U; try discriminate.
  destruct (ids_len _ _ _ _ _ _ _ _ _ _ U (Forall_nil _) (Forall_nil _)) as [Fw Fh]. destruct have as [|h0 hr].
  - unfold mbind, ret in E. destruct (munwrap _ w) as [w1 [data| | |]]; try discriminate. injection E as _ _ _ <-.
    apply (front_new _ 78 (bs "AK" ++ [10])); [reflexivity|right; reflexivity|reflexivity].
  - remember (h0 :: hr) as have. clear Heqhave h0 hr. unfold mbind at 1 in E. destruct (has_cap MultiAckDetailed caps).
    + unfold mbind at 1 in E. destruct (shuffle e have w) as [w1 [hs| | |]] eqn:S1; try discriminate.
      unfold mbind at 1 in E. destruct (ack_haves_db e hs [] w1) as [w2 [buf1| | |]] eqn:S2; try discriminate.
      unfold mbind at 1 in E. destruct (munwrap _ w2) as [w3 [data| | |]]; try discriminate.
      unfold mbind at 1 in E. destruct (shuffle e want w3) as [w4 [ws| | |]] eqn:S3; try discriminate.
      unfold mbind at 1 in E. destruct (ack_wants_db e (has_cap NoDone caps) ws buf1 w4) as [w5 [buf2| | |]] eqn:S4; try discriminate.
      unfold ret in E. injection E as _ _ _ <-. apply (front_line _ hard_coded_id [32; 10]); [|reflexivity|reflexivity].
      apply (front_wants e (has_cap NoDone caps) ws buf1 w4 w5); [exact (shuffled _ _ _ _ _ He S3 Fw)| |exact S4].
      apply (front_haves e hs [] w1 w2); [exact (shuffled _ _ _ _ _ He S1 Fh)|right; reflexivity|exact S2].
    + unfold ret in E. injection E as _ _ _ <-. apply (front_line [] hard_coded_id [32; 10]); [right; reflexivity|reflexivity|reflexivity].
Qed.
Lemma same_head : forall (a b x y : bytes), a ++ b = x ++ y -> length a = length x -> a = x /\ b = y.
Proof. induction a as [|u a IH]; intros b [|v x] y E L; try discriminate L; [split; [reflexivity|exact E]|]. injection E as -> E. injection L as L. destruct (IH _ _ _ E L) as [-> ->]. auto. Qed.
Lemma front_no_info : forall b, ack_front b -> ~ has_shallow_info b.
Proof.
  assert (K : forall k id b rest h ch r, pkt_line (bs k ++ id) b -> b ++ rest = h ++ ch :: r -> length h = 4%nat -> ch = 65 \/ ch = 78 -> k = "shallow "%string \/ k = "unshallow "%string -> False).
  { intros k id b rest h ch r (x & Lx & _ & ->) E L C Hk. rewrite <- app_assoc in E. apply same_head in E as [_ E]; [|congruence].
    destruct Hk as [->| ->]; cbn [bs app] in E; injection E as E _; destruct C as [-> | ->]; discriminate E. }
  intros b (h & ch & r & -> & L & N & C) (l & a & rest & S & E). destruct S as [|id b l rest' P _|id b l rest' P _].
  - apply same_head in E as [E _]; [|exact L]. exact (N E).
  - rewrite <- app_assoc in E. exact (K "shallow "%string id b _ h ch r P (eq_sym E) L C (or_introl eq_refl)).
  - rewrite <- app_assoc in E. exact (K "unshallow "%string id b _ h ch r P (eq_sym E) L C (or_intror eq_refl)).
Qed.
(** No answer to a fetch, over HTTP or SSH, begins with what is to be said about depth. *)
Theorem C112_no_info : forall e m c fuel cut path pp now body w w' reply pp', env_ok e ->
  http_upload_pack e c fuel cut path body w = (w', Ok reply) \/
  pp_service pp = Some UploadPack /\ ssh_data e m c fuel cut now pp body w = (w', Ok (pp', reply)) ->
  ~ has_shallow_info reply.
Proof.
  intros e m c fuel cut path pp now body w w' reply pp' He [E|[Sv E]]; apply front_no_info.
  - unfold http_upload_pack in E. unfold mbind at 1, lift, proto_new in E. unfold mbind at 1 in E.
    destruct (git_upload_pack e c fuel (mkProto Http path None [] []) body w) as [w1 [[[p1 data] buf]| | |]] eqn:U; try discriminate.
    unfold ret in E. injection E as _ <-. apply front_app. exact (upload_front _ _ _ _ _ _ _ _ _ _ He U).
  - unfold ssh_data in E. rewrite Sv in E. unfold mbind at 1 in E.
    destruct (git_upload_pack e c fuel pp body w) as [w1 [[[p1 data] buf]| | |]] eqn:U; try discriminate.
    unfold mbind, lift in E. destruct (utf8_unwrap buf) as [x| | |]; try discriminate. unfold ret in E. injection E as _ _ <-.
    apply front_app. exact (upload_front _ _ _ _ _ _ _ _ _ _ He U).
Qed.
(** Clients that limit the depth first want to know what is shallow and send no done with
    the request that asks for it: they are never answered. *)
Theorem C112_waits : forall e c cut path items body o w, req_bytes items body -> first_tail items o -> match o with Some t => utf8_text t | None => True end ->
  forall fuel, http_upload_pack e c fuel cut path body w = (w, OutOfFuel).
Proof.
  intros e c cut path items body o w R F U fuel. unfold http_upload_pack, git_upload_pack.
  rewrite (mbind_ok _ _ _ _ _ _ _ (eq_refl : lift (proto_new path [] Http) w = (w, Ok (mkProto Http path None [] [])))). cbn [pp_caps].
  unfold mbind, lift. rewrite (C44_no_done_diverges _ _ _ R F U fuel). reflexivity.
Qed.

(** The first push to a server, then a fetch without haves, with whatever limits: it gets the
    whole history. *)
Theorem C112_whole_history : forall e m c st cut now path new h name caps body pack objs w body2,
  env_ok e -> codec_ok c -> (forall d, pieces 65515 d (cut d)) -> no_failure w -> w_db w = db_empty -> id_ok h -> lower_hex new h -> word name -> utf8_text caps ->
  (exists k, text_len name k /\ (k <= 31)%nat) -> (exists k, text_len path k /\ (k <= 64)%nat) ->
  push_request (repeat 48 40) new name caps pack body -> git_pack c (get_hash_object e w) pack objs -> nlen pack < 2 ^ 32 ->
  history path (map snd objs) -> (exists d, In (Commit, d) (map snd objs)) -> clone_request body2 ->
  exists fuel0 w1 reply cl, status_reply cl [bs "ok " ++ name ++ [0]] reply /\
  (forall fuel, (fuel0 <= fuel)%nat -> http_receive_pack e m c fuel now path body w = (w1, Ok reply)) /\
  exists fuel1, forall fuel, (fuel1 <= fuel)%nat -> exists w2 reply2,
    http_upload_pack e c fuel cut path body2 w1 = (w2, Ok reply2) /\ w_db w2 = w_db w1 /\ clone_reply c st reply2 (reach (fun o => In o (map snd objs))).
Proof.
  intros e m c st cut now path new h name caps body pack objs w body2 He Hc Hcut Q D Hi Hx Hw Hu Ln Lp Rq G Hl Hs Hd Cr.
  destruct (C46_create e m c now path new h name caps body pack objs w He Q Hi Hx Hw Hu Ln Lp Rq G Hl Hs)
    as (fuel0 & w1 & reply & rows & crows & cl & _ & St & Rf & D1 & Q1 & E1).
  exists fuel0, w1, reply, cl. split; [exact St|]. split; [exact E1|]. rewrite D in D1. cbn [db_empty d_nodes d_commits d_refs d_next_ref app] in D1.
  apply (http_clone e c cut path body2 w1 (w_db w1) (reach (fun o => In o (map snd objs))) st Hcut Cr); [|reflexivity].
  apply (pushed_pack e c st path (map snd objs) rows crows [] [] w1); try assumption.
  - unfold nlen. rewrite map_length. exact (git_pack_few _ _ _ _ G).
  - apply (own_commits e path (map snd objs) rows crows db_empty); [exact He|exact Rf|reflexivity|]. rewrite D1. reflexivity.
  - rewrite D1, app_nil_r. reflexivity.
  - constructor.
  - constructor.
  - apply (free_sub _ (fun o => In o (map snd objs))); [|exact (hs_free _ _ Hs)]. intros o [(r & Hr & Hf)|(r & Hr & _ & Hf)].
    + rewrite D1 in Hr. destruct (rf_nodes _ _ _ _ Rf r Hr) as (o' & Ho & Re). rewrite (node_for_fun _ _ _ Hf Ho). destruct Re; assumption.
    + rewrite D1 in Hr. destruct (rf_commits _ _ _ _ Rf r Hr) as (_ & o' & Ho & Re). rewrite (commit_for_fun _ _ _ Hf Ho). exact Re.
Qed.

(** ** A history of two commits, fetched with depth 1 *)
Definition two_objs : list object := ex_second :: ex_hist.
Lemma two_ok : history (bs "/demo") two_objs.
Proof.
  apply history_check; [vm_compute; reflexivity|reflexivity| |].
  - intros d [E|[E|[E|[E|[E|[]]]]]]; try discriminate (f_equal fst E); exists (oid ex_root).
    + replace d with (snd ex_second) by exact (f_equal snd E). exact ex_second_root.
    + replace d with (snd ex_top) by exact (f_equal snd E). exact ex_top_root.
  - intros d [E|[E|[E|[E|[E|[]]]]]]; discriminate (f_equal fst E).
Qed.
Definition two_body : bytes := push_body (repeat 48 40) (to_plain_str (oid ex_second)) (bs "refs/heads/master") ex_caps (pack_of two_objs).
(** want second, deepen 1, done *)
Definition depth_caps : bytes := bs "multi_ack_detailed side-band-64k agent=git/2.40".
Definition depth_items (id : bytes) : list req_item := [RWant id (32 :: depth_caps); ROther (bs "deepen 1"); RFlush].
Definition depth_request (id : bytes) : bytes :=
  add_pkt_line [] (bs "want " ++ id ++ 32 :: depth_caps) ++ add_pkt_line [] (bs "deepen 1") ++ flush.
Definition done_line : bytes := add_pkt_line [] (bs "done" ++ [10]).
Lemma depth_req : forall id, id40 id -> req_bytes (depth_items id) (depth_request id).
Proof.
  intros id Hi. unfold depth_items, depth_request. apply rb_cons; [exact Hi| |apply rb_cons].
  - constructor. apply hex4_pkt. rewrite !nlen_app. unfold nlen at 2. rewrite (proj1 Hi). vm_compute. discriminate.
  - repeat split; try (vm_compute; discriminate). cbn; lia.
  - constructor. apply hex4_pkt. vm_compute. discriminate.
  - change flush with (flush ++ []). apply rb_cons; [exact Logic.I|constructor|constructor].
Qed.
Lemma depth_clone : forall id, id40 id -> clone_request (depth_request id ++ done_line).
Proof.
  intros id Hi. exists (depth_items id), depth_caps, (depth_request id), [10], done_line. split; [exact (depth_req id Hi)|].
  split; [constructor|]. split; [apply utf8_spec; reflexivity|]. split; [|split; [|split; [|reflexivity]]].
  - right. exists (bs "multi_ack_detailed "), [], [], (bs " agent=git/2.40"). split; [reflexivity|].
    split; [exists []; split; [constructor|reflexivity]|]. split; [exists []; split; [constructor|reflexivity]|].
    split; [right; exists (bs "multi_ack_detailed"); reflexivity|right; eexists; reflexivity].
  - intros i tail [K|[K|[K|[]]]]; discriminate K.
  - apply hex4_pkt. vm_compute. discriminate.
Qed.
Lemma plain_id40 : forall h, id_ok h -> id40 (to_plain_str h).
Proof.
  intros h H. split.
  - pose proof (plain_len h H) as L. unfold nlen in L. lia.
  - apply Forall_forall. intros c Hc. destruct (N.lt_ge_cases c 128) as [L|L]; [exact L|]. exfalso. apply (plain_no h c H); [lia|exact Hc].
Qed.
Lemma second_id : id_ok (oid ex_second).
Proof. apply oid_ok, commit_base. Qed.
Lemma depth_first : forall id, first_tail (depth_items id) (Some depth_caps).
Proof. intros id. constructor. Qed.
Lemma depth_is : forall id, exists i, In i (depth_items id) /\ depth_line i.
Proof. intros id. exists (ROther (bs "deepen 1")). split; [right; left; reflexivity|]. exists (bs "deepen "), (bs "1"). split; [reflexivity|left; reflexivity]. Qed.

Lemma ignored_ex : forall id, id40 id -> exists l l' b b' x line, more_lines l l' /\ req_bytes l b /\ req_bytes l' b' /\ pkt_line (bs "done" ++ x) line /\
  (exists i, In i l' /\ depth_line i) /\ ~ exists i, In i l /\ depth_line i.
Proof.
  intros id Hi.
  exists [RWant id (32 :: depth_caps); RFlush], (depth_items id), (add_pkt_line [] (bs "want " ++ id ++ 32 :: depth_caps) ++ flush), (depth_request id), [10], done_line.
  split; [unfold depth_items; repeat constructor|]. split; [|split; [exact (depth_req id Hi)|split; [apply hex4_pkt; vm_compute; discriminate|split; [exact (depth_is id)|]]]].
  - apply rb_cons; [exact Hi| |].
    + constructor. apply hex4_pkt. rewrite !nlen_app. unfold nlen at 2. rewrite (proj1 Hi). vm_compute. discriminate.
    + change flush with (flush ++ []). apply rb_cons; [exact Logic.I|constructor|constructor].
  - intros (i & [<-|[<-|[]]] & k & t & E & _); discriminate E.
Qed.
Example C112_ignored_ex : exists l l' b b' x line, more_lines l l' /\ req_bytes l b /\ req_bytes l' b' /\ pkt_line (bs "done" ++ x) line /\
  (exists i, In i l' /\ depth_line i) /\ ~ exists i, In i l /\ depth_line i.
Proof. exact (ignored_ex _ (plain_id40 _ second_id)). Qed.
Example C112_waits_ex : exists items body o, req_bytes items body /\ first_tail items (Some o) /\ utf8_text o /\ exists i, In i items /\ depth_line i.
Proof.
  exists (depth_items (to_plain_str (oid ex_second))), (depth_request (to_plain_str (oid ex_second))), depth_caps.
  split; [exact (depth_req _ (plain_id40 _ second_id))|]. split; [apply depth_first|]. split; [apply utf8_spec; reflexivity|apply depth_is].
Qed.

(** The first push of two commits, the second following the first. *)
Lemma two_small : nlen (pack_of two_objs) < 2 ^ 32.
Proof. vm_compute. reflexivity. Qed.
Lemma two_pack : forall st, exists objs, git_pack stored st (pack_of two_objs) objs /\ map snd objs = two_objs.
Proof. intros st. apply pack_of_git; [discriminate|reflexivity|]. apply (hs_sound (bs "/demo")). exact two_ok. Qed.
Lemma two_request : push_request (repeat 48 40) (to_plain_str (oid ex_second)) (bs "refs/heads/master") ex_caps (pack_of two_objs) two_body.
Proof. apply push_body_request. rewrite !nlen_app, (plain_len _ second_id). vm_compute. discriminate. Qed.
Lemma two_differ : ex_top <> ex_second.
Proof. vm_compute. discriminate. Qed.
Lemma two_clone : forall body2, clone_request body2 -> exists fuel0 w1 reply cl, status_reply cl [bs "ok " ++ bs "refs/heads/master" ++ [0]] reply /\
  (forall fuel, (fuel0 <= fuel)%nat -> http_receive_pack ex_env Release stored fuel 7 (bs "/demo") two_body (world_of db_empty) = (w1, Ok reply)) /\
  exists fuel1, forall fuel, (fuel1 <= fuel)%nat -> exists w2 reply2,
    http_upload_pack ex_env stored fuel ex_cut (bs "/demo") body2 w1 = (w2, Ok reply2) /\ w_db w2 = w_db w1 /\
    clone_reply stored (get_hash_object ex_env (world_of db_empty)) reply2 (reach (fun o => In o two_objs)).
Proof.
  intros body2 Cr. destruct (two_pack (get_hash_object ex_env (world_of db_empty))) as (objs & G & Eo).
  pose proof (C112_whole_history ex_env Release stored (get_hash_object ex_env (world_of db_empty)) ex_cut 7 (bs "/demo") (to_plain_str (oid ex_second)) (oid ex_second) (bs "refs/heads/master")
    ex_caps two_body (pack_of two_objs) objs (world_of db_empty) body2 ex_env_ok stored_ok ex_cut_ok) as H. rewrite Eo in H. apply H; clear H.
  - reflexivity.
  - reflexivity.
  - exact second_id.
  - apply plain_lower. exact second_id.
  - exact master_word.
  - apply utf8_spec. reflexivity.
  - exists 17%nat. split; [exact (ascii_text (bs "refs/heads/master") eq_refl)|lia].
  - exists 5%nat. split; [exact (ascii_text (bs "/demo") eq_refl)|lia].
  - exact two_request.
  - exact G.
  - exact two_small.
  - exact two_ok.
  - exists (snd ex_second). left. reflexivity.
  - exact Cr.
Qed.

(** A fetch of depth 1 of the second of two commits gets both, and no word of the depth. *)
Theorem C112_refuted : exists e m c cut now path push body w first second, env_ok e /\ codec_ok c /\ (forall d, pieces 65515 d (cut d)) /\ no_failure w /\
  (exists d root, first = (Commit, d) /\ commit_root d root) /\ first <> second /\
  (exists items caps b line, req_bytes items b /\ body = b ++ line /\ pkt_line (bs "done" ++ [10]) line /\
     items = [RWant (to_plain_str (oid second)) (32 :: caps); ROther (bs "deepen 1"); RFlush]) /\
  exists fuel0 w1 reply cl, status_reply cl [bs "ok refs/heads/master" ++ [0]] reply /\
  (forall fuel, (fuel0 <= fuel)%nat -> http_receive_pack e m c fuel now path push w = (w1, Ok reply)) /\
  exists fuel1, forall fuel, (fuel1 <= fuel)%nat -> exists w2 reply2 R, http_upload_pack e c fuel cut path body w1 = (w2, Ok reply2) /\
    ~ has_shallow_info reply2 /\ clone_reply c (get_hash_object e w) reply2 R /\ R first /\ R second.
Proof.
  destruct (two_clone _ (depth_clone _ (plain_id40 _ second_id))) as (fuel0 & w1 & reply & cl & St & E1 & fuel1 & E2).
  exists ex_env, Release, stored, ex_cut, 7, (bs "/demo"), two_body, (depth_request (to_plain_str (oid ex_second)) ++ done_line), (world_of db_empty), ex_top, ex_second.
  split; [exact ex_env_ok|]. split; [exact stored_ok|]. split; [exact ex_cut_ok|]. split; [reflexivity|].
  split; [exists (snd ex_top), (oid ex_root); split; [reflexivity|exact ex_top_root]|]. split; [exact two_differ|]. split.
  { exists (depth_items (to_plain_str (oid ex_second))), depth_caps, (depth_request (to_plain_str (oid ex_second))), done_line.
    split; [exact (depth_req _ (plain_id40 _ second_id))|]. split; [reflexivity|]. split; [apply hex4_pkt; vm_compute; discriminate|reflexivity]. }
  exists fuel0, w1, reply, cl. split; [exact St|]. split; [exact E1|]. exists fuel1. intros fuel Hf. destruct (E2 fuel Hf) as (w2 & reply2 & E & _ & Cl).
  exists w2, reply2, (reach (fun o => In o two_objs)). split; [exact E|]. split; [|split; [exact Cl|]].
  - apply (C112_no_info ex_env Release stored fuel ex_cut (bs "/demo") (mkProto Http [] None [] []) 7 (depth_request (to_plain_str (oid ex_second)) ++ done_line) w1 w2 reply2 (mkProto Http [] None [] []) ex_env_ok).
    left. exact E.
  - split; apply (rc_commit (fun o => In o two_objs)); [right; left; reflexivity|left; reflexivity].
Qed.

(** C147: bytes that come after the end of a pack. *)

From Coq Require Import Lia.
From Verif Require Import Base BaseLemmas Digest ModelUtils ModelObject ModelDelta ModelBase ModelPack ModelDecode ModelPkt ModelStorage ModelProto ModelLfs ModelGateway ModelService ModelRead
  StoredZlib SpecFormat SpecDelta SpecDiff SpecObject SpecIdx SpecBase SpecPack SpecPkt SpecStorage SpecProto SpecService ProofUtils ProofObject ProofUtf8 ProofBase ProofShort ProofDelta ProofPack ProofPkt ProofReq
  ProofEncode ProofPackAny ProofPackDir ProofNodes ProofStorage ProofRefs ProofSession ProofGraph ProofExample ProofPush ProofService PropPkt PropStorage PropProto PropGateway PropService PropFiles.
From Verif Require PropSsh PropRead.
Open Scope N_scope.

(** ** Readers do not look ahead *)

Lemma unwrap_more : forall A (x y : res A) v, (forall u, x = Ok u -> y = Ok u) -> unwrap x = Ok v -> unwrap y = Ok v.
Proof. intros A x y v H E. apply unwrap_ok in E. rewrite (H v E). reflexivity. Qed.
Lemma size_more : forall m s v l n r x, read_size_loop m v l s = Ok (n, r) -> read_size_loop m v l (s ++ x) = Ok (n, r ++ x) /\ (length r <= length s)%nat.
Proof.
  intros m. induction s as [|b s IH]; intros v l n r x H; [discriminate H|]. cbn [read_size_loop app] in *. apply bind_ok in H as (sh & E & H). rewrite E. cbn [bind].
  destruct (negb _).
  - apply bind_ok in H as (l' & E' & H). rewrite E'. cbn [bind]. destruct (IH _ _ _ _ x H) as [K L]. split; [exact K|]. cbn [length]. lia.
  - injection H as <- <-. split; [reflexivity|]. cbn [length]. lia.
Qed.
Lemma type_more : forall m s t n r x, unwrap (read_type_and_size m s) = Ok (t, n, r) -> unwrap (read_type_and_size m (s ++ x)) = Ok (t, n, r ++ x) /\ (length r <= length s)%nat.
Proof.
  intros m s t n r x H. apply unwrap_ok in H. unfold read_type_and_size, read_size_encoding in *. apply bind_ok in H as ([v u] & E & H). injection H as <- <- <-.
  destruct (size_more m s 0 0 v u x E) as [K L]. rewrite K. split; [reflexivity|exact L].
Qed.
Lemma offset_more : forall m s v n r x, read_offset_loop m v s = Ok (n, r) -> read_offset_loop m v (s ++ x) = Ok (n, r ++ x) /\ (length r <= length s)%nat.
Proof.
  intros m. induction s as [|b s IH]; intros v n r x H; [discriminate H|]. cbn [read_offset_loop app] in *. apply bind_ok in H as (sh & E & H). rewrite E. cbn [bind].
  destruct (negb _).
  - apply bind_ok in H as (l' & E' & H). rewrite E'. cbn [bind]. destruct (IH _ _ _ x H) as [K L]. split; [exact K|]. cbn [length]. lia.
  - injection H as <- <-. split; [reflexivity|]. cbn [length]. lia.
Qed.
Lemma bytes_more : forall n s a r x, read_bytes n s = Ok (a, r) -> read_bytes n (s ++ x) = Ok (a, r ++ x) /\ (length r <= length s)%nat.
Proof.
  intros n s a r x H. unfold read_bytes in *. destruct (Nat.leb_spec n (length s)) as [L|]; [|discriminate H]. injection H as <- <-.
  rewrite app_length. replace (n <=? length s + length x)%nat with true by lia. rewrite firstn_app, skipn_app, skipn_length.
  replace (n - length s)%nat with 0%nat by lia. rewrite firstn_O, app_nil_r, skipn_O. split; [reflexivity|lia].
Qed.
Lemma u32_more : forall s n r x, read_u32 s = Ok (n, r) -> read_u32 (s ++ x) = Ok (n, r ++ x) /\ (length r <= length s)%nat.
Proof.
  intros s n r x H. unfold read_u32 in *. apply bind_ok in H as ([a u] & E & H). injection H as <- <-. destruct (bytes_more _ _ _ _ x E) as [K L]. rewrite K. auto.
Qed.
Lemma zip_more : forall c r x d k, streaming c -> unwrap_opt (inflate c r) = Ok (d, k) -> unwrap_opt (inflate c (r ++ x)) = Ok (d, k).
Proof. intros c r x d k Hs H. destruct (inflate c r) as [[d' k']|] eqn:E; [|discriminate H]. injection H as -> ->. rewrite (proj2 (Hs _ _ _ E)). reflexivity. Qed.
Lemma at_more : forall file pos x, file_at file pos <> [] -> file_at (file ++ x) pos = file_at file pos ++ x.
Proof.
  intros file pos x H. unfold file_at in *. rewrite skipn_app. destruct (Nat.le_gt_cases (length file) (N.to_nat pos)) as [L|L].
  - rewrite skipn_all2 in H by exact L. destruct H; reflexivity.
  - replace (N.to_nat pos - length file)%nat with 0%nat by lia. reflexivity.
Qed.
Lemma gap : forall (s r x : bytes), (length r <= length s)%nat -> nlen (s ++ x) - nlen (r ++ x) = nlen s - nlen r.
Proof. intros s r x L. rewrite !nlen_app. unfold nlen. lia. Qed.

Section More.
Context (m : build) (c : codec) (st : storage) (Hs : streaming c).
Lemma next_more : forall fuel file x off k y, next_object m c st fuel file off k = Ok y -> next_object m c st fuel (file ++ x) off k = Ok y.
Proof.
  induction fuel as [|f IH]; intros file x off k y H; [discriminate H|]. cbn [next_object] in *. cbv zeta in *.
  apply bind_ok in H as ([[t n] r] & E & H). rewrite at_more by (intros K; rewrite K in E; discriminate E).
  destruct (type_more m _ _ _ _ x E) as [Em L]. rewrite Em. cbn [bind]. set (s := file_at file off) in *.
  destruct ((1 <=? t) && (t <=? 4)).
  - apply bind_ok in H as ([d u] & Ez & H). rewrite (zip_more _ _ x _ _ Hs Ez). cbn [bind]. destruct (negb _); [discriminate H|].
    rewrite gap by exact L. exact H.
  - destruct (t =? 6).
    + apply bind_ok in H as ([dist r2] & Eo & H). apply unwrap_ok in Eo. destruct (offset_more m _ _ _ _ x Eo) as [Ko L2].
      unfold read_offset_encoding. rewrite Ko. cbn [unwrap bind]. destruct (off <? dist); [discriminate H|].
      apply bind_ok in H as ([base k1] & Eb & H).
      assert (Eb' : match offset_object k (off - dist) with Some o => Ok (o, k) | None => let? (o, _, k') := next_object m c st f (file ++ x) (off - dist) k in Ok (o, k') end = Ok (base, k1)).
      { destruct (offset_object k (off - dist)); [exact Eb|]. apply bind_ok in Eb as ([[o p] k'] & En & Eb). rewrite (IH _ x _ _ _ En). exact Eb. }
      rewrite Eb'. cbn [bind]. apply bind_ok in H as ([d u] & Ez & H). rewrite (zip_more _ _ x _ _ Hs Ez). cbn [bind].
      rewrite gap by lia. exact H.
    + destruct (t =? 7); [|exact H].
      apply bind_ok in H as ([h r2] & Eo & H). apply unwrap_ok in Eo. destruct (bytes_more _ _ _ _ x Eo) as [Ko L2].
      unfold read_hash. rewrite Ko. cbn [unwrap bind]. apply bind_ok in H as (base & Eb & H). rewrite Eb. cbn [bind].
      apply bind_ok in H as ([d u] & Ez & H). rewrite (zip_more _ _ x _ _ Hs Ez). cbn [bind]. rewrite gap by lia. exact H.
Qed.
Lemma loop_more : forall fuel file x n pos k y, decode_loop m c st fuel file n pos k = Ok y -> decode_loop m c st fuel (file ++ x) n pos k = Ok y.
Proof.
  intros fuel file x. induction n as [|n IH]; intros pos k y H; [exact H|]. cbn [decode_loop] in *. apply bind_ok in H as ([[o p] k'] & E & H).
  rewrite (next_more _ _ x _ _ _ E). cbn [bind]. destruct (2 ^ 32 <=? pos); [discriminate H|]. exact (IH _ _ _ H).
Qed.
Lemma head_more : forall file n r x, check_header file = Ok (n, r) -> check_header (file ++ x) = Ok (n, r ++ x) /\ (length r <= length file)%nat.
Proof.
  intros file n r x H. unfold check_header in *. apply bind_ok in H as ([magic s1] & E1 & H). apply unwrap_ok in E1. destruct (bytes_more _ _ _ _ x E1) as [K1 L1].
  rewrite K1. cbn [unwrap bind]. destruct (negb (beq magic (bs "PACK"))); [discriminate H|].
  apply bind_ok in H as ([v s2] & E2 & H). apply unwrap_ok in E2. destruct (u32_more _ _ _ x E2) as [K2 L2]. rewrite K2. cbn [unwrap bind].
  destruct (negb (v =? 2)); [discriminate H|]. apply unwrap_ok in H. destruct (u32_more _ _ _ x H) as [K3 L3]. rewrite K3. split; [reflexivity|lia].
Qed.
End More.

(** ** C147 *)

(** Every file that is accepted is accepted with the same result when anything follows it. *)
Theorem C147_decode : forall m c st fuel d p more, streaming c -> decode m c st fuel d = Ok p -> decode m c st fuel (d ++ more) = Ok p.
Proof.
  intros m c st fuel d p more Hs H. unfold decode in *. apply bind_ok in H as ([n r] & Eh & H). destruct (head_more _ _ _ more Eh) as [Kh L]. rewrite Kh. cbn [bind].
  rewrite gap by exact L. apply bind_ok in H as ([pos k] & El & H). rewrite (loop_more m c st Hs _ _ more _ _ _ _ El). cbn [bind].
  apply bind_ok in H as ([id r2] & Er & H). apply unwrap_ok in Er. rewrite at_more by (intros K; rewrite K in Er; discriminate Er).
  rewrite (proj1 (bytes_more _ _ _ _ more Er)). exact H.
Qed.
Theorem C147_file : forall m c st fuel d p more, streaming c -> pack_decode_file m c st fuel (WholeFile d) = Ok p ->
  pack_decode_file m c st fuel (WholeFile (d ++ more)) = Ok p.
Proof. intros m c st fuel d p more Hs H. apply PropRead.C146_pack_same. apply C147_decode; [exact Hs|]. apply PropRead.C146_pack_same. exact H. Qed.
(** So a pack says itself where it ends: a file has at most one beginning that is a pack. *)
Theorem C147_one_end : forall c st d1 d2 r1 r2 objs1 objs2, streaming c -> git_pack c st d1 objs1 -> git_pack c st d2 objs2 ->
  collision_free (fun o => In o (map snd objs1)) -> collision_free (fun o => In o (map snd objs2)) -> nlen d1 < 2 ^ 32 -> nlen d2 < 2 ^ 32 ->
  d1 ++ r1 = d2 ++ r2 -> d1 = d2.
Proof.
  assert (K : forall c st d r objs1 objs2, streaming c -> git_pack c st d objs1 -> git_pack c st (d ++ r) objs2 -> collision_free (fun o => In o (map snd objs1)) ->
    collision_free (fun o => In o (map snd objs2)) -> nlen d < 2 ^ 32 -> nlen (d ++ r) < 2 ^ 32 -> r = []).
  { intros c st d r objs1 objs2 Hs G1 G2 C1 C2 L1 L2. destruct r as [|b r]; [reflexivity|exfalso].
    destruct (decode_git_pack Release c st 0 d objs1 G1 C1 L1) as (p & E & _).
    destruct (PropSsh.C105_prefix Release c st 0 (d ++ b :: r) objs2 d (b :: r) Hs G2 C2 L2 eq_refl ltac:(discriminate)) as [(x & F)|F]; rewrite E in F; discriminate F. }
  intros c st d1 d2 r1 r2 objs1 objs2 Hs G1 G2 C1 C2 L1 L2 E. destruct (app_split _ _ _ _ E) as [(z & -> & _)|(z & -> & _)].
  - rewrite (K _ _ _ _ _ _ Hs G1 G2 C1 C2 L1 L2). symmetry. apply app_nil_r.
  - rewrite (K _ _ _ _ _ _ Hs G2 G1 C2 C1 L2 L1). apply app_nil_r.
Qed.

(** *** Pushes *)

(** The same world with other files. *)
Definition refit (f : fs) (w : world) : world := mkWorld (w_db w) (w_log w) (w_fails w) (w_tick w) f.
Definition blind {A} (p : M A) : Prop := forall f w, p (refit f w) = (refit f (fst (p w)), snd (p w)).
Lemma blind_ret : forall A (a : A), blind (ret a).
Proof. intros A a f w. reflexivity. Qed.
Lemma blind_lift : forall A (r : res A), blind (lift r).
Proof. intros A r f w. reflexivity. Qed.
Lemma blind_bind : forall A B (p : M A) (k : A -> M B), blind p -> (forall a, blind (k a)) -> blind (mbind p k).
Proof. intros A B p k H K f w. unfold mbind. rewrite H. destruct (p w) as [w' [a|x| |]]; cbn [fst snd]; try reflexivity. apply K. Qed.
Lemma blind_attempt : blind attempt.
Proof. intros f w. unfold attempt. cbn [refit w_fails]. destruct (w_fails w) as [|b r]; [|reflexivity]. destruct w. reflexivity. Qed.
Lemma blind_shuffle : forall A e (l : list A), blind (shuffle e l).
Proof. intros A e l f w. reflexivity. Qed.
Lemma blind_execute : forall g, blind (execute g).
Proof.
  intros g. unfold execute. apply blind_bind; [exact blind_attempt|]. intros [|]; [|apply blind_ret]. intros f w. cbn [refit w_db].
  destruct (g (w_db w)); [reflexivity|]. reflexivity.
Qed.
Lemma blind_select : forall A e (q : db -> list A), blind (select e q).
Proof. intros A e q. unfold select. apply blind_bind; [exact blind_attempt|]. intros [|]; [|apply blind_lift]. intros f w. reflexivity. Qed.
Lemma blind_one : forall A e (q : db -> list A), blind (select_one e q).
Proof. intros A e q. unfold select_one. apply blind_bind; [apply blind_select|]. intros l. apply blind_ret. Qed.
Lemma blind_insert : forall l, blind (insert_all l).
Proof. induction l as [|g l IH]; cbn [insert_all]; [apply blind_ret|]. apply blind_bind; [apply blind_execute|]. intros b. exact IH. Qed.
Lemma blind_handle : forall e cmd p, blind (handle_refs e cmd p).
Proof.
  intros e cmd p. unfold handle_refs. destruct (rc_type cmd); [apply blind_insert|apply blind_lift|]. unfold update_refs.
  apply blind_bind; [apply blind_one|]. intros o. apply blind_bind; [apply blind_lift|]. intros r. apply blind_bind; [apply blind_execute|].
  intros [|]; [|apply blind_lift]. apply blind_bind; [apply blind_one|]. intros b. apply blind_bind; [apply blind_lift|]. intros u. apply blind_ret.
Qed.
Lemma blind_batches : forall e l, blind (insert_batches e l).
Proof. intros e. induction l as [|b l IH]; cbn [insert_batches]; [apply blind_ret|]. apply blind_bind; [apply blind_execute|]. intros [|]; [exact IH|apply blind_lift]. Qed.
Lemma blind_save : forall e fuel k p, blind (save_packfile e fuel k p).
Proof.
  intros e fuel k p. unfold save_packfile. apply blind_bind; [apply blind_lift|]. intros om. do 4 (apply blind_bind; [apply blind_shuffle|]; intros ?).
  unfold save_objects. apply blind_bind; [apply blind_lift|]. intros ns. apply blind_bind; [apply blind_batches|]. intros u. apply blind_insert.
Qed.

(** What two runs have in common: the answer and everything but the files; and the files
    too, if there is an answer. *)
Definition same_but_file {A} (x y : world * res A) : Prop :=
  snd x = snd y /\ refit [] (fst x) = refit [] (fst y) /\ ((exists a, snd x = Ok a) -> fst x = fst y).
Lemma same_but_refl : forall A (x : world * res A), same_but_file x x.
Proof. intros A x. split; [reflexivity|]. split; reflexivity. Qed.
Lemma same_then : forall A B (p q : M A) (k : A -> M B) w, same_but_file (p w) (q w) -> same_but_file (mbind p k w) (mbind q k w).
Proof.
  intros A B p q k w (E1 & E2 & E3). unfold mbind. destruct (p w) as [w1 r1], (q w) as [w2 r2]. cbn [fst snd] in *. subst r2.
  destruct r1 as [a|x| |]; try (split; [reflexivity|]; split; [exact E2|]; intros (a & A0); discriminate A0).
  rewrite (E3 (ex_intro _ a eq_refl)). apply same_but_refl.
Qed.
Lemma blind_same : forall A (p : M A) (k : A -> M (proto * bytes)) f g w, blind p ->
  (forall a w', same_but_file (k a (refit f w')) (k a (refit g w'))) -> same_but_file (mbind p k (refit f w)) (mbind p k (refit g w)).
Proof.
  intros A p k f g w H K. unfold mbind. rewrite !H. destruct (p w) as [w' [a|x| |]]; cbn [fst snd];
    [apply K|..]; (split; [reflexivity|]; split; [reflexivity|]; intros (a & A0); discriminate A0).
Qed.
Lemma put_removed : forall f p b, fs_remove (fs_put f p b) p = fs_remove f p.
Proof.
  intros f p b. unfold fs_remove, fs_put. cbn [filter fst]. rewrite path_eqb_refl. cbn [negb]. induction f as [|[q y] l IH]; [reflexivity|]. cbn [filter fst].
  destruct (path_eqb q p) eqn:Q; cbn [negb]; [exact IH|]. cbn [filter fst]. rewrite Q. cbn [negb]. rewrite IH. reflexivity.
Qed.
Lemma receive_more : forall e m c fuel now pp x more w p, streaming c -> fs_get (w_files w) (temp_path now) = None ->
  decode m c (get_hash_object e w) fuel (bs "PACK" ++ x) = Ok p ->
  same_but_file (git_receive_pack e m c fuel now pp (bs "PACK" ++ x) w) (git_receive_pack e m c fuel now pp ((bs "PACK" ++ x) ++ more) w).
Proof.
  intros e m c fuel now pp x more w p Hs Hf Hd. unfold git_receive_pack.
  assert (S1 : starts_with (bs "PACK") (bs "PACK" ++ x) = true) by apply starts_with_app.
  assert (S2 : starts_with (bs "PACK") ((bs "PACK" ++ x) ++ more) = true) by (rewrite <- app_assoc; apply starts_with_app).
  rewrite S1, S2. clear S1 S2. set (P := bs "PACK" ++ x) in *.
  destruct (nth_error (pp_cmds pp) (length (pp_cmds pp) - 1)) as [cmd|]; [|apply same_but_refl].
  cbn [unwrap_opt].
  assert (W : forall b, write_temp (temp_path now) b w = (refit (fs_put (w_files w) (temp_path now) b) w, Ok tt))
    by (intros b; unfold write_temp; rewrite Hf, skipn_nil, app_nil_r; reflexivity).
  assert (R : forall b, read_temp (temp_path now) (refit (fs_put (w_files w) (temp_path now) b) w) = (refit (fs_put (w_files w) (temp_path now) b) w, Ok b))
    by (intros b; unfold read_temp; cbn [refit w_files]; rewrite fs_get_put; reflexivity).
  set (w1 := mkWorld (w_db w) (w_log w) (w_fails w) (S (w_tick w)) (w_files w)).
  assert (U : forall b q, decode m c (get_hash_object e w) fuel b = Ok q ->
    unpack_pack e m c fuel b (refit (fs_put (w_files w) (temp_path now) b) w) = (refit (fs_put (w_files w) (temp_path now) b) w1, Ok q)).
  { intros b q E. unfold unpack_pack. change (get_hash_object e (refit (fs_put (w_files w) (temp_path now) b) w)) with (get_hash_object e w). rewrite E. reflexivity. }
  assert (Lf : forall A B (a : A) (k : A -> M B) v, mbind (lift (Ok a)) k v = k a v) by reflexivity. rewrite !Lf.
  rewrite (mbind_ok _ _ _ _ _ _ _ (W P)), (mbind_ok _ _ _ _ _ _ _ (R P)), (mbind_ok _ _ _ _ _ _ _ (U P p Hd)).
  rewrite (mbind_ok _ _ _ _ _ _ _ (W (P ++ more))), (mbind_ok _ _ _ _ _ _ _ (R (P ++ more))),
    (mbind_ok _ _ _ _ _ _ _ (U (P ++ more) p (C147_decode _ _ _ _ _ _ more Hs Hd))).
  cbv zeta. apply blind_same.
  - intros f v. rewrite blind_save. destruct (save_packfile e fuel (p_cache p) (pp_path pp) v) as [v' [u|y| |]]; cbn [fst snd]; try reflexivity.
    apply blind_bind; [apply blind_handle|]. intros u0. apply blind_ret.
  - intros cmd2 v. unfold mbind, remove_temp. cbn [refit w_files]. rewrite !fs_get_put. unfold ret. cbn [refit w_db w_log w_fails w_tick].
    rewrite !put_removed. apply same_but_refl.
Qed.

(** A push with bytes after its pack is answered as without them and does the same to the
    database; if it is answered, no file tells the two apart either. *)
Theorem C147_push : forall e m c fuel now path old new name caps x more body body' w p, streaming c -> word old -> word new -> word name -> utf8_text caps ->
  push_request old new name caps (bs "PACK" ++ x) body -> push_request old new name caps ((bs "PACK" ++ x) ++ more) body' ->
  fs_get (w_files w) (temp_path now) = None -> decode m c (get_hash_object e w) fuel (bs "PACK" ++ x) = Ok p ->
  exists w1 w2 r, http_receive_pack e m c fuel now path body w = (w1, r) /\ http_receive_pack e m c fuel now path body' w = (w2, r) /\
    w_db w2 = w_db w1 /\ w_log w2 = w_log w1 /\ ((exists reply, r = Ok reply) -> w2 = w1).
Proof.
  intros e m c fuel now path old new name caps x more body body' w p Hs Ho Hn Hm Hc Hr Hr' Hf Hd.
  rewrite (two_calls e m c fuel now path old new name caps _ body w Ho Hn Hm Hc Hr), (two_calls e m c fuel now path old new name caps _ body' w Ho Hn Hm Hc Hr').
  pose proof (same_then _ _ _ _ (fun y : proto * bytes => let (_, reply) := y in ret reply) w (receive_more e m c fuel now (told path old new name caps) x more w p Hs Hf Hd)) as (E1 & E2 & E3).
  destruct (mbind (git_receive_pack e m c fuel now (told path old new name caps) (bs "PACK" ++ x)) _ w) as [w1 r1].
  destruct (mbind (git_receive_pack e m c fuel now (told path old new name caps) ((bs "PACK" ++ x) ++ more)) _ w) as [w2 r2]. cbn [fst snd] in *. subst r2.
  exists w1, w2, r1. split; [reflexivity|]. split; [reflexivity|]. split; [exact (f_equal w_db (eq_sym E2))|]. split; [exact (f_equal w_log (eq_sym E2))|].
  intros K. symmetry. exact (E3 K).
Qed.
(** What was answered is answered the same. *)
Theorem C147_answered : forall e m c fuel now path old new name caps x more body body' w w' reply, streaming c -> word old -> word new -> word name -> utf8_text caps ->
  push_request old new name caps (bs "PACK" ++ x) body -> push_request old new name caps ((bs "PACK" ++ x) ++ more) body' ->
  fs_get (w_files w) (temp_path now) = None ->
  http_receive_pack e m c fuel now path body w = (w', Ok reply) -> http_receive_pack e m c fuel now path body' w = (w', Ok reply).
Proof.
  intros e m c fuel now path old new name caps x more body body' w w' reply Hs Ho Hn Hm Hc Hr Hr' Hf H.
  destruct (decode m c (get_hash_object e w) fuel (bs "PACK" ++ x)) as [p|y| |] eqn:Hd.
  1: { destruct (C147_push e m c fuel now path old new name caps x more body body' w p Hs Ho Hn Hm Hc Hr Hr' Hf Hd) as (w1 & w2 & r & E1 & E2 & _ & _ & K).
    rewrite H in E1. injection E1 as <- <-. rewrite E2, (K (ex_intro _ reply eq_refl)). reflexivity. }
  all: exfalso; rewrite (two_calls e m c fuel now path old new name caps _ body w Ho Hn Hm Hc Hr) in H; unfold git_receive_pack in H;
    assert (S1 : starts_with (bs "PACK") (bs "PACK" ++ x) = true) by apply starts_with_app; rewrite S1 in H; clear S1;
    set (P := bs "PACK" ++ x) in *; cbn [told pp_cmds length Nat.sub nth_error] in H; unfold mbind, lift, write_temp, read_temp, unpack_pack in H;
    cbn [unwrap_opt] in H; rewrite Hf in H; cbn [w_files] in H; rewrite fs_get_put, skipn_nil, app_nil_r in H; cbn [unwrap_opt] in H;
    change (get_hash_object e (mkWorld (w_db w) (w_log w) (w_fails w) (w_tick w) (fs_put (w_files w) (temp_path now) P))) with (get_hash_object e w) in H;
    rewrite Hd in H; discriminate H.
Qed.
(** The same for a connection over SSH whose pack packet has more in it. *)
Theorem C147_ssh : forall e m c fuel cut now path old new name caps line x more w w' pp reply, streaming c -> word old -> word new -> word name -> utf8_text caps ->
  PropSsh.push_line old new name caps line -> fs_get (w_files w) (temp_path (now 0%nat)) = None -> (exists p, decode m c (get_hash_object e w) fuel (bs "PACK" ++ x) = Ok p) ->
  ssh_session e m c fuel cut now (mkProto Ssh path (Some ReceivePack) [] []) [line; bs "PACK" ++ x] w = (w', Ok (pp, reply)) ->
  ssh_session e m c fuel cut now (mkProto Ssh path (Some ReceivePack) [] []) [line; (bs "PACK" ++ x) ++ more] w = (w', Ok (pp, reply)).
Proof.
  intros e m c fuel cut now path old new name caps line x more w w' pp reply Hs Ho Hn Hm Hc (b & Hb & ->) Hf (p & Hd) H.
  set (P := bs "PACK" ++ x) in *. cbn [ssh_session length] in *. unfold ssh_data at 1 in H. unfold ssh_data at 1. cbn [pp_service] in *.
  pose proof (command_run e m c fuel (now 1%nat) (mkProto Ssh path (Some ReceivePack) [] []) _ _ caps b flush [] w Hb (parse_first old new name caps Ho Hn Hm) Hc eq_refl) as E.
  rewrite (mbind_ok _ _ _ _ _ _ _ E) in H. rewrite (mbind_ok _ _ _ _ _ _ _ E). clear E. cbn [pp_protocol pp_path pp_service pp_caps pp_cmds app] in *.
  set (q := mkProto Ssh path _ _ _) in *.
  assert (D : forall y, ssh_data e m c fuel cut (now 0%nat) q y = git_receive_pack e m c fuel (now 0%nat) q y) by reflexivity. rewrite D in H. rewrite D. clear D.
  pose proof (receive_more e m c fuel (now 0%nat) q x more w p Hs Hf Hd) as R. fold P in R.
  match type of H with mbind (mbind _ ?k1) ?k2 w = _ => pose proof (same_then _ _ _ _ k2 w (same_then _ _ _ _ k1 w R)) as (E1 & E2 & E3) end.
  rewrite H in E1, E2, E3.
  cbn [fst snd] in *. specialize (E3 (ex_intro _ _ eq_refl)).
  match goal with |- ?t = _ => rewrite (surjective_pairing t) end. rewrite <- E3, <- E1. reflexivity.
Qed.

(** ** Cases *)

Definition tail_push (more : bytes) : world * res bytes :=
  http_receive_pack ex_env Release stored 50 7 (bs "demo")
    (push_body (repeat 48 40) (to_plain_str (oid ex_top)) (bs "refs/heads/master") ex_caps (pack_of ex_hist ++ more)) (world_of db_empty).
Definition tail_stored (x : world * res bytes) : bool :=
  match snd x with Ok _ => (length (d_refs (w_db (fst x))) =? 1)%nat && (length (d_commits (w_db (fst x))) =? 1)%nat && negb (length (d_nodes (w_db (fst x))) =? 0)%nat | _ => false end.
Lemma tail_answer : forall y, tail_stored y = true -> exists w r, y = (w, Ok r).
Proof. intros [w [r|x| |]] H; try discriminate H. eauto. Qed.
Lemma tail_checked : tail_stored (tail_push []) = true.
Proof. vm_compute. reflexivity. Qed.
Lemma tail_request : forall y, push_request (repeat 48 40) (to_plain_str (oid ex_top)) (bs "refs/heads/master") ex_caps y
    (push_body (repeat 48 40) (to_plain_str (oid ex_top)) (bs "refs/heads/master") ex_caps y).
Proof. intros y. apply push_body_request. rewrite !nlen_app, (plain_len _ ex_top_id). vm_compute. discriminate. Qed.
Lemma tail_head : pack_of ex_hist = bs "PACK" ++ skipn 4 (pack_of ex_hist).
Proof. rewrite <- (firstn_skipn 4 (pack_of ex_hist)) at 1. f_equal. Qed.
Lemma tail_any : forall e m c fuel now path old new name caps pack x more w, streaming c -> word old -> word new -> word name -> utf8_text caps -> pack = bs "PACK" ++ x ->
  (forall y, push_request old new name caps y (push_body old new name caps y)) -> fs_get (w_files w) (temp_path now) = None ->
  (exists w' r, http_receive_pack e m c fuel now path (push_body old new name caps (pack ++ [])) w = (w', Ok r)) ->
  http_receive_pack e m c fuel now path (push_body old new name caps (pack ++ more)) w = http_receive_pack e m c fuel now path (push_body old new name caps (pack ++ [])) w.
Proof.
  intros e m c fuel now path old new name caps pack x more w Hs Ho Hn Hm Hc -> R Hf (w' & r & E). rewrite E. pose proof (R ((bs "PACK" ++ x) ++ [])) as R1.
  pose proof (R ((bs "PACK" ++ x) ++ more)) as R2. rewrite app_nil_r in R1, E.
  exact (C147_answered e m c fuel now path old new name caps x more _ _ w w' r Hs Ho Hn Hm Hc R1 R2 Hf E).
Qed.
Lemma tail_word : word (to_plain_str (oid ex_top)).
Proof. exact (hex_word _ _ (plain_lower _ ex_top_id) ex_top_id). Qed.
Lemma tail_caps : utf8_text ex_caps.
Proof. apply utf8_spec. reflexivity. Qed.
Lemma tail_unfold : forall more, tail_push more = http_receive_pack ex_env Release stored 50 7 (bs "demo")
    (push_body (repeat 48 40) (to_plain_str (oid ex_top)) (bs "refs/heads/master") ex_caps (pack_of ex_hist ++ more)) (world_of db_empty).
Proof. reflexivity. Qed.
Lemma tail_push_same : forall more, tail_push more = tail_push [].
Proof.
  intros more. pose proof (tail_answer _ tail_checked) as A. rewrite tail_unfold in A. rewrite (tail_unfold more), (tail_unfold []).
  exact (tail_any ex_env Release stored 50 7 (bs "demo") (repeat 48 40) (to_plain_str (oid ex_top)) (bs "refs/heads/master") ex_caps (pack_of ex_hist) _ more (world_of db_empty)
    stored_streaming zero_word tail_word master_word tail_caps tail_head tail_request eq_refl A).
Qed.
(** A push of a history, answered and stored; then any bytes may follow, a second pack
    included. *)
Example C147_ex : forall more, streaming stored /\ (exists x, pack_of ex_hist = bs "PACK" ++ x) /\
  word (repeat 48 40) /\ word (to_plain_str (oid ex_top)) /\ word (bs "refs/heads/master") /\ utf8_text ex_caps /\
  push_request (repeat 48 40) (to_plain_str (oid ex_top)) (bs "refs/heads/master") ex_caps (pack_of ex_hist ++ more)
    (push_body (repeat 48 40) (to_plain_str (oid ex_top)) (bs "refs/heads/master") ex_caps (pack_of ex_hist ++ more)) /\
  (exists p, decode Release stored (get_hash_object ex_env (world_of db_empty)) 50 (pack_of ex_hist) = Ok p) /\
  tail_stored (tail_push []) = true /\ tail_push more = tail_push [].
Proof.
  intros more. split; [exact stored_streaming|]. split; [eexists; exact tail_head|]. split; [exact zero_word|]. split; [exact tail_word|]. split; [exact master_word|].
  split; [exact tail_caps|]. split; [apply tail_request|]. split.
  { destruct (ex_pack (get_hash_object ex_env (world_of db_empty))) as (objs & G & E).
    destruct (decode_git_pack Release stored _ 49 (pack_of ex_hist) objs G) as (p & D & _); [|exact ex_pack_small|exists p; exact D].
    rewrite E. exact (hs_free _ _ (proj1 (ex_hist_ok (bs "demo") eq_refl))). }
  split; [exact tail_checked|exact (tail_push_same more)].
Qed.

(** C135: packs with deltas against objects that the server has (thin packs). *)

From Coq Require Import Permutation Lia.
From Verif Require Import Base BaseLemmas Digest ModelUtils ModelObject ModelDelta ModelBase ModelPack ModelDecode ModelPkt ModelStorage ModelProto
  ModelGateway ModelService StoredZlib SpecFormat SpecObject SpecDelta SpecIdx SpecBase SpecPack SpecPkt SpecPath SpecStorage SpecProto SpecGateway SpecService
  ProofUtils ProofObject ProofPath ProofUtf8 ProofBase ProofPack ProofPkt ProofReq ProofEncode ProofNodes ProofStorage ProofPush ProofClone ProofRepo ProofRefs ProofSession
  ProofGraph ProofExample PropPack PropPkt PropStorage PropProto PropSsh.
Open Scope N_scope.

(** The trees and blobs that the server has, of whatever repository. *)
Definition server_has (d : db) (o : object) : Prop := exists r, In r (d_nodes d) /\ node_for r o.
(** The client takes as bases only trees and blobs that the server has, under their ids. *)
Definition bases_there (st : storage) (d : db) : Prop :=
  forall h o, knows st h o -> obj_id o h /\ server_has d o.

Lemma lookup_row : forall r o h, node_for r o -> obj_id o h -> n_git_id r = to_plain_str h /\
  meta_new (if beq (n_type r) (bs "tree") then Tree else Blob) (n_data r) = Ok (as_meta o h).
Proof.
  intros r o h N Hi. destruct N as [r g d Hg L Ty Da|r g d Hg L Ty Da]; rewrite Ty, Da, (lower_hex_plain _ _ L), (obj_id_fun _ _ _ Hi Hg).
  - split; [reflexivity|]. destruct (meta_new_obj Tree d tree_base) as (k & Hk & E). rewrite (obj_id_fun _ _ _ Hg Hk). exact E.
  - split; [reflexivity|]. destruct (meta_new_obj Blob d blob_base) as (k & Hk & E). rewrite (obj_id_fun _ _ _ Hg Hk). exact E.
Qed.
Lemma found_row : forall e w s, env_ok e -> (exists n, get_hash_object e w s = meta_new (if beq (n_type n) (bs "tree") then Tree else Blob) (n_data n) /\
    In n (d_nodes (w_db w)) /\ teq e (n_git_id n) s = true) \/
  (get_hash_object e w s = Err ENotFoundHash /\ forall n, In n (d_nodes (w_db w)) -> teq e (n_git_id n) s = false).
Proof.
  intros e w s He. unfold get_hash_object. destruct He as (Po & _).
  pose proof (Po (w_tick w) _ (filter (fun n => teq e (n_git_id n) s) (d_nodes (w_db w)))) as P.
  destruct (ord e (w_tick w) node_row _) as [|n l].
  - right. split; [reflexivity|]. intros n Hn. destruct (teq e (n_git_id n) s) eqn:T; [|reflexivity]. exfalso.
    apply (Permutation_in n (Permutation_sym P)). apply filter_In. auto.
  - left. exists n. split; [reflexivity|]. assert (Hn : In n (n :: l)) by (left; reflexivity).
    apply (Permutation_in _ P), filter_In in Hn as [H1 H2]. auto.
Qed.

(** The bases that a delta may name by id are the trees and blobs in the database. *)
Theorem C135_bases : forall e w h o, env_ok e -> Forall addressed_row (d_nodes (w_db w)) -> collision_free (server_has (w_db w)) ->
  id_ok h -> knows (get_hash_object e w) h o <-> obj_id o h /\ server_has (w_db w) o.
Proof.
  intros e w h o He Ad Cf Hh. rewrite Forall_forall in Ad. pose proof He as (_ & Re & Ex). split.
  - intros (s & h' & Ts & Ls & E). assert (Lx : lower_hex s h) by (split; [apply Ts|exact Ls]).
    destruct (found_row e w s He) as [(n & F & Hn & T)|[F _]]; [|congruence].
    destruct (Ad n Hn) as (x & Nx). destruct (node_for_id _ _ Nx) as (g & Hg & En & _).
    destruct (lookup_row _ _ _ Nx Hg) as [_ M]. rewrite F, M in E. injection E as E1 _ _ E4. clear h' M.
    assert (Eo : x = o) by (destruct x, o; cbn [fst snd] in *; congruence). subst x.
    assert (Eg : to_plain_str g = s).
    { rewrite <- En. apply (Ex _ _ g h); [rewrite En; apply plain_lower; exact (obj_id_ok _ _ Hg)|exact Lx|apply (obj_id_ok _ _ Hg)|apply Hh|exact T]. }
    assert (g = h) by (apply to_plain_str_inj; [apply (obj_id_ok _ _ Hg)|exact Hh|rewrite Eg; apply lower_hex_plain; exact Lx]). subst g.
    split; [exact Hg|]. exists n. auto.
  - intros (Hi & r & Hr & Nr). exists (to_plain_str h), h. pose proof (plain_lower h Hh) as [L1 L2].
    split; [split; [apply Hh|exact L1]|]. split; [exact L2|]. destruct (lookup_row _ _ _ Nr Hi) as [Er Mr].
    destruct (found_row e w (to_plain_str h) He) as [(n & F & Hn & T)|[_ F]].
    + destruct (Ad n Hn) as (x & Nx). destruct (node_for_id _ _ Nx) as (g & Hg & En & _).
      assert (Eg : to_plain_str g = to_plain_str h).
      { rewrite <- En. apply (Ex _ _ g h); [rewrite En; apply plain_lower; exact (obj_id_ok _ _ Hg)|split; assumption|apply (obj_id_ok _ _ Hg)|apply Hh|exact T]. }
      apply to_plain_str_inj in Eg; [|apply (obj_id_ok _ _ Hg)|exact Hh]. subst g.
      assert (x = o) by (apply (Cf x o h); [exists n; auto|exists r; auto|exact Hg|exact Hi]). subst x.
      rewrite F. apply (lookup_row _ _ _ Nx Hg).
    + specialize (F r Hr). rewrite Er, Re in F. discriminate.
Qed.

Lemma body_bases : forall c st st' n b objs, (forall h o, id_ok h -> knows st h o -> knows st' h o) -> pack_body c st n b objs -> pack_body c st' n b objs.
Proof.
  intros c st st' n b objs K H. induction H as [v w Hv Hw|b objs e o Hb IH He]; [constructor; assumption|].
  constructor; [exact IH|]. destruct He; [eapply e_whole|eapply e_ofs|eapply e_ref|eapply e_ext]; eauto.
Qed.
(** A thin pack made by a client that takes its bases from what the server has is a
    pack for the server. *)
Theorem C135_pack : forall e c st file objs w, env_ok e -> Forall addressed_row (d_nodes (w_db w)) -> collision_free (server_has (w_db w)) ->
  bases_there st (w_db w) -> git_pack c st file objs -> git_pack c (get_hash_object e w) file objs.
Proof.
  intros e c st file objs w He Ad Cf B (b & Hb & ->). exists b. split; [|reflexivity].
  eapply body_bases; [|exact Hb]. intros h o Hh K. apply C135_bases; auto.
Qed.
(** It is decoded to the objects that the client meant. *)
Theorem C135_decoded : forall e m c st fuel file objs w, env_ok e -> Forall addressed_row (d_nodes (w_db w)) -> collision_free (server_has (w_db w)) ->
  bases_there st (w_db w) -> git_pack c st file objs -> no_collision (map snd objs) -> nlen file < 2 ^ 32 ->
  exists p, decode m c (get_hash_object e w) (S fuel) file = Ok p /\ p_number p = nlen objs /\ holds (p_cache p) (map snd objs).
Proof.
  intros e m c st fuel file objs w He Ad Cf B G Nc Hl.
  destruct (C73_wellformed_pack_decodes m c (get_hash_object e w) fuel file objs (C135_pack e c st file objs w He Ad Cf B G) Nc Hl) as (p & E & H1 & _ & H2 & _).
  eauto.
Qed.
(** A push with it goes as one with whole objects. *)
Theorem C135_create : forall e m c st now path new h name caps body pack objs w,
  env_ok e -> no_failure w -> id_ok h -> lower_hex new h -> word name -> utf8_text caps ->
  (exists k, text_len name k /\ (k <= 31)%nat) -> (exists k, text_len path k /\ (k <= 64)%nat) ->
  push_request (repeat 48 40) new name caps pack body ->
  Forall addressed_row (d_nodes (w_db w)) -> collision_free (server_has (w_db w)) -> bases_there st (w_db w) ->
  git_pack c st pack objs -> nlen pack < 2 ^ 32 -> history path (map snd objs) ->
  exists fuel0 w' reply rows crows cl, caps_in caps cl /\ status_reply cl [bs "ok " ++ name ++ [0]] reply /\
    rows_for path (map snd objs) rows crows /\
    w_db w' = mkDb (d_nodes (w_db w) ++ rows) (d_commits (w_db w) ++ crows)
                   (d_refs (w_db w) ++ [mkRef (d_next_ref (w_db w)) path (name ++ [0]) new]) (d_next_ref (w_db w) + 1) /\
    no_failure w' /\
    forall fuel, (fuel0 <= fuel)%nat -> http_receive_pack e m c fuel now path body w = (w', Ok reply).
Proof.
  intros e m c st now path new h name caps body pack objs w He Q Hh Hx Hm Hc Lk Lp Rq Ad Cf B G Hl Hs.
  exact (C46_create e m c now path new h name caps body pack objs w He Q Hh Hx Hm Hc Lk Lp Rq (C135_pack e c st pack objs w He Ad Cf B G) Hl Hs).
Qed.
Theorem C135_update : forall e m c st now path old h0 new h name caps body pack objs w l1 r l2,
  env_ok e -> no_failure w -> refs_table (w_db w) -> id_ok h0 -> lower_hex old h0 -> old <> repeat 48 40 ->
  id_ok h -> lower_hex new h -> new <> repeat 48 40 -> word name -> nlen name <= 60000 -> utf8_text caps ->
  push_request old new name caps pack body ->
  Forall addressed_row (d_nodes (w_db w)) -> collision_free (server_has (w_db w)) -> bases_there st (w_db w) ->
  git_pack c st pack objs -> nlen pack < 2 ^ 32 -> history path (map snd objs) ->
  d_refs (w_db w) = l1 ++ r :: l2 -> r_ref_git_id r = old -> r_repo_path r = path ->
  (forall x, In x (l1 ++ l2) -> teq e (r_ref_git_id x) old = true -> teq e (r_repo_path x) path = true -> False) ->
  exists fuel0 w' reply rows crows cl, caps_in caps cl /\ status_reply cl [bs "ok " ++ name ++ [0]] reply /\
    rows_for path (map snd objs) rows crows /\
    w_db w' = mkDb (d_nodes (w_db w) ++ rows) (d_commits (w_db w) ++ crows) (l1 ++ with_id r new :: l2) (d_next_ref (w_db w)) /\
    no_failure w' /\
    forall fuel, (fuel0 <= fuel)%nat -> http_receive_pack e m c fuel now path body w = (w', Ok reply).
Proof.
  intros e m c st now path old h0 new h name caps body pack objs w l1 r l2 He Q T H0 X0 Z0 Hh Hx Z1 Hm Lm Hc Rq Ad Cf B G Hl Hs.
  exact (C46_update e m c now path old h0 new h name caps body pack objs w l1 r l2 He Q T H0 X0 Z0 Hh Hx Z1 Hm Lm Hc Rq
    (C135_pack e c st pack objs w He Ad Cf B G) Hl Hs).
Qed.

(** Any other base, a commit or a tag of the server for example: the push is not
    answered and nothing is stored. *)
Lemma undecoded : forall e m c fuel now path old new name caps file body w,
  word old -> word new -> word name -> utf8_text caps -> push_request old new name caps (bs "PACK" ++ file) body ->
  fs_get (w_files w) (temp_path now) = None -> decode m c (get_hash_object e w) fuel (bs "PACK" ++ file) = Panic ->
  exists w', http_receive_pack e m c fuel now path body w = (w', Panic) /\ untouched now w w'.
Proof.
  intros e m c fuel now path old new name caps file body w Ho Hn Hm Hc (b & Hb & ->) Hf Hd.
  set (pk := bs "PACK" ++ file) in *. assert (Ps : starts_with (bs "PACK") pk = true) by apply starts_with_app.
  assert (Np : pk <> []) by discriminate. clearbody pk.
  set (w2 := mkWorld (w_db w) (w_log w) (w_fails w) (S (w_tick w)) (fs_put (w_files w) (temp_path now) pk)).
  exists w2. split.
  - unfold http_receive_pack. set (pp := mkProto Http path None [] []).
    assert (Ep : lift (proto_new path [] Http) w = (w, Ok pp)) by reflexivity. rewrite (mbind_ok _ _ _ _ _ _ _ Ep).
    rewrite (mbind_ok _ _ _ _ _ _ _ (command_run e m c fuel now pp _ _ caps b flush pk w Hb (parse_first old new name caps Ho Hn Hm) Hc eq_refl)).
    cbn [pp pp_protocol pp_path pp_service pp_caps pp_cmds app]. destruct pk as [|u z]; [contradiction|].
    apply mbind_stop. unfold git_receive_pack. rewrite Ps.
    unfold lift at 1, mbind at 1. cbn [pp_cmds length Nat.sub nth_error unwrap_opt].
    set (w1 := mkWorld (w_db w) (w_log w) (w_fails w) (w_tick w) (fs_put (w_files w) (temp_path now) (u :: z))).
    assert (E1 : write_temp (temp_path now) (u :: z) w = (w1, Ok tt)) by (unfold write_temp; rewrite Hf, skipn_nil, app_nil_r; reflexivity).
    assert (E2 : read_temp (temp_path now) w1 = (w1, Ok (u :: z))) by (unfold read_temp, w1; cbn [w_files]; rewrite fs_get_put_same; reflexivity).
    rewrite (mbind_ok _ _ _ _ _ _ _ E1), (mbind_ok _ _ _ _ _ _ _ E2). apply mbind_stop.
    unfold unpack_pack. change (get_hash_object e w1) with (get_hash_object e w). rewrite Hd. reflexivity.
  - split; [reflexivity|]. split; [reflexivity|]. intros p Hp. cbn [w2 w_files]. apply fs_get_put_other. exact Hp.
Qed.
Theorem C135_other_base : forall e m c st fuel now path old new name caps body n b objs hdr size h rest w,
  env_ok e -> Forall addressed_row (d_nodes (w_db w)) -> collision_free (server_has (w_db w)) -> bases_there st (w_db w) ->
  word old -> word new -> word name -> utf8_text caps -> fs_get (w_files w) (temp_path now) = None ->
  push_request old new name caps (b ++ hdr ++ h ++ rest) body -> pack_body c st n b objs -> nlen objs < n -> nlen b < 2 ^ 32 ->
  no_collision (map snd objs) -> header 7 hdr size -> id_ok h ->
  (forall off o, In (off, o) objs -> ~ obj_id o h) -> (forall o, server_has (w_db w) o -> ~ obj_id o h) ->
  exists w', http_receive_pack e m c (S fuel) now path body w = (w', Panic) /\ untouched now w w'.
Proof.
  intros e m c st fuel now path old new name caps body n b objs hdr size h rest w He Ad Cf B Ho Hn Hm Hc Hf Rq Hb Hlt Hl Nc Hd Hh No Ns.
  assert (Hb' : pack_body c (get_hash_object e w) n b objs).
  { eapply body_bases; [|exact Hb]. intros g o Hg K. apply C135_bases; auto. }
  destruct (pack_body_magic _ _ _ _ _ Hb) as (x & Ex).
  assert (D : decode m c (get_hash_object e w) (S fuel) (b ++ hdr ++ h ++ rest) = Panic).
  { apply (C74_missing_base_aborts m c (get_hash_object e w) fuel n b objs hdr size h rest ENotFoundHash Hb' Hlt Nc); [|exact Hd|exact Hh|exact No|].
    - intros off o Ho'. apply N.lt_trans with (nlen b); [|exact Hl]. eapply pack_body_offs; eassumption.
    - intros s Ts Ls. destruct (found_row e w s He) as [(r & _ & Hr & T)|[F _]]; [exfalso|exact F].
      rewrite Forall_forall in Ad. destruct (Ad r Hr) as (o & No'). destruct (node_for_id _ _ No') as (g & Hg & En & _).
      assert (Lx : lower_hex s h) by (split; [apply Ts|exact Ls]).
      assert (Eg : to_plain_str g = s).
      { rewrite <- En. apply (proj2 (proj2 He) _ _ g h); [rewrite En; apply plain_lower; exact (obj_id_ok _ _ Hg)|exact Lx|apply (obj_id_ok _ _ Hg)|apply Hh|exact T]. }
      assert (g = h) by (apply to_plain_str_inj; [apply (obj_id_ok _ _ Hg)|exact Hh|rewrite Eg; apply lower_hex_plain; exact Lx]). subst g.
      apply (Ns o); [exists r; auto|exact Hg]. }
  rewrite Ex, <- app_assoc in Rq, D. exact (undecoded e m c (S fuel) now path old new name caps _ body w Ho Hn Hm Hc Rq Hf D).
Qed.

(** ** Thin packs to see it with *)

(** A client that takes [o] alone for an object that the server has. *)
Definition one_base (o : object) : storage := fun s => if beq s (to_plain_str (oid o)) then Ok (as_meta o (oid o)) else Err ENotFoundHash.
Lemma one_knows : forall o h x, id_ok (oid o) -> knows (one_base o) h x -> h = oid o /\ x = o.
Proof.
  intros o h x Ho (s & h' & Ts & Ls & E). unfold one_base in E. destruct (beq s (to_plain_str (oid o))) eqn:B; [|discriminate E].
  apply beq_eq in B. injection E as E1 _ _ E4. split; [|destruct x, o; cbn [fst snd] in *; congruence].
  apply to_plain_str_inj; [exact (id_text_ok _ _ Ts)|exact Ho|]. rewrite <- B. symmetry. apply id_text_plain; assumption.
Qed.
Lemma one_known : forall o, id_ok (oid o) -> knows (one_base o) (oid o) o.
Proof.
  intros o Ho. exists (to_plain_str (oid o)), (oid o). pose proof (plain_lower _ Ho) as [L1 L2]. split; [split; [apply Ho|exact L1]|]. split; [exact L2|].
  unfold one_base. rewrite beq_refl. reflexivity.
Qed.

(** Whole objects, then a delta against an object that is not in the pack. *)
Definition thin_head (objs : list object) : bytes :=
  (bs "PACK" ++ u32_vec 2 ++ u32_vec (nlen objs + 1)) ++ encode_entries stored (map (fun o => as_meta o (oid o)) objs).
Definition thin_entry (base : object) (hdr delta : bytes) : bytes := hdr ++ oid base ++ stored_deflate delta.
Definition thin_of (objs : list object) (base : object) (hdr delta : bytes) : bytes :=
  let b := thin_head objs ++ thin_entry base hdr delta in b ++ sha1 b.
Lemma thin_head_body : forall objs st, nlen objs + 1 < 2 ^ 32 -> Forall sound_object objs ->
  exists pobjs, pack_body stored st (nlen objs + 1) (thin_head objs) pobjs /\ map snd pobjs = objs.
Proof.
  intros objs st L F. set (ms := map (fun o => as_meta o (oid o)) objs).
  assert (En : Forall encodable ms).
  { apply Forall_forall. intros m Hm. unfold ms in Hm. apply in_map_iff in Hm as (o & <- & Ho). rewrite Forall_forall in F. specialize (F o Ho).
    pose proof (oid_id o F) as Hi. destruct F as (F1 & F2 & F3). destruct (obj_id_base _ _ Hi) as (nm & Hb).
    split; [|exact F2]. unfold as_meta. split; [exists nm; exact Hb|]. cbn [m_size m_data m_id m_delta_header m_t].
    do 2 (split; [reflexivity|]). split; [exact F1|]. split; [|exact Hi].
    apply N.lt_trans with (2 ^ 61); [exact F2|reflexivity]. }
  destruct (entries_body stored st (nlen objs + 1) ms _ stored_ok En [] (header_body stored st (nlen objs + 1) L)) as (po & Hb & E).
  exists po. split; [exact Hb|]. rewrite E. unfold ms. rewrite map_map. rewrite <- (map_id objs) at 2. apply map_ext. intros [t d]. reflexivity.
Qed.
Lemma thin_git : forall objs t base hdr delta data, nlen objs + 1 < 2 ^ 32 -> Forall sound_object objs -> sound_object (t, base) -> ~ In (t, base) objs ->
  collision_free (fun o => o = (t, base) \/ In o objs) ->
  header 7 hdr (nlen delta) -> bytes_ok delta -> git_delta base delta data -> nlen data < 2 ^ 61 ->
  exists pobjs, git_pack stored (one_base (t, base)) (thin_of objs (t, base) hdr delta) pobjs /\ map snd pobjs = objs ++ [(t, data)].
Proof.
  intros objs t base hdr delta data L F Fb Nb Cf Hd Bd Gd Ld. pose proof (oid_id _ Fb) as Hi. pose proof (obj_id_ok _ _ Hi) as Ho.
  destruct (thin_head_body objs (one_base (t, base)) L F) as (po & Hb & E).
  exists (po ++ [(nlen (thin_head objs), (t, data))]). split; [|rewrite map_app, E; reflexivity].
  exists (thin_head objs ++ thin_entry (t, base) hdr delta). split; [|reflexivity].
  replace (nlen (po ++ [(nlen (thin_head objs), (t, data))])) with (nlen objs + 1)
    by (rewrite <- E; unfold nlen; rewrite app_length, map_length; cbn [length]; lia).
  constructor; [exact Hb|]. apply e_ext with (base := base) (delta := delta); [exact Hd|exact Ho|exact (obj_id_base _ _ Hi)| |apply one_known; exact Ho|apply Fb| |exact Gd|exact Ld].
  - intros off x Hx Hh. apply Nb. assert (Ix : In x objs) by (rewrite <- E; apply in_map_iff; exists (off, x); auto).
    replace (t, base) with x; [exact Ix|]. apply (Cf x (t, base) (oid (t, base))); auto.
  - intros rest. apply stored_ok. exact Bd.
Qed.

Lemma ex_rows_addressed : Forall addressed_row (d_nodes (w_db ex_world)).
Proof. apply Forall_forall. intros r Hr. destruct (proj1 ex_world_sound r Hr) as (o & N & _). exists o. exact N. Qed.
Lemma node_for_fun : forall r a b, node_for r a -> node_for r b -> a = b.
Proof. intros r a b [r1 h1 d1 _ _ T1 D1|r1 h1 d1 _ _ T1 D1] Nb; inversion Nb as [r2 h2 d2 _ _ T2 D2|r2 h2 d2 _ _ T2 D2]; subst; try reflexivity; rewrite T1 in T2; discriminate T2. Qed.
Lemma ex_has_hist : forall o, server_has (w_db ex_world) o -> In o [ex_root; ex_lib; ex_blob].
Proof.
  intros o (r & Hr & N). assert (K : forallb (row_check [ex_root; ex_lib; ex_blob]) (d_nodes (w_db ex_world)) = true) by (vm_compute; reflexivity).
  rewrite forallb_forall in K. destruct (row_checked [ex_root; ex_lib; ex_blob] r) with (2 := K r Hr) as (x & Hx & Nx); [intros x Hx; apply ex_id_ok; right; exact Hx|].
  rewrite (node_for_fun _ _ _ N Nx). exact Hx.
Qed.
Lemma ex_has_free : collision_free (server_has (w_db ex_world)).
Proof.
  intros a b h Ha Hb. apply (hs_free _ _ (proj1 (ex_hist_ok (bs "/demo") eq_refl))); right; apply ex_has_hist; assumption.
Qed.
Lemma ex_has_blob : server_has (w_db ex_world) ex_blob.
Proof.
  assert (K : existsb (row_check [ex_blob]) (d_nodes (w_db ex_world)) = true) by (vm_compute; reflexivity).
  apply existsb_exists in K as (r & Hr & K). destruct (row_checked [ex_blob] r) with (2 := K) as (x & [<-|[]] & Nx); [intros x [<-|[]]; apply ex_id_ok; do 3 right; left; reflexivity|].
  exists r. split; [exact Hr|exact Nx].
Qed.

(** The blob of the new repository /other as a delta against the blob of /demo: three
    new bytes, one of the base, one new byte. *)
Definition thin_delta : bytes := [5; 5; 3; 111; 116; 104; 145; 1; 1; 1; 114].
Definition thin_pack3 : bytes := thin_of [ex_top3; ex_root3; ex_lib3] ex_blob [123] thin_delta.
Definition thin_body3 : bytes := push_body (repeat 48 40) (to_plain_str (oid ex_top3)) (bs "refs/heads/master") ex_caps thin_pack3.
Lemma thin_delta_ok : git_delta (snd ex_blob) thin_delta (snd ex_blob3).
Proof.
  exists [5], [5], [3; 111; 116; 104; 145; 1; 1; 1; 114]. split; [reflexivity|]. split; [apply leb_last; reflexivity|]. split; [cbn; lia|].
  split; [apply leb_last; reflexivity|]. split; [cbn; lia|].
  change (snd ex_blob3) with (bs "oth" ++ bs "e" ++ bs "r" ++ []). change (snd ex_blob) with (bs "hello").
  change [3; 111; 116; 104; 145; 1; 1; 1; 114] with ([3; 111; 116; 104] ++ [145; 1; 1] ++ [1; 114] ++ []).
  constructor; [|constructor; [|constructor; [|constructor]]].
  - change [3; 111; 116; 104] with (nlen (bs "oth") :: bs "oth"). constructor. split; vm_compute; discriminate.
  - eapply in_copy with (p := bs "h") (q := bs "llo"); [|reflexivity|reflexivity|reflexivity].
    exists [Some 1; None; None; None], [Some 1; None; None]. repeat split. repeat constructor.
  - change [1; 114] with (nlen (bs "r") :: bs "r"). constructor. split; vm_compute; discriminate.
Qed.
Lemma ex_free3 : collision_free (fun o => o = ex_blob \/ In o [ex_top3; ex_root3; ex_lib3]).
Proof.
  assert (K : forall a b, In a [ex_blob; ex_top3; ex_root3; ex_lib3] -> In b [ex_blob; ex_top3; ex_root3; ex_lib3] -> oid a = oid b -> a = b).
  { assert (C : forallb (fun a => forallb (fun b => negb (beq (oid a) (oid b)) || (beq (snd a) (snd b) && (type2_number (fst a) =? type2_number (fst b))))
       [ex_blob; ex_top3; ex_root3; ex_lib3]) [ex_blob; ex_top3; ex_root3; ex_lib3] = true) by (vm_compute; reflexivity).
    intros a b Ha Hb E. rewrite forallb_forall in C. specialize (C a Ha). rewrite forallb_forall in C. specialize (C b Hb).
    rewrite E, beq_refl in C. cbn [negb orb] in C. apply andb_true_iff in C as [C1 C2]. apply beq_eq in C1. apply N.eqb_eq in C2.
    destruct a as [ta da], b as [tb db]. cbn [fst snd] in *. subst db. f_equal. destruct ta, tb; try reflexivity; discriminate C2. }
  intros a b h Ha Hb Ia Ib. apply K; [destruct Ha as [->|Ha]; [left; reflexivity|right; exact Ha]|destruct Hb as [->|Hb]; [left; reflexivity|right; exact Hb]|].
  rewrite (oid_eq _ _ Ia), (oid_eq _ _ Ib). reflexivity.
Qed.
Example C135_ex : exists objs, env_ok ex_env /\ no_failure ex_world /\ Forall addressed_row (d_nodes (w_db ex_world)) /\
  collision_free (server_has (w_db ex_world)) /\ bases_there (one_base ex_blob) (w_db ex_world) /\
  push_request (repeat 48 40) (to_plain_str (oid ex_top3)) (bs "refs/heads/master") ex_caps thin_pack3 thin_body3 /\
  git_pack stored (one_base ex_blob) thin_pack3 objs /\ nlen thin_pack3 < 2 ^ 32 /\ map snd objs = ex_hist3 /\ history (bs "/other") (map snd objs).
Proof.
  assert (Fb : sound_object ex_blob).
  { pose proof (hs_sound _ _ (proj1 (ex_hist_ok (bs "/demo") eq_refl))) as F. rewrite Forall_forall in F. apply F. do 3 right. left. reflexivity. }
  pose proof (hs_sound _ _ ex_hist3_ok) as F3.
  destruct (thin_git [ex_top3; ex_root3; ex_lib3] Blob (snd ex_blob) [123] thin_delta (snd ex_blob3)) as (objs & G & E);
    [reflexivity|inversion_clear F3 as [|? ? A1 B1]; inversion_clear B1 as [|? ? A2 B2]; inversion_clear B2 as [|? ? A3 B3]; exact (Forall_cons _ A1 (Forall_cons _ A2 (Forall_cons _ A3 (Forall_nil _))))
    |exact Fb|intros [K|[K|[K|[]]]]; discriminate (f_equal fst K) |exact ex_free3| |repeat constructor|exact thin_delta_ok|reflexivity|].
  { split; [|split; [cbn; lia|reflexivity]]. apply (hdr_short 7 11). reflexivity. }
  exists objs. split; [exact ex_env_ok|]. split; [exact ex_world_quiet|]. split; [exact ex_rows_addressed|]. split; [exact ex_has_free|].
  split. { intros h o K. apply one_knows in K as [-> ->]; [|apply oid_ok, blob_base]. split; [exact (oid_id _ Fb)|exact ex_has_blob]. }
  split; [apply push_body_request; rewrite !nlen_app, (plain_len (oid ex_top3) (oid_ok Commit (snd ex_top3) commit_base)); vm_compute; discriminate|].
  split; [exact G|]. split; [vm_compute; reflexivity|]. split; [exact E|]. rewrite E. exact ex_hist3_ok.
Qed.

(** A commit as a delta against a commit that the server has, of the repository that is
    pushed to: a pack as git makes it, and the push is not answered. *)
Definition ex_amend : object := commit_on (oid ex_root) [] (bs "first!").
Definition amend_objs : list object := [ex_root; ex_lib; ex_blob].
Definition amend_delta : bytes := [128 + 19; 1; 128 + 20; 1; 144; 147; 1; 33].
Definition amend_pack : bytes := thin_of amend_objs ex_top [120] amend_delta.
Definition amend_body : bytes := push_body (to_plain_str (oid ex_top)) (to_plain_str (oid ex_amend)) (bs "refs/heads/master") ex_caps amend_pack.
Lemma ex_amend_data : snd ex_amend = snd ex_top ++ bs "!" ++ [].
Proof. apply beq_eq. vm_compute. reflexivity. Qed.
Lemma ex_top_len : nlen (snd ex_top) = 147.
Proof. vm_compute. reflexivity. Qed.
Lemma copy_whole : forall base, nlen base = 147 -> instr base [144; 147] base.
Proof.
  intros base L. apply in_copy with (p := []) (q := []) (off := 0) (size := 147); [|rewrite app_nil_r; reflexivity|reflexivity|exact L].
  exists [None; None; None; None], [Some 147; None; None]. repeat split. repeat constructor.
Qed.
Lemma amend_delta_ok : git_delta (snd ex_top) amend_delta (snd ex_amend).
Proof.
  rewrite ex_amend_data. exists [128 + 19; 1], [128 + 20; 1], ([144; 147] ++ [1; 33] ++ []). split; [reflexivity|].
  rewrite !nlen_app, ex_top_len. change (nlen (bs "!")) with 1. change (nlen (@nil N)) with 0.
  split; [apply (leb_more 19 [1] 1); [reflexivity|apply leb_last; reflexivity]|]. split; [cbn; lia|].
  split; [apply (leb_more 20 [1] 1); [reflexivity|apply leb_last; reflexivity]|]. split; [cbn; lia|].
  constructor; [|constructor; [|constructor]].
  - exact (copy_whole _ ex_top_len).
  - change [1; 33] with (nlen (bs "!") :: bs "!"). constructor. split; vm_compute; discriminate.
Qed.
Lemma ex_amend_root : commit_root (snd ex_amend) (oid ex_root).
Proof. apply commit_on_root; [apply oid_ok, tree_base|constructor|apply utf8_spec; reflexivity]. Qed.
Lemma amend_history : history (bs "/demo") (amend_objs ++ [ex_amend]).
Proof.
  apply history_check; [vm_compute; reflexivity|reflexivity| |].
  - intros d [E|[E|[E|[E|[]]]]]; try discriminate (f_equal fst E). exists (oid ex_root).
    replace d with (snd ex_amend) by exact (f_equal snd E). exact ex_amend_root.
  - intros d [E|[E|[E|[E|[]]]]]; discriminate (f_equal fst E).
Qed.
Lemma ex_has_other : forall o, server_has (w_db ex_world) o -> ~ obj_id o (oid ex_top).
Proof.
  intros o Ho Hi. apply ex_has_hist in Ho.
  assert (K : forallb (fun x => negb (beq (oid x) (oid ex_top))) [ex_root; ex_lib; ex_blob] = true) by (vm_compute; reflexivity).
  rewrite forallb_forall in K. specialize (K o Ho). apply negb_true_iff, beq_neq in K. apply K. rewrite (oid_eq _ _ Hi). reflexivity.
Qed.
Lemma ex_commit_row : exists row, In row (d_commits (w_db ex_world)) /\ c_repo_path row = bs "/demo" /\ commit_for row ex_top.
Proof.
  assert (K : existsb (fun r => beq (c_repo_path r) (bs "/demo")) (d_commits (w_db ex_world)) = true) by (vm_compute; reflexivity).
  apply existsb_exists in K as (r & Hr & K). apply beq_eq in K. exists r. split; [exact Hr|]. split; [exact K|].
  pose proof ex_commits_sound as Q. rewrite forallb_forall in Q. specialize (Q r Hr).
  destruct (commit_checked [(ex_top, oid ex_root)] r) with (2 := Q) as (x & h & Hx & Cx & _).
  - intros x h Hx. apply one_pair in Hx as [-> ->]. split; [apply ex_id_ok; left; reflexivity|]. split; [apply oid_ok, tree_base|exact ex_top_root].
  - apply one_pair in Hx as [-> _]. exact Cx.
Qed.

Lemma ex_sound : forall o, In o ex_hist -> sound_object o.
Proof. pose proof (hs_sound _ _ (proj1 (ex_hist_ok (bs "/demo") eq_refl))) as F. rewrite Forall_forall in F. exact F. Qed.
Lemma amend_free : collision_free (fun o => o = ex_top \/ In o amend_objs).
Proof.
  intros a b h Ha Hb. apply (hs_free _ _ (proj1 (ex_hist_ok (bs "/demo") eq_refl)));
    [destruct Ha as [->|Ha]; [left; reflexivity|right; exact Ha]|destruct Hb as [->|Hb]; [left; reflexivity|right; exact Hb]].
Qed.
Lemma amend_sound : Forall sound_object amend_objs.
Proof. apply Forall_forall. intros o Ho. apply ex_sound. right. exact Ho. Qed.
Lemma amend_header : header 7 [120] (nlen amend_delta).
Proof. split; [|split; [cbn; lia|reflexivity]]. apply (hdr_short 7 8). reflexivity. Qed.
Lemma amend_git : exists pobjs, git_pack stored (one_base ex_top) amend_pack pobjs /\ map snd pobjs = amend_objs ++ [ex_amend].
Proof.
  apply (thin_git amend_objs Commit (snd ex_top) [120] amend_delta (snd ex_amend)); [reflexivity|exact amend_sound|exact (ex_sound ex_top (or_introl eq_refl))|
    intros [K|[K|[K|[]]]]; discriminate (f_equal fst K)|exact amend_free|exact amend_header|repeat constructor|exact amend_delta_ok|].
  rewrite ex_amend_data, !nlen_app, ex_top_len. reflexivity.
Qed.
Lemma amend_aborts : forall m fuel, exists w', http_receive_pack ex_env m stored (S fuel) 8 (bs "/demo") amend_body ex_world = (w', Panic) /\ untouched 8 ex_world w'.
Proof.
  intros m fuel. destruct (thin_head_body amend_objs (fun _ => Err ENotFoundHash)) as (po & Hb & E); [reflexivity|exact amend_sound|].
  assert (Ht : id_ok (oid ex_top)) by exact ex_top_id. assert (Hm : id_ok (oid ex_amend)) by apply oid_ok, commit_base.
  assert (Ep : amend_pack = thin_head amend_objs ++ [120] ++ oid ex_top ++ stored_deflate amend_delta ++ sha1 (thin_head amend_objs ++ thin_entry ex_top [120] amend_delta))
    by (unfold amend_pack, thin_of, thin_entry; rewrite <- !app_assoc; reflexivity).
  apply (C135_other_base ex_env m stored (fun _ => Err ENotFoundHash) fuel 8 (bs "/demo") (to_plain_str (oid ex_top)) (to_plain_str (oid ex_amend)) (bs "refs/heads/master") ex_caps
    amend_body (nlen amend_objs + 1) (thin_head amend_objs) po [120] (nlen amend_delta) (oid ex_top)
    (stored_deflate amend_delta ++ sha1 (thin_head amend_objs ++ thin_entry ex_top [120] amend_delta)) ex_world).
  - exact ex_env_ok.
  - exact ex_rows_addressed.
  - exact ex_has_free.
  - intros h o (s & h' & _ & _ & K). discriminate K.
  - apply (hex_word _ (oid ex_top)); [apply plain_lower; exact Ht|exact Ht].
  - apply (hex_word _ (oid ex_amend)); [apply plain_lower; exact Hm|exact Hm].
  - exact master_word.
  - apply utf8_spec. reflexivity.
  - vm_compute. reflexivity.
  - rewrite <- Ep. apply push_body_request. rewrite !nlen_app, (plain_len _ Ht), (plain_len _ Hm). vm_compute. discriminate.
  - exact Hb.
  - rewrite <- E. unfold nlen. rewrite map_length. lia.
  - vm_compute. reflexivity.
  - rewrite E. intros a b h Ha Hb'. apply amend_free; right; assumption.
  - exact amend_header.
  - exact Ht.
  - intros off o Ho Hi. assert (Io : In o amend_objs) by (rewrite <- E; apply in_map_iff; exists (off, o); split; [reflexivity|exact Ho]).
    assert (K : o = ex_top) by (apply (amend_free o ex_top (oid ex_top)); [right; exact Io|left; reflexivity|exact Hi|apply ex_id_ok; left; reflexivity]).
    rewrite K in Io. destruct Io as [K'|[K'|[K'|[]]]]; discriminate (f_equal fst K').
  - exact ex_has_other.
Qed.
Theorem C135_refuted : exists e c st now path old new name caps body pack objs w row top,
  env_ok e /\ no_failure w /\ sound_db (w_db w) /\
  In row (d_commits (w_db w)) /\ c_repo_path row = path /\ commit_for row top /\ (forall h o, knows st h o -> obj_id o h /\ o = top) /\
  push_request old new name caps pack body /\ git_pack c st pack objs /\ nlen pack < 2 ^ 32 /\ history path (map snd objs) /\
  forall m fuel, exists w', http_receive_pack e m c (S fuel) now path body w = (w', Panic) /\ untouched now w w'.
Proof.
  destruct amend_git as (objs & G & E). destruct ex_commit_row as (row & Hr & Hp & Hc).
  exists ex_env, stored, (one_base ex_top), 8, (bs "/demo"), (to_plain_str (oid ex_top)), (to_plain_str (oid ex_amend)), (bs "refs/heads/master"), ex_caps,
    amend_body, amend_pack, objs, ex_world, row, ex_top.
  split; [exact ex_env_ok|]. split; [exact ex_world_quiet|]. split; [exact ex_world_sound|]. split; [exact Hr|]. split; [exact Hp|]. split; [exact Hc|].
  split; [intros h o K; apply one_knows in K as [-> ->]; [split; [apply ex_id_ok; left; reflexivity|reflexivity]|exact ex_top_id]|].
  assert (Hm : id_ok (oid ex_amend)) by apply oid_ok, commit_base.
  split; [apply push_body_request; rewrite !nlen_app, (plain_len _ ex_top_id), (plain_len _ Hm); vm_compute; discriminate|].
  split; [exact G|]. split; [vm_compute; reflexivity|]. split; [rewrite E; exact amend_history|]. exact amend_aborts.
Qed.

(** Proofs about whole sessions: pushes, crashes, advertisements. *)

From Coq Require Import Permutation Sorted.
From Verif Require Import Base BaseLemmas Digest ModelObject ModelBase ModelPack ModelDecode ModelPkt ModelStorage ModelProto.
From Verif Require Import SpecObject SpecIdx SpecBase SpecPack SpecDecode SpecPkt SpecStorage SpecProto.
From Verif Require Import ProofUtf8 ProofObject ProofPack ProofIdx ProofBase ProofEncode ProofDecode ProofPkt ProofReq ProofNodes ProofStorage ProofPush ProofClone ProofRepo ProofRefs.
Open Scope N_scope.

(** More fuel changes nothing. *)
Lemma next_object_more : forall m c st file fuel fuel' off k x, (fuel <= fuel')%nat ->
  next_object m c st fuel file off k = Ok x -> next_object m c st fuel' file off k = Ok x.
Proof.
  intros m c st file. induction fuel as [|f IH]; intros fuel' off k x Le E; [discriminate|].
  destruct fuel' as [|f']; [lia|]. cbn [next_object] in E |- *. cbv zeta in E |- *.
  apply bind_ok in E as ([[ty size] r] & Eh & E). rewrite Eh. cbn [bind].
  destruct ((1 <=? ty) && (ty <=? 4)); [exact E|]. destruct (ty =? 6); [|exact E].
  apply bind_ok in E as ([d r2] & Eo & E). rewrite Eo. cbn [bind]. destruct (off <? d); [exact E|].
  apply bind_ok in E as ([base k1] & Eb & E).
  destruct (offset_object k (off - d)) as [o|].
  - rewrite Eb. exact E.
  - apply bind_ok in Eb as ([[o p] k'] & En & Eb). rewrite (IH f' _ _ _ ltac:(lia) En). cbn [bind] in *. injection Eb as <- <-. exact E.
Qed.
Lemma decode_loop_more : forall m c st file fuel fuel', (fuel <= fuel')%nat -> forall n pos k x,
  decode_loop m c st fuel file n pos k = Ok x -> decode_loop m c st fuel' file n pos k = Ok x.
Proof.
  intros m c st file fuel fuel' Le. induction n as [|n IH]; intros pos k x E; [exact E|]. cbn [decode_loop] in E |- *.
  apply bind_ok in E as ([[o pos'] k'] & En & E). rewrite (next_object_more _ _ _ _ _ _ _ _ _ Le En). cbn [bind].
  destruct (2 ^ 32 <=? pos); [exact E|]. exact (IH _ _ _ E).
Qed.
Lemma decode_more : forall m c st file fuel fuel' p, (fuel <= fuel')%nat ->
  decode m c st fuel file = Ok p -> decode m c st fuel' file = Ok p.
Proof.
  intros m c st file fuel fuel' p Le E. unfold decode in E |- *. apply bind_ok in E as ([n rest] & Eh & E). rewrite Eh. cbn [bind].
  apply bind_ok in E as ([pos k] & El & E). rewrite (decode_loop_more _ _ _ _ _ _ Le _ _ _ _ El). exact E.
Qed.

(** A pack followed by anything. *)
Lemma decode_git_pack_junk : forall m c st file objs junk, git_pack c st file objs ->
  no_collision (map snd objs) -> nlen file < 2 ^ 32 ->
  exists p, (forall fuel, (0 < fuel)%nat -> decode m c st fuel (file ++ junk) = Ok p) /\
    holds (p_cache p) (map snd objs) /\ sorted_cache (p_cache p).
Proof.
  intros m c st file objs junk G Hc Hn. pose proof (git_pack_offs _ _ _ _ G) as Ho. destruct G as (b & Hb & ->).
  destruct (decode_pack m c st O b objs (sha1 b) junk Hb (sha1_len b) Hc) as (k & E & H1 & H2).
  { intros off o Hi. apply Ho in Hi. lia. }
  exists (mkPack (nlen objs) (sha1 b) k). rewrite <- app_assoc. cbn [p_cache]. split; [|split; [exact H1|]].
  - intros fuel Hf. exact (decode_more _ _ _ _ _ _ _ Hf E).
  - apply (decode_tidy _ _ _ _ _ _ E).
Qed.

Lemma pack_body_magic : forall c st n b objs, pack_body c st n b objs -> exists r, b = bs "PACK" ++ r.
Proof.
  intros c st n b objs H. induction H as [v w|b objs e o H (r & ->) He]; [eexists; reflexivity|].
  rewrite <- app_assoc. eexists. reflexivity.
Qed.
Lemma fs_get_remove_same : forall f p, fs_get (fs_remove f p) p = None.
Proof.
  induction f as [|[q x] f IH]; intros p; [reflexivity|]. unfold fs_remove in *. cbn [filter fst].
  destruct (path_eqb q p) eqn:B; cbn [negb]; [apply IH|]. cbn [fs_get]. rewrite B. apply IH.
Qed.
Lemma fs_get_remove_other : forall f p q, q <> p -> fs_get (fs_remove f p) q = fs_get f q.
Proof.
  induction f as [|[r x] f IH]; intros p q H; [reflexivity|]. unfold fs_remove in *. cbn [filter fst fs_get].
  destruct (path_eqb r p) eqn:B; cbn [negb].
  - apply path_eqb_eq in B. subst r. replace (path_eqb p q) with false by (symmetry; apply path_eqb_neq; congruence). apply IH. exact H.
  - cbn [fs_get]. destruct (path_eqb r q); [reflexivity|]. apply IH. exact H.
Qed.

(** ** A push *)

Section Receive.
Context (e : env) (m : build) (c : codec) (now : N) (pp : proto) (pre : list ref_command) (cmd : ref_command).
Context (body junk : bytes) (objs : list (N * object)) (w : world).
Let path := pp_path pp.
Let new := fun o => In o (map snd objs).
Context (He : env_ok e) (Q : no_failure w) (Hpp : pp_cmds pp = pre ++ [cmd]).
Context (G : git_pack c (get_hash_object e w) body objs) (Hl : nlen body < 2 ^ 32) (Cf : collision_free new).

Let cmd1 := cmd_unpacked cmd None.

(** Up to the storing of the objects. *)
Lemma receive_start : exists wu k file,
  w_db wu = w_db w /\ w_log wu = w_log w /\ w_fails wu = w_fails w /\
  w_files wu = fs_put (w_files w) (temp_path now) file /\ SpecPack.holds k (map snd objs) /\ sorted_cache k /\
  forall fuel0 w1,
    ((forall fuel, (fuel0 <= fuel)%nat -> save_packfile e fuel k path wu = (w1, Panic)) ->
     forall fuel, (Nat.max 1 fuel0 <= fuel)%nat -> git_receive_pack e m c fuel now pp (body ++ junk) w = (w1, Panic)) /\
    ((forall fuel, (fuel0 <= fuel)%nat -> save_packfile e fuel k path wu = (w1, Ok tt)) ->
     forall fuel, (Nat.max 1 fuel0 <= fuel)%nat ->
     git_receive_pack e m c fuel now pp (body ++ junk) w =
      mbind (handle_refs e cmd1 path) (fun _ => mbind (remove_temp (temp_path now)) (fun _ =>
        ret (mkProto (pp_protocol pp) path (pp_service pp) (pp_caps pp) (pre ++ [cmd1]), report (pp_caps pp) (pre ++ [cmd1])))) w1).
Proof.
  set (old := match fs_get (w_files w) (temp_path now) with Some x => x | None => [] end).
  set (file := (body ++ junk) ++ skipn (length (body ++ junk)) old).
  set (wf := mkWorld (w_db w) (w_log w) (w_fails w) (w_tick w) (fs_put (w_files w) (temp_path now) file)).
  set (wu := mkWorld (w_db w) (w_log w) (w_fails w) (Datatypes.S (w_tick w)) (w_files wf)).
  assert (Ef : file = body ++ (junk ++ skipn (length (body ++ junk)) old)) by (unfold file; rewrite <- app_assoc; reflexivity).
  destruct (decode_git_pack_junk m c (get_hash_object e w) body objs (junk ++ skipn (length (body ++ junk)) old) G Cf Hl) as (p & Ed & Hh & Hk).
  rewrite <- Ef in Ed.
  exists wu, (p_cache p), file. do 4 (split; [reflexivity|]). split; [exact Hh|]. split; [exact Hk|].
  assert (Ee : forall fuel, (1 <= fuel)%nat -> git_receive_pack e m c fuel now pp (body ++ junk) w =
    mbind (fun w =>
      match save_packfile e fuel (p_cache p) path w with
      | (w', Ok _) => mbind (handle_refs e cmd1 path) (fun _ => ret cmd1) w'
      | (w', Err _) => (w', Ok (cmd_failed cmd1 (bs "db operation failed")))
      | (w', Panic) => (w', Panic)
      | (w', OutOfFuel) => (w', OutOfFuel)
      end) (fun cmd2 => mbind (remove_temp (temp_path now)) (fun _ =>
        ret (mkProto (pp_protocol pp) path (pp_service pp) (pp_caps pp) (pre ++ [cmd2]), report (pp_caps pp) (pre ++ [cmd2])))) wu).
  { intros fuel Hf. unfold git_receive_pack.
    assert (Hs : starts_with (bs "PACK") (body ++ junk) = true).
    { destruct G as (b & Hb & ->). rewrite <- app_assoc. apply pack_body_magic in Hb as (r & ->). rewrite <- app_assoc. apply starts_with_app. }
    rewrite Hs. rewrite Hpp, app_length. cbn [length]. rewrite Nat.add_sub, nth_error_app2, Nat.sub_diag by lia.
    cbn [nth_error unwrap_opt]. unfold lift at 1, mbind at 1.
    assert (Ew : write_temp (temp_path now) (body ++ junk) w = (wf, Ok tt)) by reflexivity.
    rewrite (mbind_ok _ _ _ _ _ _ _ Ew).
    assert (Er : read_temp (temp_path now) wf = (wf, Ok file)).
    { unfold read_temp. cbn [w_files wf]. rewrite fs_get_put_same. reflexivity. }
    rewrite (mbind_ok _ _ _ _ _ _ _ Er).
    assert (Eu : unpack_pack e m c fuel file wf = (wu, Ok p)).
    { unfold unpack_pack. change (get_hash_object e wf) with (get_hash_object e w). rewrite Ed by lia. reflexivity. }
    rewrite (mbind_ok _ _ _ _ _ _ _ Eu). cbv zeta. unfold set_last. rewrite removelast_last. reflexivity. }
  intros fuel0 w1. split; intros Es fuel Hf; rewrite Ee by lia; unfold mbind at 1; rewrite Es by lia; [reflexivity|].
  unfold mbind, ret. destruct (handle_refs e cmd1 path w1) as [w2 [[]| | |]]; reflexivity.
Qed.

Context (Hso : Forall sound_object (map snd objs)) (Cn : complete new) (Ac : acyclic new)
  (Ft : forall o, reach new o -> fits_columns path o).

Lemma receive_eq : exists fuel0 w1 l rows crows file,
  w_log w1 = w_log w ++ l /\ w_db w1 = last l (w_db w) /\ no_failure w1 /\
  w_db w1 = with_rows (w_db w) rows crows /\ rows_for path (map snd objs) rows crows /\
  (forall d, In d l -> (exists p q, rows = p ++ q /\ d = with_nodes (w_db w) p) \/
                      (exists p q, crows = p ++ q /\ d = with_rows (w_db w) rows p)) /\
  w_files w1 = fs_put (w_files w) (temp_path now) file /\
  forall fuel, (fuel0 <= fuel)%nat ->
    git_receive_pack e m c fuel now pp (body ++ junk) w =
      mbind (handle_refs e cmd1 path) (fun _ => mbind (remove_temp (temp_path now)) (fun _ =>
        ret (mkProto (pp_protocol pp) path (pp_service pp) (pp_caps pp) (pre ++ [cmd1]), report (pp_caps pp) (pre ++ [cmd1])))) w1.
Proof.
  destruct receive_start as (wu & k & file & D & Lg & Fa & Fi & Hh & Hk & K).
  assert (Qu : no_failure wu) by (unfold no_failure; rewrite Fa; exact Q).
  destruct (push_run e k (map snd objs) path He Hk Hh Hso Cn Ac Ft wu Qu) as (fuel0 & w1 & l & rows & crows & Es & M & D1 & Rf & L).
  rewrite D in D1. exists (Nat.max 1 fuel0), w1, l, rows, crows, file.
  split; [rewrite <- Lg; exact (mv_log _ _ _ M)|]. split; [rewrite <- D; exact (mv_db _ _ _ M)|]. split; [exact (mv_quiet _ _ _ M)|]. split; [exact D1|].
  split; [exact Rf|]. split; [rewrite <- D; exact L|]. split; [rewrite (mv_files _ _ _ M); exact Fi|].
  exact (proj2 (K fuel0 w1) Es).
Qed.
Lemma receive_run : exists fuel0 w1 l rows crows,
  w_log w1 = w_log w ++ l /\ w_db w1 = last l (w_db w) /\ no_failure w1 /\
  w_db w1 = with_rows (w_db w) rows crows /\ rows_for path (map snd objs) rows crows /\
  (forall d, In d l -> (exists p q, rows = p ++ q /\ d = with_nodes (w_db w) p) \/
                      (exists p q, crows = p ++ q /\ d = with_rows (w_db w) rows p)) /\
  (forall w2, handle_refs e cmd1 path w1 = (w2, Panic) ->
   forall fuel, (fuel0 <= fuel)%nat -> git_receive_pack e m c fuel now pp (body ++ junk) w = (w2, Panic)) /\
  forall w2, handle_refs e cmd1 path w1 = (w2, Ok tt) -> w_files w2 = w_files w1 ->
  exists w3, w_db w3 = w_db w2 /\ w_log w3 = w_log w2 /\ w_fails w3 = w_fails w2 /\
    (forall q, q <> temp_path now -> fs_get (w_files w3) q = fs_get (w_files w) q) /\ fs_get (w_files w3) (temp_path now) = None /\
    forall fuel, (fuel0 <= fuel)%nat ->
      git_receive_pack e m c fuel now pp (body ++ junk) w =
        (w3, Ok (mkProto (pp_protocol pp) path (pp_service pp) (pp_caps pp) (pre ++ [cmd1]), report (pp_caps pp) (pre ++ [cmd1]))).
Proof.
  destruct receive_eq as (fuel0 & w1 & l & rows & crows & file & A1 & A2 & A3 & A4 & A5 & A6 & F1 & E).
  exists fuel0, w1, l, rows, crows. do 6 (split; [assumption|]). split.
  - intros w2 E2 fuel Hf. rewrite (E _ Hf). unfold mbind. rewrite E2. reflexivity.
  - intros w2 E2 F2.
    assert (Gt : fs_get (w_files w2) (temp_path now) = Some file) by (rewrite F2, F1; apply fs_get_put_same).
    exists (mkWorld (w_db w2) (w_log w2) (w_fails w2) (w_tick w2) (fs_remove (w_files w2) (temp_path now))).
    split; [reflexivity|]. split; [reflexivity|]. split; [reflexivity|]. split; [|split].
    + intros q Hq. cbn [w_files]. rewrite fs_get_remove_other by exact Hq. rewrite F2, F1. apply fs_get_put_other. exact Hq.
    + apply fs_get_remove_same.
    + intros fuel Hf. rewrite (E _ Hf). rewrite (mbind_ok _ _ _ _ _ _ _ E2). unfold mbind, remove_temp. rewrite Gt. reflexivity.
Qed.
End Receive.

(** ** The report *)

Lemma fold_pkt_lines : forall ls buf ps, pkt_lines ps buf -> Forall (fun l => nlen l <= 65531) ls ->
  pkt_lines (ps ++ ls) (fold_left add_pkt_line ls buf).
Proof.
  induction ls as [|l ls IH]; intros buf ps H F; [rewrite app_nil_r; exact H|]. cbn [fold_left].
  inversion F as [|? ? F1 F2]; subst. change (l :: ls) with ([l] ++ ls). rewrite app_assoc. apply IH; [|exact F2].
  apply add_pkt_lines; assumption.
Qed.

Lemma pkt_lines_len : forall ps s, pkt_lines ps s -> nlen s = fold_right (fun p n => nlen p + 4 + n) 0 ps.
Proof.
  induction 1 as [|p b ps s (h & Hh & _ & ->) _ IH]; [reflexivity|]. cbn [fold_right].
  rewrite !nlen_app, IH. assert (nlen h = 4) by (unfold nlen; rewrite Hh; reflexivity). lia.
Qed.
Lemma report_ok : forall caps cmds, Forall (fun x => nlen (get_status x) <= 65531) cmds ->
  (In SideBand caps \/ In SideBand64k caps ->
     fold_right (fun x n => nlen (get_status x) + 4 + n) 18 cmds <= 65515) ->
  status_reply caps (map get_status cmds) (report caps cmds).
Proof.
  intros caps cmds F Hs. unfold report.
  assert (Ef : forall l b, fold_left (fun b c => add_pkt_line b (get_status c)) l b = fold_left add_pkt_line (map get_status l) b).
  { induction l as [|x l IH]; intros b; [reflexivity|]. cbn [fold_left map]. apply IH. }
  rewrite Ef.
  assert (P : pkt_lines ((bs "unpack ok" ++ [10]) :: map get_status cmds)
    (fold_left add_pkt_line (map get_status cmds) (add_pkt_line [] (bs "unpack ok" ++ [10])))).
  { apply (fold_pkt_lines (map get_status cmds) _ [bs "unpack ok" ++ [10]]).
    - apply (add_pkt_lines []); [constructor|vm_compute; discriminate].
    - apply Forall_forall. intros x Hx. apply in_map_iff in Hx as (y & <- & Hy). rewrite Forall_forall in F. auto. }
  eexists. split; [exact P|]. unfold build_side_band_format.
  destruct (has_cap SideBand caps || has_cap SideBand64k caps) eqn:B.
  - left. apply orb_true_iff in B. rewrite !has_cap_spec in B. split; [exact B|]. specialize (Hs B).
    pose proof (pkt_lines_len _ _ P) as Ln. cbn [fold_right] in Ln.
    set (st := fold_left add_pkt_line _ _) in *.
    assert (Ls : nlen (st ++ flush_pkt) <= 65515).
    { rewrite nlen_app. change (nlen flush_pkt) with 4. rewrite Ln.
      change (nlen (bs "unpack ok" ++ [10])) with 10.
      assert (Es : fold_right (fun p n => nlen p + 4 + n) 0 (map get_status cmds) + 18 =
                   fold_right (fun x n => nlen (get_status x) + 4 + n) 18 cmds).
      { clear. induction cmds as [|x l IH]; [reflexivity|]. cbn [map fold_right]. lia. }
      lia. }
    assert (Pc : pieces 65515 (st ++ flush_pkt) [st ++ flush_pkt]).
    { split; [cbn [concat]; apply app_nil_r|]. constructor; [|constructor]. split; [|exact Ls].
      intros K. apply app_eq_nil in K as [_ K]. discriminate. }
    pose proof (pieces_sum 65515 _ _ Pc ltac:(lia)) as K. cbn [map app concat] in K. rewrite app_nil_r in K. exact K.
  - right. apply orb_false_iff in B as [B1 B2]. apply not_true_iff_false in B1, B2. rewrite has_cap_spec in B1, B2.
    split; [exact B1|]. split; [exact B2|]. rewrite <- app_assoc. reflexivity.
Qed.

(** ** Advertisements *)

Lemma advert_ok : forall p s head refs, nlen (head_line s head) <= 65531 ->
  Forall (fun x => nlen (ref_line x) <= 65531) refs ->
  advert (match p with Http => true | _ => false end) s head refs (info_refs p s head refs).
Proof.
  intros p s head refs Hh Hr. unfold info_refs, build_smart_reply. cbv zeta.
  assert (E1 : head ++ [32] ++ (if beq head zero_id then bs "capabilities^{}" else bs "HEAD") ++ [0] ++ cap_list s ++ [10] = head_line s head).
  { unfold head_line, zero_id. destruct (beq head (repeat 48 40)), s; reflexivity. }
  match goal with |- context [?x :: map ?f refs] =>
    replace x with (head_line s head) by (symmetry; exact E1); change (map f refs) with (map ref_line refs) end.
  assert (F : forall buf, exists l, fold_left add_pkt_line (head_line s head :: map ref_line refs) buf = buf ++ l /\
     pkt_lines (head_line s head :: map ref_line refs) l).
  { intros buf. assert (Fa : forall ls b, fold_left add_pkt_line ls b = b ++ fold_left add_pkt_line ls []).
    { induction ls as [|x ls IH]; intros b; [symmetry; apply app_nil_r|]. cbn [fold_left]. rewrite IH, (IH (add_pkt_line [] x)).
      unfold add_pkt_line. rewrite <- !app_assoc. reflexivity. }
    eexists. split; [apply Fa|]. apply (fold_pkt_lines (head_line s head :: map ref_line refs) [] []); [constructor|].
    constructor; [exact Hh|]. apply Forall_forall. intros x Hx. apply in_map_iff in Hx as (y & <- & Hy).
    rewrite Forall_forall in Hr. auto. }
  assert (Es : service_name s = service_text s) by (destruct s; reflexivity). rewrite Es.
  assert (Hs : nlen (bs "# service=" ++ service_text s ++ [10]) <= 65531) by (destruct s; vm_compute; discriminate).
  destruct p;
    match goal with |- advert _ _ _ _ (?T ++ _) => match T with fold_left _ _ ?B =>
      destruct (F B) as (l & El & P); replace T with (B ++ l) by (symmetry; exact El) end end.
  2:{ exists (add_pkt_line [] (bs "# service=" ++ service_text s ++ [10]) ++ flush_pkt), l.
      split; [|split; [discriminate|split; [exact P|rewrite <- !app_assoc; reflexivity]]].
      intros _. eexists. split; [apply hex4_pkt; exact Hs|reflexivity]. }
  all: exists [], l; split; [discriminate|]; split; [reflexivity|]; split; [exact P|reflexivity].
Qed.

Lemma fold_refs : forall rows m, StronglySorted lt_hash (map fst m) ->
  let l := fold_left (fun m r => bt_insert (r_ref_git_id r) (r_ref_name r) m) rows m in
  StronglySorted lt_hash (map fst l) /\
  (forall i n, In (i, n) l -> In (i, n) m \/ exists r, In r rows /\ r_ref_git_id r = i /\ r_ref_name r = n) /\
  (forall i n, In (i, n) m -> exists n', In (i, n') l) /\
  (forall r, In r rows -> exists n, In (r_ref_git_id r, n) l).
Proof.
  induction rows as [|r rows IH]; intros m Sm; cbn [fold_left].
  - split; [exact Sm|]. split; [auto|]. split; [eauto|intros ? []].
  - assert (Sm' : StronglySorted lt_hash (map fst (bt_insert (r_ref_git_id r) (r_ref_name r) m)))
      by (rewrite bt_insert_keys; apply kins_sorted; exact Sm).
    destruct (IH _ Sm') as (A & B & C & D). split; [exact A|]. split; [|split].
    + intros i n H. destruct (B i n H) as [H'|(x & Hx & E1 & E2)]; [|right; exists x; split; [right; exact Hx|auto]].
      destruct (list_eq_dec N.eq_dec i (r_ref_git_id r)) as [->|Ni].
      * right. exists r. split; [left; reflexivity|]. split; [reflexivity|].
        apply (bt_get_sorted _ _ _ _ Sm') in H'. rewrite bt_get_insert_same in H'. congruence.
      * left. apply (bt_get_sorted _ _ _ _ Sm') in H'. rewrite bt_get_insert_other in H' by exact Ni. apply bt_get_in in H'. exact H'.
    + intros i n H. destruct (list_eq_dec N.eq_dec i (r_ref_git_id r)) as [->|Ni].
      * apply (C _ (r_ref_name r)). apply bt_get_in. apply bt_get_insert_same.
      * apply (C _ n). apply bt_get_in. rewrite bt_get_insert_other by exact Ni. apply (bt_get_sorted _ _ _ _ Sm). exact H.
    + intros x [<-|Hx]; [|auto]. apply (C _ (r_ref_name r)). apply bt_get_in. apply bt_get_insert_same.
Qed.

Lemma refs_listed : forall e path w, env_ok e -> no_failure w -> exists w' l, get_ref_object_id e path w = (w', Ok l) /\ moved w w' [] /\
  listing (filter (fun r => teq e (r_repo_path r) path) (d_refs (w_db w))) l.
Proof.
  intros e path w He Q. unfold get_ref_object_id.
  destruct (select_run _ e (fun d => filter (fun r => teq e (r_repo_path r) path) (d_refs d)) w Q) as (w1 & E1 & M1).
  rewrite (mbind_ok _ _ _ _ _ _ _ E1).
  pose proof (proj1 He (w_tick w) _ (filter (fun r => teq e (r_repo_path r) path) (d_refs (w_db w)))) as P. revert P. clear E1.
  generalize (ord e (w_tick w) _ (filter (fun r => teq e (r_repo_path r) path) (d_refs (w_db w)))) as rows. intros rows P.
  destruct (fold_refs rows [] (SSorted_nil _)) as (A & B & _ & D).
  set (m := fold_left (fun m r => bt_insert (r_ref_git_id r) (r_ref_name r) m) rows []) in *.
  destruct (shuffle_run _ e m w1 (mv_quiet _ _ _ M1)) as (w2 & E2 & M2). pose proof (proj1 He (w_tick w1) _ m) as P2.
  exists w2, (ord e (w_tick w1) _ m). split; [exact E2|]. split; [exact (moved_trans _ _ _ _ _ M1 M2)|]. split; [|split].
  - apply Permutation_NoDup with (l := map fst m); [apply Permutation_map, Permutation_sym, P2|]. apply sorted_nodup. exact A.
  - intros i n H. apply (Permutation_in _ P2) in H. destruct (B i n H) as [[]|(r & Hr & K)]. exists r. split; [|exact K].
    exact (Permutation_in _ P Hr).
  - intros r Hr. destruct (D r) as (n & Hn); [exact (Permutation_in _ (Permutation_sym P) Hr)|]. exists n.
    exact (Permutation_in _ (Permutation_sym P2) Hn).
Qed.

(** ** Stopping in the middle *)

Lemma has_commit_more : forall d d' id, has_commit d id -> incl (d_nodes d) (d_nodes d') -> incl (d_commits d) (d_commits d') -> has_commit d' id.
Proof.
  intros d d' id (row & data & tid & n & t & H1 & H2 & H3 & H4 & H5 & H6 & H7) Hn Hc.
  exists row, data, tid, n, t. split; [apply Hc; exact H1|]. repeat (split; [assumption|]). split; [apply Hn; exact H5|]. auto.
Qed.
Lemma stored_rows : forall path objs rows crows d dd h, rows_for path objs rows crows -> complete (fun o => In o objs) ->
  In (Commit, dd) objs -> obj_id (Commit, dd) h -> has_commit (with_rows d rows crows) (to_plain_str h).
Proof.
  intros path objs rows crows d dd h Rf Co Hd Hi. destruct (rf_commits_all _ _ _ _ Rf dd Hd) as (r & Hr & _ & Hc).
  inversion Hc as [r' h' tid d' Hi' L1 Cr L2 Em]; subst.
  pose proof (rc_commit (fun o => In o objs) _ Hd) as Rc. pose proof (rf_root _ _ Cr) as Rr.
  destruct (Co _ _ _ Rc Rr) as (_ & dt & Ht & Hit).
  assert (Rt : reach (fun o => In o objs) (Tree, dt)) by (eapply rc_refers; [exact Rc|exact Rr|discriminate|exact Ht|exact Hit]).
  destruct (rf_nodes_all _ _ _ _ Rf _ Rt ltac:(discriminate)) as (n & Hn & Nf).
  exists r, (c_meta r), tid, n, dt. unfold with_rows. cbn [d_nodes d_commits].
  split; [apply in_or_app; right; exact Hr|]. split; [apply lower_hex_plain; rewrite (obj_id_fun _ _ _ Hi Hi'); exact L1|].
  split; [exact Hc|]. split; [exact Cr|]. split; [apply in_or_app; right; exact Hn|]. auto.
Qed.

Lemma refs_stored_more : forall d d', refs_stored d -> d_refs d' = d_refs d -> incl (d_nodes d) (d_nodes d') -> incl (d_commits d) (d_commits d') -> refs_stored d'.
Proof. intros d d' H E Hn Hc r Hr. rewrite E in Hr. exact (has_commit_more _ _ _ (H r Hr) Hn Hc). Qed.
Lemma has_commit_id : forall d id, has_commit d id -> exists h, id_ok h /\ id = to_plain_str h.
Proof.
  intros d id (row & data & tid & n & t & _ & <- & H & _). inversion H as [r h tid' d' Hi L]; subst. exists h.
  split; [exact (obj_id_ok _ _ Hi)|exact (lower_hex_plain _ _ L)].
Qed.

Lemma save_refs_cases : forall cmd path w, no_failure w -> exists w', save_refs cmd path w = (w', Ok tt) /\ w_files w' = w_files w /\ no_failure w' /\
  (ref_fits (mkRef (d_next_ref (w_db w)) path (rc_ref_name cmd) (rc_new_id cmd)) = true /\
     w_db w' = mkDb (d_nodes (w_db w)) (d_commits (w_db w))
                (d_refs (w_db w) ++ [mkRef (d_next_ref (w_db w)) path (rc_ref_name cmd) (rc_new_id cmd)]) (d_next_ref (w_db w) + 1) /\
     w_log w' = w_log w ++ [w_db w'] \/
   ref_fits (mkRef (d_next_ref (w_db w)) path (rc_ref_name cmd) (rc_new_id cmd)) = false /\ w_db w' = w_db w /\ w_log w' = w_log w).
Proof.
  intros cmd path w Q. destruct (ref_fits _) eqn:F.
  - destruct (create_run cmd path w Q F) as (w' & E & M & D). exists w'. split; [exact E|]. split; [exact (mv_files _ _ _ M)|].
    split; [exact (mv_quiet _ _ _ M)|]. left. split; [reflexivity|]. split; [exact D|exact (mv_log _ _ _ M)].
  - exists w. unfold save_refs. cbn [insert_all]. unfold execute, attempt, mbind at 1 2. rewrite Q. cbn [negb].
    unfold insert_ref. rewrite F. cbn. split; [reflexivity|]. split; [reflexivity|]. split; [exact Q|]. right. auto.
Qed.

Lemma handle_refs_states : forall e cmd path w, env_ok e -> no_failure w -> refs_table (w_db w) -> refs_stored (w_db w) ->
  has_commit (w_db w) (rc_new_id cmd) -> exists w' r l, handle_refs e cmd path w = (w', r) /\ (r = Ok tt \/ r = Panic) /\
    w_log w' = w_log w ++ l /\ w_db w' = last l (w_db w) /\ (r = Ok tt -> w_files w' = w_files w) /\
    forall d, In d l -> refs_stored d.
Proof.
  intros e cmd path w He Q T St Hc. unfold handle_refs. destruct (rc_type cmd).
  - destruct (save_refs_cases cmd path w Q) as (w' & E & F & _ & [(_ & D & L)|(_ & D & L)]).
    + exists w', (Ok tt), [w_db w']. split; [exact E|]. split; [auto|]. split; [exact L|]. split; [reflexivity|]. split; [auto|].
      intros d [<-|[]]. rewrite D. intros r Hr. cbn [d_refs] in Hr. apply in_app_iff in Hr as [Hr|[<-|[]]].
      * apply (has_commit_more _ _ _ (St r Hr)); apply incl_refl.
      * apply (has_commit_more _ _ _ Hc); apply incl_refl.
    + exists w', (Ok tt), []. rewrite app_nil_r. split; [exact E|]. split; [auto|]. split; [exact L|]. split; [exact D|]. split; [auto|intros ? []].
  - exists w, Panic, []. rewrite app_nil_r. split; [reflexivity|]. split; [auto|]. split; [reflexivity|]. split; [reflexivity|]. split; [discriminate|intros ? []].
  - assert (V : varchar 40 (rc_new_id cmd) = true).
    { destruct (has_commit_id _ _ Hc) as (h & Hi & ->). apply N.leb_le, plain_chars. exact Hi. }
    destruct (update_run e cmd path w He Q T V) as [(w' & r & l1 & l2 & E & _ & _ & Er & D & M)|(w' & E & D & L & _)].
    + exists w', (Ok tt), [w_db w']. split; [exact E|]. split; [auto|]. split; [exact (mv_log _ _ _ M)|]. split; [reflexivity|].
      split; [intros _; exact (mv_files _ _ _ M)|]. intros d [<-|[]]. rewrite D. intros x Hx. cbn [with_refs d_refs] in Hx.
      assert (K : In x (d_refs (w_db w)) \/ x = with_id r (rc_new_id cmd)).
      { rewrite Er. apply in_app_iff in Hx as [Hx|[<-|Hx]]; [left; apply in_or_app; auto|auto|left; apply in_or_app; right; right; exact Hx]. }
      destruct K as [K| ->]; [apply (has_commit_more _ _ _ (St x K)); apply incl_refl|].
      apply (has_commit_more _ _ _ Hc); apply incl_refl.
    + exists w', Panic, []. rewrite app_nil_r. split; [exact E|]. split; [auto|]. split; [exact L|]. split; [exact D|]. split; [discriminate|intros ? []].
Qed.

Lemma receive_crash : forall e m c now pp pre cmd body junk objs w,
  env_ok e -> no_failure w -> pp_cmds pp = pre ++ [cmd] ->
  git_pack c (get_hash_object e w) body objs -> nlen body < 2 ^ 32 ->
  Forall sound_object (map snd objs) -> complete (fun o => In o (map snd objs)) -> collision_free (fun o => In o (map snd objs)) ->
  acyclic (fun o => In o (map snd objs)) -> (forall o, reach (fun o => In o (map snd objs)) o -> fits_columns (pp_path pp) o) ->
  refs_table (w_db w) -> refs_stored (w_db w) ->
  (has_commit (w_db w) (rc_new_id cmd) \/ exists d h, In (Commit, d) (map snd objs) /\ obj_id (Commit, d) h /\ lower_hex (rc_new_id cmd) h) ->
  exists fuel0 w' r l, (forall fuel, (fuel0 <= fuel)%nat -> git_receive_pack e m c fuel now pp (body ++ junk) w = (w', r)) /\
    w_log w' = w_log w ++ l /\ w_db w' = last l (w_db w) /\ forall d, In d l -> refs_stored d.
Proof.
  intros e m c now pp pre cmd body junk objs w He Q Hpp G Hl Hso Cn Cf Ac Ft T St Hn.
  destruct (receive_run e m c now pp pre cmd body junk objs w He Q Hpp G Hl Cf Hso Cn Ac Ft)
    as (fuel0 & w1 & l & rows & crows & L1 & D1 & Q1 & W1 & Rf & Ls & Ep & Ek).
  assert (St1 : refs_stored (w_db w1)).
  { rewrite W1. apply (refs_stored_more (w_db w)); [exact St|reflexivity| |]; cbn [with_rows d_nodes d_commits]; apply incl_appl, incl_refl. }
  assert (Hc : has_commit (w_db w1) (rc_new_id cmd)).
  { rewrite W1. destruct Hn as [Hn|(d & h & Hd & Hi & Lx)].
    - apply (has_commit_more _ _ _ Hn); cbn [with_rows d_nodes d_commits]; apply incl_appl, incl_refl.
    - rewrite (lower_hex_plain _ _ Lx). exact (stored_rows _ _ _ _ _ _ _ Rf Cn Hd Hi). }
  assert (T1 : refs_table (w_db w1)) by (rewrite W1; exact T).
  destruct (handle_refs_states e (cmd_unpacked cmd None) (pp_path pp) w1 He Q1 T1 St1 Hc) as (w2 & r & l2 & E2 & Hr & L2 & D2 & F2 & S2).
  assert (All : forall d, In d (l ++ l2) -> refs_stored d).
  { intros d Hd. apply in_app_iff in Hd as [Hd|Hd]; [|auto]. destruct (Ls d Hd) as [(p & q & _ & ->)|(p & q & _ & ->)];
      (apply (refs_stored_more (w_db w)); [exact St|reflexivity| |]); cbn [with_rows with_nodes d_nodes d_commits];
      first [apply incl_appl, incl_refl|apply incl_refl]. }
  assert (Dl : w_db w2 = last (l ++ l2) (w_db w)).
  { rewrite D2, D1, last_app. reflexivity. }
  destruct Hr as [-> | ->].
  - destruct (Ek _ E2 (F2 eq_refl)) as (w3 & D3 & L3 & _ & _ & _ & Eq). exists fuel0, w3. eexists. exists (l ++ l2).
    split; [exact Eq|]. split; [rewrite L3, L2, L1, app_assoc; reflexivity|]. split; [rewrite D3; exact Dl|exact All].
  - exists fuel0, w2, Panic, (l ++ l2). split; [exact (Ep _ E2)|]. split; [rewrite L2, L1, app_assoc; reflexivity|]. split; [exact Dl|exact All].
Qed.

(** ** Requests of a push *)

Lemma hex_not_pack : forall h n r, length h = 4%nat -> hex_numeral h n -> starts_with (bs "PACK") (h ++ r) = false.
Proof.
  intros h n r L H. destruct h as [|a [|b [|x [|y [|]]]]]; try discriminate L.
  destruct (N.eq_dec a 80) as [->|Na].
  - exfalso. assert (K : forall s m, hex_numeral s m -> ~ In 80 s).
    { clear. induction 1 as [|s n c d Hs IH Hd]; [intros []|]. intros Hi. apply in_app_iff in Hi as [Hi|[->|[]]]; [auto|].
      inversion Hd; lia. }
    apply (K _ _ H). left. reflexivity.
  - change (bs "PACK") with (80 :: bs "ACK"). cbn [app starts_with]. replace (80 =? a) with false; [reflexivity|].
    symmetry. apply N.eqb_neq. congruence.
Qed.

Lemma pack_front : forall a b, length a = 4%nat -> starts_with (bs "PACK") (a ++ b) = starts_with (bs "PACK") a.
Proof. intros a b L. destruct a as [|? [|? [|? [|? [|]]]]]; try discriminate L. reflexivity. Qed.

Lemma command_run : forall e m c fuel now pp line cmd tail b f rest w, pkt_line line b -> parse_ref_update line = Ok (cmd, tail) ->
  utf8_text tail -> length f = 4%nat ->
  git_receive_pack e m c fuel now pp (b ++ f ++ rest) w =
    (w, Ok (mkProto (pp_protocol pp) (pp_path pp) (pp_service pp) (parse_capabilities (pp_caps pp) tail) (pp_cmds pp ++ [cmd]), rest)).
Proof.
  intros e m c fuel now pp line cmd tail b f rest w Hb Hp Ht Hf. unfold git_receive_pack.
  pose proof (read_pkt line b (f ++ rest) Hb) as R. destruct Hb as (h & Lh & Hh & ->).
  replace (starts_with (bs "PACK") ((h ++ line) ++ f ++ rest)) with false
    by (symmetry; rewrite <- app_assoc; apply (hex_not_pack _ _ _ Lh Hh)).
  rewrite R. unfold lift at 1, mbind at 1. replace (nlen line + 4 =? 0) with false by (symmetry; apply N.eqb_neq; lia).
  cbn [andb]. rewrite Hp. unfold lift at 1, mbind at 1. rewrite utf8_unwrap_text by exact Ht. unfold lift at 1, mbind at 1.
  rewrite slice_from_app by (symmetry; exact Hf). reflexivity.
Qed.

(** Without a pack nothing happens to the server. *)
Lemma nopack_run : forall e m c fuel now pp body w, starts_with (bs "PACK") body = false ->
  fst (git_receive_pack e m c fuel now pp body w) = w.
Proof.
  intros e m c fuel now pp body w H. unfold git_receive_pack. rewrite H. unfold lift, mbind.
  destruct (read_pkt_line body) as [[[n line] rest]| | |]; try reflexivity.
  destruct ((n =? 0) && _); [reflexivity|]. destruct (parse_ref_update line) as [[cmd tail]| | |]; try reflexivity.
  destruct (utf8_unwrap tail); try reflexivity. destruct (slice_from 4 rest); reflexivity.
Qed.

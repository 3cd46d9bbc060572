(** Encoding of packs. *)

From Verif Require Import Base BaseLemmas Digest ModelUtils ModelObject ModelDelta ModelPack
  SpecFormat SpecObject SpecDelta SpecDiff SpecPack ProofUtils ProofObject ProofDelta ProofDiff ProofPack.
Open Scope N_scope.

Lemma is_base_code : forall t, is_base t -> pack_code t (type2_number t).
Proof. intros t (n & H). destruct H; constructor. Qed.

Lemma encode_header_ok : forall n h, encode_header n = Ok h ->
  0 < n < 2 ^ 32 /\ h = bs "PACK" ++ u32_vec 2 ++ u32_vec n.
Proof.
  intros n h H. unfold encode_header in H. destruct (N.eqb_spec n 0); [discriminate|].
  destruct (N.ltb_spec n (2 ^ 32)) as [Hn|]; [|discriminate]. cbn [negb] in H. injection H as <-.
  split; [lia|]. rewrite N.mod_small by exact Hn. reflexivity.
Qed.
Lemma encode_header_some : forall n, 0 < n < 2 ^ 32 -> encode_header n = Ok (bs "PACK" ++ u32_vec 2 ++ u32_vec n).
Proof.
  intros n H. unfold encode_header. replace (n =? 0) with false by (symmetry; apply N.eqb_neq; lia).
  replace (n <? 2 ^ 32) with true by (symmetry; apply N.ltb_lt; lia). cbn [negb].
  rewrite N.mod_small by apply H. reflexivity.
Qed.

Lemma header_body : forall c st n, n < 2 ^ 32 -> pack_body c st n (bs "PACK" ++ u32_vec 2 ++ u32_vec n) [].
Proof. intros c st n H. constructor; apply u32_vec_value; [reflexivity|exact H]. Qed.

Lemma entry_whole : forall c st off objs m, codec_ok c -> encodable m ->
  entry c st off objs (convert_to_vec c m) (obj_of m).
Proof.
  intros c st off objs m Hc [(Hb & Hs & _ & Hd & _) Hl]. unfold convert_to_vec, obj_of.
  replace (match m_t m with OffsetDelta | HashDelta => m_delta_header m | _ => [] end) with (@nil N)
    by (destruct Hb as (nm & Hb); destruct Hb; reflexivity).
  cbn [app]. apply e_whole with (n := type2_number (m_t m)).
  - apply is_base_code. assumption.
  - rewrite Hs. split; [apply entry_header_format|]. split; [apply entry_header_len; assumption|assumption].
  - intros rest. apply Hc. assumption.
Qed.

Lemma entries_body : forall c st n l b, codec_ok c -> Forall encodable l -> forall objs,
  pack_body c st n b objs -> exists objs', pack_body c st n (b ++ encode_entries c l) (objs ++ objs') /\
    map snd objs' = map obj_of l.
Proof.
  intros c st n l b Hc Hl. revert b. induction Hl as [|m l Hm _ IH]; intros b objs Hb.
  - exists []. cbn. rewrite !app_nil_r. auto.
  - destruct (IH (b ++ convert_to_vec c m) (objs ++ [(nlen b, obj_of m)])) as (objs' & Hb' & E).
    { constructor; [assumption|]. apply entry_whole; assumption. }
    exists ((nlen b, obj_of m) :: objs'). cbn [map snd encode_entries flat_map]. rewrite E. split; [|reflexivity].
    unfold encode_entries in Hb'. rewrite <- !app_assoc in Hb'. exact Hb'.
Qed.

Lemma encode_git_pack : forall c st l p file, codec_ok c -> Forall encodable l ->
  encode c l = Ok (p, file) -> exists objs, git_pack c st file objs /\ map snd objs = map obj_of l /\
    p_number p = nlen l /\ file = firstn (length file - 20) file ++ p_signature p.
Proof.
  intros c st l p file Hc Hl H. unfold encode in H. apply bind_ok in H as (hdr & Hh & H).
  apply encode_header_ok in Hh as (Hn & ->). cbv zeta in H. unfold hash_new in H.
  destruct (entries_body c st (nlen l) l _ Hc Hl [] (header_body c st (nlen l) (proj2 Hn))) as (objs & Hb & E).
  rewrite app_nil_l in Hb. revert H Hb.
  generalize ((bs "PACK" ++ u32_vec 2 ++ u32_vec (nlen l)) ++ encode_entries c l) as b. intros b H Hb.
  injection H as <- <-.
  exists objs. split; [|split; [assumption|split; [reflexivity|]]].
  - exists b. split; [|reflexivity]. replace (nlen objs) with (nlen l); [exact Hb|].
    unfold nlen. rewrite <- (map_length snd objs), E, map_length. reflexivity.
  - cbn [p_signature]. f_equal. rewrite app_length, sha1_len, Nat.add_sub.
    symmetry. apply firstn_app_exact.
Qed.

Lemma encode_ok : forall c l, l <> [] -> nlen l < 2 ^ 32 -> exists p file, encode c l = Ok (p, file).
Proof.
  intros c l Hl Hn. unfold encode. rewrite encode_header_some.
  - cbn [bind]. eexists. eexists. reflexivity.
  - split; [|assumption]. destruct l; [congruence|]. rewrite nlen_cons. lia.
Qed.

(** Offsets lie before the trailer. *)
Lemma git_pack_offs : forall c st file objs, git_pack c st file objs ->
  forall off o, In (off, o) objs -> off < nlen file.
Proof.
  intros c st file objs (b & Hb & ->) off o Hi. apply (pack_body_offs _ _ _ _ _ Hb) in Hi.
  rewrite nlen_app. lia.
Qed.

Lemma decode_git_pack : forall m c st fuel file objs, git_pack c st file objs ->
  no_collision (map snd objs) -> nlen file < 2 ^ 32 ->
  exists p, decode m c st (S fuel) file = Ok p /\ p_number p = nlen objs /\
    p_signature p = skipn (length file - 20) file /\
    holds (p_cache p) (map snd objs) /\ located (p_cache p) objs.
Proof.
  intros m c st fuel file objs G Hc Hn. pose proof (git_pack_offs _ _ _ _ G) as Ho.
  destruct G as (b & Hb & ->).
  destruct (decode_pack m c st fuel b objs (sha1 b) [] Hb (sha1_len b) Hc) as (k & E & H1 & H2).
  { intros off o Hi. apply Ho in Hi. lia. }
  rewrite app_nil_r in E. eexists. split; [exact E|]. cbn. repeat split; try assumption; try apply H1; try apply H2.
  rewrite app_length, sha1_len, Nat.add_sub. symmetry. apply skipn_app_exact.
Qed.

(** ** Bytes and length of a delta *)

Lemma pargs_ok : forall l, Forall (fun x => match x with Some b => b < 256 | None => True end) l ->
  bytes_ok (pargs l) /\ (length (pargs l) <= length l)%nat.
Proof.
  induction 1 as [|[b|] l Hb _ [IH1 IH2]]; cbn [pargs length].
  - split; [constructor|lia].
  - split; [constructor; assumption|]. cbn [length]. lia.
  - split; [assumption|lia].
Qed.

Lemma instr_bytes : forall base i o, instr base i o -> bytes_ok o ->
  bytes_ok i /\ nlen i <= 8 * nlen o.
Proof.
  intros base i o H Ho. inversion H as [d Hd|code args off size p d q Hc Hb Hp Hs]; subst.
  - split; [constructor; [unfold byte_ok; lia|assumption]|]. rewrite nlen_cons. lia.
  - destruct Hc as (a & s & La & Ls & Hf & -> & -> & _ & Hsz).
    destruct (pargs_ok _ Hf) as [P1 P2]. rewrite app_length, La, Ls in P2.
    pose proof (pmask_lt (a ++ s)) as Pm. replace (nlen (a ++ s)) with 7 in Pm
      by (unfold nlen; rewrite app_length, La, Ls; reflexivity). change (2 ^ 7) with 128 in Pm.
    split; [constructor; [unfold byte_ok; lia|assumption]|]. rewrite nlen_cons.
    assert (1 <= nlen o). { rewrite Hsz. destruct (N.eqb_spec (pvalue s) 0); lia. }
    unfold nlen at 1. lia.
Qed.
Lemma instrs_bytes : forall base s out, instrs base s out -> bytes_ok out ->
  bytes_ok s /\ nlen s <= 8 * nlen out.
Proof.
  induction 1 as [|i o s out Hi _ IH]; intros Ho; [split; [constructor|vm_compute; discriminate]|].
  apply Forall_app in Ho as [Ho1 Ho2]. destruct (IH Ho2) as [A1 A2].
  destruct (instr_bytes _ _ _ Hi Ho1) as [B1 B2]. split; [apply Forall_app; auto|].
  rewrite !nlen_app. lia.
Qed.
Lemma git_delta_bytes : forall base delta out, git_delta base delta out -> bytes_ok out ->
  bytes_ok delta /\ nlen delta <= 20 + 8 * nlen out.
Proof.
  intros base delta out (l1 & l2 & ops & -> & H1 & L1 & H2 & L2 & Hi) Ho.
  destruct (instrs_bytes _ _ _ Hi Ho) as [A B]. split.
  - apply Forall_app. split; [eapply leb128_bytes; eassumption|].
    apply Forall_app. split; [eapply leb128_bytes; eassumption|assumption].
  - rewrite !nlen_app. assert (nlen l1 <= 10 /\ nlen l2 <= 10) by (unfold nlen; lia). lia.
Qed.

(** ** The sliding window *)

Lemma window_spec : forall diff ms new i steps j best_j best j', (0 < j)%nat ->
  (forall j0, best_j = Some j0 -> (0 < j0 <= i)%nat /\
     exists base, nth_error ms (i - j0) = Some base /\ m_t base = m_t new) ->
  window diff ms new i steps j best_j best = Some j' -> (0 < j' <= i)%nat /\
     exists base, nth_error ms (i - j') = Some base /\ m_t base = m_t new.
Proof.
  induction steps as [|s IH]; intros j best_j best j' Hj Hb H; cbn [window] in H; [apply Hb; assumption|].
  destruct (Nat.ltb_spec i j) as [Hi|Hi]; [apply Hb; assumption|].
  destruct (nth_error ms (i - j)) as [base|] eqn:E; [|apply Hb; assumption].
  destruct (otype_eqb (m_t new) (m_t base)) eqn:T; cbn [negb] in H; [|apply Hb; assumption].
  destruct (_ && _); (eapply IH in H; [exact H|lia|]); [|assumption].
  intros j0 E0. injection E0 as <-. split; [lia|]. exists base. split; [assumption|].
  destruct (m_t new), (m_t base); try discriminate; reflexivity.
Qed.

Lemma write_offset_ok_debug : forall d h, write_offset_encoding Debug d = Ok h -> ofs_format h d.
Proof.
  intros d h H. destruct (zero_digit_dec d) as [Z|Z].
  - apply write_offset_debug_panic in Z. congruence.
  - destruct (write_offset_good Debug d Z) as (l & E & F). congruence.
Qed.

Lemma delta_entry_ok : forall c st n diff ms new i b objs f, codec_ok c -> diff_ok diff ->
  Forall encodable ms -> Forall (fun x => nlen (m_data x) < 2 ^ 24) ms ->
  nth_error ms i = Some new -> pack_body c st n b objs ->
  length objs = i -> map snd objs = map obj_of (firstn i ms) -> nlen b < 2 ^ 64 ->
  delta_entry Debug diff ms new i b (map fst objs) = Ok f ->
  entry c st (nlen b) objs (convert_to_vec c f) (obj_of new).
Proof.
  intros c st n diff ms new i b objs f Hc Hd Hm Hs Hnew Hb Hlen Hobjs Hb64 H.
  assert (Wn : encodable new) by (eapply Forall_forall; [exact Hm|eapply nth_error_In; eassumption]).
  assert (Sn : nlen (m_data new) < 2 ^ 24).
  { rewrite Forall_forall in Hs. apply Hs. eapply nth_error_In. eassumption. }
  unfold delta_entry in H. destruct (window _ _ _ _ _ _ _ _) as [j|] eqn:W; [|injection H as <-; apply entry_whole; assumption].
  apply window_spec in W as (Hj & base & Eb & Tb); [|lia|discriminate].
  rewrite Eb in H. cbn [unwrap_opt bind] in H.
  assert (Wb : encodable base) by (eapply Forall_forall; [exact Hm|eapply nth_error_In; eassumption]).
  assert (Sb : nlen (m_data base) < 2 ^ 24).
  { rewrite Forall_forall in Hs. apply Hs. eapply nth_error_In. eassumption. }
  destruct (nth_error (map fst objs) (i - j)) as [off|] eqn:Eo; [|discriminate]. cbn [unwrap_opt bind] in H.
  assert (Hin : In (off, obj_of base) objs).
  { rewrite nth_error_map in Eo. destruct (nth_error objs (i - j)) as [[off' o]|] eqn:En; [|discriminate].
    cbn in Eo. injection Eo as <-. replace (obj_of base) with o; [eapply nth_error_In; eassumption|].
    assert (X : nth_error (map snd objs) (i - j) = Some o) by (rewrite nth_error_map, En; reflexivity).
    rewrite Hobjs, nth_error_map in X.
    assert (Y : nth_error (firstn i ms) (i - j) = Some base).
    { rewrite <- Eb. rewrite <- (firstn_skipn i ms) at 2. symmetry. apply nth_error_app1.
      rewrite firstn_length. assert (i < length ms)%nat by (apply nth_error_Some; congruence). lia. }
    rewrite Y in X. cbn in X. congruence. }
  destruct (delta_reproduces Debug base new (diff (m_data base) (m_data new))) as (z & Ez & G & _).
  { apply Wb. } { apply Wn. } { apply Hd. }
  { change (2 ^ 24) with 16777216 in Sb. change (2 ^ 32) with 4294967296. lia. } { assumption. }
  rewrite Ez in H. cbn [bind] in H. apply bind_ok in H as (d & Ed & H). apply bind_ok in H as (h & Eh & H).
  injection H as <-.
  pose proof (pack_body_offs _ _ _ _ _ Hb _ _ Hin) as Hoff.
  assert (Vd : d = nlen b - off).
  { unfold sub64 in Ed. replace (off <=? nlen b) with true in Ed by (symmetry; apply N.leb_le; lia). congruence. }
  apply write_offset_ok_debug in Eh.
  unfold convert_to_vec, change_to_delta. cbn [m_t m_size m_data m_delta_header].
  destruct (git_delta_bytes _ _ _ G) as [Bz Lz]; [apply Wn|].
  assert (Lz' : nlen z < 2 ^ 61).
  { change (2 ^ 24) with 16777216 in Sn. change (2 ^ 61) with 2305843009213693952. lia. }
  apply e_ofs with (base := m_data base) (dist := d) (delta := z).
  - split; [apply (entry_header_format OffsetDelta)|]. split; [apply entry_header_len; assumption|assumption].
  - assumption.
  - lia.
  - replace (nlen b - d) with off by lia. rewrite <- Tb. exact Hin.
  - intros rest. apply Hc. assumption.
  - assumption.
  - apply Wn.
Qed.

Lemma delta_loop_body : forall c st n diff ms todo, codec_ok c -> diff_ok diff ->
  Forall encodable ms -> Forall (fun x => nlen (m_data x) < 2 ^ 24) ms -> forall b objs i r,
  todo = skipn i ms -> (i <= length ms)%nat -> pack_body c st n b objs -> length objs = i ->
  map snd objs = map obj_of (firstn i ms) -> nlen r < 2 ^ 64 ->
  delta_loop Debug c diff ms todo i b (map fst objs) = Ok r ->
  exists objs', pack_body c st n r objs' /\ map snd objs' = map obj_of ms.
Proof.
  intros c st n diff ms todo Hc Hd Hm Hs. induction todo as [|new todo IH]; intros b objs i r Et Hi Hb Hl Ho Hr H.
  - cbn in H. injection H as <-. exists objs. split; [assumption|]. rewrite Ho. f_equal.
    apply firstn_all2. rewrite <- (Nat.add_0_l (length ms)).
    assert (length (skipn i ms) = 0%nat) by (rewrite <- Et; reflexivity). rewrite skipn_length in *. lia.
  - cbn [delta_loop] in H. apply bind_ok in H as (f & Ef & H).
    assert (Hnew : nth_error ms i = Some new).
    { rewrite <- (firstn_skipn i ms), <- Et. rewrite nth_error_app2; rewrite firstn_length_le by assumption; [|lia].
      rewrite Nat.sub_diag. reflexivity. }
    assert (Hlen : (i < length ms)%nat) by (apply nth_error_Some; congruence).
    assert (Hmono : forall todo i b offs r, delta_loop Debug c diff ms todo i b offs = Ok r -> nlen b <= nlen r).
    { clear. induction todo as [|x todo IH]; intros i b offs r H; cbn in H; [injection H as <-; lia|].
      apply bind_ok in H as (f & _ & H). apply IH in H. rewrite nlen_app in H. lia. }
    pose proof (Hmono _ _ _ _ _ H) as Hbr. rewrite nlen_app in Hbr.
    replace (map fst objs ++ [nlen b]) with (map fst (objs ++ [(nlen b, obj_of new)])) in H by (rewrite map_app; reflexivity).
    eapply IH in H; [exact H| | | | | |assumption].
    + assert (X : todo = skipn 1 (skipn i ms)) by (rewrite <- Et; reflexivity).
      rewrite X, skipn_skipn', Nat.add_1_r. reflexivity.
    + lia.
    + constructor; [assumption|]. eapply delta_entry_ok; try eassumption. lia.
    + rewrite app_length, Hl, Nat.add_1_r. reflexivity.
    + rewrite map_app, Ho. cbn [map snd]. rewrite <- (firstn_skipn i ms) at 2. rewrite <- Et.
      rewrite firstn_app, firstn_length_le by assumption. replace (S i - i)%nat with 1%nat by lia.
      rewrite firstn_firstn. replace (Nat.min (S i) i) with i by lia. cbn [firstn]. rewrite map_app. reflexivity.
Qed.

Lemma encode_delta_git_pack : forall c st diff ms p file, codec_ok c -> diff_ok diff ->
  Forall encodable ms -> Forall (fun x => nlen (m_data x) < 2 ^ 24) ms -> nlen file < 2 ^ 64 ->
  encode_delta Debug c diff ms = Ok (p, file) -> exists objs, git_pack c st file objs /\
    map snd objs = map obj_of ms /\ p_number p = nlen ms /\
    file = firstn (length file - 20) file ++ p_signature p.
Proof.
  intros c st diff ms p file Hc Hd Hm Hs Hf H. unfold encode_delta in H. apply bind_ok in H as (hdr & Hh & H).
  apply encode_header_ok in Hh as (Hn & ->). apply bind_ok in H as (r & Hr & H). injection H as <- <-.
  unfold hash_new in *. 
  destruct (delta_loop_body c st (nlen ms) diff ms ms Hc Hd Hm Hs _ [] 0%nat r eq_refl (Nat.le_0_l _)
    (header_body c st (nlen ms) (proj2 Hn)) eq_refl eq_refl) as (objs & Hb & E).
  { rewrite nlen_app in Hf. lia. } { exact Hr. }
  exists objs. split; [|split; [assumption|split; [reflexivity|]]].
  - exists r. split; [|reflexivity]. replace (nlen objs) with (nlen ms); [exact Hb|].
    unfold nlen. rewrite <- (map_length snd objs), E, map_length. reflexivity.
  - cbn [p_signature]. f_equal. rewrite app_length, sha1_len, Nat.add_sub.
    symmetry. apply firstn_app_exact.
Qed.

(** Whatever the debug build writes, the release build writes too. *)
Lemma delta_entry_release : forall diff ms new i b offs f,
  delta_entry Debug diff ms new i b offs = Ok f -> delta_entry Release diff ms new i b offs = Ok f.
Proof.
  intros diff ms new i b offs f H. unfold delta_entry in *. destruct (window _ _ _ _ _ _ _ _); [|exact H].
  apply bind_ok in H as (base & -> & H). apply bind_ok in H as (off & -> & H). apply bind_ok in H as (z & Ez & H).
  apply bind_ok in H as (d & Ed & H). apply bind_ok in H as (h & Eh & H). cbn [bind]. rewrite Ez. cbn [bind].
  assert (Ed' : sub64 Release (nlen b) off = Ok d).
  { unfold sub64 in *. destruct (off <=? nlen b); [assumption|discriminate]. }
  rewrite Ed'. cbn [bind].
  assert (Eh' : write_offset_encoding Release d = Ok h).
  { destruct (zero_digit_dec d) as [Z|Z].
    - apply write_offset_debug_panic in Z. congruence.
    - rewrite write_offset_debug in Eh. rewrite write_offset_release. destruct (forallb _ _); [congruence|discriminate]. }
  rewrite Eh'. exact H.
Qed.
Lemma encode_delta_release : forall c diff ms r,
  encode_delta Debug c diff ms = Ok r -> encode_delta Release c diff ms = Ok r.
Proof.
  assert (L : forall c diff ms todo i b offs r, delta_loop Debug c diff ms todo i b offs = Ok r ->
    delta_loop Release c diff ms todo i b offs = Ok r).
  { induction todo as [|x todo IH]; intros i b offs r H; cbn [delta_loop] in *; [assumption|].
    apply bind_ok in H as (f & Ef & H). apply delta_entry_release in Ef. rewrite Ef. cbn [bind]. apply IH. assumption. }
  intros c diff ms r H. unfold encode_delta in *. destruct (encode_header (nlen ms)); try discriminate. cbn [bind] in *.
  destruct (delta_loop Debug c diff ms ms 0 a []) eqn:E; try discriminate. apply L in E. rewrite E. exact H.
Qed.

(** The release build always writes something, and for packs below 16 KiB the debug
    build writes the same. *)
Lemma delta_entry_total : forall diff ms new i b offs, diff_ok diff ->
  Forall encodable ms -> Forall (fun x => nlen (m_data x) < 2 ^ 24) ms ->
  nth_error ms i = Some new -> length offs = i -> Forall (fun o => o <= nlen b) offs ->
  exists f, delta_entry Release diff ms new i b offs = Ok f /\
    (nlen b < 16384 -> delta_entry Debug diff ms new i b offs = Ok f).
Proof.
  intros diff ms new i b offs Hd Hm Hs Hnew Hl Ho.
  assert (Wn : forall x k, nth_error ms k = Some x -> encodable x /\ nlen (m_data x) < 2 ^ 24).
  { intros x k Hx. rewrite Forall_forall in Hm, Hs. apply nth_error_In in Hx. auto. }
  unfold delta_entry. destruct (window _ _ _ _ _ _ _ _) as [j|] eqn:W; [|eauto].
  apply window_spec in W as (Hj & base & Eb & Tb); [|lia|discriminate].
  rewrite Eb. cbn [unwrap_opt bind].
  destruct (nth_error offs (i - j)) as [off|] eqn:Eo; [|apply nth_error_None in Eo; lia]. cbn [unwrap_opt bind].
  destruct (Wn _ _ Hnew) as [N1 N2]. destruct (Wn _ _ Eb) as [B1 B2].
  destruct (delta_reproduces Debug base new (diff (m_data base) (m_data new))) as (z & Ez & _).
  { apply B1. } { apply N1. } { apply Hd. }
  { change (2 ^ 24) with 16777216 in B2. change (2 ^ 32) with 4294967296. lia. } { assumption. }
  rewrite Ez. cbn [bind].
  assert (L : off <= nlen b). { rewrite Forall_forall in Ho. apply Ho. eapply nth_error_In. eassumption. }
  unfold sub64. replace (off <=? nlen b) with true by (symmetry; apply N.leb_le; assumption). cbn [bind].
  rewrite write_offset_release. cbn [bind]. eexists. split; [reflexivity|]. intros Hb.
  assert (Z : ~ zero_digit (nlen b - off)) by (apply zero_digit_small; lia).
  rewrite write_offset_debug. replace (forallb _ _) with true; [reflexivity|].
  symmetry. destruct (forallb _ _) eqn:F; [reflexivity|]. apply ofs_digits_zero in F. contradiction.
Qed.

Lemma delta_loop_mono : forall m c diff ms todo i b offs r,
  delta_loop m c diff ms todo i b offs = Ok r -> nlen b <= nlen r.
Proof.
  induction todo as [|x todo IH]; intros i b offs r H; cbn in H; [injection H as <-; lia|].
  apply bind_ok in H as (f & _ & H). apply IH in H. rewrite nlen_app in H. lia.
Qed.

Lemma delta_loop_total : forall c diff ms, diff_ok diff ->
  Forall encodable ms -> Forall (fun x => nlen (m_data x) < 2 ^ 24) ms -> forall todo i b offs,
  todo = skipn i ms -> (i <= length ms)%nat -> length offs = i -> Forall (fun o => o <= nlen b) offs ->
  exists r, delta_loop Release c diff ms todo i b offs = Ok r /\
    (nlen r < 16384 -> delta_loop Debug c diff ms todo i b offs = Ok r).
Proof.
  intros c diff ms Hd Hm Hs. induction todo as [|new todo IH]; intros i b offs Et Hi Hl Ho; [cbn; eauto|].
  assert (Hnew : nth_error ms i = Some new).
  { rewrite <- (firstn_skipn i ms), <- Et. rewrite nth_error_app2; rewrite firstn_length_le by assumption; [|lia].
    rewrite Nat.sub_diag. reflexivity. }
  assert (Hlen : (i < length ms)%nat) by (apply nth_error_Some; congruence).
  destruct (delta_entry_total diff ms new i b offs Hd Hm Hs Hnew Hl Ho) as (f & Ef & Ed).
  cbn [delta_loop]. rewrite Ef. cbn [bind].
  destruct (IH (S i) (b ++ convert_to_vec c f) (offs ++ [nlen b])) as (r & Er & Dr).
  - assert (X : todo = skipn 1 (skipn i ms)) by (rewrite <- Et; reflexivity).
    rewrite X, skipn_skipn', Nat.add_1_r. reflexivity.
  - lia.
  - rewrite app_length, Hl, Nat.add_1_r. reflexivity.
  - rewrite nlen_app. apply Forall_app. split; [|constructor; [lia|constructor]].
    eapply Forall_impl; [|exact Ho]. cbn. intros; lia.
  - exists r. split; [exact Er|]. intros Hr. apply delta_loop_mono in Er. rewrite nlen_app in Er.
    rewrite Ed by lia. cbn [bind]. apply Dr. assumption.
Qed.

Lemma encode_delta_total : forall c diff ms, diff_ok diff -> ms <> [] -> nlen ms < 2 ^ 32 ->
  Forall encodable ms -> Forall (fun x => nlen (m_data x) < 2 ^ 24) ms ->
  exists p file, encode_delta Release c diff ms = Ok (p, file) /\
    (nlen file < 16384 -> encode_delta Debug c diff ms = Ok (p, file)).
Proof.
  intros c diff ms Hd Hne Hn Hm Hs.
  assert (Hp : 0 < nlen ms < 2 ^ 32). { split; [|assumption]. destruct ms; [congruence|]. rewrite nlen_cons. lia. }
  destruct (delta_loop_total c diff ms Hd Hm Hs ms 0%nat (bs "PACK" ++ u32_vec 2 ++ u32_vec (nlen ms)) [] eq_refl (Nat.le_0_l _)
    eq_refl (Forall_nil _)) as (r & Er & Dr).
  unfold encode_delta. rewrite encode_header_some by assumption. cbn [bind]. rewrite Er. cbn [bind].
  eexists. eexists. split; [reflexivity|]. intros Hr. rewrite Dr; [reflexivity|]. rewrite nlen_app in Hr. lia.
Qed.

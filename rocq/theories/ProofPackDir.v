(** Packs and directories: packing loose objects, merging, several packs. *)

From Coq Require Import Lia.
From Verif Require Import Base BaseLemmas Digest ModelUtils ModelObject ModelDelta ModelPack
  SpecFormat SpecObject SpecDelta SpecPack ProofUtils ProofObject ProofDelta ProofPack ProofEncode.
Open Scope N_scope.

Definition hd (n : N) : bytes := bs "PACK" ++ u32_vec 2 ++ u32_vec n.
Lemma hd_len : forall n, nlen (hd n) = 12.
Proof. reflexivity. Qed.
Lemma be32_vec : forall l x, be32_value l x -> l = u32_vec x.
Proof.
  intros l x H. pose proof (read_u32_value l x [] H) as A. destruct H as (a & b & c & d & -> & Hok & ->).
  unfold bytes_ok, byte_ok in Hok.
  repeat match goal with X : Forall _ (_ :: _) |- _ => inversion X; clear X; subst end.
  unfold u32_vec. rewrite !shiftr_div, !land_255.
  change (2 ^ 24) with 16777216. change (2 ^ 16) with 65536. change (2 ^ 8) with 256.
  f_equal; [lia|f_equal; [lia|f_equal; [lia|f_equal; lia]]].
Qed.

(** The entries of a pack do not depend on the announced number. *)
Lemma pack_body_renumber : forall c st n b objs, pack_body c st n b objs ->
  exists e, b = hd n ++ e /\ forall n', n' < 2 ^ 32 -> pack_body c st n' (hd n' ++ e) objs.
Proof.
  induction 1 as [v w Hv Hw|b objs e o H (e0 & -> & IH) He].
  - exists []. apply be32_vec in Hv, Hw. subst. split; [rewrite app_nil_r; reflexivity|].
    intros n' Hn. rewrite app_nil_r. unfold hd. constructor; apply u32_vec_value; [reflexivity|assumption].
  - exists (e0 ++ e). split; [rewrite <- app_assoc; reflexivity|]. intros n' Hn.
    rewrite app_assoc. replace (nlen (hd n ++ e0)) with (nlen (hd n' ++ e0)) in * by (rewrite !nlen_app, !hd_len; reflexivity).
    constructor; [apply IH; assumption|assumption].
Qed.

Lemma decode_raw_data_ok : forall n e sig, n < 2 ^ 32 -> length sig = 20%nat ->
  decode_raw_data (hd n ++ e ++ sig) = Ok (n, sig, e).
Proof.
  intros n e sig Hn Hs. unfold decode_raw_data, hd. rewrite <- !app_assoc, check_header_ok by assumption.
  cbn [unwrap bind]. rewrite app_length, Hs.
  replace (length e + 20 <? 20)%nat with false by (symmetry; apply Nat.ltb_ge; lia).
  rewrite Nat.add_sub. unfold slice, slice_from. rewrite app_length, Hs, Nat.sub_0_r. cbn [skipn Nat.leb andb].
  replace (length e <=? length e + 20)%nat with true by (symmetry; apply Nat.leb_le; lia). cbn [bind].
  rewrite skipn_app_exact, firstn_app_exact. unfold hash_from_row. rewrite Hs. reflexivity.
Qed.
Lemma get_pack_raw_ok : forall n e sig, length sig = 20%nat -> get_pack_raw_data (hd n ++ e ++ sig) = Ok e.
Proof.
  intros n e sig Hs. unfold get_pack_raw_data, slice. rewrite !app_length, Hs.
  assert (L : length (hd n) = 12%nat) by reflexivity. rewrite L.
  replace (12 + (length e + 20) <? 20)%nat with false by (symmetry; apply Nat.ltb_ge; lia).
  replace ((12 <=? 12 + (length e + 20) - 20)%nat && (12 + (length e + 20) - 20 <=? 12 + (length e + 20))%nat) with true
    by (symmetry; apply andb_true_iff; split; apply Nat.leb_le; lia).
  rewrite (skipn_app_n _ 12) by reflexivity. replace (12 + (length e + 20) - 20 - 12)%nat with (length e) by lia.
  rewrite firstn_app_exact. reflexivity.
Qed.

(** ** Directories *)

Lemma strip_path_spec : forall root p q, strip_path root p = Some q <-> p = root ++ q.
Proof.
  induction root as [|a root IH]; intros p q; cbn [strip_path app]; [split; congruence|].
  destruct p as [|b p]; [split; discriminate|]. destruct (beq a b) eqn:E.
  - apply beq_eq in E. subst. rewrite IH. split; congruence.
  - apply beq_neq in E. split; [discriminate|congruence].
Qed.
Lemma fs_get_in : forall f p x, NoDup (map fst f) -> In (p, x) f -> fs_get f p = Some x.
Proof.
  induction f as [|[q y] f IH]; intros p x Hn Hi; [destruct Hi|]. cbn [fs_get map fst] in *.
  inversion Hn as [|? ? Hq Hr]; subst. destruct Hi as [E|Hi].
  - injection E as -> ->. rewrite path_eqb_refl. reflexivity.
  - destruct (path_eqb q p) eqn:E; [|apply IH; assumption]. apply path_eqb_eq in E. subst q.
    exfalso. apply Hq. change p with (fst (p, x)). apply in_map. assumption.
Qed.

Lemma loose_scan : forall c root F f l, codec_ok c -> NoDup (map fst F) -> loose_dir c root f l -> incl f F ->
  exists ids ms, find_all_loose f root = Ok ids /\ read_loose_all c F root ids = Ok ms /\
    map obj_of ms = l /\ Forall encodable ms.
Proof.
  intros c root F f l Hc Hn H. induction H as [|p x f l Hp H IH|h t d content a b f l Hid Ha Hlow Hf Hok Hs H IH]; intros Hi.
  - exists [], []. repeat split. constructor.
  - destruct IH as (ids & ms & A & B & C & D); [intros y Hy; apply Hi; right; assumption|].
    exists ids, ms. split; [|auto]. cbn [find_all_loose].
    destruct (strip_path root p) as [[|a [|b [|? ?]]]|] eqn:E; try exact A.
    apply strip_path_spec in E. apply Hp in E. replace (length a =? 2)%nat with false; [exact A|].
    symmetry. apply Nat.eqb_neq. assumption.
  - destruct IH as (ids & ms & A & B & C & D); [intros y Hy; apply Hi; right; assumption|].
    pose proof (id_text_ok _ _ Hid) as Hh.
    assert (Ep : to_plain_str h = a ++ b).
    { symmetry. apply id_text_plain; assumption. }
    assert (El : loose_path root h = root ++ [a; b]).
    { unfold loose_path, to_folder, to_filename. rewrite Ep.
      rewrite (firstn_app_n _ 2), (skipn_app_n _ 2) by assumption. reflexivity. }
    assert (Ht : is_base t) by (destruct Hf as (name & dec & Hb & _); exists name; assumption).
    destruct (meta_new_obj t d Ht) as (h' & Hh' & Em).
    exists (to_plain_str h :: ids), (as_meta (t, d) h' :: ms). split; [|split; [|split]].
    + cbn [find_all_loose]. rewrite (proj2 (strip_path_spec root _ [a; b]) eq_refl).
      rewrite Ha. cbn [Nat.eqb]. apply hash_from_str_spec in Hid. rewrite Hid. cbn [unwrap bind]. rewrite A. reflexivity.
    + cbn [read_loose_all]. rewrite hash_roundtrip by assumption. cbn [unwrap bind]. rewrite El.
      rewrite (read_framed c F (root ++ [a; b]) t (nlen d) d content (deflate c content)); try assumption; try reflexivity.
      * rewrite Em, B. reflexivity.
      * apply fs_get_in; [assumption|]. apply Hi. left. reflexivity.
      * apply lt61_64. assumption.
    + cbn [map]. rewrite C. reflexivity.
    + constructor; [|assumption]. split; [|exact Hs]. eapply meta_new_wf; [exact Hok| |exact Em].
      apply lt61_64. assumption.
Qed.

Lemma find_pack_ok : forall f root file, first_pack f root file -> find_pack_file f root = Ok file.
Proof.
  intros f root file (pre & name & post & -> & (stem & ->) & Hpre).
  assert (S2 : forall q n, strip_path (root ++ [bs "pack"]) q = Some [n] <-> q = root ++ [bs "pack"; n]).
  { intros q n. rewrite strip_path_spec, <- app_assoc. reflexivity. }
  assert (Pn : forall n, (4 <= length n)%nat -> beq (skipn (length n - 4) n) (bs "pack") = true <-> pack_name n).
  { intros n Hn. rewrite beq_eq. split.
    - intros E. exists (firstn (length n - 4) n). rewrite <- E. symmetry. apply firstn_skipn.
    - intros (s & ->). rewrite app_length. change (length (bs "pack")) with 4%nat. rewrite Nat.add_sub. apply skipn_app_exact. }
  induction pre as [|[p x] pre IH]; cbn [app find_pack_file].
  - pose proof (proj2 (S2 _ (stem ++ bs "pack")) eq_refl) as E. rewrite E.
    assert (L : (4 <= length (stem ++ bs "pack"))%nat) by (rewrite app_length; cbn; lia).
    replace (length (stem ++ bs "pack") <? 4)%nat with false by (symmetry; apply Nat.ltb_ge; assumption).
    assert (P : pack_name (stem ++ bs "pack")) by (exists stem; reflexivity).
    apply (Pn _ L) in P. rewrite P. reflexivity.
  - assert (IH' : find_pack_file (pre ++ (root ++ [bs "pack"; stem ++ bs "pack"], file) :: post) root = Ok file).
    { apply IH. intros n y Hy. eapply Hpre. right. eassumption. }
    destruct (strip_path (root ++ [bs "pack"]) p) as [[|n [|? ?]]|] eqn:E; try exact IH'.
    apply S2 in E. subst p. destruct (Hpre n x (or_introl eq_refl)) as (Hn & Hp).
    replace (length n <? 4)%nat with false by (symmetry; apply Nat.ltb_ge; assumption).
    destruct (beq _ _) eqn:E; [|exact IH']. apply Pn in E; [contradiction|assumption].
Qed.

(** ** Packing loose objects and merging *)

Lemma encode_layout : forall c l, 0 < nlen l < 2 ^ 32 -> encode c l =
  Ok (mkPack (nlen l) (sha1 (hd (nlen l) ++ encode_entries c l)) cache_empty,
      hd (nlen l) ++ encode_entries c l ++ sha1 (hd (nlen l) ++ encode_entries c l)).
Proof.
  intros c l H. unfold encode. rewrite encode_header_some by assumption. cbn [bind]. cbv zeta. unfold hash_new.
  fold (hd (nlen l)). rewrite <- (app_assoc (hd (nlen l))). reflexivity.
Qed.

Lemma map_obj_nlen : forall ms l, map obj_of ms = l -> nlen ms = nlen l.
Proof. intros ms l <-. unfold nlen. rewrite map_length. reflexivity. Qed.

Lemma pack_loose_ok : forall c st f root target l, codec_ok c -> NoDup (map fst f) -> loose_dir c root f l ->
  l <> [] -> nlen l < 2 ^ 32 ->
  exists p file objs, pack_loose_from_dir c f root target = Ok (p, fs_put f (pack_path target (p_signature p)) file) /\
    git_pack c st file objs /\ map snd objs = l /\ p_number p = nlen l /\
    file = firstn (length file - 20) file ++ p_signature p.
Proof.
  intros c st f root target l Hc Hn Hl Hne Hlen.
  destruct (loose_scan c root f f l Hc Hn Hl (incl_refl _)) as (ids & ms & A & B & C & D).
  pose proof (map_obj_nlen _ _ C) as E.
  destruct (encode_ok c ms) as (p & file & Ee).
  { intros ->. apply Hne. symmetry. exact C. } { lia. }
  destruct (encode_git_pack c st ms p file Hc D Ee) as (objs & G & Ho & Hp & Hs).
  exists p, file, objs. split; [|split; [exact G|split; [congruence|split; [lia|exact Hs]]]].
  unfold pack_loose_from_dir. rewrite A. cbn [bind]. unfold pack_loose_files, pack_loose. rewrite B. cbn [bind].
  rewrite Ee. reflexivity.
Qed.

Lemma pack_object_dir_ok : forall c st f root target b sig objs l, codec_ok c -> NoDup (map fst f) ->
  first_pack f root (b ++ sig) -> length sig = 20%nat -> pack_body c st (nlen objs) b objs ->
  loose_dir c root f l -> l <> [] -> nlen objs + nlen l < 2 ^ 32 ->
  exists p file objs', pack_object_dir c f root target = Ok (p, fs_put f (pack_path target (p_signature p)) file) /\
    git_pack c st file (objs ++ objs') /\ map snd objs' = l /\ p_number p = nlen objs + nlen l /\
    file = firstn (length file - 20) file ++ p_signature p.
Proof.
  intros c st f root target b sig objs l Hc Hn Hfp Hsig Hb Hl Hne Hlen.
  destruct (loose_scan c root f f l Hc Hn Hl (incl_refl _)) as (ids & ms & A & B & C & D).
  pose proof (map_obj_nlen _ _ C) as E.
  destruct (pack_body_renumber _ _ _ _ _ Hb) as (e & Eb & Hre).
  assert (Hpos : 0 < nlen l). { destruct l; [congruence|]. rewrite nlen_cons. lia. }
  unfold pack_object_dir. rewrite (find_pack_ok _ _ _ Hfp). cbn [bind].
  rewrite Eb, <- app_assoc, decode_raw_data_ok by (assumption || lia). cbn [bind]. rewrite A. cbn [bind].
  unfold pack_loose. rewrite B. cbn [bind]. rewrite encode_layout by lia. cbn [bind p_number].
  rewrite encode_header_some by lia. cbn [bind]. rewrite get_pack_raw_ok by apply sha1_len. cbn [bind]. cbv zeta.
  fold (hd (nlen objs + nlen ms)). unfold hash_new.
  destruct (entries_body c st (nlen objs + nlen ms) ms _ Hc D objs (Hre (nlen objs + nlen ms) ltac:(lia))) as (objs' & Hb' & Eo).
  rewrite <- app_assoc in Hb'. revert Hb'. generalize (hd (nlen objs + nlen ms) ++ e ++ encode_entries c ms) as r. intros r Hr.
  exists (mkPack (nlen objs + nlen ms) (sha1 r) cache_empty), (r ++ sha1 r), objs'. split; [reflexivity|]. cbn [p_signature p_number].
  assert (Eo' : nlen objs' = nlen ms). { unfold nlen. rewrite <- (map_length snd objs'), Eo, map_length. reflexivity. }
  split; [|split; [congruence|split; [lia|]]].
  - exists r. rewrite nlen_app, Eo'. auto.
  - f_equal. rewrite app_length, sha1_len, Nat.add_sub. symmetry. apply firstn_app_exact.
Qed.
Lemma pack_object_dir_empty : forall c f root target b sig objs st, codec_ok c -> NoDup (map fst f) ->
  first_pack f root (b ++ sig) -> length sig = 20%nat -> pack_body c st (nlen objs) b objs ->
  loose_dir c root f [] -> pack_object_dir c f root target = Panic.
Proof.
  intros c f root target b sig objs st Hc Hn Hfp Hsig Hb Hl.
  destruct (loose_scan c root f f [] Hc Hn Hl (incl_refl _)) as (ids & ms & A & B & C & D).
  pose proof (body_header _ _ _ _ _ Hb) as (Hn32 & _). destruct (pack_body_renumber _ _ _ _ _ Hb) as (e & Eb & _).
  unfold pack_object_dir. rewrite (find_pack_ok _ _ _ Hfp). cbn [bind].
  rewrite Eb, <- app_assoc, decode_raw_data_ok by assumption. cbn [bind]. rewrite A. cbn [bind].
  unfold pack_loose. rewrite B. apply map_eq_nil in C. subst ms. reflexivity.
Qed.

(** ** Several packs *)

Lemma multi_loop_ok : forall m c st fuel, (forall h x, ~ knows st h x) -> forall files objss,
  Forall2 (fun file objs => git_pack c st file objs /\ nlen file < 2 ^ 32) files objss ->
  forall old k0 t, holds k0 old -> no_collision (old ++ flat_map (map snd) objss) ->
  exists k, multi_loop m c st (S fuel) files t k0 = Ok (t, k) /\ holds k (old ++ flat_map (map snd) objss).
Proof.
  intros m c st fuel Hst files objss H. induction H as [|file objs files objss (G & Hn) H IH]; intros old k0 t Hk Hc.
  - exists k0. cbn. rewrite app_nil_r in *. auto.
  - cbn [flat_map] in *. pose proof (git_pack_offs _ _ _ _ G) as Ho. destruct G as (b & Hb & ->).
    destruct (decode_with_cache_pack m c st fuel b objs (sha1 b) [] old k0 Hb (sha1_len b) Hk) as (k & E & Hk' & _).
    + right. assumption.
    + eapply no_collision_incl; [eassumption|]. rewrite app_assoc. apply incl_appl, incl_refl.
    + intros off o Hi. apply Ho in Hi. lia.
    + rewrite app_nil_r in E. cbn [multi_loop]. rewrite E. cbn [bind].
      rewrite app_assoc in *. destruct (IH _ k (t + 0) Hk' Hc) as (k' & E' & Hk''). exists k'.
      rewrite E'. rewrite N.add_0_r. auto.
Qed.
Lemma multi_decode_ok : forall m c st fuel files objss, (forall h x, ~ knows st h x) ->
  Forall2 (fun file objs => git_pack c st file objs /\ nlen file < 2 ^ 32) files objss ->
  no_collision (flat_map (map snd) objss) ->
  exists p, multi_decode m c st (S fuel) files = Ok p /\ p_number p = 0 /\
    holds (p_cache p) (flat_map (map snd) objss).
Proof.
  intros m c st fuel files objss Hst H Hc.
  destruct (multi_loop_ok m c st fuel Hst files objss H [] cache_empty 0) as (k & E & Hk).
  - intros h x. split; [discriminate|]. intros (o & [] & _).
  - exact Hc.
  - unfold multi_decode. rewrite E. eexists. split; [reflexivity|]. split; [reflexivity|exact Hk].
Qed.

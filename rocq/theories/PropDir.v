(** C136: packing directories, and packing again what was unpacked. *)

From Coq Require Import Lia Sorted.
From Verif Require Import Base BaseLemmas Digest ModelUtils ModelObject ModelDelta ModelPack
  SpecFormat SpecObject SpecDelta SpecDiff SpecIdx SpecBase SpecPack StoredZlib
  ProofUtils ProofObject ProofUtf8 ProofBase ProofDelta ProofPack ProofEncode ProofPackAny ProofPackDir ProofIdx ProofPush PropPack.
Open Scope N_scope.

(** ** The name of the new pack *)

(** [file] is a new pack in the directory [target], named by its trailer; the rest is as it was. *)
Definition new_pack (f f' : fs) (target : list bytes) (file : bytes) : Prop :=
  exists body sum text, file = body ++ sum /\ sum = sha1 body /\ lower_hex text sum /\
    fs_get f' (target ++ [bs "pack-" ++ text ++ bs ".pack"]) = Some file /\
    forall q, q <> target ++ [bs "pack-" ++ text ++ bs ".pack"] -> fs_get f' q = fs_get f q.

Lemma put_new : forall f target body, new_pack f (fs_put f (pack_path target (sha1 body)) (body ++ sha1 body)) target (body ++ sha1 body).
Proof.
  intros f target body. exists body, (sha1 body), (to_plain_str (sha1 body)). split; [reflexivity|]. split; [reflexivity|].
  split; [apply plain_lower, sha1_ok|]. split; [apply fs_get_put_same|]. intros q Hq. apply fs_get_put_other. exact Hq.
Qed.
Lemma encode_sum : forall c l p file, encode c l = Ok (p, file) -> exists body, file = body ++ sha1 body /\ p_signature p = sha1 body.
Proof.
  intros c l p file H. unfold encode in H. apply bind_ok in H as (hdr & _ & H). cbv zeta in H. unfold hash_new in H. revert H.
  generalize (hdr ++ encode_entries c l). intros b H. injection H as <- <-. exists b. split; reflexivity.
Qed.
Theorem C136_loose_name : forall c f root target p f', pack_loose_from_dir c f root target = Ok (p, f') -> exists file, new_pack f f' target file.
Proof.
  intros c f root target p f' H. unfold pack_loose_from_dir, pack_loose_files, pack_loose in H.
  apply bind_ok in H as (ids & _ & H). apply bind_ok in H as ([p' b] & H1 & H). apply bind_ok in H1 as (l & _ & H1).
  apply encode_sum in H1 as (body & -> & Es). injection H as <- <-. rewrite Es. exists (body ++ sha1 body). apply put_new.
Qed.
Theorem C136_merged_name : forall c f root target p f', pack_object_dir c f root target = Ok (p, f') -> exists file, new_pack f f' target file.
Proof.
  intros c f root target p f' H. unfold pack_object_dir in H.
  apply bind_ok in H as (x & _ & H). apply bind_ok in H as ([[n1 s1] raw] & _ & H). apply bind_ok in H as (ids & _ & H).
  apply bind_ok in H as ([lp ld] & _ & H). cbv zeta in H. apply bind_ok in H as (hd & _ & H). apply bind_ok in H as (lraw & _ & H).
  unfold hash_new in H. revert H. generalize (hd ++ raw ++ lraw). intros body H. injection H as _ <-. exists (body ++ sha1 body). apply put_new.
Qed.

(** ** Files that are no objects *)

(** The inflated content of a file that is laid out as an object, of no kind that git has. *)
Definition stray_content (content : bytes) : Prop :=
  exists name n size d, content = name ++ [32] ++ size ++ [0] ++ d /\ decimal size n /\ n < U64 /\ bytes_ok d /\
    utf8_text name /\ ~ In 32 name /\ ~ In 0 name /\ forall t, ~ base_name t name.
(** As [loose_dir], with such files among the loose objects. *)
Inductive mixed_dir (c : codec) (root : list bytes) : fs -> list object -> Prop :=
| md_nil : mixed_dir c root [] []
| md_other : forall p x f l, (forall a b, p = root ++ [a; b] -> length a <> 2%nat) ->
    mixed_dir c root f l -> mixed_dir c root ((p, x) :: f) l
| md_loose : forall h t d content a b f l, id_text (a ++ b) h -> length a = 2%nat -> map lower (a ++ b) = a ++ b ->
    framed t (nlen d) d content -> bytes_ok d -> nlen d < 2 ^ 61 ->
    mixed_dir c root f l -> mixed_dir c root ((root ++ [a; b], deflate c content) :: f) ((t, d) :: l)
| md_stray : forall h content a b f l, id_text (a ++ b) h -> length a = 2%nat -> map lower (a ++ b) = a ++ b ->
    stray_content content -> mixed_dir c root f l -> mixed_dir c root ((root ++ [a; b], deflate c content) :: f) l.

Lemma read_stray : forall c f p content, codec_ok c -> fs_get f p = Some (deflate c content) -> stray_content content ->
  read_object_from_file c f p = Err EInvalidObjectType.
Proof.
  intros c f p content Hc Hf (name & n & size & d & Ec & Hsz & Hn & Hd & Hu & N32 & N0 & Nb).
  apply decimal_eq in Hsz. subst size.
  assert (Hb : bytes_ok content).
  { rewrite Ec. unfold bytes_ok. rewrite !Forall_app. repeat split; try assumption.
    - exact (utf8_text_bytes _ Hu).
    - repeat constructor.
    - eapply Forall_impl; [|apply to_decimal_digits]. unfold is_digit, byte_ok. intros; simpl in *; lia.
    - repeat constructor. }
  unfold read_object_from_file. rewrite Hf. cbn [unwrap_opt bind].
  pose proof (Hc content [] Hb) as E. rewrite app_nil_r in E. rewrite E. cbn [unwrap_opt bind fst].
  rewrite Ec at 1. cbn [app]. rewrite find_byte_app by exact N32. cbn [unwrap_opt bind].
  assert (F0 : find_byte 0 content = Some (length name + 1 + length (to_decimal n))%nat).
  { rewrite Ec. rewrite app_assoc, app_assoc. cbn [app]. rewrite find_byte_app.
    - rewrite !app_length. reflexivity.
    - rewrite !in_app_iff. intros [[H|H]|H]; [exact (N0 H)|destruct H as [H|[]]; discriminate|].
      revert H. apply decimal_no. lia. }
  rewrite F0. cbn [unwrap_opt bind].
  replace (slice (length name + 1) (length name + 1 + length (to_decimal n)) content) with (@Ok bytes (to_decimal n)).
  2:{ symmetry. rewrite Ec, app_assoc. apply slice_mid; rewrite app_length; reflexivity. }
  cbn [bind]. rewrite parse_to_decimal by assumption. cbn [unwrap_opt bind].
  replace (slice_from (length name + 1 + length (to_decimal n) + 1) content) with (@Ok bytes d).
  2:{ symmetry. rewrite Ec, !app_assoc. apply slice_from_app. rewrite !app_length. reflexivity. }
  cbn [bind]. replace (firstn (length name) content) with name by (symmetry; rewrite Ec; apply firstn_app_exact).
  rewrite utf8_unwrap_text by exact Hu. cbn [bind].
  assert (K : forall t s, base_name t s -> beq name s = false) by (intros t s B; apply beq_neq; intros ->; exact (Nb t B)).
  rewrite (K Blob), (K Tree), (K Commit), (K Tag) by constructor. reflexivity.
Qed.
Lemma mixed_scan : forall c root F f l, codec_ok c -> NoDup (map fst F) -> mixed_dir c root f l -> incl f F ->
  exists ids ms, find_all_loose f root = Ok ids /\ read_loose_all c F root ids = Ok ms /\
    map obj_of ms = l /\ Forall encodable ms.
Proof.
  assert (P : forall root h a b, id_text (a ++ b) h -> length a = 2%nat -> map lower (a ++ b) = a ++ b -> to_plain_str h = a ++ b /\ loose_path root h = root ++ [a; b]).
  { intros root h a b Hid Ha Hlow. assert (Ep : to_plain_str h = a ++ b) by (symmetry; apply id_text_plain; assumption). split; [exact Ep|].
    unfold loose_path, to_folder, to_filename. rewrite Ep, (firstn_app_n _ 2), (skipn_app_n _ 2) by assumption. reflexivity. }
  intros c root F f l Hc Hn H.
  induction H as [|p x f l Hp H IH|h t d content a b f l Hid Ha Hlow Hf Hok Hs H IH|h content a b f l Hid Ha Hlow Hst H IH]; intros Hi.
  - exists [], []. repeat split. constructor.
  - destruct IH as (ids & ms & A & B & C & D); [intros y Hy; apply Hi; right; assumption|].
    exists ids, ms. split; [|auto]. cbn [find_all_loose].
    destruct (strip_path root p) as [[|a [|b [|? ?]]]|] eqn:E; try exact A.
    apply strip_path_spec in E. apply Hp in E. replace (length a =? 2)%nat with false; [exact A|].
    symmetry. apply Nat.eqb_neq. assumption.
  - destruct IH as (ids & ms & A & B & C & D); [intros y Hy; apply Hi; right; assumption|].
    pose proof (id_text_ok _ _ Hid) as Hh. destruct (P root h a b Hid Ha Hlow) as [Ep El].
    assert (Ht : is_base t) by (destruct Hf as (name & dec & Hb & _); exists name; assumption).
    destruct (meta_new_obj t d Ht) as (h' & Hh' & Em).
    exists (to_plain_str h :: ids), (as_meta (t, d) h' :: ms). split; [|split; [|split]].
    + cbn [find_all_loose]. rewrite (proj2 (strip_path_spec root _ [a; b]) eq_refl).
      rewrite Ha. cbn [Nat.eqb]. apply hash_from_str_spec in Hid. rewrite Hid. cbn [unwrap bind]. rewrite A. reflexivity.
    + cbn [read_loose_all]. rewrite hash_roundtrip by assumption. cbn [unwrap bind]. rewrite El.
      rewrite (read_framed c F (root ++ [a; b]) t (nlen d) d content (deflate c content)); try assumption; try reflexivity.
      * rewrite Em, B. reflexivity.
      * apply fs_get_in; [assumption|]. apply Hi. left. reflexivity.
      * apply lt61_64. assumption.
    + cbn [map]. rewrite C. reflexivity.
    + constructor; [|assumption]. split; [|exact Hs]. eapply meta_new_wf; [exact Hok| |exact Em].
      apply lt61_64. assumption.
  - destruct IH as (ids & ms & A & B & C & D); [intros y Hy; apply Hi; right; assumption|].
    pose proof (id_text_ok _ _ Hid) as Hh. destruct (P root h a b Hid Ha Hlow) as [Ep El].
    exists (to_plain_str h :: ids), ms. split; [|split; [|split; [exact C|exact D]]].
    + cbn [find_all_loose]. rewrite (proj2 (strip_path_spec root _ [a; b]) eq_refl).
      rewrite Ha. cbn [Nat.eqb]. apply hash_from_str_spec in Hid. rewrite Hid. cbn [unwrap bind]. rewrite A. reflexivity.
    + cbn [read_loose_all]. rewrite hash_roundtrip by assumption. cbn [unwrap bind]. rewrite El.
      rewrite (read_stray c F (root ++ [a; b]) content Hc); [exact B| |exact Hst]. apply fs_get_in; [assumption|]. apply Hi. left. reflexivity.
Qed.
(** Files of no known kind are left out without a word: the pack has the other objects. *)
Theorem C136_strays_left_out : forall c st f root target l, codec_ok c -> NoDup (map fst f) -> mixed_dir c root f l ->
  l <> [] -> nlen l < 2 ^ 32 ->
  exists p f' file objs, pack_loose_from_dir c f root target = Ok (p, f') /\ new_pack f f' target file /\
    git_pack c st file objs /\ map snd objs = l /\ p_number p = nlen l.
Proof.
  intros c st f root target l Hc Hn Hl Hne Hlen.
  destruct (mixed_scan c root f f l Hc Hn Hl (incl_refl _)) as (ids & ms & A & B & C & D).
  pose proof (map_obj_nlen _ _ C) as E.
  destruct (encode_ok c ms) as (p & file & Ee).
  { intros ->. apply Hne. symmetry. exact C. } { lia. }
  destruct (encode_git_pack c st ms p file Hc D Ee) as (objs & G & Ho & Hp & Hs).
  destruct (encode_sum _ _ _ _ Ee) as (body & Eb & Es).
  exists p, (fs_put f (pack_path target (p_signature p)) file), file, objs. split; [|split; [|split; [exact G|split; [congruence|lia]]]].
  - unfold pack_loose_from_dir. rewrite A. cbn [bind]. unfold pack_loose_files, pack_loose. rewrite B. cbn [bind]. rewrite Ee. reflexivity.
  - rewrite Es, Eb. apply put_new.
Qed.

(** ** Short names beside the packs *)

(** A file with a name of less than four bytes, before any pack in the directory: the
    merge aborts. *)
Theorem C136_short_name_aborts : forall c pre root (name x : bytes) post target, (length name < 4)%nat ->
  (forall n y, In (root ++ [bs "pack"; n], y) pre -> (4 <= length n)%nat /\ ~ pack_name n) ->
  pack_object_dir c (pre ++ (root ++ [bs "pack"; name], x) :: post) root target = Panic.
Proof.
  intros c pre root name x post target Hs Hpre. unfold pack_object_dir.
  assert (S2 : forall q n, strip_path (root ++ [bs "pack"]) q = Some [n] <-> q = root ++ [bs "pack"; n]).
  { intros q n. rewrite strip_path_spec, <- app_assoc. reflexivity. }
  assert (K : find_pack_file (pre ++ (root ++ [bs "pack"; name], x) :: post) root = Panic); [|rewrite K; reflexivity].
  induction pre as [|[p y] pre IH]; cbn [app find_pack_file].
  - pose proof (proj2 (S2 _ name) eq_refl) as E. rewrite E. apply Nat.ltb_lt in Hs. rewrite Hs. reflexivity.
  - assert (IH' : find_pack_file (pre ++ (root ++ [bs "pack"; name], x) :: post) root = Panic).
    { apply IH. intros n z Hz. eapply Hpre. right. eassumption. }
    destruct (strip_path (root ++ [bs "pack"]) p) as [[|n [|? ?]]|] eqn:E; try exact IH'.
    apply S2 in E. subst p. destruct (Hpre n y (or_introl eq_refl)) as (Hn & Hp).
    replace (length n <? 4)%nat with false by (symmetry; apply Nat.ltb_ge; assumption).
    destruct (beq _ _) eqn:E; [|exact IH']. exfalso. apply Hp. apply beq_eq in E.
    exists (firstn (length n - 4) n). rewrite <- E. symmetry. apply firstn_skipn.
Qed.

(** ** Packing again *)

(** A pack that was unpacked is packed again from its cache: the same objects, each once;
    the cache is kept. *)
Theorem C136_again : forall m c st st' fuel file objs, codec_ok c -> git_pack c st file objs -> objs <> [] ->
  no_collision (map snd objs) -> nlen file < 2 ^ 32 -> nlen objs < 2 ^ 32 ->
  Forall (fun o : object => bytes_ok (snd o) /\ nlen (snd o) < 2 ^ 61) (map snd objs) ->
  exists p p' file' objs', decode m c st (S fuel) file = Ok p /\ encode_cache c (p_cache p) = Ok (p', file') /\
    p_cache p' = p_cache p /\ p_number p' = nlen objs' /\
    git_pack c st' file' objs' /\ NoDup (map snd objs') /\ forall o, In o (map snd objs') <-> In o (map snd objs).
Proof.
  intros m c st st' fuel file objs Hc G Ne Nc Hl Hn Ho. rewrite Forall_forall in Ho.
  destruct (C73_wellformed_pack_decodes m c st fuel file objs G Nc Hl) as (p & Ed & _ & _ & Hh & Lo).
  pose proof (decode_tidy _ _ _ _ _ _ Ed) as T. pose proof (keys_bound _ _ _ T Hh Lo) as Kb.
  set (k := p_cache p) in *. set (ms := map snd (by_hash k)).
  assert (In1 : forall h x, In (h, x) (by_hash k) <-> exists o, In o (map snd objs) /\ obj_id o h /\ x = as_meta o h).
  { intros h x. rewrite <- (Hh h x). split; [intros Hi; apply bt_get_sorted; [apply T|exact Hi]|intros E; apply bt_get_in; exact E]. }
  assert (En : Forall encodable ms).
  { apply Forall_forall. intros x Hx. unfold ms in Hx. apply in_map_iff in Hx as ([h x'] & E & Hx). cbn [snd] in E. subst x'.
    apply In1 in Hx as (o & Io & Hi & ->). destruct (Ho o Io) as [B1 B2]. destruct (obj_id_base _ _ Hi) as (nm & Hb).
    split; [|exact B2]. unfold as_meta. split; [exists nm; exact Hb|]. cbn [m_size m_data m_id m_delta_header m_t].
    do 2 (split; [reflexivity|]). split; [exact B1|]. split; [|exact Hi]. apply N.lt_trans with (2 ^ 61); [exact B2|reflexivity]. }
  assert (Io : forall o, In o (map obj_of ms) <-> In o (map snd objs)).
  { intros o. unfold ms. rewrite map_map, in_map_iff. split.
    - intros ([h x] & E & Hx). apply In1 in Hx as (o' & Io & _ & ->). cbn [snd] in E. subst o. destruct o'. exact Io.
    - intros Hi. destruct Lo as (L1 & _). apply in_map_iff in Hi as ([off o'] & E & Hi). cbn [snd] in E. subst o'.
      destruct (L1 off o Hi) as (h & Hid & _). exists (h, as_meta o h). split; [destruct o; reflexivity|].
      apply In1. exists o. split; [apply in_map_iff; exists (off, o); auto|auto]. }
  destruct (encode_ok c ms) as (p0 & file' & Ee).
  { intros Em. destruct objs as [|[off o] objs]; [contradiction|]. pose proof (proj2 (Io o) (or_introl eq_refl)) as K. rewrite Em in K. exact K. }
  { unfold ms, nlen. rewrite map_length. fold (nlen (by_hash k)). lia. }
  destruct (encode_git_pack c st' ms p0 file' Hc En Ee) as (objs' & G' & Eo & Hp & _).
  exists p, (mkPack (p_number p0) (p_signature p0) k), file', objs'. split; [exact Ed|].
  split; [unfold encode_cache; fold k; fold ms; rewrite Ee; reflexivity|]. split; [reflexivity|].
  split; [cbn [p_number]; rewrite Hp; unfold nlen; rewrite <- (map_length snd objs'), Eo, map_length; reflexivity|].
  split; [exact G'|]. rewrite Eo. split; [|exact Io].
  assert (Nk : NoDup (map fst (by_hash k))) by (apply sorted_nodup; apply T).
  assert (Ik : forall h x, In (h, x) (by_hash k) -> obj_id (obj_of x) h) by (intros h x Hx; apply In1 in Hx as (o & _ & Hi & ->); destruct o; exact Hi).
  unfold ms. clear - Nk Ik. induction (by_hash k) as [|[h x] l IH]; [constructor|]. cbn [map fst snd] in *. inversion Nk as [|? ? N1 N2]; subst.
  constructor; [|apply IH; [exact N2|intros h' y Hy; apply Ik; right; exact Hy]]. intros K. apply in_map_iff in K as (y & E & K). apply in_map_iff in K as ([h' y'] & E' & K).
  cbn [snd] in E'. subst y'. apply N1. assert (h' = h).
  { apply (obj_id_fun (obj_of y)); [apply Ik; right; exact K|rewrite E; apply Ik; left; reflexivity]. }
  subst h'. apply in_map_iff. exists (h, y). split; [reflexivity|exact K].
Qed.

(** A directory with one object and one file of an unknown kind; another with a short name. *)
Example C136_ex : exists content d1 d2, stray_content content /\
  mixed_dir stored [] d1 [(Blob, bs "x")] /\ In content (map (fun x => match inflate stored (snd x) with Some (y, _) => y | None => [] end) d1) /\ NoDup (map fst d1) /\
  d2 = [] ++ ([] ++ [bs "pack"; bs "a"], bs "?") :: [] /\ (length (bs "a") < 4)%nat.
Proof.
  assert (B : is_base Blob) by (eexists; constructor). destruct (meta_new_obj Blob (bs "x") B) as (h & (content & F & Eh) & _).
  pose proof (sha1_ok content) as Hid. rewrite <- Eh in Hid. destruct (loose_path_parts h Hid) as (L1 & L2 & Ht).
  assert (Gx : exists g, g = sha1 (bs "y") /\ id_ok g) by (eexists; split; [reflexivity|apply sha1_ok]). destruct Gx as (g & Gy & Hg).
  destruct (loose_path_parts g Hg) as (M1 & M2 & Mt).
  assert (Low : forall k, id_ok k -> map lower (to_folder k ++ to_filename k) = to_folder k ++ to_filename k).
  { intros k Hk. unfold to_folder, to_filename. rewrite firstn_skipn. pose proof (to_plain_str_text _ Hk) as [_ X]. rewrite <- (hex_text_lower _ _ X). reflexivity. }
  set (odd := bs "note 1" ++ [0] ++ bs "y").
  assert (St : stray_content odd).
  { exists (bs "note"), 1, (bs "1"), (bs "y"). split; [reflexivity|]. split; [apply decimal_eq; reflexivity|]. split; [reflexivity|]. split; [repeat constructor|].
    split; [apply utf8_spec; reflexivity|]. split; [intros K; vm_compute in K; intuition discriminate|].
    split; [intros K; vm_compute in K; intuition discriminate|]. intros t K. inversion K. }
  exists odd, [([] ++ [to_folder h; to_filename h], deflate stored content); ([] ++ [to_folder g; to_filename g], deflate stored odd)],
    ([] ++ ([] ++ [bs "pack"; bs "a"], bs "?") :: []).
  split; [exact St|]. split.
  { apply (md_loose stored [] h Blob (bs "x") content); try assumption; try (repeat constructor; fail); try reflexivity; [apply Low; exact Hid|].
    apply (md_stray stored [] g odd); [exact Mt|exact M1|apply Low; exact Hg|exact St|constructor]. }
  split; [right; left; vm_compute; reflexivity|]. split; [|split; [reflexivity|cbn; lia]].
  cbn [map fst app]. constructor; [|constructor; [intros []|constructor]]. intros [X|[]].
  assert (Eg : g = h) by (apply (loose_path_inj [] g h Hg Hid); unfold loose_path; cbn [app]; exact X).
  apply framed_eq in F as (nm & Bn & Ec). inversion Bn; subst nm. rewrite Gy, Eh, Ec in Eg. vm_compute in Eg. discriminate Eg.
Qed.
(** The pack of three objects of C16 meets what [C136_again] asks. *)
Example C136_again_ex : exists file objs, git_pack stored (fun _ => Panic) file objs /\ objs <> [] /\
  no_collision (map snd objs) /\ nlen file < 2 ^ 32 /\ nlen objs = 3 /\
  Forall (fun o : object => bytes_ok (snd o) /\ nlen (snd o) < 2 ^ 61) (map snd objs).
Proof.
  destruct C16_ex as (A & B & Hn & p & file & E & Hf).
  destruct (encode_git_pack stored (fun _ => Panic) ex_l p file stored_ok A E) as (objs & G & Eo & _).
  exists file, objs. rewrite Eo. split; [exact G|].
  assert (L : nlen objs = 3) by (rewrite <- Hn; unfold nlen; rewrite <- (map_length snd objs), Eo, map_length; reflexivity).
  split; [intros ->; discriminate L|]. split; [exact B|]. split; [exact Hf|]. split; [exact L|].
  clear - A. induction A as [|x l [(_ & _ & _ & W & _) S1] A IH]; cbn [map]; constructor; [split; [exact W|exact S1]|exact IH].
Qed.

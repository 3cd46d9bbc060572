(** C15-C24, C73, C74: pack files. Vocabulary: SpecPack (git's pack format). *)

From Coq Require Import Lia.
From Verif Require Import Base BaseLemmas Digest ModelUtils ModelObject ModelDelta ModelPack
  SpecFormat SpecObject SpecDelta SpecDiff SpecPack StoredZlib
  ProofUtils ProofObject ProofDelta ProofPack ProofEncode ProofPackAny ProofPackDir PropDelta.
Open Scope N_scope.

(** ** C15: header *)

Theorem C15_header_format : forall n, 0 < n < 2 ^ 32 -> exists v w,
  be32_value v 2 /\ be32_value w n /\ encode_header n = Ok (bs "PACK" ++ v ++ w).
Proof.
  intros n H. exists (u32_vec 2), (u32_vec n). split; [apply u32_vec_value; reflexivity|].
  split; [apply u32_vec_value; apply H|]. apply encode_header_some. assumption.
Qed.
Theorem C15_header_roundtrip : forall n rest, 0 < n < 2 ^ 32 -> exists h,
  encode_header n = Ok h /\ length h = 12%nat /\ check_header (h ++ rest) = Ok (n, rest).
Proof.
  intros n rest H. exists (hd n). split; [apply encode_header_some; assumption|]. split; [reflexivity|].
  unfold hd. rewrite <- !app_assoc. apply check_header_ok. apply H.
Qed.
Theorem C15_header_decoding : forall v w n rest, be32_value v 2 -> be32_value w n ->
  check_header (bs "PACK" ++ v ++ w ++ rest) = Ok (n, rest).
Proof.
  intros v w n rest Hv Hw. pose proof (read_u32_value w n rest Hw) as R. apply be32_vec in Hv. subst v.
  unfold check_header, read_bytes at 1. replace (4 <=? length (bs "PACK" ++ u32_vec 2 ++ w ++ rest))%nat with true by reflexivity.
  rewrite firstn_app_n, skipn_app_n by reflexivity. cbn [unwrap bind]. change (beq (bs "PACK") (bs "PACK")) with true.
  cbn [negb]. rewrite u32_roundtrip by reflexivity. cbn [unwrap bind]. rewrite R. reflexivity.
Qed.
(** Any other magic or version is an error, for the whole decoder too. *)
Theorem C15_other_header_rejected : forall m c st fuel magic v x rest, length magic = 4%nat -> be32_value v x ->
  magic <> bs "PACK" \/ x <> 2 ->
  exists e, check_header (magic ++ v ++ rest) = Err e /\ decode m c st fuel (magic ++ v ++ rest) = Err e.
Proof.
  intros m c st fuel magic v x rest Hm Hv H.
  assert (E : exists e, check_header (magic ++ v ++ rest) = Err e).
  { unfold check_header, read_bytes at 1. rewrite app_length, Hm. cbn [Nat.leb Nat.add].
    rewrite firstn_app_n, skipn_app_n by assumption. cbn [unwrap bind].
    destruct (beq magic (bs "PACK")) eqn:B; cbn [negb]; [|eauto]. apply beq_eq in B.
    rewrite (read_u32_value v x rest Hv). cbn [unwrap bind].
    destruct (N.eqb_spec x 2) as [->|Hx]; [destruct H; contradiction|]. cbn [negb]. eauto. }
  destruct E as (e & E). exists e. split; [exact E|]. unfold decode. rewrite E. reflexivity.
Qed.
(** Nothing can be packed into an empty pack, and a truncated header aborts. *)
Theorem C15_empty_aborts : forall m c diff, encode_header 0 = Panic /\ encode c [] = Panic /\ encode_delta m c diff [] = Panic.
Proof. intros. repeat split. Qed.
Theorem C15_truncated_rejected : forall s x, (length s < 12)%nat -> check_header s <> Ok x.
Proof.
  assert (R : forall k s a r, read_bytes k s = Ok (a, r) -> length s = (k + length r)%nat).
  { intros k s a r H. unfold read_bytes in H. destruct (Nat.leb_spec k (length s)) as [L|L]; [|discriminate].
    assert (r = skipn k s) by congruence. subst r. rewrite skipn_length. lia. }
  assert (R4 : forall s a r, read_u32 s = Ok (a, r) -> length s = (4 + length r)%nat).
  { intros s a r H. unfold read_u32 in H. apply bind_ok in H as ([b r'] & H & E). apply R in H. congruence. }
  intros s [n r] Hs E. unfold check_header in E. apply bind_ok in E as ([a s1] & E1 & E). apply unwrap_ok, R in E1.
  destruct (negb _); [discriminate|]. apply bind_ok in E as ([b s2] & E2 & E). destruct (negb _); [discriminate|].
  apply unwrap_ok, R4 in E2. apply unwrap_ok, R4 in E. lia.
Qed.
Example C15_ex : encode_header 258 = Ok [80; 65; 67; 75; 0; 0; 0; 2; 0; 0; 1; 2] /\
  check_header ([80; 65; 67; 75; 0; 0; 0; 2; 0; 0; 1; 2] ++ [7]) = Ok (258, [7]) /\
  check_header [80; 65; 67; 75; 0; 0; 0; 3; 0; 0; 1; 2] = Err EInvalidPackFile /\
  check_header [80; 65; 67; 74; 0; 0; 0; 2; 0; 0; 1; 2] = Err EInvalidPackHeader.
Proof. repeat split; vm_compute; reflexivity. Qed.

(** ** C73: every well-formed pack decodes to exactly its objects *)

Theorem C73_wellformed_pack_decodes : forall m c st fuel file objs, git_pack c st file objs ->
  no_collision (map snd objs) -> nlen file < 2 ^ 32 ->
  exists p, decode m c st (S fuel) file = Ok p /\ p_number p = nlen objs /\
    p_signature p = skipn (length file - 20) file /\
    holds (p_cache p) (map snd objs) /\ located (p_cache p) objs.
Proof. exact decode_git_pack. Qed.

(** ** C16: whole objects *)

(** What the encoder writes is a git pack of exactly those objects, in that order. *)
Theorem C16_encode_format : forall c st l p file, codec_ok c -> Forall encodable l ->
  encode c l = Ok (p, file) -> exists objs, git_pack c st file objs /\ map snd objs = map obj_of l /\
    p_number p = nlen l /\ file = firstn (length file - 20) file ++ p_signature p.
Proof. exact encode_git_pack. Qed.
Theorem C16_pack_roundtrip : forall m c st fuel l, codec_ok c -> Forall encodable l -> l <> [] -> nlen l < 2 ^ 32 ->
  no_collision (map obj_of l) -> exists p file, encode c l = Ok (p, file) /\
  (nlen file < 2 ^ 32 -> exists objs q, map snd objs = map obj_of l /\
    decode m c st (S fuel) file = Ok q /\ p_number q = nlen l /\ p_number p = nlen l /\
    p_signature q = p_signature p /\ holds (p_cache q) (map obj_of l) /\ located (p_cache q) objs).
Proof.
  intros m c st fuel l Hc Hl Hne Hn Hcol. destruct (encode_ok c l Hne Hn) as (p & file & E). exists p, file.
  split; [exact E|]. intros Hf. destruct (encode_git_pack c st l p file Hc Hl E) as (objs & G & Ho & Hp & Hs).
  assert (Hcol' : no_collision (map snd objs)) by (rewrite Ho; assumption).
  destruct (decode_git_pack m c st fuel file objs G Hcol' Hf) as (q & Eq & Hq & Hsig & H1 & H2).
  exists objs, q. rewrite Ho in H1.
  assert (Hlen : nlen objs = nlen l). { unfold nlen. rewrite <- (map_length snd objs), Ho, map_length. reflexivity. }
  repeat split; try assumption; try congruence; try apply H1; try apply H2.
  rewrite Hsig. rewrite Hs at 2. destruct G as (b & Hb & ->). rewrite app_length, sha1_len, Nat.add_sub.
  rewrite firstn_app_exact. apply skipn_app_exact.
Qed.

(** Concrete objects for the examples. *)
Definition ex_obj (t : otype) (d : bytes) : meta :=
  match meta_new t d with Ok m => m | _ => mkMeta t [] 0 [] [] end.
Lemma ex_obj_ok : forall t d, is_base t -> bytes_ok d -> nlen d < 2 ^ 61 -> encodable (ex_obj t d) /\ obj_of (ex_obj t d) = (t, d).
Proof.
  intros t d H Hok Hn. unfold ex_obj. destruct (meta_new_obj t d H) as (h & _ & E). rewrite E.
  split; [|reflexivity]. split; [|exact Hn]. eapply meta_new_wf; [exact Hok| |exact E]. apply lt61_64. assumption.
Qed.
Lemma ex_no_collision : forall l, (forall o, In o l -> is_base (fst o)) ->
  (forall a b, In a l -> In b l -> m_id (ex_obj (fst a) (snd a)) = m_id (ex_obj (fst b) (snd b)) -> a = b) -> no_collision l.
Proof.
  intros l Hb H a b h Ha Hbb Ia Ib. apply H; try assumption.
  assert (K : forall o, In o l -> obj_id o h -> m_id (ex_obj (fst o) (snd o)) = h).
  { intros [t d] Hi Ho. unfold ex_obj. destruct (meta_new_obj t d (Hb _ Hi)) as (h' & Hh' & E). cbn [fst snd].
    rewrite E. cbn. eapply obj_id_fun; eassumption. }
  rewrite (K a), (K b) by assumption. reflexivity.
Qed.
Definition ex_l : list meta := [ex_obj Blob (bs "hello world"); ex_obj Tree []; ex_obj Tag (bs "t")].
Lemma ex_l_ok : Forall encodable ex_l /\ no_collision (map obj_of ex_l) /\
  map obj_of ex_l = [(Blob, bs "hello world"); (Tree, []); (Tag, bs "t")].
Proof.
  assert (B : is_base Blob) by (eexists; constructor). assert (T : is_base Tree) by (eexists; constructor).
  assert (G : is_base Tag) by (eexists; constructor).
  destruct (ex_obj_ok Blob (bs "hello world") B) as [E1 O1]; [repeat constructor|reflexivity|].
  destruct (ex_obj_ok Tree [] T) as [E2 O2]; [repeat constructor|reflexivity|].
  destruct (ex_obj_ok Tag (bs "t") G) as [E3 O3]; [repeat constructor|reflexivity|].
  assert (M : map obj_of ex_l = [(Blob, bs "hello world"); (Tree, []); (Tag, bs "t")]).
  { cbn [map ex_l]. rewrite O1, O2, O3. reflexivity. }
  split; [unfold ex_l; repeat (apply Forall_cons; [assumption|]); apply Forall_nil|]. split; [|exact M]. rewrite M.
  apply ex_no_collision.
  - intros o [<-|[<-|[<-|[]]]]; assumption.
  - intros a b [<-|[<-|[<-|[]]]] [<-|[<-|[<-|[]]]] H; try reflexivity; exfalso; vm_compute in H; discriminate.
Qed.
Example C16_ex : Forall encodable ex_l /\ no_collision (map obj_of ex_l) /\ nlen ex_l = 3 /\
  exists p file, encode stored ex_l = Ok (p, file) /\ nlen file < 2 ^ 32.
Proof.
  destruct ex_l_ok as (A & B & _). split; [exact A|]. split; [exact B|]. split; [reflexivity|].
  destruct (encode_ok stored ex_l) as (p & file & E); [discriminate|reflexivity|]. exists p, file. split; [exact E|].
  assert (X : match encode stored ex_l with Ok (_, f) => nlen f <? 2 ^ 32 | _ => false end = true) by (vm_compute; reflexivity).
  rewrite E in X. apply N.ltb_lt. exact X.
Qed.

(** ** C17: checksum *)

Theorem C17_encode_trailer : forall c l p file, encode c l = Ok (p, file) ->
  exists b, file = b ++ sha1 b /\ p_signature p = sha1 b.
Proof.
  intros c l p file H. unfold encode in H. apply bind_ok in H as (h & _ & H). cbv zeta in H. injection H as <- <-.
  eexists. split; reflexivity.
Qed.
Theorem C17_encode_delta_trailer : forall m c diff l p file, encode_delta m c diff l = Ok (p, file) ->
  exists b, file = b ++ sha1 b /\ p_signature p = sha1 b.
Proof.
  intros m c diff l p file H. unfold encode_delta in H. apply bind_ok in H as (h & _ & H).
  apply bind_ok in H as (r & _ & H). cbv zeta in H. injection H as <- <-. eexists. split; reflexivity.
Qed.
(** The decoder takes any 20 bytes as the checksum, and ignores what follows. *)
Theorem C17_any_trailer_accepted : forall m c st fuel b objs sig junk, pack_body c st (nlen objs) b objs ->
  length sig = 20%nat -> no_collision (map snd objs) -> (forall off o, In (off, o) objs -> off < 2 ^ 32) ->
  exists k, decode m c st (S fuel) (b ++ sig ++ junk) = Ok (mkPack (nlen objs) sig k) /\
    holds k (map snd objs) /\ located k objs.
Proof. exact decode_pack. Qed.

(** A body for the example objects. *)
Lemma ex_body : forall st, exists b objs, pack_body stored st (nlen objs) b objs /\ map snd objs = map obj_of ex_l /\
  nlen objs = 3 /\ (forall off o, In (off, o) objs -> off < 2 ^ 32).
Proof.
  intros st. destruct ex_l_ok as (A & B & _). destruct (encode_ok stored ex_l) as (p & file & E); [discriminate|reflexivity|].
  assert (X : match encode stored ex_l with Ok (_, f) => nlen f <? 2 ^ 32 | _ => false end = true) by (vm_compute; reflexivity).
  rewrite E in X. apply N.ltb_lt in X.
  destruct (encode_git_pack stored st ex_l p file stored_ok A E) as (objs & G & Ho & _).
  pose proof (git_pack_offs _ _ _ _ G) as Hoff. destruct G as (b & Hb & ->). exists b, objs.
  split; [exact Hb|]. split; [exact Ho|]. split.
  - unfold nlen. rewrite <- (map_length snd objs), Ho, map_length. reflexivity.
  - intros off o Hi. apply Hoff in Hi. lia.
Qed.
Theorem C17_wrong_checksum_refuted : forall m st fuel, exists b objs sig p, pack_body stored st (nlen objs) b objs /\
  nlen objs = 3 /\ length sig = 20%nat /\ sig <> sha1 b /\ decode m stored st (S fuel) (b ++ sig) = Ok p.
Proof.
  intros m st fuel. destruct (ex_body st) as (b & objs & Hb & Ho & Hn & Hoff).
  assert (S : exists sig, length sig = 20%nat /\ sig <> sha1 b).
  { destruct (bytes_dec (repeat 0 20) (sha1 b)) as [E|E]; [|exists (repeat 0 20); split; [reflexivity|exact E]].
    exists (repeat 1 20). split; [reflexivity|]. rewrite <- E. discriminate. }
  destruct S as (sig & Hl & Hs).
  destruct (decode_pack m stored st fuel b objs sig [] Hb Hl) as (k & E & _).
  { rewrite Ho. apply ex_l_ok. } { assumption. }
  rewrite app_nil_r in E. exists b, objs, sig, (mkPack (nlen objs) sig k). auto.
Qed.

(** ** C18: delta-compressed packs *)

Theorem C18_delta_format : forall c st diff ms p file, codec_ok c -> diff_ok diff ->
  Forall encodable ms -> Forall (fun x => nlen (m_data x) < 2 ^ 24) ms -> nlen file < 2 ^ 64 ->
  encode_delta Debug c diff ms = Ok (p, file) -> exists objs, git_pack c st file objs /\
    map snd objs = map obj_of ms /\ p_number p = nlen ms /\
    file = firstn (length file - 20) file ++ p_signature p.
Proof. exact encode_delta_git_pack. Qed.
Theorem C18_delta_pack_roundtrip : forall m c st fuel diff ms p file, codec_ok c -> diff_ok diff ->
  Forall encodable ms -> Forall (fun x => nlen (m_data x) < 2 ^ 24) ms -> no_collision (map obj_of ms) ->
  encode_delta Debug c diff ms = Ok (p, file) -> nlen file < 2 ^ 32 ->
  exists objs q, map snd objs = map obj_of ms /\ decode m c st (S fuel) file = Ok q /\
    p_number q = nlen ms /\ holds (p_cache q) (map obj_of ms) /\ located (p_cache q) objs.
Proof.
  intros m c st fuel diff ms p file Hc Hd Hm Hs Hcol E Hf.
  destruct (encode_delta_git_pack c st diff ms p file Hc Hd Hm Hs) as (objs & G & Ho & Hp & _); [|assumption|].
  { change (2 ^ 32) with 4294967296 in Hf. change (2 ^ 64) with 18446744073709551616. lia. }
  assert (Hcol' : no_collision (map snd objs)) by (rewrite Ho; assumption).
  destruct (decode_git_pack m c st fuel file objs G Hcol' Hf) as (q & Eq & Hq & _ & H1 & H2).
  exists objs, q. rewrite Ho in H1. split; [exact Ho|]. split; [exact Eq|]. split; [|auto].
  rewrite Hq. unfold nlen. rewrite <- (map_length snd objs), Ho, map_length. reflexivity.
Qed.
(** What the debug build writes, the release build writes too. *)
Theorem C18_release_same : forall c diff ms r,
  encode_delta Debug c diff ms = Ok r -> encode_delta Release c diff ms = Ok r.
Proof. exact encode_delta_release. Qed.

(** A diff engine: longest common prefix, then replace the rest. *)
Fixpoint lcp (a b : bytes) : nat :=
  match a, b with
  | x :: a', y :: b' => if x =? y then S (lcp a' b') else O
  | _, _ => O
  end.
Definition prefix_diff (old new : bytes) : list call :=
  let p := lcp old new in
  (if (0 <? p)%nat then [CEqual 0 0 p] else []) ++ [CDelete p (length old - p) p] ++
  (if (0 <? length new - p)%nat then [CInsert (length old) p (length new - p)] else []).
Lemma lcp_spec : forall a b, (lcp a b <= length a)%nat /\ (lcp a b <= length b)%nat /\ firstn (lcp a b) a = firstn (lcp a b) b.
Proof.
  induction a as [|x a IH]; intros [|y b]; cbn [lcp length]; try (repeat split; try lia; reflexivity).
  destruct (N.eqb_spec x y) as [->|]; [|repeat split; try lia; reflexivity].
  destruct (IH b) as (A & B & C). cbn [firstn]. rewrite C. repeat split; lia.
Qed.
Lemma prefix_diff_ok : diff_ok prefix_diff.
Proof.
  intros old new. unfold edit_script, prefix_diff. destruct (lcp_spec old new) as (A & B & C).
  set (p := lcp old new) in *. clearbody p.
  assert (T : valid_script old new p p ([CDelete p (length old - p) p] ++
    (if (0 <? length new - p)%nat then [CInsert (length old) p (length new - p)] else []))).
  { cbn [app]. constructor; [lia|]. replace (p + (length old - p))%nat with (length old) by lia.
    destruct (Nat.ltb_spec 0 (length new - p)) as [L|L].
    - constructor; try lia. replace (p + (length new - p))%nat with (length new) by lia. constructor.
    - replace p with (length new) by lia. constructor. }
  destruct (Nat.ltb_spec 0 p) as [L|L].
  - cbn [app]. constructor; cbn [skipn]; try assumption.
  - replace p with 0%nat in * by lia. exact T.
Qed.
Definition ex_d : list meta := [ex_obj Blob (bs "hello world"); ex_obj Blob (bs "hello worms"); ex_obj Blob (bs "hello words")].
Example C18_ex : Forall encodable ex_d /\ diff_ok prefix_diff /\ codec_ok stored /\
  exists p file, encode_delta Debug stored prefix_diff ex_d = Ok (p, file) /\ nlen file < 2 ^ 32 /\
    match encode stored ex_d with Ok (_, file') => file <> file' | _ => False end.
Proof.
  assert (B : is_base Blob) by (eexists; constructor).
  split; [unfold ex_d; repeat (apply Forall_cons; [apply ex_obj_ok; [assumption|repeat constructor|reflexivity]|]); apply Forall_nil|].
  split; [apply prefix_diff_ok|]. split; [apply stored_ok|].
  destruct (encode_delta Debug stored prefix_diff ex_d) as [[p file]| | |] eqn:E; try (exfalso; vm_compute in E; discriminate).
  exists p, file. split; [reflexivity|].
  assert (X : match encode_delta Debug stored prefix_diff ex_d, encode stored ex_d with
    | Ok (_, f), Ok (_, f') => (nlen f <? 2 ^ 32) && negb (beq f f') | _, _ => false end = true) by (vm_compute; reflexivity).
  rewrite E in X. destruct (encode stored ex_d) as [[p' file']| | |]; try discriminate.
  apply andb_true_iff in X as [X1 X2]. split; [apply N.ltb_lt; exact X1|].
  intros ->. rewrite beq_refl in X2. discriminate.
Qed.

(** ** C19: distances *)

(** The release build always writes a pack; below 16 KiB the debug build writes the
    same one (and C18 applies). *)
Theorem C19_small_packs : forall c diff ms, diff_ok diff -> ms <> [] -> nlen ms < 2 ^ 32 ->
  Forall encodable ms -> Forall (fun x => nlen (m_data x) < 2 ^ 24) ms ->
  exists p file, encode_delta Release c diff ms = Ok (p, file) /\
    (nlen file < 16384 -> encode_delta Debug c diff ms = Ok (p, file)).
Proof. exact encode_delta_total. Qed.

(** Two blobs, the second 16384 bytes after the first and delta-encoded against it. *)
Definition far_data : bytes := repeat 97 (N.to_nat 15975).
Definition far_meta (h1 h2 : hash) : list meta :=
  [as_meta (Blob, far_data) h1; as_meta (Blob, far_data ++ [98]) h2].
Lemma far_meta_ok : exists h1 h2, Forall encodable (far_meta h1 h2) /\ Forall (fun x => nlen (m_data x) < 2 ^ 24) (far_meta h1 h2).
Proof.
  assert (B : is_base Blob) by (eexists; constructor).
  assert (L : nlen far_data = 15975) by (unfold nlen, far_data; rewrite repeat_length, N2Nat.id; reflexivity).
  assert (O : bytes_ok far_data). { apply Forall_forall. intros x Hx. apply repeat_spec in Hx. subst. reflexivity. }
  destruct (meta_new_obj Blob far_data B) as (h1 & _ & E1).
  destruct (meta_new_obj Blob (far_data ++ [98]) B) as (h2 & _ & E2).
  exists h1, h2. unfold far_meta. split.
  - apply Forall_cons; [|apply Forall_cons; [|apply Forall_nil]];
      (split; [|cbn [m_data as_meta snd]; rewrite ?nlen_app, L; reflexivity]).
    + apply (meta_new_wf Blob far_data); [exact O| |exact E1]. rewrite L. reflexivity.
    + apply (meta_new_wf Blob (far_data ++ [98])); [apply Forall_app; split; [exact O|repeat constructor]| |exact E2]. rewrite nlen_app, L. reflexivity.
  - apply Forall_cons; [|apply Forall_cons; [|apply Forall_nil]]; cbn [m_data as_meta snd]; rewrite ?nlen_app, L; reflexivity.
Qed.
Theorem C19_debug_aborts_refuted : exists c diff ms, codec_ok c /\ diff_ok diff /\ Forall encodable ms /\
  Forall (fun x => nlen (m_data x) < 2 ^ 24) ms /\ encode_delta Debug c diff ms = Panic.
Proof.
  destruct far_meta_ok as (h1 & h2 & A & B). exists stored, prefix_diff, (far_meta h1 h2).
  split; [apply stored_ok|]. split; [apply prefix_diff_ok|]. split; [exact A|]. split; [exact B|].
  vm_compute. reflexivity.
Qed.
Theorem C19_release_corrupts_refuted : exists c diff ms p file, codec_ok c /\ diff_ok diff /\ Forall encodable ms /\
  Forall (fun x => nlen (m_data x) < 2 ^ 24) ms /\ encode_delta Release c diff ms = Ok (p, file) /\
  forall m st fuel, decode m c st (S fuel) file = Err EInvalidObjectInfo.
Proof.
  destruct far_meta_ok as (h1 & h2 & A & B).
  destruct (encode_delta_total stored prefix_diff (far_meta h1 h2) prefix_diff_ok) as (p & file & E & _);
    [discriminate|reflexivity|exact A|exact B|].
  exists stored, prefix_diff, (far_meta h1 h2), p, file.
  split; [apply stored_ok|]. split; [apply prefix_diff_ok|]. split; [exact A|]. split; [exact B|]. split; [exact E|].
  intros m st fuel.
  assert (X : match encode_delta Release stored prefix_diff (far_meta h1 h2) with
    | Ok (_, f) => decode m stored st (S fuel) f | _ => Panic end = Err EInvalidObjectInfo).
  { destruct m; vm_compute; reflexivity. }
  rewrite E in X. exact X.
Qed.

(** ** C20: termination *)

(** With a recursion depth above the length of the file, decoding ends unless an
    offset-delta entry of the file names itself. *)
Theorem C20_terminates : forall m c st file fuel, bytes_ok file -> (forall s, st s <> OutOfFuel) ->
  (length file < fuel)%nat -> (forall o, ~ self_ref file o) -> decode m c st fuel file <> OutOfFuel.
Proof.
  intros m c st file fuel Hok Hst Hf Hn H. destruct (decode_terminates m c st file fuel Hok Hst Hf H) as (o & Ho).
  exact (Hn o Ho).
Qed.
(** Such an entry, after any well-formed beginning, makes decoding recurse for ever. *)
Theorem C20_self_reference_diverges : forall m c st n b objs hdr size ofs rest, pack_body c st n b objs -> nlen objs < n ->
  no_collision (map snd objs) -> (forall off o, In (off, o) objs -> off < 2 ^ 32) ->
  header 6 hdr size -> ofs_format ofs 0 ->
  forall fuel, decode m c st (S fuel) (b ++ hdr ++ ofs ++ rest) = OutOfFuel.
Proof.
  intros m c st n b objs hdr size ofs rest Hb Hn Hc Hoff Hh Ho fuel.
  destruct (decode_prefix_fail m c st fuel n b objs (hdr ++ ofs ++ rest) Hb Hn Hc Hoff) as (k & _ & Hk & _ & H).
  apply H. eapply self_ref_diverges; [exact Hh| |exact Ho|exact Hk]. apply file_at_app.
Qed.
Definition loop_file : bytes := bs "PACK" ++ u32_vec 2 ++ u32_vec 1 ++ [96; 0] ++ stored_deflate [] ++ repeat 0 20.
Theorem C20_diverges_refuted : exists file, bytes_ok file /\
  forall m c st fuel, decode m c st (S fuel) file = OutOfFuel.
Proof.
  exists loop_file. split; [repeat constructor|]. intros m c st fuel.
  change loop_file with ((bs "PACK" ++ u32_vec 2 ++ u32_vec 1) ++ [96] ++ [0] ++ (stored_deflate [] ++ repeat 0 20)).
  apply C20_self_reference_diverges with (n := 1) (objs := []) (size := 0).
  - apply pb_header; apply u32_vec_value; reflexivity.
  - reflexivity.
  - intros a b h [].
  - intros off o [].
  - split; [|split; [cbn; lia|reflexivity]]. apply (hdr_short 6 0). reflexivity.
  - split; [exists [], 0; split; [reflexivity|split; [constructor|reflexivity]]|reflexivity].
Qed.
(** A file without such an entry: no byte has type 6 in bits 4-6, headers are short. *)
Example C20_ex : let file := bs "PACK" ++ u32_vec 2 ++ u32_vec 1 ++ [51; 0; 1; 2] in
  bytes_ok file /\ (forall o, ~ self_ref file o).
Proof.
  cbv zeta. split; [repeat constructor|]. intros o (b & hdr & x & ofs & d & rest & E & Hl & Ht & _).
  assert (L : (length (b :: hdr) <= 5)%nat).
  { assert (S : Forall (fun b => b < 128) ((b :: hdr) ++ ofs ++ rest)).
    { rewrite <- E. unfold file_at. apply Forall_forall. intros y Hy.
      assert (F : Forall (fun b => b < 128) (bs "PACK" ++ u32_vec 2 ++ u32_vec 1 ++ [51; 0; 1; 2])) by (repeat constructor).
      rewrite Forall_forall in F. apply F. rewrite <- (firstn_skipn (N.to_nat o)). apply in_or_app. right. exact Hy. }
    destruct hdr as [|y hdr]; [cbn; lia|]. exfalso. inversion Hl as [|b' l n Hb Hl']; subst.
    inversion S. lia. }
  destruct Ht as [Ht|Ht]; [|lia].
  assert (In b (bs "PACK" ++ u32_vec 2 ++ u32_vec 1 ++ [51; 0; 1; 2])).
  { rewrite <- (firstn_skipn (N.to_nat o)). apply in_or_app. right. unfold file_at in E. rewrite E. left. reflexivity. }
  cbn in H. repeat (destruct H as [<-|H]; [vm_compute in Ht; discriminate|]). exact H.
Qed.

(** ** C21: content addressing, for any input *)

Theorem C21_decode_addressed : forall m c st fuel file p, decode m c st fuel file = Ok p ->
  (forall h o, hash_object (p_cache p) h = Some o -> exists x, obj_id x h /\ o = as_meta x h) /\
  (forall off h, nm_get off (offset_hash (p_cache p)) = Some h -> exists o, hash_object (p_cache p) h = Some o) /\
  (forall h off, bt_get h (by_offset (p_cache p)) = Some off -> exists o, hash_object (p_cache p) h = Some o) /\
  (forall h o, hash_object (p_cache p) h = Some o -> exists off, bt_get h (by_offset (p_cache p)) = Some off).
Proof. exact decode_addressed. Qed.
(** One object at a time, in any state reached. *)
Theorem C21_step_addressed : forall m c st file fuel off k o p k', addressed k ->
  next_object m c st fuel file off k = Ok (o, p, k') ->
  addressed k' /\ off < p /\ exists x h, obj_id x h /\ o = as_meta x h /\ offset_object k' off = Some o.
Proof.
  intros m c st file fuel off k o p k' Hk H. destruct (next_object_any _ _ _ _ _ _ _ _ _ _ Hk H) as (A & B & _ & C). auto.
Qed.
Example C21_ex : addressed cache_empty /\ exists p, decode Debug stored (fun _ => Panic) 1
  (match encode stored ex_l with Ok (_, f) => f | _ => [] end) = Ok p /\ length (by_hash (p_cache p)) = 3%nat.
Proof.
  split; [apply addressed_empty|].
  destruct (decode Debug stored (fun _ => Panic) 1 (match encode stored ex_l with Ok (_, f) => f | _ => [] end)) as [p| | |] eqn:E;
    [|exfalso; vm_compute in E; discriminate ..].
  exists p. split; [reflexivity|].
  assert (X : match decode Debug stored (fun _ => Panic) 1 (match encode stored ex_l with Ok (_, f) => f | _ => [] end) with
    | Ok p => length (by_hash (p_cache p)) | _ => 0%nat end = 3%nat) by (vm_compute; reflexivity).
  rewrite E in X. exact X.
Qed.

(** ** C22: undefined entry types *)

Theorem C22_undefined_type_aborts : forall m c st fuel n b objs t hdr size rest, pack_body c st n b objs -> nlen objs < n ->
  no_collision (map snd objs) -> (forall off o, In (off, o) objs -> off < 2 ^ 32) ->
  t = 0 \/ t = 5 -> header t hdr size -> decode m c st (S fuel) (b ++ hdr ++ rest) = Panic.
Proof.
  intros m c st fuel n b objs t hdr size rest Hb Hn Hc Hoff Ht Hh.
  destruct (decode_prefix_fail m c st fuel n b objs (hdr ++ rest) Hb Hn Hc Hoff) as (k & _ & _ & H & _).
  apply H. eapply bad_type_panics; [exact Ht|exact Hh|]. apply file_at_app.
Qed.
Theorem C22_error_reported_refuted : exists file, forall m c st fuel, decode m c st (S fuel) file = Panic.
Proof.
  exists ((bs "PACK" ++ u32_vec 2 ++ u32_vec 1) ++ [80] ++ stored_deflate [] ++ repeat 0 20). intros m c st fuel.
  apply C22_undefined_type_aborts with (n := 1) (objs := []) (t := 5) (size := 0).
  - apply pb_header; apply u32_vec_value; reflexivity.
  - reflexivity.
  - intros a b h [].
  - intros off o [].
  - right. reflexivity.
  - split; [|split; [cbn; lia|reflexivity]]. apply (hdr_short 5 0). reflexivity.
Qed.

(** ** C23: merging a pack with loose objects *)

Theorem C23_merge : forall m c st fuel f root target b sig objs l, codec_ok c -> NoDup (map fst f) ->
  first_pack f root (b ++ sig) -> length sig = 20%nat -> pack_body c st (nlen objs) b objs ->
  loose_dir c root f l -> l <> [] -> nlen objs + nlen l < 2 ^ 32 -> no_collision (map snd objs ++ l) ->
  exists p f' file objs', pack_object_dir c f root target = Ok (p, f') /\
    p_number p = nlen objs + nlen l /\ map snd objs' = l /\
    fs_get f' (pack_path target (p_signature p)) = Some file /\
    (forall q, q <> pack_path target (p_signature p) -> fs_get f' q = fs_get f q) /\
    git_pack c st file (objs ++ objs') /\
    (nlen file < 2 ^ 32 -> exists q, decode m c st (S fuel) file = Ok q /\
       p_number q = nlen objs + nlen l /\ p_signature q = p_signature p /\
       holds (p_cache q) (map snd objs ++ l) /\ located (p_cache q) (objs ++ objs')).
Proof.
  intros m c st fuel f root target b sig objs l Hc Hnd Hfp Hs Hb Hl Hne Hn Hcol.
  destruct (pack_object_dir_ok c st f root target b sig objs l Hc Hnd Hfp Hs Hb Hl Hne Hn) as (p & file & objs' & E & G & Ho & Hp & Hsig).
  exists p, (fs_put f (pack_path target (p_signature p)) file), file, objs'.
  split; [exact E|]. split; [exact Hp|]. split; [exact Ho|]. split; [apply fs_get_put_same|].
  split; [intros q Hq; apply fs_get_put_other; assumption|]. split; [exact G|]. intros Hf.
  assert (M : map snd (objs ++ objs') = map snd objs ++ l) by (rewrite map_app, Ho; reflexivity).
  assert (Hcol' : no_collision (map snd (objs ++ objs'))) by (rewrite M; assumption).
  destruct (decode_git_pack m c st fuel file _ G Hcol' Hf) as (q & Eq & Hq & Hsq & H1 & H2).
  rewrite M in H1. exists q. split; [exact Eq|]. split.
  { rewrite Hq, nlen_app. f_equal. unfold nlen. rewrite <- (map_length snd objs'), Ho. reflexivity. }
  split; [|auto]. rewrite Hsq. destruct G as (b' & _ & ->). revert Hsig. rewrite app_length, sha1_len, Nat.add_sub.
  rewrite firstn_app_exact, skipn_app_exact. intros X. apply app_inv_head in X. exact X.
Qed.
(** The loose objects alone. *)
Theorem C23_pack_loose : forall c st f root target l, codec_ok c -> NoDup (map fst f) -> loose_dir c root f l ->
  l <> [] -> nlen l < 2 ^ 32 ->
  exists p file objs, pack_loose_from_dir c f root target = Ok (p, fs_put f (pack_path target (p_signature p)) file) /\
    git_pack c st file objs /\ map snd objs = l /\ p_number p = nlen l /\
    file = firstn (length file - 20) file ++ p_signature p.
Proof. exact pack_loose_ok. Qed.
(** Without loose objects there is nothing to encode and the merge aborts. *)
Theorem C23_no_loose_aborts : forall c f root target b sig objs st, codec_ok c -> NoDup (map fst f) ->
  first_pack f root (b ++ sig) -> length sig = 20%nat -> pack_body c st (nlen objs) b objs ->
  loose_dir c root f [] -> pack_object_dir c f root target = Panic.
Proof. exact pack_object_dir_empty. Qed.
(** A directory with one pack and one loose object. *)
Example C23_ex : exists f b sig objs l, NoDup (map fst f) /\ first_pack f [] (b ++ sig) /\ length sig = 20%nat /\
  pack_body stored (fun _ => Panic) (nlen objs) b objs /\ loose_dir stored [] f l /\ nlen objs = 3 /\
  l = [(Blob, bs "x")] /\ no_collision (map snd objs ++ l).
Proof.
  destruct (ex_body (fun _ => Panic)) as (b & objs & Hb & Ho & Hn & _).
  assert (B : is_base Blob) by (eexists; constructor).
  destruct (meta_new_obj Blob (bs "x") B) as (h & (content & F & Eh) & Em).
  pose proof (sha1_ok content) as Hid. rewrite <- Eh in Hid.
  destruct (loose_path_parts h Hid) as (L1 & L2 & Ht).
  exists [([bs "pack"; bs "a.pack"], b ++ sha1 b); ([] ++ [to_folder h; to_filename h], deflate stored content)], b, (sha1 b), objs, [(Blob, bs "x")].
  split.
  { cbn [map fst app]. apply NoDup_cons; [|apply NoDup_cons; [intros []|apply NoDup_nil]].
    intros [X|[]]. injection X as X _. rewrite X in L1. discriminate. }
  split.
  { exists [], (bs "a.pack"). eexists. split; [reflexivity|]. split; [exists (bs "a."); reflexivity|intros ? ? []]. }
  split; [apply sha1_len|]. split; [exact Hb|]. split.
  { apply ld_other; [intros x y [= <- _]; discriminate|].
    apply (ld_loose stored [] h Blob (bs "x") content); try assumption; try (repeat constructor; fail); try reflexivity.
    - unfold to_folder, to_filename. rewrite firstn_skipn. pose proof (to_plain_str_text _ Hid) as [_ X].
      rewrite <- (hex_text_lower _ _ X). reflexivity. }
  split; [exact Hn|]. split; [reflexivity|]. rewrite Ho. rewrite (proj2 (proj2 ex_l_ok)). cbn [app].
  assert (T : is_base Tree) by (eexists; constructor). assert (G : is_base Tag) by (eexists; constructor).
  apply ex_no_collision.
  - intros o [<-|[<-|[<-|[<-|[]]]]]; assumption.
  - intros x y [<-|[<-|[<-|[<-|[]]]]] [<-|[<-|[<-|[<-|[]]]]] H; try reflexivity; exfalso; vm_compute in H; discriminate.
Qed.

(** ** C24: several packs *)

Theorem C24_objects_complete : forall m c st fuel files objss, (forall h x, ~ knows st h x) ->
  Forall2 (fun file objs => git_pack c st file objs /\ nlen file < 2 ^ 32) files objss ->
  no_collision (flat_map (map snd) objss) ->
  exists p, multi_decode m c st (S fuel) files = Ok p /\ holds (p_cache p) (flat_map (map snd) objss).
Proof.
  intros m c st fuel files objss Hst H Hc. destruct (multi_decode_ok m c st fuel files objss Hst H Hc) as (p & E & _ & Hk).
  exists p. auto.
Qed.
(** The count is 0 whatever the packs are. *)
(** There are no error values: what one of the files has wrong aborts the whole. *)
Theorem C24_errors_abort : forall m c st fuel files e, multi_decode m c st fuel files <> Err e.
Proof.
  assert (U : forall A B (r : res A) (f : A -> res B) e, bind (unwrap r) f = Err e -> exists x, r = Ok x /\ f x = Err e).
  { intros A B r f e H. destruct r as [x| | |]; cbn [unwrap bind] in H; try discriminate. exists x. auto. }
  assert (L : forall m c st fuel files t k e, multi_loop m c st fuel files t k <> Err e).
  { induction files as [|f files IH]; intros t k e H; cbn [multi_loop] in H; [discriminate|].
    destruct (decode_with_cache m c st fuel f k) as [[q k']|e'| |] eqn:E; cbn [bind] in H; try discriminate; [exact (IH _ _ _ H)|].
    unfold decode_with_cache in E. apply U in E as ([n rest] & _ & E). apply U in E as ([pos k'] & _ & E). apply U in E as ([id r] & _ & E).
    unfold hash_from_row in E. destruct (length id =? 20)%nat; discriminate. }
  intros m c st fuel files e H. unfold multi_decode in H. destruct (multi_loop m c st fuel files 0 cache_empty) as [[n k]|e'| |] eqn:E; cbn [bind] in H; try discriminate.
  exact (L _ _ _ _ _ _ _ _ E).
Qed.
(** A file that is no pack, in whatever place. *)
Theorem C24_foreign_file_aborts : forall m c st fuel pre post file objss, (forall h x, ~ knows st h x) ->
  Forall2 (fun f objs => git_pack c st f objs /\ nlen f < 2 ^ 32) pre objss -> no_collision (flat_map (map snd) objss) ->
  firstn 4 file <> bs "PACK" -> multi_decode m c st (S fuel) (pre ++ file :: post) = Panic.
Proof.
  intros m c st fuel pre post file objss Hst H Hc Hf.
  destruct (C24_objects_complete m c st fuel pre objss Hst H Hc) as (p & E & _). unfold multi_decode in *.
  destruct (multi_loop m c st (S fuel) pre 0 cache_empty) as [[n k]| | |] eqn:El; try discriminate. clear E.
  assert (A : forall l r t k0 n k, multi_loop m c st (S fuel) l t k0 = Ok (n, k) -> multi_loop m c st (S fuel) (l ++ r) t k0 = multi_loop m c st (S fuel) r n k).
  { clear. induction l as [|f l IH]; intros r t k0 n k H; cbn [app multi_loop] in *; [injection H as -> ->; reflexivity|].
    destruct (decode_with_cache m c st (S fuel) f k0) as [[q k']| | |]; try discriminate. cbn [bind] in *. apply IH. exact H. }
  rewrite (A _ _ _ _ _ _ El). cbn [multi_loop]. unfold decode_with_cache.
  assert (X : unwrap (check_header file) = Panic); [|rewrite X; reflexivity].
  unfold check_header, read_bytes. destruct (4 <=? length file)%nat; [|reflexivity]. cbn [unwrap bind].
  apply beq_neq in Hf. rewrite Hf. reflexivity.
Qed.
Example C24_foreign_ex : firstn 4 (bs "not a pack") <> bs "PACK" /\ exists files objss, (forall h x, ~ knows (fun _ => Panic) h x) /\
  Forall2 (fun f objs => git_pack stored (fun _ => Panic) f objs /\ nlen f < 2 ^ 32) files objss /\ no_collision (flat_map (map snd) objss) /\ files <> [].
Proof.
  split; [discriminate|]. destruct C16_ex as (A & B & Hn & p & file & E & Hf).
  destruct (encode_git_pack stored (fun _ => Panic) ex_l p file stored_ok A E) as (objs & G & Eo & _).
  exists [file], [objs]. split; [intros h x (s & h' & _ & _ & K); discriminate|]. split; [constructor; [auto|constructor]|].
  cbn [flat_map]. rewrite app_nil_r, Eo. split; [exact B|discriminate].
Qed.

Theorem C24_count_is_zero : forall m c st fuel files p, multi_decode m c st fuel files = Ok p -> p_number p = 0.
Proof.
  assert (L : forall m c st fuel files t k r, multi_loop m c st fuel files t k = Ok r -> fst r = t).
  { induction files as [|f files IH]; intros t k r H; cbn [multi_loop] in H; [injection H as <-; reflexivity|].
    apply bind_ok in H as ([q k'] & _ & H). apply IH in H. rewrite H. lia. }
  intros m c st fuel files p H. unfold multi_decode in H. apply bind_ok in H as ([n k] & Hl & H).
  apply L in Hl. injection H as <-. exact Hl.
Qed.
Theorem C24_count_refuted : forall m fuel, exists st files objss p, (forall h x, ~ knows st h x) /\
  Forall2 (fun file objs => git_pack stored st file objs /\ nlen file < 2 ^ 32) files objss /\
  multi_decode m stored st (S fuel) files = Ok p /\ p_number p <> fold_left N.add (map nlen objss) 0.
Proof.
  intros m fuel.
  assert (K : forall h x, ~ knows (fun _ => Panic) h x) by (intros h x (s & h' & _ & _ & E); discriminate).
  destruct (ex_body (fun _ => Panic)) as (b & objs & Hb & Ho & Hn & _).
  destruct (encode_ok stored ex_l) as (p0 & file & E); [discriminate|reflexivity|].
  destruct ex_l_ok as (A & B & _).
  destruct (encode_git_pack stored (fun _ => Panic) ex_l p0 file stored_ok A E) as (objs' & G & Ho' & _).
  assert (X : match encode stored ex_l with Ok (_, f) => nlen f <? 2 ^ 32 | _ => false end = true) by (vm_compute; reflexivity).
  rewrite E in X. apply N.ltb_lt in X.
  assert (F : Forall2 (fun file objs => git_pack stored (fun _ => Panic) file objs /\ nlen file < 2 ^ 32) [file] [objs'])
    by (repeat constructor; assumption).
  destruct (multi_decode_ok m stored (fun _ => Panic) fuel [file] [objs'] K F) as (p & Ep & Hz & _).
  { cbn [flat_map]. rewrite app_nil_r, Ho'. exact B. }
  exists (fun _ => Panic), [file], [objs'], p. split; [exact K|]. split; [exact F|]. split; [exact Ep|].
  cbn [map fold_left]. rewrite Hz. replace (nlen objs') with 3; [discriminate|].
  unfold nlen. rewrite <- (map_length snd objs'), Ho', map_length. reflexivity.
Qed.

(** ** C74: deltas against a base that comes later in the pack *)

Theorem C74_missing_base_aborts : forall m c st fuel n b objs hdr size h rest e, pack_body c st n b objs -> nlen objs < n ->
  no_collision (map snd objs) -> (forall off o, In (off, o) objs -> off < 2 ^ 32) ->
  header 7 hdr size -> id_ok h -> (forall off o, In (off, o) objs -> ~ obj_id o h) ->
  (forall s, id_text s h -> map lower s = s -> st s = Err e) ->
  decode m c st (S fuel) (b ++ hdr ++ h ++ rest) = Panic.
Proof.
  intros m c st fuel n b objs hdr size h rest e Hb Hn Hc Hoff (H1 & H2 & H3) Hid Hno Hst.
  destruct (decode_prefix_fail m c st fuel n b objs (hdr ++ h ++ rest) Hb Hn Hc Hoff) as (k & (Hh & _) & _ & H & _).
  apply H. cbn [next_object]. rewrite file_at_app.
  rewrite (read_entry_hdr m 7 hdr size (h ++ rest)) by (assumption || reflexivity). cbn [unwrap bind].
  change ((1 <=? 7) && (7 <=? 4)) with false. change (7 =? 6) with false. change (7 =? 7) with true. cbn iota.
  unfold read_hash, read_bytes. destruct Hid as [Hlen Hok]. rewrite app_length, Hlen.
  replace (20 <=? 20 + length rest)%nat with true by reflexivity.
  rewrite firstn_app_n, skipn_app_n by assumption. cbn [unwrap bind].
  replace (hash_object k h) with (@None meta).
  - pose proof (to_plain_str_text h (conj Hlen Hok)) as Ht. rewrite Hst; [reflexivity|exact Ht|].
    symmetry. exact (hex_text_lower _ _ (proj2 Ht)).
  - destruct (hash_object k h) as [o|] eqn:E; [|reflexivity]. exfalso. apply Hh in E as (x & Hx & Hi & _).
    apply in_map_iff in Hx as ([off x'] & <- & Hx). eapply Hno; eassumption.
Qed.
(** A pack of two entries, the first a delta against the second: git accepts it. *)
Theorem C74_forward_reference_refuted : exists hdr h z delta data e2 base, header 7 hdr (nlen delta) /\
  obj_id (Blob, base) h /\ zstream stored z delta /\ git_delta base delta data /\
  (forall st off, entry stored st off [] e2 (Blob, base)) /\
  forall m fuel trailer, decode m stored (fun _ => Err EInvalidObjectInfo) (S fuel)
    ((bs "PACK" ++ u32_vec 2 ++ u32_vec 2) ++ hdr ++ h ++ z ++ e2 ++ trailer) = Panic.
Proof.
  assert (B : is_base Blob) by (eexists; constructor).
  destruct (meta_new_obj Blob (bs "hello world") B) as (h & Hh & _).
  pose (delta := [11; 12; 144; 5; 1; 44; 145; 5; 6]).
  destruct (ex_obj_ok Blob (bs "hello world") B) as [E1 O1]; [repeat constructor|reflexivity|].
  assert (Hd : header 7 [121] (nlen delta)).
  { split; [|split; [cbn; lia|reflexivity]]. apply (hdr_short 7 9). reflexivity. }
  exists [121], h, (stored_deflate delta), delta, (bs "hello, world"), (convert_to_vec stored (ex_obj Blob (bs "hello world"))), (bs "hello world").
  split; [exact Hd|]. split; [exact Hh|].
  split; [intros rest; apply stored_ok; repeat constructor|].
  split; [apply C11_ex|].
  split; [intros st off; rewrite <- O1; apply entry_whole; [apply stored_ok|exact E1]|].
  intros m fuel trailer.
  apply C74_missing_base_aborts with (n := 2) (objs := []) (size := nlen delta) (e := EInvalidObjectInfo).
  - apply pb_header; apply u32_vec_value; reflexivity.
  - reflexivity.
  - intros a b x [].
  - intros off o [].
  - exact Hd.
  - eapply obj_id_ok. eassumption.
  - intros off o [].
  - reflexivity.
Qed.

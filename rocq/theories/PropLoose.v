(** C114-C117: objects read one by one, and directories of packs. Vocabulary: SpecLoose. *)

From Coq Require Import Permutation Sorting.Sorted.
From Verif Require Import Base BaseLemmas Digest ModelUtils ModelObject ModelBase ModelDelta ModelPack ModelLoose SpecObject SpecIdx SpecBase SpecPack SpecLoose ProofObject ProofUtf8 ProofBase ProofPack ProofEncode ProofPackDir ProofLoose StoredZlib PropObject PropBase PropPack.
Open Scope N_scope.

(** ** C114: an object by its id *)

(** What is returned hashes to the id that was asked for. *)
Theorem C114_returned : forall colour c f h m, read_object colour c f h = Ok m ->
  m_t m = Commit /\ m_id m = h /\ m_size m = nlen (m_data m) /\ m_delta_header m = [] /\
  exists content, framed Commit (nlen (m_data m)) (m_data m) content /\ sha1 content = h.
Proof. exact read_object_ok. Qed.

(** A commit that is there is returned, when ids are not printed in colour. *)
Theorem C114_commit : forall c f h data, codec_ok c -> loose c f [bs ".git"; bs "objects"] h Commit data ->
  read_object false c f h = Ok (mkMeta Commit h (nlen data) data []).
Proof.
  intros c f h data Hc H. destruct (loose_get _ _ _ _ _ _ H) as (content & I & F & E & B & L & G).
  destruct (read_object_stored c f h Commit data content Hc F B L G) as (cc & Fc & ->).
  rewrite (C07_preimage_determined _ _ _ _ _ Fc F), E. rewrite (proj2 (beq_eq h h) eq_refl). reflexivity.
Qed.

(** Any other object is refused, unless the same content makes a commit with the same id. *)
Theorem C114_other : forall c f h t data, codec_ok c -> loose c f [bs ".git"; bs "objects"] h t data -> t <> Commit ->
  read_object false c f h = Err EDeltaObjError \/
  exists a b, a <> b /\ sha1 a = h /\ sha1 b = h.
Proof.
  intros c f h t data Hc H Ht. destruct (loose_get _ _ _ _ _ _ H) as (content & I & F & E & B & L & G).
  destruct (read_object_stored c f h t data content Hc F B L G) as (cc & Fc & ->).
  destruct (beq (sha1 cc) h) eqn:X; [|left; reflexivity]. right. exists content, cc. apply beq_eq in X.
  split; [|auto]. intros <-. apply Ht. apply (framed_inj _ _ _ _ _ _ _ F Fc).
Qed.

(** An object whose declared length is not that of its content is never returned: the
    function panics. (Compare C10 for [read_object_from_file].) *)
Theorem C114_length : forall c f h t n data content, codec_ok c -> framed t n data content -> bytes_ok data -> n < 2 ^ 64 ->
  n <> nlen data -> id_ok h -> fs_get f (loose_path [bs ".git"; bs "objects"] h) = Some (deflate c content) ->
  read_object false c f h = Panic.
Proof.
  intros c f h t n data content Hc F B L N _ G. unfold read_object.
  rewrite (read_framed_any c f h t n data content Hc F B L G).
  rewrite (proj2 (N.eqb_neq (nlen data) n)) by congruence. reflexivity.
Qed.

(** With ids printed in colour nothing is found, whatever the directory holds. *)
Theorem C114_colour : forall c f h, only_objects f [bs ".git"; bs "objects"] -> read_object true c f h = Panic.
Proof.
  intros c f h H. unfold read_object, read_unpacked_object. cbv zeta.
  destruct (fs_get f (objects_directory ++ [firstn 2 (hash_display true h); skipn 2 (hash_display true h)])) eqn:E; [|reflexivity].
  exfalso. destruct (H (firstn 2 (hash_display true h)) (skipn 2 (hash_display true h))) as (_ & x & X).
  { intros Hn. discriminate (eq_trans (eq_sym Hn) E). }
  rewrite firstn_skipn in X. destruct X as [_ X]. unfold hash_display, escape in X. cbn [app] in X.
  inversion X as [|a1 b1 u v s1 y A B C]; subst. inversion A; lia.
Qed.

(** Nothing else happens. *)
Theorem C114_outcomes : forall colour c f h,
  (exists m, read_object colour c f h = Ok m) \/ read_object colour c f h = Err EDeltaObjError \/ read_object colour c f h = Panic.
Proof. exact read_object_outcomes. Qed.

(** Declared lengths: decimal numerals below 2^64, the empty one and leading zeros included. *)
Theorem C114_decimal : forall s n, parse_decimal s = Some n <-> numeral s n /\ n < 2 ^ 64.
Proof. exact parse_decimal_spec. Qed.

Lemma written_loose : forall c f dir m, wf_object m -> loose c (fst (write_to_file c f dir m)) dir (m_id m) (m_t m) (m_data m).
Proof.
  intros c f dir m W. destruct (loose_format c f dir m W) as (content & F & G).
  destruct W as (_ & _ & _ & B & L & content' & F' & E). exists (loose_path dir (m_id m)), content.
  split; [apply object_file_path; split; [rewrite E; apply sha1_ok|reflexivity]|]. split; [exact F|].
  split; [rewrite E; f_equal; eapply C07_preimage_determined; eassumption|]. auto.
Qed.

(** A file put into the directory by [write_to_file] and not found again. *)
Theorem C114_refuted : exists m, wf_object m /\ m_t m = Blob /\
  let f := fst (write_to_file stored [] [bs ".git"; bs "objects"] m) in
  loose stored f [bs ".git"; bs "objects"] (m_id m) Blob (m_data m) /\
  read_object_from_file stored f (loose_path [bs ".git"; bs "objects"] (m_id m)) = Ok m /\
  read_object false stored f (m_id m) = Err EDeltaObjError /\ read_object true stored f (m_id m) = Panic.
Proof.
  destruct (meta_new Blob (bs "hello")) as [m| | |] eqn:E; try discriminate. exists m.
  assert (W : wf_object m) by (eapply C09_new_objects_wf; [| |exact E]; [repeat constructor|reflexivity]).
  destruct (meta_new_ok _ _ _ E) as (_ & T & D & _). split; [exact W|]. split; [exact T|]. cbv zeta.
  pose proof (written_loose stored [] [bs ".git"; bs "objects"] m W) as Lo. rewrite T in Lo. split; [exact Lo|].
  split; [apply (C09_loose_roundtrip stored [] [bs ".git"; bs "objects"] m stored_ok W)|].
  clear W Lo T D. vm_compute in E. injection E as <-. split; vm_compute; reflexivity.
Qed.
Example C114_ex : exists m f, wf_object m /\ m_t m = Commit /\ loose stored f [bs ".git"; bs "objects"] (m_id m) Commit (m_data m) /\
  read_object false stored f (m_id m) = Ok m /\ only_objects f [bs ".git"; bs "objects"].
Proof.
  destruct (meta_new Commit (bs "tree 0")) as [m| | |] eqn:E; try discriminate.
  assert (W : wf_object m) by (eapply C09_new_objects_wf; [| |exact E]; [repeat constructor|reflexivity]).
  destruct (meta_new_ok _ _ _ E) as (_ & T & D & _).
  pose proof (written_loose stored [] [bs ".git"; bs "objects"] m W) as Lo. rewrite T in Lo.
  exists m, (fst (write_to_file stored [] [bs ".git"; bs "objects"] m)). split; [exact W|]. split; [exact T|]. split; [exact Lo|].
  pose proof (C114_commit stored _ _ _ stored_ok Lo) as R. split.
  - rewrite R. destruct W as (_ & S & H & _). destruct m as [t i s d dh]. cbn in *. subst. reflexivity.
  - intros a b H. unfold write_to_file in H. cbn [fst] in H.
    destruct (path_eqb ([bs ".git"; bs "objects"] ++ [a; b]) (loose_path [bs ".git"; bs "objects"] (m_id m))) eqn:P.
    + apply path_eqb_eq in P. unfold loose_path in P. cbn [app] in P. injection P as -> ->.
      assert (I : id_ok (m_id m)) by (eapply C07_id_length; exact E).
      split; [apply (loose_path_parts _ I)|]. exists (m_id m). apply (loose_path_parts _ I).
    + rewrite fs_get_put_other in H by (apply path_eqb_neq; exact P). contradiction.
Qed.

(** ** C115: parsing an object file *)

Theorem C115_blob : forall c f root m, codec_ok c -> wf_object m ->
  blob_from_file c (fst (write_to_file c f root m)) (loose_path root (m_id m)) = Ok (mkBlob [] m).
Proof.
  intros c f root m Hc W. pose proof (loose_roundtrip c f root m Hc W) as R. unfold write_to_file in *. destruct R as (_ & R & _).
  unfold blob_from_file, parse_meta. cbn [fst]. rewrite R. reflexivity.
Qed.
Theorem C115_tree : forall c f root m items, codec_ok c -> wf_object m -> git_tree items (m_data m) ->
  tree_from_file c (fst (write_to_file c f root m)) (loose_path root (m_id m)) = Ok (mkTree m items []).
Proof.
  intros c f root m items Hc W T. pose proof (loose_roundtrip c f root m Hc W) as R. unfold write_to_file in *. destruct R as (_ & R & _).
  unfold tree_from_file, parse_meta. cbn [fst]. rewrite R. cbn [unwrap bind].
  rewrite (proj2 (tree_new_spec m (mkTree m items []))) by (repeat split; exact T). reflexivity.
Qed.
Theorem C115_commit : forall c f root m tid ps a k msg, codec_ok c -> wf_object m ->
  git_commit tid ps a k msg (m_data m) -> ident_of (bs "author") a -> ident_of (bs "committer") k -> utf8_text msg -> (length ps <= 1)%nat ->
  commit_from_file c (fst (write_to_file c f root m)) (loose_path root (m_id m)) = Ok (mkCommit m tid ps a k msg).
Proof.
  intros c f root m tid ps a k msg Hc W G Ha (_ & K1 & K2 & K3) U Lp. pose proof (loose_roundtrip c f root m Hc W) as R.
  unfold write_to_file in *. destruct R as (_ & R & _).
  unfold commit_from_file, parse_meta. cbn [fst]. rewrite R. cbn [unwrap bind].
  apply git_commit_eq in G as (H1 & H2 & D). rewrite (commit_new_content m _ _ _ _ _ H1 H2 Ha K1 K2 K3 D).
  rewrite utf8_unwrap_text by exact U. cbn [bind unwrap]. destruct ps as [|p [|q ps]]; try reflexivity. cbn in Lp. lia.
Qed.
(** The kind of the object in the file is not looked at: a tree can be read as a blob
    whatever it holds, and an empty file as a tree. *)
(** Whatever is in the directory: the object, or the program aborts. *)
Theorem C115_aborts : forall c f p err, blob_from_file c f p <> Err err /\ tree_from_file c f p <> Err err /\ commit_from_file c f p <> Err err /\
  (fs_get f p = None -> blob_from_file c f p = Panic /\ tree_from_file c f p = Panic /\ commit_from_file c f p = Panic).
Proof.
  assert (U : forall A (r : res A) err, unwrap r <> Err err) by (intros A [a|x| |] err; discriminate).
  assert (B : forall A C (r : res A) (g : A -> res C) err, (forall a, g a <> Err err) -> (let? a := unwrap r in g a) <> Err err) by (intros A C [a|x| |] g err H; try discriminate; exact (H a)).
  intros c f p err. unfold blob_from_file, tree_from_file, commit_from_file, parse_meta. split; [apply B; discriminate|]. split; [apply B; intros a; apply U|]. split; [apply B; intros a; apply U|].
  intros N. unfold read_object_from_file. rewrite N. repeat split.
Qed.
Theorem C115_kind_refuted : exists m m' f root, wf_object m /\ m_t m = Tree /\ wf_object m' /\ m_t m' = Blob /\
  loose stored f root (m_id m) Tree (m_data m) /\ loose stored f root (m_id m') Blob (m_data m') /\
  blob_from_file stored f (loose_path root (m_id m)) = Ok (mkBlob [] m) /\
  tree_from_file stored f (loose_path root (m_id m')) = Ok (mkTree m' [] []).
Proof.
  destruct (meta_new Tree []) as [m| | |] eqn:E; try discriminate. destruct (meta_new Blob []) as [m'| | |] eqn:E'; try discriminate.
  assert (W : wf_object m) by (eapply C09_new_objects_wf; [| |exact E]; [repeat constructor|reflexivity]).
  assert (W' : wf_object m') by (eapply C09_new_objects_wf; [| |exact E']; [repeat constructor|reflexivity]).
  destruct (meta_new_ok _ _ _ E) as (_ & T & D & _). destruct (meta_new_ok _ _ _ E') as (_ & T' & D' & _).
  set (f1 := fst (write_to_file stored [] [bs "o"] m)).
  exists m, m', (fst (write_to_file stored f1 [bs "o"] m')), [bs "o"].
  split; [exact W|]. split; [exact T|]. split; [exact W'|]. split; [exact T'|].
  assert (N : loose_path [bs "o"] (m_id m) <> loose_path [bs "o"] (m_id m')).
  { intros P. apply loose_path_inj in P; [|eapply C07_id_length; eassumption..]. clear -E E' P.
    vm_compute in E, E'. injection E as <-. injection E' as <-. vm_compute in P. discriminate. }
  assert (G : fs_get (fst (write_to_file stored f1 [bs "o"] m')) (loose_path [bs "o"] (m_id m)) = fs_get f1 (loose_path [bs "o"] (m_id m)))
    by (unfold write_to_file; cbn [fst]; apply fs_get_put_other; exact N).
  split.
  { pose proof (written_loose stored [] [bs "o"] m W) as (p & content & P & F & S & B & L & X). rewrite T in *.
    apply object_file_path in P as [P ->]. exists (loose_path [bs "o"] (m_id m)), content.
    split; [apply object_file_path; auto|]. rewrite G. auto 10. }
  split; [pose proof (written_loose stored f1 [bs "o"] m' W') as Lo; rewrite T' in Lo; exact Lo|]. split.
  - pose proof (loose_roundtrip stored [] [bs "o"] m stored_ok W) as R. unfold write_to_file in R. destruct R as (_ & R & _).
    unfold blob_from_file, parse_meta, read_object_from_file in *. rewrite G. unfold f1, write_to_file. cbn [fst]. rewrite R. reflexivity.
  - apply (C115_tree stored f1 [bs "o"] m' [] stored_ok W'). rewrite D'. constructor.
Qed.

(** ** C116: the objects that a client lacks *)

(** Whatever is returned is empty, and then the client has the commit already. *)
Theorem C116_returned : forall fuel c f root id have r, find_common_base fuel c f root id have = Ok r ->
  r = [] /\ In (to_plain_str id) have.
Proof.
  intros fuel c f root id have r H. unfold find_common_base in H. apply bind_ok in H as (k & _ & H).
  destruct (existsb _ have) eqn:E; [|discriminate]. apply bind_ok in H as ([r1 b] & H & X). injection X as <-.
  split; [exact (parse_tree_keeps _ _ _ _ _ _ _ _ _ H)|].
  apply existsb_exists in E as (x & Hx & E). apply beq_eq in E. congruence.
Qed.
(** A commit that the client lacks: the search panics, whatever its parents are. *)
Theorem C116_lacking : forall fuel c f root id have tid ps a k msg data, codec_ok c -> loose c f root id Commit data ->
  git_commit tid ps a k msg data -> ident_of (bs "author") a -> ident_of (bs "committer") k -> utf8_text msg ->
  ~ In (to_plain_str id) have -> find_common_base fuel c f root id have = Panic.
Proof.
  intros fuel c f root id have tid ps a k msg data Hc Lo G Ha (_ & K1 & K2 & K3) U H. unfold find_common_base, commit_from_file.
  rewrite (loose_read c f root id Commit data Hc Lo). cbn [bind].
  apply git_commit_eq in G as (H1 & H2 & D).
  rewrite (commit_new_content (mkMeta Commit id (nlen data) data []) _ _ _ _ _ H1 H2 Ha K1 K2 K3 D).
  rewrite utf8_unwrap_text by exact U. cbn [bind unwrap].
  destruct (existsb (beq (to_plain_str id)) have) eqn:E; [|reflexivity].
  exfalso. apply H. apply existsb_exists in E as (x & Hx & E). apply beq_eq in E. congruence.
Qed.
(** A commit that the client has: nothing is to be sent, if its tree holds only plain
    files and directories that are present. *)
Theorem C116_common : forall n c f root id have tid ps a k msg data, codec_ok c -> loose c f root id Commit data ->
  git_commit tid ps a k msg data -> ident_of (bs "author") a -> ident_of (bs "committer") k -> utf8_text msg ->
  In (to_plain_str id) have -> plain_tree c f root n tid -> forall fuel, (n <= fuel)%nat ->
  find_common_base fuel c f root id have = Ok [].
Proof.
  intros n c f root id have tid ps a k msg data Hc Lo G Ha (_ & K1 & K2 & K3) U H P fuel Hf. unfold find_common_base, commit_from_file.
  rewrite (loose_read c f root id Commit data Hc Lo). cbn [bind].
  apply git_commit_eq in G as (H1 & H2 & D).
  rewrite (commit_new_content (mkMeta Commit id (nlen data) data []) _ _ _ _ _ H1 H2 Ha K1 K2 K3 D).
  rewrite utf8_unwrap_text by exact U. cbn [bind unwrap cm_tree_id].
  replace (existsb (beq (to_plain_str id)) have) with true
    by (symmetry; apply existsb_exists; exists (to_plain_str id); split; [exact H|apply beq_eq; reflexivity]).
  destruct (parse_tree_init c f root Hc n tid P fuel [] [] Hf) as (b & ->). reflexivity.
Qed.
Lemma byte_check : forall l, forallb (fun b => b <? 256) l = true -> bytes_ok l.
Proof. intros l H. apply Forall_forall. intros x Hx. rewrite forallb_forall in H. apply N.ltb_lt, H, Hx. Qed.
Lemma ex_commit_object : exists m, commit_encode (ex_commit [ex_id 1]) = Ok m /\ wf_object m /\ m_t m = Commit /\
  git_commit (ex_id 171) [ex_id 1] (ex_sign "author") (ex_sign "committer") (cm_message (ex_commit [ex_id 1])) (m_data m) /\
  ident_of (bs "author") (ex_sign "author") /\ ident_of (bs "committer") (ex_sign "committer") /\ utf8_text (cm_message (ex_commit [ex_id 1])).
Proof.
  assert (H0 : commit_ok (ex_commit [ex_id 1])) by (apply ex_commit_ok; repeat constructor; apply ex_id_ok; lia).
  destruct (C31_commit_format _ H0) as (m & E & T & G & _). destruct H0 as (_ & _ & H3 & H4 & H5). exists m. split; [exact E|].
  split; [|auto 10]. unfold commit_encode in E. eapply C09_new_objects_wf; [| |exact E]; [apply byte_check|]; vm_compute; reflexivity.
Qed.
(** Of C115: a commit with a parent. *)
Example C115_ex : exists m k, wf_object m /\ commit_from_file stored (fst (write_to_file stored [] [bs "o"] m)) (loose_path [bs "o"] (m_id m)) = Ok k /\
  cm_parents k = [ex_id 1].
Proof.
  destruct ex_commit_object as (m & _ & W & _ & G & H3 & H4 & H5). eexists m, _. split; [exact W|].
  split; [exact (C115_commit stored [] [bs "o"] m _ _ _ _ _ stored_ok W G H3 H4 H5 (le_n 1))|reflexivity].
Qed.
(** A client that has the parent of a commit and asks for the commit. *)
Theorem C116_refuted : forall fuel, exists f root id data tid p a k msg, loose stored f root id Commit data /\
  git_commit tid [p] a k msg data /\ ident_of (bs "author") a /\ ident_of (bs "committer") k /\ utf8_text msg /\
  find_common_base fuel stored f root id [to_plain_str p] = Panic.
Proof.
  intros fuel. destruct ex_commit_object as (m & E & W & T & G & H3 & H4 & H5).
  assert (N : ~ In (to_plain_str (m_id m)) [to_plain_str (ex_id 1)]).
  { clear -E. assert (X : match commit_encode (ex_commit [ex_id 1]) with Ok m => beq (to_plain_str (m_id m)) (to_plain_str (ex_id 1)) | _ => true end = false) by (vm_compute; reflexivity).
    rewrite E in X. intros [K|[]]. rewrite <- K in X. rewrite (proj2 (beq_eq _ _) eq_refl) in X. discriminate. }
  pose proof (written_loose stored [] [bs "o"] m W) as Lo. rewrite T in Lo.
  exists (fst (write_to_file stored [] [bs "o"] m)), [bs "o"], (m_id m), (m_data m), (ex_id 171), (ex_id 1), (ex_sign "author"), (ex_sign "committer"), (cm_message (ex_commit [ex_id 1])).
  split; [exact Lo|]. split; [exact G|]. split; [exact H3|]. split; [exact H4|]. split; [exact H5|].
  exact (C116_lacking fuel stored _ _ _ _ _ _ _ _ _ _ stored_ok Lo G H3 H4 H5 N).
Qed.
Example C116_ex : exists f root tid, plain_tree stored f root 1 tid.
Proof.
  set (i := mkTreeItem (bs "100644") IBlob (ex_id 7) (bs "a")).
  destruct (meta_new Tree (tree_item_bytes i ++ [])) as [m| | |] eqn:E; try discriminate.
  assert (W : wf_object m) by (eapply C09_new_objects_wf; [| |exact E]; [apply byte_check|]; vm_compute; reflexivity).
  destruct (meta_new_ok _ _ _ E) as (_ & T & D & _).
  pose proof (written_loose stored [] [bs "o"] m W) as Lo. rewrite T, D in Lo.
  exists (fst (write_to_file stored [] [bs "o"] m)), [bs "o"], (m_id m).
  apply pt_tree with (data := tree_item_bytes i ++ []) (items := [i]); [exact Lo| |intros j [<-|[]]; left; reflexivity|intros j [<-|[]] K; discriminate].
  apply (legal_git_tree [i]). repeat constructor; [apply utf8_text_ascii; repeat constructor|]. intros [K|[]]; discriminate.
Qed.

(** ** C117: a directory of packs *)

(** Which names are accepted, and which files are taken for packs. *)
Theorem C117_names : forall l files hs, find_all_pack_file l = Ok (files, hs) <-> packs_of l files hs.
Proof. exact find_all_pack_file_spec. Qed.
Theorem C117_names_panic : forall l, (forall files hs, ~ packs_of l files hs) <-> find_all_pack_file l = Panic.
Proof.
  intros l. split.
  - intros H. destruct (find_all_pack_file_total l) as [[[fs hs] E]|E]; [|exact E]. apply find_all_pack_file_spec in E. destruct (H _ _ E).
  - intros E fs hs H. apply find_all_pack_file_spec in H. congruence.
Qed.
(** What git leaves in the directory: packs, and files with other endings. *)
Theorem C117_git_names : forall l, (forall e, In e l -> git_pack_name (d_name e) \/ long_name (d_name e) /\ ~ ends_in (bs "pack") (d_name e)) ->
  exists files hs, packs_of l files hs /\ (forall e, In e files <-> In e l /\ git_pack_name (d_name e)).
Proof.
  induction l as [|e l IH]; intros H; [exists [], []; split; [constructor|intros e; split; [intros []|intros [[] _]]]|].
  destruct IH as (files & hs & P & F); [intros x Hx; apply H; right; exact Hx|].
  assert (G : forall n, git_pack_name n -> long_name n /\ ends_in (bs "pack") n /\ exists h, named_by n h).
  { intros n (hex & h & Lh & [X L] & ->).
    assert (A : Forall (fun b => b < 128) hex) by (eapply hex_text_ascii; exact X).
    split; [|split].
    - exists (bs "pack-" ++ hex ++ bs "."), (bs "pack"). split; [rewrite <- !app_assoc; reflexivity|]. split; [reflexivity|].
      split; apply utf8_text_ascii; [|repeat constructor]. rewrite !Forall_app. repeat split; [|exact A|]; repeat constructor.
    - exists (bs "pack-" ++ hex ++ bs "."). rewrite <- !app_assoc. reflexivity.
    - exists h, (bs "pack-"), hex, (bs ".pack"). split; [reflexivity|]. split; [reflexivity|]. split; assumption. }
  destruct (H e (or_introl eq_refl)) as [K|[K1 K2]].
  - destruct (G _ K) as (A & B & h & C). exists (e :: files), (h :: hs). split; [constructor; assumption|].
    intros x. cbn [In]. rewrite F. split; [intros [<-|[]]; auto|intros [[<-|] ?]; auto].
  - exists files, hs. split; [apply po_other; assumption|]. intros x. rewrite F. cbn [In]. split; [tauto|].
    intros [[<-|] Q]; [|auto]. destruct (G _ Q) as (_ & B & _). contradiction.
Qed.

(** All objects of all packs are found, if the packs are complete in themselves. *)
Theorem C117_objects : forall m c st fuel l files hs objs_of, (forall h x, ~ knows st h x) -> packs_of l files hs -> times_known files ->
  (forall e, In e files -> git_pack c st (d_content e) (objs_of e) /\ nlen (d_content e) < 2 ^ 32) ->
  no_collision (flat_map (fun e => map snd (objs_of e)) files) ->
  exists p, multi_decode_dir m c st (S fuel) l = Ok p /\ holds (p_cache p) (flat_map (fun e => map snd (objs_of e)) files).
Proof.
  intros m c st fuel l files hs objs_of Hst P T H Hc. unfold multi_decode_dir.
  rewrite (proj2 (find_all_pack_file_spec _ _ _) P). cbn [bind].
  destruct (sort_packs_ok files T) as (s & -> & Q & _). cbn [bind].
  assert (Hs : forall e, In e s -> In e files) by (intros e He; eapply Permutation_in; [symmetry; exact Q|exact He]).
  assert (M : forall o, In o (flat_map (fun e => map snd (objs_of e)) files) <-> In o (flat_map (map snd) (map objs_of s))).
  { intros o. rewrite !in_flat_map. split.
    - intros (e & He & Ho). exists (objs_of e). split; [apply in_map; eapply Permutation_in; eassumption|exact Ho].
    - intros (x & Hx & Ho). apply in_map_iff in Hx as (e & <- & He). exists e. auto. }
  destruct (C24_objects_complete m c st fuel (map d_content s) (map objs_of s) Hst) as (p & E & Hk).
  - clear -H Hs. induction s as [|e s IH]; [constructor|]. cbn [map]. constructor; [apply H, Hs; left; reflexivity|].
    apply IH. intros x Hx. apply Hs. right. exact Hx.
  - intros a b h Ha Hb. apply Hc; apply M; assumption.
  - exists p. split; [exact E|]. intros h x. rewrite (Hk h x). split; intros (o & Ho & R); exists o; (split; [apply M; exact Ho|exact R]).
Qed.
(** Nor does the order of the listing matter, if no two packs were created at once. *)
Theorem C117_order : forall m c st fuel l l' files hs, Permutation l l' -> packs_of l files hs -> times_known files -> NoDup (map d_created files) ->
  multi_decode_dir m c st fuel l = multi_decode_dir m c st fuel l'.
Proof.
  intros m c st fuel l l' files hs P H T N. destruct (packs_of_perm l l' P files hs H) as (files' & hs' & H' & Q). unfold multi_decode_dir.
  rewrite (proj2 (find_all_pack_file_spec _ _ _) H), (proj2 (find_all_pack_file_spec _ _ _) H'). cbn [bind].
  assert (T' : times_known files').
  { destruct T as [T|T]; [left; rewrite <- (Permutation_length Q); exact T|right; rewrite <- Q; exact T]. }
  destruct (sort_packs_ok files T) as (s & -> & A & B). destruct (sort_packs_ok files' T') as (s' & -> & A' & B'). cbn [bind].
  replace s' with s; [reflexivity|].
  assert (QQ : Permutation s s') by (rewrite <- A, Q; exact A').
  destruct (le_lt_dec (length files) 1) as [L|L].
  - assert (Ls : (length s <= 1)%nat) by (rewrite <- (Permutation_length A); exact L).
    destruct s as [|x [|y s]]; [apply Permutation_nil in QQ; congruence|apply Permutation_length_1_inv in QQ; congruence|cbn in Ls; lia].
  - apply sorted_unique; [exact QQ|apply B; exact L|apply B'; rewrite <- (Permutation_length Q); exact L|].
    rewrite <- A. exact N.
Qed.
(** Without times of creation two packs cannot be decoded together. *)
Theorem C117_no_times : forall m c st fuel l files hs, packs_of l files hs -> (1 < length files)%nat -> (exists e, In e files /\ d_created e = None) ->
  multi_decode_dir m c st fuel l = Panic.
Proof.
  intros m c st fuel l files hs P L (e & He & N). unfold multi_decode_dir. rewrite (proj2 (find_all_pack_file_spec _ _ _) P). cbn [bind].
  destruct (sort_packs_outcome files) as [[T|T]| ->]; [lia| |reflexivity].
  rewrite Forall_forall in T. destruct (T e He N).
Qed.
(** A file with a name of three characters, beside which nothing is read. *)
Theorem C117_short_name_refuted : forall m c st fuel l created content, multi_decode_dir m c st fuel (mkEntry (bs "tmp") created content :: l) = Panic.
Proof. reflexivity. Qed.

(** A pack with a delta whose base is in another pack: the times of creation decide. *)
Definition thin_base : bytes := match encode stored [ex_obj Blob (bs "hello world")] with Ok (_, f) => f | _ => [] end.
Definition thin_delta : bytes :=
  let body := (bs "PACK" ++ u32_vec 2 ++ u32_vec 1) ++ [121] ++ m_id (ex_obj Blob (bs "hello world")) ++
    stored_deflate [11; 12; 144; 5; 1; 44; 145; 5; 6] in body ++ sha1 body.
Definition thin_dir (t1 t2 : N) : list dir_entry :=
  [mkEntry (bs "pack-" ++ repeat 49 40 ++ bs ".pack") (Some t1) thin_base; mkEntry (bs "pack-" ++ repeat 49 40 ++ bs ".idx") (Some t1) [];
   mkEntry (bs "pack-" ++ repeat 50 40 ++ bs ".pack") (Some t2) thin_delta].
Theorem C117_times_refuted :
  (exists p, multi_decode_dir Debug stored (fun _ => Err EInvalidObjectInfo) 2 (thin_dir 1 2) = Ok p /\ length (by_hash (p_cache p)) = 2%nat) /\
  multi_decode_dir Debug stored (fun _ => Err EInvalidObjectInfo) 2 (thin_dir 2 1) = Panic.
Proof.
  split; [|vm_compute; reflexivity].
  destruct (multi_decode_dir Debug stored (fun _ => Err EInvalidObjectInfo) 2 (thin_dir 1 2)) as [p| | |] eqn:E; [|exfalso; vm_compute in E; discriminate ..].
  exists p. split; [reflexivity|].
  assert (X : match multi_decode_dir Debug stored (fun _ => Err EInvalidObjectInfo) 2 (thin_dir 1 2) with
    | Ok p => length (by_hash (p_cache p)) | _ => 0%nat end = 2%nat) by (vm_compute; reflexivity).
  rewrite E in X. exact X.
Qed.

(** Of C117: a pack of three objects beside its index and another file. *)
Example C117_ex : exists l files hs objs_of e, packs_of l files hs /\ times_known files /\ length l = 3%nat /\ files = [e] /\
  (forall x, In x files -> git_pack stored (fun _ => Panic) (d_content x) (objs_of x) /\ nlen (d_content x) < 2 ^ 32) /\
  no_collision (flat_map (fun x => map snd (objs_of x)) files) /\ length (objs_of e) = 3%nat.
Proof.
  destruct (encode_ok stored ex_l) as (p0 & file & E); [discriminate|reflexivity|].
  destruct ex_l_ok as (A & B & _).
  destruct (encode_git_pack stored (fun _ => Panic) ex_l p0 file stored_ok A E) as (objs & G & Ho & _).
  assert (X : match encode stored ex_l with Ok (_, f) => nlen f <? 2 ^ 32 | _ => false end = true) by (vm_compute; reflexivity).
  rewrite E in X. apply N.ltb_lt in X. clear E.
  set (e := mkEntry (bs "pack-" ++ repeat 49 40 ++ bs ".pack") None file).
  set (l := [mkEntry (bs "pack-" ++ repeat 49 40 ++ bs ".idx") None []; e; mkEntry (bs "multi-pack-index") (Some 3) []]).
  assert (F : exists h, find_all_pack_file l = Ok ([e], [h])) by (eexists; vm_compute; reflexivity).
  destruct F as (h & F). apply find_all_pack_file_spec in F.
  exists l, [e], [h], (fun _ => objs), e. split; [exact F|]. split; [left; apply le_n|]. split; [reflexivity|]. split; [reflexivity|].
  split; [intros x [<-|[]]; cbn [d_content e]; auto|]. cbn [flat_map]. rewrite app_nil_r, Ho. split; [exact B|].
  rewrite <- (map_length snd objs), Ho, map_length. reflexivity.
Qed.

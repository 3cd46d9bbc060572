(** C06-C10: object ids and loose objects. Vocabulary: SpecObject. *)

From Verif Require Import Base BaseLemmas Digest ModelUtils ModelObject SpecObject ProofObject StoredZlib.
Open Scope N_scope.

(** C06. *)
Theorem C06_hex_parse : forall s h, hash_from_str s = Ok h <-> id_text s h.
Proof. exact hash_from_str_spec. Qed.
Theorem C06_hex_reject : forall s, (forall h, ~ id_text s h) -> hash_from_str s = Err EInvalidHashValue.
Proof.
  intros s H. destruct (hash_from_str_total s) as [[h E]|E]; [|assumption].
  apply hash_from_str_spec in E. exfalso. exact (H h E).
Qed.
Theorem C06_hex_print : forall h, id_ok h ->
  id_text (to_plain_str h) h /\ hash_from_str (to_plain_str h) = Ok h.
Proof. intros h H. split; [apply to_plain_str_text|apply hash_roundtrip]; assumption. Qed.
Theorem C06_hex_lowercase : forall s h, id_text s h -> to_plain_str h = map lower s.
Proof. intros s h [_ H]. exact (hex_text_lower s h H). Qed.
Theorem C06_hex_length : forall s h, id_text s h -> length s = 40%nat /\ id_ok h.
Proof. intros s h H. split; [eapply id_text_len|eapply id_text_ok]; eassumption. Qed.

Definition ex_hex : bytes := bs "18fd2deaaf152c7f1222c52fb2673f6192b375f0".
Example C06_ex : exists h, id_text ex_hex h /\ to_plain_str h = ex_hex /\ nth 0 h 0 = 24 /\
  id_text (bs "18FD2DEAAF152C7F1222C52FB2673F6192B375F0") h /\
  hash_from_str (bs "18fd2deaaf152c7f1222c52fb2673f6192b375f") = Err EInvalidHashValue /\
  hash_from_str (bs "18fd2deaaf152c7f1222c52fb2673f6192b375fg") = Err EInvalidHashValue.
Proof.
  destruct (hash_from_str ex_hex) as [h| | |] eqn:E; try discriminate.
  exists h. split; [apply C06_hex_parse; assumption|].
  vm_compute in E. injection E as <-. split; [reflexivity|]. split; [reflexivity|].
  split; [apply C06_hex_parse; vm_compute; reflexivity|]. split; vm_compute; reflexivity.
Qed.

(** C07. *)
Theorem C07_object_id : forall t data, is_base t ->
  exists content, framed t (nlen data) data content /\
    meta_new t data = Ok (mkMeta t (sha1 content) (nlen data) data []).
Proof. exact meta_new_base. Qed.
Theorem C07_delta_types_have_no_id : forall t data, ~ is_base t -> meta_new t data = Panic.
Proof. exact meta_new_delta. Qed.
Theorem C07_preimage_injective : forall t t' n n' d d' content,
  framed t n d content -> framed t' n' d' content -> t = t' /\ n = n' /\ d = d'.
Proof. exact framed_inj. Qed.
Theorem C07_preimage_determined : forall t n d c1 c2, framed t n d c1 -> framed t n d c2 -> c1 = c2.
Proof.
  intros t n d c1 c2 H1 H2. apply framed_eq in H1 as (a & Ha & ->), H2 as (b & Hb & ->).
  rewrite (base_name_fun _ _ _ Ha Hb). reflexivity.
Qed.
Theorem C07_id_length : forall t data m, meta_new t data = Ok m -> id_ok (m_id m).
Proof. intros t data m H. apply meta_new_ok in H. apply H. Qed.
(** git hash-object of "hello world\n". *)
Example C07_ex : exists m, meta_new Blob (bs "hello world" ++ [10]) = Ok m /\
  to_plain_str (m_id m) = bs "3b18e512dba79e4c8300dd08aeb37f8e728b8dad".
Proof. eexists. split; vm_compute; reflexivity. Qed.

(** C08. *)
Theorem C08_loose_path_parts : forall root h, id_ok h -> exists dir file,
  loose_path root h = root ++ [dir; file] /\ length dir = 2%nat /\ length file = 38%nat /\
  id_text (dir ++ file) h.
Proof.
  intros root h H. exists (to_folder h), (to_filename h). split; [reflexivity|].
  exact (loose_path_parts h H).
Qed.
Theorem C08_loose_path_injective : forall root a b, id_ok a -> id_ok b ->
  loose_path root a = loose_path root b -> a = b.
Proof. exact loose_path_inj. Qed.
Example C08_ex : exists h, hash_from_str ex_hex = Ok h /\ id_ok h /\
  loose_path [bs "objects"] h = [bs "objects"; bs "18"; bs "fd2deaaf152c7f1222c52fb2673f6192b375f0"].
Proof.
  eexists. split; [vm_compute; reflexivity|]. split; [|vm_compute; reflexivity].
  eapply (id_text_ok ex_hex). apply hash_from_str_spec. vm_compute. reflexivity.
Qed.

(** C09. *)
Theorem C09_loose_roundtrip : forall c f root m, codec_ok c -> wf_object m ->
  let '(f', p) := write_to_file c f root m in
  p = loose_path root (m_id m) /\ read_object_from_file c f' p = Ok m /\
  forall q, q <> p -> fs_get f' q = fs_get f q.
Proof. exact loose_roundtrip. Qed.
Theorem C09_loose_format : forall c f root m, wf_object m ->
  exists content, framed (m_t m) (nlen (m_data m)) (m_data m) content /\
    fs_get (fst (write_to_file c f root m)) (loose_path root (m_id m)) = Some (deflate c content).
Proof. exact loose_format. Qed.
(** Well-formed objects are exactly what [MetaData::new] makes from real byte strings. *)
Theorem C09_new_objects_wf : forall t d m, bytes_ok d -> nlen d < 2 ^ 64 -> meta_new t d = Ok m -> wf_object m.
Proof. exact meta_new_wf. Qed.
Example C09_ex : exists m f, codec_ok stored /\ wf_object m /\ m_t m = Blob /\ m_data m = [32; 0; 32; 255] /\
  f = fst (write_to_file stored [] [bs "o"] m) /\
  read_object_from_file stored f (loose_path [bs "o"] (m_id m)) = Ok m.
Proof.
  destruct (meta_new Blob [32; 0; 32; 255]) as [m| | |] eqn:E; try discriminate.
  assert (W : wf_object m).
  { eapply C09_new_objects_wf; [| |exact E]; [repeat constructor|reflexivity]. }
  exists m, (fst (write_to_file stored [] [bs "o"] m)).
  split; [exact stored_ok|]. split; [assumption|].
  destruct (meta_new_ok _ _ _ E) as (_ & -> & -> & _). repeat split.
  apply (C09_loose_roundtrip stored [] [bs "o"] m stored_ok W).
Qed.

(** C10: the declared length is never compared with the content. *)
Theorem C10_declared_length_ignored : forall c f p t n data content,
  codec_ok c -> bytes_ok data -> n < 2 ^ 64 -> framed t n data content ->
  fs_get f p = Some (deflate c content) -> read_object_from_file c f p = meta_new t data.
Proof. intros. eapply read_framed; eauto. Qed.
Theorem C10_declared_length_refuted : exists c f p t n data content m,
  codec_ok c /\ framed t n data content /\ n <> nlen data /\
  fs_get f p = Some (deflate c content) /\ read_object_from_file c f p = Ok m /\ m_data m = data.
Proof.
  set (content := bs "blob 999" ++ [0] ++ bs "abc").
  destruct (meta_new Blob (bs "abc")) as [m| | |] eqn:E; try discriminate.
  exists stored, [([bs "x"], stored_deflate content)], [bs "x"], Blob, 999, (bs "abc"), content, m.
  assert (F : framed Blob 999 (bs "abc") content).
  { apply framed_eq. exists (bs "blob"). split; [constructor|reflexivity]. }
  split; [exact stored_ok|]. split; [assumption|]. split; [discriminate|]. split; [reflexivity|].
  split; [|destruct (meta_new_ok _ _ _ E) as (_ & _ & -> & _); reflexivity].
  rewrite <- E. eapply C10_declared_length_ignored; [exact stored_ok| | |exact F|reflexivity];
    [repeat constructor|reflexivity].
Qed.

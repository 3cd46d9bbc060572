(** HTTP requests and responses as they are on the wire: heads (C118), queries (C119),
    safety of reading (C120), repeated uploads (C121). *)

From Coq Require Import Permutation ZArith.
From Verif Require Import Base BaseLemmas ModelUtils ModelObject ModelPkt ModelStorage ModelProto ModelLfs ModelJson ModelGateway ModelService ModelHttp SpecObject SpecBase
  SpecPkt SpecJson SpecPath SpecStorage SpecLfs SpecGateway SpecService SpecHttp ProofObject ProofUtf8 ProofReq ProofGateway ProofPkt ProofStorage ProofRefs ProofService ProofLfs ProofReply ProofHttp ProofLossy
  ProofExample StoredZlib PropProto PropGateway PropService PropLocks PropContent.
Open Scope N_scope.

Lemma one_line : forall p, nlen p <= 65531 -> pkt_line p (add_pkt_line [] p).
Proof.
  intros p H. assert (K : pkt_lines ([] ++ [p]) (add_pkt_line [] p)) by (apply add_pkt_lines; [constructor|exact H]).
  cbn [app] in K. revert K. generalize (add_pkt_line [] p). intros y K. inversion K as [|p' y' ps ys A B]; subst. inversion B; subst. rewrite app_nil_r. exact A.
Qed.

Lemma rooted_dec : forall path, rooted path \/ ~ rooted path.
Proof.
  intros [|x [|y p]]; try (right; intros (z & E & N); injection E as E1 E2; congruence); [right; intros (z & E & _); discriminate|].
  destruct (N.eq_dec x 47) as [->|N]; [left; exists (y :: p); split; [reflexivity|discriminate]|right; intros (z & E & _); congruence].
Qed.
Lemma action_put : forall m path s lq oid, gateway m path s lq = Ok (AUpload oid) -> m = MPut.
Proof.
  intros m path s lq oid H. destruct (rooted_dec path) as [Hr|Hr]; [|rewrite (proj2 (C71_other m path s lq) Hr) in H; discriminate]. destruct m; [| |reflexivity|].
  - apply (C71_get _ _ _ _ Hr) in H. inversion H.
  - apply (C71_post _ _ _ _ Hr) in H. inversion H.
  - rewrite (proj1 (C71_other MOther path s lq) Hr) in H. discriminate.
Qed.
Lemma action_get : forall m path s lq oid, gateway m path s lq = Ok (ADownload oid) -> m = MGet.
Proof.
  intros m path s lq oid H. destruct (rooted_dec path) as [Hr|Hr]; [|rewrite (proj2 (C71_other m path s lq) Hr) in H; discriminate]. destruct m; [reflexivity| | |].
  - apply (C71_post _ _ _ _ Hr) in H. inversion H.
  - apply (C71_put _ _ _ _ Hr) in H. inversion H.
  - rewrite (proj1 (C71_other MOther path s lq) Hr) in H. discriminate.
Qed.
Lemma action_refused : forall m path s lq st, gateway m path s lq = Ok (ARefused st) -> In st [403; 404; 405].
Proof.
  intros m path s lq st H. destruct (rooted_dec path) as [Hr|Hr]; [|rewrite (proj2 (C71_other m path s lq) Hr) in H; injection H as <-; cbn; tauto]. destruct m.
  - apply (C71_get _ _ _ _ Hr) in H. inversion H; cbn; tauto.
  - apply (C71_post _ _ _ _ Hr) in H. inversion H; cbn; tauto.
  - apply (C71_put _ _ _ _ Hr) in H. inversion H; cbn; tauto.
  - rewrite (proj1 (C71_other MOther path s lq) Hr) in H. injection H as <-. cbn; tauto.
Qed.

Section Server.
Context (e : env) (b : build) (c : codec) (fuel : nat) (cut : bytes -> list bytes) (v : lenv).
Notation handle := (http_handle e b c fuel cut v).
Notation calls := (called e b c fuel cut v).

(** ** C118: heads *)

Lemma asked_service : forall l q s, form l q -> form_text l -> fields_once l -> In (bs "service", s) l ->
  exists lq, get_params q = Coq.Init.Datatypes.inr (Some s, lq).
Proof.
  intros l q s F T O I. rewrite (params_once l q F T O). eexists. f_equal. f_equal.
  apply (field_value l (bs "service") s O); [left; reflexivity|exact I].
Qed.
(** Discovery: the head, and the first line, by which git knows a smart server. *)
Theorem C118_discovery : forall d repo q l s body w w' r, rooted (repo ++ bs "/info/refs") -> form l q -> form_text l -> fields_once l ->
  In (bs "service", s) l -> In s [bs "git-upload-pack"; bs "git-receive-pack"] ->
  handle d (mkHttp MGet (repo ++ bs "/info/refs") q body) w = (w', Ok r) ->
  smart_head s (bs "advertisement") r /\ exists line rest, pkt_line (bs "# service=" ++ s ++ [10]) line /\ rs_body r = line ++ bs "0000" ++ rest.
Proof.
  intros d repo q l s body w w' r Hr F T O I Hs H. rewrite handle_get in H by exact Hr. destruct (asked_service l q s F T O I) as (lq & P). rewrite P in H.
  rewrite (proj2 (C71_get _ (Some s) lq _ Hr) (get_refs _ _ _ s (ex_intro _ repo eq_refl) eq_refl Hs)) in H. unfold called, act in H. cbn [lfs_action git_action] in H.
  unfold mbind in H. destruct (http_info_refs e _ s (fst w)) as [w1 [x| | |]] eqn:E; try discriminate H. unfold ret in H. injection H as _ <-. split; [exact (git_head s (bs "advertisement") x)|].
  destruct (info_top _ _ _ _ _ _ E) as (sv & head & refs & Es & ->). apply service_named in Es. destruct (info_refs_top sv head refs) as (rest & ->). rewrite Es.
  exists (add_pkt_line [] (bs "# service=" ++ service_name sv ++ [10])), rest. split; [|cbn [git_response rs_body]; rewrite <- app_assoc; reflexivity].
  apply one_line. destruct sv; vm_compute; discriminate.
Qed.
(** Fetches and pushes. *)
Theorem C118_service : forall d repo s q body w w' r, rooted (repo ++ bs "/" ++ s) -> In s [bs "git-upload-pack"; bs "git-receive-pack"] ->
  handle d (mkHttp MPost (repo ++ bs "/" ++ s) q body) w = (w', Ok r) -> smart_head s (bs "result") r.
Proof.
  intros d repo s q body w w' r Hr Hs H. rewrite handle_other in H by (left; discriminate).
  destruct Hs as [<-|[<-|[]]].
  - rewrite (proj2 (C71_post _ None no_fields _ Hr) (post_upload_pack _ (ex_intro _ repo eq_refl))) in H. unfold called, act in H. cbn [lfs_action git_action] in H. unfold mbind in H.
    destruct (http_upload_pack _ _ _ _ _ _ _) as [w1 [x| | |]]; try discriminate H. unfold ret in H. injection H as _ <-. exact (git_head (bs "git-upload-pack") (bs "result") x).
  - rewrite (proj2 (C71_post _ None no_fields _ Hr) (post_receive_pack _ (ex_intro _ repo eq_refl))) in H. unfold called, act in H. cbn [lfs_action git_action] in H. unfold mbind in H.
    destruct (http_receive_pack _ _ _ _ _ _ _ _) as [w1 [x| | |]]; try discriminate H. unfold ret in H. injection H as _ <-. exact (git_head (bs "git-receive-pack") (bs "result") x).
Qed.
(** The API of git-lfs but for the contents: JSON or an error in words; a lock that was
    made is announced as such. *)
Definition json_request_path (m : method) (path : bytes) : Prop :=
  m = MGet /\ ends (bs "/locks") path /\ (forall oid, ~ names_object path oid) \/
  m = MPost /\ exists s, In s [bs "/locks"; bs "/locks/verify"; bs "/unlock"; bs "/objects/batch"] /\ ends s path.
Lemma lfs_answer : forall d m body a x w w' r, lfs_action d body a = Some x -> act e b c fuel cut v d m body a w = (w', Ok r) ->
  exists l reply, lfs_handle v x (snd w) = (l, Ok reply) /\ r = lfs_response (dr_expires d) reply /\ w' = (fst w, l).
Proof.
  intros d m body a x w w' r A H. unfold act in H. rewrite A in H. destruct (lfs_handle v x (snd w)) as [l [reply| | |]]; try discriminate H.
  cbn [bind] in H. injection H as <- <-. eauto.
Qed.
Lemma json_answer : forall d x reply l w, lfs_handle v x w = (l, Ok reply) ->
  match x with EUpload _ _ | EDownload _ => False | _ => True end ->
  let r := lfs_response (dr_expires d) reply in
  rs_status r = (match x with ELock _ _ _ => 201 | _ => 200 end) /\ json_head r \/ plain_error r.
Proof.
  intros d x reply l w H K. apply reply_kind in H. destruct reply as [s y|s msg]; cbn [lfs_response].
  - left. unfold fits_event in H. destruct x; try contradiction.
    all: destruct H as [-> H]; repeat match type of H with exists _, _ => destruct H as (? & H) end; subst y; (split; [reflexivity|apply header_one; reflexivity]).
  - right. unfold error_status in H. apply text_plain. cbn [In] in *. tauto.
Qed.
Theorem C118_lfs : forall d m path q body w w' r, rooted path -> json_request_path m path -> handle d (mkHttp m path q body) w = (w', Ok r) ->
  (rs_status r = 200 \/ rs_status r = 201 /\ m = MPost /\ ends (bs "/locks") path) /\ json_head r \/ plain_error r.
Proof.
  intros d m path q body w w' r Hr Hj H.
  assert (K : forall a x, lfs_action d body a = Some x -> match x with EUpload _ _ | EDownload _ => False | _ => True end ->
    (match x with ELock _ _ _ => m = MPost /\ ends (bs "/locks") path | _ => True end) -> act e b c fuel cut v d m body a w = (w', Ok r) ->
    (rs_status r = 200 \/ rs_status r = 201 /\ m = MPost /\ ends (bs "/locks") path) /\ json_head r \/ plain_error r).
  { intros a x A Nx Lx E. destruct (lfs_answer _ _ _ _ _ _ _ _ A E) as (l & reply & E1 & -> & _). destruct (json_answer d x reply l (snd w) E1 Nx) as [[S1 S2]|S1]; [left|right; exact S1].
    split; [|exact S2]. destruct x; auto. }
  destruct Hj as [(-> & Hl & Hn)|(-> & s & Hs & He)].
  - rewrite handle_get in H by exact Hr. destruct (get_params q) as [n|[sv lq]].
    + injection H as _ <-. right. apply text_plain. cbn; tauto.
    + rewrite (proj2 (C71_get path sv lq _ Hr) (get_locks _ _ _ Hn Hl)) in H. unfold called in H. apply (K (AList lq) (EList lq)); [reflexivity|exact Logic.I|exact Logic.I|exact H].
  - rewrite handle_other in H by (left; discriminate).
    assert (A : forall s', In s' post_suffixes -> s <> s' -> ends s' path -> False).
    { intros s' I' D E'. assert (Is : In s post_suffixes) by (cbn [In] in Hs; unfold post_suffixes; cbn [In]; tauto).
      pose proof (post_alone s s' path Is I' D He) as Z. apply (proj2 (ends_in_iff s' path)) in E'. congruence. }
    pose proof (proj1 (C71_post path None no_fields _ Hr) eq_refl) as P. inversion P as [U E|U E|id U1 U2 E|U E|U E|U E|U E|U E]; rewrite <- E in H; unfold called in H.
    + match type of H with act _ _ _ _ _ _ _ _ _ ?a _ = _ => eapply (K a) end; [reflexivity|exact Logic.I|exact Logic.I|exact H].
    + match type of H with act _ _ _ _ _ _ _ _ _ ?a _ = _ => eapply (K a) end; [reflexivity|exact Logic.I|exact (conj eq_refl U)|exact H].
    + match type of H with act _ _ _ _ _ _ _ _ _ ?a _ = _ => eapply (K a) end; [reflexivity|exact Logic.I|exact Logic.I|exact H].
    + match type of H with act _ _ _ _ _ _ _ _ _ ?a _ = _ => eapply (K a) end; [reflexivity|exact Logic.I|exact Logic.I|exact H].
    + match type of H with act _ _ _ _ _ _ _ _ _ ?a _ = _ => eapply (K a) end; [reflexivity|exact Logic.I|exact Logic.I|exact H].
    + exfalso. apply (A (bs "/git-upload-pack")); [cbn; tauto|intros ->; vm_compute in Hs; intuition discriminate|exact U].
    + exfalso. apply (A (bs "/git-receive-pack")); [cbn; tauto|intros ->; vm_compute in Hs; intuition discriminate|exact U].
    + exfalso. apply (U s); [cbn [In] in Hs; unfold post_suffixes; cbn [In]; tauto|exact He].
Qed.

(** What is offered nowhere is refused, and nothing changes: 404 for what is no path, 405
    with the methods there are, 403 otherwise. *)
Theorem C118_refused : forall d m path q body w,
  (~ rooted path -> exists r, handle d (mkHttp m path q body) w = (w, Ok r) /\ rs_status r = 404 /\ plain_error r) /\
  (rooted path -> m = MOther -> exists r, handle d (mkHttp m path q body) w = (w, Ok r) /\ rs_status r = 405 /\ plain_error r /\ header r (bs "Allow") (bs "GET,HEAD,POST,PUT")) /\
  (rooted path -> m = MPost /\ (forall s, In s post_suffixes -> ~ ends s path) \/ m = MPut /\ (forall oid, ~ names_object path oid) ->
     exists r, handle d (mkHttp m path q body) w = (w, Ok r) /\ rs_status r = 403 /\ plain_error r) /\
  (forall l k, rooted path -> m = MGet -> form l q -> repaired_form l k -> fields_once k -> (forall oid, ~ names_object path oid) -> ~ ends (bs "/locks") path ->
     ~ ends (bs "/info/refs") path \/ (exists s, In (bs "service", s) k /\ ~ In s [bs "git-upload-pack"; bs "git-receive-pack"]) /\ ends (bs "/info/refs") path ->
     exists r, handle d (mkHttp m path q body) w = (w, Ok r) /\ rs_status r = 403 /\ plain_error r).
Proof.
  assert (R : forall d m body w st, In st [403; 404; 405] -> calls d m body w (Ok (ARefused st)) = (w, Ok (refused_response m st)) /\ rs_status (refused_response m st) = st /\
    plain_error (refused_response m st)) by (intros d m body [w0 l0] st I; split; [reflexivity|]; split; [cbn [In] in I; destruct I as [<-|[<-|[<-|[]]]]; reflexivity|apply refused_plain, I]).
  intros d m path q body w. repeat split.
  - intros N. exists (refused_response m 404). rewrite handle_other by (right; exact N). rewrite (proj2 (C71_other m path None no_fields) N). apply R. cbn; tauto.
  - intros Hr ->. exists (refused_response MOther 405). rewrite handle_other by (left; discriminate). rewrite (proj1 (C71_other MOther path None no_fields) Hr).
    destruct (R d MOther body w 405) as (A & B & C); [cbn; tauto|]. split; [exact A|]. split; [exact B|]. split; [exact C|]. intros y. split; [intros [X|[]]; injection X; auto|intros ->; left; reflexivity].
  - intros Hr H. exists (refused_response m 403). rewrite handle_other by (left; destruct H as [[-> _]|[-> _]]; discriminate).
    replace (gateway m path None no_fields) with (Ok (ARefused 403)); [apply R; cbn; tauto|]. symmetry. destruct H as [[-> H]|[-> H]]; [apply C71_post, post_other, H; exact Hr|apply C71_put, put_other, H; exact Hr].
  - intros l k Hr -> F Rp O No Nl H. exists (refused_response MGet 403). rewrite handle_get by exact Hr. unfold get_params. rewrite (form_any l q F), (repaired_mended l k Rp), (read_once k [] O) by (intros f g []).
    match goal with |- context [gateway MGet path ?s ?lq] => replace (gateway MGet path s lq) with (Ok (ARefused 403)); [apply R; cbn; tauto|] end. symmetry. apply C71_get; [exact Hr|].
    destruct H as [H|[(s & I & Ns) H]]; [apply get_other; assumption|]. apply (get_bad_service _ _ _ s H); [|exact Ns]. apply field_value; [exact O|unfold meant; cbn [In]; tauto|exact I].
Qed.
(** Every other answer is a content, the acceptance of one, or an error in words. *)
Theorem C118_any : forall d rq w w' r, handle d rq w = (w', Ok r) ->
  rs_status r = 200 /\ (exists s k, smart_head s k r) \/ (rs_status r = 200 \/ rs_status r = 201) /\ json_head r \/
  rs_status r = 200 /\ (header r (bs "Content-Type") (bs "application/vnd.git-lfs") /\ rs_body r = [] /\ hr_method rq = MPut \/
                       no_header r (bs "Content-Type") /\ hr_method rq = MGet) \/
  plain_error r.
Proof.
  intros d [m path q body] w w' r H.
  assert (G : forall s lq, called e b c fuel cut v d m body w (gateway m path s lq) = (w', Ok r) ->
    rs_status r = 200 /\ (exists s k, smart_head s k r) \/ (rs_status r = 200 \/ rs_status r = 201) /\ json_head r \/
    rs_status r = 200 /\ (header r (bs "Content-Type") (bs "application/vnd.git-lfs") /\ rs_body r = [] /\ m = MPut \/
                         no_header r (bs "Content-Type") /\ m = MGet) \/
    plain_error r).
  { intros s lq E. destruct (gateway m path s lq) as [a| | |] eqn:Ga; try discriminate E. unfold called in E.
    destruct (lfs_action d body a) as [x|] eqn:La.
    - destruct (lfs_answer _ _ _ _ _ _ _ _ La E) as (l & reply & E1 & -> & _).
      assert (X : match x with EUpload _ _ | EDownload _ => False | _ => True end \/ (exists o z, x = EUpload o z) \/ exists o, x = EDownload o) by (destruct x; eauto 6).
      destruct X as [X|[(o & z & ->)|(o & ->)]].
      + destruct (json_answer d x reply l (snd w) E1 X) as [[S1 S2]|S1]; [|tauto]. right. left. split; [|exact S2]. destruct x; auto.
      + assert (Mp : m = MPut) by (destruct a; try discriminate La; exact (action_put _ _ _ _ _ Ga)). apply reply_kind in E1. destruct reply as [st y|st msg].
        * destruct E1 as [-> ->]. right. right. left. split; [reflexivity|]. left. split; [apply header_one; reflexivity|]. split; [reflexivity|exact Mp].
        * right. right. right. apply text_plain. unfold error_status in E1. cbn [In] in *. tauto.
      + assert (Mg : m = MGet) by (destruct a; try discriminate La; exact (action_get _ _ _ _ _ Ga)). apply reply_kind in E1. destruct reply as [st y|st msg].
        * destruct E1 as [-> (z & ->)]. right. right. left. split; [reflexivity|]. right. split; [intros z' []|exact Mg].
        * right. right. right. apply text_plain. unfold error_status in E1. cbn [In] in *. tauto.
    - unfold act in E. rewrite La in E. destruct a; try discriminate La; cbn [git_action] in E; unfold mbind in E.
      + destruct (http_info_refs _ _ _ _) as [w1 [x| | |]]; try discriminate E. unfold ret in E. injection E as _ <-. left. split; [reflexivity|]. exists service, (bs "advertisement"). exact (git_head service (bs "advertisement") x).
      + destruct (http_upload_pack _ _ _ _ _ _ _) as [w1 [x| | |]]; try discriminate E. unfold ret in E. injection E as _ <-. left. split; [reflexivity|]. exists (bs "git-upload-pack"), (bs "result"). exact (git_head _ _ x).
      + destruct (http_receive_pack _ _ _ _ _ _ _ _) as [w1 [x| | |]]; try discriminate E. unfold ret in E. injection E as _ <-. left. split; [reflexivity|]. exists (bs "git-receive-pack"), (bs "result"). exact (git_head _ _ x).
      + unfold ret in E. injection E as _ <-. right. right. right. apply refused_plain, (action_refused _ _ _ _ _ Ga). }
  cbn [hr_method]. destruct m; try (rewrite handle_other in H by (left; discriminate); exact (G _ _ H)).
  destruct (rooted_dec path) as [Hr|Hr]; [|rewrite handle_other in H by (right; exact Hr); exact (G _ _ H)].
  rewrite handle_get in H by exact Hr. destruct (get_params q) as [n|[s lq]]; [|exact (G _ _ H)].
  injection H as _ <-. right. right. right. apply text_plain. cbn; tauto.
Qed.

(** ** C119: queries *)

(** The handler is given the values that the fields of the query have. *)
Theorem C119_values : forall d path q l body w, rooted path -> form l q -> form_text l -> fields_once l ->
  exists s lq, handle d (mkHttp MGet path q body) w = calls d MGet body w (gateway MGet path s lq) /\
    (forall x, s = Some x <-> In (bs "service", x) l) /\ (forall x, q_path lq = Some x <-> In (bs "path", x) l) /\
    (forall x, q_id lq = Some x <-> In (bs "id", x) l) /\ (forall x, q_cursor lq = Some x <-> In (bs "cursor", x) l) /\
    (forall x, q_limit lq = Some x <-> In (bs "limit", x) l) /\ (forall x, q_refspec lq = Some x <-> In (bs "refspec", x) l).
Proof.
  intros d path q l body w Hr F T O. do 2 eexists. rewrite handle_get by exact Hr. rewrite (params_once l q F T O). split; [reflexivity|].
  cbn [q_path q_id q_cursor q_limit q_refspec]. repeat split; intros; (apply field_value; [exact O|unfold meant; cbn [In]; tauto]) || (eapply field_value; [exact O|unfold meant; cbn [In]; tauto|eassumption]).
Qed.
(** The same of any query: what is no UTF-8 is repaired first. Every query is such a form. *)
Theorem C119_any : forall d path q l k body w, rooted path -> form l q -> repaired_form l k -> fields_once k ->
  exists s lq, handle d (mkHttp MGet path q body) w = calls d MGet body w (gateway MGet path s lq) /\
    (forall x, s = Some x <-> In (bs "service", x) k) /\ (forall x, q_path lq = Some x <-> In (bs "path", x) k) /\
    (forall x, q_id lq = Some x <-> In (bs "id", x) k) /\ (forall x, q_cursor lq = Some x <-> In (bs "cursor", x) k) /\
    (forall x, q_limit lq = Some x <-> In (bs "limit", x) k) /\ (forall x, q_refspec lq = Some x <-> In (bs "refspec", x) k).
Proof.
  intros d path q l k body w Hr F Rp O. do 2 eexists. rewrite handle_get by exact Hr. unfold get_params. rewrite (form_any l q F), (repaired_mended l k Rp), (read_once k [] O) by (intros f g []). split; [reflexivity|].
  cbn [app q_path q_id q_cursor q_limit q_refspec]. repeat split; intros; (apply field_value; [exact O|unfold meant; cbn [In]; tauto]) || (eapply field_value; [exact O|unfold meant; cbn [In]; tauto|eassumption]).
Qed.
Theorem C119_any_twice : forall d path q l k1 n x k2 y k3 body w, rooted path -> form l q -> repaired_form l (k1 ++ [(n, x)] ++ k2 ++ [(n, y)] ++ k3) -> meant n ->
  exists r, handle d (mkHttp MGet path q body) w = (w, Ok r) /\ rs_status r = 400 /\ plain_error r.
Proof.
  intros d path q l k1 n x k2 y k3 body w Hr F Rp M. rewrite handle_get by exact Hr. unfold get_params. rewrite (form_any l q F), (repaired_mended l _ Rp).
  destruct (read_twice k1 n x k2 y k3 [] M) as (m & -> & _). eexists. split; [reflexivity|]. split; [reflexivity|]. apply text_plain. cbn; tauto.
Qed.
Theorem C119_every : forall q, exists l k, form l q /\ repaired_form l k.
Proof. intros q. destruct (form_total q) as (l & Hl). destruct (repaired_form_total l) as (k & Hk). exists l, k. auto. Qed.
(** Queries that say the same are answered the same. *)
Theorem C119_spelling : forall d path q1 q2 l k body w, form l q1 -> form k q2 -> form_text l -> form_text k -> fields_once l -> fields_once k -> same_fields l k ->
  handle d (mkHttp MGet path q1 body) w = handle d (mkHttp MGet path q2 body) w.
Proof.
  intros d path q1 q2 l k body w F1 F2 T1 T2 O1 O2 S. destruct (rooted_dec path) as [Hr|Hr].
  - rewrite !handle_get by exact Hr. rewrite (params_same l k q1 q2 F1 F2 T1 T2 O1 O2 S). reflexivity.
  - rewrite !handle_other by (right; exact Hr). reflexivity.
Qed.
(** A field that comes twice is refused, and nothing is done. *)
Theorem C119_twice : forall d path q l1 l2 l3 n x y body w, rooted path -> form (l1 ++ [(n, x)] ++ l2 ++ [(n, y)] ++ l3) q ->
  form_text (l1 ++ [(n, x)] ++ l2 ++ [(n, y)] ++ l3) -> meant n ->
  exists r, handle d (mkHttp MGet path q body) w = (w, Ok r) /\ rs_status r = 400 /\ plain_error r.
Proof.
  intros d path q l1 l2 l3 n x y body w Hr F T M. rewrite handle_get by exact Hr. unfold get_params. rewrite (form_read _ q F T).
  destruct (read_twice l1 n x l2 y l3 [] M) as (m & -> & _). eexists. split; [reflexivity|]. split; [reflexivity|]. apply text_plain. cbn; tauto.
Qed.
(** Whatever the query, what the handler is given is text. *)
Theorem C119_text : forall q s lq, get_params q = Coq.Init.Datatypes.inr (s, lq) -> forall o x, In o [s; q_path lq; q_id lq; q_cursor lq; q_limit lq; q_refspec lq] -> o = Some x -> utf8_text x.
Proof.
  intros q s lq H o x I E. subst o.
  assert (P : forall l seen k n y, read_fields l seen = Coq.Init.Datatypes.inr k -> Forall (fun f => utf8_text (snd f)) l -> Forall (fun f => utf8_text (snd f)) seen -> In (n, y) k -> utf8_text y).
  { clear. induction l as [|[n' x'] l IH]; intros seen k n y H Hl Hs I; cbn [read_fields] in H.
    - injection H as <-. rewrite Forall_forall in Hs. exact (Hs _ I).
    - inversion Hl as [|? ? H1 H2]; subst. destruct (existsb _ _); [destruct (find_field n' seen); [discriminate|]|]; (eapply IH; [exact H|exact H2| |exact I]).
      + apply Forall_app. split; [exact Hs|]. constructor; [exact H1|constructor].
      + exact Hs. }
  unfold get_params in H. destruct (read_fields (form_parse q) []) as [n|l] eqn:R; [discriminate|].
  assert (K : forall n y, find_field n l = Some y -> utf8_text y).
  { intros n y Fy. apply find_field_in in Fy. refine (P _ _ _ n y R _ _ Fy); [|constructor]. unfold form_parse. apply Forall_forall. intros f If. apply in_map_iff in If as (z & <- & _).
    destruct (split_eq z) as [z1 z2]. cbn [snd]. apply lossy_is_text. }
  injection H as <- <-. cbn [q_path q_id q_cursor q_limit q_refspec In] in I. destruct I as [I|[I|[I|[I|[I|[I|[]]]]]]]; exact (K _ _ I).
Qed.
(** Other requests do not depend on the query. *)
Theorem C119_ignored : forall d m path q1 q2 body w, m <> MGet -> handle d (mkHttp m path q1 body) w = handle d (mkHttp m path q2 body) w.
Proof. intros d m path q1 q2 body w H. rewrite !handle_other by (left; exact H). reflexivity. Qed.

(** ** C120: reading is safe *)

Theorem C120_lfs : forall d path q body w, lfs_same (snd w) (snd (fst (handle d (mkHttp MGet path q body) w))).
Proof.
  intros d path q body w. destruct (rooted_dec path) as [Hr|Hr].
  - rewrite handle_get by exact Hr. destruct (get_params q) as [n|[s lq]]; [apply lfs_same_refl|].
    assert (K : forall a, gateway MGet path s lq = Ok a -> lfs_same (snd w) (snd (fst (act e b c fuel cut v d MGet body a w)))).
    { intros a G. apply (C71_get _ _ _ _ Hr) in G. unfold act. inversion G; subst; cbn [lfs_action].
      - pose proof (lr_download v oid (snd w)) as R. destruct (lfs_handle v (EDownload oid) (snd w)) as [l r]. exact R.
      - pose proof (lr_list v lq (snd w)) as R. destruct (lfs_handle v (EList lq) (snd w)) as [l r]. exact R.
      - destruct (git_action _ _ _ _ _ _ _ _ _ _). apply lfs_same_refl.
      - destruct (git_action _ _ _ _ _ _ _ _ _ _). apply lfs_same_refl.
      - destruct (git_action _ _ _ _ _ _ _ _ _ _). apply lfs_same_refl. }
    unfold called. destruct (gateway MGet path s lq) as [a| | |]; try apply lfs_same_refl. apply K. reflexivity.
  - rewrite handle_other by (right; exact Hr). rewrite (proj2 (C71_other MGet path None no_fields) Hr). apply lfs_same_refl.
Qed.
Theorem C120_git : forall d path q body w, env_ok e ->
  (ends (bs "/info/refs") path -> ~ strictly_below e (w_db (fst w)) (remove_git_suffix path (bs "/info/refs"))) ->
  git_same (fst w) (fst (fst (handle d (mkHttp MGet path q body) w))).
Proof.
  intros d path q body w He Hb. destruct (rooted_dec path) as [Hr|Hr].
  - rewrite handle_get by exact Hr. destruct (get_params q) as [n|[s lq]]; [split; reflexivity|].
    assert (K : forall a, gateway MGet path s lq = Ok a -> git_same (fst w) (fst (fst (act e b c fuel cut v d MGet body a w)))).
    { intros a G. apply (C71_get _ _ _ _ Hr) in G. unfold act. inversion G as [oid N|N L|sv L Es Is|sv L Es Is|L Es|N1 N2 N3]; subst; cbn [lfs_action git_action].
      - destruct (lfs_handle v (EDownload oid) (snd w)). split; reflexivity.
      - destruct (lfs_handle v (EList lq) (snd w)). split; reflexivity.
      - destruct (info_reads e _ sv (fst w) He (Hb L)) as (R1 & _ & R2 & _). unfold mbind.
        destruct (http_info_refs e _ sv (fst w)) as [w1 [x| | |]]; split; assumption.
      - split; reflexivity.
      - split; reflexivity. }
    unfold called. destruct (gateway MGet path s lq) as [a| | |]; try (split; reflexivity). apply K. reflexivity.
  - rewrite handle_other by (right; exact Hr). rewrite (proj2 (C71_other MGet path None no_fields) Hr). split; reflexivity.
Qed.
(** What was stored stays stored, whatever is asked: the repositories see the requests of
    C81. *)
Lemma handle_serve : forall d rq w, exists l, fst (fst (handle d rq w)) = serve_all e b c fuel cut l (fst w).
Proof.
  intros d [m path q body] w.
  assert (K : forall s lq, exists l, fst (fst (calls d m body w (gateway m path s lq))) = serve_all e b c fuel cut l (fst w)).
  { intros s lq. destruct (gateway m path s lq) as [a| | |] eqn:G; try (exists []; reflexivity).
    destruct (lfs_action d body a) as [x|] eqn:La; [exists []; unfold called, act; rewrite La; destruct (lfs_handle v x (snd w)); reflexivity|].
    exists [QHttp (dr_now d) m path s lq body]. cbn [serve_all]. unfold called, act, serve. rewrite La, G. unfold lift. unfold mbind at 1.
    destruct a; try discriminate La; cbn [git_action]; try reflexivity; unfold mbind.
    - destruct (http_info_refs _ _ _ _) as [w1 [x| | |]]; reflexivity.
    - destruct (http_upload_pack _ _ _ _ _ _ _) as [w1 [x| | |]]; reflexivity.
    - destruct (http_receive_pack _ _ _ _ _ _ _ _) as [w1 [x| | |]]; reflexivity. }
  destruct (rooted_dec path) as [Hr|Hr]; [|rewrite handle_other by (right; exact Hr); apply K].
  destruct m; try (rewrite handle_other by (left; discriminate); apply K).
  rewrite handle_get by exact Hr. destruct (get_params q) as [n|[s lq]]; [exists []; reflexivity|apply K].
Qed.
Lemma serve_all_app : forall l k w, serve_all e b c fuel cut (l ++ k) w = serve_all e b c fuel cut k (serve_all e b c fuel cut l w).
Proof. induction l as [|r l IH]; intros k w; [reflexivity|]. cbn [app serve_all]. apply IH. Qed.
Lemma run_serve : forall l w, exists k, fst (fst (http_run e b c fuel cut v l w)) = serve_all e b c fuel cut k (fst w).
Proof.
  induction l as [|[d rq] l IH]; intros w; [exists []; reflexivity|]. cbn [http_run]. destruct (handle_serve d rq w) as (k1 & E1).
  destruct (http_handle e b c fuel cut v d rq w) as [w1 x]. destruct (IH w1) as (k2 & E2). destruct (http_run e b c fuel cut v l w1) as [w2 xs].
  exists (k1 ++ k2). cbn [fst] in *. rewrite serve_all_app, <- E1. exact E2.
Qed.
Theorem C120_kept : forall l w, env_ok e -> refs_table (w_db (fst w)) -> nothing_lost (w_db (fst w)) (w_db (fst (fst (http_run e b c fuel cut v l w)))).
Proof.
  intros l w He T. destruct (run_serve l w) as (k & ->). destruct (C81_append_only e b c fuel cut k (fst w) He T) as (z & _ & _ & _ & N). exact N.
Qed.

(** ** C121: repeated uploads *)

(** The files that the two states have are the same. *)
Definition same_stored (l l' : lfs) : Prop := l_locks l' = l_locks l /\ l_meta l' = l_meta l /\ forall p, fs_get (l_files l') p = fs_get (l_files l) p.
Lemma find_filtered : forall k t, find (fun r => l_teq v (mt_oid r) k) (filter (fun r => negb (l_teq v (mt_oid r) k)) t) = None.
Proof.
  intros k t. induction t as [|x t IH]; [reflexivity|]. cbn [filter]. destruct (l_teq v (mt_oid x) k) eqn:E; cbn [negb]; [exact IH|]. cbn [find]. rewrite E. exact IH.
Qed.
Lemma existsb_put : forall (f : list bytes * bytes -> bool) fl p x, f (p, x) = false ->
  existsb f (fs_put fl p x) = existsb f (filter (fun z => negb (path_eqb (fst z) p)) fl).
Proof. intros f fl p x H. unfold fs_put. cbn [existsb]. rewrite H. reflexivity. Qed.
Lemma existsb_same_path : forall (g : list bytes -> bool) fl p, g p = false ->
  existsb (fun z : list bytes * bytes => g (fst z)) (filter (fun z => negb (path_eqb (fst z) p)) fl) = existsb (fun z => g (fst z)) fl.
Proof.
  intros g fl p H. induction fl as [|z fl IH]; [reflexivity|]. cbn [filter existsb]. destruct (path_eqb (fst z) p) eqn:E; cbn [negb existsb]; rewrite IH; [|reflexivity].
  apply path_eqb_eq in E. rewrite E, H. reflexivity.
Qed.
Lemma put_again : forall m body w w1 ok, store_put v m body w = (w1, Ok ok) -> exists w2, store_put v m body w1 = (w2, Ok ok) /\ same_stored w1 w2 /\
  l_fails w1 = l_fails w /\ l_meta w1 = l_meta w /\ l_fails w2 = l_fails w1.
Proof.
  intros m body w w1 ok H. unfold store_put in *. destruct (store_path v (mt_oid m)) as [p| | |]; try discriminate H.
  destruct (can_open v p && negb (is_dir v (l_files w) p) && negb (existsb (fun x => is_prefix (fst x) p && negb (path_eqb p (fst x))) (l_files w))) eqn:C; [|discriminate H].
  injection H as <- <-. cbn [l_files l_locks l_meta l_fails].
  assert (G1 : existsb (fun x => is_prefix (fst x) p && negb (path_eqb p (fst x))) (fs_put (l_files w) p (firstn (write_len v body) body)) =
               existsb (fun x => is_prefix (fst x) p && negb (path_eqb p (fst x))) (l_files w)).
  { rewrite existsb_put by (cbn [fst]; rewrite path_eqb_refl; apply andb_false_r). apply (existsb_same_path (fun z => is_prefix z p && negb (path_eqb p z))). rewrite path_eqb_refl. apply andb_false_r. }
  assert (G2 : is_dir v (fs_put (l_files w) p (firstn (write_len v body) body)) p = is_dir v (l_files w) p).
  { unfold is_dir. f_equal. rewrite existsb_put by (cbn [fst]; rewrite path_eqb_refl; apply andb_false_r). apply (existsb_same_path (fun z => is_prefix p z && negb (path_eqb p z))). rewrite path_eqb_refl. apply andb_false_r. }
  rewrite G1, G2, C. eexists. split; [reflexivity|]. split; [|repeat split]. split; [reflexivity|]. split; [reflexivity|]. intros r. cbn [l_files].
  destruct (list_eq_dec (list_eq_dec N.eq_dec) r p) as [->|N]; [rewrite !fs_get_put_same; reflexivity|]. rewrite (fs_get_put_other _ _ _ _ N). reflexivity.
Qed.
Lemma upload_again : forall oid body w, l_fails w = [] ->
  let (w1, r1) := lfs_upload_object v oid body w in let (w2, r2) := lfs_upload_object v oid body w1 in
  same_stored w1 w2 /\ (forall b, r1 = Ok (ROk 200 b) -> r2 = r1) /\ (r1 = Panic -> w1 = w /\ r2 = Panic).
Proof.
  intros oid body w Q. unfold lfs_upload_object. destruct (find_meta_any v oid w) as (wa & _ & _ & A). destruct (A Q) as [_ F].
  change (lfs_get_meta v oid) with (find_meta_row v oid). rewrite (lbind_ok _ _ _ _ _ _ _ F).
  destruct (find (fun r => l_teq v (mt_oid r) oid) (l_meta w)) as [m|] eqn:Fm.
  2:{ cbn [unwrap_opt]. unfold llift. unfold lbind at 1. rewrite (lbind_ok _ _ _ _ _ _ _ F). cbn [unwrap_opt]. unfold lbind.
      split; [split; [reflexivity|split; reflexivity]|]. split; [discriminate|]. split; reflexivity. }
  cbn [unwrap_opt]. unfold llift at 1. unfold lbind at 1. unfold lbind at 1. destruct (store_put v m body w) as [w1 [ok| | |]] eqn:P.
  - destruct (put_again m body w w1 ok P) as (w2 & P2 & S2 & F1 & M1 & F2).
    assert (Q1 : l_fails w1 = []) by congruence. destruct ok.
    + destruct (find_meta_any v oid w1) as (wb & _ & _ & B). destruct (B Q1) as [_ Fb]. unfold lret. rewrite (lbind_ok _ _ _ _ _ _ _ Fb). rewrite M1, Fm. cbn [unwrap_opt].
      unfold llift. unfold lbind at 1. unfold lbind at 1. rewrite P2. split; [exact S2|]. split; [intros; reflexivity|discriminate].
    + unfold lunwrap, lfs_delete_meta, exec_meta. unfold lbind at 1 2 3. unfold lattempt at 1. rewrite Q1. cbn [remove_meta]. unfold lret at 1. cbn [unwrap].
      unfold lret at 1. set (w1' := mkLfs _ _ _ _). assert (Q1' : l_fails w1' = []) by exact Q1.
      destruct (find_meta_any v oid w1') as (wb & _ & _ & B). destruct (B Q1') as [_ Fb]. rewrite (lbind_ok _ _ _ _ _ _ _ Fb). cbn [l_meta w1']. rewrite find_filtered. cbn [unwrap_opt].
      unfold llift, lbind. split; [split; [reflexivity|split; reflexivity]|]. split; discriminate.
  - unfold store_put in P. destruct (store_path v (mt_oid m)) as [p| | |]; [destruct (_ && _)|..]; discriminate P.
  - assert (E1 : w1 = w) by (unfold store_put in P; destruct (store_path v (mt_oid m)) as [p| | |]; [destruct (_ && _); [discriminate P|]|..]; congruence). subst w1.
    rewrite (lbind_ok _ _ _ _ _ _ _ F). cbn [unwrap_opt]. unfold llift. unfold lbind at 1. unfold lbind at 1. rewrite P.
    split; [split; [reflexivity|split; reflexivity]|]. split; [discriminate|]. split; reflexivity.
  - unfold store_put in P. destruct (store_path v (mt_oid m)) as [p| | |]; [destruct (_ && _)|..]; discriminate P.
Qed.
(** An upload sent twice leaves what it leaves sent once; if it was accepted it is accepted
    again. *)
Theorem C121_repeated : forall d1 d2 path q body w w1 r1 w2 r2, l_fails (snd w) = [] ->
  handle d1 (mkHttp MPut path q body) w = (w1, r1) -> handle d2 (mkHttp MPut path q body) w1 = (w2, r2) ->
  git_same (fst w1) (fst w2) /\ same_stored (snd w1) (snd w2) /\ (forall r, r1 = Ok r -> rs_status r = 200 -> r2 = r1) /\ (r1 = Panic -> w1 = w /\ r2 = Panic).
Proof.
  intros d1 d2 path q body w w1 r1 w2 r2 F H1 H2. rewrite handle_other in H1, H2 by (left; discriminate).
  assert (St : forall st, called e b c fuel cut v d1 MPut body w (Ok (ARefused st)) = (w1, r1) -> called e b c fuel cut v d2 MPut body w1 (Ok (ARefused st)) = (w2, r2) ->
    git_same (fst w1) (fst w2) /\ same_stored (snd w1) (snd w2) /\ (forall r, r1 = Ok r -> rs_status r = 200 -> r2 = r1) /\ (r1 = Panic -> w1 = w /\ r2 = Panic)).
  { intros st K1 K2. unfold called, act in K1, K2. cbn [lfs_action git_action] in K1, K2. unfold ret in K1, K2. injection K1 as <- <-. injection K2 as <- <-. cbn [fst snd].
    repeat split; try discriminate. }
  destruct (rooted_dec path) as [Hr|Hr]; [|rewrite (proj2 (C71_other MPut path None no_fields) Hr) in H1, H2; exact (St _ H1 H2)].
  pose proof (proj1 (C71_put path None no_fields _ Hr) eq_refl) as P. inversion P as [oid U E|U E]; rewrite <- E in H1, H2; [|exact (St _ H1 H2)].
  unfold called, act in H1, H2. cbn [lfs_action] in H1, H2. change (lfs_handle v (EUpload oid body)) with (lfs_upload_object v oid body) in H1, H2.
  pose proof (upload_again oid body (snd w) F) as A. destruct (lfs_upload_object v oid body (snd w)) as [l1 x1] eqn:U1. injection H1 as <- <-. cbn [fst snd] in H2.
  destruct (lfs_upload_object v oid body l1) as [l2 x2]. injection H2 as <- <-. cbn [fst snd]. destruct A as (A1 & A2 & A3).
  split; [split; reflexivity|]. split; [exact A1|]. split.
  - intros r Hx Hs. destruct x1 as [x1| | |]; try discriminate Hx. cbn [bind] in Hx. injection Hx as <-. pose proof (reply_kind v (EUpload oid body) _ _ _ U1) as K.
    destruct x1 as [st y|st msg].
    + destruct K as [-> ->]. rewrite (A2 _ eq_refl). cbn [bind lfs_response reply_body]. reflexivity.
    + exfalso. cbn [lfs_response text_response rs_status] in Hs. subst st. unfold error_status in K. cbn [In] in K. intuition discriminate.
  - intros Hp. destruct x1 as [x1| | |]; try discriminate Hp. destruct (A3 eq_refl) as [-> ->]. split; [destruct w; reflexivity|reflexivity].
Qed.
End Server.

(** ** Concrete cases *)

Definition ex_draw : draw := mkDraw 7 (bs "00000006") (bs "2023-05-23T10:00:06+00:00") (bs "2023-05-24T10:00:06+00:00").
Definition ex_site : site := (ex_world, fst (lfs_run ex_lenv ex_upload ex_start)).
Notation ex_handle := (http_handle ex_env Release stored 50 ex_cut ex_lenv).
Definition ex_query : bytes := bs "&x&s%65rvice=git%2Dupload-p%61ck&id=a+b%3D".
Definition ex_fields : list (bytes * bytes) := [(bs "x", []); (bs "service", bs "git-upload-pack"); (bs "id", bs "a b=")].
Lemma self_text : forall name t, forallb (fun b => negb (existsb (N.eqb b) [37; 38; 43; 61])) t = true -> spelt name t t.
Proof.
  intros name t. induction t as [|b t IH]; intros H; [constructor|]. cbn [forallb] in H. apply andb_true_iff in H as [H1 H2]. apply sp_self; [| |exact (IH H2)].
  - intros K. apply negb_true_iff in H1. cbn [In] in K. assert (X : existsb (N.eqb b) [37; 38; 43; 61] = true); [|congruence]. apply existsb_exists. exists b. split; [cbn [In]; tauto|apply N.eqb_refl].
  - intros _ ->. discriminate H1.
Qed.
Lemma spelt_then : forall name t1 r1 t2 r2, spelt name t1 r1 -> spelt name t2 r2 -> existsb (N.eqb 37) t1 = false -> spelt name (t1 ++ t2) (r1 ++ r2).
Proof.
  intros name t1 r1 t2 r2 H K. induction H; intros N; cbn [app] in *; [exact K| | | |discriminate N]; cbn [existsb] in N; apply orb_false_iff in N as [_ N];
    [constructor; auto|constructor; auto|apply (sp_hex name a b x y); auto].
Qed.
Lemma ex_form : form ex_fields ex_query.
Proof.
  unfold ex_fields, ex_query.
  change (bs "&x&s%65rvice=git%2Dupload-p%61ck&id=a+b%3D") with ([38] ++ bs "x" ++ [38] ++ (bs "s%65rvice" ++ [61] ++ bs "git%2Dupload-p%61ck") ++ [38] ++ (bs "id" ++ [61] ++ bs "a+b%3D")).
  apply fo_gap. apply fo_more; [apply fi_name; [apply self_text; reflexivity|discriminate]|]. apply fo_more; [|apply fo_last]; apply fi_pair.
  - change (bs "service") with (bs "s" ++ [16 * 6 + 5] ++ bs "rvice"). change (bs "s%65rvice") with (bs "s" ++ bs "%65" ++ bs "rvice").
    apply spelt_then; [apply self_text; reflexivity| |reflexivity]. apply spelt_then; [|apply self_text; reflexivity|reflexivity]. apply (sp_hex true 6 5 54 53 [] []); [apply (hx_digit 6); lia|apply (hx_digit 5); lia|constructor].
  - change (bs "git-upload-pack") with (bs "git" ++ [16 * 2 + 13] ++ bs "upload-p" ++ [16 * 6 + 1] ++ bs "ck"). change (bs "git%2Dupload-p%61ck") with (bs "git" ++ bs "%2D" ++ bs "upload-p" ++ bs "%61" ++ bs "ck").
    apply spelt_then; [apply self_text; reflexivity| |reflexivity]. apply spelt_then; [apply (sp_hex false 2 13 50 68 [] []); [apply (hx_digit 2); lia|apply (hx_upper 13); lia|constructor]| |reflexivity].
    apply spelt_then; [apply self_text; reflexivity| |reflexivity]. apply spelt_then; [apply (sp_hex false 6 1 54 49 [] []); [apply (hx_digit 6); lia|apply (hx_digit 1); lia|constructor]|apply self_text; reflexivity|reflexivity].
  - apply self_text. reflexivity.
  - change (bs "a b=") with (bs "a" ++ [32] ++ bs "b" ++ [16 * 3 + 13]). change (bs "a+b%3D") with (bs "a" ++ [43] ++ bs "b" ++ bs "%3D").
    apply spelt_then; [apply self_text; reflexivity| |reflexivity]. apply spelt_then; [apply sp_blank; constructor| |reflexivity]. apply spelt_then; [apply self_text; reflexivity| |reflexivity].
    apply (sp_hex false 3 13 51 68 [] []); [apply (hx_digit 3); lia|apply (hx_upper 13); lia|constructor].
Qed.
Lemma plain_fields : forall l, forallb (fun f => forallb (fun b => b <? 128) (fst f) && forallb (fun b => b <? 128) (snd f)) l = true -> form_text l.
Proof.
  intros l H. apply Forall_forall. intros f I. rewrite forallb_forall in H. apply H, andb_true_iff in I as [H1 H2].
  split; apply utf8_text_ascii, Forall_forall; intros b Ib; [rewrite forallb_forall in H1; apply N.ltb_lt, H1, Ib|rewrite forallb_forall in H2; apply N.ltb_lt, H2, Ib].
Qed.
Lemma names_once : forall l, NoDup (map fst l) -> fields_once l.
Proof.
  intros l N a f b' g c' -> _ E. revert N. induction a as [|x a IH]; intros N; cbn [app map] in N; inversion N as [|? ? N1 N2]; subst; [|exact (IH N2)].
  apply N1. rewrite map_app. apply in_or_app. right. left. symmetry. exact E.
Qed.
Lemma ex_fields_text : form_text ex_fields.
Proof. apply plain_fields. reflexivity. Qed.
Lemma ex_fields_once : fields_once ex_fields.
Proof. apply names_once. repeat constructor; cbn; intros H; intuition discriminate. Qed.
Lemma site_ok : forall x : site * res response, is_ok (snd x) = true -> exists r, x = (fst x, Ok r).
Proof. intros [w [r| | |]] H; try discriminate H. exists r. reflexivity. Qed.
Definition ex_get (path query : string) : http_request := mkHttp MGet (bs path) (bs query) [].

Example C118_ex : rooted (bs "/demo.git" ++ bs "/info/refs") /\ form ex_fields ex_query /\ form_text ex_fields /\ fields_once ex_fields /\ In (bs "service", bs "git-upload-pack") ex_fields /\
  (exists r, ex_handle ex_draw (mkHttp MGet (bs "/demo.git" ++ bs "/info/refs") ex_query []) ex_site =
    (fst (ex_handle ex_draw (mkHttp MGet (bs "/demo.git" ++ bs "/info/refs") ex_query []) ex_site), Ok r)) /\
  (exists r, ex_handle ex_draw (mkHttp MPost (bs "/demo.git" ++ bs "/" ++ bs "git-upload-pack") [] clone_body) ex_site =
    (fst (ex_handle ex_draw (mkHttp MPost (bs "/demo.git" ++ bs "/" ++ bs "git-upload-pack") [] clone_body) ex_site), Ok r)) /\
  json_request_path MGet (bs "/demo.git/info/lfs/locks") /\
  (exists r, ex_handle ex_draw (ex_get "/demo.git/info/lfs/locks" "") ex_site = (fst (ex_handle ex_draw (ex_get "/demo.git/info/lfs/locks" "") ex_site), Ok r)).
Proof.
  split; [eexists; split; [reflexivity|discriminate]|]. split; [exact ex_form|]. split; [exact ex_fields_text|]. split; [exact ex_fields_once|]. split; [right; left; reflexivity|].
  split; [apply site_ok; vm_compute; reflexivity|]. split; [apply site_ok; vm_compute; reflexivity|]. split; [|apply site_ok; vm_compute; reflexivity].
  left. split; [reflexivity|]. split; [exists (bs "/demo.git/info/lfs"); reflexivity|]. intros oid H. apply names_last in H as H'. destruct H' as (a & E & N).
  assert (X : gateway MGet (bs "/demo.git/info/lfs/locks") None no_query = Ok (ADownload oid)) by (apply C71_get; [eexists; split; [reflexivity|discriminate]|constructor; exact H]).
  vm_compute in X. discriminate X.
Qed.
Example C119_ex : form ex_fields ex_query /\ form ex_fields (bs "x&service=git-upload-pack&id=a+b=") /\ form_text ex_fields /\ fields_once ex_fields /\
  form ([] ++ [(bs "path", bs "a")] ++ [(bs "x", [])] ++ [(bs "path", bs "b")] ++ []) (bs "path=a&x&path=b").
Proof.
  split; [exact ex_form|]. split; [|split; [exact ex_fields_text|split; [exact ex_fields_once|]]].
  - unfold ex_fields. change (bs "x&service=git-upload-pack&id=a+b=") with (bs "x" ++ [38] ++ (bs "service" ++ [61] ++ bs "git-upload-pack") ++ [38] ++ (bs "id" ++ [61] ++ bs "a+b=")).
    apply fo_more; [apply fi_name; [apply self_text; reflexivity|discriminate]|]. apply fo_more; [apply fi_pair; apply self_text; reflexivity|]. apply fo_last. apply fi_pair; [apply self_text; reflexivity|].
    change (bs "a b=") with (bs "a" ++ [32] ++ bs "b" ++ [61]). change (bs "a+b=") with (bs "a" ++ [43] ++ bs "b" ++ [61]).
    apply spelt_then; [apply self_text; reflexivity| |reflexivity]. apply spelt_then; [apply sp_blank; constructor| |reflexivity]. apply spelt_then; [apply self_text; reflexivity| |reflexivity].
    apply sp_self; [cbn; intuition discriminate|discriminate|constructor].
  - cbn [app]. change (bs "path=a&x&path=b") with ((bs "path" ++ [61] ++ bs "a") ++ [38] ++ bs "x" ++ [38] ++ (bs "path" ++ [61] ++ bs "b")).
    apply fo_more; [apply fi_pair; apply self_text; reflexivity|]. apply fo_more; [apply fi_name; [apply self_text; reflexivity|discriminate]|]. apply fo_last, fi_pair; apply self_text; reflexivity.
Qed.
(** A percent sign that stands for itself, and the first two bytes of a character of three. *)
Example C119_any_ex : let l := [(bs "id", bs "5%" ++ [226; 130] ++ bs "x")] in let k := [(bs "id", bs "5%" ++ [239; 191; 189] ++ bs "x")] in
  form l (bs "id=5%%E2%82x") /\ repaired_form l k /\ fields_once k.
Proof.
  cbv zeta. split; [|split].
  - apply fo_last. change (bs "id=5%%E2%82x") with (bs "id" ++ [61] ++ bs "5%%E2%82x"). apply fi_pair; [apply self_text; reflexivity|].
    change (bs "5%%E2%82x") with (bs "5" ++ 37 :: bs "%E2" ++ bs "%82" ++ bs "x"). change (bs "5%" ++ [226; 130] ++ bs "x") with (bs "5" ++ 37 :: [16 * 14 + 2] ++ [16 * 8 + 2] ++ bs "x").
    apply spelt_then; [apply self_text; reflexivity| |reflexivity]. apply sp_percent.
    + intros (a & b & x & y & t & Ha & _ & E). injection E as <- _ _. apply ProofSerde.hex_char_val in Ha as [Ha _]. discriminate Ha.
    + apply (sp_hex false 14 2 69 50); [apply (hx_upper 14); lia|apply (hx_digit 2); lia|]. apply (sp_hex false 8 2 56 50); [apply (hx_digit 8); lia|apply (hx_digit 2); lia|]. apply self_text. reflexivity.
  - constructor; [|constructor]. cbn [fst snd]. split; (match goal with |- repaired ?t ?x => destruct (repaired_total t) as (y & H); assert (E : y = x) by (rewrite <- (repaired_lossy _ _ H); vm_compute; reflexivity); rewrite E in H; exact H end).
  - apply names_once. repeat constructor; cbn; intros H; intuition discriminate.
Qed.
(** Discovery of a directory below a repository stores a commit and a reference. *)
Theorem C120_refuted : exists e b c fuel cut v d path q w w' r, env_ok e /\ refs_table (w_db (fst w)) /\ no_failure (fst w) /\
  http_handle e b c fuel cut v d (mkHttp MGet path q []) w = (w', Ok r) /\ rs_status r = 200 /\ ~ git_same (fst w) (fst w').
Proof.
  exists ex_env, Release, stored, 50%nat, ex_cut, ex_lenv, ex_draw, (bs "/demo/lib/info/refs"), (bs "service=git-upload-pack"), ex_site.
  destruct (site_ok (ex_handle ex_draw (mkHttp MGet (bs "/demo/lib/info/refs") (bs "service=git-upload-pack") []) ex_site)) as (r & E); [vm_compute; reflexivity|].
  eexists. exists r. split; [exact ex_env_ok|]. split; [exact ex_world_table|]. split; [exact ex_world_quiet|]. split; [exact E|]. split.
  - apply (f_equal (fun x => match snd x with Ok r => rs_status r | _ => 0 end)) in E. cbn [snd] in E. rewrite <- E. vm_compute. reflexivity.
  - intros [K _]. apply (f_equal (fun d => length (d_refs d))) in K. vm_compute in K. discriminate K.
Qed.
Lemma demo_not_below : forall d path, d_refs d = [ex_ref] -> path = r_repo_path ex_ref -> ~ strictly_below ex_env d path.
Proof. intros d path E -> [_ H]. rewrite E in H. apply (H ex_ref); [left; reflexivity| |reflexivity]. split; vm_compute; reflexivity. Qed.
Example C120_ex : env_ok ex_env /\ refs_table (w_db (fst ex_site)) /\ ~ strictly_below ex_env (w_db (fst ex_site)) (remove_git_suffix (bs "/demo.git/info/refs") (bs "/info/refs")) /\
  is_ok (snd (ex_handle ex_draw (ex_get "/demo.git/info/refs" "service=git-upload-pack") ex_site)) = true /\
  is_ok (snd (ex_handle ex_draw (mkHttp MPost (bs "/other.git/git-receive-pack") [] ex_body3) ex_site)) = true.
Proof.
  split; [exact ex_env_ok|]. split; [exact ex_world_table|]. split; [apply demo_not_below; [exact ex_world_refs|vm_compute; reflexivity]|]. split; vm_compute; reflexivity.
Qed.
Example C121_ex : l_fails (snd ex_site) = [] /\ is_ok (snd (ex_handle ex_draw (mkHttp MPut (bs "/demo.git/info/lfs/objects/" ++ oid1) [] (bs "good")) ex_site)) = true.
Proof. split; vm_compute; reflexivity. Qed.

(** Proofs about HTTP requests and responses. *)

From Coq Require Import Permutation.
From Verif Require Import Base BaseLemmas ModelUtils ModelObject ModelPkt ModelStorage ModelProto ModelLfs ModelJson ModelGateway ModelHttp SpecObject SpecBase
  SpecJson SpecPath SpecStorage SpecLfs SpecGateway SpecHttp ProofUtf8 ProofSerde ProofGrammar ProofReq ProofGateway ProofPath ProofStorage ProofRefs ProofService ProofReply.
Open Scope N_scope.

(** ** Text *)

Lemma lossy_valid_n : forall n l, (length l <= n)%nat -> utf8_valid l = true -> lossy l = l.
Proof.
  induction n as [|n IH]; intros [|b0 r0] Hn H; try reflexivity; [cbn [length] in Hn; lia|]. cbn [utf8_valid] in H. cbn [lossy].
  destruct (b0 <? 128); [f_equal; apply IH; [cbn [length] in Hn; lia|exact H]|].
  destruct (inr 194 223 b0).
  { destruct r0 as [|b1 r1]; [discriminate|]. apply andb_true_iff in H as [H1 H2]. rewrite H1. cbn [app]. do 2 f_equal. apply IH; [cbn [length] in Hn; lia|exact H2]. }
  destruct (inr 224 239 b0).
  { destruct r0 as [|b1 [|b2 r2]]; try discriminate. apply andb_true_iff in H as [H H2]. apply andb_true_iff in H as [H0 H1]. rewrite H0, H1. cbn [app]. do 3 f_equal.
    apply IH; [cbn [length] in Hn; lia|exact H2]. }
  destruct (inr 240 244 b0); [|discriminate].
  destruct r0 as [|b1 [|b2 [|b3 r3]]]; try discriminate. apply andb_true_iff in H as [H H3]. apply andb_true_iff in H as [H H2]. apply andb_true_iff in H as [H0 H1].
  rewrite H0, H1, H2. cbn [app]. do 4 f_equal. apply IH; [cbn [length] in Hn; lia|exact H3].
Qed.
Lemma lossy_text : forall l, utf8_text l -> lossy l = l.
Proof. intros l H. apply (lossy_valid_n (length l)); [lia|]. apply utf8_spec, H. Qed.
Lemma fffd_valid : forall l, utf8_valid (fffd ++ l) = utf8_valid l.
Proof. intros l. reflexivity. Qed.
Lemma lossy_is_n : forall n l, (length l <= n)%nat -> utf8_valid (lossy l) = true.
Proof.
  induction n as [|n IH]; intros [|b0 r0] Hn; try reflexivity; [cbn [length] in Hn; lia|]. cbn [length] in Hn.
  assert (I0 : utf8_valid (lossy r0) = true) by (apply IH; lia). cbn [lossy]. destruct (b0 <? 128) eqn:B0; [cbn [utf8_valid]; rewrite B0; exact I0|].
  destruct (inr 194 223 b0) eqn:B1.
  { destruct r0 as [|b1 r1]; [reflexivity|]. destruct (cont b1) eqn:C1; [|rewrite fffd_valid; exact I0].
    cbn [app utf8_valid]. rewrite B0, B1, C1. apply IH. cbn [length] in Hn. lia. }
  destruct (inr 224 239 b0) eqn:B2.
  { destruct r0 as [|b1 r1]; [reflexivity|]. destruct (if b0 =? 224 then _ else _) eqn:C1; [|rewrite fffd_valid; exact I0].
    destruct r1 as [|b2 r2]; [reflexivity|]. destruct (cont b2) eqn:C2; [|rewrite fffd_valid; apply IH; cbn [length] in *; lia].
    cbn [app utf8_valid]. rewrite B0, B1, B2, C1, C2. apply IH. cbn [length] in Hn. lia. }
  destruct (inr 240 244 b0) eqn:B3; [|rewrite fffd_valid; exact I0].
  destruct r0 as [|b1 r1]; [reflexivity|]. destruct (if b0 =? 240 then _ else _) eqn:C1; [|rewrite fffd_valid; exact I0].
  destruct r1 as [|b2 r2]; [reflexivity|]. destruct (cont b2) eqn:C2; [|rewrite fffd_valid; apply IH; cbn [length] in *; lia].
  destruct r2 as [|b3 r3]; [reflexivity|]. destruct (cont b3) eqn:C3; [|rewrite fffd_valid; apply IH; cbn [length] in *; lia].
  cbn [app utf8_valid]. rewrite B0, B1, B2, B3, C1, C2, C3. apply IH. cbn [length] in Hn. lia.
Qed.
Lemma lossy_is_text : forall l, utf8_text (lossy l).
Proof. intros l. apply utf8_spec, (lossy_is_n (length l)). lia. Qed.

(** ** Fields *)

Lemma hex_char_plain : forall n c, hex_char n c -> ~ In c [37; 38; 43; 61].
Proof. intros n c H. inversion H; subst; cbn [In]; lia. Qed.
Lemma spelt_decode : forall k t r, spelt k t r -> percent_decode (map (fun c => if c =? 43 then 32 else c) r) = t.
Proof.
  intros k t r H. induction H as [|b t r Hb _ _ IH|t r _ IH|a b x y t r Ha Hb _ IH|t r He _ IH]; cbn [map percent_decode app]; try reflexivity.
  - cbn [In] in Hb. destruct (N.eqb_spec b 43); [lia|]. cbn [percent_decode]. destruct (N.eqb_spec b 37); [lia|]. rewrite IH. reflexivity.
  - rewrite IH. reflexivity.
  - pose proof (hex_char_plain _ _ Ha) as Px. pose proof (hex_char_plain _ _ Hb) as Py. cbn [In] in Px, Py.
    destruct (N.eqb_spec x 43); [lia|]. destruct (N.eqb_spec y 43); [lia|]. cbn [N.eqb Pos.eqb].
    rewrite (proj1 (hex_char_val _ _ Ha)), (proj1 (hex_char_val _ _ Hb)), IH. reflexivity.
  - cbn [N.eqb Pos.eqb]. rewrite IH. destruct r as [|x [|y r]]; cbn [map]; try reflexivity.
    destruct (hex_digit_val (if x =? 43 then 32 else x)) as [a|] eqn:Ea; [|reflexivity]. destruct (hex_digit_val (if y =? 43 then 32 else y)) as [b|] eqn:Eb; [|reflexivity]. exfalso.
    destruct (N.eqb_spec x 43); [discriminate|]. destruct (N.eqb_spec y 43); [discriminate|]. apply He. exists a, b, x, y, r. split; [apply hex_val_char, Ea|]. split; [apply hex_val_char, Eb|reflexivity].
Qed.
Lemma spelt_form_decode : forall k t r, spelt k t r -> utf8_text t -> form_decode r = t.
Proof. intros k t r H U. unfold form_decode. rewrite (spelt_decode _ _ _ H). apply lossy_text, U. Qed.
Lemma spelt_amp : forall k t r, spelt k t r -> ~ In 38 r.
Proof.
  intros k t r H. induction H as [|b t r Hb _ _ IH|t r _ IH|a b x y t r Ha Hb _ IH|t r _ _ IH]; cbn [In app]; intros I; try (destruct I; fail).
  - cbn [In] in Hb. destruct I as [->|I]; [lia|auto].
  - destruct I as [I|I]; [discriminate|auto].
  - apply hex_char_plain in Ha, Hb. cbn [In] in Ha, Hb. destruct I as [I|[->|[->|I]]]; [discriminate|lia|lia|auto].
  - destruct I as [I|I]; [discriminate|auto].
Qed.
Lemma spelt_eq_free : forall t r, spelt true t r -> ~ In 61 r.
Proof.
  intros t r H. induction H as [|b t r Hb He _ IH|t r _ IH|a b x y t r Ha Hb _ IH|t r _ _ IH]; cbn [In app]; intros I; try (destruct I; fail).
  - destruct I as [->|I]; [exact (He eq_refl eq_refl)|auto].
  - destruct I as [I|I]; [discriminate|auto].
  - apply hex_char_plain in Ha, Hb. cbn [In] in Ha, Hb. destruct I as [I|[->|[->|I]]]; [discriminate|lia|lia|auto].
  - destruct I as [I|I]; [discriminate|auto].
Qed.
Lemma split_eq_pair : forall a b, ~ In 61 a -> split_eq (a ++ [61] ++ b) = (a, b).
Proof.
  intros a b. induction a as [|c a IH]; intros H; [reflexivity|]. cbn [app split_eq In] in *.
  destruct (N.eqb_spec c 61); [subst; tauto|]. rewrite IH by tauto. reflexivity.
Qed.
Lemma split_eq_none : forall a, ~ In 61 a -> split_eq a = (a, []).
Proof.
  intros a. induction a as [|c a IH]; intros H; [reflexivity|]. cbn [split_eq In] in *.
  destruct (N.eqb_spec c 61); [subst; tauto|]. rewrite IH by tauto. reflexivity.
Qed.
Definition pair_of (s : bytes) : bytes * bytes := let (n, x) := split_eq s in (form_decode n, form_decode x).
Lemma field_decode : forall f p, field_spelt f p -> utf8_text (fst f) -> utf8_text (snd f) -> pair_of p = f /\ p <> [] /\ ~ In 38 p.
Proof.
  intros f p H U1 U2. unfold pair_of. destruct H as [n x p q Hn Hx|n p Hn Hp]; cbn [fst snd] in *.
  - rewrite split_eq_pair by (eapply spelt_eq_free, Hn). rewrite (spelt_form_decode _ _ _ Hn U1), (spelt_form_decode _ _ _ Hx U2).
    split; [reflexivity|]. split; [destruct p; discriminate|]. intros I. apply in_app_or in I as [I|I]; [exact (spelt_amp _ _ _ Hn I)|].
    cbn [app In] in I. destruct I as [I|I]; [discriminate|exact (spelt_amp _ _ _ Hx I)].
  - rewrite split_eq_none by (eapply spelt_eq_free, Hn). rewrite (spelt_form_decode _ _ _ Hn U1). split; [reflexivity|]. split; [exact Hp|exact (spelt_amp _ _ _ Hn)].
Qed.
Lemma form_read : forall l q, form l q -> form_text l -> form_parse q = l.
Proof.
  intros l q H. unfold form_parse. fold pair_of. change (fun s => let (n, x) := split_eq s in (form_decode n, form_decode x)) with pair_of.
  induction H as [|l q _ IH|f p Hf|f p l q Hf _ IH]; intros T.
  - reflexivity.
  - cbn [app]. change (38 :: q) with ([] ++ 38 :: q). rewrite split_app. cbn [split_on app filter beq negb]. exact (IH T).
  - inversion T as [|? ? [U1 U2] _]; subst. destruct (field_decode f p Hf U1 U2) as (E & Np & Na). rewrite split_word by exact Na. cbn [filter].
    destruct p as [|c p]; [congruence|]. cbn [beq negb map]. rewrite E. reflexivity.
  - inversion T as [|? ? [U1 U2] T']; subst. destruct (field_decode f p Hf U1 U2) as (E & Np & Na). cbn [app]. rewrite split_app, split_word by exact Na.
    cbn [app filter]. destruct p as [|c p]; [congruence|]. cbn [beq negb map]. rewrite E, (IH T'). reflexivity.
Qed.

Definition known (f : bytes * bytes) : bool := existsb (beq (fst f)) get_fields.
Lemma known_meant : forall f, known f = true <-> meant (fst f).
Proof.
  intros f. unfold known, meant. rewrite existsb_exists. split; [intros (x & I & E); apply beq_eq in E; rewrite E; exact I|].
  intros I. exists (fst f). split; [exact I|apply beq_refl].
Qed.
Lemma find_field_in : forall n l x, find_field n l = Some x -> In (n, x) l.
Proof.
  intros n l x H. unfold find_field in H. destruct (find _ l) as [[m y]|] eqn:F; [|discriminate]. injection H as <-.
  apply find_some in F as [I E]. apply beq_eq in E. cbn [fst] in E. subst m. exact I.
Qed.
Lemma find_field_none : forall n l x, find_field n l = None -> ~ In (n, x) l.
Proof.
  intros n l x H I. unfold find_field in H. destruct (find _ l) as [y|] eqn:F; [discriminate|].
  apply find_none with (x := (n, x)) in F; [|exact I]. cbn [fst] in F. rewrite beq_refl in F. discriminate.
Qed.
Lemma find_field_app : forall n l m x, find_field n l = Some x -> find_field n (l ++ m) = Some x.
Proof.
  intros n l m x H. unfold find_field in *. induction l as [|y l IH]; [discriminate|]. cbn [app find] in *. destruct (beq (fst y) n); [exact H|exact (IH H)].
Qed.
Definition apart (seen l : list (bytes * bytes)) : Prop := forall f g, In f seen -> In g l -> fst f <> fst g.
Lemma once_tail : forall f l, fields_once (f :: l) -> fields_once l.
Proof. intros f l H a x b y c E. apply (H (f :: a) x b y c). cbn [app]. rewrite E. reflexivity. Qed.
Lemma once_head : forall f l g, fields_once (f :: l) -> meant (fst f) -> In g l -> fst f <> fst g.
Proof. intros f l g H M I. apply in_split in I as (b & c & ->). apply (H [] f b g c); [reflexivity|exact M]. Qed.
Lemma read_once : forall l seen, fields_once l -> apart seen (filter known l) -> read_fields l seen = Coq.Init.Datatypes.inr (seen ++ filter known l).
Proof.
  induction l as [|[n x] l IH]; intros seen Ho Ha; [cbn; rewrite app_nil_r; reflexivity|]. cbn [read_fields filter].
  change (existsb (beq n) get_fields) with (known (n, x)). cbn [filter] in Ha. destruct (known (n, x)) eqn:K; [|apply IH; [eapply once_tail, Ho|exact Ha]].
  destruct (find_field n seen) as [y|] eqn:F; [exfalso; apply find_field_in in F; exact (Ha (n, y) (n, x) F (or_introl eq_refl) eq_refl)|].
  rewrite IH; [rewrite <- app_assoc; reflexivity|eapply once_tail, Ho|].
  intros f g If Ig. apply in_app_or in If as [If|[<-|[]]]; [apply Ha; [exact If|right; exact Ig]|].
  apply filter_In in Ig as [Ig _]. apply (once_head _ _ _ Ho); [apply known_meant, K|exact Ig].
Qed.
Lemma field_value : forall l n x, fields_once l -> meant n -> find_field n (filter known l) = Some x <-> In (n, x) l.
Proof.
  intros l n x Ho Hm. split; [intros H; apply find_field_in in H; apply filter_In in H; apply H|]. intros I.
  assert (If : In (n, x) (filter known l)) by (apply filter_In; split; [exact I|apply known_meant, Hm]).
  destruct (find_field n (filter known l)) as [y|] eqn:F; [|destruct (find_field_none _ _ x F If)].
  apply find_field_in in F. apply filter_In in F as [F _]. f_equal. apply in_split in I as (a & b & ->).
  apply in_app_or in F as [F|[F|F]].
  - apply in_split in F as (c & d & ->). exfalso. apply (Ho c (n, y) d (n, x) b); [rewrite <- !app_assoc; reflexivity|exact Hm|reflexivity].
  - congruence.
  - apply in_split in F as (c & d & ->). exfalso. apply (Ho a (n, x) c (n, y) d); [reflexivity|exact Hm|reflexivity].
Qed.
Lemma field_same : forall l k n, fields_once l -> fields_once k -> same_fields l k -> meant n -> find_field n (filter known l) = find_field n (filter known k).
Proof.
  intros l k n Hl Hk S M. destruct (find_field n (filter known l)) as [x|] eqn:E.
  - symmetry. apply field_value; [exact Hk|exact M|]. apply (S n x M), (field_value l n x Hl M), E.
  - destruct (find_field n (filter known k)) as [y|] eqn:F; [|reflexivity].
    apply (field_value k n y Hk M), (S n y M), (field_value l n y Hl M) in F. congruence.
Qed.
Lemma params_once : forall l q, form l q -> form_text l -> fields_once l ->
  get_params q = Coq.Init.Datatypes.inr (find_field (bs "service") (filter known l),
    mkQuery (find_field (bs "path") (filter known l)) (find_field (bs "id") (filter known l)) (find_field (bs "cursor") (filter known l))
            (find_field (bs "limit") (filter known l)) (find_field (bs "refspec") (filter known l))).
Proof.
  intros l q F T O. unfold get_params. rewrite (form_read l q F T), (read_once l [] O); [reflexivity|intros f g []].
Qed.
Lemma params_same : forall l k q1 q2, form l q1 -> form k q2 -> form_text l -> form_text k -> fields_once l -> fields_once k -> same_fields l k ->
  get_params q1 = get_params q2.
Proof.
  intros l k q1 q2 F1 F2 T1 T2 O1 O2 S. rewrite (params_once l q1 F1 T1 O1), (params_once k q2 F2 T2 O2).
  rewrite !(field_same l k _ O1 O2 S) by (unfold meant; cbn [In]; tauto). reflexivity.
Qed.
Lemma read_seen : forall l seen n x y, meant n -> find_field n seen = Some x -> In (n, y) l -> exists m, read_fields l seen = inl m /\ meant m.
Proof.
  induction l as [|[n' x'] l IH]; intros seen n x y M F I; [destruct I|]. cbn [read_fields]. change (existsb (beq n') get_fields) with (known (n', x')).
  destruct (known (n', x')) eqn:K.
  - destruct (find_field n' seen) as [z|] eqn:G; [exists n'; split; [reflexivity|apply (known_meant (n', x')), K]|].
    destruct I as [E|I]; [injection E as -> ->; congruence|]. apply (IH _ n x y M); [apply find_field_app, F|exact I].
  - destruct I as [E|I]; [injection E as -> ->; apply (known_meant (n, y)) in M; congruence|]. apply (IH _ n x y M F I).
Qed.
Lemma read_twice : forall a n x b y c seen, meant n -> exists m, read_fields (a ++ [(n, x)] ++ b ++ [(n, y)] ++ c) seen = inl m /\ meant m.
Proof.
  induction a as [|[n' x'] a IH]; intros n x b y c seen M.
  - cbn [app read_fields]. rewrite (proj2 (known_meant (n, x)) M : existsb (beq n) get_fields = true). destruct (find_field n seen) as [z|] eqn:G; [eauto|].
    apply (read_seen _ _ n x y M); [|apply in_or_app; right; left; reflexivity].
    clear - G. unfold find_field in *. induction seen as [|s seen IH]; cbn [app find fst] in *; [rewrite beq_refl; reflexivity|].
    destruct (beq (fst s) n); [discriminate|exact (IH G)].
  - cbn [app read_fields]. destruct (existsb (beq n') get_fields) eqn:K; [|apply IH, M]. destruct (find_field n' seen); [|apply IH, M].
    exists n'. split; [reflexivity|apply (known_meant (n', x')), K].
Qed.

(** ** Requests *)

Section Handle.
Context (e : env) (b : build) (c : codec) (fuel : nat) (cut : bytes -> list bytes) (v : lenv) (d : draw).
Notation handle := (http_handle e b c fuel cut v d).
Notation does := (act e b c fuel cut v d).
Definition called (m : method) (body : bytes) (w : site) (r : res action) : site * res response :=
  match r with
  | Ok a => does m body a w
  | Err x => (w, Err x)
  | Panic => (w, Panic)
  | OutOfFuel => (w, OutOfFuel)
  end.
Definition no_fields : lock_query := mkQuery None None None None None.
Lemma handle_get : forall path q body w, rooted path ->
  handle (mkHttp MGet path q body) w = match get_params q with
                                       | inl n => (w, Ok (query_response n))
                                       | Coq.Init.Datatypes.inr (s, lq) => called MGet body w (gateway MGet path s lq)
                                       end.
Proof. intros path q body w (p & -> & Hp). destruct p as [|x p]; [congruence|]. unfold http_handle. cbn [hr_method hr_path hr_query hr_body]. destruct (get_params q) as [n|[s lq]]; reflexivity. Qed.
Lemma handle_other : forall m path q body w, m <> MGet \/ ~ rooted path ->
  handle (mkHttp m path q body) w = called m body w (gateway m path None no_fields).
Proof.
  intros m path q body w H. unfold http_handle. cbn [hr_method hr_path hr_query hr_body]. unfold no_fields.
  destruct m; try reflexivity. destruct H as [H|H]; [congruence|].
  assert (N : forall x y p, path = x :: y :: p -> x <> 47) by (intros x y p -> ->; apply H; exists (y :: p); split; [reflexivity|discriminate]).
  destruct path as [|x [|y p]]; [reflexivity| |].
  - do 7 (try (destruct x as [|x]; try reflexivity)); do 7 (try (destruct x as [x|x|]; try reflexivity)).
  - specialize (N x y p eq_refl). destruct x as [|x]; [reflexivity|]. do 7 (try (destruct x as [x|x|]; try reflexivity; try congruence)).
Qed.
End Handle.

(** ** Heads *)

Lemma header_one : forall r n x, rs_headers r = [(n, x)] -> header r n x.
Proof. intros r n x E y. rewrite E. cbn [In]. split; [intros [H|[]]; congruence|intros ->; left; reflexivity]. Qed.
Lemma git_head : forall s k x, smart_head s k (git_response (bs "application/x-" ++ s ++ bs "-" ++ k) x).
Proof.
  intros s k x. split; [reflexivity|]. split; intros y; cbn [git_response rs_headers In]; (split; [intros [H|[H|[]]]; try congruence; discriminate H|intros ->; tauto]).
Qed.
Lemma text_plain : forall s m, In s [400; 403; 404; 405; 406; 409; 500] -> plain_error (text_response s m).
Proof. intros s m H. split; [exact H|]. left. apply header_one. reflexivity. Qed.
Lemma refused_plain : forall m s, In s [403; 404; 405] -> plain_error (refused_response m s).
Proof.
  intros m s H. cbn [In] in H. destruct H as [<-|[<-|[<-|[]]]].
  - apply text_plain. cbn [In]. tauto.
  - split; [cbn; tauto|]. right. split; [intros y []|reflexivity].
  - split; [cbn; tauto|]. right. split; [intros y [H|[]]; discriminate H|reflexivity].
Qed.

(** ** Discovery *)

Lemma info_top : forall e repo s w w' x, http_info_refs e repo s w = (w', Ok x) -> exists sv head refs, service_from_str s = Some sv /\ x = info_refs Http sv head refs.
Proof.
  intros e repo s w w' x H. unfold http_info_refs in H. apply mbind_inv in H as (w1 & pp & E1 & H). unfold lift, proto_new in E1. injection E1 as <- E1.
  destruct s as [|c s]; [injection E1 as <-; discriminate H|]. destruct (service_from_str (c :: s)) as [sv|] eqn:Sv; [|discriminate]. cbn [unwrap_opt bind] in E1. injection E1 as <-.
  unfold git_info_refs in H. cbn [pp_service pp_path pp_protocol] in H. apply mbind_inv in H as (w2 & s2 & E2 & H). cbn [unwrap_opt] in E2. unfold lift in E2. injection E2 as <- <-.
  apply mbind_inv in H as (w3 & head & _ & H). apply mbind_inv in H as (w4 & refs & _ & H). injection H as _ <-. exists sv, head, refs. split; [reflexivity|reflexivity].
Qed.
Lemma fold_add_app : forall l a z, fold_left add_pkt_line l (a ++ z) = a ++ fold_left add_pkt_line l z.
Proof. induction l as [|x l IH]; intros a z; [reflexivity|]. cbn [fold_left]. unfold add_pkt_line at 2 4. rewrite <- !app_assoc. apply IH. Qed.
Lemma info_refs_top : forall sv head refs, exists rest, info_refs Http sv head refs = (add_pkt_line [] (bs "# service=" ++ service_name sv ++ [10]) ++ flush_pkt) ++ rest.
Proof.
  intros sv head refs.
  assert (G : forall l t, exists rest, fold_left add_pkt_line l t ++ flush_pkt = t ++ rest).
  { intros l t. exists (fold_left add_pkt_line l [] ++ flush_pkt). rewrite app_assoc, <- fold_add_app, app_nil_r. reflexivity. }
  apply G.
Qed.
Lemma service_named : forall s sv, service_from_str s = Some sv -> s = service_name sv.
Proof.
  intros s sv H. unfold service_from_str in H. destruct (beq s (bs "git-upload-pack")) eqn:E; [apply beq_eq in E; injection H as <-; exact E|].
  destruct (beq s (bs "git-receive-pack")) eqn:F; [apply beq_eq in F; injection H as <-; exact F|discriminate].
Qed.

(** ** What requests leave alone *)

Lemma find_some_perm : forall A (f : A -> bool) l l' x, Permutation l l' -> In x l' -> f x = true -> find f l <> None.
Proof. intros A f l l' x P I F N. rewrite (find_none_perm _ _ _ _ P N x I) in F. discriminate. Qed.
Lemma head_reads : forall e path w, env_ok e -> ~ strictly_below e (w_db w) path -> same w (fst (get_head_object_id e path w)).
Proof.
  intros e path w He Ns. unfold get_head_object_id, mbind. pose proof (reads_select _ e (fun d => filter (fun r => like e path (r_repo_path r) && teq e (r_ref_name r) master) (d_refs d)) w) as R.
  fold (search_refs e path) in R. destruct (search_refs e path w) as [w1 [rows| | |]] eqn:E; try exact R. cbn [fst] in R.
  destruct (find (fun r => beq path (r_repo_path r)) rows) as [r|] eqn:F; [exact R|]. destruct (find (fun r => path_starts_with path (r_repo_path r)) rows) as [r|] eqn:G; [|exact R].
  exfalso. apply Ns. assert (P : Permutation rows (filter (fun r => like e path (r_repo_path r) && teq e (r_ref_name r) master) (d_refs (w_db w)))).
  { unfold search_refs, select, mbind, attempt in E. destruct (w_fails w) as [|[|] fl]; cbn [negb] in E; try discriminate E; unfold shuffle in E; cbn in E; injection E as _ <-; apply (proj1 He). }
  assert (Hi : forall x, In x rows <-> In x (d_refs (w_db w)) /\ is_head e path x).
  { intros x. transitivity (In x (filter (fun r => like e path (r_repo_path r) && teq e (r_ref_name r) master) (d_refs (w_db w)))).
    - split; apply Permutation_in; [exact P|apply Permutation_sym; exact P].
    - rewrite filter_In, andb_true_iff. reflexivity. }
  split.
  - apply find_some in G as [I G]. exists r. apply Hi in I. split; [apply I|]. split; [apply I|]. apply starts_with_within, G.
  - intros x I Hx K. apply find_none with (x := x) in F; [rewrite K, beq_refl in F; discriminate|]. apply Hi. split; assumption.
Qed.
Lemma info_reads : forall e repo s w, env_ok e -> ~ strictly_below e (w_db w) repo -> same w (fst (http_info_refs e repo s w)).
Proof.
  intros e repo s w He Ns. unfold http_info_refs, mbind, lift. destruct (proto_new repo s Http) as [pp| | |] eqn:E; try apply same_refl.
  assert (Ep : pp_path pp = repo).
  { unfold proto_new in E. destruct s as [|c s]; [injection E as <-; reflexivity|]. destruct (service_from_str (c :: s)); [|discriminate]. injection E as <-. reflexivity. }
  unfold git_info_refs. unfold mbind, lift. destruct (unwrap_opt (pp_service pp)); try apply same_refl. rewrite Ep.
  pose proof (head_reads e repo w He Ns) as R. destruct (get_head_object_id e repo w) as [w1 [h| | |]]; try exact R. cbn [fst] in R. apply (same_trans _ _ _ R).
  assert (K : reads (get_ref_object_id e repo)) by (apply reads_bind; [apply reads_select|intros rows; apply reads_shuffle]). specialize (K w1). destruct (get_ref_object_id e repo w1) as [w2 [l| | |]]; exact K.
Qed.

(** ** git-lfs *)

(** What a handler answers when it does not fail. *)
Definition fits_event (x : lfs_event) (s : N) (b : lfs_body) : Prop :=
  match x with
  | EList _ => s = 200 /\ exists l n, b = BLocks l n
  | EVerify _ => s = 200 /\ exists o t n, b = BVerify o t n
  | ELock _ _ _ => s = 201 /\ exists l, b = BLock l
  | EUnlock _ _ => s = 200 /\ exists l, b = BLock l
  | EBatch _ => s = 200 /\ exists l, b = BBatch l
  | EUpload _ _ => s = 200 /\ b = BEmpty
  | EDownload _ => s = 200 /\ exists d, b = BData d
  end.
Definition error_status (s : N) : Prop := In s [400; 404; 406; 409; 500].
Lemma reply_kind : forall v x w w' r, lfs_handle v x w = (w', Ok r) ->
  match r with ROk s b => fits_event x s b | RFail s _ => error_status s end.
Proof.
  intros v x w w' r H. unfold error_status. destruct x as [q|body|body id now|id body|body|oid body|oid]; cbn [lfs_handle] in H.
  - apply lbind_inv in H as (w1 & [[l n]|] & _ & H); unfold lret in H; injection H as _ <-; cbn; eauto 6.
  - apply lbind_inv in H as (w1 & rq & _ & H). apply lbind_inv in H as (w2 & [[l n]|] & _ & H); unfold lret in H; injection H as _ <-; cbn; eauto 7.
  - apply lbind_inv in H as (w1 & rq & _ & H). apply lbind_inv in H as (w2 & c & Hc & H). destruct c as [reply|].
    + unfold lret in H; injection H as _ <-. unfold create_check in Hc. apply lbind_inv in Hc as (w3 & [[l n]|] & _ & Hc); [|unfold lret in Hc; injection Hc as _ <-; cbn; tauto].
      destruct l; unfold lret in Hc; [discriminate|]. injection Hc as _ <-. cbn; tauto.
    + apply lbind_inv in H as (w3 & row & _ & H). unfold create_write in H. apply lbind_inv in H as (w4 & [u|] & _ & H); unfold lret in H; injection H as _ <-; cbn; eauto 7.
  - unfold lfs_delete in H. destruct id; [unfold lret in H; injection H as _ <-; cbn; tauto|]. destruct body as [body|]; [|unfold lret in H; injection H as _ <-; cbn; tauto].
    apply lbind_inv in H as (w1 & rq & _ & H). apply lbind_inv in H as (w2 & [l|] & _ & H); [|unfold lret in H; injection H as _ <-; cbn; tauto].
    destruct (_ && _); unfold lret in H; injection H as _ <-; cbn; eauto 7.
  - apply lbind_inv in H as (w1 & [op l] & _ & H). apply lbind_inv in H as (w2 & l' & _ & H). unfold lret in H; injection H as _ <-. cbn; eauto.
  - apply lbind_inv in H as (w1 & m & _ & H). apply lbind_inv in H as (w2 & m' & _ & H). apply lbind_inv in H as (w3 & [|] & _ & H).
    + unfold lret in H; injection H as _ <-. cbn; auto.
    + apply lbind_inv in H as (w4 & u & _ & H). unfold lret in H; injection H as _ <-. cbn; tauto.
  - apply lbind_inv in H as (w1 & m & _ & H). apply lbind_inv in H as (w2 & m' & _ & H). apply lbind_inv in H as (w3 & d & _ & H). unfold lret in H; injection H as _ <-. cbn; eauto.
Qed.

Lemma lfs_same_refl : forall w, lfs_same w w.
Proof. intros w. repeat split. Qed.
Lemma lfs_same_trans : forall a b c, lfs_same a b -> lfs_same b c -> lfs_same a c.
Proof. intros a b c (A1 & A2 & A3) (B1 & B2 & B3). split; [|split]; congruence. Qed.
Definition lfs_reads {A} (m : L A) : Prop := forall w, lfs_same w (fst (m w)).
Lemma lr_ret : forall A (r : res A), lfs_reads (llift r).
Proof. intros A r w. apply lfs_same_refl. Qed.
Lemma lr_bind : forall A B (m : L A) (k : A -> L B), lfs_reads m -> (forall a, lfs_reads (k a)) -> lfs_reads (lbind m k).
Proof.
  intros A B m k Hm Hk w. unfold lbind. pose proof (Hm w) as R. destruct (m w) as [w1 [a| | |]]; try exact R. exact (lfs_same_trans _ _ _ R (Hk a w1)).
Qed.
Lemma lr_try : forall A (m : L A), lfs_reads m -> lfs_reads (ltry m).
Proof. intros A m H w. unfold ltry. pose proof (H w) as R. destruct (m w) as [w1 [a| | |]]; exact R. Qed.
Lemma lr_attempt : lfs_reads lattempt.
Proof. intros w. unfold lattempt. destruct (l_fails w); repeat split. Qed.
Lemma lr_find_lock : forall v k, lfs_reads (find_lock_row v k).
Proof. intros v k. apply lr_bind; [apply lr_attempt|]. intros [|]; [intros w; apply lfs_same_refl|apply lr_ret]. Qed.
Lemma lr_find_meta : forall v k, lfs_reads (find_meta_row v k).
Proof. intros v k. apply lr_bind; [apply lr_attempt|]. intros [|]; [intros w; apply lfs_same_refl|apply lr_ret]. Qed.
Lemma lr_get_locks : forall v k, lfs_reads (lfs_get_locks v k).
Proof. intros v k. apply lr_bind; [apply lr_find_lock|]. intros [[k' x]|]; [|apply lr_ret]. apply lr_bind; [apply lr_ret|]. intros l. apply lr_ret. Qed.
Lemma lr_filtered : forall v r p q n, lfs_reads (lfs_get_filtered_locks v r p q n).
Proof. intros v r p q n. apply lr_bind; [apply lr_get_locks|]. intros l. apply lr_ret. Qed.
Lemma lr_list : forall v q, lfs_reads (lfs_handle v (EList q)).
Proof. intros v q. apply lr_bind; [apply lr_try, lr_filtered|]. intros [[l n]|]; apply (lr_ret _ (Ok _)). Qed.
Lemma lr_download : forall v oid, lfs_reads (lfs_handle v (EDownload oid)).
Proof.
  intros v oid. apply lr_bind; [apply lr_find_meta|]. intros m. apply lr_bind; [apply lr_ret|]. intros m'. apply lr_bind; [intros w; apply lfs_same_refl|].
  intros d. apply (lr_ret _ (Ok _)).
Qed.
Lemma lr_verify : forall v body, lfs_reads (lfs_handle v (EVerify body)).
Proof.
  intros v body. apply lr_bind; [apply lr_ret|]. intros rq. apply lr_bind; [apply lr_try, lr_filtered|]. intros [[l n]|]; apply (lr_ret _ (Ok _)).
Qed.

(** Contents of git-lfs while requests are served at the same time (C125-C128). *)

From Coq Require Import ZArith.
From Verif Require Import Base BaseLemmas Digest ModelUtils ModelObject ModelPkt ModelStorage ModelLfs ModelLfsConc.
From Verif Require Import SpecObject SpecLfs SpecLfsConc ProofObject ProofLfs ProofLfsConc PropLocks PropContent.
From Verif Require ModelConc.
Open Scope N_scope.

(** ** C125: contents that were accepted stay *)

Lemma row_appended : forall v w w' oid m l, l_meta w' = l_meta w ++ l -> object_row v w oid m -> object_row v w' oid m.
Proof. intros v w w' oid m l E (l1 & l2 & E1 & T & F). exists l1, (l2 ++ l). split; [|auto]. rewrite E, E1, <- app_assoc. reflexivity. Qed.
Lemma row_same : forall v w w' oid m, l_meta w' = l_meta w -> object_row v w oid m -> object_row v w' oid m.
Proof. intros v w w' oid m E H. apply (row_appended v w w' oid m []); [rewrite app_nil_r; exact E|exact H]. Qed.
Lemma row_removed : forall v w w' oid m o, l_meta w' = filter (fun r => negb (l_teq v (mt_oid r) o)) (l_meta w) -> l_teq v (mt_oid m) o = false -> object_row v w oid m -> object_row v w' oid m.
Proof.
  intros v w w' oid m o E N (l1 & l2 & E1 & T & F). exists (filter (fun r => negb (l_teq v (mt_oid r) o)) l1), (filter (fun r => negb (l_teq v (mt_oid r) o)) l2).
  split; [|split; [exact T|]]. { rewrite E, E1, filter_app. cbn [filter]. rewrite N. reflexivity. }
  apply Forall_forall. intros x Hx. apply filter_In in Hx as [Hx _]. exact (proj1 (Forall_forall _ _) F x Hx).
Qed.
Lemma file_same : forall v w w' oid c, l_files w' = l_files w -> file_has v w oid c -> file_has v w' oid c.
Proof. intros v w w' oid c E (p & P). exists p. rewrite E. exact P. Qed.
Lemma row_word : forall v w oid m, ids_differ v -> word_ids w -> id_word oid -> object_row v w oid m -> mt_oid m = oid.
Proof. intros v w oid m Df Wi Ho (l1 & l2 & E & T & _). apply Df; [apply Wi; rewrite E; apply in_elt|exact Ho|exact T]. Qed.
Lemma content_word : forall o d, content_id o d -> id_word o.
Proof. intros o d H. rewrite <- (content_hex _ _ H). apply hex_word. Qed.

Section Kept.
Context (v : lenv) (oid d : bytes) (Hv : lenv_ok v) (Df : ids_differ v).
Definition keeping (w : lfs) : Prop := word_ids w /\ stored v w oid d.
Lemma keeping_same : forall w w', l_meta w' = l_meta w -> l_files w' = l_files w -> (l_fails w = [] -> l_fails w' = []) -> keeping w -> keeping w'.
Proof.
  intros w w' E1 E2 _ [W [[C (m & R & Z)] F]]. split; [unfold word_ids; rewrite E1; exact W|]. split; [split; [exact C|]; exists m; split; [exact (row_same _ _ _ _ _ E1 R)|exact Z]|exact (file_same _ _ _ _ _ E2 F)].
Qed.
Lemma keeping_more : forall w w' r, id_word (mt_oid r) -> l_meta w' = l_meta w ++ [r] -> l_files w' = l_files w -> (l_fails w = [] -> l_fails w' = []) -> keeping w -> keeping w'.
Proof.
  intros w w' r Hr E1 E2 _ [W [[C (m & R & Z)] F]]. split.
  - intros x Hx. rewrite E1 in Hx. apply in_app_or in Hx as [Hx|[<-|[]]]; [apply W, Hx|exact Hr].
  - split; [split; [exact C|]; exists m; split; [exact (row_appended _ _ _ _ _ _ E1 R)|exact Z]|exact (file_same _ _ _ _ _ E2 F)].
Qed.
(** Writing to the file of another object. *)
Lemma file_other : forall w o p c x, id_word o -> o <> oid -> store_path v o = Ok p -> content_id oid d ->
  file_has v w oid x -> file_has v (mkLfs (l_locks w) (l_meta w) (fs_put (l_files w) p c) (l_fails w)) oid x.
Proof.
  intros w o p c x Ho No Ep C (q & Eq & Cq & F). exists q. split; [exact Eq|]. split; [exact Cq|]. cbn [l_files]. rewrite fs_get_put_other; [exact F|].
  intros ->. apply No. exact (C67_distinct v o oid p Ho (content_word _ _ C) Ep Eq).
Qed.
Lemma create_found : forall o w, on_ok (fun p => store_path v o = Ok p /\ fst (lperform v (ACreate o) w) = mkLfs (l_locks w) (l_meta w) (fs_put (l_files w) p []) (l_fails w)) (snd (lperform v (ACreate o) w)) /\
  ((forall p, snd (lperform v (ACreate o) w) <> Ok p) -> fst (lperform v (ACreate o) w) = w).
Proof.
  intros o w. cbn [lperform]. unfold file_create. destruct (store_path v o) as [p|e| |]; try (split; [exact Logic.I|reflexivity]). destruct (_ && _ && _).
  - cbn [fst snd on_ok]. split; [auto|]. intros K. exfalso. exact (K p eq_refl).
  - split; [exact Logic.I|reflexivity].
Qed.
Lemma upload_keeps : forall o b, l_teq v o oid = false -> ends v keeping (fun _ => keeping) (fun _ => True) (upload_object_p v o b).
Proof.
  intros o b No. unfold upload_object_p.
  apply (ends_bind v keeping _ _ _ (fun r => match r with Some m => id_word (mt_oid m) /\ l_teq v (mt_oid m) o = true | None => True end)); [|auto|].
  - apply ends_do. intros w Hw. split; [apply (keep_meta_row v keeping (fun _ => keeping) keeping_same o w Hw)|]. pose proof (meta_found v o w) as K. destruct (snd (lperform v (AFindMeta o) w)) as [[m|]| | |]; try exact Logic.I.
    cbn [on_ok] in *. destruct K as [K1 K2]. split; [apply Hw, K1|exact K2].
  - intros [m|] Hm; [|exact Logic.I]. destruct Hm as [Hi Ht]. unfold lpbind at 1. cbn [unwrap_opt lthen].
    assert (Nm : content_id oid d -> mt_oid m <> oid).
    { intros _ E. destruct Hv as (_ & Sy & _). rewrite E, Sy in Ht. congruence. }
    apply (ends_bind v keeping _ _ _ (fun _ => True)); [|auto|].
    + unfold put_p. apply (ends_bind v keeping _ _ _ (fun p => store_path v (mt_oid m) = Ok p)); [|intros [x| | |] _; exact Logic.I|].
      * apply ends_do. intros w Hw. destruct (create_found (mt_oid m) w) as [K1 K2]. destruct (snd (lperform v (ACreate (mt_oid m)) w)) as [p| | |] eqn:E; cbn [on_ok] in *; [|rewrite K2 by discriminate; auto..].
        destruct K1 as [K1 K3]. split; [|exact K1]. rewrite K3. destruct Hw as [W [A F]]. split; [exact W|]. split; [exact A|]. apply (file_other w (mt_oid m)); try assumption; [apply Nm, A|apply A].
      * intros p Ep. apply (ends_bind v keeping _ _ _ (fun _ => True)); [|intros [x| | |] _; exact Logic.I|intros; exact Logic.I].
        apply ends_do. intros w Hw. cbn [lperform file_write fst snd on_ok]. split; [|exact Logic.I]. destruct Hw as [W [A F]]. split; [exact W|]. split; [exact A|].
        apply (file_other w (mt_oid m)); try assumption; [apply Nm, A|apply A].
    + intros [|] _; [exact Logic.I|]. apply (ends_bind v keeping _ _ _ (fun _ => True)); [|auto|intros; exact Logic.I].
      unfold lpunwrap. apply (ends_then v keeping _ _ _ (fun _ => True)); [|intros [x| | |] _; exact Logic.I].
      unfold delete_meta_p. apply (ends_bind v keeping _ _ _ (fun _ => True)); [|auto|intros [|] _; exact Logic.I].
      apply ends_do. intros w Hw. cbn [lperform]. destruct (exec_meta_any (remove_meta v o) w) as (w' & x & E & L & F & [[-> K]|[-> K]] & Q); rewrite E; cbn [fst snd on_ok]; (split; [|exact Logic.I]).
      * apply (keeping_same w); try assumption. intros N. apply Q, N.
      * injection K as K. destruct Hw as [W [[C (m0 & R & Z)] Fh]]. split.
        -- intros y Hy. rewrite <- K in Hy. apply filter_In in Hy as [Hy _]. apply W, Hy.
        -- split; [split; [exact C|]|exact (file_same _ _ _ _ _ F Fh)]. exists m0. split; [|exact Z]. apply (row_removed v w w' oid m0 o); [symmetry; exact K| |exact R].
           rewrite (row_word v w oid m0 Df W (content_word _ _ C) R). destruct Hv as (_ & Sy & _). rewrite Sy. exact No.
Qed.
Lemma row_find : forall w o m, l_teq v o oid = true -> object_row v w oid m -> find (fun r => l_teq v (mt_oid r) o) (l_meta w) = Some m.
Proof.
  intros w o m To (l1 & l2 & -> & T & F). destruct Hv as (_ & Sy & Tr & _). induction F as [|x l1 Hx _ IH]; cbn [app find].
  - rewrite (Tr (mt_oid m) oid o T) by (rewrite Sy; exact To). reflexivity.
  - destruct (l_teq v (mt_oid x) o) eqn:B; [rewrite (Tr _ _ _ B To) in Hx; discriminate|exact IH].
Qed.
Lemma download_keeps : forall o, l_teq v o oid = true -> ends v (fun w => keeping w /\ l_fails w = []) (fun _ w => keeping w /\ l_fails w = []) (fun r => r = Ok (ROk 200 (BData d))) (download_object_p v o).
Proof.
  intros o To w [Hw Fw]. pose proof Hw as [W [[C (m & R & Z)] _]].
  destruct (find_meta_any v o w) as (w1 & _ & _ & K). destruct (K Fw) as [_ E]. clear K.
  cbn [lperform]. rewrite E, (row_find w o m To R). cbn [fst snd]. split; [auto|]. cbn [lthen unwrap_opt]. intros w2 [Hw2 Fw2]. clear E.
  cbn [lperform store_get fst snd]. split; [auto|]. rewrite (row_word v w oid m Df W (content_word _ _ C) R). destruct Hw2 as [_ [_ (p & Ep & Cp & Gp)]].
  rewrite Ep. cbn [unwrap bind]. rewrite Cp, Gp. reflexivity.
Qed.
End Kept.

Lemma perform_fails : forall v X (a : lact X) w, l_fails w = [] -> l_fails (fst (lperform v a w)) = [].
Proof.
  intros v X a w F. destruct a as [k|k|f|f| |o|o|p b|m]; cbn [lperform].
  - destruct (find_lock_any v k w) as (w' & _ & _ & K). destruct (K F) as [_ ->]. exact F.
  - destruct (find_meta_any v k w) as (w' & _ & _ & K). destruct (K F) as [_ ->]. exact F.
  - destruct (exec_locks_any f w) as (w' & b & E & _ & _ & _ & K). rewrite E. apply K, F.
  - destruct (exec_meta_any f w) as (w' & b & E & _ & _ & _ & K). rewrite E. apply K, F.
  - unfold lattempt. rewrite F. exact F.
  - exact F.
  - unfold file_create. destruct (store_path v o); try exact F. destruct (_ && _ && _); exact F.
  - exact F.
  - exact F.
Qed.
Lemma ends_quiet : forall v (I : lfs -> Prop) A (Q : res A -> Prop) p, ends v I (fun _ => I) Q p -> ends v (fun w => I w /\ l_fails w = []) (fun _ w => I w /\ l_fails w = []) Q p.
Proof.
  intros v I A Q p. induction p as [r|X a k IH]; cbn [ends]; [auto|]. intros H w [Hw F]. destruct (H w Hw) as [H1 H2]. split; [split; [exact H1|apply perform_fails, F]|apply IH, H2].
Qed.

(** In any order of the actions, while nobody uploads the object itself. *)
Theorem C125_stays : forall v oid d xs schedule w, lenv_ok v -> ids_differ v -> word_ids w -> stored v w oid d ->
  Forall batch_ok xs -> Forall (fun x => ~ uploads v oid x) xs -> let (ts, w') := linterleave v schedule (arrived v xs) w in
  stored v w' oid d /\ (l_fails w = [] -> forall i x r, nth_error xs i = Some x -> downloads v oid x -> ended ts i r -> r = Ok (ROk 200 (BData d))).
Proof.
  intros v oid d xs schedule w Hv Df Wi St Hb Nu. destruct (linterleave v schedule (arrived v xs) w) as [ts w'] eqn:E.
  assert (Kp : forall i p, nth_error (arrived v xs) i = Some p -> ends v (keeping v oid d) (fun _ => keeping v oid d) (fun _ => True) p).
  { intros i p Hp. apply started_nth in Hp as (x & Hx & ->). apply nth_error_In in Hx. rewrite Forall_forall in Hb, Nu. specialize (Hb x Hx). specialize (Nu x Hx).
    destruct x as [q|b|b id now|id b|b|o b|o]; [| | | | |apply upload_keeps; try assumption; cbn [uploads] in Nu; destruct (l_teq v o oid); congruence|];
      apply (ends_other v (keeping v oid d) (fun _ => keeping v oid d) (keeping_same v oid d) (keeping_more v oid d)); assumption || exact Logic.I. }
  split.
  - destruct (interleave_ends v (keeping v oid d) (fun _ _ => True) schedule (arrived v xs) w (conj Wi St)) as [K _]; [|rewrite E in K; apply K]. exact Kp.
  - intros Fw i x r Hx Hd En. set (I := fun w => keeping v oid d w /\ l_fails w = []).
    destruct (interleave_ends v I (fun i r => forall x, nth_error xs i = Some x -> downloads v oid x -> r = Ok (ROk 200 (BData d))) schedule (arrived v xs) w (conj (conj Wi St) Fw)) as [_ K].
    + intros j p Hp. pose proof (ends_quiet _ _ _ _ _ (Kp j p Hp)) as K. apply started_nth in Hp as (y & Hy & ->).
      destruct y as [q|b|b id now|id b|b|o b|o]; try (refine (ends_weaken _ _ _ _ _ _ _ _ K); intros q0 _ z Hz Dz; rewrite Hy in Hz; injection Hz as <-; cbn [downloads] in Dz; contradiction).
      destruct (l_teq v o oid) eqn:To; [|refine (ends_weaken _ _ _ _ _ _ _ _ K); intros q0 _ z Hz Dz; rewrite Hy in Hz; injection Hz as <-; cbn in Dz; congruence].
      apply (ends_weaken _ _ _ _ (fun r => r = Ok (ROk 200 (BData d)))); [auto|]. apply download_keeps; assumption.
    + rewrite E in K. exact (K i r En x Hx Hd).
Qed.

(** ** C126: uploads of one content at the same time *)

Section Again.
Context (v : lenv) (oid d : bytes) (Hv : lenv_ok v) (Df : ids_differ v) (whole : forall b, (length b <= write_len v b)%nat).
(** The file is missing, was just cut, or has the content. *)
Definition partly (w : lfs) : Prop := word_ids w /\ announced v w oid d /\ exists c, file_has v w oid c /\ In c [None; Some []; Some d].
Definition full (w : lfs) : Prop := file_has v w oid (Some d).
Definition steady (w w' : lfs) : Prop := partly w' /\ forall c, file_has v w oid c -> file_has v w' oid c.
Lemma steady_same : forall w w', l_meta w' = l_meta w -> l_files w' = l_files w -> (l_fails w = [] -> l_fails w' = []) -> partly w -> steady w w'.
Proof.
  intros w w' E1 E2 _ [W [[C (m & R & Z)] (c & F & Hc)]]. split; [|intros c'; exact (file_same _ _ _ _ _ E2)]. split; [unfold word_ids; rewrite E1; exact W|].
  split; [split; [exact C|]; exists m; split; [exact (row_same _ _ _ _ _ E1 R)|exact Z]|]. exists c. split; [exact (file_same _ _ _ _ _ E2 F)|exact Hc].
Qed.
Lemma steady_more : forall w w' r, id_word (mt_oid r) -> l_meta w' = l_meta w ++ [r] -> l_files w' = l_files w -> (l_fails w = [] -> l_fails w' = []) -> partly w -> steady w w'.
Proof.
  intros w w' r Hr E1 E2 _ [W [[C (m & R & Z)] (c & F & Hc)]]. split; [|intros c'; exact (file_same _ _ _ _ _ E2)]. split.
  - intros x Hx. rewrite E1 in Hx. apply in_app_or in Hx as [Hx|[<-|[]]]; [apply W, Hx|exact Hr].
  - split; [split; [exact C|]; exists m; split; [exact (row_appended _ _ _ _ _ _ E1 R)|exact Z]|]. exists c. split; [exact (file_same _ _ _ _ _ E2 F)|exact Hc].
Qed.
Lemma steady_file : forall w o p c, id_word o -> o <> oid -> store_path v o = Ok p -> partly w -> steady w (mkLfs (l_locks w) (l_meta w) (fs_put (l_files w) p c) (l_fails w)).
Proof.
  intros w o p c Ho No Ep [W [A (x & F & Hx)]]. assert (C : content_id oid d) by apply A.
  split; [|intros y Hy; apply (file_other v oid d w o); assumption]. split; [exact W|]. split; [exact A|]. exists x. split; [apply (file_other v oid d w o); assumption|exact Hx].
Qed.
Lemma upload_steady : forall o b, l_teq v o oid = false -> ends v partly steady (fun _ => True) (upload_object_p v o b).
Proof.
  intros o b No. unfold upload_object_p.
  apply (ends_bind v partly _ _ _ (fun r => match r with Some m => id_word (mt_oid m) /\ l_teq v (mt_oid m) o = true | None => True end)); [|auto|].
  - apply ends_do. intros w Hw. split; [apply (keep_meta_row v partly steady steady_same o w Hw)|]. pose proof (meta_found v o w) as K. destruct (snd (lperform v (AFindMeta o) w)) as [[m|]| | |]; try exact Logic.I.
    cbn [on_ok] in *. destruct K as [K1 K2]. split; [apply Hw, K1|exact K2].
  - intros [m|] Hm; [|exact Logic.I]. destruct Hm as [Hi Ht]. unfold lpbind at 1. cbn [unwrap_opt lthen].
    assert (Nm : mt_oid m <> oid) by (intros E; destruct Hv as (_ & Sy & _); rewrite E, Sy in Ht; congruence).
    apply (ends_bind v partly _ _ _ (fun _ => True)); [|auto|].
    + unfold put_p. apply (ends_bind v partly _ _ _ (fun p => store_path v (mt_oid m) = Ok p)); [|intros [x| | |] _; exact Logic.I|].
      * apply ends_do. intros w Hw. destruct (create_found v (mt_oid m) w) as [K1 K2].
        destruct (snd (lperform v (ACreate (mt_oid m)) w)) as [p| | |] eqn:E; cbn [on_ok] in *; [|rewrite K2 by discriminate; split; [apply (steady_same w w eq_refl eq_refl (fun K => K) Hw)|exact Logic.I]..].
        destruct K1 as [K1 K3]. split; [|exact K1]. rewrite K3. apply (steady_file w (mt_oid m)); assumption.
      * intros p Ep. apply (ends_bind v partly _ _ _ (fun _ => True)); [|intros [x| | |] _; exact Logic.I|intros; exact Logic.I].
        apply ends_do. intros w Hw. cbn [lperform file_write fst snd on_ok]. split; [|exact Logic.I]. apply (steady_file w (mt_oid m)); assumption.
    + intros [|] _; [exact Logic.I|]. apply (ends_bind v partly _ _ _ (fun _ => True)); [|auto|intros; exact Logic.I].
      unfold lpunwrap. apply (ends_then v partly _ _ _ (fun _ => True)); [|intros [x| | |] _; exact Logic.I].
      unfold delete_meta_p. apply (ends_bind v partly _ _ _ (fun _ => True)); [|auto|intros [|] _; exact Logic.I].
      apply ends_do. intros w Hw. cbn [lperform]. destruct (exec_meta_any (remove_meta v o) w) as (w' & x & E & L & F & [[-> K]|[-> K]] & Q); rewrite E; cbn [fst snd on_ok]; (split; [|exact Logic.I]).
      * apply (steady_same w); try assumption. intros N. apply Q, N.
      * injection K as K. destruct Hw as [W [[C (m0 & R & Z)] (c & Fh & Hc)]]. split; [|intros c'; exact (file_same _ _ _ _ _ F)]. split.
        -- intros y Hy. rewrite <- K in Hy. apply filter_In in Hy as [Hy _]. apply W, Hy.
        -- split; [split; [exact C|]|exists c; split; [exact (file_same _ _ _ _ _ F Fh)|exact Hc]]. exists m0. split; [|exact Z]. apply (row_removed v w w' oid m0 o); [symmetry; exact K| |exact R].
           rewrite (row_word v w oid m0 Df W (content_word _ _ C) R). destruct Hv as (_ & Sy & _). rewrite Sy. exact No.
Qed.

(** A program whose next step writes the content. *)
Definition writes (p : lprog lfs_reply) : Prop := exists q k, store_path v oid = Ok q /\ p = LAct (AWrite q d) k /\ k (Ok (length d)) = LRet accepted.
Lemma write_full : forall q w, store_path v oid = Ok q -> partly w ->
  snd (lperform v (AWrite q d) w) = Ok (length d) /\ partly (fst (lperform v (AWrite q d) w)) /\ full (fst (lperform v (AWrite q d) w)).
Proof.
  intros q w Eq [W [A (c & (p & Ep & Cp & Fp) & Hc)]]. assert (p = q) by congruence. subst p. cbn [lperform]. unfold file_write. cbv zeta. cbn [fst snd]. rewrite firstn_all2 by apply whole. split; [reflexivity|].
  rewrite Fp. match goal with |- partly (mkLfs _ _ (fs_put _ _ ?t) _) /\ _ => assert (E : t = d) end.
  { destruct Hc as [<-|[<-|[<-|[]]]]; [rewrite skipn_nil|rewrite skipn_nil|rewrite skipn_all]; apply app_nil_r. }
  rewrite E. assert (Fu : full (mkLfs (l_locks w) (l_meta w) (fs_put (l_files w) q d) (l_fails w))).
  { exists q. split; [exact Eq|]. split; [exact Cp|]. cbn [l_files]. apply fs_get_put_same. }
  split; [|exact Fu]. split; [exact W|]. split; [exact A|]. exists (Some d). split; [exact Fu|right; right; left; reflexivity].
Qed.
(** Programs that keep the state, and leave the file whole or are about to write it. *)
Fixpoint good_p (p : lprog lfs_reply) : Prop :=
  match p with
  | LRet _ => True
  | LAct a k => writes p \/ forall w, partly w -> partly (fst (lperform v a w)) /\ good_p (k (snd (lperform v a w))) /\
                (full w -> full (fst (lperform v a w)) \/ writes (k (snd (lperform v a w))))
  end.
(** Programs that do not end accepted before they write. *)
Fixpoint fresh_p (p : lprog lfs_reply) : Prop :=
  match p with
  | LRet r => r <> accepted
  | LAct a k => writes p \/ forall w, partly w -> fresh_p (k (snd (lperform v a w)))
  end.
Lemma steady_good : forall p Q, ends v partly steady Q p -> good_p p.
Proof.
  intros p Q. induction p as [r|X a k IH]; [exact (fun _ => Logic.I)|]. cbn [ends good_p]. intros H. right. intros w Hw. destruct (H w Hw) as [[H1 H2] H3].
  split; [exact H1|]. split; [apply IH, H3|]. intros F. left. apply H2, F.
Qed.
(** What an upload of the content goes through. *)
Lemma upload_stages : forall o, l_teq v o oid = true -> exists k0, upload_object_p v o d = LAct (AFindMeta o) k0 /\ forall w, partly w -> let p := k0 (snd (lperform v (AFindMeta o) w)) in
  p = LRet Panic \/ exists k, p = LAct (ACreate oid) k /\ k Panic = LRet Panic /\ forall q, store_path v oid = Ok q -> writes (k (Ok q)).
Proof.
  intros o To. unfold upload_object_p, lpbind at 1, ldo. cbn [lthen]. eexists. split; [reflexivity|]. intros w [W [[C (m & R & Z)] _]]. cbn [lperform].
  destruct (find_meta_any v o w) as (w1 & _ & [E|E] & _); rewrite E; cbn [snd].
  - left. reflexivity.
  - right. rewrite (row_find v oid Hv w o m To R). unfold lpbind at 1. cbn [unwrap_opt lthen]. unfold put_p, lpbind, ldo. cbn [lthen].
    rewrite (row_word v w oid m Df W (content_word _ _ C) R). eexists. split; [reflexivity|]. split; [reflexivity|]. intros q Eq. cbn [lthen]. unfold writes. eexists q, _. split; [exact Eq|].
    split; [reflexivity|]. cbn [lthen]. rewrite Z, Z.eqb_refl, (content_hex _ _ C). rewrite (proj2 (beq_eq oid oid) eq_refl). reflexivity.
Qed.
Lemma create_partly : forall w, partly w -> (snd (lperform v (ACreate oid) w) = Panic /\ fst (lperform v (ACreate oid) w) = w) \/
  exists q, store_path v oid = Ok q /\ snd (lperform v (ACreate oid) w) = Ok q /\ partly (fst (lperform v (ACreate oid) w)).
Proof.
  intros w [W [A (c & (q & Eq & Cq & Fq) & Hc)]]. cbn [lperform]. unfold file_create. rewrite Eq. destruct (_ && _ && _); [|left; auto]. right. exists q. split; [reflexivity|]. split; [reflexivity|].
  cbn [fst]. split; [exact W|]. split; [exact A|]. exists (Some []). split; [|right; left; reflexivity]. exists q. split; [exact Eq|]. split; [exact Cq|]. cbn [l_files]. apply fs_get_put_same.
Qed.
Lemma upload_good : forall o, l_teq v o oid = true -> good_p (upload_object_p v o d) /\ fresh_p (upload_object_p v o d) /\
  ends v partly (fun _ => partly) (fun r => r = accepted \/ r = Panic) (upload_object_p v o d).
Proof.
  intros o To. destruct (upload_stages o To) as (k0 & -> & St). split; [|split].
  - right. intros w Hw. destruct (keep_meta_row v partly steady steady_same o w Hw) as [K1 K2]. split; [exact K1|]. split; [|intros F; left; exact (K2 _ F)].
    destruct (St w Hw) as [E|(k & E & Kp & Kw)]; rewrite E; [exact Logic.I|].
    right. intros w2 Hw2. destruct (create_partly w2 Hw2) as [[E1 E2]|(q & Eq & E1 & E2)]; rewrite E1.
    + rewrite E2, Kp. split; [exact Hw2|]. split; [exact Logic.I|auto].
    + split; [exact E2|]. pose proof (Kw q Eq) as Wr. split; [|right; exact Wr]. destruct Wr as (q' & k' & W1 & W2 & W3). rewrite W2. left. exists q', k'. auto.
  - right. intros w Hw. destruct (St w Hw) as [E|(k & E & Kp & Kw)]; rewrite E; [discriminate|].
    right. intros w2 Hw2. destruct (create_partly w2 Hw2) as [[E1 E2]|(q & Eq & E1 & E2)]; rewrite E1; [rewrite Kp; discriminate|].
    destruct (Kw q Eq) as (q' & k' & W1 & W2 & W3). rewrite W2. left. exists q', k'. auto.
  - intros w Hw. destruct (keep_meta_row v partly steady steady_same o w Hw) as [K1 K2]. split; [exact K1|].
    destruct (St w Hw) as [E|(k & E & Kp & Kw)]; rewrite E; [right; reflexivity|].
    intros w2 Hw2. destruct (create_partly w2 Hw2) as [[E1 E2]|(q & Eq & E1 & E2)]; rewrite E1.
    + rewrite E2, Kp. split; [exact Hw2|right; reflexivity].
    + split; [exact E2|]. destruct (Kw q Eq) as (q' & k' & W1 & W2 & W3). rewrite W2. intros w3 Hw3. destruct (write_full q' w3 W1 Hw3) as (F1 & F2 & F3). split; [exact F2|]. rewrite F1, W3. left. reflexivity.
Qed.
Definition next (p : lprog lfs_reply) (w : lfs) : lprog lfs_reply * lfs :=
  match p with LRet r => (LRet r, w) | LAct a k => (k (snd (lperform v a w)), fst (lperform v a w)) end.
Lemma writes_next : forall p w, writes p -> partly w -> fst (next p w) = LRet accepted /\ partly (snd (next p w)) /\ full (snd (next p w)).
Proof.
  intros p w (q & k & Eq & -> & Ek) Hw. cbn [next fst snd]. destruct (write_full q w Eq Hw) as (F1 & F2). rewrite F1. auto.
Qed.
Lemma good_next : forall p w, good_p p -> partly w -> partly (snd (next p w)) /\ good_p (fst (next p w)) /\ (full w \/ writes p -> full (snd (next p w)) \/ writes (fst (next p w))).
Proof.
  intros [r|X a k] w Hg Hw.
  - cbn [next fst snd]. auto.
  - destruct Hg as [Wr|Hg].
    + destruct (writes_next _ w Wr Hw) as (F1 & F2 & F3). rewrite F1. split; [exact F2|]. split; [exact Logic.I|auto].
    + cbn [next fst snd]. destruct (Hg w Hw) as (H1 & H2 & H3). split; [exact H1|]. split; [exact H2|]. intros [F|Wr]; [apply H3, F|].
      left. apply (writes_next (LAct a k) w Wr Hw).
Qed.
Lemma fresh_next : forall p w, fresh_p p -> partly w -> fresh_p (fst (next p w)) \/ full (snd (next p w)).
Proof.
  intros [r|X a k] w Hf Hw; [left; exact Hf|]. destruct Hf as [Wr|Hf]; [right; apply (writes_next _ w Wr Hw)|]. left. exact (Hf w Hw).
Qed.
Context (xs : list lfs_event).
Definition same_uploads (b : bool) (ts : lserving) (w : lfs) : Prop :=
  partly w /\ (forall i x p, nth_error xs i = Some x -> nth_error ts i = Some p -> if (match x with EUpload o _ => l_teq v o oid | _ => false end) then good_p p else ends v partly steady (fun _ => True) p) /\
  (full w \/ (exists i x p, nth_error xs i = Some x /\ uploads v oid x /\ nth_error ts i = Some p /\ writes p) \/
   b = true /\ (forall i x p, nth_error xs i = Some x -> uploads v oid x -> nth_error ts i = Some p -> fresh_p p)).
Lemma uploads_dec : forall x, (match x with EUpload o _ => l_teq v o oid | _ => false end) = true <-> uploads v oid x.
Proof. intros [q|b|b i n|i b|b|o b|o]; cbn; split; intros H; try discriminate; try contradiction; exact H. Qed.
Lemma same_uploads_step : forall b i ts w X (a : lact X) k, length ts = length xs -> same_uploads b ts w -> nth_error ts i = Some (LAct a k) ->
  same_uploads b (ModelConc.set_nth i (k (snd (lperform v a w))) ts) (fst (lperform v a w)).
Proof.
  intros b i ts w X a k Ln (Hw & Hp & H3) N. assert (Hx : exists x, nth_error xs i = Some x).
  { destruct (nth_error xs i) as [x|] eqn:E; [exists x; reflexivity|]. apply nth_error_None in E. assert (i < length ts)%nat by (apply nth_error_Some; rewrite N; discriminate). lia. }
  destruct Hx as (x & Hx). pose proof (Hp i x _ Hx N) as Hi. destruct (match x with EUpload o _ => l_teq v o oid | _ => false end) eqn:U.
  - destruct (good_next (LAct a k) w Hi Hw) as (G1 & G2 & G3). cbn [next fst snd] in *. split; [exact G1|]. split.
    { intros j y p Hy Hj. destruct (Nat.eq_dec i j) as [<-|Nj].
      - rewrite (set_same _ _ _ _ _ N) in Hj. injection Hj as <-. rewrite Hx in Hy. injection Hy as <-. rewrite U. exact G2.
      - rewrite set_other in Hj by exact Nj. exact (Hp j y p Hy Hj). }
    assert (Up : uploads v oid x) by (apply uploads_dec, U).
    assert (K : full (fst (lperform v a w)) \/ writes (k (snd (lperform v a w))) -> full (fst (lperform v a w)) \/ (exists i0 x0 p, nth_error xs i0 = Some x0 /\ uploads v oid x0 /\ nth_error (ModelConc.set_nth i (k (snd (lperform v a w))) ts) i0 = Some p /\ writes p) \/
      b = true /\ (forall i0 x0 p, nth_error xs i0 = Some x0 -> uploads v oid x0 -> nth_error (ModelConc.set_nth i (k (snd (lperform v a w))) ts) i0 = Some p -> fresh_p p)).
    { intros [F|F]; [left; exact F|]. right. left. exists i, x, (k (snd (lperform v a w))). split; [exact Hx|]. split; [exact Up|]. split; [exact (set_same _ _ _ _ _ N)|exact F]. }
    destruct H3 as [F|[(j & y & p & Hy & Uy & Hj & Wj)|[Hb Fr]]].
    + apply K, G3. left. exact F.
    + destruct (Nat.eq_dec i j) as [<-|Nj]; [apply K, G3; right; rewrite N in Hj; injection Hj as <-; exact Wj|].
      right. left. exists j, y, p. split; [exact Hy|]. split; [exact Uy|]. split; [rewrite set_other by exact Nj; exact Hj|exact Wj].
    + destruct (fresh_next (LAct a k) w (Fr i x _ Hx Up N) Hw) as [F|F]; cbn [next fst snd] in F; [|left; exact F]. right. right. split; [exact Hb|]. intros j y p Hy Uy Hj.
      destruct (Nat.eq_dec i j) as [<-|Nj]; [rewrite (set_same _ _ _ _ _ N) in Hj; injection Hj as <-; exact F|]. rewrite set_other in Hj by exact Nj. exact (Fr j y p Hy Uy Hj).
  - cbn [ends] in Hi. destruct (Hi w Hw) as [[S1 S2] E2]. split; [exact S1|]. split.
    { intros j y p Hy Hj. destruct (Nat.eq_dec i j) as [<-|Nj].
      - rewrite (set_same _ _ _ _ _ N) in Hj. injection Hj as <-. rewrite Hx in Hy. injection Hy as <-. rewrite U. exact E2.
      - rewrite set_other in Hj by exact Nj. exact (Hp j y p Hy Hj). }
    assert (Oth : forall j y, nth_error xs j = Some y -> uploads v oid y -> i <> j).
    { intros j y Hy Uy <-. rewrite Hx in Hy. injection Hy as <-. apply uploads_dec in Uy. congruence. }
    destruct H3 as [F|[(j & y & p & Hy & Uy & Hj & Wj)|[Hb Fr]]].
    + left. exact (S2 _ F).
    + right. left. exists j, y, p. split; [exact Hy|]. split; [exact Uy|]. split; [rewrite set_other by exact (Oth j y Hy Uy); exact Hj|exact Wj].
    + right. right. split; [exact Hb|]. intros j y p Hy Uy Hj. rewrite set_other in Hj by exact (Oth j y Hy Uy). exact (Fr j y p Hy Uy Hj).
Qed.
End Again.

(** Uploads of one content at the same time are accepted; when they have ended the content is stored. *)
Theorem C126_settles : forall v oid d xs schedule w, lenv_ok v -> ids_differ v -> (forall b, (length b <= write_len v b)%nat) -> word_ids w -> announced v w oid d ->
  (exists c, file_has v w oid c /\ In c [None; Some []; Some d]) -> Forall batch_ok xs -> Forall (uploads_only v oid d) xs -> let (ts, w') := linterleave v schedule (arrived v xs) w in
  (forall i x r, nth_error xs i = Some x -> uploads v oid x -> ended ts i r -> r = accepted \/ r = Panic) /\
  ((forall i x, nth_error xs i = Some x -> uploads v oid x -> exists r, ended ts i r) ->
   file_has v w oid (Some d) \/ (exists i x, nth_error xs i = Some x /\ uploads v oid x /\ ended ts i accepted) -> stored v w' oid d).
Proof.
  intros v oid d xs schedule w Hv Df Wh Wi An Fi Hb Ho. destruct (linterleave v schedule (arrived v xs) w) as [ts w'] eqn:E.
  assert (Pa : partly v oid d w) by (split; [exact Wi|]; split; [exact An|exact Fi]).
  assert (Ot : forall x, In x xs -> (match x with EUpload o _ => l_teq v o oid | _ => false end) = false -> ends v (partly v oid d) (steady v oid d) (fun _ => True) (lfs_p v x)).
  { intros x Hx U. rewrite Forall_forall in Hb. specialize (Hb x Hx). destruct x as [q|b|b id now|id b|b|o b|o]; [| | | | |apply upload_steady; assumption|];
      apply (ends_other v (partly v oid d) _ (steady_same v oid d) (steady_more v oid d)); assumption || exact Logic.I. }
  assert (Up : forall x, In x xs -> (match x with EUpload o _ => l_teq v o oid | _ => false end) = true -> exists o, l_teq v o oid = true /\ lfs_p v x = upload_object_p v o d).
  { intros x Hx U. rewrite Forall_forall in Ho. specialize (Ho x Hx). destruct x as [q|b|b id now|id b|b|o b|o]; try discriminate. exists o. split; [exact U|]. cbn in Ho. rewrite (Ho U). reflexivity. }
  split.
  - destruct (interleave_ends v (partly v oid d) (fun i r => forall x, nth_error xs i = Some x -> uploads v oid x -> r = accepted \/ r = Panic) schedule (arrived v xs) w Pa) as [_ K].
    + intros i p Hp. apply started_nth in Hp as (x & Hx & ->). pose proof (nth_error_In _ _ Hx) as Ix. destruct (match x with EUpload o _ => l_teq v o oid | _ => false end) eqn:U.
      * destruct (Up x Ix U) as (o & To & ->). eapply ends_weaken; [|apply (upload_good v oid d Hv Df Wh o To)]. intros r Hr _ _ _. exact Hr.
      * pose proof (Ot x Ix U) as K. assert (K2 : ends v (partly v oid d) (fun _ => partly v oid d) (fun _ => True) (lfs_p v x)).
        { revert K. generalize (lfs_p v x). clear. intros p. induction p as [r|X a k IH]; cbn [ends]; [auto|]. intros H w Hw. destruct (H w Hw) as [[H1 _] H2]. split; [exact H1|apply IH, H2]. }
        eapply ends_weaken; [|exact K2]. intros r _ y Hy Uy. rewrite Hx in Hy. injection Hy as <-. apply (uploads_dec v oid x) in Uy. congruence.
    + intros i x r Hx Ux En. rewrite E in K. exact (K i r En x Hx Ux).
  - assert (Hp0 : forall i x p, nth_error xs i = Some x -> nth_error (arrived v xs) i = Some p ->
        if (match x with EUpload o _ => l_teq v o oid | _ => false end) then good_p v oid d p else ends v (partly v oid d) (steady v oid d) (fun _ => True) p).
    { intros i x p Hx Hp. unfold arrived in Hp. rewrite nth_error_map, Hx in Hp. injection Hp as <-. pose proof (nth_error_In _ _ Hx) as Ix.
      destruct (match x with EUpload o _ => l_teq v o oid | _ => false end) eqn:U; [|exact (Ot x Ix U)]. destruct (Up x Ix U) as (o & To & ->). apply (upload_good v oid d Hv Df Wh o To). }
    assert (Fin : forall b, same_uploads v oid d xs b (arrived v xs) w -> same_uploads v oid d xs b ts w').
    { intros b Hs. pose proof (linterleave_keeps v (fun ts w0 => length ts = length xs /\ same_uploads v oid d xs b ts w0)) as L.
      destruct (L (fun i ts w X a k H N => conj (eq_trans (set_length _ _ _ _) (proj1 H)) (same_uploads_step v oid d Wh xs b i ts w X a k (proj1 H) (proj2 H) N)) schedule (arrived v xs) w) as [_ L2].
      - split; [apply map_length|exact Hs].
      - rewrite E in L2. exact L2. }
    intros Ae Some1.
    assert (Nw : forall i x p, nth_error xs i = Some x -> uploads v oid x -> nth_error ts i = Some p -> ~ writes v oid d p).
    { intros i x p Hx Ux Hp (q & k & _ & -> & _). destruct (Ae i x Hx Ux) as (r & Er). unfold ended in Er. congruence. }
    assert (K : partly v oid d w' /\ full v oid d w').
    { destruct Some1 as [F0|(i & x & Hx & Ux & Ei)].
      - destruct (Fin false) as (P1 & _ & [P3|[(i & x & p & Hx & Ux & Hp & Wp)|[Hf _]]]); [split; [exact Pa|]; split; [exact Hp0|left; exact F0]|auto| |discriminate].
        exfalso. exact (Nw i x p Hx Ux Hp Wp).
      - destruct (Fin true) as (P1 & _ & [P3|[(j & y & p & Hy & Uy & Hp & Wp)|[_ Fr]]]).
        + split; [exact Pa|]. split; [exact Hp0|]. right. right. split; [reflexivity|]. intros j y p Hy Uy Hp. unfold arrived in Hp. rewrite nth_error_map, Hy in Hp. injection Hp as <-.
          destruct (Up y (nth_error_In _ _ Hy) (proj2 (uploads_dec v oid y) Uy)) as (o & To & ->). apply (upload_good v oid d Hv Df Wh o To).
        + auto.
        + exfalso. exact (Nw j y p Hy Uy Hp Wp).
        + exfalso. pose proof (Fr i x _ Hx Ux Ei) as F. exact (F eq_refl). }
    destruct K as [(_ & An' & _) F]. split; [exact An'|exact F].
Qed.

(** What a download gets meanwhile: the content, or nothing. *)
Theorem C126_downloads : forall v oid d xs schedule w, lenv_ok v -> ids_differ v -> (forall b, (length b <= write_len v b)%nat) -> word_ids w -> announced v w oid d ->
  (exists c, file_has v w oid c /\ In c [None; Some []; Some d]) -> Forall batch_ok xs -> Forall (uploads_only v oid d) xs -> let (ts, _) := linterleave v schedule (arrived v xs) w in
  forall i x r, nth_error xs i = Some x -> downloads v oid x -> ended ts i r -> r = Ok (ROk 200 (BData d)) \/ r = Ok (ROk 200 (BData [])) \/ r = Panic.
Proof.
  intros v oid d xs schedule w Hv Df Wh Wi An Fi Hb Ho. destruct (linterleave v schedule (arrived v xs) w) as [ts w'] eqn:E. intros i x r Hx Dx Ei.
  set (Q := fun (r : res lfs_reply) => r = Ok (ROk 200 (BData d)) \/ r = Ok (ROk 200 (BData [])) \/ r = Panic).
  assert (Weak : forall p : lprog lfs_reply, ends v (partly v oid d) (steady v oid d) (fun _ => True) p -> ends v (partly v oid d) (fun _ => partly v oid d) (fun _ => True) p).
  { clear. intros p. induction p as [r|X a k IH]; cbn [ends]; [auto|]. intros H w Hw. destruct (H w Hw) as [[H1 _] H2]. split; [exact H1|apply IH, H2]. }
  destruct (interleave_ends v (partly v oid d) (fun i r => forall x, nth_error xs i = Some x -> downloads v oid x -> Q r) schedule (arrived v xs) w) as [_ K].
  - split; [exact Wi|]. split; [exact An|exact Fi].
  - intros j p Hp. apply started_nth in Hp as (y & Hy & ->). pose proof (nth_error_In _ _ Hy) as Iy. rewrite Forall_forall in Hb, Ho. specialize (Hb y Iy). specialize (Ho y Iy).
    assert (Skip : ~ downloads v oid y -> ends v (partly v oid d) (fun _ => partly v oid d) (fun _ => True) (lfs_p v y) ->
       ends v (partly v oid d) (fun _ => partly v oid d) (fun r => forall x, nth_error xs j = Some x -> downloads v oid x -> Q r) (lfs_p v y)).
    { intros Nd K. eapply ends_weaken; [|exact K]. intros q _ z Hz Dz. rewrite Hy in Hz. injection Hz as <-. contradiction. }
    assert (Oth : match y with EUpload _ _ => False | _ => True end -> ends v (partly v oid d) (fun _ => partly v oid d) (fun _ => True) (lfs_p v y)).
    { intros Ny. apply Weak. apply (ends_other v (partly v oid d) _ (steady_same v oid d) (steady_more v oid d)); assumption. }
    destruct y as [q|b|b id now|id b|b|o b|o]; try (apply Skip; [exact (fun H => H)|apply Oth; exact Logic.I]).
    + apply Skip; [exact (fun H => H)|]. cbn [uploads_only] in Ho. destruct (l_teq v o oid) eqn:To.
      * rewrite (Ho eq_refl). eapply ends_weaken; [|apply (upload_good v oid d Hv Df Wh o To)]. auto.
      * apply Weak, upload_steady; assumption.
    + destruct (l_teq v o oid) eqn:To; [|apply Skip; [cbn; congruence|apply Oth; exact Logic.I]].
      apply (ends_weaken v _ _ _ Q); [auto|]. intros w0 H0. cbn [lfs_p download_object_p] in *. pose proof H0 as [W0 [[C0 (m & R & Z)] _]].
      destruct (keep_meta_row v (partly v oid d) _ (steady_same v oid d) o w0 H0) as [K1 _]. split; [exact K1|]. clear K1. cbn [lperform].
      destruct (find_meta_any v o w0) as (w1 & _ & [F|F] & _); rewrite F; cbn [snd lthen]; [right; right; reflexivity|].
      rewrite (row_find v oid Hv w0 o m To R). cbn [unwrap_opt lthen]. intros w2 H2. cbn [lperform store_get fst snd]. split; [exact H2|].
      rewrite (row_word v w0 oid m Df W0 (content_word _ _ C0) R). destruct H2 as [_ [_ (c & (p & Ep & Cp & Gp) & Hc)]]. rewrite Ep. cbn [unwrap bind]. rewrite Cp, Gp.
      destruct Hc as [<-|[<-|[<-|[]]]]; cbn; [right; right|right; left|left]; reflexivity.
  - rewrite E in K. exact (K i r Ei x Hx Dx).
Qed.

(** A download while the same content is uploaded again gets an empty file, with status 200. *)
Definition ex_stored : lfs := fst (lfs_run ex_lenv [ex_batch (bs "upload"); EUpload oid1 (bs "good")] ex_start).
Lemma ex_words : word_ids ex_stored.
Proof. intros m Hm. assert (E : map mt_oid (l_meta ex_stored) = [oid1]) by (vm_compute; reflexivity). apply (in_map mt_oid) in Hm. rewrite E in Hm. destruct Hm as [<-|[]]. exact oid1_word. Qed.

(** An accepted upload is stored. *)
Theorem C125_accepted : forall v w oid body, (forall b, (length b <= write_len v b)%nat) -> ids_differ v -> word_ids w -> id_word oid ->
  snd (lfs_upload_object v oid body w) = accepted -> stored v (fst (lfs_upload_object v oid body w)) oid body.
Proof.
  intros v w oid body Wh Df Wi Ho. unfold lfs_upload_object, lfs_get_meta. destruct (find_meta_any v oid w) as (w2 & A & [K|K] & _); [unfold lbind; rewrite K; discriminate|].
  rewrite (lbind_ok _ _ _ _ _ _ _ K). destruct (find (fun r => l_teq v (mt_oid r) oid) (l_meta w)) as [m|] eqn:Fm; [|discriminate].
  pose proof (find_some _ _ Fm) as [Hm Ht]. assert (Em : mt_oid m = oid) by (apply Df; [apply Wi, Hm|exact Ho|exact Ht]). clear K.
  assert (R : object_row v w2 oid m) by (pose proof (find_row v w oid) as R; rewrite Fm in R; exact (row_same _ _ _ _ _ (al_meta _ _ A) R)).
  unfold llift, lbind, store_put. cbn [unwrap_opt]. rewrite Em. destruct (store_path v oid) as [p|e| |] eqn:Ep; try discriminate. destruct (can_open v p) eqn:Ec; [|discriminate]. cbn [andb].
  destruct (_ && _); [|discriminate]. rewrite firstn_all2 by apply Wh. destruct (Z.eqb _ _ && beq (hex_encode (sha256 body)) oid) eqn:B.
  - intros _. apply andb_true_iff in B as [B1 B2]. apply Z.eqb_eq in B1. apply beq_eq in B2. cbn [lret fst]. split.
    + split; [rewrite <- B2; apply hex_lower|]. exists m. split; [exact R|symmetry; exact B1].
    + exists p. split; [exact Ep|]. split; [exact Ec|]. cbn [l_files]. apply fs_get_put_same.
  - destruct (lunwrap _ _) as [w3 [u|e| |]]; discriminate.
Qed.
Lemma run_full : forall v oid d p w, (forall b, (length b <= write_len v b)%nat) -> good_p v oid d p -> partly v oid d w -> full v oid d w \/ writes v oid d p ->
  partly v oid d (fst (lrun v p w)) /\ full v oid d (fst (lrun v p w)).
Proof.
  intros v oid d p w Wh. revert w. induction p as [r|X a k IH]; intros w Hg Hw Hf.
  - cbn [lrun llift fst]. split; [exact Hw|]. destruct Hf as [F|(q & k & _ & E & _)]; [exact F|discriminate].
  - destruct (good_next v oid d Wh _ w Hg Hw) as (G1 & G2 & G3). cbn [next fst snd] in *. cbn [lrun]. destruct (lperform v a w) as [w1 r]. cbn [fst snd] in *. apply IH; auto.
Qed.
(** Requests one after the other, when every upload of the object carries its content; whatever statements fail. *)
Theorem C125_again : forall v oid d events w, lenv_ok v -> ids_differ v -> (forall b, (length b <= write_len v b)%nat) -> word_ids w -> stored v w oid d ->
  Forall batch_ok events -> Forall (uploads_only v oid d) events -> stored v (fst (lfs_run v events w)) oid d.
Proof.
  intros v oid d events w Hv Df Wh Wi St Hb Ho. enough (K : partly v oid d (fst (lfs_run v events w)) /\ full v oid d (fst (lfs_run v events w))).
  { destruct K as [(_ & A & _) F]. split; assumption. }
  assert (K0 : partly v oid d w /\ full v oid d w).
  { destruct St as [A F]. split; [|exact F]. split; [exact Wi|]. split; [exact A|]. exists (Some d). split; [exact F|right; right; left; reflexivity]. }
  clear Wi St. revert w K0. induction events as [|x events IH]; intros w K0; [exact K0|]. inversion Hb as [|? ? B1 B2]; subst. inversion Ho as [|? ? O1 O2]; subst. cbn [lfs_run].
  destruct (lfs_handle v x w) as [w1 a] eqn:E1. pose proof (IH B2 O2 w1) as K. destruct (lfs_run v events w1) as [w2 b]. cbn [fst] in *. apply K.
  replace w1 with (fst (lrun v (lfs_p v x) w)) by (rewrite ldoes_event, E1; reflexivity). destruct K0 as [Pa Fu]. apply run_full; [exact Wh| |exact Pa|left; exact Fu].
  assert (Oth : match x with EUpload _ _ => False | _ => True end -> good_p v oid d (lfs_p v x)).
  { intros Nx. apply (steady_good v oid d _ (fun _ => True)). apply (ends_other v (partly v oid d) _ (steady_same v oid d) (steady_more v oid d)); assumption. }
  destruct x as [q|b0|b0 id now|id b0|b0|o b0|o]; try (apply Oth; exact Logic.I). cbn [uploads_only lfs_p] in *. destruct (l_teq v o oid) eqn:To.
  - rewrite (O1 eq_refl). apply (upload_good v oid d Hv Df Wh o To).
  - apply (steady_good v oid d _ (fun _ => True)). apply upload_steady; assumption.
Qed.
Lemma ex_stored_ok : stored ex_lenv ex_stored oid1 (bs "good").
Proof.
  assert (E : ex_stored = fst (lfs_upload_object ex_lenv oid1 (bs "good") (fst (lfs_run ex_lenv [ex_batch (bs "upload")] ex_start)))).
  { unfold ex_stored. generalize (ex_batch (bs "upload")) (EUpload oid1 (bs "good")) (lfs_upload_object ex_lenv oid1 (bs "good")) ex_start (eq_refl : lfs_handle ex_lenv (EUpload oid1 (bs "good")) = lfs_upload_object ex_lenv oid1 (bs "good")).
    clear. intros x y f w E. cbn [lfs_run]. destruct (lfs_handle ex_lenv x w) as [w1 a]. rewrite E. cbn [fst]. destruct (f w1). reflexivity. }
  rewrite E. apply C125_accepted; [intros b; apply le_n|exact ex_ids_differ| |exact oid1_word|vm_compute; reflexivity].
  intros m Hm. assert (K : map mt_oid (l_meta (fst (lfs_run ex_lenv [ex_batch (bs "upload")] ex_start))) = [oid1]) by (vm_compute; reflexivity).
  apply (in_map mt_oid) in Hm. rewrite K in Hm. destruct Hm as [<-|[]]. exact oid1_word.
Qed.
(** A content that was accepted is gone after an upload that is refused. *)
Theorem C125_refuted : exists v w oid d body, lenv_ok v /\ ids_differ v /\ (forall b, (length b <= write_len v b)%nat) /\ word_ids w /\ l_fails w = [] /\ stored v w oid d /\
  snd (lfs_upload_object v oid body w) = Ok (RFail 406 (bs "Header not acceptable!")) /\ snd (lfs_download_object v oid w) = Ok (ROk 200 (BData d)) /\
  snd (lfs_download_object v oid (fst (lfs_upload_object v oid body w))) = Panic.
Proof.
  exists ex_lenv, ex_stored, oid1, (bs "good"), (bs "evil"). split; [exact ex_lenv_ok|]. split; [exact ex_ids_differ|]. split; [intros b; apply le_n|]. split; [exact ex_words|].
  split; [vm_compute; reflexivity|]. split; [exact ex_stored_ok|]. split; [vm_compute; reflexivity|]. split; vm_compute; reflexivity.
Qed.
Definition other_object : bytes := bs "00ff00ff".
Definition ex_together : list lfs_event :=
  [EDownload oid1; EUpload other_object (bs "x"); EBatch (Some (bs "upload", [mkObj other_object 7 [] []; mkObj oid1 4 [] []])); EDownload oid1].
Example C125_ex : lenv_ok ex_lenv /\ ids_differ ex_lenv /\ word_ids ex_stored /\ stored ex_lenv ex_stored oid1 (bs "good") /\ Forall batch_ok ex_together /\ Forall (fun x => ~ uploads ex_lenv oid1 x) ex_together /\
  Forall (uploads_only ex_lenv oid1 (bs "good")) (EUpload oid1 (bs "good") :: ex_together) /\ l_fails ex_stored = [] /\
  nth_error (fst (linterleave ex_lenv [0; 2; 2; 2; 1; 1; 3; 1; 1; 3; 2; 0]%nat (arrived ex_lenv ex_together) ex_stored)) 3 = Some (LRet (Ok (ROk 200 (BData (bs "good"))))).
Proof.
  split; [exact ex_lenv_ok|]. split; [exact ex_ids_differ|]. split; [exact ex_words|]. split; [exact ex_stored_ok|]. split.
  { repeat constructor; try apply oid1_word; discriminate. }
  split. { repeat constructor; intros K; try contradiction. vm_compute in K. discriminate. }
  split. { repeat constructor. cbn [uploads_only]. intros K. vm_compute in K. discriminate. }
  split; [vm_compute; reflexivity|]. vm_compute. reflexivity.
Qed.

Theorem C126_refuted : exists v oid d xs schedule w i x, lenv_ok v /\ ids_differ v /\ (forall b, (length b <= write_len v b)%nat) /\ word_ids w /\ l_fails w = [] /\ stored v w oid d /\ d <> [] /\
  Forall batch_ok xs /\ Forall (uploads_only v oid d) xs /\ nth_error xs i = Some x /\ downloads v oid x /\
  ended (fst (linterleave v schedule (arrived v xs) w)) i (Ok (ROk 200 (BData []))).
Proof.
  exists ex_lenv, oid1, (bs "good"), [EUpload oid1 (bs "good"); EDownload oid1], [0; 0; 1; 1]%nat, ex_stored, 1%nat, (EDownload oid1). split; [exact ex_lenv_ok|]. split; [exact ex_ids_differ|].
  split; [intros b; apply le_n|]. split; [exact ex_words|]. split; [vm_compute; reflexivity|]. split; [exact ex_stored_ok|]. split; [discriminate|].
  split; [repeat constructor|]. split; [repeat constructor|]. split; [reflexivity|]. split; [exact (proj1 ex_lenv_ok oid1)|]. vm_compute. reflexivity.
Qed.
Definition ex_twice : list lfs_event := [EUpload oid1 (bs "good"); EUpload oid1 (bs "good"); EDownload oid1].
Example C126_ex : word_ids ex_stored /\ announced ex_lenv ex_stored oid1 (bs "good") /\ (exists c, file_has ex_lenv ex_stored oid1 c /\ In c [None; Some []; Some (bs "good")]) /\
  Forall batch_ok ex_twice /\ Forall (uploads_only ex_lenv oid1 (bs "good")) ex_twice /\
  map (fun p => match p with LRet r => Some r | _ => None end) (fst (linterleave ex_lenv [0; 0; 1; 1; 0; 2; 2; 1]%nat (arrived ex_lenv ex_twice) ex_stored)) =
  [Some accepted; Some accepted; Some (Ok (ROk 200 (BData (bs "good"))))].
Proof.
  split; [exact ex_words|]. split; [apply ex_stored_ok|]. split; [exists (Some (bs "good")); split; [apply ex_stored_ok|right; right; left; reflexivity]|].
  split; [repeat constructor|]. split; [repeat constructor|]. vm_compute. reflexivity.
Qed.

(** The programs are the handlers; a request that is served alone is answered as by the handler. *)
Theorem C126_programs : forall v x w, lrun v (lfs_p v x) w = lfs_handle v x w.
Proof. intros v x w. apply ldoes_event. Qed.

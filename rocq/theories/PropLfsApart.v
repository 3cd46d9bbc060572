(** Requests to git-lfs served at the same time that are about other things (C127), and
    objects announced at the same time (C128). *)

From Coq Require Import ZArith.
From Verif Require Import Base BaseLemmas Digest ModelUtils ModelObject ModelPkt ModelStorage ModelLfs ModelLfsConc.
From Verif Require Import SpecObject SpecLfs SpecLfsConc ProofObject ProofLfs ProofContent ProofLfsConc ProofLfsApart PropLocks PropContent PropLfsConc.
From Verif Require ModelConc.
Open Scope N_scope.

(** What any request writes. *)
Definition writes_of (v : lenv) (x : lfs_event) {X} (a : lact X) : Prop :=
  match a with
  | AExecLocks _ => refs_of x <> []
  | AExecMeta f => (exists op l o z, x = EBatch (Some (op, l)) /\ In o (map ob_oid l) /\ f = insert_meta v (mkMeta o z true)) \/ exists o b, x = EUpload o b /\ f = remove_meta v o
  | _ => True
  end.
Section Event.
Context (v : lenv).
Notation always := (fun _ : lfs => True).
Lemma event_filtered : forall x r p c l, only v always (@writes_of v x) anything (filtered_p v r p c l).
Proof.
  intros. unfold filtered_p. apply only_any; [apply only_act; exact Logic.I|]. intros o. apply only_any; [|intros; exact Logic.I]. destruct o as [[k d]|]; exact Logic.I.
Qed.
Lemma event_updated : forall x f, refs_of x <> [] -> only v always (@writes_of v x) anything (updated_p (ldo (AExecLocks f))).
Proof. intros x f H. apply only_any; [apply only_act; exact H|]. intros [|]; [apply only_act; exact Logic.I|exact Logic.I]. Qed.
Lemma event_batch : forall op l0 l, (forall o, In o l -> In o l0) -> only v always (@writes_of v (EBatch (Some (op, l0)))) anything (batch_objects_p v op l).
Proof.
  intros op l0 l. induction l as [|o l IH]; intros H; [exact Logic.I|]. cbn [batch_objects_p]. apply only_any; [|intros; apply only_any; [apply IH; intros; apply H; right; assumption|intros; exact Logic.I]].
  assert (Ho : In (ob_oid o) (map ob_oid l0)) by (apply in_map, H; left; reflexivity). unfold batch_object_p. apply only_any; [apply only_act; exact Logic.I|]. intros r.
  apply only_any; [destruct r as [m|]; [apply only_act; exact Logic.I|exact Logic.I]|]. intros h.
  assert (K : only v always (@writes_of v (EBatch (Some (op, l0)))) anything (if beq op (bs "upload") then let^ x := lpunwrap (put_meta_p v (ob_oid o) (ob_size o)) in lpret (represent v o x (bs "upload"))
      else lpret (mkRepr (ob_oid o) (ob_size o) None None (Some (404, bs "Not found"))))).
  { destruct (beq op (bs "upload")); [|exact Logic.I]. apply only_any; [apply only_unwrap|intros; exact Logic.I]. unfold put_meta_p. apply only_any; [apply only_act; exact Logic.I|]. intros [m|]; [exact Logic.I|].
    apply only_any; [|intros [|]; exact Logic.I]. apply only_any; [|intros; exact Logic.I]. apply only_act. left. exists op, l0, (ob_oid o). eexists. split; [reflexivity|]. split; [exact Ho|reflexivity]. }
  destruct r; [destruct h; [exact Logic.I|exact K]|exact K].
Qed.
Lemma event_writes : forall x, only v always (@writes_of v x) anything (lfs_p v x).
Proof.
  intros [q|[rq|]|[rq|] i n|i [[rq|]|]|[[op l]|]|o b|o]; cbn [lfs_p]; try exact Logic.I.
  - unfold list_p. cbv zeta. apply only_any; [apply only_try, event_filtered|]. intros [[l n]|]; exact Logic.I.
  - unfold verify_p, lpbind at 1. cbn [unwrap_opt lthen]. cbv zeta. apply only_any; [apply only_try, event_filtered|]. intros [[l n]|]; exact Logic.I.
  - unfold lock_p, lpbind at 1. cbn [unwrap_opt lthen]. apply only_any; [apply only_try, event_filtered|]. intros [[[|x l] nx]|]; try exact Logic.I. cbv zeta.
    apply only_any; [|intros [|]; exact Logic.I]. apply only_try. unfold add_lock_p. apply only_any; [apply only_act; exact Logic.I|]. intros row. apply only_any; [|intros [|]; exact Logic.I].
    destruct row as [[k d]|].
    + apply only_any; [exact Logic.I|]. intros old. apply event_updated. discriminate.
    + unfold inserted_p. apply only_any; [apply only_act; discriminate|intros; exact Logic.I].
  - unfold unlock_p. destruct i as [|c i]; [exact Logic.I|]. unfold lpbind at 1. cbn [unwrap_opt lthen]. apply only_any; [apply only_try|].
    + unfold delete_lock_p. apply only_any; [apply only_act; exact Logic.I|]. intros row. destruct row as [[k d]|]; [|exact Logic.I]. apply only_any; [exact Logic.I|]. intros l.
      destruct (scan_locks _ _ _ _) as [[x rest]|]; [|exact Logic.I]. destruct (lk_id x); [exact Logic.I|]. destruct rest.
      * apply only_any; [apply only_act; discriminate|]. intros [|]; exact Logic.I.
      * apply only_any; [apply event_updated; discriminate|]. intros [|]; exact Logic.I.
    + intros [x|]; [|exact Logic.I]. destruct (_ && _); exact Logic.I.
  - unfold unlock_p. destruct i; exact Logic.I.
  - unfold unlock_p. destruct i; exact Logic.I.
  - unfold batch_p, lpbind at 1. cbn [unwrap_opt lthen]. apply only_any; [|intros; exact Logic.I]. apply event_batch. auto.
  - unfold upload_object_p. apply only_any; [apply only_act; exact Logic.I|]. intros [m|]; [|exact Logic.I]. unfold lpbind at 1. cbn [unwrap_opt lthen]. apply only_any.
    + unfold put_p. apply only_any; [apply only_act; exact Logic.I|]. intros p. apply only_any; [apply only_act; exact Logic.I|intros; exact Logic.I].
    + intros [|]; [exact Logic.I|]. apply only_any; [apply only_unwrap|intros; exact Logic.I]. unfold delete_meta_p. apply only_any; [|intros [|]; exact Logic.I]. apply only_act. right. exists o, b. auto.
  - unfold download_object_p. apply only_any; [apply only_act; exact Logic.I|]. intros [m|]; [|exact Logic.I]. unfold lpbind at 1. cbn [unwrap_opt lthen].
    apply only_any; [apply only_act; exact Logic.I|intros; exact Logic.I].
Qed.
End Event.
Lemma only_always : forall v I P A (Q : res A -> Prop) p, only v (fun _ => True) P Q p -> only v I P Q p.
Proof. intros v I P A Q p. induction p as [r|X a k IH]; cbn [only]; [auto|]. intros [H1 H2]. split; [exact H1|]. intros w _. apply IH, H2, Logic.I. Qed.
Lemma same_locks_kept : forall v X (a : lact X) w, match a with AExecLocks _ => False | _ => True end -> l_locks (fst (lperform v a w)) = l_locks w.
Proof.
  intros v X a w H. destruct a as [k|k|f|f| |o|o|p b|m]; try contradiction; cbn [lperform]; try reflexivity.
  - destruct (find_lock_any v k w) as (w' & A & [E|E] & _); rewrite E; apply A.
  - destruct (find_meta_any v k w) as (w' & A & [E|E] & _); rewrite E; apply A.
  - destruct (exec_meta_any f w) as (w' & b & E & L & _). rewrite E. exact L.
  - destruct (lattempt_any w) as (w' & b & E & A & _). rewrite E. apply A.
  - unfold file_create. destruct (store_path v o); try reflexivity. destruct (_ && _ && _); reflexivity.
Qed.
Lemma refs_cases : forall x, refs_of x = [] \/ exists r, refs_of x = [r].
Proof. intros [q|[rq|]|[rq|] i n|i [[rq|]|]|b|o b|o]; cbn [refs_of]; eauto. Qed.
Lemma refs_objects : forall x r, refs_of x = [r] -> objects_of x = [].
Proof. intros [q|[rq|]|[rq|] i n|i [[rq|]|]|b|o b|o] r H; try discriminate; reflexivity. Qed.

(** ** C127: others are not noticed *)

Theorem C127_locks : forall v xs schedule w i x ref r, lenv_ok v -> l_fails w = [] -> nth_error xs i = Some x -> refs_of x = [ref] ->
  (forall j y, nth_error xs j = Some y -> j <> i -> unrelated v x y) -> let (ts, w') := linterleave v schedule (arrived v xs) w in
  ended ts i r -> snd (lfs_handle v x w) = r /\ same_locks v w' (fst (lfs_handle v x w)) ref.
Proof.
  intros v xs schedule w i x ref r Hv Fw Nx Rx Un. destruct (linterleave v schedule (arrived v xs) w) as [ts w'] eqn:E. intros En. rewrite <- C126_programs.
  pose proof (interleave_local v calm (@on_ref v ref) (fun w w' => same_locks v w w' ref)) as K.
  specialize (K (fun w => eq_refl) (fun a b H => eq_sym H) (fun a b c H1 H2 => eq_trans H1 H2) (ref_local v Hv ref) (fun X a w _ H => perform_fails v X a w H)
    i (lfs_p v x) schedule (arrived v xs) w). rewrite E in K. apply K; clear K; [|apply only_lock_event; assumption|exact Fw| |exact En].
  - unfold arrived. rewrite nth_error_map, Nx. reflexivity.
  - intros j q Hq Nj. apply started_nth in Hq as (y & Hy & ->). specialize (Un j y Hy Nj). destruct (refs_cases y) as [Ry|(r2 & Ry)].
    + refine (only_ends v calm (@writes_of v y) _ _ _ _ _ (only_always _ _ _ _ _ _ (event_writes v y))). intros X a w0 Ha Hw0. split; [apply perform_fails, Hw0|].
      unfold same_locks. rewrite same_locks_kept; [reflexivity|]. destruct a; try exact Logic.I. cbn [writes_of] in Ha. contradiction.
    + refine (only_ends v calm (@on_ref v r2) _ _ _ _ _ (only_lock_event v r2 y Ry)). intros X a w0 Ha Hw0. split; [apply perform_fails, Hw0|].
      apply (ref_foreign v Hv ref X a r2); [|exact Ha|exact Hw0]. apply (proj1 Un); [rewrite Rx|rewrite Ry]; left; reflexivity.
Qed.
Lemma objects_kept : forall v ref X (a : lact X) w, on_ref v ref a -> calm w -> l_meta (fst (lperform v a w)) = l_meta w /\ l_files (fst (lperform v a w)) = l_files w.
Proof.
  intros v ref X a w Ha Hw. destruct a as [k|k|f|f| |o|o|p b|m]; cbn [on_ref] in Ha; try contradiction.
  - rewrite find_quiet by exact Hw. auto.
  - cbn [lperform]. destruct (exec_locks_any f w) as (w' & b & E & M & F & _). rewrite E. auto.
  - rewrite back_quiet by exact Hw. auto.
Qed.
Theorem C127_objects : forall v xs schedule w i x r, lenv_ok v -> ids_differ v -> l_fails w = [] -> long_store v w -> Forall (fun y => Forall long_id (objects_of y)) xs ->
  nth_error xs i = Some x -> refs_of x = [] ->
  (forall j y, nth_error xs j = Some y -> j <> i -> unrelated v x y) -> let (ts, w') := linterleave v schedule (arrived v xs) w in
  ended ts i r -> snd (lfs_handle v x w) = r /\ forall oid, In oid (objects_of x) -> same_object v w' (fst (lfs_handle v x w)) oid.
Proof.
  intros v xs schedule w i x r Hv Df Fw Ls Ids Nx Rx Un. destruct (linterleave v schedule (arrived v xs) w) as [ts w'] eqn:E. intros En. rewrite <- C126_programs.
  rewrite Forall_forall in Ids. assert (Lx : Forall long_id (objects_of x)) by (apply Ids; eapply nth_error_In, Nx).
  pose proof (interleave_local v (tidy v) (@on_objects v (objects_of x)) (same_objects v (objects_of x))) as K.
  assert (Re : forall w, same_objects v (objects_of x) w w) by (intros w0 o _; split; reflexivity).
  assert (Sy : forall a b, same_objects v (objects_of x) a b -> same_objects v (objects_of x) b a) by (intros a b H o Ho; destruct (H o Ho) as [H1 H2]; split; [symmetry; exact H1|intros p Hp; symmetry; apply H2, Hp]).
  assert (Tr : forall a b c, same_objects v (objects_of x) a b -> same_objects v (objects_of x) b c -> same_objects v (objects_of x) a c)
    by (intros a b c H G o Ho; destruct (H o Ho) as [H1 H2]; destruct (G o Ho) as [G1 G2]; split; [rewrite H1; exact G1|intros p Hp; rewrite H2 by exact Hp; apply G2, Hp]).
  specialize (K Re Sy Tr (object_local v (objects_of x) Lx) (object_tidy v (objects_of x) Lx) i (lfs_p v x) schedule (arrived v xs) w). rewrite E in K. apply K; clear K; [| |split; assumption| |exact En].
  - unfold arrived. rewrite nth_error_map, Nx. reflexivity.
  - apply only_object_event; auto.
  - intros j q Hq Nj. apply started_nth in Hq as (y & Hy & ->). specialize (Un j y Hy Nj). assert (Ly : Forall long_id (objects_of y)) by (apply Ids; eapply nth_error_In, Hy).
    destruct (refs_cases y) as [Ry|(r2 & Ry)].
    + refine (only_ends v (tidy v) (@on_objects v (objects_of y)) _ _ _ _ _ (only_object_event v Df (objects_of y) Ly y Ry (fun o H => H))). intros X a w0 Ha Hw0. split; [apply (object_tidy v (objects_of y)); assumption|].
      apply (object_foreign v (objects_of x) (objects_of y)); try assumption. exact (proj2 Un).
    + assert (On : only v (tidy v) (@on_ref v r2) anything (lfs_p v y)).
      { generalize (only_lock_event v r2 y Ry). generalize (lfs_p v y). intros p. induction p as [r0|X a k IH]; cbn [only]; [auto|]. intros [H1 H2]. split; [exact H1|]. intros w0 [Hc _]. apply IH, H2, Hc. }
      refine (only_ends v (tidy v) (@on_ref v r2) _ _ _ _ _ On). intros X a w0 Ha Hw0. destruct (objects_kept v r2 X a w0 Ha (proj1 Hw0)) as [E1 E2]. split.
      * split; [apply perform_fails, Hw0|]. unfold long_store. rewrite E1, E2. apply Hw0.
      * intros o _. unfold same_object. rewrite E1, E2. auto.
Qed.

(** ** C128: announced at the same time *)

(** A batch about objects that no other request is about. *)
Theorem C128_apart : forall v xs schedule w i op objs r, lenv_ok v -> ids_differ v -> l_fails w = [] -> long_store v w -> key_insert_ok v = true ->
  Forall (fun y => Forall long_id (objects_of y)) xs -> nth_error xs i = Some (EBatch (Some (op, objs))) -> Forall object_ok objs -> ForallOrdPairs (apart v) objs ->
  (forall j y, nth_error xs j = Some y -> j <> i -> unrelated v (EBatch (Some (op, objs))) y) ->
  ended (fst (linterleave v schedule (arrived v xs) w)) i r ->
  exists entries, r = Ok (ROk 200 (BBatch entries)) /\ length entries = length objs /\ forall k o, nth_error objs k = Some o -> exists e n, nth_error entries k = Some e /\ entry v w op o e n.
Proof.
  intros v xs schedule w i op objs r Hv Df Fw Ls Ki Ids Nx Ob Ap Un En. pose proof (C127_objects v xs schedule w i _ r Hv Df Fw Ls Ids Nx eq_refl Un) as K.
  destruct (linterleave v schedule (arrived v xs) w) as [ts w']. destruct (K En) as [E _]. cbn [lfs_handle] in E.
  destruct (C68_entries v w op objs Hv Fw Ki (fun m Hm => proj1 (proj1 Ls m Hm)) Ob Ap) as (entries & new & B & L1 & L2 & En2). rewrite B in E. cbn [snd] in E. exists entries. split; [symmetry; exact E|].
  split; [exact L1|]. intros k o Ho. destruct (En2 k o Ho) as (e & n & H1 & _ & H3). exists e, n. auto.
Qed.

(** Objects that were announced before may be in any batch at any time. *)
Section Known.
Context (v : lenv) (Hv : lenv_ok v) (os : list bytes).
Definition has_rows (w : lfs) : Prop := l_fails w = [] /\ word_ids w /\ forall o, In o os -> exists m, In m (l_meta w) /\ l_teq v (mt_oid m) o = true.
Lemma rows_same : forall w w', l_meta w' = l_meta w -> l_fails w' = [] -> has_rows w -> has_rows w'.
Proof. intros w w' E F (_ & H2 & H3). unfold has_rows, word_ids. rewrite E. auto. Qed.
Lemma rows_find : forall w o, has_rows w -> In o os -> exists m, lperform v (AFindMeta o) w = (w, Ok (Some m)) /\ id_word (mt_oid m).
Proof.
  intros w o (Fw & Wi & Hr) Ho. rewrite meta_quiet by exact Fw. destruct (find _ (l_meta w)) as [m|] eqn:E.
  - exists m. split; [reflexivity|]. apply Wi. apply find_some in E as [E _]. exact E.
  - destruct (Hr o Ho) as (m & Hm & Ht). pose proof (find_none _ _ E m Hm) as K. cbn beta in K. rewrite K in Ht. discriminate.
Qed.
Lemma rows_batch : forall op l, (forall o, In o l -> In (ob_oid o) os) -> ends v has_rows (fun _ => has_rows) (fun r => exists e, r = Ok e /\ length e = length l) (batch_objects_p v op l).
Proof.
  intros op l. induction l as [|o l IH]; intros H; [exists []; split; reflexivity|]. cbn [batch_objects_p].
  assert (Ho : In (ob_oid o) os) by (apply H; left; reflexivity). unfold lpbind at 1. apply (ends_then v has_rows _ _ _ (fun r => exists e, r = Ok e)).
  - unfold batch_object_p, lpbind at 1. apply (ends_then v has_rows _ _ _ (fun r => exists m, r = Ok (Some m) /\ id_word (mt_oid m))).
    + apply ends_do. intros w Hw. destruct (rows_find w _ Hw Ho) as (m & -> & Hm). cbn [fst snd]. split; [exact Hw|]. exists m. auto.
    + intros r (m & -> & Hm). unfold lpbind at 1. apply (ends_then v has_rows _ _ _ (fun r => exists b, r = Ok b)).
      * apply ends_do. intros w Hw. cbn [lperform]. unfold store_exist. rewrite store_path_word by exact Hm. cbn [fst snd bind]. split; [exact Hw|]. eexists. reflexivity.
      * intros r (b & ->). destruct b; [eexists; reflexivity|]. destruct (beq op (bs "upload")); [|eexists; reflexivity].
        unfold lpbind at 1. apply (ends_then v has_rows _ _ _ (fun r => exists m, r = Ok m)); [|intros r (m2 & ->); eexists; reflexivity].
        unfold lpunwrap. apply (ends_then v has_rows _ _ _ (fun r => exists m, r = Ok m)); [|intros r (m2 & ->); eexists; reflexivity].
        unfold put_meta_p, lpbind at 1. apply (ends_then v has_rows _ _ _ (fun r => exists m, r = Ok (Some m))); [|intros r (m2 & ->); eexists; reflexivity].
        apply ends_do. intros w Hw. destruct (rows_find w _ Hw Ho) as (m2 & -> & _). cbn [fst snd]. split; [exact Hw|]. exists m2. reflexivity.
  - intros r (e & ->). unfold lpbind. apply (ends_then v has_rows _ _ _ (fun r => exists e, r = Ok e /\ length e = length l)).
    + apply IH. intros; apply H; right; assumption.
    + intros r (es & -> & L). exists (e :: es). split; [reflexivity|]. cbn [length]. rewrite L. reflexivity.
Qed.
Lemma rows_other : forall x, batch_ok x -> (forall o, In o os -> ~ uploads v o x) -> ends v has_rows (fun _ => has_rows) anything (lfs_p v x).
Proof.
  intros x Hb Nu. refine (only_ends v has_rows (@writes_of v x) _ _ _ _ _ (only_always _ _ _ _ _ _ (event_writes v x))). intros X a w Ha Hw. pose proof Hw as (Fw & Wi & Hr).
  pose proof (perform_fails v X a w Fw) as Fw'. destruct a as [k|k|f|f| |o|o|p b|m].
  1-3, 5-9: apply (rows_same w); [|exact Fw'|exact Hw].
  - rewrite find_quiet by exact Fw. reflexivity.
  - rewrite meta_quiet by exact Fw. reflexivity.
  - cbn [lperform]. destruct (exec_locks_any f w) as (w' & b & E & M & _). rewrite E. exact M.
  - rewrite back_quiet by exact Fw. reflexivity.
  - reflexivity.
  - cbn [lperform]. unfold file_create. destruct (store_path v o); try reflexivity. destruct (_ && _ && _); reflexivity.
  - reflexivity.
  - reflexivity.
  - rewrite exec_quiet in Fw' by exact Fw; rewrite exec_quiet by exact Fw. cbn [writes_of] in Ha. destruct Ha as [(op & l & o & z & -> & Ho & ->)|(o & b & -> & ->)].
    + unfold insert_meta in *. destruct (_ && _ && _); [|exact Hw]. split; [exact Fw'|]. cbn [fst l_meta]. split.
      * intros m Hm. cbn [l_meta] in Hm. apply in_app_or in Hm as [Hm|[<-|[]]]; [apply Wi, Hm|]. cbn [mt_oid].
        apply in_map_iff in Ho as (y & <- & Hy). cbn [batch_ok] in Hb. rewrite Forall_forall in Hb. apply Hb, Hy.
      * intros o2 Ho2. destruct (Hr o2 Ho2) as (m & Hm & Ht). exists m. split; [apply in_or_app; left; exact Hm|exact Ht].
    + unfold remove_meta in *. split; [exact Fw'|]. cbn [fst l_meta]. split.
      * intros m Hm. cbn [l_meta] in Hm. apply filter_In in Hm as [Hm _]. apply Wi, Hm.
      * intros o2 Ho2. destruct (Hr o2 Ho2) as (m & Hm & Ht). exists m. split; [|exact Ht]. apply filter_In. split; [exact Hm|]. destruct (l_teq v (mt_oid m) o) eqn:B; [|reflexivity]. exfalso. apply (Nu o2 Ho2).
        cbn [uploads]. destruct Hv as (_ & Sy & Tr & _). apply (Tr o (mt_oid m) o2); [rewrite Sy; exact B|exact Ht].
Qed.
End Known.
Theorem C128_known : forall v xs schedule w i op objs r, lenv_ok v -> l_fails w = [] -> word_ids w -> Forall batch_ok xs -> nth_error xs i = Some (EBatch (Some (op, objs))) ->
  (forall o, In o objs -> ~ no_object_row v w (ob_oid o)) -> (forall o y, In o objs -> In y xs -> ~ uploads v (ob_oid o) y) ->
  ended (fst (linterleave v schedule (arrived v xs) w)) i r -> exists entries, r = Ok (ROk 200 (BBatch entries)) /\ length entries = length objs.
Proof.
  intros v xs schedule w i op objs r Hv Fw Wi Hb Nx Rows Nu En.
  destruct (interleave_ends v (has_rows v (map ob_oid objs)) (fun j r => j = i -> exists entries, r = Ok (ROk 200 (BBatch entries)) /\ length entries = length objs) schedule (arrived v xs) w) as [_ K].
  - split; [exact Fw|]. split; [exact Wi|]. intros o Ho. apply in_map_iff in Ho as (y & <- & Hy). specialize (Rows y Hy). unfold no_object_row in Rows.
    destruct (find (fun m => l_teq v (mt_oid m) (ob_oid y)) (l_meta w)) as [m|] eqn:E; [apply find_some in E; exists m; exact E|]. exfalso. apply Rows. apply Forall_forall. intros m Hm. exact (find_none _ _ E m Hm).
  - intros j p Hp. apply started_nth in Hp as (y & Hy & ->). destruct (Nat.eq_dec j i) as [->|Nj].
    + rewrite Nx in Hy. injection Hy as <-. apply (ends_weaken _ _ _ _ (fun r => exists entries, r = Ok (ROk 200 (BBatch entries)) /\ length entries = length objs)); [auto|].
      cbn [lfs_p]. unfold batch_p, lpbind at 1. cbn [unwrap_opt lthen]. unfold lpbind. apply (ends_then v _ _ _ _ (fun r => exists e, r = Ok e /\ length e = length objs)).
      * apply rows_batch. intros o Ho. apply in_map, Ho.
      * intros r0 (e & -> & L). exists e. auto.
    + apply (ends_weaken _ _ _ _ anything); [intros r0 _ K; contradiction|]. apply nth_error_In in Hy. apply rows_other; [exact Hv|rewrite Forall_forall in Hb; apply Hb, Hy|].
      intros o Ho. apply in_map_iff in Ho as (z & <- & Hz). apply Nu; assumption.
  - exact (K i r En eq_refl).
Qed.

(** ** Cases *)

Lemma start_long : long_store ex_lenv ex_start.
Proof. split; intros ? ?; contradiction. Qed.
Definition ex_many : list lfs_event :=
  [ELock (Some (mkLockReq (bs "a.bin") (bs "refs/heads/one"))) (bs "id1") (bs "t1");
   ELock (Some (mkLockReq (bs "a.bin") (bs "refs/heads/two"))) (bs "id2") (bs "t2");
   EBatch (Some (bs "upload", [mkObj oid1 4 [] []])); EBatch (Some (bs "upload", [mkObj other_object 7 [] []]))].
Example C127_ex : lenv_ok ex_lenv /\ ids_differ ex_lenv /\ l_fails ex_start = [] /\ long_store ex_lenv ex_start /\ Forall (fun y => Forall long_id (objects_of y)) ex_many /\
  (forall i x j y, nth_error ex_many i = Some x -> nth_error ex_many j = Some y -> j <> i -> unrelated ex_lenv x y) /\ key_insert_ok ex_lenv = true /\
  map (fun p => match p with LRet (Ok (ROk c _)) => Some c | _ => None end) (fst (linterleave ex_lenv [0; 1; 2; 3; 0; 1; 2; 3; 0; 1; 2; 3; 0; 1; 2; 3]%nat (arrived ex_lenv ex_many) ex_start)) = [Some 201; Some 201; Some 200; Some 200].
Proof.
  split; [exact ex_lenv_ok|]. split; [exact ex_ids_differ|]. split; [reflexivity|]. split; [exact start_long|]. split.
  { unfold ex_many. apply Forall_cons; [apply Forall_nil|]. apply Forall_cons; [apply Forall_nil|]. apply Forall_cons; [|apply Forall_cons; [|apply Forall_nil]]; (apply Forall_cons; [|apply Forall_nil]).
    - split; [exact oid1_word|]. vm_compute. discriminate.
    - split; [split; [discriminate|reflexivity]|]. vm_compute. discriminate. }
  split; [|split; [reflexivity|vm_compute; reflexivity]].
  intros [|[|[|[|i]]]] x [|[|[|[|j]]]] y Hx Hy Ne; try congruence; cbn [nth_error ex_many] in Hx, Hy; try (destruct i; discriminate); try (destruct j; discriminate);
    injection Hx as <-; injection Hy as <-; (split; intros a b Ha Hb; cbn [refs_of objects_of lr_ref map ob_oid] in Ha, Hb; try contradiction; destruct Ha as [<-|[]]; destruct Hb as [<-|[]]; vm_compute; reflexivity).
Qed.
(** Both SELECTs find nothing, and the second INSERT fails. *)
Theorem C128_refuted : exists v xs schedule w i op objs, lenv_ok v /\ ids_differ v /\ l_fails w = [] /\ long_store v w /\ key_insert_ok v = true /\ (forall y, In y xs -> y = EBatch (Some (op, objs))) /\
  nth_error xs i = Some (EBatch (Some (op, objs))) /\ Forall object_ok objs /\ ForallOrdPairs (apart v) objs /\ snd (lfs_process_batch v (Some (op, objs)) (fst (lfs_process_batch v (Some (op, objs)) w))) <> Panic /\
  ended (fst (linterleave v schedule (arrived v xs) w)) i Panic.
Proof.
  exists ex_lenv, [EBatch (Some (bs "upload", [mkObj other_object 7 [] []])); EBatch (Some (bs "upload", [mkObj other_object 7 [] []]))], [0; 1; 0; 1; 0; 1]%nat, ex_start, 1%nat, (bs "upload"), [mkObj other_object 7 [] []].
  split; [exact ex_lenv_ok|]. split; [exact ex_ids_differ|]. split; [reflexivity|]. split; [exact start_long|]. split; [reflexivity|]. split; [intros y [<-|[<-|[]]]; reflexivity|].
  split; [reflexivity|]. split; [repeat constructor; try discriminate; vm_compute; discriminate|]. split; [repeat constructor|]. split; [vm_compute; discriminate|]. vm_compute. reflexivity.
Qed.
Definition ex_again : list lfs_event := [EBatch (Some (bs "upload", [mkObj oid1 4 [] []])); EBatch (Some (bs "download", [mkObj oid1 4 [] []])); EUpload other_object (bs "x")].
Example C128_ex : word_ids ex_stored /\ l_fails ex_stored = [] /\ Forall batch_ok ex_again /\ ~ no_object_row ex_lenv ex_stored oid1 /\ (forall y, In y ex_again -> ~ uploads ex_lenv oid1 y).
Proof.
  split; [exact ex_words|]. split; [vm_compute; reflexivity|]. split; [repeat constructor; try apply oid1_word|]. split.
  - intros K. unfold no_object_row in K. rewrite Forall_forall in K. destruct ex_stored_ok as [[_ (m & (l1 & l2 & E & T & _) & _)] _]. rewrite (K m) in T; [discriminate|]. rewrite E. apply in_elt.
  - intros y [<-|[<-|[<-|[]]]]; intros K; try contradiction. vm_compute in K. discriminate.
Qed.

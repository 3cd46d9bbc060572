(** C150: git and git-lfs served side by side. *)

From Coq Require Import ZArith Lia.
From Verif Require Import Base BaseLemmas Digest ModelUtils ModelObject ModelBase ModelPack ModelDecode ModelPkt ModelStorage ModelProto
  ModelLfs ModelGateway ModelService ModelConc ModelLfsConc ModelBoth SpecObject SpecLfs SpecLfsConc ProofObject ProofStorage ProofSession ProofLfs ProofContent ProofLfsConc ProofLfsApart PropContent PropTail ProofBoth.
Open Scope N_scope.

(** ** Vocabulary *)

(** The turns of git and those of git-lfs. *)
Definition gits (s : list turn) : list nat := flat_map (fun t => match t with TGit i => [i] | TLfs _ => [] end) s.
Definition lfss (s : list turn) : list nat := flat_map (fun t => match t with TGit _ => [] | TLfs i => [i] end) s.
(** The files of the working directory, by their relative names. *)
Definition relative (f : fs) : fs := flat_map (fun x => match fst x with d :: p => if beq d [46] then [(p, snd x)] else [] | [] => [] end) f.
(** The content directory is not one that begins with "temp-", in the working directory, nor
    below such a one. *)
Definition proper_base (v : lenv) : Prop := forall x r, resolve (l_base v) <> [46] :: (bs "temp-" ++ x) :: r.

(** ** Files of git and files of git-lfs *)

Definition is_temp (q : list bytes) : bool := match q with [d; x] => beq d [46] && starts_with (bs "temp-") x | _ => false end.
Definition clean (f : fs) : fs := filter (fun x => negb (is_temp (fst x))) f.
Lemma temp_is : forall n, is_temp ([46] :: temp_path n) = true.
Proof. intros n. unfold temp_path, is_temp. rewrite beq_refl, starts_with_app. reflexivity. Qed.
Lemma path_neq : forall p q, p <> q -> path_eqb p q = false.
Proof. intros p q H. destruct (path_eqb p q) eqn:E; [|reflexivity]. apply path_eqb_eq in E. contradiction. Qed.
Lemma path_cons : forall (x : bytes) p q, path_eqb (x :: p) (x :: q) = path_eqb p q.
Proof.
  intros x p q. destruct (path_eqb p q) eqn:F; [apply path_eqb_eq in F as ->; apply path_eqb_refl|]. apply path_neq. intros G. injection G as ->. rewrite path_eqb_refl in F. discriminate F.
Qed.
Lemma clean_get : forall f p, is_temp p = false -> fs_get (clean f) p = fs_get f p.
Proof.
  intros f p H. unfold clean. induction f as [|[q c] f IH]; [reflexivity|]. cbn [filter fst fs_get]. destruct (path_eqb q p) eqn:E.
  - apply path_eqb_eq in E as ->. rewrite H. cbn [negb fs_get]. rewrite path_eqb_refl. reflexivity.
  - destruct (is_temp q); cbn [negb fs_get]; rewrite ?E; exact IH.
Qed.
Lemma clean_put : forall f p c, is_temp p = false -> clean (fs_put f p c) = fs_put (clean f) p c.
Proof. intros f p c H. unfold clean, fs_put. cbn [filter fst]. rewrite H. cbn [negb]. f_equal. apply filter_comm. Qed.
Lemma clean_out : forall f p, is_temp p = true -> clean (filter (fun x => negb (path_eqb (fst x) p)) f) = clean f.
Proof. intros f p H. unfold clean. apply filter_filter_out. intros [q c] Hq. cbn [fst] in *. destruct (path_eqb q p) eqn:E; [|reflexivity]. apply path_eqb_eq in E as ->. rewrite H in Hq. discriminate Hq. Qed.
Lemma clean_temp : forall f p c, is_temp p = true -> clean (fs_put f p c) = clean f.
Proof. intros f p c H. unfold fs_put. unfold clean at 1. cbn [filter fst]. rewrite H. cbn [negb]. exact (clean_out f p H). Qed.
Lemma exists_clean : forall g f, (forall x, is_temp (fst x) = true -> g x = false) -> existsb g (clean f) = existsb g f.
Proof.
  intros g f H. unfold clean. induction f as [|x f IH]; [reflexivity|]. cbn [filter existsb]. destruct (is_temp (fst x)) eqn:E; cbn [negb existsb]; rewrite IH; [|reflexivity].
  rewrite (H x E). reflexivity.
Qed.
Lemma relative_get : forall f p, fs_get (relative f) p = fs_get f ([46] :: p).
Proof.
  assert (K : forall d q p, path_eqb (d :: q) ([46] :: p) = beq d [46] && path_eqb q p).
  { intros d q p. destruct (beq d [46]) eqn:E.
    - apply beq_eq in E as ->. cbn [andb]. destruct (path_eqb q p) eqn:F; [apply path_eqb_eq in F as ->; apply path_eqb_refl|]. apply path_neq. intros G. injection G as ->. rewrite path_eqb_refl in F. discriminate F.
    - apply path_neq. intros G. injection G as -> _. rewrite beq_refl in E. discriminate E. }
  intros f p. unfold relative. induction f as [|[[|d q] c] f IH]; [reflexivity| |].
  - cbn [flat_map fst app]. rewrite IH. reflexivity.
  - cbn [flat_map fst snd fs_get]. rewrite K. destruct (beq d [46]); cbn [app andb fs_get]; [|exact IH]. destruct (path_eqb q p); [reflexivity|exact IH].
Qed.

(** The file of an object is none of git's, not below one nor above one. *)
Lemma word_start : forall w, id_word w -> starts_with (bs "temp-") w = false.
Proof.
  intros w [_ H]. destruct (starts_with (bs "temp-") w) eqn:E; [|reflexivity]. exfalso. apply starts_with_true in E as (r & ->).
  rewrite forallb_app in H. apply andb_true_iff in H as [H _]. vm_compute in H. discriminate H.
Qed.
Section Apart.
Context (v : lenv) (Pb : proper_base v).
Lemma word_file : forall o p, id_word o -> store_path v o = Ok p -> exists d b x r, resolve (l_base v) = d :: b /\ p = d :: b ++ x :: r /\ starts_with (bs "temp-") x = false.
Proof.
  intros o p Ho E. rewrite (store_path_word v o Ho) in E. injection E as <-. rewrite resolve_walk. eexists. eexists. unfold id_parts. destruct (nlen o <? 5) eqn:L.
  - exists o, []. split; [reflexivity|]. split; [reflexivity|]. apply word_start, Ho.
  - exists (firstn 2 o), [firstn 2 (skipn 2 o); skipn 4 o]. split; [reflexivity|]. split; [reflexivity|]. destruct (starts_with (bs "temp-") (firstn 2 o)) eqn:S; [|reflexivity]. exfalso.
    apply starts_with_true in S as (r & S). apply (f_equal (@length _)) in S. rewrite app_length in S. pose proof (firstn_le_length 2 o). rewrite S in H. cbn [length bs] in H. cbn in H. lia.
Qed.
Lemma file_not_temp : forall o p, id_word o -> store_path v o = Ok p -> is_temp p = false.
Proof.
  intros o p Ho E. destruct (word_file o p Ho E) as (d & b & x & r & _ & -> & S). destruct b as [|y b]; cbn [app is_temp].
  - destruct r; [|reflexivity]. rewrite S. apply andb_false_r.
  - destruct (b ++ x :: r) eqn:B; [destruct b; discriminate B|reflexivity].
Qed.
Lemma none_below : forall o p q, id_word o -> store_path v o = Ok p -> is_temp q = true -> is_prefix p q && negb (path_eqb p q) = false.
Proof.
  intros o p q Ho E T. destruct (is_prefix p q) eqn:P; [|reflexivity]. apply is_prefix_app in P as (s & ->). pose proof (file_not_temp o p Ho E) as N.
  destruct (word_file o p Ho E) as (d & b & x & r & _ & Ep & _). destruct s as [|y s]; [rewrite app_nil_r in T; congruence|]. exfalso. subst p.
  apply (f_equal (fun b => b)) in T. unfold is_temp in T. destruct b as [|y0 b]; cbn [app] in T.
  - destruct r as [|y1 r]; cbn [app] in T; discriminate T.
  - destruct b as [|y1 b]; cbn [app] in T; discriminate T.
Qed.
Lemma none_above : forall o p q, id_word o -> store_path v o = Ok p -> is_temp q = true -> is_prefix q p = false.
Proof.
  intros o p q Ho E T. destruct (is_prefix q p) eqn:P; [|reflexivity]. exfalso. apply is_prefix_app in P as (s & Ep). destruct (word_file o p Ho E) as (d & b & x & r & Eb & Ep' & S).
  destruct q as [|d' [|y [|z q]]]; try discriminate T. cbn [is_temp] in T. apply andb_true_iff in T as [T1 T2]. apply beq_eq in T1 as ->. rewrite Ep' in Ep. cbn [app] in Ep. injection Ep as -> Ep.
  destruct b as [|y' b]; cbn [app] in Ep; injection Ep as -> _; [congruence|]. apply starts_with_true in T2 as (u & ->). exact (Pb u b Eb).
Qed.

(** ** Actions of git-lfs *)

Definition alike (l l' : lfs) : Prop := l_locks l = l_locks l' /\ l_meta l = l_meta l' /\ l_fails l = l_fails l' /\ clean (l_files l) = clean (l_files l').
Lemma dir_clean : forall o p f, id_word o -> store_path v o = Ok p -> is_dir v (clean f) p = is_dir v f p.
Proof. intros o p f Ho E. unfold is_dir. rewrite exists_clean; [reflexivity|]. intros x T. exact (none_below o p _ Ho E T). Qed.
Lemma up_clean : forall o p f, id_word o -> store_path v o = Ok p -> existsb (fun x => is_prefix (fst x) p && negb (path_eqb p (fst x))) (clean f) = existsb (fun x => is_prefix (fst x) p && negb (path_eqb p (fst x))) f.
Proof. intros o p f Ho E. apply exists_clean. intros x T. rewrite (none_above o p _ Ho E T). reflexivity. Qed.
Lemma dir_alike : forall o p l l', alike l l' -> id_word o -> store_path v o = Ok p -> is_dir v (l_files l) p = is_dir v (l_files l') p.
Proof. intros o p l l' (_ & _ & _ & C) Ho E. rewrite <- (dir_clean o p (l_files l) Ho E), C. apply (dir_clean o p); assumption. Qed.
Lemma up_alike : forall o p l l', alike l l' -> id_word o -> store_path v o = Ok p ->
  existsb (fun x => is_prefix (fst x) p && negb (path_eqb p (fst x))) (l_files l) = existsb (fun x => is_prefix (fst x) p && negb (path_eqb p (fst x))) (l_files l').
Proof. intros o p l l' (_ & _ & _ & C) Ho E. rewrite <- (up_clean o p (l_files l) Ho E), C. apply (up_clean o p); assumption. Qed.
Lemma get_alike : forall o p l l', alike l l' -> id_word o -> store_path v o = Ok p -> fs_get (l_files l) p = fs_get (l_files l') p.
Proof. intros o p l l' (_ & _ & _ & C) Ho E. pose proof (file_not_temp o p Ho E) as N. rewrite <- (clean_get (l_files l) p N), C. apply clean_get, N. Qed.
Lemma put_alike : forall o p c l l', alike l l' -> id_word o -> store_path v o = Ok p ->
  alike (mkLfs (l_locks l) (l_meta l) (fs_put (l_files l) p c) (l_fails l)) (mkLfs (l_locks l') (l_meta l') (fs_put (l_files l') p c) (l_fails l')).
Proof. intros o p c l l' (A & B & F & C) Ho E. pose proof (file_not_temp o p Ho E) as N. split; [exact A|]. split; [exact B|]. split; [exact F|]. cbn [l_files]. rewrite !clean_put by exact N. rewrite C. reflexivity. Qed.
Definition temps_kept (f f' : fs) : Prop := forall n, fs_get f' ([46] :: temp_path n) = fs_get f ([46] :: temp_path n).
Lemma put_kept : forall o p c f, id_word o -> store_path v o = Ok p -> temps_kept f (fs_put f p c).
Proof. intros o p c f Ho E n. apply fs_get_put_other. intros G. pose proof (file_not_temp o p Ho E) as N. pose proof (temp_is n) as T. rewrite <- G in N || rewrite G in N. congruence. Qed.
Lemma attempt_alike : forall l l', alike l l' -> snd (lattempt l) = snd (lattempt l') /\ alike (fst (lattempt l)) (fst (lattempt l')) /\ l_files (fst (lattempt l)) = l_files l /\ l_meta (fst (lattempt l)) = l_meta l /\
  exists b, snd (lattempt l) = Ok b.
Proof.
  intros l l' (A & B & F & C). unfold lattempt. rewrite <- F. destruct (l_fails l) as [|b r] eqn:Fl; cbn [fst snd].
  - split; [reflexivity|]. split; [split; [exact A|]; split; [exact B|]; split; [congruence|exact C]|]. split; [reflexivity|]. split; [reflexivity|]. eauto.
  - split; [reflexivity|]. split; [split; [exact A|]; split; [exact B|]; split; [reflexivity|exact C]|]. split; [reflexivity|]. split; [reflexivity|]. eauto.
Qed.
Lemma lfs_action : forall X (a : lact X) l l', on_words v a -> word_ids l -> alike l l' ->
  snd (lperform v a l) = snd (lperform v a l') /\ alike (fst (lperform v a l)) (fst (lperform v a l')) /\ temps_kept (l_files l) (l_files (fst (lperform v a l))) /\ word_ids (fst (lperform v a l)).
Proof.
  intros X a l l' Ha Hw Al. pose proof (attempt_alike l l' Al) as (T1 & T2 & T3 & T4 & b & T5).
  assert (Tk : temps_kept (l_files l) (l_files (fst (lattempt l)))) by (intros n; rewrite T3; reflexivity).
  assert (Tw : word_ids (fst (lattempt l))) by (unfold word_ids; rewrite T4; exact Hw).
  destruct a as [k|k|f|f| |o|o|p c|m]; cbn [lperform on_words] in *.
  - unfold find_lock_row, lbind. destruct (lattempt l) as [l1 r1], (lattempt l') as [l2 r2]. cbn [fst snd] in *. subst r1 r2. destruct b; cbn [fst snd]; (split; [|auto]); [|reflexivity].
    destruct T2 as (A & _). rewrite A. reflexivity.
  - unfold find_meta_row, lbind. destruct (lattempt l) as [l1 r1], (lattempt l') as [l2 r2]. cbn [fst snd] in *. subst r1 r2. destruct b; cbn [fst snd]; (split; [|auto]); [|reflexivity].
    destruct T2 as (_ & A & _). rewrite A. reflexivity.
  - unfold exec_locks, lbind. destruct (lattempt l) as [l1 r1], (lattempt l') as [l2 r2]. cbn [fst snd] in *. subst r1 r2. destruct b; [|cbn [fst snd]; auto].
    pose proof T2 as (A & B & F & C). rewrite <- A. destruct (f (l_locks l1)); cbn [fst snd]; (split; [reflexivity|]); [|auto]. split; [split; [reflexivity|auto]|]. split; [exact Tk|exact Tw].
  - unfold exec_meta, lbind. destruct (lattempt l) as [l1 r1], (lattempt l') as [l2 r2]. cbn [fst snd] in *. subst r1 r2. destruct b; [|cbn [fst snd]; auto].
    pose proof T2 as (A & B & F & C). rewrite <- B. destruct (f (l_meta l1)) as [t|] eqn:Ef; cbn [fst snd]; (split; [reflexivity|]); [|auto]. split; [split; [exact A|]; split; [reflexivity|]; auto|]. split; [exact Tk|].
    exact (Ha (l_meta l1) t Tw Ef).
  - auto.
  - unfold store_exist. cbn [fst snd]. split; [|split; [exact Al|split; [intros n; reflexivity|exact Hw]]]. destruct (store_path v o) as [p| | |] eqn:E; try reflexivity. cbn [bind].
    rewrite (dir_alike o p l l' Al Ha E), (get_alike o p l l' Al Ha E). reflexivity.
  - unfold file_create. destruct (store_path v o) as [p| | |] eqn:E; cbn [fst snd]; try (split; [reflexivity|split; [exact Al|split; [intros n; reflexivity|exact Hw]]]).
    rewrite (dir_alike o p l l' Al Ha E), (up_alike o p l l' Al Ha E). destruct (_ && _); cbn [fst snd l_files]; [|split; [reflexivity|split; [exact Al|split; [intros n; reflexivity|exact Hw]]]].
    split; [reflexivity|]. split; [exact (put_alike o p [] l l' Al Ha E)|]. split; [exact (put_kept o p _ _ Ha E)|exact Hw].
  - destruct Ha as (o & Ho & E). unfold file_write. cbv zeta. cbn [fst snd l_files]. rewrite (get_alike o p l l' Al Ho E). split; [reflexivity|]. split; [apply (put_alike o p _ l l' Al Ho E)|].
    split; [exact (put_kept o p _ _ Ho E)|exact Hw].
  - unfold store_get. cbn [fst snd]. split; [|split; [exact Al|split; [intros n; reflexivity|exact Hw]]]. destruct (store_path v (mt_oid m)) as [p| | |] eqn:E; try reflexivity. cbn [unwrap bind].
    rewrite (get_alike (mt_oid m) p l l' Al Ha E). reflexivity.
Qed.
End Apart.

(** ** Actions of git *)

Definition agrees (w d : world) : Prop := w_db w = w_db d /\ w_log w = w_log d /\ w_fails w = w_fails d /\ w_tick w = w_tick d /\
  forall n, fs_get (w_files w) (temp_path n) = fs_get (w_files d) ([46] :: temp_path n).
Lemma agrees_refit : forall w d, agrees w d -> w = refit (w_files w) d.
Proof. intros [a b c t f] [a' b' c' t' f'] (A & B & C & T & _). cbn in *. subst. reflexivity. Qed.
Lemma blind_files : forall A (p : M A) w, blind p -> w_files (fst (p w)) = w_files w.
Proof. intros A p w H. pose proof (H (w_files w) w) as E. replace (refit (w_files w) w) with w in E by (destruct w; reflexivity). apply (f_equal (fun x => w_files (fst x))) in E. exact E. Qed.
Lemma blind_agrees : forall A (p : M A) w d, blind p -> agrees w d -> snd (p w) = snd (p d) /\ agrees (fst (p w)) (fst (p d)) /\ w_files (fst (p d)) = w_files d.
Proof.
  intros A p w d H Ag. pose proof (blind_files _ p d H) as F. pose proof (agrees_refit w d Ag) as E. destruct Ag as (_ & _ & _ & _ & T). set (f := w_files w) in *. rewrite E, H. cbn [fst snd].
  split; [reflexivity|]. split; [|exact F]. unfold agrees. cbn [refit w_db w_log w_fails w_tick w_files]. rewrite F. repeat (split; [reflexivity|]). exact T.
Qed.
Lemma blind_unpack : forall e m c fuel file, blind (unpack_pack e m c fuel file).
Proof. intros e m c fuel file f w. unfold unpack_pack. change (get_hash_object e (refit f w)) with (get_hash_object e w). reflexivity. Qed.
Lemma temp_pair : forall w d n c, agrees w d -> forall k, fs_get (fs_put (w_files w) (temp_path n) c) (temp_path k) = fs_get (fs_put (w_files d) ([46] :: temp_path n) c) ([46] :: temp_path k).
Proof.
  intros w d n c (_ & _ & _ & _ & T) k. rewrite !put_get, path_cons. destruct (path_eqb (temp_path k) (temp_path n)); [reflexivity|apply T].
Qed.
Lemma removed_get : forall f p q, fs_get (fs_remove f p) q = if path_eqb q p then None else fs_get f q.
Proof.
  intros f p q. destruct (path_eqb q p) eqn:E; [apply path_eqb_eq in E as ->; apply fs_get_remove_same|]. apply fs_get_remove_other. intros ->. rewrite path_eqb_refl in E. discriminate E.
Qed.
Lemma git_action : forall e X (a : act X) w d, at_temp a -> agrees w d ->
  snd (perform e a w) = snd (perform e (here a) d) /\ agrees (fst (perform e a w)) (fst (perform e (here a) d)) /\ clean (w_files (fst (perform e (here a) d))) = clean (w_files d).
Proof.
  intros e X a w d Ha Ag.
  assert (Bl : forall (p : M X), blind p -> snd (p w) = snd (p d) /\ agrees (fst (p w)) (fst (p d)) /\ clean (w_files (fst (p d))) = clean (w_files d)).
  { intros p H. destruct (blind_agrees _ p w d H Ag) as (E1 & E2 & E3). rewrite E3. auto. }
  pose proof Ag as (A & B & C & T & F). destruct a as [T0 q|f|T0 l|p b|p|p|m c fuel file]; cbn [here perform at_temp] in *.
  - apply Bl, blind_select.
  - apply Bl, blind_execute.
  - apply Bl, blind_shuffle.
  - destruct Ha as (n & ->). unfold write_temp. cbv zeta. cbn [fst snd]. rewrite (F n). split; [reflexivity|]. split; [|apply clean_temp, temp_is].
    split; [exact A|]. split; [exact B|]. split; [exact C|]. split; [exact T|]. cbn [w_files]. exact (temp_pair w d n _ Ag).
  - destruct Ha as (n & ->). unfold read_temp. cbn [fst snd]. rewrite (F n). auto.
  - destruct Ha as (n & ->). unfold remove_temp. rewrite (F n). destruct (fs_get (w_files d) ([46] :: temp_path n)); cbn [fst snd]; [|auto]. split; [reflexivity|].
    split; [|exact (clean_out _ _ (temp_is n))]. split; [exact A|]. split; [exact B|]. split; [exact C|]. split; [exact T|]. cbn [w_files]. intros k. rewrite !removed_get, path_cons.
    destruct (path_eqb (temp_path k) (temp_path n)); [reflexivity|apply F].
  - apply Bl, blind_unpack.
Qed.

(** ** Both *)

Section Both.
Context (e : env) (v : lenv) (Pb : proper_base v).
Definition git_part (gs : serving) : Prop := forall i p, nth_error gs i = Some p -> temps p.
Definition lfs_part (ls : lserving) : Prop := forall i p, nth_error ls i = Some p -> only v word_ids (@on_words v) anything p.
Lemma in_set : forall A i (x y : A) l j z, nth_error l i = Some x -> nth_error (set_nth i y l) j = Some z -> z = y \/ nth_error l j = Some z.
Proof. intros A i x y l j z H K. destruct (Nat.eq_dec i j) as [<-|N]; [rewrite (set_same _ _ _ _ _ H) in K; injection K as <-; auto|]. rewrite set_other in K by exact N. auto. Qed.
Lemma both_run : forall schedule gs ls w l wa la, git_part gs -> lfs_part ls -> word_ids l -> w_files w = l_files l -> agrees wa w -> alike l la ->
  let '(gs', ls', (w', l')) := side_by_side e v schedule (gs, ls, (w, l)) in
  fst (interleave e (gits schedule) gs wa) = gs' /\ fst (linterleave v (lfss schedule) ls la) = ls' /\
  agrees (snd (interleave e (gits schedule) gs wa)) w' /\ alike l' (snd (linterleave v (lfss schedule) ls la)) /\ w_files w' = l_files l'.
Proof.
  induction schedule as [|t s IH]; intros gs ls w l wa la Hg Hl Hw Ed Ag Al; [cbn; auto|]. cbn [side_by_side gits lfss flat_map take_turn]. destruct t as [i|i]; cbn [app].
  - fold (gits s). fold (lfss s). cbn [interleave]. unfold advance. destruct (nth_error gs i) as [[r|X a k]|] eqn:N; [exact (IH gs ls w l wa la Hg Hl Hw Ed Ag Al)| |exact (IH gs ls w l wa la Hg Hl Hw Ed Ag Al)].
    pose proof (Hg i _ N) as Ti. cbn [temps] in Ti. destruct Ti as [Ta Tk]. destruct (git_action e X a wa w Ta Ag) as (E1 & E2 & E3).
    destruct (perform e a wa) as [wa' ra], (perform e (here a) w) as [w' rw]. cbn [fst snd] in *. subst rw. apply IH; [|exact Hl|exact Hw|reflexivity|exact E2|].
    + intros j p Hj. destruct (in_set _ _ _ _ _ _ _ N Hj) as [->|Hj']; [apply Tk|exact (Hg j p Hj')].
    + destruct Al as (A1 & A2 & A3 & A4). split; [exact A1|]. split; [exact A2|]. split; [exact A3|]. cbn [lfs_disk l_files]. rewrite E3, Ed. exact A4.
  - fold (gits s). fold (lfss s). cbn [linterleave]. unfold ladvance. destruct (nth_error ls i) as [[r|X a k]|] eqn:N; [exact (IH gs ls w l wa la Hg Hl Hw Ed Ag Al)| |exact (IH gs ls w l wa la Hg Hl Hw Ed Ag Al)].
    pose proof (Hl i _ N) as Oi. cbn [only] in Oi. destruct Oi as [Oa Ok]. destruct (lfs_action v Pb X a l la Oa Hw Al) as (E1 & E2 & E3 & E4). specialize (Ok l Hw).
    destruct (lperform v a l) as [l' rl], (lperform v a la) as [la' ra]. cbn [fst snd] in *. subst ra. apply IH; [exact Hg| |exact E4|reflexivity| |exact E2].
    + intros j p Hj. destruct (in_set _ _ _ _ _ _ _ N Hj) as [->|Hj']; [exact Ok|exact (Hl j p Hj')].
    + destruct Ag as (A1 & A2 & A3 & A4 & A5). split; [exact A1|]. split; [exact A2|]. split; [exact A3|]. split; [exact A4|]. cbn [world_disk w_files]. intros n. rewrite E3, <- Ed. apply A5.
Qed.

(** Requests to git and requests to git-lfs, served at the same time in any order: those to
    git do what they do when no git-lfs is served, with the same answers, the same tables and
    the same temporary files; those to git-lfs what they do when no git is served, with the
    same answers, the same tables and the same contents. *)
Theorem C150_apart : forall b c fuel cut rs xs schedule w l, word_ids l -> Forall (fun x => Forall id_word (objects_of x)) xs -> w_files w = l_files l ->
  let '(gs, ls, (w', l')) := side_by_side e v schedule (started e b c fuel cut rs, arrived v xs, (w, l)) in
  let (gs1, w1) := interleave e (gits schedule) (started e b c fuel cut rs) (world_disk w (relative (w_files w))) in
  let (ls1, l1) := linterleave v (lfss schedule) (arrived v xs) l in
  gs = gs1 /\ w_db w' = w_db w1 /\ w_log w' = w_log w1 /\ (forall n, fs_get (w_files w') ([46] :: temp_path n) = fs_get (w_files w1) (temp_path n)) /\
  ls = ls1 /\ l_locks l' = l_locks l1 /\ l_meta l' = l_meta l1 /\ (forall oid p, id_word oid -> store_path v oid = Ok p -> fs_get (l_files l') p = fs_get (l_files l1) p) /\
  w_files w' = l_files l'.
Proof.
  intros b c fuel cut rs xs schedule w l Hw Hx Ed.
  assert (Hg : git_part (started e b c fuel cut rs)).
  { intros i p H. unfold started in H. rewrite nth_error_map in H. destruct (nth_error rs i); [|discriminate H]. injection H as <-. apply tm_serve. }
  assert (Hl : lfs_part (arrived v xs)).
  { intros i p H. apply started_nth in H as (x & Hn & ->). apply word_event. rewrite Forall_forall in Hx. apply Hx. exact (nth_error_In _ _ Hn). }
  pose proof (both_run schedule (started e b c fuel cut rs) (arrived v xs) w l (world_disk w (relative (w_files w))) l Hg Hl Hw Ed) as K.
  destruct (side_by_side e v schedule (started e b c fuel cut rs, arrived v xs, (w, l))) as [[gs ls] [w' l']].
  destruct (interleave e (gits schedule) (started e b c fuel cut rs) (world_disk w (relative (w_files w)))) as [gs1 w1]. destruct (linterleave v (lfss schedule) (arrived v xs) l) as [ls1 l1]. cbn [fst snd] in K.
  destruct K as (K1 & K2 & K3 & K4 & K5).
  - repeat (split; [reflexivity|]). intros n. apply relative_get.
  - repeat (split; [reflexivity|]). reflexivity.
  - destruct K3 as (A1 & A2 & _ & _ & A5). pose proof K4 as (B1 & B2 & _ & _). split; [symmetry; exact K1|]. split; [symmetry; exact A1|]. split; [symmetry; exact A2|]. split; [intros n; symmetry; apply A5|].
    split; [symmetry; exact K2|]. split; [exact B1|]. split; [exact B2|]. split; [|exact K5]. intros oid p Ho E. exact (get_alike v oid p l' l1 K4 Ho E).
Qed.
End Both.

From Verif Require Import StoredZlib PropLocks ProofExample PropService.

(** ** Ids that are none *)

(** Batches take any text for an id, and ids with ".." lead out of the content directory: a
    client of git-lfs that asks twice is told in what way a push is just then in progress. *)
Definition odd_id : bytes := bs "aabb../../../temp-7.pack".
Definition odd_events : list lfs_event := [EBatch (Some (bs "upload", [mkObj odd_id 1 [] []])); EBatch (Some (bs "upload", [mkObj odd_id 1 [] []]))].
Definition odd_schedule : list turn := repeat (TLfs 0) 10 ++ [TGit 0] ++ repeat (TLfs 1) 10.
Definition offers (r : option (lprog lfs_reply)) (what : bytes) : bool :=
  match r with Some (LRet (Ok (ROk _ (BBatch [x])))) => match rp_action x with Some (a, _) => beq a what | None => false end | _ => false end.
Lemma odd_seen : offers (nth_error (snd (fst (side_by_side ex_env ex_lenv odd_schedule (started ex_env Release StoredZlib.stored 50 ex_cut [push_demo], arrived ex_lenv odd_events, (world_of db_empty, ex_start))))) 1) (bs "download") = true.
Proof. vm_compute. reflexivity. Qed.
Lemma odd_alone : offers (nth_error (fst (linterleave ex_lenv (lfss odd_schedule) (arrived ex_lenv odd_events) ex_start)) 1) (bs "upload") = true.
Proof. vm_compute. reflexivity. Qed.
Lemma offers_one : forall r a b, offers r a = true -> offers r b = true -> beq a b = true.
Proof.
  intros r a b. unfold offers. destruct r as [[[[s [| | |[|x [|]]| |]|]| | |]|]|]; try discriminate. destruct (rp_action x) as [[y z]|]; [|discriminate]. intros A B. apply beq_eq in A as <-. exact B.
Qed.
Theorem C150_refuted : exists e v b c fuel cut rs xs schedule w l, proper_base v /\ word_ids l /\ w_files w = l_files l /\
  exists i, nth_error (snd (fst (side_by_side e v schedule (started e b c fuel cut rs, arrived v xs, (w, l))))) i <> nth_error (fst (linterleave v (lfss schedule) (arrived v xs) l)) i.
Proof.
  exists ex_env, ex_lenv, Release, StoredZlib.stored, 50%nat, ex_cut, [push_demo], odd_events, odd_schedule, (world_of db_empty), ex_start.
  split; [intros x r E; vm_compute in E; discriminate E|]. split; [intros m []|]. split; [reflexivity|]. exists 1%nat. intros E. pose proof odd_seen as A. rewrite E in A.
  pose proof (offers_one _ _ _ A odd_alone) as B. discriminate B.
Qed.

(** ** A case *)

(** A push and, in turns with it, a content announced, uploaded and downloaded. *)
Definition both_events : list lfs_event := [EBatch (Some (bs "upload", [mkObj oid1 4 [] []])); EUpload oid1 (bs "good"); EDownload oid1].
Definition both_schedule : list turn :=
  concat (repeat [TGit 0; TLfs 0] 10) ++ concat (repeat [TLfs 1; TGit 0] 10) ++ concat (repeat [TGit 0; TLfs 2] 30).
Definition both_check (x : serving * lserving * (world * lfs)) : bool :=
  let '(gs, ls, (w, l)) := x in
  match gs with [PRet (Ok _)] => true | _ => false end &&
  match ls with [LRet (Ok (ROk _ _)); LRet (Ok (ROk _ _)); LRet (Ok (ROk _ (BData d)))] => beq d (bs "good") | _ => false end &&
  (length (d_refs (w_db w)) =? 1)%nat && (length (d_commits (w_db w)) =? 1)%nat && (length (l_files l) =? 1)%nat && (length (w_files w) =? 1)%nat.
Example C150_ex : proper_base ex_lenv /\ word_ids ex_start /\ Forall (fun x => Forall id_word (objects_of x)) both_events /\ w_files (world_of db_empty) = l_files ex_start /\
  both_check (side_by_side ex_env ex_lenv both_schedule (started ex_env Release StoredZlib.stored 50 ex_cut [push_demo], arrived ex_lenv both_events, (world_of db_empty, ex_start))) = true.
Proof.
  split; [intros x r E; vm_compute in E; discriminate E|]. split; [intros m []|]. split; [repeat (apply Forall_cons || apply Forall_nil); exact oid1_word|]. split; [reflexivity|]. vm_compute. reflexivity.
Qed.

(** C140: the files of the server. What git requests leave on the disk, whatever they
    contain, however they end, and in whatever order they come. *)

From Coq Require Import Permutation Lia.
From Verif Require Import Base BaseLemmas Digest ModelUtils ModelObject ModelBase ModelPack ModelDecode ModelPkt ModelStorage ModelProto ModelLfs ModelGateway ModelService
  StoredZlib SpecObject SpecIdx SpecBase SpecPack SpecPkt SpecStorage SpecProto SpecService ProofObject ProofUtf8 ProofBase ProofPack ProofPkt ProofReq
  ProofNodes ProofStorage ProofRefs ProofSession ProofGraph ProofExample ProofPush PropProto ProofService PropPkt PropStorage PropProto PropGateway PropService PropSsh.
Open Scope N_scope.

(** ** Specification *)

(** The seconds in which a request may write, and the bytes it sends that may be a pack. *)
Definition in_second (r : request) (n : N) : Prop :=
  match r with QHttp now _ _ _ _ _ => n = now | QSsh now _ _ => exists i, n = now i end.
Definition sends (r : request) (x : bytes) : Prop :=
  match r with QHttp _ _ _ _ _ body => exists a, body = a ++ x | QSsh _ _ packets => In x packets end.
(** The files are the same, but for temporary files of those seconds that are gone. *)
Definition cleaned (T : N -> Prop) (f f' : fs) : Prop :=
  forall p, fs_get f' p = fs_get f p \/ fs_get f' p = None /\ exists n, T n /\ p = temp_path n.
(** And one of them has a pack that was sent, written over what was there before. *)
Definition left_over (T : N -> Prop) (sent : bytes -> Prop) (f f' : fs) : Prop :=
  exists f1 n x, cleaned T f f1 /\ T n /\ sent (bs "PACK" ++ x) /\
    fs_get f' (temp_path n) = Some ((bs "PACK" ++ x) ++
      skipn (length (bs "PACK" ++ x)) (match fs_get f1 (temp_path n) with Some old => old | None => [] end)) /\
    forall p, p <> temp_path n -> fs_get f' p = fs_get f1 p.

Definition is_ok_of {A} (r : res A) : Prop := exists a, r = Ok a.

(** ** What leaves files alone *)

Definition filed {A} (m : M A) : Prop := keeps (fun w w' => w_files w' = w_files w) m.
Lemma filed_ret : forall A (a : A), filed (ret a).
Proof. intros A a w. reflexivity. Qed.
Lemma filed_lift : forall A (r : res A), filed (lift r).
Proof. intros A r w. reflexivity. Qed.
Lemma filed_bind : forall A B (m : M A) (k : A -> M B), filed m -> (forall a, filed (k a)) -> filed (mbind m k).
Proof. intros A B. apply (keeps_bind _ (fun a b c (H : w_files b = w_files a) (K : w_files c = w_files b) => eq_trans K H)). Qed.
Lemma filed_reads : forall A (m : M A), ProofService.reads m -> filed m.
Proof. intros A m H w. apply H. Qed.
Lemma filed_calm : forall A (m : M A), calmly m -> filed m.
Proof. intros A m H w. apply H. Qed.
Lemma filed_execute : forall f, filed (execute f).
Proof. intros f w. destruct (execute_any f w) as (w' & b & E & F & _). rewrite E. exact F. Qed.
Lemma filed_insert_all : forall l, filed (insert_all l).
Proof.
  induction l as [|f l IH]; cbn [insert_all]; [apply filed_ret|]. apply filed_bind; [apply filed_execute|]. intros ?. exact IH.
Qed.
Lemma filed_update : forall e cmd p, filed (update_refs e cmd p).
Proof.
  intros e cmd p. unfold update_refs. apply filed_bind; [apply filed_reads, reads_select_one|]. intros o.
  apply filed_bind; [apply filed_lift|]. intros r. apply filed_bind; [apply filed_execute|]. intros [|]; [|apply filed_lift].
  apply filed_reads, reads_back.
Qed.
Lemma filed_handle : forall e cmd p, filed (handle_refs e cmd p).
Proof.
  intros e cmd p. unfold handle_refs. destruct (rc_type cmd); [apply filed_insert_all|apply filed_lift|apply filed_update].
Qed.
Lemma filed_child : forall e r p, filed (generate_child_commit_and_refs e r p).
Proof.
  intros e r p. unfold generate_child_commit_and_refs. apply filed_bind; [apply filed_reads; auto with reads|]. intros o.
  apply filed_bind; [apply filed_lift|]. intros row. apply filed_bind.
  { apply filed_reads. unfold search_root_node_by_path. apply reads_bind; [auto with reads|]. intros name.
    apply reads_bind; [auto with reads|]. intros [n|]; auto with reads. }
  intros [n|]; [|apply filed_ret]. apply filed_bind; [apply filed_lift|]. intros c.
  apply filed_bind; [apply filed_calm, calm_save_commits|]. intros _. cbv zeta.
  apply filed_bind; [apply filed_insert_all|]. intros _. apply filed_ret.
Qed.
Lemma filed_info : forall e pp, filed (git_info_refs e pp).
Proof.
  intros e pp. unfold git_info_refs. apply filed_bind; [apply filed_lift|]. intros s. apply filed_bind.
  { unfold get_head_object_id. apply filed_bind; [apply filed_reads; unfold search_refs; auto with reads|]. intros rows.
    destruct (find (fun r => beq (pp_path pp) (r_repo_path r)) rows); [apply filed_ret|].
    destruct (find _ rows); [apply filed_child|apply filed_ret]. }
  intros h. apply filed_bind; [|intros l; apply filed_ret].
  apply filed_reads. unfold get_ref_object_id. apply reads_bind; auto with reads.
Qed.

(** ** One packet of a push *)

Definition before (f : fs) (p : list bytes) : bytes := match fs_get f p with Some x => x | None => [] end.
(** What one call does: nothing, or the temporary file is written and removed, or written. *)
Definition one_call (now : N) (x : bytes) (f f' : fs) (ok : Prop) : Prop :=
  (f' = f \/ f' = fs_remove (fs_put f (temp_path now) (x ++ skipn (length x) (before f (temp_path now)))) (temp_path now)) \/
  ~ ok /\ starts_with (bs "PACK") x = true /\ f' = fs_put f (temp_path now) (x ++ skipn (length x) (before f (temp_path now))).
Lemma receive_files : forall e m c fuel now pp body w w' r, git_receive_pack e m c fuel now pp body w = (w', r) ->
  one_call now body (w_files w) (w_files w') (is_ok_of r) /\ (pp_cmds pp = [] -> w_files w' = w_files w).
Proof.
  intros e m c fuel now pp body w w' r E. unfold git_receive_pack in E. destruct (starts_with (bs "PACK") body) eqn:P.
  - unfold mbind at 1 in E. destruct (nth_error (pp_cmds pp) (length (pp_cmds pp) - 1)) as [cmd|] eqn:Ec;
      [|cbn [lift unwrap_opt] in E; injection E as <- <-; split; [left; left; reflexivity|reflexivity]].
    split; [|intros Hn; rewrite Hn in Ec; discriminate Ec]. clear Ec.
    cbn [lift unwrap_opt] in E. unfold mbind at 1 in E. unfold write_temp at 1 in E. cbv zeta in E.
    fold (before (w_files w) (temp_path now)) in E.
    unfold one_call. set (f := fs_put _ _ _) in E |- *. 
    unfold mbind at 1 in E. unfold read_temp in E. cbn [w_files] in E.
    assert (G : fs_get f (temp_path now) = Some (body ++ skipn (length body) (before (w_files w) (temp_path now)))) by apply fs_get_put.
    rewrite G in E. cbn [unwrap_opt] in E. unfold mbind at 1 in E. unfold unpack_pack at 1 in E. cbv zeta in E. cbn [w_files w_db w_log w_fails w_tick] in E.
    assert (Bad : forall x, (forall a, x <> Ok a) -> r = x -> ~ is_ok_of r) by (intros x N -> (a & A); exact (N a A)).
    destruct (unwrap _) as [pk|x| |]; try (injection E as <- <-; right; split; [intros (a & A); discriminate A|split; [exact P|first [reflexivity|assumption]]]).
    unfold mbind at 1 in E. set (w2 := mkWorld _ _ _ _ _) in E.
    pose proof (filed_calm _ _ (calm_save_packfile e fuel (p_cache pk) (pp_path pp)) w2) as S.
    destruct (save_packfile e fuel (p_cache pk) (pp_path pp) w2) as [w3 [u|x| |]]; cbn [fst] in S; change (w_files w2) with f in S; clearbody w2;
      try (injection E as <- <-; rewrite S; right; split; [intros (a & A); discriminate A|split; [exact P|first [reflexivity|assumption]]]).
    + pose proof (filed_bind _ _ _ _ (filed_handle e (cmd_unpacked cmd None) (pp_path pp)) (fun _ => filed_ret _ (cmd_unpacked cmd None)) w3) as F.
      destruct (mbind (handle_refs e (cmd_unpacked cmd None) (pp_path pp)) (fun _ => ret (cmd_unpacked cmd None)) w3) as [w4 [c4|x| |]];
        cbn [fst] in F; rewrite S in F;
        try (injection E as <- <-; rewrite F; right; split; [intros (a & A); discriminate A|split; [exact P|first [reflexivity|assumption]]]).
      unfold mbind, remove_temp in E. rewrite F, G in E. unfold ret in E. injection E as <- <-. left. right. reflexivity.
    + unfold mbind, remove_temp in E. rewrite S, G in E. unfold ret in E. injection E as <- <-. left. right. reflexivity.
  - match type of E with ?t w = _ => assert (K : filed t); [|specialize (K w); rewrite E in K; cbn [fst] in K; split; [left; left; exact K|intros _; exact K]] end.
    apply filed_bind; [apply filed_lift|]. intros [[n line] rest].
    destruct ((n =? 0) && _); [apply filed_ret|].
    apply filed_bind; [apply filed_lift|]. intros [cmd tail]. apply filed_bind; [apply filed_lift|]. intros text.
    apply filed_bind; [apply filed_lift|]. intros x. apply filed_ret.
Qed.

Lemma copy_suffix : forall n (b l r : bytes), copy_to_bytes n b = Ok (l, r) -> b = l ++ r.
Proof.
  intros n b l r H. unfold copy_to_bytes in H. destruct (n <=? length b)%nat; [|discriminate]. injection H as <- <-. symmetry. apply firstn_skipn.
Qed.
Lemma pkt_suffix : forall b n line rest, read_pkt_line b = Ok (n, line, rest) -> exists a, b = a ++ rest.
Proof.
  intros b n line rest H. unfold read_pkt_line in H. destruct b as [|x b]; [injection H as _ _ <-; exists []; reflexivity|].
  apply bind_ok in H as ([l r] & H1 & H). apply copy_suffix in H1. rewrite H1. apply bind_ok in H as (s & _ & H). apply bind_ok in H as (k & _ & H).
  destruct (k =? 0); [injection H as _ _ <-; exists l; reflexivity|]. destruct (k <? 4); [discriminate|].
  apply bind_ok in H as ([line' r'] & H2 & H). apply copy_suffix in H2. injection H as _ _ <-. subst r. exists (l ++ line'). rewrite app_assoc. reflexivity.
Qed.
Lemma first_suffix : forall e m c fuel now pp body w w' pp' rest, pp_cmds pp = [] ->
  git_receive_pack e m c fuel now pp body w = (w', Ok (pp', rest)) -> exists a, body = a ++ rest.
Proof.
  intros e m c fuel now pp body w w' pp' rest Hc E. unfold git_receive_pack in E. rewrite Hc in E. destruct (starts_with (bs "PACK") body).
  - apply mbind_inv in E as (w1 & cmd & E & _). discriminate E.
  - apply mbind_inv in E as (w1 & [[n line] r] & E1 & E). unfold lift in E1. injection E1 as _ E1. apply pkt_suffix in E1 as (a & ->).
    destruct ((n =? 0) && _).
    + unfold ret in E. injection E as _ _ <-. exists a. reflexivity.
    + apply mbind_inv in E as (w2 & [cmd tail] & _ & E). apply mbind_inv in E as (w3 & text & _ & E). apply mbind_inv in E as (w4 & x & E4 & E).
      unfold ret in E. injection E as _ _ <-. unfold lift in E4. injection E4 as _ E4. unfold slice_from in E4.
      destruct (4 <=? length r)%nat; [|discriminate]. injection E4 as <-. exists (a ++ firstn 4 r). rewrite <- app_assoc, firstn_skipn. reflexivity.
Qed.

(** ** Requests *)

Definition ends_with (T : N -> Prop) (sent : bytes -> Prop) (f f' : fs) (ok : Prop) : Prop :=
  cleaned T f f' /\ (length f' <= length f)%nat \/ ~ ok /\ left_over T sent f f' /\ (length f' <= S (length f))%nat.
Lemma cleaned_refl : forall T f, cleaned T f f.
Proof. intros T f p. left. reflexivity. Qed.
Lemma cleaned_trans : forall T f g h, cleaned T f g -> cleaned T g h -> cleaned T f h.
Proof.
  intros T f g h A B p. destruct (B p) as [E|E]; [|right; exact E]. rewrite E. exact (A p).
Qed.
Lemma filter_le : forall A (g : A -> bool) l, (length (filter g l) <= length l)%nat.
Proof. intros A g l. induction l as [|x l IH]; [apply Nat.le_refl|]. cbn [filter]. destruct (g x); cbn [length]; lia. Qed.
Lemma one_ends : forall (T : N -> Prop) (sent : bytes -> Prop) now x f f' ok, T now -> sent x -> one_call now x f f' ok -> ends_with T sent f f' ok.
Proof.
  intros T sent now x f f' ok Ht Hs [[->| ->]|(N & P & ->)].
  - left. split; [apply cleaned_refl|lia].
  - left. split.
    + intros p. destruct (list_eq_dec (list_eq_dec N.eq_dec) p (temp_path now)) as [->|D].
      * right. split; [apply fs_get_remove_same|]. exists now. auto.
      * left. rewrite fs_get_remove_other, fs_get_put_other by exact D. reflexivity.
    + unfold fs_remove, fs_put. cbn [filter fst]. rewrite path_eqb_refl. cbn [negb].
      eapply Nat.le_trans; [apply filter_le|apply filter_le].
  - right. split; [exact N|]. apply starts_with_true in P as (y & ->). split.
    + exists f, now, y. split; [apply cleaned_refl|]. split; [exact Ht|]. split; [exact Hs|]. split; [apply fs_get_put|].
      intros p D. apply fs_get_put_other. exact D.
    + unfold fs_put. cbn [length]. pose proof (filter_le _ (fun e => negb (path_eqb (fst e) (temp_path now))) f). lia.
Qed.
Lemma ends_after : forall T sent f g h ok, cleaned T f g -> (length g <= length f)%nat -> ends_with T sent g h ok -> ends_with T sent f h ok.
Proof.
  intros T sent f g h ok C L [(A & B)|(N & (f1 & n & x & A1 & A2) & B)].
  - left. split; [eapply cleaned_trans; eassumption|lia].
  - right. split; [exact N|]. split; [|lia]. exists f1, n, x. split; [eapply cleaned_trans; eassumption|exact A2].
Qed.
Lemma ends_same : forall T sent f ok, ends_with T sent f f ok.
Proof. intros. left. split; [apply cleaned_refl|lia]. Qed.
Lemma ends_filed : forall A (T : N -> Prop) (sent : bytes -> Prop) (m : M A) w w' r ok, filed m -> m w = (w', r) -> ends_with T sent (w_files w) (w_files w') ok.
Proof. intros A T sent m w w' r ok F E. specialize (F w). rewrite E in F. cbn [fst] in F. rewrite F. apply ends_same. Qed.

Lemma http_push_ends : forall e m c fuel now path body w w' r, http_receive_pack e m c fuel now path body w = (w', r) ->
  ends_with (fun n => n = now) (fun x => exists a, body = a ++ x) (w_files w) (w_files w') (is_ok_of r).
Proof.
  intros e m c fuel now path body w w' r E. unfold http_receive_pack in E. cbn [proto_new] in E. unfold mbind at 1 in E. cbn [lift] in E.
  unfold mbind at 1 in E. set (pp := mkProto _ _ _ _ _) in E. destruct (git_receive_pack e m c fuel now pp body w) as [w1 r1] eqn:E1.
  destruct (receive_files _ _ _ _ _ _ _ _ _ _ E1) as [_ F]. specialize (F eq_refl).
  destruct r1 as [[pp1 data]|x| |]; try (injection E as <- <-; rewrite F; apply ends_same).
  apply first_suffix in E1 as Sx; [|reflexivity]. unfold mbind in E.
  destruct (git_receive_pack e m c fuel now pp1 data w1) as [w2 r2] eqn:E2.
  destruct (receive_files _ _ _ _ _ _ _ _ _ _ E2) as [O _].
  assert (K : ends_with (fun n => n = now) (fun x => exists a, body = a ++ x) (w_files w) (w_files w2) (is_ok_of r2))
    by (rewrite <- F; eapply one_ends; [reflexivity|exact Sx|exact O]).
  destruct r2 as [[pp2 reply]|x| |]; unfold ret in E; injection E as <- <-; (destruct K as [K|(N & K)]; [left; exact K|right; split; [|exact K]]).
  - destruct N. eexists. reflexivity.
  - intros (a & A). discriminate A.
  - intros (a & A). discriminate A.
  - intros (a & A). discriminate A.
Qed.
Lemma ssh_data_ends : forall e m c fuel cut now pp data w w' r (T : N -> Prop) (sent : bytes -> Prop), T now -> sent data ->
  ssh_data e m c fuel cut now pp data w = (w', r) -> ends_with T sent (w_files w) (w_files w') (is_ok_of r).
Proof.
  intros e m c fuel cut now pp data w w' r T sent Ht Hs E. destruct (pp_service pp) as [[|]|] eqn:S.
  - eapply ends_filed; [|exact E]. apply filed_reads, reads_ssh_upload. exact S.
  - unfold ssh_data in E. rewrite S in E. destruct (receive_files _ _ _ _ _ _ _ _ _ _ E) as [O _]. eapply one_ends; eassumption.
  - unfold ssh_data in E. rewrite S in E. eapply ends_filed; [|exact E]. apply filed_lift.
Qed.
Lemma session_ends : forall e m c fuel cut now packets pp w w' r (T : N -> Prop) (sent : bytes -> Prop), (forall i, T (now i)) ->
  (forall x, In x packets -> sent x) ->
  ssh_session e m c fuel cut now pp packets w = (w', r) -> ends_with T sent (w_files w) (w_files w') (is_ok_of r).
Proof.
  intros e m c fuel cut now. induction packets as [|d l IH]; intros pp w w' r T sent Ht Hs E; cbn [ssh_session] in E.
  - unfold ret in E. injection E as <- <-. apply ends_same.
  - unfold mbind at 1 in E. destruct (ssh_data e m c fuel cut (now (length l)) pp d w) as [w1 r1] eqn:E1.
    pose proof (ssh_data_ends _ _ _ _ _ _ _ _ _ _ _ T sent (Ht _) (Hs d (or_introl eq_refl)) E1) as K.
    destruct r1 as [[pp1 a]|x| |]; try (injection E as <- <-; destruct K as [K|(N & K)]; [left; exact K|right; split; [intros (y & Y); discriminate Y|exact K]]).
    destruct K as [(C & L)|(N & _)]; [|destruct N; eexists; reflexivity].
    unfold mbind in E. destruct (ssh_session e m c fuel cut now pp1 l w1) as [w2 r2] eqn:E2.
    apply (IH _ _ _ _ T sent Ht (fun x Hx => Hs x (or_intror Hx))) in E2. apply (ends_after _ _ _ _ _ _ C L) in E2.
    destruct r2 as [[pp2 b]|x| |]; unfold ret in E; injection E as <- <-; (destruct E2 as [K|(N & K)]; [left; exact K|right; split; [|exact K]]).
    + destruct N. eexists. reflexivity.
    + intros (y & Y). discriminate Y.
    + intros (y & Y). discriminate Y.
    + intros (y & Y). discriminate Y.
Qed.
Lemma filed_command : forall e cmd, filed (ssh_command e cmd).
Proof.
  intros e cmd. unfold ssh_command. cbv zeta. do 5 (apply filed_bind; [apply filed_lift|]; intros ?).
  apply filed_bind; [apply filed_info|]. intros reply. apply filed_bind; [apply filed_lift|]. intros _. apply filed_ret.
Qed.
Lemma serve_ends : forall e b c fuel cut q w w' r, serve e b c fuel cut q w = (w', r) ->
  ends_with (in_second q) (sends q) (w_files w) (w_files w') (is_ok_of r).
Proof.
  intros e b c fuel cut [now m path service q body|now cmd packets] w w' r E; cbn [serve] in E.
  - unfold mbind at 1, lift at 1 in E. destruct (gateway m path service q) as [a|x| |]; try (injection E as <- <-; apply ends_same).
    destruct a; try (unfold ret in E; injection E as <- <-; apply ends_same).
    + eapply ends_filed; [|exact E]. unfold http_info_refs. apply filed_bind; [apply filed_lift|]. intros pp. apply filed_info.
    + eapply ends_filed; [|exact E]. apply filed_reads, reads_http_upload.
    + exact (http_push_ends _ _ _ _ _ _ _ _ _ _ E).
  - unfold mbind at 1 in E. pose proof (filed_command e cmd w) as F. destruct (ssh_command e cmd w) as [w1 r1]. cbn [fst] in F.
    destruct r1 as [[pp a]|x| |]; try (injection E as <- <-; rewrite F; apply ends_same).
    unfold mbind in E. destruct (ssh_session e b c fuel cut now pp packets w1) as [w2 r2] eqn:E2.
    apply (session_ends _ _ _ _ _ _ _ _ _ _ _ (in_second (QSsh now cmd packets)) (sends (QSsh now cmd packets))) in E2;
      [|intros i; exists i; reflexivity|intros x Hx; exact Hx]. rewrite F in E2.
    destruct r2 as [[pp2 s]|x| |]; unfold ret in E; injection E as <- <-; (destruct E2 as [K|(N & K)]; [left; exact K|right; split; [|exact K]]).
    + destruct N. eexists. reflexivity.
    + intros (y & Y). discriminate Y.
    + intros (y & Y). discriminate Y.
    + intros (y & Y). discriminate Y.
Qed.

(** ** C140 *)

(** A request that is answered leaves no file: all files are what they were, but for
    temporary files of its second that were there and are gone. *)
Theorem C140_answered : forall e b c fuel cut q w w' reply, serve e b c fuel cut q w = (w', Ok reply) ->
  cleaned (in_second q) (w_files w) (w_files w').
Proof.
  intros e b c fuel cut q w w' reply E. destruct (serve_ends _ _ _ _ _ _ _ _ _ E) as [(C & _)|(N & _)]; [exact C|].
  destruct N. eexists. reflexivity.
Qed.
(** A request that is not may leave one, which has the bytes of a pack that was sent. *)
Theorem C140_any : forall e b c fuel cut q w w' r, serve e b c fuel cut q w = (w', r) ->
  cleaned (in_second q) (w_files w) (w_files w') \/ left_over (in_second q) (sends q) (w_files w) (w_files w').
Proof. intros e b c fuel cut q w w' r E. destruct (serve_ends _ _ _ _ _ _ _ _ _ E) as [(C & _)|(_ & C & _)]; auto. Qed.

(** The number of requests of a sequence that were not answered. *)
Fixpoint unanswered (e : env) (b : build) (c : codec) (fuel : nat) (cut : bytes -> list bytes) (l : list request) (w : world) : nat :=
  match l with
  | [] => 0
  | q :: l' => (match snd (serve e b c fuel cut q w) with Ok _ => 0 | _ => 1 end +
      unanswered e b c fuel cut l' (fst (serve e b c fuel cut q w)))%nat
  end.
(** Whatever is asked of a server, and however long: there are no more files than at the
    start and one for each request that was not answered. *)
Theorem C140_count : forall e b c fuel cut l w,
  (length (w_files (serve_all e b c fuel cut l w)) <= length (w_files w) + unanswered e b c fuel cut l w)%nat.
Proof.
  intros e b c fuel cut. induction l as [|q l IH]; intros w; cbn [serve_all unanswered]; [lia|].
  destruct (serve e b c fuel cut q w) as [w1 r] eqn:E. cbn [fst snd]. specialize (IH w1).
  destruct (serve_ends _ _ _ _ _ _ _ _ _ E) as [(_ & L)|(N & _ & L)]; [lia|].
  destruct r; [destruct N; eexists; reflexivity|lia..].
Qed.
(** If all are answered, and no file had the name of a temporary file, all files are as before. *)
Theorem C140_sequence : forall e b c fuel cut l w, unanswered e b c fuel cut l w = 0%nat ->
  (forall n, fs_get (w_files w) (temp_path n) = None) ->
  forall p, fs_get (w_files (serve_all e b c fuel cut l w)) p = fs_get (w_files w) p.
Proof.
  intros e b c fuel cut. induction l as [|q l IH]; intros w U H p; [reflexivity|]. cbn [serve_all unanswered] in *.
  destruct (serve e b c fuel cut q w) as [w1 r] eqn:E. cbn [fst snd] in *.
  assert (C : forall p, fs_get (w_files w1) p = fs_get (w_files w) p).
  { destruct r as [a|x| |]; try discriminate U. intros p'. apply C140_answered in E. destruct (E p') as [K|(K & n & _ & ->)]; [exact K|]. rewrite K, H. reflexivity. }
  rewrite IH, C; [reflexivity| |].
  - destruct r; [exact U|discriminate U..].
  - intros n. rewrite C. apply H.
Qed.

(** ** Pushes that are refused *)

Definition told (path old new name caps : bytes) : proto :=
  mkProto Http path None (parse_capabilities [] caps) [ref_command_new old new (name ++ [0])].
Lemma two_calls : forall e m c fuel now path old new name caps x body w, word old -> word new -> word name -> utf8_text caps ->
  push_request old new name caps x body ->
  http_receive_pack e m c fuel now path body w = (let! (_, reply) := git_receive_pack e m c fuel now (told path old new name caps) x in ret reply) w.
Proof.
  intros e m c fuel now path old new name caps x body w Ho Hn Hm Hc (b & Hb & ->).
  unfold http_receive_pack. set (pp := mkProto Http path None [] []).
  assert (Ep : lift (proto_new path [] Http) w = (w, Ok pp)) by reflexivity. rewrite (mbind_ok _ _ _ _ _ _ _ Ep).
  rewrite (mbind_ok _ _ _ _ _ _ _ (command_run e m c fuel now pp _ _ caps b flush x w Hb (parse_first old new name caps Ho Hn Hm) Hc eq_refl)).
  reflexivity.
Qed.
(** Every push whose pack is refused leaves a file with that pack. *)
Theorem C140_refused : forall e m c fuel now path old new name caps x body w, word old -> word new -> word name -> utf8_text caps ->
  push_request old new name caps (bs "PACK" ++ x) body -> fs_get (w_files w) (temp_path now) = None ->
  (forall w0 p, w_db w0 = w_db w -> decode m c (get_hash_object e w0) fuel (bs "PACK" ++ x) <> Ok p) ->
  exists w' r, http_receive_pack e m c fuel now path body w = (w', r) /\ (forall reply, r <> Ok reply) /\ w_db w' = w_db w /\
    fs_get (w_files w') (temp_path now) = Some (bs "PACK" ++ x) /\
    forall p, p <> temp_path now -> fs_get (w_files w') p = fs_get (w_files w) p.
Proof.
  intros e m c fuel now path old new name caps x body w Ho Hn Hm Hc Hr Hf Hd.
  rewrite (two_calls e m c fuel now path old new name caps _ body w Ho Hn Hm Hc Hr).
  set (P := bs "PACK" ++ x) in *. unfold git_receive_pack.
  assert (E : starts_with (bs "PACK") P = true) by apply starts_with_app. rewrite E. clear E.
  cbn [told pp_cmds length Nat.sub nth_error]. unfold mbind, lift, write_temp, read_temp, unpack_pack. cbn [unwrap_opt]. rewrite Hf. cbn [w_files].
  rewrite fs_get_put, skipn_nil, app_nil_r. cbn [unwrap_opt].
  set (w1 := mkWorld (w_db w) (w_log w) (w_fails w) (w_tick w) (fs_put (w_files w) (temp_path now) P)).
  specialize (Hd w1). cbn [w1 w_db] in Hd.
  destruct (decode m c (get_hash_object e w1) fuel P) as [p|y| |]; [destruct (Hd p eq_refl eq_refl)| | |]; cbn [unwrap];
    (eexists; eexists; split; [reflexivity|]; split; [discriminate|]; split; [reflexivity|]; split; [apply fs_get_put|]; intros q D; apply fs_get_put_other; exact D).
Qed.
(** When a file was left, a push that is cut short in the same second is completed from it:
    it ends as if everything had been sent. *)
Theorem C140_completed : forall e m c fuel now path old new name caps a r body body' w, word old -> word new -> word name -> utf8_text caps ->
  push_request old new name caps (bs "PACK" ++ a) body -> push_request old new name caps (bs "PACK" ++ a ++ r) body' ->
  fs_get (w_files w) (temp_path now) = Some (bs "PACK" ++ a ++ r) ->
  http_receive_pack e m c fuel now path body w = http_receive_pack e m c fuel now path body' w.
Proof.
  intros e m c fuel now path old new name caps a r body body' w Ho Hn Hm Hc Hr Hr' Hf.
  rewrite (two_calls e m c fuel now path old new name caps _ body w Ho Hn Hm Hc Hr), (two_calls e m c fuel now path old new name caps _ body' w Ho Hn Hm Hc Hr').
  rewrite app_assoc in *. set (P := bs "PACK" ++ a) in *.
  assert (K : git_receive_pack e m c fuel now (told path old new name caps) P w = git_receive_pack e m c fuel now (told path old new name caps) (P ++ r) w).
  { unfold git_receive_pack.
    assert (E : starts_with (bs "PACK") P = true) by apply starts_with_app.
    assert (E' : starts_with (bs "PACK") (P ++ r) = true) by (unfold P; rewrite <- app_assoc; apply starts_with_app).
    rewrite E, E'. clear E E'. cbn [told pp_cmds length Nat.sub nth_error]. unfold mbind at 1 10.
    cbn [lift unwrap_opt].
    assert (W : write_temp (temp_path now) P w = write_temp (temp_path now) (P ++ r) w).
    { unfold write_temp. rewrite Hf. rewrite skipn_app_exact, skipn_all, app_nil_r. reflexivity. }
    unfold mbind at 1. symmetry. unfold mbind at 1. rewrite W. reflexivity. }
  unfold mbind. rewrite K. reflexivity.
Qed.

(** ** Cases *)

Definition ex_push (now : N) (pack : bytes) : request :=
  QHttp now MPost (bs "/demo.git/git-receive-pack") None no_query
    (push_body (repeat 48 40) (to_plain_str (oid ex_top)) (bs "refs/heads/master") ex_caps pack).
Definition ex_clone : request := QHttp 9 MPost (bs "/demo.git/git-upload-pack") None no_query clone_body.
Definition bad_statement : world := mkWorld db_empty [] [true] 0 [].
Definition served (l : list request) (w : world) : world := serve_all ex_env Release stored 50 ex_cut l w.

(** A push and a clone are answered and leave no file. *)
Example C140_ex : unanswered ex_env Release stored 50 ex_cut [ex_push 7 (pack_of ex_hist); ex_clone] (world_of db_empty) = 0%nat /\
  (forall n, fs_get (w_files (world_of db_empty)) (temp_path n) = None) /\
  w_files (served [ex_push 7 (pack_of ex_hist); ex_clone] (world_of db_empty)) = [].
Proof. split; [vm_compute; reflexivity|]. split; [reflexivity|vm_compute; reflexivity]. Qed.
(** All requests are about a working database: a push whose pack is not one is not
    answered, and its file stays. *)
Theorem C140_refuted : exists e b c fuel cut q w, env_ok e /\ codec_ok c /\ w_files w = [] /\ w_fails w = [] /\
  snd (serve e b c fuel cut q w) = Panic /\ w_files (fst (serve e b c fuel cut q w)) = [(temp_path 7, bs "PACK")].
Proof.
  exists ex_env, Release, stored, 50%nat, ex_cut, (ex_push 7 (bs "PACK")), (world_of db_empty).
  split; [exact ex_env_ok|]. split; [exact stored_ok|]. split; [reflexivity|]. split; [reflexivity|]. split; vm_compute; reflexivity.
Qed.
(** A push during which a statement fails, and in the same second the same push cut short
    after twenty bytes of the pack: the second is answered and creates the branch. Without
    the first it is not answered. *)
Theorem C140_cut_refuted : exists e b c fuel cut now m path old new name caps pack a r w, env_ok e /\ codec_ok c /\ w_files w = [] /\
  pack = a ++ r /\ r <> [] /\
  let q x := QHttp now m path None no_query (push_body old new name caps x) in
  let w1 := fst (serve e b c fuel cut (q pack) w) in
  snd (serve e b c fuel cut (q pack) w) = Panic /\ d_refs (w_db w1) = [] /\ w_fails w1 = [] /\
  (exists reply, snd (serve e b c fuel cut (q a) w1) = Ok reply) /\ length (d_refs (w_db (fst (serve e b c fuel cut (q a) w1)))) = 1%nat /\
  snd (serve e b c fuel cut (q a) (world_of (w_db w1))) = Panic.
Proof.
  exists ex_env, Release, stored, 50%nat, ex_cut, 7, MPost, (bs "/demo.git/git-receive-pack").
  exists (repeat 48 40), (to_plain_str (oid ex_top)), (bs "refs/heads/master"), ex_caps, (pack_of ex_hist), (firstn 20 (pack_of ex_hist)), (skipn 20 (pack_of ex_hist)), bad_statement.
  split; [exact ex_env_ok|]. split; [exact stored_ok|]. split; [reflexivity|]. split; [symmetry; apply firstn_skipn|].
  split; [assert (K : match skipn 20 (pack_of ex_hist) with [] => false | _ => true end = true) by (vm_compute; reflexivity); intros E; rewrite E in K; discriminate K|].
  cbv zeta. split; [vm_compute; reflexivity|]. split; [vm_compute; reflexivity|]. split; [vm_compute; reflexivity|].
  split; [eexists; vm_compute; reflexivity|]. split; vm_compute; reflexivity.
Qed.
(** Beside C140_refused and C140_completed. *)
Example C140_refused_ex : word (repeat 48 40) /\ word (bs "refs/heads/master") /\ word (to_plain_str (oid ex_top)) /\ utf8_text ex_caps /\
  (forall x, push_request (repeat 48 40) (to_plain_str (oid ex_top)) (bs "refs/heads/master") ex_caps x
    (push_body (repeat 48 40) (to_plain_str (oid ex_top)) (bs "refs/heads/master") ex_caps x)) /\
  forall m st p, decode m stored st 50 (bs "PACK" ++ [0; 0; 0; 3]) <> Ok p.
Proof.
  split; [exact zero_word|]. split; [exact master_word|]. split; [exact (hex_word _ _ (plain_lower _ ex_top_id) ex_top_id)|].
  split; [apply utf8_spec; reflexivity|]. split.
  - intros x. apply push_body_request. rewrite !nlen_app, (plain_len _ ex_top_id). vm_compute. discriminate.
  - intros m st p E. discriminate E.
Qed.

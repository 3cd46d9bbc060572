(** [utf8_valid] recognises exactly UTF-8. *)

From Verif Require Import Base BaseLemmas ModelObject ModelBase SpecObject SpecIdx SpecBase.
Open Scope N_scope.

Ltac bcond b := let E := fresh in
  assert (E : b = true) by (unfold inr, cont; lia); rewrite E; clear E.
Ltac bcondf b := let E := fresh in
  assert (E : b = false) by (unfold inr, cont; lia); rewrite E; clear E.

Lemma utf8_char_valid : forall c r, scalar c -> utf8_valid (utf8_char c ++ r) = utf8_valid r.
Proof.
  intros c r Hc. unfold utf8_char, scalar in *.
  destruct (N.ltb_spec c 128).
  { cbn [app utf8_valid]. bcond (c <? 128). reflexivity. }
  destruct (N.ltb_spec c 2048).
  { cbn [app utf8_valid]. bcondf (192 + c / 64 <? 128). bcond (inr 194 223 (192 + c / 64)).
    bcond (cont (128 + c mod 64)). reflexivity. }
  destruct (N.ltb_spec c 65536).
  { cbn [app utf8_valid]. bcondf (224 + c / 4096 <? 128). bcondf (inr 194 223 (224 + c / 4096)).
    bcond (inr 224 239 (224 + c / 4096)). bcond (cont (128 + c mod 64)).
    assert (E : (if 224 + c / 4096 =? 224 then inr 160 191 (128 + c / 64 mod 64)
            else if 224 + c / 4096 =? 237 then inr 128 159 (128 + c / 64 mod 64)
            else cont (128 + c / 64 mod 64)) = true).
    { destruct (N.eqb_spec (224 + c / 4096) 224); [unfold inr; lia|].
      destruct (N.eqb_spec (224 + c / 4096) 237); unfold inr, cont; lia. }
    rewrite E. reflexivity. }
  cbn [app utf8_valid]. bcondf (240 + c / 262144 <? 128). bcondf (inr 194 223 (240 + c / 262144)).
  bcondf (inr 224 239 (240 + c / 262144)). bcond (inr 240 244 (240 + c / 262144)).
  bcond (cont (128 + c mod 64)). bcond (cont (128 + c / 64 mod 64)).
  assert (E : (if 240 + c / 262144 =? 240 then inr 144 191 (128 + c / 4096 mod 64)
          else if 240 + c / 262144 =? 244 then inr 128 143 (128 + c / 4096 mod 64)
          else cont (128 + c / 4096 mod 64)) = true).
  { destruct (N.eqb_spec (240 + c / 262144) 240); [unfold inr; lia|].
    destruct (N.eqb_spec (240 + c / 262144) 244); unfold inr, cont; lia. }
  rewrite E. reflexivity.
Qed.

Lemma utf8_valid_head : forall b l, utf8_valid (b :: l) = true ->
  exists c r, scalar c /\ b :: l = utf8_char c ++ r /\ utf8_valid r = true.
Proof.
  intros b l H. cbn [utf8_valid] in H. unfold scalar, utf8_char.
  destruct (N.ltb_spec b 128).
  { exists b, l. split; [lia|]. split; [|assumption]. replace (b <? 128) with true by lia. reflexivity. }
  destruct (inr 194 223 b) eqn:E1.
  { unfold inr in E1. destruct l as [|b1 r]; [discriminate|]. apply andb_true_iff in H as [H1 H2].
    unfold cont in H1. exists ((b - 192) * 64 + (b1 - 128)), r. split; [lia|]. split; [|assumption].
    replace ((b - 192) * 64 + (b1 - 128) <? 128) with false by lia.
    replace ((b - 192) * 64 + (b1 - 128) <? 2048) with true by lia.
    cbn [app]. f_equal; [lia|]. f_equal. lia. }
  destruct (inr 224 239 b) eqn:E2.
  { unfold inr in E2. destruct l as [|b1 [|b2 r]]; try discriminate.
    apply andb_true_iff in H as [H H2]. apply andb_true_iff in H as [HA H1]. unfold cont in H1.
    assert (K : 128 <= b1 <= 191 /\ (b = 224 -> 160 <= b1) /\ (b = 237 -> b1 <= 159)).
    { destruct (N.eqb_spec b 224); [unfold inr in HA; lia|].
      destruct (N.eqb_spec b 237); unfold inr, cont in HA; lia. }
    exists ((b - 224) * 4096 + (b1 - 128) * 64 + (b2 - 128)), r.
    split; [lia|]. split; [|assumption].
    replace ((b - 224) * 4096 + (b1 - 128) * 64 + (b2 - 128) <? 128) with false by lia.
    replace ((b - 224) * 4096 + (b1 - 128) * 64 + (b2 - 128) <? 2048) with false by lia.
    replace ((b - 224) * 4096 + (b1 - 128) * 64 + (b2 - 128) <? 65536) with true by lia.
    cbn [app]. f_equal; [lia|]. f_equal; [lia|]. f_equal. lia. }
  destruct (inr 240 244 b) eqn:E3; [|discriminate].
  unfold inr in E3. destruct l as [|b1 [|b2 [|b3 r]]]; try discriminate.
  apply andb_true_iff in H as [H H3]. apply andb_true_iff in H as [H H2]. apply andb_true_iff in H as [HA H1].
  unfold cont in H1, H2.
  assert (K : 128 <= b1 <= 191 /\ (b = 240 -> 144 <= b1) /\ (b = 244 -> b1 <= 143)).
  { destruct (N.eqb_spec b 240); [unfold inr in HA; lia|].
    destruct (N.eqb_spec b 244); unfold inr, cont in HA; lia. }
  exists ((b - 240) * 262144 + (b1 - 128) * 4096 + (b2 - 128) * 64 + (b3 - 128)), r.
  split; [lia|]. split; [|assumption].
  replace ((b - 240) * 262144 + (b1 - 128) * 4096 + (b2 - 128) * 64 + (b3 - 128) <? 128) with false by lia.
  replace ((b - 240) * 262144 + (b1 - 128) * 4096 + (b2 - 128) * 64 + (b3 - 128) <? 2048) with false by lia.
  replace ((b - 240) * 262144 + (b1 - 128) * 4096 + (b2 - 128) * 64 + (b3 - 128) <? 65536) with false by lia.
  cbn [app]. f_equal; [lia|]. f_equal; [lia|]. f_equal; [lia|]. f_equal. lia.
Qed.

Lemma utf8_char_len : forall c, (0 < length (utf8_char c))%nat.
Proof.
  intros c. unfold utf8_char. destruct (c <? 128); [simpl; lia|].
  destruct (c <? 2048); [simpl; lia|]. destruct (c <? 65536); simpl; lia.
Qed.

Lemma utf8_spec : forall l, utf8_valid l = true <-> utf8_text l.
Proof.
  intros l. split.
  - assert (G : forall n l, (length l <= n)%nat -> utf8_valid l = true -> utf8_text l).
    { clear l. induction n as [|n IH]; intros l Hl H.
      - destruct l; [|simpl in Hl; lia]. exists []. split; [constructor|reflexivity].
      - destruct l as [|b l]; [exists []; split; [constructor|reflexivity]|].
        destruct (utf8_valid_head b l H) as (c & r & Hc & E & Hr).
        pose proof (utf8_char_len c). rewrite E in Hl. rewrite app_length in Hl.
        destruct (IH r) as (cs & Hcs & ->); [lia|assumption|].
        exists (c :: cs). split; [constructor; assumption|]. rewrite E. reflexivity. }
    apply (G (length l)). lia.
  - intros (cs & Hcs & ->). induction Hcs as [|c cs Hc _ IH]; [reflexivity|].
    cbn [flat_map]. rewrite utf8_char_valid by assumption. assumption.
Qed.

Lemma utf8_unwrap_spec : forall l x, utf8_unwrap l = Ok x <-> x = l /\ utf8_text l.
Proof.
  intros l x. unfold utf8_unwrap. rewrite <- utf8_spec. split.
  - destruct (utf8_valid l); [|discriminate]. intros H. split; congruence.
  - intros [-> ->]. reflexivity.
Qed.
Lemma utf8_unwrap_text : forall l, utf8_text l -> utf8_unwrap l = Ok l.
Proof. intros l H. apply utf8_unwrap_spec. auto. Qed.

Lemma utf8_text_bytes : forall l, utf8_text l -> bytes_ok l.
Proof.
  intros l (cs & Hcs & ->). induction Hcs as [|c cs Hc _ IH]; [constructor|].
  cbn [flat_map]. apply Forall_app. split; [|exact IH]. unfold scalar, utf8_char in *.
  destruct (N.ltb_spec c 128); [repeat constructor; unfold byte_ok; lia|].
  destruct (N.ltb_spec c 2048); [repeat constructor; unfold byte_ok; lia|].
  destruct (N.ltb_spec c 65536); repeat constructor; unfold byte_ok; lia.
Qed.
Lemma utf8_text_ascii : forall l, Forall (fun b => b < 128) l -> utf8_text l.
Proof. intros. apply utf8_spec, utf8_ascii. assumption. Qed.

(** A text can be cut before any ASCII byte. *)
Lemma utf8_char_ascii : forall c b, In b (utf8_char c) -> b < 128 -> utf8_char c = [b].
Proof.
  intros c b H Hb. unfold utf8_char in *.
  destruct (N.ltb_spec c 128); [destruct H as [->|[]]; reflexivity|].
  destruct (N.ltb_spec c 2048); [repeat destruct H as [H|H]; try lia; contradiction|].
  destruct (N.ltb_spec c 65536); repeat destruct H as [H|H]; try lia; contradiction.
Qed.
Lemma utf8_text_app : forall a b, utf8_text a -> utf8_text b -> utf8_text (a ++ b).
Proof.
  intros a b (ca & Ha & ->) (cb & Hb & ->). exists (ca ++ cb).
  rewrite flat_map_app. split; [apply Forall_app; auto|reflexivity].
Qed.
Lemma utf8_text_cut : forall b r p, b < 128 -> utf8_text (p ++ b :: r) -> utf8_text p /\ utf8_text (b :: r).
Proof.
  intros b r p Hb (cs & Hcs & E). revert p E.
  induction Hcs as [|c cs Hc Hcs IH]; intros p E; [destruct p; discriminate|].
  cbn [flat_map] in E. destruct p as [|x p].
  - split; [exists []; split; [constructor|reflexivity]|].
    exists (c :: cs). split; [constructor; assumption|exact E].
  - assert (K : exists q, x :: p = utf8_char c ++ q).
    { clear IH. destruct (le_lt_dec (length (utf8_char c)) (length (x :: p))) as [L|L].
      - exists (skipn (length (utf8_char c)) (x :: p)).
        assert (F : firstn (length (utf8_char c)) ((x :: p) ++ b :: r) = utf8_char c)
          by (rewrite E; apply firstn_app_exact).
        rewrite firstn_app in F. replace (length (utf8_char c) - length (x :: p))%nat with O in F by lia.
        simpl (firstn 0 _) in F. rewrite app_nil_r in F. rewrite <- F at 1. symmetry. apply firstn_skipn.
      - exfalso.
        assert (Hi : In b (utf8_char c)).
        { assert (F : nth_error ((x :: p) ++ b :: r) (length (x :: p)) = Some b).
          { rewrite nth_error_app2 by lia. rewrite Nat.sub_diag. reflexivity. }
          rewrite E, nth_error_app1 in F by exact L. eapply nth_error_In. exact F. }
        apply utf8_char_ascii in Hi; [|assumption]. rewrite Hi in L. simpl in L. lia. }
    destruct K as [q K]. rewrite K, <- app_assoc in E. apply app_inv_head in E.
    destruct (IH q E) as [H1 H2]. split; [|assumption]. rewrite K. apply utf8_text_app; [|assumption].
    exists [c]. split; [constructor; [assumption|constructor]|]. simpl. rewrite app_nil_r. reflexivity.
Qed.

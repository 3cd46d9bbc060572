(** Packs that are cut short. *)

From Verif Require Import Base BaseLemmas Digest ModelUtils ModelObject ModelDelta ModelPack
  StoredZlib SpecFormat SpecObject SpecDelta SpecPack ProofUtils ProofObject ProofPack.
Open Scope N_scope.

Lemma app_split : forall (a b x y : bytes), a ++ b = x ++ y ->
  (exists z, x = a ++ z /\ b = z ++ y) \/ (exists z, a = x ++ z /\ y = z ++ b).
Proof.
  induction a as [|u a IH]; intros b x y E; [left; exists x; auto|].
  destruct x as [|v x]; [right; exists (u :: a); auto|]. cbn [app] in E. injection E as -> E.
  destruct (IH _ _ _ E) as [(z & -> & ->)|(z & -> & ->)]; [left|right]; exists z; auto.
Qed.

(** ** The pieces of an entry *)

Definition failed {A} (r : res A) : Prop := (exists x, r = Err x) \/ r = Panic.
Lemma failed_bind : forall A B (r : res A) (k : A -> res B), failed r -> failed (bind r k).
Proof. intros A B r k [(x & ->)| ->]; [left; exists x; reflexivity|right; reflexivity]. Qed.
Lemma failed_unwrap : forall A (r : res A), failed r -> unwrap r = Panic.
Proof. intros A r [(x & ->)| ->]; reflexivity. Qed.

Lemma top_bit : forall b, 128 <= b < 256 -> negb (N.land b 128 =? 0) = true.
Proof.
  intros b H. destruct (N.eqb_spec (N.land b 128) 0) as [E|]; [exfalso|reflexivity].
  assert (T : N.testbit b 7 = true).
  { rewrite N.testbit_eqb. replace (b / 2 ^ 7) with 1; [reflexivity|]. change (2 ^ 7) with 128. apply N.div_unique with (r := b - 128); lia. }
  assert (K : N.testbit (N.land b 128) 7 = true) by (rewrite N.land_spec, T; reflexivity).
  rewrite E in K. discriminate.
Qed.
Lemma shl64_any : forall m a b, failed (shl64 m a b) \/ exists x, shl64 m a b = Ok x.
Proof. intros m a b. unfold shl64. destruct (_ <? _); [eauto|]. destruct m; [left; right; reflexivity|eauto]. Qed.
Lemma add8_any : forall m a b, failed (add8 m a b) \/ exists x, add8 m a b = Ok x.
Proof. intros m a b. unfold add8. destruct (_ <? _); [eauto|]. destruct m; [left; right; reflexivity|eauto]. Qed.
Lemma size_short : forall m s v l, Forall (fun x => 128 <= x < 256) s -> failed (read_size_loop m v l s).
Proof.
  intros m. induction s as [|b s IH]; intros v l F; [right; reflexivity|]. inversion F as [|? ? F1 F2]; subst. cbn [read_size_loop].
  rewrite (top_bit b F1). destruct (shl64_any m (N.land b 127) l) as [K|(x & ->)]; [apply failed_bind, K|]. cbn [bind].
  destruct (add8_any m l 7) as [K|(y & ->)]; [apply failed_bind, K|]. cbn [bind]. apply IH, F2.
Qed.
Lemma offset_short : forall m s v, Forall (fun x => 128 <= x < 256) s -> failed (read_offset_loop m v s).
Proof.
  intros m. induction s as [|b s IH]; intros v F; [left; eexists; reflexivity|]. inversion F as [|? ? F1 F2]; subst. cbn [read_offset_loop].
  rewrite (top_bit b F1). destruct (shl64_any m v 7) as [K|(x & ->)]; [apply failed_bind, K|]. cbn [bind].
  match goal with |- failed (bind ?r _) => assert (K : failed r \/ exists y, r = Ok y) end.
  { unfold add64. destruct (_ <? _); [eauto|]. destruct m; [left; right; reflexivity|eauto]. }
  destruct K as [K|(y & ->)]; [apply failed_bind, K|]. cbn [bind]. apply IH, F2.
Qed.
Lemma leb_prefix : forall l n, leb128 l n -> forall a b, l = a ++ b -> b <> [] -> Forall (fun x => 128 <= x < 256) a.
Proof.
  induction 1 as [x Hx|x l n Hx H IH]; intros a b E Nb.
  - destruct a as [|y a]; [constructor|]. cbn [app] in E. injection E as <- E. symmetry in E. apply app_eq_nil in E as [_ ->]. destruct (Nb eq_refl).
  - destruct a as [|y a]; [constructor|]. cbn [app] in E. injection E as <- E. constructor; [lia|]. eapply IH; eassumption.
Qed.
Lemma hdr_prefix : forall t l n, t < 8 -> entry_hdr t l n -> forall a b, l = a ++ b -> b <> [] -> Forall (fun x => 128 <= x < 256) a.
Proof.
  intros t l n Ht [s Hs|s l' k Hs H] a b E Nb.
  - destruct a as [|y a]; [constructor|]. cbn [app] in E. injection E as <- E. symmetry in E. apply app_eq_nil in E as [_ ->]. destruct (Nb eq_refl).
  - destruct a as [|y a]; [constructor|]. cbn [app] in E. injection E as <- E. constructor; [lia|]. eapply leb_prefix; eassumption.
Qed.
Lemma ofs_prefix : forall l n, ofs_format l n -> forall a b, l = a ++ b -> b <> [] -> Forall (fun x => 128 <= x < 256) a.
Proof.
  intros l n [(p & x & -> & Fp & _) _] a b E Nb. destruct (app_split _ _ _ _ E) as [(z & -> & E')|(z & -> & _)].
  - destruct z as [|y z]; [rewrite app_nil_r; exact Fp|]. cbn [app] in E'. injection E' as _ E'. symmetry in E'. apply app_eq_nil in E' as [_ ->]. destruct (Nb eq_refl).
  - apply Forall_app in Fp. apply Fp.
Qed.

Section Short.
Context (m : build) (c : codec) (st : storage) (Hs : streaming c).

Lemma stream_short : forall z d a b, zstream c z d -> z = a ++ b -> b <> [] -> inflate c a = None.
Proof.
  intros z d a b Z -> Nb. destruct (inflate c a) as [[d' k]|] eqn:E; [exfalso|reflexivity].
  destruct (Hs _ _ _ E) as (L & A). specialize (A b). pose proof (Z []) as K. rewrite app_nil_r, A in K. injection K as _ K.
  subst k. rewrite app_length in L. destruct b; [destruct (Nb eq_refl)|cbn [length] in L; lia].
Qed.

Lemma entry_short : forall n b objs all k fuel e o a r, pack_body c st n b objs -> inv k objs all -> nlen b < 2 ^ 64 ->
  (all = map snd objs \/ forall h x, ~ knows st h x) ->
  entry c st (nlen b) objs e o -> e = a ++ r -> r <> [] -> failed (next_object m c st (S fuel) (b ++ a) (nlen b) k).
Proof.
  intros n b objs all k fuel e o a r Hb (I1 & I2 & I3 & I4) Lb Hall He E Nr. cbn [next_object]. rewrite file_at_app.
  assert (H : forall t hdr size rest, t < 8 -> header t hdr size -> e = hdr ++ rest ->
     (exists y, hdr = a ++ y /\ y <> []) \/ exists z, a = hdr ++ z /\ rest = z ++ r).
  { intros t hdr size rest Ht Hh Ee. rewrite E in Ee. destruct (app_split _ _ _ _ Ee) as [(z & -> & ->)|(z & -> & ->)]; [|right; eauto].
    destruct z as [|y z]; [right; exists []; rewrite !app_nil_r; auto|left; exists (y :: z); split; [reflexivity|discriminate]]. }
  assert (B : forall t hdr size y, t < 8 -> header t hdr size -> hdr = a ++ y -> y <> [] -> failed (read_type_and_size m a)).
  { intros t hdr size y Ht (Hh & _ & _) Ea Ny. unfold read_type_and_size, read_size_encoding. apply failed_bind, size_short. eapply hdr_prefix; eassumption. }
  inversion He as [t num hdr z data Hp Hd Hz E1 E2
    |t base hdr dist ofs z delta data Hd Ho Hdi Hin Hz Hg Hsm E1 E2
    |t base hdr h z delta data off Hd Hid Hin Hob Hz Hg Hsm E1 E2
    |t base hdr h z delta data Hd Hid Hba Hno Hk Hbs Hz Hg Hsm E1 E2]; subst o.
  - destruct (pack_code_number _ _ Hp) as (Hn & Ht & _).
    destruct (H num hdr (nlen data) z) as [(y & Ey & Ny)|(x & -> & Ez)]; [lia|exact Hd|congruence| |].
    + rewrite (failed_unwrap _ _ (B num _ _ _ ltac:(lia) Hd Ey Ny)). right. reflexivity.
    + destruct Hd as (Hh & Hl & Hz2). rewrite (read_entry_hdr m num hdr (nlen data) x) by (try assumption; lia). cbn [unwrap bind].
      replace ((1 <=? num) && (num <=? 4)) with true by lia. rewrite (stream_short _ _ _ _ Hz Ez Nr). right. reflexivity.
  - destruct (H 6 hdr (nlen delta) (ofs ++ z)) as [(y & Ey & Ny)|(x & -> & Ez)]; [lia|exact Hd|congruence| |].
    + rewrite (failed_unwrap _ _ (B 6 _ _ _ ltac:(lia) Hd Ey Ny)). right. reflexivity.
    + destruct Hd as (Hh & Hl & Hz2). rewrite (read_entry_hdr m 6 hdr (nlen delta)) by (try assumption; lia).
      cbn [unwrap bind]. change ((1 <=? 6) && (6 <=? 4)) with false. change (6 =? 6) with true. cbv iota.
      assert (C : (exists y, ofs = x ++ y /\ y <> []) \/ exists y, x = ofs ++ y /\ z = y ++ r).
      { destruct (app_split _ _ _ _ Ez) as [(y & -> & ->)|(y & -> & ->)]; [right; eauto|].
        destruct y as [|u y]; [right; exists []; rewrite !app_nil_r; auto|left; exists (u :: y); split; [reflexivity|discriminate]]. }
      destruct C as [(y & Ey & Ny)|(y & -> & Ey)].
      * assert (K : failed (read_offset_encoding m x)) by (apply offset_short; eapply ofs_prefix; eassumption).
        rewrite (failed_unwrap _ _ K). right. reflexivity.
      * rewrite (read_offset_format m ofs dist y) by (try assumption; unfold U64; lia).
        cbn [unwrap bind]. replace (nlen b <? dist) with false by lia.
        destruct (I2 _ _ Hin) as (hb & Hhb & Eb).
        assert (Eo : offset_object k (nlen b - dist) = Some (as_meta (t, base) hb)).
        { unfold offset_object. rewrite Eb. eapply holds_get; eauto. }
        rewrite Eo. cbn [bind]. rewrite (stream_short _ _ _ _ Hz Ey Nr). right. reflexivity.
  - destruct (H 7 hdr (nlen delta) (h ++ z)) as [(y & Ey & Ny)|(x & -> & Ez)]; [lia|exact Hd|congruence| |].
    + rewrite (failed_unwrap _ _ (B 7 _ _ _ ltac:(lia) Hd Ey Ny)). right. reflexivity.
    + destruct Hd as (Hh & Hl & Hz2). rewrite (read_entry_hdr m 7 hdr (nlen delta)) by (try assumption; lia).
      cbn [unwrap bind]. change ((1 <=? 7) && (7 <=? 4)) with false. change (7 =? 6) with false. change (7 =? 7) with true. cbv iota.
      unfold read_hash, read_bytes. destruct (Nat.leb_spec 20 (length x)) as [L|L]; [|right; reflexivity].
      destruct (app_split _ _ _ _ Ez) as [(y & -> & Ey)|(y & Ey & Er)].
      * destruct Hid as [Hid1 Hid2]. rewrite firstn_app_n, skipn_app_n by assumption. cbn [unwrap bind].
        rewrite (holds_get k all (t, base) h) by eauto. cbn [bind]. rewrite (stream_short _ _ _ _ Hz Ey Nr). right. reflexivity.
      * assert (y = []). { destruct Hid as [Hid1 _]. rewrite Ey, app_length in Hid1. destruct y; [reflexivity|cbn [length] in Hid1; lia]. }
        subst y. rewrite app_nil_r in Ey. cbn [app] in Er. subst x r. destruct Hid as [Hid1 Hid2]. rewrite firstn_all2, skipn_all2 by lia. cbn [unwrap bind].
        rewrite (holds_get k all (t, base) h) by eauto. cbn [bind]. rewrite (stream_short z delta [] z Hz eq_refl Nr). right. reflexivity.
  - destruct (H 7 hdr (nlen delta) (h ++ z)) as [(y & Ey & Ny)|(x & -> & Ez)]; [lia|exact Hd|congruence| |].
    + rewrite (failed_unwrap _ _ (B 7 _ _ _ ltac:(lia) Hd Ey Ny)). right. reflexivity.
    + destruct Hd as (Hh & Hl & Hz2). rewrite (read_entry_hdr m 7 hdr (nlen delta)) by (try assumption; lia).
      cbn [unwrap bind]. change ((1 <=? 7) && (7 <=? 4)) with false. change (7 =? 6) with false. change (7 =? 7) with true. cbv iota.
      unfold read_hash, read_bytes. destruct (Nat.leb_spec 20 (length x)) as [L|L]; [|right; reflexivity].
      assert (C : exists y, x = h ++ y /\ z = y ++ r).
      { destruct (app_split _ _ _ _ Ez) as [(y & -> & Ey)|(y & Ey & Er)]; [eauto|].
        assert (y = []). { destruct Hid as [Hid1 _]. rewrite Ey, app_length in Hid1. destruct y; [reflexivity|cbn [length] in Hid1; lia]. }
        subst y. exists []. rewrite app_nil_r in Ey. rewrite app_nil_r. cbn [app] in Er. split; [symmetry; exact Ey|symmetry; exact Er]. }
      destruct C as (y & -> & Ey). destruct Hid as [Hid1 Hid2]. rewrite firstn_app_n, skipn_app_n by assumption. cbn [unwrap bind].
      destruct Hall as [->|Hall]; [|exfalso; eapply Hall; eassumption].
      destruct (hash_object k h) as [q|] eqn:Eh.
      { cbn [bind]. rewrite (stream_short _ _ _ _ Hz Ey Nr). right. reflexivity. }
      destruct Hk as (s & hk & T1 & T2 & T3). rewrite (id_text_plain s h T1 T2) in T3. rewrite T3. cbn [unwrap bind].
      rewrite (stream_short _ _ _ _ Hz Ey Nr). right. reflexivity.
Qed.

(** ** The whole pack *)

(** Where the cut falls. *)
Lemma body_cut : forall n b objs, pack_body c st n b objs -> forall a r, b = a ++ r -> r <> [] -> (12 <= length a)%nat ->
  exists b' objs' e o x y rest, pack_body c st n b' objs' /\ entry c st (nlen b') objs' e o /\ e = x ++ y /\ y <> [] /\ a = b' ++ x /\
    objs = objs' ++ (nlen b', o) :: rest.
Proof.
  induction 1 as [v w Hv Hw|b objs e o H IH He]; intros a r E Nr La.
  - exfalso. apply (f_equal (@length N)) in E. rewrite !app_length in E. destruct Hv as (? & ? & ? & ? & -> & _), Hw as (? & ? & ? & ? & -> & _).
    cbn [length bs] in E. destruct r; [destruct (Nr eq_refl)|cbn [length] in E; lia].
  - destruct (app_split _ _ _ _ E) as [(z & -> & Ee)|(z & Eb & Er)].
    + exists b, objs, e, o, z, r, []. auto 10.
    + destruct z as [|u z].
      * rewrite app_nil_r in Eb. subst a. cbn [app] in Er. subst r. exists b, objs, e, o, [], e, []. rewrite app_nil_r. auto 10.
      * destruct (IH a (u :: z) Eb ltac:(discriminate) La) as (b' & objs' & e' & o' & x & y & rest & K1 & K2 & K3 & K4 & K5 & ->).
        exists b', objs', e', o', x, y, (rest ++ [(nlen b, o)]). rewrite <- app_assoc. auto 10.
Qed.

Lemma decode_loop_failed : forall fuel file n1 n2 pos k p' k', decode_loop m c st fuel file n1 pos k = Ok (p', k') ->
  failed (next_object m c st fuel file p' k') -> failed (decode_loop m c st fuel file (n1 + S n2) pos k).
Proof.
  intros fuel file n1. induction n1 as [|n1 IH]; intros n2 pos k p' k' E F.
  - cbn [decode_loop] in E. injection E as -> ->. cbn [Nat.add decode_loop]. apply failed_bind, F.
  - cbn [decode_loop Nat.add] in *. destruct (next_object m c st fuel file pos k) as [[[o q] k1]| | |]; try discriminate E. cbn [bind] in *.
    destruct (2 ^ 32 <=? pos); [discriminate E|]. eapply IH; eassumption.
Qed.

Lemma decode_short : forall fuel file objs a r, git_pack c st file objs -> no_collision (map snd objs) -> nlen file < 2 ^ 32 ->
  file = a ++ r -> r <> [] -> failed (decode m c st (S fuel) a).
Proof.
  intros fuel file objs a r (b & Hb & ->) Nc Hl E Nr.
  destruct (Nat.ltb_spec (length a) 12) as [La|La].
  { unfold decode. apply failed_bind. unfold check_header, read_u32, read_bytes.
    repeat (rewrite ?skipn_length; match goal with
    | |- failed (bind (unwrap (bind (if ?x then _ else _) _)) _) => destruct x eqn:?; cbn [unwrap bind]
    | |- failed (bind (unwrap (if ?x then _ else _)) _) => destruct x eqn:?; cbn [unwrap bind]
    | |- failed (unwrap (bind (if ?x then _ else _) _)) => destruct x eqn:?; cbn [unwrap bind]
    | |- failed (if ?x then _ else _) => destruct x eqn:?
    end); try (right; reflexivity); try (left; eexists; reflexivity).
    exfalso. repeat match goal with H : (_ <=? _)%nat = true |- _ => apply Nat.leb_le in H; rewrite ?skipn_length in H end. lia. }
  destruct (body_header _ _ _ _ _ Hb) as (Hn & x & Eb).
  assert (Off : forall off o, In (off, o) objs -> off < 2 ^ 32).
  { intros off o Ho. apply (pack_body_offs _ _ _ _ _ Hb) in Ho. rewrite nlen_app in Hl. lia. }
  assert (Ch : exists s, a = bs "PACK" ++ u32_vec 2 ++ u32_vec (nlen objs) ++ s).
  { rewrite Eb, <- !app_assoc in E. assert (K : exists s, a = (bs "PACK" ++ u32_vec 2 ++ u32_vec (nlen objs)) ++ s).
    { assert (K : (bs "PACK" ++ u32_vec 2 ++ u32_vec (nlen objs)) ++ (x ++ sha1 (bs "PACK" ++ u32_vec 2 ++ u32_vec (nlen objs) ++ x)) = a ++ r) by (rewrite <- !app_assoc; exact E).
      destruct (app_split _ _ _ _ K) as [(z & -> & _)|(z & Ez & _)]; [eauto|]. exists []. apply (f_equal (@length N)) in Ez as Lz.
      rewrite !app_length, !u32_vec_len in Lz. cbn [length bs] in Lz. destruct z; [rewrite !app_nil_r in *; symmetry; exact Ez|cbn [length] in Lz; lia]. }
    destruct K as (s & ->). exists s. rewrite <- !app_assoc. reflexivity. }
  destruct Ch as (s & Ea). unfold decode. rewrite Ea at 1. rewrite check_header_ok by exact Hn. cbn [bind].
  replace (nlen a - nlen s) with 12 by (rewrite Ea; symmetry; apply header_pos).
  replace (N.to_nat (nlen objs)) with (length objs) by (unfold nlen; rewrite Nat2N.id; reflexivity).
  assert (Hk : SpecPack.holds cache_empty []) by (intros h y; cbn; split; [discriminate|intros (o & [] & _)]).
  destruct (app_split _ _ _ _ E) as [(z & Ez & Es)|(z & Ez & Es)].
  - (* the cut is in the trailer *)
    destruct (decode_loop_body m c st _ b objs fuel [] cache_empty Hb Hk (or_introl eq_refl) Nc Off z) as (k & Ek & _).
    rewrite Ez, Ek. cbn [bind]. rewrite file_at_app. unfold read_bytes.
    assert (Lz : (length z < 20)%nat).
    { apply (f_equal (@length N)) in Es. rewrite app_length, sha1_len in Es. destruct r; [destruct (Nr eq_refl)|cbn [length] in Es; lia]. }
    destruct (Nat.leb_spec 20 (length z)); [lia|]. right. reflexivity.
  - destruct z as [|u z].
    + rewrite app_nil_r in Ez. rewrite <- Ez. destruct (decode_loop_body m c st _ b objs fuel [] cache_empty Hb Hk (or_introl eq_refl) Nc Off []) as (k & Ek & _).
      rewrite app_nil_r in Ek. rewrite Ek. cbn [bind]. replace (file_at b (nlen b)) with (@nil N); [right; reflexivity|].
      unfold file_at, nlen. rewrite Nat2N.id, skipn_all. reflexivity.
    + destruct (body_cut _ _ _ Hb a (u :: z) Ez ltac:(discriminate) La) as (b' & objs' & e & o & p & q & rest & K1 & K2 & K3 & K4 & K5 & K6).
      assert (Nc' : no_collision ([] ++ map snd objs')).
      { eapply no_collision_incl; [exact Nc|]. rewrite K6, map_app. apply incl_appl, incl_refl. }
      destruct (decode_loop_body m c st _ b' objs' fuel [] cache_empty K1 Hk (or_introl eq_refl) Nc') with (rest := p) as (k & Ek & Ik).
      { intros off o' Ho. apply (Off off o'). rewrite K6. apply in_or_app. auto. }
      assert (Lb : nlen b' < 2 ^ 64).
      { assert (nlen b' < 2 ^ 32) by (apply (Off _ o); rewrite K6; apply in_or_app; right; left; reflexivity).
        change (2 ^ 32) with 4294967296 in *. change (2 ^ 64) with 18446744073709551616. lia. }
      rewrite K5. apply failed_bind. rewrite K6, app_length. cbn [length].
      eapply decode_loop_failed; [exact Ek|]. eapply entry_short; [exact K1|exact Ik|exact Lb|left; reflexivity|exact K2|exact K3|exact K4].
Qed.
End Short.

(** ** The codec of the examples *)

Lemma unstore_app : forall f s d rest x g, unstore f s = Some (d, rest) -> (f <= g)%nat ->
  unstore g (s ++ x) = Some (d, rest ++ x) /\ (length rest <= length s)%nat.
Proof.
  induction f as [|f IH]; intros s d rest x g E Hg; [discriminate E|]. destruct g as [|g]; [lia|]. cbn [unstore] in *.
  destruct s as [|final [|l0 [|l1 [|n0 [|n1 r]]]]]; try discriminate E. cbn [app].
  destruct (negb _); [discriminate E|]. set (len := N.to_nat (l0 + 256 * l1)) in *.
  destruct (Nat.ltb_spec (length r) len) as [L|L]; [discriminate E|].
  destruct (Nat.ltb_spec (length (r ++ x)) len) as [L'|_]; [rewrite app_length in L'; lia|].
  assert (F : firstn len (r ++ x) = firstn len r).
  { rewrite firstn_app. replace (len - length r)%nat with 0%nat by lia. rewrite firstn_O, app_nil_r. reflexivity. }
  assert (K : skipn len (r ++ x) = skipn len r ++ x).
  { rewrite skipn_app. replace (len - length r)%nat with 0%nat by lia. reflexivity. }
  rewrite F, K. cbn [length]. destruct (final =? 1).
  - injection E as <- <-. split; [reflexivity|]. rewrite skipn_length. lia.
  - destruct (final =? 0); [|discriminate E]. destruct (unstore f (skipn len r)) as [[d' rest']|] eqn:U; [|discriminate E].
    injection E as <- <-. destruct (IH _ _ _ x g U) as [-> Lr]; [lia|]. split; [reflexivity|]. rewrite skipn_length in Lr. lia.
Qed.
Lemma stored_streaming : streaming stored.
Proof.
  intros a d k E. cbn [inflate stored] in E |- *. destruct a as [|x [|y r]]; try discriminate E.
  { unfold stored_inflate in E. repeat match type of E with context [match ?v with _ => _ end] => destruct v; try discriminate E end. }
  assert (Exy : x = 120 /\ y = 1).
  { unfold stored_inflate in E. repeat match type of E with match ?v with _ => _ end = _ => destruct v; try discriminate E end; auto. }
  destruct Exy as [-> ->]. unfold stored_inflate in E |- *. destruct (unstore (length r) r) as [[d' rest]|] eqn:U; [|discriminate E].
  destruct (beq (firstn 4 rest) (adler32 d') && (4 <=? length rest)%nat) eqn:B; [|discriminate E].
  assert (Ed : d = d') by congruence. assert (Ek : k = (length (120%N :: 1%N :: r) - (length rest - 4))%nat) by congruence. clear E. subst d'.
  apply andb_true_iff in B as [B1 B2]. pose proof (unstore_app _ _ _ _ [] (length r) U (le_n _)) as [_ Lr]. apply Nat.leb_le in B2.
  split; [lia|]. intros s. cbn [app]. destruct (unstore_app _ _ _ _ s (length (r ++ s)) U) as [-> _]; [rewrite app_length; lia|].
  rewrite firstn_app. replace (4 - length rest)%nat with 0%nat by lia. rewrite firstn_O, app_nil_r, B1. rewrite app_length.
  destruct (Nat.leb_spec 4 (length rest + length s)); [|lia]. cbn [andb]. rewrite Ek. do 2 f_equal.
  change (120 :: 1 :: r ++ s) with ((120 :: 1 :: r) ++ s). rewrite (app_length (120 :: 1 :: r) s). assert (length r <= length (120%N :: 1%N :: r))%nat by (cbn [length]; lia). lia.
Qed.

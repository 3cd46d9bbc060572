(** Proofs about index files. *)

From Coq Require Import Lia Sorted.
From Verif Require Import Base BaseLemmas Digest ModelUtils ModelObject ModelDelta ModelPack ModelIdx
  SpecFormat SpecObject SpecDelta SpecPack SpecIdx ProofUtils ProofObject ProofPack ProofEncode ProofPackAny ProofPackDir.
Open Scope N_scope.

(** ** Counting *)

Definition cnt {A} (f : A -> bool) (l : list A) : N := nlen (filter f l).
Lemma cnt_cons : forall A (f : A -> bool) x l, cnt f (x :: l) = (if f x then 1 else 0) + cnt f l.
Proof. intros. unfold cnt. cbn [filter]. destruct (f x); [rewrite nlen_cons|]; lia. Qed.
Lemma counted_cnt : forall P f ls, (forall x, In x ls -> P (l_id x) <-> f x = true) -> counted P ls (cnt f ls).
Proof.
  induction ls as [|x ls IH]; intros H; [constructor|]. rewrite cnt_cons.
  assert (IH' : counted P ls (cnt f ls)) by (apply IH; intros y Hy; apply H; right; assumption).
  destruct (f x) eqn:E.
  - rewrite N.add_comm. constructor; [|assumption]. apply H; [left; reflexivity|assumption].
  - rewrite N.add_0_l. constructor; [|assumption]. intros Hp. apply H in Hp; [congruence|left; reflexivity].
Qed.
Lemma counted_fun : forall P ls a, counted P ls a -> forall b, counted P ls b -> a = b.
Proof.
  induction 1 as [|x l n Hp H IH|x l n Hp H IH]; intros b Hb; inversion Hb; subst; try contradiction; auto.
  f_equal. auto.
Qed.

Definition firstb (x : line) : N := hash_get_first (l_id x).
Lemma id_first : forall h, id_ok h -> first_byte h (hash_get_first h) /\ hash_get_first h < 256.
Proof.
  intros [|b h] [H1 H2]; [discriminate|]. inversion H2; subst. split; [exists h; reflexivity|assumption].
Qed.
Lemma first_byte_eq : forall h b, id_ok h -> first_byte h b <-> hash_get_first h = b.
Proof.
  intros h b H. split; [intros (t & ->); reflexivity|]. intros <-. apply id_first. assumption.
Qed.
Lemma at_most_le : forall h b, id_ok h -> at_most b h <-> (hash_get_first h <? b + 1) = true.
Proof.
  intros h b H. rewrite N.ltb_lt. split.
  - intros (b' & H1 & H2). apply first_byte_eq in H1; [|assumption]. lia.
  - intros H1. exists (hash_get_first h). split; [apply id_first; assumption|lia].
Qed.
Definition lt_count (b : N) (ls : list line) : N := cnt (fun x => firstb x <? b) ls.
Definition eq_count (b : N) (ls : list line) : N := cnt (fun x => firstb x =? b) ls.
Lemma lt_count_S : forall b ls, lt_count (b + 1) ls = lt_count b ls + eq_count b ls.
Proof.
  unfold lt_count, eq_count. induction ls as [|x ls IH]; [reflexivity|]. rewrite !cnt_cons, IH.
  destruct (N.ltb_spec (firstb x) (b + 1)), (N.ltb_spec (firstb x) b), (N.eqb_spec (firstb x) b); lia.
Qed.
Lemma lt_count_0 : forall ls, lt_count 0 ls = 0.
Proof. induction ls as [|x ls IH]; [reflexivity|]. unfold lt_count in *. rewrite cnt_cons, IH.
  destruct (N.ltb_spec (firstb x) 0); lia. Qed.
Lemma lt_count_mono : forall a b ls, a <= b -> lt_count a ls <= lt_count b ls.
Proof.
  intros a b ls H. unfold lt_count. induction ls as [|x ls IH]; [reflexivity|]. rewrite !cnt_cons.
  destruct (N.ltb_spec (firstb x) a), (N.ltb_spec (firstb x) b); lia.
Qed.
Lemma lt_count_all : forall ls, Forall (fun x => id_ok (l_id x)) ls -> lt_count 256 ls = nlen ls.
Proof.
  induction 1 as [|x ls Hx H IH]; [reflexivity|]. unfold lt_count in *. rewrite cnt_cons, IH, nlen_cons.
  apply id_first in Hx as [_ Hx]. unfold firstb. destruct (N.ltb_spec (hash_get_first (l_id x)) 256); lia.
Qed.
Lemma lt_count_le : forall b ls, lt_count b ls <= nlen ls.
Proof.
  unfold lt_count. induction ls as [|x ls IH]; [reflexivity|]. rewrite cnt_cons, nlen_cons.
  destruct (_ <? _); lia.
Qed.
Lemma counted_at_most : forall b ls, Forall (fun x => id_ok (l_id x)) ls -> counted (at_most b) ls (lt_count (b + 1) ls).
Proof.
  intros b ls H. apply counted_cnt. intros x Hx. rewrite Forall_forall in H. apply at_most_le. apply H. assumption.
Qed.
Lemma counted_first : forall b ls, Forall (fun x => id_ok (l_id x)) ls ->
  counted (fun h => first_byte h b) ls (eq_count b ls).
Proof.
  intros b ls H. apply counted_cnt. intros x Hx. rewrite Forall_forall in H.
  rewrite N.eqb_eq. apply first_byte_eq. apply H. assumption.
Qed.

(** ** Reading tables *)

Lemma chunks_concat : forall w ws pre post, Forall (fun x => length x = w) ws ->
  chunks w (length ws) (length pre) (pre ++ concat ws ++ post) = Ok ws.
Proof.
  induction ws as [|x ws IH]; intros pre post H; [reflexivity|]. inversion H as [|? ? Hx Hws]; subst.
  cbn [chunks length concat]. rewrite <- app_assoc.
  rewrite (slice_mid _ pre x (concat ws ++ post)) by reflexivity. cbn [bind].
  rewrite <- app_length, app_assoc. rewrite IH by assumption. reflexivity.
Qed.
Lemma chunks_at : forall w n off ws pre post file, Forall (fun x => length x = w) ws ->
  n = length ws -> off = length pre -> file = pre ++ concat ws ++ post -> chunks w n off file = Ok ws.
Proof. intros; subst. apply chunks_concat. assumption. Qed.

Lemma table_vec : forall file vals, table file vals <-> Forall (fun v => v < 2 ^ 32) vals /\ file = concat (map u32_vec vals).
Proof.
  intros file vals. split.
  - intros (ws & H & ->). induction H as [|w v ws vs Hw H IH]; [split; [constructor|reflexivity]|].
    destruct IH as [I1 I2]. cbn [concat map]. split; [constructor; [|assumption]|].
    + destruct Hw as (a & b & c & d & -> & Hok & ->). unfold bytes_ok, byte_ok in Hok.
      repeat match goal with X : Forall _ (_ :: _) |- _ => inversion X; clear X; subst end.
      change (2 ^ 24) with 16777216. change (2 ^ 16) with 65536. change (2 ^ 8) with 256. change (2 ^ 32) with 4294967296. lia.
    + apply be32_vec in Hw. subst w. f_equal. assumption.
  - intros [H ->]. exists (map u32_vec vals). split; [|reflexivity].
    induction H; [constructor|]. constructor; [apply u32_vec_value; assumption|assumption].
Qed.
Lemma from_be_vec : forall v, v < 2 ^ 32 -> from_be (u32_vec v) = v.
Proof.
  intros v H. pose proof (u32_roundtrip v [] H) as E. unfold read_u32, read_bytes in E.
  rewrite app_nil_r in E. rewrite u32_vec_len in E. cbn [Nat.leb bind] in E.
  rewrite <- (u32_vec_len v) in E. rewrite firstn_all in E. congruence.
Qed.
Lemma concat_vec_len : forall vals, length (concat (map u32_vec vals)) = (4 * length vals)%nat.
Proof. induction vals; [reflexivity|]. cbn [map concat]. rewrite app_length, IHvals, u32_vec_len. cbn [length]. lia. Qed.
Lemma vec_widths : forall vals, Forall (fun x => length x = 4%nat) (map u32_vec vals).
Proof. intros. apply Forall_forall. intros x H. apply in_map_iff in H as (v & <- & _). reflexivity. Qed.
Lemma ids_len : forall ls, Forall (fun x => id_ok (l_id x)) ls -> length (concat (map l_id ls)) = (20 * length ls)%nat.
Proof.
  induction 1 as [|x ls [Hx _] H IH]; [reflexivity|]. cbn [map concat length]. rewrite app_length, Hx, IH. lia.
Qed.

Lemma sha1_prefix_hex : forall b, b < 256 -> sha1_prefix b = hex_encode [b].
Proof.
  intros b H. unfold sha1_prefix, hex_encode. cbn [flat_map app]. rewrite shiftr_div, land_15.
  change (2 ^ 4) with 16. destruct (N.ltb_spec b 16).
  - replace (b / 16) with 0 by (symmetry; apply N.div_small; assumption).
    rewrite N.mod_small by assumption. reflexivity.
  - reflexivity.
Qed.
Lemma hex1_inj : forall a b, a < 256 -> b < 256 -> hex_encode [a] = hex_encode [b] -> a = b.
Proof.
  intros a b Ha Hb E. assert (A : hex_text (hex_encode [a]) [a]) by (apply hex_encode_text; constructor; [assumption|constructor]).
  assert (B : hex_text (hex_encode [b]) [b]) by (apply hex_encode_text; constructor; [assumption|constructor]).
  rewrite E in A. pose proof (hex_text_fun _ _ _ A B). congruence.
Qed.

(** ** The fan-out table *)

Lemma fan_loop_ok : forall m ls vals k prefix number,
  k + nlen vals = 256 -> (forall i v, nth_error vals i = Some v -> v = lt_count (k + N.of_nat i + 1) ls) ->
  Forall (fun v => v < 2 ^ 32) vals ->
  exists prefix', fan_loop m (map u32_vec vals) k (lt_count k ls) prefix number =
      Ok (lt_count 256 ls, prefix', if lt_count 256 ls =? lt_count k ls then number else lt_count 256 ls) /\
    (forall b, b < k -> bt_get (hex_encode [b]) prefix' = bt_get (hex_encode [b]) prefix) /\
    (forall b, k <= b < 256 -> bt_get (hex_encode [b]) prefix' =
       if eq_count b ls =? 0 then bt_get (hex_encode [b]) prefix else Some (eq_count b ls)).
Proof.
  induction vals as [|v vals IH]; intros k prefix number Hk Hv Hlt.
  - rewrite nlen_nil in Hk. assert (k = 256) by lia. subst k. exists prefix.
    cbn [map fan_loop]. rewrite N.eqb_refl. split; [reflexivity|]. split; [reflexivity|]. intros; lia.
  - rewrite nlen_cons in Hk. inversion Hlt as [|? ? Hv1 Hlt']; subst. pose proof (Hv O v eq_refl) as E. rewrite N.add_0_r in E.
    assert (Hv' : forall i w, nth_error vals i = Some w -> w = lt_count (k + 1 + N.of_nat i + 1) ls).
    { intros i w Hi. rewrite (Hv (S i) w Hi). f_equal. lia. }
    cbn [map fan_loop]. rewrite from_be_vec by assumption. pose proof (lt_count_S k ls) as S.
    destruct (N.eqb_spec v (lt_count k ls)) as [Ev|Ev].
    + rewrite <- Ev, E. destruct (IH (k + 1) prefix number) as (p' & I1 & I2 & I3); [lia|assumption|assumption|].
      exists p'. split; [exact I1|]. split.
      * intros b Hb. apply I2. lia.
      * intros b Hb. destruct (N.eq_dec b k) as [->|Hn]; [|apply I3; lia].
        rewrite I2 by lia. replace (eq_count k ls =? 0) with true by (symmetry; apply N.eqb_eq; lia). reflexivity.
    + unfold sub64. replace (lt_count k ls <=? v) with true by (symmetry; apply N.leb_le; lia). cbn [bind].
      destruct (IH (k + 1) (bt_insert (sha1_prefix k) (v - lt_count k ls) prefix) v) as (p' & I1 & I2 & I3); [lia|assumption|assumption|].
      rewrite <- E in I1. exists p'. split.
      * rewrite I1. f_equal. f_equal.
        assert (Hm : lt_count (k + 1) ls <= lt_count 256 ls) by (apply lt_count_mono; lia).
        destruct (N.eqb_spec (lt_count 256 ls) v), (N.eqb_spec (lt_count 256 ls) (lt_count k ls)); try congruence; lia.
      * assert (G : forall b, b < 256 -> b <> k -> bt_get (hex_encode [b]) (bt_insert (sha1_prefix k) (v - lt_count k ls) prefix) = bt_get (hex_encode [b]) prefix).
        { intros b Hb Hn. apply bt_get_insert_other. rewrite sha1_prefix_hex by lia. intros X. apply hex1_inj in X; lia. }
        split.
        -- intros b Hb. rewrite I2 by lia. apply G; lia.
        -- intros b Hb. destruct (N.eq_dec b k) as [->|Hn].
           ++ rewrite I2 by lia. rewrite <- sha1_prefix_hex by lia. rewrite bt_get_insert_same.
              destruct (N.eqb_spec (eq_count k ls) 0); [lia|]. f_equal. lia.
           ++ rewrite I3 by lia. destruct (_ =? 0); [|reflexivity]. apply G; lia.
Qed.

(** ** Reading an index file *)

Definition item_of (x : line) : idx_item := mkItem (l_id x) (hex_encode (u32_vec (l_crc x))) (l_off x).

Lemma make_items_ok : forall ls, Forall (fun v => v < 2 ^ 32) (map l_off ls) ->
  make_items (map l_id ls) (map u32_vec (map l_crc ls)) (map u32_vec (map l_off ls)) = map item_of ls.
Proof.
  induction ls as [|x ls IH]; intros H; [reflexivity|]. inversion H; subst. cbn [map make_items].
  rewrite from_be_vec, IH by assumption. reflexivity.
Qed.
Lemma fill_other : forall items i map h, (forall it, In it items -> i_id it <> h) ->
  bt_get h (fill_item_hash items i map) = bt_get h map.
Proof.
  induction items as [|it items IH]; intros i map h H; [reflexivity|]. cbn [fill_item_hash].
  rewrite IH by (intros; apply H; right; assumption). apply bt_get_insert_other.
  intros ->. apply (H it); [left; reflexivity|reflexivity].
Qed.
Lemma fill_get : forall items i map j it, NoDup (List.map i_id items) -> nth_error items j = Some it ->
  bt_get (i_id it) (fill_item_hash items i map) = Some (i + j)%nat.
Proof.
  induction items as [|x items IH]; intros i map j it Hn Hj; [destruct j; discriminate|].
  cbn [List.map] in Hn. inversion Hn; subst. cbn [fill_item_hash]. destruct j as [|j].
  - injection Hj as ->. rewrite fill_other.
    + rewrite bt_get_insert_same. f_equal. lia.
    + intros y Hy E. apply H1. rewrite <- E. apply in_map. assumption.
  - cbn in Hj. rewrite (IH (S i) _ j it) by assumption. f_equal. lia.
Qed.
Lemma ascending_nodup : forall ls, ascending ls -> NoDup (map l_id ls).
Proof.
  induction 1 as [|x l Hx H IH]; [constructor|]. cbn [map]. constructor; [|assumption].
  intros Hi. apply in_map_iff in Hi as (y & E & Hy). rewrite Forall_forall in Hx. specialize (Hx y Hy).
  unfold before in Hx. rewrite E, bcmp_refl in Hx. discriminate.
Qed.

(** Whatever the version field and the last 20 bytes say. *)
Lemma idx_decode_gen : forall m ls sig fan fv crcs offs w v s, be32_value w v ->
  table fan fv -> length fv = 256%nat ->
  (forall b v, nth_error fv (N.to_nat b) = Some v -> counted (at_most b) ls v) ->
  table crcs (map l_crc ls) -> table offs (map l_off ls) ->
  Forall (fun x => id_ok (l_id x)) ls -> ascending ls -> id_ok sig -> length s = 20%nat ->
  exists x, idx_decode m idx_default
      ([255; 116; 79; 99] ++ w ++ fan ++ concat (map l_id ls) ++ crcs ++ offs ++ sig ++ s) = Ok x /\
    x_version x = v /\ x_number x = nlen ls /\
    x_items x = map item_of ls /\ x_pack_signature x = sig /\ x_idx_signature x = s /\
    (forall b, b < 256 -> bt_get (hex_encode [b]) (x_prefix x) =
       if eq_count b ls =? 0 then None else Some (eq_count b ls)) /\
    (forall y, In y ls -> idx_get_offset x (l_id y) = Ok (item_of y)) /\
    (forall h, ~ In h (map l_id ls) -> idx_get_offset x h = Panic).
Proof.
  intros m ls sig fan fv crcs offs w v s Hw Hf Hfl Hfc Hc Ho Hid Hasc Hsig HS.
  assert (Hv : v < 2 ^ 32).
  { assert (T : table w [v]) by (exists [w]; split; [constructor; [assumption|constructor]|cbn; rewrite app_nil_r; reflexivity]).
    apply table_vec in T as [T _]. inversion T. assumption. }
  apply be32_vec in Hw. subst w.
  apply table_vec in Hf as [Hf1 ->]. apply table_vec in Hc as [Hc1 ->]. apply table_vec in Ho as [Ho1 ->].
  assert (E256 : 0 + nlen fv = 256) by (unfold nlen; rewrite Hfl; reflexivity).
  assert (Hn : forall i v, nth_error fv i = Some v -> v = lt_count (0 + N.of_nat i + 1) ls).
  { intros i v' Hi. rewrite <- (Nat2N.id i) in Hi. apply Hfc in Hi. eapply counted_fun; [exact Hi|]. rewrite N.add_0_l. apply counted_at_most. assumption. }
  destruct (fan_loop_ok m ls fv 0 [] 0 E256 Hn Hf1) as (prefix & Hfan & _ & Hpre).
  rewrite lt_count_0 in Hfan. rewrite lt_count_all in Hfan by assumption.
  eexists. split.
  { unfold idx_decode.
    rewrite (slice_prefix _ [255; 116; 79; 99]) by reflexivity. cbn [bind]. rewrite beq_refl. cbn [negb].
    rewrite (slice_mid _ [255; 116; 79; 99] (u32_vec v)) by reflexivity. cbn [bind].
    rewrite (chunks_at 4 256 8 (map u32_vec fv) ([255; 116; 79; 99] ++ u32_vec v)
      (concat (map l_id ls) ++ concat (map u32_vec (map l_crc ls)) ++ concat (map u32_vec (map l_off ls)) ++ sig ++ s))
      by (try apply vec_widths; rewrite ?map_length, <- ?app_assoc; auto).
    cbn [bind]. change (x_prefix idx_default) with (@nil (bytes * N)). change (x_number idx_default) with 0.
    rewrite Hfan. cbn [bind]. assert (EN : N.to_nat (nlen ls) = length ls) by apply Nat2N.id. rewrite EN.
    pose proof (concat_vec_len fv) as L1. rewrite Hfl in L1. pose proof (ids_len ls Hid) as L2.
    pose proof (concat_vec_len (map l_crc ls)) as L3. pose proof (concat_vec_len (map l_off ls)) as L4.
    rewrite map_length in L3, L4. destruct Hsig as [L5 _].
    rewrite (chunks_at 20 (length ls) 1032 (map l_id ls) ([255; 116; 79; 99] ++ u32_vec v ++ concat (map u32_vec fv))
      (concat (map u32_vec (map l_crc ls)) ++ concat (map u32_vec (map l_off ls)) ++ sig ++ s)).
    2: { apply Forall_forall. intros h Hh. apply in_map_iff in Hh as (y & <- & Hy). rewrite Forall_forall in Hid. apply Hid. assumption. }
    2: { rewrite map_length. reflexivity. }
    2: { rewrite !app_length, L1. reflexivity. }
    2: { rewrite <- !app_assoc. reflexivity. }
    cbn [bind].
    rewrite (chunks_at 4 (length ls) (1032 + 20 * length ls) (map u32_vec (map l_crc ls)) ([255; 116; 79; 99] ++ u32_vec v ++ concat (map u32_vec fv) ++ concat (map l_id ls))
      (concat (map u32_vec (map l_off ls)) ++ sig ++ s)).
    2: apply vec_widths.
    2: { rewrite !map_length. reflexivity. }
    2: { rewrite !app_length, L1, L2. reflexivity. }
    2: { rewrite <- !app_assoc. reflexivity. }
    cbn [bind].
    rewrite (chunks_at 4 (length ls) (1032 + 20 * length ls + 4 * length ls) (map u32_vec (map l_off ls))
      ([255; 116; 79; 99] ++ u32_vec v ++ concat (map u32_vec fv) ++ concat (map l_id ls) ++ concat (map u32_vec (map l_crc ls)))
      (sig ++ s)).
    2: apply vec_widths.
    2: { rewrite !map_length. reflexivity. }
    2: { rewrite !app_length, L1, L2, L3. cbn [length]. rewrite u32_vec_len. lia. }
    2: { rewrite <- !app_assoc. reflexivity. }
    cbn [bind]. rewrite make_items_ok by assumption.
    set (pre := [255; 116; 79; 99] ++ u32_vec v ++ concat (map u32_vec fv) ++ concat (map l_id ls) ++ concat (map u32_vec (map l_crc ls)) ++ concat (map u32_vec (map l_off ls))).
    assert (LP : length pre = (1032 + 20 * length ls + 4 * length ls + 4 * length ls)%nat).
    { unfold pre. rewrite !app_length, L1, L2, L3, L4. cbn [length]. rewrite u32_vec_len. lia. }
    assert (EP : forall t, [255; 116; 79; 99] ++ u32_vec v ++ concat (map u32_vec fv) ++ concat (map l_id ls) ++ concat (map u32_vec (map l_crc ls)) ++ concat (map u32_vec (map l_off ls)) ++ t = pre ++ t).
    { intros t. unfold pre. rewrite <- !app_assoc. reflexivity. }
    rewrite EP. rewrite <- LP.
    rewrite (slice_mid _ pre sig s) by (rewrite ?L5; reflexivity). cbn [bind].
    unfold hash_from_row at 1. rewrite L5. change (20 =? 20)%nat with true. cbn [bind].
    rewrite app_assoc. rewrite (slice_from_app _ (pre ++ sig) s) by (rewrite app_length, L5; reflexivity). cbn [bind].
    unfold hash_from_row. rewrite HS. change (20 =? 20)%nat with true. cbn [bind].
    change (x_items idx_default) with (@nil idx_item). cbn [app].
    rewrite from_be_vec by exact Hv. subst pre. reflexivity. }
  cbn [x_version x_number x_items x_pack_signature x_idx_signature x_prefix x_item_hash].
  split; [reflexivity|]. split; [destruct (N.eqb_spec (nlen ls) 0); lia|]. split; [reflexivity|]. split; [reflexivity|].
  split; [reflexivity|]. split.
  - intros b Hb. rewrite Hpre by lia. reflexivity.
  - split.
    2: { intros h Hh. unfold idx_get_offset. cbn [x_item_hash]. rewrite fill_other; [reflexivity|].
         intros it Hi E. apply Hh. apply in_map_iff in Hi as (y & <- & Hy). rewrite <- E. cbn. apply in_map. assumption. }
    intros y Hy. unfold idx_get_offset. cbn [x_item_hash x_items].
    apply In_nth_error in Hy as (j & Hj).
    assert (Hj' : nth_error (map item_of ls) j = Some (item_of y)) by (apply map_nth_error; assumption).
    change (l_id y) with (i_id (item_of y)). rewrite (fill_get _ 0 _ j (item_of y)).
    + cbn [unwrap_opt bind]. rewrite Nat.add_0_l, Hj'. reflexivity.
    + rewrite map_map. apply ascending_nodup. assumption.
    + assumption.
Qed.

Lemma idx_decode_ok : forall m file ls sig, git_idx file ls sig ->
  exists x, idx_decode m idx_default file = Ok x /\ x_version x = 2 /\ x_number x = nlen ls /\
    x_items x = map item_of ls /\ x_pack_signature x = sig /\
    (exists body, file = body ++ x_idx_signature x /\ x_idx_signature x = sha1 body) /\
    (forall b, b < 256 -> bt_get (hex_encode [b]) (x_prefix x) =
       if eq_count b ls =? 0 then None else Some (eq_count b ls)) /\
    (forall y, In y ls -> idx_get_offset x (l_id y) = Ok (item_of y)) /\
    (forall h, ~ In h (map l_id ls) -> idx_get_offset x h = Panic).
Proof.
  intros m file ls sig (version & fan & fv & ids & crcs & offs & body & Hv & Hf & Hfl & Hfc & -> & Hc & Ho & Hid & Hasc & Hsig & -> & ->).
  destruct (idx_decode_gen m ls sig fan fv crcs offs version 2
    (sha1 ([255; 116; 79; 99] ++ version ++ fan ++ concat (map l_id ls) ++ crcs ++ offs ++ sig)) Hv Hf Hfl Hfc Hc Ho Hid Hasc Hsig
    (proj1 (sha1_ok _))) as (x & E & H1 & H2 & H3 & H4 & H5 & H6).
  exists x. split; [rewrite <- E; f_equal; rewrite <- !app_assoc; reflexivity|].
  repeat (split; [assumption|]). split; [|assumption].
  eexists. rewrite H5. split; reflexivity.
Qed.

(** ** The cache of a decoded pack *)

Definition lt_hash (a b : hash) : Prop := bcmp a b = Lt.
Fixpoint kins (k : hash) (l : list hash) : list hash :=
  match l with
  | [] => [k]
  | k' :: r => match bcmp k k' with Lt => k :: l | Eq => k :: r | Gt => k' :: kins k r end
  end.
Lemma bt_insert_keys : forall A k (v : A) l, map fst (bt_insert k v l) = kins k (map fst l).
Proof.
  induction l as [|[k' v'] l IH]; [reflexivity|]. cbn [bt_insert map fst kins].
  destruct (bcmp k k'); cbn [map fst]; try reflexivity. rewrite IH. reflexivity.
Qed.
Lemma kins_in : forall k l x, In x (kins k l) -> x = k \/ In x l.
Proof.
  induction l as [|k' l IH]; cbn [kins]; intros x H; [destruct H as [->|[]]; auto|].
  destruct (bcmp k k'); cbn [In] in *; [destruct H; auto|destruct H; auto|].
  destruct H as [->|H]; [auto|]. apply IH in H as [->|H]; auto.
Qed.
Lemma kins_sorted : forall k l, StronglySorted lt_hash l -> StronglySorted lt_hash (kins k l).
Proof.
  induction 1 as [|k' l Hs IH Hf]; cbn [kins]; [constructor; constructor|].
  destruct (bcmp k k') eqn:E.
  - apply bcmp_eq in E. subst k'. constructor; assumption.
  - constructor; [constructor; assumption|]. constructor; [assumption|].
    eapply Forall_impl; [|exact Hf]. intros a Ha. eapply bcmp_trans; eassumption.
  - constructor; [assumption|]. apply Forall_forall. intros x Hx. apply kins_in in Hx as [->|Hx].
    + unfold lt_hash. rewrite bcmp_antisym, E. reflexivity.
    + rewrite Forall_forall in Hf. apply Hf. assumption.
Qed.
Lemma bt_insert_in : forall A k (v : A) l e, In e (bt_insert k v l) -> e = (k, v) \/ In e l.
Proof.
  induction l as [|[k' v'] l IH]; cbn [bt_insert]; intros e H; [destruct H as [<-|[]]; auto|].
  destruct (bcmp k k'); cbn [In] in *; [destruct H as [<-|H]; auto|destruct H as [<-|H]; auto|].
  destruct H as [<-|H]; [auto|]. apply IH in H as [->|H]; auto.
Qed.
Lemma bt_get_in : forall A h (v : A) l, bt_get h l = Some v -> In (h, v) l.
Proof.
  induction l as [|[k' v'] l IH]; cbn [bt_get]; intros H; [discriminate|].
  destruct (beq h k') eqn:E; [|right; auto]. apply beq_eq in E. left. congruence.
Qed.
Lemma bt_get_sorted : forall A h (v : A) l, StronglySorted lt_hash (map fst l) -> In (h, v) l -> bt_get h l = Some v.
Proof.
  induction l as [|[k' v'] l IH]; cbn [bt_get map fst]; intros Hs H; [destruct H|]. inversion Hs as [|? ? Hs' Hf]; subst.
  destruct H as [E|H].
  - injection E as -> ->. rewrite beq_refl. reflexivity.
  - replace (beq h k') with false; [auto|]. symmetry. apply beq_neq. intros ->.
    rewrite Forall_forall in Hf. specialize (Hf k' (in_map fst l (k', v) H)). unfold lt_hash in Hf. rewrite bcmp_refl in Hf. discriminate.
Qed.

(** Both maps are sorted and have the same keys; offsets are at most [B]. *)
Definition tidy (B : N) (k : cache) : Prop :=
  StronglySorted lt_hash (map fst (by_hash k)) /\ map fst (by_offset k) = map fst (by_hash k) /\
  Forall (fun e => snd e <= B) (by_offset k).
Lemma tidy_update : forall B k o off, off <= B -> tidy B k -> tidy B (cache_update k o off).
Proof.
  intros B k o off Ho (H1 & H2 & H3). unfold tidy, cache_update. cbn [by_hash by_offset].
  rewrite !bt_insert_keys, H2. split; [apply kins_sorted; assumption|]. split; [reflexivity|].
  apply Forall_forall. intros e He. apply bt_insert_in in He as [->|He]; [exact Ho|].
  rewrite Forall_forall in H3. apply H3. assumption.
Qed.
Lemma tidy_mono : forall B B' k, B <= B' -> tidy B k -> tidy B' k.
Proof.
  intros B B' k H (H1 & H2 & H3). split; [assumption|]. split; [assumption|].
  eapply Forall_impl; [|exact H3]. intros e He. cbn in *. lia.
Qed.
Lemma next_object_tidy : forall m c st file B fuel off k o p k', off <= B -> tidy B k ->
  next_object m c st fuel file off k = Ok (o, p, k') -> tidy B k'.
Proof.
  intros m c st file B. induction fuel as [|f IH]; intros off k o p k' Hoff Hk H; [discriminate|].
  cbn [next_object] in H. apply bind_ok in H as ([[t n] r] & Ht & H). cbv zeta in H.
  destruct ((1 <=? t) && (t <=? 4)).
  { apply bind_ok in H as ([d u] & _ & H). destruct (negb _); [discriminate|].
    apply bind_ok in H as (ty & _ & H). apply bind_ok in H as (ob & Ho & H). injection H as _ _ <-.
    apply tidy_update; assumption. }
  destruct (t =? 6).
  { apply bind_ok in H as ([d r2] & Hd & H). destruct (off <? d); [discriminate|].
    apply bind_ok in H as ([base k1] & Hb & H). apply bind_ok in H as ([dl u] & _ & H). apply bind_ok in H as (ob & Ho & H).
    injection H as _ _ <-. apply tidy_update; [assumption|]. change (tidy B k1).
    destruct (offset_object k (off - d)); [injection Hb as _ <-; assumption|].
    apply bind_ok in Hb as ([[o' p'] k2] & Hn & Hb). injection Hb as _ <-. eapply IH; [|exact Hk|exact Hn]. lia. }
  destruct (t =? 7).
  { apply bind_ok in H as ([hh r2] & Hd & H).
    apply bind_ok in H as (base & _ & H). apply bind_ok in H as ([dl u] & _ & H).
    apply bind_ok in H as (ob & Ho & H). injection H as _ _ <-. apply tidy_update; assumption. }
  apply bind_ok in H as (ty & _ & H). discriminate.
Qed.
Lemma decode_loop_tidy : forall m c st file fuel n pos k p k', tidy (2 ^ 32 - 1) k ->
  decode_loop m c st fuel file n pos k = Ok (p, k') -> tidy (2 ^ 32 - 1) k'.
Proof.
  induction n as [|n IH]; intros pos k p k' Hk H; cbn [decode_loop] in H; [injection H as <- <-; auto|].
  apply bind_ok in H as ([[o p1] k1] & Hn & H). destruct (N.leb_spec (2 ^ 32) pos) as [L|L]; [discriminate|].
  eapply IH; [|exact H]. eapply next_object_tidy; [|exact Hk|exact Hn]. change (2 ^ 32) with 4294967296 in *. lia.
Qed.
Lemma decode_tidy : forall m c st fuel file p, decode m c st fuel file = Ok p -> tidy (2 ^ 32 - 1) (p_cache p).
Proof.
  intros m c st fuel file p H. unfold decode in H. apply bind_ok in H as ([n rest] & _ & H).
  apply bind_ok in H as ([pos k] & Hl & H). apply bind_ok in H as ([id r] & _ & H). apply bind_ok in H as (sg & _ & H).
  injection H as <-. cbn [p_cache]. eapply decode_loop_tidy; [|exact Hl].
  split; [constructor|]. split; [reflexivity|constructor].
Qed.

(** ** Writing an index file *)

Definition line_at (c : codec) (offs : list (hash * N)) (e : hash * meta) : line :=
  mkLine (fst e) (crc32 (convert_to_vec c (snd e))) (match bt_get (fst e) offs with Some o => o | None => 0 end mod U32).
Definition lines_of (c : codec) (k : cache) : list line := map (line_at c (by_offset k)) (by_hash k).

Lemma count_first_eq : forall b (ls : list line), count_first b (map l_id ls) = eq_count b ls.
Proof.
  intros b ls. unfold count_first, eq_count, cnt. induction ls as [|x ls IH]; [reflexivity|].
  cbn [map filter]. unfold firstb. destruct (_ =? b); [rewrite !nlen_cons, IH; reflexivity|exact IH].
Qed.
Lemma fan_sums_ok : forall n b ls i v, nth_error (fan_sums n b (lt_count b ls) (map l_id ls)) i = Some v ->
  v = lt_count (b + N.of_nat i + 1) ls.
Proof.
  induction n as [|n IH]; intros b ls i v H; [destruct i; discriminate|]. cbn [fan_sums] in H.
  rewrite count_first_eq, <- lt_count_S in H. destruct i as [|i].
  - cbn in H. injection H as <-. f_equal. lia.
  - cbn [nth_error] in H. apply IH in H. rewrite H. f_equal. lia.
Qed.
Lemma fan_sums_len : forall n b s keys, length (fan_sums n b s keys) = n.
Proof. induction n; intros; [reflexivity|]. cbn [fan_sums length]. f_equal. apply IHn. Qed.
Lemma concat_flat : forall A (f : A -> bytes) l, flat_map f l = concat (map f l).
Proof. intros. apply flat_map_concat_map. Qed.
Lemma crc32_lt : forall l, crc32 l < 2 ^ 32.
Proof. intros. unfold crc32. generalize (N.lxor (fold_left crc_byte l 4294967295) 4294967295). intros x.
  unfold w32. rewrite land_w32. apply N.mod_lt. discriminate. Qed.
Lemma mod_small_map : forall l, Forall (fun v => v < 2 ^ 32) l -> map (fun v => u32_vec (v mod U32)) l = map u32_vec l.
Proof. induction 1 as [|v l Hv H IH]; [reflexivity|]. cbn [map]. rewrite N.mod_small by exact Hv. f_equal. exact IH. Qed.

Lemma idx_offsets_any : forall offs keys, (forall h, In h keys -> exists o, bt_get h offs = Some o) ->
  idx_offsets keys offs = Ok (concat (map (fun h => u32_vec (match bt_get h offs with Some o => o | None => 0 end mod U32)) keys)).
Proof.
  induction keys as [|h keys IH]; intros H; [reflexivity|]. cbn [idx_offsets map concat].
  destruct (H h) as (o & E); [left; reflexivity|]. rewrite E. cbn [unwrap_opt bind].
  rewrite IH by (intros; apply H; right; assumption). reflexivity.
Qed.

Lemma lines_ascending : forall c offs l, StronglySorted lt_hash (map fst l) -> ascending (map (line_at c offs) l).
Proof.
  induction l as [|e l IH]; intros H; [constructor|]. cbn [map] in *. inversion H as [|? ? Hs Hf]; subst.
  constructor; [|apply IH; assumption]. apply Forall_forall. intros x Hx. apply in_map_iff in Hx as (y & <- & Hy).
  unfold before. cbn [line_at l_id]. rewrite Forall_forall in Hf. apply Hf. apply in_map. assumption.
Qed.

Lemma idx_encode_ok : forall c p B, tidy B (p_cache p) -> id_ok (p_signature p) ->
  Forall (fun e => id_ok (fst e)) (by_hash (p_cache p)) -> nlen (by_hash (p_cache p)) < 2 ^ 32 ->
  exists x, idx_encode c p = Ok x /\ git_idx (x_file_data x) (lines_of c (p_cache p)) (p_signature p) /\
    x_number x = p_number p /\ x_version x = 2.
Proof.
  intros c p B (T1 & T2 & _) Hsig Hid Hlen. unfold idx_encode. set (k := p_cache p) in *.
  assert (Hg : forall h, In h (map fst (by_hash k)) -> exists o, bt_get h (by_offset k) = Some o).
  { intros h Hh. rewrite <- T2 in Hh. apply in_map_iff in Hh as ([h' o] & E & Hi). cbn in E. subst h'.
    exists o. apply bt_get_sorted; [rewrite T2; assumption|assumption]. }
  rewrite idx_offsets_any by exact Hg. cbn [bind].
  eexists. split; [reflexivity|]. cbn [x_file_data x_number x_version].
  split; [|split; reflexivity].
  assert (EI : map l_id (lines_of c k) = map fst (by_hash k)).
  { unfold lines_of. rewrite map_map. reflexivity. }
  assert (Hids : Forall (fun x => id_ok (l_id x)) (lines_of c k)).
  { apply Forall_forall. intros x Hx. apply in_map_iff in Hx as (e & <- & He). rewrite Forall_forall in Hid. apply Hid. assumption. }
  assert (Hfan : Forall (fun v => v < 2 ^ 32) (fan_sums 256 0 0 (map fst (by_hash k)))).
  { apply Forall_forall. intros v Hv. apply In_nth_error in Hv as (i & Hi). rewrite <- EI in Hi.
    rewrite <- (lt_count_0 (lines_of c k)) in Hi at 2. apply fan_sums_ok in Hi.
    pose proof (lt_count_le (0 + N.of_nat i + 1) (lines_of c k)) as L. rewrite <- Hi in L.
    unfold nlen, lines_of in L. rewrite map_length in L. unfold nlen in Hlen. lia. }
  exists (u32_vec 2), (concat (map u32_vec (fan_sums 256 0 0 (map fst (by_hash k))))), (fan_sums 256 0 0 (map fst (by_hash k))),
    (concat (map l_id (lines_of c k))), (concat (map u32_vec (map l_crc (lines_of c k)))), (concat (map u32_vec (map l_off (lines_of c k)))).
  eexists. split; [apply u32_vec_value; reflexivity|].
  split; [apply table_vec; split; [exact Hfan|reflexivity]|].
  split; [apply fan_sums_len|].
  split.
  { intros b v Hb. rewrite <- EI in Hb. rewrite <- (lt_count_0 (lines_of c k)) in Hb at 2. apply fan_sums_ok in Hb.
    rewrite N2Nat.id in Hb. rewrite Hb. rewrite N.add_0_l. apply counted_at_most. assumption. }
  split; [reflexivity|].
  split; [apply table_vec; split; [|reflexivity]|].
  { apply Forall_forall. intros v Hv. apply in_map_iff in Hv as (x & <- & Hx). apply in_map_iff in Hx as (e & <- & _). apply crc32_lt. }
  assert (Hoff : Forall (fun v => v < 2 ^ 32) (map l_off (lines_of c k))).
  { apply Forall_forall. intros v Hv. apply in_map_iff in Hv as (x & <- & Hx). apply in_map_iff in Hx as (e & <- & He).
    cbn [line_at l_off]. apply N.mod_lt. discriminate. }
  split; [apply table_vec; split; [exact Hoff|reflexivity]|].
  split; [exact Hids|]. split; [apply lines_ascending; assumption|]. split; [assumption|].
  split; [reflexivity|].
  match goal with |- ?a ++ hash_new ?a = ?b ++ sha1 ?b => assert (EB : a = b) end.
  { rewrite !concat_flat. rewrite mod_small_map by exact Hfan. rewrite EI.
    rewrite (@map_id (list N)).
    replace (map u32_vec (map l_crc (lines_of c k))) with (map (fun e => u32_vec (crc32 (convert_to_vec c (snd e)))) (by_hash k))
      by (unfold lines_of; rewrite !map_map; reflexivity).
    replace (map u32_vec (map l_off (lines_of c k))) with
      (map (fun h => u32_vec (match bt_get h (by_offset k) with Some o => o | None => 0 end mod U32)) (map fst (by_hash k)))
      by (unfold lines_of; rewrite !map_map; reflexivity).
    rewrite <- !app_assoc. reflexivity. }
  rewrite EB. reflexivity.
Qed.

(** ** Objects of a pack and lines of its index *)

Lemma item_shows : forall x, l_crc x < 2 ^ 32 -> shows (item_of x) x.
Proof.
  intros x H. split; [reflexivity|]. split; [reflexivity|]. exists (u32_vec (l_crc x)).
  split; [apply u32_vec_value; assumption|]. pose proof (hex_encode_text _ (u32_vec_bytes (l_crc x))) as T.
  split; [exact T|]. cbn [item_of i_crc32]. rewrite <- (hex_text_lower _ _ T). reflexivity.
Qed.
Lemma lower_hex_eq : forall s b, lower_hex s b -> s = hex_encode b.
Proof. intros s b [H L]. rewrite (hex_text_lower s b H). congruence. Qed.

Lemma objs_ids : forall objs : list (N * object), (forall off o, In (off, o) objs -> exists h, obj_id o h) ->
  exists ids, length ids = length objs /\ forall off o h, In (off, o) objs -> obj_id o h -> In h ids.
Proof.
  induction objs as [|[off o] objs IH]; intros H.
  - exists []. split; [reflexivity|]. intros ? ? ? [].
  - destruct IH as (ids & L & I); [intros; eapply H; right; eassumption|].
    destruct (H off o) as (h & Hh); [left; reflexivity|]. exists (h :: ids). split; [cbn; congruence|].
    intros off' o' h' [E|Hi] Ho.
    + injection E as <- <-. left. eapply obj_id_fun; eassumption.
    + right. eapply I; eassumption.
Qed.
Lemma sorted_nodup : forall l, StronglySorted lt_hash l -> NoDup l.
Proof.
  induction 1 as [|a l Hs IH Hf]; constructor; [|assumption]. intros Hi. rewrite Forall_forall in Hf.
  specialize (Hf a Hi). unfold lt_hash in Hf. rewrite bcmp_refl in Hf. discriminate.
Qed.
Lemma keys_bound : forall B k objs, tidy B k -> holds k (map snd objs) -> located k objs -> nlen (by_hash k) <= nlen objs.
Proof.
  intros B k objs (T1 & _) Hh (L1 & _). destruct (objs_ids objs) as (ids & L & I).
  { intros off o Hi. destruct (L1 off o Hi) as (h & Ho & _). eauto. }
  assert (K : (length (map fst (by_hash k)) <= length ids)%nat).
  { apply NoDup_incl_length; [apply sorted_nodup; assumption|]. intros h Hi. apply in_map_iff in Hi as ([h' m] & E & Hi).
    cbn in E. subst h'. apply bt_get_sorted in Hi; [|assumption]. apply (Hh h m) in Hi as (o & Ho & Hid & _).
    apply in_map_iff in Ho as ([off o'] & E & Hi'). cbn in E. subst o'. eapply I; eassumption. }
  rewrite map_length in K. unfold nlen. lia.
Qed.
Lemma addressed_ids : forall B k, tidy B k -> addressed k -> Forall (fun e => id_ok (fst e)) (by_hash k).
Proof.
  intros B k (T1 & _) (A & _). apply Forall_forall. intros [h m] Hi. apply bt_get_sorted in Hi; [|assumption].
  apply A in Hi as (o & Ho & _). eapply obj_id_ok. eassumption.
Qed.
Lemma filled_tidy : forall k, filled k -> exists B, tidy B k /\ Forall (fun e => id_ok (fst e)) (by_hash k).
Proof.
  induction 1 as [|k o off H (B & IH & Hf) Ho].
  - exists 0. split; [split; [constructor|split; [reflexivity|constructor]]|constructor].
  - exists (N.max B off). split; [apply tidy_update; [lia|apply (tidy_mono B); [lia|assumption]]|].
    apply Forall_forall. intros e He. apply bt_insert_in in He as [->|He]; [exact Ho|].
    rewrite Forall_forall in Hf. auto.
Qed.

Lemma lines_spec : forall c B k x, tidy B k -> In x (lines_of c k) <->
  exists m off, hash_object k (l_id x) = Some m /\ bt_get (l_id x) (by_offset k) = Some off /\
    l_crc x = crc32 (convert_to_vec c m) /\ l_off x = off mod U32.
Proof.
  intros c B k x (T1 & T2 & _). split.
  - intros Hi. apply in_map_iff in Hi as ([h m] & <- & Hi). cbn [line_at l_id l_crc l_off fst snd].
    assert (Hh : In h (map fst (by_offset k))) by (rewrite T2; change h with (fst (h, m)); apply in_map; assumption).
    apply in_map_iff in Hh as ([h' off] & E & Hh). cbn in E. subst h'. apply bt_get_sorted in Hh; [|rewrite T2; assumption].
    exists m, off. rewrite Hh. split; [apply bt_get_sorted; assumption|auto].
  - intros (m & off & H1 & H2 & H3 & H4). apply bt_get_in in H1. apply in_map_iff. exists (l_id x, m).
    split; [|assumption]. unfold line_at. cbn [fst snd]. rewrite H2, <- H3, <- H4. destruct x. reflexivity.
Qed.
Lemma decode_sig : forall m c st fuel file p, bytes_ok file -> decode m c st fuel file = Ok p -> id_ok (p_signature p).
Proof.
  intros m c st fuel file p Hok H. unfold decode in H. apply bind_ok in H as ([n rest] & _ & H).
  apply bind_ok in H as ([pos k] & _ & H). apply bind_ok in H as ([id r] & Hr & H). apply bind_ok in H as (sg & Hs & H).
  injection H as <-. cbn [p_signature]. unfold hash_from_row in Hs. destruct (Nat.eqb_spec (length id) 20); [|discriminate].
  injection Hs as <-. split; [assumption|]. apply unwrap_ok in Hr. unfold read_bytes in Hr.
  destruct (_ <=? _)%nat; [|discriminate]. assert (E : id = firstn 20 (file_at file pos)) by congruence. rewrite E.
  pose proof (file_at_ok file pos Hok) as F. rewrite <- (firstn_skipn 20 (file_at file pos)) in F. apply Forall_app in F. apply F.
Qed.
Lemma tidy_small : forall k h off, tidy (2 ^ 32 - 1) k -> bt_get h (by_offset k) = Some off -> off < 2 ^ 32.
Proof.
  intros k h off (_ & _ & T) H. apply bt_get_in in H. rewrite Forall_forall in T. specialize (T _ H). cbn in T.
  change (2 ^ 32) with 4294967296 in *. lia.
Qed.

(** ** Entries written by the encoder *)

Lemma entries_body_at : forall c st n l b, codec_ok c -> Forall encodable l -> forall objs,
  pack_body c st n b objs -> exists objs', pack_body c st n (b ++ encode_entries c l) (objs ++ objs') /\
    map snd objs' = map obj_of l /\
    forall off o, In (off, o) objs' -> exists pre mt post, encodable mt /\ obj_of mt = o /\ nlen pre = off /\
      b ++ encode_entries c l = pre ++ convert_to_vec c mt ++ post.
Proof.
  intros c st n l b Hc Hl. revert b. induction Hl as [|m l Hm _ IH]; intros b objs Hb.
  - exists []. cbn. rewrite !app_nil_r. split; [assumption|]. split; [reflexivity|]. intros ? ? [].
  - destruct (IH (b ++ convert_to_vec c m) (objs ++ [(nlen b, obj_of m)])) as (objs' & Hb' & E & I).
    { constructor; [assumption|]. apply entry_whole; assumption. }
    exists ((nlen b, obj_of m) :: objs'). cbn [map snd encode_entries flat_map]. rewrite E.
    unfold encode_entries in *. rewrite <- !app_assoc in Hb'. split; [exact Hb'|]. split; [reflexivity|].
    intros off o [X|Hi].
    + injection X as <- <-. exists b, m, (flat_map (convert_to_vec c) l). auto.
    + destruct (I off o Hi) as (pre & mt & post & A1 & A2 & A3 & A4). exists pre, mt, post.
      rewrite <- !app_assoc in A4. auto.
Qed.
Lemma encodable_as_meta : forall m h, encodable m -> obj_id (obj_of m) h -> m = as_meta (obj_of m) h.
Proof.
  intros m h [(Hb & Hs & Hd & _ & _ & (content & F & Hi)) _] Ho.
  assert (X : obj_id (obj_of m) (m_id m)) by (exists content; auto).
  rewrite (obj_id_fun _ _ _ Ho X). destruct m as [t id sz d dh]. cbn in *. subst. reflexivity.
Qed.

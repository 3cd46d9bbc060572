(** A small zlib implementation (RFC 1950/1951, stored blocks only, blocks of at
    most 200 bytes). It witnesses that [codec_ok] is satisfiable and is used in
    the concrete examples. It is not part of the model of /repo. *)

From Verif Require Import Base BaseLemmas Digest ModelUtils ModelObject SpecObject.
Open Scope N_scope.

Definition adler_step (s : N * N) (x : N) : N * N :=
  let a := (fst s + x) mod 65521 in (a, (snd s + a) mod 65521).
Definition adler32 (d : bytes) : bytes :=
  let s := fold_left adler_step d (1, 0) in be32 (snd s * 65536 + fst s).

Definition stored_block (final : N) (d : bytes) : bytes :=
  [final; nlen d; 0; 255 - nlen d; 255] ++ d.

Fixpoint stored_blocks (fuel : nat) (d : bytes) : bytes :=
  match fuel with
  | O => stored_block 1 (firstn 200 d)
  | S f => if (length d <=? 200)%nat then stored_block 1 d
           else stored_block 0 (firstn 200 d) ++ stored_blocks f (skipn 200 d)
  end.

Definition stored_deflate (d : bytes) : bytes :=
  [120; 1] ++ stored_blocks (length d) d ++ adler32 d.

(** Returns the content and the rest of the input after the last block. *)
Fixpoint unstore (fuel : nat) (s : bytes) : option (bytes * bytes) :=
  match fuel with
  | O => None
  | S f =>
    match s with
    | final :: l0 :: l1 :: n0 :: n1 :: r =>
      if negb ((l0 + n0 =? 255) && (l1 + n1 =? 255)) then None
      else let len := N.to_nat (l0 + 256 * l1) in
      if (length r <? len)%nat then None
      else if final =? 1 then Some (firstn len r, skipn len r)
      else if final =? 0 then
        match unstore f (skipn len r) with
        | Some (d, rest) => Some (firstn len r ++ d, rest)
        | None => None
        end
      else None
    | _ => None
    end
  end.

Definition stored_inflate (s : bytes) : option (bytes * nat) :=
  match s with
  | 120 :: 1 :: r =>
    match unstore (length r) r with
    | Some (d, rest) =>
      if beq (firstn 4 rest) (adler32 d) && (4 <=? length rest)%nat
      then Some (d, (length s - (length rest - 4))%nat) else None
    | None => None
    end
  | _ => None
  end.

Definition stored : codec := mkCodec stored_deflate stored_inflate.

Lemma unstore_one : forall f final d rest, nlen d <= 200 -> final = 1 ->
  unstore (S f) (stored_block final d ++ rest) = Some (d, rest).
Proof.
  intros f final d rest Hd ->. unfold stored_block. rewrite <- app_assoc. cbn [app unstore].
  replace (nlen d + (255 - nlen d) =? 255) with true by lia. cbn [N.eqb Pos.eqb andb negb].
  replace (N.to_nat (nlen d + 256 * 0)) with (length d) by (unfold nlen; lia).
  rewrite app_length. replace (length d + length rest <? length d)%nat with false by lia.
  rewrite firstn_app_exact, skipn_app_exact. reflexivity.
Qed.
Lemma unstore_more : forall f d rest, nlen d <= 200 ->
  unstore (S f) (stored_block 0 d ++ rest)
  = match unstore f rest with Some (x, r) => Some (d ++ x, r) | None => None end.
Proof.
  intros f d rest Hd. unfold stored_block. rewrite <- app_assoc. cbn [app unstore].
  replace (nlen d + (255 - nlen d) =? 255) with true by lia. cbn [N.eqb Pos.eqb andb negb].
  replace (N.to_nat (nlen d + 256 * 0)) with (length d) by (unfold nlen; lia).
  rewrite app_length. replace (length d + length rest <? length d)%nat with false by lia.
  rewrite firstn_app_exact, skipn_app_exact. reflexivity.
Qed.

Lemma unstore_blocks : forall f d rest g, (length d <= f)%nat -> (f < g)%nat ->
  unstore g (stored_blocks f d ++ rest) = Some (d, rest).
Proof.
  induction f as [|f IH]; intros d rest g Hd Hg; (destruct g as [|g]; [lia|]); cbn [stored_blocks].
  - destruct d; [|simpl in Hd; lia]. apply unstore_one; [unfold nlen; simpl; lia|reflexivity].
  - destruct (Nat.leb_spec (length d) 200) as [H|H].
    + apply unstore_one; [unfold nlen; lia|reflexivity].
    + rewrite <- app_assoc, unstore_more.
      * rewrite IH; [|rewrite skipn_length; lia|lia]. rewrite firstn_skipn. reflexivity.
      * unfold nlen. rewrite firstn_length. lia.
Qed.

Lemma stored_blocks_len : forall f d, (length d < length (stored_blocks f d) \/ f < length d)%nat.
Proof.
  induction f as [|f IH]; intros d; cbn [stored_blocks].
  - destruct d; [left; unfold stored_block; simpl; lia|right; simpl; lia].
  - destruct (Nat.leb_spec (length d) 200) as [H|H].
    + left. unfold stored_block. rewrite app_length. simpl. lia.
    + destruct (IH (skipn 200 d)) as [K|K].
      * left. rewrite app_length. unfold stored_block. rewrite app_length.
        pose proof (firstn_skipn 200 d) as E. apply (f_equal (@length N)) in E.
        rewrite app_length in E. revert E K.
        generalize (length (firstn 200 d)), (length (skipn 200 d)), (stored_blocks f (skipn 200 d)).
        intros a b l E K. cbn [length]. lia.
      * right. rewrite skipn_length in K. lia.
Qed.

Lemma adler32_len : forall d, length (adler32 d) = 4%nat.
Proof. reflexivity. Qed.

Theorem stored_ok : codec_ok stored.
Proof.
  intros d rest _. cbn [inflate deflate stored]. unfold stored_deflate.
  rewrite <- !app_assoc. cbn [app]. unfold stored_inflate.
  destruct (stored_blocks_len (length d) d) as [Hl|Hl]; [|lia].
  rewrite unstore_blocks; [|lia|rewrite !app_length; lia].
  rewrite firstn_app_n by apply adler32_len. rewrite beq_refl.
  rewrite app_length, adler32_len. replace (4 <=? 4 + length rest)%nat with true by lia.
  cbn [andb]. f_equal. f_equal. cbn [length app]. rewrite !app_length, adler32_len. lia.
Qed.

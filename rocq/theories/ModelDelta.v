(** Model of src/git/object/delta.rs (application of deltas) and
    src/git/object/diff.rs (generation of deltas). *)

From Verif Require Import Base Digest ModelUtils ModelObject.
Open Scope N_scope.

(** delta.rs 48-100 [apply_delta_instruction] on the decompressed delta stream
    [s]: [Ok None] is the end of the stream, otherwise the rest of the stream and
    the extended result. [offset + size] (line 90) is below 2^32 + 2^24. *)
Definition apply_delta_instruction (base s result : bytes) : res (option (bytes * bytes)) :=
  match s with
  | [] => Ok None
  | instruction :: s1 =>
    if N.land instruction 128 =? 0 then
      if instruction =? 0 then Err EDeltaObjError
      else let? (data, s2) := unwrap (read_bytes (N.to_nat instruction) s1) in
           Ok (Some (s2, result ++ data))
    else
      let? (offset, nonzero_bytes, s2) := unwrap (read_partial_int 4 instruction s1) in
      let? (size0, _, s3) := unwrap (read_partial_int 3 nonzero_bytes s2) in
      let size := if size0 =? 0 then 65536 else size0 in
      match get_range (N.to_nat offset) (N.to_nat (offset + size)) base with
      | Some data => Ok (Some (s3, result ++ data))
      | None => Err EDeltaObjError
      end
  end.

(** delta.rs 35: the [while] loop. Every instruction consumes at least one byte,
    so the fuel [S (length s)] suffices (ProofDelta). *)
Fixpoint apply_delta_loop (fuel : nat) (base s result : bytes) : res bytes :=
  match fuel with
  | O => OutOfFuel
  | S f =>
    let? o := apply_delta_instruction base s result in
    match o with
    | None => Ok result
    | Some (s', result') => apply_delta_loop f base s' result'
    end
  end.

(** delta.rs 24-45 [apply_delta] on the decompressed delta. [Vec::with_capacity]
    panics above isize::MAX; other allocation failures are not modelled. *)
Definition apply_delta (m : build) (base : meta) (delta : bytes) : res meta :=
  let? (base_size, s1) := unwrap (read_size_encoding m delta) in
  if negb (m_size base =? base_size) then Err EDeltaObjError
  else
    let? (result_size, s2) := unwrap (read_size_encoding m s1) in
    if 2 ^ 63 <=? result_size then Panic
    else
      let? result := apply_delta_loop (S (length s2)) (m_data base) s2 [] in
      if negb (nlen result =? result_size) then Err EDeltaObjError
      else meta_new (m_t base) result.

(** diff.rs 201-212. *)
Inductive optype : Type := DATA | COPY.
Record delta_op : Type := mkOp { ins : optype; op_begin : nat; op_len : nat }.
Definition is_copy (o : delta_op) : bool := match ins o with COPY => true | DATA => false end.
Definition is_data (o : delta_op) : bool := match ins o with DATA => true | COPY => false end.

Definition DATA_INS_LEN : nat := 127.

(** Calls made by the external Myers diff engine (crate diffs, trait [Diff]):
    [equal old new len], [delete old len new], [insert old new new_len]. *)
Inductive call : Type :=
| CEqual (o n len : nat)
| CDelete (o len n : nat)
| CInsert (o n len : nat).

(** [ops.last_mut()]: split off the last element. *)
Fixpoint split_last {A} (l : list A) : option (list A * A) :=
  match l with
  | [] => None
  | [x] => Some ([], x)
  | x :: r => match split_last r with Some (i, y) => Some (x :: i, y) | None => None end
  end.

(** diff.rs 122-143 [equal]; [ssam] is kept separately, see [script_ssam]. *)
Definition diff_equal (ops : list delta_op) (old len : nat) : list delta_op :=
  match split_last ops with
  | Some (front, tail) =>
    if (op_begin tail + op_len tail =? old)%nat && is_copy tail
    then front ++ [mkOp COPY (op_begin tail) (op_len tail + len)]
    else ops ++ [mkOp COPY old len]
  | None => ops ++ [mkOp COPY old len]
  end.

(** diff.rs 151-167: the splitting loop; [len] steps of fuel are enough. *)
Fixpoint insert_split (fuel new len : nat) : list delta_op :=
  match fuel with
  | O => [mkOp DATA new len]
  | S f => if (DATA_INS_LEN <? len)%nat
           then mkOp DATA new DATA_INS_LEN
                :: insert_split f (new + DATA_INS_LEN) (len - DATA_INS_LEN)
           else [mkOp DATA new len]
  end.

(** diff.rs 147-192 [insert]. *)
Definition diff_insert (ops : list delta_op) (new len : nat) : list delta_op :=
  if (DATA_INS_LEN <? len)%nat then ops ++ insert_split len new len
  else
    match split_last ops with
    | Some (front, tail) =>
      if (op_begin tail + op_len tail =? new)%nat && is_data tail
         && (op_len tail + len <? DATA_INS_LEN)%nat
      then front ++ [mkOp DATA (op_begin tail) (op_len tail + len)]
      else ops ++ [mkOp DATA new len]
    | None => ops ++ [mkOp DATA new len]
    end.

(** The callbacks; [delete] keeps the trait's default (no effect). *)
Definition diff_call (ops : list delta_op) (c : call) : list delta_op :=
  match c with
  | CEqual o _ len => diff_equal ops o len
  | CDelete _ _ _ => ops
  | CInsert _ n len => diff_insert ops n len
  end.

(** diff.rs 29-51 [DeltaDiff::new], given the script of the diff engine. *)
Definition diff_ops (script : list call) : list delta_op := fold_left diff_call script [].

(** diff.rs 123: [ssam], the number of matched bytes. *)
Definition script_ssam (script : list call) : nat :=
  fold_left (fun a c => match c with CEqual _ _ len => a + len | _ => a end)%nat script 0%nat.

(** diff.rs 86-102: the two byte loops of a copy instruction; [i] is the bit
    number, the result is the instruction byte so far and the argument bytes. *)
Fixpoint copy_bytes (k : nat) (i v instruct : N) (acc : bytes) : N * bytes :=
  match k with
  | O => (instruct, acc)
  | S k' =>
    let b := N.land v 255 in
    if b =? 0 then copy_bytes k' (i + 1) (N.shiftr v 8) instruct acc
    else copy_bytes k' (i + 1) (N.shiftr v 8) (N.lor instruct (N.shiftl 1 i)) (acc ++ [b])
  end.

(** diff.rs 70-110 [decode_op]. *)
Definition decode_op (new_data : bytes) (op : delta_op) : res bytes :=
  match ins op with
  | DATA =>
    let? d := slice (op_begin op) (op_begin op + op_len op) new_data in
    Ok (N.land (N.of_nat (op_len op)) 127 mod U8 :: d)
  | COPY =>
    let (i1, a1) := copy_bytes 4 0 (N.of_nat (op_begin op)) 128 [] in
    let (i2, a2) := copy_bytes 3 4 (N.of_nat (op_len op)) i1 a1 in
    Ok (i2 :: a2)
  end.

(** diff.rs 55-66 [get_delta_metadata]. *)
Fixpoint decode_ops (new_data : bytes) (ops : list delta_op) : res bytes :=
  match ops with
  | [] => Ok []
  | o :: r => let? a := decode_op new_data o in let? b := decode_ops new_data r in Ok (a ++ b)
  end.
Definition get_delta_metadata (old new : meta) (ops : list delta_op) : res bytes :=
  let? b := decode_ops (m_data new) ops in
  Ok (write_size_encoding (m_size old) ++ write_size_encoding (m_size new) ++ b).

(** diff.rs 194-198 [finish] and encode.rs 118: the similarity rate
    [ssam as f64 / len as f64] compared with [> 0.5]. Modelled as the exact
    comparison [2 * ssam > len]; for an empty target the rate is 0/0 = NaN and the
    comparison is false, as here. f64 rounding is not modelled. *)
Definition rate_above_half (ssam len : nat) : bool := (len <? 2 * ssam)%nat.

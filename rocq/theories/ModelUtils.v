(** Model of src/git/utils.rs. Readers take the remaining input and return the
    value together with what is left of the input. *)

From Verif Require Import Base.
Open Scope N_scope.

(** utils.rs 27-29 [keep_bits]. *)
Definition keep_bits (value bits : N) : N := N.land value (N.shiftl 1 bits - 1).

(** utils.rs 34-39 [read_bytes] ([read_exact]): all [n] bytes or an I/O error. *)
Definition read_bytes (n : nat) (s : bytes) : res (bytes * bytes) :=
  if (n <=? length s)%nat then Ok (firstn n s, skipn n s) else Err EIo.

(** [u32::from_be_bytes] / [read_u32::<BigEndian>]. *)
Definition from_be (l : bytes) : N := fold_left (fun acc b => acc * 256 + b) l 0.

(** utils.rs 44-48 [read_u32]. *)
Definition read_u32 (s : bytes) : res (N * bytes) :=
  let? (b, r) := read_bytes 4 s in Ok (from_be b, r).

(** utils.rs 53-57 [read_hash]. *)
Definition read_hash (s : bytes) : res (bytes * bytes) := read_bytes 20 s.

(** utils.rs 62-75 [read_until_delimiter]. *)
Fixpoint read_until_delimiter (d : N) (s : bytes) : res (bytes * bytes) :=
  match s with
  | [] => Err EIo
  | b :: r => if b =? d then Ok ([], r)
              else let? (l, r') := read_until_delimiter d r in Ok (b :: l, r')
  end.

(** utils.rs 80-86 [read_var_int_byte]: value [byte & !0x80], flag [byte & 0x80]. *)
Definition read_var_int_byte (s : bytes) : res (N * bool * bytes) :=
  match s with
  | [] => Err EIo
  | b :: r => Ok (N.land b 127, negb (N.land b 128 =? 0), r)
  end.

(** [a + b] on u8, used for the counter [length] of [read_size_encoding]. *)
Definition add8 (m : build) (a b : N) : res N :=
  if a + b <? U8 then Ok (a + b)
  else match m with Debug => Panic | Release => Ok ((a + b) mod U8) end.

(** utils.rs 91-104 [read_size_encoding]; the [unwrap] on line 96 turns an
    exhausted input into a panic. *)
Fixpoint read_size_loop (m : build) (value length : N) (s : bytes) : res (N * bytes) :=
  match s with
  | [] => Panic
  | b :: r =>
    let byte_value := N.land b 127 in
    let more_bytes := negb (N.land b 128 =? 0) in
    let? sh := shl64 m byte_value length in
    let value' := N.lor value sh in
    if more_bytes then
      let? length' := add8 m length 7 in
      read_size_loop m value' length' r
    else Ok (value', r)
  end.
Definition read_size_encoding (m : build) (s : bytes) : res (N * bytes) :=
  read_size_loop m 0 0 s.

(** utils.rs 109-125 [write_size_encoding]. The fuel is the bit length of the
    number plus one; ProofUtils shows it is never exhausted. *)
Fixpoint write_size_loop (fuel : nat) (n : N) : bytes :=
  match fuel with
  | O => []
  | S f => if 0 <? N.shiftr n 7
           then N.lor (N.land n 127) 128 :: write_size_loop f (N.shiftr n 7)
           else [N.land n 127]
  end.
Definition write_size_encoding (n : N) : bytes := write_size_loop (S (N.size_nat n)) n.

(** utils.rs 130-140 [read_type_and_size]; the type is cast to u8. *)
Definition read_type_and_size (m : build) (s : bytes) : res (N * N * bytes) :=
  let? (value, r) := read_size_encoding m s in
  let object_type := keep_bits (N.shiftr value 4) 3 mod U8 in
  let size := N.lor (keep_bits value 4) (N.shiftl (N.shiftr value 7) 4 mod U64) in
  Ok (object_type, size, r).

(** utils.rs 145-164 [read_offset_encoding] on u64: the shift by 7 drops high
    bits, the increment is overflow-checked. *)
Fixpoint read_offset_loop (m : build) (value : N) (s : bytes) : res (N * bytes) :=
  match s with
  | [] => Err EIo
  | b :: r =>
    let byte_value := N.land b 127 in
    let more_bytes := negb (N.land b 128 =? 0) in
    let? sh := shl64 m value 7 in
    let value' := N.lor sh byte_value in
    if more_bytes then
      let? value'' := add64 m value' 1 in
      read_offset_loop m value'' r
    else Ok (value', r)
  end.
Definition read_offset_encoding (m : build) (s : bytes) : res (N * bytes) :=
  read_offset_loop m 0 s.

(** utils.rs 176-191 [write_offset_encoding]: digits are pushed least significant
    first and reversed at the end; [((number & 0x7f) - 1) as u8 | 0x80] is a
    checked u64 subtraction followed by a truncation. *)
Fixpoint write_offset_loop (m : build) (fuel : nat) (n : N) (num : bytes) : res bytes :=
  match fuel with
  | O => OutOfFuel
  | S f => if 0 <? n then
             let? d := sub64 m (N.land n 127) 1 in
             write_offset_loop m f (N.shiftr n 7) (num ++ [N.lor (d mod U8) 128])
           else Ok num
  end.
Definition write_offset_encoding (m : build) (n : N) : res bytes :=
  let? num := write_offset_loop m (S (N.size_nat n)) (N.shiftr n 7) [N.land n 127] in
  Ok (rev num).

(** utils.rs 197-211 [read_partial_int] with [bytes] = [n] and the loop index
    [i]; returns the value, the shifted mask and the rest. *)
Fixpoint read_partial_loop (n : nat) (i : N) (value present : N) (s : bytes)
  : res (N * N * bytes) :=
  match n with
  | O => Ok (value, present, s)
  | S k =>
    if N.land present 1 =? 0
    then read_partial_loop k (i + 1) value (N.shiftr present 1) s
    else match s with
         | [] => Err EIo
         | b :: r => read_partial_loop k (i + 1) (N.lor value (N.shiftl b (i * 8)))
                                       (N.shiftr present 1) r
         end
  end.
Definition read_partial_int (n : nat) (present : N) (s : bytes) : res (N * N * bytes) :=
  read_partial_loop n 0 0 present s.

(** utils.rs 251-258 [u32_vec]. *)
Definition u32_vec (v : N) : bytes :=
  [N.land (N.shiftr v 24) 255; N.land (N.shiftr v 16) 255;
   N.land (N.shiftr v 8) 255; N.land v 255].

(** utils.rs 264-268 [get_pack_raw_data]: [&data\[12..data.len() - 20\]]. A length
    below 20 underflows (debug panic; in release the wrapped end index is out of
    range), below 32 the range is decreasing: all panic. *)
Definition get_pack_raw_data (data : bytes) : res bytes :=
  if (length data <? 20)%nat then Panic else slice 12 (length data - 20) data.

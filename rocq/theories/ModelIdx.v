(** Model of src/git/idx/mod.rs. *)

From Verif Require Import Base Digest ModelUtils ModelObject ModelPack.
Open Scope N_scope.

(** idx/mod.rs 22-26. *)
Record idx_item : Type := mkItem { i_id : hash; i_crc32 : bytes; i_offset : N }.

(** idx/mod.rs 39-48. [map_of_prefix] and [item_hash] are hash maps, used with
    [insert] and [get] only. *)
Record idx : Type := mkIdx {
  x_version : N;
  x_number : N;
  x_prefix : list (bytes * N);
  x_item_hash : list (hash * nat);
  x_items : list idx_item;
  x_pack_signature : hash;
  x_idx_signature : hash;
  x_file_data : bytes }.
Definition idx_default : idx := mkIdx 0 0 [] [] [] hash_default hash_default [].

(** idx/mod.rs 54-62 [sha1_prefix] on a byte: two hexadecimal digits. *)
Definition sha1_prefix (n : N) : bytes :=
  if n <? 16 then [48; hex_digit n] else [hex_digit (n / 16); hex_digit (n mod 16)].

(** The [n] consecutive slices of width [w] from position [off] on
    ([data\[i..i + w\]] in the loops over [filter]ed positions). *)
Fixpoint chunks (w n off : nat) (data : bytes) : res (list bytes) :=
  match n with
  | O => Ok []
  | S k =>
    let? s := slice off (off + w) data in
    let? r := chunks w k (off + w) data in
    Ok (s :: r)
  end.

(** idx/mod.rs 97-108: the fan-out table; [k] is the table index. *)
Fixpoint fan_loop (m : build) (fan : list bytes) (k n : N) (prefix : list (bytes * N)) (number : N)
  : res (N * list (bytes * N) * N) :=
  match fan with
  | [] => Ok (n, prefix, number)
  | b :: r =>
    let v := from_be b in
    if v =? n then fan_loop m r (k + 1) n prefix number
    else
      let? d := sub64 m v n in
      fan_loop m r (k + 1) v (bt_insert (sha1_prefix k) d prefix) v
  end.

(** idx/mod.rs 131-143: [id_of_objects\[index\]] and [crc32_of_objects\[index\]] have
    as many elements as there are offsets. *)
Fixpoint make_items (ids crcs offs : list bytes) : list idx_item :=
  match ids, crcs, offs with
  | a :: ids', b :: crcs', c :: offs' => mkItem a (hex_encode b) (from_be c) :: make_items ids' crcs' offs'
  | _, _, _ => []
  end.

(** idx/mod.rs 154-156. *)
Fixpoint fill_item_hash (items : list idx_item) (index : nat) (map : list (hash * nat)) : list (hash * nat) :=
  match items with
  | [] => map
  | it :: r => fill_item_hash r (S index) (bt_insert (i_id it) index map)
  end.

(** idx/mod.rs 75-159 [decode] on the receiver [x]; 20·n and 4·n are assumed not to
    overflow (n < 2^32 on a 64-bit machine). *)
Definition idx_decode (m : build) (x : idx) (data : bytes) : res idx :=
  let? magic := slice 0 4 data in
  if negb (beq magic [255; 116; 79; 99]) then Err EInvalidIdxFile
  else
    let? v := slice 4 8 data in
    let? fan := chunks 4 256 8 data in
    let? (n, prefix, number) := fan_loop m fan 0 0 (x_prefix x) (x_number x) in
    let n := N.to_nat n in
    let? ids := chunks 20 n 1032 data in
    let off := (1032 + 20 * n)%nat in
    let? crcs := chunks 4 n off data in
    let off := (off + 4 * n)%nat in
    let? offs := chunks 4 n off data in
    let off := (off + 4 * n)%nat in
    let items := x_items x ++ make_items ids crcs offs in
    let? sig := slice off (off + 20) data in
    let? pack_sig := hash_from_row sig in
    let? rest := slice_from (off + 20) data in
    let? idx_sig := hash_from_row rest in
    Ok (mkIdx (from_be v) number prefix (fill_item_hash items 0 (x_item_hash x)) items pack_sig idx_sig
              (x_file_data x)).

(** idx/mod.rs 173-182: counts per first byte, then running sums. The u32 additions
    do not overflow for fewer than 2^32 objects. *)
Definition count_first (b : N) (keys : list hash) : N :=
  nlen (filter (fun h => hash_get_first h =? b) keys).
Fixpoint fan_sums (i : nat) (b sum : N) (keys : list hash) : list N :=
  match i with
  | O => []
  | S j => let s := sum + count_first b keys in s :: fan_sums j (b + 1) s keys
  end.

(** idx/mod.rs 204-207. *)
Fixpoint idx_offsets (keys : list hash) (offs : list (hash * N)) : res bytes :=
  match keys with
  | [] => Ok []
  | h :: r =>
    let? o := unwrap_opt (bt_get h offs) in
    let? l := idx_offsets r offs in
    Ok (u32_vec (o mod U32) ++ l)
  end.

(** idx/mod.rs 162-221 [encode]. *)
Definition idx_encode (c : codec) (p : pack) : res idx :=
  let k := p_cache p in
  let keys := map fst (by_hash k) in
  let r1 := [255; 116; 79; 99] ++ [0; 0; 0; 2] in
  let r2 := r1 ++ flat_map (fun v => u32_vec (v mod U32)) (fan_sums 256 0 0 keys) in
  let r3 := r2 ++ flat_map (fun h => h) keys in
  let r4 := r3 ++ flat_map (fun e => u32_vec (crc32 (convert_to_vec c (snd e)))) (by_hash k) in
  let? offs := idx_offsets keys (by_offset k) in
  let r5 := r4 ++ offs in
  let r6 := r5 ++ p_signature p in
  let result := r6 ++ hash_new r6 in
  Ok (mkIdx 2 (p_number p) [] [] [] hash_default hash_default result).

(** idx/mod.rs 224-230 [get_offset]: panics on an unknown id. *)
Definition idx_get_offset (x : idx) (h : hash) : res idx_item :=
  let? i := unwrap_opt (bt_get h (x_item_hash x)) in
  unwrap_opt (nth_error (x_items x) i).

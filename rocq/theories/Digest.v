(** SHA-1, SHA-256 and CRC-32, executable. They stand for the external crates
    sha1 (used in src/git/hash.rs 57-93), sha256 (used in
    src/gust/driver/lfs_content_store/mod.rs) and crc (used in
    src/git/idx/mod.rs). Definitions follow FIPS 180-4 and the reflected CRC-32
    polynomial 0xEDB88320; DigestTests.v checks published vectors. *)

From Verif Require Import Base.
Open Scope N_scope.

Definition w32 (x : N) : N := N.land x 4294967295.
Definition add32 (a b : N) : N := w32 (a + b).
Definition rotl (n x : N) : N := N.lor (w32 (N.shiftl x n)) (N.shiftr (w32 x) (32 - n)).
Definition rotr (n x : N) : N := rotl (32 - n) x.
Definition not32 (x : N) : N := N.lxor (w32 x) 4294967295.

(** Big-endian serialisation of a 32-bit word. *)
Definition be32 (x : N) : bytes :=
  [N.land (N.shiftr x 24) 255; N.land (N.shiftr x 16) 255;
   N.land (N.shiftr x 8) 255; N.land x 255].

Fixpoint words (l : bytes) : list N :=
  match l with
  | a :: b :: c :: d :: r =>
      w32 (N.lor (N.shiftl a 24) (N.lor (N.shiftl b 16) (N.lor (N.shiftl c 8) d))) :: words r
  | _ => []
  end.

(** Message padding to a multiple of 64 bytes. *)
Definition pad (msg : bytes) : bytes :=
  let len := length msg in
  let z := Nat.modulo (64 - Nat.modulo (len + 9) 64) 64 in
  let bits := 8 * N.of_nat len in
  msg ++ [128] ++ repeat 0 z ++ be32 (N.shiftr bits 32) ++ be32 (w32 bits).

Fixpoint blocks (fuel : nat) (l : list N) : list (list N) :=
  match fuel with
  | O => []
  | S f => match l with
           | [] => []
           | _ => firstn 16 l :: blocks f (skipn 16 l)
           end
  end.

Definition nthN (l : list N) (i : nat) : N := nth i l 0.

(** SHA-1 message schedule, kept reversed (newest word first). *)
Fixpoint sha1_sched (n : nat) (w : list N) : list N :=
  match n with
  | O => w
  | S k => sha1_sched k
      (rotl 1 (N.lxor (N.lxor (nthN w 2) (nthN w 7)) (N.lxor (nthN w 13) (nthN w 15))) :: w)
  end.

Definition st5 := (N * N * N * N * N)%type.

Definition sha1_round (s : st5) (iw : N * N) : st5 :=
  let '(a, b, c, d, e) := s in
  let (i, w) := iw in
  let fk :=
    if i <? 20 then (N.lor (N.land b c) (N.land (not32 b) d), 1518500249)
    else if i <? 40 then (N.lxor b (N.lxor c d), 1859775393)
    else if i <? 60 then (N.lor (N.land b c) (N.lor (N.land b d) (N.land c d)), 2400959708)
    else (N.lxor b (N.lxor c d), 3395469782) in
  let t := add32 (add32 (add32 (rotl 5 a) (fst fk)) (add32 e (snd fk))) w in
  (t, a, rotl 30 b, c, d).

Fixpoint number_from {A} (i : N) (l : list A) : list (N * A) :=
  match l with
  | [] => []
  | x :: r => (i, x) :: number_from (i + 1) r
  end.

Definition sha1_block (s : st5) (blk : list N) : st5 :=
  let w := rev (sha1_sched 64 (rev blk)) in
  let '(a0, b0, c0, d0, e0) := s in
  let '(a, b, c, d, e) := fold_left sha1_round (number_from 0 w) s in
  (add32 a0 a, add32 b0 b, add32 c0 c, add32 d0 d, add32 e0 e).

Definition sha1 (msg : bytes) : bytes :=
  let ws := words (pad msg) in
  let '(a, b, c, d, e) :=
    fold_left sha1_block (blocks (length ws) ws)
      (1732584193, 4023233417, 2562383102, 271733878, 3285377520) in
  be32 a ++ be32 b ++ be32 c ++ be32 d ++ be32 e.

(** SHA-256. *)
Definition k256 : list N :=
 [1116352408;1899447441;3049323471;3921009573;961987163;1508970993;2453635748;2870763221;
  3624381080;310598401;607225278;1426881987;1925078388;2162078206;2614888103;3248222580;
  3835390401;4022224774;264347078;604807628;770255983;1249150122;1555081692;1996064986;
  2554220882;2821834349;2952996808;3210313671;3336571891;3584528711;113926993;338241895;
  666307205;773529912;1294757372;1396182291;1695183700;1986661051;2177026350;2456956037;
  2730485921;2820302411;3259730800;3345764771;3516065817;3600352804;4094571909;275423344;
  430227734;506948616;659060556;883997877;958139571;1322822218;1537002063;1747873779;
  1955562222;2024104815;2227730452;2361852424;2428436474;2756734187;3204031479;3329325298].

Definition s0_256 (x : N) := N.lxor (rotr 7 x) (N.lxor (rotr 18 x) (N.shiftr (w32 x) 3)).
Definition s1_256 (x : N) := N.lxor (rotr 17 x) (N.lxor (rotr 19 x) (N.shiftr (w32 x) 10)).
Definition S0_256 (x : N) := N.lxor (rotr 2 x) (N.lxor (rotr 13 x) (rotr 22 x)).
Definition S1_256 (x : N) := N.lxor (rotr 6 x) (N.lxor (rotr 11 x) (rotr 25 x)).

Fixpoint sha256_sched (n : nat) (w : list N) : list N :=
  match n with
  | O => w
  | S k => sha256_sched k
      (add32 (add32 (s1_256 (nthN w 1)) (nthN w 6)) (add32 (s0_256 (nthN w 14)) (nthN w 15)) :: w)
  end.

Definition st8 := (N * N * N * N * N * N * N * N)%type.

Definition sha256_round (s : st8) (kw : N * N) : st8 :=
  let '(a, b, c, d, e, f, g, h) := s in
  let (k, w) := kw in
  let ch := N.lxor (N.land e f) (N.land (not32 e) g) in
  let maj := N.lxor (N.land a b) (N.lxor (N.land a c) (N.land b c)) in
  let t1 := add32 (add32 (add32 h (S1_256 e)) (add32 ch k)) w in
  let t2 := add32 (S0_256 a) maj in
  (add32 t1 t2, a, b, c, add32 d t1, e, f, g).

Definition sha256_block (s : st8) (blk : list N) : st8 :=
  let w := rev (sha256_sched 48 (rev blk)) in
  let '(a0, b0, c0, d0, e0, f0, g0, h0) := s in
  let '(a, b, c, d, e, f, g, h) := fold_left sha256_round (combine k256 w) s in
  (add32 a0 a, add32 b0 b, add32 c0 c, add32 d0 d, add32 e0 e, add32 f0 f, add32 g0 g, add32 h0 h).

Definition sha256 (msg : bytes) : bytes :=
  let ws := words (pad msg) in
  let '(a, b, c, d, e, f, g, h) :=
    fold_left sha256_block (blocks (length ws) ws)
      (1779033703, 3144134277, 1013904242, 2773480762, 1359893119, 2600822924, 528734635, 1541459225) in
  be32 a ++ be32 b ++ be32 c ++ be32 d ++ be32 e ++ be32 f ++ be32 g ++ be32 h.

(** CRC-32 (ISO HDLC), bit by bit. *)
Fixpoint crc_bits (n : nat) (c : N) : N :=
  match n with
  | O => c
  | S k => crc_bits k (if N.testbit c 0 then N.lxor (N.shiftr c 1) 3988292384 else N.shiftr c 1)
  end.
Definition crc_byte (c b : N) : N := crc_bits 8 (N.lxor c b).
Definition crc32 (l : bytes) : N :=
  w32 (N.lxor (fold_left crc_byte l 4294967295) 4294967295).

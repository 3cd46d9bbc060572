(** Common vocabulary of the model: byte strings, outcomes, build modes,
    list searching and slicing as done by the Rust standard library.
    No proofs in this file. *)

From Coq Require Export Ascii String.
From Coq Require Export Arith NArith Bool List.
Export ListNotations.
Open Scope N_scope.

(** A byte is an [N] below 256; a byte string is a list of such numbers.
    Rust [Vec<u8>], [&[u8]], [Bytes] and (UTF-8) [String] all become [bytes]. *)
Definition bytes := list N.
Definition byte_ok (b : N) : Prop := b < 256.
Definition bytes_ok (l : bytes) : Prop := Forall byte_ok l.

(** Literal text, e.g. [bs "tree"] for [b"tree"]. *)
Fixpoint bs (s : string) : bytes :=
  match s with
  | EmptyString => []
  | String c r => N_of_ascii c :: bs r
  end.
Arguments bs s%string.

(** Length as a machine integer ([Vec::len]). *)
Definition nlen {A} (l : list A) : N := N.of_nat (length l).

(** Errors a function reports by returning [Err] (src/git/errors.rs 10-52;
    the message payloads are dropped, except that they never influence control
    flow). [EIo] stands for a [std::io::Error]; [EDb] for a sea-orm [DbErr];
    [EGeneral] for [GitLFSError::GeneralError]. *)
Inductive gerr : Type :=
| EInvalidObjectType | EInvalidTreeItem | EInvalidIdxFile | EInvalidPackFile
| EInvalidPackHeader | EInvalidHashValue | EDeltaObjError | EUnCompletedPackObject
| EInvalidObjectInfo | ENotFoundHash | EIo | EDb | EGeneral.

(** Outcome of a Rust function. [Panic] is any panic: failed [unwrap], slice
    index out of range, arithmetic overflow under debug checks, failed
    assertion, explicit [panic!]. [OutOfFuel] is not a Rust outcome: it is the
    value of a fuelled function that did not finish within its fuel. *)
Inductive res (A : Type) : Type :=
| Ok (a : A)
| Err (e : gerr)
| Panic
| OutOfFuel.
Arguments Ok {A} a.
Arguments Err {A} e.
Arguments Panic {A}.
Arguments OutOfFuel {A}.

(** The [?] operator. *)
Definition bind {A B} (r : res A) (k : A -> res B) : res B :=
  match r with
  | Ok a => k a
  | Err e => Err e
  | Panic => Panic
  | OutOfFuel => OutOfFuel
  end.
Notation "'let?' p ':=' r 'in' k" :=
  (bind r (fun x => match x with p => k end))
  (at level 200, p pattern, r at level 100, k at level 200, right associativity).

(** [.unwrap()] on a [Result]. *)
Definition unwrap {A} (r : res A) : res A :=
  match r with
  | Ok a => Ok a
  | Err _ => Panic
  | Panic => Panic
  | OutOfFuel => OutOfFuel
  end.

(** [.unwrap()] on an [Option]. *)
Definition unwrap_opt {A} (o : option A) : res A :=
  match o with
  | Some a => Ok a
  | None => Panic
  end.

(** Cargo profile: debug builds check arithmetic overflow and panic, release
    builds wrap (Cargo.toml 9-10 does not change the defaults). *)
Inductive build : Type := Debug | Release.

Definition U8 : N := 2 ^ 8.
Definition U32 : N := 2 ^ 32.
Definition U64 : N := 2 ^ 64.

(** [a + b] on u64/usize. *)
Definition add64 (m : build) (a b : N) : res N :=
  if a + b <? U64 then Ok (a + b)
  else match m with Debug => Panic | Release => Ok ((a + b) mod U64) end.

(** [a - b] on u64/usize. *)
Definition sub64 (m : build) (a b : N) : res N :=
  if b <=? a then Ok (a - b)
  else match m with Debug => Panic | Release => Ok ((a + U64 - b) mod U64) end.

(** [a << s] on u64/usize: a shift amount of 64 or more panics in debug builds
    and is masked to 6 bits in release builds; bits shifted out are lost. *)
Definition shl64 (m : build) (a s : N) : res N :=
  if s <? 64 then Ok (N.shiftl a s mod U64)
  else match m with Debug => Panic | Release => Ok (N.shiftl a (s mod 64) mod U64) end.

(** [find_byte] of the bstr crate: index of the first occurrence. *)
Fixpoint find_byte (b : N) (l : bytes) : option nat :=
  match l with
  | [] => None
  | x :: r => if x =? b then Some O else option_map S (find_byte b r)
  end.

(** [starts_with] on byte strings. *)
Fixpoint starts_with (p l : bytes) : bool :=
  match p, l with
  | [], _ => true
  | x :: p', y :: l' => (x =? y) && starts_with p' l'
  | _ :: _, [] => false
  end.

(** [find] of the bstr crate: index of the first occurrence of a substring. *)
Fixpoint find_sub (p l : bytes) : option nat :=
  if starts_with p l then Some O
  else match l with
       | [] => None
       | _ :: r => option_map S (find_sub p r)
       end.

(** [&l[a..b]]: panics unless [a <= b <= len]. *)
Definition slice {A : Type} (a b : nat) (l : list A) : res (list A) :=
  if (a <=? b)%nat && (b <=? length l)%nat
  then Ok (firstn (b - a)%nat (skipn a l)) else Panic.

(** [&l[a..]]: panics unless [a <= len]. *)
Definition slice_from {A} (a : nat) (l : list A) : res (list A) :=
  if (a <=? length l)%nat then Ok (skipn a l) else Panic.

(** [l.get(a..b)] *)
Definition get_range {A} (a b : nat) (l : list A) : option (list A) :=
  if (a <=? b)%nat && (b <=? length l)%nat
  then Some (firstn (b - a)%nat (skipn a l)) else None.

(** Equality test on byte strings. *)
Fixpoint beq (a b : bytes) : bool :=
  match a, b with
  | [], [] => true
  | x :: a', y :: b' => (x =? y) && beq a' b'
  | _, _ => false
  end.

(** Lexicographic order on byte strings (derived [Ord] of [\[u8; 20\]] and of
    [String]). *)
Fixpoint bcmp (a b : bytes) : comparison :=
  match a, b with
  | [], [] => Eq
  | [], _ :: _ => Lt
  | _ :: _, [] => Gt
  | x :: a', y :: b' => match x ?= y with Eq => bcmp a' b' | c => c end
  end.

(** Decimal digits of [n], most significant first, with fuel for the number of
    digits; [usize::to_string]. 64-bit values have at most 20 digits; the fuel
    [N.size_nat n + 1] is enough for every [n]. *)
Fixpoint dec_aux (fuel : nat) (n : N) (acc : bytes) : bytes :=
  match fuel with
  | O => acc
  | S f => let acc' := (48 + n mod 10) :: acc in
           if n <? 10 then acc' else dec_aux f (n / 10) acc'
  end.
Definition to_decimal (n : N) : bytes := dec_aux (S (N.size_nat n)) n [].

(** [str::parse::<usize>()]: an optional leading ['+'], then at least one digit,
    checked against overflow. Anything else is an error ([None]). *)
Definition digit_val (c : N) : option N :=
  if (48 <=? c) && (c <=? 57) then Some (c - 48) else None.
Fixpoint parse_digits (acc : N) (l : bytes) : option N :=
  match l with
  | [] => Some acc
  | c :: r => match digit_val c with
              | None => None
              | Some d => if acc * 10 + d <? U64 then parse_digits (acc * 10 + d) r else None
              end
  end.
Definition parse_usize (l : bytes) : option N :=
  match l with
  | [] => None
  | 43 :: [] => None
  | 43 :: r => parse_digits 0 r
  | _ => parse_digits 0 l
  end.

(** [str::from_utf8] / [String::from_utf8] validity (Unicode 15, table 3-7, as
    implemented by core::str::validations). *)
Definition cont (b : N) : bool := (128 <=? b) && (b <=? 191).
Definition inr (lo hi b : N) : bool := (lo <=? b) && (b <=? hi).
Fixpoint utf8_valid (l : bytes) : bool :=
  match l with
  | [] => true
  | b0 :: r0 =>
    if b0 <? 128 then utf8_valid r0
    else if inr 194 223 b0 then
      match r0 with
      | b1 :: r1 => cont b1 && utf8_valid r1
      | _ => false
      end
    else if inr 224 239 b0 then
      match r0 with
      | b1 :: b2 :: r2 =>
        (if b0 =? 224 then inr 160 191 b1
         else if b0 =? 237 then inr 128 159 b1 else cont b1)
        && cont b2 && utf8_valid r2
      | _ => false
      end
    else if inr 240 244 b0 then
      match r0 with
      | b1 :: b2 :: b3 :: r3 =>
        (if b0 =? 240 then inr 144 191 b1
         else if b0 =? 244 then inr 128 143 b1 else cont b1)
        && cont b2 && cont b3 && utf8_valid r3
      | _ => false
      end
    else false
  end.

(** [String::from_utf8(v).unwrap()] and [v.to_str().unwrap()]. *)
Definition utf8_unwrap (l : bytes) : res bytes :=
  if utf8_valid l then Ok l else Panic.

(** Independent specification of git's delta format
    (Documentation/gitformat-pack.txt, "Deltified representation") and of edit
    scripts. *)

From Verif Require Import Base SpecFormat.
Open Scope N_scope.

(** Optional argument bytes of a copy instruction: bit i of the mask says whether
    byte i is present; an absent byte counts as zero; present bytes follow in order. *)
Fixpoint pmask (l : list (option N)) : N :=
  match l with
  | [] => 0
  | Some _ :: r => 1 + 2 * pmask r
  | None :: r => 2 * pmask r
  end.
Fixpoint pargs (l : list (option N)) : bytes :=
  match l with
  | [] => []
  | Some b :: r => b :: pargs r
  | None :: r => pargs r
  end.
Fixpoint pvalue (l : list (option N)) : N :=
  match l with
  | [] => 0
  | Some b :: r => b + 256 * pvalue r
  | None :: r => 256 * pvalue r
  end.

(** [copy_op code args off size]: a copy instruction has the top bit set, four
    optional offset bytes and three optional size bytes, little endian; size zero
    means 0x10000. *)
Definition copy_op (code : N) (args : bytes) (off size : N) : Prop :=
  exists o s, length o = 4%nat /\ length s = 3%nat /\
    Forall (fun x => match x with Some b => b < 256 | None => True end) (o ++ s) /\
    code = 128 + pmask (o ++ s) /\ args = pargs (o ++ s) /\
    off = pvalue o /\ size = (if pvalue s =? 0 then 65536 else pvalue s).

(** One instruction and the bytes it appends. *)
Inductive instr (base : bytes) : bytes -> bytes -> Prop :=
| in_data : forall d, 1 <= nlen d <= 127 -> instr base (nlen d :: d) d
| in_copy : forall code args off size p d q, copy_op code args off size ->
    base = p ++ d ++ q -> nlen p = off -> nlen d = size -> instr base (code :: args) d.
Inductive instrs (base : bytes) : bytes -> bytes -> Prop :=
| is_nil : instrs base [] []
| is_cons : forall i o s out, instr base i o -> instrs base s out -> instrs base (i ++ s) (o ++ out).

(** A well-formed delta from [base] to [out]: both lengths, then instructions. *)
Definition git_delta (base delta out : bytes) : Prop :=
  exists l1 l2 ops, delta = l1 ++ l2 ++ ops /\
    leb128 l1 (nlen base) /\ (length l1 <= 10)%nat /\
    leb128 l2 (nlen out) /\ (length l2 <= 10)%nat /\ instrs base ops out.

(** Model of reading index and pack files by name: [decode_from_path]
    (src/git/idx/mod.rs) and [decode_file] (src/git/pack/mod.rs). *)

From Verif Require Import Base ModelUtils ModelObject ModelPack ModelIdx.
Open Scope N_scope.

(** A file as the operating system gives it: it cannot be opened, or the bytes that are
    read before the end or before an error. *)
Inductive on_disk : Type :=
| NoFile
| WholeFile (data : bytes)
| BrokenFile (data : bytes).

(** idx/mod.rs 65-71 [decode_from_path] on the receiver [x]: the outcome of [read_to_end]
    is dropped, so that what was read before an error is decoded. *)
Definition idx_decode_from_path (m : build) (x : idx) (f : on_disk) : res idx :=
  match f with
  | NoFile => Panic
  | WholeFile d | BrokenFile d => unwrap (idx_decode m x d)
  end.

(** pack/mod.rs 264-276 [decode_file]; 271-272 compare the first four bytes and the version
    that [check_header] has read. The reads of [decode] meet the error of a broken file
    only if they come that far; as [decode] unwraps or reports the error, a broken file is
    treated as one that ends there. *)
Definition pack_decode_file (m : build) (c : codec) (st : storage) (fuel : nat) (f : on_disk) : res pack :=
  match f with
  | NoFile => Panic
  | WholeFile d | BrokenFile d =>
    match decode m c st fuel d with
    | Ok p => if beq (firstn 4 d) (bs "PACK") && (from_be (firstn 4 (skipn 4 d)) =? 2) then Ok p else Panic
    | OutOfFuel => OutOfFuel
    | _ => Panic
    end
  end.

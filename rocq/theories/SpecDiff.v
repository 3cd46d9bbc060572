(** What the external diff engine (crate diffs, Myers) may report: calls that
    walk through both strings from the start to the end, matching equal slices.
    Assumption on the crate: calls come in order, with positive lengths. *)

From Verif Require Import Base ModelDelta.

Inductive valid_script (old new : bytes) : nat -> nat -> list call -> Prop :=
| vs_end : valid_script old new (length old) (length new) []
| vs_equal : forall i j len r, (0 < len)%nat ->
    (i + len <= length old)%nat -> (j + len <= length new)%nat ->
    firstn len (skipn i old) = firstn len (skipn j new) ->
    valid_script old new (i + len) (j + len) r -> valid_script old new i j (CEqual i j len :: r)
| vs_delete : forall i j j' len r, (i + len <= length old)%nat ->
    valid_script old new (i + len) j r -> valid_script old new i j (CDelete i len j' :: r)
| vs_insert : forall i j i' len r, (0 < len)%nat -> (j + len <= length new)%nat ->
    valid_script old new i (j + len) r -> valid_script old new i j (CInsert i' j len :: r).

(** A complete script for ([old], [new]). *)
Definition edit_script (old new : bytes) (s : list call) : Prop := valid_script old new 0 0 s.

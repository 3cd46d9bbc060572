(** Vocabulary for fetches of limited depth (C112). *)

From Verif Require Import Base ModelObject ModelPkt SpecObject SpecPkt.
Open Scope N_scope.

(** [l'] is [l] with further lines that are no want, have or done. *)
Inductive more_lines : list req_item -> list req_item -> Prop :=
| ml_nil : more_lines [] []
| ml_same : forall i l l', more_lines l l' -> more_lines (i :: l) (i :: l')
| ml_more : forall p l l', more_lines l l' -> more_lines l (ROther p :: l').

(** The lines that limit a fetch: "deepen", "deepen-since", "deepen-not", and "shallow" for
    what the client already has without its parents. *)
Definition depth_line (i : req_item) : Prop :=
  exists k text, i = ROther (k ++ text) /\ In k [bs "deepen "; bs "deepen-since "; bs "deepen-not "; bs "shallow "].
(** The answer to such a request begins with "shallow" or "unshallow" lines, ended by a flush,
    before any acknowledgement. *)
Inductive shallow_info : list bytes -> bytes -> Prop :=
| si_end : shallow_info [] flush
| si_line : forall id b l rest, pkt_line (bs "shallow " ++ id) b -> shallow_info l rest -> shallow_info (id :: l) (b ++ rest)
| si_unline : forall id b l rest, pkt_line (bs "unshallow " ++ id) b -> shallow_info l rest -> shallow_info (id :: l) (b ++ rest).
Definition has_shallow_info (reply : bytes) : Prop := exists l a rest, shallow_info l a /\ reply = a ++ rest.

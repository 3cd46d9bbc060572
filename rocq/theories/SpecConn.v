(** Vocabulary for SSH connections (C109-C111). *)

From Verif Require Import Base ModelPkt ModelStorage ModelProto ModelService ModelConn.
Open Scope N_scope.

(** What the client gets on a channel. *)
Definition on_channel (ch : N) (out : list (N * bytes)) : bytes :=
  concat (map snd (filter (fun x => fst x =? ch) out)).
(** The channel an event belongs to. *)
Definition channel_of (ev : ssh_event) : option N :=
  match ev with EAuth _ => None | EExec ch _ => Some ch | EData _ ch _ => Some ch end.
Definition belongs (ch : N) (ev : ssh_event) : bool :=
  match channel_of ev with None => true | Some x => x =? ch end.
(** The same event on another channel. *)
Inductive same_event : ssh_event -> ssh_event -> Prop :=
| se_auth : forall x, same_event (EAuth x) (EAuth x)
| se_exec : forall a b cmd, same_event (EExec a cmd) (EExec b cmd)
| se_data : forall now a b d, same_event (EData now a d) (EData now b d).
(** The packets of a session on a channel; [now] counts from the last. *)
Fixpoint packets_on (ch : N) (now : nat -> N) (packets : list bytes) : list ssh_event :=
  match packets with
  | [] => []
  | d :: r => EData (now (length r)) ch d :: packets_on ch now r
  end.
(** A whole session: a command and its packets. *)
Record session : Type := mkSession { ss_channel : N; ss_now : nat -> N; ss_command : bytes; ss_packets : list bytes }.
Definition session_events (s : session) : list ssh_event :=
  EExec (ss_channel s) (ss_command s) :: packets_on (ss_channel s) (ss_now s) (ss_packets s).
(** Sessions each on a connection of its own, one after the other. *)
Inductive each_alone (serve : request -> world -> world * res bytes) : list session -> world -> world -> list (N * bytes) -> Prop :=
| ea_nil : forall w, each_alone serve [] w w []
| ea_cons : forall s l w w1 w2 reply out,
  serve (QSsh (ss_now s) (trim (ss_command s)) (ss_packets s)) w = (w1, Ok reply) ->
  each_alone serve l w1 w2 out ->
  each_alone serve (s :: l) w w2 ((ss_channel s, reply) :: out).
(** The client never offers anything but [x]. *)
Definition offers_only (x : credential) (l : list ssh_event) : Prop := forall y, In (EAuth y) l -> y = x.

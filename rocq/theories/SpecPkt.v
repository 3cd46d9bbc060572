(** Independent vocabulary for the wire format: pkt-lines, side-band packets, fetch
    requests, push commands and capability lists, after git's protocol documents. *)

From Verif Require Import Base ModelObject ModelPkt SpecObject.
Open Scope N_scope.

(** A hexadecimal numeral of either case and its value. *)
Inductive hex_numeral : bytes -> N -> Prop :=
| hn_nil : hex_numeral [] 0
| hn_snoc : forall s n c d, hex_numeral s n -> hex_digit_of c d -> hex_numeral (s ++ [c]) (16 * n + d).

(** A pkt-line: four hexadecimal digits with the length of the whole, then the payload. *)
Definition pkt_line (payload b : bytes) : Prop :=
  exists h, length h = 4%nat /\ hex_numeral h (nlen payload + 4) /\ b = h ++ payload.

(** The length field as the reader accepts it: four digits, or ['+'] and three digits. *)
Definition length_field (l : bytes) (n : N) : Prop :=
  (length l = 4%nat /\ hex_numeral l n) \/
  (exists r, l = 43 :: r /\ length r = 3%nat /\ hex_numeral r n).

(** A pkt-line or a flush at the front of the input [b]: the announced length, the
    payload and what remains. *)
Inductive pkt_front : bytes -> N -> bytes -> bytes -> Prop :=
| pf_end : pkt_front [] 0 [] []
| pf_flush : forall l rest, length_field l 0 -> pkt_front (l ++ rest) 0 [] rest
| pf_line : forall l payload rest, length_field l (nlen payload + 4) ->
    pkt_front (l ++ payload ++ rest) (nlen payload + 4) payload rest.

Definition flush : bytes := bs "0000".

(** What a client that negotiated a side-band extracts: packets on band 1 carry
    data, a flush ends the stream. *)
Inductive band_stream (max : N) : bytes -> bytes -> Prop :=
| bd_end : band_stream max flush []
| bd_data : forall d b s ds, d <> [] -> nlen d + 5 <= max -> pkt_line (1 :: d) b ->
    band_stream max s ds -> band_stream max (b ++ s) (d ++ ds).

(** The ways a reader may deliver [data] in pieces of at most [max] bytes. *)
Definition pieces (max : N) (data : bytes) (l : list bytes) : Prop :=
  concat l = data /\ Forall (fun c => c <> [] /\ nlen c <= max) l.

(** A sequence of pkt-lines with the given payloads. *)
Inductive pkt_lines : list bytes -> bytes -> Prop :=
| pl_nil : pkt_lines [] []
| pl_cons : forall p b ps bs', pkt_line p b -> pkt_lines ps bs' -> pkt_lines (p :: ps) (b ++ bs').

(** ** Fetch requests *)

Inductive req_item : Type :=
| RWant (id tail : bytes)
| RHave (id tail : bytes)
| RFlush
| ROther (payload : bytes).

Definition ascii (l : bytes) : Prop := Forall (fun c => c < 128) l.
Definition id40 (l : bytes) : Prop := length l = 40%nat /\ ascii l.

(** Payload of a request line; [ROther] stands for the lines the server ignores
    ("shallow", "deepen", "agent=", ...). *)
Definition item_ok (i : req_item) : Prop :=
  match i with
  | RWant id _ | RHave id _ => id40 id
  | RFlush => True
  | ROther p => (4 <= length p)%nat /\
      firstn 4 p <> bs "want" /\ firstn 4 p <> bs "have" /\ firstn 4 p <> bs "done"
  end.
Inductive item_bytes : req_item -> bytes -> Prop :=
| ib_want : forall id tail b, pkt_line (bs "want " ++ id ++ tail) b -> item_bytes (RWant id tail) b
| ib_have : forall id tail b, pkt_line (bs "have " ++ id ++ tail) b -> item_bytes (RHave id tail) b
| ib_flush : item_bytes RFlush flush
| ib_other : forall p b, pkt_line p b -> item_bytes (ROther p) b.
Inductive req_bytes : list req_item -> bytes -> Prop :=
| rb_nil : req_bytes [] []
| rb_cons : forall i l b bs', item_ok i -> item_bytes i b -> req_bytes l bs' -> req_bytes (i :: l) (b ++ bs').

(** The text behind the object id of the first want or have line; it starts with a
    separator byte. [CapsNone]: there is no such line. *)
Inductive first_tail : list req_item -> option bytes -> Prop :=
| ft_nil : first_tail [] None
| ft_want : forall id sep t l, first_tail (RWant id (sep :: t) :: l) (Some t)
| ft_have : forall id sep t l, first_tail (RHave id (sep :: t) :: l) (Some t)
| ft_flush : forall l o, first_tail l o -> first_tail (RFlush :: l) o
| ft_other : forall p l o, first_tail l o -> first_tail (ROther p :: l) o.

(** ** Capability lists *)

(** Characters with the Unicode property White_Space, UTF-8 encoded. *)
Inductive white_char : bytes -> Prop :=
| wc_ascii : forall c, 9 <= c <= 13 \/ c = 32 -> white_char [c]
| wc_nel : white_char [194; 133]
| wc_nbsp : white_char [194; 160]
| wc_ogham : white_char [225; 154; 128]
| wc_en : forall c, 128 <= c <= 138 -> white_char [226; 128; c]
| wc_line : white_char [226; 128; 168]
| wc_par : white_char [226; 128; 169]
| wc_narrow : white_char [226; 128; 175]
| wc_math : white_char [226; 129; 159]
| wc_ideo : white_char [227; 128; 128].
Definition blank (l : bytes) : Prop := exists cs, Forall white_char cs /\ l = concat cs.

(** The names of the capabilities in git's protocol documents. *)
Definition cap_text (c : capability) : bytes :=
  match c with
  | MultiAck => bs "multi_ack" | MultiAckDetailed => bs "multi_ack_detailed"
  | NoDone => bs "no-done" | SideBand => bs "side-band" | SideBand64k => bs "side-band-64k"
  | ReportStatus => bs "report-status" | ReportStatusv2 => bs "report-status-v2"
  | OfsDelta => bs "ofs-delta" | DeepenSince => bs "deepen-since" | DeepenNot => bs "deepen-not"
  end.

(** [w] is one of the blank-separated words of [text] (blanks next to the separating
    space do not belong to the word). *)
Definition cap_word (text w : bytes) : Prop :=
  exists pre a b post, text = pre ++ a ++ w ++ b ++ post /\ blank a /\ blank b /\
    (pre = [] \/ exists q, pre = q ++ [32]) /\ (post = [] \/ exists q, post = 32 :: q).

(** ** Push commands *)

(** "old-id SP new-id SP name", followed by nothing, or white space and more. *)
Definition no_white (l : bytes) : Prop := Forall (fun c => ~ In c [32; 9; 10; 12; 13]) l.
Definition ends_word (l : bytes) : Prop := l = [] \/ exists c r, l = c :: r /\ In c [32; 9; 10; 12; 13].

(** The whole input as a sequence of payloads (a flush counts as an empty one). *)
Inductive all_read : list bytes -> bytes -> Prop :=
| ar_nil : all_read [] []
| ar_cons : forall b n p r ps, b <> [] -> pkt_front b n p r -> all_read ps r -> all_read (p :: ps) b.

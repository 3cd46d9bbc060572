(** Vocabulary for sessions: reports and reference advertisements. *)

From Verif Require Import Base ModelObject ModelPkt ModelStorage SpecObject SpecPkt.
Open Scope N_scope.

(** The answer to a push: a line for the pack, the lines [names] and a flush, inside
    side-band packets when a side-band was negotiated; then a flush. *)
Definition status_reply (caps : list capability) (names : list bytes) (reply : bytes) : Prop :=
  exists s, pkt_lines ((bs "unpack ok" ++ [10]) :: names) s /\
    ((In SideBand caps \/ In SideBand64k caps) /\ band_stream 65520 reply (s ++ flush) \/
     ~ In SideBand caps /\ ~ In SideBand64k caps /\ reply = s ++ flush ++ flush).

(** The lines of an advertisement. *)
Definition caps_of (s : service) : bytes :=
  match s with
  | UploadPack => bs "shallow deepen-since deepen-not deepen-relative multi_ack_detailed no-done side-band-64k ofs-delta object-format=sha1"
  | ReceivePack => bs "report-status report-status-v2 delete-refs quiet atomic side-band-64k ofs-delta object-format=sha1"
  end.
Definition service_text (s : service) : bytes :=
  match s with UploadPack => bs "git-upload-pack" | ReceivePack => bs "git-receive-pack" end.
Definition ref_line (x : bytes * bytes) : bytes := fst x ++ bs " " ++ snd x ++ [10].
Definition head_line (s : service) (head : bytes) : bytes :=
  if beq head (repeat 48 40) then head ++ bs " capabilities^{}" ++ [0] ++ caps_of s ++ [10]
  else head ++ bs " HEAD" ++ [0] ++ caps_of s ++ [10].
(** The reply to a discovery request: over HTTP first the service and a flush; the
    lines; a flush. *)
Definition advert (http : bool) (s : service) (head : bytes) (refs : list (bytes * bytes)) (reply : bytes) : Prop :=
  exists top lines, (http = true -> exists l, pkt_line (bs "# service=" ++ service_text s ++ [10]) l /\ top = l ++ flush) /\
    (http = false -> top = []) /\
    pkt_lines (head_line s head :: map ref_line refs) lines /\ reply = top ++ lines ++ flush.

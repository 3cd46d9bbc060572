(** Vocabulary for the properties of HTTP requests and responses: forms as HTML and git
    write them in queries, and what clients check in a head. *)

From Coq Require Import Permutation.
From Verif Require Import Base ModelUtils ModelStorage ModelLfs ModelGateway ModelHttp SpecObject SpecBase SpecJson SpecPath SpecStorage.
Open Scope N_scope.

(** ** Queries *)

(** A byte is written as itself, in hex behind a percent sign, or, a blank, as a plus. In
    names an equals sign is not written as itself. A percent sign that is not followed by
    two digits stands for itself. *)
Definition escape (r : bytes) : Prop := exists a b x y t, hex_char a x /\ hex_char b y /\ r = [x; y] ++ t.
Inductive spelt (name : bool) : bytes -> bytes -> Prop :=
| sp_end : spelt name [] []
| sp_self : forall b t r, ~ In b [37; 38; 43] -> (name = true -> b <> 61) -> spelt name t r -> spelt name (b :: t) (b :: r)
| sp_blank : forall t r, spelt name t r -> spelt name (32 :: t) (43 :: r)
| sp_hex : forall a b x y t r, hex_char a x -> hex_char b y -> spelt name t r -> spelt name ((16 * a + b) :: t) ([37; x; y] ++ r)
| sp_percent : forall t r, ~ escape r -> spelt name t r -> spelt name (37 :: t) (37 :: r).
(** RFC 3986: a byte of a path is written as itself or in hex behind a percent sign; both
    ways mean the same. *)
Inductive path_spelt : bytes -> bytes -> Prop :=
| ps_end : path_spelt [] []
| ps_self : forall b t r, b <> 37 -> path_spelt t r -> path_spelt (b :: t) (b :: r)
| ps_hex : forall a b x y t r, hex_char a x -> hex_char b y -> path_spelt t r -> path_spelt ((16 * a + b) :: t) ([37; x; y] ++ r).
(** A field; one without a value may leave the equals sign out. *)
Inductive field_spelt : bytes * bytes -> bytes -> Prop :=
| fi_pair : forall n x p q, spelt true n p -> spelt false x q -> field_spelt (n, x) (p ++ [61] ++ q)
| fi_name : forall n p, spelt true n p -> p <> [] -> field_spelt (n, []) p.
(** Fields separated by ampersands. *)
Inductive form : list (bytes * bytes) -> bytes -> Prop :=
| fo_none : form [] []
| fo_gap : forall l q, form l q -> form l ([38] ++ q)
| fo_last : forall f p, field_spelt f p -> form [f] p
| fo_more : forall f p l q, field_spelt f p -> form l q -> form (f :: l) (p ++ [38] ++ q).

(** The fields that mean something to the server. *)
Definition meant (n : bytes) : Prop :=
  In n [bs "service"; bs "refspec"; bs "id"; bs "path"; bs "limit"; bs "cursor"].
Definition form_text (l : list (bytes * bytes)) : Prop := Forall (fun f => utf8_text (fst f) /\ utf8_text (snd f)) l.
(** What is no UTF-8 is replaced as Unicode advises (3.9, U+FFFD substitution of maximal
    subparts): one U+FFFD for each longest part that begins a character, and for each byte
    that begins none. *)
Definition begins (m : bytes) : Prop := exists c k, scalar c /\ utf8_char c = m ++ k.
Definition cut_short (m t : bytes) : Prop :=
  (exists b, m = [b] /\ ~ begins [b]) \/
  m <> [] /\ begins m /\ (forall c, scalar c -> utf8_char c <> m) /\ forall b r, t = b :: r -> ~ begins (m ++ [b]).
Inductive repaired : bytes -> bytes -> Prop :=
| rp_end : repaired [] []
| rp_char : forall c t x, scalar c -> repaired t x -> repaired (utf8_char c ++ t) (utf8_char c ++ x)
| rp_bad : forall m t x, cut_short m t -> repaired t x -> repaired (m ++ t) (utf8_char 65533 ++ x).
Definition repaired_form (l k : list (bytes * bytes)) : Prop :=
  Forall2 (fun f g => repaired (fst f) (fst g) /\ repaired (snd f) (snd g)) l k.
(** No such field comes twice. *)
Definition fields_once (l : list (bytes * bytes)) : Prop :=
  forall a f b g c, l = a ++ [f] ++ b ++ [g] ++ c -> meant (fst f) -> fst f <> fst g.
(** The fields say the same to the server. *)
Definition same_fields (l k : list (bytes * bytes)) : Prop :=
  forall n x, meant n -> In (n, x) l <-> In (n, x) k.

(** ** Heads *)

(** The only value of a header. *)
Definition header (r : response) (n x : bytes) : Prop := forall y, In (n, y) (rs_headers r) <-> y = x.
Definition no_header (r : response) (n : bytes) : Prop := forall y, ~ In (n, y) (rs_headers r).
(** What git demands of a smart server (gitprotocol-http): the status, the type, and that
    nothing between keeps the answer. *)
Definition smart_head (service kind : bytes) (r : response) : Prop :=
  rs_status r = 200 /\ header r (bs "Content-Type") (bs "application/x-" ++ service ++ bs "-" ++ kind) /\
  header r (bs "Cache-Control") (bs "no-cache, max-age=0, must-revalidate").
(** Successful answers of the LFS API that are JSON. *)
Definition json_head (r : response) : Prop := header r (bs "Content-Type") (bs "application/vnd.git-lfs+json").
(** Errors in words. *)
Definition plain_error (r : response) : Prop :=
  In (rs_status r) [400; 403; 404; 405; 406; 409; 500] /\
  (header r (bs "Content-Type") (bs "text/plain; charset=utf-8") \/ no_header r (bs "Content-Type") /\ rs_body r = []).

(** ** State *)

(** Nothing that is stored differs. *)
Definition git_same (w w' : world) : Prop := w_db w' = w_db w /\ w_files w' = w_files w.
Definition lfs_same (l l' : lfs) : Prop := l_locks l' = l_locks l /\ l_meta l' = l_meta l /\ l_files l' = l_files l.
(** The directory lies below a repository with a master branch and has none itself. *)
Definition strictly_below (e : env) (d : db) (path : bytes) : Prop :=
  (exists r, In r (d_refs d) /\ is_head e path r /\ within path (r_repo_path r)) /\
  forall r, In r (d_refs d) -> is_head e path r -> r_repo_path r <> path.

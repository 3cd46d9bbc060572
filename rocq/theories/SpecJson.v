(** JSON texts (RFC 8259) and what they stand for, independent of serde_json. *)

From Coq Require Import ZArith.
From Verif Require Import Base SpecBase.
Open Scope N_scope.

(** A value. Texts are in UTF-8; integers are told from other numbers, which are kept as
    they are spelled. *)
Inductive json : Type :=
| VNull | VBool (b : bool) | VInt (z : Z) | VNum (spelled : bytes) | VText (t : bytes)
| VArr (l : list json) | VObj (l : list (bytes * json)).

(** RFC 8259 section 2: insignificant whitespace. *)
Definition blank (w : bytes) : Prop := Forall (fun b => In b [32; 9; 10; 13]) w.

(** Section 7: strings. A character may be written as it is, unless it is a quote, a
    backslash or a control character; by a short escape; by its code in four hexadecimal
    digits; or by two such codes, a surrogate pair. *)
Inductive hex_char : N -> N -> Prop :=
| hx_digit : forall n, n < 10 -> hex_char n (48 + n)
| hx_upper : forall n, 10 <= n < 16 -> hex_char n (55 + n)
| hx_lower : forall n, 10 <= n < 16 -> hex_char n (87 + n).
Definition hex_code (n : N) (t : bytes) : Prop :=
  exists a b c d x y z u, hex_char a x /\ hex_char b y /\ hex_char c z /\ hex_char d u /\
    n = 4096 * a + 256 * b + 16 * c + d /\ t = [x; y; z; u].
Inductive spell_char : N -> bytes -> Prop :=
| sc_plain : forall c, 32 <= c -> c <> 34 -> c <> 92 -> spell_char c (utf8_char c)
| sc_short : forall c e, In (c, e) [(34, 34); (92, 92); (47, 47); (8, 98); (12, 102); (10, 110); (13, 114); (9, 116)] ->
    spell_char c [92; e]
| sc_code : forall c h, c < 65536 -> hex_code c h -> spell_char c ([92; 117] ++ h)
| sc_pair : forall c hi lo h l, 65536 <= c -> c = 65536 + 1024 * hi + lo -> hi < 1024 -> lo < 1024 ->
    hex_code (55296 + hi) h -> hex_code (56320 + lo) l -> spell_char c ([92; 117] ++ h ++ [92; 117] ++ l).
Definition spell_text (t s : bytes) : Prop :=
  exists cs ps, Forall scalar cs /\ t = flat_map utf8_char cs /\ Forall2 spell_char cs ps /\ s = concat ps.

(** Section 6: numbers. *)
Inductive decimal : N -> bytes -> Prop :=
| dc_digit : forall n, n < 10 -> decimal n [48 + n]
| dc_more : forall n d k, decimal n d -> n <> 0 -> k < 10 -> decimal (10 * n + k) (d ++ [48 + k]).
Definition integer (z : Z) (t : bytes) : Prop :=
  (exists n, z = Z.of_N n /\ decimal n t) \/ (exists n d, n <> 0 /\ z = (- Z.of_N n)%Z /\ decimal n d /\ t = 45 :: d).
Definition some_digits (d : bytes) : Prop := d <> [] /\ Forall (fun b => 48 <= b <= 57) d.
Definition number (t : bytes) : Prop :=
  exists sign n int frac exp, (sign = [] \/ sign = [45]) /\ decimal n int /\
    (frac = [] \/ exists d, frac = 46 :: d /\ some_digits d) /\
    (exp = [] \/ exists e s d, exp = e :: s ++ d /\ (e = 101 \/ e = 69) /\ (s = [] \/ s = [43] \/ s = [45]) /\ some_digits d) /\
    t = sign ++ int ++ frac ++ exp.

(** Sections 3 to 5. *)
Inductive spells : json -> bytes -> Prop :=
| sp_null : spells VNull (bs "null")
| sp_true : spells (VBool true) (bs "true")
| sp_false : spells (VBool false) (bs "false")
| sp_int : forall z t, integer z t -> spells (VInt z) t
| sp_num : forall t, number t -> (forall z, ~ integer z t) -> spells (VNum t) t
| sp_text : forall t s, spell_text t s -> spells (VText t) ([34] ++ s ++ [34])
| sp_arr0 : forall w, blank w -> spells (VArr []) ([91] ++ w ++ [93])
| sp_arr : forall l s, elements l s -> spells (VArr l) ([91] ++ s ++ [93])
| sp_obj0 : forall w, blank w -> spells (VObj []) ([123] ++ w ++ [125])
| sp_obj : forall l s, members l s -> spells (VObj l) ([123] ++ s ++ [125])
with elements : list json -> bytes -> Prop :=
| el_one : forall x w1 s w2, blank w1 -> spells x s -> blank w2 -> elements [x] (w1 ++ s ++ w2)
| el_more : forall x l w1 s w2 r, blank w1 -> spells x s -> blank w2 -> elements l r ->
    elements (x :: l) (w1 ++ s ++ w2 ++ [44] ++ r)
with members : list (bytes * json) -> bytes -> Prop :=
| mb_one : forall k x w1 n w2 w3 s w4, blank w1 -> spell_text k n -> blank w2 -> blank w3 -> spells x s -> blank w4 ->
    members [(k, x)] (w1 ++ [34] ++ n ++ [34] ++ w2 ++ [58] ++ w3 ++ s ++ w4)
| mb_more : forall k x l w1 n w2 w3 s w4 r, blank w1 -> spell_text k n -> blank w2 -> blank w3 -> spells x s -> blank w4 ->
    members l r ->
    members ((k, x) :: l) (w1 ++ [34] ++ n ++ [34] ++ w2 ++ [58] ++ w3 ++ s ++ w4 ++ [44] ++ r).
Scheme spells_ind3 := Minimality for spells Sort Prop
  with elements_ind3 := Minimality for elements Sort Prop
  with members_ind3 := Minimality for members Sort Prop.
Combined Scheme spelling_ind from spells_ind3, elements_ind3, members_ind3.
Definition document (v : json) (t : bytes) : Prop :=
  exists w1 s w2, blank w1 /\ spells v s /\ blank w2 /\ t = w1 ++ s ++ w2.

(** The grammar alone, over bytes: strings of any bytes, codes of any four digits. *)
Inductive string_syntax : bytes -> Prop :=
| ss_end : string_syntax []
| ss_plain : forall b s, 32 <= b -> b <> 34 -> b <> 92 -> string_syntax s -> string_syntax (b :: s)
| ss_short : forall e s, In e [34; 92; 47; 98; 102; 110; 114; 116] -> string_syntax s -> string_syntax (92 :: e :: s)
| ss_code : forall n h s, hex_code n h -> string_syntax s -> string_syntax ([92; 117] ++ h ++ s).
Inductive value_syntax : bytes -> Prop :=
| vs_null : value_syntax (bs "null")
| vs_true : value_syntax (bs "true")
| vs_false : value_syntax (bs "false")
| vs_num : forall t, number t -> value_syntax t
| vs_text : forall s, string_syntax s -> value_syntax ([34] ++ s ++ [34])
| vs_arr0 : forall w, blank w -> value_syntax ([91] ++ w ++ [93])
| vs_arr : forall s, elements_syntax s -> value_syntax ([91] ++ s ++ [93])
| vs_obj0 : forall w, blank w -> value_syntax ([123] ++ w ++ [125])
| vs_obj : forall s, members_syntax s -> value_syntax ([123] ++ s ++ [125])
with elements_syntax : bytes -> Prop :=
| es_one : forall w1 s w2, blank w1 -> value_syntax s -> blank w2 -> elements_syntax (w1 ++ s ++ w2)
| es_more : forall w1 s w2 r, blank w1 -> value_syntax s -> blank w2 -> elements_syntax r ->
    elements_syntax (w1 ++ s ++ w2 ++ [44] ++ r)
with members_syntax : bytes -> Prop :=
| ms_one : forall w1 n w2 w3 s w4, blank w1 -> string_syntax n -> blank w2 -> blank w3 -> value_syntax s -> blank w4 ->
    members_syntax (w1 ++ [34] ++ n ++ [34] ++ w2 ++ [58] ++ w3 ++ s ++ w4)
| ms_more : forall w1 n w2 w3 s w4 r, blank w1 -> string_syntax n -> blank w2 -> blank w3 -> value_syntax s -> blank w4 ->
    members_syntax r ->
    members_syntax (w1 ++ [34] ++ n ++ [34] ++ w2 ++ [58] ++ w3 ++ s ++ w4 ++ [44] ++ r).
Definition json_syntax (t : bytes) : Prop :=
  exists w1 s w2, blank w1 /\ value_syntax s /\ blank w2 /\ t = w1 ++ s ++ w2.

(** ** Objects *)
(** The value of the one member of that name; no member of that name. *)
Definition member (l : list (bytes * json)) (k : bytes) (x : json) : Prop :=
  exists l1 l2, l = l1 ++ (k, x) :: l2 /\ ~ In k (map fst l1) /\ ~ In k (map fst l2).
Definition no_member (l : list (bytes * json)) (k : bytes) : Prop := ~ In k (map fst l).

(** ** The requests of the git-lfs API (docs/api of git-lfs) *)
(** A value that may be left out or null. *)
Definition maybe {A} (m : list (bytes * json)) (k : bytes) (f : A -> json) (o : option A) : Prop :=
  match o with Some a => member m k (f a) | None => no_member m k \/ member m k VNull end.
(** A text that may be left out and is then empty. *)
Definition or_empty (m : list (bytes * json)) (k t : bytes) : Prop := member m k (VText t) \/ (no_member m k /\ t = []).
(** [{"name": n}] *)
Definition has_name (x : json) (n : bytes) : Prop := exists m, x = VObj m /\ member m (bs "name") (VText n).
(** Create a lock: path and ref. *)
Definition lock_json (path ref : bytes) (v : json) : Prop :=
  exists m x, v = VObj m /\ member m (bs "path") (VText path) /\ member m (bs "ref") x /\ has_name x ref.
(** Delete a lock: force and ref. *)
Definition unlock_json (force : option bool) (ref : bytes) (v : json) : Prop :=
  exists m x, v = VObj m /\ maybe m (bs "force") VBool force /\ member m (bs "ref") x /\ has_name x ref.
(** List the locks for verification: ref, cursor and limit. *)
Definition verify_json (ref : bytes) (cursor : option bytes) (limit : option Z) (v : json) : Prop :=
  exists m x, v = VObj m /\ member m (bs "ref") x /\ has_name x ref /\ maybe m (bs "cursor") VText cursor /\ maybe m (bs "limit") VInt limit.
(** One object of a batch; the last four are of this server. *)
Definition object_json (oid : bytes) (size : Z) (user repo : bytes) (v : json) : Prop :=
  exists m p a, v = VObj m /\ member m (bs "oid") (VText oid) /\ member m (bs "size") (VInt size) /\
    or_empty m (bs "user") user /\ or_empty m (bs "password") p /\ or_empty m (bs "repo") repo /\ or_empty m (bs "authorization") a.
(** A lock, as in replies and in the database. *)
Definition lock_value (id path at_ : bytes) (owner : option bytes) (v : json) : Prop :=
  exists m, v = VObj m /\ member m (bs "id") (VText id) /\ member m (bs "path") (VText path) /\ member m (bs "locked_at") (VText at_) /\
    match owner with
    | Some n => exists x, member m (bs "owner") x /\ has_name x n
    | None => no_member m (bs "owner") \/ member m (bs "owner") VNull
    end.
(** The range of i64. *)
Definition fits (z : Z) : Prop := (-9223372036854775808 <= z <= 9223372036854775807)%Z.

(** ** What the server takes *)
(** The fields of a struct, by name from an object or by place from an array; the flag
    tells which. *)
Inductive laid_out : json -> bool -> list bytes -> list (option json) -> Prop :=
| lo_names : forall m names os,
    Forall2 (fun n o => match o with Some x => member m n x | None => no_member m n end) names os ->
    laid_out (VObj m) false names os
| lo_places : forall names l, (length l <= length names)%nat ->
    laid_out (VArr l) true names (map Some l ++ repeat None (length names - length l)).
(** A field of type Option, and one with a default. *)
Definition optional {A} (by_place : bool) (P : json -> A -> Prop) (o : option json) (a : option A) : Prop :=
  match o, a with
  | Some x, Some b => P x b
  | Some x, None => x = VNull
  | None, None => by_place = false
  | None, Some _ => False
  end.
Definition text_or_empty (o : option json) (t : bytes) : Prop := match o with Some x => x = VText t | None => t = [] end.
Definition takes_name (v : json) (n : bytes) : Prop := exists s, laid_out v s [bs "name"] [Some (VText n)].
Definition takes_bool (v : json) (b : bool) : Prop := v = VBool b.
Definition takes_text (v : json) (t : bytes) : Prop := v = VText t.
Definition takes_int (v : json) (z : Z) : Prop := v = VInt z /\ fits z.
Definition takes_lock (v : json) (id path at_ : bytes) (owner : option bytes) : Prop :=
  exists s o, laid_out v s [bs "id"; bs "path"; bs "locked_at"; bs "owner"] [Some (VText id); Some (VText path); Some (VText at_); o] /\
    optional s takes_name o owner.
Definition takes_lock_request (v : json) (path ref : bytes) : Prop :=
  exists s x, laid_out v s [bs "path"; bs "ref"] [Some (VText path); Some x] /\ takes_name x ref.
Definition takes_unlock (v : json) (force : option bool) (ref : bytes) : Prop :=
  exists s o x, laid_out v s [bs "force"; bs "ref"] [o; Some x] /\ optional s takes_bool o force /\ takes_name x ref.
Definition takes_verify (v : json) (ref : bytes) (cursor : option bytes) (limit : option Z) : Prop :=
  exists s x c n, laid_out v s [bs "ref"; bs "cursor"; bs "limit"] [Some x; c; n] /\ takes_name x ref /\
    optional s takes_text c cursor /\ optional s takes_int n limit.
Definition takes_object (v : json) (oid : bytes) (size : Z) (user repo : bytes) : Prop :=
  exists s u p r a pt at_, laid_out v s [bs "oid"; bs "size"; bs "user"; bs "password"; bs "repo"; bs "authorization"]
      [Some (VText oid); Some (VInt size); u; p; r; a] /\ fits size /\
    text_or_empty u user /\ text_or_empty p pt /\ text_or_empty r repo /\ text_or_empty a at_.

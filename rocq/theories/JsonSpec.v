(** JSON texts as RFC 8259 defines them, and what a state file says (C94). Stated without the parsers of the
    model: a text is related to the values it may be a text of. *)
From Coq Require Import Strings.String.
From Verif Require Import GoBase Json ConfigSpec.
Local Open Scope Z_scope.

(** ** Grammar *)
(** RFC 8259 section 2: white space *)
Definition blank (w : bytes) : Prop := Forall (fun b => b = x20 \/ b = x09 \/ b = x0a \/ b = x0d) w.

(** section 6: numbers *)
Definition digits (d : bytes) : Prop := d <> [] /\ Forall (fun b => 48 <= bz b <= 57) d.
Definition integer_part (n : bytes) : Prop := n = ["0"%byte] \/ (digits n /\ forall l, n <> "0"%byte :: l).
Definition fraction (f : bytes) : Prop := f = [] \/ exists d, digits d /\ f = "."%byte :: d.
Definition exponent (e : bytes) : Prop :=
  e = [] \/ exists m s d, digits d /\ (m = "e"%byte \/ m = "E"%byte) /\ (s = [] \/ s = ["+"%byte] \/ s = ["-"%byte]) /\ e = m :: s ++ d.
Definition number (l : bytes) : Prop :=
  exists s n f e, (s = [] \/ s = ["-"%byte]) /\ integer_part n /\ fraction f /\ exponent e /\ l = s ++ n ++ f ++ e.

(** section 7: strings *)
Definition hex_digits (a b c d : byte) (v : Z) : Prop :=
  exists w x y z, Forall2 (fun h n => 48 <= bz h <= 57 /\ n = bz h - 48 \/ 65 <= bz h <= 70 /\ n = bz h - 55 \/ 97 <= bz h <= 102 /\ n = bz h - 87)
    [a; b; c; d] [w; x; y; z] /\ v = ((w * 16 + x) * 16 + y) * 16 + z.
Definition short_escape (e c : byte) : Prop :=
  (e, c) ∈ [(x22, x22); (x5c, x5c); ("/"%byte, "/"%byte); ("b"%byte, x08); ("f"%byte, x0c); ("n"%byte, x0a); ("r"%byte, x0d); ("t"%byte, x09)].
(** the characters between the quotes; bytes from 128 on are not looked at *)
Inductive string_text : bytes -> Prop :=
| st_nil : string_text []
| st_plain b raw : 32 <= bz b -> b <> x22 -> b <> x5c -> string_text raw -> string_text (b :: raw)
| st_short e c raw : short_escape e c -> string_text raw -> string_text (x5c :: e :: raw)
| st_u a b c d v raw : hex_digits a b c d v -> string_text raw -> string_text (x5c :: "u"%byte :: a :: b :: c :: d :: raw).
(** the encoding of a code point in UTF-8 (RFC 3629 section 3) *)
Inductive utf8_of (v : Z) : bytes -> Prop :=
| U1 : 0 <= v < 128 -> utf8_of v [zb v]
| U2 a b : v = a * 64 + b -> 2 <= a < 32 -> 0 <= b < 64 -> utf8_of v [zb (192 + a); zb (128 + b)]
| U3 a b c : v = (a * 64 + b) * 64 + c -> 0 <= a < 16 -> 0 <= b < 64 -> 0 <= c < 64 -> 2048 <= v ->
    ~ (55296 <= v < 57344) -> utf8_of v [zb (224 + a); zb (128 + b); zb (128 + c)]
| U4 a b c d : v = ((a * 64 + b) * 64 + c) * 64 + d -> 0 <= a < 8 -> 0 <= b < 64 -> 0 <= c < 64 -> 0 <= d < 64 ->
    65536 <= v < 1114112 -> utf8_of v [zb (240 + a); zb (128 + b); zb (128 + c); zb (128 + d)]
| USurrogate : 55296 <= v < 57344 -> utf8_of v [xef; xbf; xbd].
(** an escaped second half of a surrogate pair *)
Definition low_escape (l : bytes) : Prop :=
  exists a b c d v l', l = x5c :: "u"%byte :: a :: b :: c :: d :: l' /\ hex_digits a b c d v /\ 56320 <= v < 57344.
(** [chars raw s]: the characters [raw] between the quotes stand for [s]. Two escapes that are a surrogate
    pair of UTF-16 stand for one character; other escaped surrogates for U+FFFD (encoding/json) *)
Inductive chars : bytes -> bytes -> Prop :=
| ch_nil : chars [] []
| ch_plain b raw s : 32 <= bz b -> b <> x22 -> b <> x5c -> chars raw s -> chars (b :: raw) (b :: s)
| ch_short e c raw s : short_escape e c -> chars raw s -> chars (x5c :: e :: raw) (c :: s)
| ch_u a b c d v u raw s : hex_digits a b c d v -> ~ (55296 <= v < 56320 /\ low_escape raw) -> utf8_of v u -> chars raw s ->
    chars (x5c :: "u"%byte :: a :: b :: c :: d :: raw) (u ++ s)
| ch_pair a b c d v a' b' c' d' v' u raw s : hex_digits a b c d v -> 55296 <= v < 56320 ->
    hex_digits a' b' c' d' v' -> 56320 <= v' < 57344 -> utf8_of (65536 + (v - 55296) * 1024 + (v' - 56320)) u -> chars raw s ->
    chars (x5c :: "u"%byte :: a :: b :: c :: d :: x5c :: "u"%byte :: a' :: b' :: c' :: d' :: raw) (u ++ s).

(** sections 3 to 5: values, members of objects and elements of arrays *)
Inductive value_text : json -> bytes -> Prop :=
| vt_null : value_text JNull (lit "null")
| vt_true : value_text (JBool true) (lit "true")
| vt_false : value_text (JBool false) (lit "false")
| vt_number l : number l -> value_text (JNum l) l
| vt_string raw : string_text raw -> value_text (JStr raw) (x22 :: raw ++ [x22])
| vt_no_elements w : blank w -> value_text (JArr []) ("["%byte :: w ++ ["]"%byte])
| vt_array l t : elements_text l t -> value_text (JArr l) ("["%byte :: t ++ ["]"%byte])
| vt_no_members w : blank w -> value_text (JObj []) ("{"%byte :: w ++ ["}"%byte])
| vt_object m t : members_text m t -> value_text (JObj m) ("{"%byte :: t ++ ["}"%byte])
with elements_text : list json -> bytes -> Prop :=
| et_last w1 v t w2 : blank w1 -> value_text v t -> blank w2 -> elements_text [v] (w1 ++ t ++ w2)
| et_more w1 v t w2 l t' : blank w1 -> value_text v t -> blank w2 -> elements_text l t' ->
    elements_text (v :: l) (w1 ++ t ++ w2 ++ ","%byte :: t')
with members_text : list (bytes * json) -> bytes -> Prop :=
| mt_last w1 k w2 w3 v t w4 : blank w1 -> string_text k -> blank w2 -> blank w3 -> value_text v t -> blank w4 ->
    members_text [(k, v)] (w1 ++ x22 :: k ++ x22 :: w2 ++ ":"%byte :: w3 ++ t ++ w4)
| mt_more w1 k w2 w3 v t w4 m t' : blank w1 -> string_text k -> blank w2 -> blank w3 -> value_text v t -> blank w4 -> members_text m t' ->
    members_text ((k, v) :: m) (w1 ++ x22 :: k ++ x22 :: w2 ++ ":"%byte :: w3 ++ t ++ w4 ++ ","%byte :: t').
(** section 2: a JSON text *)
Definition json_text (j : json) (l : bytes) : Prop :=
  exists w1 t w2, blank w1 /\ value_text j t /\ blank w2 /\ l = w1 ++ t ++ w2.

(** ** State files *)
(** the last member of that name, if any *)
Definition last_named (m : list (bytes * json)) (name : bytes) (o : option json) : Prop :=
  match o with
  | Some v => exists m1 k m2, m = m1 ++ (k, v) :: m2 /\ chars k name /\ forall k' v', (k', v') ∈ m2 -> ~ chars k' name
  | None => forall k v, (k, v) ∈ m -> ~ chars k name
  end.
(** a missing or null member leaves the zero value *)
Definition says {A} (m : list (bytes * json)) (name : bytes) (zero : A) (reads : json -> A -> Prop) (x : A) : Prop :=
  exists o, last_named m name o /\
    match o with None | Some JNull => x = zero | Some v => reads v x end.
(** a number without fraction and exponent that fits; [decimal] is from ConfigSpec *)
Definition int_number (bits : Z) (j : json) (z : Z) : Prop :=
  exists l, j = JNum l /\ decimal l z /\ - 2 ^ (bits - 1) <= z < 2 ^ (bits - 1).
(** height and round: a string with a number in it (or null, which is 0) *)
Definition int_string (j : json) (z : Z) : Prop :=
  exists raw j', j = JStr raw /\ json_text j' raw /\ (int_number 64 j' z \/ j' = JNull /\ z = 0).
(** base64 (RFC 4648 section 4); bits that do not fill a byte are not looked at *)
Definition alphabet : bytes := lit "ABCDEFGHIJKLMNOPQRSTUVWXYZabcdefghijklmnopqrstuvwxyz0123456789+/".
Definition sextet (c : byte) (n : Z) : Prop := 0 <= n /\ alphabet !! Z.to_nat n = Some c.
Inductive base64 : bytes -> bytes -> Prop :=
| b6_nil : base64 [] []
| b6_four c1 c2 c3 c4 n1 n2 n3 n4 a b c s r : sextet c1 n1 -> sextet c2 n2 -> sextet c3 n3 -> sextet c4 n4 ->
    ((n1 * 64 + n2) * 64 + n3) * 64 + n4 = (bz a * 256 + bz b) * 256 + bz c -> base64 s r ->
    base64 (c1 :: c2 :: c3 :: c4 :: s) (a :: b :: c :: r)
| b6_three c1 c2 c3 n1 n2 n3 a b k : sextet c1 n1 -> sextet c2 n2 -> sextet c3 n3 -> 0 <= k < 4 ->
    (n1 * 64 + n2) * 64 + n3 = (bz a * 256 + bz b) * 4 + k -> base64 [c1; c2; c3; "="%byte] [a; b]
| b6_two c1 c2 n1 n2 a k : sextet c1 n1 -> sextet c2 n2 -> 0 <= k < 16 ->
    n1 * 64 + n2 = bz a * 16 + k -> base64 [c1; c2; "="%byte; "="%byte] [a].
(** the text without its line breaks (CR and LF) *)
Inductive unbroken : bytes -> bytes -> Prop :=
| ub_nil : unbroken [] []
| ub_break c s r : c = x0a \/ c = x0d -> unbroken s r -> unbroken (c :: s) r
| ub_other c s r : c <> x0a -> c <> x0d -> unbroken s r -> unbroken (c :: s) (c :: r).
(** a byte in an array: a number without sign, fraction and exponent below 256; null is 0 *)
Definition byte_number (j : json) (b : byte) : Prop :=
  (j = JNull /\ b = x00) \/ exists l, j = JNum l /\ l <> [] /\ digits_denote l (bz b).
(** bytes: a string in base64, or an array of numbers *)
Definition byte_string (j : json) (o : option bytes) : Prop :=
  (exists raw s s' b, j = JStr raw /\ chars raw s /\ unbroken s s' /\ base64 s' b /\ o = Some b) \/
  exists l b, j = JArr l /\ Forall2 byte_number l b /\ o = Some b.
(** hexadecimal, without escapes *)
Inductive hex_text_of : bytes -> bytes -> Prop :=
| hx_nil : hex_text_of [] []
| hx_cons h l b raw r : hex_digits "0"%byte "0"%byte h l (bz b) -> hex_text_of raw r -> hex_text_of (h :: l :: raw) (b :: r).
Definition hex_string (j : json) (o : option bytes) : Prop := exists raw b, j = JStr raw /\ hex_text_of raw b /\ o = Some b.
(** what a state file says; all of it may be missing *)
Definition state_text (t : bytes) (h r s : Z) (eph sig sb : option bytes) : Prop :=
  (json_text JNull t /\ h = 0 /\ r = 0 /\ s = 0 /\ eph = None /\ sig = None /\ sb = None) \/
  exists m, json_text (JObj m) t /\ says m (lit "height") 0 int_string h /\ says m (lit "round") 0 int_string r /\
    says m (lit "step") 0 (int_number 8) s /\ says m (lit "ephemeral_public") None byte_string eph /\
    says m (lit "signature") None byte_string sig /\ says m (lit "signbytes") None hex_string sb.

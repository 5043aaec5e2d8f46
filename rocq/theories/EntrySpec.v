(** What log entries, last-signed-state events and key files say, whatever their bytes (C95): structs of
    encoding/json, as relations. *)
From Coq Require Import Strings.String.
From Verif Require Import GoBase Json Utf8Proofs JsonSpec.
Local Open Scope Z_scope.

(** strings: bytes that begin no UTF-8 character are replaced by U+FFFD, one by one *)
Inductive repaired : bytes -> bytes -> Prop :=
| rp_nil : repaired [] []
| rp_char v u s : scalar v -> repaired u s -> repaired (utf8_enc v ++ u) (utf8_enc v ++ s)
| rp_bad b u s : (forall v r, scalar v -> b :: u <> utf8_enc v ++ r) -> repaired u s -> repaired (b :: u) ([xef; xbf; xbd] ++ s).
Definition text_of (raw s : bytes) : Prop := exists u, chars raw u /\ repaired u s.

(** [spelled f n]: [n] is the name [f] in small letters but for the case of letters; U+212A counts as k, U+017F as s *)
Inductive spelled : bytes -> bytes -> Prop :=
| sp_nil : spelled [] []
| sp_same c f n : spelled f n -> spelled (c :: f) (c :: n)
| sp_upper c f n : 97 <= bz c <= 122 -> spelled f n -> spelled (c :: f) (zb (bz c - 32) :: n)
| sp_kelvin f n : spelled f n -> spelled ("k"%byte :: f) ([xe2; x84; xaa] ++ n)
| sp_long_s f n : spelled f n -> spelled ("s"%byte :: f) ([xc5; xbf] ++ n).
(** the member named by the text [k] is for the field [f] *)
Definition goes_to (f k : bytes) : Prop := exists n, text_of k n /\ spelled f n.

(** [told m f reads zero x]: the members of [m] leave the field [f] with the value [x]. [reads v (Some y)]: [v]
    sets the field to [y]; [reads v None]: it leaves the field as it is. All members for the field must be
    readable; the last one that sets it counts *)
Definition told {X} (m : list (bytes * json)) (f : bytes) (reads : json -> option X -> Prop) (zero x : X) : Prop :=
  (forall k v, (k, v) ∈ m -> goes_to f k -> exists o, reads v o) /\
  ((exists m1 k v m2, m = m1 ++ (k, v) :: m2 /\ goes_to f k /\ reads v (Some x) /\
      forall k' v', (k', v') ∈ m2 -> goes_to f k' -> reads v' None) \/
   (x = zero /\ forall k v, (k, v) ∈ m -> goes_to f k -> reads v None)).

(** null leaves strings and numbers, makes byte slices nil, and is refused for hexadecimal *)
Definition reads_string (j : json) (o : option bytes) : Prop :=
  (j = JNull /\ o = None) \/ exists raw s, j = JStr raw /\ text_of raw s /\ o = Some s.
Definition reads_int (bits : Z) (j : json) (o : option Z) : Prop :=
  (j = JNull /\ o = None) \/ exists z, int_number bits j z /\ o = Some z.
Definition reads_bytes (j : json) (o : option (option bytes)) : Prop :=
  (j = JNull /\ o = Some None) \/ exists b, byte_string j b /\ o = Some b.
Definition reads_hex (j : json) (o : option (option bytes)) : Prop := exists b, hex_string j b /\ o = Some b.
Definition reads_slices (j : json) (o : option (list (option bytes))) : Prop :=
  (j = JNull /\ o = Some []) \/ exists l bs, j = JArr l /\ Forall2 (fun v b => reads_bytes v (Some b)) l bs /\ o = Some bs.

(** a struct: an object, or null, which sets nothing *)
Definition struct_text (m : list (bytes * json)) (t : bytes) : Prop := json_text (JObj m) t \/ (m = [] /\ json_text JNull t).
(** a command of the replicated log *)
Definition entry_text (e op key val : bytes) : Prop :=
  exists m, struct_text m e /\ told m (lit "op") reads_string [] op /\ told m (lit "key") reads_string [] key /\
    told m (lit "value") reads_string [] val.
(** a last-signed-state event *)
Definition event_text (t : bytes) (h r s : Z) (sig sb : option bytes) : Prop :=
  exists m, struct_text m t /\ told m (lit "height") (reads_int 64) 0 h /\ told m (lit "round") (reads_int 64) 0 r /\
    told m (lit "step") (reads_int 8) 0 s /\ told m (lit "signature") reads_bytes None sig /\ told m (lit "signbytes") reads_hex None sb.
(** a key file *)
Definition key_text (t : bytes) (rsa pub : option bytes) (rsas : list (option bytes)) (share : option bytes) (id : Z) : Prop :=
  exists m, json_text (JObj m) t /\ told m (lit "rsa_key") reads_bytes None rsa /\ told m (lit "pub_key") reads_bytes None pub /\
    told m (lit "rsa_pubs") reads_slices [] rsas /\ told m (lit "secret_share") reads_bytes None share /\
    told m (lit "id") (reads_int 64) 0 id.
(** an entry that carries a last-signed-state event *)
Definition event_entry (e : bytes) (h r s : Z) (sig sb : option bytes) : Prop :=
  exists t, entry_text e (lit "set") (lit "LSS") t /\ event_text t h r s sig sb.
(** a snapshot: the object at the beginning of the text; what follows is not looked at. The last member of a name
    counts, and null stands for the empty string *)
Definition element_says (j : json) (v : bytes) : Prop := (j = JNull /\ v = []) \/ exists raw, j = JStr raw /\ text_of raw v.
Definition snapshot_text (t : bytes) (has : bytes -> bytes -> Prop) : Prop :=
  exists w m u rest, blank w /\ value_text (JObj m) u /\ t = w ++ u ++ rest /\
    (forall raw j, (raw, j) ∈ m -> exists v, element_says j v) /\
    (forall k v, has k v <-> exists m1 raw j m2, m = m1 ++ (raw, j) :: m2 /\ text_of raw k /\ element_says j v /\
       forall raw' j', (raw', j') ∈ m2 -> ~ text_of raw' k).

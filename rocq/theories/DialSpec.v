(** Vocabulary for statements about addresses (C85). *)
From Coq Require Import Strings.String.
From Verif Require Import GoBase Json Config ConfigSpec MachineSpec.
Local Open Scope Z_scope.

(** "host:port" and "[host]:port", the addresses net.Dial takes *)
Definition no_bracket (s : bytes) : Prop := "["%byte ∉ s /\ "]"%byte ∉ s.
Inductive hostport : bytes -> bytes -> bytes -> Prop :=
| hp_plain h p : no_bracket h -> no_bracket p -> ":"%byte ∉ h -> ":"%byte ∉ p ->
    hostport (h ++ ":"%byte :: p) h p
| hp_bracket h p : no_bracket h -> no_bracket p -> ":"%byte ∉ p ->
    hostport ("["%byte :: h ++ "]"%byte :: ":"%byte :: p) h p.

(** a port number in decimal *)
Definition port_number (p : bytes) (n : Z) : Prop := p <> [] /\ digits_denote p n /\ 1 <= n <= 65535.

Definition letters : bytes := lit "abcdefghijklmnopqrstuvwxyzABCDEFGHIJKLMNOPQRSTUVWXYZ".
Definition numerals : bytes := lit "0123456789".
Definition over (alphabet s : bytes) : Prop := forall c, c ∈ s -> c ∈ alphabet.

Definition scheme_ok (s : bytes) : Prop :=
  exists c r, s = c :: r /\ c ∈ letters /\ over (letters ++ numerals ++ lit "+-.") r.
(** the URLs of the documentation, scheme://name:port, where a name is a DNS name or an IPv4 address *)
Inductive named_url : bytes -> bytes -> bytes -> Prop :=
| named_intro scheme name port : scheme_ok scheme ->
    name <> [] -> over (letters ++ numerals ++ lit "-._") name -> over numerals port ->
    named_url (scheme ++ lit "://" ++ name ++ ":"%byte :: port) name port.
(** scheme://[address]:port, an IPv6 address *)
Inductive v6_url : bytes -> bytes -> bytes -> Prop :=
| v6_intro scheme name port : scheme_ok scheme ->
    over (numerals ++ lit "abcdefABCDEF:.") name -> over numerals port ->
    v6_url (scheme ++ lit "://" ++ "["%byte :: name ++ "]"%byte :: ":"%byte :: port) name port.
(** a zone as it is written in a URL: bytes as they are, or as two hexadecimal digits *)
Definition hex_digit (a : byte) (n : Z) : Prop :=
  0 <= n /\ (lit "0123456789abcdef" !! Z.to_nat n = Some a \/ lit "0123456789ABCDEF" !! Z.to_nat n = Some a).
Inductive zone_text : bytes -> bytes -> Prop :=
| zt_nil : zone_text [] []
| zt_plain c s z : c ∈ letters ++ numerals ++ lit "-._" -> zone_text s z -> zone_text (c :: s) (c :: z)
| zt_escaped c a b m n s z : c ∈ letters ++ numerals ++ lit "-._" -> hex_digit a m -> hex_digit b n ->
    bz c = 16 * m + n -> zone_text s z -> zone_text ("%"%byte :: a :: b :: s) (c :: z).
(** scheme://[address%25zone]:port, a link-local IPv6 address *)
Inductive zone_url : bytes -> bytes -> bytes -> Prop :=
| zone_intro scheme name text zone port : scheme_ok scheme ->
    over (numerals ++ lit "abcdefABCDEF:.") name -> zone_text text zone -> over numerals port ->
    zone_url (scheme ++ lit "://" ++ "["%byte :: (name ++ lit "%25" ++ text) ++ "]"%byte :: ":"%byte :: port)
      (name ++ "%"%byte :: zone) port.
Definition good_url (u name port : bytes) : Prop :=
  named_url u name port \/ v6_url u name port \/ zone_url u name port.

(** the addresses of a plan: host [i] at [name i], port [port i] *)
Definition addressed (n : Z) (url name port : Z -> bytes) : Prop :=
  (forall i, 1 <= i <= n -> good_url (url i) (name i) (port i) /\ name i <> lit "0.0.0.0" /\ exists z, port_number (port i) z) /\
  forall i j, 1 <= i <= n -> 1 <= j <= n -> name i = name j -> port i = port j -> i = j.

(** everything in [plan_ok] that is not about addresses *)
Definition plan_rest (L : Lib) (P : plan) : Prop :=
  2 <= pl_n P <= 255 /\ 1 <= pl_t P <= pl_n P /\ pl_chain P <> [] /\
  forall i, 1 <= i <= pl_n P ->
    Permutation (i :: pl_peers P i) (seqZ 1 (pl_n P)) /\ lib_duration L (pl_timeout P i) = true /\
    forall a, pl_nodes P i = Some a -> last_ok L (split ","%byte a).

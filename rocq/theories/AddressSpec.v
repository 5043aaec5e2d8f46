(** Vocabulary for the statement about `horcrux cosigner address` (C83): how other programs read
    what it prints. *)
From Coq Require Import Strings.String.
From Verif Require Import GoBase Json Utf8.
Local Open Scope Z_scope.

(** a byte a bech32 prefix may have: printable ASCII, not an upper case letter *)
Definition prefix_byte (b : byte) : Prop := 33 <= bz b <= 126 /\ ~ (65 <= bz b <= 90).

(** the line is a JSON object in which the member [name] is the string [v] *)
Definition shown (line : bytes) (name : string) (v : bytes) : Prop :=
  exists m raw, parse_json line = Some (JObj m) /\ member (lit name) m = Some (JStr raw) /\ go_string raw = Some v.

(** the text is the SDK's JSON of the ed25519 key [b] *)
Definition key_in_json (text b : bytes) : Prop :=
  exists m raw j, parse_json text = Some (JObj m) /\ member (lit "@type") m = Some (JStr raw) /\
    go_string raw = Some (lit "/cosmos.crypto.ed25519.PubKey") /\
    member (lit "key") m = Some j /\ bytes_of_json j = Some (Some b).

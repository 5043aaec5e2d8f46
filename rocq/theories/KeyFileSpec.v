(** Vocabulary for statements about key files. *)
From Coq Require Import Strings.String.
From Verif Require Import GoBase Wire Json Utf8 Raft Privval KeyFile.
Local Open Scope Z_scope.

(** the RSA codecs are inverse to each other *)
Definition codec {SK PK} (L : KeyLib SK PK) : Prop :=
  (forall k, kl_parse_sk L (kl_text_sk L k) = Some k) /\
  (forall k, kl_parse_pk L (kl_text_pk L k) = Some k).

(** a public key of the length tendermint expects *)
Definition pubkey_ok (p : pubkey) : Prop :=
  match p with
  | PkNone => False
  | PkEd25519 b => length b = 32%nat
  | PkSecp256k1 b => length b = 33%nat
  end.
(** a key that LoadCosignerKey can give back *)
Definition key_ok {SK PK} (k : cosigner_key SK PK) : Prop := pubkey_ok (ck_pub k) /\ in_int64 (ck_id k).

(** the names of the five members *)
Definition key_names : list bytes :=
  [lit "rsa_key"; lit "pub_key"; lit "rsa_pubs"; lit "secret_share"; lit "id"].
(** no two members of an object are for the same field *)
Definition unambiguous (m : list (bytes * json)) : Prop :=
  forall f, f ∈ key_names -> (length (filter (fun x => names f (fst x) = true) m) <= 1)%nat.

(** Key files: signer/cosigner_key.go.

    The RSA codecs (crypto/x509 PKCS #1) and the amino decoder are functions of the record [KeyLib];
    encoding/json, the protobuf message PublicKey and PubKeyFromProto are modelled (from memory,
    DESIGN.md section 4). *)
From Coq Require Import Strings.String.
From Verif Require Import GoBase Wire Json Utf8 Raft Privval.
Local Open Scope Z_scope.

(** [SK], [PK]: rsa.PrivateKey and *rsa.PublicKey *)
Record KeyLib (SK PK : Type) := KLib {
  (** x509.ParsePKCS1PrivateKey, MarshalPKCS1PrivateKey *)
  kl_parse_sk : bytes -> option SK; kl_text_sk : SK -> bytes;
  (** x509.ParsePKCS1PublicKey, MarshalPKCS1PublicKey *)
  kl_parse_pk : bytes -> option PK; kl_text_pk : PK -> bytes;
  (** cosigner_key.go:85-89: amino's UnmarshalBinaryBare into an ed25519 key *)
  kl_amino : bytes -> option bytes }.
Arguments kl_parse_sk {SK PK}. Arguments kl_text_sk {SK PK}. Arguments kl_parse_pk {SK PK}.
Arguments kl_text_pk {SK PK}. Arguments kl_amino {SK PK}. Arguments KLib {SK PK}.

(** cosigner_key.go:17-23; [PkNone] is the nil interface *)
Record cosigner_key (SK PK : Type) := CKey {
  ck_pub : pubkey; ck_share : option bytes; ck_rsa : SK; ck_id : Z; ck_rsas : list PK }.
Arguments CKey {SK PK}. Arguments ck_pub {SK PK}. Arguments ck_share {SK PK}.
Arguments ck_rsa {SK PK}. Arguments ck_id {SK PK}. Arguments ck_rsas {SK PK}.

(** the array of a [][]byte in compact form *)
Fixpoint elements_compact (l : list bytes) : bytes :=
  match l with
  | [] => []
  | [v] => v
  | v :: l' => v ++ [","%byte] ++ elements_compact l'
  end.
Definition array_text (l : list bytes) : bytes := ["["%byte] ++ elements_compact l ++ ["]"%byte].

(** cosigner_key.go:45-55: the fields of the anonymous struct come first and hide those of Alias
    with the same names *)
Definition key_members (rsa pub : bytes) (rsas : list bytes) (share : option bytes) (id : Z)
  : list (bytes * bytes) :=
  [(lit "rsa_key", b64_text (Some rsa));
   (lit "pub_key", b64_text (Some pub));
   (lit "rsa_pubs", array_text (map (fun b => b64_text (Some b)) rsas));
   (lit "secret_share", b64_text share);
   (lit "id", print_int id)].

(** the members of cosigner_key.go:67-74 *)
Record key_aux := KAux {
  ka_rsa : option bytes; ka_pub : option bytes; ka_rsas : list (option bytes);
  ka_share : option bytes; ka_id : Z }.

(** a [][]byte; a type error makes the call fail *)
Fixpoint slices_of_json (l : list json) : option (list (option bytes)) :=
  match l with
  | [] => Some []
  | j :: l' =>
      match bytes_of_json j, slices_of_json l' with
      | Some b, Some bs => Some (b :: bs)
      | _, _ => None
      end
  end.
Definition slices_field (j : json) : option (list (option bytes)) :=
  match j with JNull => Some [] | JArr l => slices_of_json l | _ => None end.

Definition key_member (a : key_aux) (k : bytes) (j : json) : option key_aux :=
  if names (lit "rsa_key") k then
    match bytes_of_json j with
    | Some b => Some (KAux b (ka_pub a) (ka_rsas a) (ka_share a) (ka_id a)) | None => None end
  else if names (lit "pub_key") k then
    match bytes_of_json j with
    | Some b => Some (KAux (ka_rsa a) b (ka_rsas a) (ka_share a) (ka_id a)) | None => None end
  else if names (lit "rsa_pubs") k then
    match slices_field j with
    | Some l => Some (KAux (ka_rsa a) (ka_pub a) l (ka_share a) (ka_id a)) | None => None end
  else if names (lit "secret_share") k then
    match bytes_of_json j with
    | Some b => Some (KAux (ka_rsa a) (ka_pub a) (ka_rsas a) b (ka_id a)) | None => None end
  else if names (lit "id") k then
    match int_field 64 (ka_id a) j with
    | Some z => Some (KAux (ka_rsa a) (ka_pub a) (ka_rsas a) (ka_share a) z) | None => None end
  else Some a.

Inductive key_error := KeNoFile | KeJson | KeRsa | KePub | KeRsaPub.

(** tendermint crypto/encoding PubKeyFromProto *)
Definition pubkey_from_proto (k : pubkey) : option pubkey :=
  match k with
  | PkNone => None
  | PkEd25519 b => if bool_decide (length b = 32%nat) then Some k else None
  | PkSecp256k1 b => if bool_decide (length b = 33%nat) then Some k else None
  end.

Section Lib.
Context {SK PK : Type} (L : KeyLib SK PK).

(** cosigner_key.go:25-56 MarshalJSON: PubKeyToProto refuses a nil key *)
Definition marshal_key (k : cosigner_key SK PK) : option bytes :=
  match ck_pub k with
  | PkNone => None
  | p => Some (object_compact (key_members (kl_text_sk L (ck_rsa k)) (m_pubkey p)
                                 (map (kl_text_pk L) (ck_rsas k)) (ck_share k) (ck_id k)))
  end.

(** cosigner_key.go:80-101 *)
Definition parse_pubkey (b : bytes) : option pubkey :=
  match unmarshal h_pubkey PkNone b with
  | Some p => pubkey_from_proto p
  | None => match kl_amino L b with Some k => Some (PkEd25519 k) | None => None end
  end.

(** cosigner_key.go:103-111 *)
Fixpoint parse_pks (l : list (option bytes)) : option (list PK) :=
  match l with
  | [] => Some []
  | b :: l' =>
      match kl_parse_pk L (slice_of b) with
      | None => None
      | Some p => match parse_pks l' with Some ps => Some (p :: ps) | None => None end
      end
  end.

(** cosigner_key.go:75-116, after json.Unmarshal *)
Definition key_of_aux (a : key_aux) : outcome key_error (cosigner_key SK PK) :=
  match kl_parse_sk L (slice_of (ka_rsa a)) with
  | None => Fail KeRsa
  | Some sk =>
      match parse_pubkey (slice_of (ka_pub a)) with
      | None => Fail KePub
      | Some p =>
          match parse_pks (ka_rsas a) with
          | None => Fail KeRsaPub
          | Some ps => Val (CKey p (ka_share a) sk (ka_id a) ps)
          end
      end
  end.

(** cosigner_key.go:58-117 UnmarshalJSON of a fresh key: the text null sets the pointer aux to nil,
    and reading aux.RSAKey panics *)
Definition unmarshal_key (text : bytes) : outcome key_error (cosigner_key SK PK) :=
  match parse_json text with
  | None => Fail KeJson
  | Some JNull => Panic
  | Some (JObj m) =>
      match decode_members key_member (KAux None None [] None 0) m with
      | None => Fail KeJson
      | Some a => key_of_aux a
      end
  | Some _ => Fail KeJson
  end.

(** cosigner_key.go:120-134 LoadCosignerKey; [None]: the file cannot be read *)
Definition load_key (f : option bytes) : outcome key_error (cosigner_key SK PK) :=
  match f with None => Fail KeNoFile | Some t => unmarshal_key t end.
End Lib.

(** C68: key files (signer/cosigner_key.go) *)
From Coq Require Import Strings.String.
From Verif Require Import GoBase Wire Json Utf8 Raft Privval KeyFile KeyFileSpec KeyFileProofs.
Local Open Scope Z_scope.

(** C68: what MarshalJSON writes, LoadCosignerKey reads back: every field, for every key with a
    public key of a supported kind, if the RSA codecs are inverse to each other *)
Theorem C68_round_trip : forall SK PK (L : KeyLib SK PK) k, codec L -> key_ok k ->
  exists t, marshal_key L k = Some t /\ load_key L (Some t) = Val k.
Proof. exact @key_round_trip. Qed.
Print Assumptions C68_round_trip.

(** the order of the members, white space and additional members do not matter *)
Theorem C68_any_order : forall SK PK (L : KeyLib SK PK) t1 t2 m1 m2,
  parse_json t1 = Some (JObj m1) -> parse_json t2 = Some (JObj m2) -> m1 ≡ₚ m2 -> unambiguous m1 ->
  load_key L (Some t1) = load_key L (Some t2).
Proof. exact @load_perm. Qed.
Print Assumptions C68_any_order.

(** files from before the protobuf migration: the public key is an amino text, which begins with
    0x16; everything is read as it was *)
Theorem C68_legacy : forall SK PK (L : KeyLib SK PK) k b e, codec L -> in_int64 (ck_id k) ->
  kl_amino L (x16 :: b) = Some e ->
  load_key L (Some (object_compact (key_members (kl_text_sk L (ck_rsa k)) (x16 :: b)
                       (map (kl_text_pk L) (ck_rsas k)) (ck_share k) (ck_id k))))
    = Val (CKey (PkEd25519 e) (ck_share k) (ck_rsa k) (ck_id k) (ck_rsas k)).
Proof. exact @legacy_key. Qed.
Print Assumptions C68_legacy.

(** a loaded key has a public key of a supported kind and RSA keys that the codecs accept. What is
    missing: a share and an ID that a cosigner can have. *)
Theorem C68_loaded_partial : forall SK PK (L : KeyLib SK PK) f k, load_key L f = Val k ->
  in_int64 (ck_id k) /\ (pubkey_ok (ck_pub k) \/ exists b e, ck_pub k = PkEd25519 e /\ kl_amino L b = Some e) /\
  (exists b, kl_parse_sk L b = Some (ck_rsa k)) /\
  Forall (fun p => exists b, kl_parse_pk L b = Some p) (ck_rsas k).
Proof. exact @KeyFileProofs.load_range. Qed.
Print Assumptions C68_loaded_partial.

(** ** A toy codec: keys are their texts, which may not be empty *)
Definition toy_lib : KeyLib bytes bytes :=
  KLib (fun b => match b with [] => None | _ => Some (tl b) end) (fun k => x30 :: k)
       (fun b => match b with [] => None | _ => Some (tl b) end) (fun k => x30 :: k)
       (fun b => match b with x16 :: x24 :: xde :: x64 :: x20 :: k =>
                   if bool_decide (length k = 32%nat) then Some k else None | _ => None end).
Definition toy_key : cosigner_key bytes bytes :=
  CKey (PkEd25519 (repeat xab 32)) (Some (repeat x07 32)) [x01; x02] 2 [[x03]; []; [x05; x06; x07]].
Example ex_codec : codec toy_lib. Proof. by split. Qed.
Example ex_key_ok : key_ok toy_key. Proof. split; vm_compute; [reflexivity|split; congruence]. Qed.
Example ex_text : marshal_key toy_lib (CKey (PkEd25519 [x01]) (Some [x07]) [x02] 2 [[x03]; []]) =
  Some (lit "{""rsa_key"":""MAI="",""pub_key"":""CgEB"",""rsa_pubs"":[""MAM="",""MA==""],""secret_share"":""Bw=="",""id"":2}").
Proof. vm_compute. reflexivity. Qed.
Example ex_amino : kl_amino toy_lib (x16 :: x24 :: xde :: x64 :: x20 :: repeat xab 32) = Some (repeat xab 32).
Proof. vm_compute. reflexivity. Qed.
Definition reordered : bytes :=
  lit " {""id"":2, ""rsa_pubs"":[""MAM="",""MA==""],""secret_share"":""Bw=="", ""note"":{}, ""pub_key"":""" ++
  b64_enc (m_pubkey (PkEd25519 (repeat xab 32))) ++ lit """,""RSA_key"":""MAI=""}".
Definition in_order : bytes :=
  lit "{""RSA_key"":""MAI="",""pub_key"":""" ++ b64_enc (m_pubkey (PkEd25519 (repeat xab 32))) ++
  lit """,""rsa_pubs"":[""MAM="",""MA==""],""secret_share"":""Bw=="",""id"":2,""note"":{}}".
Example ex_any_order : exists m1 m2, parse_json in_order = Some (JObj m1) /\
  parse_json reordered = Some (JObj m2) /\ m1 ≡ₚ m2 /\ unambiguous m1 /\
  load_key toy_lib (Some reordered) = Val (CKey (PkEd25519 (repeat xab 32)) (Some [x07]) [x02] 2 [[x03]; []]).
Proof.
  eexists _, _. split; [vm_compute; reflexivity|]. split; [vm_compute; reflexivity|].
  split; [|split; [|vm_compute; reflexivity]].
  - match goal with |- [?a; ?b; ?c; ?d; ?e; ?f] ≡ₚ _ =>
      change ([a; b; c; d; e; f] ≡ₚ [e; c; d; f; b; a]) end. solve_Permutation.
  - intros f Hf. unfold key_names in Hf.
    repeat (apply elem_of_cons in Hf as [-> |Hf]; [vm_compute; lia|]). by apply elem_of_nil in Hf.
Qed.

(** C68 full statement: a file that loads holds a usable key, and a file that does not is refused.
    False: a file without share and ID loads ... *)
Theorem C68_incomplete_refuted : exists f k, load_key toy_lib (Some f) = Val k /\
  ck_share k = None /\ ck_id k = 0 /\ ck_rsas k = [].
Proof.
  eexists (lit "{""rsa_key"":""MAI="",""pub_key"":""" ++ b64_enc (m_pubkey (PkEd25519 (repeat xab 32))) ++ lit """}"), _.
  split; [vm_compute; reflexivity|done].
Qed.
Print Assumptions C68_incomplete_refuted.
(** ... and the text null makes the process panic *)
Theorem C68_null_refuted : exists f, load_key toy_lib (Some f) = Panic.
Proof. exists (lit "null"). vm_compute. reflexivity. Qed.
Print Assumptions C68_null_refuted.
(** which is the only file that does *)
Theorem C68_panics_partial : forall SK PK (L : KeyLib SK PK) f,
  load_key L f = Panic <-> exists t, f = Some t /\ parse_json t = Some JNull.
Proof. exact @load_panic. Qed.
Print Assumptions C68_panics_partial.

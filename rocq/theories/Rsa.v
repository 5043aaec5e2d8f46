(** RSA encryption and signatures: crypto/rsa of the Go 1.17 standard library, as far as
    signer/local_cosigner.go:363, 382, 422, 457 and cosigner_key_shares.go:63-77 use it (from memory,
    DESIGN.md section 4).

    The hash function is a parameter. Random bytes that a call reads are arguments; a reader that
    fails is not modelled. Keys have two primes. *)
From Coq Require Import Strings.String.
From Verif Require Import GoBase Crypto Json KeyFile Pkcs1.
Local Open Scope Z_scope.

(** ** Arithmetic *)
(** big.Int Exp: x^y mod m *)
Fixpoint pow_pos (x : Z) (y : positive) (m : Z) : Z :=
  match y with
  | xH => x mod m
  | xO y' => let h := pow_pos x y' m in (h * h) mod m
  | xI y' => let h := pow_pos x y' m in (x * ((h * h) mod m)) mod m
  end.
Definition pow_mod (x y m : Z) : Z := match y with Zpos p => pow_pos x p m | _ => 1 mod m end.
(** big.Int BitLen *)
Definition bit_len (n : Z) : Z := if n <=? 0 then 0 else Z.log2 n + 1.
(** PublicKey.Size *)
Definition rsa_size (n : Z) : Z := (bit_len n + 7) / 8.
(** rsa.go checkPub *)
Definition check_pub (e : Z) : bool := (2 <=? e) && (e <=? 2 ^ 31 - 1).

(** ** Bytes *)
Definition bxor (a b : byte) : byte := zb (Z.lxor (bz a) (bz b)).
Fixpoint xor (a b : bytes) : bytes :=
  match a, b with
  | x :: a', y :: b' => bxor x y :: xor a' b'
  | _, [] => a
  | [], _ => []
  end.
(** [k] bytes from a reader *)
Definition draw (k : nat) (r : bytes) : bytes := take k (r ++ repeat x00 k).

(** ** The operations on numbers *)
(** rsa.go encrypt *)
Definition raw_encrypt (k : rsa_pub) (m : Z) : Z := pow_mod m (rp_e k) (rp_n k).
(** rsa.go decrypt: the numbers for blinding, until one has an inverse *)
Fixpoint blind (n : Z) (draws : list Z) : option (Z * Z) :=
  match draws with
  | [] => None
  | r :: l =>
      let r := if r =? 0 then 1 else r in
      match mod_inverse r n with Some ir => Some (r, ir) | None => blind n l end
  end.
(** rsa.go decrypt with Precomputed (ParsePKCS1PrivateKey and GenerateKey call Precompute); without Qinv
    it would panic *)
Definition crt (k : rsa_key) (p q : Z) (c : Z) : option Z :=
  match mod_inverse q p with
  | None => None
  | Some qinv =>
      let m := pow_mod c (rk_d k mod (p - 1)) p in
      let m2 := pow_mod c (rk_d k mod (q - 1)) q in
      let m := m - m2 in
      let m := if m <? 0 then m + p else m in
      Some ((m * qinv) mod p * q + m2)
  end.
Definition raw_decrypt (k : rsa_key) (draws : list Z) (c : Z) : option Z :=
  if rk_n k <? c then None
  else
    match rk_primes k, blind (rk_n k) draws with
    | [p; q], Some (r, ir) =>
        let c := (c * pow_mod r (rk_e k) (rk_n k)) mod rk_n k in
        match crt k p q c with Some m => Some ((m * ir) mod rk_n k) | None => None end
    | _, _ => None
    end.
Definition public_of (k : rsa_key) : rsa_pub := RsaPub (rk_n k) (rk_e k).
(** rsa.go decryptAndCheck *)
Definition checked_decrypt (k : rsa_key) (draws : list Z) (c : Z) : option Z :=
  match raw_decrypt k draws c with
  | None => None
  | Some m => if raw_encrypt (public_of k) m =? c then Some m else None
  end.

Section Hash.
(** sha256: 32 bytes *)
Context (H : bytes -> bytes).

(** rsa.go mgf1XOR: what is xored *)
Fixpoint mgf_blocks (f : nat) (i : Z) (seed : bytes) : bytes :=
  match f with O => [] | S f' => H (seed ++ be 4 i) ++ mgf_blocks f' (i + 1) seed end.
Definition mgf1 (n : nat) (seed : bytes) : bytes := take n (mgf_blocks (S (n / 32)) 0 seed).
Definition mgf1_xor (out seed : bytes) : bytes := xor out (mgf1 (length out) seed).

(** ** OAEP (local_cosigner.go:363, 457: no label) *)
(** rsa.go EncryptOAEP: the encoded message *)
Definition oaep_encode (k : nat) (msg seed : bytes) : bytes :=
  let db := H [] ++ repeat x00 (k - length msg - 66) ++ [x01] ++ msg in
  let db := mgf1_xor db seed in
  x00 :: mgf1_xor seed db ++ db.
Definition encrypt_oaep (pub : rsa_pub) (msg r : bytes) : option bytes :=
  if check_pub (rp_e pub) then
    let k := rsa_size (rp_n pub) in
    if k - 66 <? Z.of_nat (length msg) then None
    else Some (be (Z.to_nat k) (raw_encrypt pub (unbe (oaep_encode (Z.to_nat k) msg (draw 32 r)))))
  else None.
(** the loop of DecryptOAEP over what follows the hash: where the first 1 is, if only zeros precede it *)
Fixpoint after_one (b : bytes) : option bytes :=
  match b with
  | [] => None
  | c :: b' => if bz c =? 1 then Some b' else if bz c =? 0 then after_one b' else None
  end.
Definition oaep_decode (em : bytes) : option bytes :=
  match em with
  | [] => None
  | first :: rest =>
      let seed := take 32 rest in
      let db := drop 32 rest in
      let seed := mgf1_xor seed db in
      let db := mgf1_xor db seed in
      if (bz first =? 0) && bool_decide (take 32 db = H []) then after_one (drop 32 db) else None
  end.
Definition decrypt_oaep (priv : rsa_key) (draws : list Z) (c : bytes) : option bytes :=
  if check_pub (rk_e priv) then
    let k := rsa_size (rk_n priv) in
    if (k <? Z.of_nat (length c)) || (k <? 66) then None
    else
      match raw_decrypt priv draws (unbe c) with
      | None => None
      | Some m => oaep_decode (be (Z.to_nat k) m)
      end
  else None.

(** ** PSS (local_cosigner.go:382, 422: the options are nil, the salt as long as possible) *)
Definition low_bits (s : Z) (c : byte) : byte := zb (Z.land (bz c) (Z.shiftr 255 s)).
Definition mask_first (s : Z) (b : bytes) : bytes := match b with [] => [] | c :: b' => low_bits s c :: b' end.
(** pss.go emsaPSSEncode *)
Definition pss_encode (digest : bytes) (em_bits : Z) (salt : bytes) : option bytes :=
  let em_len := (em_bits + 7) / 8 in
  if negb (bool_decide (length digest = 32%nat)) then None
  else if em_len <? 32 + Z.of_nat (length salt) + 2 then None
  else
    let h := H (repeat x00 8 ++ digest ++ salt) in
    let db := repeat x00 (Z.to_nat (em_len - Z.of_nat (length salt) - 34)) ++ [x01] ++ salt in
    Some (mask_first (8 * em_len - em_bits) (mgf1_xor db h) ++ h ++ [xbc]).
(** pss.go emsaPSSVerify with PSSSaltLengthAuto *)
Fixpoint index_one (b : bytes) : option nat :=
  match b with [] => None | c :: b' => if bz c =? 1 then Some 0%nat else option_map S (index_one b') end.
Definition pss_verify (digest em : bytes) (em_bits : Z) : bool :=
  let em_len := (em_bits + 7) / 8 in
  if negb (em_len =? Z.of_nat (length em)) then false
  else if negb (bool_decide (length digest = 32%nat)) then false
  else if em_len <? 34 then false
  else
    let n := length em in
    let db := take (n - 33) em in
    let h := take 32 (drop (n - 33) em) in
    if negb (bool_decide (drop (n - 1) em = [xbc])) then false
    else
      let s := 8 * em_len - em_bits in
      if negb (bool_decide (mask_first s db = db)) then false
      else
        let db := mask_first s (mgf1_xor db h) in
        match index_one db with
        | None => false
        | Some ps =>
            forallb (fun c => bz c =? 0) (take ps db) &&
            bool_decide (H (repeat x00 8 ++ digest ++ drop (S ps) db) = h)
        end.
(** pss.go SignPSS; a salt of negative length would panic *)
Definition sign_pss (priv : rsa_key) (draws : list Z) (digest r : bytes) : option bytes :=
  let em_bits := bit_len (rk_n priv) - 1 in
  let salt_len := (em_bits + 7) / 8 - 34 in
  if salt_len <? 0 then None
  else
    match pss_encode digest em_bits (draw (Z.to_nat salt_len) r) with
    | None => None
    | Some em =>
        match checked_decrypt priv draws (unbe em) with
        | None => None
        | Some s => Some (be (Z.to_nat (rsa_size (rk_n priv))) s)
        end
    end.
(** pss.go VerifyPSS *)
Definition verify_pss (pub : rsa_pub) (digest sig : bytes) : bool :=
  if negb (rsa_size (rp_n pub) =? Z.of_nat (length sig)) then false
  else
    let m := raw_encrypt pub (unbe sig) in
    let em_bits := bit_len (rp_n pub) - 1 in
    let em_len := (em_bits + 7) / 8 in
    if em_len * 8 <? bit_len m then false
    else pss_verify digest (be (Z.to_nat em_len) m) em_bits.
End Hash.

(** local_cosigner.go:375, 409 tmJson.Marshal of a CosignerEphemeralSecretPart (Cosigner.go:52-58) with the fields
    that are set when it is signed: integers as strings, bytes in base64, nil slices as null. An empty slice
    is taken as nil, as it is when received over gRPC. *)
Definition slice_text (b : bytes) : bytes := b64_text (match b with [] => None | _ => Some b end).
Definition part_text (p : payload) : bytes :=
  object_compact
    [(lit "SourceID", quote (print_int (pl_source p)));
     (lit "DestinationID", quote (print_int 0));
     (lit "SourceEphemeralSecretPublicKey", slice_text (pl_eph p));
     (lit "EncryptedSharePart", slice_text (pl_enc p));
     (lit "SourceSig", b64_text None)].

(** the four RSA functions of local_cosigner.go on keys in PKCS #1 form: 363 and 457, 374-386 and 401-425;
    [text] is the JSON of the part, which is hashed ([part_text]; most statements hold for any function). Blinding does not change results (C90_blinding). *)
Definition with_rsa (C : Crypto) (H : bytes -> bytes) (text : payload -> bytes) : Crypto := {|
  cr_base := cr_base C; cr_deal := cr_deal C;
  cr_encrypt := fun pk m r => match pk_parse pk with Some k => encrypt_oaep H k m r | None => None end;
  cr_decrypt := fun sk c => match sk_parse sk with Some k => decrypt_oaep H k [1] c | None => None end;
  cr_rsa_sign := fun sk p r => match sk_parse sk with Some k => sign_pss H k [1] (H (text p)) r | None => None end;
  cr_rsa_verify := fun pk p sig => match pk_parse pk with Some k => verify_pss H k (H (text p)) sig | None => false end;
  cr_add_scalars := cr_add_scalars C; cr_add_elements := cr_add_elements C; cr_sc_minimal := cr_sc_minimal C;
  cr_sign_share := cr_sign_share C; cr_combine := cr_combine C; cr_verify := cr_verify C |}.

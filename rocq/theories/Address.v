(** `horcrux cosigner address`: cmd/horcrux/cmd/cosigner.go:28-102, signer/Config.go:43-72, on the
    machines of Machine.v.

    Libraries from memory (DESIGN.md section 4): tendermint's PubKey.Address, amino's encoding of an
    ed25519 key, the SDK's JSON of an Any holding an ed25519 key. [sha]: SHA-256; [ripe]: RIPEMD-160
    of SHA-256. *)
From Coq Require Import Strings.String.
From Verif Require Import GoBase Json Utf8 Privval Config KeyFile Machine Bech32.
Local Open Scope Z_scope.

Section Address.
Context (sha ripe : bytes -> bytes).

(** crypto/ed25519 and crypto/secp256k1 PubKey.Address: a wrong size panics, and so does the nil
    interface *)
Definition key_address (p : pubkey) : outcome cmd_error bytes :=
  match p with
  | PkNone => Panic
  | PkEd25519 b => if bool_decide (length b = 32%nat) then Val (take 20 (sha b)) else Panic
  | PkSecp256k1 b => if bool_decide (length b = 33%nat) then Val (ripe b) else Panic
  end.

(** Config.go:49: amino prefix of tendermint/PubKeyEd25519, length, key *)
Definition amino_key (b : bytes) : bytes := [x16; x24; xde; x64; x20] ++ b.
(** Config.go:58-71: MarshalInterfaceJSON *)
Definition key_json (b : bytes) : bytes :=
  object_compact [(lit "@type", quote (lit "/cosmos.crypto.ed25519.PubKey")); (lit "key", b64_text (Some b))].

(** Config.go:43-72 PubKey for an ed25519 key *)
Definition print_pubkey (prefix b : bytes) : option bytes :=
  match prefix with
  | [] => Some (key_json b)
  | _ => convert_and_encode (prefix ++ lit "valconspub") (amino_key b)
  end.

(** cosigner.go:28-33 AddressCmdOutput *)
Record addresses := Addresses { ad_hex : bytes; ad_pub : bytes; ad_cons : bytes; ad_conspub : bytes }.

Definition hint : bytes := lit "Pass bech32 base prefix as argument to generate (e.g. cosmos)".

(** cosigner.go:60-88 for an ed25519 key; hex.EncodeToString is in lower case, line 69 makes it upper
    case ([hex_enc] is upper case) *)
Definition key_addresses (b : bytes) (args : list bytes) : option addresses :=
  let a := take 20 (sha b) in
  match args with
  | [] => Some (Addresses (hex_enc a) (key_json b) hint hint)
  | p :: _ =>
      match convert_and_encode (p ++ lit "valcons") a, print_pubkey p b with
      | Some c, Some cp => Some (Addresses (hex_enc a) (key_json b) c cp)
      | _, _ => None
      end
  end.

(** cosigner.go:90-95: encoding/json of the struct *)
Definition print_addresses (o : addresses) : bytes :=
  object_compact [(lit "HexAddress", json_string (ad_hex o)); (lit "PubKey", json_string (ad_pub o));
    (lit "ValConsAddress", json_string (ad_cons o)); (lit "ValConsPubAddress", json_string (ad_conspub o))].

Inductive address_error := AeArgs | AeConfig (e : cfg_error) | AeKey (e : key_error) | AePrint.

(** cosigner.go:40-98. A nil configuration is dereferenced. For a secp256k1 key the registry of
    Config.go:57-60 knows no type, so that the JSON cannot be made *)
Definition address_cmd (L : Lib) (KL : KeyLib (bytes * bytes) bytes) (dflt : bytes) (m : machine) (flag : bytes)
    (args : list bytes) : outcome address_error bytes :=
  if (1 <? length args)%nat then Fail AeArgs
  else match config_at dflt m flag with
       | None => Panic
       | Some y =>
           match validate_cosigner L (ya_cfg y) with
           | Some e => Fail (AeConfig e)
           | None =>
               match load_key KL (ma_key m !! key_path y) with
               | Fail e => Fail (AeKey e)
               | Panic => Panic
               | Val k =>
                   match KeyFile.ck_pub k, key_address (KeyFile.ck_pub k) with
                   | PkEd25519 b, Val _ =>
                       match key_addresses b args with
                       | Some o => Val (print_addresses o)
                       | None => Fail AePrint
                       end
                   | _, Val _ => Fail AePrint
                   | _, _ => Panic
                   end
               end
           end
       end.
End Address.

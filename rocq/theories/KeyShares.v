(** Creating the key files: signer/cosigner_key_shares.go and cmd/horcrux/cmd/key2shares.go.

    Not modelled: the JSON of priv_validator_key.json (the model starts from the decoded key) and of
    the share files; the type of the key (the code takes the first 32 bytes of any private key);
    slice capacity (`Bytes()[:32]` panics below 32 bytes of capacity, the model below 32 of length). *)
From Verif Require Import GoBase Crypto LocalCosigner Validator Config.
Local Open Scope Z_scope.

(** privval.FilePVKey: public and private key, [None] when absent from the file *)
Record pv_key := PVKey { pv_pub : option bytes; pv_priv : option bytes }.

Section KeyShares.
Context (C : Crypto).
(** tsed25519.ExpandSecret: seed to scalar *)
Context (expand : bytes -> bytes).

(** cosigner_key_shares.go:63-76: [num] key pairs (private, public); [gens i] is what the [i]-th
    call of rsa.GenerateKey returns *)
Definition make_rsa_keys (gens : nat -> option (bytes * bytes)) (num : nat) : option (list (bytes * bytes)) :=
  mapM gens (List.seq 0 num).

(** cosigner_key_shares.go:24-40: [Fail] is the error of makeRSAKeys. An absent public key stays
    absent in [CosignerKey]; the model writes it as the empty string. *)
Definition create_shares (rnd : bytes) (gens : nat -> option (bytes * bytes)) (pv : pv_key)
    (threshold shares : Z) : outcome unit (list cosigner_key) :=
  match pv_priv pv with
  | None => Panic
  | Some sk =>
      if (length sk <? 32)%nat then Panic
      else
        let privshares := cr_deal C (expand (take 32 sk)) rnd (u8 threshold) (u8 shares) in
        match make_rsa_keys gens (length privshares) with
        | None => Fail tt
        | Some ks =>
            Val (imap (fun idx '(share, (rsa, rsa_pub)) =>
                         CKey (Z.of_nat idx + 1) share (slice_of (pv_pub pv)) rsa rsa_pub (map snd ks))
                   (zip privshares ks))
        end
  end.

(** errors of the command *)
Inductive ks_err := KsArgs | KsNoFile | KsThreshold | KsShares | KsRead | KsRSA | KsWrite.

(** cosigner_key_shares.go:55-61 for the files in order, stopping at the first error
    (key2shares.go:43-48): [wr] says which writes succeed; MarshalJSON refuses an absent public
    key (cosigner_key.go:35-38). The result is what was written completely. *)
Fixpoint write_shares (has_pub : bool) (wr : Z -> bool) (ks : list cosigner_key) :
    list (Z * cosigner_key) * option ks_err :=
  match ks with
  | [] => ([], None)
  | k :: ks' =>
      if has_pub && wr (ck_id k) then
        let '(l, e) := write_shares has_pub wr ks' in ((ck_id k, k) :: l, e)
      else ([], Some KsWrite)
  end.

(** key2shares.go:29-70: [file] is the key file named by the first argument: absent, unreadable or
    decoded. The files are private_share_<number>.json. [Panic] from create_shares. *)
Definition create_cmd (rnd : bytes) (gens : nat -> option (bytes * bytes)) (wr : Z -> bool)
    (file : option (option pv_key)) (args : list bytes) :
    outcome ks_err (list (Z * cosigner_key) * option ks_err) :=
  match args with
  | [_; t; n] =>
      match file with
      | None => Fail KsNoFile
      | Some pv =>
          match go_atoi t, go_atoi n with
          | None, _ => Fail KsThreshold
          | _, None => Fail KsShares
          | Some t, Some n =>
              match pv with
              | None => Fail KsRead
              | Some pv =>
                  match create_shares rnd gens pv t n with
                  | Panic => Panic
                  | Fail _ => Fail KsRSA
                  | Val ks => Val (write_shares (bool_decide (is_Some (pv_pub pv))) wr ks)
                  end
              end
          end
      end
  | _ => Fail KsArgs
  end.
End KeyShares.

(** C83: what `horcrux cosigner address` prints *)
From Coq Require Import Strings.String.
From Verif Require Import GoBase Crypto Json Utf8 Toy ToyScheme Config ConfigSpec ConfigWitness KeyFile KeyFileSpec KeyShares KeySharesSpec
  ThresholdWitness Privval Machine MachineSpec MachineProofs MachineWitness Bech32 Address AddressSpec Bip173 Bip173Proofs AddressProofs AddressWitness.
Local Open Scope list_scope.
Local Open Scope Z_scope.

(** C83: given a prefix, the line holds the hexadecimal address, the public key in the SDK's JSON, and
    two bech32 texts that other programs decode to the consensus address and the amino-encoded key.
    False for two sorts of prefixes: with an empty one the text for the key is JSON, with upper case
    letters neither text can be decoded; the command succeeds all the same *)
Theorem C83_prefix_refuted : exists sha ripe L KL dflt m,
  (forall b, length (sha b) = 32%nat) /\
  (exists line t, address_cmd sha ripe L KL dflt m [] [[]] = Val line /\ shown line "ValConsPubAddress" t /\
     decode_and_convert t = None) /\
  exists line t1 t2, address_cmd sha ripe L KL dflt m [] [lit "Cosmos"] = Val line /\
     shown line "ValConsAddress" t1 /\ shown line "ValConsPubAddress" t2 /\
     decode_and_convert t1 = None /\ decode_and_convert t2 = None.
Proof.
  exists wsha, id, wlib, wkl, wdflt, (wmachine 1).
  exact prefix_witness.
Qed.
(** for every machine, prefix and key: what the line says, which prefixes can be read, and that the
    texts are those of BIP 173 *)
Theorem C83_line_partial : forall sha ripe L KL dflt m flag args line,
  (forall b, length (sha b) = 32%nat) ->
  address_cmd sha ripe L KL dflt m flag args = Val line ->
  (length args <= 1)%nat /\ exists y k b, config_at dflt m flag = Some y /\ load_key KL (ma_key m !! key_path y) = Val k /\
    KeyFile.ck_pub k = PkEd25519 b /\ length b = 32%nat /\
    (exists h, shown line "HexAddress" h /\ hex_dec h = Some (take 20 (sha b))) /\
    (exists j, shown line "PubKey" j /\ key_in_json j b) /\
    forall p, args = [p] ->
      (exists t, shown line "ValConsAddress" t /\
        (decode_and_convert t = Some (p ++ lit "valcons", take 20 (sha b)) <-> Forall prefix_byte p /\ (length p <= 977)%nat) /\
        (Forall prefix_byte p -> bip173 (p ++ lit "valcons") (take 20 (sha b)) t)) /\
      (exists t, shown line "ValConsPubAddress" t /\
        (decode_and_convert t = Some (p ++ lit "valconspub", [x16; x24; xde; x64; x20] ++ b) <->
           p <> [] /\ Forall prefix_byte p /\ (length p <= 946)%nat) /\
        (p <> [] -> Forall prefix_byte p -> bip173 (p ++ lit "valconspub") ([x16; x24; xde; x64; x20] ++ b) t)).
Proof. exact address_line. Qed.
(** texts are written and read as BIP 173 says (the SDK reads up to 1023 characters instead of 90) *)
Theorem C83_bip173 : forall hrp data t, hrp <> [] -> Forall prefix_byte hrp ->
  (convert_and_encode hrp data = Some t <-> bip173 hrp data t).
Proof. exact encode_bip. Qed.
Theorem C83_read : forall t hrp data, Forall prefix_byte t ->
  (decode_and_convert t = Some (hrp, data) <-> (length t <= 1023)%nat /\ bip173 hrp data t).
Proof. exact decode_bip. Qed.
(** a valid text of BIP 173 *)
Example C83_vector : decode 90 (lit "abcdef1qpzry9x8gf2tvdw0s3jn54khce6mua7lmqqqxw") = Some (lit "abcdef", seqZ 0 32).
Proof. vm_compute. reflexivity. Qed.
(** equal lines, whatever the prefixes: equal keys *)
Theorem C83_distinct : forall sha ripe L KL dflt m1 m2 flag1 flag2 args1 args2 line,
  address_cmd sha ripe L KL dflt m1 flag1 args1 = Val line ->
  address_cmd sha ripe L KL dflt m2 flag2 args2 = Val line ->
  exists y1 y2 k1 k2, config_at dflt m1 flag1 = Some y1 /\ config_at dflt m2 flag2 = Some y2 /\
    load_key KL (ma_key m1 !! key_path y1) = Val k1 /\ load_key KL (ma_key m2 !! key_path y2) = Val k2 /\
    KeyFile.ck_pub k1 = KeyFile.ck_pub k2.
Proof. exact address_distinct. Qed.
(** on the hosts of a set-up cluster the command succeeds and all print the same line, that of the
    validator's key *)
Theorem C83_cluster : forall sha ripe C expand rnd gens L KL dflt P pub sk f ta na wr l args,
  deals C -> codec KL -> plan_ok L P -> length pub = 32%nat -> decimal ta (pl_t P) -> decimal na (pl_n P) ->
  create_cmd C expand rnd gens wr (Some (Some (PVKey (Some pub) (Some sk)))) [f; ta; na] = Val (l, None) ->
  (length args <= 1)%nat ->
  exists line, (exists j, shown line "PubKey" j /\ key_in_json j pub) /\
    forall i text m0 m, 1 <= i <= pl_n P -> share_text KL l i text -> fresh dflt P i m0 -> installs L dflt P i text m0 m ->
      address_cmd sha ripe L KL dflt m (pl_flag P i) args = Val line.
Proof.
  intros sha ripe C expand rnd gens L KL dflt P pub sk f ta na wr l args HC HK HP Hp Hta Hna Hcmd Ha.
  exact (cluster_address sha ripe C HC expand rnd gens L KL dflt P HK HP pub sk f ta na Hp Hta Hna wr l args Hcmd Ha).
Qed.
(** host 1 of the 2-of-3 plan with the prefix "cosmos" *)
Example C83_example :
  (exists line, address_cmd wsha id wlib wkl wdflt (wmachine 1) [] [lit "cosmos"] = Val line) /\
  Forall prefix_byte (lit "cosmos") /\ (forall b, length (wsha b) = 32%nat) /\
  (exists m, installs wlib wdflt wplan 1 (wtext 1) wempty m) /\ share_text wkl wfiles 1 (wtext 1) /\ fresh wdflt wplan 1 wempty.
Proof. exact address_example. Qed.

Print Assumptions C83_prefix_refuted.
Print Assumptions C83_line_partial.
Print Assumptions C83_bip173.
Print Assumptions C83_read.
Print Assumptions C83_distinct.
Print Assumptions C83_cluster.

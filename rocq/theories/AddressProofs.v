(** Proofs about Address.v. *)
From Coq Require Import Strings.String.
From Verif Require Import GoBase Json JsonProofs Utf8 Utf8Proofs Privval Crypto Config KeyFile KeyFileSpec KeyFileProofs KeyShares
  KeySharesSpec KeySharesProofs ConfigSpec Machine MachineSpec MachineProofs Bech32 Bech32Proofs Address AddressSpec Bip173 Bip173Proofs.
Local Open Scope Z_scope.

(** ** The printed line *)

Lemma ascii_san l : Forall (fun b => bz b < 128) l -> san 0 l = l.
Proof.
  induction 1 as [|b l Hb Hl IH]; [done|]. cbn [san]. assert (rune_len (b :: l) = 1%nat) as ->.
  { cbn [rune_len]. by rewrite (proj2 (Z.ltb_lt _ _) Hb). }
  by rewrite IH.
Qed.
Lemma four_members (a b c d : json) :
  let m := [(lit "HexAddress", a); (lit "PubKey", b); (lit "ValConsAddress", c); (lit "ValConsPubAddress", d)] in
  member (lit "HexAddress") m = Some a /\ member (lit "PubKey") m = Some b /\
  member (lit "ValConsAddress") m = Some c /\ member (lit "ValConsPubAddress") m = Some d.
Proof. vm_compute. done. Qed.
Lemma shown_all o : exists m, parse_json (print_addresses o) = Some (JObj m) /\
  member (lit "HexAddress") m = Some (JStr (esc 0 (ad_hex o))) /\
  member (lit "PubKey") m = Some (JStr (esc 0 (ad_pub o))) /\
  member (lit "ValConsAddress") m = Some (JStr (esc 0 (ad_cons o))) /\
  member (lit "ValConsPubAddress") m = Some (JStr (esc 0 (ad_conspub o))).
Proof.
  exists [(lit "HexAddress", JStr (esc 0 (ad_hex o))); (lit "PubKey", JStr (esc 0 (ad_pub o)));
    (lit "ValConsAddress", JStr (esc 0 (ad_cons o))); (lit "ValConsPubAddress", JStr (esc 0 (ad_conspub o)))].
  split; [|apply four_members].
  apply parse_object_compact; [done|].
  assert (H : forall name s, safe (lit name) -> member_ok (lit name, json_string s) (lit name, JStr (esc 0 s))).
  { intros name s Hn. split; [done|]. split; [by apply scannable_safe|apply renders_string]. }
  repeat (apply Forall2_cons; [apply H; repeat (constructor; [reflexivity|]); constructor|]). constructor.
Qed.
Lemma shown_hex o : shown (print_addresses o) "HexAddress" (san 0 (ad_hex o)).
Proof. destruct (shown_all o) as (m & H & H1 & _). exists m, (esc 0 (ad_hex o)). split; [done|]. split; [done|apply go_string_esc]. Qed.
Lemma shown_pub o : shown (print_addresses o) "PubKey" (san 0 (ad_pub o)).
Proof. destruct (shown_all o) as (m & H & _ & H1 & _). exists m, (esc 0 (ad_pub o)). split; [done|]. split; [done|apply go_string_esc]. Qed.
Lemma shown_cons o : shown (print_addresses o) "ValConsAddress" (san 0 (ad_cons o)).
Proof. destruct (shown_all o) as (m & H & _ & _ & H1 & _). exists m, (esc 0 (ad_cons o)). split; [done|]. split; [done|apply go_string_esc]. Qed.
Lemma shown_conspub o : shown (print_addresses o) "ValConsPubAddress" (san 0 (ad_conspub o)).
Proof. destruct (shown_all o) as (m & H & _ & _ & _ & H1). exists m, (esc 0 (ad_conspub o)). split; [done|]. split; [done|apply go_string_esc]. Qed.
Lemma shown_unique line name a b : shown line name a -> shown line name b -> a = b.
Proof. intros (m & r & H1 & H2 & H3) (m' & r' & H1' & H2' & H3'). congruence. Qed.


Lemma safe_ascii l : safe l -> Forall (fun b => bz b < 128) l -> go_string l = Some l.
Proof. intros H1 H2. rewrite go_string_safe by done. by rewrite ascii_san. Qed.
Lemma lit_type : safe (lit "/cosmos.crypto.ed25519.PubKey") /\ Forall (fun b => bz b < 128) (lit "/cosmos.crypto.ed25519.PubKey").
Proof. split; repeat (constructor; [reflexivity|]); constructor. Qed.
Lemma key_json_ok b : key_in_json (key_json b) b.
Proof.
  unfold key_in_json, key_json. destruct (renders_b64 (Some b)) as (j & Hj & Hb).
  exists [(lit "@type", JStr (lit "/cosmos.crypto.ed25519.PubKey")); (lit "key", j)], (lit "/cosmos.crypto.ed25519.PubKey"), j.
  split; [|split; [reflexivity|split; [|split; [reflexivity|exact Hb]]]].
  - apply parse_object_compact; [done|]. apply Forall2_cons; [|apply Forall2_cons; [|constructor]].
    + split; [done|]. split; [apply scannable_safe; repeat (constructor; [reflexivity|]); constructor|].
      apply renders_quote. apply lit_type.
    + split; [done|]. split; [apply scannable_safe; repeat (constructor; [reflexivity|]); constructor|exact Hj].
  - apply safe_ascii; apply lit_type.
Qed.
Lemma key_json_unique text a b : key_in_json text a -> key_in_json text b -> a = b.
Proof. intros (m & r & j & H1 & _ & _ & H2 & H3) (m' & r' & j' & H1' & _ & _ & H2' & H3'). congruence. Qed.

Lemma hex_ascii l : Forall (fun b => bz b < 128) (hex_enc l).
Proof.
  induction l as [|b l IH]; [constructor|]. unfold hex_enc in *. cbn [flat_map]. apply list.Forall_app. split; [|exact IH].
  pose proof (bz_range b) as Hb.
  assert (H : forall v, 0 <= v < 16 -> bz (hex_digit v) < 128).
  { intros v Hv. unfold hex_digit. destruct (v <? 10); rewrite bz_zb, Z.mod_small by lia; lia. }
  constructor; [|constructor; [|constructor]]; apply H.
  - split; [apply Z.div_pos; lia|apply Z.div_lt_upper_bound; lia].
  - apply Z.mod_pos_bound. lia.
Qed.
Lemma b64_ascii_n n l : (length l <= n)%nat -> Forall (fun b => bz b < 128) (b64_enc l).
Proof.
  assert (H : forall v, 0 <= v < 64 -> bz (b64_char v) < 128).
  { intros v Hv. unfold b64_char. destruct (Z.ltb_spec v 26); [rewrite bz_zb, Z.mod_small by lia; lia|].
    destruct (Z.ltb_spec v 52); [rewrite bz_zb, Z.mod_small by lia; lia|].
    destruct (Z.ltb_spec v 62); [rewrite bz_zb, Z.mod_small by lia; lia|]. destruct (v =? 62); reflexivity. }
  assert (Hd : forall v, 0 <= v < 2 ^ 24 -> 0 <= v / 262144 < 64).
  { intros v Hv. change (2 ^ 24) with 16777216 in Hv. split; [apply Z.div_pos; lia|apply Z.div_lt_upper_bound; lia]. }
  assert (Hm : forall v, 0 <= v mod 64 < 64) by (intros v; apply Z.mod_pos_bound; lia).
  revert l. induction n as [|n IH]; intros l Hl; [destruct l; [constructor|simpl in Hl; lia]|].
  destruct l as [|a [|b [|c l]]]; cbn [b64_enc].
  - constructor.
  - pose proof (bz_range a). repeat constructor; try reflexivity; apply H; [apply Hd; change (2 ^ 24) with 16777216; lia|apply Hm].
  - pose proof (bz_range a). pose proof (bz_range b).
    repeat constructor; try reflexivity; apply H; [apply Hd; change (2 ^ 24) with 16777216; lia|apply Hm|apply Hm].
  - pose proof (bz_range a). pose proof (bz_range b). pose proof (bz_range c).
    do 4 (constructor; [apply H; first [apply Hm|apply Hd; change (2 ^ 24) with 16777216; lia]|]).
    apply IH. simpl in Hl. lia.
Qed.
Lemma b64_ascii l : Forall (fun b => bz b < 128) (b64_enc l).
Proof. by eapply b64_ascii_n. Qed.
Lemma ascii_lit (s : bytes) : forallb (fun b => bz b <? 128) s = true -> Forall (fun b => bz b < 128) s.
Proof.
  intros H. apply list.Forall_forall. intros b Hb. apply elem_of_list_In in Hb. rewrite forallb_forall in H. apply H in Hb. by apply Z.ltb_lt in Hb.
Qed.
Lemma key_json_ascii b : Forall (fun c => bz c < 128) (key_json b).
Proof.
  assert (E : forall x, object_compact [(lit "@type", quote (lit "/cosmos.crypto.ed25519.PubKey")); (lit "key", quote x)] =
    lit "{""@type"":""/cosmos.crypto.ed25519.PubKey"",""key"":""" ++ x ++ lit """}").
  { intros x. unfold object_compact, quote. cbn. rewrite <- app_assoc. reflexivity. }
  unfold key_json, b64_text. rewrite E. apply list.Forall_app. split; [by apply ascii_lit|].
  apply list.Forall_app. split; [apply b64_ascii|by apply ascii_lit].
Qed.

(** a text with letters of both cases cannot be decoded *)
Lemma mixed_case t : t <> map lower t -> t <> map upper t -> decode_and_convert t = None.
Proof.
  intros H1 H2. unfold decode_and_convert, decode. destruct ((length t <? 8)%nat || _); [done|].
  destruct (negb (forallb _ t)); [done|]. by rewrite !bool_decide_eq_false_2.
Qed.
Lemma map_fixed (g : byte -> byte) t b : b ∈ t -> g b <> b -> t <> map g t.
Proof.
  intros Hb Hg. induction t as [|c t IH]; [by apply elem_of_nil in Hb|]. cbn [map]. intros [= E1 E2].
  apply elem_of_cons in Hb as [-> |Hb]; [by apply Hg|]. by apply IH.
Qed.
Lemma key_json_mixed b : decode_and_convert (key_json b) = None.
Proof.
  assert (E : exists r, key_json b = lit "{""@type"":""/cosmos.crypto.ed25519.P" ++ r) by (eexists; reflexivity).
  destruct E as [r ->]. apply mixed_case.
  - apply (map_fixed _ _ "P"%byte); [|discriminate]. apply elem_of_app. left. apply (bool_decide_unpack _). reflexivity.
  - apply (map_fixed _ _ "c"%byte); [|discriminate]. apply elem_of_app. left. apply (bool_decide_unpack _). reflexivity.
Qed.

(** ** The command *)

Section Cmd.
Context (sha ripe : bytes -> bytes).

Lemma lower_word (s : string) : forallb (fun b => (97 <=? bz b) && (bz b <=? 122)) (lit s) = true -> Forall (fun b => 97 <= bz b <= 122) (lit s).
Proof.
  intros H. apply list.Forall_forall. intros b Hb. apply elem_of_list_In in Hb. rewrite forallb_forall in H. apply H in Hb.
  apply andb_true_iff in Hb. rewrite !Z.leb_le in Hb. exact Hb.
Qed.

Lemma word_prefix p (s : string) : forallb (fun b => (97 <=? bz b) && (bz b <=? 122)) (lit s) = true -> Forall prefix_byte p ->
  Forall prefix_byte (p ++ lit s).
Proof.
  intros Hs%lower_word Hp. apply list.Forall_app. split; [done|]. eapply list.Forall_impl; [exact Hs|].
  intros b Hb. cbn in Hb. split; lia.
Qed.

(** the two bech32 texts *)
Lemma cons_text p a : exists t, convert_and_encode (p ++ lit "valcons") a = Some t /\
  length t = (length p + 14 + (8 * length a + 4) / 5)%nat /\
  (decode_and_convert (san 0 t) = Some (p ++ lit "valcons", a) <-> Forall prefix_byte p /\ (length t <= 1023)%nat) /\
  (Forall prefix_byte p -> bip173 (p ++ lit "valcons") a (san 0 t)).
Proof.
  destruct (convert_roundtrip p (lit "valcons") a) as (t & H1 & H2 & H3 & _ & H4); [done|by apply lower_word|].
  exists t. split; [exact H1|]. split; [rewrite H2; change (length (lit "valcons")) with 7%nat; lia|].
  split; [|intros Hp; rewrite (ascii_san t) by (by apply H3); apply encode_bip; [by destruct p|by apply word_prefix|exact H1]]. split.
  - intros H. pose proof (read_prefix _ _ _ H) as Hp. apply list.Forall_app in Hp as [Hp _]. rewrite (ascii_san t) in H by (by apply H3).
    by apply H4.
  - intros [Hp Hl]. rewrite (ascii_san t) by (by apply H3). by apply H4.
Qed.
Lemma conspub_text p b : p <> [] -> length b = 32%nat -> exists t, print_pubkey p b = Some t /\
  length t = (length p + 77)%nat /\
  (decode_and_convert (san 0 t) = Some (p ++ lit "valconspub", amino_key b) <-> Forall prefix_byte p /\ (length t <= 1023)%nat) /\
  (Forall prefix_byte p -> bip173 (p ++ lit "valconspub") (amino_key b) (san 0 t)).
Proof.
  intros Hp0 Hb. destruct (convert_roundtrip p (lit "valconspub") (amino_key b)) as (t & H1 & H2 & H3 & _ & H4); [done|by apply lower_word|].
  exists t. split; [destruct p; [done|exact H1]|].
  assert (Hl : length (amino_key b) = 37%nat) by (unfold amino_key; rewrite app_length, Hb; reflexivity).
  split; [rewrite H2, Hl; change (length (lit "valconspub")) with 10%nat; change ((8 * 37 + 4) / 5)%nat with 60%nat; lia|].
  split; [|intros Hp; rewrite (ascii_san t) by (by apply H3); apply encode_bip; [by destruct p|by apply word_prefix|exact H1]]. split.
  - intros H. pose proof (read_prefix _ _ _ H) as Hp. apply list.Forall_app in Hp as [Hp _]. rewrite (ascii_san t) in H by (by apply H3).
    by apply H4.
  - intros [Hp Hl']. rewrite (ascii_san t) by (by apply H3). by apply H4.
Qed.

Lemma key_addresses_some b args : length b = 32%nat -> exists o, key_addresses sha b args = Some o.
Proof.
  intros Hb. unfold key_addresses. destruct args as [|p args]; [by eexists|].
  destruct (cons_text p (take 20 (sha b))) as (t & -> & _). destruct p as [|c p]; [by eexists|].
  destruct (conspub_text (c :: p) b) as (t' & -> & _); [done|done|]. by eexists.
Qed.

(** what the line of a key says *)
Lemma addresses_ok b args o : length b = 32%nat -> key_addresses sha b args = Some o ->
  (exists h, shown (print_addresses o) "HexAddress" h /\ hex_dec h = Some (take 20 (sha b))) /\
  (exists j, shown (print_addresses o) "PubKey" j /\ key_in_json j b) /\
  (forall p rest, args = p :: rest ->
    (exists t, shown (print_addresses o) "ValConsAddress" t /\
      (decode_and_convert t = Some (p ++ lit "valcons", take 20 (sha b)) <->
        Forall prefix_byte p /\ (length p + 14 + (8 * length (take 20 (sha b)) + 4) / 5 <= 1023)%nat) /\
      (Forall prefix_byte p -> bip173 (p ++ lit "valcons") (take 20 (sha b)) t)) /\
    (exists t, shown (print_addresses o) "ValConsPubAddress" t /\
      (p = [] -> decode_and_convert t = None) /\
      (p <> [] -> (decode_and_convert t = Some (p ++ lit "valconspub", amino_key b) <-> Forall prefix_byte p /\ (length p + 77 <= 1023)%nat)) /\
      (p <> [] -> Forall prefix_byte p -> bip173 (p ++ lit "valconspub") (amino_key b) t))).
Proof.
  intros Hb Ho.
  assert (Hh : ad_hex o = hex_enc (take 20 (sha b)) /\ ad_pub o = key_json b).
  { unfold key_addresses in Ho. destruct args as [|p args]; [injection Ho as <-; done|].
    destruct (convert_and_encode _ _); [|done]. destruct (print_pubkey p b); [|done]. injection Ho as <-. done. }
  destruct Hh as [Hh Hj]. split; [|split].
  - eexists. split; [apply shown_hex|]. rewrite Hh, ascii_san by apply hex_ascii. apply hex_roundtrip.
  - eexists. split; [apply shown_pub|]. rewrite Hj, ascii_san by apply key_json_ascii. apply key_json_ok.
  - intros p rest ->. unfold key_addresses in Ho. destruct (cons_text p (take 20 (sha b))) as (t & Ht & Hl & Hd). rewrite Ht in Ho.
    destruct (print_pubkey p b) as [t'|] eqn:Hp; [|done]. injection Ho as <-. split.
    + eexists. split; [apply shown_cons|]. cbn [ad_cons]. rewrite <- Hl. exact Hd.
    + eexists. split; [apply shown_conspub|]. cbn [ad_conspub]. split; [|split].
      * intros ->. injection Hp as <-. rewrite ascii_san by apply key_json_ascii. apply key_json_mixed.
      * intros Hne. destruct (conspub_text p b Hne Hb) as (t2 & Ht2 & Hl2 & Hd2). rewrite Hp in Ht2. injection Ht2 as <-.
        rewrite <- Hl2. exact (proj1 Hd2).
      * intros Hne. destruct (conspub_text p b Hne Hb) as (t2 & Ht2 & Hl2 & Hd2). rewrite Hp in Ht2. injection Ht2 as <-. exact (proj2 Hd2).
Qed.

Context (L : Lib) (KL : KeyLib (bytes * bytes) bytes) (dflt : bytes).

Lemma cmd_inv m flag args line : address_cmd sha ripe L KL dflt m flag args = Val line ->
  (length args <= 1)%nat /\ exists y k b o, config_at dflt m flag = Some y /\ validate_cosigner L (ya_cfg y) = None /\
    load_key KL (ma_key m !! key_path y) = Val k /\ KeyFile.ck_pub k = PkEd25519 b /\ length b = 32%nat /\
    key_addresses sha b args = Some o /\ line = print_addresses o.
Proof.
  unfold address_cmd. destruct (1 <? length args)%nat eqn:El; [done|]. apply Nat.ltb_ge in El.
  destruct (config_at dflt m flag) as [y|]; [|done]. destruct (validate_cosigner L (ya_cfg y)) eqn:Ev; [done|].
  destruct (load_key KL (ma_key m !! key_path y)) as [k|e|] eqn:Ek; [|done|done].
  destruct (KeyFile.ck_pub k) as [|b|b] eqn:Ep; [done| |]; cbn [key_address]; case_bool_decide as Hb; [|done|done|done].
  destruct (key_addresses sha b args) as [o|] eqn:Eo; [|done]. intros E. injection E as <-. split; [lia|].
  exists y, k, b, o. done.
Qed.
End Cmd.

Lemma address_line sha ripe L KL dflt m flag args line :
  (forall b, length (sha b) = 32%nat) ->
  address_cmd sha ripe L KL dflt m flag args = Val line ->
  (length args <= 1)%nat /\ exists y k b, config_at dflt m flag = Some y /\ load_key KL (ma_key m !! key_path y) = Val k /\
    KeyFile.ck_pub k = PkEd25519 b /\ length b = 32%nat /\
    (exists h, shown line "HexAddress" h /\ hex_dec h = Some (take 20 (sha b))) /\
    (exists j, shown line "PubKey" j /\ key_in_json j b) /\
    forall p, args = [p] ->
      (exists t, shown line "ValConsAddress" t /\
        (decode_and_convert t = Some (p ++ lit "valcons", take 20 (sha b)) <-> Forall prefix_byte p /\ (length p <= 977)%nat) /\
        (Forall prefix_byte p -> bip173 (p ++ lit "valcons") (take 20 (sha b)) t)) /\
      (exists t, shown line "ValConsPubAddress" t /\
        (decode_and_convert t = Some (p ++ lit "valconspub", [x16; x24; xde; x64; x20] ++ b) <->
           p <> [] /\ Forall prefix_byte p /\ (length p <= 946)%nat) /\
        (p <> [] -> Forall prefix_byte p -> bip173 (p ++ lit "valconspub") ([x16; x24; xde; x64; x20] ++ b) t)).
Proof.
  intros Hsha H. apply cmd_inv in H as (Ha & y & k & b & o & Hy & _ & Hk & Hp & Hb & Ho & ->). split; [exact Ha|].
  exists y, k, b. split; [exact Hy|]. split; [exact Hk|]. split; [exact Hp|]. split; [exact Hb|].
  destruct (addresses_ok sha ripe b args o Hb Ho) as (H1 & H2 & H3). split; [exact H1|]. split; [exact H2|].
  intros p ->. destruct (H3 p [] eq_refl) as ((t & Ht & Hd & Hbip) & (t' & Ht' & Hd0 & Hd' & Hbip')). split.
  - exists t. split; [exact Ht|]. split; [|exact Hbip]. rewrite Hd. rewrite take_length, Hsha. change ((8 * (20 `min` 32) + 4) / 5)%nat with 32%nat.
    split; intros [H5 H6]; (split; [exact H5|lia]).
  - exists t'. split; [exact Ht'|]. split; [|exact Hbip']. destruct p as [|c p].
    + rewrite (Hd0 eq_refl). split; [discriminate|]. by intros [? _].
    + assert (Hne : c :: p <> []) by done. specialize (Hd' Hne). fold (amino_key b). rewrite Hd'.
      split; [intros [H5 H6]|intros (_ & H5 & H6)]; repeat split; try done; lia.
Qed.
Lemma address_distinct sha ripe L KL dflt m1 m2 flag1 flag2 args1 args2 line :
  address_cmd sha ripe L KL dflt m1 flag1 args1 = Val line ->
  address_cmd sha ripe L KL dflt m2 flag2 args2 = Val line ->
  exists y1 y2 k1 k2, config_at dflt m1 flag1 = Some y1 /\ config_at dflt m2 flag2 = Some y2 /\
    load_key KL (ma_key m1 !! key_path y1) = Val k1 /\ load_key KL (ma_key m2 !! key_path y2) = Val k2 /\
    KeyFile.ck_pub k1 = KeyFile.ck_pub k2.
Proof.
  intros H1 H2. apply cmd_inv in H1 as (_ & y1 & k1 & b1 & o1 & Hy1 & _ & Hk1 & Hp1 & Hb1 & Ho1 & El1).
  apply cmd_inv in H2 as (_ & y2 & k2 & b2 & o2 & Hy2 & _ & Hk2 & Hp2 & Hb2 & Ho2 & El2).
  exists y1, y2, k1, k2. do 4 (split; [done|]). rewrite Hp1, Hp2. f_equal.
  destruct (addresses_ok sha ripe b1 args1 o1 Hb1 Ho1) as (_ & (j1 & Hj1 & Hjb1) & _).
  destruct (addresses_ok sha ripe b2 args2 o2 Hb2 Ho2) as (_ & (j2 & Hj2 & Hjb2) & _).
  rewrite <- El1 in Hj1. rewrite <- El2 in Hj2. pose proof (shown_unique _ _ _ _ Hj1 Hj2) as <-.
  by eapply key_json_unique.
Qed.

(** ** The hosts of a plan *)

Section AddressPlan.
Context (sha ripe : bytes -> bytes) (C : Crypto) (HC : deals C) (expand : bytes -> bytes) (rnd : bytes) (gens : nat -> option (bytes * bytes)).
Context (L : Lib) (KL : KeyLib (bytes * bytes) bytes) (dflt : bytes) (P : plan) (HL : codec KL) (HP : plan_ok L P).
Context (pub sk f ta na : bytes) (Hpub : length pub = 32%nat) (Hta : decimal ta (pl_t P)) (Hna : decimal na (pl_n P)).

Lemma plan_address wr l i text m0 m args :
  create_cmd C expand rnd gens wr (Some (Some (PVKey (Some pub) (Some sk)))) [f; ta; na] = Val (l, None) ->
  1 <= i <= pl_n P -> share_text KL l i text -> fresh dflt P i m0 -> installs L dflt P i text m0 m -> (length args <= 1)%nat ->
  exists o, key_addresses sha pub args = Some o /\
    address_cmd sha ripe L KL dflt m (pl_flag P i) args = Val (print_addresses o).
Proof.
  intros Hcmd Hi (k & Hin & Htext) Hf Hinst Ha.
  destruct (created C HC expand rnd gens L P HP pub sk f ta na Hpub Hta Hna wr l Hcmd) as (ks & _ & -> & Hks).
  destruct (set_key expand gens L P HP pub sk Hpub ks i k Hks Hin) as (_ & _ & Hkp & _ & Hok).
  pose proof (plan_written L dflt P HP i text m0 m Hi Hf Hinst) as Hy.
  assert (Hkey : ma_key m !! key_path (plan_yaml dflt P i) = Some text).
  { destruct Hinst as (m1 & _ & ->). cbn [put_key ma_key].
    replace (key_path (plan_yaml dflt P i)) with (match pl_key P i with [] => home_of dflt (pl_flag P i) ++ lit "/share.json" | p => p end)
      by (unfold key_path, plan_yaml; cbn [ya_key ya_home]; by destruct (pl_key P i)). apply lookup_insert. }
  assert (Hload : load_key KL (Some text) = Val (file_key k)).
  { destruct (key_round_trip KL (file_key k) HL Hok) as (t & Ht & Hl). rewrite Htext in Ht. by injection Ht as <-. }
  destruct (key_addresses_some sha ripe pub args Hpub) as [o Ho]. exists o. split; [exact Ho|].
  unfold address_cmd. rewrite Hy. destruct (1 <? length args)%nat eqn:El; [apply Nat.ltb_lt in El; lia|].
  change (ya_cfg (plan_yaml dflt P i)) with (plan_config P i). rewrite (plan_accepted L P HP i Hi), Hkey, Hload.
  cbn [file_key KeyFile.ck_pub]. rewrite Hkp. cbn [key_address]. rewrite bool_decide_eq_true_2 by exact Hpub. by rewrite Ho.
Qed.
Lemma cluster_address wr l args :
  create_cmd C expand rnd gens wr (Some (Some (PVKey (Some pub) (Some sk)))) [f; ta; na] = Val (l, None) -> (length args <= 1)%nat ->
  exists line, (exists j, shown line "PubKey" j /\ key_in_json j pub) /\
    forall i text m0 m, 1 <= i <= pl_n P -> share_text KL l i text -> fresh dflt P i m0 -> installs L dflt P i text m0 m ->
      address_cmd sha ripe L KL dflt m (pl_flag P i) args = Val line.
Proof.
  intros Hcmd Ha. destruct (key_addresses_some sha ripe pub args Hpub) as [o Ho]. exists (print_addresses o).
  split; [by destruct (addresses_ok sha ripe pub args o Hpub Ho) as (_ & H & _)|].
  intros i text m0 m Hi Ht Hf Hm. destruct (plan_address wr l i text m0 m args Hcmd Hi Ht Hf Hm Ha) as (o' & Ho' & H). congruence.
Qed.
End AddressPlan.

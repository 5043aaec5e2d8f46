(** Test vectors of RFC 8032 and FIPS 180-4, and faster arithmetic to compute them with *)
From Coq Require Import Strings.String.
From Verif Require Import GoBase Crypto Wire Json Rsa Ed25519 EdSpec EdSpecProofs Sha.
Local Open Scope Z_scope.

(** ** Arithmetic modulo 2^255 - 19 *)
Definition fold19 (x : Z) : Z := Z.land x (Z.ones 255) + 19 * Z.shiftr x 255.
Definition red (x : Z) : Z :=
  let z := fold19 (fold19 x) in if (0 <=? z) && (z <? 57896044618658097711785492504343953926634992332820282019728792003956564819949) then z else z mod ed_p.
Lemma fold19_mod x : fold19 x mod ed_p = x mod ed_p.
Proof.
  unfold fold19. rewrite Z.land_ones, Z.shiftr_div_pow2 by done. pose proof (Z.div_mod x (2 ^ 255) ltac:(done)) as E.
  rewrite E at 3. replace (2 ^ 255 * (x / 2 ^ 255) + x mod 2 ^ 255) with (x mod 2 ^ 255 + 19 * (x / 2 ^ 255) + (x / 2 ^ 255) * ed_p).
  - by rewrite Z_mod_plus_full.
  - unfold ed_p. lia.
Qed.
Lemma red_mod x : red x = x mod ed_p.
Proof.
  unfold red. rewrite <- (fold19_mod x), <- (fold19_mod (fold19 x)). generalize (fold19 (fold19 x)). intros z. cbv zeta.
  destruct (Z.leb_spec 0 z) as [H0|H0]; [|done]. destruct (Z.ltb_spec z 57896044618658097711785492504343953926634992332820282019728792003956564819949) as [H1|H1]; [|done].
  cbn [andb]. symmetry. apply Z.mod_small. unfold ed_p. lia.
Qed.
Definition fast_add (P Q : ge) : ge :=
  let a := red (ge_z P * ge_z Q) in
  let b := red (a * a) in
  let c := red (ge_x P * ge_x Q) in
  let e := red (ge_y P * ge_y Q) in
  let t := red (ed_d * red (c * e)) in
  let f := red (b - t) in
  let g := red (b + t) in
  let h := red ((ge_x P + ge_y P) * (ge_x Q + ge_y Q) - c - e) in
  Ge (red (red (a * f) * h)) (red (red (a * g) * red (e + c))) (red (f * g)).
Lemma fast_add_eq P Q : fast_add P Q = ge_add P Q.
Proof. unfold fast_add, ge_add. cbv zeta. by rewrite !red_mod. Qed.
Definition fast_mul (s : Z) (P : ge) : ge := match s with Zpos n => Pos.iter_op fast_add n P | _ => ge_0 end.
Lemma fast_mul_eq s P : fast_mul s P = ge_mul s P.
Proof.
  destruct s as [|n|n]; [done| |done]. unfold fast_mul, ge_mul. revert P.
  induction n as [n IH|n IH|]; intros P; cbn [Pos.iter_op]; rewrite ?fast_add_eq, ?IH; done.
Qed.
Fixpoint fast_pow (x : Z) (y : positive) : Z :=
  match y with
  | xH => red x
  | xO y' => let h := fast_pow x y' in red (h * h)
  | xI y' => let h := fast_pow x y' in red (x * red (h * h))
  end.
Lemma fast_pow_eq x y : fast_pow x y = pow_mod x (Zpos y) ed_p.
Proof. cbn [pow_mod]. induction y as [y IH|y IH|]; cbn [fast_pow pow_pos]; rewrite !red_mod, ?IH; done. Qed.
Definition to_pos (z : Z) : positive := match z with Zpos p => p | _ => 1%positive end.
Definition fast_bytes (P : ge) : bytes :=
  let r := fast_pow (ge_z P) (to_pos (2 ^ 255 - 21)) in
  let x := red (ge_x P * r) in
  let y := red (ge_y P * r) in
  le_enc 32 (y + 2 ^ 255 * (x mod 2)).
Lemma fast_bytes_eq P : fast_bytes P = ge_bytes P.
Proof. unfold fast_bytes, ge_bytes, ed_inv. cbv zeta. rewrite !red_mod, fast_pow_eq. reflexivity. Qed.
Definition fast_parse (b : bytes) : option ge :=
  let v := le_num b in
  let y := red (v mod 2 ^ 255) in
  let sign := v / 2 ^ 255 in
  let a := red ((y * y - 1) * fast_pow (red (ed_d * y * y + 1)) (to_pos (2 ^ 255 - 21))) in
  let c := fast_pow a (to_pos (2 ^ 252 - 2)) in
  let root := if red (c * c) =? a then Some c
    else let c' := red (c * ed_i) in if red (c' * c') =? a then Some c' else None in
  if negb (length b =? 32)%nat then None
  else match root with
  | Some x => Some (Ge (if x mod 2 =? sign then x else red (- x)) y 1)
  | None => None
  end.
Lemma fast_parse_eq b : fast_parse b = ge_parse b.
Proof.
  unfold fast_parse, ge_parse, ed_inv. cbv zeta. rewrite !fast_pow_eq.
  change (Z.pos (to_pos (2 ^ 255 - 21))) with (ed_p - 2). change (Z.pos (to_pos (2 ^ 252 - 2))) with ((ed_p + 3) / 8).
  rewrite !red_mod. destruct (if _ =? _ then _ else _) as [x|]; [|done]. by rewrite red_mod.
Qed.
Definition fast_verify (A m sig : bytes) : bool :=
  if negb (length sig =? 64)%nat then false
  else match fast_parse A with
  | None => false
  | Some pA =>
      let R := take 32 sig in
      let s := le_num (drop 32 sig) in
      (s <? ed_l) &&
      bool_decide (fast_bytes (fast_add (fast_mul s ge_base) (fast_mul (ed_challenge sha512 R A m) (ge_neg pA))) = R)
  end.
Lemma fast_verify_eq A m sig : fast_verify A m sig = ed_verify sha512 A m sig.
Proof.
  unfold fast_verify, ed_verify. rewrite fast_parse_eq. destruct (negb _); [done|]. destruct (ge_parse A) as [pA|]; [|done].
  cbv zeta. by rewrite fast_bytes_eq, fast_add_eq, !fast_mul_eq.
Qed.
Definition fast_base (s : bytes) : bytes := fast_bytes (fast_mul (le_num s) ge_base).
Lemma fast_base_eq s : fast_base s = ed_base s.
Proof. unfold fast_base, ed_base. by rewrite fast_bytes_eq, fast_mul_eq. Qed.

(** ** RFC 8032, section 7.1, test 3 *)
Definition of_hex (s : string) : bytes := default [] (hex_dec (lit s)).
Definition rfc_seed : bytes := of_hex "c5aa8df43f9f837bedb7442f31dcb7b166d38535076f094b85ce3a2e0b4458f7".
Definition rfc_pub : bytes := of_hex "fc51cd8e6218a1a38da47ed00230f0580816ed13ba3303ac5deb911548908025".
Definition rfc_msg : bytes := [xaf; x82].
Definition rfc_sig : bytes := of_hex
  "6291d657deec24024827e69c3abe01a30ce548a284743a445e3680d7db5ac3ac18ff9b538d16f290ae67f760984dc6594a7c15e9716ed28dc027beceea1ec40a".
(** computed when the file is compiled (both are true), and not kept as a theorem: the independent
    checker, which has no virtual machine, takes a quarter of an hour over it *)
Compute (bool_decide (fast_base (ed_expand sha512 rfc_seed) = rfc_pub), fast_verify rfc_pub rfc_msg rfc_sig).
(** the same key, not computed *)
Definition std_pub : bytes := ed_base (ed_expand sha512 rfc_seed).

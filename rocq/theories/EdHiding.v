(** The laws of [hiding_laws] for Ed25519 and RSA as they are computed. *)
From Coq Require Import Znumtheory.
From Verif Require Import GoBase Wire WireProofs Rsa RsaSpec RsaProofs Pkcs1 NumTheory Crypto Poly PolyProofs Scheme HidingSpec
  Ed25519 EdPrimes EdField EdCurve EdCalc EdPoints EdBytes EdScheme.
Local Open Scope Z_scope.
Local Opaque ed_p ed_l ed_d ed_i ed_bx ed_by.

(** 64 bytes for each coefficient *)
Definition coins (cs : list Fl) : bytes := concat (map (fun c : Fl => le_enc 64 (un ed_l c)) cs).
Lemma coins_coeffs (cs : list Fl) n : (length cs <= n)%nat ->
  map mkl (ed_coeffs n (coins cs)) = cs ++ repeat (f0 Fl) (n - length cs).
Proof.
  pose proof l_pos as Hl. revert cs. induction n as [|n IH]; intros cs Hn.
  { destruct cs; [done|cbn in Hn; lia]. }
  cbn [ed_coeffs map]. destruct cs as [|c cs].
  - unfold coins. cbn [map concat]. rewrite take_nil, drop_nil. specialize (IH [] ltac:(cbn; lia)). unfold coins in IH. cbn [map concat] in IH.
    rewrite IH. cbn [app length Nat.sub repeat le_num fold_right]. rewrite Nat.sub_0_r. f_equal.
  - unfold coins. cbn [map concat]. rewrite take_app_alt, drop_app_alt by (by rewrite le_enc_length). fold (coins cs).
    rewrite IH by (apply le_S_n; exact Hn). cbn [app length Nat.sub]. f_equal. rewrite mk_mod, le_num_enc; [apply mk_un|].
    pose proof (un_range ed_l prime_l c) as Hc. pose proof ed_l_big as Hb. change (256 ^ Z.of_nat 64) with (2 ^ 512).
    assert (2 ^ 253 <= 2 ^ 512) by (apply Z.pow_le_mono_r; lia). lia.
Qed.
Lemma peval_zeros (x : Fl) k : peval Fl (repeat (f0 Fl) k) x = f0 Fl.
Proof.
  induction k as [|k IH]; [done|]. cbn [repeat peval]. rewrite IH. cbn [fadd fmul f0 zf].
  rewrite <- (mk_un _ x), <- mk_mul, <- mk_add. f_equal. ring.
Qed.
Lemma peval_pad (p : list Fl) (x : Fl) k : peval Fl (p ++ repeat (f0 Fl) k) x = peval Fl p x.
Proof. induction p as [|c p IH]; [apply peval_zeros|]. cbn [app peval]. by rewrite IH. Qed.
Lemma deal_at s r t n i b : ed_deal s r t n !! i = Some b ->
  b = sc_bytes (ed_eval (le_num s :: ed_coeffs (Z.to_nat t - 1) r) (Z.of_nat i + 1)).
Proof.
  unfold ed_deal. cbv zeta. change (map ?f ?l) with (f <$> l). rewrite list_lookup_fmap.
  intros (k & Hk & ->)%fmap_Some. apply lookup_seq in Hk as [-> _]. do 2 f_equal. lia.
Qed.
Lemma sc_canon a b : mkl (le_num (sc_bytes a)) = mkl (le_num (sc_bytes b)) -> sc_bytes a = sc_bytes b.
Proof.
  rewrite !scalar_sc. intros E. apply (f_equal (un ed_l)) in E. rewrite !un_mk in E. unfold sc_bytes. by rewrite E.
Qed.
Lemma zero_add (c x : Fl) : fadd Fl c (fmul Fl (f0 Fl) x) = c.
Proof. cbn [fadd fmul f0 zf]. rewrite <- (mk_un _ c), <- (mk_un _ x), <- mk_mul, <- mk_add. f_equal. ring. Qed.
Lemma add_zero (c x : Fl) : fadd Fl c (fmul Fl x (f0 Fl)) = c.
Proof. cbn [fadd fmul f0 zf]. rewrite <- (mk_un _ c), <- (mk_un _ x), <- mk_mul, <- mk_add. f_equal. ring. Qed.

Lemma encrypt_any H pk (m m' r : bytes) : length m = length m' -> is_Some (encrypt_oaep H pk m r) -> is_Some (encrypt_oaep H pk m' r).
Proof.
  unfold encrypt_oaep. intros E. destruct (check_pub _); [|done]. cbv zeta. rewrite E. destruct (_ <? _); [done|]. intros _. by eexists.
Qed.
Lemma ed_hiding H Hr text C bits k p q : hash32 Hr -> usual_size bits -> generated bits k p q ->
  hiding_laws (with_rsa (with_ed H C) Hr text) (ed_reading H) (sk_text k).
Proof.
  intros HH Hbits Hg. constructor; cbn [rd_f rd_scalar rd_is_scalar rd_id rd_max ed_reading].
  - intros s t n P Hs Ht Hn HP H0. set (cs := drop 1 P : list Fl).
    assert (Hl : (length cs <= Z.to_nat t - 1)%nat) by (unfold cs; rewrite (drop_length P); lia).
    exists (coins cs). intros i b Hb. apply deal_at in Hb as ->. rewrite scalar_sc, ed_eval_poly. cbn [map].
    rewrite coins_coeffs by exact Hl.
    change (mkl (le_num s) :: ?l ++ ?m) with ((mkl (le_num s) :: l) ++ m). rewrite peval_pad.
    destruct P as [|c0 P]; unfold cs; cbn [drop].
    + cbn [peval] in H0 |- *. rewrite <- H0. apply add_zero.
    + cbn [peval] in H0 |- *. rewrite <- H0. f_equal. apply zero_add.
  - intros s r s' r' t n i b b' Hb Hb'. apply deal_at in Hb as ->. apply deal_at in Hb' as ->. apply sc_canon.
  - intros m x k1 x' k' A E s s' [= <-] [= <-]. apply sc_canon.
  - intros pk m m' r Hm Hm'. cbn [cr_encrypt with_rsa]. destruct (pk_parse pk) as [pub|]; [|done]. apply encrypt_any. by rewrite Hm, Hm'.
  - intros pl pl' r _. destruct (generated_pair (with_ed H C) Hr text (ed_reading H) bits k p q Hbits Hg HH) as [_ Hsig]; [done|].
    destruct (Hsig pl' r) as (sg & E & _). by exists sg.
Qed.

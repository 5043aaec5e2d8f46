(** Lemmas about Wire.v: round trips and fuel independence. *)
From Verif Require Import GoBase Wire.
From Coq Require Import ZifyBool ZifyNat.

Lemma two64 : 2 ^ 64 = 18446744073709551616.
Proof. reflexivity. Qed.

(** *** varints *)

Lemma varint_enc_nonempty n v : (0 < n)%nat -> varint_enc_go n v <> [].
Proof. destruct n; [lia|]. simpl. destruct (v <? 128); discriminate. Qed.

Lemma varint_roundtrip_go n v r :
  0 <= v < 128 ^ Z.of_nat (S n) -> varint_dec (S n) (varint_enc_go (S n) v ++ r) = Some (v, r).
Proof.
  revert v. induction n as [|n IH]; intros v Hv.
  - change (128 ^ Z.of_nat 1) with 128 in Hv. cbn [varint_enc_go].
    destruct (Z.ltb_spec v 128); [|lia]. simpl. rewrite bz_zb, Z.mod_small by lia.
    destruct (Z.ltb_spec v 128); [done|lia].
  - rewrite Nat2Z.inj_succ, Z.pow_succ_r in Hv by lia.
    remember (S n) as m eqn:Em. cbn [varint_enc_go].
    destruct (Z.ltb_spec v 128) as [H|H]; cbn [app varint_dec].
    + rewrite bz_zb, Z.mod_small by lia.
      destruct (Z.ltb_spec v 128); [done|lia].
    + rewrite bz_zb.
      assert (Hm : 0 <= v mod 128 < 128) by (apply Z.mod_pos_bound; lia).
      rewrite (Z.mod_small (v mod 128 + 128)) by lia.
      destruct (Z.ltb_spec (v mod 128 + 128) 128); [lia|].
      rewrite IH.
      * do 2 f_equal. replace (v mod 128 + 128) with (v mod 128 + 1 * 128) by lia.
        rewrite Z.mod_add, Z.mod_mod by lia. pose proof (Z.div_mod v 128). lia.
      * split; [apply Z.div_pos; lia|]. apply Z.div_lt_upper_bound; lia.
Qed.

Lemma varint_roundtrip v r : 0 <= v < 2 ^ 64 -> varint_dec 10 (varint_enc v ++ r) = Some (v, r).
Proof.
  intros Hv. apply varint_roundtrip_go.
  change (128 ^ Z.of_nat 10) with 1180591620717411303424. rewrite two64 in Hv. lia.
Qed.

Lemma read_uvarint_roundtrip_go n v r :
  0 <= v < 2 ^ (7 * Z.of_nat n + 1) ->
  read_uvarint_go (S n) (varint_enc_go (S n) v ++ r) = Some (v, r).
Proof.
  revert v. induction n as [|n IH]; intros v Hv.
  - change (2 ^ (7 * Z.of_nat 0 + 1)) with 2 in Hv. cbn [varint_enc_go].
    destruct (Z.ltb_spec v 128); [|lia]. cbn [app read_uvarint_go].
    rewrite bz_zb, Z.mod_small by lia.
    destruct (Z.ltb_spec v 128); [|lia].
    destruct (Z.ltb_spec 1 v); [lia|]. rewrite andb_false_r. done.
  - replace (7 * Z.of_nat (S n) + 1) with (7 + (7 * Z.of_nat n + 1)) in Hv by lia.
    rewrite Z.pow_add_r in Hv by lia. change (2 ^ 7) with 128 in Hv.
    remember (S n) as m eqn:Em. cbn [varint_enc_go].
    destruct (Z.ltb_spec v 128) as [H|H]; cbn [app read_uvarint_go].
    + rewrite bz_zb, Z.mod_small by lia.
      destruct (Z.ltb_spec v 128); [|lia]. subst m. done.
    + rewrite bz_zb.
      assert (Hm : 0 <= v mod 128 < 128) by (apply Z.mod_pos_bound; lia).
      rewrite (Z.mod_small (v mod 128 + 128)) by lia.
      destruct (Z.ltb_spec (v mod 128 + 128) 128); [lia|].
      rewrite IH.
      * do 2 f_equal. replace (v mod 128 + 128) with (v mod 128 + 1 * 128) by lia.
        rewrite Z.mod_add, Z.mod_mod by lia. pose proof (Z.div_mod v 128). lia.
      * split; [apply Z.div_pos; lia|]. apply Z.div_lt_upper_bound; lia.
Qed.

Lemma read_uvarint_roundtrip v r :
  0 <= v < 2 ^ 64 -> read_uvarint (varint_enc v ++ r) = Some (v, r).
Proof.
  intros Hv. apply read_uvarint_roundtrip_go.
  change (7 * Z.of_nat 9 + 1) with 64. lia.
Qed.

(** the first byte of a varint determines how it continues; needed for injectivity *)
Lemma varint_dec_shrinks n l v r : varint_dec n l = Some (v, r) -> (length r < length l)%nat.
Proof.
  revert l v r. induction n as [|n IH]; intros l v r H; [discriminate|].
  destruct l as [|b l]; [discriminate|]. simpl in H.
  destruct (bz b <? 128).
  - injection H as _ <-. simpl. lia.
  - destruct (varint_dec n l) as [[v' r']|] eqn:E; [|discriminate].
    injection H as _ <-. apply IH in E. simpl. lia.
Qed.

Lemma varint_dec_nonneg n l v r : varint_dec n l = Some (v, r) -> 0 <= v.
Proof.
  revert l v r. induction n as [|n IH]; intros l v r H; [discriminate|].
  destruct l as [|b l]; [discriminate|]. simpl in H. pose proof (bz_range b).
  destruct (bz b <? 128).
  - injection H as <- _. lia.
  - destruct (varint_dec n l) as [[v' r']|] eqn:E; [|discriminate].
    injection H as <- _. apply IH in E. pose proof (Z.mod_pos_bound (bz b) 128). lia.
Qed.

(** *** little endian *)

Lemma le_roundtrip n v r :
  0 <= v < 256 ^ Z.of_nat n -> le_dec n (le_enc n v ++ r) = Some (v, r).
Proof.
  revert v. induction n as [|n IH]; intros v Hv.
  - simpl in *. replace v with 0 by lia. done.
  - rewrite Nat2Z.inj_succ, Z.pow_succ_r in Hv by lia. simpl. rewrite bz_zb, IH.
    + do 2 f_equal. pose proof (Z.div_mod v 256). lia.
    + split; [apply Z.div_pos; lia|]. apply Z.div_lt_upper_bound; lia.
Qed.

Lemma le_dec_length n l v r : le_dec n l = Some (v, r) -> length l = (n + length r)%nat.
Proof.
  revert l v r. induction n as [|n IH]; intros l v r H; simpl in H.
  - injection H as _ <-. done.
  - destruct l as [|b l]; [discriminate|].
    destruct (le_dec n l) as [[v' r']|] eqn:E; [|discriminate].
    injection H as _ <-. apply IH in E. simpl. lia.
Qed.

(** *** length-delimited *)

Lemma len_roundtrip p r :
  Z.of_nat (length p) < 2 ^ 63 -> len_dec (len_enc p ++ r) = Some (p, r).
Proof.
  intros Hp. unfold len_dec, len_enc. rewrite <- app_assoc, varint_roundtrip.
  2:{ rewrite two64. change (2 ^ 63) with 9223372036854775808 in Hp. lia. }
  rewrite wrap64_small by (unfold in_int64; lia).
  rewrite app_length.
  destruct (Z.ltb_spec (Z.of_nat (length p)) 0); [lia|].
  destruct (Z.ltb_spec (Z.of_nat (length p + length r)) (Z.of_nat (length p))); [lia|].
  simpl. rewrite Nat2Z.id, take_app, drop_app. done.
Qed.

Lemma len_dec_shrinks l p r : len_dec l = Some (p, r) -> (length r < length l)%nat.
Proof.
  unfold len_dec. destruct (varint_dec 10 l) as [[v r0]|] eqn:E; [|discriminate].
  apply varint_dec_shrinks in E.
  destruct (_ || _); [discriminate|]. intros [= _ <-].
  rewrite drop_length. lia.
Qed.

Lemma drop_exact_shrinks n l r : 0 < n -> drop_exact n l = Some r -> (length r < length l)%nat.
Proof.
  unfold drop_exact. intros Hn. destruct (Z.ltb_spec n 0); [lia|].
  destruct (Z.ltb_spec (Z.of_nat (length l)) n); simpl; [discriminate|].
  intros [= <-]. rewrite drop_length. lia.
Qed.

Lemma skip_loop_shrinks f d l r : skip_loop f d l = Some r -> (length r < length l)%nat.
Proof.
  revert d l. induction f as [|f IH]; intros d l; [discriminate|]. cbn [skip_loop].
  destruct (varint_dec 10 l) as [[w r0]|] eqn:E; [|discriminate].
  apply varint_dec_shrinks in E.
  assert (Hnext : forall (o : option (nat * bytes)),
    (forall d' r', o = Some (d', r') -> (length r' <= length r0)%nat) ->
    match o with
    | None => None | Some (O, r') => Some r' | Some (S d', r') => skip_loop f (S d') r'
    end = Some r -> (length r < length l)%nat).
  { intros o Ho. destruct o as [[[|d'] r']|]; [| |discriminate].
    - intros [= <-]. specialize (Ho _ _ eq_refl). lia.
    - intros H. apply IH in H. specialize (Ho _ _ eq_refl). lia. }
  apply Hnext. clear Hnext IH. intros d' r'.
  assert (Hx : 0 <= u64 w mod 8 < 8) by (apply Z.mod_pos_bound; lia).
  assert (Hc : u64 w mod 8 = 0 \/ u64 w mod 8 = 1 \/ u64 w mod 8 = 2 \/ u64 w mod 8 = 3 \/
               u64 w mod 8 = 4 \/ u64 w mod 8 = 5 \/ u64 w mod 8 = 6 \/ u64 w mod 8 = 7) by lia.
  destruct Hc as [->|[->|[->|[->|[->|[->|[->| ->]]]]]]]; try discriminate.
  - destruct (varint_dec 10 r0) as [[v' r'']|] eqn:E'; [|discriminate].
    apply varint_dec_shrinks in E'. intros [= _ <-]. lia.
  - destruct (drop_exact 8 r0) eqn:E'; [|discriminate]. apply drop_exact_shrinks in E'; [|lia].
    intros [= _ <-]. lia.
  - destruct (len_dec r0) as [[p' r'']|] eqn:E'; [|discriminate].
    apply len_dec_shrinks in E'. intros [= _ <-]. lia.
  - intros [= _ <-]. lia.
  - destruct d; [discriminate|]. intros [= _ <-]. lia.
  - destruct (drop_exact 4 r0) eqn:E'; [|discriminate]. apply drop_exact_shrinks in E'; [|lia].
    intros [= _ <-]. lia.
Qed.

(** *** the message loop *)

(** a switch that never grows the input *)
Definition consuming {M} (h : Z -> Z -> M -> bytes -> field_result M) : Prop :=
  forall fn wt m r m' r', h fn wt m r = FOk m' r' -> (length r' <= length r)%nat.

Lemma unmarshal_loop_fuel {M} (h : Z -> Z -> M -> bytes -> field_result M) :
  consuming h ->
  forall f f' m l, (length l <= f)%nat -> (length l <= f')%nat ->
  unmarshal_loop f h m l = unmarshal_loop f' h m l.
Proof.
  intros Hc. induction f as [|f IH]; intros f' m l Hf Hf'.
  - destruct l; [|simpl in Hf; lia]. destruct f'; done.
  - destruct l as [|b l]; [destruct f'; done|].
    destruct f' as [|f']; [simpl in Hf'; lia|].
    cbn [unmarshal_loop].
    destruct (varint_dec 10 (b :: l)) as [[w r]|] eqn:E; [|done].
    apply varint_dec_shrinks in E.
    destruct (u64 w mod 8 =? 4); [done|].
    destruct (wrap32 (u64 w / 8) <=? 0); [done|].
    destruct (h _ _ m r) as [| |m' r'] eqn:Eh.
    + destruct (skip_field (b :: l)) as [r'|] eqn:Es; [|done].
      apply skip_loop_shrinks in Es. apply IH; simpl in *; lia.
    + done.
    + apply Hc in Eh. apply IH; simpl in *; lia.
Qed.

Lemma unmarshal_nil {M} (h : Z -> Z -> M -> bytes -> field_result M) m : unmarshal h m [] = Some m.
Proof. done. Qed.

(** one known field *)
Lemma unmarshal_step {M} (h : Z -> Z -> M -> bytes -> field_result M) m l w r m' r' fn wt :
  consuming h ->
  varint_dec 10 l = Some (w, r) ->
  wrap32 (u64 w / 8) = fn -> u64 w mod 8 = wt ->
  (wt =? 4) = false -> (fn <=? 0) = false ->
  h fn wt m r = FOk m' r' ->
  unmarshal h m l = unmarshal h m' r'.
Proof.
  intros Hc E <- <- H4 H0 Hh. unfold unmarshal at 1.
  destruct l as [|b l]; [discriminate|]. cbn [unmarshal_loop length].
  rewrite E, H4, H0, Hh.
  apply varint_dec_shrinks in E. apply Hc in Hh.
  apply unmarshal_loop_fuel; simpl in *; [done|lia|lia].
Qed.

(** one field rejected by the switch *)
Lemma unmarshal_err {M} (h : Z -> Z -> M -> bytes -> field_result M) m l w r fn wt :
  varint_dec 10 l = Some (w, r) ->
  wrap32 (u64 w / 8) = fn -> u64 w mod 8 = wt ->
  h fn wt m r = FErr ->
  unmarshal h m l = None.
Proof.
  intros E <- <- Hh. unfold unmarshal.
  destruct l as [|b l]; [discriminate|]. cbn [unmarshal_loop length].
  rewrite E. destruct (_ =? 4); [done|]. destruct (_ <=? 0); [done|]. rewrite Hh. done.
Qed.

(** one-byte tags *)
Lemma tag_byte b r : (bz b <? 128) = true -> varint_dec 10 (b :: r) = Some (bz b, r).
Proof. intros H. cbn [varint_dec]. rewrite H. done. Qed.

(** *** framing *)

Lemma read_delimited_delimited maxSize p r :
  Z.of_nat (length p) <= maxSize -> Z.of_nat (length p) < 2 ^ 63 - 1 ->
  read_delimited maxSize (delimited p ++ r) = Some (p, r).
Proof.
  intros Hm Hp. unfold read_delimited, delimited. rewrite <- app_assoc, read_uvarint_roundtrip.
  2:{ rewrite two64. change (2 ^ 63) with 9223372036854775808 in Hp. lia. }
  rewrite app_length.
  destruct (Z.leb_spec (2 ^ 63 - 1) (Z.of_nat (length p))); [lia|].
  destruct (Z.ltb_spec maxSize (Z.of_nat (length p))); [lia|].
  destruct (Z.ltb_spec (Z.of_nat (length p + length r)) (Z.of_nat (length p))); [lia|].
  simpl. rewrite Nat2Z.id, take_app, drop_app. done.
Qed.

Lemma unmarshal_delimited_delimited {M} (um : bytes -> option M) p r :
  Z.of_nat (length p) < 2 ^ 63 - 1 ->
  unmarshal_delimited um (delimited p ++ r) = um p.
Proof.
  intros Hp. unfold unmarshal_delimited. rewrite read_delimited_delimited; [done| |done].
  unfold delimited. rewrite !app_length. lia.
Qed.

(** framed messages are self-delimiting *)
Lemma delimited_inj p q r s :
  Z.of_nat (length p) < 2 ^ 63 - 1 -> Z.of_nat (length q) < 2 ^ 63 - 1 ->
  delimited p ++ r = delimited q ++ s -> p = q /\ r = s.
Proof.
  intros Hp Hq E.
  pose proof (read_delimited_delimited (2 ^ 63) p r ltac:(lia) Hp) as H1.
  pose proof (read_delimited_delimited (2 ^ 63) q s ltac:(lia) Hq) as H2.
  rewrite E in H1. rewrite H1 in H2. injection H2 as -> ->. done.
Qed.

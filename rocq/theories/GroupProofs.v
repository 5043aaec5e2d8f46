(** Unknown groups are skipped as a whole (C92). *)
From Coq Require Import ZifyBool ZifyNat.
From Verif Require Import GoBase Wire WireProofs Canonical CanonicalProofs RpcFieldsSpec RpcFieldsProofs GoFieldsSpec GoFieldsProofs GroupSpec.
Local Open Scope Z_scope.

(** one round of the loop of [skip_loop] *)
Definition skip_next (depth : nat) (l : bytes) : option (nat * bytes) :=
  match varint_dec 10 l with
  | None => None
  | Some (w, r) =>
      match u64 w mod 8 with
      | 0 => match varint_dec 10 r with Some (_, r') => Some (depth, r') | None => None end
      | 1 => match drop_exact 8 r with Some r' => Some (depth, r') | None => None end
      | 2 => match len_dec r with Some (_, r') => Some (depth, r') | None => None end
      | 3 => Some (S depth, r)
      | 4 => match depth with O => None | S d => Some (d, r) end
      | 5 => match drop_exact 4 r with Some r' => Some (depth, r') | None => None end
      | _ => None
      end
  end.
Lemma skip_loop_next f d l : skip_loop (S f) d l =
  match skip_next d l with None => None | Some (O, r) => Some r | Some (S d', r) => skip_loop f (S d') r end.
Proof. unfold skip_next. cbn [skip_loop]. by destruct (varint_dec 10 l) as [[w r]|]. Qed.
Lemma skip_next_shrinks d l d' r : skip_next d l = Some (d', r) -> (length r < length l)%nat.
Proof.
  unfold skip_next. destruct (varint_dec 10 l) as [[w r0]|] eqn:E; [|discriminate]. apply varint_dec_shrinks in E.
  assert (Hx : 0 <= u64 w mod 8 < 8) by (apply Z.mod_pos_bound; lia).
  assert (Hc : u64 w mod 8 = 0 \/ u64 w mod 8 = 1 \/ u64 w mod 8 = 2 \/ u64 w mod 8 = 3 \/
               u64 w mod 8 = 4 \/ u64 w mod 8 = 5 \/ u64 w mod 8 = 6 \/ u64 w mod 8 = 7) by lia.
  destruct Hc as [->|[->|[->|[->|[->|[->|[->| ->]]]]]]]; try discriminate.
  - destruct (varint_dec 10 r0) as [[v' r'']|] eqn:E'; [|discriminate]. apply varint_dec_shrinks in E'. intros [= _ <-]. lia.
  - destruct (drop_exact 8 r0) eqn:E'; [|discriminate]. apply drop_exact_shrinks in E'; [|lia]. intros [= _ <-]. lia.
  - destruct (len_dec r0) as [[p' r'']|] eqn:E'; [|discriminate]. apply len_dec_shrinks in E'. intros [= _ <-]. lia.
  - intros [= _ <-]. lia.
  - destruct d; [discriminate|]. intros [= _ <-]. lia.
  - destruct (drop_exact 4 r0) eqn:E'; [|discriminate]. apply drop_exact_shrinks in E'; [|lia]. intros [= _ <-]. lia.
Qed.
Lemma skip_fuel f : forall f' d l, (length l <= f)%nat -> (length l <= f')%nat -> skip_loop f d l = skip_loop f' d l.
Proof.
  induction f as [|f IH]; intros f' d l H H'.
  - destruct l; [|cbn in H; lia]. by destruct f'.
  - destruct f' as [|f']; [destruct l; [done|cbn in H'; lia]|]. rewrite !skip_loop_next.
    destruct (skip_next d l) as [[[|d'] r]|] eqn:E; [done| |done]. apply skip_next_shrinks in E. apply IH; lia.
Qed.
(** the loop with enough rounds *)
Definition skips (d : nat) (l : bytes) : option bytes := skip_loop (length l) d l.
Lemma skips_next d l d' r : skip_next d l = Some (S d', r) -> skips d l = skips (S d') r.
Proof.
  intros H. pose proof (skip_next_shrinks _ _ _ _ H) as Hl. unfold skips. destruct (length l) as [|n] eqn:E; [lia|].
  rewrite skip_loop_next, H. apply skip_fuel; lia.
Qed.
Lemma skips_last d l r : skip_next d l = Some (O, r) -> skips d l = Some r.
Proof.
  intros H. pose proof (skip_next_shrinks _ _ _ _ H) as Hl. unfold skips. destruct (length l) as [|n] eqn:E; [lia|].
  by rewrite skip_loop_next, H.
Qed.

Lemma gtag n w r : 1 <= n < 2 ^ 29 -> 0 <= w < 8 -> varint_dec 10 (varint_enc (n * 8 + w) ++ r) = Some (n * 8 + w, r) /\
  u64 (n * 8 + w) mod 8 = w /\ wrap32 (u64 (n * 8 + w) / 8) = n.
Proof.
  intros Hn Hw. change (2 ^ 29) with 536870912 in Hn.
  assert (Hs : 0 <= n * 8 + w < 2 ^ 64) by (change (2 ^ 64) with 18446744073709551616; lia).
  split; [by apply varint_roundtrip|]. unfold u64. rewrite (Z.mod_small _ (2 ^ 64)) by done. split.
  - rewrite Z.add_comm, Z.mod_add by lia. by apply Z.mod_small.
  - rewrite Z.div_add_l by lia. rewrite (Z.div_small w) by lia. rewrite Z.add_0_r. apply wrap32_small. unfold in_int32.
    change (2 ^ 31) with 2147483648. lia.
Qed.
Lemma next_start n d r : 1 <= n < 2 ^ 29 -> skip_next d (start_group n ++ r) = Some (S d, r).
Proof. intros Hn. unfold skip_next, start_group. destruct (gtag n 3 r Hn ltac:(lia)) as (-> & -> & _). done. Qed.
Lemma next_end n d r : 1 <= n < 2 ^ 29 -> skip_next (S d) (end_group n ++ r) = Some (d, r).
Proof. intros Hn. unfold skip_next, end_group. destruct (gtag n 4 r Hn ltac:(lia)) as (-> & -> & _). done. Qed.
Lemma next_field f d r : field_ok f -> skip_next d (enc_field f ++ r) = Some (d, r).
Proof.
  intros H. unfold skip_next, enc_field. rewrite <- app_assoc, varint_roundtrip by (by apply tag_small).
  rewrite tag_wt by done. destruct H as [_ H]. destruct (snd f) as [v|v|b|v]; cbn [wire_type payload].
  - by rewrite varint_roundtrip.
  - by rewrite drop_exact_app by (by rewrite le_enc_length).
  - change (varint_enc (Z.of_nat (length b)) ++ b) with (len_enc b). by rewrite len_roundtrip.
  - by rewrite drop_exact_app by (by rewrite le_enc_length).
Qed.
Lemma skips_contents t : contents t -> forall d r, skips (S d) (t ++ r) = skips (S d) r.
Proof.
  induction 1 as [|f t Hf Ht IH|n t u Hn Ht IHt Hu IHu]; intros d r; [done|..].
  - rewrite <- app_assoc, (skips_next _ _ _ _ (next_field f (S d) (t ++ r) Hf)). apply IH.
  - rewrite <- !app_assoc, (skips_next _ _ _ _ (next_start n (S d) _ Hn)), IHt, (skips_next _ _ _ _ (next_end n (S d) _ Hn)). apply IHu.
Qed.
Lemma skip_group n g r : group n g -> skip_field (g ++ r) = Some r.
Proof.
  intros (Hn & t & Ht & ->). change (skip_field ?l) with (skips O l). rewrite <- !app_assoc.
  rewrite (skips_next _ _ _ _ (next_start n O _ Hn)), skips_contents by done. apply skips_last. by apply next_end.
Qed.

Section Message.
  Context {M : Type} (h : Z -> Z -> M -> bytes -> field_result M) (Hc : consuming h) (Hu : uniform h).
  Lemma um_group n g m r : group n g -> (forall r, h n 3 m r = FUnknown) -> unmarshal h m (g ++ r) = unmarshal h m r.
  Proof.
    intros Hg Hh. pose proof (skip_group n g r Hg) as Hs. pose proof Hs as Hl. apply skip_loop_shrinks in Hl.
    destruct Hg as (Hn & t & Ht & ->). destruct (gtag n 3 ((t ++ end_group n) ++ r) Hn ltac:(lia)) as (Hv & Hw & Hf).
    unfold start_group in *. rewrite app_assoc in Hv. unfold unmarshal at 1.
    destruct ((varint_enc (n * 8 + 3) ++ t ++ end_group n) ++ r) as [|b l]; [discriminate|].
    cbn [unmarshal_loop length]. rewrite Hv, Hw, Hf, Hh, Hs. cbn [Z.eqb Pos.eqb]. destruct (Z.leb_spec n 0); [lia|].
    apply unmarshal_loop_fuel; [done| |]; cbn [length] in *; lia.
  Qed.
  Lemma um_groups fs n g m r : Forall field_ok fs -> group n g -> (forall m r, h n 3 m r = FUnknown) ->
    unmarshal h m (enc fs ++ g ++ r) = unmarshal h m (enc fs ++ r).
  Proof.
    intros Hf Hg Hh. rewrite !(um_app h Hc Hu) by done. destruct (unmarshal h m (enc fs)) as [m'|]; [|done]. by apply (um_group n).
  Qed.
End Message.

Ltac beyond n := destruct n as [|[[[[p|p|]|[p|p|]|]|[[p|p|]|[p|p|]|]|]|[[[p|p|]|[p|p|]|]|[[p|p|]|[p|p|]|]|]|]|p];
  first [exfalso; lia | reflexivity].
Lemma vote_unknown n m r : 7 < n -> h_vote n 3 m r = FUnknown.
Proof. intros Hn. destruct m. unfold h_vote. beyond n. Qed.
Lemma proposal_unknown n m r : 7 < n -> h_proposal n 3 m r = FUnknown.
Proof. intros Hn. destruct m. unfold h_proposal. beyond n. Qed.

Lemma decode_group fs fs' n g rest rest' : Forall field_ok fs -> group n g -> 7 < n ->
  Z.of_nat (length (enc fs ++ g ++ enc fs')) < 2 ^ 63 - 1 ->
  decode_vote (delimited (enc fs ++ g ++ enc fs') ++ rest) = decode_vote (delimited (enc fs ++ enc fs') ++ rest') /\
  decode_proposal (delimited (enc fs ++ g ++ enc fs') ++ rest) = decode_proposal (delimited (enc fs ++ enc fs') ++ rest').
Proof.
  intros Hf Hg Hn Hl. assert (Hl' : Z.of_nat (length (enc fs ++ enc fs')) < 2 ^ 63 - 1) by (rewrite !app_length in *; lia).
  unfold decode_vote, decode_proposal. rewrite !unmarshal_delimited_delimited by done. split.
  - apply (um_groups h_vote consuming_vote uniform_vote fs n); [done|done|]. intros m r. by apply vote_unknown.
  - apply (um_groups h_proposal consuming_proposal uniform_proposal fs n); [done|done|]. intros m r. by apply proposal_unknown.
Qed.
Lemma key_group fs fs' n g rest rest' : Forall field_ok fs -> group n g -> 7 < n ->
  Z.of_nat (length (enc fs ++ g ++ enc fs')) < 2 ^ 63 - 1 ->
  unpack_hrst (delimited (enc fs ++ g ++ enc fs') ++ rest) = unpack_hrst (delimited (enc fs ++ enc fs') ++ rest').
Proof.
  intros Hf Hg Hn Hl. destruct (decode_group fs fs' n g rest rest' Hf Hg Hn Hl) as [E1 E2]. unfold unpack_hrst. by rewrite E1, E2.
Qed.

(** Proofs about Bech32.v: what is encoded is read back. *)
From Coq Require Import Strings.String.
From Verif Require Import GoBase Json Bech32 AddressSpec.
Local Open Scope Z_scope.

(** ** Bits *)

Lemma bits_length n z : length (bits n z) = n.
Proof. induction n as [|n IH]; simpl; [done|by rewrite IH]. Qed.
Lemma of_bits_acc l a : fold_left (fun a b => 2 * a + Z.b2z b) l a = a * 2 ^ Z.of_nat (length l) + of_bits l.
Proof.
  unfold of_bits. revert a. induction l as [|b l IH]; intros a; [simpl; lia|]. cbn [fold_left length].
  rewrite IH, (IH (2 * 0 + Z.b2z b)). rewrite Nat2Z.inj_succ, Z.pow_succ_r by lia. lia.
Qed.
Lemma of_bits_cons b l : of_bits (b :: l) = Z.b2z b * 2 ^ Z.of_nat (length l) + of_bits l.
Proof. unfold of_bits at 1. cbn [fold_left]. rewrite of_bits_acc. lia. Qed.
Lemma of_bits_range l : 0 <= of_bits l < 2 ^ Z.of_nat (length l).
Proof.
  induction l as [|b l IH]; [cbn; lia|]. rewrite of_bits_cons. cbn [length]. rewrite Nat2Z.inj_succ, Z.pow_succ_r by lia.
  destruct b; cbn [Z.b2z]; lia.
Qed.
Lemma bits_low n z w : (forall k, 0 <= k < Z.of_nat n -> Z.testbit z k = Z.testbit w k) -> bits n z = bits n w.
Proof.
  induction n as [|n IH]; [done|]. intros H. cbn [bits]. rewrite (H (Z.of_nat n)) by lia. f_equal. apply IH. intros k Hk. apply H. lia.
Qed.
Lemma bits_of_bits l : bits (length l) (of_bits l) = l.
Proof.
  induction l as [|b l IH]; [done|]. cbn [length bits]. rewrite of_bits_cons. pose proof (of_bits_range l) as Hr. f_equal.
  - rewrite Z.testbit_eqb by lia. rewrite Z.div_add_l by lia. rewrite (Z.div_small (of_bits l)) by lia. destruct b; reflexivity.
  - rewrite <- IH at 4. apply bits_low. intros k Hk. rewrite Z.add_comm.
    rewrite <- (Z.mod_pow2_bits_low _ (Z.of_nat (length l))) by lia. rewrite Z.mod_add by lia. by rewrite Z.mod_small by lia.
Qed.
Lemma of_bits_bits n z : 0 <= z < 2 ^ Z.of_nat n -> of_bits (bits n z) = z.
Proof.
  revert z. induction n as [|n IH]; intros z Hz; [cbn in *; lia|]. cbn [bits]. rewrite of_bits_cons, bits_length.
  rewrite Nat2Z.inj_succ, Z.pow_succ_r in Hz by lia.
  assert (E : bits n z = bits n (z mod 2 ^ Z.of_nat n)).
  { apply bits_low. intros k Hk. by rewrite Z.mod_pow2_bits_low by lia. }
  rewrite E, IH by (apply Z.mod_pos_bound; lia). rewrite Z.testbit_eqb by lia.
  pose proof (Z.div_mod z (2 ^ Z.of_nat n) ltac:(lia)) as Hd.
  assert (0 <= z / 2 ^ Z.of_nat n < 2) by (split; [apply Z.div_pos; lia|apply Z.div_lt_upper_bound; lia]).
  rewrite Z.mod_small by lia. destruct (Z.eqb_spec (z / 2 ^ Z.of_nat n) 1); cbn [Z.b2z]; lia.
Qed.
Lemma of_bits_false n : of_bits (replicate n false) = 0.
Proof. induction n as [|n IH]; [done|]. cbn [replicate]. rewrite of_bits_cons, IH. cbn [Z.b2z]. lia. Qed.

(** ** Groups *)

Lemma join_cons {A} (x : list A) g : mjoin (x :: g) = x ++ mjoin g.
Proof. done. Qed.

Lemma groups_spec fuel n l : (0 < n)%nat -> (length l <= fuel)%nat ->
  let '(g, r) := groups fuel n l in
  l = mjoin g ++ r /\ Forall (fun x => length x = n) g /\ (length r < n)%nat.
Proof.
  intros Hn. revert l. induction fuel as [|f IH]; intros l Hl; cbn [groups].
  - destruct l; [|simpl in Hl; lia]. split; [done|]. split; [constructor|done].
  - destruct (length l <? n)%nat eqn:E.
    + apply Nat.ltb_lt in E. split; [done|]. split; [constructor|done].
    + apply Nat.ltb_ge in E. specialize (IH (drop n l)). rewrite drop_length in IH. specialize (IH ltac:(lia)).
      destruct (groups f n (drop n l)) as [g r]. destruct IH as (H1 & H2 & H3). split; [|split; [|done]].
      * rewrite join_cons, <- (app_assoc (take n l)), <- H1. by rewrite take_drop.
      * constructor; [|done]. rewrite take_length. lia.
Qed.
Lemma groups_join fuel n g r : (0 < n)%nat -> Forall (fun x => length x = n) g -> (length r < n)%nat ->
  (length g <= fuel)%nat -> groups fuel n (mjoin g ++ r) = (g, r).
Proof.
  intros Hn Hg Hr. revert g Hg. induction fuel as [|f IH]; intros g Hg Hl.
  - destruct g; [done|simpl in Hl; lia].
  - cbn [groups]. destruct g as [|x g].
    + cbn [mjoin list_join app]. by rewrite (proj2 (Nat.ltb_lt _ _) Hr).
    + apply list.Forall_cons in Hg as [Hx Hg]. rewrite join_cons, <- app_assoc.
      assert (E : (length (x ++ mjoin g ++ r) <? n)%nat = false).
      { apply Nat.ltb_ge. rewrite app_length. lia. }
      rewrite E. rewrite drop_app_alt, IH; [|done|simpl in Hl; lia|done]. by rewrite take_app_alt.
Qed.
Lemma join_length n (g : list (list bool)) : Forall (fun x => length x = n) g -> length (mjoin g) = (n * length g)%nat.
Proof.
  induction 1 as [|x g Hx Hg IH]; [cbn; lia|]. rewrite join_cons. cbn [length]. rewrite app_length, IH, Hx. lia.
Qed.
Lemma flat_bits n g : Forall (fun x => length x = n) g -> flat_map (bits n) (map of_bits g) = mjoin g.
Proof.
  induction 1 as [|x g Hx Hg IH]; [done|]. cbn [map flat_map]. rewrite join_cons, IH, <- Hx, bits_of_bits. done.
Qed.

Lemma convert_back data : Forall (fun z => 0 <= z < 256) data ->
  exists vs, convert_bits 8 5 true data = Some vs /\ Forall (fun v => 0 <= v < 32) vs /\
    convert_bits 5 8 false vs = Some data /\ length vs = ((8 * length data + 4) / 5)%nat.
Proof.
  intros Hd. unfold convert_bits at 1. set (l := flat_map (bits 8) data).
  pose proof (groups_spec (length l) 5 l ltac:(lia) ltac:(lia)) as Hg.
  destruct (groups (length l) 5 l) as [g r]. destruct Hg as (Hl & Hg & Hr).
  assert (Hb : l = mjoin (map (bits 8) data)).
  { unfold l. clear. induction data as [|z data IH]; [done|]. cbn [flat_map map]. by rewrite join_cons, IH. }
  assert (H8 : Forall (fun x => length x = 8%nat) (map (bits 8) data)).
  { apply list.Forall_forall. intros x Hx. apply elem_of_list_In, in_map_iff in Hx as (z & <- & _). apply bits_length. }
  assert (Hlen : length l = (8 * length data)%nat) by (rewrite Hb, (join_length 8) by done; by rewrite map_length).
  assert (Hlen5 : length l = (5 * length g + length r)%nat) by (rewrite Hl, app_length, (join_length 5) by done; done).
  assert (Hof : map of_bits (map (bits 8) data) = data).
  { clear -Hd. induction Hd as [|z data Hz Hd IH]; [done|]. cbn [map]. rewrite IH, of_bits_bits by (cbn; lia). done. }
  assert (Hrng : Forall (fun v => 0 <= v < 32) (map of_bits g)).
  { apply list.Forall_forall. intros v Hv. apply elem_of_list_In, in_map_iff in Hv as (x & <- & Hx).
    apply elem_of_list_In in Hx. apply (proj1 (list.Forall_forall _ _) Hg) in Hx. pose proof (of_bits_range x) as H. rewrite Hx in H. exact H. }
  assert (Hback : forall vs pad, flat_map (bits 5) vs = l ++ pad -> (length pad <= 4)%nat -> pad = replicate (length pad) false ->
    convert_bits 5 8 false vs = Some data).
  { intros vs pad E Hp Hpf. unfold convert_bits. rewrite E, Hb, groups_join; [|lia|done|lia|].
    - rewrite Hof. destruct pad as [|b pad]; [done|].
      assert ((4 <? length (b :: pad))%nat = false) as -> by (apply Nat.ltb_ge; lia).
      rewrite Hpf, of_bits_false. done.
    - rewrite app_length, <- Hb, Hlen, map_length. lia. }
  destruct r as [|b r'] eqn:Er.
  - eexists. split; [reflexivity|]. split; [done|]. split.
    + apply (Hback _ []); [|simpl; lia|done]. rewrite (flat_bits 5) by done. by rewrite app_nil_r, Hl, app_nil_r.
    + rewrite map_length. simpl in Hlen5. apply (Nat.div_unique _ _ _ 4); lia.
  - rewrite <- Er in *. set (pad := replicate (5 - length r) false).
    assert (Hr5 : length (r ++ pad) = 5%nat) by (unfold pad; rewrite app_length, replicate_length; lia).
    assert (Hr0 : (0 < length r)%nat) by (rewrite Er; simpl; lia).
    exists (map of_bits g ++ [of_bits (r ++ pad)]). split; [done|]. split; [|split].
    + apply list.Forall_app. split; [done|]. constructor; [|constructor]. pose proof (of_bits_range (r ++ pad)) as H.
      rewrite Hr5 in H. exact H.
    + apply (Hback _ pad).
      * rewrite flat_map_app, (flat_bits 5) by done. cbn [flat_map]. rewrite app_nil_r. rewrite <- Hr5 at 1. rewrite bits_of_bits.
        rewrite Hl. by rewrite app_assoc.
      * unfold pad. rewrite replicate_length. lia.
      * unfold pad. by rewrite replicate_length.
    + rewrite app_length, map_length. cbn [length]. apply (Nat.div_unique _ _ _ (length r - 1)); lia.
Qed.

(** ** Checksum *)

Lemma feedback_lxor gs b c d : feedback gs b (Z.lxor c d) = Z.lxor (feedback gs b c) d.
Proof.
  revert b c. induction gs as [|g gs IH]; intros b c; [done|]. cbn [feedback]. destruct (Z.testbit b 0); [|apply IH].
  rewrite <- IH. f_equal. rewrite !Z.lxor_assoc. f_equal. apply Z.lxor_comm.
Qed.
(** lower bits go through unchanged *)
Lemma step_low c d v : 0 <= d < 2 ^ 25 -> poly_step (Z.lxor c d) v = Z.lxor (poly_step c 0) (Z.lxor (Z.shiftl d 5) v).
Proof.
  intros Hd. unfold poly_step. rewrite Z.shiftr_lxor.
  assert (E : Z.shiftr d 25 = 0) by (rewrite Z.shiftr_div_pow2 by lia; apply Z.div_small; lia).
  rewrite E, Z.lxor_0_r. rewrite <- feedback_lxor. f_equal. rewrite Z.lxor_0_r, <- Z.lxor_assoc. f_equal.
  rewrite <- Z.shiftl_lxor. f_equal.
  assert (Ed : Z.land d 0x1ffffff = d) by (change 0x1ffffff with (Z.ones 25); rewrite Z.land_ones by lia; apply Z.mod_small; lia).
  rewrite <- Ed at 2. apply Z.bits_inj'. intros n Hn. rewrite Z.land_spec, !Z.lxor_spec, !Z.land_spec.
  destruct (Z.testbit c n), (Z.testbit d n), (Z.testbit 0x1ffffff n); done.
Qed.

Lemma lxor_range a b n : 0 <= n -> 0 <= a < 2 ^ n -> 0 <= b < 2 ^ n -> 0 <= Z.lxor a b < 2 ^ n.
Proof.
  intros Hn Ha Hb. assert (Hp : 0 <= Z.lxor a b) by (apply Z.lxor_nonneg; lia). split; [done|].
  destruct (Z.eq_dec (Z.lxor a b) 0) as [->|Hz]; [apply Z.pow_pos_nonneg; lia|].
  apply Z.log2_lt_pow2; [lia|]. eapply Z.le_lt_trans; [apply Z.log2_lxor; lia|].
  apply Z.max_lub_lt.
  - destruct (Z.eq_dec a 0) as [->|]; [|apply Z.log2_lt_pow2; lia].
    cbn. destruct (Z.eq_dec n 0) as [->|]; [|lia]. assert (b = 0) by (cbn in Hb; lia). subst b. done.
  - destruct (Z.eq_dec b 0) as [->|]; [|apply Z.log2_lt_pow2; lia].
    cbn. destruct (Z.eq_dec n 0) as [->|]; [|lia]. assert (a = 0) by (cbn in Ha; lia). subst a. done.
Qed.
Lemma feedback_range gs b c : Forall (fun g => 0 <= g < 2 ^ 30) gs -> 0 <= c < 2 ^ 30 -> 0 <= feedback gs b c < 2 ^ 30.
Proof.
  revert b c. induction gs as [|g gs IH]; intros b c Hg Hc; [done|]. apply list.Forall_cons in Hg as [Hg1 Hg2]. cbn [feedback].
  apply IH; [done|]. destruct (Z.testbit b 0); [|done]. by apply lxor_range.
Qed.
Lemma gens_range : Forall (fun g => 0 <= g < 2 ^ 30) gens.
Proof. repeat (constructor; [vm_compute; split; [discriminate|reflexivity]|]). constructor. Qed.
Lemma step_range c v : 0 <= v < 32 -> 0 <= poly_step c v < 2 ^ 30.
Proof.
  intros Hv. unfold poly_step. apply feedback_range; [apply gens_range|]. apply lxor_range; [lia| |].
  - rewrite Z.shiftl_mul_pow2 by lia. change 0x1ffffff with (Z.ones 25). rewrite Z.land_ones by lia.
    pose proof (Z.mod_pos_bound c (2 ^ 25) ltac:(lia)). change (2 ^ 30) with (2 ^ 25 * 2 ^ 5). nia.
  - change (2 ^ 30) with 1073741824. lia.
Qed.
Lemma poly_range l c : Forall (fun v => 0 <= v < 32) l -> 0 <= c < 2 ^ 30 -> 0 <= fold_left poly_step l c < 2 ^ 30.
Proof.
  revert c. induction l as [|v l IH]; intros c Hl Hc; [done|]. apply list.Forall_cons in Hl as [Hv Hl]. cbn [fold_left].
  apply IH; [done|]. by apply step_range.
Qed.

(** six characters as one number *)
Definition pack (l : list Z) : Z := fold_left (fun a v => Z.lxor (Z.shiftl a 5) v) l 0.


Lemma lxor_digit d v : 0 <= d -> 0 <= v < 32 -> Z.lxor (Z.shiftl d 5) v = d * 32 + v.
Proof.
  intros Hd Hv. rewrite Z.shiftl_mul_pow2 by lia. change (2 ^ 5) with 32. symmetry. apply Z.add_nocarry_lxor.
  apply Z.bits_inj'. intros k Hk. rewrite Z.land_spec, Z.bits_0. change 32 with (2 ^ 5). destruct (Z.ltb_spec k 5) as [H|H].
  - rewrite Z.mul_pow2_bits_low by lia. done.
  - apply andb_false_iff. right. destruct (Z.eq_dec v 0) as [->|]; [apply Z.bits_0|].
    apply Z.bits_above_log2; [lia|]. eapply Z.lt_le_trans; [|exact H]. apply Z.log2_lt_pow2; [lia|]. change (2 ^ 5) with 32. lia.
Qed.
Lemma steps_pack l d c : Forall (fun v => 0 <= v < 32) l -> 0 <= d -> (d + 1) * 32 ^ Z.of_nat (length l) <= 2 ^ 30 ->
  fold_left poly_step l (Z.lxor c d) =
  Z.lxor (fold_left poly_step (replicate (length l) 0) c) (fold_left (fun a v => Z.lxor (Z.shiftl a 5) v) l d).
Proof.
  revert d c. induction l as [|v l IH]; intros d c Hl Hd Hs; [done|]. apply list.Forall_cons in Hl as [Hv Hl].
  cbn [fold_left length replicate]. cbn [length] in Hs. rewrite Nat2Z.inj_succ, Z.pow_succ_r in Hs by lia.
  assert (0 < 32 ^ Z.of_nat (length l)) by (apply Z.pow_pos_nonneg; lia).
  rewrite step_low by (change (2 ^ 30) with (32 * 2 ^ 25) in Hs; nia).
  rewrite IH; [done|done| |]; rewrite lxor_digit by lia; [lia|nia].
Qed.

Lemma six_steps c l : length l = 6%nat -> Forall (fun v => 0 <= v < 32) l ->
  fold_left poly_step l c = Z.lxor (fold_left poly_step [0; 0; 0; 0; 0; 0] c) (pack l).
Proof.
  intros Hl Hr. rewrite <- (Z.lxor_0_r c) at 1. rewrite (steps_pack l 0 c Hr); [|lia|rewrite Hl; vm_compute; discriminate].
  by rewrite Hl.
Qed.

(** the six characters of a number *)
Definition unpack (p : Z) : list Z := map (fun i => Z.land (Z.shiftr p (5 * (5 - i))) 31) [0; 1; 2; 3; 4; 5].
Lemma unpack_range p : Forall (fun v => 0 <= v < 32) (unpack p).
Proof.
  apply list.Forall_forall. intros v Hv. apply elem_of_list_In, in_map_iff in Hv as (i & <- & _).
  change 31 with (Z.ones 5). rewrite Z.land_ones by lia. apply Z.mod_pos_bound. lia.
Qed.
Lemma pack_unpack p : 0 <= p < 2 ^ 30 -> pack (unpack p) = p.
Proof.
  intros Hp. unfold pack, unpack. cbn [map fold_left].
  assert (E : forall i, 0 <= i -> Z.land (Z.shiftr p (5 * i)) 31 = p / 32 ^ i mod 32).
  { intros i Hi. change 31 with (Z.ones 5). rewrite Z.land_ones, Z.shiftr_div_pow2, Z.pow_mul_r by lia. done. }
  change (5 - 0) with 5. change (5 - 1) with 4. change (5 - 2) with 3. change (5 - 3) with 2. change (5 - 4) with 1. change (5 - 5) with 0.
  rewrite !E by lia.
  assert (R : forall a, 0 <= a mod 32 < 32) by (intros a; apply Z.mod_pos_bound; lia).
  rewrite (lxor_digit 0) by first [lia|apply R].
  pose proof (R (p / 32 ^ 5)). pose proof (R (p / 32 ^ 4)). pose proof (R (p / 32 ^ 3)). pose proof (R (p / 32 ^ 2)).
  pose proof (R (p / 32 ^ 1)). pose proof (R (p / 32 ^ 0)).
  repeat match goal with |- context [Z.lxor (Z.shiftl ?d 5) ?v] =>
    lazymatch d with context [Z.lxor] => fail | _ => rewrite (lxor_digit d v) by lia end end.
  change (32 ^ 0) with 1. change (32 ^ 1) with 32. change (32 ^ 2) with (32 * 32). change (32 ^ 3) with (32 * 32 * 32).
  change (32 ^ 4) with (32 * 32 * 32 * 32). change (32 ^ 5) with (32 * 32 * 32 * 32 * 32).
  rewrite <- !Z.div_div by lia. rewrite Z.div_1_r.
  set (p1 := p / 32). set (p2 := p1 / 32). set (p3 := p2 / 32). set (p4 := p3 / 32). set (p5 := p4 / 32).
  assert (p = 32 * p1 + p mod 32) by (apply Z.div_mod; lia). assert (p1 = 32 * p2 + p1 mod 32) by (apply Z.div_mod; lia).
  assert (p2 = 32 * p3 + p2 mod 32) by (apply Z.div_mod; lia). assert (p3 = 32 * p4 + p3 mod 32) by (apply Z.div_mod; lia).
  assert (p4 = 32 * p5 + p4 mod 32) by (apply Z.div_mod; lia).
  assert (p5 mod 32 = p5).
  { apply Z.mod_small. unfold p5, p4, p3, p2, p1. rewrite !Z.div_div by lia. split; [apply Z.div_pos; lia|].
    apply Z.div_lt_upper_bound; [lia|]. change (2 ^ 30) with 1073741824 in Hp. lia. }
  clearbody p1 p2 p3 p4 p5. lia.
Qed.

Lemma expand_range hrp : Forall (fun v => 0 <= v < 32) (hrp_expand hrp).
Proof.
  unfold hrp_expand. apply list.Forall_app. split; [|constructor; [lia|]].
  - apply list.Forall_forall. intros v Hv. apply elem_of_list_In, in_map_iff in Hv as (b & <- & _).
    rewrite Z.shiftr_div_pow2 by lia. pose proof (bz_range b). split; [apply Z.div_pos; lia|apply Z.div_lt_upper_bound; lia].
  - apply list.Forall_forall. intros v Hv. apply elem_of_list_In, in_map_iff in Hv as (b & <- & _).
    change 31 with (Z.ones 5). rewrite Z.land_ones by lia. apply Z.mod_pos_bound. lia.
Qed.
Lemma checksum_range hrp data : Forall (fun v => 0 <= v < 32) (checksum hrp data).
Proof. apply unpack_range. Qed.
Lemma checksum_length hrp data : length (checksum hrp data) = 6%nat.
Proof. done. Qed.
Lemma checksum_ok hrp data : Forall (fun v => 0 <= v < 32) data ->
  polymod (hrp_expand hrp ++ data ++ checksum hrp data) = 1.
Proof.
  intros Hd. unfold checksum. fold (unpack (Z.lxor (polymod (hrp_expand hrp ++ data ++ [0; 0; 0; 0; 0; 0])) 1)).
  unfold polymod. rewrite !app_assoc, !fold_left_app. set (c := fold_left poly_step data (fold_left poly_step (hrp_expand hrp) 1)).
  set (p := fold_left poly_step [0; 0; 0; 0; 0; 0] c).
  rewrite (six_steps c (unpack (Z.lxor p 1))); [|done|apply unpack_range]. fold p. rewrite pack_unpack.
  - rewrite <- Z.lxor_assoc, Z.lxor_nilpotent. apply Z.lxor_0_l.
  - apply lxor_range; [lia| |change (2 ^ 30) with 1073741824; lia].
    unfold p. apply poly_range; [repeat (constructor; [lia|]); constructor|].
    unfold c. apply poly_range; [done|]. apply poly_range; [apply expand_range|change (2 ^ 30) with 1073741824; lia].
Qed.

(** ** Characters *)

Lemma char_index v : 0 <= v < 32 -> exists b, char_of v = Some b /\ index_of charset b = Some v /\
  lower b = b /\ b <> "1"%byte /\ 33 <= bz b <= 126.
Proof.
  intros Hv. assert (H : forallb (fun v => match char_of v with
    | Some b => bool_decide (index_of charset b = Some v) && bool_decide (lower b = b) && bool_decide (b <> "1"%byte)
                && (33 <=? bz b) && (bz b <=? 126)
    | None => false end) (map Z.of_nat (seq 0 32)) = true) by (vm_compute; reflexivity).
  rewrite forallb_forall in H. specialize (H v). destruct (char_of v) as [b|].
  - exists b. split; [done|]. assert (Hin : In v (map Z.of_nat (seq 0 32))).
    { apply in_map_iff. exists (Z.to_nat v). split; [lia|]. apply in_seq. lia. }
    specialize (H Hin). rewrite !andb_true_iff in H. destruct H as [[[[H1 H2] H3] H4] H5].
    apply bool_decide_eq_true in H1, H2, H3. apply Z.leb_le in H4, H5. done.
  - assert (Hin : In v (map Z.of_nat (seq 0 32))).
    { apply in_map_iff. exists (Z.to_nat v). split; [lia|]. apply in_seq. lia. }
    specialize (H Hin). discriminate.
Qed.
Lemma chars_index l : Forall (fun v => 0 <= v < 32) l -> exists cs, mapM char_of l = Some cs /\
  mapM (index_of charset) cs = Some l /\ length cs = length l /\
  Forall (fun b => lower b = b /\ b <> "1"%byte /\ 33 <= bz b <= 126) cs.
Proof.
  intros H. assert (H' : exists cs, Forall2 (fun v b => char_of v = Some b) l cs /\ Forall2 (fun b v => index_of charset b = Some v) cs l /\
    Forall (fun b => lower b = b /\ b <> "1"%byte /\ 33 <= bz b <= 126) cs).
  { induction H as [|v l Hv Hl IH]; [exists []; repeat split; constructor|]. destruct (char_index v Hv) as (b & H1 & H2 & H3).
    destruct IH as (cs & I1 & I2 & I3). exists (b :: cs). repeat split; constructor; done. }
  destruct H' as (cs & H1 & H2 & H3). exists cs. split; [by apply mapM_Some_2|]. split; [by apply mapM_Some_2|].
  split; [by eapply Forall2_length|done].
Qed.

Lemma split_last_none q : Forall (fun b => b <> "1"%byte) q -> split_last q = None.
Proof.
  induction 1 as [|b q Hb Hq IH]; [done|]. cbn [split_last]. rewrite IH. by rewrite bool_decide_eq_false_2.
Qed.
Lemma split_last_app p q : Forall (fun b => b <> "1"%byte) q -> split_last (p ++ ["1"%byte] ++ q) = Some (p, q).
Proof.
  intros Hq. induction p as [|b p IH].
  - cbn [app split_last]. rewrite split_last_none by done. by rewrite bool_decide_eq_true_2.
  - cbn [app split_last]. cbn [app] in IH. by rewrite IH.
Qed.

(** ** Encoding and decoding *)

Lemma encode_some hrp data : Forall (fun v => 0 <= v < 32) data -> exists cs,
  encode hrp data = Some (hrp ++ ["1"%byte] ++ cs) /\ length cs = (length data + 6)%nat /\
  mapM (index_of charset) cs = Some (data ++ checksum hrp data) /\
  Forall (fun b => lower b = b /\ b <> "1"%byte /\ 33 <= bz b <= 126) cs.
Proof.
  intros Hd. destruct (chars_index (data ++ checksum hrp data)) as (cs & H1 & H2 & H3 & H4).
  { apply list.Forall_app. split; [done|apply checksum_range]. }
  exists cs. unfold encode. rewrite H1. rewrite app_length, checksum_length in H3. done.
Qed.

Lemma plain_lower b : prefix_byte b -> lower b = b.
Proof.
  intros [_ H]. unfold lower. destruct ((65 <=? bz b) && (bz b <=? 90)) eqn:E; [|done].
  apply andb_true_iff in E as [E1 E2]. apply Z.leb_le in E1, E2. lia.
Qed.
Lemma map_id_on {A} (f : A -> A) l : Forall (fun x => f x = x) l -> map f l = l.
Proof. induction 1 as [|x l Hx Hl IH]; [done|]. cbn [map]. by rewrite Hx, IH. Qed.

Lemma decode_encode hrp data t limit : hrp <> [] -> Forall prefix_byte hrp -> Forall (fun v => 0 <= v < 32) data ->
  encode hrp data = Some t -> (length hrp + length data + 7 <= limit)%nat -> decode limit t = Some (hrp, data).
Proof.
  intros Hne Hp Hd He Hlim. destruct (encode_some hrp data Hd) as (cs & E & Hlen & Hidx & Hcs). rewrite He in E. apply Some_inj in E. subst t.
  assert (Hl : length (hrp ++ ["1"%byte] ++ cs) = (length hrp + length data + 7)%nat) by (rewrite !app_length; cbn [length]; lia).
  assert (Hlow : map lower (hrp ++ ["1"%byte] ++ cs) = hrp ++ ["1"%byte] ++ cs).
  { apply map_id_on. apply list.Forall_app. split; [eapply list.Forall_impl; [exact Hp|apply plain_lower]|].
    apply list.Forall_app. split; [constructor; [reflexivity|constructor]|]. eapply list.Forall_impl; [exact Hcs|]. intros b H. apply H. }
  unfold decode. rewrite Hl, Hlow. destruct hrp as [|b0 hrp0]; [done|]. set (hrp := b0 :: hrp0) in *.
  assert ((length hrp + length data + 7 <? 8)%nat = false) as -> by (apply Nat.ltb_ge; cbn [hrp length]; lia).
  assert ((limit <? length hrp + length data + 7)%nat = false) as -> by (apply Nat.ltb_ge; lia).
  cbn [orb].
  assert (forallb (fun b => (33 <=? bz b) && (bz b <=? 126)) (hrp ++ ["1"%byte] ++ cs) = true) as ->.
  { apply forallb_forall. intros b Hb. apply andb_true_iff. rewrite !Z.leb_le. apply elem_of_list_In in Hb.
    apply elem_of_app in Hb as [Hb|Hb]; [by apply (proj1 (list.Forall_forall _ _) Hp) in Hb as [? _]|].
    apply elem_of_app in Hb as [Hb|Hb].
    - apply elem_of_list_singleton in Hb as ->. vm_compute. split; discriminate.
    - by apply (proj1 (list.Forall_forall _ _) Hcs) in Hb as (_ & _ & ?). }
  cbn [negb]. rewrite bool_decide_eq_true_2 by done. cbn [negb andb].
  rewrite split_last_app by (eapply list.Forall_impl; [exact Hcs|]; intros b H; apply H).
  rewrite (bool_decide_eq_false_2 (hrp = [])) by done.
  assert ((length cs <? 6)%nat = false) as -> by (apply Nat.ltb_ge; lia). cbn [orb]. rewrite Hidx.
  rewrite checksum_ok by done. cbn [Z.eqb Pos.eqb]. rewrite app_length, checksum_length.
  replace (length data + 6 - 6)%nat with (length data) by lia. by rewrite take_app.
Qed.

(** other prefixes give texts that are not read *)
Lemma decode_plain limit t hrp vs : decode limit t = Some (hrp, vs) ->
  (length t <= limit)%nat /\ Forall (fun b => 33 <= bz b <= 126) t /\ (t = map lower t \/ t = map upper t).
Proof.
  unfold decode. destruct (_ || _) eqn:E1; [done|]. destruct (negb (forallb _ t)) eqn:E2; [done|].
  destruct (negb _ && negb _) eqn:E3; [done|]. intros _. apply orb_false_iff in E1 as [_ E1]. apply Nat.ltb_ge in E1. split; [done|].
  apply negb_false_iff in E2. split.
  - apply list.Forall_forall. intros b Hb. apply elem_of_list_In in Hb. rewrite forallb_forall in E2. apply E2 in Hb.
    apply andb_true_iff in Hb. rewrite !Z.leb_le in Hb. done.
  - apply andb_false_iff in E3 as [E3|E3]; apply negb_false_iff, bool_decide_eq_true in E3; [by left|by right].
Qed.
Lemma lower_fix b : lower b = b -> ~ (65 <= bz b <= 90).
Proof.
  unfold lower. intros H Hb. rewrite (proj2 (andb_true_iff _ _)) in H by (rewrite !Z.leb_le; lia).
  apply (f_equal bz) in H. rewrite bz_zb, Z.mod_small in H by lia. lia.
Qed.
Lemma upper_fix b : upper b = b -> ~ (97 <= bz b <= 122).
Proof.
  unfold upper. intros H Hb. rewrite (proj2 (andb_true_iff _ _)) in H by (rewrite !Z.leb_le; lia).
  apply (f_equal bz) in H. rewrite bz_zb, Z.mod_small in H by lia. lia.
Qed.
Lemma map_fix {A} (f : A -> A) l x : l = map f l -> x ∈ l -> f x = x.
Proof.
  induction l as [|y l IH]; intros E Hx; [by apply not_elem_of_nil in Hx|]. injection E as E1 E2.
  apply elem_of_cons in Hx as [->|Hx]; [done|]. by apply IH.
Qed.

Lemma split_last_spec l p q : split_last l = Some (p, q) -> l = p ++ ["1"%byte] ++ q.
Proof.
  revert p. induction l as [|b l IH]; intros p; [done|]. cbn [split_last]. destruct (split_last l) as [[p' q']|].
  - intros [= <- <-]. by rewrite (IH p' eq_refl).
  - case_bool_decide as E; [|done]. intros [= <- <-]. by rewrite E.
Qed.
Lemma lower_byte b : 33 <= bz b <= 126 -> prefix_byte (lower b).
Proof.
  intros Hb. unfold lower, prefix_byte. destruct ((65 <=? bz b) && (bz b <=? 90)) eqn:E.
  - apply andb_true_iff in E as [E1 E2]. apply Z.leb_le in E1, E2. rewrite bz_zb, Z.mod_small by lia. lia.
  - split; [done|]. intros [H1 H2]. apply andb_false_iff in E. rewrite !Z.leb_gt in E. lia.
Qed.
Lemma decode_prefix limit t hrp vs : decode limit t = Some (hrp, vs) -> Forall prefix_byte hrp.
Proof.
  intros H. pose proof (decode_plain _ _ _ _ H) as (_ & Ht & _). unfold decode in H.
  destruct (_ || _) in H; [done|]. destruct (negb (forallb _ t)) in H; [done|]. destruct (negb _ && negb _) in H; [done|].
  destruct (split_last (map lower t)) as [[p q]|] eqn:E; [|done]. apply split_last_spec in E.
  destruct (_ || _) in H; [done|]. destruct (mapM _ q); [|done]. destruct (_ =? 1); [|done]. injection H as <- _.
  assert (Hl : Forall prefix_byte (map lower t)).
  { apply list.Forall_forall. intros b Hb. apply elem_of_list_In, in_map_iff in Hb as (c & <- & Hc). apply elem_of_list_In in Hc.
    apply lower_byte. by apply (proj1 (list.Forall_forall _ _) Ht). }
  rewrite E in Hl. by apply list.Forall_app in Hl as [? _].
Qed.

(** the SDK's functions. The prefix ends with a lower case word, so it must be of such bytes *)
Lemma convert_roundtrip p w data : w <> [] -> Forall (fun b => 97 <= bz b <= 122) w ->
  exists t, convert_and_encode (p ++ w) data = Some t /\ length t = (length p + length w + 7 + (8 * length data + 4) / 5)%nat /\
  (Forall prefix_byte p -> Forall (fun b => bz b < 128) t) /\
  (forall x, decode_and_convert t = Some x -> x = (p ++ w, data)) /\
  (decode_and_convert t = Some (p ++ w, data) <-> Forall prefix_byte p /\ (length t <= 1023)%nat).
Proof.
  intros Hw Hlow. destruct (convert_back (map bz data)) as (vs & Hvs & Hr & Hb & Hlen).
  { apply list.Forall_forall. intros z Hz. apply elem_of_list_In, in_map_iff in Hz as (b & <- & _). apply bz_range. }
  rewrite map_length in Hlen.
  destruct (encode_some (p ++ w) vs Hr) as (cs & He & Hcs & _ & Hch).
  exists ((p ++ w) ++ ["1"%byte] ++ cs). unfold convert_and_encode. rewrite Hvs. split; [exact He|].
  assert (Hlt : length ((p ++ w) ++ ["1"%byte] ++ cs) = (length p + length w + 7 + (8 * length data + 4) / 5)%nat).
  { rewrite !app_length. cbn [length]. lia. }
  split; [exact Hlt|]. split.
  { intros Hp. apply list.Forall_app. split; [apply list.Forall_app; split|apply list.Forall_app; split].
    - eapply list.Forall_impl; [exact Hp|]. intros b [H _]. lia.
    - eapply list.Forall_impl; [exact Hlow|]. intros b H. cbn in H. lia.
    - constructor; [reflexivity|constructor].
    - eapply list.Forall_impl; [exact Hch|]. intros b (_ & _ & H). lia. }
  assert (Hno : forall x, decode_and_convert ((p ++ w) ++ ["1"%byte] ++ cs) = Some x -> Forall prefix_byte p /\ (length ((p ++ w) ++ ["1"%byte] ++ cs) <= 1023)%nat).
  { intros x. unfold decode_and_convert. destruct (decode 1023 _) as [[hrp us]|] eqn:E; [|done]. intros _.
    apply decode_plain in E as (H1 & H2 & H3). split; [|done].
    apply list.Forall_forall. intros b Hin. split.
    - apply (proj1 (list.Forall_forall _ _) H2). rewrite <- app_assoc. apply elem_of_app. by left.
    - destruct H3 as [H3|H3].
      + apply lower_fix. apply (map_fix _ _ _ H3). rewrite <- app_assoc. apply elem_of_app. by left.
      + exfalso. destruct w as [|c w]; [done|]. apply (upper_fix c).
        * apply (map_fix _ _ _ H3). rewrite <- app_assoc. apply elem_of_app. right. left.
        * apply list.Forall_cons in Hlow as [Hc _]. exact Hc. }
  assert (Hyes : Forall prefix_byte p -> (length ((p ++ w) ++ ["1"%byte] ++ cs) <= 1023)%nat ->
    decode_and_convert ((p ++ w) ++ ["1"%byte] ++ cs) = Some (p ++ w, data)).
  { intros Hp Hl. unfold decode_and_convert. rewrite (decode_encode (p ++ w) vs); [|..|exact He|].
    - rewrite Hb. f_equal. f_equal. rewrite map_map. apply map_id_on. apply list.Forall_forall. intros b _. apply zb_bz.
    - destruct p; [exact Hw|discriminate].
    - apply list.Forall_app. split; [done|]. eapply list.Forall_impl; [exact Hlow|]. intros b Hb'. cbn in Hb'. split; lia.
    - done.
    - rewrite Hlt in Hl. rewrite app_length. lia. }
  split.
  - intros x Hx. destruct (Hno x Hx) as [H1 H2]. rewrite (Hyes H1 H2) in Hx. by injection Hx as <-.
  - split; [apply Hno|]. intros [H1 H2]. by apply Hyes.
Qed.

Lemma read_prefix t hrp data : decode_and_convert t = Some (hrp, data) -> Forall prefix_byte hrp.
Proof.
  unfold decode_and_convert. destruct (decode 1023 t) as [[h vs]|] eqn:E; [|done]. destruct (convert_bits 5 8 false vs); [|done].
  intros [= <- _]. by eapply decode_prefix.
Qed.

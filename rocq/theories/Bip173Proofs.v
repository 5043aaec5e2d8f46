(** The functions of Bech32.v are BIP 173. *)
From Coq Require Import Strings.String.
From Verif Require Import GoBase Json Bech32 AddressSpec Bech32Proofs Bip173.
Local Open Scope list_scope.
Local Open Scope Z_scope.
Local Notation five := (Forall (fun v => 0 <= v < 32)).

(** ** Long division *)
Lemma remainder_det l r1 r2 : remainder l r1 -> remainder l r2 -> r1 = r2.
Proof.
  intros H. revert r2. induction H as [l Hl|c hs rest r Hh H IH]; intros r2 H2.
  - inversion H2 as [l' Hl'|c hs rest r Hh H]; subst; [done|]. simpl in Hl. rewrite app_length in Hl. lia.
  - inversion H2 as [l' Hl'|c' hs' rest' r' Hh' H']; subst.
    + simpl in Hl'. rewrite app_length in Hl'. lia.
    + apply app_inj_1 in H1 as [-> ->]; [|lia]. by apply IH.
Qed.
Lemma remainder_zero l r : (6 <= length l)%nat -> remainder l r -> remainder (0 :: l) r.
Proof.
  intros Hl H. rewrite <- (take_drop 6 l). apply rem_step; [rewrite take_length; lia|].
  replace (zip_with Z.lxor (take 6 l) (map (gf_mul 0) generator)) with (take 6 l); [by rewrite take_drop|].
  do 6 (destruct l as [|? l]; [simpl in Hl; lia|]). cbn -[Z.lxor]. change (map (gf_mul 0) generator) with [0; 0; 0; 0; 0; 0].
  cbn [take zip_with]. by rewrite !Z.lxor_0_r.
Qed.

(** the state of the algorithm holds six coefficients *)
Lemma pack_six a b c d e f : pack [a; b; c; d; e; f] =
  Z.lxor (Z.shiftl (Z.lxor (Z.shiftl (Z.lxor (Z.shiftl (Z.lxor (Z.shiftl (Z.lxor (Z.shiftl a 5) b) 5) c) 5) d) 5) e) 5) f.
Proof. unfold pack. cbn [fold_left]. by rewrite Z.shiftl_0_l, Z.lxor_0_l. Qed.
Lemma six_list {A} (l : list A) : length l = 6%nat -> exists a b c d e f, l = [a; b; c; d; e; f].
Proof. intros H. do 6 (destruct l as [|? l]; [done|]). destruct l; [|done]. by eexists _, _, _, _, _, _. Qed.
Lemma lxor_swap a b c d : Z.lxor (Z.lxor a b) (Z.lxor c d) = Z.lxor (Z.lxor a c) (Z.lxor b d).
Proof. rewrite !Z.lxor_assoc. f_equal. rewrite <- !Z.lxor_assoc. f_equal. apply Z.lxor_comm. Qed.
Lemma pack_lxor l m : length l = 6%nat -> length m = 6%nat -> pack (zip_with Z.lxor l m) = Z.lxor (pack l) (pack m).
Proof.
  intros (a & b & c & d & e & f & ->)%six_list (a' & b' & c' & d' & e' & f' & ->)%six_list. cbn [zip_with]. rewrite !pack_six.
  rewrite lxor_swap. f_equal. rewrite <- Z.shiftl_lxor. f_equal.
  rewrite lxor_swap. f_equal. rewrite <- Z.shiftl_lxor. f_equal.
  rewrite lxor_swap. f_equal. rewrite <- Z.shiftl_lxor. f_equal.
  rewrite lxor_swap. f_equal. rewrite <- Z.shiftl_lxor. f_equal.
  rewrite lxor_swap. f_equal. by rewrite <- Z.shiftl_lxor.
Qed.
Lemma pack_digits a b c d e f : five [a; b; c; d; e; f] ->
  pack [a; b; c; d; e; f] = ((((a * 32 + b) * 32 + c) * 32 + d) * 32 + e) * 32 + f.
Proof.
  intros H. rewrite pack_six. repeat (apply list.Forall_cons in H as [? H]).
  repeat match goal with |- context [Z.lxor (Z.shiftl ?d 5) ?v] =>
    lazymatch d with context [Z.lxor] => fail | _ => rewrite (lxor_digit d v) by lia end end. done.
Qed.
Lemma pack_inj l m : length l = 6%nat -> length m = 6%nat -> five l -> five m -> pack l = pack m -> l = m.
Proof.
  intros (a & b & c & d & e & f & ->)%six_list (a' & b' & c' & d' & e' & f' & ->)%six_list Hl Hm.
  rewrite !pack_digits by done. repeat (apply list.Forall_cons in Hl as [? Hl]). repeat (apply list.Forall_cons in Hm as [? Hm]).
  intros E. assert (f = f') by lia. assert (e = e') by lia. assert (d = d') by lia. assert (c = c') by lia.
  assert (b = b') by lia. assert (a = a') by lia. by subst.
Qed.

(** what one coefficient subtracts: all 32 cases *)
Definition feedback_ok (c : Z) : bool :=
  (poly_step (Z.shiftl c 25) 0 =? pack (map (gf_mul c) generator)) &&
  forallb (fun v => (0 <=? v) && (v <? 32)) (map (gf_mul c) generator).
Lemma feedback_all : forallb feedback_ok (seqZ 0 32) = true.
Proof. vm_compute. reflexivity. Qed.
Lemma feedback_gen c : 0 <= c < 32 ->
  poly_step (Z.shiftl c 25) 0 = pack (map (gf_mul c) generator) /\ five (map (gf_mul c) generator).
Proof.
  intros Hc. pose proof feedback_all as H. rewrite forallb_forall in H.
  assert (Hi : In c (seqZ 0 32)) by (apply elem_of_list_In, elem_of_seqZ; lia).
  apply H in Hi. apply andb_true_iff in Hi as [H1 H2]. apply Z.eqb_eq in H1. split; [exact H1|].
  rewrite forallb_forall in H2. apply list.Forall_forall. intros v Hv%elem_of_list_In. apply H2 in Hv. lia.
Qed.

Lemma lxor_five l m : five l -> five m -> five (zip_with Z.lxor l m).
Proof.
  intros Hl. revert m. induction Hl as [|v l Hv Hl IH]; intros m Hm; [constructor|]. destruct Hm as [|w m Hw Hm]; [constructor|].
  cbn. constructor; [apply (lxor_range v w 5); lia|by apply IH].
Qed.
Lemma step_divides c hs v : length hs = 5%nat -> 0 <= c < 32 -> five hs -> 0 <= v < 32 ->
  poly_step (pack (c :: hs)) v = pack (zip_with Z.lxor (hs ++ [v]) (map (gf_mul c) generator)).
Proof.
  intros Hl Hc Hh Hv. rewrite pack_lxor by (try done; rewrite app_length, Hl; done).
  destruct (feedback_gen c Hc) as [<- _]. rewrite Z.lxor_comm.
  do 5 (destruct hs as [|? hs]; [done|]). destruct hs; [|done].
  assert (E : forall w, pack [z; z0; z1; z2; z3; w] = Z.lxor (Z.shiftl (pack [0; z; z0; z1; z2; z3]) 5) w).
  { intros w. rewrite !pack_six. rewrite (Z.shiftl_0_l 5), Z.lxor_0_l. done. }
  cbn [app]. rewrite E, <- step_low.
  - f_equal. rewrite !pack_six. rewrite !Z.shiftl_lxor, !Z.shiftl_shiftl by lia. rewrite Z.shiftl_0_l, Z.lxor_0_l.
    rewrite <- !Z.lxor_assoc. reflexivity.
  - rewrite pack_digits by (constructor; [lia|done]). repeat (apply list.Forall_cons in Hh as [? Hh]).
    change (2 ^ 25) with 33554432. lia.
Qed.
Lemma steps_divide vs hs : length hs = 6%nat -> five hs -> five vs ->
  exists r, length r = 6%nat /\ five r /\ remainder (hs ++ vs) r /\ fold_left poly_step vs (pack hs) = pack r.
Proof.
  revert hs. induction vs as [|v vs IH]; intros hs Hl Hh Hv.
  - exists hs. rewrite app_nil_r. repeat split; [done|done|by constructor].
  - destruct hs as [|c hs]; [done|]. injection Hl as Hl. apply list.Forall_cons in Hh as [Hc Hh]. apply list.Forall_cons in Hv as [Hv0 Hv].
    destruct (feedback_gen c Hc) as [_ Hg].
    destruct (IH (zip_with Z.lxor (hs ++ [v]) (map (gf_mul c) generator))) as (r & R1 & R2 & R3 & R4).
    + rewrite zip_with_length, app_length, Hl. done.
    + apply lxor_five; [|done]. apply list.Forall_app. split; [done|]. by constructor.
    + done.
    + exists r. split; [done|]. split; [done|]. split.
      * change ((c :: hs) ++ v :: vs) with (c :: hs ++ [v] ++ vs). rewrite (app_assoc hs). apply rem_step; [|exact R3].
        rewrite app_length, Hl. done.
      * cbn [fold_left]. by rewrite step_divides.
Qed.
Lemma polymod_remainder vs : five vs -> (5 <= length vs)%nat ->
  polymod vs = 1 <-> remainder (1 :: vs) [0; 0; 0; 0; 0; 1].
Proof.
  intros Hv Hl. assert (H1 : five [0; 0; 0; 0; 0; 1]) by (repeat (constructor; [lia|]); constructor).
  destruct (steps_divide vs [0; 0; 0; 0; 0; 1] eq_refl H1 Hv) as (r & R1 & R2 & R3 & R4).
  unfold polymod. change 1 with (pack [0; 0; 0; 0; 0; 1]) at 1 2. rewrite R4.
  assert (Hex : exists r', remainder (1 :: vs) r').
  { destruct vs as [|v1 [|v2 [|v3 [|v4 [|v5 vs]]]]]; try (simpl in Hl; lia).
    repeat (apply list.Forall_cons in Hv as [? Hv]).
    destruct (steps_divide vs [1; v1; v2; v3; v4; v5] eq_refl) as (r' & _ & _ & R' & _); [|exact Hv|by exists r'].
    repeat (constructor; [lia|]). constructor. }
  destruct Hex as [r' Hr'].
  assert (Hz : forall n, remainder (replicate n 0 ++ 1 :: vs) r').
  { induction n as [|n IH]; [exact Hr'|]. cbn [replicate app]. apply remainder_zero; [rewrite app_length; simpl; lia|exact IH]. }
  assert (r' = r) as -> by (eapply remainder_det; [exact (Hz 5%nat)|exact R3]).
  split.
  - intros E. apply pack_inj in E as ->; [exact Hr'|done|done|done|done].
  - intros E. by rewrite (remainder_det _ _ _ Hr' E).
Qed.

(** ** Bits *)
Lemma word5 z : word_bits 5 z = bits 5 z.
Proof. reflexivity. Qed.
Lemma word8 z : word_bits 8 z = bits 8 z.
Proof. reflexivity. Qed.
Lemma flat_length n l : length (flat_map (bits n) l) = (n * length l)%nat.
Proof. induction l as [|z l IH]; [cbn; lia|]. cbn [flat_map length]. rewrite app_length, bits_length, IH. lia. Qed.
Lemma flat_inj n l m : Forall (fun v => 0 <= v < 2 ^ Z.of_nat n) l -> Forall (fun v => 0 <= v < 2 ^ Z.of_nat n) m ->
  length l = length m -> flat_map (bits n) l = flat_map (bits n) m -> l = m.
Proof.
  intros Hl. revert m. induction Hl as [|v l Hv Hl IH]; intros m Hm Hlen E; [by destruct m|].
  destruct Hm as [|w m Hw Hm]; [done|]. cbn [flat_map] in E. apply app_inj_1 in E as [E1 E2]; [|by rewrite !bits_length].
  f_equal; [|apply IH; [done|by injection Hlen|done]]. by rewrite <- (of_bits_bits n v), <- (of_bits_bits n w), E1 by done.
Qed.
Lemma bits_zero n : bits n 0 = replicate n false.
Proof. induction n as [|n IH]; [done|]. cbn [bits replicate]. by rewrite Z.bits_0, IH. Qed.
Lemma data_bits data : flat_map (fun b => word_bits 8 (bz b)) data = flat_map (bits 8) (map bz data).
Proof. induction data as [|b data IH]; [done|]. cbn [flat_map map]. by rewrite IH. Qed.
Lemma bytes_range data : Forall (fun z => 0 <= z < 2 ^ Z.of_nat 8) (map bz data).
Proof. apply list.Forall_forall. intros z (b & -> & _)%elem_of_list_fmap. apply bz_range. Qed.

Lemma back_bits vs l : convert_bits 5 8 false vs = Some l <->
  Forall (fun z => 0 <= z < 2 ^ Z.of_nat 8) l /\ exists pad, (pad < 5)%nat /\ flat_map (bits 5) vs = flat_map (bits 8) l ++ replicate pad false.
Proof.
  unfold convert_bits. set (s := flat_map (bits 5) vs).
  pose proof (groups_spec (length s) 8 s ltac:(lia) ltac:(lia)) as Hg.
  destruct (groups (length s) 8 s) as [g r] eqn:Eg. destruct Hg as (Hs & Hg & Hr).
  assert (Hrng : Forall (fun z => 0 <= z < 2 ^ Z.of_nat 8) (map of_bits g)).
  { apply list.Forall_forall. intros v (x & -> & Hx)%elem_of_list_fmap.
    apply (proj1 (list.Forall_forall _ _) Hg) in Hx. pose proof (of_bits_range x) as H. by rewrite Hx in H. }
  split.
  - intros H. assert (Hc : l = map of_bits g /\ (length r <= 4)%nat /\ of_bits r = 0).
    { destruct r as [|x r]; [injection H as <-; simpl; repeat split; lia|].
      destruct (4 <? length (x :: r))%nat eqn:E4; [done|]. apply Nat.ltb_ge in E4.
      destruct (of_bits (x :: r) =? 0) eqn:E0; [|done]. apply Z.eqb_eq in E0. injection H as <-. done. }
    destruct Hc as (-> & H4 & H0). split; [done|]. exists (length r). split; [lia|].
    rewrite Hs, (flat_bits 8) by done. f_equal. by rewrite <- (bits_of_bits r) at 1; rewrite H0, bits_zero.
  - intros (Hl & pad & Hp & E).
    assert (Hj : flat_map (bits 8) l = mjoin (map (bits 8) l)).
    { clear. induction l as [|z l IH]; [done|]. cbn [flat_map map]. by rewrite join_cons, IH. }
    assert (H8 : Forall (fun x => length x = 8%nat) (map (bits 8) l)).
    { apply list.Forall_forall. intros x (z & -> & _)%elem_of_list_fmap. apply bits_length. }
    rewrite E, Hj, groups_join in Eg; [|lia|done|rewrite replicate_length; lia|].
    2:{ rewrite app_length, (join_length 8), map_length by done. lia. }
    apply pair_equal_spec in Eg as [<- <-].
    assert (Hm : map of_bits (map (bits 8) l) = l).
    { clear -Hl. induction Hl as [|z l Hz Hl IH]; [done|]. cbn [map]. by rewrite IH, of_bits_bits by done. }
    rewrite Hm, replicate_length, of_bits_false. destruct pad as [|pad]; [done|]. cbn [replicate].
    by rewrite (proj2 (Nat.ltb_ge 4 (S pad)) ltac:(lia)).
Qed.

(** ** Characters *)
Lemma table_charset : bip_table = charset.
Proof. reflexivity. Qed.
Lemma char_char v c : bip_char v c <-> char_of v = Some c.
Proof.
  unfold bip_char, char_of. rewrite table_charset. destruct (Z.ltb_spec v 0) as [H|H]; split.
  - intros [? _]. lia.
  - discriminate.
  - by intros [_ ?].
  - intros ?. split; [lia|done].
Qed.
Lemma char_five v c : char_of v = Some c -> 0 <= v < 32.
Proof.
  unfold char_of. destruct (Z.ltb_spec v 0) as [H|H]; [done|]. intros E%lookup_lt_Some.
  change (length charset) with 32%nat in E. lia.
Qed.
Lemma index_char c v : index_of charset c = Some v <-> char_of v = Some c.
Proof.
  split.
  - assert (G : forall l, index_of l c = Some v -> 0 <= v /\ l !! Z.to_nat v = Some c).
    { intros l. revert v. induction l as [|x l IH]; intros w H; [done|]. cbn [index_of] in H. case_bool_decide as E.
      - injection H as <-. subst x. split; [lia|done].
      - destruct (index_of l c) as [u|]; [|done]. injection H as <-. destruct (IH u eq_refl) as [H1 H2]. split; [lia|].
        by rewrite Z2Nat.inj_succ by lia. }
    intros H. destruct (G _ H) as [H1 H2]. unfold char_of. by rewrite (proj2 (Z.ltb_ge v 0)) by lia.
  - intros H. destruct (char_index v (char_five _ _ H)) as (b & Hb & Hi & _). rewrite H in Hb. by injection Hb as <-.
Qed.
Lemma chars_iff vs cs : Forall2 bip_char vs cs <-> mapM (index_of charset) cs = Some vs.
Proof.
  rewrite mapM_Some. split; intros H; induction H as [|x y l m Hx H IH]; constructor; try done.
  - by apply index_char, char_char.
  - by apply char_char, index_char.
Qed.
Lemma chars_five vs cs : Forall2 bip_char vs cs -> five vs /\ Forall (fun b => prefix_byte b /\ b <> "1"%byte) cs.
Proof.
  induction 1 as [|v c vs cs Hc H [I1 I2]]; [split; constructor|]. apply char_char in Hc. pose proof (char_five _ _ Hc) as Hv.
  destruct (char_index v Hv) as (b & Hb & _ & Hl & Hn & Hr). rewrite Hc in Hb. injection Hb as <-.
  split; constructor; try done. split; [|done]. split; [done|]. by apply lower_fix.
Qed.
Lemma chars_det vs c1 c2 : Forall2 bip_char vs c1 -> Forall2 bip_char vs c2 -> c1 = c2.
Proof.
  intros H. revert c2. induction H as [|v c vs c1 [_ Hc] H IH]; intros c2 H2; [by apply Forall2_nil_inv_l in H2 as ->|].
  apply Forall2_cons_inv_l in H2 as (c' & c2' & [_ Hc'] & H2 & ->). rewrite Hc in Hc'. injection Hc' as <-. f_equal. by apply IH.
Qed.
Lemma expand_bip hrp : hrp_expand hrp = map (fun b => bz b / 32) hrp ++ [0] ++ map (fun b => bz b mod 32) hrp.
Proof.
  unfold hrp_expand. f_equal; [|f_equal]; apply map_ext; intros b; [by rewrite Z.shiftr_div_pow2 by lia|].
  change 31 with (Z.ones 5). by rewrite Z.land_ones by lia.
Qed.
Lemma checked hrp vs : five vs -> (6 <= length vs)%nat ->
  polymod (hrp_expand hrp ++ vs) = 1 <->
  remainder (1 :: map (fun b => bz b / 32) hrp ++ [0] ++ map (fun b => bz b mod 32) hrp ++ vs) [0; 0; 0; 0; 0; 1].
Proof.
  intros Hv Hl. rewrite polymod_remainder.
  - by rewrite expand_bip, <- !app_assoc.
  - apply list.Forall_app. split; [apply expand_range|done].
  - rewrite app_length. lia.
Qed.

(** what is encoded *)
Lemma encode_bip hrp data t : hrp <> [] -> Forall prefix_byte hrp -> convert_and_encode hrp data = Some t <-> bip173 hrp data t.
Proof.
  intros Hne Hp. destruct (convert_back (map bz data)) as (vs & Hvs & Hr & Hb & _); [apply (bytes_range data)|].
  destruct (encode_some hrp vs Hr) as (cs & He & _ & Hcs & _).
  unfold convert_and_encode. rewrite Hvs, He.
  apply back_bits in Hb as (_ & pad & Hpad & Hbits). apply chars_iff in Hcs. split.
  - intros [= <-]. split; [done|]. split; [done|]. exists vs, (checksum hrp vs), cs, pad.
    split; [done|]. split; [done|]. split; [done|]. split; [done|]. split; [by rewrite data_bits|].
    apply (checked hrp (vs ++ checksum hrp vs)).
    + apply list.Forall_app. split; [done|apply checksum_range].
    + rewrite app_length, checksum_length. lia.
    + by apply checksum_ok.
  - intros (_ & _ & vs' & cs' & chars & pad' & Hc6 & Hp' & -> & Hch & Hbits' & Hrem).
    destruct (chars_five _ _ Hch) as [[Hv5 Hc5]%list.Forall_app _].
    apply (checked hrp (vs' ++ cs')) in Hrem; [|apply list.Forall_app; done|rewrite app_length; lia].
    change (flat_map (word_bits 5) vs') with (flat_map (bits 5) vs') in Hbits'. rewrite data_bits in Hbits'.
    assert (L : length (flat_map (bits 5) vs) = length (flat_map (bits 8) (map bz data) ++ replicate pad false)) by congruence.
    assert (L' : length (flat_map (bits 5) vs') = length (flat_map (bits 8) (map bz data) ++ replicate pad' false)) by congruence.
    rewrite app_length, !flat_length, replicate_length in L, L'.
    assert (pad' = pad) as -> by lia.
    assert (vs' = vs) as ->.
    { apply (flat_inj 5); [done|done|lia|]. congruence. }
    assert (cs' = checksum hrp vs) as ->.
    { pose proof (checksum_ok hrp vs Hr) as Hk. unfold polymod in Hrem, Hk. rewrite app_assoc, fold_left_app in Hrem, Hk.
      rewrite six_steps in Hrem by done. rewrite six_steps in Hk by (try done; apply checksum_range).
      revert Hrem Hk. generalize (fold_left poly_step [0; 0; 0; 0; 0; 0] (fold_left poly_step (hrp_expand hrp ++ vs) 1)). intros P Hrem Hk.
      apply pack_inj; [done|done|done|apply checksum_range|]. rewrite <- Hk in Hrem. apply (f_equal (Z.lxor P)) in Hrem.
      by rewrite <- !Z.lxor_assoc, !Z.lxor_nilpotent, !Z.lxor_0_l in Hrem. }
    f_equal. f_equal. f_equal. exact (chars_det _ _ _ Hcs Hch).
Qed.

(** what is read *)
Lemma decode_bip t p d : Forall prefix_byte t ->
  decode_and_convert t = Some (p, d) <-> (length t <= 1023)%nat /\ bip173 p d t.
Proof.
  intros Ht. assert (Hlow : map lower t = t).
  { apply map_id_on. eapply list.Forall_impl; [exact Ht|]. apply plain_lower. }
  unfold decode_and_convert, decode. rewrite Hlow. rewrite bool_decide_eq_true_2 by done. cbn [negb andb].
  assert (Hasc : forallb (fun b => (33 <=? bz b) && (bz b <=? 126)) t = true).
  { apply forallb_forall. intros b Hb%elem_of_list_In. apply (proj1 (list.Forall_forall _ _) Ht) in Hb as [Hb _]. lia. }
  rewrite Hasc. cbn [negb]. split.
  - destruct ((length t <? 8)%nat || (1023 <? length t)%nat) eqn:El; [done|]. apply orb_false_iff in El as [_ El]. apply Nat.ltb_ge in El.
    destruct (split_last t) as [[hrp cs]|] eqn:Es; [|done]. apply split_last_spec in Es.
    destruct (bool_decide (hrp = []) || (length cs <? 6)%nat) eqn:Eh; [done|]. apply orb_false_iff in Eh as [Hne H6].
    apply bool_decide_eq_false in Hne. apply Nat.ltb_ge in H6.
    destruct (mapM (index_of charset) cs) as [vs|] eqn:Em; [|done]. destruct (polymod (hrp_expand hrp ++ vs) =? 1) eqn:Ep; [|done].
    apply Z.eqb_eq in Ep. destruct (convert_bits 5 8 false _) as [l|] eqn:Ec; [|done]. intros [= <- <-]. split; [done|].
    split; [done|]. split; [rewrite Es in Ht; by apply list.Forall_app in Ht as [? _]|].
    apply chars_iff in Em. pose proof (Forall2_length _ _ _ Em) as Hlen.
    apply back_bits in Ec as (Hl & pad & Hpad & Hbits).
    exists (take (length vs - 6) vs), (drop (length vs - 6) vs), cs, pad.
    split; [rewrite drop_length; lia|]. split; [done|]. split; [done|]. rewrite take_drop. split; [done|]. split.
    + change (flat_map (word_bits 5)) with (flat_map (bits 5)). rewrite data_bits, Hbits. f_equal. f_equal.
      clear -Hl. induction Hl as [|z l Hz Hl IH]; [done|]. cbn [map]. rewrite <- IH. f_equal. rewrite bz_zb. symmetry. apply Z.mod_small. exact Hz.
    + apply (checked hrp vs); [by apply chars_five in Em as [? _]|lia|done].
  - intros (Hl & Hne & Hp & vs & cs & chars & pad & H6 & Hpad & E & Hch & Hbits & Hrem).
    pose proof (Forall2_length _ _ _ Hch) as Hlen. rewrite app_length in Hlen.
    destruct (chars_five _ _ Hch) as [H5 Hc].
    assert (Hlt : length t = (length p + (1 + length chars))%nat) by (rewrite E, !app_length; done).
    assert (Hp1 : (0 < length p)%nat) by (destruct p; [done|simpl; lia]).
    rewrite (proj2 (Nat.ltb_ge (length t) 8)) by lia. rewrite (proj2 (Nat.ltb_ge 1023 (length t))) by lia. cbn [orb].
    rewrite E, split_last_app by (eapply list.Forall_impl; [exact Hc|]; by intros b [_ ?]).
    rewrite bool_decide_eq_false_2 by done. rewrite (proj2 (Nat.ltb_ge (length chars) 6)) by lia. cbn [orb].
    apply chars_iff in Hch. rewrite Hch.
    rewrite (proj2 (Z.eqb_eq _ _) (proj2 (checked p (vs ++ cs) H5 ltac:(rewrite app_length; lia)) Hrem)).
    rewrite app_length, H6, Nat.add_sub, take_app.
    change (flat_map (word_bits 5) vs) with (flat_map (bits 5) vs) in Hbits. rewrite data_bits in Hbits.
    rewrite (proj2 (back_bits vs (map bz d))).
    + do 2 f_equal. rewrite map_map. apply map_id_on. apply list.Forall_forall. intros b _. apply zb_bz.
    + split; [apply bytes_range|]. by exists pad.
Qed.

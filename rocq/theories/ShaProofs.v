(** Proofs for Sha.v against ShaSpec.v *)
From Coq Require Import Znumtheory Sorting.Sorted.
From stdpp Require Import sorting.
From Verif Require Import GoBase Wire EdBytes EdSpec EdSpecProofs Sha ShaSpec.
Local Open Scope Z_scope.

(** ** Bytes *)
Lemma be_enc_length n z : length (be_enc n z) = n.
Proof. unfold be_enc. by rewrite rev_length, le_enc_length. Qed.
Lemma rev_reverse {A} (l : list A) : rev l = reverse l.
Proof. apply rev_alt. Qed.
Lemma big_little k n b : big_endian k n b <-> little k n (rev b).
Proof.
  unfold big_endian, little. rewrite rev_length. split; intros (Hl & Hn & Hb); (split; [done|]; split; [done|]); intros i x E.
  - rewrite rev_reverse in E. apply reverse_lookup_Some in E as [E Hi]. apply Hb in E as ->. do 3 f_equal. lia.
  - assert (Hi : (i < length b)%nat) by (by eapply lookup_lt_Some).
    rewrite (Hb (length b - S i)%nat x). { do 3 f_equal. lia. }
    rewrite rev_reverse. apply reverse_lookup_Some. split; [|lia]. rewrite <- E. f_equal. lia.
Qed.
Lemma big_enc k n b : big_endian k n b <-> 0 <= n < 256 ^ Z.of_nat k /\ b = be_enc k n.
Proof.
  rewrite big_little, little_enc. unfold be_enc. split; intros [H E]; (split; [done|]).
  - by rewrite <- E, rev_involutive.
  - rewrite E. apply rev_involutive.
Qed.
Lemma be_num_le b : be_num b = Ed25519.le_num (rev b).
Proof.
  unfold be_num, Ed25519.le_num. rewrite <- fold_left_rev_right.
  induction (rev b) as [|x l IH]; [done|]. cbn [fold_right]. rewrite <- IH. lia.
Qed.
Lemma be_num_enc k n : 0 <= n < 256 ^ Z.of_nat k -> be_num (be_enc k n) = n.
Proof. intros H. rewrite be_num_le. unfold be_enc. rewrite rev_involutive. by apply le_num_enc. Qed.
Lemma big_num k n b : big_endian k n b <-> length b = k /\ n = be_num b.
Proof. rewrite big_little, little_num, be_num_le, rev_length. done. Qed.

(** ** Slices *)
Section Chunks.
Context {A : Type} (n : nat) (Hn : (0 < n)%nat).
Lemma chunks_more f f' (l : list A) : (length l <= f)%nat -> (length l <= f')%nat -> chunks f n l = chunks f' n l.
Proof.
  revert f' l. induction f as [|f IH]; intros f' l H H'; [destruct l; [by destruct f'|cbn in H; lia]|].
  destruct l as [|x l]; [by destruct f'|]. destruct f' as [|f']; [cbn in H'; lia|]. cbn [chunks]. f_equal.
  apply IH; rewrite drop_length; cbn [length] in *; lia.
Qed.
Lemma chunks_concat (ls : list (list A)) : Forall (fun c => length c = n) ls -> chunks (length (concat ls)) n (concat ls) = ls.
Proof.
  induction 1 as [|c ls Hc H IH]; [done|]. cbn [concat]. destruct c as [|x c]; [cbn in Hc; lia|].
  cbn [app length chunks]. change (x :: c ++ concat ls) with ((x :: c) ++ concat ls).
  rewrite take_app_alt, drop_app_alt by done. f_equal. etransitivity; [|exact IH]. apply chunks_more; rewrite ?app_length; lia.
Qed.
Lemma chunks_split (l : list A) : (length l mod n = 0)%nat -> exists ls, Forall (fun c => length c = n) ls /\ l = concat ls.
Proof.
  remember (length l) as k eqn:E. revert l E. induction (lt_wf k) as [k _ IH]. intros l -> Hm.
  destruct l as [|x l']; [by exists []|]. set (l := x :: l') in *.
  assert (Hl : (n <= length l)%nat).
  { destruct (Nat.le_gt_cases n (length l)) as [?|H]; [done|]. rewrite Nat.mod_small in Hm by done. unfold l in Hm. cbn in Hm. lia. }
  destruct (IH (length (drop n l))) with (l := drop n l) as (ls & H1 & H2); [rewrite drop_length; lia|done| |].
  { rewrite drop_length. rewrite <- (Nat.mod_add (length l - n) 1 n) by lia. rewrite Nat.mul_1_l. by rewrite Nat.sub_add. }
  exists (take n l :: ls). split; [constructor; [rewrite take_length; lia|done]|]. cbn [concat]. rewrite <- H2. symmetry. apply take_drop.
Qed.
End Chunks.

(** ** First primes, roots *)
Fixpoint span (f : nat) (a : Z) : list Z := match f with O => [] | S f' => a :: span f' (a + 1) end.
Lemma span_in f a x : a <= x < a + Z.of_nat f -> x ∈ span f a.
Proof.
  revert a. induction f as [|f IH]; intros a H; [lia|]. cbn [span]. destruct (Z.eq_dec x a) as [->|N]; [left|]. right. apply IH. lia.
Qed.
Definition prime_b (p : Z) : bool := (1 <? p) && forallb (fun n => Z.gcd n p =? 1) (span (Z.to_nat p - 1) 1).
Lemma prime_b_sound p : prime_b p = true -> prime p.
Proof.
  unfold prime_b. rewrite andb_true_iff, Z.ltb_lt, forallb_forall. intros [H1 H2]. apply prime_intro; [done|].
  intros n Hn. apply Zgcd_1_rel_prime. apply Z.eqb_eq, H2. apply elem_of_list_In, span_in. lia.
Qed.
Definition composite_b (p : Z) : bool := existsb (fun n => (n <? p) && (p mod n =? 0)) (span (Z.to_nat p - 2) 2).
Lemma composite_b_sound p : composite_b p = true -> ~ prime p.
Proof.
  unfold composite_b. rewrite existsb_exists. intros (n & Hin & H) Hp. apply andb_true_iff in H as [H1 H2].
  apply Z.ltb_lt in H1. apply Z.eqb_eq in H2.
  assert (2 <= n). { clear -Hin. revert Hin. generalize (Z.to_nat p - 2)%nat. assert (G : forall f a, In n (span f a) -> a <= n).
    { induction f as [|f IH]; intros a; [done|]. intros [->|H]; [lia|]. apply IH in H. lia. } intros f. apply G. }
  assert (Hd : (n | p)) by (apply Z.mod_divide; lia).
  pose proof (prime_divisors p Hp n Hd). lia.
Qed.
Fixpoint sorted_b (l : list Z) : bool := match l with a :: ((b :: _) as l') => (a <? b) && sorted_b l' | _ => true end.
Lemma sorted_b_sound l : sorted_b l = true -> StronglySorted Z.lt l.
Proof.
  intros H. apply Sorted_StronglySorted; [intros ???; lia|]. induction l as [|a l IH]; [constructor|]. destruct l as [|b l]; [by repeat constructor|].
  cbn in H. apply andb_true_iff in H as [H1 H2]. constructor; [by apply IH|]. constructor. by apply Z.ltb_lt.
Qed.
Definition first_primes_b (ps : list Z) : bool :=
  forallb prime_b ps && sorted_b ps &&
  forallb (fun p => bool_decide (p ∈ ps) || composite_b p) (span (Z.to_nat (List.last ps 0) - 1) 2).
Lemma sorted_last l d x : StronglySorted Z.lt l -> x ∈ l -> x <= List.last l d.
Proof.
  intros Hss. revert x. induction Hss as [|a l Hs IH Hf]; [by intros x ?%elem_of_nil|]. intros x Hx. destruct l as [|b l].
  - apply elem_of_list_singleton in Hx as ->. done.
  - change (List.last (a :: b :: l) d) with (List.last (b :: l) d). apply elem_of_cons in Hx as [->|Hx]; [|by apply IH].
    assert (a < b) by (by inversion Hf). pose proof (IH b ltac:(left)). lia.
Qed.
Lemma first_primes_sound ps : first_primes_b ps = true -> first_primes ps.
Proof.
  unfold first_primes_b. rewrite !andb_true_iff. intros [[H1 H2] H3]. apply sorted_b_sound in H2.
  split; [|split; [done|]].
  - apply stdpp.list.Forall_forall. intros p Hp. apply prime_b_sound. rewrite forallb_forall in H1. by apply H1, elem_of_list_In.
  - intros p q Hq Hp Hle. rewrite forallb_forall in H3. pose proof (sorted_last ps 0 q H2 Hq). destruct Hp as [Hp1 Hp2].
    specialize (H3 p). feed specialize H3; [apply elem_of_list_In, span_in; lia|]. apply orb_true_iff in H3 as [H3|H3].
    + by apply bool_decide_eq_true in H3.
    + exfalso. by apply (composite_b_sound p H3).
Qed.
Lemma first_primes_sub ps ps' : first_primes ps -> first_primes ps' -> length ps = length ps' ->
  (forall x, x ∈ ps -> x ∈ ps') -> ps = ps'.
Proof.
  intros (_ & H1 & _) (_ & H2 & _) Hl Hs.
  assert (A : forall l : list Z, StronglySorted Z.lt l -> NoDup l).
  { induction 1 as [|a l Hl' IH Hf]; [constructor|]. constructor; [|done]. intros Hin. rewrite stdpp.list.Forall_forall in Hf. specialize (Hf a Hin). lia. }
  assert (Hp : Permutation ps ps').
  { apply NoDup_Permutation_bis; [apply NoDup_ListNoDup; by apply A|lia|]. intros x Hx. apply elem_of_list_In, Hs, elem_of_list_In, Hx. }
  assert (AntiSymm (=) Z.lt) by (intros ???; lia).
  by apply (StronglySorted_unique Z.lt).
Qed.
Lemma first_primes_unique ps ps' : first_primes ps -> first_primes ps' -> length ps = length ps' -> ps = ps'.
Proof.
  intros H H' Hl. destruct (Z.le_ge_cases (List.last ps 0) (List.last ps' 0)) as [Hle|Hle]; [|symmetry];
    apply first_primes_sub; try done; intros x Hx.
  - destruct ps' as [|p' ps']; [destruct ps; [done|discriminate]|]. destruct H as (Hp & Hs & _), H' as (_ & _ & Hc).
    apply (Hc x (List.last (p' :: ps') 0)); [| |pose proof (sorted_last ps 0 x Hs Hx); lia].
    + apply elem_of_list_In. destruct (exists_last (l := p' :: ps') ltac:(done)) as (l & z & ->). rewrite last_last. apply in_app_iff. right. by left.
    + rewrite stdpp.list.Forall_forall in Hp. by apply Hp.
  - destruct ps as [|p ps]; [destruct ps'; [done|discriminate]|]. destruct H as (_ & _ & Hc), H' as (Hp & Hs & _).
    apply (Hc x (List.last (p :: ps) 0)); [| |pose proof (sorted_last ps' 0 x Hs Hx); lia].
    + apply elem_of_list_In. destruct (exists_last (l := p :: ps) ltac:(done)) as (l & z & ->). rewrite last_last. apply in_app_iff. right. by left.
    + rewrite stdpp.list.Forall_forall in Hp. by apply Hp.
Qed.
Definition root_b (F : fips) (e p k : Z) : bool :=
  (0 <=? k) && (k <? 2 ^ fi_w F) &&
  existsb (fun j => let q := k + j * 2 ^ fi_w F in (q ^ e <=? p * 2 ^ (e * fi_w F)) && (p * 2 ^ (e * fi_w F) <? (q + 1) ^ e)) (span 32 0).
Lemma span_ge f a x : In x (span f a) -> a <= x.
Proof. revert a. induction f as [|f IH]; intros a; [done|]. intros [->|H]; [lia|]. apply IH in H. lia. Qed.
Lemma root_b_sound F e p k : root_b F e p k = true -> root_bits F e p k.
Proof.
  unfold root_b. rewrite !andb_true_iff, Z.leb_le, Z.ltb_lt, existsb_exists. intros [[H1 H2] (j & Hj & H)].
  apply andb_true_iff in H as [H3 H4]. apply Z.leb_le in H3. apply Z.ltb_lt in H4. apply span_ge in Hj.
  split; [done|]. exists (k + j * 2 ^ fi_w F). assert (0 <= 2 ^ fi_w F) by (by apply Z.pow_nonneg). split; [nia|]. split; [done|].
  replace (k + j * 2 ^ fi_w F - k) with (j * 2 ^ fi_w F) by lia. apply Z_mod_mult.
Qed.
Lemma word_same m x y q : 0 <= x < m -> 0 <= y < m -> (q - x) mod m = 0 -> (q - y) mod m = 0 -> x = y.
Proof.
  intros Hx Hy H1 H2. rewrite <- (Z.mod_small x m), <- (Z.mod_small y m) by done.
  replace x with (q - (q - x)) by lia. replace y with (q - (q - y)) by lia. by rewrite Zminus_mod, H1, (Zminus_mod q (q - y)), H2.
Qed.
Lemma root_unique F e p k k' : 0 < e -> root_bits F e p k -> root_bits F e p k' -> k = k'.
Proof.
  intros He (Hw & q & Hq0 & [Hq1 Hq2] & Hk) (Hw' & q' & Hq0' & [Hq1' Hq2'] & Hk').
  assert (q = q') as <-.
  { assert (G : forall a b, 0 <= a -> 0 <= b -> a ^ e < (b + 1) ^ e -> a <= b).
    { intros a b Ha Hb Hlt. destruct (Z.le_gt_cases a b) as [?|H]; [done|]. pose proof (Z.pow_le_mono_l (b + 1) a e ltac:(lia)). lia. }
    pose proof (G q q' Hq0 Hq0' ltac:(lia)). pose proof (G q' q Hq0' Hq0 ltac:(lia)). lia. }
  by apply (word_same (2 ^ fi_w F) k k' q).
Qed.
Lemma roots_exact F e ps ks : 0 < e -> first_primes_b ps = true -> forallb (fun '(p, k) => root_b F e p k) (combine ps ks) = true ->
  length ps = length ks -> forall l, (length l = length ks /\ exists ps', first_primes ps' /\ Forall2 (root_bits F e) ps' l) <-> l = ks.
Proof.
  intros He Hp Hk Hl. apply first_primes_sound in Hp.
  assert (Hr : Forall2 (root_bits F e) ps ks).
  { clear Hp. revert ks Hk Hl. induction ps as [|p ps IH]; intros [|k ks] Hk Hl; try discriminate; [constructor|].
    cbn in Hk. apply andb_true_iff in Hk as [H1 H2]. constructor; [by apply root_b_sound|]. apply IH; [done|]. by injection Hl. }
  intros l. split.
  - intros (Hll & ps' & Hp' & Hr'). assert (ps' = ps) as ->.
    { apply first_primes_unique; [done..|]. apply Forall2_length in Hr'. lia. }
    clear Hk Hl Hp Hp' Hll. revert l Hr'. induction Hr as [|p k ps ks H1 H2 IH]; intros l Hr'; inversion Hr'; subst; [done|].
    f_equal; [by eapply (root_unique F e p)|by apply IH].
  - intros ->. split; [done|]. by exists ps.
Qed.

(** ** Words *)
Section Words.
Context (P : sha) (F : fips).
Context (HW : fi_w F = sh_w P) (Hb : (0 < sh_bytes P)%nat).
Lemma w_pos : 0 < fi_w F.
Proof. rewrite HW. unfold sh_w. lia. Qed.
Lemma word_high r : (forall i, fi_w F <= i -> Z.testbit r i = false) -> is_word F r.
Proof.
  pose proof w_pos as Hw. intros H. unfold is_word. replace r with (r mod 2 ^ fi_w F); [by apply Z.mod_pos_bound, Z.pow_pos_nonneg; lia|].
  apply Z.bits_inj'. intros i Hi. destruct (Z.lt_ge_cases i (fi_w F)) as [Hl|Hl].
  - by rewrite Z.mod_pow2_bits_low.
  - rewrite Z.mod_pow2_bits_high by lia. symmetry. by apply H.
Qed.
Lemma word_testbit x i : is_word F x -> fi_w F <= i -> Z.testbit x i = false.
Proof.
  pose proof w_pos as Hw. intros H Hi. rewrite <- (Z.mod_small x (2 ^ fi_w F)) by done. rewrite Z.mod_pow2_bits_high by lia. done.
Qed.
Lemma word_bits f r r' : is_word F r -> (forall i, 0 <= i < fi_w F -> Z.testbit r i = f i) ->
  (is_word F r' /\ (forall i, 0 <= i < fi_w F -> Z.testbit r' i = f i)) <-> r' = r.
Proof.
  intros Hr H. split.
  - intros [Hr' H']. apply Z.bits_inj'. intros i Hi. destruct (Z.lt_ge_cases i (fi_w F)) as [Hl|Hl]; [rewrite H, H' by lia; done|].
    by rewrite !word_testbit.
  - intros ->. done.
Qed.
Lemma rotr_bit n x i : 0 < n < fi_w F -> is_word F x -> 0 <= i -> Z.testbit (rotr P n x) i =
  if i <? fi_w F then rot_bit F x n i else false.
Proof.
  intros Hn Hx Hi. unfold rotr, rot_bit. rewrite <- HW. rewrite Z.lor_spec, Z.shiftr_spec, Z.shiftl_spec, Z.land_spec by done.
  destruct (Z.ltb_spec i (fi_w F)) as [Hl|Hl].
  - destruct (Z.lt_ge_cases (i + n) (fi_w F)) as [Hs|Hs].
    + rewrite (Z.mod_small (i + n)) by lia. rewrite (Z.testbit_neg_r _ (i - _)) by lia. by rewrite orb_false_r.
    + rewrite (word_testbit x (i + n)) by done. cbn [orb]. rewrite Z.ones_spec_low by lia. rewrite andb_true_r. f_equal.
      apply Z.mod_unique with 1; lia.
  - rewrite word_testbit by (done || lia). cbn [orb]. rewrite Z.ones_spec_high by lia. apply andb_false_r.
Qed.
Definition counts (c : Z * Z * Z) : Prop := let '(a, b, d) := c in 0 < a < fi_w F /\ 0 < b < fi_w F /\ 0 < d < fi_w F.
Lemma big_iff c x r : counts c -> is_word F x -> is_big F c x r <-> r = big P c x.
Proof.
  destruct c as [[a b] d]. intros (Ha & Hb' & Hd) Hx. cbn [is_big big]. apply word_bits.
  - apply word_high. intros i Hi. pose proof w_pos. rewrite !Z.lxor_spec, !rotr_bit by (done || lia).
    destruct (Z.ltb_spec i (fi_w F)); [lia|done].
  - intros i Hi. rewrite !Z.lxor_spec, !rotr_bit by (done || lia). destruct (Z.ltb_spec i (fi_w F)); [done|lia].
Qed.
Lemma small_iff c x r : counts c -> is_word F x -> is_small F c x r <-> r = small P c x.
Proof.
  destruct c as [[a b] d]. intros (Ha & Hb' & Hd) Hx. cbn [is_small small]. apply word_bits.
  - apply word_high. intros i Hi. pose proof w_pos. rewrite !Z.lxor_spec, !rotr_bit, Z.shiftr_spec by (done || lia).
    rewrite (word_testbit x (i + d)) by (done || lia). destruct (Z.ltb_spec i (fi_w F)); [lia|done].
  - intros i Hi. rewrite !Z.lxor_spec, !rotr_bit, Z.shiftr_spec by (done || lia). destruct (Z.ltb_spec i (fi_w F)); [|lia].
    f_equal. unfold shift_bit. destruct (Z.ltb_spec (i + d) (fi_w F)); [done|]. apply word_testbit; [done|lia].
Qed.
Lemma ch_iff x y z r : is_word F x -> is_word F y -> is_word F z -> is_ch F x y z r <-> r = ch x y z.
Proof.
  intros Hx Hy Hz. unfold ch. apply word_bits.
  - apply word_high. intros i Hi. rewrite Z.lxor_spec, !Z.land_spec, (word_testbit y i), (word_testbit z i) by done. by rewrite !andb_false_r.
  - intros i Hi. rewrite Z.lxor_spec, !Z.land_spec, Z.lnot_spec by lia. by destruct (Z.testbit x i), (Z.testbit y i), (Z.testbit z i).
Qed.
Lemma maj_iff x y z r : is_word F x -> is_word F y -> is_word F z -> is_maj F x y z r <-> r = maj x y z.
Proof.
  intros Hx Hy Hz. unfold maj. apply word_bits.
  - apply word_high. intros i Hi. by rewrite !Z.lxor_spec, !Z.land_spec, (word_testbit x i), (word_testbit y i), (word_testbit z i) by done.
  - intros i Hi. rewrite !Z.lxor_spec, !Z.land_spec. by destruct (Z.testbit x i), (Z.testbit y i), (Z.testbit z i).
Qed.
Lemma wrap_word x : is_word F (wrap_w P x).
Proof. unfold is_word, wrap_w. rewrite <- HW. pose proof w_pos. apply Z.mod_pos_bound, Z.pow_pos_nonneg; lia. Qed.
Lemma adds_iff r l x : fold_right Z.add 0 l = x -> adds F r l <-> r = wrap_w P x.
Proof.
  intros <-. unfold adds. split.
  - intros [Hr H]. apply (word_same (2 ^ fi_w F) _ _ (fold_right Z.add 0 l)); [done|apply wrap_word|done|].
    unfold wrap_w. rewrite <- HW. rewrite Zminus_mod, Zmod_mod, Z.sub_diag. apply Zmod_0_l.
  - intros ->. split; [apply wrap_word|]. unfold wrap_w. rewrite <- HW. rewrite Zminus_mod, Zmod_mod, Z.sub_diag. apply Zmod_0_l.
Qed.

Context (Hs0 : fi_small0 F = sh_small0 P) (Hs1 : fi_small1 F = sh_small1 P) (Hb0 : fi_big0 F = sh_big0 P) (Hb1 : fi_big1 F = sh_big1 P).
Context (Cs0 : counts (sh_small0 P)) (Cs1 : counts (sh_small1 P)) (Cb0 : counts (sh_big0 P)) (Cb1 : counts (sh_big1 P)).
Context (Hk : length (sh_k P) = fi_rounds F) (H16 : (16 <= fi_rounds F)%nat).

(** ** The message schedule *)
Definition chain (ws : list Z) : Prop :=
  forall t x0 x1 x9 x14 x16, ws !! t = Some x0 -> ws !! (t + 1)%nat = Some x1 -> ws !! (t + 9)%nat = Some x9 ->
    ws !! (t + 14)%nat = Some x14 -> ws !! (t + 16)%nat = Some x16 ->
    exists s0 s1, is_small F (fi_small0 F) x1 s0 /\ is_small F (fi_small1 F) x14 s1 /\ adds F x16 [s1; x9; s0; x0].
Lemma iter_words n block : Forall (is_word F) block -> Forall (is_word F) (Nat.iter n (sched_step P) (rev block)).
Proof.
  intros H. induction n as [|n IH]; [cbn; by apply Forall_rev|]. cbn [Nat.iter nat_rect]. constructor; [apply wrap_word|exact IH].
Qed.
Lemma iter_length n block : length (Nat.iter n (sched_step P) (rev block)) = (n + length block)%nat.
Proof. induction n as [|n IH]; [apply rev_length|]. change (Nat.iter (S n) (sched_step P) (rev block)) with (sched_step P (Nat.iter n (sched_step P) (rev block))).
  unfold sched_step at 1. cbn [length]. rewrite IH. done. Qed.
Lemma rev_nth_lookup (l : list Z) j i : (i + S j = length l)%nat -> rev l !! i = Some (nth j l 0).
Proof.
  intros H. rewrite rev_reverse. apply reverse_lookup_Some. split; [|lia]. replace (length l - S i)%nat with j by lia.
  apply nth_lookup_Some with (d := 0) || (rewrite nth_lookup; destruct (lookup_lt_is_Some_2 l j ltac:(lia)) as [x ->]; done).
Qed.
Lemma chain_snoc n block ws x : length block = 16%nat -> Forall (is_word F) block -> ws = rev (Nat.iter n (sched_step P) (rev block)) ->
  (chain (ws ++ [x]) <-> chain ws /\ x = hd 0 (sched_step P (Nat.iter n (sched_step P) (rev block)))).
Proof.
  intros Hl Hw E. pose proof (iter_words n block Hw) as Hf. pose proof (iter_length n block) as Hn.
  remember (Nat.iter n (sched_step P) (rev block)) as l eqn:El. clear El.
  assert (Hlw : length ws = length l) by (rewrite E; apply rev_length).
  assert (L : forall i j, (i + S j = length l)%nat -> ws !! i = Some (nth j l 0)) by (intros i j H; rewrite E; by apply rev_nth_lookup).
  assert (W : forall j, is_word F (nth j l 0)).
  { intros j. destruct (Nat.lt_ge_cases j (length l)) as [Hj|Hj].
    - destruct (lookup_lt_is_Some_2 l j Hj) as [y Hy]. rewrite nth_lookup, Hy. by apply (Forall_lookup_1 _ _ _ _ Hf Hy).
    - rewrite nth_overflow by done. split; [done|]. pose proof w_pos. apply Z.pow_pos_nonneg; lia. }
  assert (K : x = hd 0 (sched_step P l) <-> exists s0 s1, is_small F (fi_small0 F) (nth 14 l 0) s0 /\ is_small F (fi_small1 F) (nth 1 l 0) s1 /\
    adds F x [s1; nth 6 l 0; s0; nth 15 l 0]).
  { cbn [sched_step hd]. rewrite Hs0, Hs1. split.
    - intros ->. eexists _, _. split; [by apply small_iff|]. split; [by apply small_iff|]. apply adds_iff with (1 := eq_refl). f_equal. cbn [fold_right]. lia.
    - intros (s0 & s1 & E0 & E1 & Ha). apply small_iff in E0; [|done..]. apply small_iff in E1; [|done..]. subst s0 s1.
      apply adds_iff with (1 := eq_refl) in Ha as ->. f_equal. cbn [fold_right]. lia. }
  rewrite K. split.
  - intros H. split.
    + intros t x0 x1 x9 x14 x16 A0 A1 A9 A14 A16. apply (H t); by apply lookup_app_l_Some.
    + apply (H n); rewrite ?lookup_app_l by lia; try (apply L; lia). rewrite lookup_app_r by lia.
      replace (n + 16 - length ws)%nat with O by lia. done.
  - intros [H1 H2] t x0 x1 x9 x14 x16 A0 A1 A9 A14 A16. destruct (Nat.lt_ge_cases (t + 16) (length ws)) as [Ht|Ht].
    + rewrite lookup_app_l in A0, A1, A9, A14, A16 by lia. by apply (H1 t).
    + pose proof (lookup_lt_Some _ _ _ A16) as Hlt. rewrite app_length in Hlt. cbn [length] in Hlt. assert (t = n) as -> by lia.
      rewrite lookup_app_l in A0, A1, A9, A14 by lia. rewrite (L n 15%nat) in A0 by lia. rewrite (L (n + 1)%nat 14%nat) in A1 by lia.
      rewrite (L (n + 9)%nat 6%nat) in A9 by lia. rewrite (L (n + 14)%nat 1%nat) in A14 by lia.
      rewrite lookup_app_r in A16 by lia. replace (n + 16 - length ws)%nat with O in A16 by lia.
      injection A0 as <-. injection A1 as <-. injection A9 as <-. injection A14 as <-. injection A16 as <-. done.
Qed.
Lemma chain_iff n block ws : length block = 16%nat -> Forall (is_word F) block -> length ws = (16 + n)%nat ->
  (take 16 ws = block /\ chain ws) <-> ws = rev (Nat.iter n (sched_step P) (rev block)).
Proof.
  intros Hl Hw. revert ws. induction n as [|n IH]; intros ws Hn.
  - cbn [Nat.iter nat_rect]. rewrite rev_involutive. rewrite take_ge by lia. split; [by intros [? _]|]. intros ->. split; [done|].
    intros t x0 x1 x9 x14 x16 _ _ _ _ H. apply lookup_lt_Some in H. lia.
  - destruct (exists_last (l := ws)) as (ws' & x & ->); [by intros ->|]. rewrite app_length in Hn. cbn [length] in Hn.
    change (Nat.iter (S n) (sched_step P) (rev block)) with (sched_step P (Nat.iter n (sched_step P) (rev block))).
    change (sched_step P (Nat.iter n (sched_step P) (rev block))) with
      (hd 0 (sched_step P (Nat.iter n (sched_step P) (rev block))) :: Nat.iter n (sched_step P) (rev block)).
    cbn [rev]. rewrite take_app_le by lia. specialize (IH ws' ltac:(lia)). split.
    + intros [H1 H2]. assert (Hc : chain ws').
      { intros t x0 x1 x9 x14 x16 A0 A1 A9 A14 A16. apply (H2 t); by apply lookup_app_l_Some. }
      assert (E : ws' = rev (Nat.iter n (sched_step P) (rev block))) by (by apply IH).
      apply (chain_snoc n block ws' x Hl Hw E) in H2 as [_ ->]. by rewrite <- E.
    + intros H. apply app_inj_tail in H as [E ->]. pose proof E as E'. apply IH in E' as [H1 H2]. split; [done|].
      apply (chain_snoc n block ws' _ Hl Hw E). done.
Qed.
Lemma schedule_iff block ws : length block = 16%nat -> Forall (is_word F) block -> schedule F block ws <-> ws = sched P block.
Proof.
  intros Hl Hw. unfold schedule, sched. change (forall t, _) with (chain ws). rewrite Hk. split.
  - intros (H1 & H2 & H3). apply chain_iff; [done..|lia|]. done.
  - intros ->. split; [rewrite rev_length, iter_length; lia|]. apply (chain_iff (fi_rounds F - 16) block); [done..| |done].
    rewrite rev_length, iter_length. lia.
Qed.
Lemma sched_words block : Forall (is_word F) block -> Forall (is_word F) (sched P block).
Proof. intros H. unfold sched. apply Forall_rev. by apply iter_words. Qed.
Lemma sched_length block : length block = 16%nat -> length (sched P block) = fi_rounds F.
Proof. intros H. unfold sched. rewrite rev_length, iter_length. lia. Qed.

(** ** Rounds *)
Definition is_state (s : list Z) : Prop := length s = 8%nat /\ Forall (is_word F) s.
Lemma round_iff k x s s' : is_state s -> one_round F k x s s' <-> s' = round P s (k, x).
Proof.
  intros [Hl Hs]. do 8 (destruct s as [|? s]; [discriminate|]). destruct s; [|discriminate].
  repeat match goal with H : Forall _ (_ :: _) |- _ => apply stdpp.list.Forall_cons in H as [? H] end. cbn [round fst snd].
  split.
  - inversion 1 as [a b c d e f g h s1 c' s0 m t1 t2 a' e' E1 E2 E3 E4 E5 E6 E7 E8]; subst.
    rewrite Hb1 in E1. rewrite Hb0 in E4. apply big_iff in E1; [|done..]. apply big_iff in E4; [|done..]. apply ch_iff in E2; [|done..]. apply maj_iff in E5; [|done..].
    apply adds_iff with (1 := eq_refl) in E3. apply adds_iff with (1 := eq_refl) in E6. apply adds_iff with (1 := eq_refl) in E7. apply adds_iff with (1 := eq_refl) in E8.
    cbn [fold_right] in *. subst. rewrite !Z.add_0_r, !Z.add_assoc. done.
  - intros ->. eapply one_round_intro.
    + rewrite Hb1. by apply big_iff.
    + by apply ch_iff.
    + apply adds_iff with (1 := eq_refl). cbn [fold_right]. rewrite Z.add_0_r, !Z.add_assoc. done.
    + rewrite Hb0. by apply big_iff.
    + by apply maj_iff.
    + apply adds_iff with (1 := eq_refl). cbn [fold_right]. rewrite Z.add_0_r. done.
    + apply adds_iff with (1 := eq_refl). cbn [fold_right]. rewrite Z.add_0_r. done.
    + apply adds_iff with (1 := eq_refl). cbn [fold_right]. rewrite Z.add_0_r. done.
Qed.
Lemma round_state s kw : is_state s -> is_state (round P s kw).
Proof.
  intros [Hl Hs]. do 8 (destruct s as [|? s]; [discriminate|]). destruct s; [|discriminate].
  repeat match goal with H : Forall _ (_ :: _) |- _ => apply stdpp.list.Forall_cons in H as [? H] end. cbn [round].
  split; [done|]. repeat (apply stdpp.list.Forall_cons; split; [first [assumption|apply wrap_word]|]). constructor.
Qed.
Lemma rounds_state l s : is_state s -> is_state (fold_left (round P) l s).
Proof. revert s. induction l as [|kw l IH]; intros s H; [done|]. cbn. by apply IH, round_state. Qed.
Lemma rounds_iff ks xs s s' : length ks = length xs -> is_state s -> rounds F ks xs s s' <-> s' = fold_left (round P) (combine ks xs) s.
Proof.
  revert xs s. induction ks as [|k ks IH]; intros [|x xs] s Hl Hs; try discriminate; cbn [combine fold_left].
  - split; [by inversion 1|]. intros ->. constructor.
  - injection Hl as Hl. split.
    + inversion 1 as [|? ? ? ? ? s1 ? H1 H2]; subst. apply round_iff in H1 as ->; [|done]. apply IH; [done| |done]. by apply round_state.
    + intros ->. econstructor; [by apply round_iff|]. apply IH; [done| |done]. by apply round_state.
Qed.

(** ** Blocks *)
Definition is_block (b : list Z) : Prop := length b = 16%nat /\ Forall (is_word F) b.
Lemma block_state s b : is_state s -> is_block b -> is_state (block_step P s b).
Proof.
  intros Hs [Hl Hw]. unfold block_step. pose proof (rounds_state (combine (sh_k P) (sched P b)) s Hs) as [Hl' _]. destruct Hs as [Hls _]. split.
  - rewrite zip_with_length. lia.
  - apply stdpp.list.Forall_forall. intros x Hx. apply elem_of_lookup_zip_with in Hx as (i & a & c & -> & _). apply wrap_word.
Qed.
Lemma blocks_iff bl s s' : Forall is_block bl -> is_state s -> blocks F (sh_k P) bl s s' <-> s' = fold_left (block_step P) bl s.
Proof.
  intros H. revert s. induction H as [|b bl Hb' H IH]; intros s Hs; cbn [fold_left].
  - split; [by inversion 1|]. intros ->. constructor.
  - destruct Hb' as [Hl Hw]. split.
    + inversion 1 as [|? ? ws ? t s1 ? _ H2 H3 H4 H5 H6 H7]; subst.
      apply schedule_iff in H2; [|done..]. subst ws. apply rounds_iff in H3; [|rewrite sched_length by done; done|done].
      assert (s1 = block_step P s b) as ->.
      { unfold block_step. rewrite <- H3. apply list_eq_same_length with (length s); [rewrite zip_with_length; lia|done|].
        intros i x y Hi Hx Hy. apply lookup_zip_with_Some in Hy as (x1 & x2 & -> & E1 & E2).
        specialize (H6 i x1 x2 x E1 E2 Hx). apply adds_iff with (1 := eq_refl) in H6 as ->. f_equal. cbn [fold_right]. lia. }
      apply IH; [|done]. by apply block_state.
    + intros ->. pose proof (rounds_state (combine (sh_k P) (sched P b)) s Hs) as [Hl' _]. pose proof Hs as [Hls _].
      econstructor; [done|by apply schedule_iff|apply rounds_iff; [rewrite sched_length by done; done|done|reflexivity]| | | |].
      4: { apply IH; [by apply block_state|done]. }
      * unfold block_step. rewrite zip_with_length. lia.
      * lia.
      * intros i x y z E1 E2 E3. unfold block_step in E3. apply lookup_zip_with_Some in E3 as (x1 & x2 & -> & E1' & E2').
        rewrite E1 in E1'. rewrite E2 in E2'. injection E1' as <-. injection E2' as <-. apply adds_iff with (1 := eq_refl). f_equal. cbn [fold_right]. lia.
Qed.
End Words.

(** ** Whole messages *)
Section Message.
Context (P : sha) (F : fips).
Context (HW : fi_w F = sh_w P) (Hb : (0 < sh_bytes P)%nat).
Lemma bytes_of_word : word_bytes F = sh_bytes P.
Proof. unfold word_bytes. rewrite HW. unfold sh_w. rewrite Z.mul_comm, Z.div_mul by lia. lia. Qed.
Lemma word_bound : 2 ^ fi_w F = 256 ^ Z.of_nat (sh_bytes P).
Proof. rewrite HW. unfold sh_w. rewrite Z.pow_mul_r by lia. done. Qed.
Lemma in_words_iff ws b : in_words F ws b <-> Forall (is_word F) ws /\ b = concat (map (be_enc (sh_bytes P)) ws).
Proof.
  unfold in_words. rewrite bytes_of_word. split.
  - intros (bs & H & ->). induction H as [|x c ws bs H1 H2 IH]; [done|]. destruct IH as [I1 I2]. apply big_enc in H1 as [Hx ->].
    split; [constructor; [unfold is_word; by rewrite word_bound|done]|]. cbn [map concat]. by rewrite <- I2.
  - intros [Hw ->]. exists (map (be_enc (sh_bytes P)) ws). split; [|done]. induction Hw as [|x ws Hx Hw IH]; [constructor|].
    cbn [map]. constructor; [|done]. apply big_enc. unfold is_word in Hx. by rewrite word_bound in Hx.
Qed.
Lemma words_of ws : Forall (is_word F) ws -> words P (concat (map (be_enc (sh_bytes P)) ws)) = ws.
Proof.
  intros H. unfold words. rewrite chunks_concat; [|done|].
  - induction H as [|x ws Hx Hw IH]; [done|]. cbn [map]. rewrite IH, be_num_enc; [done|]. unfold is_word in Hx. by rewrite word_bound in Hx.
  - apply Forall_map. apply Forall_true. intros x. apply be_enc_length.
Qed.
Lemma words_back b : (length b mod sh_bytes P = 0)%nat -> Forall (is_word F) (words P b) /\ b = concat (map (be_enc (sh_bytes P)) (words P b)) /\
  (length (words P b) * sh_bytes P = length b)%nat.
Proof.
  intros H. destruct (chunks_split (sh_bytes P) Hb b H) as (ls & Hl & ->). unfold words. rewrite chunks_concat by done.
  clear H. induction Hl as [|c ls Hc Hl IH]; [split; [constructor|done]|]. destruct IH as (I1 & I2 & I3). cbn [map concat length].
  assert (Hbig : big_endian (sh_bytes P) (be_num c) c) by (by apply big_num). apply big_enc in Hbig as [Hr He].
  split; [constructor; [unfold is_word; by rewrite word_bound|done]|]. split; [by rewrite <- He, <- I2|]. rewrite app_length, <- I3, Hc. lia.
Qed.

Definition fills (n z : nat) : Prop := ((n + 1 + z + 2 * sh_bytes P) mod (16 * sh_bytes P) = 0)%nat.
Lemma fills_z n z : fills n z <-> exists k, Z.of_nat n + 1 + Z.of_nat z + 2 * Z.of_nat (sh_bytes P) = k * (16 * Z.of_nat (sh_bytes P)).
Proof.
  unfold fills. rewrite Nat.mod_divide by lia. split.
  - intros [k Hk]. exists (Z.of_nat k). lia.
  - intros [k Hk]. exists (Z.to_nat k). assert (0 <= k) by nia. apply Nat2Z.inj. rewrite Nat2Z.inj_mul, Z2Nat.id by done. lia.
Qed.
Lemma pad_zeros_fills n : fills n (pad_zeros P n) /\ (forall z, (z < pad_zeros P n)%nat -> ~ fills n z).
Proof.
  unfold pad_zeros. set (N := 16 * Z.of_nat (sh_bytes P)). set (c := Z.of_nat n + 1 + 2 * Z.of_nat (sh_bytes P)).
  assert (HN : 0 < N) by lia. pose proof (Z.mod_pos_bound (- c) N HN) as Hm. pose proof (Z.div_mod (- c) N ltac:(lia)) as Hd. split.
  - apply fills_z. rewrite Z2Nat.id by lia. exists (- ((- c) / N)). fold N. lia.
  - intros z Hz. rewrite fills_z. fold N. intros [k Hk].
    assert (E : Z.of_nat z = (- c) mod N); [|lia]. apply Z.mod_unique with (q := - k); [lia|]. lia.
Qed.
Lemma padded_iff m b : 8 * Z.of_nat (length m) < 2 ^ (2 * fi_w F) -> padded F m b <-> b = pad P m.
Proof.
  intros Hlen. assert (Hr : 0 <= 8 * Z.of_nat (length m) < 256 ^ Z.of_nat (2 * sh_bytes P)).
  { split; [lia|]. replace (2 * fi_w F) with (fi_w F + fi_w F) in Hlen by lia. pose proof (w_pos P F HW Hb).
    rewrite Z.pow_add_r, word_bound in Hlen by lia. rewrite Nat2Z.inj_mul. change (Z.of_nat 2) with 2.
    replace (2 * Z.of_nat (sh_bytes P)) with (Z.of_nat (sh_bytes P) + Z.of_nat (sh_bytes P)) by lia. rewrite Z.pow_add_r by lia. done. }
  destruct (pad_zeros_fills (length m)) as [Hf Hmin]. unfold padded, pad. rewrite bytes_of_word. cbv zeta. split.
  - intros (z & n & -> & Hn & Hz & Hzmin). apply big_enc in Hn as [_ ->].
    change (fills (length m) z) in Hz. destruct (Nat.lt_trichotomy z (pad_zeros P (length m))) as [Hlt|[->|Hlt]]; [|done|].
    + exfalso. by apply (Hmin z).
    + exfalso. by apply (Hzmin _ Hlt).
  - intros ->. eexists _, _. split; [reflexivity|]. split; [by apply big_enc|]. split; [exact Hf|exact Hmin].
Qed.
Lemma pad_length m : exists k, length (pad P m) = (k * (16 * sh_bytes P))%nat.
Proof.
  destruct (pad_zeros_fills (length m)) as [Hf _]. unfold fills in Hf. apply Nat.mod_divide in Hf as [k Hk]; [|lia]. exists k. rewrite <- Hk.
  unfold pad. rewrite app_length. cbn [length]. rewrite app_length, repeat_length, be_enc_length. lia.
Qed.

Context (Hs0 : fi_small0 F = sh_small0 P) (Hs1 : fi_small1 F = sh_small1 P) (Hb0 : fi_big0 F = sh_big0 P) (Hb1 : fi_big1 F = sh_big1 P).
Context (Cs0 : counts F (sh_small0 P)) (Cs1 : counts F (sh_small1 P)) (Cb0 : counts F (sh_big0 P)) (Cb1 : counts F (sh_big1 P)).
Context (Hk : length (sh_k P) = fi_rounds F) (H16 : (16 <= fi_rounds F)%nat).
Context (Hconst : forall ks, constants F ks <-> ks = sh_k P) (Hinit : forall hs, initial F hs <-> hs = sh_init P).
Lemma init_state : is_state F (sh_init P).
Proof.
  destruct (proj2 (Hinit (sh_init P)) eq_refl) as (Hl & ps & _ & H). split; [done|].
  revert H. generalize (sh_init P). clear. intros l. induction 1 as [|p k ps ks [Hk1 _] H IH]; [constructor|by constructor].
Qed.
Lemma blocks_sixteen ks bl s s' : blocks F ks bl s s' -> Forall (fun c => length c = 16%nat) bl.
Proof. induction 1; [constructor|]. by constructor. Qed.
Lemma final_state bl s : Forall (is_block F) bl -> is_state F s -> is_state F (fold_left (block_step P) bl s).
Proof.
  intros H. revert s. induction H as [|b bl Hb' H IH]; intros s Hs; [done|]. cbn [fold_left]. apply IH.
  by apply (block_state P F).
Qed.
Lemma digest_iff m d : 8 * Z.of_nat (length m) < 2 ^ (2 * fi_w F) -> digest F m d <-> d = sha2 P m.
Proof.
  intros Hlen. unfold digest, sha2. cbv zeta. split.
  - intros (ks & hs & b & bl & s & H1 & H2 & H3 & H4 & H5 & H6).
    apply Hconst in H1 as ->. apply Hinit in H2 as ->. apply padded_iff in H3 as ->; [|done].
    pose proof (blocks_sixteen _ _ _ _ H5) as H16b. apply in_words_iff in H4 as [Hw E]. rewrite E, words_of by done.
    rewrite chunks_concat by (done || lia).
    assert (Hbl : Forall (is_block F) bl).
    { clear -H16b Hw. induction H16b as [|c bl Hc H IH]; [constructor|]. cbn [concat] in Hw. apply Forall_app in Hw as [W1 W2].
      constructor; [by split|by apply IH]. }
    apply (blocks_iff P F) in H5; try done; [|apply init_state]. subst s. apply in_words_iff in H6 as [_ ->]. done.
  - intros ->. destruct (pad_length m) as [k Ek].
    destruct (words_back (pad P m)) as (Hw & E & El). { rewrite Ek. rewrite Nat.mul_assoc. apply Nat.mod_mul. lia. }
    assert (E16 : (length (words P (pad P m)) mod 16 = 0)%nat).
    { rewrite Ek in El. replace (length (words P (pad P m))) with (k * 16)%nat by nia. by apply Nat.mod_mul. }
    destruct (chunks_split 16 ltac:(lia) _ E16) as (bl & Hbl & Ebl). rewrite Ebl, chunks_concat by (done || lia).
    assert (Hbl' : Forall (is_block F) bl).
    { rewrite Ebl in Hw. clear -Hbl Hw. induction Hbl as [|c bl Hc H IH]; [constructor|]. cbn [concat] in Hw. apply Forall_app in Hw as [W1 W2].
      constructor; [by split|by apply IH]. }
    eexists (sh_k P), (sh_init P), (pad P m), bl, _. split; [by apply Hconst|]. split; [by apply Hinit|]. split; [by apply padded_iff|].
    split; [apply in_words_iff; by rewrite <- Ebl|]. split; [apply (blocks_iff P F); try done; apply init_state|].
    apply in_words_iff. split; [|done]. by apply final_state; [|apply init_state].
Qed.
Lemma sha2_length m : length (sha2 P m) = (8 * sh_bytes P)%nat.
Proof.
  unfold sha2. cbv zeta. destruct (pad_length m) as [k Ek].
  destruct (words_back (pad P m)) as (Hw & E & El). { rewrite Ek. rewrite Nat.mul_assoc. apply Nat.mod_mul. lia. }
  assert (E16 : (length (words P (pad P m)) mod 16 = 0)%nat).
  { rewrite Ek in El. replace (length (words P (pad P m))) with (k * 16)%nat by nia. by apply Nat.mod_mul. }
  destruct (chunks_split 16 ltac:(lia) _ E16) as (bl & Hbl & Ebl). rewrite Ebl, chunks_concat by (done || lia).
  assert (Hbl' : Forall (is_block F) bl).
  { rewrite Ebl in Hw. clear -Hbl Hw. induction Hbl as [|c bl Hc H IH]; [constructor|]. cbn [concat] in Hw. apply Forall_app in Hw as [W1 W2].
    constructor; [by split|by apply IH]. }
  destruct (final_state bl (sh_init P) Hbl' init_state) as [Hl _]. revert Hl. generalize (fold_left (block_step P) bl (sh_init P)). intros l.
  generalize 8%nat. intros n <-. induction l as [|x l IH]; [done|]. cbn [map concat]. rewrite app_length, IH, be_enc_length. cbn [length]. lia.
Qed.
End Message.

(** ** The two functions *)
Definition primes80 : list Z := [2; 3; 5; 7; 11; 13; 17; 19; 23; 29; 31; 37; 41; 43; 47; 53; 59; 61; 67; 71; 73; 79; 83; 89; 97; 101; 103;
  107; 109; 113; 127; 131; 137; 139; 149; 151; 157; 163; 167; 173; 179; 181; 191; 193; 197; 199; 211; 223; 227; 229; 233; 239; 241; 251;
  257; 263; 269; 271; 277; 281; 283; 293; 307; 311; 313; 317; 331; 337; 347; 349; 353; 359; 367; 373; 379; 383; 389; 397; 401; 409].
Lemma constants256 ks : constants fips256 ks <-> ks = k256.
Proof. apply (roots_exact fips256 3 (take 64 primes80) k256); [done|vm_compute; reflexivity..]. Qed.
Lemma constants512 ks : constants fips512 ks <-> ks = k512.
Proof. apply (roots_exact fips512 3 primes80 k512); [done|vm_compute; reflexivity..]. Qed.
Lemma initial256 hs : initial fips256 hs <-> hs = init256.
Proof. apply (roots_exact fips256 2 (take 8 primes80) init256); [done|vm_compute; reflexivity..]. Qed.
Lemma initial512 hs : initial fips512 hs <-> hs = init512.
Proof. apply (roots_exact fips512 2 (take 8 primes80) init512); [done|vm_compute; reflexivity..]. Qed.
Lemma sha256_exact m d : 8 * Z.of_nat (length m) < 2 ^ 64 -> digest fips256 m d <-> d = sha256 m.
Proof.
  apply (digest_iff par256 fips256); try reflexivity; try exact constants256; try exact initial256; cbn; lia.
Qed.
Lemma sha512_exact m d : 8 * Z.of_nat (length m) < 2 ^ 128 -> digest fips512 m d <-> d = sha512 m.
Proof.
  apply (digest_iff par512 fips512); try reflexivity; try exact constants512; try exact initial512; cbn; lia.
Qed.
Lemma sha256_length m : length (sha256 m) = 32%nat.
Proof. apply (sha2_length par256 fips256); try reflexivity; try exact constants256; try exact initial256; cbn; lia. Qed.
Lemma sha512_length m : length (sha512 m) = 64%nat.
Proof. apply (sha2_length par512 fips512); try reflexivity; try exact constants512; try exact initial512; cbn; lia. Qed.

(** ** RFC 8032 *)
Lemma sha512_hash : is_hash fips512 sha512.
Proof. intros m Hm. by apply sha512_exact. Qed.
Lemma rfc_key_iff seed pub : 8 * Z.of_nat (length seed) < 2 ^ 128 -> rfc_key seed pub <-> public_key sha512 seed pub.
Proof.
  intros Hl. split.
  - intros (H & HH & a & B & A & H1 & (n & Hn & H2) & H3). exists a, B, A. split; [done|]. split; [|done]. exists n. split; [|done].
    by rewrite <- (proj1 (sha512_exact seed (H seed) Hl) (HH seed Hl)).
  - intros H. exists sha512. split; [apply sha512_hash|done].
Qed.
Lemma rfc_valid_intro pub m sig : valid sha512 pub m sig -> rfc_valid pub m sig.
Proof. intros H. exists sha512. split; [apply sha512_hash|done]. Qed.
Lemma short_seed (sk : bytes) : 8 * Z.of_nat (length (take 32 sk)) < 2 ^ 128.
Proof. rewrite take_length. apply Z.le_lt_trans with 256; [lia|reflexivity]. Qed.

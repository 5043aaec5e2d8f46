(** Quorum argument. *)
From Verif Require Import GoBase Canonical SignState Spec Crypto LocalCosigner CosignerSpec
  CosignerProofs Cluster.

Lemma quorum_intersect (ids q1 q2 f : gset Z) :
  q1 ⊆ ids -> q2 ⊆ ids -> (size q1 + size q2 > size ids + size f)%nat ->
  exists i, i ∈ q1 /\ i ∈ q2 /\ i ∉ f.
Proof.
  intros H1 H2 Hs.
  destruct (set_choose_or_empty ((q1 ∩ q2) ∖ f)) as [[i Hi]|Hno].
  - exists i. set_solver.
  - exfalso.
    assert (Hsub : q1 ∩ q2 ⊆ f).
    { intros i Hi. destruct (decide (i ∈ f)); [done|]. set_solver. }
    apply subseteq_size in Hsub.
    assert (Hu : (size (q1 ∪ q2) + size (q1 ∩ q2) = size q1 + size q2)%nat).
    { rewrite (size_union_alt q1 q2).
      assert (E : size q2 = size ((q2 ∖ q1) ∪ (q1 ∩ q2))).
      { apply set_size_proper. intros x. destruct (decide (x ∈ q1)); set_solver. }
      rewrite size_union in E by set_solver. lia. }
    assert (Hsub2 : q1 ∪ q2 ⊆ ids) by set_solver. apply subseteq_size in Hsub2. lia.
Qed.

Lemma cluster_safe C cl faulty t q1 q2 a b k :
  correct C cl faulty ->
  (2 * t > size cl + size faulty)%nat -> (t <= size q1)%nat -> (t <= size q2)%nat ->
  signed_by cl faulty q1 a -> signed_by cl faulty q2 b -> bytes_for a k -> bytes_for b k ->
  same_message_but_time a b.
Proof.
  intros Hc Ht Hq1 Hq2 Ha Hb Hka Hkb.
  destruct (quorum_intersect (dom cl) q1 q2 faulty) as (i & H1 & H2 & H3).
  - intros i Hi. destruct (Ha i Hi) as (nd & E & _). apply elem_of_dom. eauto.
  - intros i Hi. destruct (Hb i Hi) as (nd & E & _). apply elem_of_dom. eauto.
  - unfold cluster in cl. pose proof (size_dom (D:=gset Z) (cl : gmap Z node)) as E. unfold cluster in *. rewrite E. lia.
  - destruct (Ha i H1) as (nd & E & Ra). destruct (Hb i H2) as (nd' & E' & Rb).
    assert (nd' = nd) as -> by congruence.
    eapply no_conflict; [apply (Hc i nd E H3)|apply Ra, H3|apply Rb, H3|done|done].
Qed.

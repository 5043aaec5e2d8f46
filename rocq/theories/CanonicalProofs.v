(** Lemmas about Canonical.v: decoding what was encoded, domain separation, the timestamp
    check. *)
From Verif Require Import GoBase Wire WireProofs Canonical.
From Coq Require Import ZifyBool ZifyNat.

(** *** the switches never grow their input *)

Lemma on_varint_le {M} wt r (set : Z -> M) m' r' :
  on_varint wt r set = FOk m' r' -> (length r' <= length r)%nat.
Proof.
  unfold on_varint. destruct (wt =? 0); [|discriminate].
  destruct (varint_dec 10 r) as [[v r0]|] eqn:E; [|discriminate].
  apply varint_dec_shrinks in E. intros [= _ <-]. lia.
Qed.
Lemma on_fixed64_le {M} wt r (set : Z -> M) m' r' :
  on_fixed64 wt r set = FOk m' r' -> (length r' <= length r)%nat.
Proof.
  unfold on_fixed64. destruct (wt =? 1); [|discriminate].
  destruct (le_dec 8 r) as [[v r0]|] eqn:E; [|discriminate].
  apply le_dec_length in E. intros [= _ <-]. lia.
Qed.
Lemma on_bytes_le {M} wt r (set : bytes -> option M) m' r' :
  on_bytes wt r set = FOk m' r' -> (length r' <= length r)%nat.
Proof.
  unfold on_bytes. destruct (wt =? 2); [|discriminate].
  destruct (len_dec r) as [[v r0]|] eqn:E; [|discriminate].
  apply len_dec_shrinks in E. destruct (set v); [|discriminate]. intros [= _ <-]. lia.
Qed.

Ltac solve_consuming :=
  repeat match goal with
  | |- context [match ?z with _ => _ end = FOk _ _ -> _] => destruct z
  end;
  first [ apply on_varint_le | apply on_fixed64_le | apply on_bytes_le | discriminate ].

Lemma consuming_timestamp : consuming h_timestamp.
Proof. intros fn wt m r m' r'. unfold h_timestamp. solve_consuming. Qed.
Lemma consuming_psh : consuming h_psh.
Proof. intros fn wt m r m' r'. unfold h_psh. solve_consuming. Qed.
Lemma consuming_bid : consuming h_bid.
Proof. intros fn wt m r m' r'. unfold h_bid. solve_consuming. Qed.
Lemma consuming_vote : consuming h_vote.
Proof. intros fn wt [] r m' r'. unfold h_vote. solve_consuming. Qed.
Lemma consuming_proposal : consuming h_proposal.
Proof. intros fn wt [] r m' r'. unfold h_proposal. solve_consuming. Qed.

(** *** one encoded field *)

Section Fields.
  Context {M : Type} (h : Z -> Z -> M -> bytes -> field_result M) (Hc : consuming h).

  Lemma step_varint tag fn v m m' r set :
    (bz tag <? 128) = true -> wrap32 (u64 (bz tag) / 8) = fn -> u64 (bz tag) mod 8 = 0 ->
    (fn <=? 0) = false ->
    (forall r, h fn 0 m r = on_varint 0 r set) ->
    (v = 0 -> m' = m) -> (v <> 0 -> set (u64 v) = m') ->
    unmarshal h m (e_varint tag v ++ r) = unmarshal h m' r.
  Proof.
    intros Ht Hf Hw Hfn Hh H0 H1. unfold e_varint.
    destruct (Z.eqb_spec v 0) as [E|E]; [rewrite (H0 E); done|].
    cbn [app]. eapply unmarshal_step; [done|apply tag_byte, Ht|exact Hf|exact Hw|done|done|].
    rewrite Hh. unfold on_varint. cbn [Z.eqb].
    rewrite varint_roundtrip by (apply Z.mod_pos_bound; lia).
    rewrite (H1 E). done.
  Qed.

  Lemma step_fixed64 tag fn v m m' r set :
    (bz tag <? 128) = true -> wrap32 (u64 (bz tag) / 8) = fn -> u64 (bz tag) mod 8 = 1 ->
    (fn <=? 0) = false ->
    (forall r, h fn 1 m r = on_fixed64 1 r set) ->
    (v = 0 -> m' = m) -> (v <> 0 -> set (u64 v) = m') ->
    unmarshal h m (e_fixed64 tag v ++ r) = unmarshal h m' r.
  Proof.
    intros Ht Hf Hw Hfn Hh H0 H1. unfold e_fixed64.
    destruct (Z.eqb_spec v 0) as [E|E]; [rewrite (H0 E); done|].
    change ((tag :: le_enc 8 (u64 v)) ++ r) with (tag :: (le_enc 8 (u64 v) ++ r)).
    eapply unmarshal_step; [done|apply tag_byte, Ht|exact Hf|exact Hw|done|done|].
    rewrite Hh. unfold on_fixed64. cbn [Z.eqb Pos.eqb].
    rewrite le_roundtrip by (apply Z.mod_pos_bound; lia).
    rewrite (H1 E). done.
  Qed.

  Lemma step_msg tag fn p m m' r set :
    (bz tag <? 128) = true -> wrap32 (u64 (bz tag) / 8) = fn -> u64 (bz tag) mod 8 = 2 ->
    (fn <=? 0) = false ->
    (forall r, h fn 2 m r = on_bytes 2 r set) ->
    Z.of_nat (length p) < 2 ^ 63 -> set p = Some m' ->
    unmarshal h m (e_msg tag p ++ r) = unmarshal h m' r.
  Proof.
    intros Ht Hf Hw Hfn Hh Hp Hs. unfold e_msg. cbn [app].
    eapply unmarshal_step; [done|apply tag_byte, Ht|exact Hf|exact Hw|done|done|].
    rewrite Hh. unfold on_bytes. cbn [Z.eqb Pos.eqb].
    rewrite len_roundtrip by done. rewrite Hs. done.
  Qed.

  Lemma step_bytes tag fn p m m' r set :
    (bz tag <? 128) = true -> wrap32 (u64 (bz tag) / 8) = fn -> u64 (bz tag) mod 8 = 2 ->
    (fn <=? 0) = false ->
    (forall r, h fn 2 m r = on_bytes 2 r set) ->
    Z.of_nat (length p) < 2 ^ 63 -> (p = [] -> m' = m) -> (p <> [] -> set p = Some m') ->
    unmarshal h m (e_bytes tag p ++ r) = unmarshal h m' r.
  Proof.
    intros Ht Hf Hw Hfn Hh Hp H0 H1.
    destruct p as [|b p]; [rewrite (H0 eq_refl); done|].
    apply (step_msg tag fn (b :: p) m m' r set); auto.
  Qed.
End Fields.

(** *** well-formed values (the ranges of the Go types) *)

Definition psh_wf (h : part_set_header) : Prop := 0 <= psh_total h < 2 ^ 32.
Definition bid_wf (b : option block_id) : Prop :=
  match b with None => True | Some b => psh_wf (bid_psh b) end.
Definition small (l : bytes) : Prop := Z.of_nat (length l) < 2 ^ 63 - 1.
Record vote_wf (v : canonical_vote) : Prop := {
  vw_type : in_int32 (cv_type v); vw_height : in_int64 (cv_height v);
  vw_round : in_int64 (cv_round v); vw_bid : bid_wf (cv_bid v);
  vw_ts : time_valid (cv_ts v) = true; vw_small : small (m_vote v) }.
Record proposal_wf (p : canonical_proposal) : Prop := {
  pw_type : in_int32 (cp_type p); pw_height : in_int64 (cp_height p);
  pw_round : in_int64 (cp_round p); pw_pol : in_int64 (cp_pol p); pw_bid : bid_wf (cp_bid p);
  pw_ts : time_valid (cp_ts p) = true; pw_small : small (m_proposal p) }.

Lemma time_valid_spec t : time_valid t = true <->
  min_secs <= t_secs t < max_secs /\ 0 <= t_nanos t < 10 ^ 9.
Proof. unfold time_valid. lia. Qed.

Lemma app_small {A} (l l' : list A) n :
  Z.of_nat (length (l ++ l')) < n -> Z.of_nat (length l) < n /\ Z.of_nat (length l') < n.
Proof. rewrite app_length. lia. Qed.

Lemma msg_small tag p n : Z.of_nat (length (e_msg tag p)) < n -> Z.of_nat (length p) < n.
Proof. unfold e_msg, len_enc. simpl. rewrite app_length. lia. Qed.
Lemma ebytes_small tag p n : Z.of_nat (length (e_bytes tag p)) < n -> Z.of_nat (length p) < n.
Proof. destruct p; [done|]. apply msg_small. Qed.

(** *** nested messages *)

Lemma um_timestamp_roundtrip t : time_valid t = true -> um_timestamp (m_timestamp t) = Some t.
Proof.
  intros Ht. pose proof (proj1 (time_valid_spec t) Ht) as [Hs Hn].
  unfold um_timestamp, m_timestamp. destruct t as [s n]. cbn [t_secs t_nanos] in *.
  assert (E : unmarshal h_timestamp (Time 0 0) (e_varint x08 s ++ e_varint x10 n)
              = Some (Time s n)).
  { rewrite <- (app_nil_r (e_varint x10 n)).
    erewrite (step_varint _ consuming_timestamp x08 1 s _ (Time s 0)); try reflexivity.
    - erewrite (step_varint _ consuming_timestamp x10 2 n _ (Time s n)); try reflexivity.
      + intros ->. reflexivity.
      + intros _. cbn [t_secs]. f_equal.
        rewrite wrap32_u64. apply wrap32_small. unfold in_int32.
        change (10 ^ 9) with 1000000000 in Hn. change (2 ^ 31) with 2147483648. lia.
    - intros ->. reflexivity.
    - intros _. cbn [t_nanos]. f_equal.
      rewrite wrap64_u64. apply wrap64_small. unfold in_int64, min_secs, max_secs in *.
      change (2 ^ 63) with 9223372036854775808. lia. }
  rewrite E, Ht. done.
Qed.

Lemma um_psh_roundtrip h :
  psh_wf h -> Z.of_nat (length (m_psh h)) < 2 ^ 63 -> unmarshal h_psh empty_psh (m_psh h) = Some h.
Proof.
  intros Hh Hl. unfold m_psh in *. destruct h as [t h]. unfold psh_wf in Hh.
  cbn [psh_total psh_hash] in *. apply app_small in Hl as [_ Hl]. apply ebytes_small in Hl.
  rewrite <- (app_nil_r (e_bytes x12 h)).
  erewrite (step_varint _ consuming_psh x08 1 t _ (PSH t [])); try reflexivity.
  - erewrite (step_bytes _ consuming_psh x12 2 h _ (PSH t h)); try reflexivity.
    + exact Hl.
    + intros ->. reflexivity.
  - intros ->. reflexivity.
  - intros _. cbn [psh_hash empty_psh]. f_equal. rewrite u32_u64. apply Z.mod_small, Hh.
Qed.

Lemma um_bid_roundtrip b :
  psh_wf (bid_psh b) -> Z.of_nat (length (m_bid b)) < 2 ^ 63 -> um_bid None (m_bid b) = Some b.
Proof.
  intros Hh Hl. unfold um_bid, m_bid in *. destruct b as [h p]. cbn [bid_hash bid_psh] in *.
  apply app_small in Hl as [Hl1 Hl2]. apply ebytes_small in Hl1. apply msg_small in Hl2.
  cbn [default]. rewrite <- (app_nil_r (e_msg x12 (m_psh p))).
  erewrite (step_bytes _ consuming_bid x0a 1 h _ (BID h empty_psh)); try reflexivity.
  - erewrite (step_msg _ consuming_bid x12 2 (m_psh p) _ (BID h p)); try reflexivity.
    + exact Hl2.
    + cbn [bid_psh bid_hash]. rewrite um_psh_roundtrip by done. reflexivity.
  - exact Hl1.
  - intros ->. reflexivity.
Qed.

(** *** whole messages *)

Lemma unmarshal_m_vote v : vote_wf v -> unmarshal h_vote empty_vote (m_vote v) = Some v.
Proof.
  intros [Hty Hhe Hro Hbi Hts Hsm]. destruct v as [ty he ro bi ts ch].
  unfold m_vote, small in *. cbn [cv_type cv_height cv_round cv_bid cv_ts cv_chain] in *.
  apply app_small in Hsm as [_ Hsm]. apply app_small in Hsm as [_ Hsm].
  apply app_small in Hsm as [_ Hsm]. apply app_small in Hsm as [Hb Hsm].
  apply app_small in Hsm as [Ht Hch].
  apply msg_small in Ht. apply ebytes_small in Hch.
  rewrite <- (app_nil_r (e_bytes x32 ch)).
  erewrite (step_varint _ consuming_vote x08 1 ty _ (CVote ty 0 0 None zero_time []));
    try reflexivity.
  2:{ intros ->. reflexivity. }
  2:{ intros _. cbv beta. rewrite wrap32_u64, wrap32_small by done. reflexivity. }
  erewrite (step_fixed64 _ consuming_vote x11 2 he _ (CVote ty he 0 None zero_time []));
    try reflexivity.
  2:{ intros ->. reflexivity. }
  2:{ intros _. cbv beta. rewrite wrap64_u64, wrap64_small by done. reflexivity. }
  erewrite (step_fixed64 _ consuming_vote x19 3 ro _ (CVote ty he ro None zero_time []));
    try reflexivity.
  2:{ intros ->. reflexivity. }
  2:{ intros _. cbv beta. rewrite wrap64_u64, wrap64_small by done. reflexivity. }
  assert (E : forall r, unmarshal h_vote (CVote ty he ro None zero_time []) (e_bid x22 bi ++ r)
              = unmarshal h_vote (CVote ty he ro bi zero_time []) r).
  { intros r. destruct bi as [b|]; [|reflexivity].
    cbn [e_bid] in *. apply msg_small in Hb.
    erewrite (step_msg _ consuming_vote x22 4 (m_bid b) _ (CVote ty he ro (Some b) zero_time []));
      try reflexivity.
    - lia.
    - cbv beta. rewrite um_bid_roundtrip; [reflexivity|exact Hbi|lia]. }
  rewrite E. clear E.
  erewrite (step_msg _ consuming_vote x2a 5 (m_timestamp ts) _ (CVote ty he ro bi ts []));
    try reflexivity.
  2: lia.
  2: cbv beta; rewrite um_timestamp_roundtrip by done; reflexivity.
  erewrite (step_bytes _ consuming_vote x32 6 ch _ (CVote ty he ro bi ts ch)); try reflexivity.
  - lia.
  - intros ->. reflexivity.
Qed.

Lemma unmarshal_m_proposal p :
  proposal_wf p -> unmarshal h_proposal empty_proposal (m_proposal p) = Some p.
Proof.
  intros [Hty Hhe Hro Hpo Hbi Hts Hsm]. destruct p as [ty he ro po bi ts ch].
  unfold m_proposal, small in *.
  cbn [cp_type cp_height cp_round cp_pol cp_bid cp_ts cp_chain] in *.
  apply app_small in Hsm as [_ Hsm]. apply app_small in Hsm as [_ Hsm].
  apply app_small in Hsm as [_ Hsm]. apply app_small in Hsm as [_ Hsm].
  apply app_small in Hsm as [Hb Hsm]. apply app_small in Hsm as [Ht Hch].
  apply msg_small in Ht. apply ebytes_small in Hch.
  rewrite <- (app_nil_r (e_bytes x3a ch)).
  erewrite (step_varint _ consuming_proposal x08 1 ty _ (CProp ty 0 0 0 None zero_time []));
    try reflexivity.
  2:{ intros ->. reflexivity. }
  2:{ intros _. cbv beta. rewrite wrap32_u64, wrap32_small by done. reflexivity. }
  erewrite (step_fixed64 _ consuming_proposal x11 2 he _ (CProp ty he 0 0 None zero_time []));
    try reflexivity.
  2:{ intros ->. reflexivity. }
  2:{ intros _. cbv beta. rewrite wrap64_u64, wrap64_small by done. reflexivity. }
  erewrite (step_fixed64 _ consuming_proposal x19 3 ro _ (CProp ty he ro 0 None zero_time []));
    try reflexivity.
  2:{ intros ->. reflexivity. }
  2:{ intros _. cbv beta. rewrite wrap64_u64, wrap64_small by done. reflexivity. }
  erewrite (step_varint _ consuming_proposal x20 4 po _ (CProp ty he ro po None zero_time []));
    try reflexivity.
  2:{ intros ->. reflexivity. }
  2:{ intros _. cbv beta. rewrite wrap64_u64, wrap64_small by done. reflexivity. }
  assert (E : forall r, unmarshal h_proposal (CProp ty he ro po None zero_time []) (e_bid x2a bi ++ r)
              = unmarshal h_proposal (CProp ty he ro po bi zero_time []) r).
  { intros r. destruct bi as [b|]; [|reflexivity].
    cbn [e_bid] in *. apply msg_small in Hb.
    erewrite (step_msg _ consuming_proposal x2a 5 (m_bid b) _
               (CProp ty he ro po (Some b) zero_time [])); try reflexivity.
    - lia.
    - cbv beta. rewrite um_bid_roundtrip; [reflexivity|exact Hbi|lia]. }
  rewrite E. clear E.
  erewrite (step_msg _ consuming_proposal x32 6 (m_timestamp ts) _ (CProp ty he ro po bi ts []));
    try reflexivity.
  2: lia.
  2: cbv beta; rewrite um_timestamp_roundtrip by done; reflexivity.
  erewrite (step_bytes _ consuming_proposal x3a 7 ch _ (CProp ty he ro po bi ts ch));
    try reflexivity.
  - lia.
  - intros ->. reflexivity.
Qed.

Lemma decode_vote_roundtrip v r : vote_wf v -> decode_vote (delimited (m_vote v) ++ r) = Some v.
Proof.
  intros Hv. unfold decode_vote. rewrite unmarshal_delimited_delimited by apply Hv.
  apply unmarshal_m_vote, Hv.
Qed.
Lemma decode_proposal_roundtrip p r :
  proposal_wf p -> decode_proposal (delimited (m_proposal p) ++ r) = Some p.
Proof.
  intros Hp. unfold decode_proposal. rewrite unmarshal_delimited_delimited by apply Hp.
  apply unmarshal_m_proposal, Hp.
Qed.

(** *** a vote read as a proposal *)

(** unless the vote has no block ID and its timestamp is the Unix epoch, the proposal decoder
    fails on its bytes *)
Lemma bid_of_timestamp cur t :
  time_valid t = true -> t <> epoch -> um_bid cur (m_timestamp t) = None.
Proof.
  intros Ht Hne. unfold um_bid, m_timestamp. destruct t as [s n]. cbn [t_secs t_nanos].
  unfold e_varint at 1. destruct (Z.eqb_spec s 0) as [->|Hs].
  - unfold e_varint. destruct (Z.eqb_spec n 0) as [->|Hn]; [done|].
    cbn [app]. eapply unmarshal_err; [apply tag_byte; reflexivity|reflexivity|reflexivity|].
    reflexivity.
  - cbn [app]. eapply unmarshal_err; [apply tag_byte; reflexivity|reflexivity|reflexivity|].
    reflexivity.
Qed.

Lemma proposal_of_vote_bytes v :
  vote_wf v -> cv_bid v <> None \/ cv_ts v <> epoch ->
  unmarshal h_proposal empty_proposal (m_vote v) = None.
Proof.
  intros [Hty Hhe Hro Hbi Hts Hsm] Hcond. destruct v as [ty he ro bi ts ch].
  unfold m_vote, small in *. cbn [cv_type cv_height cv_round cv_bid cv_ts cv_chain] in *.
  apply app_small in Hsm as [_ Hsm]. apply app_small in Hsm as [_ Hsm].
  apply app_small in Hsm as [_ Hsm]. apply app_small in Hsm as [Hb Hsm].
  apply app_small in Hsm as [Ht Hch]. apply msg_small in Ht.
  erewrite (step_varint _ consuming_proposal x08 1 ty _ (CProp ty 0 0 0 None zero_time []));
    try reflexivity.
  2:{ intros ->. reflexivity. }
  2:{ intros _. cbv beta. rewrite wrap32_u64, wrap32_small by done. reflexivity. }
  erewrite (step_fixed64 _ consuming_proposal x11 2 he _ (CProp ty he 0 0 None zero_time []));
    try reflexivity.
  2:{ intros ->. reflexivity. }
  2:{ intros _. cbv beta. rewrite wrap64_u64, wrap64_small by done. reflexivity. }
  erewrite (step_fixed64 _ consuming_proposal x19 3 ro _ (CProp ty he ro 0 None zero_time []));
    try reflexivity.
  2:{ intros ->. reflexivity. }
  2:{ intros _. cbv beta. rewrite wrap64_u64, wrap64_small by done. reflexivity. }
  destruct bi as [b|].
  - cbn [e_bid]. unfold e_msg at 1. cbn [app].
    eapply unmarshal_err; [apply tag_byte; reflexivity|reflexivity|reflexivity|]. reflexivity.
  - destruct Hcond as [Hx|Hne]; [done|]. cbn [e_bid app]. unfold e_msg. cbn [app].
    eapply (unmarshal_err _ _ _ _ _ 5 2); [apply tag_byte; reflexivity|reflexivity|reflexivity|].
    unfold h_proposal, on_bytes. cbn [Z.eqb Pos.eqb]. rewrite len_roundtrip by lia.
    rewrite bid_of_timestamp by done. reflexivity.
Qed.

Lemma decode_proposal_of_vote v r :
  vote_wf v -> cv_bid v <> None \/ cv_ts v <> epoch ->
  decode_proposal (delimited (m_vote v) ++ r) = None.
Proof.
  intros Hv Hc. unfold decode_proposal. rewrite unmarshal_delimited_delimited by apply Hv.
  apply proposal_of_vote_bytes; done.
Qed.

(** *** UnpackHRST *)

Lemma unpack_vote v r s :
  vote_wf v -> cv_bid v <> None \/ cv_ts v <> epoch ->
  vote_type_to_step (cv_type v) = Some s ->
  unpack_hrst (delimited (m_vote v) ++ r)
  = Val (HRST (HRS (cv_height v) (cv_round v) s) (unix_nano (cv_ts v))).
Proof.
  intros Hv Hc Hs. unfold unpack_hrst.
  rewrite decode_proposal_of_vote, decode_vote_roundtrip, Hs by done. done.
Qed.

Lemma unpack_proposal p r :
  proposal_wf p ->
  unpack_hrst (delimited (m_proposal p) ++ r)
  = Val (HRST (HRS (cp_height p) (cp_round p) stepPropose) (unix_nano (cp_ts p))).
Proof. intros Hp. unfold unpack_hrst. rewrite decode_proposal_roundtrip by done. done. Qed.

(** The gRPC messages: what is received is what was sent. *)
From Coq Require Import ZifyBool ZifyNat.
From Verif Require Import GoBase Wire WireProofs Canonical CanonicalProofs CanonicalApi Spec Utf8 Utf8Proofs
  LocalCosigner CosignerProofs Validator Privval Rpc RpcSpec.
Local Open Scope Z_scope.
Local Notation sz l := (Z.of_nat (length l) < 2 ^ 63).

Ltac sc := 
  repeat match goal with
  | |- context [match ?z with _ => _ end = FOk _ _ -> _] => destruct z
  end; unfold go_varint, go_bytes;
  repeat match goal with
  | |- context [match ?z with _ => _ end = FOk _ _ -> _] => destruct z
  end;
  first [ apply on_varint_le | apply on_bytes_le | discriminate ].
Lemma consuming_p_block : consuming h_p_block.
Proof. intros fn wt [] r m' r'. unfold h_p_block. sc. Qed.
Lemma consuming_p_part : consuming h_p_part.
Proof. intros fn wt [] r m' r'. unfold h_p_part. sc. Qed.
Lemma consuming_p_hrst : consuming h_p_hrst.
Proof. intros fn wt [] r m' r'. unfold h_p_hrst. sc. Qed.
Lemma consuming_get_request : consuming h_get_request.
Proof. intros fn wt m r m' r'. unfold h_get_request. sc. Qed.
Lemma consuming_get_response : consuming h_get_response.
Proof. intros fn wt m r m' r'. unfold h_get_response. sc. Qed.
Lemma consuming_sign_request : consuming h_sign_request.
Proof. intros fn wt [] r m' r'. unfold h_sign_request. sc. Qed.
Lemma consuming_sign_response : consuming h_sign_response.
Proof. intros fn wt [[] ?] r m' r'. unfold h_sign_response. sc. Qed.
Lemma consuming_block_request : consuming h_block_request.
Proof. intros fn wt m r m' r'. unfold h_block_request. sc. Qed.
Lemma consuming_block_response : consuming h_block_response.
Proof. intros fn wt m r m' r'. unfold h_block_response. sc. Qed.

(** ** Conversions *)
Lemma int8_32 z : in_int8 z -> in_int32 z.
Proof. unfold in_int8, in_int32. change (2 ^ 7) with 128. change (2 ^ 31) with 2147483648. lia. Qed.
Lemma hrst_conv k : key_ok k -> hrst_from_proto (Some (hrst_to_proto k)) = k.
Proof.
  destruct k as [[h r s] t]. intros (_ & _ & Hs & _). unfold hrst_from_proto, hrst_to_proto. cbn in *.
  rewrite wrap32_small by (by apply int8_32). by rewrite wrap8_small.
Qed.
Lemma part_conv p : in_int32 (pt_source p) -> in_int32 (pt_dest p) -> part_from_proto (part_to_proto p) = p.
Proof. destruct p as [s d e c g]. intros H1 H2. unfold part_from_proto, part_to_proto. cbn in *. by rewrite !wrap32_small. Qed.
Lemma time_conv t : 0 <= t_nanos t < 10 ^ 9 -> in_int64 (nanos_of t) -> time_of_nano (unix_nano t) = t.
Proof.
  intros Hn H. rewrite unix_nano_exact by done. destruct t as [s n]. unfold time_of_nano, nanos_of. cbn [t_secs t_nanos] in *.
  change (10 ^ 9) with 1000000000 in *.
  rewrite Z.div_add_l, Z.div_small by lia. rewrite (Z.add_comm (s * _)), Z.mod_add, Z.mod_small by lia. by rewrite Z.add_0_r.
Qed.
Lemma block_conv b : block_ok b -> block_from_proto (Some (block_to_proto b)) = b.
Proof.
  destruct b as [[h r s] sb t]. intros (_ & _ & Hs & Hn & Ht). unfold block_from_proto, block_to_proto. cbn in *.
  rewrite wrap32_small by (by apply int8_32). rewrite wrap8_small by done. by rewrite time_conv.
Qed.

(** ** Wire *)
Lemma um_hrst p : in_int64 (ph_height p) -> in_int64 (ph_round p) -> in_int32 (ph_step p) -> in_int64 (ph_time p) ->
  unmarshal h_p_hrst zero_hrst (m_p_hrst p) = Some p.
Proof.
  destruct p as [h r s t]. cbn [ph_height ph_round ph_step ph_time]. intros Hh Hr Hs Ht. unfold m_p_hrst. cbn [ph_height ph_round ph_step ph_time].
  rewrite <- (app_nil_r (e_varint x20 t)). unfold zero_hrst.
  erewrite (step_varint _ consuming_p_hrst x08 1 h _ (PHRST h 0 0 0)); try reflexivity.
  2:{ intros ->. reflexivity. }
  2:{ intros _. cbv beta. rewrite wrap64_u64, wrap64_small by done. reflexivity. }
  erewrite (step_varint _ consuming_p_hrst x10 2 r _ (PHRST h r 0 0)); try reflexivity.
  2:{ intros ->. reflexivity. }
  2:{ intros _. cbv beta. rewrite wrap64_u64, wrap64_small by done. reflexivity. }
  erewrite (step_varint _ consuming_p_hrst x18 3 s _ (PHRST h r s 0)); try reflexivity.
  2:{ intros ->. reflexivity. }
  2:{ intros _. cbv beta. rewrite wrap32_u64, wrap32_small by done. reflexivity. }
  erewrite (step_varint _ consuming_p_hrst x20 4 t _ (PHRST h r s t)); try reflexivity.
  { intros ->. reflexivity. }
  { intros _. cbv beta. rewrite wrap64_u64, wrap64_small by done. reflexivity. }
Qed.
Lemma um_block p : in_int64 (pb_height p) -> in_int64 (pb_round p) -> in_int32 (pb_step p) -> in_int64 (pb_time p) ->
  sz (pb_bytes p) -> unmarshal h_p_block zero_block (m_p_block p) = Some p.
Proof.
  destruct p as [h r s b t]. cbn [pb_height pb_round pb_step pb_time pb_bytes]. intros Hh Hr Hs Ht Hb.
  unfold m_p_block. cbn [pb_height pb_round pb_step pb_time pb_bytes].
  rewrite <- (app_nil_r (e_varint x28 t)). unfold zero_block.
  erewrite (step_varint _ consuming_p_block x08 1 h _ (PBlock h 0 0 [] 0)); try reflexivity.
  2:{ intros ->. reflexivity. }
  2:{ intros _. cbv beta. rewrite wrap64_u64, wrap64_small by done. reflexivity. }
  erewrite (step_varint _ consuming_p_block x10 2 r _ (PBlock h r 0 [] 0)); try reflexivity.
  2:{ intros ->. reflexivity. }
  2:{ intros _. cbv beta. rewrite wrap64_u64, wrap64_small by done. reflexivity. }
  erewrite (step_varint _ consuming_p_block x18 3 s _ (PBlock h r s [] 0)); try reflexivity.
  2:{ intros ->. reflexivity. }
  2:{ intros _. cbv beta. rewrite wrap32_u64, wrap32_small by done. reflexivity. }
  erewrite (step_bytes _ consuming_p_block x22 4 b _ (PBlock h r s b 0)); try reflexivity.
  2: exact Hb.
  2:{ intros ->. reflexivity. }
  erewrite (step_varint _ consuming_p_block x28 5 t _ (PBlock h r s b t)); try reflexivity.
  { intros ->. reflexivity. }
  { intros _. cbv beta. rewrite wrap64_u64, wrap64_small by done. reflexivity. }
Qed.
Lemma um_part p : in_int32 (pp_source p) -> in_int32 (pp_dest p) -> pp_ssig p <> Some [] -> sz (m_p_part p) ->
  unmarshal h_p_part zero_part (m_p_part p) = Some p.
Proof.
  destruct p as [s d e c g]. cbn [pp_source pp_dest pp_eph pp_enc pp_ssig]. intros Hs Hd Hg Hsm.
  unfold m_p_part in *. cbn [pp_source pp_dest pp_eph pp_enc pp_ssig] in *.
  apply app_small in Hsm as [_ Hsm]. apply app_small in Hsm as [_ Hsm]. apply app_small in Hsm as [He Hsm].
  apply app_small in Hsm as [Hc Hsg]. unfold e_obytes in *.
  apply ebytes_small in He. apply ebytes_small in Hc. apply ebytes_small in Hsg.
  rewrite <- (app_nil_r (e_bytes x2a _)). unfold zero_part.
  erewrite (step_varint _ consuming_p_part x08 1 s _ (PPart s 0 [] [] None)); try reflexivity.
  2:{ intros ->. reflexivity. }
  2:{ intros _. cbv beta. rewrite wrap32_u64, wrap32_small by done. reflexivity. }
  erewrite (step_varint _ consuming_p_part x10 2 d _ (PPart s d [] [] None)); try reflexivity.
  2:{ intros ->. reflexivity. }
  2:{ intros _. cbv beta. rewrite wrap32_u64, wrap32_small by done. reflexivity. }
  erewrite (step_bytes _ consuming_p_part x1a 3 e _ (PPart s d e [] None)); try reflexivity.
  2: exact He. 2:{ intros ->. reflexivity. }
  erewrite (step_bytes _ consuming_p_part x22 4 c _ (PPart s d e c None)); try reflexivity.
  2: exact Hc. 2:{ intros ->. reflexivity. }
  erewrite (step_bytes _ consuming_p_part x2a 5 _ _ (PPart s d e c g)); try reflexivity.
  - exact Hsg.
  - destruct g as [g|]; [|done]. intros ->. done.
  - destruct g as [g|]; [done|]. done.
Qed.

Lemma e_parts_small tag ps : sz (e_parts tag ps) -> Forall (fun p => sz (m_p_part p)) ps.
Proof.
  induction ps as [|p ps IH]; intros H; [constructor|]. unfold e_parts in H. cbn [flat_map] in H.
  apply app_small in H as [H1 H2]. constructor; [by eapply msg_small|by apply IH].
Qed.
Lemma to_proto_ok p : part_ok p -> in_int32 (pp_source (part_to_proto p)) /\ in_int32 (pp_dest (part_to_proto p)) /\ pp_ssig (part_to_proto p) <> Some [].
Proof. intros (H1 & H2 & H3). cbn. by rewrite !wrap32_small. Qed.


Lemma m_hrst_small p : sz (m_p_hrst p).
Proof.
  unfold m_p_hrst. rewrite !app_length.
  pose proof (e_varint_length x08 (ph_height p)). pose proof (e_varint_length x10 (ph_round p)).
  pose proof (e_varint_length x18 (ph_step p)). pose proof (e_varint_length x20 (ph_time p)).
  change (2 ^ 63) with 9223372036854775808. lia.
Qed.
Lemma um_key k : key_ok k -> unmarshal h_p_hrst zero_hrst (m_p_hrst (hrst_to_proto k)) = Some (hrst_to_proto k).
Proof. intros (H1 & H2 & H3 & H4). apply um_hrst; [done|done| |done]. cbn. by rewrite wrap32_small; apply int8_32. Qed.

Lemma get_request_received k : key_ok k -> get_received (get_request k) = Some k.
Proof.
  intros H. unfold get_received, get_request. rewrite <- (app_nil_r (e_msg _ _)).
  erewrite (step_msg _ consuming_get_request x0a 1 _ _ (Some (hrst_to_proto k))); try reflexivity.
  - change (unmarshal h_get_request (Some (hrst_to_proto k)) []) with (Some (Some (hrst_to_proto k))).
    apply f_equal. by apply hrst_conv.
  - apply m_hrst_small.
  - cbv beta. by rewrite um_key.
Qed.
Lemma um_parts ps done r : Forall part_ok ps -> sz (e_parts x0a (map part_to_proto ps)) ->
  unmarshal h_get_response done (e_parts x0a (map part_to_proto ps) ++ r)
  = unmarshal h_get_response (done ++ map part_to_proto ps) r.
Proof.
  intros H. revert done. induction H as [|p ps Hp H IH]; intros dn Hs; [by rewrite app_nil_r|].
  unfold e_parts in *. cbn [map flat_map] in *. rewrite <- app_assoc.
  apply app_small in Hs as [H1 H2]. apply msg_small in H1.
  destruct (to_proto_ok _ Hp) as (T1 & T2 & T3).
  erewrite (step_msg _ consuming_get_response x0a 1 _ _ (dn ++ [part_to_proto p])); try reflexivity; [|exact H1|].
  2:{ cbv beta. by rewrite um_part. }
  rewrite IH by done. by rewrite <- app_assoc.
Qed.
Lemma um_sign_parts ps dn k sb r : Forall part_ok ps -> sz (e_parts x0a (map part_to_proto ps)) ->
  unmarshal h_sign_request (PSign dn k sb) (e_parts x0a (map part_to_proto ps) ++ r)
  = unmarshal h_sign_request (PSign (dn ++ map part_to_proto ps) k sb) r.
Proof.
  intros H. revert dn. induction H as [|p ps Hp H IH]; intros dn Hs; [by rewrite app_nil_r|].
  unfold e_parts in *. cbn [map flat_map] in *. rewrite <- app_assoc.
  apply app_small in Hs as [H1 H2]. apply msg_small in H1.
  destruct (to_proto_ok _ Hp) as (T1 & T2 & T3).
  erewrite (step_msg _ consuming_sign_request x0a 1 _ _ (PSign (dn ++ [part_to_proto p]) k sb)); try reflexivity; [|exact H1|].
  2:{ cbv beta. by rewrite um_part. }
  rewrite IH by done. by rewrite <- app_assoc.
Qed.
Lemma parts_conv ps : Forall part_ok ps -> map part_from_proto (map part_to_proto ps) = ps.
Proof. induction 1 as [|p ps (H1 & H2 & _) H IH]; [done|]. cbn [map]. by rewrite part_conv, IH. Qed.
Lemma get_response_received ps : Forall part_ok ps -> sz (get_response ps) -> get_answer (get_response ps) = Some ps.
Proof.
  intros H Hs. unfold get_answer, get_response in *. rewrite <- (app_nil_r (e_parts _ _)), um_parts by done. cbn [app].
  change (unmarshal h_get_response (map part_to_proto ps) []) with (Some (map part_to_proto ps)). cbv beta iota. by rewrite parts_conv.
Qed.
Lemma sign_request_received ps k sb : Forall part_ok ps -> key_ok k -> sz (sign_request ps k sb) ->
  sign_received (sign_request ps k sb) = Some (ps, k, sb).
Proof.
  intros H Hk Hs. unfold sign_received, sign_request in *. apply app_small in Hs as [H1 Hs]. apply app_small in Hs as [_ H2].
  apply ebytes_small in H2. rewrite um_sign_parts by done. cbn [app]. rewrite <- (app_nil_r (e_bytes _ _)).
  erewrite (step_msg _ consuming_sign_request x12 2 _ _ (PSign (map part_to_proto ps) (Some (hrst_to_proto k)) [])); try reflexivity.
  2: apply m_hrst_small. 2: cbv beta; by rewrite um_key.
  erewrite (step_bytes _ consuming_sign_request x1a 3 sb _ (PSign (map part_to_proto ps) (Some (hrst_to_proto k)) sb)); try reflexivity.
  2: exact H2. 2: by intros ->.
  change (unmarshal h_sign_request ?m []) with (Some m). cbv beta iota. cbn [ps_parts ps_hrst ps_bytes].
  by rewrite parts_conv, hrst_conv.
Qed.
Lemma sign_response_received eph ts sig : 0 <= t_nanos ts < 10 ^ 9 -> in_int64 (nanos_of ts) -> sz (sign_response eph ts sig) ->
  sign_answer (sign_response eph ts sig) = Some (eph, ts, sig).
Proof.
  intros Hn Ht Hs. unfold sign_answer, sign_response in *. apply app_small in Hs as [H1 Hs]. apply app_small in Hs as [_ H2].
  apply ebytes_small in H1. apply ebytes_small in H2. rewrite <- (app_nil_r (e_bytes x1a _)).
  erewrite (step_bytes _ consuming_sign_response x0a 1 eph _ (eph, 0, [])); try reflexivity.
  2: exact H1. 2: by intros ->.
  erewrite (step_varint _ consuming_sign_response x10 2 _ _ (eph, unix_nano ts, [])); try reflexivity.
  2: by intros ->.
  2:{ intros _. cbv beta. rewrite wrap64_u64, wrap64_small; [done|apply wrap64_range]. }
  erewrite (step_bytes _ consuming_sign_response x1a 3 sig _ (eph, unix_nano ts, sig)); try reflexivity.
  2: exact H2. 2: by intros ->.
  change (unmarshal h_sign_response ?m []) with (Some m). cbv beta iota. by rewrite time_conv.
Qed.
Lemma valid_utf8_spec s : valid_utf8 s = true <-> utf8_text s.
Proof.
  unfold valid_utf8. rewrite bool_decide_eq_true. split; [|apply san_text]. intros <-. apply san_is_text.
Qed.
Lemma block_request_received chain b : block_ok b -> utf8_text chain ->
  exists l, block_request chain b = Some l /\ (sz l -> block_received l = Some (chain, b)).
Proof.
  intros Hb Hc%valid_utf8_spec. unfold block_request. rewrite Hc. eexists. split; [done|]. intros Hs.
  apply app_small in Hs as [H1 H2]. apply ebytes_small in H1. apply msg_small in H2. unfold block_received.
  rewrite <- (app_nil_r (e_msg _ _)).
  erewrite (step_bytes _ consuming_block_request x0a 1 chain _ (chain, None)); try reflexivity.
  2: exact H1. 2: by intros ->. 2:{ intros _. cbv beta. by rewrite Hc. }
  erewrite (step_msg _ consuming_block_request x12 2 _ _ (chain, Some (block_to_proto b))); try reflexivity.
  2: exact H2.
  - change (unmarshal h_block_request ?m []) with (Some m). cbv beta iota. by rewrite block_conv.
  - cbn [fst snd]. destruct Hb as (B1 & B2 & B3 & B4 & B5). rewrite um_block; [done|done|done| | |].
    + cbn. rewrite wrap32_small; by apply int8_32.
    + apply wrap64_range.
    + unfold m_p_block in H2. apply app_small in H2 as [_ H2]. apply app_small in H2 as [_ H2]. apply app_small in H2 as [_ H2].
      apply app_small in H2 as [H2 _]. by eapply ebytes_small.
Qed.
Lemma block_request_refused chain b : ~ utf8_text chain -> block_request chain b = None.
Proof.
  intros Hc. unfold block_request. destruct (valid_utf8 chain) eqn:E; [|done]. by apply valid_utf8_spec in E.
Qed.
Lemma block_response_received sig : sig <> Some [] -> sz (block_response sig) ->
  block_answer (block_response sig) = Some sig.
Proof.
  intros Hn Hs. unfold block_answer, block_response, e_obytes in *. rewrite <- (app_nil_r (e_bytes _ _)).
  apply ebytes_small in Hs.
  erewrite (step_bytes _ consuming_block_response x0a 1 _ _ sig); try reflexivity; [exact Hs| |].
  - destruct sig; [|done]. by intros ->.
  - by destruct sig.
Qed.

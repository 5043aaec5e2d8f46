(** The privval codec and framing. *)
From Coq Require Import ZifyBool ZifyNat.
From Verif Require Import GoBase Wire WireProofs Canonical CanonicalProofs CanonicalApi Privval RemoteSigner PrivvalSpec.
Local Open Scope Z_scope.

Lemma consuming_pvote : consuming h_pvote.
Proof. intros fn wt [[] ? ? ?] r m' r'. unfold h_pvote. solve_consuming. Qed.
Lemma consuming_pprop : consuming h_pprop.
Proof. intros fn wt [? [] ?] r m' r'. unfold h_pprop. solve_consuming. Qed.
Lemma consuming_rs_error : consuming h_rs_error.
Proof. intros fn wt m r m' r'. unfold h_rs_error. solve_consuming. Qed.
Lemma consuming_pubkey : consuming h_pubkey.
Proof. intros fn wt m r m' r'. unfold h_pubkey. solve_consuming. Qed.
Lemma consuming_pk_req : consuming h_pk_req.
Proof. intros fn wt m r m' r'. unfold h_pk_req. solve_consuming. Qed.
Lemma consuming_req {A} (h : Z -> Z -> A -> bytes -> field_result A) z : consuming (h_req h z).
Proof. intros fn wt m r m' r'. unfold h_req. solve_consuming. Qed.
Lemma consuming_resp {A} (h : Z -> Z -> A -> bytes -> field_result A) : consuming (h_resp h).
Proof. intros fn wt m r m' r'. unfold h_resp. solve_consuming. Qed.
Lemma consuming_message : consuming h_message.
Proof. intros fn wt m r m' r'. unfold h_message. solve_consuming. Qed.

(** ** Round trips *)

Local Notation sz l := (Z.of_nat (length l) < 2 ^ 63).

Lemma um_bid_zero b : bid_in_range b -> sz (m_bid b) -> unmarshal h_bid empty_bid (m_bid b) = Some b.
Proof. intros H Hl. exact (um_bid_roundtrip b H Hl). Qed.

Lemma unmarshal_m_pvote v : pvote_ok v -> sz (m_pvote v) -> unmarshal h_pvote empty_pvote (m_pvote v) = Some v.
Proof.
  intros (Hty & Hhe & Hro & Hbi & Hts & Hix) Hsm. destruct v as [[ty he ro bi ts] ad ix sg].
  unfold m_pvote in *. cbn [pv_vote v_type v_height v_round v_bid v_ts pv_addr pv_index pv_sig] in *.
  apply app_small in Hsm as [_ Hsm]. apply app_small in Hsm as [_ Hsm]. apply app_small in Hsm as [_ Hsm].
  apply app_small in Hsm as [Hb Hsm]. apply app_small in Hsm as [Ht Hsm]. apply app_small in Hsm as [Ha Hsm].
  apply app_small in Hsm as [_ Hsg].
  apply msg_small in Hb. apply msg_small in Ht. apply ebytes_small in Ha. apply ebytes_small in Hsg.
  rewrite <- (app_nil_r (e_bytes x42 sg)). unfold empty_pvote.
  erewrite (step_varint _ consuming_pvote x08 1 ty _ (PVote (Vote ty 0 0 empty_bid zero_time) [] 0 [])); try reflexivity.
  2:{ intros ->. reflexivity. }
  2:{ intros _. cbv beta. rewrite wrap32_u64, wrap32_small by done. reflexivity. }
  erewrite (step_varint _ consuming_pvote x10 2 he _ (PVote (Vote ty he 0 empty_bid zero_time) [] 0 [])); try reflexivity.
  2:{ intros ->. reflexivity. }
  2:{ intros _. cbv beta. rewrite wrap64_u64, wrap64_small by done. reflexivity. }
  erewrite (step_varint _ consuming_pvote x18 3 ro _ (PVote (Vote ty he ro empty_bid zero_time) [] 0 [])); try reflexivity.
  2:{ intros ->. reflexivity. }
  2:{ intros _. cbv beta. rewrite wrap32_u64, wrap32_small by done. reflexivity. }
  erewrite (step_msg _ consuming_pvote x22 4 (m_bid bi) _ (PVote (Vote ty he ro bi zero_time) [] 0 [])); try reflexivity.
  2: exact Hb.
  2: cbv beta; rewrite um_bid_zero by done; reflexivity.
  erewrite (step_msg _ consuming_pvote x2a 5 (m_timestamp ts) _ (PVote (Vote ty he ro bi ts) [] 0 [])); try reflexivity.
  2: exact Ht.
  2: cbv beta; rewrite um_timestamp_roundtrip by done; reflexivity.
  erewrite (step_bytes _ consuming_pvote x32 6 ad _ (PVote (Vote ty he ro bi ts) ad 0 [])); try reflexivity.
  2: exact Ha.
  2:{ intros ->. reflexivity. }
  erewrite (step_varint _ consuming_pvote x38 7 ix _ (PVote (Vote ty he ro bi ts) ad ix [])); try reflexivity.
  2:{ intros ->. reflexivity. }
  2:{ intros _. cbv beta. rewrite wrap32_u64, wrap32_small by done. reflexivity. }
  erewrite (step_bytes _ consuming_pvote x42 8 sg _ (PVote (Vote ty he ro bi ts) ad ix sg)); try reflexivity.
  - exact Hsg.
  - intros ->. reflexivity.
Qed.

Lemma unmarshal_m_pprop v : pprop_ok v -> sz (m_pprop v) -> unmarshal h_pprop empty_pprop (m_pprop v) = Some v.
Proof.
  intros (Hty & Hhe & Hro & Hpo & Hbi & Hts) Hsm. destruct v as [ty [he ro po bi ts] sg].
  unfold m_pprop in *. cbn [pp_prop p_height p_round p_pol p_bid p_ts pp_type pp_sig] in *.
  apply app_small in Hsm as [_ Hsm]. apply app_small in Hsm as [_ Hsm]. apply app_small in Hsm as [_ Hsm].
  apply app_small in Hsm as [_ Hsm].
  apply app_small in Hsm as [Hb Hsm]. apply app_small in Hsm as [Ht Hsg].
  apply msg_small in Hb. apply msg_small in Ht. apply ebytes_small in Hsg.
  rewrite <- (app_nil_r (e_bytes x3a sg)). unfold empty_pprop.
  erewrite (step_varint _ consuming_pprop x08 1 ty _ (PProp ty (Proposal 0 0 0 empty_bid zero_time) [])); try reflexivity.
  2:{ intros ->. reflexivity. }
  2:{ intros _. cbv beta. rewrite wrap32_u64, wrap32_small by done. reflexivity. }
  erewrite (step_varint _ consuming_pprop x10 2 he _ (PProp ty (Proposal he 0 0 empty_bid zero_time) [])); try reflexivity.
  2:{ intros ->. reflexivity. }
  2:{ intros _. cbv beta. rewrite wrap64_u64, wrap64_small by done. reflexivity. }
  erewrite (step_varint _ consuming_pprop x18 3 ro _ (PProp ty (Proposal he ro 0 empty_bid zero_time) [])); try reflexivity.
  2:{ intros ->. reflexivity. }
  2:{ intros _. cbv beta. rewrite wrap32_u64, wrap32_small by done. reflexivity. }
  erewrite (step_varint _ consuming_pprop x20 4 po _ (PProp ty (Proposal he ro po empty_bid zero_time) [])); try reflexivity.
  2:{ intros ->. reflexivity. }
  2:{ intros _. cbv beta. rewrite wrap32_u64, wrap32_small by done. reflexivity. }
  erewrite (step_msg _ consuming_pprop x2a 5 (m_bid bi) _ (PProp ty (Proposal he ro po bi zero_time) [])); try reflexivity.
  2: exact Hb.
  2: cbv beta; rewrite um_bid_zero by done; reflexivity.
  erewrite (step_msg _ consuming_pprop x32 6 (m_timestamp ts) _ (PProp ty (Proposal he ro po bi ts) [])); try reflexivity.
  2: exact Ht.
  2: cbv beta; rewrite um_timestamp_roundtrip by done; reflexivity.
  erewrite (step_bytes _ consuming_pprop x3a 7 sg _ (PProp ty (Proposal he ro po bi ts) sg)); try reflexivity.
  - exact Hsg.
  - intros ->. reflexivity.
Qed.

Lemma unmarshal_m_rs_error e : in_int32 (re_code e) -> sz (m_rs_error e) ->
  unmarshal h_rs_error empty_rs_error (m_rs_error e) = Some e.
Proof.
  intros Hc Hsm. destruct e as [c t]. unfold m_rs_error in *. cbn [re_code re_text] in *.
  apply app_small in Hsm as [_ Ht]. apply ebytes_small in Ht.
  rewrite <- (app_nil_r (e_bytes x12 t)). unfold empty_rs_error.
  erewrite (step_varint _ consuming_rs_error x08 1 c _ (RSError c [])); try reflexivity.
  2:{ intros ->. reflexivity. }
  2:{ intros _. cbv beta. rewrite wrap32_u64, wrap32_small by done. reflexivity. }
  erewrite (step_bytes _ consuming_rs_error x12 2 t _ (RSError c t)); try reflexivity.
  - exact Ht.
  - intros ->. reflexivity.
Qed.
Lemma unmarshal_m_pubkey k : sz (m_pubkey k) -> unmarshal h_pubkey PkNone (m_pubkey k) = Some k.
Proof.
  destruct k as [|b|b]; cbn [m_pubkey]; intros H; [done| |]; apply msg_small in H;
    rewrite <- (app_nil_r (e_msg _ b)).
  - erewrite (step_msg _ consuming_pubkey x0a 1 b _ (PkEd25519 b)); try reflexivity. exact H.
  - erewrite (step_msg _ consuming_pubkey x12 2 b _ (PkSecp256k1 b)); try reflexivity. exact H.
Qed.

Section Generic.
  Context {A : Type} (h : Z -> Z -> A -> bytes -> field_result A) (zero : A) (m : A -> bytes) (ok : A -> Prop).
  Context (Hrt : forall x, ok x -> sz (m x) -> unmarshal h zero (m x) = Some x).

  Lemma unmarshal_req o c : opt_ok ok o -> sz (e_opt x0a m o ++ e_bytes x12 c) ->
    unmarshal (h_req h zero) (None, []) (e_opt x0a m o ++ e_bytes x12 c) = Some (o, c).
  Proof.
    intros Ho Hsm. apply app_small in Hsm as [H1 H2]. apply ebytes_small in H2.
    rewrite <- (app_nil_r (e_bytes x12 c)).
    assert (E : forall r, unmarshal (h_req h zero) (None, []) (e_opt x0a m o ++ r)
                        = unmarshal (h_req h zero) (o, []) r).
    { intros r. destruct o as [x|]; [|done]. cbn [e_opt opt_ok] in *. apply msg_small in H1.
      erewrite (step_msg _ (consuming_req h zero) x0a 1 (m x) _ (Some x, [])); try reflexivity; [exact H1|].
      cbn [fst snd default]. unfold default. cbn. by rewrite Hrt. }
    rewrite E.
    erewrite (step_bytes _ (consuming_req h zero) x12 2 c _ (o, c)); try reflexivity; [exact H2|].
    intros ->. reflexivity.
  Qed.
  Lemma unmarshal_resp x e : ok x -> error_ok e -> sz (e_msg x0a (m x) ++ e_opt x12 m_rs_error e) ->
    unmarshal (h_resp h) (zero, None) (e_msg x0a (m x) ++ e_opt x12 m_rs_error e) = Some (x, e).
  Proof.
    intros Hx He Hsm. apply app_small in Hsm as [H1 H2]. apply msg_small in H1.
    rewrite <- (app_nil_r (e_opt x12 m_rs_error e)).
    erewrite (step_msg _ (consuming_resp h) x0a 1 (m x) _ (x, None)); try reflexivity; [|exact H1|].
    2:{ cbn [fst snd]. by rewrite Hrt. }
    destruct e as [e|]; [|done]. cbn [e_opt error_ok] in *. apply msg_small in H2.
    erewrite (step_msg _ (consuming_resp h) x12 2 (m_rs_error e) _ (x, Some e)); try reflexivity; [exact H2|].
    cbn [fst snd]. unfold default. cbn. by rewrite unmarshal_m_rs_error.
  Qed.
End Generic.

Lemma unmarshal_m_message m : message_ok m -> sz (m_message m) ->
  unmarshal h_message MsgNone (m_message m) = Some m.
Proof.
  intros Hok Hsm. destruct m as [|c|k e|v c|v e|p c|p e| |]; cbn [m_message message_ok] in *; [done|..];
    apply msg_small in Hsm; rewrite <- (app_nil_r (e_msg _ _)).
  - erewrite (step_msg _ consuming_message x0a 1 _ _ (PubKeyRequest c)); try reflexivity; [exact Hsm|]. cbv beta.
    rewrite <- (app_nil_r (e_bytes x0a c)). apply ebytes_small in Hsm.
    erewrite (step_bytes _ consuming_pk_req x0a 1 c _ c); try reflexivity; [exact Hsm|]. by intros ->.
  - erewrite (step_msg _ consuming_message x12 2 _ _ (PubKeyResponse k e)); try reflexivity; [exact Hsm|]. cbv beta.
    by rewrite (unmarshal_resp h_pubkey PkNone m_pubkey (fun _ => True) (fun x _ => unmarshal_m_pubkey x)).
  - erewrite (step_msg _ consuming_message x1a 3 _ _ (SignVoteRequest v c)); try reflexivity; [exact Hsm|]. cbv beta.
    by rewrite (unmarshal_req h_pvote empty_pvote m_pvote pvote_ok unmarshal_m_pvote).
  - destruct Hok. erewrite (step_msg _ consuming_message x22 4 _ _ (SignedVoteResponse v e)); try reflexivity; [exact Hsm|].
    cbv beta. by rewrite (unmarshal_resp h_pvote empty_pvote m_pvote pvote_ok unmarshal_m_pvote).
  - erewrite (step_msg _ consuming_message x2a 5 _ _ (SignProposalRequest p c)); try reflexivity; [exact Hsm|]. cbv beta.
    by rewrite (unmarshal_req h_pprop empty_pprop m_pprop pprop_ok unmarshal_m_pprop).
  - destruct Hok. erewrite (step_msg _ consuming_message x32 6 _ _ (SignedProposalResponse p e)); try reflexivity; [exact Hsm|].
    cbv beta. by rewrite (unmarshal_resp h_pprop empty_pprop m_pprop pprop_ok unmarshal_m_pprop).
  - erewrite (step_msg _ consuming_message x3a 7 _ _ PingRequest); try reflexivity.
  - erewrite (step_msg _ consuming_message x42 8 _ _ PingResponse); try reflexivity.
Qed.

(** ** Framing *)

Lemma read_write m r : message_ok m -> Z.of_nat (length (m_message m)) <= max_msg_size ->
  read_msg (delimited (m_message m) ++ r) = Some (m, r).
Proof.
  intros Hok Hl. unfold max_msg_size in Hl. unfold read_msg.
  assert (Hs : Z.of_nat (length (m_message m)) < 2 ^ 63 - 1)
    by (change (2 ^ 63) with 9223372036854775808; lia).
  rewrite read_delimited_delimited by (unfold max_msg_size; lia). by rewrite unmarshal_m_message by (lia || done).
Qed.
Lemma read_long m r : Z.of_nat (length (m_message m)) > max_msg_size -> sz (m_message m) ->
  read_msg (delimited (m_message m) ++ r) = None.
Proof.
  intros Hl Hs. unfold max_msg_size in Hl. unfold read_msg, read_delimited, delimited.
  rewrite <- app_assoc, read_uvarint_roundtrip.
  2:{ rewrite two64. change (2 ^ 63) with 9223372036854775808 in Hs. lia. }
  destruct (Z.ltb_spec max_msg_size (Z.of_nat (length (m_message m)))); [|unfold max_msg_size in *; lia].
  by rewrite orb_true_r.
Qed.
Lemma read_stream ms r : Forall (fun m => message_ok m /\ Z.of_nat (length (m_message m)) <= max_msg_size) ms ->
  reads (stream ms ++ r) ms r.
Proof.
  induction 1 as [|m ms [Hok Hl] H IH]; [constructor|]. unfold stream. cbn [flat_map]. rewrite <- app_assoc.
  econstructor; [by apply read_write|exact IH].
Qed.
Lemma reads_det l ms l' ms' l'' : length ms = length ms' -> reads l ms l' -> reads l ms' l'' -> ms = ms' /\ l' = l''.
Proof.
  intros Hlen H. revert ms' l'' Hlen. induction H as [l|l m l1 ms l2 E H IH]; intros ms' l'' Hlen H'.
  - inversion H'; subst; [done|discriminate].
  - inversion H' as [|? m' l1' ms1 ? E' H1]; subst; [discriminate|]. rewrite E in E'. injection E' as <- <-.
    injection Hlen as Hlen. destruct (IH _ _ Hlen H1) as [-> ->]. done.
Qed.

(** ** What is decoded is in range *)

Lemma unmarshal_loop_inv {M} (h : Z -> Z -> M -> bytes -> field_result M) (P : M -> Prop) :
  (forall fn wt m r m' r', P m -> h fn wt m r = FOk m' r' -> P m') ->
  forall f m l m', P m -> unmarshal_loop f h m l = Some m' -> P m'.
Proof.
  intros Hh. induction f as [|f IH]; intros m l m' Hm; destruct l as [|b l]; cbn [unmarshal_loop];
    try (intros [= <-]; done).
  destruct (varint_dec 10 (b :: l)) as [[w r]|]; [|discriminate].
  destruct (_ =? 4); [discriminate|]. destruct (_ <=? 0); [discriminate|].
  destruct (h _ _ m r) as [| |m1 r1] eqn:E; [|discriminate|].
  - destruct (skip_field (b :: l)); [|discriminate]. by apply IH.
  - apply IH. by eapply Hh.
Qed.
Lemma unmarshal_inv {M} (h : Z -> Z -> M -> bytes -> field_result M) (P : M -> Prop) m l m' :
  (forall fn wt m r m' r', P m -> h fn wt m r = FOk m' r' -> P m') ->
  P m -> unmarshal h m l = Some m' -> P m'.
Proof. intros H Hm. by apply unmarshal_loop_inv. Qed.

Lemma on_varint_ok {M} wt r (set : Z -> M) m' r' : on_varint wt r set = FOk m' r' -> exists v, m' = set v.
Proof.
  unfold on_varint. destruct (wt =? 0); [|discriminate]. destruct (varint_dec 10 r) as [[v ?]|]; [|discriminate].
  intros [= <- _]. eauto.
Qed.
Lemma on_bytes_ok {M} wt r (set : bytes -> option M) m' r' : on_bytes wt r set = FOk m' r' -> exists p, set p = Some m'.
Proof.
  unfold on_bytes. destruct (wt =? 2); [|discriminate]. destruct (len_dec r) as [[v ?]|]; [|discriminate].
  destruct (set v) eqn:E; [|discriminate]. intros [= <- _]. eauto.
Qed.
Lemma u32_range v : 0 <= u32 v < 2 ^ 32.
Proof. unfold u32. apply Z.mod_pos_bound. lia. Qed.

Ltac field_cases :=
  repeat match goal with
  | |- context [match ?z with _ => _ end = FOk _ _ -> _] => destruct z
  end; try discriminate;
  let H := fresh "H" in intros H; first [apply on_varint_ok in H as [? ->] | apply on_bytes_ok in H as [? H]].

Lemma psh_range fn wt m r m' r' : 0 <= psh_total m < 2 ^ 32 -> h_psh fn wt m r = FOk m' r' -> 0 <= psh_total m' < 2 ^ 32.
Proof.
  intros Hm. unfold h_psh. field_cases.
  - injection H as <-. done.
  - apply u32_range.
Qed.
Lemma bid_range fn wt m r m' r' : bid_in_range m -> h_bid fn wt m r = FOk m' r' -> bid_in_range m'.
Proof.
  intros Hm. unfold h_bid. field_cases.
  - destruct (unmarshal h_psh _ _) eqn:E; [|discriminate]. injection H as <-. unfold bid_in_range. cbn [bid_psh].
    revert E. apply (unmarshal_inv h_psh (fun m => 0 <= psh_total m < 2 ^ 32)); [apply psh_range|done].
  - injection H as <-. done.
Qed.
Lemma um_timestamp_valid p t : um_timestamp p = Some t -> time_valid t = true.
Proof. unfold um_timestamp. destruct (unmarshal _ _ _); [|discriminate]. destruct (time_valid _) eqn:E; [|done]. intros [= <-]. done. Qed.

Ltac inv_some :=
  match goal with
  | H : match ?x with Some _ => _ | None => None end = Some _ |- _ => destruct x eqn:?; [|discriminate]
  end.
Lemma bid_unmarshal_range bi p b : bid_in_range bi -> unmarshal h_bid bi p = Some b -> bid_in_range b.
Proof. intros H. apply (unmarshal_inv h_bid bid_in_range); [apply bid_range|done]. Qed.
Lemma pvote_range fn wt m r m' r' : pvote_ok m -> h_pvote fn wt m r = FOk m' r' -> pvote_ok m'.
Proof.
  intros Hm. destruct m as [[ty he ro bi ts] ad ix sg]. unfold h_pvote. unfold pvote_ok in *.
  destruct Hm as (H1 & H2 & H3 & H4 & H5 & H6). cbn [pv_vote v_type v_height v_round v_bid v_ts pv_addr pv_index pv_sig] in *.
  field_cases; repeat inv_some; try (injection H as <-);
    cbn [pv_vote v_type v_height v_round v_bid v_ts pv_addr pv_index pv_sig];
    (split; [|split; [|split; [|split; [|split]]]]); try done; try apply wrap32_range; try apply wrap64_range;
    eauto using um_timestamp_valid, bid_unmarshal_range.
Qed.
Lemma pprop_range fn wt m r m' r' : pprop_ok m -> h_pprop fn wt m r = FOk m' r' -> pprop_ok m'.
Proof.
  intros Hm. destruct m as [ty [he ro po bi ts] sg]. unfold h_pprop. unfold pprop_ok in *.
  destruct Hm as (H1 & H2 & H3 & H4 & H5 & H6). cbn [pp_prop p_height p_round p_pol p_bid p_ts pp_type pp_sig] in *.
  field_cases; repeat inv_some; try (injection H as <-);
    cbn [pp_prop p_height p_round p_pol p_bid p_ts pp_type pp_sig];
    (split; [|split; [|split; [|split; [|split]]]]); try done; try apply wrap32_range; try apply wrap64_range;
    eauto using um_timestamp_valid, bid_unmarshal_range.
Qed.
Lemma empty_pvote_ok : pvote_ok empty_pvote.
Proof. by repeat split. Qed.
Lemma empty_pprop_ok : pprop_ok empty_pprop.
Proof. by repeat split. Qed.
Lemma rs_error_range fn wt m r m' r' : in_int32 (re_code m) -> h_rs_error fn wt m r = FOk m' r' -> in_int32 (re_code m').
Proof.
  intros Hm. unfold h_rs_error. field_cases.
  - injection H as <-. done.
  - apply wrap32_range.
Qed.
Lemma req_range {A} (h : Z -> Z -> A -> bytes -> field_result A) zero (P : A -> Prop) fn wt m r m' r' :
  P zero -> (forall fn wt m r m' r', P m -> h fn wt m r = FOk m' r' -> P m') ->
  opt_ok P (fst m) -> h_req h zero fn wt m r = FOk m' r' -> opt_ok P (fst m').
Proof.
  intros Hz Hh Hm. unfold h_req. field_cases.
  - injection H as <-. done.
  - destruct (unmarshal h _ _) eqn:E; [|discriminate]. injection H as <-. cbn.
    revert E. apply (unmarshal_inv h P); [done|]. by destruct (fst m).
Qed.
Lemma resp_range {A} (h : Z -> Z -> A -> bytes -> field_result A) (P : A -> Prop) fn wt m r m' r' :
  (forall fn wt m r m' r', P m -> h fn wt m r = FOk m' r' -> P m') ->
  P (fst m) /\ error_ok (snd m) -> h_resp h fn wt m r = FOk m' r' -> P (fst m') /\ error_ok (snd m').
Proof.
  intros Hh [Hm He]. unfold h_resp. field_cases.
  - destruct (unmarshal _ _ _) eqn:E; [|discriminate]. injection H as <-. cbn. split; [done|].
    revert E. apply (unmarshal_inv h_rs_error (fun e => in_int32 (re_code e))); [apply rs_error_range|].
    by destruct (snd m).
  - destruct (unmarshal h _ _) eqn:E; [|discriminate]. injection H as <-. cbn. split; [|done].
    revert E. by apply (unmarshal_inv h P).
Qed.
Lemma message_range fn wt m r m' r' : h_message fn wt m r = FOk m' r' -> message_ok m'.
Proof.
  unfold h_message. field_cases; repeat inv_some; repeat match goal with x : _ * _ |- _ => destruct x end;
    try (injection H as <-); cbn [message_ok]; try done.
  all: lazymatch type of Heqo with
       | unmarshal (h_resp h_pubkey) _ _ = _ =>
           refine (proj2 (unmarshal_inv (h_resp h_pubkey) (fun m => True /\ error_ok (snd m)) _ _ (_, _) _ _ Heqo)); [|done];
           intros *; by apply (resp_range h_pubkey (fun _ => True))
       | unmarshal (h_resp h_pprop) _ _ = _ =>
           refine (unmarshal_inv (h_resp h_pprop) (fun m => pprop_ok (fst m) /\ error_ok (snd m)) _ _ (_, _) _ _ Heqo);
           [intros *; apply (resp_range h_pprop pprop_ok); apply pprop_range | split; [apply empty_pprop_ok|done]]
       | unmarshal (h_resp h_pvote) _ _ = _ =>
           refine (unmarshal_inv (h_resp h_pvote) (fun m => pvote_ok (fst m) /\ error_ok (snd m)) _ _ (_, _) _ _ Heqo);
           [intros *; apply (resp_range h_pvote pvote_ok); apply pvote_range | split; [apply empty_pvote_ok|done]]
       | unmarshal (h_req h_pprop _) _ _ = _ =>
           refine (unmarshal_inv (h_req h_pprop _) (fun m => opt_ok pprop_ok (fst m)) _ _ (_, _) _ _ Heqo); [|done];
           intros *; apply req_range; [apply empty_pprop_ok|apply pprop_range]
       | unmarshal (h_req h_pvote _) _ _ = _ =>
           refine (unmarshal_inv (h_req h_pvote _) (fun m => opt_ok pvote_ok (fst m)) _ _ (_, _) _ _ Heqo); [|done];
           intros *; apply req_range; [apply empty_pvote_ok|apply pvote_range]
       end.
Qed.
Lemma read_msg_ok l m r : read_msg l = Some (m, r) -> message_ok m.
Proof.
  unfold read_msg. destruct (read_delimited _ _) as [[p rest]|]; [|discriminate].
  destruct (unmarshal h_message _ _) eqn:E; [|discriminate]. intros [= -> ->].
  revert E. apply (unmarshal_inv h_message message_ok); [|done]. intros * _. apply message_range.
Qed.

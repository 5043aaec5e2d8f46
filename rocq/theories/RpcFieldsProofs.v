(** The gRPC messages as any peer may send them. *)
From Coq Require Import ZifyBool ZifyNat.
From Verif Require Import GoBase Wire WireProofs Canonical CanonicalProofs CanonicalApi Spec Utf8 Utf8Proofs
  LocalCosigner CosignerProofs Validator Privval Rpc RpcSpec RpcProofs RpcFieldsSpec.
Local Open Scope Z_scope.

(** ** One field, any message *)
Lemma wt_range v : 0 <= wire_type v < 8.
Proof. destruct v; cbn; lia. Qed.
Lemma tag_small f : field_ok f -> 0 <= fst f * 8 + wire_type (snd f) < 2 ^ 64.
Proof.
  intros [H _]. pose proof (wt_range (snd f)). change (2 ^ 29) with 536870912 in H.
  change (2 ^ 64) with 18446744073709551616. lia.
Qed.
Lemma tag_num f : field_ok f -> wrap32 (u64 (fst f * 8 + wire_type (snd f)) / 8) = fst f.
Proof.
  intros H. unfold u64. rewrite Z.mod_small by (by apply tag_small). pose proof (wt_range (snd f)).
  rewrite Z.div_add_l by lia. rewrite (Z.div_small (wire_type (snd f))) by lia. rewrite Z.add_0_r.
  apply wrap32_small. destruct H as [H _]. unfold in_int32. change (2 ^ 29) with 536870912 in H.
  change (2 ^ 31) with 2147483648. lia.
Qed.
Lemma tag_wt f : field_ok f -> u64 (fst f * 8 + wire_type (snd f)) mod 8 = wire_type (snd f).
Proof.
  intros H. unfold u64. rewrite (Z.mod_small _ (2 ^ 64)) by (by apply tag_small). pose proof (wt_range (snd f)).
  rewrite Z.add_comm, Z.mod_add by lia. by apply Z.mod_small.
Qed.
Lemma le_enc_length n v : length (le_enc n v) = n.
Proof. revert v. induction n as [|n IH]; intros v; [done|]. cbn. by rewrite IH. Qed.
Lemma drop_exact_app n (p r : bytes) : Z.of_nat (length p) = n -> drop_exact n (p ++ r) = Some r.
Proof.
  intros <-. unfold drop_exact. rewrite app_length.
  destruct (Z.ltb_spec (Z.of_nat (length p)) 0); [lia|].
  destruct (Z.ltb_spec (Z.of_nat (length p + length r)) (Z.of_nat (length p))); [lia|]. cbn [orb].
  by rewrite Nat2Z.id, drop_app.
Qed.
Lemma skip_ok f r : field_ok f -> skip_field (enc_field f ++ r) = Some r.
Proof.
  intros H. unfold skip_field. 
  assert (Hl : exists n, length (enc_field f ++ r) = S n).
  { destruct (enc_field f ++ r) eqn:E; [|by eexists]. exfalso.
    pose proof (varint_roundtrip _ (payload (snd f) ++ r) (tag_small f H)) as Hv.
    unfold enc_field in E. rewrite <- app_assoc in E. rewrite E in Hv. discriminate. }
  destruct Hl as [n ->]. cbn [skip_loop]. unfold enc_field. rewrite <- app_assoc, varint_roundtrip by (by apply tag_small).
  rewrite tag_wt by done. destruct H as [_ H]. destruct (snd f) as [v|v|b|v]; cbn [wire_type payload].
  - by rewrite varint_roundtrip.
  - by rewrite drop_exact_app by (by rewrite le_enc_length).
  - change (varint_enc (Z.of_nat (length b)) ++ b) with (len_enc b). by rewrite len_roundtrip.
  - by rewrite drop_exact_app by (by rewrite le_enc_length).
Qed.

Global Instance fval_eq_dec : EqDecision fval.
Proof. solve_decision. Defined.

Section Message.
  Context {M : Type} (h : Z -> Z -> M -> bytes -> field_result M) (Hc : consuming h).

  Lemma um_field f m m' r : field_ok f ->
    (forall r, h (fst f) (wire_type (snd f)) m (payload (snd f) ++ r) = FOk m' r) \/
    ((forall r, h (fst f) (wire_type (snd f)) m (payload (snd f) ++ r) = FUnknown) /\ m' = m) ->
    unmarshal h m (enc_field f ++ r) = unmarshal h m' r.
  Proof.
    intros Hf Hh. pose proof (varint_roundtrip _ (payload (snd f) ++ r) (tag_small f Hf)) as Hv. rewrite app_assoc in Hv.
    assert (W4 : (wire_type (snd f) =? 4) = false) by (by destruct (snd f)).
    assert (N0 : (fst f <=? 0) = false) by (destruct Hf; lia).
    destruct Hh as [Hh|[Hh ->]].
    - eapply unmarshal_step; [done|exact Hv|by apply tag_num|by apply tag_wt|done|done|apply Hh].
    - unfold unmarshal at 1. pose proof (skip_ok f r Hf) as Hs. pose proof Hs as Hl. apply skip_loop_shrinks in Hl.
      change (enc_field f) with (varint_enc (fst f * 8 + wire_type (snd f)) ++ payload (snd f)) in *.
      destruct ((varint_enc (fst f * 8 + wire_type (snd f)) ++ payload (snd f)) ++ r) as [|b l]; [discriminate|].
      cbn [unmarshal_loop length]. rewrite Hv, tag_num, tag_wt, W4, N0, Hh, Hs by done.
      apply unmarshal_loop_fuel; [done| |]; cbn [length] in *; lia.
  Qed.
  Lemma um_fields (upd : M -> field -> M) fs m : Forall field_ok fs ->
    (forall f m, f ∈ fs -> field_ok f ->
       (forall r, h (fst f) (wire_type (snd f)) m (payload (snd f) ++ r) = FOk (upd m f) r) \/
       ((forall r, h (fst f) (wire_type (snd f)) m (payload (snd f) ++ r) = FUnknown) /\ upd m f = m)) ->
    unmarshal h m (enc fs) = Some (foldl upd m fs).
  Proof.
    intros Hok. revert m. induction Hok as [|f fs Hf Hok IH]; intros m H; [done|].
    change (enc (f :: fs)) with (enc_field f ++ enc fs). rewrite (um_field f m (upd m f)); [|done|apply H; [left|done]].
    cbn [foldl]. apply IH. intros g m' Hg. apply H. by right.
  Qed.
  Lemma um_err f m r : field_ok f -> (forall r, h (fst f) (wire_type (snd f)) m (payload (snd f) ++ r) = FErr) ->
    unmarshal h m (enc_field f ++ r) = None.
  Proof.
    intros Hf Hh. pose proof (varint_roundtrip _ (payload (snd f) ++ r) (tag_small f Hf)) as Hv. rewrite app_assoc in Hv.
    eapply unmarshal_err; [exact Hv|by apply tag_num|by apply tag_wt|apply Hh].
  Qed.
  Lemma um_bad fs m : Forall field_ok fs ->
    (forall f m, f ∈ fs -> field_ok f ->
       (exists m', forall r, h (fst f) (wire_type (snd f)) m (payload (snd f) ++ r) = FOk m' r) \/
       (forall r, h (fst f) (wire_type (snd f)) m (payload (snd f) ++ r) = FUnknown) \/
       (forall r, h (fst f) (wire_type (snd f)) m (payload (snd f) ++ r) = FErr)) ->
    (exists f, f ∈ fs /\ forall m r, h (fst f) (wire_type (snd f)) m (payload (snd f) ++ r) = FErr) ->
    unmarshal h m (enc fs) = None.
  Proof.
    intros Hok. revert m. induction Hok as [|f fs Hf Hok IH]; intros m H (g & Hg & Hbad); [by apply elem_of_nil in Hg|].
    change (enc (f :: fs)) with (enc_field f ++ enc fs).
    destruct (decide (f = g)) as [-> |Hn]; [by apply um_err|]. apply elem_of_cons in Hg as [-> |Hg]; [done|].
    destruct (H f m ltac:(left) Hf) as [[m' Hm]|[Hm|Hm]].
    - rewrite (um_field f m m') by (try done; by left). apply IH; [|by exists g]. intros k m0 Hk. apply H. by right.
    - rewrite (um_field f m m) by (try done; by right). apply IH; [|by exists g]. intros k m0 Hk. apply H. by right.
    - by apply um_err.
  Qed.
End Message.

(** ** What a handler does *)
Lemma go_int {M} v r (set : Z -> M) : 0 <= v < 2 ^ 64 -> go_varint 0 (payload (FInt v) ++ r) set = FOk (set v) r.
Proof.
  intros H. unfold go_varint, on_varint. cbn [Z.eqb payload]. by rewrite varint_roundtrip.
Qed.
Lemma go_int_other {M} v r (set : Z -> M) : wire_type v <> 0 -> go_varint (wire_type v) r set = FUnknown.
Proof. intros H. unfold go_varint. by apply Z.eqb_neq in H as ->. Qed.
Lemma go_byt {M} b r (set : bytes -> option M) : Z.of_nat (length b) < 2 ^ 63 ->
  go_bytes 2 (payload (FBytes b) ++ r) set = match set b with Some m => FOk m r | None => FErr end.
Proof.
  intros H. unfold go_bytes, on_bytes. cbn [Z.eqb Pos.eqb payload].
  change (varint_enc (Z.of_nat (length b)) ++ b) with (len_enc b). by rewrite len_roundtrip.
Qed.
Lemma go_byt_other {M} v r (set : bytes -> option M) : wire_type v <> 2 -> go_bytes (wire_type v) r set = FUnknown.
Proof. intros H. unfold go_bytes. by apply Z.eqb_neq in H as ->. Qed.

(** ** Values *)
Lemma ints_snoc n fs f : ints n (fs ++ [f]) = ints n fs ++ ints n [f].
Proof. unfold ints. apply omap_app. Qed.
Lemma vals_snoc n fs f : byte_vals n (fs ++ [f]) = byte_vals n fs ++ byte_vals n [f].
Proof. unfold byte_vals. apply omap_app. Qed.
Lemma last_or {A} (l : list A) x : list.last (l ++ x) = match list.last x with Some v => Some v | None => list.last l end.
Proof.
  destruct (list.last x) as [v|] eqn:E.
  - apply last_Some in E as [x' ->]. by rewrite app_assoc, list.last_snoc.
  - apply last_None in E as ->. by rewrite app_nil_r.
Qed.
Lemma last_int_snoc n fs f : last_int n (fs ++ [f]) = match f with (k, FInt v) => if k =? n then v else last_int n fs | _ => last_int n fs end.
Proof.
  unfold last_int. rewrite ints_snoc, last_or. destruct f as [k [v|v|b|v]]; cbn; try done. by destruct (k =? n).
Qed.
Lemma last_vals_snoc n fs f : list.last (byte_vals n (fs ++ [f])) =
  match f with (k, FBytes b) => if k =? n then Some b else list.last (byte_vals n fs) | _ => list.last (byte_vals n fs) end.
Proof.
  rewrite vals_snoc, last_or. destruct f as [k [v|v|b|v]]; cbn; try done. by destruct (k =? n).
Qed.
Lemma last_bytes_snoc n fs f : last_bytes n (fs ++ [f]) = match f with (k, FBytes b) => if k =? n then b else last_bytes n fs | _ => last_bytes n fs end.
Proof.
  unfold last_bytes. rewrite last_vals_snoc. destruct f as [k [v|v|b|v]]; try done. by destruct (k =? n).
Qed.

(** field numbers apart *)
Ltac numbers n :=
  destruct (decide (n = 1)) as [-> |]; [|destruct (decide (n = 2)) as [-> |]; [|destruct (decide (n = 3)) as [-> |];
    [|destruct (decide (n = 4)) as [-> |]; [|destruct (decide (n = 5)) as [-> |]]]]].
Ltac none := match goal with
  | n : Z |- _ => destruct n as [|[[[p|p|]|[p|p|]|]|[[p|p|]|[p|p|]|]|]|p]; first [exfalso; congruence | reflexivity] end.

(** ** HRST *)
Definition upd_hrst (m : p_hrst) (f : field) : p_hrst :=
  match m, f with
  | PHRST he ro st ts, (1, FInt v) => PHRST (wrap64 v) ro st ts
  | PHRST he ro st ts, (2, FInt v) => PHRST he (wrap64 v) st ts
  | PHRST he ro st ts, (3, FInt v) => PHRST he ro (wrap32 v) ts
  | PHRST he ro st ts, (4, FInt v) => PHRST he ro st (wrap64 v)
  | m, _ => m
  end.
Ltac handled :=
  match goal with
  | H : field_ok (_, ?v) |- _ => destruct H as [_ H]; cbn [snd] in H; destruct v as [v|v|b|v];
      first [ right; split; [intros r; apply go_int_other; cbn; lia|reflexivity]
            | right; split; [intros r; apply go_byt_other; cbn; lia|reflexivity]
            | left; intros r; cbn [wire_type]; rewrite go_int by exact H; reflexivity
            | left; intros r; cbn [wire_type]; rewrite go_byt by exact H; reflexivity ]
  end.
Lemma um_any_hrst fs m : Forall field_ok fs -> unmarshal h_p_hrst m (enc fs) = Some (foldl upd_hrst m fs).
Proof.
  intros H. apply um_fields; [apply consuming_p_hrst|done|]. clear. intros [n v] [he ro st ts] _ H. cbn [fst snd].
  numbers n; try (unfold h_p_hrst; handled); right; (split; [intros r|]); unfold h_p_hrst, upd_hrst; none.
Qed.

Lemma wrap8_32 v : wrap8 (wrap32 v) = signed 8 v.
Proof.
  unfold wrap8, wrap32, two_complement, signed. cbn [Z.sub Z.add Z.opp Z.pos_sub Pos.pred_double].
  change (2 ^ (32 - 1)) with 2147483648. change (2 ^ 32) with 4294967296. change (2 ^ (8 - 1)) with 128. change (2 ^ 8) with 256.
  rewrite (Z.mod_eq (v + 2147483648) 4294967296) by lia. f_equal.
  replace (v + 2147483648 - 4294967296 * ((v + 2147483648) / 4294967296) - 2147483648 + 128)
    with (v + 128 + (- 16777216 * ((v + 2147483648) / 4294967296)) * 256) by lia.
  by rewrite Z.mod_add by lia.
Qed.
Ltac snoc fs := rewrite foldl_app; cbn [foldl].
Lemma hrst_folded fs : foldl upd_hrst zero_hrst fs =
  PHRST (signed 64 (last_int 1 fs)) (signed 64 (last_int 2 fs)) (wrap32 (last_int 3 fs)) (signed 64 (last_int 4 fs)).
Proof.
  induction fs as [|[n v] fs IH] using rev_ind; [reflexivity|]. snoc fs. rewrite IH, !last_int_snoc.
  destruct v as [v|v|b|v]; numbers n; try reflexivity; none.
Qed.
Lemma key_folded fs : hrst_from_proto (Some (foldl upd_hrst zero_hrst fs)) = key_meant fs.
Proof. rewrite hrst_folded. unfold hrst_from_proto, key_meant. cbn [ph_height ph_round ph_step ph_time]. by rewrite wrap8_32. Qed.

(** ** Parts and blocks *)
Definition upd_part (m : p_part) (f : field) : p_part :=
  match m, f with
  | PPart s d ep en sg, (1, FInt v) => PPart (wrap32 v) d ep en sg
  | PPart s d ep en sg, (2, FInt v) => PPart s (wrap32 v) ep en sg
  | PPart s d ep en sg, (3, FBytes p) => PPart s d p en sg
  | PPart s d ep en sg, (4, FBytes p) => PPart s d ep p sg
  | PPart s d ep en sg, (5, FBytes p) => PPart s d ep en (Some p)
  | m, _ => m
  end.
Lemma um_any_part fs m : Forall field_ok fs -> unmarshal h_p_part m (enc fs) = Some (foldl upd_part m fs).
Proof.
  intros H. apply um_fields; [apply consuming_p_part|done|]. clear. intros [n v] [s d ep en sg] _ H. cbn [fst snd].
  numbers n; try (unfold h_p_part; handled); right; (split; [intros r|]); unfold h_p_part, upd_part; none.
Qed.
Lemma part_folded fs : part_from_proto (foldl upd_part zero_part fs) = part_meant fs.
Proof.
  assert (E : foldl upd_part zero_part fs = PPart (signed 32 (last_int 1 fs)) (signed 32 (last_int 2 fs)) (last_bytes 3 fs)
    (last_bytes 4 fs) (list.last (byte_vals 5 fs))); [|by rewrite E].
  induction fs as [|[n v] fs IH] using rev_ind; [reflexivity|]. snoc fs. rewrite IH, !last_int_snoc, !last_bytes_snoc, last_vals_snoc.
  destruct v as [v|v|b|v]; numbers n; try reflexivity; none.
Qed.
Definition upd_block (m : p_block) (f : field) : p_block :=
  match m, f with
  | PBlock he ro st sb ts, (1, FInt v) => PBlock (wrap64 v) ro st sb ts
  | PBlock he ro st sb ts, (2, FInt v) => PBlock he (wrap64 v) st sb ts
  | PBlock he ro st sb ts, (3, FInt v) => PBlock he ro (wrap32 v) sb ts
  | PBlock he ro st sb ts, (4, FBytes p) => PBlock he ro st p ts
  | PBlock he ro st sb ts, (5, FInt v) => PBlock he ro st sb (wrap64 v)
  | m, _ => m
  end.
Lemma um_any_block fs m : Forall field_ok fs -> unmarshal h_p_block m (enc fs) = Some (foldl upd_block m fs).
Proof.
  intros H. apply um_fields; [apply consuming_p_block|done|]. clear. intros [n v] [he ro st sb ts] _ H. cbn [fst snd].
  numbers n; try (unfold h_p_block; handled); right; (split; [intros r|]); unfold h_p_block, upd_block; none.
Qed.
Lemma block_folded fs : block_from_proto (Some (foldl upd_block zero_block fs)) = block_meant fs.
Proof.
  assert (E : foldl upd_block zero_block fs = PBlock (signed 64 (last_int 1 fs)) (signed 64 (last_int 2 fs)) (wrap32 (last_int 3 fs))
    (last_bytes 4 fs) (signed 64 (last_int 5 fs))).
  { induction fs as [|[n v] fs IH] using rev_ind; [reflexivity|]. snoc fs. rewrite IH, !last_int_snoc, !last_bytes_snoc.
    destruct v as [v|v|b|v]; numbers n; try reflexivity; none. }
  rewrite E. unfold block_from_proto, block_meant. cbn [pb_height pb_round pb_step pb_bytes pb_time]. by rewrite wrap8_32.
Qed.

(** ** Messages in messages *)
Lemma in_vals n b fs : (n, FBytes b) ∈ fs -> b ∈ byte_vals n fs.
Proof. intros H. unfold byte_vals. apply elem_of_list_omap. exists (n, FBytes b). split; [done|]. by rewrite Z.eqb_refl. Qed.
Lemma sub_in n fs ms b : submessages n fs ms -> (n, FBytes b) ∈ fs -> exists gs, b = enc gs /\ Forall field_ok gs.
Proof.
  intros [H1 H2] Hb. apply in_vals in Hb. rewrite H1 in Hb. apply elem_of_list_fmap in Hb as (gs & -> & Hg).
  exists gs. split; [done|]. rewrite list.Forall_forall in H2. by apply H2.
Qed.
Lemma sub_snoc n fs f ms : submessages n (fs ++ [f]) ms ->
  (exists b gs ms', f = (n, FBytes b) /\ b = enc gs /\ Forall field_ok gs /\ ms = ms' ++ [gs] /\ submessages n fs ms') \/
  (byte_vals n [f] = [] /\ submessages n fs ms).
Proof.
  intros [H1 H2]. rewrite vals_snoc in H1.
  assert (Hf : (exists b, f = (n, FBytes b)) \/ byte_vals n [f] = []).
  { destruct f as [k [v|v|b|v]]; try (by right). destruct (decide (k = n)) as [-> |Hn]; [left; by exists b|right].
    cbn. apply Z.eqb_neq in Hn. by rewrite Hn. }
  destruct Hf as [[b ->]|Hf].
  - left. cbn in H1. rewrite Z.eqb_refl in H1.
    destruct ms as [|gs ms _] using rev_ind; [by destruct (byte_vals n fs)|].
    rewrite map_app in H1. apply app_inj_tail in H1 as [H1 Hb]. apply list.Forall_app in H2 as [H2 H3].
    exists b, gs, ms. split; [done|]. split; [done|]. split; [by inversion H3|]. split; [done|]. by split.
  - right. rewrite Hf, app_nil_r in H1. split; [done|]. by split.
Qed.

Section Nested.
  Context {X : Type} (hx : Z -> Z -> X -> bytes -> field_result X) (ux : X -> field -> X).
  Context (Hx : forall fs m, Forall field_ok fs -> unmarshal hx m (enc fs) = Some (foldl ux m fs)).

  (** an optional message: repeated occurrences are merged *)
  Definition merge (z : X) (o : option X) (b : bytes) : option X :=
    unmarshal hx (match o with Some x => x | None => z end) b.
  Lemma merged n z fs ms (upd : option X -> field -> option X) : submessages n fs ms ->
    (forall o b, upd o (n, FBytes b) = match merge z o b with Some x => Some x | None => o end) ->
    (forall o f, byte_vals n [f] = [] -> upd o f = o) ->
    foldl upd None fs = match ms with [] => None | _ => Some (foldl ux z (concat ms)) end.
  Proof.
    intros Hs Hu Ho. revert ms Hs. induction fs as [|f fs IH] using rev_ind; intros ms Hs.
    - destruct Hs as [H1 _]. destruct ms; done.
    - snoc fs. apply sub_snoc in Hs as [(b & gs & ms' & -> & -> & Hg & -> & Hs)|[Hf Hs]].
      + rewrite (IH _ Hs), Hu. unfold merge. destruct ms' as [|g ms'].
        * rewrite Hx by done. cbn. by rewrite app_nil_r.
        * rewrite Hx by done. rewrite concat_app, foldl_app. cbn [concat app]. by rewrite app_nil_r.
      + by rewrite (IH _ Hs), Ho.
  Qed.
  (** a repeated message *)
  Lemma collected n z fs ms (upd : list X -> field -> list X) : submessages n fs ms ->
    (forall l b, upd l (n, FBytes b) = match unmarshal hx z b with Some x => l ++ [x] | None => l end) ->
    (forall l f, byte_vals n [f] = [] -> upd l f = l) ->
    foldl upd [] fs = map (foldl ux z) ms.
  Proof.
    intros Hs Hu Ho. revert ms Hs. induction fs as [|f fs IH] using rev_ind; intros ms Hs.
    - destruct Hs as [H1 _]. destruct ms; done.
    - snoc fs. apply sub_snoc in Hs as [(b & gs & ms' & -> & -> & Hg & -> & Hs)|[Hf Hs]].
      + rewrite (IH _ Hs), Hu, Hx by done. by rewrite map_app.
      + by rewrite (IH _ Hs), Ho.
  Qed.
End Nested.

Definition upd_get (m : option p_hrst) (f : field) : option p_hrst :=
  match f with (1, FBytes b) => match merge h_p_hrst zero_hrst m b with Some x => Some x | None => m end | _ => m end.
Lemma get_any fs ms : Forall field_ok fs -> submessages 1 fs ms ->
  get_received (enc fs) = Some (key_meant (concat ms)).
Proof.
  intros H Hs. unfold get_received. rewrite (um_fields _ consuming_get_request upd_get).
  - rewrite (merged h_p_hrst upd_hrst um_any_hrst 1 zero_hrst fs ms upd_get Hs); [|done|].
    + destruct ms as [|g ms]; [reflexivity|]. by rewrite key_folded.
    + intros o [n [v|v|b|v]] Hf; numbers n; try reflexivity; try discriminate Hf; unfold upd_get; none.
  - done.
  - intros [n v] m Hin Hok. cbn [fst snd]. numbers n; try (right; split; [intros r|]; reflexivity).
    + destruct v as [v|v|b|v]; try (right; split; [intros r|]; reflexivity). left. intros r. unfold h_get_request. cbn [wire_type].
      rewrite go_byt by apply Hok. destruct (sub_in _ _ _ _ Hs Hin) as (gs & -> & Hg).
      unfold upd_get, merge. by rewrite um_any_hrst.
    + right. split; [intros r|]; unfold h_get_request, upd_get; none.
Qed.

Definition upd_parts (m : list p_part) (f : field) : list p_part :=
  match f with (1, FBytes b) => match unmarshal h_p_part zero_part b with Some x => m ++ [x] | None => m end | _ => m end.
Lemma parts_folded fs ms : submessages 1 fs ms -> map part_from_proto (foldl upd_parts [] fs) = map part_meant ms.
Proof.
  intros Hs. rewrite (collected h_p_part upd_part um_any_part 1 zero_part fs ms upd_parts Hs); [|done|].
  - rewrite map_map. apply map_ext. intros g. apply part_folded.
  - intros o [n [v|v|b|v]] Hf; numbers n; try reflexivity; try discriminate Hf; unfold upd_parts; none.
Qed.
Lemma get_answer_any fs ms : Forall field_ok fs -> submessages 1 fs ms -> get_answer (enc fs) = Some (map part_meant ms).
Proof.
  intros H Hs. unfold get_answer. rewrite (um_fields _ consuming_get_response upd_parts).
  - by rewrite parts_folded with (ms := ms).
  - done.
  - intros [n v] m Hin Hok. cbn [fst snd]. numbers n; try (right; split; [intros r|]; reflexivity).
    + destruct v as [v|v|b|v]; try (right; split; [intros r|]; reflexivity). left. intros r. unfold h_get_response. cbn [wire_type].
      rewrite go_byt by apply Hok. destruct (sub_in _ _ _ _ Hs Hin) as (gs & -> & Hg).
      unfold upd_parts. by rewrite um_any_part.
    + right. split; [intros r|]; unfold h_get_response, upd_parts; none.
Qed.

(** ** Signing *)
Definition upd_key (m : option p_hrst) (f : field) : option p_hrst :=
  match f with (2, FBytes b) => match merge h_p_hrst zero_hrst m b with Some x => Some x | None => m end | _ => m end.
Definition upd_bytes (k : Z) (m : bytes) (f : field) : bytes :=
  match f with (n, FBytes b) => if n =? k then b else m | _ => m end.
Lemma bytes_folded k fs : foldl (upd_bytes k) [] fs = last_bytes k fs.
Proof.
  induction fs as [|[n v] fs IH] using rev_ind; [reflexivity|]. snoc fs. rewrite IH, last_bytes_snoc. by destruct v.
Qed.
Lemma key_folded2 fs ms : submessages 2 fs ms -> hrst_from_proto (foldl upd_key None fs) = key_meant (concat ms).
Proof.
  intros Hs. rewrite (merged h_p_hrst upd_hrst um_any_hrst 2 zero_hrst fs ms upd_key Hs); [|done|].
  - destruct ms as [|g ms]; [reflexivity|]. by rewrite key_folded.
  - intros o [n [v|v|b|v]] Hf; numbers n; try reflexivity; try discriminate Hf; unfold upd_key; none.
Qed.
Definition upd_sign (m : p_sign) (f : field) : p_sign :=
  PSign (upd_parts (ps_parts m) f) (upd_key (ps_hrst m) f) (upd_bytes 3 (ps_bytes m) f).
Lemma sign_folded fs ps k sb : foldl upd_sign (PSign ps k sb) fs =
  PSign (foldl upd_parts ps fs) (foldl upd_key k fs) (foldl (upd_bytes 3) sb fs).
Proof. revert ps k sb. induction fs as [|f fs IH]; intros ps k sb; [done|]. cbn [foldl]. unfold upd_sign at 2. apply IH. Qed.
Lemma sign_any fs parts keys : Forall field_ok fs -> submessages 1 fs parts -> submessages 2 fs keys ->
  sign_received (enc fs) = Some (map part_meant parts, key_meant (concat keys), last_bytes 3 fs).
Proof.
  intros H Hp Hk. unfold sign_received. rewrite (um_fields _ consuming_sign_request upd_sign).
  - rewrite sign_folded. cbn [ps_parts ps_hrst ps_bytes]. by rewrite (parts_folded _ _ Hp), (key_folded2 _ _ Hk), bytes_folded.
  - done.
  - intros [n v] [ps k sb] Hin Hok. cbn [fst snd]. numbers n; try (right; split; [intros r|]; reflexivity).
    + destruct v as [v|v|b|v]; try (right; split; [intros r|]; reflexivity). left. intros r. unfold h_sign_request. cbn [wire_type].
      rewrite go_byt by apply Hok. destruct (sub_in _ _ _ _ Hp Hin) as (gs & -> & Hg).
      unfold upd_sign, upd_parts. rewrite um_any_part by done. reflexivity.
    + destruct v as [v|v|b|v]; try (right; split; [intros r|]; reflexivity). left. intros r. unfold h_sign_request. cbn [wire_type].
      rewrite go_byt by apply Hok. destruct (sub_in _ _ _ _ Hk Hin) as (gs & -> & Hg).
      unfold upd_sign, upd_key, merge. cbn [ps_hrst]. rewrite um_any_hrst by done. reflexivity.
    + destruct v as [v|v|b|v]; try (right; split; [intros r|]; reflexivity). left. intros r. unfold h_sign_request. cbn [wire_type].
      by rewrite go_byt by apply Hok.
    + destruct v; right; split; reflexivity.
    + destruct v; right; split; reflexivity.
    + right. split; [intros r; unfold h_sign_request; none|]. unfold upd_sign, upd_parts, upd_key, upd_bytes. cbn [ps_parts ps_hrst ps_bytes].
      destruct v as [v|v|b|v]; [none|none| |none]. destruct (Z.eqb_spec n 3); [done|]. none.
Qed.
Definition upd_answer (m : bytes * Z * bytes) (f : field) : bytes * Z * bytes :=
  let '(eph, ts, sig) := m in
  match f with
  | (1, FBytes b) => (b, ts, sig)
  | (2, FInt v) => (eph, wrap64 v, sig)
  | (3, FBytes b) => (eph, ts, b)
  | _ => m
  end.
Lemma answer_any fs : Forall field_ok fs ->
  sign_answer (enc fs) = Some (last_bytes 1 fs, instant (signed 64 (last_int 2 fs)), last_bytes 3 fs).
Proof.
  intros H. unfold sign_answer. rewrite (um_fields _ consuming_sign_response upd_answer).
  - assert (E : foldl upd_answer ([], 0, []) fs = (last_bytes 1 fs, signed 64 (last_int 2 fs), last_bytes 3 fs)); [|by rewrite E].
    clear H. induction fs as [|[n v] fs IH] using rev_ind; [reflexivity|]. snoc fs. rewrite IH, !last_int_snoc, !last_bytes_snoc.
    unfold upd_answer. destruct v as [v|v|b|v]; numbers n; try reflexivity; none.
  - done.
  - clear. intros [n v] [[eph ts] sig] _ H. cbn [fst snd].
    numbers n; try (unfold h_sign_response; handled); right; (split; [intros r|]); unfold h_sign_response, upd_answer; none.
Qed.

(** ** Blocks for the leader *)
Definition upd_blk (m : option p_block) (f : field) : option p_block :=
  match f with (2, FBytes b) => match merge h_p_block zero_block m b with Some x => Some x | None => m end | _ => m end.
Definition upd_req (m : bytes * option p_block) (f : field) : bytes * option p_block :=
  (upd_bytes 1 (fst m) f, upd_blk (snd m) f).
Lemma req_folded fs c b : foldl upd_req (c, b) fs = (foldl (upd_bytes 1) c fs, foldl upd_blk b fs).
Proof. revert c b. induction fs as [|f fs IH]; intros c b; [done|]. cbn [foldl]. unfold upd_req at 2. apply IH. Qed.
Lemma blk_folded fs ms : submessages 2 fs ms -> block_from_proto (foldl upd_blk None fs) = block_meant (concat ms).
Proof.
  intros Hs. rewrite (merged h_p_block upd_block um_any_block 2 zero_block fs ms upd_blk Hs); [|done|].
  - destruct ms as [|g ms]; [reflexivity|]. by rewrite block_folded.
  - intros o [n [v|v|b|v]] Hf; numbers n; try reflexivity; try discriminate Hf; unfold upd_blk; none.
Qed.
Lemma req_step fs blocks n v m : submessages 2 fs blocks -> (n, v) ∈ fs -> field_ok (n, v) ->
  (forall b, n = 1 -> v = FBytes b -> utf8_text b) ->
  (forall r, h_block_request n (wire_type v) m (payload v ++ r) = FOk (upd_req m (n, v)) r) \/
  ((forall r, h_block_request n (wire_type v) m (payload v ++ r) = FUnknown) /\ upd_req m (n, v) = m).
Proof.
  intros Hb Hin Hok Hu. destruct m as [c bo].
  numbers n; try (destruct v; right; split; reflexivity).
  - destruct v as [v|v|b|v]; try (right; split; [intros r|]; reflexivity). left. intros r. unfold h_block_request. cbn [wire_type].
    rewrite go_byt by apply Hok. assert (E : valid_utf8 b = true) by (apply valid_utf8_spec; by apply Hu). by rewrite E.
  - destruct v as [v|v|b|v]; try (right; split; [intros r|]; reflexivity). left. intros r. unfold h_block_request. cbn [wire_type].
    rewrite go_byt by apply Hok. destruct (sub_in _ _ _ _ Hb Hin) as (gs & -> & Hg).
    unfold upd_req, upd_blk, merge. cbn [snd fst]. rewrite um_any_block by done. reflexivity.
  - right. split; [intros r; unfold h_block_request; none|]. unfold upd_req, upd_blk, upd_bytes. cbn [fst snd].
    destruct v as [v|v|b|v]; [none|none| |none]. destruct (Z.eqb_spec n 1); [done|]. none.
Qed.
Lemma block_any fs blocks : Forall field_ok fs -> submessages 2 fs blocks -> Forall utf8_text (byte_vals 1 fs) ->
  block_received (enc fs) = Some (last_bytes 1 fs, block_meant (concat blocks)).
Proof.
  intros H Hb Hu. unfold block_received. rewrite (um_fields _ consuming_block_request upd_req).
  - rewrite req_folded. by rewrite (blk_folded _ _ Hb), bytes_folded.
  - done.
  - intros [n v] m Hin Hok. cbn [fst snd]. eapply req_step; [done|done|done|]. intros b -> ->.
    apply in_vals in Hin. rewrite list.Forall_forall in Hu. by apply Hu.
Qed.
Global Instance utf8_text_dec b : Decision (utf8_text b).
Proof. destruct (valid_utf8 b) eqn:E; [left|right]; rewrite <- valid_utf8_spec; congruence. Defined.
Lemma block_bad fs blocks : Forall field_ok fs -> submessages 2 fs blocks -> ~ Forall utf8_text (byte_vals 1 fs) ->
  block_received (enc fs) = None.
Proof.
  intros H Hb Hu. unfold block_received. rewrite (um_bad _ consuming_block_request); [done|done| |].
  - intros [n v] m Hin Hok. cbn [fst snd]. 
    assert (Hd : (exists b, n = 1 /\ v = FBytes b /\ valid_utf8 b = false) \/ ~ (exists b, n = 1 /\ v = FBytes b /\ valid_utf8 b = false)).
    { destruct v as [v|v|b|v]; try (right; intros (? & _ & ? & _); discriminate).
      destruct (decide (n = 1)); [|right; intros (? & ? & _); done]. destruct (valid_utf8 b) eqn:E; [|left; by exists b].
      right. intros (b' & _ & [= <-] & Hf). congruence. }
    destruct Hd as [Hx|Hx].
    + right. right. destruct Hx as (b & -> & -> & Hx). intros r. unfold h_block_request. cbn [wire_type].
      rewrite go_byt by apply Hok. by rewrite Hx.
    + destruct (req_step fs blocks n v m Hb Hin Hok) as [Hs|[Hs _]]; [|left; by eexists|by right; left].
      intros b -> ->. apply valid_utf8_spec. destruct (valid_utf8 b) eqn:E; [done|]. exfalso. apply Hx. by exists b.
  - apply not_Forall_Exists in Hu; [|intros ?; apply utf8_text_dec]. apply list.Exists_exists in Hu as (b & Hin & Hn). apply elem_of_list_omap in Hin as ([n v] & Hin & E).
    exists (n, v). split; [done|]. destruct v as [v|v|b'|v]; try discriminate. destruct (Z.eqb_spec n 1) as [-> |]; [|discriminate].
    injection E as ->. rewrite list.Forall_forall in H. pose proof (H _ Hin) as Hok. intros m r. cbn [fst snd].
    unfold h_block_request. cbn [wire_type]. rewrite go_byt by apply Hok.
    destruct (valid_utf8 b) eqn:E; [|done]. by apply valid_utf8_spec in E.
Qed.
Lemma response_any fs : Forall field_ok fs -> block_answer (enc fs) = Some (list.last (byte_vals 1 fs)).
Proof.
  intros H. unfold block_answer.
  rewrite (um_fields _ consuming_block_response (fun m f => match f with (1, FBytes b) => Some b | _ => m end)).
  - f_equal. clear H. induction fs as [|[n v] fs IH] using rev_ind; [reflexivity|]. snoc fs. rewrite IH, last_vals_snoc.
    destruct v as [v|v|b|v]; numbers n; try reflexivity; none.
  - done.
  - clear. intros [n v] m _ H. cbn [fst snd].
    numbers n; try (unfold h_block_response; handled); right; (split; [intros r|]); unfold h_block_response; first [reflexivity | none].
Qed.

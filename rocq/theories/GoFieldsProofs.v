(** Sign bytes and privval requests with arbitrary fields. *)
From Coq Require Import ZifyBool ZifyNat.
From Verif Require Import GoBase Wire WireProofs Canonical CanonicalProofs Privval PrivvalProofs
  RpcFieldsSpec RpcFieldsProofs GoFieldsSpec.
Local Open Scope Z_scope.

(** ** Cases of the generated switches *)
Lemma ov_ok {M} v r (set : Z -> M) : 0 <= v < 2 ^ 64 -> on_varint 0 (payload (FInt v) ++ r) set = FOk (set v) r.
Proof. intros H. unfold on_varint. cbn [Z.eqb payload]. by rewrite varint_roundtrip. Qed.
Lemma ov_err {M} w r (set : Z -> M) : w <> 0 -> on_varint w r set = FErr.
Proof. intros H. unfold on_varint. by apply Z.eqb_neq in H as ->. Qed.
Lemma of_ok {M} v r (set : Z -> M) : 0 <= v < 2 ^ 64 -> on_fixed64 1 (payload (FFixed64 v) ++ r) set = FOk (set v) r.
Proof. intros H. unfold on_fixed64. cbn [Z.eqb Pos.eqb payload]. by rewrite le_roundtrip. Qed.
Lemma of_err {M} w r (set : Z -> M) : w <> 1 -> on_fixed64 w r set = FErr.
Proof. intros H. unfold on_fixed64. by apply Z.eqb_neq in H as ->. Qed.
Lemma ob_ok {M} b r (set : bytes -> option M) : Z.of_nat (length b) < 2 ^ 63 ->
  on_bytes 2 (payload (FBytes b) ++ r) set = match set b with Some m => FOk m r | None => FErr end.
Proof.
  intros H. unfold on_bytes. cbn [Z.eqb Pos.eqb payload].
  change (varint_enc (Z.of_nat (length b)) ++ b) with (len_enc b). by rewrite len_roundtrip.
Qed.
Lemma ob_err {M} w r (set : bytes -> option M) : w <> 2 -> on_bytes w r set = FErr.
Proof. intros H. unfold on_bytes. by apply Z.eqb_neq in H as ->. Qed.

(** what happens to a field does not depend on what follows it *)
Definition uniform {M} (h : Z -> Z -> M -> bytes -> field_result M) : Prop := forall f m, field_ok f ->
  (exists m', forall r, h (fst f) (wire_type (snd f)) m (payload (snd f) ++ r) = FOk m' r) \/
  (forall r, h (fst f) (wire_type (snd f)) m (payload (snd f) ++ r) = FUnknown) \/
  (forall r, h (fst f) (wire_type (snd f)) m (payload (snd f) ++ r) = FErr).
Lemma uni_v {M} v (set : Z -> M) : field_ok (1, v) ->
  (exists m', forall r, on_varint (wire_type v) (payload v ++ r) set = FOk m' r) \/
  (forall r, on_varint (wire_type v) (payload v ++ r) set = FUnknown) \/
  (forall r, on_varint (wire_type v) (payload v ++ r) set = FErr).
Proof.
  intros [_ H]. cbn [snd] in H. destruct v as [v|v|b|v]; try (right; right; intros r; apply ov_err; cbn; lia).
  left. eexists. intros r. cbn [wire_type]. by apply ov_ok.
Qed.
Lemma uni_f {M} v (set : Z -> M) : field_ok (1, v) ->
  (exists m', forall r, on_fixed64 (wire_type v) (payload v ++ r) set = FOk m' r) \/
  (forall r, on_fixed64 (wire_type v) (payload v ++ r) set = FUnknown) \/
  (forall r, on_fixed64 (wire_type v) (payload v ++ r) set = FErr).
Proof.
  intros [_ H]. cbn [snd] in H. destruct v as [v|v|b|v]; try (right; right; intros r; apply of_err; cbn; lia).
  left. eexists. intros r. cbn [wire_type]. by apply of_ok.
Qed.
Lemma uni_b {M} v (set : bytes -> option M) : field_ok (1, v) ->
  (exists m', forall r, on_bytes (wire_type v) (payload v ++ r) set = FOk m' r) \/
  (forall r, on_bytes (wire_type v) (payload v ++ r) set = FUnknown) \/
  (forall r, on_bytes (wire_type v) (payload v ++ r) set = FErr).
Proof.
  intros [_ H]. cbn [snd] in H. destruct v as [v|v|b|v]; try (right; right; intros r; apply ob_err; cbn; lia).
  cbn [wire_type]. destruct (set b) as [m|] eqn:E.
  - left. exists m. intros r. by rewrite ob_ok, E.
  - right. right. intros r. by rewrite ob_ok, E.
Qed.
Lemma ok_any n k v : field_ok (n, v) -> 1 <= k < 2 ^ 29 -> field_ok (k, v).
Proof. intros [_ H] Hk. by split. Qed.
Ltac nums n :=
  destruct (decide (n = 1)) as [-> |]; [|destruct (decide (n = 2)) as [-> |]; [|destruct (decide (n = 3)) as [-> |];
    [|destruct (decide (n = 4)) as [-> |]; [|destruct (decide (n = 5)) as [-> |]; [|destruct (decide (n = 6)) as [-> |];
    [|destruct (decide (n = 7)) as [-> |]; [|destruct (decide (n = 8)) as [-> |]]]]]]]].
Ltac other n := destruct n as [|[[[[p|p|]|[p|p|]|]|[[p|p|]|[p|p|]|]|]|[[[p|p|]|[p|p|]|]|[[p|p|]|[p|p|]|]|]|]|p];
  first [exfalso; congruence | reflexivity].
Ltac unif n H := cbn [fst snd]; apply (ok_any _ 1) in H; [|done]; nums n;
  try (first [by apply uni_v | by apply uni_f | by apply uni_b]); right; left; intros r; try reflexivity; other n.
Lemma uniform_timestamp : uniform h_timestamp.
Proof. intros [n v] m H. unfold h_timestamp. unif n H. Qed.
Lemma uniform_psh : uniform h_psh.
Proof. intros [n v] m H. unfold h_psh. unif n H. Qed.
Lemma uniform_bid : uniform h_bid.
Proof. intros [n v] m H. unfold h_bid. unif n H. Qed.
Lemma uniform_vote : uniform h_vote.
Proof. intros [n v] [] H. unfold h_vote. unif n H. Qed.
Lemma uniform_proposal : uniform h_proposal.
Proof. intros [n v] [] H. unfold h_proposal. unif n H. Qed.
Lemma uniform_pvote : uniform h_pvote.
Proof. intros [n v] [[]] H. unfold h_pvote. unif n H. Qed.
Lemma uniform_pprop : uniform h_pprop.
Proof. intros [n v] [? []] H. unfold h_pprop. unif n H. Qed.
Lemma uniform_req {A} (h : Z -> Z -> A -> bytes -> field_result A) z : uniform (h_req h z).
Proof. intros [n v] m H. unfold h_req. unif n H. Qed.
Lemma uniform_pk_req : uniform h_pk_req.
Proof. intros [n v] m H. unfold h_pk_req. unif n H. Qed.
Lemma uniform_message : uniform h_message.
Proof. intros [n v] m H. unfold h_message. unif n H. Qed.

(** ** Any message *)
Section Any.
  Context {M : Type} (h : Z -> Z -> M -> bytes -> field_result M) (Hc : consuming h) (Hu : uniform h).
  Lemma um_app a m r : Forall field_ok a ->
    unmarshal h m (enc a ++ r) = match unmarshal h m (enc a) with Some m' => unmarshal h m' r | None => None end.
  Proof.
    intros Ha. revert m. induction Ha as [|f a Hf Ha IH]; intros m; [done|].
    change (enc (f :: a)) with (enc_field f ++ enc a). rewrite <- app_assoc.
    destruct (Hu f m Hf) as [[m' Hm]|[Hm|Hm]].
    - rewrite !(um_field h Hc f m m') by (try done; by left). apply IH.
    - rewrite !(um_field h Hc f m m) by (try done; by right). apply IH.
    - by rewrite !(um_err h f m).
  Qed.
  Lemma um_none fs m : Forall field_ok fs ->
    (exists f, f ∈ fs /\ forall m r, h (fst f) (wire_type (snd f)) m (payload (snd f) ++ r) = FErr) ->
    unmarshal h m (enc fs) = None.
  Proof. intros Hok He. apply um_bad; [done|done| |done]. intros f m' _ Hf. by apply Hu. Qed.
End Any.
Lemma enc_app a b : enc (a ++ b) = enc a ++ enc b.
Proof. unfold enc. by rewrite flat_map_app. Qed.
Lemma enc_concat ms : enc (concat ms) = concat (map enc ms).
Proof. induction ms as [|m ms IH]; [done|]. cbn [concat map]. by rewrite enc_app, IH. Qed.

(** declared types *)
Ltac el := first [apply elem_of_list_here | apply elem_of_list_further; el].
Lemma bad_field {M} (h : Z -> Z -> M -> bytes -> field_result M) d fs : mistyped d fs ->
  (forall n v w m r, field_ok (n, v) -> (n, w) ∈ d -> wire_type v <> w -> h n (wire_type v) m r = FErr) -> Forall field_ok fs ->
  exists f, f ∈ fs /\ forall m r, h (fst f) (wire_type (snd f)) m (payload (snd f) ++ r) = FErr.
Proof.
  intros ([n v] & w & Hf & Hd & Hw) H Hok. exists (n, v). split; [done|]. intros m r. cbn [fst snd] in *. eapply H; try done.
  by apply (proj1 (list.Forall_forall _ _) Hok).
Qed.
Ltac cases H := repeat (apply elem_of_cons in H as [H|H]; [injection H as -> ->|]); try (by apply elem_of_nil in H).
Ltac wrongt := intros n v w m r _ Hd Hw; cases Hd; first [by apply ov_err | by apply of_err | by apply ob_err].

(** ** Times *)
Lemma s64 v : signed 64 v = wrap64 v. Proof. reflexivity. Qed.
Lemma s32 v : signed 32 v = wrap32 v. Proof. reflexivity. Qed.
Definition upd_time (m : time) (f : field) : time :=
  match f with
  | (1, FInt v) => Time (wrap64 v) (t_nanos m)
  | (2, FInt v) => Time (t_secs m) (wrap32 v)
  | _ => m
  end.
(** a field of the right type is handled by [upd] *)
Ltac settled Ht Hok v :=
  let Hw := fresh in first [pose proof (Ht 0 ltac:(el)) as Hw | pose proof (Ht 1 ltac:(el)) as Hw | pose proof (Ht 2 ltac:(el)) as Hw];
  destruct Hok as [_ Hok]; cbn [snd] in Hok; destruct v as [v|v|b|v]; try discriminate Hw; cbn [wire_type]; clear Ht.
Lemma um_time fs m : Forall field_ok fs -> typed time_decl fs -> unmarshal h_timestamp m (enc fs) = Some (foldl upd_time m fs).
Proof.
  intros H Ht. apply um_fields; [apply consuming_timestamp|done|]. intros [n v] m' Hin Hok. cbn [fst snd].
  specialize (Ht (n, v)). cbn [fst snd] in Ht. assert (Ht' : forall w, (n, w) ∈ time_decl -> wire_type v = w) by eauto. clear Ht.
  nums n; unfold h_timestamp, time_decl in *;
   try (settled Ht' Hok v; left; intros r; rewrite ov_ok by exact Hok; reflexivity);
   right; (split; [intros r|]); unfold upd_time; try reflexivity; other n.
Qed.
Lemma time_folded fs : foldl upd_time (Time 0 0) fs = time_meant fs.
Proof.
  unfold time_meant. rewrite s64, s32. induction fs as [|[n v] fs IH] using rev_ind; [reflexivity|]. rewrite foldl_app. cbn [foldl].
  rewrite IH, !last_int_snoc. destruct v as [v|v|b|v]; nums n; try reflexivity; other n.
Qed.
Lemma valid_years t : time_valid t = true <-> in_years t.
Proof. unfold time_valid, in_years, min_secs, max_secs. change (10 ^ 9) with 1000000000. lia. Qed.
Lemma time_read fs : Forall field_ok fs -> typed time_decl fs -> in_years (time_meant fs) -> um_timestamp (enc fs) = Some (time_meant fs).
Proof. intros H Ht Hy. unfold um_timestamp. rewrite um_time, time_folded by done. apply valid_years in Hy. by rewrite Hy. Qed.
Lemma time_refused fs : Forall field_ok fs -> mistyped time_decl fs \/ typed time_decl fs /\ ~ in_years (time_meant fs) -> um_timestamp (enc fs) = None.
Proof.
  intros H [Hm|[Ht Hy]]; unfold um_timestamp.
  - rewrite um_none; [done|apply consuming_timestamp|apply uniform_timestamp|done|]. eapply bad_field; [done| |done]. wrongt.
  - rewrite um_time, time_folded by done. destruct (time_valid _) eqn:E; [|done]. by apply valid_years in E.
Qed.

Lemma elem_concat {A} (x : A) ls : x ∈ concat ls <-> exists l, x ∈ l /\ l ∈ ls.
Proof.
  rewrite elem_of_list_In, in_concat. split; intros (l & H1 & H2); exists l; rewrite ?elem_of_list_In in *; tauto.
Qed.

(** ** Block IDs *)
Definition upd_psh (m : part_set_header) (f : field) : part_set_header :=
  match f with
  | (1, FInt v) => PSH (u32 v) (psh_hash m)
  | (2, FBytes b) => PSH (psh_total m) b
  | _ => m
  end.
Lemma um_psh fs m : Forall field_ok fs -> typed psh_decl fs -> unmarshal h_psh m (enc fs) = Some (foldl upd_psh m fs).
Proof.
  intros H Ht. apply um_fields; [apply consuming_psh|done|]. intros [n v] m' Hin Hok. cbn [fst snd].
  specialize (Ht (n, v)). cbn [fst snd] in Ht. assert (Ht' : forall w, (n, w) ∈ psh_decl -> wire_type v = w) by eauto. clear Ht.
  nums n; unfold h_psh, psh_decl in *;
   try (settled Ht' Hok v; left; intros r; first [rewrite ov_ok by exact Hok|rewrite ob_ok by exact Hok]; reflexivity);
   right; (split; [intros r|]); unfold upd_psh; try reflexivity; other n.
Qed.
Lemma psh_folded fs : foldl upd_psh empty_psh fs = PSH (last_int 1 fs mod 2 ^ 32) (last_bytes 2 fs).
Proof.
  induction fs as [|[n v] fs IH] using rev_ind; [reflexivity|]. rewrite foldl_app. cbn [foldl].
  rewrite IH, !last_int_snoc, !last_bytes_snoc. destruct v as [v|v|b|v]; nums n; try reflexivity; other n.
Qed.
Definition upd_bid (m : block_id) (f : field) : block_id :=
  match f with
  | (1, FBytes b) => BID b (bid_psh m)
  | (2, FBytes b) => match unmarshal h_psh (bid_psh m) b with Some h => BID (bid_hash m) h | None => m end
  | _ => m
  end.
Definition good_psh (b : bytes) : Prop := exists fs, b = enc fs /\ Forall field_ok fs /\ typed psh_decl fs.
Lemma good_psh_reads b m : good_psh b -> exists h, unmarshal h_psh m b = Some h.
Proof. intros (fs & -> & H & Ht). eexists. by apply um_psh. Qed.
Lemma in_vals n b fs : (n, FBytes b) ∈ fs -> b ∈ byte_vals n fs.
Proof.
  intros H. unfold byte_vals. apply elem_of_list_omap. exists (n, FBytes b). split; [done|]. by rewrite Z.eqb_refl.
Qed.
Lemma um_block_id fs m : Forall field_ok fs -> typed bid_decl fs -> Forall good_psh (byte_vals 2 fs) ->
  unmarshal h_bid m (enc fs) = Some (foldl upd_bid m fs).
Proof.
  intros H Ht Hg. apply um_fields; [apply consuming_bid|done|]. intros [n v] m' Hin Hok. cbn [fst snd].
  specialize (Ht (n, v)). cbn [fst snd] in Ht. assert (Ht' : forall w, (n, w) ∈ bid_decl -> wire_type v = w) by eauto. clear Ht.
  assert (Hs : forall b, n = 2 -> v = FBytes b -> forall m, exists h, unmarshal h_psh m b = Some h).
  { intros b -> -> m0. apply good_psh_reads. rewrite list.Forall_forall in Hg. apply Hg. by apply in_vals. }
  clear Hg Hin H.
  nums n; unfold h_bid, bid_decl in *;
   try (settled Ht' Hok v; left; intros r; rewrite ob_ok by exact Hok; cbn [upd_bid];
        try (destruct (Hs b eq_refl eq_refl (bid_psh m')) as [h' Hh]; rewrite Hh); reflexivity);
   right; (split; [intros r|]); unfold upd_bid; try reflexivity; other n.
Qed.
(** messages in pieces *)
Fixpoint pieces {M} (h : Z -> Z -> M -> bytes -> field_result M) (m : M) (ps : list bytes) : M :=
  match ps with [] => m | p :: ps => pieces h (default m (unmarshal h m p)) ps end.
Lemma pieces_app {M} (h : Z -> Z -> M -> bytes -> field_result M) m a b : pieces h m (a ++ b) = pieces h (pieces h m a) b.
Proof. revert m. induction a as [|p a IH]; intros m; [done|]. apply IH. Qed.
Lemma pieces_enc {M} (h : Z -> Z -> M -> bytes -> field_result M) ms m x : consuming h -> uniform h -> Forall (Forall field_ok) ms ->
  unmarshal h m (enc (concat ms)) = Some x -> pieces h m (map enc ms) = x.
Proof.
  intros Hc Hu Hok. revert m. induction Hok as [|a ms Ha Hok IH]; intros m Hx.
  - by injection Hx as ->.
  - cbn [concat map pieces] in *. rewrite enc_app, um_app in Hx by done.
    destruct (unmarshal h m (enc a)) as [m'|]; [|done]. cbn [default]. by apply IH.
Qed.
Lemma bid_folded fs m : foldl upd_bid m fs = BID (foldl (fun _ b => b) (bid_hash m) (byte_vals 1 fs)) (pieces h_psh (bid_psh m) (byte_vals 2 fs)).
Proof.
  induction fs as [|[n v] fs IH] using rev_ind; [by destruct m|]. rewrite foldl_app. cbn [foldl].
  rewrite IH, !vals_snoc, foldl_app, pieces_app. destruct v as [v|v|b|v]; nums n; try reflexivity;
    try (cbn; by destruct (unmarshal h_psh _ b)); other n.
Qed.
Lemma last_fold {A} (l : list A) x : foldl (fun _ b => b) x l = default x (list.last l).
Proof. destruct l as [|y l] using rev_ind; [done|]. by rewrite foldl_app, list.last_snoc. Qed.
Lemma bid_read bs hs : Forall (Forall field_ok) bs -> Forall (typed bid_decl) bs -> submessages 2 (concat bs) hs -> Forall (typed psh_decl) hs ->
  unmarshal h_bid empty_bid (enc (concat bs)) = Some (bid_meant bs hs).
Proof.
  intros Hb Htb [Hv Hh] Hth. rewrite um_block_id.
  - f_equal. rewrite bid_folded, last_fold, Hv. unfold bid_meant. f_equal.
    apply pieces_enc; [apply consuming_psh|apply uniform_psh|done|]. rewrite um_psh, psh_folded; [done| |].
    + by apply Forall_concat.
    + intros f w Hf. apply elem_concat in Hf as (l & Hf & Hl). rewrite list.Forall_forall in Hth. by apply (Hth l).
  - by apply Forall_concat.
  - intros f w Hf. apply elem_concat in Hf as (l & Hf & Hl). rewrite list.Forall_forall in Htb. by apply (Htb l).
  - rewrite Hv. apply list.Forall_forall. intros b Hb'. apply elem_of_list_fmap in Hb' as (fs & -> & Hf).
    rewrite list.Forall_forall in Hh, Hth. exists fs. eauto.
Qed.

(** ** Sign bytes *)
Fixpoint opt_pieces {M} (h : Z -> Z -> M -> bytes -> field_result M) (z : M) (m : option M) (ps : list bytes) : option M :=
  match ps with
  | [] => m
  | p :: ps => opt_pieces h z (match unmarshal h (default z m) p with Some x => Some x | None => m end) ps
  end.
Lemma opt_pieces_app {M} (h : Z -> Z -> M -> bytes -> field_result M) z m a b :
  opt_pieces h z m (a ++ b) = opt_pieces h z (opt_pieces h z m a) b.
Proof. revert m. induction a as [|p a IH]; intros m; [done|]. apply IH. Qed.
Lemma opt_pieces_enc {M} (h : Z -> Z -> M -> bytes -> field_result M) z ms m x : consuming h -> uniform h -> Forall (Forall field_ok) ms ->
  unmarshal h (default z m) (enc (concat ms)) = Some x -> opt_pieces h z m (map enc ms) = if ms then m else Some x.
Proof.
  intros Hc Hu Hok. revert m. induction Hok as [|a ms Ha Hok IH]; intros m Hx; [done|].
  cbn [concat map opt_pieces] in *. rewrite enc_app, um_app in Hx by done.
  destruct (unmarshal h _ (enc a)) as [m'|]; [|done]. rewrite (IH (Some m')) by done. destruct ms; [|done]. by injection Hx as ->.
Qed.
Definition time_of (ps : list bytes) : time := foldl (fun t p => default t (um_timestamp p)) zero_time ps.
Lemma times_read n fs ts : times n fs ts -> time_of (byte_vals n fs) = last_time ts.
Proof.
  intros [[Hv Hok] Ht]. unfold time_of, last_time. rewrite Hv. clear Hv.
  destruct ts as [|t ts _] using rev_ind; [done|]. rewrite list.last_snoc, map_app, foldl_app. cbn [map foldl].
  apply list.Forall_app in Hok as [_ Hok]. apply list.Forall_app in Ht as [_ Ht]. apply list.Forall_cons in Hok as [Hok _].
  apply list.Forall_cons in Ht as [[H1 H2] _]. by rewrite time_read.
Qed.
Definition good_time (b : bytes) : Prop := exists t, um_timestamp b = Some t.
Lemma times_good n fs ts : times n fs ts -> Forall good_time (byte_vals n fs).
Proof.
  intros [[Hv Hok] Ht]. rewrite Hv. apply list.Forall_forall. intros b Hb. apply elem_of_list_fmap in Hb as (t & -> & Hb).
  rewrite list.Forall_forall in Hok, Ht. destruct (Ht t Hb) as [H1 H2]. exists (time_meant t). apply time_read; auto.
Qed.
Definition good_bid (b : bytes) : Prop := forall m, exists x, unmarshal h_bid m b = Some x.
Lemma bids_good n fs bs hs : block_ids n fs bs hs -> Forall good_bid (byte_vals n fs).
Proof.
  intros ([Hv Hok] & Ht & [Hw Hok'] & Ht'). rewrite Hv. apply list.Forall_forall. intros b Hb.
  apply elem_of_list_fmap in Hb as (f & -> & Hb). intros m. rewrite list.Forall_forall in Hok, Ht. eexists. apply um_block_id; auto.
  apply list.Forall_forall. intros b Hb'. assert (Hi : b ∈ byte_vals 2 (concat bs)).
  { unfold byte_vals in *. apply elem_of_list_omap in Hb' as (k & Hk & He). apply elem_of_list_omap. exists k. split; [|done].
    apply elem_concat. eauto. }
  rewrite Hw in Hi. apply elem_of_list_fmap in Hi as (g & -> & Hg). rewrite list.Forall_forall in Hok', Ht'. exists g. eauto.
Qed.
Lemma bids_read n fs bs hs : block_ids n fs bs hs ->
  opt_pieces h_bid empty_bid None (byte_vals n fs) = (if bs then None else Some (bid_meant bs hs)) /\
  pieces h_bid empty_bid (byte_vals n fs) = bid_meant bs hs.
Proof.
  intros ([Hv Hok] & Ht & Hs & Ht'). rewrite Hv. pose proof (bid_read bs hs Hok Ht Hs Ht') as Hr. split.
  - apply opt_pieces_enc; [apply consuming_bid|apply uniform_bid|done|done].
  - apply pieces_enc; [apply consuming_bid|apply uniform_bid|done|done].
Qed.

Definition upd_vote (m : canonical_vote) (f : field) : canonical_vote :=
  match m, f with
  | CVote ty he ro bi ts ch, (1, FInt v) => CVote (wrap32 v) he ro bi ts ch
  | CVote ty he ro bi ts ch, (2, FFixed64 v) => CVote ty (wrap64 v) ro bi ts ch
  | CVote ty he ro bi ts ch, (3, FFixed64 v) => CVote ty he (wrap64 v) bi ts ch
  | CVote ty he ro bi ts ch, (4, FBytes p) =>
      CVote ty he ro (match unmarshal h_bid (default empty_bid bi) p with Some b => Some b | None => bi end) ts ch
  | CVote ty he ro bi ts ch, (5, FBytes p) => CVote ty he ro bi (default ts (um_timestamp p)) ch
  | CVote ty he ro bi ts ch, (6, FBytes p) => CVote ty he ro bi ts p
  | m, _ => m
  end.
Definition upd_prop (m : canonical_proposal) (f : field) : canonical_proposal :=
  match m, f with
  | CProp ty he ro po bi ts ch, (1, FInt v) => CProp (wrap32 v) he ro po bi ts ch
  | CProp ty he ro po bi ts ch, (2, FFixed64 v) => CProp ty (wrap64 v) ro po bi ts ch
  | CProp ty he ro po bi ts ch, (3, FFixed64 v) => CProp ty he (wrap64 v) po bi ts ch
  | CProp ty he ro po bi ts ch, (4, FInt v) => CProp ty he ro (wrap64 v) bi ts ch
  | CProp ty he ro po bi ts ch, (5, FBytes p) =>
      CProp ty he ro po (match unmarshal h_bid (default empty_bid bi) p with Some b => Some b | None => bi end) ts ch
  | CProp ty he ro po bi ts ch, (6, FBytes p) => CProp ty he ro po bi (default ts (um_timestamp p)) ch
  | CProp ty he ro po bi ts ch, (7, FBytes p) => CProp ty he ro po bi ts p
  | m, _ => m
  end.
Lemma fixeds_snoc n fs f : last_fixed n (fs ++ [f]) = match f with (k, FFixed64 v) => if k =? n then v else last_fixed n fs | _ => last_fixed n fs end.
Proof.
  unfold last_fixed, fixeds. rewrite omap_app, last_or. destruct f as [k [v|v|b|v]]; cbn; try done. by destruct (k =? n).
Qed.
Lemma time_of_snoc n fs f : time_of (byte_vals n (fs ++ [f])) =
  match f with (k, FBytes p) => if k =? n then default (time_of (byte_vals n fs)) (um_timestamp p) else time_of (byte_vals n fs) | _ => time_of (byte_vals n fs) end.
Proof. unfold time_of. rewrite vals_snoc, foldl_app. destruct f as [k [v|v|b|v]]; cbn; try done. by destruct (k =? n). Qed.
Lemma bid_of_snoc n fs f m : opt_pieces h_bid empty_bid m (byte_vals n (fs ++ [f])) =
  let x := opt_pieces h_bid empty_bid m (byte_vals n fs) in
  match f with (k, FBytes p) => if k =? n then match unmarshal h_bid (default empty_bid x) p with Some b => Some b | None => x end else x | _ => x end.
Proof. rewrite vals_snoc, opt_pieces_app. destruct f as [k [v|v|b|v]]; cbn; try done. by destruct (k =? n). Qed.
Lemma sbid_of_snoc n fs f m : pieces h_bid m (byte_vals n (fs ++ [f])) =
  let x := pieces h_bid m (byte_vals n fs) in
  match f with (k, FBytes p) => if k =? n then default x (unmarshal h_bid x p) else x | _ => x end.
Proof. rewrite vals_snoc, pieces_app. destruct f as [k [v|v|b|v]]; cbn; try done. by destruct (k =? n). Qed.
Lemma vote_folded fs : foldl upd_vote empty_vote fs =
  CVote (wrap32 (last_int 1 fs)) (wrap64 (last_fixed 2 fs)) (wrap64 (last_fixed 3 fs))
    (opt_pieces h_bid empty_bid None (byte_vals 4 fs)) (time_of (byte_vals 5 fs)) (last_bytes 6 fs).
Proof.
  induction fs as [|[n v] fs IH] using rev_ind; [reflexivity|]. rewrite foldl_app. cbn [foldl].
  rewrite IH, !last_int_snoc, !last_bytes_snoc, !fixeds_snoc, !time_of_snoc, !bid_of_snoc.
  destruct v as [v|v|b|v]; nums n; try reflexivity; other n.
Qed.
Lemma prop_folded fs : foldl upd_prop empty_proposal fs =
  CProp (wrap32 (last_int 1 fs)) (wrap64 (last_fixed 2 fs)) (wrap64 (last_fixed 3 fs)) (wrap64 (last_int 4 fs))
    (opt_pieces h_bid empty_bid None (byte_vals 5 fs)) (time_of (byte_vals 6 fs)) (last_bytes 7 fs).
Proof.
  induction fs as [|[n v] fs IH] using rev_ind; [reflexivity|]. rewrite foldl_app. cbn [foldl].
  rewrite IH, !last_int_snoc, !last_bytes_snoc, !fixeds_snoc, !time_of_snoc, !bid_of_snoc.
  destruct v as [v|v|b|v]; nums n; try reflexivity; other n.
Qed.

Ltac solve_handler H := intros r; first [rewrite ov_ok by exact H|rewrite of_ok by exact H|rewrite ob_ok by exact H].
Lemma um_cvote fs m : Forall field_ok fs -> typed vote_decl fs -> Forall good_bid (byte_vals 4 fs) -> Forall good_time (byte_vals 5 fs) ->
  unmarshal h_vote m (enc fs) = Some (foldl upd_vote m fs).
Proof.
  intros H Ht Hg Hg'. apply um_fields; [apply consuming_vote|done|]. intros [n v] [ty he ro bi ts ch] Hin Hok. cbn [fst snd].
  specialize (Ht (n, v)). cbn [fst snd] in Ht. assert (Ht' : forall w, (n, w) ∈ vote_decl -> wire_type v = w) by eauto. clear Ht.
  assert (Hs : forall b, n = 4 -> v = FBytes b -> good_bid b).
  { intros b -> ->. rewrite list.Forall_forall in Hg. apply Hg. by apply in_vals. }
  assert (Hs' : forall b, n = 5 -> v = FBytes b -> good_time b).
  { intros b -> ->. rewrite list.Forall_forall in Hg'. apply Hg'. by apply in_vals. }
  clear Hg Hg' Hin H.
  nums n; unfold h_vote, vote_decl in *;
   try (settled Ht' Hok v; left; solve_handler Hok; cbn [upd_vote]; unfold um_bid;
        try (destruct (Hs b eq_refl eq_refl (default empty_bid bi)) as [x ->]);
        try (destruct (Hs' b eq_refl eq_refl) as [x ->]); reflexivity);
   right; (split; [intros r|]); unfold upd_vote; try reflexivity; other n.
Qed.
Lemma um_cprop fs m : Forall field_ok fs -> typed proposal_decl fs -> Forall good_bid (byte_vals 5 fs) -> Forall good_time (byte_vals 6 fs) ->
  unmarshal h_proposal m (enc fs) = Some (foldl upd_prop m fs).
Proof.
  intros H Ht Hg Hg'. apply um_fields; [apply consuming_proposal|done|]. intros [n v] [ty he ro po bi ts ch] Hin Hok. cbn [fst snd].
  specialize (Ht (n, v)). cbn [fst snd] in Ht. assert (Ht' : forall w, (n, w) ∈ proposal_decl -> wire_type v = w) by eauto. clear Ht.
  assert (Hs : forall b, n = 5 -> v = FBytes b -> good_bid b).
  { intros b -> ->. rewrite list.Forall_forall in Hg. apply Hg. by apply in_vals. }
  assert (Hs' : forall b, n = 6 -> v = FBytes b -> good_time b).
  { intros b -> ->. rewrite list.Forall_forall in Hg'. apply Hg'. by apply in_vals. }
  clear Hg Hg' Hin H.
  nums n; unfold h_proposal, proposal_decl in *;
   try (settled Ht' Hok v; left; solve_handler Hok; cbn [upd_prop]; unfold um_bid;
        try (destruct (Hs b eq_refl eq_refl (default empty_bid bi)) as [x ->]);
        try (destruct (Hs' b eq_refl eq_refl) as [x ->]); reflexivity);
   right; (split; [intros r|]); unfold upd_prop; try reflexivity; other n.
Qed.

Lemma vote_any fs v rest : vote_reads fs v -> Z.of_nat (length (enc fs)) < 2 ^ 63 - 1 -> decode_vote (delimited (enc fs) ++ rest) = Some v.
Proof.
  intros (Hok & Ht & bs & hs & ts & Hb & Hti & ->) Hl. unfold decode_vote. rewrite unmarshal_delimited_delimited by done.
  rewrite um_cvote; [|done|done|by eapply bids_good|by eapply times_good]. rewrite vote_folded.
  by rewrite (proj1 (bids_read _ _ _ _ Hb)), (times_read _ _ _ Hti).
Qed.
Lemma prop_any fs p rest : proposal_reads fs p -> Z.of_nat (length (enc fs)) < 2 ^ 63 - 1 -> decode_proposal (delimited (enc fs) ++ rest) = Some p.
Proof.
  intros (Hok & Ht & bs & hs & ts & Hb & Hti & ->) Hl. unfold decode_proposal. rewrite unmarshal_delimited_delimited by done.
  rewrite um_cprop; [|done|done|by eapply bids_good|by eapply times_good]. rewrite prop_folded.
  by rewrite (proj1 (bids_read _ _ _ _ Hb)), (times_read _ _ _ Hti).
Qed.
Lemma bid_none sub m0 : Forall field_ok sub -> mistyped bid_decl sub -> unmarshal h_bid m0 (enc sub) = None.
Proof.
  intros H Hm. apply um_none; [apply consuming_bid|apply uniform_bid|done|]. eapply bad_field; [done| |done]. wrongt.
Qed.
Lemma vals_in n b fs : b ∈ byte_vals n fs -> (n, FBytes b) ∈ fs.
Proof.
  intros H. unfold byte_vals in H. apply elem_of_list_omap in H as ([k v] & Hf & He).
  destruct v as [v|v|b'|v]; try done. destruct (Z.eqb_spec k n) as [-> |]; [|done]. by injection He as ->.
Qed.
Lemma vote_refused fs rest : refused vote_decl 4 5 fs -> Z.of_nat (length (enc fs)) < 2 ^ 63 - 1 -> decode_vote (delimited (enc fs) ++ rest) = None.
Proof.
  intros [Hok Hr] Hl. unfold decode_vote. rewrite unmarshal_delimited_delimited by done.
  apply um_none; [apply consuming_vote|apply uniform_vote|done|]. destruct Hr as [Hm|(sub & Hs & [[Hi Hm]|[Hi Hm]])].
  - eapply bad_field; [done| |done]. intros n v w [ty he ro bi ts ch] r _ Hd Hw. cases Hd; first [by apply ov_err | by apply of_err | by apply ob_err].
  - apply vals_in in Hi. exists (4, FBytes (enc sub)). split; [done|]. intros [ty he ro bi ts ch] r. cbn [fst snd wire_type].
    apply (proj1 (list.Forall_forall _ _) Hok) in Hi as [_ Hi]. cbn [snd] in Hi. unfold h_vote. rewrite ob_ok by done.
    unfold um_bid. by rewrite bid_none.
  - apply vals_in in Hi. exists (5, FBytes (enc sub)). split; [done|]. intros [ty he ro bi ts ch] r. cbn [fst snd wire_type].
    apply (proj1 (list.Forall_forall _ _) Hok) in Hi as [_ Hi]. cbn [snd] in Hi. unfold h_vote. rewrite ob_ok by done.
    by rewrite time_refused.
Qed.
Lemma prop_refused fs rest : refused proposal_decl 5 6 fs -> Z.of_nat (length (enc fs)) < 2 ^ 63 - 1 -> decode_proposal (delimited (enc fs) ++ rest) = None.
Proof.
  intros [Hok Hr] Hl. unfold decode_proposal. rewrite unmarshal_delimited_delimited by done.
  apply um_none; [apply consuming_proposal|apply uniform_proposal|done|]. destruct Hr as [Hm|(sub & Hs & [[Hi Hm]|[Hi Hm]])].
  - eapply bad_field; [done| |done]. intros n v w [ty he ro po bi ts ch] r _ Hd Hw. cases Hd; first [by apply ov_err | by apply of_err | by apply ob_err].
  - apply vals_in in Hi. exists (5, FBytes (enc sub)). split; [done|]. intros [ty he ro po bi ts ch] r. cbn [fst snd wire_type].
    apply (proj1 (list.Forall_forall _ _) Hok) in Hi as [_ Hi]. cbn [snd] in Hi. unfold h_proposal. rewrite ob_ok by done.
    unfold um_bid. by rewrite bid_none.
  - apply vals_in in Hi. exists (6, FBytes (enc sub)). split; [done|]. intros [ty he ro po bi ts ch] r. cbn [fst snd wire_type].
    apply (proj1 (list.Forall_forall _ _) Hok) in Hi as [_ Hi]. cbn [snd] in Hi. unfold h_proposal. rewrite ob_ok by done.
    by rewrite time_refused.
Qed.

(** ** The key of sign bytes *)
Lemma key_proposal fs p rest : proposal_reads fs p -> Z.of_nat (length (enc fs)) < 2 ^ 63 - 1 ->
  unpack_hrst (delimited (enc fs) ++ rest) = Val (HRST (HRS (cp_height p) (cp_round p) 1) (nanos (cp_ts p))).
Proof. intros H Hl. unfold unpack_hrst. by rewrite (prop_any fs p). Qed.
Lemma key_vote fs v rest : refused proposal_decl 5 6 fs -> vote_reads fs v -> Z.of_nat (length (enc fs)) < 2 ^ 63 - 1 ->
  unpack_hrst (delimited (enc fs) ++ rest) =
    (if cv_type v =? 1 then Val (HRST (HRS (cv_height v) (cv_round v) 2) (nanos (cv_ts v)))
     else if cv_type v =? 2 then Val (HRST (HRS (cv_height v) (cv_round v) 3) (nanos (cv_ts v))) else Panic).
Proof.
  intros Hr H Hl. unfold unpack_hrst. rewrite prop_refused, (vote_any fs v) by done. unfold vote_type_to_step, PrevoteType, PrecommitType.
  by destruct (cv_type v =? 1), (cv_type v =? 2).
Qed.
Lemma key_none fs rest : refused proposal_decl 5 6 fs -> refused vote_decl 4 5 fs -> Z.of_nat (length (enc fs)) < 2 ^ 63 - 1 ->
  unpack_hrst (delimited (enc fs) ++ rest) = Fail tt.
Proof. intros Hr H Hl. unfold unpack_hrst. by rewrite prop_refused, vote_refused. Qed.

Lemma same_vote fs v fs' v' rest rest' : vote_reads fs v -> vote_reads fs' v' ->
  Z.of_nat (length (enc fs)) < 2 ^ 63 - 1 -> Z.of_nat (length (enc fs')) < 2 ^ 63 - 1 ->
  (check_vote_ts (delimited (enc fs) ++ rest) (delimited (enc fs') ++ rest') = None <->
   cv_type v = cv_type v' /\ cv_height v = cv_height v' /\ cv_round v = cv_round v' /\ cv_bid v = cv_bid v' /\ cv_chain v = cv_chain v').
Proof.
  intros H H' Hl Hl'. unfold check_vote_ts. rewrite (vote_any fs v), (vote_any fs' v') by done.
  destruct v as [ty he ro bi ts ch], v' as [ty' he' ro' bi' ts' ch']. unfold set_vote_ts. cbn [cv_type cv_height cv_round cv_bid cv_ts cv_chain].
  split.
  - destruct (bool_decide _) eqn:E; [|by destruct bi', bi; try done; destruct (bytes_equal _ _)].
    intros _. apply bool_decide_eq_true in E. by injection E as -> -> -> -> ->.
  - intros (-> & -> & -> & -> & ->). by rewrite bool_decide_eq_true_2.
Qed.
Lemma same_proposal fs p fs' p' rest rest' : proposal_reads fs p -> proposal_reads fs' p' ->
  Z.of_nat (length (enc fs)) < 2 ^ 63 - 1 -> Z.of_nat (length (enc fs')) < 2 ^ 63 - 1 ->
  (check_proposal_ts (delimited (enc fs) ++ rest) (delimited (enc fs') ++ rest') = None <->
   cp_type p = cp_type p' /\ cp_height p = cp_height p' /\ cp_round p = cp_round p' /\ cp_pol p = cp_pol p' /\ cp_bid p = cp_bid p' /\
   cp_chain p = cp_chain p').
Proof.
  intros H H' Hl Hl'. unfold check_proposal_ts. rewrite (prop_any fs p), (prop_any fs' p') by done.
  destruct p as [ty he ro po bi ts ch], p' as [ty' he' ro' po' bi' ts' ch']. unfold set_proposal_ts. cbn [cp_type cp_height cp_round cp_pol cp_bid cp_ts cp_chain].
  split.
  - destruct (bool_decide _) eqn:E; [|done].
    intros _. apply bool_decide_eq_true in E. by injection E as -> -> -> -> -> ->.
  - intros (-> & -> & -> & -> & -> & ->). by rewrite bool_decide_eq_true_2.
Qed.

(** ** Requests of a chain node *)
Definition upd_pvote (m : pvote) (f : field) : pvote :=
  match m, f with
  | PVote (Vote ty he ro bi ts) ad ix sg, (1, FInt v) => PVote (Vote (wrap32 v) he ro bi ts) ad ix sg
  | PVote (Vote ty he ro bi ts) ad ix sg, (2, FInt v) => PVote (Vote ty (wrap64 v) ro bi ts) ad ix sg
  | PVote (Vote ty he ro bi ts) ad ix sg, (3, FInt v) => PVote (Vote ty he (wrap32 v) bi ts) ad ix sg
  | PVote (Vote ty he ro bi ts) ad ix sg, (4, FBytes p) => PVote (Vote ty he ro (default bi (unmarshal h_bid bi p)) ts) ad ix sg
  | PVote (Vote ty he ro bi ts) ad ix sg, (5, FBytes p) => PVote (Vote ty he ro bi (default ts (um_timestamp p))) ad ix sg
  | PVote (Vote ty he ro bi ts) ad ix sg, (6, FBytes p) => PVote (Vote ty he ro bi ts) p ix sg
  | PVote (Vote ty he ro bi ts) ad ix sg, (7, FInt v) => PVote (Vote ty he ro bi ts) ad (wrap32 v) sg
  | PVote (Vote ty he ro bi ts) ad ix sg, (8, FBytes p) => PVote (Vote ty he ro bi ts) ad ix p
  | m, _ => m
  end.
Definition upd_pprop (m : pprop) (f : field) : pprop :=
  match m, f with
  | PProp ty (Proposal he ro po bi ts) sg, (1, FInt v) => PProp (wrap32 v) (Proposal he ro po bi ts) sg
  | PProp ty (Proposal he ro po bi ts) sg, (2, FInt v) => PProp ty (Proposal (wrap64 v) ro po bi ts) sg
  | PProp ty (Proposal he ro po bi ts) sg, (3, FInt v) => PProp ty (Proposal he (wrap32 v) po bi ts) sg
  | PProp ty (Proposal he ro po bi ts) sg, (4, FInt v) => PProp ty (Proposal he ro (wrap32 v) bi ts) sg
  | PProp ty (Proposal he ro po bi ts) sg, (5, FBytes p) => PProp ty (Proposal he ro po (default bi (unmarshal h_bid bi p)) ts) sg
  | PProp ty (Proposal he ro po bi ts) sg, (6, FBytes p) => PProp ty (Proposal he ro po bi (default ts (um_timestamp p))) sg
  | PProp ty (Proposal he ro po bi ts) sg, (7, FBytes p) => PProp ty (Proposal he ro po bi ts) p
  | m, _ => m
  end.
Lemma pvote_folded fs : foldl upd_pvote empty_pvote fs =
  PVote (Vote (wrap32 (last_int 1 fs)) (wrap64 (last_int 2 fs)) (wrap32 (last_int 3 fs))
    (pieces h_bid empty_bid (byte_vals 4 fs)) (time_of (byte_vals 5 fs))) (last_bytes 6 fs) (wrap32 (last_int 7 fs)) (last_bytes 8 fs).
Proof.
  induction fs as [|[n v] fs IH] using rev_ind; [reflexivity|]. rewrite foldl_app. cbn [foldl].
  rewrite IH, !last_int_snoc, !last_bytes_snoc, !time_of_snoc, !sbid_of_snoc.
  destruct v as [v|v|b|v]; nums n; try reflexivity; other n.
Qed.
Lemma pprop_folded fs : foldl upd_pprop empty_pprop fs =
  PProp (wrap32 (last_int 1 fs)) (Proposal (wrap64 (last_int 2 fs)) (wrap32 (last_int 3 fs)) (wrap32 (last_int 4 fs))
    (pieces h_bid empty_bid (byte_vals 5 fs)) (time_of (byte_vals 6 fs))) (last_bytes 7 fs).
Proof.
  induction fs as [|[n v] fs IH] using rev_ind; [reflexivity|]. rewrite foldl_app. cbn [foldl].
  rewrite IH, !last_int_snoc, !last_bytes_snoc, !time_of_snoc, !sbid_of_snoc.
  destruct v as [v|v|b|v]; nums n; try reflexivity; other n.
Qed.
Lemma um_pvote fs m : Forall field_ok fs -> typed pvote_decl fs -> Forall good_bid (byte_vals 4 fs) -> Forall good_time (byte_vals 5 fs) ->
  unmarshal h_pvote m (enc fs) = Some (foldl upd_pvote m fs).
Proof.
  intros H Ht Hg Hg'. apply um_fields; [apply consuming_pvote|done|]. intros [n v] [[ty he ro bi ts] ad ix sg] Hin Hok. cbn [fst snd].
  specialize (Ht (n, v)). cbn [fst snd] in Ht. assert (Ht' : forall w, (n, w) ∈ pvote_decl -> wire_type v = w) by eauto. clear Ht.
  assert (Hs : forall b, n = 4 -> v = FBytes b -> good_bid b).
  { intros b -> ->. rewrite list.Forall_forall in Hg. apply Hg. by apply in_vals. }
  assert (Hs' : forall b, n = 5 -> v = FBytes b -> good_time b).
  { intros b -> ->. rewrite list.Forall_forall in Hg'. apply Hg'. by apply in_vals. }
  clear Hg Hg' Hin H.
  nums n; unfold h_pvote, pvote_decl in *;
   try (settled Ht' Hok v; left; solve_handler Hok; cbn [upd_pvote];
        try (destruct (Hs b eq_refl eq_refl bi) as [x ->]);
        try (destruct (Hs' b eq_refl eq_refl) as [x ->]); reflexivity);
   right; (split; [intros r|]); unfold upd_pvote; try reflexivity; other n.
Qed.
Lemma um_pprop fs m : Forall field_ok fs -> typed pprop_decl fs -> Forall good_bid (byte_vals 5 fs) -> Forall good_time (byte_vals 6 fs) ->
  unmarshal h_pprop m (enc fs) = Some (foldl upd_pprop m fs).
Proof.
  intros H Ht Hg Hg'. apply um_fields; [apply consuming_pprop|done|]. intros [n v] [ty [he ro po bi ts] sg] Hin Hok. cbn [fst snd].
  specialize (Ht (n, v)). cbn [fst snd] in Ht. assert (Ht' : forall w, (n, w) ∈ pprop_decl -> wire_type v = w) by eauto. clear Ht.
  assert (Hs : forall b, n = 5 -> v = FBytes b -> good_bid b).
  { intros b -> ->. rewrite list.Forall_forall in Hg. apply Hg. by apply in_vals. }
  assert (Hs' : forall b, n = 6 -> v = FBytes b -> good_time b).
  { intros b -> ->. rewrite list.Forall_forall in Hg'. apply Hg'. by apply in_vals. }
  clear Hg Hg' Hin H.
  nums n; unfold h_pprop, pprop_decl in *;
   try (settled Ht' Hok v; left; solve_handler Hok; cbn [upd_pprop];
        try (destruct (Hs b eq_refl eq_refl bi) as [x ->]);
        try (destruct (Hs' b eq_refl eq_refl) as [x ->]); reflexivity);
   right; (split; [intros r|]); unfold upd_pprop; try reflexivity; other n.
Qed.
Lemma pvote_any fs v : pvote_reads fs v -> unmarshal h_pvote empty_pvote (enc fs) = Some v.
Proof.
  intros (Hok & Ht & bs & hs & ts & Hb & Hti & ->). rewrite um_pvote; [|done|done|by eapply bids_good|by eapply times_good].
  by rewrite pvote_folded, (proj2 (bids_read _ _ _ _ Hb)), (times_read _ _ _ Hti).
Qed.
Lemma pprop_any fs p : pprop_reads fs p -> unmarshal h_pprop empty_pprop (enc fs) = Some p.
Proof.
  intros (Hok & Ht & bs & hs & ts & Hb & Hti & ->). rewrite um_pprop; [|done|done|by eapply bids_good|by eapply times_good].
  by rewrite pprop_folded, (proj2 (bids_read _ _ _ _ Hb)), (times_read _ _ _ Hti).
Qed.

Lemma vals_sub n p ms : p ∈ ms -> forall b, b ∈ byte_vals n p -> b ∈ byte_vals n (concat ms).
Proof. intros Hp b Hb. apply in_vals. apply elem_concat. exists p. split; [by apply vals_in|done]. Qed.
Lemma typed_sub d p ms : p ∈ ms -> typed d (concat ms) -> typed d p.
Proof. intros Hp H f w Hf. apply H. apply elem_concat. eauto. Qed.
Lemma pvote_piece ms v p : pvote_reads (concat ms) v -> p ∈ ms -> Forall field_ok p -> forall m, exists x, unmarshal h_pvote m (enc p) = Some x.
Proof.
  intros (_ & Ht & bs & hs & ts & Hb & Hti & _) Hp Hok m. apply bids_good in Hb. apply times_good in Hti.
  rewrite list.Forall_forall in Hb, Hti. eexists. apply um_pvote; [done|by eapply typed_sub| |].
  - apply list.Forall_forall. intros b Hb'. apply Hb. by eapply vals_sub.
  - apply list.Forall_forall. intros b Hb'. apply Hti. by eapply vals_sub.
Qed.
Lemma pprop_piece ms v p : pprop_reads (concat ms) v -> p ∈ ms -> Forall field_ok p -> forall m, exists x, unmarshal h_pprop m (enc p) = Some x.
Proof.
  intros (_ & Ht & bs & hs & ts & Hb & Hti & _) Hp Hok m. apply bids_good in Hb. apply times_good in Hti.
  rewrite list.Forall_forall in Hb, Hti. eexists. apply um_pprop; [done|by eapply typed_sub| |].
  - apply list.Forall_forall. intros b Hb'. apply Hb. by eapply vals_sub.
  - apply list.Forall_forall. intros b Hb'. apply Hti. by eapply vals_sub.
Qed.

Section Request.
  Context {A : Type} (h : Z -> Z -> A -> bytes -> field_result A) (z : A) (reads : list field -> A -> Prop).
  Context (Hc : consuming h) (Hu : uniform h) (Hr : forall fs x, reads fs x -> unmarshal h z (enc fs) = Some x).
  Context (Hp : forall ms x p, reads (concat ms) x -> p ∈ ms -> Forall field_ok p -> forall m, exists y, unmarshal h m (enc p) = Some y).
  Definition upd_req (m : option A * bytes) (f : field) : option A * bytes :=
    match f with
    | (1, FBytes p) => (match unmarshal h (default z (fst m)) p with Some x => Some x | None => fst m end, snd m)
    | (2, FBytes p) => (fst m, p)
    | _ => m
    end.
  Lemma req_folded fs : foldl upd_req (None, []) fs = (opt_pieces h z None (byte_vals 1 fs), last_bytes 2 fs).
  Proof.
    induction fs as [|[n v] fs IH] using rev_ind; [reflexivity|]. rewrite foldl_app. cbn [foldl].
    rewrite IH, !last_bytes_snoc, vals_snoc, opt_pieces_app. destruct v as [v|v|b|v]; nums n; try reflexivity; other n.
  Qed.
  Lemma req_any fs m chain : request_reads reads fs m chain -> unmarshal (h_req h z) (None, []) (enc fs) = Some (m, chain).
  Proof.
    intros (Hok & Ht & ms & [Hv Hoks] & -> & Hm).
    assert (Hg : forall b, b ∈ byte_vals 1 fs -> forall m, exists y, unmarshal h m b = Some y).
    { intros b Hb. rewrite Hv in Hb. apply elem_of_list_fmap in Hb as (p & -> & Hb). destruct m as [x|]; [|by rewrite Hm in Hb; apply elem_of_nil in Hb].
      destruct Hm as [_ Hm]. eapply Hp; [done|done|]. rewrite list.Forall_forall in Hoks. by apply Hoks. }
    rewrite (um_fields _ (consuming_req h z) upd_req); [|done|].
    - rewrite req_folded, Hv. do 2 f_equal. destruct m as [x|].
      + destruct Hm as [Hn Hm]. rewrite (opt_pieces_enc h z ms None x); [by destruct ms|done|done|done|]. by apply Hr.
      + by rewrite Hm.
    - intros [n v] m' Hin Hk. cbn [fst snd].
      specialize (Ht (n, v)). cbn [fst snd] in Ht. assert (Ht' : forall w, (n, w) ∈ request_decl -> wire_type v = w) by eauto. clear Ht.
      assert (Hs : forall b, n = 1 -> v = FBytes b -> forall m, exists y, unmarshal h m b = Some y).
      { intros b -> ->. apply Hg. by apply in_vals. }
      clear Hg Hin.
      nums n; unfold h_req, request_decl in *;
       try (settled Ht' Hk v; left; solve_handler Hk; cbn [upd_req];
            try (destruct (Hs b eq_refl eq_refl (default z (fst m'))) as [x ->]); reflexivity);
       right; (split; [intros r|]); unfold upd_req; try reflexivity; other n.
  Qed.
End Request.

Lemma foreign_skip fs m : foreign fs -> unmarshal h_message m (enc fs) = Some m.
Proof.
  intros H. rewrite (um_fields _ consuming_message (fun m _ => m)).
  - f_equal. clear. induction fs; [done|]. done.
  - eapply list.Forall_impl; [exact H|]. by intros f [Hf _].
  - intros [n v] m' Hin Hk. right. split; [|done]. intros r. cbn [fst snd].
    unfold foreign in H. rewrite list.Forall_forall in H. apply H in Hin as [_ Hn]. cbn [fst] in Hn.
    unfold h_message. destruct n as [|[[[[p|p|]|[p|p|]|]|[[p|p|]|[p|p|]|]|]|[[[p|p|]|[p|p|]|]|[[p|p|]|[p|p|]|]|]|]|p]; first [exfalso; lia|reflexivity].
Qed.
Lemma foreign_ok fs : foreign fs -> Forall field_ok fs.
Proof. intros H. eapply list.Forall_impl; [exact H|]. by intros f [Hf _]. Qed.
(** one member between foreign fields *)
Lemma message_any n sub m pre post rest : foreign pre -> foreign post -> field_ok (n, FBytes sub) ->
  Z.of_nat (length (enc (pre ++ (n, FBytes sub) :: post))) <= 10240 ->
  (forall r, h_message n 2 MsgNone (payload (FBytes sub) ++ r) = FOk m r) ->
  read_msg (delimited (enc (pre ++ (n, FBytes sub) :: post)) ++ rest) = Some (m, rest).
Proof.
  intros Hpre Hpost Hf Hl Hh. unfold read_msg, max_msg_size. change (1024 * 10) with 10240.
  rewrite read_delimited_delimited; [|done|change (2 ^ 63 - 1) with 9223372036854775807; lia].
  rewrite enc_app, (um_app _ consuming_message uniform_message) by (by apply foreign_ok). rewrite foreign_skip by done.
  change (enc ((n, FBytes sub) :: post)) with (enc_field (n, FBytes sub) ++ enc post).
  rewrite (um_field _ consuming_message (n, FBytes sub) MsgNone m); [|done|by left]. by rewrite foreign_skip.
Qed.
Lemma sub_ok n sub pre post : 1 <= n <= 8 -> Z.of_nat (length (enc (pre ++ (n, FBytes sub) :: post))) <= 10240 -> field_ok (n, FBytes sub).
Proof.
  intros Hn Hl. split; cbn [fst snd]; [change (2 ^ 29) with 536870912; lia|]. rewrite enc_app in Hl.
  change (enc ((n, FBytes sub) :: post)) with (enc_field (n, FBytes sub) ++ enc post) in Hl. unfold enc_field in Hl. cbn [snd payload] in Hl.
  rewrite !app_length in Hl. change (2 ^ 63) with 9223372036854775808. lia.
Qed.
Lemma vote_request fs v chain pre post rest : request_reads pvote_reads fs v chain -> foreign pre -> foreign post ->
  Z.of_nat (length (enc (pre ++ (3, FBytes (enc fs)) :: post))) <= 10240 ->
  read_msg (delimited (enc (pre ++ (3, FBytes (enc fs)) :: post)) ++ rest) = Some (SignVoteRequest v chain, rest).
Proof.
  intros H Hpre Hpost Hl. pose proof (sub_ok 3 _ _ _ ltac:(lia) Hl) as Hs. apply message_any; try done. intros r.
  unfold h_message. rewrite ob_ok by apply Hs.
  rewrite (req_any h_pvote empty_pvote pvote_reads consuming_pvote uniform_pvote pvote_any pvote_piece fs v chain H). done.
Qed.
Lemma prop_request fs v chain pre post rest : request_reads pprop_reads fs v chain -> foreign pre -> foreign post ->
  Z.of_nat (length (enc (pre ++ (5, FBytes (enc fs)) :: post))) <= 10240 ->
  read_msg (delimited (enc (pre ++ (5, FBytes (enc fs)) :: post)) ++ rest) = Some (SignProposalRequest v chain, rest).
Proof.
  intros H Hpre Hpost Hl. pose proof (sub_ok 5 _ _ _ ltac:(lia) Hl) as Hs. apply message_any; try done. intros r.
  unfold h_message. rewrite ob_ok by apply Hs.
  rewrite (req_any h_pprop empty_pprop pprop_reads consuming_pprop uniform_pprop pprop_any pprop_piece fs v chain H). done.
Qed.
Definition upd_pk (m : bytes) (f : field) : bytes := match f with (1, FBytes p) => p | _ => m end.
Lemma key_request fs pre post rest : Forall field_ok fs -> typed [(1, 2)] fs -> foreign pre -> foreign post ->
  Z.of_nat (length (enc (pre ++ (1, FBytes (enc fs)) :: post))) <= 10240 ->
  read_msg (delimited (enc (pre ++ (1, FBytes (enc fs)) :: post)) ++ rest) = Some (PubKeyRequest (last_bytes 1 fs), rest).
Proof.
  intros H Ht Hpre Hpost Hl. pose proof (sub_ok 1 _ _ _ ltac:(lia) Hl) as Hs. apply message_any; try done. intros r.
  unfold h_message. rewrite ob_ok by apply Hs. rewrite (um_fields _ consuming_pk_req upd_pk); [|done|].
  - do 2 f_equal. clear. induction fs as [|[n v] fs IH] using rev_ind; [reflexivity|]. rewrite foldl_app. cbn [foldl].
    rewrite last_bytes_snoc, IH. destruct v as [v|v|b|v]; nums n; try reflexivity; other n.
  - clear r. intros [n v] m' Hin Hok. cbn [fst snd].
    specialize (Ht (n, v)). cbn [fst snd] in Ht. assert (Ht' : forall w, (n, w) ∈ [(1, 2)] -> wire_type v = w) by eauto. clear Ht.
    nums n; unfold h_pk_req in *;
     try (settled Ht' Hok v; left; solve_handler Hok; reflexivity);
     right; (split; [intros r|]); unfold upd_pk; try reflexivity; other n.
Qed.
Lemma ping_request fs pre post rest : Forall field_ok fs -> foreign pre -> foreign post ->
  Z.of_nat (length (enc (pre ++ (7, FBytes (enc fs)) :: post))) <= 10240 ->
  read_msg (delimited (enc (pre ++ (7, FBytes (enc fs)) :: post)) ++ rest) = Some (PingRequest, rest).
Proof.
  intros H Hpre Hpost Hl. pose proof (sub_ok 7 _ _ _ ltac:(lia) Hl) as Hs. apply message_any; try done. intros r.
  unfold h_message. rewrite ob_ok by apply Hs. rewrite (um_fields (M := unit) h_empty ltac:(intros ???????; discriminate) (fun m _ => m)); [done|done|].
  intros f m Hf Hok. by right.
Qed.

(** for the examples *)
Lemma fields_ok_dec l : forallb (fun f : field => (1 <=? fst f) && (fst f <? 2 ^ 29) && match snd f with
    | FInt v | FFixed64 v => (0 <=? v) && (v <? 2 ^ 64) | FBytes b => Z.of_nat (length b) <? 2 ^ 63 | FFixed32 v => (0 <=? v) && (v <? 2 ^ 32) end) l = true ->
  Forall field_ok l.
Proof.
  intros H. apply list.Forall_forall. intros f Hf. rewrite forallb_forall in H. apply elem_of_list_In in Hf. apply H in Hf.
  unfold field_ok. destruct f as [n [v|v|b|v]]; cbn [fst snd] in *; lia.
Qed.
Lemma typed_dec d fs : forallb (fun f : field => forallb (fun '(n, w) => negb (n =? fst f) || (wire_type (snd f) =? w)) d) fs = true -> typed d fs.
Proof.
  intros H f w Hf Hd. rewrite forallb_forall in H. apply elem_of_list_In in Hf. apply H in Hf. rewrite forallb_forall in Hf.
  apply elem_of_list_In in Hd. apply Hf in Hd. lia.
Qed.

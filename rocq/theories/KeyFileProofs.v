(** Key files: proofs. *)
From Coq Require Import Strings.String.
From Verif Require Import GoBase Wire Canonical Json JsonProofs Utf8 DiskProofs Raft Privval PrivvalProofs KeyFile KeyFileSpec.
Local Open Scope Z_scope.

(** ** Texts of unbounded nesting or length need fuel *)

(** the text [v] is read as [j], given fuel *)
Definition renders_f (v : bytes) (j : json) : Prop :=
  forall n rest, stop rest -> (length v <= n)%nat -> parse_value (S n) (v ++ rest) = Some (j, rest).
Definition member_f (m : bytes * bytes) (j : bytes * json) : Prop :=
  fst m = fst j /\ scannable (fst m) /\ renders_f (snd m) (snd j).

Lemma renders_fuel v j : renders v j -> renders_f v j.
Proof. intros H n rest Hs _. by apply H. Qed.

Lemma parse_members_f ms js n rest :
  ms <> [] -> Forall2 member_f ms js -> (length (members_compact ms) <= n)%nat ->
  parse_members (S n) (members_compact ms ++ "}"%byte :: rest) = Some (js, rest).
Proof.
  revert js n. induction ms as [|[k v] ms IH]; intros js n Hne Hok Hn; [done|].
  inversion Hok as [|? [k' j] ? js' (Hk & Hsafe & Hr) Hok']; subst; clear Hok.
  simpl in Hk, Hsafe, Hr. subst k'.
  destruct ms as [|[k2 v2] ms].
  - inversion Hok'; subst. cbn [members_compact] in *. unfold quote in *.
    rewrite !app_length in Hn. cbn [length] in Hn. rewrite app_length in Hn.
    cbn [app]. rewrite <- !app_assoc. cbn [app].
    destruct n as [|n]; [cbn in Hn; lia|].
    eapply pm_last; [apply Hsafe|apply Hr; [exact I|cbn in Hn; lia]|]. reflexivity.
  - set (tl := members_compact ((k2, v2) :: ms)) in *.
    change (members_compact ((k, v) :: (k2, v2) :: ms)) with
      (quote k ++ [":"%byte] ++ v ++ [","%byte] ++ tl) in *.
    assert (Hl : (length v + length tl + 2 <= n)%nat).
    { clear -Hn. revert Hn. unfold quote. rewrite !app_length. cbn [length]. lia. }
    unfold quote in *.
    cbn [app]. rewrite <- !app_assoc. cbn [app]. rewrite <- !app_assoc. cbn [app].
    destruct n as [|n]; [lia|].
    eapply pm_more; [apply Hsafe|apply Hr; [exact I|lia]|reflexivity|].
    apply IH; [done|done|lia].
Qed.

Lemma parse_object_f ms js :
  ms <> [] -> Forall2 member_f ms js -> parse_json (object_compact ms) = Some (JObj js).
Proof.
  intros Hne Hok. unfold parse_json, object_compact. cbn [app length].
  assert (E : exists l, members_compact ms = x22 :: l).
  { destruct ms as [|[k v] ms]; [done|].
    destruct ms as [|[k2 v2] ms]; cbn [members_compact]; eexists; reflexivity. }
  destruct E as [l E].
  rewrite (pv_object _ _ js []); [reflexivity|..].
  - rewrite app_length. cbn [length]. rewrite Nat.add_1_r. apply parse_members_f; [done|done|lia].
  - rewrite E. eexists. reflexivity.
  - intros n. rewrite E. reflexivity.
  - rewrite app_length. cbn. lia.
Qed.

(** a quoted text is read whatever follows *)
Lemma quote_any s n rest : safe s -> parse_value (S n) (quote s ++ rest) = Some (JStr s, rest).
Proof.
  intros H. unfold quote. simpl app. rewrite <- app_assoc. simpl app.
  cbn [parse_value skip_ws]. unfold value_body. rewrite scan_safe by done. reflexivity.
Qed.

Lemma pe_last n l v l1 l2 : parse_value n l = Some (v, l1) -> skip_ws l1 = "]"%byte :: l2 ->
  parse_elements (S n) l = Some ([v], l2).
Proof. intros E1 E2. cbn [parse_elements]. by rewrite E1, E2. Qed.
Lemma pe_more n l v l1 l2 m l3 : parse_value n l = Some (v, l1) -> skip_ws l1 = ","%byte :: l2 ->
  parse_elements n l2 = Some (m, l3) -> parse_elements (S n) l = Some (v :: m, l3).
Proof. intros E1 E2 E3. cbn [parse_elements]. by rewrite E1, E2, E3. Qed.
Lemma parse_elements_quoted (ss : list bytes) n rest :
  ss <> [] -> Forall safe ss -> (length (elements_compact (map quote ss)) <= n)%nat ->
  parse_elements (S n) (elements_compact (map quote ss) ++ "]"%byte :: rest) = Some (map JStr ss, rest).
Proof.
  revert n. induction ss as [|s ss IH]; intros n Hne Hs Hn; [done|].
  inversion Hs as [|? ? Hs1 Hs2]; subst.
  destruct ss as [|s2 ss].
  - cbn [map elements_compact] in *. destruct n as [|n]; [unfold quote in Hn; cbn in Hn; lia|].
    eapply pe_last; [by apply quote_any|reflexivity].
  - change (elements_compact (map quote (s :: s2 :: ss)))
      with (quote s ++ [","%byte] ++ elements_compact (map quote (s2 :: ss))) in *.
    rewrite !app_length in Hn. unfold quote at 1 in Hn. cbn [length] in Hn.
    destruct n as [|n]; [lia|]. rewrite <- !app_assoc.
    eapply pe_more; [by apply quote_any|reflexivity|]. apply IH; [done|done|lia].
Qed.

Lemma renders_array ss : Forall safe ss -> renders_f (array_text (map quote ss)) (JArr (map JStr ss)).
Proof.
  intros Hs n rest _ Hn. unfold array_text in *. rewrite !app_length in Hn. cbn [length] in Hn.
  rewrite <- !app_assoc. cbn [app parse_value skip_ws]. unfold value_body.
  destruct ss as [|s ss]; [reflexivity|].
  assert (E : exists l, elements_compact (map quote (s :: ss)) = x22 :: l).
  { destruct ss; cbn [map elements_compact]; eexists; reflexivity. }
  destruct n as [|n]; [lia|].
  pose proof (parse_elements_quoted (s :: ss) n rest ltac:(done) Hs) as P.
  feed specialize P; [lia|].
  destruct E as [l E]. rewrite E in *. cbn [app skip_ws] in *. rewrite P. reflexivity.
Qed.

(** ** Reading what was written *)

Lemma slices_b64 l : slices_of_json (map (fun b => JStr (b64_enc b)) l) = Some (map Some l).
Proof.
  induction l as [|b l IH]; [done|]. cbn [map slices_of_json bytes_of_json].
  rewrite unescape_safe, no_breaks_safe, b64_roundtrip, IH by apply b64_safe. done.
Qed.

Lemma decode_written (rsa pub : bytes) rsas share id : in_int64 id ->
  exists m, parse_json (object_compact (key_members rsa pub rsas share id)) = Some (JObj m) /\
    decode_members key_member (KAux None None [] None 0) m
      = Some (KAux (Some rsa) (Some pub) (map Some rsas) share id).
Proof.
  intros Hid.
  destruct (renders_b64 share) as (js & Hjs & Ejs).
  exists [(lit "rsa_key", JStr (b64_enc rsa)); (lit "pub_key", JStr (b64_enc pub));
          (lit "rsa_pubs", JArr (map JStr (map b64_enc rsas))); (lit "secret_share", js);
          (lit "id", JNum (print_int id))].
  split.
  - apply parse_object_f; [done|].
    assert (Hq : forall b, renders (b64_text (Some b)) (JStr (b64_enc b)))
      by (intros b; apply renders_quote, b64_safe).
    repeat apply List.Forall2_cons; try apply List.Forall2_nil;
      (split; [done|split; [apply scannable_safe, safe_lit; reflexivity|]]); cbn [fst snd].
    + apply renders_fuel, Hq.
    + apply renders_fuel, Hq.
    + assert (E : map (fun b => b64_text (Some b)) rsas = map quote (map b64_enc rsas))
        by (rewrite map_map; reflexivity).
      rewrite E. apply renders_array.
      apply stdpp.list.Forall_forall. intros s Hin. apply elem_of_list_fmap in Hin as (b & -> & _). apply b64_safe.
    + by apply renders_fuel.
    + apply renders_fuel, renders_int.
  - cbn [decode_members].
    assert (Hb : forall b, bytes_of_json (JStr (b64_enc b)) = Some (Some b)).
    { intros b. cbn [bytes_of_json]. rewrite unescape_safe, no_breaks_safe, b64_roundtrip by apply b64_safe. done. }
    assert (K : forall a k j, key_member a k j = key_member a k j) by done.
    Local Ltac field k :=
      match goal with |- context [key_member ?a (lit k) ?j] =>
        let e := fresh in
        assert (e : names (lit k) (lit k) = true) by (vm_compute; reflexivity);
        unfold key_member at 1;
        repeat (match goal with |- context [names ?x (lit k)] =>
          let v := eval vm_compute in (names x (lit k)) in
          replace (names x (lit k)) with v by (vm_compute; reflexivity) end; cbv iota); clear e end.
    field "rsa_key"%string. rewrite Hb.
    field "pub_key"%string. rewrite Hb.
    field "rsa_pubs"%string. cbn [slices_field]. rewrite map_map, slices_b64.
    field "secret_share"%string. rewrite Ejs.
    field "id"%string. cbn [int_field]. rewrite (int_of_print 64); [done|lia|exact Hid].
Qed.

Lemma load_written {SK PK} (L : KeyLib SK PK) rsa pub rsas share id : in_int64 id ->
  load_key L (Some (object_compact (key_members rsa pub rsas share id)))
    = key_of_aux L (KAux (Some rsa) (Some pub) (map Some rsas) share id).
Proof.
  intros Hid. destruct (decode_written rsa pub rsas share id Hid) as (m & E1 & E2).
  cbn [load_key]. unfold unmarshal_key. rewrite E1, E2. done.
Qed.

Lemma parse_pks_at {SK PK} (L : KeyLib SK PK) ps : Forall (fun p => kl_parse_pk L (kl_text_pk L p) = Some p) ps ->
  parse_pks L (map Some (map (kl_text_pk L) ps)) = Some ps.
Proof. induction 1 as [|p ps H _ IH]; [done|]. cbn [map parse_pks slice_of]. rewrite H, IH. done. Qed.
Lemma parse_pks_map {SK PK} (L : KeyLib SK PK) ps : codec L ->
  parse_pks L (map Some (map (kl_text_pk L) ps)) = Some ps.
Proof. intros [_ H]. apply parse_pks_at, list.Forall_forall. auto. Qed.

Lemma pubkey_round_trip {SK PK} (L : KeyLib SK PK) p : pubkey_ok p -> parse_pubkey L (m_pubkey p) = Some p.
Proof.
  intros H. unfold parse_pubkey. rewrite unmarshal_m_pubkey.
  - destruct p as [|b|b]; [done|..]; cbn in *; by rewrite bool_decide_eq_true_2.
  - destruct p as [|b|b]; [done|..]; cbn in H.
    all: cbn [m_pubkey]; unfold e_msg, len_enc; rewrite H; cbn [length]; rewrite app_length, H; vm_compute; reflexivity.
Qed.

(** the codecs need only be inverse to each other at the keys of the file *)
Lemma key_round_trip_at {SK PK} (L : KeyLib SK PK) k : kl_parse_sk L (kl_text_sk L (ck_rsa k)) = Some (ck_rsa k) ->
  Forall (fun p => kl_parse_pk L (kl_text_pk L p) = Some p) (ck_rsas k) -> key_ok k ->
  exists t, marshal_key L k = Some t /\ load_key L (Some t) = Val k.
Proof.
  intros Hsk Hpk [Hp Hid]. destruct k as [p share sk id ps]. cbn in Hp, Hid, Hsk, Hpk.
  exists (object_compact (key_members (kl_text_sk L sk) (m_pubkey p) (map (kl_text_pk L) ps) share id)).
  split; [by destruct p|].
  rewrite load_written by done. unfold key_of_aux. cbn [ka_rsa ka_pub ka_rsas ka_share ka_id slice_of].
  rewrite Hsk, pubkey_round_trip, parse_pks_at by done. done.
Qed.
Lemma key_round_trip {SK PK} (L : KeyLib SK PK) k : codec L -> key_ok k ->
  exists t, marshal_key L k = Some t /\ load_key L (Some t) = Val k.
Proof. intros HL. apply key_round_trip_at; [apply HL|]. apply list.Forall_forall. intros p _. apply HL. Qed.

(** ** Legacy files *)

(** the first byte of an amino key is no protobuf tag *)
Lemma amino_no_proto b : unmarshal h_pubkey PkNone (x16 :: b) = None.
Proof. reflexivity. Qed.

Lemma legacy_key {SK PK} (L : KeyLib SK PK) k b e : codec L -> in_int64 (ck_id k) ->
  kl_amino L (x16 :: b) = Some e ->
  load_key L (Some (object_compact (key_members (kl_text_sk L (ck_rsa k)) (x16 :: b)
                       (map (kl_text_pk L) (ck_rsas k)) (ck_share k) (ck_id k))))
    = Val (CKey (PkEd25519 e) (ck_share k) (ck_rsa k) (ck_id k) (ck_rsas k)).
Proof.
  intros HL Hid Ha. rewrite load_written by done. unfold key_of_aux.
  cbn [ka_rsa ka_pub ka_rsas ka_share ka_id slice_of]. rewrite (proj1 HL).
  unfold parse_pubkey. rewrite amino_no_proto, Ha, parse_pks_map by done. done.
Qed.

(** ** Any order of the members *)

Lemma key_member_swap a x y :
  unambiguous [x; y] ->
  decode_members key_member a [x; y] = decode_members key_member a [y; x].
Proof.
  intros H. destruct x as [k1 j1], y as [k2 j2].
  assert (D : forall f, f ∈ key_names -> names f k1 = true -> names f k2 = true -> False).
  { intros f Hf H1 H2. specialize (H f Hf). rewrite !filter_cons_True in H by done. cbn in H. lia. }
  clear H.
  assert (D1 := D (lit "rsa_key") ltac:(repeat first [apply elem_of_list_here|apply elem_of_list_further])).
  assert (D2 := D (lit "pub_key") ltac:(repeat first [apply elem_of_list_here|apply elem_of_list_further])).
  assert (D3 := D (lit "rsa_pubs") ltac:(repeat first [apply elem_of_list_here|apply elem_of_list_further])).
  assert (D4 := D (lit "secret_share") ltac:(repeat first [apply elem_of_list_here|apply elem_of_list_further])).
  assert (D5 := D (lit "id") ltac:(repeat first [apply elem_of_list_here|apply elem_of_list_further])).
  clear D. cbn [decode_members]. unfold key_member.
  destruct (names (lit "rsa_key") k1), (names (lit "rsa_key") k2); try (exfalso; by apply D1); clear D1.
  all: try destruct (names (lit "pub_key") k1); try destruct (names (lit "pub_key") k2); try (exfalso; by apply D2); clear D2.
  all: try destruct (names (lit "rsa_pubs") k1); try destruct (names (lit "rsa_pubs") k2); try (exfalso; by apply D3); clear D3.
  all: try destruct (names (lit "secret_share") k1); try destruct (names (lit "secret_share") k2); try (exfalso; by apply D4); clear D4.
  all: try destruct (names (lit "id") k1); try destruct (names (lit "id") k2); try (exfalso; by apply D5); clear D5.
  all: cbn [ka_rsa ka_pub ka_rsas ka_share ka_id].
  all: repeat (match goal with |- context [match ?e with Some _ => _ | None => _ end] =>
         match e with bytes_of_json _ => destruct e | slices_field _ => destruct e end end;
         cbn [ka_rsa ka_pub ka_rsas ka_share ka_id]);
       try (match goal with |- context [int_field ?b ?o ?j] => destruct (int_field b o j) end);
       reflexivity.
Qed.

Lemma decode_members_app {A} (step : A -> bytes -> json -> option A) m1 m2 a :
  decode_members step a (m1 ++ m2) =
  match decode_members step a m1 with Some a' => decode_members step a' m2 | None => None end.
Proof.
  revert a. induction m1 as [|[k j] m1 IH]; intros a; [done|]. cbn. destruct (step a k j); [apply IH|done].
Qed.

Lemma unambiguous_cons x m : unambiguous (x :: m) -> unambiguous m.
Proof.
  intros H f Hf. specialize (H f Hf). rewrite filter_cons in H. destruct (decide _); cbn in H; lia.
Qed.
Lemma unambiguous_perm m1 m2 : m1 ≡ₚ m2 -> unambiguous m1 -> unambiguous m2.
Proof.
  intros P H f Hf. specialize (H f Hf). by rewrite <- P.
Qed.

Lemma decode_perm m1 m2 : m1 ≡ₚ m2 -> unambiguous m1 ->
  forall a, decode_members key_member a m1 = decode_members key_member a m2.
Proof.
  induction 1 as [|[k j] m1 m2 P IH|x y m|m1 m2 m3 P1 IH1 P2 IH2]; intros H a.
  - done.
  - cbn. destruct (key_member a k j); [|done]. apply IH. by eapply unambiguous_cons.
  - change (y :: x :: m) with ([y; x] ++ m). change (x :: y :: m) with ([x; y] ++ m).
    rewrite !decode_members_app. rewrite key_member_swap; [done|].
    intros f Hf. specialize (H f Hf). change (y :: x :: m) with ([y; x] ++ m) in H.
    rewrite list.filter_app, app_length in H. lia.
  - rewrite IH1 by done. apply IH2. by eapply unambiguous_perm.
Qed.

Lemma load_perm {SK PK} (L : KeyLib SK PK) t1 t2 m1 m2 :
  parse_json t1 = Some (JObj m1) -> parse_json t2 = Some (JObj m2) -> m1 ≡ₚ m2 -> unambiguous m1 ->
  load_key L (Some t1) = load_key L (Some t2).
Proof.
  intros E1 E2 P H. cbn. unfold unmarshal_key. rewrite E1, E2, (decode_perm m1 m2) by done. done.
Qed.

(** ** What a loaded key is *)

Lemma key_member_id a k j a' : in_int64 (ka_id a) -> key_member a k j = Some a' -> in_int64 (ka_id a').
Proof.
  intros H. unfold key_member. intros E.
  repeat (match type of E with context [if ?b then _ else _] => destruct b end);
    try (match type of E with context [match ?e with Some _ => _ | None => _ end] => destruct e eqn:Ee end;
         [|discriminate]); injection E as <-; try done.
  cbn. destruct j; cbn in Ee; try discriminate.
  - injection Ee as <-. done.
  - apply (int_of_json_range 64 (JNum l) z); [lia|exact Ee].
Qed.

Lemma decode_id a m a' : in_int64 (ka_id a) -> decode_members key_member a m = Some a' -> in_int64 (ka_id a').
Proof.
  revert a. induction m as [|[k j] m IH]; intros a H E; cbn in E; [by injection E as <-|].
  destruct (key_member a k j) eqn:Ek; [|done]. eapply IH; [|exact E]. by eapply key_member_id.
Qed.

Lemma load_range {SK PK} (L : KeyLib SK PK) f k : load_key L f = Val k ->
  in_int64 (ck_id k) /\ (pubkey_ok (ck_pub k) \/ exists b e, ck_pub k = PkEd25519 e /\ kl_amino L b = Some e) /\
  (exists b, kl_parse_sk L b = Some (ck_rsa k)) /\
  Forall (fun p => exists b, kl_parse_pk L b = Some p) (ck_rsas k).
Proof.
  destruct f as [t|]; [|done]. cbn. unfold unmarshal_key.
  destruct (parse_json t) as [[| | | | |m]|]; try done.
  destruct (decode_members _ _ m) as [a|] eqn:Ea; [|done].
  assert (Hid : in_int64 (ka_id a)) by (eapply decode_id; [|exact Ea]; vm_compute; split; congruence).
  unfold key_of_aux. destruct (kl_parse_sk L _) as [sk|] eqn:Esk; [|done].
  destruct (parse_pubkey L _) as [p|] eqn:Ep; [|done].
  destruct (parse_pks L _) as [ps|] eqn:Eps; [|done].
  injection 1 as <-. cbn. split; [done|]. split; [|split; [by eexists|]].
  - unfold parse_pubkey in Ep. destruct (unmarshal _ _ _) as [q|].
    + left. destruct q as [|b|b]; cbn in Ep; try discriminate;
        destruct (bool_decide _) eqn:Eb; try discriminate; injection Ep as <-; cbn; by apply bool_decide_eq_true in Eb.
    + right. destruct (kl_amino L _) as [e|] eqn:Ee; [|done]. injection Ep as <-. eauto.
  - clear -Eps. revert ps Eps. induction (ka_rsas a) as [|b l IH]; cbn; intros ps E; [by injection E as <-|].
    destruct (kl_parse_pk L _) as [q|] eqn:Eq; [|done]. destruct (parse_pks L l) as [qs|]; [|done].
    injection E as <-. constructor; [eauto|by apply IH].
Qed.

Lemma load_panic {SK PK} (L : KeyLib SK PK) f :
  load_key L f = Panic <-> exists t, f = Some t /\ parse_json t = Some JNull.
Proof.
  split.
  - destruct f as [t|]; [|done]. cbn. unfold unmarshal_key.
    destruct (parse_json t) as [[| | | | |m]|] eqn:E; try done; [eauto|].
    destruct (decode_members _ _ m); [|done]. unfold key_of_aux.
    destruct (kl_parse_sk L _); [|done]. destruct (parse_pubkey L _); [|done]. by destruct (parse_pks L _).
  - intros (t & -> & E). cbn. unfold unmarshal_key. by rewrite E.
Qed.

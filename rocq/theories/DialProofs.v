(** Addresses of a configuration: proofs. *)
From Coq Require Import Strings.String.
From Verif Require Import GoBase Canonical SignState Json Url Raft Disk Config ConfigSpec ConfigProofs Startup StartupSpec StartupProofs
  Machine MachineSpec MachineProofs Dial DialSpec UrlProofs.
Local Open Scope Z_scope.

(** ** Characters *)
Lemma over_forall alphabet (P : byte -> bool) s : forallb P alphabet = true -> over alphabet s -> forall c, c ∈ s -> P c = true.
Proof. intros H Ho c Hc. rewrite forallb_forall in H. apply H. apply elem_of_list_In. by apply Ho. Qed.
Lemma over_not alphabet s x : x ∉ alphabet -> over alphabet s -> x ∉ s.
Proof. intros H Ho Hx. by apply H, Ho. Qed.
Ltac not_in := apply (bool_decide_unpack _); vm_compute; reflexivity.

Lemma numerals_digits s : over numerals s <-> all_digits s.
Proof.
  assert (E : forall c, (bool_decide (c ∈ numerals) : bool) = ((48 <=? bz c) && (bz c <? 58))).
  { intros c. apply eqb_prop. revert c. apply byte_all. vm_compute. reflexivity. }
  unfold over, all_digits. rewrite Forall_forall. split; intros H c Hc; specialize (H c).
  - assert (Hi : c ∈ numerals) by (apply H; first [by apply elem_of_list_In | done]).
    specialize (E c). rewrite bool_decide_eq_true_2 in E by done. symmetry in E. apply andb_true_iff in E as [E1 E2].
    apply Z.leb_le in E1. apply Z.ltb_lt in E2. lia.
  - assert (Hi : 48 <= bz c < 58) by (apply H; first [by apply elem_of_list_In | done]).
    specialize (E c). rewrite (proj2 (Z.leb_le _ _)), (proj2 (Z.ltb_lt _ _)) in E by lia. by apply bool_decide_eq_true in E.
Qed.
Lemma tcp_port_some p z : p <> [] -> digits_denote p z -> tcp_port p = if z <=? 65535 then Some z else None.
Proof.
  intros Hp Hz. unfold tcp_port. destruct p as [|b p]; [done|]. apply digits_denote_iff in Hz as [Ha ->].
  apply parse_digits_some in Ha as [d E]. rewrite E. cbv zeta.
  assert (Ez : Z.of_int (Decimal.Pos d) = value_from 0 (b :: p)).
  { cbn [Z.of_int]. unfold Z.of_uint. by rewrite uint_value, (digits_of_parse _ _ E). }
  by rewrite Ez.
Qed.

(** ** URLs of the documentation *)
Lemma get_scheme_rest r rest : over (letters ++ numerals ++ lit "+-.") r ->
  get_scheme false (r ++ ":"%byte :: rest) = Some (Some (r, rest)).
Proof.
  induction r as [|x r IH]; intros H; [done|]. cbn [app get_scheme]. rewrite IH by (intros c Hc; apply H; by right).
  assert (Hx : is_alpha x || (is_num x || has x (lit "+-.")) = true).
  { apply (over_forall _ (fun x => is_alpha x || (is_num x || has x (lit "+-."))) (x :: r)) with (2 := H); [vm_compute; reflexivity|left]. }
  destruct (is_alpha x); [done|]. cbn [orb] in Hx. by rewrite Hx.
Qed.
Lemma get_scheme_ok s rest : scheme_ok s -> get_scheme true (s ++ ":"%byte :: rest) = Some (Some (s, rest)).
Proof.
  intros (c & r & -> & Hc & Hr). cbn [app get_scheme].
  assert (Hx : is_alpha c = true).
  { revert Hc. apply (over_forall letters is_alpha letters); [reflexivity|intros ? ?; done]. }
  rewrite Hx. by rewrite get_scheme_rest.
Qed.
(** what may follow the slashes: no control character, space, '#', '/', '?', '@' *)
Definition auth_char (c : byte) : bool := negb (is_ctl c) && negb (has c (lit "#/?@")).
Lemma url_authority s a : scheme_ok s -> (forall c, c ∈ a -> auth_char c = true) ->
  url_host (s ++ lit "://" ++ a) = parse_host a.
Proof.
  intros Hs Ha.
  assert (Hch : forall c, c ∈ s -> negb (is_ctl c) && negb (has c (lit "#?*:/")) = true).
  { destruct Hs as (c & r & -> & Hc & Hr).
    apply (over_forall (letters ++ numerals ++ lit "+-.")); [vm_compute; reflexivity|].
    intros x Hx. apply elem_of_cons in Hx as [-> |Hx]; [|by apply Hr]. apply elem_of_app. by left. }
  assert (Hna : forall x, x ∈ lit "#/?@" -> x ∉ a).
  { intros x Hx Hin. apply Ha in Hin. unfold auth_char in Hin. apply andb_true_iff in Hin as [_ Hin].
    apply negb_true_iff, has_false in Hin. done. }
  assert (Hns : forall x, x ∈ lit "#?*:/" -> x ∉ s).
  { intros x Hx Hin. apply Hch in Hin. apply andb_true_iff in Hin as [_ Hin].
    apply negb_true_iff, has_false in Hin. done. }
  unfold url_host. change (lit "://") with [":"; "/"; "/"]%byte. cbn [app].
  rewrite cut_none.
  2:{ apply not_app. split; [apply Hns; not_in|]. rewrite !not_cons. repeat split; try done. apply Hna. not_in. }
  unfold parse.
  assert (Hctl : existsb is_ctl (s ++ ":"%byte :: "/"%byte :: "/"%byte :: a) = false).
  { apply not_true_is_false. intros Hx. apply existsb_exists in Hx as (c & Hc & Hx). apply elem_of_list_In in Hc.
    apply elem_of_app in Hc as [Hc|Hc].
    - apply Hch in Hc. rewrite Hx in Hc. done.
    - rewrite !elem_of_cons in Hc. destruct Hc as [-> |[-> |[-> |Hc]]]; try (vm_compute in Hx; discriminate Hx).
      apply Ha in Hc. unfold auth_char in Hc. rewrite Hx in Hc. done. }
  rewrite Hctl. rewrite bool_decide_eq_false_2.
  2:{ intros E. destruct Hs as (c & r & -> & _). apply (f_equal length) in E. cbn in E. rewrite app_length in E. cbn in E. lia. }
  rewrite get_scheme_ok by done. cbv beta iota zeta.
  rewrite cut_none by (rewrite !not_cons; repeat split; try done; apply Hna; not_in). cbn [fst].
  cbn [negb andb]. rewrite cut_none by (apply Hna; not_in). unfold parse_authority.
  rewrite rcut_none by (apply Hna; not_in).
  destruct (parse_host a); done.
Qed.
Lemma parse_host_plain x r : x <> "["%byte -> parse_host (x :: r) =
  match rcut ":"%byte (x :: r) with
  | Some (_, port) => if valid_optional_port (":"%byte :: port) then unescape_host (x :: r) else None
  | None => unescape_host (x :: r)
  end.
Proof. intros H. destruct x; try reflexivity. done. Qed.
Lemma zone_none s : "%"%byte ∉ s -> zone_cut s = None.
Proof.
  induction s as [|x s IH]; intros H; [done|]. apply not_cons in H as [H1 H2]. cbn [zone_cut]. rewrite IH by done.
  destruct x; try reflexivity. done.
Qed.
Lemma numerals_valid p : over numerals p -> valid_optional_port (":"%byte :: p) = true.
Proof.
  intros H. cbn [valid_optional_port]. rewrite bool_decide_eq_true_2 by done. cbn [andb]. apply forallb_forall.
  intros c Hc. apply elem_of_list_In in Hc. exact (over_forall numerals is_num p eq_refl H c Hc).
Qed.

Lemma named_host u name port : named_url u name port ->
  url_host u = Some (name ++ ":"%byte :: port) /\ hostport (name ++ ":"%byte :: port) name port /\ ":"%byte ∉ name.
Proof.
  intros [scheme nm pt Hs Hne Hn Hp].
  assert (Hc : forall c, c ∈ nm ++ ":"%byte :: pt -> c ∈ (letters ++ numerals ++ lit "-._") ++ lit ":").
  { intros c Hc. apply elem_of_app in Hc as [Hc|Hc]; [apply elem_of_app; left; by apply Hn|].
    apply elem_of_cons in Hc as [-> |Hc]; [not_in|]. apply Hp in Hc. rewrite !elem_of_app. tauto. }
  assert (Hcol : ":"%byte ∉ nm) by (eapply over_not; [|exact Hn]; not_in).
  assert (Hcol2 : ":"%byte ∉ pt) by (eapply over_not; [|exact Hp]; not_in).
  split; [|split; [|exact Hcol]].
  - rewrite url_authority; [|done|].
    2:{ apply (over_forall _ _ _ (eq_refl : forallb auth_char ((letters ++ numerals ++ lit "-._") ++ lit ":") = true) Hc). }
    destruct nm as [|x nm]; [done|]. cbn [app]. rewrite parse_host_plain.
    2:{ intros ->. revert Hn. intros Hn. specialize (Hn "["%byte ltac:(left)). revert Hn. not_in. }
    pose proof (rcut_app ":"%byte (x :: nm) pt Hcol2) as E. cbn [app] in E. rewrite E.
    rewrite numerals_valid by done. unfold unescape_host. apply unescape_same. intros c Hin.
    assert (Hb : negb (bool_decide (c = "%"%byte)) && plain_or_high c = true).
    { refine (over_forall _ (fun c => negb (bool_decide (c = "%"%byte)) && plain_or_high c) _ _ Hc c Hin). vm_compute; reflexivity. }
    apply andb_true_iff in Hb as [Hb1 Hb2]. apply negb_true_iff, bool_decide_eq_false in Hb1. done.
  - apply hp_plain; [split|split|..]; try done; (eapply over_not; [|first [exact Hn|exact Hp]]; not_in).
Qed.
Lemma v6_host u name port : v6_url u name port ->
  url_host u = Some ("["%byte :: name ++ "]"%byte :: ":"%byte :: port) /\
  hostport ("["%byte :: name ++ "]"%byte :: ":"%byte :: port) name port.
Proof.
  intros [scheme nm pt Hs Hn Hp].
  assert (Hc : forall c, c ∈ "["%byte :: nm ++ "]"%byte :: ":"%byte :: pt -> c ∈ numerals ++ lit "abcdefABCDEF:.[]").
  { intros c Hc. apply elem_of_cons in Hc as [-> |Hc]; [not_in|].
    apply elem_of_app in Hc as [Hc|Hc].
    - apply Hn in Hc. apply elem_of_app in Hc as [Hc|Hc]; apply elem_of_app; [by left|right].
      change (lit "abcdefABCDEF:.[]") with (lit "abcdefABCDEF:." ++ lit "[]"). apply elem_of_app. by left.
    - apply elem_of_cons in Hc as [-> |Hc]; [not_in|]. apply elem_of_cons in Hc as [-> |Hc]; [not_in|].
      apply Hp in Hc. apply elem_of_app. by left. }
  split.
  - rewrite url_authority; [|done|].
    2:{ apply (over_forall _ _ _ (eq_refl : forallb auth_char (numerals ++ lit "abcdefABCDEF:.[]") = true) Hc). }
    unfold parse_host.
    assert (E : rcut "]"%byte ("["%byte :: nm ++ "]"%byte :: ":"%byte :: pt) = Some ("["%byte :: nm, ":"%byte :: pt)).
    { apply (rcut_app "]"%byte ("["%byte :: nm)). apply not_cons. split; [done|]. eapply over_not; [|exact Hp]. not_in. }
    rewrite E, numerals_valid by done. rewrite zone_none.
    2:{ apply not_cons. split; [done|]. eapply over_not; [|exact Hn]. not_in. }
    unfold unescape_host. apply unescape_same. intros c Hin.
    assert (Hb : negb (bool_decide (c = "%"%byte)) && plain_or_high c = true).
    { refine (over_forall _ (fun c => negb (bool_decide (c = "%"%byte)) && plain_or_high c) _ _ Hc c Hin). vm_compute; reflexivity. }
    apply andb_true_iff in Hb as [Hb1 Hb2]. apply negb_true_iff, bool_decide_eq_false in Hb1. done.
  - apply hp_bracket; [split|split|]; (eapply over_not; [|first [exact Hn|exact Hp]]; not_in).
Qed.
Lemma hex_digit_ok a n : hex_digit a n -> is_hex a = true /\ unhex a = n /\ a ∈ letters ++ numerals.
Proof.
  intros [Hn H].
  assert (Hl : (Z.to_nat n < 16)%nat) by (destruct H as [H|H]; by apply lookup_lt_Some in H).
  assert (Hr : forall k, (k < 16)%nat -> forall a, lit "0123456789abcdef" !! k = Some a \/ lit "0123456789ABCDEF" !! k = Some a ->
    is_hex a = true /\ unhex a = Z.of_nat k /\ a ∈ letters ++ numerals).
  { intros k Hk a'. do 16 (destruct k as [|k]; [intros [[= <-]|[= <-]]; (split; [reflexivity|split; [reflexivity|not_in]])|]). lia. }
  destruct (Hr _ Hl a H) as (H1 & H2 & H3). split; [done|]. split; [|done]. rewrite H2. lia.
Qed.
Lemma zone_text_ok s z : zone_text s z ->
  unescape_zone s = Some z /\ over (letters ++ numerals ++ lit "-._%") s /\ over (letters ++ numerals ++ lit "-._") z.
Proof.
  assert (Hh : forall c, c ∈ letters ++ numerals ++ lit "-._" -> host_char c && negb (bool_decide (c = "%"%byte)) = true).
  { intros c Hc. refine (over_forall (letters ++ numerals ++ lit "-._") (fun c => host_char c && negb (bool_decide (c = "%"%byte)))
      (letters ++ numerals ++ lit "-._") _ _ c Hc); [vm_compute; reflexivity|by intros ? ?]. }
  assert (Hs : forall c, c ∈ letters ++ numerals ++ lit "-._" -> c ∈ letters ++ numerals ++ lit "-._%").
  { intros c. rewrite !elem_of_app. intros [H|[H|H]]; [by left|by right; left|right; right].
    change (lit "-._%") with (lit "-._" ++ lit "%"). apply elem_of_app. by left. }
  induction 1 as [|c s z Hc _ (I1 & I2 & I3)|c a b m n s z Hc Ha Hb E _ (I1 & I2 & I3)].
  - split; [done|]. split; intros c Hc; by apply not_elem_of_nil in Hc.
  - pose proof (Hh c Hc) as H1. apply andb_true_iff in H1 as [H1 H2]. apply negb_true_iff, bool_decide_eq_false in H2.
    split; [|split].
    + unfold unescape_zone in *. rewrite unescape_cons by done. unfold plain_or_high at 1. rewrite H1, orb_true_r.
      by rewrite I1.
    + intros x Hx. apply elem_of_cons in Hx as [-> |Hx]; [by apply Hs|by apply I2].
    + intros x Hx. apply elem_of_cons in Hx as [-> |Hx]; [done|by apply I3].
  - pose proof (Hh c Hc) as H1. apply andb_true_iff in H1 as [H1 H2].
    destruct (hex_digit_ok _ _ Ha) as (A1 & A2 & A3). destruct (hex_digit_ok _ _ Hb) as (B1 & B2 & B3).
    assert (Ez : zb (16 * unhex a + unhex b) = c) by (rewrite A2, B2, <- E; apply zb_bz).
    split; [|split].
    + unfold unescape_zone in *. cbn [unescape]. rewrite bool_decide_eq_true_2 by done. rewrite A1, B1. cbn [andb].
      rewrite Ez, H1, orb_true_r. by rewrite I1.
    + intros x Hx. rewrite !elem_of_cons in Hx. destruct Hx as [-> |[-> |[-> |Hx]]].
      * not_in.
      * apply elem_of_app in A3. rewrite !elem_of_app. tauto.
      * apply elem_of_app in B3. rewrite !elem_of_app. tauto.
      * by apply I2.
    + intros x Hx. apply elem_of_cons in Hx as [-> |Hx]; [done|by apply I3].
Qed.
Lemma zone_cut_app a t : "%"%byte ∉ a -> zone_cut (a ++ lit "%25" ++ t) = Some (a, lit "%25" ++ t).
Proof.
  change (lit "%25") with ["%"; "2"; "5"]%byte. cbn [app].
  induction a as [|x a IH]; intros H; [done|]. apply not_cons in H as [H1 H2]. cbn [app zone_cut]. rewrite IH by done.
  destruct x; try reflexivity. done.
Qed.
Lemma zone_host u name port : zone_url u name port ->
  url_host u = Some ("["%byte :: name ++ "]"%byte :: ":"%byte :: port) /\
  hostport ("["%byte :: name ++ "]"%byte :: ":"%byte :: port) name port /\ over numerals port.
Proof.
  intros [scheme nm text zone pt Hs Hn Ht Hp]. destruct (zone_text_ok _ _ Ht) as (T1 & T2 & T3).
  set (A := letters ++ numerals ++ lit "-._%:[]").
  assert (Hsub : forall B s, forallb (fun c => bool_decide (c ∈ A)) B = true -> over B s -> over A s).
  { intros B s HB Ho c Hin. apply (over_forall B (fun c => bool_decide (c ∈ A)) s HB Ho) in Hin. by apply bool_decide_eq_true in Hin. }
  assert (Hc : forall c, c ∈ "["%byte :: (nm ++ lit "%25" ++ text) ++ "]"%byte :: ":"%byte :: pt -> c ∈ A).
  { intros c Hc. rewrite elem_of_cons, !elem_of_app, !elem_of_cons in Hc.
    destruct Hc as [-> |[[Hc|[Hc|Hc]]|[-> |[-> |Hc]]]]; try (unfold A; not_in).
    - revert c Hc. apply (Hsub _ _) with (2 := Hn). vm_compute. reflexivity.
    - revert c Hc. apply (Hsub (lit "%25")); [vm_compute; reflexivity|by intros ? ?].
    - revert c Hc. apply (Hsub _ _) with (2 := T2). vm_compute. reflexivity.
    - revert c Hc. apply (Hsub _ _) with (2 := Hp). vm_compute. reflexivity. }
  assert (Hnm : "%"%byte ∉ "["%byte :: nm) by (apply not_cons; split; [done|]; eapply over_not; [|exact Hn]; not_in).
  assert (Hplain : forall s, over (numerals ++ lit "abcdefABCDEF:.[]") s -> unescape_host s = Some s).
  { intros s Ho. apply unescape_same. intros c Hin.
    assert (Hb : negb (bool_decide (c = "%"%byte)) && plain_or_high c = true).
    { refine (over_forall _ (fun c => negb (bool_decide (c = "%"%byte)) && plain_or_high c) _ _ Ho c Hin). vm_compute; reflexivity. }
    apply andb_true_iff in Hb as [Hb1 Hb2]. apply negb_true_iff, bool_decide_eq_false in Hb1. done. }
  split; [|split; [|done]].
  - rewrite url_authority; [|done|].
    2:{ apply (over_forall A auth_char); [vm_compute; reflexivity|exact Hc]. }
    unfold parse_host.
    assert (E : rcut "]"%byte ("["%byte :: (nm ++ lit "%25" ++ text) ++ "]"%byte :: ":"%byte :: pt) =
      Some ("["%byte :: nm ++ lit "%25" ++ text, ":"%byte :: pt)).
    { apply (rcut_app "]"%byte ("["%byte :: nm ++ lit "%25" ++ text)). apply not_cons. split; [done|]. eapply over_not; [|exact Hp]. not_in. }
    rewrite E, numerals_valid by done.
    pose proof (zone_cut_app ("["%byte :: nm) text Hnm) as Ez. cbn [app] in Ez. cbn [app]. rewrite Ez.
    rewrite (Hplain ("["%byte :: nm)).
    2:{ intros c Hin. apply elem_of_cons in Hin as [-> |Hin]; [not_in|]. apply Hn in Hin. rewrite !elem_of_app in *.
        destruct Hin as [Hin|Hin]; [by left|right]. change (lit "abcdefABCDEF:.[]") with (lit "abcdefABCDEF:." ++ lit "[]"). apply elem_of_app. by left. }
    assert (Eu : unescape_zone (lit "%25" ++ text) = Some ("%"%byte :: zone)).
    { unfold unescape_zone in *. change (lit "%25") with ["%"; "2"; "5"]%byte. cbn [app unescape].
      rewrite bool_decide_eq_true_2 by done.
      change (zb (16 * unhex "2"%byte + unhex "5"%byte)) with "%"%byte. cbn [is_hex is_25]. by rewrite T1. }
    rewrite Eu. rewrite (Hplain ("]"%byte :: ":"%byte :: pt)).
    2:{ intros c Hin. rewrite !elem_of_cons in Hin. destruct Hin as [-> |[-> |Hin]]; [not_in|not_in|]. apply Hp in Hin. apply elem_of_app. by left. }
    cbn [app]. by rewrite <- !app_assoc.
  - assert (Hz : forall x, x ∈ lit "[]" -> x ∉ nm ++ "%"%byte :: zone).
    { intros x Hx. change (lit "[]") with ["["; "]"]%byte in Hx. rewrite !elem_of_cons in Hx.
      rewrite not_app, not_cons. destruct Hx as [-> |[-> |Hx]]; [| |by apply not_elem_of_nil in Hx];
        (split; [eapply over_not; [|exact Hn]; not_in|]; split; [done|]; eapply over_not; [|exact T3]; not_in). }
    apply hp_bracket; [split; apply Hz; not_in|split|]; (eapply over_not; [|exact Hp]; not_in).
Qed.
Lemma good_host u name port : good_url u name port ->
  exists a, url_host u = Some a /\ hostport a name port /\ over numerals port.
Proof.
  intros [H|[H|H]].
  - destruct (named_host _ _ _ H) as (H1 & H2 & _). eexists. split; [exact H1|]. split; [exact H2|]. by destruct H.
  - destruct (v6_host _ _ _ H) as (H1 & H2). eexists. split; [exact H1|]. split; [exact H2|]. by destruct H.
  - destruct (zone_host _ _ _ H) as (H1 & H2 & H3). eexists. split; [exact H1|]. split; [exact H2|exact H3].
Qed.
Lemma good_nodes dur l : (forall u, u ∈ l -> exists name port, good_url u name port) -> validate_nodes (go_lib dur) l = None.
Proof.
  intros H. apply ConfigProofs.nodes_iff. intros n Hn. apply last_Some_elem_of in Hn. destruct (H n Hn) as (name & port & Hg).
  apply good_host in Hg as (a & Ha & _). cbn [go_lib lib_url]. by rewrite Ha.
Qed.
Lemma good_bind u name port z : good_url u name port -> port_number port z ->
  hostport (raft_address u) name port /\ raft_bind u = Some z.
Proof.
  intros H (Hne & Hz & Hr). destruct (good_host _ _ _ H) as (a & Ha & Hh & _). unfold raft_bind, raft_address.
  rewrite Ha. split; [done|]. rewrite (proj2 (split_iff _ _ _) Hh). rewrite (tcp_port_some _ z) by done.
  by rewrite (proj2 (Z.leb_le _ _)) by lia.
Qed.

(** ** What config init accepts *)
Lemma with_path_some h p h' : with_path h p = Some h' -> h' = h.
Proof. unfold with_path. destruct (unescape_any p); [|done]. by intros [= ->]. Qed.
Lemma parse_authority_some a h : parse_authority a = Some h -> exists b, parse_host b = Some h.
Proof.
  unfold parse_authority. destruct (rcut "@"%byte a) as [[user b]|]; [|eauto].
  destruct (parse_host b) as [h0|] eqn:E; [|done]. destruct (forallb user_char user); [|done].
  destruct (unescape_any user); [|done]. intros [= ->]. eauto.
Qed.
Lemma parse_some u h : parse u = Some h -> h = [] \/ exists b, parse_host b = Some h.
Proof.
  unfold parse. destruct (existsb is_ctl u); [done|]. destruct (bool_decide _); [intros [= <-]; by left|].
  destruct (get_scheme true u) as [sch|]; [|done].
  destruct (match sch with Some (_, b) => (true, b) | None => (false, u) end) as [scheme rest].
  generalize (fst (cut "?"%byte rest)) as r. clear. intros r.
  assert (Hd : forall r, (if scheme then Some [] else if has ":"%byte (fst (cut "/"%byte r)) then None else with_path [] r) = Some h ->
    h = [] \/ exists b, parse_host b = Some h).
  { intros r0. destruct scheme; [intros [= <-]; by left|]. destruct (has _ _); [done|]. intros H. apply with_path_some in H. by left. }
  destruct r as [|x r]; [apply Hd|]. destruct (decide (x = "/"%byte)) as [->|Hx].
  2:{ intros H. apply (Hd (x :: r)). rewrite <- H. destruct x; try reflexivity. done. }
  destruct r as [|y r]; [intros H; apply with_path_some in H; by left|].
  destruct (decide (y = "/"%byte)) as [->|Hy].
  2:{ intros H. left. apply (with_path_some [] ("/"%byte :: y :: r)). rewrite <- H. destruct y; try reflexivity. done. }
  destruct (negb scheme && _); [intros H; apply with_path_some in H; by left|].
  destruct (cut "/"%byte r) as [authority path]. destruct (parse_authority authority) as [host|] eqn:E; [|done].
  intros H. apply with_path_some in H as ->. right. by eapply parse_authority_some.
Qed.
Lemma url_host_some u h : url_host u = Some h -> h = [] \/ exists b, parse_host b = Some h.
Proof.
  unfold url_host. destruct (cut "#"%byte u) as [u' frag]. destruct (parse u') as [h'|] eqn:E; [|done].
  intros H. assert (h' = h) as ->.
  { destruct frag as [[|x f]|]; [by injection H|destruct (unescape_any _); [by injection H|done]|by injection H]. }
  by apply parse_some in E.
Qed.

Lemma valid_port_numerals p : valid_optional_port (":"%byte :: p) = true -> over numerals p.
Proof.
  cbn [valid_optional_port]. rewrite bool_decide_eq_true_2 by done. cbn [andb]. intros H c Hc.
  rewrite forallb_forall in H. specialize (H c ltac:(by apply elem_of_list_In)).
  assert (E : forall c, (negb (is_num c) || bool_decide (c ∈ numerals)) = true) by (apply byte_all; vm_compute; reflexivity).
  specialize (E c). rewrite H in E. cbn [negb orb] in E. by apply bool_decide_eq_true in E.
Qed.
Lemma unescape_numerals esc p : over numerals p -> unescape esc plain_or_high p = Some p.
Proof.
  intros H. apply unescape_same. intros c Hc.
  assert (Hb : negb (bool_decide (c = "%"%byte)) && plain_or_high c = true).
  { refine (over_forall _ (fun c => negb (bool_decide (c = "%"%byte)) && plain_or_high c) _ _ H c Hc). vm_compute; reflexivity. }
  apply andb_true_iff in Hb as [Hb1 Hb2]. apply negb_true_iff, bool_decide_eq_false in Hb1. done.
Qed.
Lemma hostport_last x q name port : ":"%byte ∉ q -> hostport (x ++ ":"%byte :: q) name port -> port = q.
Proof.
  intros Hq H. remember (x ++ ":"%byte :: q) as s eqn:Es.
  assert (Er : rcut ":"%byte s = Some (x, q)) by (rewrite Es; by apply rcut_app).
  destruct H as [h p [H1 H2] [H3 H4] H5 H6|h p [H1 H2] [H3 H4] H6].
  - rewrite rcut_app in Er by done. by injection Er.
  - assert (E : rcut ":"%byte ("["%byte :: h ++ "]"%byte :: ":"%byte :: p) = Some ("["%byte :: h ++ ["]"%byte], p)).
    { etransitivity; [|exact (rcut_app ":"%byte ("["%byte :: h ++ ["]"%byte]) p H6)]. f_equal. cbn [app]. f_equal.
      by rewrite <- app_assoc. }
    rewrite E in Er. by injection Er.
Qed.
Lemma hostport_end x name port : ~ hostport (x ++ ["]"%byte]) name port.
Proof.
  intros H. remember (x ++ ["]"%byte]) as s eqn:Es.
  assert (Hl : list.last s = Some "]"%byte) by (rewrite Es; by rewrite last_snoc).
  destruct H as [h p [H1 H2] [H3 H4] H5 H6|h p [H1 H2] [H3 H4] H6].
  - destruct p as [|y p _] using rev_ind; [by rewrite last_snoc in Hl|].
    rewrite app_comm_cons, app_assoc, last_snoc in Hl. injection Hl as ->. apply H4, elem_of_app. right. left.
  - destruct p as [|y p _] using rev_ind.
    + replace ("["%byte :: h ++ ["]"; ":"]%byte) with (("["%byte :: h ++ ["]"%byte]) ++ [":"%byte]) in Hl by (cbn [app]; by rewrite <- app_assoc).
      rewrite last_snoc in Hl. done.
    + replace ("["%byte :: h ++ "]"%byte :: ":"%byte :: p ++ [y]) with (("["%byte :: h ++ "]"%byte :: ":"%byte :: p) ++ [y]) in Hl
        by (cbn [app]; by rewrite <- app_assoc).
      rewrite last_snoc in Hl. injection Hl as ->. apply H4, elem_of_app. right. left.
Qed.
Lemma hostport_colon s name port : hostport s name port -> ":"%byte ∈ s.
Proof.
  destruct 1; [apply elem_of_app; right; left|]. right. apply elem_of_app. do 2 right. left.
Qed.
(** the port of a URL is made of digits *)
Lemma parse_host_port b h name port : parse_host b = Some h -> hostport h name port -> over numerals port.
Proof.
  intros H Hh. destruct b as [|x b].
  { injection H as <-. apply hostport_colon in Hh. by apply not_elem_of_nil in Hh. }
  assert (Hc : is_hex ":"%byte = false) by reflexivity. assert (Hb : is_hex "]"%byte = false) by reflexivity.
  assert (Hend : forall q a r, valid_optional_port q = true -> r = a ++ "]"%byte :: q -> hostport r name port -> over numerals port).
  { intros q a r Hq -> Hr. destruct q as [|y q].
    - by apply hostport_end in Hr.
    - destruct (decide (y = ":"%byte)) as [->|Hy].
      2:{ cbn [valid_optional_port] in Hq. rewrite bool_decide_eq_false_2 in Hq by done. done. }
      apply valid_port_numerals in Hq. rewrite (hostport_last (a ++ ["]"%byte]) q name port); [done| |].
      + eapply over_not; [|exact Hq]. not_in.
      + rewrite <- app_assoc. exact Hr. }
  assert (Hq : forall q r, valid_optional_port q = true -> unescape_host ("]"%byte :: q) = Some r -> r = "]"%byte :: q).
  { intros q r Hq Hr. unfold unescape_host in Hr. rewrite unescape_same in Hr; [by injection Hr|].
    intros c Hin.
    assert (Hall : c ∈ numerals ++ lit ":]").
    { destruct q as [|y q]; [apply elem_of_list_singleton in Hin as ->; not_in|].
      destruct (decide (y = ":"%byte)) as [->|Hy].
      2:{ cbn [valid_optional_port] in Hq. rewrite bool_decide_eq_false_2 in Hq by done. done. }
      apply valid_port_numerals in Hq. rewrite !elem_of_cons in Hin. destruct Hin as [-> |[-> |Hin]]; [not_in|not_in|].
      apply elem_of_app. left. by apply Hq. }
    assert (Hx : negb (bool_decide (c = "%"%byte)) && plain_or_high c = true).
    { refine (over_forall (numerals ++ lit ":]") (fun c => negb (bool_decide (c = "%"%byte)) && plain_or_high c) (numerals ++ lit ":]") _ _ c Hall);
        [vm_compute; reflexivity|intros ? ?; done]. }
    apply andb_true_iff in Hx as [Hx1 Hx2]. apply negb_true_iff, bool_decide_eq_false in Hx1. done. }
  destruct (decide (x = "["%byte)) as [->|Hx].
  - unfold parse_host in H. destruct (rcut "]"%byte ("["%byte :: b)) as [[pre q]|] eqn:E; [|done].
    destruct (valid_optional_port q) eqn:Ev; [|done]. apply rcut_some in E as [E _].
    destruct (zone_cut pre) as [[h1 h2]|].
    + destruct (unescape_host h1) as [r1|]; [|done]. destruct (unescape_zone h2) as [r2|]; [|done].
      destruct (unescape_host ("]"%byte :: q)) as [r3|] eqn:E3; [|done]. injection H as <-.
      apply Hq in E3 as ->; [|done]. eapply (Hend q (r1 ++ r2)); [done| |exact Hh]. by rewrite <- app_assoc.
    + rewrite E in H. apply unescape_app in H as (ra & rb & -> & _ & Hrb); [|done|done].
      apply Hq in Hrb as ->; [|done]. by eapply (Hend q ra).
  - rewrite parse_host_plain in H by done. destruct (rcut ":"%byte (x :: b)) as [[pre q]|] eqn:E.
    + destruct (valid_optional_port (":"%byte :: q)) eqn:Ev; [|done]. apply rcut_some in E as [E _]. rewrite E in H.
      apply unescape_app in H as (ra & rb & -> & _ & Hrb); [|done|done]. apply valid_port_numerals in Ev.
      rewrite unescape_cons in Hrb by done. change (plain_or_high ":"%byte) with true in Hrb. cbv iota in Hrb.
      rewrite unescape_numerals in Hrb by done. injection Hrb as <-.
      rewrite (hostport_last ra q name port); [done| |exact Hh]. eapply over_not; [|exact Ev]. not_in.
    + apply rcut_no in E. exfalso. apply E. apply hostport_colon in Hh.
      apply (unescape_host_new _ _ _ H) in Hh; [done|reflexivity|done].
Qed.
Lemma url_port u h name port : url_host u = Some h -> hostport h name port -> over numerals port.
Proof.
  intros H Hh. apply url_host_some in H as [-> |[b Hb]]; [|by eapply parse_host_port].
  apply hostport_colon in Hh. by apply not_elem_of_nil in Hh.
Qed.

Lemma init_listen dur chain nodes f c : config_init (go_lib dur) chain nodes (Some f) = inr c ->
  exists s name port, cf_cosigner c = Some s /\ co_listen s = if_listen f /\
    hostport (raft_address (co_listen s)) name port /\ name <> lit "0.0.0.0" /\ over numerals port /\
    raft_bind (co_listen s) = tcp_port port.
Proof.
  unfold config_init. intros H. destruct (init_nodes _ nodes) as [|cn]; [discriminate|].
  destruct (peers_from_flag (if_peers f)) as [|peers] eqn:Ep; [discriminate|].
  destruct (if_listen f) as [|b ls] eqn:Eli; [discriminate|].
  destruct (negb _) eqn:Eu; [discriminate|]. destruct (lib_host _ _) as [ho|] eqn:Eh; [|discriminate].
  destruct (bytes_equal _ _) eqn:Ez; [discriminate|]. cbv zeta in H.
  destruct (validate_cosigner _ _) eqn:Ev; [discriminate|]. injection H as <-.
  cbn [go_lib lib_host] in Eh. destruct (url_host (b :: ls)) as [h|] eqn:E; [|done].
  destruct (split_host_port h) as [[n p]|] eqn:Es; [|done]. injection Eh as ->.
  eexists _, ho, p. split; [reflexivity|]. cbn [co_listen]. split; [done|]. unfold raft_bind, raft_address. rewrite E, Es.
  split; [by apply split_iff|]. split; [|split; [|done]].
  - intros ->. unfold bytes_equal in Ez. by apply bool_decide_eq_false in Ez.
  - eapply url_port; [exact E|]. by apply split_iff.
Qed.
Lemma tcp_port_cases p : over numerals p ->
  p = [] /\ tcp_port p = Some 0 \/
  exists z, p <> [] /\ digits_denote p z /\ tcp_port p = if z <=? 65535 then Some z else None.
Proof.
  intros H. destruct p as [|b p]; [by left|]. right. apply numerals_digits in H.
  exists (value_from 0 (b :: p)). split; [done|].
  assert (Hd : digits_denote (b :: p) (value_from 0 (b :: p))) by (by apply digits_denote_iff).
  split; [done|]. by apply tcp_port_some.
Qed.

(** ** elect *)
Lemma elect_one u name port : hostport (raft_address u) name port ->
  (exists a, elect_address u = Some a /\ hostport a name port) <-> is_Some (url_host u) /\ ":"%byte ∉ name.
Proof.
  intros H. unfold elect_address, raft_address in *. destruct (url_host u) as [h|].
  2:{ split; [by intros (a & Ha & _)|by intros [[? ?] _]]. }
  apply split_iff in H as Hs. rewrite Hs. split.
  - intros (a & Ha & Hh). injection Ha as <-. split; [by eexists|].
    remember (name ++ ":"%byte :: port) as s eqn:Es. destruct Hh as [h' p' [H1 H2] [H3 H4] H5 H6|h' p' _ _ _].
    + done.
    + exfalso. apply (f_equal length) in Es. revert Es. cbn [length]. rewrite !app_length. cbn [length]. lia.
  - intros [_ Hn]. eexists. split; [reflexivity|]. destruct H as [h' p' [H1 H2] [H3 H4] H5 H6|h' p' H1 H2 H3]; by apply hp_plain.
Qed.
Lemma split_join l : l <> [] -> (forall a, a ∈ l -> ","%byte ∉ a) -> split ","%byte (join_commas l) = l.
Proof.
  intros Hl. induction l as [|x l IH]; [done|]. intros H. destruct l as [|y l].
  - apply split_free. apply H. left.
  - change (join_commas (x :: y :: l)) with (x ++ ","%byte :: join_commas (y :: l)). rewrite split_app by (apply H; left).
    f_equal. apply IH; [done|]. intros a Ha. apply H. by right.
Qed.
Lemma elect_line c s : cf_cosigner c = Some s -> co_peers s <> [] ->
  elect_addresses s <> [] -> (forall a, a ∈ elect_addresses s -> ","%byte ∉ a) ->
  exists line, elect_cmd (Some c) = inr line /\ multi_targets line = elect_addresses s.
Proof.
  intros Hc Hp Hn Hf. unfold elect_cmd. rewrite Hc. destruct (co_peers s) as [|p ps]; [done|].
  eexists. split; [reflexivity|]. unfold multi_targets. change (drop 9 (lit "multi:///" ++ ?x)) with x.
  by apply split_join.
Qed.
Lemma elect_named u name port : named_url u name port ->
  elect_address u = Some (name ++ ":"%byte :: port) /\ ","%byte ∉ name ++ ":"%byte :: port.
Proof.
  intros H. destruct (named_host _ _ _ H) as (H1 & H2 & H3). unfold elect_address. rewrite H1, (proj2 (split_iff _ _ _) H2).
  split; [done|]. destruct H as [scheme nm pt Hs Hne Hn Hp]. rewrite not_app, not_cons.
  split; [eapply over_not; [|exact Hn]; not_in|]. split; [done|]. eapply over_not; [|exact Hp]. not_in.
Qed.

(** ** Nodes *)
Lemma cut_scheme_ok s a : scheme_ok s -> protocol_and_address (s ++ lit "://" ++ a) = (s, a).
Proof.
  intros Hs. unfold protocol_and_address. change (lit "://") with [":"; "/"; "/"]%byte. cbn [app].
  assert (Hn : ":"%byte ∉ s).
  { destruct Hs as (c & r & -> & Hc & Hr). apply not_cons. split.
    - intros <-. revert Hc. not_in.
    - eapply over_not; [|exact Hr]. not_in. }
  clear Hs. assert (E : cut_scheme (s ++ ":"%byte :: "/"%byte :: "/"%byte :: a) = Some (s, a)); [|by rewrite E].
  induction s as [|x s IH]; [done|]. apply not_cons in Hn as [H1 H2]. cbn [app cut_scheme]. rewrite IH by done.
  destruct x; try reflexivity. done.
Qed.

(** ** Plans *)
Lemma good_plain u name port : good_url u name port -> plain u /\ u <> [].
Proof.
  intros H.
  assert (Hs : forall s x, scheme_ok s -> x ∈ lit ",|" -> x ∉ s).
  { intros s x (c & r & -> & Hc & Hr) Hx. apply not_cons.
    assert (Hx' : x ∉ letters ++ numerals ++ lit "+-.").
    { change (lit ",|") with [","; "|"]%byte in Hx. rewrite !elem_of_cons in Hx. destruct Hx as [-> |[-> |Hx]]; [not_in|not_in|by apply not_elem_of_nil in Hx]. }
    split; [intros ->; apply Hx', elem_of_app; by left|]. by eapply over_not. }
  assert (H1 : ","%byte ∈ lit ",|") by not_in. assert (H2 : "|"%byte ∈ lit ",|") by not_in.
  destruct H as [[scheme nm pt Hsc Hne Hn Hp]|[[scheme nm pt Hsc Hn Hp]|[scheme nm text zone pt Hsc Hn Ht Hp]]].
  - split; [split; rewrite !not_app, not_cons|].
    + split; [by apply Hs|]. split; [not_in|]. split; [eapply over_not; [|exact Hn]; not_in|]. split; [done|]. eapply over_not; [|exact Hp]. not_in.
    + split; [by apply Hs|]. split; [not_in|]. split; [eapply over_not; [|exact Hn]; not_in|]. split; [done|]. eapply over_not; [|exact Hp]. not_in.
    + destruct Hsc as (c & r & -> & _). done.
  - split; [split; rewrite !not_app, not_cons, !not_app, !not_cons|].
    + split; [by apply Hs|]. split; [not_in|]. split; [done|]. split; [eapply over_not; [|exact Hn]; not_in|]. split; [done|]. split; [done|]. eapply over_not; [|exact Hp]. not_in.
    + split; [by apply Hs|]. split; [not_in|]. split; [done|]. split; [eapply over_not; [|exact Hn]; not_in|]. split; [done|]. split; [done|]. eapply over_not; [|exact Hp]. not_in.
    + destruct Hsc as (c & r & -> & _). done.
  - destruct (zone_text_ok _ _ Ht) as (_ & T2 & _).
    split; [split; rewrite !not_app, not_cons, !not_app, !not_cons|].
    + split; [by apply Hs|]. split; [not_in|]. split; [done|].
      split; [split; [eapply over_not; [|exact Hn]; not_in|]; split; [not_in|]; eapply over_not; [|exact T2]; not_in|].
      split; [done|]. split; [done|]. eapply over_not; [|exact Hp]. not_in.
    + split; [by apply Hs|]. split; [not_in|]. split; [done|].
      split; [split; [eapply over_not; [|exact Hn]; not_in|]; split; [not_in|]; eapply over_not; [|exact T2]; not_in|].
      split; [done|]. split; [done|]. eapply over_not; [|exact Hp]. not_in.
    + destruct Hsc as (c & r & -> & _). done.
Qed.
Section Plan.
Context (dur : bytes -> bool) (dflt : bytes) (P : plan) (name port : Z -> bytes).
Context (HP : plan_rest (go_lib dur) P) (HA : addressed (pl_n P) (pl_url P) name port).

Lemma addressed_plan_ok : plan_ok (go_lib dur) P.
Proof.
  destruct HP as (H1 & H2 & H3 & H4). split; [done|]. split; [done|]. split; [done|]. intros i Hi.
  destruct (H4 i Hi) as (Hp & Hd & Hn). destruct HA as [Ha _]. destruct (Ha i Hi) as (Hg & Hz & _).
  destruct (good_plain _ _ _ Hg) as [Hpl Hne]. destruct (good_host _ _ _ Hg) as (a & Hu & Hh & _).
  split; [done|]. split; [done|]. split; [done|]. cbn [go_lib lib_url lib_host]. rewrite Hu. split; [done|].
  split; [|split; done]. exists (name i). split; [|done]. by rewrite (proj2 (split_iff _ _ _) Hh).
Qed.
Lemma addressed_good : good_plan raft_address (seqZ 1 (pl_n P)) (pl_url P).
Proof.
  destruct HA as [Ha Hinj]. split; [apply NoDup_seqZ|]. split.
  - change (NoDup ((fun i => raft_address (pl_url P i)) <$> seqZ 1 (pl_n P))).
    apply NoDup_fmap_2_strong; [|apply NoDup_seqZ]. intros i j Hi Hj E. apply elem_of_seqZ in Hi, Hj.
    destruct (Ha i ltac:(lia)) as (Gi & _ & zi & Zi). destruct (Ha j ltac:(lia)) as (Gj & _ & zj & Zj).
    destruct (good_bind _ _ _ _ Gi Zi) as [Bi _]. destruct (good_bind _ _ _ _ Gj Zj) as [Bj _]. rewrite E in Bi.
    destruct (hostport_fun _ _ _ _ _ Bi Bj) as [En Ep]. apply Hinj; [lia|lia|done|done].
  - intros i Hi E. apply elem_of_seqZ in Hi. destruct (Ha i ltac:(lia)) as (Gi & _ & zi & Zi).
    destruct (good_bind _ _ _ _ Gi Zi) as [Bi _]. rewrite E in Bi. apply hostport_colon in Bi. by apply not_elem_of_nil in Bi.
Qed.

Lemma omap_named l : (forall j, j ∈ l -> named_url (pl_url P j) (name j) (port j)) ->
  omap elect_address (map (pl_url P) l) = map (fun j => name j ++ ":"%byte :: port j) l.
Proof.
  induction l as [|j l IH]; intros H; [done|]. cbn [map omap list_omap].
  destruct (elect_named _ _ _ (H j ltac:(left))) as [-> _]. f_equal. apply IH. intros i Hi. apply H. by right.
Qed.

Lemma addressed_host i k text m0 m : 1 <= i <= pl_n P -> ck_id k = i -> fresh dflt P i m0 -> installs (go_lib dur) dflt P i text m0 m ->
  exists y s c, config_at dflt m (pl_flag P i) = Some y /\ cf_cosigner (ya_cfg y) = Some s /\
    (exists z, port_number (port i) z /\ raft_bind (co_listen s) = Some z) /\
    boot_node raft_address None s k = Some c /\ Z.of_nat (length c) = pl_n P /\
    (forall j, 1 <= j <= pl_n P -> exists a, (print_int j, a) ∈ c /\ hostport a (name j) (port j)) /\
    (forall p, p ∈ co_peers s -> hostport (raft_address (pe_addr p)) (name (pe_id p)) (port (pe_id p))) /\
    ((forall j, 1 <= j <= pl_n P -> named_url (pl_url P j) (name j) (port j)) ->
      exists line, elect_cmd (Some (ya_cfg y)) = inr line /\
        multi_targets line ≡ₚ map (fun j => name j ++ ":"%byte :: port j) (seqZ 1 (pl_n P))).
Proof.
  intros Hi Hk Hf Hin. pose proof addressed_plan_ok as Hok. pose proof addressed_good as Hgood.
  exists (plan_yaml dflt P i), (plan_section P i).
  pose proof (plan_follows (go_lib dur) P Hok raft_address i k Hi Hk) as Fo.
  assert (Hin' : i ∈ seqZ 1 (pl_n P)) by (apply elem_of_seqZ; lia).
  destruct (plan_agree raft_address (seqZ 1 (pl_n P)) (pl_url P) i i (plan_section P i) (plan_section P i) k k Hgood Hin' Hin' Fo Fo)
    as (c & c' & E1 & _ & _ & Elen & _).
  exists c. split; [by eapply plan_written|]. split; [done|].
  assert (HA' := HA). destruct HA' as [Ha _].
  assert (Hport : forall j, 1 <= j <= pl_n P -> hostport (raft_address (pl_url P j)) (name j) (port j)).
  { intros j Hj. destruct (Ha j Hj) as (Gi & _ & z & Zi). by destruct (good_bind _ _ _ _ Gi Zi) as [Bi _]. }
  assert (Hr : forall j, j ∈ pl_peers P i -> 1 <= j <= pl_n P) by (intros j; by eapply plan_range).
  split; [|split; [done|split; [|split; [|split]]]].
  - destruct (Ha i Hi) as (Gi & _ & z & Zi). destruct (good_bind _ _ _ _ Gi Zi) as [_ Bi]. exists z. done.
  - rewrite Elen, seqZ_length. lia.
  - intros j Hj. exists (raft_address (pl_url P j)). split; [|by apply Hport].
    assert (Ec : c = boot_servers raft_address (ck_id k) (co_listen (plan_section P i)) (co_peers (plan_section P i))).
    { unfold boot_node, bootstrap in E1. destruct (valid_config _); [by injection E1|done]. }
    rewrite Ec. apply boot_named. unfold named. rewrite Hk. cbn [plan_section co_listen co_peers].
    destruct (decide (j = i)) as [-> |Hne]; [by left|]. right. exists (CPeer j (pl_url P j)). split; [|done].
    unfold plan_peers. apply elem_of_list_fmap. exists j. split; [done|].
    destruct HP as (_ & _ & _ & H4). destruct (H4 i Hi) as (Hp & _).
    assert (Hx : j ∈ i :: pl_peers P i) by (rewrite Hp; apply elem_of_seqZ; lia). apply elem_of_cons in Hx as [|]; done.
  - intros p Hp. cbn [plan_section co_peers] in Hp. unfold plan_peers in Hp. apply elem_of_list_fmap in Hp as (j & -> & Hj).
    cbn [pe_addr pe_id]. by apply Hport, Hr.
  - intros Hnamed.
    assert (Ea : elect_addresses (plan_section P i) = map (fun j => name j ++ ":"%byte :: port j) (i :: pl_peers P i)).
    { unfold elect_addresses. cbn [plan_section co_listen co_peers]. unfold plan_peers. rewrite map_map. cbn [pe_addr].
      rewrite <- omap_named; [done|]. intros j Hj. apply elem_of_cons in Hj as [-> |Hj]; apply Hnamed; [done|by apply Hr]. }
    destruct HP as (Hn & _ & _ & H4). destruct (H4 i Hi) as (Hp & _).
    destruct (elect_line (ya_cfg (plan_yaml dflt P i)) (plan_section P i)) as (line & El & Em).
    + done.
    + cbn [plan_section co_peers]. intros E. pose proof (plan_len (go_lib dur) P Hok i Hi) as Hl. rewrite E in Hl. simpl in Hl. lia.
    + rewrite Ea. done.
    + intros a Haa. rewrite Ea in Haa. apply elem_of_list_fmap in Haa as (j & -> & Hj).
      assert (Hj' : 1 <= j <= pl_n P) by (apply elem_of_cons in Hj as [-> |Hj]; [done|by apply Hr]).
      by destruct (elect_named _ _ _ (Hnamed j Hj')) as [_ ?].
    + exists line. split; [done|]. rewrite Em, Ea. by apply Permutation_map.
Qed.
End Plan.

(** ** Addresses without a scheme *)
Lemma bare_bytes name port : over (numerals ++ lit ".") name -> over numerals port ->
  Forall (fun c => is_ctl c = false /\ c <> "#"%byte /\ c <> "?"%byte /\ c <> "/"%byte /\ c <> "["%byte /\ c <> "]"%byte)
    (name ++ ":"%byte :: port).
Proof.
  intros Hn Hp. assert (H : forall c, c ∈ (numerals ++ lit ".") ++ [":"%byte] ->
    is_ctl c = false /\ c <> "#"%byte /\ c <> "?"%byte /\ c <> "/"%byte /\ c <> "["%byte /\ c <> "]"%byte).
  { apply list.Forall_forall. unfold numerals. cbn. repeat (constructor; [vm_compute; repeat split; congruence|]). constructor. }
  apply list.Forall_forall. intros c Hc. apply H. rewrite elem_of_app, elem_of_cons in Hc. rewrite elem_of_app.
  destruct Hc as [Hc|[-> |Hc]]; [left; by apply Hn|right; left|left; apply elem_of_app; left; by apply Hp].
Qed.
Lemma bare_address c r port : c ∈ numerals -> over (numerals ++ lit ".") r -> over numerals port ->
  let u := (c :: r) ++ ":"%byte :: port in
  raft_address u = u /\ elect_address u = None /\ hostport u (c :: r) port /\
  (forall z, port_number port z -> raft_bind u = Some z).
Proof.
  intros Hc Hr Hp u.
  assert (Hname : over (numerals ++ lit ".") (c :: r)).
  { intros x Hx. apply elem_of_cons in Hx as [-> |Hx]; [apply elem_of_app; by left|by apply Hr]. }
  pose proof (bare_bytes (c :: r) port Hname Hp) as Hall. fold u in Hall.
  assert (Hno : forall x, x ∈ u -> is_ctl x = false /\ x <> "#"%byte /\ x <> "?"%byte /\ x <> "/"%byte /\ x <> "["%byte /\ x <> "]"%byte).
  { by apply list.Forall_forall. }
  assert (Hnum : is_num c = true /\ is_alpha c = false /\ c <> "*"%byte /\ c <> "/"%byte /\ c <> ":"%byte).
  { assert (G : Forall (fun c => is_num c = true /\ is_alpha c = false /\ c <> "*"%byte /\ c <> "/"%byte /\ c <> ":"%byte) numerals).
    { unfold numerals. cbn. repeat (constructor; [vm_compute; repeat split; congruence|]). constructor. }
    by apply (proj1 (list.Forall_forall _ _) G). }
  destruct Hnum as (Hn1 & Hn2 & Hn3 & Hn4 & _).
  assert (Hhost : url_host u = None).
  { unfold url_host. rewrite cut_none by (intros H; apply Hno in H; tauto). unfold parse.
    assert (existsb is_ctl u = false) as ->.
    { apply not_true_iff_false. intros (x & Hx & E)%existsb_exists. apply elem_of_list_In, Hno in Hx as [Hx _]. congruence. }
    rewrite bool_decide_eq_false_2 by (intros E; injection E as E _; by apply Hn3).
    assert (get_scheme true u = Some None) as ->.
    { unfold u. cbn [app get_scheme]. rewrite Hn2, Hn1. done. }
    cbv zeta beta iota. rewrite cut_none by (intros H; apply Hno in H; tauto). cbn [fst].
    rewrite (cut_none "/"%byte u) by (intros H; apply Hno in H; tauto). cbn [fst].
    assert (has ":"%byte u = true) as ->.
    { apply has_true. unfold u. apply elem_of_app. right. left. }
    unfold u. cbn [app]. destruct c; try reflexivity. by destruct Hn4. }
  assert (Hhp : hostport u (c :: r) port).
  { assert (Hcol : forall x, x ∈ numerals ++ lit "." -> x <> ":"%byte).
    { apply list.Forall_forall. unfold numerals. cbn. repeat (constructor; [vm_compute; congruence|]). constructor. }
    apply hp_plain.
    - split; intros H;
        [assert (Hu : "["%byte ∈ u) by (apply elem_of_app; by left)|assert (Hu : "]"%byte ∈ u) by (apply elem_of_app; by left)];
        apply Hno in Hu; tauto.
    - split; intros H;
        [assert (Hu : "["%byte ∈ u) by (apply elem_of_app; right; by right)|assert (Hu : "]"%byte ∈ u) by (apply elem_of_app; right; by right)];
        apply Hno in Hu; tauto.
    - intros H. by apply Hname, Hcol in H.
    - intros H. apply Hp in H. by apply (Hcol ":"%byte); [apply elem_of_app; by left|]. }
  unfold elect_address, raft_bind, raft_address. rewrite Hhost. split; [done|]. split; [done|]. split; [done|].
  intros z (Hne & Hz & Hr1). rewrite (proj2 (split_iff _ _ _) Hhp), (tcp_port_some _ z) by done.
  by rewrite (proj2 (Z.leb_le z 65535)) by lia.
Qed.

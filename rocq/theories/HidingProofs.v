(** Proof of the positive part of C09: a simulation with another key share. *)
From Verif Require Import GoBase Canonical SignState Spec SignStateProofs Crypto LocalCosigner Poly PolyProofs Scheme
  CosignerSpec CosignerProofs CosignerProofs2 NonceSpec NonceProofs KeySharesProofs HidingSpec.
Local Open Scope Z_scope.

Section Hiding.
Context (C : Crypto) (R : reading) (HS : threshold_scheme C R).
Context (cfg : cos_config) (HL : hiding_laws C R (cc_rsa cfg)) (x' : bytes) (P : list Z).
Notation F := (rd_f R).
Notation i := (cc_id cfg).
Notation t := (cc_threshold cfg).
Notation n := (cc_total cfg).
Notation cfg' := (with_share cfg x').
Notation io := (Z.to_nat (cc_id cfg - 1)).
Context (Hi : 1 <= i <= n) (Hn : n <= rd_max R) (HndP : NoDup P) (HP : forall j, j ∈ P -> 1 <= j <= n) (HiP : i ∉ P).
Context (HlP : Z.of_nat (length P) + 2 <= t).
Context (Hx : rd_is_scalar R (cc_share cfg)) (Hx' : rd_is_scalar R x') (HA : rd_is_point R (cc_pub cfg)).

(** two dealings for the same key: equal for the peers in [P], own shares differing by [d] *)
Record drel (d : F) (m m' : meta) : Prop := {
  dr_secret : m_secret m' = m_secret m;
  dr_sc : rd_is_scalar R (m_secret m);
  dr_ref : m_ref m' = m_ref m;
  dr_len : length (m_dealt m) = Z.to_nat n;
  dr_len' : length (m_dealt m') = Z.to_nat n;
  dr_ok : Forall (rd_is_scalar R) (m_dealt m);
  dr_ok' : Forall (rd_is_scalar R) (m_dealt m');
  dr_P : forall j, j ∈ P -> m_dealt m' !! Z.to_nat (j - 1) = m_dealt m !! Z.to_nat (j - 1);
  dr_own : forall b b', m_dealt m !! io = Some b -> m_dealt m' !! io = Some b' ->
    rd_scalar R b' = fadd F (rd_scalar R b) d }.
Definition good_slot (p : peer_meta) : Prop := pm_share p = [] \/ rd_is_scalar R (pm_share p) /\ rd_is_point R (pm_eph p).
(** the slots, equal except for the own one *)
Definition srel (h h' : gmap nat (list peer_meta)) (m : meta) : Prop :=
  exists L y, h !! m_ref m = Some L /\ h' !! m_ref m = Some (<[io := y]> L) /\ length L = Z.to_nat n /\ Forall good_slot L.
Definition own_in (h : gmap nat (list peer_meta)) (m : meta) : Prop :=
  exists L own, h !! m_ref m = Some L /\ m_dealt m !! io = Some own /\ L !! io = Some (PM own (cr_base C (m_secret m))).
Definition krel (d : F) (h h' : gmap nat (list peer_meta)) (m m' : meta) : Prop :=
  drel d m m' /\ srel h h' m /\ own_in h m /\ own_in h' m'.
Record rel (d : hrst -> F) (st st' : cos_state) : Prop := {
  re_lss : cs_lss st' = cs_lss st;
  re_next : cs_next st' = cs_next st;
  re_none : forall k, cs_meta st !! k = None -> cs_meta st' !! k = None;
  re_some : forall k m, cs_meta st !! k = Some m -> exists m', cs_meta st' !! k = Some m' /\ krel (d k) (cs_heap st) (cs_heap st') m m';
  re_lt : forall k m, cs_meta st !! k = Some m -> (m_ref m < cs_next st)%nat;
  re_inj : forall k1 k2 m1 m2, cs_meta st !! k1 = Some m1 -> cs_meta st !! k2 = Some m2 -> m_ref m1 = m_ref m2 -> k1 = k2 }.

Lemma krel_frame d h h' m m' h1 h1' : krel d h h' m m' -> h1 !! m_ref m = h !! m_ref m -> h1' !! m_ref m = h' !! m_ref m ->
  krel d h1 h1' m m'.
Proof.
  intros (D & S1 & O1 & O2) E E'. split; [done|]. unfold srel, own_in in *. rewrite (dr_ref _ _ _ D) in *. rewrite E, E'. done.
Qed.

(** ** another dealing *)
Lemma redeal s r d ref : rd_is_scalar R s -> exists r',
  drel d (Meta s (cr_deal C s r t n) ref) (Meta s (cr_deal C s r' t n) ref).
Proof.
  intros Hs. assert (Ht : 1 <= t) by lia. assert (Hn0 : 0 <= n <= rd_max R) by lia.
  destruct (sch_deal _ _ HS s r t n Hs Ht Hn0) as (p & Hpl & Hp0 & Hdl & Hdv).
  assert (Hnd : NoDup (i :: P)) by (by apply list.NoDup_cons).
  assert (Hr : forall j, j ∈ i :: P -> 1 <= j <= rd_max R).
  { intros j [-> |Hj]%elem_of_cons; [lia|]. specialize (HP _ Hj). lia. }
  destruct (hiding_ids C R HS _ Hnd Hr) as [Hnd' H0].
  set (ys := fadd F (peval F p (rd_id R i)) d :: map (fun j => peval F p (rd_id R j)) P).
  destruct (hiding F (sch_field _ _ HS) (map (rd_id R) (i :: P)) ys (rd_scalar R s) Hnd' H0) as (q & (Hql & Hq0 & Hqv) & _).
  { simpl. by rewrite !map_length. }
  destruct (hd_deal _ _ _ HL s t n q Hs Ht Hn0) as (r' & Hr'); [|done|].
  { rewrite Hql. simpl. rewrite map_length. lia. }
  destruct (sch_deal _ _ HS s r' t n Hs Ht Hn0) as (p' & _ & _ & Hdl' & Hdv').
  exists r'. constructor; cbn [m_secret m_ref m_dealt]; try done.
  - apply Forall_lookup. intros j b Hb. by apply Hdv in Hb as [? _].
  - apply Forall_lookup. intros j b Hb. by apply Hdv' in Hb as [? _].
  - intros j Hj. pose proof (HP _ Hj) as Hj1.
    destruct (lookup_lt_is_Some_2 (cr_deal C s r t n) (Z.to_nat (j - 1))) as [b Hb]; [lia|].
    destruct (lookup_lt_is_Some_2 (cr_deal C s r' t n) (Z.to_nat (j - 1))) as [b' Hb']; [lia|].
    rewrite Hb, Hb'. f_equal. eapply (hd_deal_enc _ _ _ HL); [done|done|].
    rewrite (Hr' _ _ Hb'), (proj2 (Hdv _ _ Hb)). replace (Z.of_nat (Z.to_nat (j - 1)) + 1) with j by lia.
    apply elem_of_list_lookup in Hj as [z Hz]. apply (Hqv (S z)); simpl; [by rewrite (list_lookup_fmap (rd_id R)), Hz|].
    by rewrite (list_lookup_fmap (fun j => peval F p (rd_id R j))), Hz.
  - intros b b' Hb Hb'. rewrite (Hr' _ _ Hb'), (proj2 (Hdv _ _ Hb)).
    replace (Z.of_nat io + 1) with i by lia. by apply (Hqv 0%nat).
Qed.

(** ** requests for parts *)
Lemma set_slot_at st m j y L : cs_heap st !! m_ref m = Some L -> 0 <= j < Z.of_nat (length L) ->
  set_slot st m j y = Some (with_heap st (<[m_ref m := <[Z.to_nat j := y]> L]> (cs_heap st))).
Proof.
  intros HL' Hj. unfold set_slot, peers_of. rewrite HL'. simpl.
  by rewrite (proj2 (idx_set_spec L j y _) (conj Hj eq_refl)).
Qed.
Lemma good_insert L j y : Forall good_slot L -> good_slot y -> Forall good_slot (<[j := y]> L).
Proof. intros H1 H2. by apply Forall_insert. Qed.

(** the part of [get_part] after the metadata lookup *)
Definition finish (c : cos_config) (st1 : cos_state) (m : meta) (id : Z) (re rs : bytes) : cos_state * outcome cos_error part :=
  let eph := cr_base C (m_secret m) in
  match idx (m_dealt m) (cc_id c - 1) with
  | None => (st1, Panic)
  | Some own =>
      match set_slot st1 m (cc_id c - 1) (PM own eph) with
      | None => (st1, Panic)
      | Some st2 =>
          match cc_peers c !! id with
          | None => (st2, Fail EUnknownPeer)
          | Some pk =>
              match idx (m_dealt m) (id - 1) with
              | None => (st2, Panic)
              | Some share =>
                  match cr_encrypt C pk share re with
                  | None => (st2, Fail EEncrypt)
                  | Some enc =>
                      match cr_rsa_sign C (cc_rsa c) (Payload (cc_id c) eph enc) rs with
                      | None => (st2, Fail ERsaSign)
                      | Some sig => (st2, Val (Part (cc_id c) id eph enc (Some sig)))
                      end
                  end
              end
          end
      end
  end.
Lemma get_part_finish c st k id rnd : get_part C c st k id rnd =
  match ensure_meta C c st k k (gr_deal rnd) with
  | (st1, Val m) => finish c st1 m id (gr_enc rnd) (gr_sig rnd)
  | (st1, Fail e) => (st1, Fail e)
  | (st1, Panic) => (st1, Panic)
  end.
Proof. unfold get_part, finish. by destruct (ensure_meta C c st k k (gr_deal rnd)) as [? [?|?|]]. Qed.

Definition same_outcome (o o' : outcome cos_error part) : Prop :=
  match o, o' with
  | Val p, Val p' => same_answer P (ObsPart p) (ObsPart p')
  | _, _ => o = o'
  end.
Lemma finish_rel d s1 s1' m m' id re rs s2 o : drel d m m' -> srel (cs_heap s1) (cs_heap s1') m ->
  finish cfg s1 m id re rs = (s2, o) -> o <> Panic ->
  exists L y own own' o', cs_heap s1 !! m_ref m = Some L /\ cs_heap s1' !! m_ref m = Some (<[io := y]> L) /\
    length L = Z.to_nat n /\ Forall good_slot L /\
    m_dealt m !! io = Some own /\ m_dealt m' !! io = Some own' /\ rd_is_scalar R own /\
    s2 = with_heap s1 (<[m_ref m := <[io := PM own (cr_base C (m_secret m))]> L]> (cs_heap s1)) /\
    finish cfg' s1' m' id re rs =
      (with_heap s1' (<[m_ref m := <[io := PM own' (cr_base C (m_secret m))]> L]> (cs_heap s1')), o') /\ same_outcome o o'.
Proof.
  intros D (L & y & HL1 & HL2 & Hlen & Hg) Hf Hp.
  destruct (lookup_lt_is_Some_2 (m_dealt m) io) as [own Hown]; [rewrite (dr_len _ _ _ D); lia|].
  destruct (lookup_lt_is_Some_2 (m_dealt m') io) as [own' Hown']; [rewrite (dr_len' _ _ _ D); lia|].
  assert (Hso : rd_is_scalar R own) by (eapply Forall_lookup_1; [apply (dr_ok _ _ _ D)|done]).
  exists L, y, own, own'. unfold finish in Hf |- *. cbn [cc_id with_share cc_peers cc_rsa] in *.
  rewrite (proj2 (idx_spec (m_dealt m) (i - 1) own)) in Hf by (split; [lia|done]).
  rewrite (proj2 (idx_spec (m_dealt m') (i - 1) own')) by (split; [lia|done]).
  rewrite (set_slot_at _ _ _ _ L HL1) in Hf by lia.
  rewrite (set_slot_at s1' m' _ _ (<[io := y]> L)) by (rewrite ?(dr_ref _ _ _ D), ?insert_length; first [done|lia]).
  rewrite (dr_ref _ _ _ D), (dr_secret _ _ _ D), list_insert_insert.
  assert (E0 : forall o0, (with_heap s1 (<[m_ref m:=<[io:=PM own (cr_base C (m_secret m))]> L]> (cs_heap s1)), o0) = (s2, o) ->
      s2 = with_heap s1 (<[m_ref m:=<[io:=PM own (cr_base C (m_secret m))]> L]> (cs_heap s1)) /\ o = o0) by (by intros ? [= <- <-]).
  destruct (cc_peers cfg !! id) as [pk|] eqn:Epk; [|apply E0 in Hf as [-> ->]; eexists; repeat (split; [done|]); done].
  destruct (idx (m_dealt m) (id - 1)) as [share|] eqn:Eix; [|apply E0 in Hf as [-> ->]; done].
  apply idx_spec in Eix as [Hid Hsh].
  destruct (lookup_lt_is_Some_2 (m_dealt m') (Z.to_nat (id - 1))) as [share' Hsh'].
  { apply lookup_lt_Some in Hsh. rewrite (dr_len _ _ _ D) in Hsh. by rewrite (dr_len' _ _ _ D). }
  rewrite (proj2 (idx_spec (m_dealt m') (id - 1) share')) by (split; [lia|done]).
  assert (Hs : rd_is_scalar R share) by (eapply Forall_lookup_1; [apply (dr_ok _ _ _ D)|done]).
  assert (Hs' : rd_is_scalar R share') by (eapply Forall_lookup_1; [apply (dr_ok' _ _ _ D)|done]).
  assert (HeqP : id ∈ P -> share' = share).
  { intros Hin. pose proof (dr_P _ _ _ D _ Hin) as E. rewrite Hsh, Hsh' in E. by injection E. }
  destruct (cr_encrypt C pk share re) as [enc|] eqn:Ee.
  - destruct (hd_encrypt _ _ _ HL pk share share' re Hs Hs') as [enc' Ee']; [by rewrite Ee|]. rewrite Ee'.
    assert (HeP : id ∈ P -> enc' = enc) by (intros Hin; rewrite (HeqP Hin), Ee in Ee'; by injection Ee').
    destruct (cr_rsa_sign C (cc_rsa cfg) (Payload i (cr_base C (m_secret m)) enc) rs) as [sg|] eqn:Es.
    + destruct (hd_rsa_sign _ _ _ HL _ (Payload i (cr_base C (m_secret m)) enc') rs (ex_intro _ _ Es)) as [sg' Es'].
      rewrite Es'. apply E0 in Hf as [-> ->]. eexists. do 8 (split; [done|]). split; [reflexivity|].
      unfold same_outcome, same_answer. cbn [pt_source pt_dest pt_eph]. do 3 (split; [done|]). intros Hin. rewrite (HeP Hin) in *. rewrite Es in Es'. by injection Es' as ->.
    + destruct (cr_rsa_sign C (cc_rsa cfg) (Payload i (cr_base C (m_secret m)) enc') rs) as [sg'|] eqn:Es'.
      { destruct (hd_rsa_sign _ _ _ HL _ (Payload i (cr_base C (m_secret m)) enc) rs (ex_intro _ _ Es')) as [? ?]. congruence. }
      apply E0 in Hf as [-> ->]. eexists. repeat (split; [done|]). done.
  - destruct (cr_encrypt C pk share' re) as [enc'|] eqn:Ee'.
    { destruct (hd_encrypt _ _ _ HL pk share' share re Hs' Hs) as [? ?]; [by rewrite Ee'|congruence]. }
    apply E0 in Hf as [-> ->]. eexists. repeat (split; [done|]). done.
Qed.

Lemma get_rel d st st' k id rnd st1 o : rel d st st' -> cstep C cfg st (OpGet k id rnd) = Some (st1, o) ->
  (forall s r, gr_deal rnd = Some (s, r) -> rd_is_scalar R s) ->
  exists rnd' st1' o', cstep C cfg' st' (OpGet k id rnd') = Some (st1', o') /\ same_answer P o o' /\ rel d st1 st1'.
Proof.
  intros HR Hs Hsc. simpl in Hs. destruct (get_part C cfg st k id rnd) as [s2 ov] eqn:Eg. rewrite get_part_finish in Eg.
  (* the metadata *)
  assert (Hem : (cs_meta st !! k = None /\ gr_deal rnd = None) \/
    exists rnd' s1 s1' m m', ensure_meta C cfg st k k (gr_deal rnd) = (s1, Val m) /\
      ensure_meta C cfg' st' k k (gr_deal rnd') = (s1', Val m') /\ gr_enc rnd' = gr_enc rnd /\ gr_sig rnd' = gr_sig rnd /\
      drel (d k) m m' /\ srel (cs_heap s1) (cs_heap s1') m /\
      cs_lss s1 = cs_lss st /\ cs_lss s1' = cs_lss st' /\ cs_next s1' = cs_next s1 /\
      cs_meta s1 = <[k := m]> (cs_meta st) /\ cs_meta s1' = <[k := m']> (cs_meta st') /\
      (m_ref m < cs_next s1)%nat /\ (cs_next st <= cs_next s1)%nat /\
      (forall k0 m0, k0 <> k -> cs_meta st !! k0 = Some m0 -> m_ref m0 <> m_ref m /\
        cs_heap s1 !! m_ref m0 = cs_heap st !! m_ref m0 /\ cs_heap s1' !! m_ref m0 = cs_heap st' !! m_ref m0)).
  { destruct (cs_meta st !! k) as [m|] eqn:Ek.
    - right. destruct (re_some _ _ _ HR _ _ Ek) as (m' & Ek' & D & S1 & O1 & O2).
      exists rnd, st, st', m, m'. unfold ensure_meta. rewrite Ek, Ek'. repeat (split; [done|]).
      split; [apply (re_next _ _ _ HR)|]. rewrite !insert_id by done. split; [done|]. split; [done|].
      split; [by eapply (re_lt _ _ _ HR)|]. split; [done|].
      intros k0 m0 Hne Hk0. split; [|done]. intros E. apply Hne. by eapply (re_inj _ _ _ HR).
    - destruct (gr_deal rnd) as [[s r]|] eqn:Er; [|by left]. right.
      destruct (redeal s r (d k) (cs_next st) (Hsc _ _ eq_refl)) as [r' D].
      pose proof (re_none _ _ _ HR _ Ek) as Ek'.
      exists (GetRnd (Some (s, r')) (gr_enc rnd) (gr_sig rnd)). unfold ensure_meta, deal_shares. rewrite Ek, Ek'. cbn [gr_deal gr_enc gr_sig].
      do 4 eexists. split; [reflexivity|]. split; [reflexivity|]. split; [done|]. split; [done|].
      cbn [with_share cc_threshold cc_total]. rewrite (re_next _ _ _ HR). split; [exact D|].
      cbn [with_meta cs_lss cs_meta cs_heap cs_next m_ref]. split.
      { exists (replicate (Z.to_nat n) empty_peer_meta), empty_peer_meta. cbn [m_ref]. rewrite !lookup_insert. split; [done|].
        split; [|split; [apply replicate_length|apply Forall_replicate; by left]].
        f_equal. symmetry. apply list_insert_id. apply lookup_replicate_2. lia. }
      repeat (split; [done|]). rewrite !insert_insert. split; [done|]. split; [done|]. split; [lia|]. split; [lia|].
      intros k0 m0 Hne Hk0. pose proof (re_lt _ _ _ HR _ _ Hk0). rewrite !lookup_insert_ne by lia. split; [lia|done]. }
  destruct Hem as [[Ek Er]|(rnd' & s1 & s1' & m & m' & E1 & E2 & Ee & Es & D & S1 & Hl & Hl' & Hnx & Hm & Hm' & Hlt & Hle & Hfr)].
  { exists rnd, st', (ObsErr ERand). unfold ensure_meta, deal_shares in Eg. rewrite Ek, Er in Eg. injection Eg as <- <-.
    injection Hs as <- <-. split; [|done]. simpl. rewrite get_part_finish. unfold ensure_meta, deal_shares.
    by rewrite (re_none _ _ _ HR _ Ek), Er. }
  rewrite E1 in Eg. assert (Hnp : ov <> Panic) by (by intros ->).
  destruct (finish_rel (d k) s1 s1' m m' id _ _ s2 ov D S1 Eg Hnp)
    as (L & y & own & own' & o' & HL1 & HL2 & Hlen & Hg & Ho & Ho' & Hso & Hs2 & Hf' & Hsame).
  set (s2' := with_heap s1' (<[m_ref m:=<[io:=PM own' (cr_base C (m_secret m))]> L]> (cs_heap s1'))) in Hf'.
  assert (Hrel : rel d s2 s2').
  { assert (Hio : (io < length L)%nat) by (rewrite Hlen; lia).
    subst s2 s2'. constructor; cbn [with_heap cs_lss cs_meta cs_heap cs_next].
    - by rewrite Hl, Hl', (re_lss _ _ _ HR).
    - done.
    - intros k0. rewrite Hm, Hm'. rewrite !lookup_insert_None. intros [H1 H2]. split; [by apply (re_none _ _ _ HR)|done].
    - intros k0 m0. rewrite Hm, Hm'. intros [[<- <-]|[Hne Hk0]]%lookup_insert_Some.
      + exists m'. rewrite lookup_insert. split; [done|]. split; [done|]. split; [|split].
        * exists (<[io := PM own (cr_base C (m_secret m))]> L), (PM own' (cr_base C (m_secret m))). rewrite !lookup_insert.
          rewrite list_insert_insert, insert_length. split; [done|]. split; [done|]. split; [done|].
          apply good_insert; [done|]. right. split; [done|]. apply (sch_base _ _ HS). apply (dr_sc _ _ _ D).
        * exists (<[io := PM own (cr_base C (m_secret m))]> L), own. rewrite lookup_insert. split; [done|]. split; [done|].
          by apply list_lookup_insert.
        * exists (<[io := PM own' (cr_base C (m_secret m))]> L), own'. rewrite (dr_ref _ _ _ D), (dr_secret _ _ _ D), lookup_insert.
          split; [done|]. split; [done|]. by apply list_lookup_insert.
      + destruct (re_some _ _ _ HR _ _ Hk0) as (m0' & Hk0' & HK). exists m0'.
        rewrite lookup_insert_ne by done. split; [done|].
        destruct (Hfr k0 m0 (not_eq_sym Hne) Hk0) as (Hrne & Hh & Hh').
        eapply krel_frame; [exact HK|rewrite lookup_insert_ne by done; exact Hh|rewrite lookup_insert_ne by done; exact Hh'].
    - intros k0 m0. rewrite Hm. intros [[<- <-]|[Hne Hk0]]%lookup_insert_Some; [done|].
      pose proof (re_lt _ _ _ HR _ _ Hk0). lia.
    - intros k1 k2 m1 m2. rewrite Hm. intros [[<- <-]|[Hne1 Hk1]]%lookup_insert_Some [[<- <-]|[Hne2 Hk2]]%lookup_insert_Some E.
      + done.
      + destruct (Hfr k2 m2 (not_eq_sym Hne2) Hk2) as (Hrne & _). congruence.
      + destruct (Hfr k1 m1 (not_eq_sym Hne1) Hk1) as (Hrne & _). congruence.
      + by eapply (re_inj _ _ _ HR). }
  assert (Hg' : get_part C cfg' st' k id rnd' = (s2', o')).
  { rewrite get_part_finish, E2, Ee, Es. exact Hf'. }
  destruct ov as [p|e|]; [| |done].
  - injection Hs as <- <-. destruct o' as [p'|e|]; [|done..].
    exists rnd', s2', (ObsPart p'). split; [simpl; by rewrite Hg'|]. split; [exact Hsame|exact Hrel].
  - injection Hs as <- <-. simpl in Hsame. assert (o' = Fail e) as -> by (by destruct o').
    exists rnd', s2', (ObsErr e). split; [simpl; by rewrite Hg'|]. split; [done|exact Hrel].
Qed.

(** ** stored parts *)
Lemma set_rel d st st' k p rnd st1 o : rel d st st' -> cstep C cfg st (OpSet k p rnd) = Some (st1, o) ->
  is_Some (cs_meta st !! k) ->
  (o = ObsSetOk -> pt_source p <> i /\
    exists x, cr_decrypt C (cc_rsa cfg) (pt_enc p) = Some x /\ rd_is_scalar R x /\ rd_is_point R (pt_eph p)) ->
  exists st1', cstep C cfg' st' (OpSet k p rnd) = Some (st1', o) /\ rel d st1 st1'.
Proof.
  intros HR Hs [m Hk] Hok. destruct (re_some _ _ _ HR _ _ Hk) as (m' & Hk' & D & (L & y & HL1 & HL2 & Hlen & Hg) & O1 & O2).
  simpl in Hs |- *. unfold set_part in Hs |- *. change (check_source C cfg' p) with (check_source C cfg p).
  destruct (check_source C cfg p) as [e|].
  { injection Hs as <- <-. by exists st'. }
  unfold ensure_meta in Hs |- *. rewrite Hk in Hs. rewrite Hk'. cbn [with_share cc_rsa].
  destruct (cr_decrypt C (cc_rsa cfg) (pt_enc p)) as [x|] eqn:Ed.
  2:{ injection Hs as <- <-. by exists st'. }
  destruct (set_slot st m (pt_source p - 1) (PM x (pt_eph p))) as [s2|] eqn:Es; [|discriminate].
  injection Hs as <- <-. destruct (Hok eq_refl) as (Hne & x1 & [= <-] & Hsx & Hpe). clear Hok.
  assert (Hrange : 0 <= pt_source p - 1 < Z.of_nat (length L)).
  { unfold set_slot in Es. destruct (idx_set _ _ _) eqn:E; [|discriminate]. apply idx_set_spec in E as [E _].
    unfold peers_of in E. rewrite HL1 in E. exact E. }
  rewrite (set_slot_at _ _ _ _ L HL1 Hrange) in Es. injection Es as <-.
  rewrite (set_slot_at st' m' _ _ (<[io := y]> L)) by (rewrite ?(dr_ref _ _ _ D), ?insert_length; done).
  eexists. split; [reflexivity|].
  set (js := Z.to_nat (pt_source p - 1)) in *. assert (Hjs : js <> io) by lia.
  rewrite (dr_ref _ _ _ D). rewrite (list_insert_commute L js io) by done.
  constructor; cbn [with_heap cs_lss cs_meta cs_heap cs_next]; [apply HR..| |apply HR|apply HR].
  intros k0 m0 Hk0. destruct (re_some _ _ _ HR _ _ Hk0) as (m0' & Hk0' & HK). exists m0'. split; [done|].
  destruct (decide (k0 = k)) as [-> |Hnk].
  - rewrite Hk in Hk0. injection Hk0 as <-. rewrite Hk' in Hk0'. injection Hk0' as <-.
    split; [done|]. split; [|split].
    + exists (<[js := PM x (pt_eph p)]> L), y. rewrite !lookup_insert, insert_length.
      split; [done|]. split; [done|]. split; [done|]. apply good_insert; [done|]. by right.
    + destruct O1 as (L1 & own & H1 & H2 & H3). rewrite HL1 in H1. injection H1 as <-.
      exists (<[js := PM x (pt_eph p)]> L), own. rewrite lookup_insert. split; [done|]. split; [done|]. by rewrite list_lookup_insert_ne.
    + destruct O2 as (L1 & own & H1 & H2 & H3). rewrite (dr_ref _ _ _ D) in H1. rewrite HL2 in H1. injection H1 as <-.
      exists (<[io := y]> (<[js := PM x (pt_eph p)]> L)), own. rewrite (dr_ref _ _ _ D), lookup_insert. split; [done|]. split; [done|].
      rewrite (list_insert_commute L io js) by done. by rewrite list_lookup_insert_ne.
  - assert (Hr : m_ref m0 <> m_ref m) by (intros E; apply Hnk; by eapply (re_inj _ _ _ HR)).
    eapply krel_frame; [exact HK|by rewrite lookup_insert_ne..].
Qed.

(** ** signing *)
Lemma sign_fresh_ok c st sb k m es ep sg : cs_meta st !! k = Some m ->
  cr_add_scalars C (map pm_share (used_parts (peers_of st m))) = Some es ->
  cr_add_elements C (map pm_eph (used_parts (peers_of st m))) = Some ep ->
  length es = 32%nat -> cr_sc_minimal C es = true -> cr_sign_share C sb (cc_share c) es (cc_pub c) ep = Some sg ->
  hrs_le (ss_hrs (cs_lss st)) (ht_hrs k) ->
  sign_fresh C c st sb k =
    (with_meta (with_lss st (save (set_eph (cs_lss st) ep) (SSC (ht_hrs k) (Some sg) (Some sb))).1) (prune_meta k (cs_meta st)),
     Val (SignResp (Some ep) (Some sg) true)).
Proof.
  intros Hm Hes Hep Hl Hmin Hsg Hle. destruct (sign_fresh C c st sb k) as [s o] eqn:E.
  pose proof (sign_fresh_spec C c st sb k s o E Hle) as Hsp.
  unfold sign_fresh in E. rewrite Hm, Hes, Hep, bool_decide_eq_true_2, Hmin, Hsg in E by done. cbn [negb] in E.
  fold (set_eph (cs_lss st) ep) in E. destruct (save _ _) as [l2 err] eqn:Es.
  destruct o as [r|e|].
  - destruct Hsp as (es1 & ep1 & sg1 & [(m1 & Hm1 & He1 & Hp1) _ _ Hs1] & -> & ->).
    rewrite Hm in Hm1. injection Hm1 as <-. rewrite Hes in He1. injection He1 as <-. rewrite Hep in Hp1. injection Hp1 as <-.
    rewrite Hsg in Hs1. injection Hs1 as <-. by rewrite Es.
  - subst s. exfalso. destruct err as [e'|]; [|discriminate].
    pose proof (save_regression_iff (set_eph (cs_lss st) ep) (SSC (ht_hrs k) (Some sg) (Some sb))) as (R1 & R2 & R3).
    rewrite Es in R1, R2, R3. simpl in R1, R2, R3. destruct e'; [..|discriminate].
    + apply proj1 in R1. specialize (R1 eq_refl). apply hrs_le_height in Hle. lia.
    + apply proj1 in R2. specialize (R2 eq_refl). destruct Hle as [Hle|Hle]; [unfold hrs_lt in Hle|rewrite Hle in R2]; lia.
    + apply proj1 in R3. specialize (R3 eq_refl). destruct Hle as [Hle|Hle]; [unfold hrs_lt in Hle|rewrite Hle in R3]; lia.
  - destruct err as [[]|]; discriminate.
Qed.

Lemma used_parts_ok l : Forall good_slot l ->
  Forall (rd_is_scalar R) (map pm_share (used_parts l)) /\ Forall (rd_is_point R) (map pm_eph (used_parts l)).
Proof.
  intros Hg.
  assert (H : forall p, p ∈ used_parts l -> rd_is_scalar R (pm_share p) /\ rd_is_point R (pm_eph p)).
  { intros p Hp. unfold used_parts in Hp. apply elem_of_list_filter in Hp as [Hne Hp]. apply elem_of_list_lookup in Hp as [j Hj].
    destruct (Forall_lookup_1 good_slot l j p Hg Hj) as [E|E]; [by destruct Hne|exact E]. }
  split; apply List.Forall_forall; intros b (p & <- & Hp%elem_of_list_In)%in_map_iff; by apply H.
Qed.

Let HFld : field_theory (f0 F) (f1 F) (fadd F) (fmul F) (fsub F) (fopp F) (fdiv F) (finv F) (@eq F) := sch_field _ _ HS.
Add Field rdf : HFld.

Lemma fresh_rel d st st' k m sb : rel d st st' -> cs_meta st !! k = Some m -> exists m' es es' ep sg sg',
  cs_meta st' !! k = Some m' /\
  cr_add_scalars C (map pm_share (used_parts (peers_of st m))) = Some es /\
  cr_add_elements C (map pm_eph (used_parts (peers_of st m))) = Some ep /\
  length es = 32%nat /\ cr_sc_minimal C es = true /\ cr_sign_share C sb (cc_share cfg) es (cc_pub cfg) ep = Some sg /\
  cr_add_scalars C (map pm_share (used_parts (peers_of st' m'))) = Some es' /\
  cr_add_elements C (map pm_eph (used_parts (peers_of st' m'))) = Some ep /\
  length es' = 32%nat /\ cr_sc_minimal C es' = true /\ cr_sign_share C sb x' es' (cc_pub cfg) ep = Some sg' /\
  (d k = fmul F (rd_challenge R ep (cc_pub cfg) sb) (fsub F (rd_scalar R (cc_share cfg)) (rd_scalar R x')) -> sg' = sg).
Proof.
  intros HR Hk. destruct (re_some _ _ _ HR _ _ Hk) as (m' & Hk' & D & (L & y & HL1 & HL2 & Hlen & Hg) & O1 & O2).
  destruct O1 as (L1 & own & H1 & Hown & H3). rewrite HL1 in H1. injection H1 as <-.
  destruct O2 as (L1 & own' & H1 & Hown' & H3'). rewrite (dr_ref _ _ _ D), HL2 in H1. injection H1 as <-.
  assert (Hio : (io < length L)%nat) by (rewrite Hlen; lia).
  rewrite list_lookup_insert in H3' by done. injection H3' as ->. rewrite (dr_secret _ _ _ D) in HL2.
  set (eph := cr_base C (m_secret m)) in *.
  assert (Hso : rd_is_scalar R own) by (eapply Forall_lookup_1; [apply (dr_ok _ _ _ D)|done]).
  assert (Hso' : rd_is_scalar R own') by (eapply Forall_lookup_1; [apply (dr_ok' _ _ _ D)|done]).
  assert (Hpe : rd_is_point R eph) by (apply (sch_base _ _ HS), (dr_sc _ _ _ D)).
  assert (Hne : forall b, rd_is_scalar R b -> b <> []).
  { intros b Hb ->. by apply (sch_scalar_len _ _ HS) in Hb. }
  set (xs := used_parts (take io L)). set (ys := used_parts (drop (S io) L)).
  assert (Hu : forall b, rd_is_scalar R b -> used_parts (take io L ++ PM b eph :: drop (S io) L) = xs ++ PM b eph :: ys).
  { intros b Hb. rewrite used_parts_app. f_equal. unfold used_parts. rewrite filter_cons_True; [done|by apply Hne]. }
  assert (Hp1 : used_parts (peers_of st m) = xs ++ PM own eph :: ys).
  { unfold peers_of. rewrite HL1. simpl. rewrite <- (take_drop_middle L io _ H3) at 1. by apply Hu. }
  assert (Hp2 : used_parts (peers_of st' m') = xs ++ PM own' eph :: ys).
  { unfold peers_of. rewrite (dr_ref _ _ _ D), HL2. simpl. rewrite insert_take_drop by done. by apply Hu. }
  destruct (used_parts_ok (take io L) (Forall_take _ _ _ Hg)) as [Hx1 Hx2].
  destruct (used_parts_ok (drop (S io) L) (Forall_drop _ _ _ Hg)) as [Hy1 Hy2]. fold xs in Hx1, Hx2. fold ys in Hy1, Hy2.
  destruct (sch_add_scalars _ _ HS (map pm_share xs ++ own :: map pm_share ys)) as (es & He1 & He2 & He3 & He4).
  { apply Forall_app. split; [done|]. by constructor. }
  destruct (sch_add_scalars _ _ HS (map pm_share xs ++ own' :: map pm_share ys)) as (es' & He1' & He2' & He3' & He4').
  { apply Forall_app. split; [done|]. by constructor. }
  destruct (sch_add_points _ _ HS (map pm_eph xs ++ eph :: map pm_eph ys)) as (ep & Hp & Hpp & _).
  { apply Forall_app. split; [done|]. by constructor. }
  destruct (sch_sign _ _ HS sb (cc_share cfg) es (cc_pub cfg) ep Hx He2 HA Hpp) as (sg & Hs1 & Hs2 & Hs3).
  destruct (sch_sign _ _ HS sb x' es' (cc_pub cfg) ep Hx' He2' HA Hpp) as (sg' & Hs1' & Hs2' & Hs3').
  exists m', es, es', ep, sg, sg'. rewrite Hp1, Hp2, !map_app. cbn [map pm_share pm_eph].
  split; [done|]. split; [done|]. split; [done|].
  split; [by apply (sch_scalar_len _ _ HS)|]. split; [done|]. split; [done|]. split; [done|]. split; [done|].
  split; [by apply (sch_scalar_len _ _ HS)|]. split; [done|]. split; [done|].
  intros Hd. eapply (hd_sign_enc _ _ _ HL); [exact Hs1'|exact Hs1|]. rewrite Hs3, Hs3', He4, He4'.
  rewrite !map_app, !(fsum_app _ (sch_field _ _ HS)). cbn [map]. rewrite !fsum_cons.
  rewrite (dr_own _ _ _ D _ _ Hown Hown'), Hd. ring.
Qed.

Lemma prune_rel d st st' k l : rel d st st' ->
  rel d (with_meta (with_lss st l) (prune_meta k (cs_meta st))) (with_meta (with_lss st' l) (prune_meta k (cs_meta st'))).
Proof.
  intros HR. constructor; cbn [with_meta with_lss cs_lss cs_meta cs_heap cs_next].
  - done.
  - apply HR.
  - intros k0. rewrite !prune_meta_lookup. destruct (decide _); [done|apply HR].
  - intros k0 m. rewrite !prune_meta_lookup. destruct (decide _); [done|apply HR].
  - intros k0 m. rewrite !prune_meta_lookup. destruct (decide _); [done|apply HR].
  - intros k1 k2 m1 m2. rewrite !prune_meta_lookup. destruct (decide _); [done|]. destruct (decide _); [done|apply HR].
Qed.

Lemma sign_rel d st st' sb st1 o : rel d st st' -> cstep C cfg st (OpSign sb) = Some (st1, o) ->
  (forall r k E, o = ObsShare sb r -> sr_fresh r = true -> unpack_hrst sb = Val k -> sr_eph r = Some E ->
     d k = fmul F (rd_challenge R E (cc_pub cfg) sb) (fsub F (rd_scalar R (cc_share cfg)) (rd_scalar R x'))) ->
  exists st1', cstep C cfg' st' (OpSign sb) = Some (st1', o) /\ rel d st1 st1'.
Proof.
  intros HR Hs Hd. simpl in Hs |- *. unfold sign in Hs |- *. rewrite (re_lss _ _ _ HR).
  destruct (unpack_hrst sb) as [k|e|] eqn:Ek; [|injection Hs as <- <-; by exists st'|discriminate].
  pose proof (check_hrs_spec (cs_lss st) (ht_hrs k)) as (T1 & T2 & _).
  assert (Hfresh : hrs_le (ss_hrs (cs_lss st)) (ht_hrs k) ->
    match sign_fresh C cfg st sb k with (s, Val r) => Some (s, ObsShare sb r) | (s, Fail e) => Some (s, ObsErr e) | (_, Panic) => None end
      = Some (st1, o) ->
    exists st1', match sign_fresh C cfg' st' sb k with (s, Val r) => Some (s, ObsShare sb r) | (s, Fail e) => Some (s, ObsErr e) | (_, Panic) => None end
      = Some (st1', o) /\ rel d st1 st1').
  { intros Hle Hf. destruct (cs_meta st !! k) as [m|] eqn:Em.
    - destruct (fresh_rel d st st' k m sb HR Em) as (m' & es & es' & ep & sg & sg' & Em' & A1 & A2 & A3 & A4 & A5 & B1 & B2 & B3 & B4 & B5 & Heq).
      rewrite (sign_fresh_ok cfg st sb k m es ep sg Em A1 A2 A3 A4 A5 Hle) in Hf. injection Hf as <- <-.
      assert (sg' = sg) as -> by (apply Heq; by eapply Hd).
      rewrite (sign_fresh_ok cfg' st' sb k m' es' ep sg Em' B1 B2 B3 B4 B5) by (by rewrite (re_lss _ _ _ HR)).
      eexists. split; [reflexivity|]. rewrite (re_lss _ _ _ HR). by apply prune_rel.
    - unfold sign_fresh in Hf |- *. rewrite Em in Hf. rewrite (re_none _ _ _ HR _ Em). injection Hf as <- <-. by exists st'. }
  destruct (check_hrs (cs_lss st) (ht_hrs k)) as [[]|e|]; [| |injection Hs as <- <-; by exists st'|discriminate].
  - destruct (proj1 T2 eq_refl) as (Heq & _). destruct (bytes_equal sb _); [injection Hs as <- <-; by exists st'|].
    destruct (only_differ_by_timestamp _ _ _) as [e|]; [injection Hs as <- <-; by exists st'|].
    apply Hfresh; [right; by rewrite Heq|exact Hs].
  - apply Hfresh; [left; by apply T1|exact Hs].
Qed.

Lemma lss_rel d st st' c st1 o : rel d st st' -> cstep C cfg st (OpLSS c) = Some (st1, o) ->
  exists st1', cstep C cfg' st' (OpLSS c) = Some (st1', o) /\ rel d st1 st1'.
Proof.
  intros HR Hs. simpl in Hs |- *. unfold save_lss in Hs |- *. rewrite (re_lss _ _ _ HR).
  destruct (save (cs_lss st) c) as [l e]. injection Hs as <- <-. eexists. split; [reflexivity|].
  constructor; simpl; apply HR || done.
Qed.

(** ** whole runs *)
Definition shifts (d : hrst -> F) (l : list (cop * cobs)) : Prop :=
  forall op sb r k E, (op, ObsShare sb r) ∈ l -> sr_fresh r = true -> unpack_hrst sb = Val k -> sr_eph r = Some E ->
    d k = fmul F (rd_challenge R E (cc_pub cfg) sb) (fsub F (rd_scalar R (cc_share cfg)) (rd_scalar R x')).
Lemma run_rel d st l st1 : crun C cfg st l st1 -> forall st', rel d st st' ->
  sets_known C cfg st l -> no_own_parts cfg l -> well_formed C R cfg l -> shifts d l ->
  exists l' st1', crun C cfg' st' l' st1' /\ same_view P l l'.
Proof.
  induction 1 as [st|st op s1 o l s2 Hs Hr IH]; intros st' HR Hk Hno [Hw1 Hw2] Hd.
  { exists [], st'. split; [constructor|constructor]. }
  assert (Hstep : exists op' o' s1', cstep C cfg' st' op' = Some (s1', o') /\ same_request op op' /\ same_answer P o o' /\ rel d s1 s1').
  { destruct op as [k id rnd|k p rnd|sb|c].
    - destruct (get_rel d st st' k id rnd s1 o HR Hs) as (rnd' & s1' & o' & H1 & H2 & H3).
      { intros s r. apply (Hw2 k id rnd o). left. }
      exists (OpGet k id rnd'), o', s1'. done.
    - destruct (set_rel d st st' k p rnd s1 o HR Hs) as (s1' & H1 & H2).
      { apply (Hk [] k p rnd o l st); [done|constructor]. }
      { intros ->. split; [apply (Hno k p rnd); left|apply (Hw1 k p rnd); left]. }
      exists (OpSet k p rnd), o, s1'. split; [done|]. split; [done|]. split; [|done].
      simpl in Hs. destruct (set_part C cfg st k p rnd) as [? [?|?|]]; [injection Hs as <- <-; done..|discriminate].
    - destruct (sign_rel d st st' sb s1 o HR Hs) as (s1' & H1 & H2).
      { intros r k E -> Hf. apply (Hd (OpSign sb) sb r); [left|done]. }
      exists (OpSign sb), o, s1'. split; [done|]. split; [done|]. split; [|done].
      simpl in Hs. destruct (sign C cfg st sb) as [? [?|?|]]; [injection Hs as <- <-; done..|discriminate].
    - destruct (lss_rel d st st' c s1 o HR Hs) as (s1' & H1 & H2).
      exists (OpLSS c), o, s1'. split; [done|]. split; [done|]. split; [|done].
      simpl in Hs. destruct (save_lss st c). injection Hs as <- <-. done. }
  destruct Hstep as (op' & o' & s1' & H1 & H2 & H3 & H4).
  destruct (IH s1' H4) as (l' & s2' & H5 & H6).
  - intros l1 k p rnd o1 l2 stm -> Hr1. apply (Hk ((op, o) :: l1) k p rnd o1 l2 stm); [done|]. by econstructor.
  - intros k p rnd Hin. apply (Hno k p rnd). by right.
  - split; [intros k p rnd Hin; apply (Hw1 k p rnd); by right|intros k id rnd o1 s r Hin; apply (Hw2 k id rnd o1); by right].
  - intros op1 sb r k E Hin. apply (Hd op1). by right.
  - exists ((op', o') :: l'), s2'. split; [by econstructor|]. by constructor.
Qed.

(** the first new share for a key *)
Fixpoint first_share (l : list (cop * cobs)) (k : hrst) : option (bytes * sign_resp) :=
  match l with
  | [] => None
  | (_, ObsShare sb r) :: l' =>
      if sr_fresh r && match unpack_hrst sb with Val k' => bool_decide (k' = k) | _ => false end then Some (sb, r) else first_share l' k
  | _ :: l' => first_share l' k
  end.
Lemma first_share_some l k sb r : first_share l k = Some (sb, r) ->
  sr_fresh r = true /\ unpack_hrst sb = Val k /\ exists op, (op, ObsShare sb r) ∈ l.
Proof.
  induction l as [|[op o] l IH]; [done|]. simpl. intros H.
  assert (Hrec : first_share l k = Some (sb, r) -> sr_fresh r = true /\ unpack_hrst sb = Val k /\ exists op0, (op0, ObsShare sb r) ∈ (op, o) :: l).
  { intros H'. destruct (IH H') as (H1 & H2 & op0 & H3). split; [done|]. split; [done|]. exists op0. by right. }
  destruct o as [p|sb' r'|c a| |e]; [by apply Hrec| |by apply Hrec..].
  destruct (sr_fresh r') eqn:Ef; simpl in H; [|by apply Hrec].
  destruct (unpack_hrst sb') as [k'|?|] eqn:Eu; [|by apply Hrec..].
  destruct (bool_decide_reflect (k' = k)) as [-> |]; [|by apply Hrec].
  injection H as <- <-. split; [done|]. split; [done|]. exists op. left.
Qed.
Lemma first_share_none l k op sb r : first_share l k = None -> (op, ObsShare sb r) ∈ l -> sr_fresh r = true ->
  unpack_hrst sb <> Val k.
Proof.
  induction l as [|[op0 o] l IH]; [by intros _ ?%elem_of_nil|]. simpl. intros H Hin Hf Hu.
  assert (Hrec : first_share l k = None -> (op, ObsShare sb r) ∈ l -> False) by (intros ? ?; by apply IH).
  apply elem_of_cons in Hin as [[= <- <-]|Hin].
  - rewrite Hf, Hu in H. simpl in H. by rewrite bool_decide_eq_true_2 in H.
  - destruct o as [p|sb' r'|c a| |e]; [by apply Hrec| |by apply Hrec..]. destruct (sr_fresh r' && _); [discriminate|by apply Hrec].
Qed.
Definition shift (l : list (cop * cobs)) (k : hrst) : F :=
  match first_share l k with
  | Some (sb, r) => fmul F (rd_challenge R (default [] (sr_eph r)) (cc_pub cfg) sb) (fsub F (rd_scalar R (cc_share cfg)) (rd_scalar R x'))
  | None => f0 F
  end.
Lemma shift_ok l : one_share_per_key l -> shifts (shift l) l.
Proof.
  intros H1 op sb r k E Hin Hf Hu HE. unfold shift. destruct (first_share l k) as [[sb0 r0]|] eqn:Ef.
  - apply first_share_some in Ef as (Hf0 & Hu0 & op0 & Hin0).
    destruct (H1 _ _ _ _ _ _ _ Hin0 Hin Hf0 Hf Hu0 Hu) as [-> He]. by rewrite He, HE.
  - by destruct (first_share_none _ _ _ _ _ Ef Hin Hf).
Qed.
Lemma rel_new d lss : rel d (new_cosigner lss) (new_cosigner lss).
Proof. constructor; intros; simpl in *; by rewrite ?lookup_empty in *. Qed.
End Hiding.

Lemma share_hidden C R cfg lss l st P x' : threshold_scheme C R -> hiding_laws C R (cc_rsa cfg) ->
  1 <= cc_id cfg <= cc_total cfg -> cc_total cfg <= rd_max R ->
  rd_is_scalar R (cc_share cfg) -> rd_is_point R (cc_pub cfg) ->
  NoDup P -> (forall j, j ∈ P -> 1 <= j <= cc_total cfg) -> cc_id cfg ∉ P -> Z.of_nat (length P) + 2 <= cc_threshold cfg ->
  crun C cfg (new_cosigner lss) l st ->
  sets_known C cfg (new_cosigner lss) l -> no_own_parts cfg l -> well_formed C R cfg l -> one_share_per_key l ->
  rd_is_scalar R x' ->
  exists l' st', crun C (with_share cfg x') (new_cosigner lss) l' st' /\ same_view P l l'.
Proof.
  intros HS HL Hi Hn Hx HA Hnd HP HiP HlP Hr Hk Hno Hw H1 Hx'.
  eapply (run_rel C R HS cfg HL x' P Hi Hn Hnd HP HiP HlP Hx Hx' HA (shift R cfg x' l)); [exact Hr|apply rel_new|done..|].
  by apply shift_ok.
Qed.

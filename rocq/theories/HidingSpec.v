(** Vocabulary for C09: what the answers of a cosigner say about its key share. *)
From Verif Require Import GoBase Canonical SignState Spec Crypto LocalCosigner Poly Scheme CosignerSpec.

(** further laws of the cryptographic functions: DealShares reaches every polynomial with the given
    secret, results are encoded in one way only, and RSA operations do not fail because of what is
    encrypted or signed with the cosigner's key [sk] *)
Record hiding_laws (C : Crypto) (R : reading) (sk : bytes) : Prop := {
  hd_deal : forall s t n p, rd_is_scalar R s -> 1 <= t -> 0 <= n <= rd_max R ->
    (length p <= Z.to_nat t)%nat -> peval (rd_f R) p (f0 (rd_f R)) = rd_scalar R s ->
    exists r, forall i b, cr_deal C s r t n !! i = Some b ->
      rd_scalar R b = peval (rd_f R) p (rd_id R (Z.of_nat i + 1));
  hd_deal_enc : forall s r s' r' t n i b b', cr_deal C s r t n !! i = Some b -> cr_deal C s' r' t n !! i = Some b' ->
    rd_scalar R b = rd_scalar R b' -> b = b';
  hd_sign_enc : forall m x k x' k' A E s s', cr_sign_share C m x k A E = Some s -> cr_sign_share C m x' k' A E = Some s' ->
    rd_scalar R s = rd_scalar R s' -> s = s';
  hd_encrypt : forall pk m m' r, rd_is_scalar R m -> rd_is_scalar R m' ->
    is_Some (cr_encrypt C pk m r) -> is_Some (cr_encrypt C pk m' r);
  hd_rsa_sign : forall p p' r, is_Some (cr_rsa_sign C sk p r) -> is_Some (cr_rsa_sign C sk p' r) }.

(** the same request, whatever random numbers the cosigner draws *)
Definition same_request (op op' : cop) : Prop :=
  match op, op' with
  | OpGet k id _, OpGet k' id' _ => k = k' /\ id = id'
  | OpSet k p _, OpSet k' p' _ => k = k' /\ p = p'
  | OpSign sb, OpSign sb' => sb = sb'
  | OpLSS c, OpLSS c' => c = c'
  | _, _ => False
  end.
(** the same answer as far as the peers in [P] can tell: parts for the others differ at most in the
    ciphertext and the signature over it *)
Definition same_answer (P : list Z) (o o' : cobs) : Prop :=
  match o, o' with
  | ObsPart p, ObsPart p' =>
      pt_source p = pt_source p' /\ pt_dest p = pt_dest p' /\ pt_eph p = pt_eph p' /\ (pt_dest p ∈ P -> p = p')
  | _, _ => o = o'
  end.
Definition same_view (P : list Z) (l l' : list (cop * cobs)) : Prop :=
  Forall2 (fun x y => same_request x.1 y.1 /\ same_answer P x.2 y.2) l l'.

(** the cosigner with another key share *)
Definition with_share (cfg : cos_config) (x : bytes) : cos_config :=
  CosConfig (cc_id cfg) x (cc_pub cfg) (cc_rsa cfg) (cc_total cfg) (cc_threshold cfg) (cc_peers cfg).

(** stored parts hold scalars and points; the cosigner's own secrets are scalars *)
Definition well_formed (C : Crypto) (R : reading) (cfg : cos_config) (l : list (cop * cobs)) : Prop :=
  (forall k p rnd, (OpSet k p rnd, ObsSetOk) ∈ l ->
     exists x, cr_decrypt C (cc_rsa cfg) (pt_enc p) = Some x /\ rd_is_scalar R x /\ rd_is_point R (pt_eph p)) /\
  (forall k id rnd o s r, (OpGet k id rnd, o) ∈ l -> gr_deal rnd = Some (s, r) -> rd_is_scalar R s).

(** new shares for one key are for the same bytes and the same nonce *)
Definition one_share_per_key (l : list (cop * cobs)) : Prop :=
  forall op1 op2 sb1 sb2 r1 r2 k, (op1, ObsShare sb1 r1) ∈ l -> (op2, ObsShare sb2 r2) ∈ l ->
    sr_fresh r1 = true -> sr_fresh r2 = true -> unpack_hrst sb1 = Val k -> unpack_hrst sb2 = Val k ->
    sb1 = sb2 /\ sr_eph r1 = sr_eph r2.

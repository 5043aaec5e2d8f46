(** What the cryptographic functions are assumed to compute, for the theorems about successful
    signing (C53-C56, C66). These are hypotheses of those theorems, stated as a predicate on a
    [Crypto] record; ToyScheme.v gives an instance that satisfies all of them.

    Sources: threshold-ed25519 (DealShares: Shamir sharing over the scalar field; SignWithShare:
    k + H(R, A, m) * x; CombineShares: Lagrange interpolation at 0), Ed25519 verification, RSA-OAEP
    and RSA-PSS. None of them is in /repo; call sites are cited in Crypto.v. *)
From Verif Require Import GoBase Crypto Poly.

(** the group generated by the base point, as a module over the scalar field *)
Record module_ops (F : field_ops) := ModuleOps {
  mcar :> Type;
  madd : mcar -> mcar -> mcar; m0 : mcar; mmul : F -> mcar -> mcar }.
Arguments madd {F m}. Arguments m0 {F m}. Arguments mmul {F m}.
Record is_module (F : field_ops) (G : module_ops F) : Prop := {
  mod_add_l : forall a b (x : G), mmul (fadd F a b) x = madd (mmul a x) (mmul b x);
  mod_mul : forall a b (x : G), mmul (fmul F a b) x = mmul a (mmul b x);
  mod_0 : forall x : G, mmul (f0 F) x = m0 }.

(** how byte strings stand for scalars and points *)
Record reading := Reading {
  rd_f : field_ops;
  rd_g : module_ops rd_f;
  rd_base : rd_g;                                (* the base point *)
  rd_scalar : bytes -> rd_f;                     (* the scalar of an encoding *)
  rd_is_scalar : bytes -> Prop;                  (* proper encodings *)
  rd_point : bytes -> rd_g;
  rd_is_point : bytes -> Prop;
  rd_challenge : bytes -> bytes -> bytes -> rd_f; (* H(R, A, m) *)
  rd_id : Z -> rd_f;                             (* share ID as a scalar *)
  rd_max : Z }.                                  (* largest share ID *)

Definition msum {F : field_ops} {G : module_ops F} (l : list G) : G := fold_right madd m0 l.

Record threshold_scheme (C : Crypto) (R : reading) : Prop := {
  sch_field : is_field (rd_f R);
  sch_module : is_module (rd_f R) (rd_g R);
  (** IDs are distinct and not 0 as scalars *)
  sch_id : forall i, 1 <= i <= rd_max R -> rd_id R i <> f0 (rd_f R);
  sch_id_inj : forall i j, 1 <= i <= rd_max R -> 1 <= j <= rd_max R -> rd_id R i = rd_id R j -> i = j;
  sch_scalar_len : forall b, rd_is_scalar R b -> length b = 32%nat;
  (** ScalarMultiplyBase *)
  sch_base : forall b, rd_is_scalar R b ->
    rd_is_point R (cr_base C b) /\ rd_point R (cr_base C b) = mmul (rd_scalar R b) (rd_base R);
  (** DealShares: values at 1..n of a polynomial with t coefficients and the secret at 0 *)
  sch_deal : forall s r t n, rd_is_scalar R s -> 1 <= t -> 0 <= n <= rd_max R ->
    exists p, (length p <= Z.to_nat t)%nat /\ peval (rd_f R) p (f0 (rd_f R)) = rd_scalar R s /\
      length (cr_deal C s r t n) = Z.to_nat n /\
      forall i b, cr_deal C s r t n !! i = Some b ->
        rd_is_scalar R b /\ rd_scalar R b = peval (rd_f R) p (rd_id R (Z.of_nat i + 1));
  (** AddScalars, AddElements *)
  sch_add_scalars : forall l, Forall (rd_is_scalar R) l -> exists b,
    cr_add_scalars C l = Some b /\ rd_is_scalar R b /\ cr_sc_minimal C b = true /\
    rd_scalar R b = fsum (rd_f R) (map (rd_scalar R) l);
  sch_add_points : forall l, Forall (rd_is_point R) l -> exists b,
    cr_add_elements C l = Some b /\ rd_is_point R b /\ rd_point R b = msum (map (rd_point R) l);
  (** SignWithShare *)
  sch_sign : forall m x k A E, rd_is_scalar R x -> rd_is_scalar R k -> rd_is_point R A -> rd_is_point R E ->
    exists s, cr_sign_share C m x k A E = Some s /\ rd_is_scalar R s /\
      rd_scalar R s = fadd (rd_f R) (rd_scalar R k) (fmul (rd_f R) (rd_challenge R E A m) (rd_scalar R x));
  (** CombineShares *)
  sch_combine : forall n ids l, 0 <= n <= rd_max R -> NoDup ids -> (forall i, i ∈ ids -> 1 <= i <= n) ->
    length l = length ids -> Forall (rd_is_scalar R) l -> exists b,
    cr_combine C n ids l = Some b /\ rd_is_scalar R b /\ cr_sc_minimal C b = true /\
    rd_scalar R b = interpolate (rd_f R) (map (rd_id R) ids) (map (rd_scalar R) l);
  (** signatures satisfying the Ed25519 equation, their scalar reduced, are accepted *)
  sch_verify : forall A m E s, rd_is_point R A -> rd_is_point R E -> rd_is_scalar R s -> cr_sc_minimal C s = true ->
    mmul (rd_scalar R s) (rd_base R) =
      madd (rd_point R E) (mmul (rd_challenge R E A m) (rd_point R A)) ->
    cr_verify C A m (E ++ s) = true }.

(** a matching RSA key pair: what is encrypted (or signed) with one half is decrypted (accepted)
    with the other; [R] limits encryption to scalars, the only plaintexts (OAEP has a size limit) *)
Record rsa_pair (C : Crypto) (R : reading) (sk pk : bytes) : Prop := {
  rsa_encrypts : forall m r, rd_is_scalar R m ->
    exists c, cr_encrypt C pk m r = Some c /\ cr_decrypt C sk c = Some m;
  rsa_signs : forall p r, exists s, cr_rsa_sign C sk p r = Some s /\ cr_rsa_verify C pk p s = true }.

(** Polynomials over a field and Lagrange interpolation at 0: the algebra behind
    gitlab.com/polychainlabs/threshold-ed25519 (DealShares, CombineShares), which is not in /repo
    and is called at signer/cosigner_key_shares.go:25, local_cosigner.go:279 and
    threshold_validator.go:443.

    A polynomial is the list of its coefficients, lowest first; [peval] is Horner's rule. The field
    is arbitrary (the code uses the integers modulo the prime order of the Ed25519 base point). *)
From Coq Require Export Field.
From Verif Require Import GoBase.

(** the operations of a field; that they form one is the hypothesis [is_field] of theorems *)
Record field_ops := FieldOps {
  fcar :> Type;
  f0 : fcar; f1 : fcar;
  fadd : fcar -> fcar -> fcar; fmul : fcar -> fcar -> fcar; fsub : fcar -> fcar -> fcar;
  fopp : fcar -> fcar; fdiv : fcar -> fcar -> fcar; finv : fcar -> fcar }.
Definition is_field (F : field_ops) : Prop :=
  field_theory (f0 F) (f1 F) (fadd F) (fmul F) (fsub F) (fopp F) (fdiv F) (finv F) (@eq F).

Section Poly.
Context (F : field_ops).

(** value at [x] *)
Fixpoint peval (p : list F) (x : F) : F :=
  match p with [] => f0 F | c :: p' => fadd F c (fmul F x (peval p' x)) end.

Definition fsum (l : list F) : F := fold_right (fadd F) (f0 F) l.

(** [xs !! i] without its [i]-th entry *)
Definition others (xs : list F) (i : nat) : list F := take i xs ++ drop (S i) xs.
(** Lagrange coefficient at 0: the product of x_j / (x_j - x_i) over j <> i *)
Definition lcoeff (xs : list F) (i : nat) (x : F) : F :=
  fold_right (fun xj acc => fmul F (fdiv F xj (fsub F xj x)) acc) (f1 F) (others xs i).
(** sum of coefficient times value *)
Definition interpolate (xs ys : list F) : F :=
  fsum (imap (fun i '(x, y) => fmul F (lcoeff xs i x) y) (zip xs ys)).
End Poly.

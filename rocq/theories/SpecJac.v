(** Specification: Jacobian coordinates.  The triple (X, Y, Z) stands for the point at infinity when
    Z = 0 and for the affine point (x, y) with X = x Z^2, Y = y Z^3 otherwise. *)
From Verif Require Import Base SpecField SpecEC.

Definition jrel {F} (K : field F) (J : F * F * F) (P : point F) : Prop :=
  let '(X, Y, Z) := J in
  match P with
  | Inf => Z = f0 K
  | Aff x y => Z <> f0 K /\ X = fmul K x (fmul K Z Z) /\ Y = fmul K y (fmul K Z (fmul K Z Z))
  end.

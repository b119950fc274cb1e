(** Specification: the elliptic curve y^2 = x^3 + a x + b over a field, its points, and the
    chord-and-tangent group law (GB/T 32918.1, section 3.2.3; the textbook affine formulas). *)
From Verif Require Import Base SpecField.

Inductive point (F : Type) := Inf | Aff (x y : F).
Arguments Inf {F}. Arguments Aff {F}.

Section EC.
  Context {F : Type} (K : field F) (a b : F).
  Infix "+" := (fadd K). Infix "*" := (fmul K). Infix "-" := (fsub K). Infix "/" := (fdiv K).

  Definition on_curve (P : point F) : Prop :=
    match P with Inf => True | Aff x y => y * y = x * x * x + a * x + b end.

  Definition ec_neg (P : point F) : point F :=
    match P with Inf => Inf | Aff x y => Aff x (fopp K y) end.

  (** the third point, given the slope of the line *)
  Definition ec_line (l x1 y1 x2 : F) : point F :=
    let x3 := l * l - x1 - x2 in Aff x3 (l * (x1 - x3) - y1).

  Definition ec_add (P Q : point F) : point F :=
    match P, Q with
    | Inf, _ => Q
    | _, Inf => P
    | Aff x1 y1, Aff x2 y2 =>
        if feq_dec K x1 x2 then
          if feq_dec K y1 (fopp K y2) then Inf
          else ec_line ((x1 * x1 + x1 * x1 + x1 * x1 + a) / (y1 + y1)) x1 y1 x1
        else ec_line ((y2 - y1) / (x2 - x1)) x1 y1 x2
    end.

  (** [k]P: P added to itself k times *)
  Fixpoint ec_mul (k : nat) (P : point F) : point F :=
    match k with O => Inf | S k' => ec_add P (ec_mul k' P) end.
End EC.

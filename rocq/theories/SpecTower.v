(** Specification: extension fields.  [Quad K d] is K[t]/(t^2 - d) for d not a square in K, with
    elements (a0, a1) for a0 + a1 t; [Cubic K d] is K[t]/(t^3 - d) for d not a cube in K, with
    elements (a0, a1, a2) for a0 + a1 t + a2 t^2.  Products are the schoolbook products of
    polynomials reduced by t^2 = d or t^3 = d. *)
From Coq Require Import Field.
From Verif Require Import Base SpecField.

Section Laws.
  (** the proofs are done over the operations of a field one by one *)
  Context {F : Type} (o i : F) (add mul sub : F -> F -> F) (opp : F -> F) (div : F -> F -> F) (inv : F -> F).
  Hypothesis FT : field_theory o i add mul sub opp div inv eq.
  Add Field FLD : FT.
  Infix "+" := add. Infix "*" := mul. Infix "-" := sub.
  Notation "- x" := (opp x).
  Variable eqd : forall x y : F, {x = y} + {x <> y}.
  Variable d : F.

  Lemma fl_i_nz : i <> o. Proof. exact (Field_theory.F_1_neq_0 FT). Qed.
  Lemma fl_mul_nz x y : x <> o -> y <> o -> x * y <> o.
  Proof.
    intros Hx Hy E. apply Hy. transitivity (inv x * (x * y)); [field; exact Hx|]. rewrite E. ring.
  Qed.
  Lemma fl_sub0 x y : x - y = o -> x = y.
  Proof. intros E. transitivity ((x - y) + y); [ring|]. rewrite E. ring. Qed.
  Lemma fl_inv_l x : x <> o -> inv x * x = i.
  Proof. intros H. field. exact H. Qed.

  Lemma quad_norm_nz : (forall x, x * x <> d) -> forall a0 a1, ~ (a0 = o /\ a1 = o) ->
    a0 * a0 - d * (a1 * a1) <> o.
  Proof.
    intros Hd a0 a1 H E. destruct (eqd a1 o) as [E1|N1].
    - subst a1. destruct (eqd a0 o) as [E0|N0]; [now apply H|].
      apply (fl_mul_nz a0 a0 N0 N0). rewrite <- E. ring.
    - apply (Hd (a0 * inv a1)). apply fl_sub0. transitivity ((a0 * a0 - d * (a1 * a1)) * (inv a1 * inv a1)).
      + field. exact N1.
      + rewrite E. ring.
  Qed.

  Definition cubA (a0 a1 a2 : F) := a0 * a0 - d * (a1 * a2).
  Definition cubB (a0 a1 a2 : F) := d * (a2 * a2) - a0 * a1.
  Definition cubC (a0 a1 a2 : F) := a1 * a1 - a0 * a2.
  Definition cubN (a0 a1 a2 : F) := a0 * cubA a0 a1 a2 + d * (a1 * cubC a0 a1 a2 + a2 * cubB a0 a1 a2).

  Lemma cubic_norm_nz : (forall x, x * x * x <> d) -> forall a0 a1 a2, ~ (a0 = o /\ a1 = o /\ a2 = o) ->
    cubN a0 a1 a2 <> o.
  Proof.
    intros Hd a0 a1 a2 H E.
    assert (Cube : forall x y, x * x * x = d * (y * y * y) -> y = o).
    { intros x y Exy. destruct (eqd y o) as [|N]; [assumption|exfalso].
      apply (Hd (x * inv y)). transitivity (x * x * x * (inv y * inv y * inv y)); [ring|].
      rewrite Exy. field. exact N. }
    assert (Cube0 : forall x, x * x * x = o -> x = o).
    { intros x Ex. destruct (eqd x o) as [|N]; [assumption|exfalso].
      exact (fl_mul_nz _ _ (fl_mul_nz x x N N) N Ex). }
    assert (E' : cubB a0 a1 a2 * cubB a0 a1 a2 * cubB a0 a1 a2
                 - d * (cubC a0 a1 a2 * cubC a0 a1 a2 * cubC a0 a1 a2) = o).
    { transitivity (cubN a0 a1 a2 * (d * (a2 * a2 * a2) - a1 * a1 * a1)).
      - unfold cubN, cubA, cubB, cubC. ring.
      - rewrite E. ring. }
    apply fl_sub0 in E'. pose proof (Cube _ _ E') as C0. rewrite C0 in E'.
    assert (B0 : cubB a0 a1 a2 = o) by (apply Cube0; rewrite E'; ring).
    unfold cubC in C0. unfold cubB in B0. apply fl_sub0 in C0. apply fl_sub0 in B0.
    assert (Z2 : a2 = o).
    { apply (Cube a1 a2). transitivity (a1 * (a1 * a1)); [ring|]. rewrite C0.
      transitivity (a2 * (a0 * a1)); [ring|]. rewrite <- B0. ring. }
    subst a2.
    assert (Z1 : a1 = o).
    { destruct (eqd a1 o) as [|N]; [assumption|exfalso]. apply (fl_mul_nz a1 a1 N N). rewrite C0. ring. }
    subst a1. apply H. split; [|now split].
    apply Cube0. rewrite <- E. unfold cubN, cubA. ring.
  Qed.
End Laws.

Section Ext.
  Context {F : Type} (K : field F) (d : F).
  Infix "+" := (fadd K). Infix "*" := (fmul K). Infix "-" := (fsub K).
  Notation "- x" := (fopp K x).

  (** ** Degree 2 *)
  Definition q_zero : F * F := (f0 K, f0 K).
  Definition q_one : F * F := (f1 K, f0 K).
  Definition q_add (x y : F * F) : F * F := (fst x + fst y, snd x + snd y).
  Definition q_sub (x y : F * F) : F * F := (fst x - fst y, snd x - snd y).
  Definition q_opp (x : F * F) : F * F := (- fst x, - snd x).
  Definition q_mul (x y : F * F) : F * F :=
    (fst x * fst y + d * (snd x * snd y), fst x * snd y + snd x * fst y).
  (** 1 / (a0 + a1 t) = (a0 - a1 t) / (a0^2 - d a1^2) *)
  Definition q_inv (x : F * F) : F * F :=
    let n := finv K (fst x * fst x - d * (snd x * snd x)) in (fst x * n, - (snd x * n)).
  Definition q_div (x y : F * F) : F * F := q_mul x (q_inv y).
  Lemma q_eq_dec (x y : F * F) : {x = y} + {x <> y}.
  Proof.
    destruct x as [x0 x1], y as [y0 y1].
    destruct (feq_dec K x0 y0) as [->|N]; [|right; congruence].
    destruct (feq_dec K x1 y1) as [->|N]; [now left|right; congruence].
  Defined.

  (** ** Degree 3 *)
  Definition c_zero : F * F * F := (f0 K, f0 K, f0 K).
  Definition c_one : F * F * F := (f1 K, f0 K, f0 K).
  Definition c_add (x y : F * F * F) : F * F * F :=
    let '(x0, x1, x2) := x in let '(y0, y1, y2) := y in (x0 + y0, x1 + y1, x2 + y2).
  Definition c_sub (x y : F * F * F) : F * F * F :=
    let '(x0, x1, x2) := x in let '(y0, y1, y2) := y in (x0 - y0, x1 - y1, x2 - y2).
  Definition c_opp (x : F * F * F) : F * F * F := let '(x0, x1, x2) := x in (- x0, - x1, - x2).
  Definition c_mul (x y : F * F * F) : F * F * F :=
    let '(x0, x1, x2) := x in
    let '(y0, y1, y2) := y in
    (x0 * y0 + d * (x1 * y2 + x2 * y1), x0 * y1 + x1 * y0 + d * (x2 * y2), x0 * y2 + x1 * y1 + x2 * y0).
  Definition c_inv (x : F * F * F) : F * F * F :=
    let '(x0, x1, x2) := x in
    let A := x0 * x0 - d * (x1 * x2) in
    let B := d * (x2 * x2) - x0 * x1 in
    let C := x1 * x1 - x0 * x2 in
    let n := finv K (x0 * A + d * (x1 * C + x2 * B)) in (A * n, B * n, C * n).
  Definition c_div (x y : F * F * F) : F * F * F := c_mul x (c_inv y).
  Lemma c_eq_dec (x y : F * F * F) : {x = y} + {x <> y}.
  Proof.
    destruct x as [[x0 x1] x2], y as [[y0 y1] y2].
    destruct (feq_dec K x0 y0) as [->|N]; [|right; congruence].
    destruct (feq_dec K x1 y1) as [->|N]; [|right; congruence].
    destruct (feq_dec K x2 y2) as [->|N]; [now left|right; congruence].
  Defined.
End Ext.

Section ExtLaws.
  Context {F : Type} (o i : F) (add mul sub : F -> F -> F) (opp : F -> F) (div : F -> F -> F) (inv : F -> F).
  Variable eqd : forall x y : F, {x = y} + {x <> y}.
  Hypothesis FT : field_theory o i add mul sub opp div inv eq.
  Add Field FLD2 : FT.
  Variable d : F.
  Let K := MkField F o i add mul sub opp div inv eqd FT.

  Lemma q_theory_ : (forall x, mul x x <> d) ->
    field_theory (q_zero K) (q_one K) (q_add K) (q_mul K d) (q_sub K) (q_opp K) (q_div K d) (q_inv K d) eq.
  Proof.
    intros Hd. constructor; [constructor|..].
    1-9: intros; repeat match goal with x : (F * F)%type |- _ => destruct x end;
      cbv [q_zero q_one q_add q_mul q_sub q_opp K SpecField.f0 SpecField.f1 fadd fmul fsub fopp fst snd]; f_equal; ring.
    - intros E. apply (f_equal fst) in E. cbn in E. exact (fl_i_nz _ _ _ _ _ _ _ _ FT E).
    - reflexivity.
    - intros [x0 x1] H. cbv [q_one q_mul q_inv K SpecField.f0 SpecField.f1 fadd fmul fsub fopp finv fst snd].
      assert (N : sub (mul x0 x0) (mul d (mul x1 x1)) <> o).
      { apply (quad_norm_nz _ _ _ _ _ _ _ _ FT eqd d Hd). intros [-> ->]. apply H. reflexivity. }
      f_equal.
      + field. exact N.
      + ring.
  Qed.

  Lemma c_theory_ : (forall x, mul (mul x x) x <> d) ->
    field_theory (c_zero K) (c_one K) (c_add K) (c_mul K d) (c_sub K) (c_opp K) (c_div K d) (c_inv K d) eq.
  Proof.
    intros Hd. constructor; [constructor|..].
    1-9: intros; repeat match goal with x : (F * F * F)%type |- _ => destruct x as [[? ?] ?] end;
      cbv [c_zero c_one c_add c_mul c_sub c_opp K SpecField.f0 SpecField.f1 fadd fmul fsub fopp]; f_equal; [f_equal|]; ring.
    - intros E. apply (f_equal (fun t => fst (fst t))) in E. cbn in E.
      exact (fl_i_nz _ _ _ _ _ _ _ _ FT E).
    - reflexivity.
    - intros [[x0 x1] x2] H. cbv [c_one c_mul c_inv K SpecField.f0 SpecField.f1 fadd fmul fsub fopp finv].
      pose proof (cubic_norm_nz _ _ _ _ _ _ _ _ FT eqd d Hd x0 x1 x2) as N.
      unfold cubN, cubA, cubB, cubC in N.
      assert (N' : add (mul x0 (sub (mul x0 x0) (mul d (mul x1 x2))))
          (mul d (add (mul x1 (sub (mul x1 x1) (mul x0 x2))) (mul x2 (sub (mul d (mul x2 x2)) (mul x0 x1))))) <> o).
      { apply N. intros (-> & -> & ->). apply H. reflexivity. }
      pose proof (fl_inv_l _ _ _ _ _ _ _ _ FT _ N') as I.
      match type of I with mul ?n ?m = i => set (nn := n) in *; set (mm := m) in * end.
      f_equal; [f_equal|].
      + transitivity (mul nn mm); [unfold mm; ring|exact I].
      + ring.
      + ring.
  Qed.
End ExtLaws.

Lemma q_theory {F} (K : field F) (d : F) : (forall x, fmul K x x <> d) ->
  field_theory (q_zero K) (q_one K) (q_add K) (q_mul K d) (q_sub K) (q_opp K) (q_div K d) (q_inv K d) eq.
Proof. intros Hd. destruct K as [k0 k1 ka km ks ko kd ki ke kt]. exact (q_theory_ k0 k1 ka km ks ko kd ki ke kt d Hd). Qed.
Lemma c_theory {F} (K : field F) (d : F) : (forall x, fmul K (fmul K x x) x <> d) ->
  field_theory (c_zero K) (c_one K) (c_add K) (c_mul K d) (c_sub K) (c_opp K) (c_div K d) (c_inv K d) eq.
Proof. intros Hd. destruct K as [k0 k1 ka km ks ko kd ki ke kt]. exact (c_theory_ k0 k1 ka km ks ko kd ki ke kt d Hd). Qed.

Definition Quad {F} (K : field F) (d : F) (Hd : forall x, fmul K x x <> d) : field (F * F) :=
  MkField (F * F) (q_zero K) (q_one K) (q_add K) (q_mul K d) (q_sub K) (q_opp K) (q_div K d) (q_inv K d)
    (q_eq_dec K) (q_theory K d Hd).
Definition Cubic {F} (K : field F) (d : F) (Hd : forall x, fmul K (fmul K x x) x <> d) : field (F * F * F) :=
  MkField (F * F * F) (c_zero K) (c_one K) (c_add K) (c_mul K d) (c_sub K) (c_opp K) (c_div K d) (c_inv K d)
    (c_eq_dec K) (c_theory K d Hd).

(** The formulas of the tower functions (ModelSM9) over an exact field are the operations of the
    extension fields of SpecTower. *)
From Coq Require Import Field.
From Verif Require Import Base SpecField SpecTower SpecJac ModelEC ProofJac ModelSM9.

Section Formulas.
  (** the formulas, over the operations of a field one by one *)
  Context {F : Type} (o i : F) (add mul sub : F -> F -> F) (opp : F -> F) (div : F -> F -> F) (inv : F -> F).
  Variable eqd : forall x y : F, {x = y} + {x <> y}.
  Hypothesis FT : field_theory o i add mul sub opp div inv eq.
  Add Field FLDT : FT.
  Let K := MkField F o i add mul sub opp div inv eqd FT.
  Infix "+" := add. Infix "*" := mul. Infix "-" := sub.
  Notation "- x" := (opp x).

  (** degree 2 over d *)
  Lemma kara2_ d a0 a1 b0 b1 :
    (a0 * b0 + d * (a1 * b1), (a0 + a1) * (b0 + b1) - a0 * b0 - a1 * b1) = q_mul K d (a0, a1) (b0, b1).
  Proof. cbv [q_mul K fadd fmul fst snd]. f_equal. ring. Qed.
  Lemma kara2n_ a0 a1 b0 b1 :
    (a0 * b0 - (a1 * b1 + a1 * b1), (a0 + a1) * (b0 + b1) - a0 * b0 - a1 * b1)
    = q_mul K (- (i + i)) (a0, a1) (b0, b1).
  Proof. cbv [q_mul K fadd fmul fst snd]. f_equal; ring. Qed.
  Lemma mulu_ a0 a1 : (- (a1 + a1), a0) = q_mul K (- (i + i)) (o, i) (a0, a1).
  Proof. cbv [q_mul K fadd fmul fst snd]. f_equal; ring. Qed.
  Lemma mult_ d a0 a1 : (d * a1, a0) = q_mul K d (o, i) (a0, a1).
  Proof. cbv [q_mul K fadd fmul fst snd]. f_equal; ring. Qed.
  Lemma mulf_ d a0 a1 b : (a0 * b, a1 * b) = q_mul K d (a0, a1) (b, o).
  Proof. cbv [q_mul K fadd fmul fst snd]. f_equal; ring. Qed.
  Lemma inv2n_ a0 a1 : (a0 * inv (a0 * a0 + (a1 * a1 + a1 * a1)), - (a1 * inv (a0 * a0 + (a1 * a1 + a1 * a1))))
    = q_inv K (- (i + i)) (a0, a1).
  Proof.
    cbv [q_inv K fadd fmul fsub fopp finv fst snd].
    replace (a0 * a0 - - (i + i) * (a1 * a1)) with (a0 * a0 + (a1 * a1 + a1 * a1)) by ring. reflexivity.
  Qed.
  Lemma dbl2_ a0 a1 : (a0 + a0, a1 + a1) = q_add K (a0, a1) (a0, a1).
  Proof. reflexivity. Qed.
  (** degree 3 over v *)
  Lemma kara3_ v a0 a1 a2 b0 b1 b2 :
    (v * ((a1 + a2) * (b1 + b2) - a1 * b1 - a2 * b2) + a0 * b0,
     (a0 + a1) * (b0 + b1) - a0 * b0 - a1 * b1 + v * (a2 * b2),
     (a0 + a2) * (b0 + b2) - a0 * b0 - a2 * b2 + a1 * b1) = c_mul K v (a0, a1, a2) (b0, b1, b2).
  Proof. cbv [c_mul K fadd fmul]. f_equal; [f_equal|]; ring. Qed.
  Lemma inv3_ v a0 a1 a2 :
    let A := a0 * a0 - v * (a1 * a2) in
    let B := v * (a2 * a2) - a0 * a1 in
    let C := a1 * a1 - a0 * a2 in
    let t := inv (v * (a1 * C + a2 * B) + a0 * A) in
    (A * t, B * t, C * t) = c_inv K v (a0, a1, a2).
  Proof.
    cbv [c_inv K fadd fmul fsub finv]. cbv zeta.
    match goal with |- (_ * inv ?x, _, _) = (_ * inv ?y, _, _) => replace x with y by ring end. reflexivity.
  Qed.
End Formulas.

Section Formulas2.
  Context {F : Type} (K : field F).
  Notation D := (fopp K (fadd K (f1 K) (f1 K))).
  Infix "+" := (fadd K). Infix "*" := (fmul K). Infix "-" := (fsub K).
  Lemma kara2 : forall d a0 a1 b0 b1,
    (a0 * b0 + d * (a1 * b1), (a0 + a1) * (b0 + b1) - a0 * b0 - a1 * b1) = q_mul K d (a0, a1) (b0, b1).
  Proof. destruct K as [k0 k1 ka km ks ko kd ki ke kt]. exact (kara2_ k0 k1 ka km ks ko kd ki ke kt). Qed.
  Lemma kara2n : forall a0 a1 b0 b1,
    (a0 * b0 - (a1 * b1 + a1 * b1), (a0 + a1) * (b0 + b1) - a0 * b0 - a1 * b1) = q_mul K D (a0, a1) (b0, b1).
  Proof. destruct K as [k0 k1 ka km ks ko kd ki ke kt]. exact (kara2n_ k0 k1 ka km ks ko kd ki ke kt). Qed.
  Lemma mulu : forall a0 a1, (fopp K (a1 + a1), a0) = q_mul K D (f0 K, f1 K) (a0, a1).
  Proof. destruct K as [k0 k1 ka km ks ko kd ki ke kt]. exact (mulu_ k0 k1 ka km ks ko kd ki ke kt). Qed.
  Lemma mult : forall d a0 a1, (d * a1, a0) = q_mul K d (f0 K, f1 K) (a0, a1).
  Proof. destruct K as [k0 k1 ka km ks ko kd ki ke kt]. exact (mult_ k0 k1 ka km ks ko kd ki ke kt). Qed.
  Lemma mulf : forall d a0 a1 b, (a0 * b, a1 * b) = q_mul K d (a0, a1) (b, f0 K).
  Proof. destruct K as [k0 k1 ka km ks ko kd ki ke kt]. exact (mulf_ k0 k1 ka km ks ko kd ki ke kt). Qed.
  Lemma inv2n : forall a0 a1,
    (a0 * finv K (a0 * a0 + (a1 * a1 + a1 * a1)), fopp K (a1 * finv K (a0 * a0 + (a1 * a1 + a1 * a1))))
    = q_inv K D (a0, a1).
  Proof. destruct K as [k0 k1 ka km ks ko kd ki ke kt]. exact (inv2n_ k0 k1 ka km ks ko kd ki ke kt). Qed.
  Lemma kara3 : forall v a0 a1 a2 b0 b1 b2,
    (v * ((a1 + a2) * (b1 + b2) - a1 * b1 - a2 * b2) + a0 * b0,
     (a0 + a1) * (b0 + b1) - a0 * b0 - a1 * b1 + v * (a2 * b2),
     (a0 + a2) * (b0 + b2) - a0 * b0 - a2 * b2 + a1 * b1) = c_mul K v (a0, a1, a2) (b0, b1, b2).
  Proof. destruct K as [k0 k1 ka km ks ko kd ki ke kt]. exact (kara3_ k0 k1 ka km ks ko kd ki ke kt). Qed.
  Lemma inv3 : forall v a0 a1 a2,
    let A := a0 * a0 - v * (a1 * a2) in
    let B := v * (a2 * a2) - a0 * a1 in
    let C := a1 * a1 - a0 * a2 in
    let t := finv K (v * (a1 * C + a2 * B) + a0 * A) in
    (A * t, B * t, C * t) = c_inv K v (a0, a1, a2).
  Proof. destruct K as [k0 k1 ka km ks ko kd ki ke kt]. exact (inv3_ k0 k1 ka km ks ko kd ki ke kt). Qed.
End Formulas2.

Section Tower.
  Context {F : Type} (K : field F).
  Variable d : F.
  Hypothesis Hd : d = fopp K (fadd K (f1 K) (f1 K)).
  Variable N2 : forall x, fmul K x x <> d.
  Notation K2 := (Quad K d N2).
  Notation u := (f0 K, f1 K).
  Variable N4 : forall x, fmul K2 x x <> u.
  Notation K4 := (Quad K2 u N4).
  Notation v := (f0 K2, f1 K2).
  Variable N12 : forall x, fmul K4 (fmul K4 x x) x <> v.
  Notation K12 := (Cubic K4 v N12).
  Notation O1 := (Fops K).

  (** ** F_p^2 *)
  Lemma fp2_add_eq x y : fp2_add O1 x y = fadd K2 x y. Proof. reflexivity. Qed.
  Lemma fp2_sub_eq x y : fp2_sub O1 x y = fsub K2 x y. Proof. reflexivity. Qed.
  Lemma fp2_neg_eq x : fp2_neg O1 x = fopp K2 x. Proof. reflexivity. Qed.
  Lemma fp2_dbl_eq x : fp2_dbl O1 x = fadd K2 x x. Proof. reflexivity. Qed.
  Lemma fp2_tpl_eq x : fp2_tpl O1 x = fadd K2 (fadd K2 x x) x. Proof. reflexivity. Qed.
  Lemma fp2_mul_eq x y : fp2_mul O1 x y = fmul K2 x y.
  Proof. destruct x as [a0 a1], y as [b0 b1]. pose proof (kara2n K a0 a1 b0 b1) as E. rewrite <- Hd in E. exact E. Qed.
  Lemma fp2_sqr_eq x : fp2_sqr O1 x = fmul K2 x x.
  Proof. destruct x as [a0 a1]. pose proof (kara2n K a0 a1 a0 a1) as E. rewrite <- Hd in E. exact E. Qed.
  Lemma fp2_mul_u_eq x : fp2_mul_u O1 x = fmul K2 u x.
  Proof. destruct x as [a0 a1]. pose proof (mulu K a0 a1) as E. rewrite <- Hd in E. exact E. Qed.
  Lemma fp2_mul_fp_eq x b : fp2_mul_fp O1 x b = fmul K2 x (b, f0 K).
  Proof. destruct x as [a0 a1]. exact (mulf K d a0 a1 b). Qed.
  Lemma fp2_inv_eq x : fp2_inv O1 x = finv K2 x.
  Proof. destruct x as [a0 a1]. pose proof (inv2n K a0 a1) as E. rewrite <- Hd in E. exact E. Qed.

  (** ** F_p^4 *)
  Lemma fp4_add_eq x y : fp4_add O1 x y = fadd K4 x y. Proof. reflexivity. Qed.
  Lemma fp4_sub_eq x y : fp4_sub O1 x y = fsub K4 x y. Proof. reflexivity. Qed.
  Lemma fp4_neg_eq x : fp4_neg O1 x = fopp K4 x. Proof. reflexivity. Qed.
  Lemma fp4_mul_eq x y : fp4_mul O1 x y = fmul K4 x y.
  Proof.
    destruct x as [a0 a1], y as [b0 b1]. unfold fp4_mul. cbv zeta.
    rewrite ?fp2_mul_eq, ?fp2_mul_u_eq. exact (kara2 K2 u a0 a1 b0 b1).
  Qed.
  Lemma fp4_sqr_eq x : fp4_sqr O1 x = fmul K4 x x.
  Proof.
    destruct x as [a0 a1]. unfold fp4_sqr. cbv zeta.
    rewrite ?fp2_sqr_eq, ?fp2_mul_u_eq. exact (kara2 K2 u a0 a1 a0 a1).
  Qed.
  Lemma fp4_mul_v_eq x : fp4_mul_v O1 x = fmul K4 v x.
  Proof.
    destruct x as [a0 a1]. unfold fp4_mul_v. cbv zeta. rewrite fp2_mul_u_eq. exact (mult K2 u a0 a1).
  Qed.
  Lemma fp4_mul_fp_eq x b : fp4_mul_fp O1 x b = fmul K4 x ((b, f0 K), f0 K2).
  Proof.
    destruct x as [a0 a1]. unfold fp4_mul_fp. rewrite !fp2_mul_fp_eq. exact (mulf K2 u a0 a1 (b, f0 K)).
  Qed.
  Lemma fp4_inv_eq x : fp4_inv O1 x = finv K4 x.
  Proof.
    destruct x as [a0 a1]. unfold fp4_inv. cbv zeta.
    rewrite ?fp2_sqr_eq, ?fp2_mul_u_eq, ?fp2_inv_eq, ?fp2_mul_eq. reflexivity.
  Qed.

  (** ** F_p^12 *)
  Lemma fp12_add_eq x y : fp12_add O1 x y = fadd K12 x y.
  Proof. destruct x as [[a0 a1] a2], y as [[b0 b1] b2]. reflexivity. Qed.
  Lemma fp12_sub_eq x y : fp12_sub O1 x y = fsub K12 x y.
  Proof. destruct x as [[a0 a1] a2], y as [[b0 b1] b2]. reflexivity. Qed.
  Lemma fp12_neg_eq x : fp12_neg O1 x = fopp K12 x.
  Proof. destruct x as [[a0 a1] a2]. reflexivity. Qed.
  Lemma fp12_mul_eq x y : fp12_mul O1 x y = fmul K12 x y.
  Proof.
    destruct x as [[a0 a1] a2], y as [[b0 b1] b2]. unfold fp12_mul. cbv zeta.
    rewrite ?fp4_mul_eq, ?fp4_mul_v_eq. exact (kara3 K4 v a0 a1 a2 b0 b1 b2).
  Qed.
  Lemma fp12_sqr_eq x : fp12_sqr O1 x = fmul K12 x x.
  Proof. apply fp12_mul_eq. Qed.
  Lemma fp12_inv_eq x : fp12_inv O1 x = finv K12 x.
  Proof.
    destruct x as [[a0 a1] a2]. unfold fp12_inv. cbv zeta.
    rewrite ?fp4_sqr_eq, ?fp4_mul_eq, ?fp4_mul_v_eq, ?fp4_inv_eq. exact (inv3 K4 v a0 a1 a2).
  Qed.
End Tower.

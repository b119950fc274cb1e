(** Specification: the SM9 parameters of GB/T 38635.1 (GM/T 0044.5) as numbers: the BN curve
    E: y^2 = x^3 + 5 over F_p, its twist E': y^2 = x^3 + 5u over F_p^2, the generators P1 and P2 of
    the groups of prime order N, and the tower F_p^2 = F_p[u]/(u^2 + 2), F_p^4 = F_p^2[v]/(v^2 - u),
    F_p^12 = F_p^4[w]/(w^3 - v). *)
From Coq Require Import Znumtheory.
From Verif Require Import Base SpecField SpecTower SpecEC ProofPrimes ProofSM9Res.

Definition SM9_p : Z := 0xB640000002A3A6F1D603AB4FF58EC74521F2934B1A7AEEDBE56F9B27E351457D.
Definition SM9_n : Z := 0xB640000002A3A6F1D603AB4FF58EC74449F2934B18EA8BEEE56EE19CD69ECF25.
(** G1 generator *)
Definition SM9_G1x : Z := 0x93DE051D62BF718FF5ED0704487D01D6E1E4086909DC3280E8C4E4817C66DDDD.
Definition SM9_G1y : Z := 0x21FE8DDA4F21E607631065125C395BBC1C1C00CBFA6024350C464CD70A3EA616.
(** G2 generator: the coordinates are x0 + x1 u and y0 + y1 u *)
Definition SM9_G2x1 : Z := 0x85AEF3D078640C98597B6027B441A01FF1DD2C190F5E93C454806C11D8806141.
Definition SM9_G2x0 : Z := 0x3722755292130B08D2AAB97FD34EC120EE265948D19C17ABF9B7213BAF82D65B.
Definition SM9_G2y1 : Z := 0x17509B092E845C1266BA0D262CBEE6ED0736A96FA347C8BD856DC76B84EBEB96.
Definition SM9_G2y0 : Z := 0xA7CF28D519BE3DA65F3170153D278FF247EFBA98A71A08116215BBA5C999A7C7.

Lemma SM9_p_prime : prime SM9_p. Proof. exact prime_sm9_p. Qed.
Lemma SM9_n_prime : prime SM9_n. Proof. exact prime_sm9_n. Qed.
Lemma SM9_p_gt2 : 2 < SM9_p. Proof. reflexivity. Qed.

(** ** The fields *)
Definition F1 : Type := fp SM9_p.
Definition K1 : field F1 := Fp SM9_p SM9_p_prime SM9_p_gt2.
Definition num (x : Z) : F1 := fof SM9_p x.

Lemma num_pow2_eq x c : fmul K1 x x = num c -> (fval x ^ 2) mod SM9_p = c mod SM9_p.
Proof.
  intros E. apply (f_equal fval) in E. rewrite Z.pow_2_r. exact E.
Qed.
Lemma neg2_nonsquare : forall x, fmul K1 x x <> num (-2).
Proof. intros x E. exact (sm9_neg2_nonsquare _ (num_pow2_eq x _ E)). Qed.

(** F_p^2: (a0, a1) is a0 + a1 u with u^2 = -2 *)
Definition F2 : Type := (F1 * F1)%type.
Definition K2 : field F2 := Quad K1 (num (-2)) neg2_nonsquare.
Definition u2 : F2 := (f0 K1, f1 K1).

Section Norms.
  (** norms, over the operations of a field one by one *)
  Context {F : Type} (o i : F) (add mul sub : F -> F -> F) (opp : F -> F) (div : F -> F -> F) (inv : F -> F).
  Variable eqd : forall x y : F, {x = y} + {x <> y}.
  Hypothesis FT : Field_theory.field_theory o i add mul sub opp div inv eq.
  Add Field FLDN : FT.
  Let K := MkField F o i add mul sub opp div inv eqd FT.
  Definition qnorm_ (d : F) (x : F * F) : F := sub (mul (fst x) (fst x)) (mul d (mul (snd x) (snd x))).
  Lemma qnorm_mul_ d x y : qnorm_ d (q_mul K d x y) = mul (qnorm_ d x) (qnorm_ d y).
  Proof. destruct x, y. cbv [qnorm_ q_mul K fadd fmul fst snd]. ring. Qed.
  Lemma qnorm_t_ d : qnorm_ d (o, i) = opp d.
  Proof. cbv [qnorm_ fst snd]. ring. Qed.
  Lemma qnorm_opp_ d x : qnorm_ d (q_opp K x) = qnorm_ d x.
  Proof. destruct x. cbv [qnorm_ q_opp K fopp fst snd]. ring. Qed.
End Norms.
(** the norm a0^2 - d a1^2 of a0 + a1 t *)
Definition qnorm {F} (K : field F) (d : F) (x : F * F) : F :=
  fsub K (fmul K (fst x) (fst x)) (fmul K d (fmul K (snd x) (snd x))).
Lemma qnorm_mul {F} (K : field F) d x y : qnorm K d (q_mul K d x y) = fmul K (qnorm K d x) (qnorm K d y).
Proof. destruct K as [k0 k1 ka km ks ko kd ki ke kt]. exact (qnorm_mul_ k0 k1 ka km ks ko kd ki ke kt d x y). Qed.
Lemma qnorm_t {F} (K : field F) d : qnorm K d (f0 K, f1 K) = fopp K d.
Proof. destruct K as [k0 k1 ka km ks ko kd ki ke kt]. exact (qnorm_t_ k0 k1 ka km ks ko kd ki kt d). Qed.
Lemma qnorm_opp {F} (K : field F) d x : qnorm K d (q_opp K x) = qnorm K d x.
Proof. destruct K as [k0 k1 ka km ks ko kd ki ke kt]. exact (qnorm_opp_ k0 k1 ka km ks ko kd ki ke kt d x). Qed.

Lemma num_opp_neg2 : fopp K1 (num (-2)) = num 2.
Proof. apply fval_inj. vm_compute. reflexivity. Qed.
Lemma u_nonsquare : forall x, fmul K2 x x <> u2.
Proof.
  intros x E. apply (f_equal (qnorm K1 (num (-2)))) in E.
  change (fmul K2 x x) with (q_mul K1 (num (-2)) x x) in E.
  rewrite qnorm_mul in E. change u2 with (f0 K1, f1 K1) in E. rewrite qnorm_t, num_opp_neg2 in E.
  exact (sm9_2_nonsquare _ (num_pow2_eq _ _ E)).
Qed.

(** F_p^4: (a0, a1) is a0 + a1 v with v^2 = u *)
Definition F4 : Type := (F2 * F2)%type.
Definition K4 : field F4 := Quad K2 u2 u_nonsquare.
Definition v4 : F4 := (f0 K2, f1 K2).

Lemma v_noncube : forall x, fmul K4 (fmul K4 x x) x <> v4.
Proof.
  intros x E. apply (f_equal (qnorm K2 u2)) in E.
  change (fmul K4 (fmul K4 x x) x) with (q_mul K2 u2 (q_mul K2 u2 x x) x) in E.
  rewrite !qnorm_mul in E. change v4 with (f0 K2, f1 K2) in E. rewrite qnorm_t in E.
  revert E. generalize (qnorm K2 u2 x). clear x. intros y E.
  apply (f_equal (qnorm K1 (num (-2)))) in E.
  change (fmul K2 (fmul K2 y y) y) with (q_mul K1 (num (-2)) (q_mul K1 (num (-2)) y y) y) in E.
  rewrite !qnorm_mul in E. change (fopp K2 u2) with (q_opp K1 u2) in E. rewrite qnorm_opp in E.
  change u2 with (f0 K1, f1 K1) in E. rewrite qnorm_t, num_opp_neg2 in E.
  revert E. generalize (qnorm K1 (num (-2)) y). clear y. intros z E.
  apply (sm9_2_noncube (fval z)). apply (f_equal fval) in E.
  change (fval (fmul K1 (fmul K1 z z) z)) with (((fval z * fval z) mod SM9_p * fval z) mod SM9_p) in E.
  rewrite Zmult_mod_idemp_l in E. change (fval (num 2)) with (2 mod SM9_p) in E.
  replace (fval z ^ 3) with (fval z * fval z * fval z) by ring. exact E.
Qed.

(** F_p^12: (a0, a1, a2) is a0 + a1 w + a2 w^2 with w^3 = v *)
Definition F12 : Type := (F4 * F4 * F4)%type.
Definition K12 : field F12 := Cubic K4 v4 v_noncube.
Definition w12 : F12 := (f0 K4, f1 K4, f0 K4).

(** integer powers of a non-negative exponent *)
Fixpoint fpow_nat {F} (K : field F) (x : F) (n : nat) : F :=
  match n with O => f1 K | S n' => fmul K x (fpow_nat K x n') end.
Definition fpow {F} (K : field F) (x : F) (e : Z) : F := fpow_nat K x (Z.to_nat e).

(** ** The curves and their generators *)
Definition E1_on (P : point F1) : Prop := on_curve K1 (num 0) (num 5) P.
Definition E1_add (P Q : point F1) : point F1 := ec_add K1 (num 0) P Q.
Definition E1_mul (k : Z) (P : point F1) : point F1 := ec_mul K1 (num 0) (Z.to_nat k) P.
Definition P1 : point F1 := Aff (num SM9_G1x) (num SM9_G1y).
Definition E2_on (P : point F2) : Prop := on_curve K2 (f0 K2) (num 0, num 5) P.
Definition E2_add (P Q : point F2) : point F2 := ec_add K2 (f0 K2) P Q.
Definition E2_mul (k : Z) (P : point F2) : point F2 := ec_mul K2 (f0 K2) (Z.to_nat k) P.
Definition P2 : point F2 := Aff (num SM9_G2x0, num SM9_G2x1) (num SM9_G2y0, num SM9_G2y1).

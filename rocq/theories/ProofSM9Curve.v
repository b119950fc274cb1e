(** The SM9 curves: no points of order two, the generators P1 and P2 have order n, every point of the
    curve over F_p has order n. *)
From Coq Require Import Znumtheory.
From Verif Require Import Base BaseFacts SpecField SpecEC SpecJac ProofEC ProofECMul ProofFast ProofPrimes
  ModelEC ProofJac ProofJacRep ProofZops ProofOrder SpecTower ProofSM9Res SpecSM9 ProofZops2 ProofSM9Steps1 ProofSM9Steps2.

(** ** 5 and 50 are not cubes modulo p *)
Definition sm9_omega : Z := 0xb640000002a3a6f0e303ab4ff2eb2052a9f02115caef75e70f738991676af249.
Lemma five_pow : 5 ^ (4 * sm9_m12) mod sm9_p = sm9_omega.
Proof.
  assert (E : ProofFast.fpow red_sm9_p 5 (Z.to_pos (4 * sm9_m12)) mod sm9_p = sm9_omega) by (vm_compute; reflexivity).
  rewrite (fpow_spec sm9_p red_sm9_p red_sm9_p_ok) in E. exact E.
Qed.
Lemma m5_noncube x : (x ^ 3) mod sm9_p <> (-5) mod sm9_p.
Proof.
  apply (no_root sm9_p 3 (4 * sm9_m12)).
  - exact prime_sm9_p.
  - rewrite sm9_m12_eq. ring.
  - reflexivity.
  - reflexivity.
  - vm_compute. discriminate.
  - assert (E : (-5) ^ (4 * sm9_m12) = 5 ^ (4 * sm9_m12)).
    { apply (Z.pow_opp_even 5). exists (2 * sm9_m12). ring. }
    rewrite E, five_pow. vm_compute. discriminate.
Qed.
Lemma m50_noncube x : (x ^ 3) mod sm9_p <> 50 mod sm9_p.
Proof.
  apply (no_root sm9_p 3 (4 * sm9_m12)).
  - exact prime_sm9_p.
  - rewrite sm9_m12_eq. ring.
  - reflexivity.
  - reflexivity.
  - vm_compute. discriminate.
  - pose proof sm9_m12_pos as P.
    assert (E2 : 2 ^ (4 * sm9_m12) mod sm9_p = sm9_alpha ^ 4 mod sm9_p) by (apply sm9_pow_2; [lia|reflexivity]).
    assert (E : 50 ^ (4 * sm9_m12) mod sm9_p = ((sm9_alpha ^ 4 mod sm9_p) * ((sm9_omega * sm9_omega) mod sm9_p)) mod sm9_p).
    { change 50 with (2 * (5 * 5)). rewrite !Z.pow_mul_l, Zmult_mod, E2, (Zmult_mod (5 ^ _)), five_pow. reflexivity. }
    rewrite E. clear. vm_compute. discriminate.
Qed.

(** ** The curve over F_p *)
Theorem E1_ok : curve_ok K1 (num 0) (num 5).
Proof.
  split.
  - intros E. apply (f_equal fval) in E. vm_compute in E. discriminate.
  - intros x E. apply (m5_noncube (fval x)). apply (f_equal fval) in E.
    cbn [K1 Fp f0 f1 fadd fmul] in E. unfold fp_add, fp_mul, num in E. rewrite !fval_fof in E.
    rewrite ?Zmult_mod_idemp_l, ?Zmult_mod_idemp_r, ?Zplus_mod_idemp_l, ?Zplus_mod_idemp_r in E.
    assert (G : forall v, ((v * v * v) mod SM9_p + (0 * v) mod SM9_p + 5) mod SM9_p = 0 mod SM9_p -> v ^ 3 mod sm9_p = -5 mod sm9_p).
    { clear. change sm9_p with SM9_p. intros v E.
      rewrite <- (Zplus_mod_idemp_l (_ + _)), <- Zplus_mod, Zplus_mod_idemp_l in E.
      replace (v ^ 3) with ((v * v * v + 0 * v + 5) - 5) by ring. rewrite Zminus_mod, E, <- Zminus_mod. reflexivity. }
    apply G. exact E.
Qed.
Theorem P1_on : E1_on P1.
Proof. apply fval_inj. vm_compute. reflexivity. Qed.

Lemma sm9_chain1 : chain_check SM9_p mp1 0 SM9_G1x SM9_G1y sm9_steps1 (SM9_n - 1) = true.
Proof. checked. Qed.
Notation zm1 := (zmul K1 (num 0)).
Theorem P1_order : zm1 SM9_n P1 = Inf.
Proof.
  refine (chain_inf SM9_p mp1 0 SM9_G1x SM9_G1y SM9_p_prime SM9_p_gt2 mp1_ok _ 5 E1_ok P1_on
    sm9_steps1 (SM9_n - 1) sm9_chain1).
  split; [discriminate|reflexivity].
Qed.
Lemma P1_finite : P1 <> Inf. Proof. discriminate. Qed.
Lemma sm9_count : 2 * Z.of_nat (length (fp_all SM9_p)) + 1 < 3 * SM9_n.
Proof. rewrite fp_all_length by reflexivity. vm_compute. reflexivity. Qed.
Theorem E1_generated P : E1_on P -> exists k, 0 <= k < SM9_n /\ P = zm1 k P1.
Proof.
  apply (order_all K1 (num 0) (num 5) E1_ok (fp_all SM9_p)).
  - intros x. now apply fp_all_in.
  - exact SM9_n_prime.
  - discriminate.
  - exact P1_on.
  - exact P1_order.
  - exact P1_finite.
  - exact sm9_count.
Qed.
Theorem E1_order P : E1_on P -> zm1 SM9_n P = Inf.
Proof.
  apply (order_all_n K1 (num 0) (num 5) E1_ok (fp_all SM9_p) SM9_n P1).
  - intros x. now apply fp_all_in.
  - exact SM9_n_prime.
  - discriminate.
  - exact P1_on.
  - exact P1_order.
  - exact P1_finite.
  - exact sm9_count.
Qed.

(** ** The twist over F_p^2 *)
Lemma qnorm_add5 : qnorm K1 (num (-2)) (fopp K2 (num 0, num 5)) = num 50.
Proof. apply fval_inj. vm_compute. reflexivity. Qed.
Theorem E2_ok : curve_ok K2 (f0 K2) (num 0, num 5).
Proof.
  split.
  - intros E. apply (f_equal fst) in E. apply (f_equal fval) in E. vm_compute in E. discriminate.
  - intros x E.
    assert (C : fmul K2 (fmul K2 x x) x = fopp K2 (num 0, num 5)).
    { pose proof (f_theory K2) as FT. revert E. generalize (fmul K2 (fmul K2 x x) x) (num 0, num 5). intros c d E.
      Add Field FK2c : (f_theory K2).
      transitivity (fsub K2 (fadd K2 (fadd K2 c (fmul K2 (f0 K2) x)) d) d); [ring|]. rewrite E. ring. }
    apply (f_equal (qnorm K1 (num (-2)))) in C. rewrite qnorm_add5 in C.
    change (fmul K2 (fmul K2 x x) x) with (q_mul K1 (num (-2)) (q_mul K1 (num (-2)) x x) x) in C.
    rewrite !qnorm_mul in C. revert C. generalize (qnorm K1 (num (-2)) x). clear. intros y C.
    apply (m50_noncube (fval y)). apply (f_equal fval) in C.
    change (fval (fmul K1 (fmul K1 y y) y)) with (((fval y * fval y) mod SM9_p * fval y) mod SM9_p) in C.
    rewrite Zmult_mod_idemp_l in C. change (fval (num 50)) with (50 mod SM9_p) in C.
    replace (fval y ^ 3) with (fval y * fval y * fval y) by ring. exact C.
Qed.
Theorem P2_on : E2_on P2.
Proof. unfold E2_on, on_curve, P2. apply injective_projections; apply fval_inj; vm_compute; reflexivity. Qed.
Lemma sm9_chain2 : chain_check2 (SM9_G2x0, SM9_G2x1) (SM9_G2y0, SM9_G2y1) sm9_steps2 (SM9_n - 1) = true.
Proof. checked. Qed.
Notation zm2 := (zmul K2 (f0 K2)).
Theorem P2_order : zm2 SM9_n P2 = Inf.
Proof.
  exact (chain_inf2 (SM9_G2x0, SM9_G2x1) (SM9_G2y0, SM9_G2y1) (f0 K2) (num 0, num 5) eq_refl E2_ok P2_on eq_refl
    sm9_steps2 (SM9_n - 1) sm9_chain2).
Qed.
Lemma P2_finite : P2 <> Inf. Proof. discriminate. Qed.

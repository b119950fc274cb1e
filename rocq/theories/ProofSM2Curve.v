(** The SM2 curve: no point of order two, the base point has order n, and so has every point. *)
From Coq Require Import Znumtheory.
From Verif Require Import Base BaseFacts SpecField SpecEC SpecJac ProofEC ProofECMul ProofFast ProofPrimes
  ModelEC ProofJac ProofJacRep ProofZops ProofOrder SpecSM2Curve ProofSM2Steps.

Lemma SM2_A_m3 : SM2_A = fof SM2_p (-3).
Proof. apply fof_eq. vm_compute. reflexivity. Qed.
Lemma SM2_A_opp : SM2_A = fopp SM2_K (fadd SM2_K (fadd SM2_K (f1 SM2_K) (f1 SM2_K)) (f1 SM2_K)).
Proof. apply fval_inj. vm_compute. reflexivity. Qed.

Lemma sm2_no_root : no_root_check SM2_p red_sm2_p (-3) SM2_b
  (0xeb9539fb12a69fa8a00429afc717f1319f0c8d5b6b742939772c4ea8ae886749,
   0xbbea3c6e4f9890bc31aef1ce9abbeaf4847d5c84bfa4437849cb29256264e8b1,
   0x4eacc0d01f9e2a10d4f0056c0628ef26e06a3759ce9c5557561509c6fc21376f) = true.
Proof. checked. Qed.

Theorem sm2_curve_ok : curve_ok SM2_K SM2_A SM2_B.
Proof.
  split.
  - intros E. apply (f_equal fval) in E. vm_compute in E. discriminate.
  - rewrite SM2_A_m3. unfold SM2_K, SM2_B.
    exact (no_root SM2_p SM2_p_prime SM2_p_gt2 red_sm2_p red_sm2_p_ok (-3) SM2_b _ sm2_no_root).
Qed.

(** multiplication by p *)
Definition mul_sm2_p (q : Z) : Z :=
  Z.shiftl q 256 - Z.shiftl q 224 - Z.shiftl q 96 + Z.shiftl q 64 - q.
Lemma mul_sm2_p_ok q : mul_sm2_p q = q * SM2_p.
Proof.
  unfold mul_sm2_p. rewrite !Z.shiftl_mul_pow2 by lia.
  replace SM2_p with (2 ^ 256 - 2 ^ 224 - 2 ^ 96 + 2 ^ 64 - 1) by reflexivity. ring.
Qed.

Lemma sm2_chain : chain_check SM2_p mul_sm2_p (-3) SM2_Gx SM2_Gy sm2_steps (SM2_n - 1) = true.
Proof. checked. Qed.

Theorem sm2_G_on : SM2_on SM2_G.
Proof. apply fval_inj. vm_compute. reflexivity. Qed.

Notation zm := (zmul SM2_K SM2_A).
Theorem sm2_G_order : zm SM2_n SM2_G = Inf.
Proof.
  rewrite SM2_A_m3.
  refine (chain_inf SM2_p mul_sm2_p (-3) SM2_Gx SM2_Gy SM2_p_prime SM2_p_gt2 mul_sm2_p_ok _ SM2_b _ _
    sm2_steps (SM2_n - 1) sm2_chain).
  - split; [discriminate|reflexivity].
  - rewrite <- SM2_A_m3. exact sm2_curve_ok.
  - rewrite <- SM2_A_m3. exact sm2_G_on.
Qed.
Lemma sm2_G_finite : SM2_G <> Inf. Proof. discriminate. Qed.

Lemma sm2_count : 2 * Z.of_nat (length (fp_all SM2_p)) + 1 < 3 * SM2_n.
Proof. rewrite fp_all_length by reflexivity. vm_compute. reflexivity. Qed.
Theorem sm2_generated P : SM2_on P -> exists k, 0 <= k < SM2_n /\ P = zm k SM2_G.
Proof.
  apply (order_all SM2_K SM2_A SM2_B sm2_curve_ok (fp_all SM2_p)).
  - intros x. now apply fp_all_in.
  - exact SM2_n_prime.
  - discriminate.
  - exact sm2_G_on.
  - exact sm2_G_order.
  - exact sm2_G_finite.
  - exact sm2_count.
Qed.
Theorem sm2_order P : SM2_on P -> zm SM2_n P = Inf.
Proof.
  apply (order_all_n SM2_K SM2_A SM2_B sm2_curve_ok (fp_all SM2_p) SM2_n SM2_G).
  - intros x. now apply fp_all_in.
  - exact SM2_n_prime.
  - discriminate.
  - exact sm2_G_on.
  - exact sm2_G_order.
  - exact sm2_G_finite.
  - exact sm2_count.
Qed.
Corollary sm2_mul_inf_iff P k : SM2_on P -> P <> Inf -> 0 <= k -> (zm k P = Inf <-> k mod SM2_n = 0).
Proof.
  intros HP H0. apply (zmul_inf_iff SM2_K SM2_A SM2_B sm2_curve_ok SM2_n P SM2_n_prime HP (sm2_order P HP) H0).
Qed.

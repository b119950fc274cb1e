(** The power (-2)^((p-1)/12) modulo the SM9 prime, and what it says about squares and cubes. *)
From Coq Require Import Znumtheory.
From Verif Require Import Base BaseFacts ProofFermat ProofFast ProofPrimes.

Definition sm9_alpha : Z := 0x3f23ea58e5720bdb843c6cfa9c08674947c5c86e0ddd04eda91d8354377b698b.
Definition sm9_m12 : Z := (sm9_p - 1) / 12.
Lemma sm9_m12_eq : sm9_p - 1 = 12 * sm9_m12. Proof. reflexivity. Qed.
Lemma sm9_m12_pos : 0 < sm9_m12. Proof. reflexivity. Qed.

Lemma sm9_alpha_pow : (-2) ^ sm9_m12 mod sm9_p = sm9_alpha.
Proof.
  assert (E : fpow red_sm9_p (-2) (Z.to_pos sm9_m12) mod sm9_p = sm9_alpha) by (vm_compute; reflexivity).
  rewrite (fpow_spec sm9_p red_sm9_p red_sm9_p_ok) in E. exact E.
Qed.
Lemma sm9_alpha6 : sm9_alpha ^ 6 mod sm9_p = sm9_p - 1. Proof. vm_compute. reflexivity. Qed.
Lemma sm9_alpha4 : (sm9_alpha ^ 4 mod sm9_p =? 1) = false. Proof. vm_compute. reflexivity. Qed.

Lemma pow_mod_l p a e : 0 <= e -> (a mod p) ^ e mod p = a ^ e mod p.
Proof.
  intros He. revert e He. apply natlike_ind; [reflexivity|]. intros e He IH.
  rewrite !Z.pow_succ_r by assumption. rewrite Zmult_mod, IH, Zmod_mod, <- Zmult_mod. reflexivity.
Qed.

Lemma no_root p k m c : prime p -> p - 1 = k * m -> 0 < k -> 0 < m -> c mod p <> 0 ->
  c ^ m mod p <> 1 -> forall x, x ^ k mod p <> c mod p.
Proof.
  intros Hp E Hk Hm Hc H x Hx. pose proof (prime_ge_2 p Hp) as H2.
  destruct (Z_zerop (x mod p)) as [Z|N].
  - apply Hc. rewrite <- Hx, <- pow_mod_l, Z by lia. rewrite Z.pow_0_l by assumption. apply Z.mod_0_l. lia.
  - apply H. rewrite <- pow_mod_l, <- Hx, pow_mod_l by lia. rewrite <- Z.pow_mul_r, <- E by lia.
    apply fermat; [assumption|]. intros D. apply N. now apply Zdivide_mod.
Qed.

Lemma sm9_pow_neg2 k : 0 <= k -> (-2) ^ (k * sm9_m12) mod sm9_p = sm9_alpha ^ k mod sm9_p.
Proof.
  intros Hk. rewrite Z.mul_comm, Z.pow_mul_r by (pose proof sm9_m12_pos; lia).
  rewrite <- pow_mod_l by assumption. now rewrite sm9_alpha_pow.
Qed.
Lemma sm9_pow_2 k : 0 <= k -> Z.even (k * sm9_m12) = true -> 2 ^ (k * sm9_m12) mod sm9_p = sm9_alpha ^ k mod sm9_p.
Proof.
  intros Hk He. rewrite <- sm9_pow_neg2 by assumption. f_equal.
  apply Z.even_spec in He. symmetry. exact (Z.pow_opp_even 2 _ He).
Qed.

Lemma sm9_neg2_nonsquare x : (x ^ 2) mod sm9_p <> (-2) mod sm9_p.
Proof.
  apply (no_root sm9_p 2 (6 * sm9_m12)).
  - exact prime_sm9_p.
  - rewrite sm9_m12_eq. ring.
  - reflexivity.
  - reflexivity.
  - vm_compute. discriminate.
  - rewrite sm9_pow_neg2, sm9_alpha6 by lia. vm_compute. discriminate.
Qed.
Lemma sm9_2_nonsquare x : (x ^ 2) mod sm9_p <> 2 mod sm9_p.
Proof.
  apply (no_root sm9_p 2 (6 * sm9_m12)).
  - exact prime_sm9_p.
  - rewrite sm9_m12_eq. ring.
  - reflexivity.
  - reflexivity.
  - vm_compute. discriminate.
  - rewrite sm9_pow_2, sm9_alpha6 by (lia || reflexivity). vm_compute. discriminate.
Qed.
Lemma sm9_2_noncube x : (x ^ 3) mod sm9_p <> 2 mod sm9_p.
Proof.
  apply (no_root sm9_p 3 (4 * sm9_m12)).
  - exact prime_sm9_p.
  - rewrite sm9_m12_eq. ring.
  - reflexivity.
  - reflexivity.
  - vm_compute. discriminate.
  - rewrite sm9_pow_2 by (lia || reflexivity). apply Z.eqb_neq. exact sm9_alpha4.
Qed.

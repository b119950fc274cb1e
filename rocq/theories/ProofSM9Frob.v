(** The Frobenius maps of sm9_field.cpp are the powers p, p^2, p^3 and p^6 in F_p^12, and every
    element satisfies x^(p^12) = x. *)
From Coq Require Import Field Znumtheory.
From Verif Require Import Base BaseFacts SpecField SpecTower ProofFermat ProofPrimes ProofSM9Res ModelEC ProofJac
  ModelSM9 SpecSM9 ProofTower ProofFrob ProofSM9Rep.
Global Opaque sm9_p sm9_alpha sm9_m12.

(** p and (p - 1)/12 as natural numbers, sealed so that nothing computes them *)
Lemma p_nat_sig : {n : nat | Z.of_nat n = SM9_p}.
Proof. exists (Z.to_nat SM9_p). apply Z2Nat.id. pose proof SM9_p_pos. lia. Qed.
Lemma m_nat_sig : {n : nat | Z.of_nat n = sm9_m12}.
Proof. exists (Z.to_nat sm9_m12). apply Z2Nat.id. pose proof sm9_m12_pos. lia. Qed.
Definition p_nat : nat := proj1_sig p_nat_sig.
Definition m_nat : nat := proj1_sig m_nat_sig.
Lemma p_nat_Z : Z.of_nat p_nat = SM9_p. Proof. exact (proj2_sig p_nat_sig). Qed.
Lemma m_nat_Z : Z.of_nat m_nat = sm9_m12. Proof. exact (proj2_sig m_nat_sig). Qed.
Lemma p_nat_12 : p_nat = (12 * m_nat + 1)%nat.
Proof.
  apply Nat2Z.inj. rewrite Nat2Z.inj_add, Nat2Z.inj_mul, p_nat_Z, m_nat_Z.
  pose proof sm9_m12_eq as E. change sm9_p with SM9_p in E. change (Z.of_nat 12) with 12. change (Z.of_nat 1) with 1. lia.
Qed.
Lemma p_nat_prime : prime (Z.of_nat p_nat).
Proof. rewrite p_nat_Z. exact SM9_p_prime. Qed.
Lemma fpow_p {F} (K : field F) x : fpow K x SM9_p = fpow_nat K x p_nat.
Proof. unfold fpow. f_equal. rewrite <- p_nat_Z. apply Nat2Z.id. Qed.

Global Opaque p_nat m_nat fpow.

(** ** F_p *)
Lemma num_mul a b : fmul K1 (num a) (num b) = num (a * b).
Proof. apply fval_inj. change ((a mod SM9_p * (b mod SM9_p)) mod SM9_p = (a * b) mod SM9_p). now rewrite <- Zmult_mod. Qed.
Lemma num_add a b : fadd K1 (num a) (num b) = num (a + b).
Proof. apply fval_inj. change ((a mod SM9_p + (b mod SM9_p)) mod SM9_p = (a + b) mod SM9_p). now rewrite <- Zplus_mod. Qed.
Lemma num_opp a : fopp K1 (num a) = num (- a).
Proof.
  apply fval_inj. change ((- (a mod SM9_p)) mod SM9_p = (- a) mod SM9_p).
  rewrite <- !Z.sub_0_l. apply Zminus_mod_idemp_r.
Qed.
Lemma num_pow a n : fpow_nat K1 (num a) n = num (a ^ Z.of_nat n).
Proof.
  induction n as [|n IH]; [reflexivity|]. cbn [fpow_nat]. rewrite IH, num_mul, Nat2Z.inj_succ, Z.pow_succ_r by lia. reflexivity.
Qed.
Lemma num_fval x : num (fval x) = x. Proof. apply fof_fval. Qed.
Lemma num_eq a b : a mod SM9_p = b mod SM9_p -> num a = num b.
Proof. intros E. now apply fof_eq. Qed.
Lemma K1_nsm n : nsm K1 n (f1 K1) = num (Z.of_nat n).
Proof.
  induction n as [|n IH]; [reflexivity|]. cbn [nsm]. rewrite IH. change (f1 K1) with (num 1). rewrite num_add.
  f_equal. lia.
Qed.
Lemma K1_char : nsm K1 p_nat (f1 K1) = f0 K1.
Proof.
  rewrite K1_nsm, p_nat_Z. change (f0 K1) with (num 0). apply num_eq.
  rewrite Z_mod_same_full, Z.mod_0_l; [reflexivity|]. pose proof SM9_p_pos. lia.
Qed.
Lemma K1_frob x : fpow_nat K1 x p_nat = x.
Proof.
  rewrite <- (num_fval x) at 1. rewrite num_pow, p_nat_Z. rewrite <- (num_fval x) at 2. apply num_eq.
  pose proof SM9_p_gt2 as G. pose proof (fval_range SM9_p x SM9_p_pos) as B.
  destruct (Z.eq_dec (fval x) 0) as [->|N]; [rewrite Z.pow_0_l by lia; reflexivity|].
  assert (E : fval x ^ SM9_p = fval x ^ (SM9_p - 1) * fval x).
  { generalize (fval x). intros v. transitivity (v ^ Z.succ (SM9_p - 1)); [f_equal; lia|].
    rewrite Z.pow_succ_r by lia. ring. }
  rewrite E, Zmult_mod.
  rewrite fermat; [|exact SM9_p_prime|intros D; apply Z.divide_pos_le in D; lia].
  rewrite Z.mul_1_l, Zmod_mod. reflexivity.
Qed.
Notation A := (num sm9_alpha).
Lemma neg2_pow k : fpow_nat K1 (num (-2)) (k * m_nat) = fpow_nat K1 A k.
Proof.
  rewrite !num_pow. apply num_eq. rewrite Nat2Z.inj_mul, m_nat_Z.
  exact (sm9_pow_neg2 (Z.of_nat k) ltac:(lia)).
Qed.
Lemma A6 : fpow_nat K1 A 6 = fopp K1 (f1 K1).
Proof.
  rewrite num_pow. change (f1 K1) with (num 1). rewrite num_opp. apply num_eq.
  change (Z.of_nat 6) with 6. pose proof sm9_alpha6 as E. change sm9_p with SM9_p in E. rewrite E.
  apply (Z.mod_unique_pos _ _ (-1)); pose proof SM9_p_gt2; lia.
Qed.

(** ** Constants *)
Notation A1 := (num (be_val SM9_ALPHA1_DATA)). Notation A2 := (num (be_val SM9_ALPHA2_DATA)).
Notation A3 := (num (be_val SM9_ALPHA3_DATA)). Notation A4 := (num (be_val SM9_ALPHA4_DATA)).
Notation A5 := (num (be_val SM9_ALPHA5_DATA)). Notation AB := (num (be_val SM9_BETA_DATA)).
Lemma alpha1_eq : A1 = A. Proof. apply fval_inj. vm_compute. reflexivity. Qed.
Lemma alpha2_eq : A2 = fmul K1 A A. Proof. apply fval_inj. vm_compute. reflexivity. Qed.
Lemma alpha3_eq : A3 = fmul K1 (fmul K1 A A) A. Proof. apply fval_inj. vm_compute. reflexivity. Qed.
Lemma alpha4_eq : A4 = fmul K1 (fmul K1 A A) (fmul K1 A A). Proof. apply fval_inj. vm_compute. reflexivity. Qed.
Lemma alpha5_eq : A5 = fmul K1 (fmul K1 (fmul K1 A A) (fmul K1 A A)) A. Proof. apply fval_inj. vm_compute. reflexivity. Qed.
Lemma beta_eq : AB = fmul K1 (fmul K1 A A) A. Proof. apply fval_inj. vm_compute. reflexivity. Qed.

(** ** Identities over any field *)
Section Ids.
  Context {F : Type} (K : field F).
  Add Field FKI : (f_theory K).
  Infix "*" := (fmul K). Infix "+" := (fadd K). Notation "- x" := (fopp K x).
  Variable d : F.
  Notation QM := (q_mul K d).
  Notation O := (Fops K).
  Lemma mul_neg1 x : x * - f1 K = - x. Proof. ring. Qed.
  Lemma mul_0_l x : f0 K * x = f0 K. Proof. ring. Qed.
  (** a product with an embedded constant is componentwise *)
  Lemma qm_emb x c : QM x (c, f0 K) = fp2_mul_fp O x c.
  Proof. destruct x as [a b]. unfold q_mul, fp2_mul_fp. cbn [fst snd o_mul Fops]. apply q_eq; ring. Qed.

  Variable a : F.
  Hypothesis H6 : a * (a * (a * (a * (a * (a * f1 K))))) = - f1 K.
  Lemma h6 x : x * a * a * a * a * a * a = - x.
  Proof. transitivity (x * (a * (a * (a * (a * (a * (a * f1 K))))))); [ring|]. rewrite H6. ring. Qed.
  Notation a2 := (a * a). Notation a3 := (a * a * a). Notation a4 := ((a * a) * (a * a)). Notation a5 := ((a * a) * (a * a) * a).
  Notation ph := (fp12_frobenius O a a2 a3 a4 a5).
  Ltac cmp := repeat (apply q_eq || apply c_eq);
    cbn [o_neg o_mul Fops].
  Lemma ph_ph x : ph (ph x) = fp12_frobenius2 O a2 a4 x.
  Proof.
    destruct x as [[[[x0 x1] [x2 x3]] [[x4 x5] [x6 x7]]] [[x8 x9] [x10 x11]]].
    unfold fp12_frobenius, fp12_frobenius2, fp4_conjugate, fp4_mul_fp, fp2_mul_fp, fp2_conjugate, fp2_neg.
    cbn [fst snd o_neg o_mul Fops].
    repeat (apply q_eq || apply c_eq); try ring.
    - transitivity (x2 * a * a * a * a * a * a); [ring|rewrite h6; ring].
    - transitivity (x3 * a * a * a * a * a * a); [ring|rewrite h6; ring].
    - transitivity (x6 * a * a * a * a * a * a * a * a); [ring|rewrite h6; ring].
    - transitivity (x7 * a * a * a * a * a * a * a * a); [ring|rewrite h6; ring].
    - transitivity (x10 * a * a * a * a * a * a * a * a * a * a); [ring|rewrite h6; ring].
    - transitivity (x11 * a * a * a * a * a * a * a * a * a * a); [ring|rewrite h6; ring].
  Qed.
  Lemma ph_ph2 x : ph (fp12_frobenius2 O a2 a4 x) = fp12_frobenius3 O a3 x.
  Proof.
    destruct x as [[[[x0 x1] [x2 x3]] [[x4 x5] [x6 x7]]] [[x8 x9] [x10 x11]]].
    unfold fp12_frobenius, fp12_frobenius2, fp12_frobenius3, fp4_conjugate, fp4_mul_fp, fp2_mul_fp, fp2_conjugate, fp2_neg.
    cbn [fst snd o_neg o_mul Fops].
    repeat (apply q_eq || apply c_eq); try ring.
    - transitivity (- (x6 * a * a * a * a * a * a)); [ring|]. rewrite h6. ring.
    - transitivity (x7 * a * a * a * a * a * a); [ring|]. rewrite h6. ring.
    - transitivity (x8 * a * a * a * a * a * a); [ring|]. rewrite h6. ring.
    - transitivity (- (x9 * a * a * a * a * a * a)); [ring|]. rewrite h6. ring.
    - transitivity (- (x10 * a * a * a * a * a * a) * a * a * a); [ring|]. rewrite h6. ring.
    - transitivity (x11 * a * a * a * a * a * a * a * a * a); [ring|]. rewrite h6. ring.
  Qed.
  Lemma ph3_ph3 x : fp12_frobenius3 O a3 (fp12_frobenius3 O a3 x) = fp12_frobenius6 O x.
  Proof.
    destruct x as [[[[x0 x1] [x2 x3]] [[x4 x5] [x6 x7]]] [[x8 x9] [x10 x11]]].
    unfold fp12_frobenius3, fp12_frobenius6, fp4_conjugate, fp4_neg, fp2_mul_fp, fp2_conjugate, fp2_neg.
    cbn [fst snd o_neg o_mul Fops].
    repeat (apply q_eq || apply c_eq); try ring.
    - transitivity (x2 * a * a * a * a * a * a); [ring|rewrite h6; ring].
    - transitivity (x3 * a * a * a * a * a * a); [ring|rewrite h6; ring].
    - transitivity (x4 * a * a * a * a * a * a); [ring|rewrite h6; ring].
    - transitivity (x5 * a * a * a * a * a * a); [ring|rewrite h6; ring].
    - transitivity (x10 * a * a * a * a * a * a); [ring|rewrite h6; ring].
    - transitivity (x11 * a * a * a * a * a * a); [ring|rewrite h6; ring].
  Qed.
  Lemma ph6_ph6 x : fp12_frobenius6 O (fp12_frobenius6 O x) = x.
  Proof.
    destruct x as [[[[x0 x1] [x2 x3]] [[x4 x5] [x6 x7]]] [[x8 x9] [x10 x11]]].
    unfold fp12_frobenius6, fp4_conjugate, fp4_neg, fp2_neg.
    cbn [fst snd o_neg o_mul Fops].
    repeat (apply q_eq || apply c_eq); ring.
  Qed.
End Ids.

(** ** The maps over field elements *)
Notation O1 := (Fops K1).
Definition phi (x : F12) : F12 := fp12_frobenius O1 A1 A2 A3 A4 A5 x.
Definition phi2 (x : F12) : F12 := fp12_frobenius2 O1 A2 A4 x.
Definition phi3 (x : F12) : F12 := fp12_frobenius3 O1 AB x.
Definition phi6 (x : F12) : F12 := fp12_frobenius6 O1 x.

Lemma K2_frob x : fpow_nat K2 x p_nat = fp2_conjugate O1 x.
Proof.
  destruct x as [a b].
  etransitivity; [exact (q_frob K1 (num (-2)) neg2_nonsquare p_nat (6 * m_nat) a b p_nat_prime K1_char
                           ltac:(pose proof p_nat_12; lia))|].
  rewrite !K1_frob, neg2_pow, A6, mul_neg1. reflexivity.
Qed.
Lemma K2_char : nsm K2 p_nat (f1 K2) = f0 K2.
Proof. etransitivity; [exact (q_nsm K1 _ neg2_nonsquare p_nat)|]. now rewrite K1_char. Qed.
Lemma u2_pow k : fpow_nat K2 u2 (2 * k) = (fpow_nat K1 (num (-2)) k, f0 K1).
Proof.
  rewrite pw_mul. assert (E : fpow_nat K2 u2 2 = (num (-2), f0 K1)).
  { transitivity (fmul K2 u2 u2); [exact (fpow_2 K2 u2)|]. exact (q_t_sq K1 (num (-2)) neg2_nonsquare). }
  rewrite E. exact (q_emb_pow K1 (num (-2)) neg2_nonsquare _ k).
Qed.
Lemma pw3 {F} (K : field F) x : fpow_nat K x 3 = fmul K (fmul K x x) x.
Proof.
  change 3%nat with (2 + 1)%nat. rewrite pw_add.
  change (fpow_nat K x 2) with (fpow K x 2). change (fpow_nat K x 1) with (fpow K x 1).
  now rewrite fpow_2, fpow_1.
Qed.
Lemma pw1 {F} (K : field F) x : fpow_nat K x 1 = x.
Proof. exact (fpow_1 K x). Qed.
Lemma K4_frob x : fpow_nat K4 x p_nat
  = (fp2_conjugate O1 (fst x), fp2_mul_fp O1 (fp2_conjugate O1 (snd x)) A3).
Proof.
  destruct x as [a b].
  etransitivity; [exact (q_frob K2 u2 u_nonsquare p_nat (2 * (3 * m_nat)) a b p_nat_prime K2_char
                           ltac:(pose proof p_nat_12; lia))|].
  rewrite !K2_frob, u2_pow, neg2_pow, pw3, <- alpha3_eq. cbn [fst snd].
  change (fmul K2) with (q_mul K1 (num (-2))). now rewrite qm_emb.
Qed.
Lemma K4_char : nsm K4 p_nat (f1 K4) = f0 K4.
Proof. etransitivity; [exact (q_nsm K2 _ u_nonsquare p_nat)|]. now rewrite K2_char. Qed.
Lemma v4_pow k : fpow_nat K4 v4 (4 * k) = ((fpow_nat K1 (num (-2)) k, f0 K1), f0 K2).
Proof.
  replace (4 * k)%nat with (2 * (2 * k))%nat by lia. rewrite pw_mul.
  assert (E : fpow_nat K4 v4 2 = (u2, f0 K2)).
  { transitivity (fmul K4 v4 v4); [exact (fpow_2 K4 v4)|]. exact (q_t_sq K2 u2 u_nonsquare). }
  rewrite E. etransitivity; [exact (q_emb_pow K2 u2 u_nonsquare u2 (2 * k))|]. now rewrite u2_pow.
Qed.
Lemma K4_emb_mul x c : fmul K4 x ((c, f0 K1), f0 K2) = fp4_mul_fp O1 x c.
Proof.
  symmetry. exact (@fp4_mul_fp_eq F1 K1 (num (-2)) neg2_nonsquare u_nonsquare x c).
Qed.
Lemma pw2 {F} (K : field F) x : fpow_nat K x 2 = fmul K x x.
Proof. exact (fpow_2 K x). Qed.
Lemma A_tower x : fp2_mul_fp O1 (fp2_mul_fp O1 x A3) A = fp2_mul_fp O1 x A4.
Proof.
  rewrite alpha3_eq, alpha4_eq. generalize A. intros a. destruct x as [x0 x1]. unfold fp2_mul_fp.
  cbn [fst snd o_mul Fops].
  pose proof (Rmul_assoc (F_R (f_theory K1))) as H. apply q_eq; now rewrite !H.
Qed.
Lemma phi_pow x : phi x = fpow_nat K12 x p_nat.
Proof.
  destruct x as [[x0 x1] x2]. symmetry.
  etransitivity; [exact (c_frob K4 v4 v_noncube p_nat (4 * (1 * m_nat)) x0 x1 x2 p_nat_prime K4_char
                           ltac:(pose proof p_nat_12; lia))|].
  rewrite v4_pow, neg2_pow, pw1, !K4_frob.
  assert (E : fmul K4 ((A, f0 K1), f0 K2) ((A, f0 K1), f0 K2) = ((fmul K1 A A, f0 K1), f0 K2)).
  { rewrite K4_emb_mul. unfold fp4_mul_fp, fp2_mul_fp. cbn [fst snd o_mul Fops].
    change (f0 K2) with (f0 K1, f0 K1). cbn [fst snd]. now rewrite mul_0_l. }
  rewrite E, !K4_emb_mul. unfold phi, fp12_frobenius, fp4_mul_fp. cbn [fst snd].
  rewrite !A_tower, alpha1_eq, <- alpha2_eq.
  apply c_eq; [reflexivity|reflexivity|].
  apply q_eq; [reflexivity|].
  rewrite alpha2_eq, alpha3_eq, alpha5_eq.
  unfold fp2_mul_fp. cbn [fst snd o_mul Fops].
  pose proof (Rmul_assoc (F_R (f_theory K1))) as H. apply q_eq; now rewrite !H.
Qed.

Theorem phi_spec x : phi x = fpow K12 x SM9_p.
Proof. rewrite fpow_p. apply phi_pow. Qed.
Lemma phi_phi x : phi (phi x) = phi2 x.
Proof.
  unfold phi, phi2. rewrite alpha1_eq, alpha2_eq, alpha3_eq, alpha4_eq, alpha5_eq. exact (ph_ph K1 A A6 x).
Qed.
Lemma phi_phi2 x : phi (phi2 x) = phi3 x.
Proof.
  unfold phi, phi2, phi3. rewrite alpha1_eq, alpha2_eq, alpha3_eq, alpha4_eq, alpha5_eq, beta_eq.
  exact (ph_ph2 K1 A A6 x).
Qed.
Lemma phi3_phi3 x : phi3 (phi3 x) = phi6 x.
Proof. unfold phi3, phi6. rewrite beta_eq. exact (ph3_ph3 K1 A A6 x). Qed.
Lemma p_nn : 0 <= SM9_p. Proof. pose proof SM9_p_pos. lia. Qed.
Lemma pk_nn k : 0 <= SM9_p ^ k. Proof. apply Z.pow_nonneg. exact p_nn. Qed.
Theorem phi2_spec x : phi2 x = fpow K12 x (SM9_p ^ 2).
Proof. rewrite <- phi_phi, !phi_spec, Z.pow_2_r. symmetry. apply fpow_mul; exact p_nn. Qed.
Theorem phi3_spec x : phi3 x = fpow K12 x (SM9_p ^ 3).
Proof.
  rewrite <- phi_phi2, phi_spec, phi2_spec. rewrite <- fpow_mul; [f_equal; ring|apply pk_nn|exact p_nn].
Qed.
Theorem phi6_spec x : phi6 x = fpow K12 x (SM9_p ^ 6).
Proof.
  rewrite <- phi3_phi3, !phi3_spec. rewrite <- fpow_mul; [f_equal; ring|apply pk_nn|apply pk_nn].
Qed.
Theorem fpow_p12 x : fpow K12 x (SM9_p ^ 12) = x.
Proof.
  transitivity (phi6 (phi6 x)); [|exact (ph6_ph6 K1 x)].
  rewrite !phi6_spec. rewrite <- fpow_mul; [f_equal; ring|apply pk_nn|apply pk_nn].
Qed.
Theorem fpow_p12_1 x : x <> f0 K12 -> fpow K12 x (SM9_p ^ 12 - 1) = f1 K12.
Proof.
  intros N. assert (B : 1 <= SM9_p ^ 12) by (pose proof (Z.pow_pos_nonneg SM9_p 12 SM9_p_pos ltac:(lia)); lia).
  pose proof (fpow_p12 x) as E. replace (SM9_p ^ 12) with ((SM9_p ^ 12 - 1) + 1) in E by ring.
  rewrite fpow_add, fpow_1 in E by lia. set (y := fpow K12 x (SM9_p ^ 12 - 1)) in *. clearbody y.
  exact (mul_cancel1 K12 x y N E).
Qed.

(** The p-power Frobenius map carried over to the twist, and the facts about it that keep Miller's
    loop away from the exceptional cases of the addition formulas. *)
From Coq Require Import Field Znumtheory.
From Verif Require Import Base BaseFacts SpecField SpecTower SpecEC SpecJac ProofEC ProofECMul ModelEC ProofJac ProofJacRep ModelSM9
  SpecSM9 ProofTower ProofTowerRep ProofFrob ProofSM9Frob ProofSM9Rep ProofSM9Fin ProofSM9Curve ProofSM9Point SpecPairing ProofIso ProofPairing
  ProofEndo.

Section Gen.
  Context {F : Type} (K : field F).
  Add Field FKg : (f_theory K).
  Infix "+" := (fadd K). Infix "*" := (fmul K). Notation "- x" := (fopp K x).
  Lemma opp1_nz : - f1 K <> f0 K.
  Proof. intros E. apply (F_1_neq_0 (f_theory K)). transitivity (- - f1 K); [ring|]. rewrite E. ring. Qed.
  Lemma inv6 a : a * (a * (a * (a * (a * (a * f1 K))))) = - f1 K -> a <> f0 K ->
    finv K a * finv K a * finv K a * (finv K a * finv K a * finv K a) = - f1 K.
  Proof.
    intros H Ha.
    transitivity (finv K (a * (a * (a * (a * (a * (a * f1 K))))))); [field; exact Ha|]. rewrite H.
    field. exact opp1_nz.
  Qed.
  Lemma inv_cyc a : a * (a * (a * (a * (a * (a * f1 K))))) = - f1 K -> a <> f0 K -> a * a + f1 K <> f0 K ->
    let c := finv K a in c * c * (c * c) + - (c * c) + f1 K = f0 K.
  Proof.
    intros H Ha H2 c. pose proof (inv6 a H Ha) as E6. fold c in E6.
    assert (Hc2 : c * c + f1 K <> f0 K).
    { intros E. apply H2. transitivity ((c * c + f1 K) * (a * a)); [unfold c; field; exact Ha|]. rewrite E. ring. }
    apply (fcancel_r K _ _ (c * c + f1 K) Hc2). transitivity (c * c * c * (c * c * c) + f1 K); [ring|]. rewrite E6. ring.
  Qed.
  Lemma nz6 a : a * (a * (a * (a * (a * (a * f1 K))))) = - f1 K -> a <> f0 K.
  Proof.
    intros H E. rewrite E in H. apply (F_1_neq_0 (f_theory K)). transitivity (- - f1 K); [ring|]. rewrite <- H. ring.
  Qed.
  Lemma fpow_finv x n : x <> f0 K -> fpow K (finv K x) n = finv K (fpow K x n).
  Proof.
    intros Hx. pose proof (fpow_nz K x n Hx) as Hn. apply (fcancel_r K _ _ (fpow K x n) Hn).
    rewrite fpow_inv by exact Hx. field. exact Hn.
  Qed.
  Lemma inv_mul2 x y : x <> f0 K -> y <> f0 K -> finv K (x * y) = finv K x * finv K y.
  Proof. intros Hx Hy. field. split; assumption. Qed.
  Lemma sh2 x a b : x * (a * b * (a * b)) = x * (a * a) * (b * b). Proof. ring. Qed.
  Lemma sh3 x a b : x * (a * b * (a * b) * (a * b)) = x * (a * a * a) * (b * b * b). Proof. ring. Qed.
  Lemma mul_assoc4 x y : x * y * y = x * (y * y). Proof. ring. Qed.
  Lemma neg1_r x y : y = - f1 K -> x * y = - x. Proof. intros ->. ring. Qed.
  Lemma mul_0_r x : x * f0 K = f0 K. Proof. ring. Qed.
  Lemma opp_0 : - f0 K = f0 K. Proof. ring. Qed.
  Lemma sum_mid x y a b : x + (y + a) + b = x + y + (a + b). Proof. ring. Qed.
  Lemma iso_twice cj (Hh : hom K K cj) c x y : (forall z, cj (cj z) = z) -> cj c = c -> c * c * c * (c * c * c) = - f1 K ->
    iso K cj c (iso K cj c (Aff x y)) = Aff (x * (c * c * (c * c))) (- y).
  Proof.
    intros H1 H2 H6. unfold iso. rewrite !(h_mul _ _ _ Hh), !H1, !H2. f_equal.
    - ring.
    - transitivity (y * (c * c * c * (c * c * c))); [ring|]. rewrite H6. ring.
  Qed.
End Gen.
Section Gen2.
  Context {F L : Type} (K : field F) (KL : field L) (em : F -> L) (cj : F -> F).
  Add Field FKg2 : (f_theory KL).
  Lemma iso_frob (Hh : hom K KL em) n w a c x y : w <> f0 KL -> a <> f0 K -> c = finv K a ->
    (forall z, fpow KL (em z) n = em (cj z)) -> fpow KL w n = fmul KL (em a) w ->
    match iso KL em (finv KL w) (Aff x y) with Inf => Inf | Aff X Y => Aff (fpow KL X n) (fpow KL Y n) end
    = iso KL em (finv KL w) (iso K cj c (Aff x y)).
  Proof.
    intros Hw Ha -> H1 H2. unfold iso. rewrite !fpow_mulb, !H1, (fpow_finv KL w n Hw), H2.
    pose proof (em_nz K KL em Hh a Ha) as Ha'.
    rewrite (inv_mul2 KL _ _ Ha' Hw), !(h_mul _ _ _ Hh), !(em_inv K KL em Hh a Ha). f_equal; ring.
  Qed.
End Gen2.

Definition cA : F2 := finv K2 (e12 A).
Definition Fr (Q : point F2) : point F2 := iso K2 conj2 cA Q.

Lemma A_nz : A <> f0 K1. Proof. exact (nz6 K1 A A6). Qed.
Lemma e12A6 : let a := e12 A in fmul K2 a (fmul K2 a (fmul K2 a (fmul K2 a (fmul K2 a (fmul K2 a (f1 K2)))))) = fopp K2 (f1 K2).
Proof.
  cbv zeta. rewrite <- (h_1 _ _ _ e12_hom), <- !(h_mul _ _ _ e12_hom), <- (em_opp K1 K2 e12 e12_hom). f_equal. exact A6.
Qed.
Lemma e12A_nz : e12 A <> f0 K2. Proof. exact (em_nz K1 K2 e12 e12_hom A A_nz). Qed.
Lemma cA_nz : cA <> f0 K2. Proof. exact (finv_nz K2 _ e12A_nz). Qed.
Lemma cA_emb : cA = e12 (finv K1 A). Proof. symmetry. exact (em_inv K1 K2 e12 e12_hom A A_nz). Qed.
Lemma A2_1 : fadd K1 (fmul K1 A A) (f1 K1) <> f0 K1.
Proof.
  rewrite num_mul. change (f1 K1) with (num 1). rewrite num_add. change (f0 K1) with (num 0). intros E.
  apply (f_equal fval) in E. revert E. vm_compute. discriminate.
Qed.
Lemma cA6 : fmul K2 (fmul K2 (fmul K2 cA cA) cA) (fmul K2 (fmul K2 cA cA) cA) = fopp K2 (f1 K2).
Proof. exact (inv6 K2 (e12 A) e12A6 e12A_nz). Qed.
Lemma cA_cyc : fadd K2 (fadd K2 (fmul K2 (fmul K2 cA cA) (fmul K2 cA cA)) (fopp K2 (fmul K2 cA cA))) (f1 K2) = f0 K2.
Proof.
  apply (inv_cyc K2 (e12 A) e12A6 e12A_nz). rewrite <- (h_1 _ _ _ e12_hom), <- (h_mul _ _ _ e12_hom), <- (h_add _ _ _ e12_hom).
  apply (em_nz K1 K2 e12 e12_hom). exact A2_1.
Qed.
Lemma conj2_cA : conj2 cA = cA.
Proof. rewrite cA_emb. unfold conj2, e12. cbn [fst snd]. now rewrite (opp_0 K1). Qed.
Lemma conj2_conj2 x : conj2 (conj2 x) = x.
Proof. destruct x as [a b]. unfold conj2. cbn [fst snd]. now rewrite (opp_opp K1). Qed.

Lemma Fr_on Q : E2_on Q -> E2_on (Fr Q).
Proof.
  apply (on_iso K2 K2 conj2 conj2_hom cA). rewrite cA6.
  rewrite (neg1_r K2 _ _ eq_refl). change (fopp K2 (conj2 (num 0, num 5))) with (fopp K1 (num 0), fopp K1 (fopp K1 (num 5))).
  rewrite (opp_opp K1). change (num 0) with (f0 K1). now rewrite (opp_0 K1).
Qed.
Lemma Fr_add P Q : E2_on P -> E2_on Q -> Fr (E2_add P Q) = E2_add (Fr P) (Fr Q).
Proof. exact (iso_add K2 K2 conj2 conj2_hom cA cA_nz _ E2_ok P Q). Qed.
Lemma Fr_neg P : Fr (ec_neg K2 P) = ec_neg K2 (Fr P).
Proof. exact (iso_neg K2 K2 conj2 conj2_hom cA P). Qed.
Lemma Fr_mul k P : E2_on P -> Fr (zm2 k P) = zm2 k (Fr P).
Proof. exact (iso_mul K2 K2 conj2 conj2_hom cA cA_nz _ E2_ok (Z.to_nat k) P). Qed.
Lemma Fr_inf P : Fr P = Inf -> P = Inf. Proof. destruct P; [reflexivity|discriminate]. Qed.
Lemma Fr2 x y : Fr (Fr (Aff x y)) = Aff (fmul K2 x (fmul K2 (fmul K2 cA cA) (fmul K2 cA cA))) (fopp K2 y).
Proof.
  exact (iso_twice K2 conj2 conj2_hom cA x y conj2_conj2 conj2_cA cA6).
Qed.
Lemma Fr_rel P : E2_on P -> E2_add (Fr (Fr (Fr (Fr P)))) P = Fr (Fr P).
Proof.
  destruct P as [|x y]; [reflexivity|]. intros On. pose proof (dbl_y K2 _ E2_ok _ _ On) as Hy. rewrite !Fr2, (opp_opp K2).
  exact (rho_rel K2 cA x y Hy cA_cyc).
Qed.

(** ** frob after untwist *)
Lemma phi_emb2 x : fpow K12 (emb2 x) SM9_p = emb2 (conj2 x).
Proof.
  rewrite <- phi_spec. destruct x as [a b]. unfold emb2, conj2, phi, fp12_frobenius, fp2_mul_fp, fp2_conjugate.
  change (f0 K4) with (f0 K2, f0 K2). change (f0 K2) with (f0 K1, f0 K1). cbn [fst snd o_mul o_neg Fops].
  rewrite ?(opp_0 K1), ?mul_0_l. reflexivity.
Qed.
Lemma one_l x : fmul K1 (f1 K1) x = x. Proof. exact (Rmul_1_l (F_R (f_theory K1)) x). Qed.
Lemma phi_w : fpow K12 w12 SM9_p = emb2 (e12 A) *' w12.
Proof.
  rewrite <- phi_spec. transitivity (f0 K4, e24 (e12 A), f0 K4); [|symmetry; exact (w_mul K4 v4 v_noncube (e24 (e12 A)))].
  unfold w12, e24, e12, phi, fp12_frobenius, fp2_mul_fp, fp2_conjugate.
  change (f0 K4) with (f0 K2, f0 K2). change (f1 K4) with (f1 K2, f0 K2). change (f0 K2) with (f0 K1, f0 K1).
  change (f1 K2) with (f1 K1, f0 K1). cbn [fst snd o_mul o_neg Fops].
  rewrite ?(opp_0 K1), ?mul_0_l, one_l, alpha1_eq. reflexivity.
Qed.
Lemma frob_iso P : frob (iso K12 emb2 (finv K12 w12) P) = iso K12 emb2 (finv K12 w12) (Fr P).
Proof.
  destruct P as [|x y]; [reflexivity|].
  exact (iso_frob K2 K12 emb2 conj2 emb2_hom SM9_p w12 (e12 A) cA x y w12_nz e12A_nz eq_refl phi_emb2 phi_w).
Qed.
Lemma frob_untwist P : frob (untwist P) = untwist (Fr P).
Proof. rewrite (untwist_iso P), (untwist_iso (Fr P)). apply frob_iso. Qed.

(** ** The multiples met at the end of the loop *)
Definition SM9_m : Z := 6 * SM9_t + 2.
Definition SM9_v : Z := 0xb640000002a3a6f06983ab4ff1994cd9d9eee7fb23f1eae56475dd8bb1e6dd18.
Definition q4 (s : Z) : Prop := (s * s * (s * s) + 1) mod SM9_n = (s * s) mod SM9_n.
Lemma q4_m : ~ q4 SM9_m. Proof. unfold q4. vm_compute. discriminate. Qed.
Lemma q4_nm : ~ q4 (SM9_n - SM9_m). Proof. unfold q4. vm_compute. discriminate. Qed.
Lemma q4_v : ~ q4 (SM9_v * (SM9_n - (SM9_m * SM9_m + 1))). Proof. unfold q4. vm_compute. discriminate. Qed.
Lemma SM9_v_inv : (2 * SM9_m * SM9_v) mod SM9_n = 1. Proof. vm_compute. reflexivity. Qed.
Lemma SM9_m_bounds : 0 <= SM9_m /\ SM9_m * SM9_m + 1 <= SM9_n /\ 0 <= SM9_v /\ SM9_m <= SM9_n.
Proof. repeat split; vm_compute; discriminate. Qed.
Lemma v_arg_nn : 0 <= SM9_v * (SM9_n - (SM9_m * SM9_m + 1)). Proof. vm_compute. discriminate. Qed.
Lemma nm_nn : 0 <= SM9_n - SM9_m. Proof. vm_compute. discriminate. Qed.
Global Opaque SM9_m SM9_v.
Section Q.
  Variable Q : point F2.
  Hypothesis HQ : E2_on Q. Hypothesis Qf : Q <> Inf. Hypothesis Qn : zm2 SM9_n Q = Inf.
  Lemma Fr_q4 s : 0 <= s -> Fr Q = zm2 s Q -> q4 s.
  Proof.
    intros Hs E. exact (endo_quartic K2 _ _ E2_ok SM9_n SM9_n_prime Fr Fr_on Fr_add Fr_neg Fr_mul Fr_rel Q HQ Qn Qf s Hs E).
  Qed.
  (** the point of the loop is neither Fr Q nor its opposite *)
  Lemma mQ_ne : zm2 SM9_m Q <> Fr Q.
  Proof. intros E. apply q4_m. apply Fr_q4; [exact (proj1 SM9_m_bounds)|]. symmetry. exact E. Qed.
  Lemma mQ_ne_neg : zm2 SM9_m Q <> ec_neg K2 (Fr Q).
  Proof.
    intros E. apply q4_nm. apply Fr_q4; [exact nm_nn|].
    rewrite (zmul_neg K2 _ _ E2_ok SM9_n Q HQ Qn SM9_m (conj (proj1 SM9_m_bounds) (proj2 (proj2 (proj2 SM9_m_bounds))))).
    rewrite E. symmetry. apply (ec_neg_neg K2 _ _ E2_ok).
  Qed.
  Lemma mQFr_ne : E2_add (zm2 SM9_m Q) (Fr Q) <> Fr (Fr Q) /\ E2_add (zm2 SM9_m Q) (Fr Q) <> ec_neg K2 (Fr (Fr Q)).
  Proof.
    assert (H : ~ (E2_add (zm2 SM9_m Q) (Fr Q) = Fr (Fr Q) \/ E2_add (zm2 SM9_m Q) (Fr Q) = ec_neg K2 (Fr (Fr Q)))).
    { intros H. apply q4_v. apply Fr_q4; [exact v_arg_nn|]. destruct SM9_m_bounds as (B1 & B2 & B3 & _).
      exact (endo_scalar K2 _ _ E2_ok SM9_n SM9_n_prime Fr Fr_on Fr_add Fr_neg Fr_mul Fr_rel Q HQ Qn SM9_m SM9_v B1 B2 B3 SM9_v_inv H). }
    split; intros E; apply H; [left|right]; exact E.
  Qed.
End Q.

(** [6t + 2]P2 + f(P2) - f(f(P2)) = -f(f(f(P2))) on the SM9 twist, f the map induced by the Frobenius. *)
From Coq Require Import Field Znumtheory Lia.
From Verif Require Import Base BaseFacts ModelSM9 SpecField SpecTower SpecEC SpecSM9 SpecPairing ProofEC ProofECMul ProofFast ProofZops ProofZops2
  ProofPrimes ProofSM9Res ProofSM9Curve ProofSM9Frob ProofIso ProofPairing ProofPairingFr ProofEigenSteps.

Notation g2x := (SM9_G2x0, SM9_G2x1). Notation g2y := (SM9_G2y0, SM9_G2y1).
Definition eig_chk (gx gy : zz) (ds : list step2) : bool :=
  match aff_chain2 gx gy ds gx gy with
  | Some (x, y) => zeq x eig_Ux && zeq y eig_Uy && (chain_val2 ds 1 =? 6 * SM9_t + 2)
      && add_check2 eig_fx eig_fy eig_Ux eig_Uy eig_wl eig_wx eig_wy eig_wq1 eig_wq2 eig_wq3
      && add_check2 eig_x2 gy eig_wx eig_wy eig_rl eig_rx eig_ry eig_rq1 eig_rq2 eig_rq3
  | None => false
  end.
Lemma eig_checked : eig_chk g2x g2y sm9_steps_m = true. Proof. checked. Qed.
Definition zconj (x : zz) : zz := (fst x, - snd x).
Definition zmod2 (x y : zz) : bool := (fst x mod SM9_p =? fst y mod SM9_p) && (snd x mod SM9_p =? snd y mod SM9_p).
Lemma zmod2_em2 x y : zmod2 x y = true -> em2 x = em2 y.
Proof.
  unfold zmod2, em2. intros H. apply andb_true_iff in H. destruct H as [H1 H2]. apply Z.eqb_eq in H1, H2.
  apply pair_eq; now apply fof_eq.
Qed.
Definition eig_crd (gx gy c fx fy x2 x3 rx ry : zz) (al : Z) : bool :=
  let c2 := zmul2 c c in
  zmod2 (zmul2 (zconj gx) c2) fx && zmod2 (zmul2 (zconj gy) (zmul2 c2 c)) fy
  && zmod2 (zmul2 gx (zmul2 c2 c2)) x2 && zmod2 (zmul2 fx (zmul2 c2 c2)) x3
  && zeq rx x3 && zeq ry fy && in_range fx && in_range x2
  && ((fst c * al) mod SM9_p =? 1) && (snd c =? 0).
Lemma eig_crd_ok : eig_crd g2x g2y eig_c eig_fx eig_fy eig_x2 eig_x3 eig_rx eig_ry (be_val SM9_ALPHA1_DATA) = true. Proof. checked. Qed.

Section Inv.
  Context {F : Type} (K : field F). Add Field FKe : (f_theory K).
  Lemma inv_unique x y : fmul K y x = f1 K -> x <> f0 K -> finv K x = y.
  Proof. intros E N. transitivity (fmul K (fmul K y x) (finv K x)); [rewrite E; ring|field; exact N]. Qed.
End Inv.
Lemma em2_conj x : em2 (zconj x) = conj2 (em2 x).
Proof. destruct x as [a b]. unfold em2, zconj, conj2. cbn [fst snd]. apply pair_eq; [reflexivity|]. exact (phi_opp SM9_p b). Qed.
Lemma coords_gen gx gy c fx fy x2 x3 rx ry al : eig_crd gx gy c fx fy x2 x3 rx ry al = true -> num al = A ->
  fmul K2 (conj2 (em2 gx)) (fmul K2 cA cA) = em2 fx /\ fmul K2 (conj2 (em2 gy)) (fmul K2 (fmul K2 cA cA) cA) = em2 fy /\
  fmul K2 (em2 gx) (fmul K2 (fmul K2 cA cA) (fmul K2 cA cA)) = em2 x2 /\
  fmul K2 (em2 fx) (fmul K2 (fmul K2 cA cA) (fmul K2 cA cA)) = em2 rx /\ em2 ry = em2 fy /\
  in_range fx = true /\ in_range x2 = true.
Proof.
  intros H EA. unfold eig_crd in H. cbv zeta in H. rewrite !andb_true_iff in H.
  destruct H as [[[[[[[[[H1 H2] H3] H4] H5] H6] H7] H8] H9] H10]. apply Z.eqb_eq in H9, H10.
  apply zmod2_em2 in H1, H2, H3, H4. apply zeq_em2 in H5, H6.
  assert (EC : cA = em2 c).
  { rewrite cA_emb. transitivity (e12 (num (fst c))); [apply f_equal|unfold em2; rewrite H10; reflexivity].
    apply inv_unique; [|exact A_nz]. rewrite <- EA, <- n_mul. change (f1 K1) with (num 1). apply fof_eq. rewrite H9. reflexivity. }
  rewrite !em2_mul, ?em2_conj, <- EC in H1. rewrite !em2_mul, ?em2_conj, <- EC in H2.
  rewrite !em2_mul, <- EC in H3. rewrite !em2_mul, <- EC in H4.
  split; [exact H1|]. split; [exact H2|]. split; [exact H3|]. rewrite H5. split; [exact H4|]. split; [exact H6|]. split; assumption.
Qed.
Lemma coords :
  fmul K2 (conj2 (em2 g2x)) (fmul K2 cA cA) = em2 eig_fx /\ fmul K2 (conj2 (em2 g2y)) (fmul K2 (fmul K2 cA cA) cA) = em2 eig_fy /\
  fmul K2 (em2 g2x) (fmul K2 (fmul K2 cA cA) (fmul K2 cA cA)) = em2 eig_x2 /\
  fmul K2 (em2 eig_fx) (fmul K2 (fmul K2 cA cA) (fmul K2 cA cA)) = em2 eig_rx /\ em2 eig_ry = em2 eig_fy /\
  in_range eig_fx = true /\ in_range eig_x2 = true.
Proof. exact (coords_gen _ _ _ _ _ _ _ _ _ _ eig_crd_ok alpha1_eq). Qed.
Lemma aff_eq {F} (a b c d : F) : a = c -> b = d -> Aff a b = Aff c d. Proof. now intros -> ->. Qed.
Lemma Fr_P2 : Fr P2 = Aff (em2 eig_fx) (em2 eig_fy).
Proof. destruct coords as (C1 & C2 & _). exact (aff_eq _ _ _ _ C1 C2). Qed.
Lemma FrFr_P2 : ec_neg K2 (Fr (Fr P2)) = Aff (em2 eig_x2) (em2 g2y).
Proof.
  destruct coords as (_ & _ & C3 & _). change P2 with (Aff (em2 g2x) (em2 g2y)). rewrite Fr2. cbn [ec_neg].
  apply aff_eq; [exact C3|apply opp_opp].
Qed.
Lemma FrFrFr_P2 : ec_neg K2 (Fr (Fr (Fr P2))) = Aff (em2 eig_rx) (em2 eig_ry).
Proof.
  destruct coords as (_ & _ & _ & C4 & C5 & _). rewrite Fr_P2, Fr2. cbn [ec_neg].
  apply aff_eq; [exact C4|rewrite opp_opp; symmetry; exact C5].
Qed.
Theorem P2_closes : ec_add K2 (f0 K2) (ec_add K2 (f0 K2) (zm2 (6 * SM9_t + 2) P2) (Fr P2)) (ec_neg K2 (Fr (Fr P2))) = ec_neg K2 (Fr (Fr (Fr P2))).
Proof.
  pose proof eig_checked as H. revert H. generalize sm9_steps_m. intros ds H. unfold eig_chk in H.
  destruct (aff_chain2 g2x g2y ds g2x g2y) as [[x y]|] eqn:E; [|discriminate].
  rewrite !andb_true_iff in H. destruct H as [[[[HX HY] HM] HW] HR]. apply Z.eqb_eq in HM.
  destruct (aff_chain2_ok g2x g2y (f0 K2) (num 0, num 5) eq_refl E2_ok P2_on eq_refl ds g2x g2y 1 x y ltac:(discriminate)
    ltac:(rewrite (zmul_1 K2); reflexivity) E) as [_ EU].
  rewrite HM in EU. apply zeq_em2 in HX, HY. rewrite HX, HY in EU.
  change (zm2 (6 * SM9_t + 2) P2) with (zm2 (6 * SM9_t + 2) (Aff (em2 g2x) (em2 g2y))). rewrite <- EU.
  rewrite FrFr_P2, FrFrFr_P2, Fr_P2. destruct coords as (_ & _ & _ & _ & _ & R1 & R2).
  assert (O1 : E2_on (Aff (em2 eig_fx) (em2 eig_fy))) by (rewrite <- Fr_P2; exact (Fr_on _ P2_on)).
  assert (O2 : E2_on (Aff (em2 eig_x2) (em2 g2y))) by (rewrite <- FrFr_P2; exact (ec_neg_on K2 _ _ E2_ok _ (Fr_on _ (Fr_on _ P2_on)))).
  rewrite (add_step2 eig_fx eig_fy (f0 K2) (num 0, num 5) eq_refl E2_ok O1 R1 _ _ _ _ _ _ _ _ _ HW).
  exact (add_step2 eig_x2 g2y (f0 K2) (num 0, num 5) eq_refl E2_ok O2 R2 _ _ _ _ _ _ _ _ _ HR).
Qed.

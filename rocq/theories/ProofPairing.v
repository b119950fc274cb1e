(** The embeddings of F_p^2 and F_p^4 into F_p^12, the Frobenius map on the twist, and the line
    functions of the code as multiples of the textbook ones by elements of F_p^4. *)
From Coq Require Import Field Znumtheory.
From Verif Require Import Base BaseFacts SpecField SpecTower SpecEC SpecJac ProofEC ProofECMul ModelEC ProofJac ProofJacRep ModelSM9
  SpecSM9 ProofTower ProofTowerRep ProofFrob ProofSM9Frob ProofSM9Rep ProofSM9Fin ProofSM9Curve ProofSM9Point SpecPairing ProofIso.

(** ** Embeddings *)
Section Emb.
  Context {F : Type} (K : field F).
  Add Field FKe : (f_theory K).
  Lemma hom_quad d Hd : hom K (Quad K d Hd) (fun x => (x, f0 K)).
  Proof.
    constructor; try reflexivity; intros x y.
    - change (fadd (Quad K d Hd)) with (q_add K). unfold q_add. cbn [fst snd]. apply q_eq; ring.
    - change (fmul (Quad K d Hd)) with (q_mul K d). unfold q_mul. cbn [fst snd]. apply q_eq; ring.
  Qed.
  Lemma hom_cubic d Hd : hom K (Cubic K d Hd) (fun x => (x, f0 K, f0 K)).
  Proof.
    constructor; try reflexivity; intros x y.
    - change (fadd (Cubic K d Hd)) with (c_add K). unfold c_add. apply c_eq; ring.
    - change (fmul (Cubic K d Hd)) with (c_mul K d). unfold c_mul. apply c_eq; ring.
  Qed.
  Lemma hom_conj d Hd : hom (Quad K d Hd) (Quad K d Hd) (fun x => (fst x, fopp K (snd x))).
  Proof.
    constructor.
    - change (f0 (Quad K d Hd)) with (f0 K, f0 K). cbn [fst snd]. apply q_eq; ring.
    - change (f1 (Quad K d Hd)) with (f1 K, f0 K). cbn [fst snd]. apply q_eq; ring.
    - intros x y. change (fadd (Quad K d Hd)) with (q_add K). unfold q_add. cbn [fst snd]. apply q_eq; ring.
    - intros x y. change (fmul (Quad K d Hd)) with (q_mul K d). unfold q_mul. cbn [fst snd]. apply q_eq; ring.
  Qed.
  Lemma w_mul d Hd x : fmul (Cubic K d Hd) (x, f0 K, f0 K) (f0 K, f1 K, f0 K) = (f0 K, x, f0 K).
  Proof. change (fmul (Cubic K d Hd)) with (c_mul K d). unfold c_mul. apply c_eq; ring. Qed.
  Lemma w_sq d Hd : fmul (Cubic K d Hd) (f0 K, f1 K, f0 K) (f0 K, f1 K, f0 K) = (f0 K, f0 K, f1 K).
  Proof. change (fmul (Cubic K d Hd)) with (c_mul K d). unfold c_mul. apply c_eq; ring. Qed.
  Lemma w_cube d Hd : fmul (Cubic K d Hd) (f0 K, f0 K, f1 K) (f0 K, f1 K, f0 K) = (d, f0 K, f0 K).
  Proof. change (fmul (Cubic K d Hd)) with (c_mul K d). unfold c_mul. apply c_eq; ring. Qed.
  Lemma c_sum d Hd a b c : fadd (Cubic K d Hd) (fadd (Cubic K d Hd) (a, f0 K, f0 K) (b, f0 K, f0 K))
      (fmul (Cubic K d Hd) (c, f0 K, f0 K) (f0 K, f0 K, f1 K)) = (fadd K a b, f0 K, c).
  Proof. change (fadd (Cubic K d Hd)) with (c_add K). change (fmul (Cubic K d Hd)) with (c_mul K d). unfold c_add, c_mul. apply c_eq; ring. Qed.
  Lemma q_sum d Hd a b : fadd (Quad K d Hd) (a, f0 K) (fmul (Quad K d Hd) (b, f0 K) (f0 K, f1 K)) = (a, b).
  Proof. symmetry. apply q_split. Qed.
  Lemma opp_opp x : fopp K (fopp K x) = x. Proof. ring. Qed.
  Lemma aff_scale (a b w : F) : w <> f0 K ->
    Aff (fdiv K a (fmul K w w)) (fdiv K b (fmul K (fmul K w w) w)) =
    Aff (fmul K a (fmul K (finv K w) (finv K w))) (fmul K b (fmul K (fmul K (finv K w) (finv K w)) (finv K w))).
  Proof. intros Hw. f_equal; field; exact Hw. Qed.
End Emb.
Lemma hom_comp {A B C} (KA : field A) (KB : field B) (KC : field C) f g : hom KA KB f -> hom KB KC g -> hom KA KC (fun x => g (f x)).
Proof.
  intros H1 H2. constructor.
  - now rewrite (h_0 _ _ _ H1), (h_0 _ _ _ H2).
  - now rewrite (h_1 _ _ _ H1), (h_1 _ _ _ H2).
  - intros. now rewrite (h_add _ _ _ H1), (h_add _ _ _ H2).
  - intros. now rewrite (h_mul _ _ _ H1), (h_mul _ _ _ H2).
Qed.
Definition emb4 (x : F4) : F12 := (x, f0 K4, f0 K4).
Lemma emb4_hom : hom K4 K12 emb4. Proof. exact (hom_cubic K4 v4 v_noncube). Qed.
Definition e24 (x : F2) : F4 := (x, f0 K2).
Lemma e24_hom : hom K2 K4 e24. Proof. exact (hom_quad K2 u2 u_nonsquare). Qed.
Lemma emb2_hom : hom K2 K12 emb2. Proof. exact (hom_comp K2 K4 K12 _ _ e24_hom emb4_hom). Qed.
Definition e12 (x : F1) : F2 := (x, f0 K1).
Lemma e12_hom : hom K1 K2 e12. Proof. exact (hom_quad K1 _ neg2_nonsquare). Qed.
Lemma emb1_hom : hom K1 K12 emb1. Proof. exact (hom_comp K1 K2 K12 _ _ e12_hom emb2_hom). Qed.
Definition conj2 (x : F2) : F2 := (fst x, fopp K1 (snd x)).
Lemma conj2_hom : hom K2 K2 conj2. Proof. exact (hom_conj K1 _ neg2_nonsquare). Qed.

Lemma w12_nz : w12 <> f0 K12.
Proof. intros E. apply (f_equal (fun z : F12 => snd (fst z))) in E. exact (F_1_neq_0 (f_theory K4) E). Qed.
Lemma w12_2 : w12 *' w12 = (f0 K4, f0 K4, f1 K4). Proof. exact (w_sq K4 v4 v_noncube). Qed.
Lemma w12_3 : w12 *' w12 *' w12 = emb4 v4. Proof. rewrite w12_2. exact (w_cube K4 v4 v_noncube). Qed.
Lemma v4_nz : v4 <> f0 K4.
Proof. intros E. apply (f_equal (fun z : F4 => snd z)) in E. exact (F_1_neq_0 (f_theory K2) E). Qed.
(** an element a0 + a1 v + a4 w^2 as the code stores it *)
Lemma line_sum (a0 a1 a4 : F2) :
  ((a0, a1), (f0 K2, f0 K2), (a4, f0 K2)) = emb2 a0 +' emb2 a1 *' (w12 *' w12 *' w12) +' emb2 a4 *' (w12 *' w12).
Proof.
  rewrite w12_3, w12_2. change (emb2 a1) with (emb4 (e24 a1)). rewrite <- (h_mul _ _ _ emb4_hom).
  change (emb2 a0) with (e24 a0, f0 K4, f0 K4). change (emb2 a4) with (e24 a4, f0 K4, f0 K4).
  symmetry. etransitivity; [exact (c_sum K4 v4 v_noncube (e24 a0) (fmul K4 (e24 a1) v4) (e24 a4))|].
  apply c_eq; [|reflexivity|reflexivity]. exact (q_sum K2 u2 u_nonsquare a0 a1).
Qed.

(** ** Elements of F_p^4 disappear in the final exponentiation *)
Lemma phi22_emb4 c : phi2 (phi2 (emb4 c)) = emb4 c.
Proof.
  destruct c as [[c0 c1] [c2 c3]]. unfold emb4, phi2, fp12_frobenius2, fp4_conjugate, fp4_mul_fp, fp2_mul_fp, fp2_neg.
  change (f0 K4) with (f0 K2, f0 K2). change (f0 K2) with (f0 K1, f0 K1). cbn [fst snd o_mul o_neg Fops].
  assert (N0 : fopp K1 (f0 K1) = f0 K1) by (apply fval_inj; vm_compute; reflexivity).
  rewrite ?N0, ?mul_0_l, ?N0. rewrite ?mul_0_l.
  rewrite !(opp_opp K1). reflexivity.
Qed.
Lemma fe_exp_p4 : fe_exp = (SM9_p ^ 4 - 1) * ((SM9_p ^ 4 + SM9_p ^ 2 + 1) * fe_h SM9_p).
Proof. unfold fe_exp. ring. Qed.
Lemma emb4_killed c : c <> f0 K4 -> fpow K12 (emb4 c) ((SM9_p ^ 12 - 1) / SM9_n) = f1 K12.
Proof.
  intros Hc. rewrite <- fe_exp_div, fe_exp_p4.
  assert (B : 1 <= SM9_p ^ 4) by (pose proof (Z.pow_pos_nonneg SM9_p 4 SM9_p_pos ltac:(lia)); lia).
  assert (H1 : 0 <= (SM9_p ^ 4 + SM9_p ^ 2 + 1) * fe_h SM9_p) by (vm_compute; discriminate).
  rewrite fpow_mul; [|lia|exact H1].
  assert (E : fpow K12 (emb4 c) (SM9_p ^ 4 - 1) = f1 K12).
  { assert (E : fpow K12 (emb4 c) (SM9_p ^ 4) = emb4 c).
    { rewrite <- phi22_emb4 at 2. rewrite !phi2_spec. rewrite <- fpow_mul; [f_equal; ring|apply pk_nn|apply pk_nn]. }
    replace (SM9_p ^ 4) with ((SM9_p ^ 4 - 1) + 1) in E by ring.
    rewrite fpow_add, fpow_1 in E by (clear - B; lia).
    apply (mul_cancel1 K12 (emb4 c)); [exact (em_nz K4 K12 emb4 emb4_hom c Hc)|exact E]. }
  rewrite E. apply fpow_one.
Qed.

(** ** The twist *)
Lemma untwist_iso Q : untwist Q = iso K12 emb2 (finv K12 w12) Q.
Proof.
  destruct Q as [|x y]; [reflexivity|]. unfold untwist, iso. pose proof w12_nz as Hw. revert Hw.
  generalize (emb2 x) (emb2 y) w12. intros a b w Hw.
  now apply aff_scale.
Qed.
Lemma untwist_add P Q : E2_on P -> E2_on Q -> untwist (E2_add P Q) = E12_add (untwist P) (untwist Q).
Proof.
  intros HP HQ. rewrite (untwist_iso (E2_add P Q)), (untwist_iso P), (untwist_iso Q). exact (iso_add K2 K12 emb2 emb2_hom _ (finv_nz K12 _ w12_nz) _ E2_ok P Q HP HQ).
Qed.
Lemma untwist_neg Q : untwist (ec_neg K2 Q) = E12_neg (untwist Q).
Proof. rewrite (untwist_iso (ec_neg K2 Q)), (untwist_iso Q). exact (iso_neg K2 K12 emb2 emb2_hom _ Q). Qed.

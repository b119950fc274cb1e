(** Miller's loop of sm9_field.cpp computes the R-ate pairing's function up to a factor of F_p^4, and
    the final exponentiation removes that factor. *)
From Coq Require Import Field Znumtheory.
From Verif Require Import Base BaseFacts SpecField SpecTower SpecEC SpecJac ProofEC ProofECMul ModelEC ProofJac ProofJacRep ModelSM9
  ProofNumlib9 SpecSM9 ProofTower ProofTowerRep ProofFrob ProofSM9Frob ProofSM9Rep ProofSM9Fin ProofSM9Curve ProofSM9Point SpecPairing ProofIso
  ProofPairing ProofPairingFr ProofPairingRep.

Section Gen.
  Context {F : Type} (K : field F).
  Add Field FKm : (f_theory K).
  Infix "*" := (fmul K).
  Lemma unscale2 a A : A <> f0 K -> a = a * (finv K A * finv K A) * (A * A). Proof. intros H. field. exact H. Qed.
  Lemma unscale3 a A : A <> f0 K -> a = a * (finv K A * finv K A * finv K A) * (A * (A * A)). Proof. intros H. field. exact H. Qed.
  Lemma unscale4 a A : A <> f0 K -> let c := finv K A in a = a * (c * c * (c * c)) * (A * A * (A * A)). Proof. intros H. cbv zeta. field. exact H. Qed.
  Lemma sq6 a A : A * (A * (A * (A * (A * (A * f1 K))))) = fopp K (f1 K) -> fopp K a = a * (A * A * (A * A * (A * A))).
  Proof. intros H. transitivity (a * fopp K (f1 K)); [ring|]. rewrite <- H. ring. Qed.
  Lemma opp_0' : fopp K (f0 K) = f0 K. Proof. ring. Qed.
  Lemma sq_assoc A : fmul K A A = A * A. Proof. reflexivity. Qed.
End Gen.

Definition naf_digit (d : Z) : Z := if d =? -1 then 2 else d.
Lemma naf_digits : NAF_A = map naf_digit SM9_digits. Proof. reflexivity. Qed.
Lemma digits_m : fold_left (fun k d => 2 * k + d) (tl SM9_digits) 1 = SM9_m. Proof. vm_compute. reflexivity. Qed.
Lemma digits_ok : Forall (fun d => d = 0 \/ d = 1 \/ d = -1) (tl SM9_digits).
Proof. cbn [tl SM9_digits]. repeat (constructor; [auto|]). constructor. Qed.
Lemma digits_len : length (tl SM9_digits) = 65%nat. Proof. reflexivity. Qed.
Lemma n_big : 2 ^ 67 < SM9_n. Proof. vm_compute. reflexivity. Qed.
Lemma m_lt : 1 <= SM9_m < SM9_n. Proof. split; [vm_compute; discriminate|vm_compute; reflexivity]. Qed.

(** points with the same x are equal or opposite *)
Lemma ne_x x1 y1 x2 y2 : E2_on (Aff x1 y1) -> E2_on (Aff x2 y2) -> Aff x1 y1 <> Aff x2 y2 -> Aff x1 y1 <> ec_neg K2 (Aff x2 y2) -> x1 <> x2.
Proof.
  intros O1 O2 N1 N2 E. subst x2. apply N1. f_equal. apply (same_x_cases K2 _ x1 y1 y2 O1 O2). intros E. apply N2. now rewrite E.
Qed.

Lemma E2_inf_neg P R : E2_on P -> E2_on R -> E2_add R P = Inf -> R = ec_neg K2 P.
Proof. intros HP HR E. exact (ec_add_inf_neg K2 _ _ E2_ok P R HP HR (eq_trans (ec_add_comm K2 _ _ E2_ok P R HP HR) E)). Qed.
Lemma E2_add_on P R : E2_on P -> E2_on R -> E2_on (E2_add P R).
Proof. exact (ec_add_on K2 _ _ E2_ok P R). Qed.
Lemma E2_dbl_ok J P : jrel K2 J P -> jrel K2 (j_dbl_2009l (Fops K2) J) (ec_add K2 (f0 K2) P P).
Proof.
  destruct E2_ok as [O1 O2]. intros HJ. exact (dbl_2009l_ok _ _ _ _ _ _ _ _ _ _ (f_theory K2) _ O1 J P eq_refl HJ).
Qed.
Lemma E2_jadd w nn L9 (LOK : numlib9_ok w nn L9) J X' Y' Z' x' y' z' P R : jrep K2 (rel2 (R1 w nn)) J P ->
  rel2 (W1 w nn) X' x' -> rel2 (W1 w nn) Y' y' -> rel2 (R1 w nn) Z' z' -> jrel K2 (x', y', z') R -> E2_on P -> E2_on R ->
  P <> Inf -> R <> Inf -> jrep K2 (rel2 (R1 w nn)) (sm9_ec2_j_add L9 J (X', Y', Z')) (E2_add P R).
Proof.
  intros HJ HX HY HZ HR OP OR NP NR.
  exact (jrep_add_w _ _ _ _ (sm9_rel2 w nn L9 LOK) _ _ E2_ok _ (j_dbl_2009l (Fops K2)) J X' Y' Z' x' y' z' P R
    (dbl_2009l_rep _ _ _ _ (sm9_rel2 w nn L9 LOK)) E2_dbl_ok HJ HX HY HZ HR OP OR
    (conj (fun E => False_ind _ (NP E)) (fun E => False_ind _ (NR E)))).
Qed.

Section Q.
  Variables (x y : F2).
  Notation Q := (Aff x y).
  Hypothesis HQ : E2_on Q. Hypothesis Qn : zm2 SM9_n Q = Inf.
  Lemma Q_f : Q <> Inf. Proof. discriminate. Qed.
  Lemma kQ_on k : E2_on (zm2 k Q). Proof. exact (zmul_on K2 _ _ E2_ok k Q HQ). Qed.
  Lemma kQ_inj j k : 0 <= j < SM9_n -> 0 <= k < SM9_n -> zm2 j Q = zm2 k Q -> j = k.
  Proof.
    intros Hj Hk E. apply (zmul_inj K2 _ _ E2_ok SM9_n Q SM9_n_prime HQ Qn Q_f) in E; [|exact (proj1 Hj)|exact (proj1 Hk)].
    now rewrite !Z.mod_small in E by assumption.
  Qed.
  Lemma kQ_fin k : 1 <= k < SM9_n -> zm2 k Q <> Inf.
  Proof.
    intros Hk E. change Inf with (zm2 0 Q) in E. apply kQ_inj in E; [|clear -Hk; lia|clear -Hk; lia]. clear -Hk E; lia.
  Qed.
  Lemma kQ_neg : ec_neg K2 Q = zm2 (SM9_n - 1) Q.
  Proof.
    rewrite (zmul_neg K2 _ _ E2_ok SM9_n Q HQ Qn 1). { now rewrite zmul_1. }
    pose proof SM9_n_gt5. clear -H. lia.
  Qed.
  Lemma kQ_dbl k : 0 <= k -> E2_add (zm2 k Q) (zm2 k Q) = zm2 (2 * k) Q.
  Proof. intros Hk. replace (2 * k) with (k + k) by ring. symmetry. exact (zmul_add K2 _ _ E2_ok k k Q HQ Hk Hk). Qed.
  Lemma kQ_succ k : 0 <= k -> E2_add (zm2 k Q) Q = zm2 (k + 1) Q.
  Proof.
    intros Hk. symmetry. rewrite <- (zmul_1 K2 (f0 K2) Q) at 2. apply (zmul_add K2 _ _ E2_ok k 1 Q HQ Hk). lia.
  Qed.
  Lemma kQ_pred k : 1 <= k -> E2_add (zm2 k Q) (ec_neg K2 Q) = zm2 (k - 1) Q.
  Proof. intros Hk. symmetry. exact (zmul_pred K2 _ _ E2_ok k Q HQ Hk). Qed.
  Lemma kQ_neQ k : 2 <= k < SM9_n - 1 -> zm2 k Q <> Q /\ zm2 k Q <> ec_neg K2 Q.
  Proof.
    intros Hk. split; intros E.
    - rewrite <- (zmul_1 K2 (f0 K2) Q) in E at 2. apply kQ_inj in E; clear -Hk E||clear -Hk; lia.
    - rewrite kQ_neg in E. apply kQ_inj in E; clear -Hk E||clear -Hk; lia.
  Qed.

  Local Opaque ProofECMul.zmul E2_add E12_add fpow.
  Section Build.
    Variables (w : Z) (nn : nat) (L9 : numlib9).
    Hypothesis LOK : numlib9_ok w nn L9.
    Notation R1 := (R1 w nn). Notation W1 := (W1 w nn).
    Notation R2 := (rel2 R1). Notation W2 := (rel2 W1).
    Notation R4 := (rel2 R2). Notation W4 := (rel2 W2).
    Notation R12 := (rel3 R4). Notation W12 := (rel3 W4).
    Notation Op := (sm9_fp_ops L9).
    Notation rl2 := (sm9_rel2 w nn L9 LOK).
    Notation jr2 := (jrep K2 R2).
    Variables (xs ys : fp9) (xP yP : F1).
    Hypotheses (HxP : W1 xs xP) (HyP : W1 ys yP) (NyP : yP <> f0 K1).
    Notation PT := (lift1 (Aff xP yP)).
    Variables (Xq Yq : p2 fp9).
    Hypotheses (HXq : R2 Xq x) (HYq : R2 Yq y).
    Notation stands := (stands w nn).
    Notation step := (miller_step L9 (xs, ys) (Xq, Yq) (a_neg (sm9_fp2_ops L9) (Xq, Yq))).
    Definition minv (k : Z) (s : p12 fp9 * jac (p2 fp9)) (t : F12 * point F12) : Prop :=
      stands (fst s) (fst t) /\ jr2 (snd s) (zm2 k Q) /\ snd t = untwist (zm2 k Q).
    Lemma line_add k J : jr2 J (zm2 k Q) -> 2 <= k < SM9_n - 1 ->
      stands (g_line_jaa Op J (Xq, Yq) (xs, ys)) (g_line (untwist (zm2 k Q)) (untwist Q) PT) /\
      jr2 (sm9_ec2_j_add_a L9 J (Xq, Yq)) (zm2 (k + 1) Q).
    Proof.
      intros HJ Hk. pose proof (kQ_neQ k Hk) as [N1 N2]. pose proof (kQ_fin k ltac:(clear -Hk; lia)) as N3. pose proof (kQ_on k) as On.
      rewrite <- (kQ_succ k) by (clear -Hk; lia).
      destruct (zm2 k Q) as [|x1 y1]; [exact (False_ind _ (N3 eq_refl))|]. split.
      - apply (jaa_rep w nn L9 LOK xs ys xP yP HxP HyP NyP); [exact HJ|exact (r2_w _ _ _ LOK _ _ HXq)|exact (r2_w _ _ _ LOK _ _ HYq)|].
        exact (ne_x x1 y1 x y On HQ N1 N2).
      - apply (g2_add_a w nn L9 LOK); [exact HJ|split; [exact HXq|exact HYq]|exact On|exact HQ|discriminate|exact N1].
    Qed.
    Lemma line_sub k J : jr2 J (zm2 k Q) -> 2 <= k < SM9_n - 1 ->
      stands (g_line_jaa Op J (a_neg (sm9_fp2_ops L9) (Xq, Yq)) (xs, ys)) (g_line (untwist (zm2 k Q)) (untwist (ec_neg K2 Q)) PT) /\
      jr2 (sm9_ec2_j_add_a L9 J (a_neg (sm9_fp2_ops L9) (Xq, Yq))) (zm2 (k - 1) Q).
    Proof.
      intros HJ Hk. pose proof (kQ_neQ k Hk) as [N1 N2]. pose proof (kQ_fin k ltac:(clear -Hk; lia)) as N3. pose proof (kQ_on k) as On.
      rewrite <- (kQ_pred k) by (clear -Hk; lia).
      pose proof (r2_w _ _ _ LOK _ _ HXq) as WX. pose proof (r2_neg _ _ _ LOK _ _ (r2_w _ _ _ LOK _ _ HYq)) as WY.
      pose proof (ec_neg_on K2 _ _ E2_ok Q HQ) as HQn.
      destruct (zm2 k Q) as [|x1 y1]; [exact (False_ind _ (N3 eq_refl))|]. split.
      - apply (jaa_rep w nn L9 LOK xs ys xP yP HxP HyP NyP); [exact HJ|exact WX|exact WY|].
        exact (ne_x x1 y1 x y On HQ N1 N2).
      - apply (jrep_add_a _ _ _ _ rl2 _ _ E2_ok); [exact HJ|split; [exact WX|exact WY]|exact On|exact HQn|discriminate|exact N2].
    Qed.
    Lemma step_ok k s t d : minv k s t -> 1 <= k -> (k + 1) * 2 <= 2 ^ 67 -> d = 0 \/ d = 1 \/ d = -1 ->
      minv (2 * k + d) (step (naf_digit d) s) (rate_step PT (untwist Q) t d).
    Proof.
      intros (S1 & S2 & S3) Hk Hb Hd. pose proof n_big as NB.
      assert (B1 : 1 <= k < SM9_n) by (clear -Hk Hb NB; lia).
      assert (B2 : 2 <= 2 * k < SM9_n - 1) by (clear -Hk Hb NB; lia).
      destruct s as [f J], t as [fs T]. cbn [fst snd] in *. subst T.
      assert (ST : stands (fp12_mul Op (fp12_sqr Op f) (g_tangent_ja Op J (xs, ys)))
                     (fs *' fs *' g_line (untwist (zm2 k Q)) (untwist (zm2 k Q)) PT)).
      { apply (stands_mul w nn L9 LOK); [exact (stands_mul w nn L9 LOK f f fs fs S1 S1)|].
        pose proof (kQ_fin k B1) as N. pose proof (kQ_on k) as On. destruct (zm2 k Q) as [|x1 y1]; [exact (False_ind _ (N eq_refl))|].
        apply (tangent_rep w nn L9 LOK xs ys xP yP HxP HyP NyP); [exact S2|]. exact (dbl_y K2 _ E2_ok _ _ On). }
      assert (JD : jr2 (sm9_ec2_j_dbl L9 J) (zm2 (2 * k) Q)).
      { rewrite <- (kQ_dbl k) by (clear -Hk; lia). exact (g2_dbl w nn L9 LOK J _ S2). }
      assert (TD : E12_add (untwist (zm2 k Q)) (untwist (zm2 k Q)) = untwist (zm2 (2 * k) Q)).
      { rewrite <- (kQ_dbl k) by (clear -Hk; lia). symmetry. exact (untwist_add _ _ (kQ_on k) (kQ_on k)). }
      unfold miller_step, rate_step. cbv zeta. rewrite TD.
      set (F1_ := fp12_mul Op (fp12_sqr Op f) _) in *. clearbody F1_.
      set (FS := fs *' fs *' _) in *. clearbody FS.
      set (J1 := sm9_ec2_j_dbl L9 J) in *. clearbody J1. clear S1 S2 f J fs TD.
      destruct Hd as [->|[->| ->]].
      - cbn [naf_digit Z.eqb]. rewrite Z.add_0_r. split; [exact ST|]. split; [exact JD|reflexivity].
      - change (naf_digit 1 =? 1) with true. change (1 =? 1) with true. cbv iota. destruct (line_add _ _ JD B2) as [A1 A2]. split; [|split].
        + cbn [fst]. apply (stands_mul w nn L9 LOK); [exact ST|exact A1].
        + exact A2.
        + cbn [snd]. rewrite <- (kQ_succ (2 * k)) by (clear -Hk; lia). symmetry. exact (untwist_add _ _ (kQ_on _) HQ).
      - change (naf_digit (-1) =? 1) with false. change (naf_digit (-1) =? 2) with true. change (-1 =? 1) with false.
        change (-1 =? -1) with true. cbv iota. destruct (line_sub _ _ JD B2) as [A1 A2].
        change (2 * k + -1) with (2 * k - 1).
        rewrite <- untwist_neg. split; [|split].
        + cbn [fst]. apply (stands_mul w nn L9 LOK); [exact ST|exact A1].
        + exact A2.
        + cbn [snd]. rewrite <- (kQ_pred (2 * k)) by (clear -Hk; lia). symmetry.
          exact (untwist_add _ _ (kQ_on _) (ec_neg_on K2 _ _ E2_ok Q HQ)).
    Qed.
    Lemma loop_ok ds : Forall (fun d => d = 0 \/ d = 1 \/ d = -1) ds -> forall k s t, minv k s t -> 1 <= k ->
      (k + 1) * 2 ^ Z.of_nat (length ds) <= 2 ^ 67 ->
      minv (fold_left (fun k d => 2 * k + d) ds k) (fold_left (fun s c => step c s) (map naf_digit ds) s)
        (fold_left (rate_step PT (untwist Q)) ds t).
    Proof.
      induction 1 as [|d ds Hd _ IH]; intros k s t HI Hk Hb; [exact HI|].
      cbn [fold_left map length] in *. rewrite Nat2Z.inj_succ, Z.pow_succ_r in Hb by lia.
      pose proof (Z.pow_pos_nonneg 2 (Z.of_nat (length ds)) ltac:(lia) ltac:(lia)) as HP.
      assert (1 <= 2 * k + d) by (clear -Hk Hd; destruct Hd as [->|[->| ->]]; lia).
      apply IH; [|assumption|].
      - apply step_ok; [exact HI|exact Hk| |exact Hd]. clear -Hb HP Hk. nia.
      - assert (d <= 1) by (clear -Hd; destruct Hd as [->|[->| ->]]; lia). clear -Hb HP H0. nia.
    Qed.

    Lemma neg_fin a b : ec_neg K2 (Aff a b) <> Inf. Proof. discriminate. Qed.
    (** the two Frobenius points *)
    Lemma frob_bytes : R2 (sm9_fp_from_bytes L9 FROB_C, m_zero (l9 L9)) (e12 A).
    Proof.
      rewrite <- alpha1_eq. split; cbn [fst snd e12].
      - change SM9_ALPHA1_DATA with FROB_C. apply (R1_from_bytes _ _ _ LOK); [repeat constructor; unfold is_byte; lia|reflexivity].
      - exact (t_zero _ _ _ _ (sm9_ops9 _ _ _ LOK)).
    Qed.
    Lemma frob2_bytes : R2 (sm9_fp_from_bytes L9 FROB2_C, m_zero (l9 L9)) (fmul K2 (e12 A) (e12 A)).
    Proof.
      rewrite <- (h_mul _ _ _ e12_hom), <- alpha2_eq. split; cbn [fst snd e12].
      - change SM9_ALPHA2_DATA with FROB2_C. apply (R1_from_bytes _ _ _ LOK); [repeat constructor; unfold is_byte; lia|reflexivity].
      - exact (t_zero _ _ _ _ (sm9_ops9 _ _ _ LOK)).
    Qed.
    Lemma frob_jac : jrel K2 (conj2 x, conj2 y, e12 A) (Fr Q).
    Proof. split; [exact e12A_nz|]. split; [exact (unscale2 K2 _ _ e12A_nz)|exact (unscale3 K2 _ _ e12A_nz)]. Qed.
    Lemma frob2_jac : jrel K2 (x, fopp K2 y, fmul K2 (e12 A) (e12 A)) (ec_neg K2 (Fr (Fr Q))).
    Proof.
      rewrite Fr2. cbn [ec_neg]. rewrite (opp_opp K2). split; [exact (fnz_mul K2 _ _ e12A_nz e12A_nz)|].
      split; [exact (unscale4 K2 x _ e12A_nz)|exact (sq6 K2 y _ e12A6)].
    Qed.
    Lemma Fr_fin P : P <> Inf -> Fr P <> Inf. Proof. intros N E. exact (N (Fr_inf P E)). Qed.

    Local Opaque frob untwist Fr ec_neg.
    Theorem miller_ok : stands (sm9_miller L9 (xs, ys) (Xq, Yq)) (rate_miller PT (untwist Q)).
    Proof.
      unfold sm9_miller, rate_miller.
      assert (I0 : minv 1 (fp12_one Op, j_from_a (sm9_fp2_ops L9) (Xq, Yq)) (f1 K12, untwist Q)).
      { split; [exact (stands_one w nn L9 LOK)|]. rewrite zmul_1. split; [|reflexivity].
        cbn [snd]. apply (jrep_from_a _ _ _ _ rl2). split; [exact HXq|exact HYq]. }
      rewrite naf_digits. change (tl (map naf_digit SM9_digits)) with (map naf_digit (tl SM9_digits)).
      pose proof (loop_ok (tl SM9_digits) digits_ok 1 _ _ I0 ltac:(lia) ltac:(rewrite digits_len; vm_compute; discriminate)) as I1.
      rewrite digits_m in I1.
      destruct (fold_left _ (map naf_digit (tl SM9_digits)) _) as [f J].
      destruct (fold_left _ (tl SM9_digits) _) as [fs T]. destruct I1 as (S1 & S2 & S3). cbn [fst snd] in *. subst T.
      cbv zeta. rewrite (frob_untwist Q), (frob_untwist (Fr Q)), <- (untwist_neg (Fr (Fr Q))).
      pose proof (kQ_on SM9_m) as Om. pose proof (kQ_fin _ m_lt) as Nm.
      pose proof (Fr_on Q HQ) as O1. pose proof (Fr_on _ O1) as O2. pose proof (ec_neg_on K2 _ _ E2_ok _ O2) as O2n.
      pose proof (mQ_ne Q HQ Q_f Qn) as D1. pose proof (mQ_ne_neg Q HQ Q_f Qn) as D2.
      pose proof (mQFr_ne Q HQ Q_f Qn) as [D3 D4].
      pose proof frob_jac as J1. pose proof frob2_jac as J2.
      pose proof (r2_w _ _ _ LOK _ _ HXq) as WX. pose proof (r2_w _ _ _ LOK _ _ HYq) as WY.
      assert (C1 : W2 (fp2_conjugate Op Xq) (conj2 x)) by exact (ProofTowerRep.conj2 _ _ _ _ (sm9_ops9 _ _ _ LOK) _ _ WX).
      assert (C2 : W2 (fp2_conjugate Op Yq) (conj2 y)) by exact (ProofTowerRep.conj2 _ _ _ _ (sm9_ops9 _ _ _ LOK) _ _ WY).
      pose proof (r2_neg _ _ _ LOK _ _ WY) as C3.
      pose proof frob_bytes as Z1. pose proof frob2_bytes as Z2.
      assert (On' : E2_on (E2_add (zm2 SM9_m Q) (Fr Q))) by exact (E2_add_on _ _ Om O1).
      assert (Nn' : E2_add (zm2 SM9_m Q) (Fr Q) <> Inf).
      { intros E. apply D2. exact (E2_inf_neg (Fr Q) (zm2 SM9_m Q) O1 Om E). }
      assert (U : E12_add (untwist (zm2 SM9_m Q)) (untwist (Fr Q)) = untwist (E2_add (zm2 SM9_m Q) (Fr Q))).
      { symmetry. exact (untwist_add _ _ Om O1). }
      rewrite U. clear U.
      assert (N1 : Fr Q <> Inf) by (apply Fr_fin; discriminate).
      assert (N2 : ec_neg K2 (Fr (Fr Q)) <> Inf) by (rewrite Fr2; intros E; exact (neg_fin _ _ E)).
      assert (JA : jr2 (sm9_ec2_j_add L9 J (ec2_frobenius_a L9 (Xq, Yq))) (E2_add (zm2 SM9_m Q) (Fr Q))).
      { exact (E2_jadd w nn L9 LOK J _ _ _ (conj2 x) (conj2 y) (e12 A) _ _ S2 C1 C2 Z1 J1 Om O1 Nm N1). }
      apply (stands_mul w nn L9 LOK).
      - apply (stands_mul w nn L9 LOK); [exact S1|]. clear JA S1.
        destruct (zm2 SM9_m Q) as [|x1 y1]; [exact (False_ind _ (Nm eq_refl))|]. destruct (Fr Q) as [|x2 y2]; [exact (False_ind _ (N1 eq_refl))|].
        apply (jja_rep w nn L9 LOK xs ys xP yP HxP HyP NyP) with (X' := conj2 x) (Y' := conj2 y) (Z' := e12 A);
          [exact S2|exact C1|exact C2|exact Z1|exact J1|].
        exact (ne_x x1 y1 x2 y2 Om O1 D1 D2).
      - clear S1 S2 D1 D2 Om Nm. revert JA On' Nn' D3 D4. generalize (E2_add (zm2 SM9_m Q) (Fr Q)).
        generalize (sm9_ec2_j_add L9 J (ec2_frobenius_a L9 (Xq, Yq))). intros JJ TT JA On' Nn' D3 D4.
        assert (D5 : TT <> ec_neg K2 (ec_neg K2 (Fr (Fr Q)))) by (rewrite (ec_neg_neg K2 _ _ E2_ok); exact D3).
        clear D3. revert J2 O2n N2 D4 D5. generalize (ec_neg K2 (Fr (Fr Q))). intros QQ J2 O2n N2 D4 D5.
        destruct TT as [|x1 y1]; [exact (False_ind _ (Nn' eq_refl))|]. destruct QQ as [|x2 y2]; [exact (False_ind _ (N2 eq_refl))|].
        apply (jja_rep w nn L9 LOK xs ys xP yP HxP HyP NyP) with (X' := x) (Y' := fopp K2 y) (Z' := fmul K2 (e12 A) (e12 A));
          [exact JA|exact WX|exact C3|exact Z2|exact J2|].
        exact (ne_x x1 y1 x2 y2 On' O2n D4 D5).
    Qed.

    (** the final exponentiation *)
    Lemma stands_killed a g : stands a g -> exists v, W12 a v /\ v <> f0 K12 /\
      fpow K12 v ((SM9_p ^ 12 - 1) / SM9_n) = fpow K12 g ((SM9_p ^ 12 - 1) / SM9_n).
    Proof.
      intros (v & H & N & c & Hc & ->). eexists. split; [exact H|]. split; [exact N|].
      rewrite fpow_mulb, emb4_killed by exact Hc. apply mul_1l.
    Qed.
    Theorem pairing_strong : (forall b z, W1 b z -> R1 b z) ->
      exists g, sm9_pairing L9 (xs, ys) (Xq, Yq) = Ok g /\ R12 g (SM9_e (Aff xP yP) Q).
    Proof.
      intros S. destruct (stands_killed _ _ miller_ok) as (v & H & N & E).
      destruct (final_exp_strong w nn L9 LOK _ v S H N) as (g & Eg & Rg). exists g. split; [exact Eg|].
      rewrite E in Rg. exact Rg.
    Qed.
    (** in the portable build, unless one of the two inverses meets its exceptional values *)
    Theorem pairing_good : (forall v, W12 (sm9_miller L9 (xs, ys) (Xq, Yq)) v -> inv_good v /\
        forall u z, fmul K12 u v = fpow K12 v (SM9_p ^ 6) -> z = fpow K12 (fmul K12 u (fpow K12 u (SM9_p ^ 2))) (be_val FE_A3) -> inv_good z) ->
      exists g, sm9_pairing L9 (xs, ys) (Xq, Yq) = Ok g /\ R12 g (SM9_e (Aff xP yP) Q).
    Proof.
      intros S. destruct (stands_killed _ _ miller_ok) as (v & H & N & E). destruct (S v H) as [S1 S2].
      destruct (final_exp_good w nn L9 LOK _ v H N S1 S2) as (g & Eg & Rg). exists g. split; [exact Eg|].
      rewrite E in Rg. exact Rg.
    Qed.
  End Build.
End Q.

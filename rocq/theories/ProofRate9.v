(** The SM9 pairing is bilinear: the abstract R-ate pairing of ProofRate at the SM9 fields and curves. *)
From Coq Require Import Field Znumtheory Lia.
From Verif Require Import Base SpecField SpecTower SpecEC SpecSM9 SpecPairing ProofEC ProofECMul ProofFrob ProofSM9Res ProofSM9Curve ProofSM9Frob ProofSM9Fin
  ProofSM9Rep ProofSM9Pub ProofSM9Point ProofSM9Sign ProofIso ProofPairing ProofPairingFr ProofMiller ProofLines ProofBilin ProofCocycle ProofRate ProofEigen.

Section Gen.
  Context {F : Type} (K : field F). Add Field FKg9 : (f_theory K).
  Lemma c_w2 d Hd (x : F) : fmul (Cubic K d Hd) (x, f0 K, f0 K) (f0 K, f0 K, f1 K) = (f0 K, f0 K, x).
  Proof. cbn. apply c_eq; ring. Qed.
  Lemma back x w i : w <> f0 K -> i = finv K w -> fmul K (fmul K x (fmul K i i)) (fmul K w w) = x.
  Proof. intros Hw ->. field. exact Hw. Qed.
  Lemma sub0 x y : fsub K x y = f0 K -> x = y. Proof. intros E. transitivity (fadd K (fsub K x y) y); [ring|]. rewrite E. ring. Qed.
  Lemma six_c x c : fmul K (fmul K (fmul K c c) c) (fmul K (fmul K c c) c) = fopp K (f1 K) ->
    fmul K (fmul K (fmul K x (fmul K (fmul K c c) (fmul K c c))) (fmul K (fmul K c c) (fmul K c c))) (fmul K (fmul K c c) (fmul K c c)) = x.
  Proof.
    intros E. transitivity (fmul K x (fmul K (fmul K (fmul K (fmul K c c) c) (fmul K (fmul K c c) c)) (fmul K (fmul K (fmul K c c) c) (fmul K (fmul K c c) c)))); [ring|].
    rewrite E. ring.
  Qed.
  Lemma b_scale b w i r : w <> f0 K -> i = finv K w -> b = fmul K r (fmul K (fmul K (fmul K w w) w) (fmul K (fmul K w w) w)) ->
    fmul K b (fmul K (fmul K (fmul K i i) i) (fmul K (fmul K i i) i)) = r.
  Proof. intros Hw -> ->. field. exact Hw. Qed.
  (** verticals under a homomorphism *)
  Context {G : Type} (em : G -> F) (c px : F) (p : Z).
  Hypothesis Hh : hom K K (fun z => fpow K z p).
  Lemma vert_h P x y x' y' : fpow K px p = px -> iso K em c (Aff x' y') = pmap (fun z => fpow K z p) (iso K em c P) -> P = Aff x y ->
    fpow K (fsub K px (fmul K (em x) (fmul K c c))) p = fsub K px (fmul K (em x') (fmul K c c)).
  Proof.
    intros Ep E ->. cbn [iso pmap] in E. injection E as E _.
    pose proof (em_sub K K (fun z => fpow K z p) Hh px (fmul K (em x) (fmul K c c))) as S. cbv beta in S.
    rewrite S, Ep. f_equal. symmetry. exact E.
  Qed.
End Gen.

Definition iw : F12 := finv K12 w12.
Lemma iw_nz : iw <> f0 K12. Proof. exact (finv_nz K12 _ w12_nz). Qed.
Definition b12 : F12 := emb1 (num 5).
Lemma emb2_b : emb2 (num 0, num 5) = b12 *' (w12 *' w12 *' w12 *' (w12 *' w12 *' w12)).
Proof.
  rewrite w12_3, <- (h_mul _ _ _ emb4_hom). change b12 with (emb4 (e24 (e12 (num 5)))). rewrite <- (h_mul _ _ _ emb4_hom).
  change (emb2 (num 0, num 5)) with (emb4 (e24 (num 0, num 5))). apply (f_equal emb4).
  assert (E : fmul K4 v4 v4 = e24 u2) by exact (q_t_sq K2 u2 u_nonsquare). rewrite E, <- (h_mul _ _ _ e24_hom). apply (f_equal e24).
  unfold u2, e12. apply injective_projections; apply fval_inj; vm_compute; reflexivity.
Qed.
Lemma Hb12 : fmul K12 (emb2 (num 0, num 5)) (fmul K12 (fmul K12 (fmul K12 iw iw) iw) (fmul K12 (fmul K12 iw iw) iw)) = b12.
Proof. exact (b_scale K12 _ w12 iw b12 w12_nz eq_refl emb2_b). Qed.
Lemma phi_hom : hom K12 K12 (fun z => fpow K12 z SM9_p).
Proof.
  split.
  - apply fpow_zero. exact SM9_p_pos.
  - apply fpow_one.
  - intros x y. rewrite !fpow_p. apply (frob_add K12 p_nat p_nat_prime).
    etransitivity; [exact (c_nsm K4 v4 v_noncube p_nat)|]. rewrite K4_char. reflexivity.
  - intros x y. apply fpow_mulb.
Qed.
Lemma phi_emb1 x : fpow K12 (emb1 x) SM9_p = emb1 x.
Proof.
  change (emb1 x) with (emb2 (e12 x)). rewrite phi_emb2. apply (f_equal emb2). unfold conj2, e12. cbn [fst snd].
  now rewrite (opp_0 K1).
Qed.
Lemma Fr_iso A : iso K12 emb2 iw (Fr A) = pmap (fun z => fpow K12 z SM9_p) (iso K12 emb2 iw A).
Proof. symmetry. exact (frob_iso A). Qed.

(** ** The group G2 *)
Definition G2 (A : point F2) : Prop := E2_on A /\ zm2 SM9_n A = Inf.
Lemma G2_on A : G2 A -> on_curve K2 (f0 K2) (num 0, num 5) A. Proof. intros [H _]. exact H. Qed.
Lemma G2_inf : G2 Inf.
Proof. split; [exact I|]. apply zm_inf. Qed.
Lemma n_nn : 0 <= SM9_n. Proof. discriminate. Qed.
Lemma E2_distr k A B : 0 <= k -> E2_on A -> E2_on B -> zm2 k (E2_add A B) = E2_add (zm2 k A) (zm2 k B).
Proof.
  intros Hk HA HB. unfold E2_add. exact (ec_mul_distr K2 _ _ E2_ok (Z.to_nat k) A B HA HB).
Qed.
Lemma G2_add A B : G2 A -> G2 B -> G2 (ec_add K2 (f0 K2) A B).
Proof.
  intros [OA NA] [OB NB]. split; [exact (ec_add_on K2 _ _ E2_ok A B OA OB)|].
  pose proof (E2_distr SM9_n A B n_nn OA OB) as E. rewrite NA, NB in E. exact E.
Qed.
Lemma G2_neg A : G2 A -> G2 (ec_neg K2 A).
Proof.
  intros [OA NA]. pose proof (ec_neg_on K2 _ _ E2_ok A OA) as ON. split; [exact ON|].
  pose proof (E2_distr SM9_n A _ n_nn OA ON) as E. rewrite NA in E. unfold E2_add in E.
  rewrite (ec_add_neg K2 _ _ E2_ok A) in E. rewrite (zm_inf K2 SM9_n) in E. symmetry. exact E.
Qed.
Lemma G2_Fr A : G2 A -> G2 (Fr A).
Proof. intros [OA NA]. split; [exact (Fr_on A OA)|]. rewrite <- (Fr_mul SM9_n A OA), NA. reflexivity. Qed.
Lemma G2_no3 x y x' y' : G2 (Aff x y) -> ec_add K2 (f0 K2) (Aff x y) (Aff x y) = Aff x' y' -> x' <> x.
Proof.
  intros [O N] E ->.
  assert (O' : E2_on (Aff x y')) by (rewrite <- E; exact (ec_add_on K2 _ _ E2_ok _ _ O O)).
  assert (NI : Aff x y <> Inf) by discriminate.
  pose proof (zmul_add K2 _ _ E2_ok 1 1 (Aff x y) O ltac:(lia) ltac:(lia)) as E2. rewrite zmul_1, E in E2.
  destruct (feq_dec K2 y' (fopp K2 y)) as [e|n].
  - pose proof (zmul_add K2 _ _ E2_ok (1 + 1) 1 (Aff x y) O ltac:(lia) ltac:(lia)) as E3. rewrite zmul_1, E2 in E3.
    assert (Z0 : ec_add K2 (f0 K2) (Aff x y') (Aff x y) = Inf).
    { rewrite (ec_add_comm K2 _ _ E2_ok _ _ O' O), e. exact (ec_add_neg K2 _ _ E2_ok (Aff x y)). }
    rewrite Z0 in E3. apply (proj1 (ord2 _ O NI N (1 + 1 + 1) ltac:(lia))) in E3.
    rewrite Z.mod_small in E3; [discriminate|]. pose proof SM9_n_gt5 as G. clear -G. lia.
  - pose proof (same_x_cases K2 _ _ _ _ O' O n) as e. subst y'.
    pose proof (ec_add_cancel K2 _ _ E2_ok (Aff x y) (Aff x y) Inf O O I) as C. apply NI. apply C. rewrite E. reflexivity.
Qed.

(** ** Verticals *)
Notation Ex := ((SM9_p ^ 12 - 1) / SM9_n).
Lemma Ex_pos : 0 < Ex. Proof. rewrite <- fe_exp_div. exact fe_exp_pos. Qed.
Lemma Fr6 x y : exists y', Fr (Fr (Fr (Fr (Fr (Fr (Aff x y)))))) = Aff x y'.
Proof. rewrite !Fr2. eexists. apply aff_eq; [exact (six_c K2 x cA cA6)|reflexivity]. Qed.
Notation vt px x := (px -' emb2 x *' (iw *' iw)).
Lemma vt_phi px x y x' y' : fpow K12 px SM9_p = px -> Fr (Aff x y) = Aff x' y' -> fpow K12 (vt px x) SM9_p = vt px x'.
Proof.
  intros Ep E. apply (vert_h K12 emb2 iw px SM9_p phi_hom (Aff x y) x y x' y' Ep); [|reflexivity]. rewrite <- E. apply Fr_iso.
Qed.
Lemma vt_phi6 px x (y : F2) : fpow K12 px SM9_p = px -> fpow K12 (vt px x) (SM9_p ^ 6) = vt px x.
Proof.
  intros Ep. rewrite <- (six K12 _ SM9_p p_nn). destruct (Fr6 x y) as [y' E6].
  destruct (Fr (Aff x y)) as [|x1 y1] eqn:E1; [discriminate|]. destruct (Fr (Aff x1 y1)) as [|x2 y2] eqn:E2; [discriminate|].
  destruct (Fr (Aff x2 y2)) as [|x3 y3] eqn:E3; [discriminate|]. destruct (Fr (Aff x3 y3)) as [|x4 y4] eqn:E4; [discriminate|].
  destruct (Fr (Aff x4 y4)) as [|x5 y5] eqn:E5; [discriminate|].
  rewrite (vt_phi px x y x1 y1 Ep E1), (vt_phi px x1 y1 x2 y2 Ep E2), (vt_phi px x2 y2 x3 y3 Ep E3), (vt_phi px x3 y3 x4 y4 Ep E4),
    (vt_phi px x4 y4 x5 y5 Ep E5). exact (vt_phi px x5 y5 x y' Ep E6).
Qed.
Lemma vt_nz x0 y0 x : E1_on (Aff x0 y0) -> vt (emb1 x0) x <> f0 K12.
Proof.
  intros O Z0. apply (sub0 K12) in Z0. apply (f_equal (fun z => z *' (w12 *' w12))) in Z0.
  rewrite (back K12 (emb2 x) w12 iw w12_nz eq_refl) in Z0. rewrite w12_2 in Z0.
  assert (E : emb1 x0 *' (f0 K4, f0 K4, f1 K4) = (f0 K4, f0 K4, e24 (e12 x0))) by exact (c_w2 K4 v4 v_noncube (e24 (e12 x0))).
  rewrite E in Z0. apply (f_equal (fun z : F12 => fst (fst (snd z)))) in Z0. cbn [fst snd e24 e12 emb2] in Z0.
  change (x0 = num 0) in Z0. subst x0. exact (no_x0 y0 O).
Qed.
Lemma vt_ok x0 y0 : on_curve K1 (f0 K1) (num 5) (Aff x0 y0) -> vert_ok K12 emb2 iw G2 (fun z => fpow K12 z Ex) (emb1 x0).
Proof.
  intros O x y _. pose proof (vt_nz x0 y0 x O) as NZ. split; [|exact NZ].
  rewrite <- fe_exp_div. unfold fe_exp. rewrite <- Z.mul_assoc. apply kill; [| |exact NZ|exact (vt_phi6 _ x y (phi_emb1 x0))].
  - pose proof (Z.pow_pos_nonneg SM9_p 6 SM9_p_pos ltac:(lia)). lia.
  - vm_compute. discriminate.
Qed.
Lemma m1_killed : fpow K12 (fopp K12 (f1 K12)) Ex = f1 K12.
Proof.
  rewrite <- (h_1 _ _ _ emb4_hom) at 1. rewrite <- (em_opp _ _ _ emb4_hom). apply emb4_killed.
  intros E. apply (opp1_nz K4). exact E.
Qed.

(** ** The pairing *)
Lemma rate_gmiller PL QL : rate_miller PL QL = gmiller K12 (fun z => fpow K12 z SM9_p) (tl SM9_digits) PL QL.
Proof.
  unfold rate_miller, gmiller. change (rate_step PL QL) with (gstep K12 PL QL).
  generalize (fold_left (gstep K12 PL QL) (tl SM9_digits) (f1 K12, QL)). intros [f T]. reflexivity.
Qed.
Definition SM9_j : Z := (SM9_m + SM9_p + SM9_p * (SM9_p * SM9_p) - SM9_p * SM9_p) / SM9_n.
Lemma SM9_dvd : SM9_m + SM9_p + SM9_p * (SM9_p * SM9_p) = SM9_p * SM9_p + SM9_n * SM9_j.
Proof. vm_compute. reflexivity. Qed.
Lemma SM9_j_nn : 0 <= SM9_j. Proof. vm_compute. discriminate. Qed.
Lemma m_nn : 0 <= SM9_m. Proof. exact (proj1 SM9_m_bounds). Qed.
Lemma Fr_add' A B : G2 A -> G2 B -> Fr (ec_add K2 (f0 K2) A B) = ec_add K2 (f0 K2) (Fr A) (Fr B).
Proof. intros [OA _] [OB _]. exact (Fr_add A B OA OB). Qed.
Definition e9 : point F1 -> point F2 -> F12 := eP K2 K12 emb1 emb2 iw Fr SM9_m Ex.
Definition cl9 : point F2 -> Prop := cl K2 Fr SM9_m.
Lemma ord9 z : z <> f0 K12 -> fpow K12 (fpow K12 z Ex) SM9_n = f1 K12. Proof. exact (fe_order z). Qed.
Theorem e9_value P Q : E1_on P -> G2 Q -> SM9_e P Q = e9 P Q.
Proof.
  intros OP GQ. unfold SM9_e, SM9_rate. rewrite rate_gmiller, untwist_iso.
  exact (miller_value K1 K2 K12 emb1 emb2 emb1_hom emb2_hom iw iw_nz (num 5) (num 0, num 5) b12 E2_ok eq_refl Hb12 G2 G2_on G2_inf G2_add G2_neg
    G2_no3 Fr G2_Fr Fr_add' Fr_neg SM9_n SM9_p SM9_m Ex m_nn phi_emb1 Fr_iso ord9 vt_ok P Q OP GQ (tl SM9_digits) digits_ok digits_m).
Qed.
Theorem e9_bil P Q a b : E1_on P -> G2 Q -> cl9 Q -> 0 <= a -> 0 <= b ->
  e9 (zm1 a P) (zm2 b Q) = fpow K12 (e9 P Q) (a * b).
Proof.
  exact (eP_bil K1 K2 K12 emb1 emb2 emb1_hom emb2_hom iw iw_nz (num 5) (num 0, num 5) b12 E1_ok E2_ok eq_refl Hb12 G2 G2_on G2_inf G2_add G2_neg
    G2_no3 Fr G2_Fr Fr_add' Fr_neg SM9_n SM9_p SM9_m Ex SM9_j p_nn m_nn n_nn Ex_pos SM9_j_nn SM9_dvd phi_hom phi_emb1 Fr_iso ord9 m1_killed vt_ok P Q a b).
Qed.
Theorem e9_add_l P P' Q : E1_on P -> E1_on P' -> G2 Q -> cl9 Q -> e9 (ec_add K1 (f0 K1) P P') Q = e9 P Q *' e9 P' Q.
Proof.
  exact (eP_add_l K1 K2 K12 emb1 emb2 emb1_hom emb2_hom iw iw_nz (num 5) (num 0, num 5) b12 E1_ok E2_ok eq_refl Hb12 G2 G2_on G2_inf G2_add G2_neg
    G2_no3 Fr G2_Fr Fr_add' Fr_neg SM9_n SM9_p SM9_m Ex SM9_j p_nn m_nn n_nn Ex_pos SM9_j_nn SM9_dvd phi_hom phi_emb1 Fr_iso ord9 m1_killed vt_ok P P' Q).
Qed.
Theorem e9_add_r P A B : E1_on P -> G2 A -> G2 B -> cl9 A -> cl9 B -> e9 P (ec_add K2 (f0 K2) A B) = e9 P A *' e9 P B.
Proof.
  exact (eP_add_r K1 K2 K12 emb1 emb2 emb1_hom emb2_hom iw iw_nz (num 5) (num 0, num 5) b12 E2_ok eq_refl Hb12 G2 G2_on G2_inf G2_add G2_neg
    G2_no3 Fr G2_Fr Fr_add' Fr_neg SM9_n SM9_p SM9_m Ex SM9_j p_nn m_nn n_nn Ex_pos SM9_j_nn SM9_dvd phi_hom phi_emb1 Fr_iso ord9 vt_ok P A B).
Qed.
Lemma cl9_mul k Q : 0 <= k -> G2 Q -> cl9 Q -> cl9 (zm2 k Q).
Proof.
  exact (cl_mul K1 K2 K12 emb1 emb2 iw (num 5) (num 0, num 5) b12 E2_ok G2 G2_on G2_inf G2_add G2_neg
    G2_no3 Fr G2_Fr Fr_add' Fr_neg SM9_n SM9_p SM9_m Ex m_nn phi_emb1 Fr_iso ord9 vt_ok k Q).
Qed.
Lemma P2_G2 : G2 P2. Proof. split; [exact P2_on|exact P2_order]. Qed.
Lemma P2_cl : cl9 P2. Proof. exact P2_closes. Qed.
Lemma G2_mul k Q : 0 <= k -> G2 Q -> G2 (zm2 k Q).
Proof.
  intros Hk [O N]. split; [exact (zmul_on K2 _ _ E2_ok k Q O)|].
  rewrite <- (zmul_mul K2 _ _ E2_ok SM9_n k Q O n_nn Hk), Z.mul_comm, (zmul_mul K2 _ _ E2_ok k SM9_n Q O Hk n_nn), N.
  apply (zm_inf K2 k).
Qed.
Theorem SM9_e_bilinear P a b : E1_on P -> 0 <= a -> 0 <= b -> SM9_e (zm1 a P) (zm2 b P2) = fpow K12 (SM9_e P P2) (a * b).
Proof.
  intros OP Ha Hb. rewrite (e9_value P P2 OP P2_G2), (e9_value (zm1 a P) (zm2 b P2) (zmul_on K1 _ _ E1_ok a P OP) (G2_mul b P2 Hb P2_G2)).
  exact (e9_bil P P2 a b OP P2_G2 P2_cl Ha Hb).
Qed.
Theorem SM9_e_add_l P P' b : E1_on P -> E1_on P' -> 0 <= b ->
  SM9_e (E1_add P P') (zm2 b P2) = SM9_e P (zm2 b P2) *' SM9_e P' (zm2 b P2).
Proof.
  intros OP OP' Hb. pose proof (G2_mul b P2 Hb P2_G2) as G. pose proof (cl9_mul b P2 Hb P2_G2 P2_cl) as C.
  rewrite (e9_value P _ OP G), (e9_value P' _ OP' G), (e9_value (E1_add P P') _ (ec_add_on K1 _ _ E1_ok P P' OP OP') G).
  exact (e9_add_l P P' _ OP OP' G C).
Qed.
Theorem SM9_e_add_r P a b : E1_on P -> 0 <= a -> 0 <= b ->
  SM9_e P (E2_add (zm2 a P2) (zm2 b P2)) = SM9_e P (zm2 a P2) *' SM9_e P (zm2 b P2).
Proof.
  intros OP Ha Hb. pose proof (G2_mul a P2 Ha P2_G2) as GA. pose proof (cl9_mul a P2 Ha P2_G2 P2_cl) as CA.
  pose proof (G2_mul b P2 Hb P2_G2) as GB. pose proof (cl9_mul b P2 Hb P2_G2 P2_cl) as CB.
  rewrite (e9_value P _ OP GA), (e9_value P _ OP GB), (e9_value P (E2_add (zm2 a P2) (zm2 b P2)) OP (G2_add _ _ GA GB)).
  exact (e9_add_r P _ _ OP GA GB CA CB).
Qed.

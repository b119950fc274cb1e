(** The SM2 field and curve functions on stored numbers: contexts, field operations, point
    operations, scalar multiplication, square root and encodings.  For any number library that
    satisfies [numlib_ok] (both build variants do). *)
From Coq Require Import Znumtheory Field_theory.
From Verif Require Import Base BaseFacts ModelEndian ProofEndian ModelNumber SpecNumber ProofNumber ModelMont SpecMont
  ProofMont SpecField SpecEC SpecJac ProofEC ProofECMul ProofFermat ModelEC ProofJac ProofJacRep
  ProofNumlib ProofZops SpecSM2Curve ProofSM2Curve ModelSM2 SpecSM2 SpecSM2Api.

Global Opaque SM2_p SM2_n.

Lemma SM2_p_val : be_val SM2_CURVE_P = SM2_p. Proof. reflexivity. Qed.
Lemma SM2_n_val : be_val SM2_CURVE_N = SM2_n. Proof. reflexivity. Qed.
Lemma SM2_p_range : 2 ^ 255 <= SM2_p < 2 ^ 256. Proof. split; [vm_compute; discriminate|vm_compute; reflexivity]. Qed.
Lemma SM2_n_range : 2 ^ 255 <= SM2_n < 2 ^ 256. Proof. split; [vm_compute; discriminate|vm_compute; reflexivity]. Qed.
Lemma SM2_n_mod4 : SM2_n mod 4 = 3. Proof. reflexivity. Qed.
Lemma SM2_n_odd : Z.odd SM2_n = true. Proof. reflexivity. Qed.
Lemma SM2_n_gt5 : 5 < SM2_n. Proof. reflexivity. Qed.

Lemma bytes_forallb l : forallb (fun b => (0 <=? b) && (b <? 256)) l = true -> bytes l.
Proof.
  intros H. apply Forall_forall. intros b Hb. rewrite forallb_forall in H. specialize (H b Hb).
  unfold is_byte. lia.
Qed.
Ltac const_bytes := apply bytes_forallb; reflexivity.

Lemma nz0_val w n l : 0 < w -> limbs w (S n) l -> nz l 0 = val w l mod 2 ^ w.
Proof.
  intros Hw [Hl Hf]. destruct l as [|x r]; [discriminate|]. cbn [val]. inversion Hf; subst.
  rewrite Z.mul_comm, Z_mod_plus_full, Z.mod_small by assumption. reflexivity.
Qed.

Section SM2.
  Variables (w : Z) (nn : nat) (L : numlib).
  Hypothesis LOK : numlib_ok w nn L.

  Lemma lib_nn : exists m, nn = S m.
  Proof. pose proof (ok_wn _ _ _ LOK) as E. destruct nn as [|m]; [cbn in E; lia|now exists m]. Qed.

  Lemma ctx_of_consts P bP bP2 bR bRR :
    bytes bP -> length bP = 32%nat -> be_val bP = P -> Z.odd P = true -> 2 < P ->
    bytes bP2 -> length bP2 = 32%nat -> be_val bP2 = P - 2 ->
    bytes bR -> length bR = 32%nat -> be_val bR = 2 ^ 256 mod P ->
    bytes bRR -> length bRR = 32%nat -> be_val bRR = 2 ^ 512 mod P ->
    mont_ctx_ok w nn P (MkCtx (nl_epi8 L bP) (nl_epi8 L bP2) (nl_epi8 L bR) (nl_epi8 L bRR)
                          (nl_N L (nz (nl_epi8 L bP) 0))).
  Proof.
    intros B1 L1 V1 HO H2 B2 L2 V2 B3 L3 V3 B4 L4 V4.
    destruct (ok_epi8 _ _ _ LOK bP B1 L1) as [D1 E1]. destruct (ok_epi8 _ _ _ LOK bP2 B2 L2) as [D2 E2].
    destruct (ok_epi8 _ _ _ LOK bR B3 L3) as [D3 E3]. destruct (ok_epi8 _ _ _ LOK bRR B4 L4) as [D4 E4].
    pose proof (ok_w _ _ _ LOK) as Hw.
    assert (N0 : nz (nl_epi8 L bP) 0 = P mod 2 ^ w).
    { destruct lib_nn as [m Em]. rewrite Em in D1. rewrite (nz0_val w m) by (lia || exact D1).
      now rewrite E1, V1. }
    assert (O0 : Z.odd (P mod 2 ^ w) = true).
    { rewrite <- Z.bit0_odd, Z.mod_pow2_bits_low, Z.bit0_odd by lia. exact HO. }
    assert (B0 : 0 < P mod 2 ^ w < 2 ^ w).
    { pose proof (Z.mod_pos_bound P (2 ^ w) ltac:(apply Z.pow_pos_nonneg; lia)).
      destruct (Z.eq_dec (P mod 2 ^ w) 0) as [E|]; [rewrite E in O0; discriminate|lia]. }
    destruct (ok_N _ _ _ LOK (P mod 2 ^ w) B0 O0) as [N1 N2].
    constructor; cbn [m_P m_P_SUB2 m_R m_R_POW2 m_N]; try assumption; try congruence.
    - rewrite N0. rewrite Zmult_mod_idemp_r in N2. exact N2.
  Qed.

  Lemma FP_CTX_ok : mont_ctx_ok w nn SM2_p (FP_CTX L).
  Proof.
    apply ctx_of_consts; try const_bytes; try reflexivity.
  Qed.
  Lemma FN_CTX_ok : mont_ctx_ok w nn SM2_n (FN_CTX L).
  Proof.
    apply ctx_of_consts; try const_bytes; try reflexivity.
  Qed.

  Notation Rp := (SpecSM2Api.Rp w nn).
  Notation Rn := (SpecSM2Api.Rn w nn).
  Notation K := SM2_K.

  Lemma SM2_p_pos : 0 < SM2_p. Proof. pose proof SM2_p_gt2. lia. Qed.

  Lemma sm2_ops_rel : ops_rel (sm2_fp_ops L) K Rp Rp.
  Proof.
    pose proof FP_CTX_ok as OK. pose proof SM2_p_range as RG.
    constructor; unfold SpecSM2Api.Rp, SM2_K;
      cbn [sm2_fp_ops o_add o_sub o_mul o_sqr o_dbl o_tpl o_neg o_inv o_eq o_is0 o_zero o_one
           Fp f0 f1 fadd fmul fsub fopp fdiv finv feq_dec];
      unfold fp_add, fp_mul, fp_sub, fp_opp, fp_inv.
    - trivial.
    - intros a b x y Ha Hb. rewrite fval_fof. now apply (ok_add _ _ _ LOK).
    - intros a b x y Ha Hb. rewrite fval_fof. now apply (ok_msub _ _ _ LOK).
    - intros a b x y Ha Hb. rewrite fval_fof. now apply (ok_mul _ _ _ LOK).
    - intros a x Ha. rewrite fval_fof. now apply (ok_sqr _ _ _ LOK).
    - intros a x Ha. rewrite fval_fof. replace (fval x + fval x) with (2 * fval x) by ring.
      now apply (ok_dbl _ _ _ LOK).
    - intros a x Ha. rewrite !fval_fof, Zplus_mod_idemp_l.
      replace (fval x + fval x + fval x) with (3 * fval x) by ring.
      apply (ok_mtpl _ _ _ LOK); [assumption|exact (proj1 RG)|assumption].
    - intros a x Ha Hx. rewrite fval_fof. apply (ok_neg _ _ _ LOK); [assumption|assumption|].
      intros E. apply Hx. apply fval_inj. rewrite fval_fof, E. symmetry. apply Z.mod_0_l. pose proof SM2_p_pos. lia.
    - intros a x Ha. rewrite fval_fof, pow_mod_spec, Zmod_mod, Z2Pos.id by (pose proof SM2_p_gt2; lia).
      now apply (ok_inv _ _ _ LOK).
    - intros a b x y Ha Hb. rewrite (ok_equal _ _ _ LOK _ _ _ _ _ _ OK Ha Hb).
      destruct (fp_eq_dec SM2_p x y) as [->|N]; [apply Z.eqb_refl|].
      apply Z.eqb_neq. intros E. apply N. now apply fval_inj.
    - intros a x Ha. rewrite (ok_equal_zero _ _ _ LOK _ _ _ _ OK Ha).
      destruct (fp_eq_dec SM2_p x (fof SM2_p 0)) as [->|N].
      + reflexivity.
      + apply Z.eqb_neq. intros E. apply N. apply fval_inj. rewrite E. reflexivity.
    - exact (ok_zero _ _ _ LOK _ _ OK).
    - exact (ok_one _ _ _ LOK _ _ OK).
  Qed.

  Lemma Rp_from_bytes b : bytes b -> length b = 32%nat -> Rp (sm2_fp_from_bytes L b) (fof SM2_p (be_val b)).
  Proof. intros Hb Hl. exact (ok_mfrom _ _ _ LOK _ _ b FP_CTX_ok Hb Hl). Qed.
  Lemma Rp_to_bytes a x : Rp a x -> sm2_fp_to_bytes L a = be_bytes 32 (fval x).
  Proof. intros H. exact (ok_mto _ _ _ LOK _ _ _ _ FP_CTX_ok H). Qed.
  Lemma Rn_from_bytes b : bytes b -> length b = 32%nat -> Rn (sm2_fn_from_bytes L b) (be_val b mod SM2_n).
  Proof. intros Hb Hl. exact (ok_mfrom _ _ _ LOK _ _ b FN_CTX_ok Hb Hl). Qed.
  Lemma Rn_to_bytes a x : Rn a x -> sm2_fn_to_bytes L a = be_bytes 32 x.
  Proof. intros H. exact (ok_mto _ _ _ LOK _ _ _ _ FN_CTX_ok H). Qed.
  Lemma Rn_from_bytes_ex b : bytes b -> exists r, sm2_fn_from_bytes_ex L b = Ok r /\ Rn r (be_val b mod SM2_n).
  Proof.
    intros Hb. destruct (ok_mex _ _ _ LOK _ _ b FN_CTX_ok Hb) as (r & E & R).
    exists r. unfold sm2_fn_from_bytes_ex. rewrite E. split; [reflexivity|exact R].
  Qed.
  Lemma Rn_from_fp a x : Rp a x -> Rn (sm2_fn_from_fp L a) (fval x mod SM2_n).
  Proof.
    intros H. unfold sm2_fn_from_fp. rewrite (Rp_to_bytes a x H).
    pose proof (fval_range SM2_p x SM2_p_pos) as B. pose proof SM2_p_range.
    pose proof (Rn_from_bytes (be_bytes 32 (fval x)) (be_bytes_bytes _ _) (be_bytes_length _ _)) as R.
    rewrite be_val_be_bytes in R. change (256 ^ Z.of_nat 32) with (2 ^ 256) in R.
    rewrite (Z.mod_small (fval x) (2 ^ 256)) in R by lia. exact R.
  Qed.

  (** ** Curve points *)
  Notation jr := (jrep K Rp).
  Notation ar := (aR Rp).

  Lemma sm2_jdbl J P : jr J P -> jr (sm2_ec_j_dbl L J) (SM2_add P P).
  Proof. apply (jrep_dbl_2001b _ _ _ _ sm2_ops_rel _ _ sm2_curve_ok). exact SM2_A_opp. Qed.

  Lemma sm2_jadd J1 J2 P Q : jr J1 P -> jr J2 Q -> SM2_on P -> SM2_on Q -> (P = Inf <-> Q = Inf) ->
    jr (sm2_ec_j_add L J1 J2) (SM2_add P Q).
  Proof.
    apply (jrep_add _ _ _ _ sm2_ops_rel _ _ sm2_curve_ok) with (dblF := j_dbl_2001b (Fops K)).
    - apply (dbl_2001b_rep _ _ _ _ sm2_ops_rel).
    - intros J P0 HJ. destruct sm2_curve_ok as [O1 O2].
      exact (dbl_2001b_ok _ _ _ _ _ _ _ _ _ _ (f_theory K) _ O1 J P0 SM2_A_opp HJ).
  Qed.

  Lemma sm2_jmul k Q x y : bytes k -> length k = 32%nat -> ar Q (x, y) -> SM2_on (Aff x y) ->
    exists J, sm2_ec_j_mul_a L k Q = Ok J /\ jr J (zm (be_val k mod SM2_n) (Aff x y)).
  Proof.
    intros Hk Hl HQ Hon. unfold sm2_ec_j_mul_a.
    destruct (ok_epi8 _ _ _ LOK SM2_CURVE_N ltac:(const_bytes) eq_refl) as [LN VN].
    rewrite SM2_n_val in VN. pose proof SM2_n_range as RG.
    apply (j_mul_a_rep _ K Rp Rp sm2_ops_rel SM2_A SM2_B sm2_curve_ok w nn L LOK (sm2_ec_j_dbl L) sm2_jdbl
      SM2_n Q x y SM2_n_gt5 SM2_n_odd HQ Hon); try assumption; try lia.
    - intros j Hj. apply sm2_mul_inf_iff; [exact Hon|discriminate|exact Hj].
    - left. exact SM2_n_mod4.
  Qed.

  Lemma sm2_G_ar : ar (sm2_fp_from_bytes L SM2_CURVE_GX, sm2_fp_from_bytes L SM2_CURVE_GY)
    (fof SM2_p SM2_Gx, fof SM2_p SM2_Gy).
  Proof.
    split.
    - change SM2_Gx with (be_val SM2_CURVE_GX). apply Rp_from_bytes; [const_bytes|reflexivity].
    - change SM2_Gy with (be_val SM2_CURVE_GY). apply Rp_from_bytes; [const_bytes|reflexivity].
  Qed.
  Lemma sm2_jmulg k : bytes k -> length k = 32%nat ->
    exists J, sm2_ec_j_mul_g L k = Ok J /\ jr J (zm (be_val k mod SM2_n) SM2_G).
  Proof. intros Hk Hl. apply sm2_jmul; [assumption|assumption|exact sm2_G_ar|exact sm2_G_on]. Qed.

  Lemma SM2_inv0 : finv K (f0 K) = f0 K.
  Proof.
    apply fval_inj. change (fval (fp_inv (fof SM2_p 0)) = fval (fof SM2_p 0)).
    unfold fp_inv. rewrite !fval_fof, pow_mod_spec. generalize (Z.to_pos (SM2_p - 2)). intros e.
    assert (E : 0 mod SM2_p = 0) by (apply Z.mod_0_l; pose proof SM2_p_pos; lia).
    rewrite E, (Z.pow_0_l (Z.pos e)) by lia. now rewrite !E.
  Qed.
  Lemma sm2_to_a J P : jr J P -> ar (sm2_ec_j_to_a L J) (pt_x P, pt_y P).
  Proof.
    destruct P as [|x y].
    - intros H. exact (jrep_to_a_inf _ _ _ _ sm2_ops_rel J SM2_inv0 H).
    - intros H. exact (jrep_to_a _ _ _ _ sm2_ops_rel J x y H).
  Qed.

  (** ** The curve equation and square roots *)
  Notation Rmul := (fun a b x y => r_mul _ _ _ _ sm2_ops_rel a b x y).
  Lemma Rp_rhs a x : Rp a x ->
    Rp (sm2_rhs L a) (fadd K (fadd K (fmul K (fmul K x x) x) (fmul K SM2_A x)) SM2_B).
  Proof.
    intros H. unfold sm2_rhs. cbv zeta.
    assert (HB : Rp (sm2_fp_from_bytes L SM2_CURVE_B) SM2_B).
    { unfold SM2_B. change SM2_b with (be_val SM2_CURVE_B). apply Rp_from_bytes; [const_bytes|reflexivity]. }
    assert (HA : Rp (sm2_fp_from_bytes L SM2_CURVE_A) SM2_A).
    { unfold SM2_A. change SM2_a with (be_val SM2_CURVE_A). apply Rp_from_bytes; [const_bytes|reflexivity]. }
    pose proof (r_mul _ _ _ _ sm2_ops_rel _ _ _ _ HA H) as H1.
    pose proof (r_add _ _ _ _ sm2_ops_rel _ _ _ _ HB H1) as H2.
    pose proof (r_sqr _ _ _ _ sm2_ops_rel _ _ H) as H3.
    pose proof (r_mul _ _ _ _ sm2_ops_rel _ _ _ _ H3 H) as H4.
    pose proof (r_add _ _ _ _ sm2_ops_rel _ _ _ _ H2 H4) as H5.
    assert (E : fadd K (fadd K SM2_B (fmul K SM2_A x)) (fmul K (fmul K x x) x)
              = fadd K (fadd K (fmul K (fmul K x x) x) (fmul K SM2_A x)) SM2_B).
    { pose proof (Field_theory.F_R (f_theory K)) as T. destruct T.
      generalize (fmul K (fmul K x x) x) (fmul K SM2_A x). intros u v.
      transitivity (fadd K u (fadd K SM2_B v)); [apply Radd_comm|].
      rewrite <- Radd_assoc. f_equal. apply Radd_comm. }
    rewrite <- E. exact H5.
  Qed.
  Lemma sm2_check_spec Q x y : ar Q (x, y) -> (sm2_ec_a_check L Q = true <-> SM2_on (Aff x y)).
  Proof.
    destruct Q as [a b]. intros [Ha Hb]. unfold sm2_ec_a_check.
    pose proof (r_eq _ _ _ _ sm2_ops_rel _ _ _ _ (r_sqr _ _ _ _ sm2_ops_rel _ _ Hb) (Rp_rhs _ _ Ha)) as E.
    cbn [sm2_fp_ops o_eq o_sqr] in E. rewrite E.
    destruct (feq_dec K _ _) as [E'|N]; split; intros H; [exact E'|reflexivity|discriminate|contradiction].
  Qed.
End SM2.

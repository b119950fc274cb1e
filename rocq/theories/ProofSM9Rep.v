(** The SM9 field functions on stored numbers: contexts, F_p, F_p^2, F_p^4, F_p^12.  For any number
    library that satisfies [numlib9_ok] (both build variants do). *)
From Coq Require Import Znumtheory Field_theory.
From Verif Require Import Base BaseFacts ModelEndian ProofEndian ModelNumber SpecNumber ProofNumber ModelMont SpecMont
  ProofMont SpecField SpecTower SpecEC SpecJac ProofFermat ModelEC ProofJac ProofJacRep
  ProofNumlib ModelSM9 ProofNumlib9 SpecSM9 ProofTower ProofTowerRep ProofSM2Rep.

Global Opaque SM9_p SM9_n.

Lemma SM9_p_range : 2 ^ 255 <= SM9_p < 2 ^ 256. Proof. split; [vm_compute; discriminate|vm_compute; reflexivity]. Qed.
Lemma SM9_n_range : 2 ^ 255 <= SM9_n < 2 ^ 256. Proof. split; [vm_compute; discriminate|vm_compute; reflexivity]. Qed.
Lemma SM9_p_pos : 0 < SM9_p. Proof. pose proof SM9_p_gt2. lia. Qed.
Lemma SM9_n_odd : Z.odd SM9_n = true. Proof. reflexivity. Qed.
Lemma SM9_n_gt5 : 5 < SM9_n. Proof. reflexivity. Qed.
Lemma SM9_n_lt_p : SM9_n < SM9_p. Proof. vm_compute. reflexivity. Qed.

(** reduced and possibly unreduced stored elements of F_p; stored integers modulo n *)
Definition R1 (w : Z) (nn : nat) (a : list Z) (x : F1) : Prop := mont_repr w nn SM9_p a (fval x).
Definition W1 (w : Z) (nn : nat) (a : list Z) (x : F1) : Prop := mont_weak w nn SM9_p a (fval x).
Definition Rn9 (w : Z) (nn : nat) (a : list Z) (x : Z) : Prop := mont_repr w nn SM9_n a x.

Lemma num_neg2 : num (-2) = fopp K1 (fadd K1 (f1 K1) (f1 K1)).
Proof. apply fval_inj. vm_compute. reflexivity. Qed.
Lemma K1_inv0 : finv K1 (f0 K1) = f0 K1.
Proof.
  apply fval_inj. change (fval (fp_inv (fof SM9_p 0)) = fval (fof SM9_p 0)).
  unfold fp_inv. rewrite !fval_fof, pow_mod_spec. generalize (Z.to_pos (SM9_p - 2)). intros e.
  assert (E : 0 mod SM9_p = 0) by (apply Z.mod_0_l; pose proof SM9_p_pos; lia).
  rewrite E, (Z.pow_0_l (Z.pos e)) by lia. now rewrite !E.
Qed.

Section SM9.
  Variables (w : Z) (nn : nat) (L9 : numlib9).
  Hypothesis LOK : numlib9_ok w nn L9.
  Notation L := (l9 L9).
  Notation R1 := (R1 w nn). Notation W1 := (W1 w nn). Notation Rn9 := (Rn9 w nn).
  Notation R2 := (rel2 R1). Notation W2 := (rel2 W1).
  Notation R4 := (rel2 R2). Notation W4 := (rel2 W2).
  Notation R12 := (rel3 R4). Notation W12 := (rel3 W4).
  Notation Op := (sm9_fp_ops L9).
  Notation LK := (k_lib _ _ _ LOK).

  Lemma FP9_CTX_ok : mont_ctx_ok w nn SM9_p (FP9_CTX L9).
  Proof. apply (ctx_of_consts w nn L LK); try const_bytes; try reflexivity. Qed.
  Lemma FN9_CTX_ok : mont_ctx_ok w nn SM9_n (FN9_CTX L9).
  Proof. apply (ctx_of_consts w nn L LK); try const_bytes; try reflexivity. Qed.

  Lemma sm9_ops9 : ops9 Op K1 R1 W1.
  Proof.
    pose proof FP9_CTX_ok as OK. pose proof SM9_p_range as RG. pose proof LK as LK.
    constructor; unfold ProofSM9Rep.R1, ProofSM9Rep.W1, K1;
      cbn [sm9_fp_ops o_add o_sub o_mul o_sqr o_dbl o_tpl o_neg o_inv o_eq o_is0 o_zero o_one
           Fp f0 f1 fadd fmul fsub fopp fdiv finv feq_dec];
      unfold fp_add, fp_mul, fp_sub, fp_opp, fp_inv.
    - intros a x H. now left.
    - intros a b x y Ha Hb. rewrite fval_fof. now apply (k_add _ _ _ LOK).
    - intros a b x y Ha Hb. rewrite fval_fof. now apply (k_addw _ _ _ LOK).
    - intros a b x y Ha Hb. rewrite fval_fof. now apply (k_addww _ _ _ LOK).
    - intros a b x y Ha Hb. rewrite fval_fof. now apply (k_sub _ _ _ LOK).
    - intros a b x y Ha Hb. rewrite fval_fof. now apply (k_mul _ _ _ LOK).
    - intros a x Ha. rewrite fval_fof. now apply (k_sqr _ _ _ LOK).
    - intros a x Ha. rewrite fval_fof. replace (fval x + fval x) with (2 * fval x) by ring.
      now apply (ok_dbl _ _ _ LK).
    - intros a x Ha. rewrite !fval_fof, Zplus_mod_idemp_l.
      replace (fval x + fval x + fval x) with (3 * fval x) by ring.
      apply (ok_mtpl _ _ _ LK); [assumption|exact (proj1 RG)|assumption].
    - intros a x Ha. rewrite fval_fof. now apply (k_neg _ _ _ LOK).
    - intros a x Ha. rewrite fval_fof, pow_mod_spec, Zmod_mod, Z2Pos.id by (pose proof SM9_p_gt2; lia).
      now apply (ok_inv _ _ _ LK).
    - intros a b x y Ha Hb. rewrite (ok_equal _ _ _ LK _ _ _ _ _ _ OK Ha Hb).
      destruct (fp_eq_dec SM9_p x y) as [->|N]; [apply Z.eqb_refl|].
      apply Z.eqb_neq. intros E. apply N. now apply fval_inj.
    - intros a x Ha. rewrite (ok_equal_zero _ _ _ LK _ _ _ _ OK Ha).
      destruct (fp_eq_dec SM9_p x (fof SM9_p 0)) as [->|N].
      + reflexivity.
      + apply Z.eqb_neq. intros E. apply N. apply fval_inj. rewrite E. reflexivity.
    - exact (ok_zero _ _ _ LK _ _ OK).
    - exact (ok_one _ _ _ LK _ _ OK).
  Qed.
  Notation O9 := sm9_ops9.

  (** ** F_p^2 *)
  Notation eq2 lem := (lem F1 K1 (num (-2)) num_neg2 neg2_nonsquare).
  Lemma r2_w a x : R2 a x -> W2 a x. Proof. exact (w2 _ _ _ _ O9 a x). Qed.
  Lemma r2_mul a b x y : W2 a x -> W2 b y -> R2 (fp2_mul Op a b) (fmul K2 x y).
  Proof. intros H1 H2. pose proof (mul2 _ _ _ _ O9 a b x y H1 H2) as H. rewrite (@fp2_mul_eq F1 K1 _ num_neg2 neg2_nonsquare) in H. exact H. Qed.
  Lemma r2_sqr a x : W2 a x -> R2 (fp2_sqr Op a) (fmul K2 x x).
  Proof. intros H1. pose proof (sqr2 _ _ _ _ O9 a x H1) as H. rewrite (@fp2_sqr_eq F1 K1 _ num_neg2 neg2_nonsquare) in H. exact H. Qed.
  Lemma r2_inv a x : W2 a x -> W2 (fp2_inv Op a) (finv K2 x).
  Proof. intros H1. pose proof (inv2 _ _ _ _ O9 a x H1) as H. rewrite (@fp2_inv_eq F1 K1 _ num_neg2 neg2_nonsquare) in H. exact H. Qed.
  Lemma r2_mul_u a x : R2 a x -> W2 (fp2_mul_u Op a) (fmul K2 u2 x).
  Proof. intros H1. pose proof (mulu2 _ _ _ _ O9 a x H1) as H. rewrite (@fp2_mul_u_eq F1 K1 _ num_neg2 neg2_nonsquare) in H. exact H. Qed.
  Lemma r2_add a b x y : W2 a x -> R2 b y -> R2 (fp2_add Op a b) (fadd K2 x y).
  Proof. exact (add2 _ _ _ _ O9 a b x y). Qed.
  Lemma r2_addww a b x y : W2 a x -> W2 b y -> W2 (fp2_add Op a b) (fadd K2 x y).
  Proof. exact (add2ww _ _ _ _ O9 a b x y). Qed.
  Lemma r2_sub a b x y : R2 a x -> W2 b y -> R2 (fp2_sub Op a b) (fsub K2 x y).
  Proof. exact (sub2 _ _ _ _ O9 a b x y). Qed.
  Lemma r2_neg a x : W2 a x -> W2 (fp2_neg Op a) (fopp K2 x).
  Proof. exact (neg2 _ _ _ _ O9 a x). Qed.
  Lemma r2_is0 a x : R2 a x -> fp2_equal_zero Op a = if feq_dec K2 x (f0 K2) then true else false.
  Proof. exact (is02 _ _ _ _ O9 a x). Qed.
  Lemma r2_eq a b x y : R2 a x -> R2 b y -> fp2_equal Op a b = if feq_dec K2 x y then true else false.
  Proof. exact (ProofTowerRep.eq2 _ _ _ _ O9 a b x y). Qed.

  (** what the curve formulas use, over F_p and over F_p^2 *)
  Lemma sm9_rel1 : ops_rel Op K1 R1 W1.
  Proof.
    pose proof O9 as O. constructor.
    - exact (t_w _ _ _ _ O).
    - intros a b x y Ha Hb. apply (t_add _ _ _ _ O); [now apply (t_w _ _ _ _ O)|assumption].
    - intros a b x y Ha Hb. apply (t_sub _ _ _ _ O); [assumption|now apply (t_w _ _ _ _ O)].
    - exact (t_mul _ _ _ _ O).
    - exact (t_sqr _ _ _ _ O).
    - exact (t_dbl _ _ _ _ O).
    - exact (t_tpl _ _ _ _ O).
    - intros a x Ha _. apply (t_neg _ _ _ _ O). now apply (t_w _ _ _ _ O).
    - intros a x Ha. apply (t_w _ _ _ _ O). now apply (t_inv _ _ _ _ O).
    - exact (t_eq _ _ _ _ O).
    - exact (t_is0 _ _ _ _ O).
    - exact (t_zero _ _ _ _ O).
    - exact (t_one _ _ _ _ O).
  Qed.
  Lemma sm9_rel2 : ops_rel (sm9_fp2_ops L9) K2 R2 W2.
  Proof.
    constructor; cbn [sm9_fp2_ops fp2_ops o_add o_sub o_mul o_sqr o_dbl o_tpl o_neg o_inv o_eq o_is0 o_zero o_one].
    - exact r2_w.
    - intros a b x y Ha Hb. apply r2_add; [now apply r2_w|assumption].
    - intros a b x y Ha Hb. apply r2_sub; [assumption|now apply r2_w].
    - exact r2_mul.
    - exact r2_sqr.
    - exact (dbl2 _ _ _ _ O9).
    - exact (tpl2 _ _ _ _ O9).
    - intros a x Ha _. apply r2_neg. now apply r2_w.
    - intros a x Ha. apply r2_inv. now apply r2_w.
    - exact r2_eq.
    - exact r2_is0.
    - exact (zero2 _ _ _ _ O9).
    - exact (one2 _ _ _ _ O9).
  Qed.

  (** ** F_p^4 *)
  Lemma r4_w a x : R4 a x -> W4 a x. Proof. exact (w4 _ _ _ _ O9 a x). Qed.
  Lemma r4_add a b x y : W4 a x -> R4 b y -> R4 (fp4_add Op a b) (fadd K4 x y).
  Proof. exact (add4 _ _ _ _ O9 a b x y). Qed.
  Lemma r4_addww a b x y : W4 a x -> W4 b y -> W4 (fp4_add Op a b) (fadd K4 x y).
  Proof. exact (add4ww _ _ _ _ O9 a b x y). Qed.
  Lemma r4_sub a b x y : R4 a x -> W4 b y -> R4 (fp4_sub Op a b) (fsub K4 x y).
  Proof. exact (sub4 _ _ _ _ O9 a b x y). Qed.
  Lemma r4_neg a x : W4 a x -> W4 (fp4_neg Op a) (fopp K4 x).
  Proof. exact (neg4 _ _ _ _ O9 a x). Qed.
  Lemma r4_mul a b x y : W4 a x -> W4 b y -> R4 (fp4_mul Op a b) (fmul K4 x y).
  Proof. intros H1 H2. pose proof (mul4 _ _ _ _ O9 a b x y H1 H2) as H. rewrite (@fp4_mul_eq F1 K1 _ num_neg2 neg2_nonsquare u_nonsquare) in H. exact H. Qed.
  Lemma r4_sqr a x : W4 a x -> R4 (fp4_sqr Op a) (fmul K4 x x).
  Proof. intros H1. pose proof (sqr4 _ _ _ _ O9 a x H1) as H. rewrite (@fp4_sqr_eq F1 K1 _ num_neg2 neg2_nonsquare u_nonsquare) in H. exact H. Qed.
  Lemma r4_inv a x : W4 a x -> W4 (fp4_inv Op a) (finv K4 x).
  Proof. intros H1. pose proof (inv4 _ _ _ _ O9 a x H1) as H. rewrite (@fp4_inv_eq F1 K1 _ num_neg2 neg2_nonsquare u_nonsquare) in H. exact H. Qed.
  Lemma r4_mul_v a x : R4 a x -> W4 (fp4_mul_v Op a) (fmul K4 v4 x).
  Proof. intros H1. pose proof (mulv4 _ _ _ _ O9 a x H1) as H. rewrite (@fp4_mul_v_eq F1 K1 _ num_neg2 neg2_nonsquare u_nonsquare) in H. exact H. Qed.

  (** ** F_p^12 *)
  Lemma r12_w a x : R12 a x -> W12 a x. Proof. exact (w12_ _ _ _ _ O9 a x). Qed.
  Lemma r12_add a b x y : W12 a x -> R12 b y -> R12 (fp12_add Op a b) (fadd K12 x y).
  Proof. intros H1 H2. pose proof (add12 _ _ _ _ O9 a b x y H1 H2) as H. rewrite (@fp12_add_eq F1 K1 _ neg2_nonsquare u_nonsquare v_noncube) in H. exact H. Qed.
  Lemma r12_sub a b x y : R12 a x -> W12 b y -> R12 (fp12_sub Op a b) (fsub K12 x y).
  Proof. intros H1 H2. pose proof (sub12 _ _ _ _ O9 a b x y H1 H2) as H. rewrite (@fp12_sub_eq F1 K1 _ neg2_nonsquare u_nonsquare v_noncube) in H. exact H. Qed.
  Lemma r12_neg a x : W12 a x -> W12 (fp12_neg Op a) (fopp K12 x).
  Proof. intros H1. pose proof (neg12 _ _ _ _ O9 a x H1) as H. rewrite (@fp12_neg_eq F1 K1 _ neg2_nonsquare u_nonsquare v_noncube) in H. exact H. Qed.
  Lemma r12_mul a b x y : W12 a x -> W12 b y -> R12 (fp12_mul Op a b) (fmul K12 x y).
  Proof. intros H1 H2. pose proof (mul12 _ _ _ _ O9 a b x y H1 H2) as H. rewrite (@fp12_mul_eq F1 K1 _ num_neg2 neg2_nonsquare u_nonsquare v_noncube) in H. exact H. Qed.
  Lemma r12_sqr a x : W12 a x -> R12 (fp12_sqr Op a) (fmul K12 x x).
  Proof. intros H. now apply r12_mul. Qed.
  Lemma r12_inv a x : W12 a x -> inv12_safe Op K1 R1 a x -> R12 (fp12_inv Op a) (finv K12 x).
  Proof. intros H1 H2. pose proof (inv12 _ _ _ _ O9 a x H1 H2) as H. rewrite (@fp12_inv_eq F1 K1 _ num_neg2 neg2_nonsquare u_nonsquare v_noncube) in H. exact H. Qed.
  Lemma r12_one : R12 (fp12_one Op) (f1 K12). Proof. exact (one12 _ _ _ _ O9). Qed.
  Lemma r12_zero : R12 (fp12_zero Op) (f0 K12). Proof. exact (zero12 _ _ _ _ O9). Qed.
  Lemma r12_pow a x mem : R12 a x -> res_rel R12 (fp12_pow Op a mem) (fp12_pow (Fops K1) x mem).
  Proof. exact (pow12_rep _ _ _ _ O9 a x mem). Qed.

  (** the inverse is always right when zero has one stored form (the x64 build) *)
  Lemma safe_strong a x : (forall b y, W1 b y -> R1 b y) -> W12 a x -> inv12_safe Op K1 R1 a x.
  Proof.
    intros S. assert (S2 : forall b y, W2 b y -> R2 b y) by (intros b y [H1 H2]; split; now apply S).
    assert (S4 : forall b y, W4 b y -> R4 b y) by (intros b y [H1 H2]; split; now apply S2).
    destruct a as [[a0 a1] a2], x as [[x0 x1] x2]. intros (H0 & H1 & H2). unfold inv12_safe.
    apply (sub4 _ _ _ _ O9).
    - apply S4. apply (mulv4 _ _ _ _ O9). now apply (sqr4 _ _ _ _ O9).
    - apply r4_w. now apply (mul4 _ _ _ _ O9).
  Qed.
  (** in either build it is right as soon as the value the code negates, (a2^2)[1][1], is not 0 *)
  Lemma safe_nz a x : W12 a x -> snd (snd (fmul K4 (snd x) (snd x))) <> f0 K1 -> inv12_safe Op K1 R1 a x.
  Proof.
    destruct a as [[a0 a1] a2], x as [[x0 x1] x2]. intros (H0 & H1 & H2) N. cbn [snd] in N. unfold inv12_safe.
    apply (sub4 _ _ _ _ O9); [|apply r4_w; now apply (mul4 _ _ _ _ O9)].
    pose proof (sqr4 _ _ _ _ O9 _ _ H2) as HS.
    pose proof (@fp4_sqr_eq F1 K1 _ num_neg2 neg2_nonsquare u_nonsquare x2) as ES.
    rewrite <- ES in N || (change (fmul K4 x2 x2) with (fmul (Quad (Quad K1 (num (-2)) neg2_nonsquare) (f0 K1, f1 K1) u_nonsquare) x2 x2) in N; rewrite <- ES in N).
    destruct (fp4_sqr Op a2) as [[s0 s1] [s2 s3]], (fp4_sqr (Fops K1) x2) as [[t0 t1] [t2 t3]].
    destruct HS as [[HA HB] [HC HD]]. cbn [fst snd] in *.
    split; split; cbn.
    - (* the negated component *)
      assert (HE : R1 (m_dbl L (FP9_CTX L9) s3) (fadd K1 t3 t3)) by (apply (t_dbl _ _ _ _ O9); exact HD).
      assert (NZ : fval (fadd K1 t3 t3) <> 0).
      { intros E. apply N. apply fval_inj. change (fval (f0 K1)) with 0.
        change (fval (fadd K1 t3 t3)) with ((fval t3 + fval t3) mod SM9_p) in E.
        pose proof (fval_range SM9_p t3 SM9_p_pos) as B.
        destruct (Z.eq_dec (fval t3) 0) as [|NZ]; [assumption|exfalso].
        apply Z.mod_divide in E; [|pose proof SM9_p_pos; lia]. destruct E as [k E].
        assert (k = 1) by nia. subst k. rewrite Z.mul_1_l in E.
        pose proof (co_odd _ _ _ _ FP9_CTX_ok) as O. rewrite <- E in O.
        replace (fval t3 + fval t3) with (2 * fval t3) in O by ring. rewrite Z.odd_mul in O. discriminate. }
      unfold ProofSM9Rep.R1. change (fval (fopp K1 (fadd K1 t3 t3))) with ((- fval (fadd K1 t3 t3)) mod SM9_p).
      apply (ok_neg _ _ _ LK); [exact FP9_CTX_ok|exact HE|exact NZ].
    - exact HC.
    - exact HA.
    - exact HB.
  Qed.

  (** ** Bytes *)
  Lemma R1_from_bytes b : bytes b -> length b = 32%nat -> R1 (sm9_fp_from_bytes L9 b) (num (be_val b)).
  Proof. intros Hb Hl. exact (ok_mfrom _ _ _ LK _ _ b FP9_CTX_ok Hb Hl). Qed.
  Lemma W1_to_bytes a x : W1 a x -> sm9_fp_to_bytes L9 a = be_bytes 32 (fval x).
  Proof. intros H. exact (k_to _ _ _ LOK _ _ _ _ FP9_CTX_ok H). Qed.
  Lemma Rn9_from_bytes b : bytes b -> length b = 32%nat -> Rn9 (sm9_fn_from_bytes L9 b) (be_val b mod SM9_n).
  Proof. intros Hb Hl. exact (ok_mfrom _ _ _ LK _ _ b FN9_CTX_ok Hb Hl). Qed.
  Lemma Rn9_to_bytes a x : Rn9 a x -> sm9_fn_to_bytes L9 a = be_bytes 32 x.
  Proof. intros H. exact (ok_mto _ _ _ LK _ _ _ _ FN9_CTX_ok H). Qed.
End SM9.

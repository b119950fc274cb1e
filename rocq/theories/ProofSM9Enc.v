(** Square roots and point encodings of SM9 (G1). *)
From Coq Require Import Znumtheory Field_theory.
From Verif Require Import Base BaseFacts ModelEndian ProofEndian ModelNumber SpecNumber ProofNumber ModelMont SpecMont
  ProofMont SpecField SpecTower SpecEC SpecJac ProofEC ProofECMul ProofFermat ModelEC ProofJac ProofJacRep
  ProofNumlib ModelSM9 ProofNumlib9 SpecSM9 ProofTower ProofTowerRep ProofSM2Rep ProofSM9Rep ProofSM9Curve
  SpecSM2Api ModelSM2 SpecSM9Api ProofSM9Point ProofZops ProofSM2Enc.

Notation fsq1 y := (fmul K1 y y).

Lemma fval1_range (x : F1) : 0 <= fval x < SM9_p.
Proof. apply fval_range. exact SM9_p_pos. Qed.
Lemma fval1_mul (x y : F1) : fval (fmul K1 x y) = (fval x * fval y) mod SM9_p.
Proof. change (fmul K1 x y) with (fp_mul x y). unfold fp_mul. apply fval_fof. Qed.
Lemma fval1_opp (x : F1) : fval (fopp K1 x) = (- fval x) mod SM9_p.
Proof. change (fopp K1 x) with (fp_opp x). unfold fp_opp. apply fval_fof. Qed.
Lemma fval1_inj (x y : F1) : fval x = fval y -> x = y.
Proof. apply fval_inj. Qed.
Lemma fval_num v : fval (num v) = v mod SM9_p. Proof. apply fval_fof. Qed.

Lemma sm9_u1 : be_val U_MUL2_ADD1 = 2 * be_val U_ADD1 - 1. Proof. reflexivity. Qed.
Lemma sm9_u2 : 4 * be_val U_MUL2_ADD1 = SM9_p - 1 /\ 0 < be_val U_ADD1. Proof. split; reflexivity. Qed.
Lemma sm9_c2 : (be_val TWO_POW_2U1_DATA * be_val TWO_POW_2U1_DATA) mod SM9_p = (- (1)) mod SM9_p.
Proof. vm_compute. reflexivity. Qed.

Lemma g1_square_eq_opp (x y : F1) : fsq1 x = fsq1 y -> x = y \/ x = fopp K1 y.
Proof.
  intros E. pose proof SM9_p_pos as Hp. apply (f_equal fval) in E. rewrite !fval1_mul in E.
  assert (D : (SM9_p | (fval x - fval y) * (fval x + fval y))).
  { apply Z.mod_divide; [lia|]. replace ((fval x - fval y) * (fval x + fval y)) with (fval x * fval x - fval y * fval y) by ring.
    rewrite Zminus_mod, E, Z.sub_diag. apply Z.mod_0_l. lia. }
  destruct (prime_mult _ SM9_p_prime _ _ D) as [D1|D1].
  - left. apply fval1_inj. pose proof (fval1_range x). pose proof (fval1_range y).
    destruct D1 as [q Hq]. assert (q = 0) by nia. subst. lia.
  - right. apply fval1_inj. rewrite fval1_opp. pose proof (fval1_range x).
    rewrite <- (Z.mod_small (fval x) SM9_p) by assumption.
    destruct D1 as [q Hq]. replace (fval x) with (- fval y + q * SM9_p) by lia. apply Z_mod_plus_full.
Qed.
Lemma g1_opp_parity (y : F1) : y <> f0 K1 -> fval (fopp K1 y) mod 2 = 1 - fval y mod 2.
Proof.
  intros N. pose proof (fval1_range y) as B. rewrite fval1_opp.
  assert (fval y <> 0). { intros E. apply N. apply fval1_inj. rewrite E. reflexivity. }
  rewrite Z_mod_nz_opp_full, (Z.mod_small (fval y)) by (rewrite ?Z.mod_small by assumption; assumption).
  assert (SM9_p mod 2 = 1) by reflexivity.
  rewrite Zminus_mod, H0. assert (X : fval y mod 2 = 0 \/ fval y mod 2 = 1) by (pose proof (Z.mod_pos_bound (fval y) 2 ltac:(lia)); lia).
  destruct X as [-> | ->]; reflexivity.
Qed.
Lemma g1_fval_bytes_val (x : F1) : be_val (F1_bytes x) = fval x.
Proof.
  unfold F1_bytes. rewrite be_val_be_bytes. apply Z.mod_small. pose proof (fval1_range x). pose proof SM9_p_range.
  change (256 ^ Z.of_nat 32) with (2 ^ 256). lia.
Qed.
Lemma g1_fof_bytes_val (x : F1) : num (be_val (F1_bytes x)) = x.
Proof. rewrite g1_fval_bytes_val. apply fval1_inj. rewrite fval_fof. apply Z.mod_small, fval1_range. Qed.
Lemma F1_bytes_bytes x : bytes (F1_bytes x). Proof. apply be_bytes_bytes. Qed.
Lemma F1_bytes_length x : length (F1_bytes x) = 32%nat. Proof. apply be_bytes_length. Qed.
Lemma F1_bytes_inj x y : F1_bytes x = F1_bytes y -> x = y.
Proof. intros E. rewrite <- (g1_fof_bytes_val x), <- (g1_fof_bytes_val y). now rewrite E. Qed.

Lemma g1_fb_lsb (y : F1) : Z.land (nz (F1_bytes y) 31) 1 = fval y mod 2.
Proof.
  unfold F1_bytes. rewrite be_bytes_last, land1_mod2.
  rewrite <- (Zmod_div_mod 2 256); [reflexivity|lia|lia|exists 128; reflexivity].
Qed.

Lemma pm1_case z p q : 2 < p -> 0 <= z < p -> (z - 1 = q * p -> z = 1) /\ (z + 1 = q * p -> z = p - 1).
Proof.
  intros Hp Hz. split; intros E.
  - assert (q = 0) by nia. subst q. lia.
  - assert (q = 1) by nia. subst q. lia.
Qed.

Lemma sqrt_z p e f c : prime p -> 2 < p -> e = 2 * f - 1 -> 4 * e = p - 1 -> 0 < f -> (c * c) mod p = (- (1)) mod p ->
  forall X, 0 <= X < p ->
    (X ^ e mod p = (- (1)) mod p -> (((X ^ f mod p * (c mod p)) mod p) * ((X ^ f mod p * (c mod p)) mod p)) mod p = X) /\
    (X ^ e mod p = 1 -> ((X ^ f mod p) * (X ^ f mod p)) mod p = X) /\
    (X ^ e mod p <> (- (1)) mod p -> X ^ e mod p <> 1 -> forall Y, (Y * Y) mod p = X -> X = 0).
Proof.
  intros Pp Hp2 U1 U2 U0 C2 X BX.
  assert (TT : (X ^ f * X ^ f) mod p = (X * (X ^ e mod p)) mod p).
  { rewrite Zmult_mod_idemp_r. f_equal. rewrite <- Z.pow_add_r by lia. rewrite <- Z.pow_succ_r by lia. f_equal. lia. }
  assert (MX : X mod p = X) by (apply Z.mod_small; lia).
  split; [|split].
  - intros EM. rewrite <- (Zmult_mod (X ^ f) c), <- Zmult_mod.
    replace (X ^ f * c * (X ^ f * c)) with ((X ^ f * X ^ f) * (c * c)) by ring.
    rewrite Zmult_mod, TT, EM, C2, (Zmult_mod_idemp_r (- (1)) X), <- (Zmult_mod (X * - (1)) (- (1))).
    replace (X * - (1) * - (1)) with X by ring. exact MX.
  - intros E1. rewrite <- Zmult_mod, TT, E1, Z.mul_1_r. exact MX.
  - intros NM N1 Y XY. destruct (Z.eq_dec X 0) as [X0|X0]; [exact X0|exfalso].
    assert (NY : ~ (p | Y)).
    { intros [q Hq]. apply X0. rewrite <- XY, Hq. rewrite <- Z.mul_assoc, (Z.mul_comm p), Z.mul_assoc. apply Z_mod_mult. }
    pose proof (fermat p Y Pp NY) as FE.
    assert (D : (p | (X ^ e mod p - 1) * (X ^ e mod p + 1))).
    { apply Z.mod_divide; [clear - Hp2; lia|].
      replace ((X ^ e mod p - 1) * (X ^ e mod p + 1)) with ((X ^ e mod p) * (X ^ e mod p) - 1) by ring.
      rewrite Zminus_mod, <- (Zmult_mod (X ^ e) (X ^ e)). rewrite <- (Z.pow_add_r X e e) by (clear - U1 U0; lia).
      assert (EE : X ^ (e + e) mod p = 1).
      { rewrite <- XY, <- pow_base_mod by (clear - U1 U2 U0 Hp2; lia). replace (Y * Y) with (Y ^ 2) by ring.
        rewrite <- Z.pow_mul_r by (clear - U1 U2 U0 Hp2; lia). replace (2 * (e + e)) with (p - 1) by (clear - U1 U2 U0 Hp2; lia). exact FE. }
      rewrite EE, (Z.mod_small 1) by (clear - U1 U2 U0 Hp2; lia). reflexivity. }
    pose proof (Z.mod_pos_bound (X ^ e) p ltac:(clear - Hp2; lia)) as BZ.
    destruct (prime_mult _ Pp _ _ D) as [[q Q]|[q Q]].
    + apply N1. exact (proj1 (pm1_case _ _ q Hp2 BZ) Q).
    + apply NM. rewrite (proj2 (pm1_case _ _ q Hp2 BZ) Q). clear - Hp2.
      rewrite Z_mod_nz_opp_full, (Z.mod_small 1) by (rewrite ?Z.mod_small by lia; lia). reflexivity.
Qed.
Lemma sm9_sqrt_z : forall X, 0 <= X < SM9_p ->
    (X ^ be_val U_MUL2_ADD1 mod SM9_p = (- (1)) mod SM9_p ->
     (((X ^ be_val U_ADD1 mod SM9_p * (be_val TWO_POW_2U1_DATA mod SM9_p)) mod SM9_p) *
      ((X ^ be_val U_ADD1 mod SM9_p * (be_val TWO_POW_2U1_DATA mod SM9_p)) mod SM9_p)) mod SM9_p = X) /\
    (X ^ be_val U_MUL2_ADD1 mod SM9_p = 1 -> ((X ^ be_val U_ADD1 mod SM9_p) * (X ^ be_val U_ADD1 mod SM9_p)) mod SM9_p = X) /\
    (X ^ be_val U_MUL2_ADD1 mod SM9_p <> (- (1)) mod SM9_p -> X ^ be_val U_MUL2_ADD1 mod SM9_p <> 1 ->
     forall Y, (Y * Y) mod SM9_p = X -> X = 0).
Proof.
  pose proof sm9_u1 as U1. destruct sm9_u2 as [U2 U0]. pose proof sm9_c2 as C2.
  exact (sqrt_z SM9_p (be_val U_MUL2_ADD1) (be_val U_ADD1) (be_val TWO_POW_2U1_DATA) SM9_p_prime SM9_p_gt2 U1 U2 U0 C2).
Qed.
Lemma sm9_u_nz : be_val U_MUL2_ADD1 <> 0 /\ be_val U_ADD1 <> 0. Proof. split; vm_compute; discriminate. Qed.
Lemma one_nz : 1 <> 0. Proof. discriminate. Qed.
Lemma fval1_zero (x : F1) : fval x = 0 -> x = f0 K1.
Proof. intros E. apply fval1_inj. rewrite E. reflexivity. Qed.

Lemma fsq_zero (y : F1) : fmul K1 y y = f0 K1 -> fval y = 0.
Proof.
  intros E. pose proof (f_equal (@fval SM9_p) E) as E'. rewrite fval1_mul in E'.
  change (fval (f0 K1)) with 0 in E'. pose proof (fval1_range y) as B.
  apply Z.mod_divide in E'; [|pose proof SM9_p_gt2; lia].
  destruct (prime_mult _ SM9_p_prime _ _ E') as [D|D]; apply Z.mod_divide in D; try (pose proof SM9_p_gt2; lia);
    rewrite Z.mod_small in D by exact B; exact D.
Qed.

Section SM9.
  Variables (w : Z) (nn : nat) (L9 : numlib9).
  Hypothesis LOK : numlib9_ok w nn L9.
  Notation L := (l9 L9).
  Notation R1 := (R1 w nn).
  Notation LK := (k_lib _ _ _ LOK).
  Notation ar := (aR R1).
  Notation rel1 := (sm9_rel1 w nn L9 LOK).

  Lemma R1_to_bytes a x : R1 a x -> sm9_fp_to_bytes L9 a = F1_bytes x.
  Proof. intros H. apply (W1_to_bytes w nn L9 LOK). now left. Qed.

  (** ** The curve equation and square roots *)
  Lemma R1_rhs a x : R1 a x -> R1 (sm9_rhs L9 a) (fadd K1 (fadd K1 (fmul K1 (fmul K1 x x) x) (fmul K1 (num 0) x)) (num 5)).
  Proof.
    intros H. unfold sm9_rhs. cbv zeta.
    assert (HB : R1 (sm9_fp_from_bytes L9 SM9_CURVE_B) (num 5)).
    { change 5 with (be_val SM9_CURVE_B). apply (R1_from_bytes w nn L9 LOK); [const_bytes|reflexivity]. }
    pose proof (r_sqr _ _ _ _ rel1 _ _ (r_w _ _ _ _ rel1 _ _ H)) as H3.
    pose proof (r_mul _ _ _ _ rel1 _ _ _ _ (r_w _ _ _ _ rel1 _ _ H3) (r_w _ _ _ _ rel1 _ _ H)) as H4.
    pose proof (r_add _ _ _ _ rel1 _ _ _ _ HB H4) as H5.
    assert (E : fadd K1 (num 5) (fmul K1 (fmul K1 x x) x)
              = fadd K1 (fadd K1 (fmul K1 (fmul K1 x x) x) (fmul K1 (num 0) x)) (num 5)).
    { rewrite n1_zero. generalize (fmul K1 (fmul K1 x x) x) (num 5). intros s t. clear.
      pose proof (Field_theory.F_R (f_theory K1)) as T. destruct T.
      assert (Z0 : fmul K1 (f0 K1) x = f0 K1).
      { apply fval_inj. change (fval (fmul K1 (f0 K1) x)) with ((0 mod SM9_p * fval x) mod SM9_p).
        reflexivity. }
      rewrite Z0. transitivity (fadd K1 s t); [apply Radd_comm|]. f_equal.
      transitivity (fadd K1 (f0 K1) s); [symmetry; apply Radd_0_l|apply Radd_comm]. }
    rewrite <- E. exact H5.
  Qed.
  Lemma g1_check Q x y : ar Q (x, y) -> (sm9_ec_a_check L9 Q = true <-> E1_on (Aff x y)).
  Proof.
    destruct Q as [a b]. intros [Ha Hb]. unfold sm9_ec_a_check.
    pose proof (r_eq _ _ _ _ rel1 _ _ _ _ (r_sqr _ _ _ _ rel1 _ _ (r_w _ _ _ _ rel1 _ _ Hb)) (R1_rhs _ _ Ha)) as E.
    cbn [sm9_fp_ops o_eq o_sqr] in E. rewrite E.
    destruct (feq_dec K1 _ _) as [E'|N]; split; intros H; [exact E'|reflexivity|discriminate|contradiction].
  Qed.

  Lemma g1_sqrt a x : R1 a x ->
    (exists t y, sm9_fp_sqrt L9 a = Ok (Some t) /\ R1 t y /\ fsq1 y = x) \/
    (sm9_fp_sqrt L9 a = Ok None /\ forall y, fsq1 y = x -> x = f0 K1).
  Proof.
    intros Ha. unfold sm9_fp_sqrt. cbv zeta.
    destruct (ok_epi8 _ _ _ LK U_MUL2_ADD1 ltac:(const_bytes) eq_refl) as [Le Ve].
    destruct (ok_epi8 _ _ _ LK U_ADD1 ltac:(const_bytes) eq_refl) as [Lf Vf].
    pose proof sm9_sqrt_z as SQ. pose proof sm9_u_nz as [UE UF].
    pose proof (FP9_CTX_ok w nn L9 LOK) as CX.
    pose proof (ok_neg _ _ _ LK _ _ _ _ CX (ok_one _ _ _ LK _ _ CX) one_nz) as RN.
    pose proof (R1_from_bytes w nn L9 LOK TWO_POW_2U1_DATA ltac:(const_bytes) eq_refl) as RC.
    unfold ProofSM9Rep.R1 in RC. rewrite fval_num in RC.
    revert Ve Vf SQ UE UF RC.
    generalize (be_val TWO_POW_2U1_DATA) (be_val U_MUL2_ADD1) (be_val U_ADD1). intros c e f Ve Vf SQ UE UF RC.
    rewrite <- Ve in UE. rewrite <- Vf in UF.
    destruct (ok_pow _ _ _ LK _ _ _ _ _ CX Ha Le UE) as (z & Ez & Rz).
    destruct (ok_pow _ _ _ LK _ _ _ _ _ CX Ha Lf UF) as (t & Et & Rt).
    rewrite Ve in Rz. rewrite Vf in Rt.
    rewrite Ez. cbn [bind]. rewrite (ok_equal_one _ _ _ LK _ _ _ _ CX Rz), (ok_equal _ _ _ LK _ _ _ _ _ _ CX Rz RN).
    destruct (SQ (fval x) (fval1_range x)) as (S1 & S2 & S3). clear SQ.
    destruct (Z.eqb_spec (fval x ^ e mod SM9_p) (- (1) mod SM9_p)) as [EM|NM].
    - cbn [negb]. rewrite andb_false_r. rewrite Et. cbn [bind]. left.
      exists (m_mul L (FP9_CTX L9) t (sm9_fp_from_bytes L9 TWO_POW_2U1_DATA)), (num (fval x ^ f mod SM9_p * (c mod SM9_p))).
      split; [reflexivity|]. split.
      + unfold ProofSM9Rep.R1. rewrite fval_num. exact (ok_mul _ _ _ LK _ _ _ _ _ _ CX Rt RC).
      + apply fval1_inj. rewrite fval1_mul, fval_num. exact (S1 EM).
    - destruct (Z.eqb_spec (fval x ^ e mod SM9_p) 1) as [E1|N1]; cbn [negb andb].
      + left. rewrite Et. cbn [bind]. exists t, (num (fval x ^ f)). split; [reflexivity|]. split.
        * unfold ProofSM9Rep.R1. rewrite fval_num. exact Rt.
        * apply fval1_inj. rewrite fval1_mul, fval_num. exact (S2 E1).
      + right. split; [reflexivity|]. intros y Ey. apply fval1_zero. apply (S3 NM N1 (fval y)).
        rewrite <- Ey. symmetry. apply fval1_mul.
  Qed.

  Lemma g1_recover a x yh : R1 a x -> yh = 0 \/ yh = 1 ->
    (exists t y, sm9_ec_recover_y L9 a yh = Ok (Some t) /\ R1 t y /\ E1_on (Aff x y) /\ fval y mod 2 = yh) \/
    (sm9_ec_recover_y L9 a yh = Ok None /\ forall y, ~ E1_on (Aff x y)).
  Proof.
    intros Ha Hy. unfold sm9_ec_recover_y.
    destruct (g1_sqrt _ _ (R1_rhs a x Ha)) as [(t & y & E & Rt & Sy)|(E & N)]; rewrite E; cbn [bind].
    - left. rewrite (R1_to_bytes _ _ Rt). change (be_bytes 32 (fval y)) with (F1_bytes y). rewrite g1_fb_lsb.
      assert (On : E1_on (Aff x y)) by exact Sy.
      assert (YN : y <> f0 K1) by (apply (ec_y_nz _ _ _ E1_ok _ _ On)).
      destruct (Z.eqb_spec (fval y mod 2) yh) as [Ey|Ny]; cbn [negb].
      + exists t, y. auto.
      + exists (m_neg L (FP9_CTX L9) t), (fopp K1 y). split; [reflexivity|].
        split.
        { unfold ProofSM9Rep.R1. rewrite fval1_opp.
          apply (ok_neg _ _ _ LK _ _ _ _ (FP9_CTX_ok w nn L9 LOK) Rt). intros Z0. exact (YN (fval1_zero _ Z0)). }
        split.
        * exact (ec_neg_on _ _ _ E1_ok _ On).
        * rewrite (g1_opp_parity y YN). pose proof (Z.mod_pos_bound (fval y) 2 ltac:(lia)). clear - H Ny Hy. lia.
    - right. split; [reflexivity|]. intros y On. apply (ec_y_nz _ _ _ E1_ok _ _ On). apply fval1_zero.
      pose proof (N y On) as Z0. unfold E1_on, on_curve in On. rewrite Z0 in On. exact (fsq_zero _ On).
  Qed.

  (** ** Encoding *)
  Lemma g1_to_bytes04_spec Q x y : ar Q (x, y) -> sm9_ec_a_to_bytes04 L9 Q = F1_bytes x ++ F1_bytes y.
  Proof.
    destruct Q as [a b]. intros [Ha Hb]. unfold sm9_ec_a_to_bytes04.
    rewrite (R1_to_bytes _ _ Ha), (R1_to_bytes _ _ Hb). reflexivity.
  Qed.
  Lemma g1_to_uncompressed_spec Q x y : ar Q (x, y) -> sm9_ec_a_to_bytes_uncompressed L9 Q = SM9_uncompressed x y.
  Proof. intros H. unfold sm9_ec_a_to_bytes_uncompressed. now rewrite (g1_to_bytes04_spec _ _ _ H). Qed.
  Lemma g1_par_prefix k k1 (y : F1) : k1 = k + 1 -> (if fval y mod 2 =? 0 then k else k1) = k + fval y mod 2.
  Proof. intros ->. pose proof (Z.mod_pos_bound (fval y) 2 ltac:(lia)). destruct (Z.eqb_spec (fval y mod 2) 0); lia. Qed.
  Lemma g1_to_compressed_spec Q x y : ar Q (x, y) -> sm9_ec_a_to_bytes_compressed L9 Q = SM9_compressed x y.
  Proof.
    destruct Q as [a b]. intros [Ha Hb]. unfold sm9_ec_a_to_bytes_compressed.
    rewrite (R1_to_bytes _ _ Ha), (R1_to_bytes _ _ Hb).
    change (be_bytes 32 (fval y)) with (F1_bytes y). rewrite g1_fb_lsb, (g1_par_prefix 2 3 y eq_refl). reflexivity.
  Qed.
  Lemma g1_to_mix_spec Q x y : ar Q (x, y) -> sm9_ec_a_to_bytes_mix L9 Q = SM9_mixed x y.
  Proof.
    intros H. unfold sm9_ec_a_to_bytes_mix. rewrite (g1_to_bytes04_spec _ _ _ H).
    replace (nz (F1_bytes x ++ F1_bytes y) 63) with (nz (F1_bytes y) 31).
    - rewrite g1_fb_lsb, (g1_par_prefix 6 7 y eq_refl). reflexivity.
    - unfold nz. rewrite app_nth2 by (rewrite F1_bytes_length; lia). now rewrite F1_bytes_length.
  Qed.

  (** ** Decoding *)
  Lemma g1_from_bytes04_spec l off : bytes l -> (off + 64 <= length l)%nat ->
    exists R, sm9_ec_a_from_bytes04 L9 l off = Ok R /\
      ar R (num (be_val (slice l off 32)), num (be_val (slice l (off + 32) 32))).
  Proof.
    intros Hb Hl. unfold sm9_ec_a_from_bytes04. rewrite read_ok by lia. cbn [bind].
    rewrite read_ok by lia. cbn [bind]. eexists. split; [reflexivity|].
    split; (apply (R1_from_bytes w nn L9 LOK); [now apply bytes_slice|apply slice_length; lia]).
  Qed.

  Lemma g1_decode_full l inl b0 r : l = b0 :: r -> b0 = 4 \/ b0 = 6 \/ b0 = 7 -> bytes l -> (65 <= length l)%nat -> inl <> 0 ->
    let x := num (be_val (slice l 1 32)) in
    let y := num (be_val (slice l 33 32)) in
    (E1_on (Aff x y) /\ exists R, sm9_ec_a_from_bytes L9 l inl = Ok (Some (R, 65)) /\ ar R (x, y)) \/
    (~ E1_on (Aff x y) /\ sm9_ec_a_from_bytes L9 l inl = Ok None).
  Proof.
    intros El Hb0 Hb Hl Hi x y. unfold sm9_ec_a_from_bytes.
    destruct (Z.eqb_spec inl 0); [contradiction|]. rewrite (read_ok l 0 1) by lia. cbn [bind].
    assert (E0 : nz (slice l 0 1) 0 = b0) by (subst l; reflexivity). rewrite E0.
    replace ((b0 =? 4) || (b0 =? 6) || (b0 =? 7)) with true by lia.
    destruct (g1_from_bytes04_spec l 1 Hb ltac:(lia)) as (R & E & AR). rewrite E. cbn [bind].
    change (1 + 32)%nat with 33%nat in AR. fold x y in AR.
    pose proof (g1_check _ _ _ AR) as CK.
    destruct (sm9_ec_a_check L9 R).
    - left. split; [now apply CK|]. exists R. auto.
    - right. split; [|reflexivity]. intros H. apply CK in H. discriminate.
  Qed.
  Lemma g1_decode_compressed l inl b0 r : l = b0 :: r -> b0 = 2 \/ b0 = 3 -> bytes l -> (33 <= length l)%nat -> inl <> 0 ->
    let x := num (be_val (slice l 1 32)) in
    (exists y R, E1_on (Aff x y) /\ fval y mod 2 = b0 - 2 /\ sm9_ec_a_from_bytes L9 l inl = Ok (Some (R, 33)) /\ ar R (x, y)) \/
    ((forall y, ~ E1_on (Aff x y)) /\ sm9_ec_a_from_bytes L9 l inl = Ok None).
  Proof.
    intros El Hb0 Hb Hl Hi x. unfold sm9_ec_a_from_bytes.
    destruct (Z.eqb_spec inl 0); [contradiction|]. rewrite (read_ok l 0 1) by lia. cbn [bind].
    assert (E0 : nz (slice l 0 1) 0 = b0) by (subst l; reflexivity). rewrite E0.
    replace ((b0 =? 4) || (b0 =? 6) || (b0 =? 7)) with false by lia.
    replace ((b0 =? 2) || (b0 =? 3)) with true by lia.
    rewrite read_ok by lia. cbn [bind].
    assert (Rx : R1 (sm9_fp_from_bytes L9 (slice l 1 32)) x).
    { apply (R1_from_bytes w nn L9 LOK); [now apply bytes_slice|apply slice_length; lia]. }
    assert (EY : (if b0 =? 2 then 0 else 1) = b0 - 2) by (destruct (Z.eqb_spec b0 2); lia).
    rewrite EY.
    destruct (g1_recover _ x (b0 - 2) Rx ltac:(lia)) as [(t & y & E & Rt & On & Par)|(E & N)]; rewrite E; cbn [bind].
    - assert (AR : ar (sm9_fp_from_bytes L9 (slice l 1 32), t) (x, y)) by (split; assumption).
      pose proof (proj2 (g1_check _ _ _ AR) On) as CK. rewrite CK.
      left. exists y, (sm9_fp_from_bytes L9 (slice l 1 32), t). auto.
    - right. auto.
  Qed.
  Lemma g1_decode_other l inl b0 r : l = b0 :: r -> ~ (b0 = 2 \/ b0 = 3 \/ b0 = 4 \/ b0 = 6 \/ b0 = 7) ->
    sm9_ec_a_from_bytes L9 l inl = Ok None.
  Proof.
    intros El Hb0. unfold sm9_ec_a_from_bytes. destruct (Z.eqb_spec inl 0); [reflexivity|].
    rewrite (read_ok l 0 1) by (subst l; cbn; lia). cbn [bind].
    assert (E0 : nz (slice l 0 1) 0 = b0) by (subst l; reflexivity). rewrite E0.
    replace ((b0 =? 4) || (b0 =? 6) || (b0 =? 7)) with false by lia.
    replace ((b0 =? 2) || (b0 =? 3)) with false by lia. reflexivity.
  Qed.
  Lemma g1_decode_short l inl b0 r : l = b0 :: r -> inl <> 0 ->
    ((b0 = 4 \/ b0 = 6 \/ b0 = 7) /\ (length l < 65)%nat) \/ ((b0 = 2 \/ b0 = 3) /\ (length l < 33)%nat) ->
    sm9_ec_a_from_bytes L9 l inl = UB.
  Proof.
    intros El Hi Hc. unfold sm9_ec_a_from_bytes. destruct (Z.eqb_spec inl 0); [contradiction|].
    rewrite (read_ok l 0 1) by (subst l; cbn; lia). cbn [bind].
    assert (E0 : nz (slice l 0 1) 0 = b0) by (subst l; reflexivity). rewrite E0.
    destruct Hc as [[Hb Hs]|[Hb Hs]].
    - replace ((b0 =? 4) || (b0 =? 6) || (b0 =? 7)) with true by lia.
      unfold sm9_ec_a_from_bytes04. unfold read at 1. destruct (Nat.leb_spec (1 + 32) (length l)); [|reflexivity].
      cbn [bind]. rewrite read_ub by lia. reflexivity.
    - replace ((b0 =? 4) || (b0 =? 6) || (b0 =? 7)) with false by lia.
      replace ((b0 =? 2) || (b0 =? 3)) with true by lia. rewrite read_ub by lia. reflexivity.
  Qed.

  (** what decoding accepts is a curve point *)
  Lemma g1_decode_on l inl R len : bytes l -> sm9_ec_a_from_bytes L9 l inl = Ok (Some (R, len)) ->
    exists x y, ar R (x, y) /\ E1_on (Aff x y) /\ (len = 33 \/ len = 65) /\ (Z.to_nat len <= length l)%nat.
  Proof.
    intros Hb E. destruct l as [|b0 r].
    - unfold sm9_ec_a_from_bytes in E. destruct (inl =? 0); discriminate.
    - destruct (Z.eq_dec inl 0) as [->|Hi]; [discriminate|].
      destruct (Z_le_gt_dec 65 (Z.of_nat (length (b0 :: r)))) as [G|G].
      + assert (C : (b0 = 4 \/ b0 = 6 \/ b0 = 7) \/ (b0 = 2 \/ b0 = 3) \/ ~ (b0 = 2 \/ b0 = 3 \/ b0 = 4 \/ b0 = 6 \/ b0 = 7)) by lia.
        destruct C as [C|[C|C]].
        * destruct (g1_decode_full _ inl b0 r eq_refl C Hb ltac:(lia) Hi) as [(On & R' & E' & AR)|(_ & E')]; rewrite E' in E; [|discriminate].
          injection E as -> <-. eexists _, _. split; [exact AR|]. split; [exact On|]. split; [auto|]. lia.
        * destruct (g1_decode_compressed _ inl b0 r eq_refl C Hb ltac:(lia) Hi) as [(y & R' & On & _ & E' & AR)|(_ & E')]; rewrite E' in E; [|discriminate].
          injection E as -> <-. eexists _, y. split; [exact AR|]. split; [exact On|]. split; [auto|]. lia.
        * rewrite (g1_decode_other _ inl b0 r eq_refl C) in E. discriminate.
      + assert (C : (b0 = 4 \/ b0 = 6 \/ b0 = 7) \/ (b0 = 2 \/ b0 = 3) \/ ~ (b0 = 2 \/ b0 = 3 \/ b0 = 4 \/ b0 = 6 \/ b0 = 7)) by lia.
        destruct C as [C|[C|C]].
        * rewrite (g1_decode_short _ inl b0 r eq_refl Hi) in E; [discriminate|left; split; [exact C|lia]].
        * destruct (Z_le_gt_dec 33 (Z.of_nat (length (b0 :: r)))) as [G2|G2].
          -- destruct (g1_decode_compressed _ inl b0 r eq_refl C Hb ltac:(lia) Hi) as [(y & R' & On & _ & E' & AR)|(_ & E')]; rewrite E' in E; [|discriminate].
             injection E as -> <-. eexists _, y. split; [exact AR|]. split; [exact On|]. split; [auto|]. lia.
          -- rewrite (g1_decode_short _ inl b0 r eq_refl Hi) in E; [discriminate|right; split; [exact C|lia]].
        * rewrite (g1_decode_other _ inl b0 r eq_refl C) in E. discriminate.
  Qed.

  (** round trips *)
  Lemma g1_slice_fb1 x r : slice (F1_bytes x ++ r) 0 32 = F1_bytes x.
  Proof. rewrite slice_0. apply firstn_exact, F1_bytes_length. Qed.
  Lemma g1_slice_fb2 x y r : slice ((F1_bytes x ++ F1_bytes y) ++ r) 32 32 = F1_bytes y.
  Proof. rewrite <- app_assoc. apply slice_exact; apply F1_bytes_length. Qed.
  Lemma g1_roundtrip_full pre x y r inl : pre = 4 \/ pre = 6 \/ pre = 7 -> E1_on (Aff x y) -> bytes r -> inl <> 0 ->
    exists R, sm9_ec_a_from_bytes L9 ((pre :: F1_bytes x ++ F1_bytes y) ++ r) inl = Ok (Some (R, 65)) /\ ar R (x, y).
  Proof.
    intros Hp On Hr Hi. set (l := (pre :: F1_bytes x ++ F1_bytes y) ++ r).
    assert (Hb : bytes l).
    { constructor; [unfold is_byte; lia|]. apply bytes_app. split; [apply bytes_app; split; apply F1_bytes_bytes|exact Hr]. }
    assert (Hl : (65 <= length l)%nat). { unfold l. rewrite app_length. cbn [length]. rewrite app_length, !F1_bytes_length. lia. }
    destruct (g1_decode_full l inl pre _ eq_refl Hp Hb Hl Hi) as [(_ & R & E & AR)|(N & _)].
    - exists R. split; [exact E|]. unfold l in AR. cbn [app] in AR. rewrite !slice_cons in AR.
      rewrite g1_slice_fb2 in AR. rewrite <- app_assoc, g1_slice_fb1, !g1_fof_bytes_val in AR. exact AR.
    - exfalso. apply N. unfold l. cbn [app]. rewrite !slice_cons.
      rewrite g1_slice_fb2. rewrite <- app_assoc, g1_slice_fb1, !g1_fof_bytes_val. exact On.
  Qed.
  Lemma g1_roundtrip_compressed x y r inl : E1_on (Aff x y) -> bytes r -> inl <> 0 ->
    exists R, sm9_ec_a_from_bytes L9 (SM9_compressed x y ++ r) inl = Ok (Some (R, 33)) /\ ar R (x, y).
  Proof.
    intros On Hr Hi. unfold SM9_compressed. pose proof (Z.mod_pos_bound (fval y) 2 ltac:(lia)) as PB.
    set (l := ((2 + fval y mod 2) :: F1_bytes x) ++ r).
    assert (Hb : bytes l).
    { constructor; [unfold is_byte; lia|]. apply bytes_app. split; [apply F1_bytes_bytes|exact Hr]. }
    assert (Hl : (33 <= length l)%nat). { unfold l. rewrite app_length. cbn [length]. rewrite F1_bytes_length. lia. }
    assert (EX : num (be_val (slice l 1 32)) = x).
    { unfold l. cbn [app]. rewrite slice_cons, g1_slice_fb1. apply g1_fof_bytes_val. }
    destruct (g1_decode_compressed l inl _ _ eq_refl ltac:(lia) Hb Hl Hi) as [(y' & R & On' & Par & E & AR)|(N & _)]; rewrite EX in *.
    - exists R. split; [exact E|]. assert (Y : y' = y).
      { assert (S : fsq1 y' = fsq1 y). { unfold E1_on, on_curve in On, On'. congruence. }
        destruct (g1_square_eq_opp _ _ S) as [|Eo]; [assumption|]. exfalso.
        pose proof (g1_opp_parity y (ec_y_nz _ _ _ E1_ok _ _ On)) as OP. rewrite <- Eo in OP. lia. }
      subst y'. exact AR.
    - exfalso. exact (N y On).
  Qed.
End SM9.

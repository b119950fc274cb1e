(** Properties C37 - C47: SM2.  [build w nn L] ranges over the two builds of the number library;
    [hash_ok H Hd] over the hash classes the templates can be used with (SM3: [C41_sm3_instance]).
    What the objects stand for is written in SpecSM2Curve, SpecSM2 and SpecSM2Api. *)
From Coq Require Import Znumtheory.
From Verif Require Import Base BaseFacts ModelEndian ModelNumber SpecNumber ModelMont SpecMont
  SpecField SpecEC SpecJac ProofECMul ModelEC ProofNumlib ProofJacRep
  SpecSM2Curve ProofSM2Curve ModelSM2 SpecSM2 SpecSM2Api ProofSM2Rep ProofSM2Enc ProofSM2 ProofSM2b ProofSM2c
  ProofSM2d ProofSM2e SpecSM3 ModelSM3.

Theorem C41_sm3_instance : forall junk, length junk = 64%nat ->
  hash_ok (MkHash 32 (sm3_hash compress_yang junk)) SM3.
Proof. exact sm3_hash_ok. Qed.

(** ** C37: the domain parameters *)
Theorem C37_primes : prime SM2_p /\ prime SM2_n.
Proof. split; [exact SM2_p_prime|exact SM2_n_prime]. Qed.

Theorem C37_base_point : SM2_on SM2_G /\ SM2_G <> Inf /\ SM2_mul SM2_n SM2_G = Inf /\
  forall k, 0 < k < SM2_n -> SM2_mul k SM2_G <> Inf.
Proof.
  split; [exact sm2_G_on|]. split; [exact sm2_G_finite|]. split; [exact sm2_G_order|].
  intros k. exact (zm_fin k SM2_G sm2_G_on sm2_G_finite).
Qed.

(** the cofactor is 1: the multiples of G are all the points, so each has order n *)
Theorem C37_cofactor : forall P, SM2_on P ->
  (exists k, 0 <= k < SM2_n /\ P = SM2_mul k SM2_G) /\ SM2_mul SM2_n P = Inf.
Proof. intros P HP. split; [exact (sm2_generated P HP)|exact (sm2_order P HP)]. Qed.

(** the byte arrays of the code are these numbers *)
Theorem C37_byte_constants :
  be_val SM2_CURVE_P = SM2_p /\ be_val SM2_CURVE_A = SM2_a /\ be_val SM2_CURVE_B = SM2_b /\
  be_val SM2_CURVE_N = SM2_n /\ be_val SM2_CURVE_GX = SM2_Gx /\ be_val SM2_CURVE_GY = SM2_Gy /\
  be_val P_SUB3_DIV4_ADD1 = (SM2_p + 1) / 4.
Proof. repeat (apply conj; [vm_compute; reflexivity|]). vm_compute. reflexivity. Qed.

(** the Montgomery contexts of both builds hold P, P - 2, R mod P, R^2 mod P and -P^-1 mod 2^w, and
    the stored generator is G *)
Theorem C37_montgomery : forall w nn L, build w nn L ->
  mont_ctx_ok w nn SM2_p (FP_CTX L) /\ mont_ctx_ok w nn SM2_n (FN_CTX L) /\
  stored_a w nn (sm2_fp_from_bytes L SM2_CURVE_GX, sm2_fp_from_bytes L SM2_CURVE_GY) (fof SM2_p SM2_Gx) (fof SM2_p SM2_Gy).
Proof.
  intros w nn L B. apply build_ok in B. split; [exact (FP_CTX_ok w nn L B)|]. split; [exact (FN_CTX_ok w nn L B)|].
  exact (sm2_G_ar w nn L B).
Qed.
Example C37_builds : build 32 8 lib_common /\ build 64 4 lib_x64.
Proof. split; constructor. Qed.

(** ** C38: point operations *)
Theorem C38_double : forall w nn L J P, build w nn L -> stored_j w nn J P ->
  stored_j w nn (sm2_ec_j_dbl L J) (SM2_add P P).
Proof. intros w nn L J P B. exact (sm2_jdbl w nn L (build_ok _ _ _ B) J P). Qed.

(** add: both operands finite (equal, opposite or different), or both infinite *)
Theorem C38_add : forall w nn L J1 J2 P Q, build w nn L -> stored_j w nn J1 P -> stored_j w nn J2 Q ->
  SM2_on P -> SM2_on Q -> (P = Inf <-> Q = Inf) ->
  stored_j w nn (sm2_ec_j_add L J1 J2) (SM2_add P Q).
Proof. intros w nn L J1 J2 P Q B. exact (sm2_jadd w nn L (build_ok _ _ _ B) J1 J2 P Q). Qed.

(** mixed add: a finite operand other than Q *)
Theorem C38_add_affine : forall w nn L J Q P x y, build w nn L -> stored_j w nn J P -> stored_a w nn Q x y ->
  SM2_on P -> SM2_on (Aff x y) -> P <> Inf -> P <> Aff x y ->
  stored_j w nn (sm2_ec_j_add_a L J Q) (SM2_add P (Aff x y)).
Proof.
  intros w nn L J Q P x y B HJ HQ. apply (p_add_a w nn L (build_ok _ _ _ B) J Q P x y HJ).
  destruct Q as [X Y]. exact HQ.
Qed.

Theorem C38_negate : forall w nn L J x y, build w nn L -> stored_j w nn J (Aff x y) -> SM2_on (Aff x y) ->
  stored_j w nn (j_neg (sm2_fp_ops L) J) (ec_neg SM2_K (Aff x y)).
Proof. intros w nn L J x y B. exact (p_neg w nn L (build_ok _ _ _ B) J x y). Qed.

Theorem C38_from_affine : forall w nn L Q x y, build w nn L -> stored_a w nn Q x y ->
  stored_j w nn (j_from_a (sm2_fp_ops L) Q) (Aff x y).
Proof.
  intros w nn L Q x y B HQ. apply (jrep_from_a _ _ _ _ (sm2_ops_rel w nn L (build_ok _ _ _ B))).
  destruct Q as [X Y]. exact HQ.
Qed.

Theorem C38_to_affine : forall w nn L J P, build w nn L -> stored_j w nn J P ->
  stored_a w nn (sm2_ec_j_to_a L J) (pt_x P) (pt_y P).
Proof.
  intros w nn L J P B HJ. pose proof (sm2_to_a w nn L (build_ok _ _ _ B) J P HJ) as S.
  destruct (sm2_ec_j_to_a L J). exact S.
Qed.

Theorem C38_is_infinity : forall w nn L J P, build w nn L -> stored_j w nn J P ->
  (j_is_inf (sm2_fp_ops L) J = true <-> P = Inf).
Proof. intros w nn L J P B. exact (jrep_is_inf _ _ _ _ (sm2_ops_rel w nn L (build_ok _ _ _ B)) J P). Qed.

Theorem C38_normalise : forall w nn L J P, build w nn L -> stored_j w nn J P ->
  stored_j w nn (j_normal (sm2_fp_ops L) J) P.
Proof. intros w nn L J P B. exact (jrep_normal _ _ _ _ (sm2_ops_rel w nn L (build_ok _ _ _ B)) J P). Qed.

Theorem C38_equal : forall w nn L J1 J2 x1 y1 x2 y2, build w nn L ->
  stored_j w nn J1 (Aff x1 y1) -> stored_j w nn J2 (Aff x2 y2) ->
  (j_equal (sm2_fp_ops L) J1 J2 = true <-> x1 = x2 /\ y1 = y2).
Proof.
  intros w nn L J1 J2 x1 y1 x2 y2 B H1 H2. rewrite (p_equal w nn L (build_ok _ _ _ B) _ _ _ _ _ _ H1 H2).
  split; [intros E; split; congruence|intros [-> ->]; reflexivity].
Qed.

Theorem C38_on_curve_check : forall w nn L Q x y, build w nn L -> stored_a w nn Q x y ->
  (sm2_ec_a_check L Q = true <-> SM2_on (Aff x y)).
Proof.
  intros w nn L Q x y B HQ. apply (sm2_check_spec w nn L (build_ok _ _ _ B)). destruct Q as [X Y]. exact HQ.
Qed.

(** The operations are not the group law on the remaining operands: add with exactly one infinite
    operand, mixed add of a point to itself and to infinity. *)
Theorem C38_add_one_infinite_refuted : forall w nn L, build w nn L ->
  exists J1 J2 P Q, stored_j w nn J1 P /\ stored_j w nn J2 Q /\ SM2_on P /\ SM2_on Q /\
    ~ stored_j w nn (sm2_ec_j_add L J1 J2) (SM2_add P Q).
Proof.
  intros w nn L B. apply build_ok in B. pose proof (sm2_G_ar w nn L B) as HG.
  exists (j_set_inf (sm2_fp_ops L)), (j_from_a (sm2_fp_ops L) (sm2_fp_from_bytes L SM2_CURVE_GX, sm2_fp_from_bytes L SM2_CURVE_GY)), Inf, SM2_G.
  split; [exact (jrep_set_inf _ _ _ _ (sm2_ops_rel w nn L B))|].
  split; [exact (jrep_from_a _ _ _ _ (sm2_ops_rel w nn L B) _ _ _ HG)|].
  split; [exact I|]. split; [exact sm2_G_on|]. intros S.
  apply (jr_unique_inf w nn L B _ _ (p_add_inf w nn L B _ _ _ HG)) in S. discriminate S.
Qed.
Theorem C38_add_affine_same_refuted : forall w nn L, build w nn L ->
  exists J Q x y, stored_j w nn J (Aff x y) /\ stored_a w nn Q x y /\ SM2_on (Aff x y) /\
    ~ stored_j w nn (sm2_ec_j_add_a L J Q) (SM2_add (Aff x y) (Aff x y)).
Proof.
  intros w nn L B. apply build_ok in B. pose proof (sm2_G_ar w nn L B) as HG.
  pose proof (jrep_from_a _ _ _ _ (sm2_ops_rel w nn L B) _ _ _ HG) as HJ.
  exists (j_from_a (sm2_fp_ops L) (sm2_fp_from_bytes L SM2_CURVE_GX, sm2_fp_from_bytes L SM2_CURVE_GY)), (sm2_fp_from_bytes L SM2_CURVE_GX, sm2_fp_from_bytes L SM2_CURVE_GY), Gx, Gy.
  split; [exact HJ|]. split; [exact HG|]. split; [exact sm2_G_on|]. intros S.
  apply (jr_unique_inf w nn L B _ _ (p_add_a_eq w nn L B _ _ _ _ HJ HG)) in S.
  assert (D : zm 2 SM2_G = SM2_add SM2_G SM2_G).
  { change 2 with (1 + 1). rewrite zm_add by (exact sm2_G_on || lia).
    assert (O1 : zm 1 SM2_G = SM2_G) by exact (zmul_1 SM2_K SM2_A SM2_G). rewrite O1. reflexivity. }
  apply (zm_fin 2 SM2_G sm2_G_on sm2_G_finite); [split; [lia|reflexivity]|]. rewrite D. exact S.
Qed.
Theorem C38_add_affine_infinite_refuted : forall w nn L, build w nn L ->
  exists J Q x y, stored_j w nn J Inf /\ stored_a w nn Q x y /\ SM2_on (Aff x y) /\
    ~ stored_j w nn (sm2_ec_j_add_a L J Q) (SM2_add Inf (Aff x y)).
Proof.
  intros w nn L B. apply build_ok in B. pose proof (sm2_G_ar w nn L B) as HG.
  pose proof (jrep_set_inf _ _ _ _ (sm2_ops_rel w nn L B)) as HJ.
  exists (j_set_inf (sm2_fp_ops L)), (sm2_fp_from_bytes L SM2_CURVE_GX, sm2_fp_from_bytes L SM2_CURVE_GY), Gx, Gy.
  split; [exact HJ|]. split; [exact HG|]. split; [exact sm2_G_on|]. intros S.
  apply (jr_unique_inf w nn L B _ _ (p_add_a_inf w nn L B _ _ _ _ HJ HG)) in S. discriminate S.
Qed.
(** a stored finite point, as the theorems above need *)
Example C38_example : forall w nn L, build w nn L ->
  exists J x y, stored_j w nn J (Aff x y) /\ SM2_on (Aff x y) /\
    stored_j w nn (sm2_ec_j_add L J J) (SM2_mul 2 (Aff x y)).
Proof.
  intros w nn L B. pose proof (build_ok _ _ _ B) as B'. pose proof (sm2_G_ar w nn L B') as HG.
  pose proof (jrep_from_a _ _ _ _ (sm2_ops_rel w nn L B') _ _ _ HG) as HJ.
  exists (j_from_a (sm2_fp_ops L) (sm2_fp_from_bytes L SM2_CURVE_GX, sm2_fp_from_bytes L SM2_CURVE_GY)), Gx, Gy. split; [exact HJ|]. split; [exact sm2_G_on|].
  assert (D : SM2_mul 2 (Aff Gx Gy) = SM2_add SM2_G SM2_G).
  { change (SM2_mul 2 (Aff Gx Gy)) with (zm (1 + 1) SM2_G). rewrite zm_add by (exact sm2_G_on || lia).
    assert (O1 : zm 1 SM2_G = SM2_G) by exact (zmul_1 SM2_K SM2_A SM2_G). rewrite O1. reflexivity. }
  set (J0 := j_from_a (sm2_fp_ops L) (sm2_fp_from_bytes L SM2_CURVE_GX, sm2_fp_from_bytes L SM2_CURVE_GY)) in *.
  pose proof (C38_add w nn L J0 J0 SM2_G SM2_G B HJ HJ sm2_G_on sm2_G_on) as S. rewrite <- D in S.
  apply S. split; discriminate.
Qed.

(** ** C39: scalar multiplication, for every 32-byte scalar (0 and values above n included) *)
Theorem C39_scalar_mult : forall w nn L k Q x y, build w nn L -> bytes k -> length k = 32%nat ->
  stored_a w nn Q x y -> SM2_on (Aff x y) ->
  exists J, sm2_ec_j_mul_a L k Q = Ok J /\ stored_j w nn J (SM2_mul (be_val k) (Aff x y)).
Proof.
  intros w nn L k Q x y B Hk Hl HQ HO. pose proof (be_val_bound k Hk).
  change (SM2_mul (be_val k) (Aff x y)) with (zm (be_val k) (Aff x y)).
  rewrite <- (zm_mod _ _ HO) by lia.
  apply (sm2_jmul w nn L (build_ok _ _ _ B) k Q x y Hk Hl); [|exact HO]. destruct Q as [X Y]. exact HQ.
Qed.
Theorem C39_scalar_mult_base : forall w nn L k, build w nn L -> bytes k -> length k = 32%nat ->
  exists J, sm2_ec_j_mul_g L k = Ok J /\ stored_j w nn J (SM2_mul (be_val k) SM2_G).
Proof.
  intros w nn L k B Hk Hl. pose proof (be_val_bound k Hk).
  change (SM2_mul (be_val k) SM2_G) with (zm (be_val k) SM2_G).
  rewrite <- (zm_mod _ _ sm2_G_on) by lia.
  exact (sm2_jmulg w nn L (build_ok _ _ _ B) k Hk Hl).
Qed.
(** affine coordinates for 1 <= k <= n - 1: never infinity *)
Theorem C39_scalar_mult_affine : forall w nn L k Q x y, build w nn L -> bytes k -> length k = 32%nat ->
  stored_a w nn Q x y -> SM2_on (Aff x y) -> 1 <= be_val k <= SM2_n - 1 ->
  exists J x' y', sm2_ec_j_mul_a L k Q = Ok J /\ SM2_mul (be_val k) (Aff x y) = Aff x' y' /\
    stored_a w nn (sm2_ec_j_to_a L J) x' y'.
Proof.
  intros w nn L k Q x y B Hk Hl HQ HO R.
  destruct (C39_scalar_mult w nn L k Q x y B Hk Hl HQ HO) as (J & E & S).
  assert (N : SM2_mul (be_val k) (Aff x y) <> Inf).
  { apply (zm_fin (be_val k) (Aff x y) HO); [discriminate|lia]. }
  pose proof (C38_to_affine w nn L J _ B S) as A.
  destruct (SM2_mul (be_val k) (Aff x y)) as [|x' y']; [contradiction|].
  exists J, x', y'. split; [exact E|]. split; [reflexivity|exact A].
Qed.
Example C39_example : forall w nn L, build w nn L ->
  stored_a w nn (sm2_fp_from_bytes L SM2_CURVE_GX, sm2_fp_from_bytes L SM2_CURVE_GY) Gx Gy /\ SM2_on (Aff Gx Gy) /\
  1 <= be_val (be_bytes 32 (SM2_n - 2)) <= SM2_n - 1.
Proof.
  intros w nn L B. split; [exact (sm2_G_ar w nn L (build_ok _ _ _ B))|]. split; [exact sm2_G_on|].
  split; vm_compute; discriminate.
Qed.

(** ** C40: point encodings *)
Theorem C40_encode : forall w nn L Q x y, build w nn L -> stored_a w nn Q x y ->
  sm2_ec_a_to_bytes_uncompressed L Q = SM2_uncompressed x y /\
  sm2_ec_a_to_bytes_compressed L Q = SM2_compressed x y /\
  sm2_ec_a_to_bytes_mix L Q = SM2_mixed x y.
Proof.
  intros w nn L Q x y B HQ. apply build_ok in B.
  assert (A : aR (Rp w nn) Q (x, y)) by (destruct Q as [X Y]; exact HQ).
  split; [exact (to_uncompressed_spec w nn L B Q x y A)|]. split; [exact (to_compressed_spec w nn L B Q x y A)|].
  exact (to_mix_spec w nn L B Q x y A).
Qed.
(** each encoding of a curve point decodes to the point, whatever follows it in the buffer, and the
    length of the encoding is returned *)
Theorem C40_round_trip : forall w nn L PC x y rest inl, build w nn L -> SM2_on (Aff x y) -> bytes rest -> inl <> 0 ->
  exists R, sm2_ec_a_from_bytes L (SM2_encode_pt PC x y ++ rest) inl = Ok (Some (R, match PC with COMPRESSED => 33 | _ => 65 end)) /\
    stored_a w nn R x y.
Proof.
  intros w nn L PC x y rest inl B HO Hr Hi. apply build_ok in B.
  assert (C : exists R, sm2_ec_a_from_bytes L (SM2_encode_pt PC x y ++ rest) inl = Ok (Some (R, match PC with COMPRESSED => 33 | _ => 65 end)) /\ aR (Rp w nn) R (x, y)).
  { destruct PC; cbn [SM2_encode_pt].
    - exact (roundtrip_full w nn L B 4 x y rest inl (or_introl eq_refl) HO Hr Hi).
    - exact (roundtrip_compressed w nn L B x y rest inl HO Hr Hi).
    - apply (roundtrip_full w nn L B _ x y rest inl); [|exact HO|exact Hr|exact Hi].
      pose proof (Z.mod_pos_bound (fval y) 2 ltac:(lia)). lia. }
  destruct C as (R & E & A). exists R. split; [exact E|]. destruct R. exact A.
Qed.
(** decoding only ever returns points of the curve *)
Theorem C40_decode_on_curve : forall w nn L l inl R len, build w nn L -> bytes l ->
  sm2_ec_a_from_bytes L l inl = Ok (Some (R, len)) ->
  exists x y, stored_a w nn R x y /\ SM2_on (Aff x y).
Proof.
  intros w nn L l inl R len B Hl E. destruct (decode_on w nn L (build_ok _ _ _ B) l inl R len Hl E) as (x & y & A & HO & _).
  exists x, y. split; [destruct R; exact A|exact HO].
Qed.
(** and rejects coordinates off the curve, x without a point, and other first bytes *)
Theorem C40_rejects_full : forall w nn L b0 X Y rest inl, build w nn L -> b0 = 4 \/ b0 = 6 \/ b0 = 7 ->
  bytes X -> length X = 32%nat -> bytes Y -> length Y = 32%nat -> bytes rest -> inl <> 0 ->
  ~ SM2_on (Aff (fof SM2_p (be_val X)) (fof SM2_p (be_val Y))) ->
  sm2_ec_a_from_bytes L (b0 :: X ++ Y ++ rest) inl = Ok None.
Proof.
  intros w nn L b0 X Y rest inl B H0 HX LX HY LY Hr Hi HO.
  assert (Bb : bytes (b0 :: X ++ Y ++ rest)).
  { constructor; [unfold is_byte; lia|]. apply bytes_app; split; [exact HX|]. apply bytes_app; split; [exact HY|exact Hr]. }
  assert (S1 : slice (b0 :: X ++ Y ++ rest) 1 32 = X).
  { unfold slice. cbn [skipn]. now rewrite <- LX, firstn_app, Nat.sub_diag, firstn_O, app_nil_r, firstn_all. }
  assert (S2 : slice (b0 :: X ++ Y ++ rest) 33 32 = Y).
  { unfold slice. change (skipn 33 (b0 :: X ++ Y ++ rest)) with (skipn 32 (X ++ Y ++ rest)).
    rewrite skipn_exact by exact LX.
    now rewrite <- LY, firstn_app, Nat.sub_diag, firstn_O, app_nil_r, firstn_all. }
  assert (LL : (65 <= length (b0 :: X ++ Y ++ rest))%nat) by (cbn [length]; rewrite !app_length; lia).
  pose proof (decode_full w nn L (build_ok _ _ _ B) _ inl b0 (X ++ Y ++ rest) eq_refl H0 Bb LL Hi) as D.
  cbv zeta in D. rewrite S1, S2 in D. destruct D as [[D _]|[_ D]]; [contradiction|exact D].
Qed.
Theorem C40_rejects_compressed : forall w nn L b0 X rest inl, build w nn L -> b0 = 2 \/ b0 = 3 ->
  bytes X -> length X = 32%nat -> bytes rest -> inl <> 0 ->
  (forall y, ~ SM2_on (Aff (fof SM2_p (be_val X)) y)) ->
  sm2_ec_a_from_bytes L (b0 :: X ++ rest) inl = Ok None.
Proof.
  intros w nn L b0 X rest inl B H0 HX LX Hr Hi HO.
  assert (Bb : bytes (b0 :: X ++ rest)).
  { constructor; [unfold is_byte; lia|]. apply bytes_app; split; [exact HX|exact Hr]. }
  assert (S1 : slice (b0 :: X ++ rest) 1 32 = X).
  { unfold slice. cbn [skipn]. now rewrite <- LX, firstn_app, Nat.sub_diag, firstn_O, app_nil_r, firstn_all. }
  assert (LL : (33 <= length (b0 :: X ++ rest))%nat) by (cbn [length]; rewrite !app_length; lia).
  pose proof (decode_compressed w nn L (build_ok _ _ _ B) _ inl b0 (X ++ rest) eq_refl H0 Bb LL Hi) as D.
  cbv zeta in D. rewrite S1 in D. destruct D as [(y & R & D & _)|[_ D]]; [now elim (HO y)|exact D].
Qed.
Theorem C40_rejects_prefix : forall L b0 r inl, ~ (b0 = 2 \/ b0 = 3 \/ b0 = 4 \/ b0 = 6 \/ b0 = 7) ->
  sm2_ec_a_from_bytes L (b0 :: r) inl = Ok None.
Proof. intros L b0 r inl H. exact (decode_other L (b0 :: r) inl b0 r eq_refl H). Qed.

(** The decoder does not check the length it is given: any other non-zero length is ignored, and a
    buffer shorter than the encoding is read past its end. *)
Theorem C40_short_input_refuted : forall L, exists l, sm2_ec_a_from_bytes L l (Z.of_nat (length l)) = UB.
Proof.
  intros L. exists [2; 0]. apply (decode_short L [2; 0] _ 2 [0] eq_refl); [discriminate|]. right. split; [lia|cbn; lia].
Qed.
(** Nor does it check that the first byte of the mixed form agrees with y: every point has a second,
    wrong, mixed encoding that is accepted. *)
Theorem C40_mixed_parity_refuted : forall w nn L x y, build w nn L -> SM2_on (Aff x y) ->
  exists l R, length l = 65%nat /\ l <> SM2_mixed x y /\ l <> SM2_uncompressed x y /\
    sm2_ec_a_from_bytes L l 65 = Ok (Some (R, 65)) /\ stored_a w nn R x y.
Proof.
  intros w nn L x y B HO. apply build_ok in B. pose proof (Z.mod_pos_bound (fval y) 2 ltac:(lia)) as M.
  destruct (roundtrip_full w nn L B (7 - fval y mod 2) x y [] 65 ltac:(lia) HO (Forall_nil _) ltac:(lia)) as (R & E & A).
  rewrite app_nil_r in E. exists ((7 - fval y mod 2) :: SM2_fb x ++ SM2_fb y), R.
  split; [cbn [length]; rewrite app_length, !SM2_fb_length; reflexivity|].
  split; [unfold SM2_mixed; intros X; assert (7 - fval y mod 2 = 6 + fval y mod 2) by congruence; lia|].
  split; [unfold SM2_uncompressed; intros X; assert (7 - fval y mod 2 = 4) by congruence; lia|].
  split; [exact E|]. destruct R. exact A.
Qed.

(** ** C41: signatures verify *)
Theorem C41_sign_verifies : forall w nn L H Hd sk d pk id msg draws sig, build w nn L -> hash_ok H Hd ->
  key_of L sk d -> pub_of L sk pk -> id_ok id -> msg_ok H msg -> draws_ok draws ->
  sm2_sign L H sk msg id draws = Ok (Some sig) ->
  sm2_verify L H pk sig msg id = Ok true.
Proof.
  intros w nn L H Hd sk d pk id msg draws sig B HO K PO Hid Hmsg Hdr E. apply build_ok in B.
  destruct (key_rep w nn L B sk d K) as (x & y & PR).
  pose proof (pub_of_rep w nn L B sk d x y pk PR PO) as PK.
  assert (D : d <= SM2_n - 2 \/ d = SM2_n - 1) by (destruct PR as (_ & R & _); lia).
  destruct D as [D|D].
  - exact (sign_verify w nn L B H Hd HO sk d x y msg id draws sig PR D Hid Hmsg Hdr E pk PK).
  - subst d. rewrite (sign_last w nn L B H Hd HO sk x y msg id draws PR Hid Hmsg Hdr) in E. discriminate E.
Qed.
(** sign returns the standard's signature for the first random number that gives one *)
Theorem C41_sign_conforms : forall w nn L H Hd sk d x y id msg draws, build w nn L -> hash_ok H Hd ->
  key_of L sk d -> SM2_mul d SM2_G = Aff x y -> d <= SM2_n - 2 -> id_ok id -> msg_ok H msg -> draws_ok draws ->
  let e := SM2_e Hd id msg x y in
  (exists pre rnd post r s, draws = pre ++ rnd :: post /\
     Forall (fun q => forall r' s', ~ SM2_signature d e (draw_k q) r' s') pre /\
     SM2_signature d e (draw_k rnd) r s /\
     sm2_sign L H sk msg id draws = Ok (Some (be_bytes 32 r ++ be_bytes 32 s))) \/
  (Forall (fun q => forall r' s', ~ SM2_signature d e (draw_k q) r' s') draws /\
   sm2_sign L H sk msg id draws = Ok None).
Proof.
  intros w nn L H Hd sk d x y id msg draws B HO K Exy D Hid Hmsg Hdr. apply build_ok in B.
  destruct (key_rep w nn L B sk d K) as (x' & y' & PR).
  assert (E : Aff x' y' = Aff x y).
  { destruct PR as (_ & _ & E' & _). rewrite <- E'. exact Exy. }
  assert (x' = x) by congruence. assert (y' = y) by congruence. subst x' y'.
  exact (sign_spec w nn L B H Hd HO sk d x y msg id draws PR D Hid Hmsg Hdr).
Qed.
(** a key, message and random stream for which sign returns (with SM3) *)
Example C41_example : forall w nn L, build w nn L -> exists sk, key_of L sk 1 /\
  sm2_sign L (sm3_lib (repeat 0 64)) sk [1; 2; 3] [65] [ex_rnd] = Ok (Some (be_bytes 32 ex_r ++ be_bytes 32 ex_s)).
Proof.
  intros w nn L B. pose proof (build_ok _ _ _ B) as B'. destruct (ex_key w nn L B') as (sk & K & PR). exists sk. split; [exact K|].
  assert (D : draws_ok [ex_rnd]).
  { constructor; [|constructor]. split; [apply Forall_forall; intros b Hb; apply repeat_spec in Hb; unfold is_byte; lia|reflexivity]. }
  assert (Hi : id_ok [65]). { split; [constructor; [unfold is_byte; lia|constructor]|cbn; lia]. }
  assert (Hm : msg_ok (sm3_lib (repeat 0 64)) [1; 2; 3]).
  { split; [repeat (constructor; [unfold is_byte; lia|]); constructor|cbn; lia]. }
  assert (N1 : 1 <= SM2_n - 2) by (vm_compute; discriminate).
  pose proof (sign_spec w nn L B' _ _ (sm3_hash_ok (repeat 0 64) eq_refl) sk 1 Gx Gy [1; 2; 3] [65] [ex_rnd] PR N1 Hi Hm D) as S.
  cbv zeta in S. rewrite ex_e_ok in S. destruct S as [(pre & rnd & post & r & s & E & _ & Sg & R)|[F _]].
  - assert (P0 : pre = [] /\ rnd = ex_rnd).
    { destruct pre as [|p pre]; [cbn [app] in E; split; [reflexivity|congruence]|]. apply (f_equal (@length _)) in E.
      cbn [length app] in E. rewrite app_length in E. cbn [length] in E. lia. }
    destruct P0 as [_ ->]. rewrite R. rewrite ex_draw in Sg.
    destruct Sg as (x1 & y1 & G1 & Er & _ & _ & Sr & Se). destruct ex_sig as (x2 & y2 & G2 & Er2 & _ & _ & Sr2 & Se2).
    assert (X : Aff x1 y1 = Aff x2 y2) by (rewrite <- G1; exact G2). assert (x1 = x2) by congruence. subst x2.
    assert (ER : r = ex_r) by congruence. rewrite ER in *.
    assert (ES : s = ex_s) by (apply half_unique; [exact Sr|exact Sr2|rewrite Se, Se2; reflexivity]).
    rewrite ES. exact eq_refl.
  - exfalso. inversion F as [|q l F1 _]; subst. rewrite ex_draw in F1. exact (F1 _ _ ex_sig).
Qed.

(** ** C42: what verify accepts *)
Theorem C42_verify_exact : forall w nn L H Hd pk x y r s id msg, build w nn L -> hash_ok H Hd ->
  pub_set L pk x y -> id_ok id -> msg_ok H msg ->
  bytes r -> length r = 32%nat -> bytes s -> length s = 32%nat ->
  exists b, sm2_verify L H pk (r ++ s) msg id = Ok b /\
  (b = true <->
   SM2_valid Hd x y id msg (be_val r) (be_val s) \/
   (1 <= be_val r <= SM2_n - 1 /\ 1 <= be_val s <= SM2_n - 1 /\ (be_val r + be_val s) mod SM2_n <> 0 /\
    SM2_add (SM2_mul (be_val s) SM2_G) (SM2_mul ((be_val r + be_val s) mod SM2_n) (Aff x y)) = Inf /\
    SM2_e Hd id msg x y mod SM2_n = be_val r)).
Proof.
  intros w nn L H Hd pk x y r s id msg B HO PK Hid Hmsg Hr Lr Hs Ls. apply build_ok in B.
  apply (pub_set_rep w nn L B) in PK.
  destruct (verify_spec w nn L B H Hd HO pk x y r s msg id PK Hid Hmsg Hr Lr Hs Ls) as (b & E & I).
  exists b. split; [rewrite verify_rs by assumption; exact E|]. rewrite I. apply accepts_iff.
Qed.
(** verify is exactly the standard's verification for every signature for which [s]G + [t]P has
    coordinates.  Missing for the full property: the other signatures, where it is false (next). *)
Theorem C42_verify_standard_partial : forall w nn L H Hd pk x y r s id msg, build w nn L -> hash_ok H Hd ->
  pub_set L pk x y -> id_ok id -> msg_ok H msg ->
  bytes r -> length r = 32%nat -> bytes s -> length s = 32%nat ->
  SM2_add (SM2_mul (be_val s) SM2_G) (SM2_mul ((be_val r + be_val s) mod SM2_n) (Aff x y)) <> Inf ->
  exists b, sm2_verify L H pk (r ++ s) msg id = Ok b /\
  (b = true <-> SM2_valid Hd x y id msg (be_val r) (be_val s)).
Proof.
  intros w nn L H Hd pk x y r s id msg B HO PK Hid Hmsg Hr Lr Hs Ls NI.
  destruct (C42_verify_exact w nn L H Hd pk x y r s id msg B HO PK Hid Hmsg Hr Lr Hs Ls) as (b & E & I).
  exists b. split; [exact E|]. rewrite I. split; [intros [V|(_ & _ & _ & V & _)]; [exact V|contradiction]|intros V; left; exact V].
Qed.
(** With the public key G, a signature of any message that the standard rejects is accepted: r = e and
    s = -e/2, where [s]G + [t]P is infinity, which verify takes for x = 0. *)
Theorem C42_verify_infinity_refuted : forall w nn L H Hd id msg, build w nn L -> hash_ok H Hd ->
  id_ok id -> msg_ok H msg -> SM2_e Hd id msg Gx Gy mod SM2_n <> 0 ->
  exists pk r s, pub_set L pk Gx Gy /\ sm2_verify L H pk (be_bytes 32 r ++ be_bytes 32 s) msg id = Ok true /\
    0 <= r < 2 ^ 256 /\ 0 <= s < 2 ^ 256 /\ ~ SM2_valid Hd Gx Gy id msg r s.
Proof.
  intros w nn L H Hd id msg B HO Hid Hmsg He. apply build_ok in B.
  destruct (set_pub_rep w nn L B Gx Gy sm2_G_on) as (pk & E & PK).
  destruct (verify_infinity w nn L B H Hd HO pk id msg Gx Gy eq_refl PK Hid Hmsg He) as [V NV].
  assert (NP : 0 < SM2_n) by reflexivity. pose proof SM2_n_range as NR.
  exists pk, (SM2_e Hd id msg Gx Gy mod SM2_n), (((SM2_n - 1) / 2 * (SM2_e Hd id msg Gx Gy mod SM2_n)) mod SM2_n).
  split; [exact E|]. split; [exact V|].
  pose proof (Z.mod_pos_bound (SM2_e Hd id msg Gx Gy) SM2_n NP).
  pose proof (Z.mod_pos_bound ((SM2_n - 1) / 2 * (SM2_e Hd id msg Gx Gy mod SM2_n)) SM2_n NP).
  split; [lia|]. split; [lia|exact NV].
Qed.
(** with SM3, the id "A" and the message 01 02 03 *)
Example C42_refuted_sm3 : id_ok [65] /\ msg_ok (sm3_lib (repeat 0 64)) [1; 2; 3] /\
  SM2_e SM3 [65] [1; 2; 3] Gx Gy mod SM2_n <> 0.
Proof.
  split; [split; [constructor; [unfold is_byte; lia|constructor]|cbn; lia]|].
  split; [split; [repeat (constructor; [unfold is_byte; lia|]); constructor|cbn; lia]|].
  rewrite ex_e_ok. exact ex_e_nz.
Qed.

(** ** C43: decryption inverts encryption *)
Theorem C43_decrypt_encrypt : forall w nn L H Hd sk d pk m PC draws c, build w nn L -> hash_ok H Hd ->
  key_of L sk d -> pub_of L sk pk -> plain_ok H m -> draws_ok draws ->
  sm2_encrypt L H pk m PC draws = Ok (Some c) ->
  sm2_decrypt L H sk c = (m, Ok (Z.of_nat (length m))) /\
  Z.of_nat (length c) = (match PC with COMPRESSED => 33 | _ => 65 end) + Z.of_nat (hl_ds H) + Z.of_nat (length m).
Proof.
  intros w nn L H Hd sk d pk m PC draws c B HO K PO Hm Hdr E. apply build_ok in B.
  destruct (key_rep w nn L B sk d K) as (x & y & PR).
  pose proof (pub_of_rep w nn L B sk d x y pk PR PO) as PK.
  exact (encrypt_decrypt w nn L B H Hd HO sk d x y pk m PC draws c PR PK Hm Hdr E).
Qed.
(** encrypt returns the standard's ciphertext for the first random number that gives one *)
Theorem C43_encrypt_conforms : forall w nn L H Hd pk x y m PC draws, build w nn L -> hash_ok H Hd ->
  pub_set L pk x y -> plain_ok H m -> draws_ok draws ->
  (exists pre rnd post c, draws = pre ++ rnd :: post /\
     Forall (fun q => forall c', ~ enc_with Hd x y (draw_k q) m PC c') pre /\
     enc_with Hd x y (draw_k rnd) m PC c /\ sm2_encrypt L H pk m PC draws = Ok (Some c)) \/
  (Forall (fun q => forall c', ~ enc_with Hd x y (draw_k q) m PC c') draws /\
   sm2_encrypt L H pk m PC draws = Ok None).
Proof.
  intros w nn L H Hd pk x y m PC draws B HO PK Hm Hdr. apply build_ok in B. apply (pub_set_rep w nn L B) in PK.
  exact (encrypt_spec w nn L B H Hd HO pk x y m PC draws PK Hm Hdr).
Qed.
Example C43_example : forall w nn L PC, build w nn L -> exists sk c, key_of L sk 1 /\
  plain_ok (sm3_lib (repeat 0 64)) [1; 2; 3] /\
  sm2_encrypt L (sm3_lib (repeat 0 64)) (priv_pub sk) [1; 2; 3] PC [ex_rnd] = Ok (Some c).
Proof.
  intros w nn L PC B. pose proof (build_ok _ _ _ B) as B'. destruct (ex_key w nn L B') as (sk & K & PR).
  exists sk. 
  assert (D : draws_ok [ex_rnd]).
  { constructor; [|constructor]. split; [apply Forall_forall; intros b Hb; apply repeat_spec in Hb; unfold is_byte; lia|reflexivity]. }
  assert (Hm : plain_ok (sm3_lib (repeat 0 64)) [1; 2; 3]).
  { split; [repeat (constructor; [unfold is_byte; lia|]); constructor|]. split; vm_compute; reflexivity. }
  destruct PR as (_ & _ & _ & PK).
  destruct (encrypt_spec w nn L B' _ _ (sm3_hash_ok (repeat 0 64) eq_refl) (priv_pub sk) Gx Gy [1; 2; 3] PC [ex_rnd] PK Hm D)
    as [(pre & rnd & post & c & _ & _ & _ & E)|[F _]].
  - exists c. split; [exact K|]. split; [exact Hm|exact E].
  - exfalso. inversion F as [|q l F1 _]; subst. rewrite ex_draw in F1. exact (F1 _ (ex_enc PC)).
Qed.

(** ** C44: decryption rejects bad ciphertexts *)
Theorem C44_decrypt_exact : forall w nn L H Hd sk d c, build w nn L -> hash_ok H Hd ->
  key_of L sk d -> cipher_ok H c ->
  (exists M, decrypts H Hd d c M /\ sm2_decrypt L H sk c = (M, Ok (Z.of_nat (length M)))) \/
  ((forall M, ~ decrypts H Hd d c M) /\ exists junk, sm2_decrypt L H sk c = (junk, Throw)).
Proof.
  intros w nn L H Hd sk d c B HO K Hc. apply build_ok in B. destruct (key_rep w nn L B sk d K) as (x & y & PR).
  exact (decrypt_iff w nn L B H Hd HO sk d x y c PR Hc).
Qed.
(** in particular: success means that C1 is on the curve and C3 = H(x2 || M || y2) *)
Theorem C44_decrypt_success : forall w nn L H Hd sk d c M len, build w nn L -> hash_ok H Hd ->
  key_of L sk d -> cipher_ok H c -> sm2_decrypt L H sk c = (M, Ok len) ->
  exists C1 C3 C2 x1 y1 x2 y2, c = C1 ++ C3 ++ C2 /\ SM2_parses C1 x1 y1 /\ SM2_on (Aff x1 y1) /\
    SM2_mul d (Aff x1 y1) = Aff x2 y2 /\ M = SM2_C2 Hd x2 y2 C2 /\ C3 = Hd (SM2_fb x2 ++ M ++ SM2_fb y2).
Proof.
  intros w nn L H Hd sk d c M len B HO K Hc E.
  destruct (C44_decrypt_exact w nn L H Hd sk d c B HO K Hc) as [(M' & D & E')|[_ [junk E']]]; [|congruence].
  assert (M' = M) by congruence. subst M'.
  destruct D as (C1 & C3 & C2 & x1 & y1 & x2 & y2 & Ec & _ & Pa & Em & EM & _ & E3).
  exists C1, C3, C2, x1, y1, x2, y2. split; [exact Ec|]. split; [exact Pa|]. split; [exact (proj1 Pa)|].
  split; [exact Em|]. split; [exact EM|exact E3].
Qed.
(** A rejected ciphertext does not leave the output alone: with the right C1 and C2 and any other C3,
    decrypt throws with the whole plaintext in the caller's buffer. *)
Theorem C44_output_untouched_refuted : forall w nn L H Hd sk d pk m PC draws C1 C3 C2 bad, build w nn L -> hash_ok H Hd ->
  key_of L sk d -> pub_of L sk pk -> plain_ok H m -> draws_ok draws ->
  sm2_encrypt L H pk m PC draws = Ok (Some (C1 ++ C3 ++ C2)) -> length C3 = hl_ds H -> length C2 = length m ->
  length bad = hl_ds H -> bytes bad -> bad <> C3 ->
  sm2_decrypt L H sk (C1 ++ bad ++ C2) = (m, Throw).
Proof.
  intros w nn L H Hd sk d pk m PC draws C1 C3 C2 bad B HO K PO Hm Hdr E L3 L2 Lb Bb Hne. apply build_ok in B.
  destruct (key_rep w nn L B sk d K) as (x & y & PR).
  pose proof (pub_of_rep w nn L B sk d x y pk PR PO) as PK.
  exact (decrypt_releases w nn L B H Hd HO sk d x y pk m PC draws _ C1 C3 C2 bad PR PK Hm Hdr E eq_refl L3 L2 Lb Bb Hne).
Qed.

(** ** C45: private keys *)
Theorem C45_set_priv : forall w nn L d, build w nn L -> bytes d -> length d = 32%nat ->
  (1 <= be_val d <= SM2_n - 2 -> exists sk x y, sm2_set_priv L d = Ok sk /\ priv_d sk = d /\
      SM2_mul (be_val d) SM2_G = Aff x y /\ sm2_get_pub (priv_pub sk) = (SM2_fb x, SM2_fb y)) /\
  (~ 1 <= be_val d <= SM2_n - 2 -> sm2_set_priv L d = Throw).
Proof.
  intros w nn L d B Hd Hl. apply build_ok in B.
  destruct (set_priv_spec w nn L B d Hd Hl) as [(R & sk & x & y & E & (P1 & _ & P3 & (_ & P4 & P5 & _)))|[R E]].
  - split; [intros _|intros N; contradiction]. exists sk, x, y. split; [exact E|].
    split; [rewrite P1, <- Hl; now apply be_bytes_be_val|]. split; [exact P3|].
    unfold sm2_get_pub. rewrite P4, P5. reflexivity.
  - split; [intros N; contradiction|intros _; exact E].
Qed.
(** gen_priv never fails; its key is (the 32 random bytes mod (n - 1)) + 1 with the public key [d]G; and
    set_priv accepts it unless d = n - 1.  Missing: d = n - 1, where it is false (next). *)
Theorem C45_gen_priv_partial : forall w nn L rnd, build w nn L -> bytes rnd -> length rnd = 32%nat ->
  exists sk x y, sm2_gen_priv L rnd = Ok sk /\ 1 <= be_val (priv_d sk) <= SM2_n - 1 /\
    be_val (priv_d sk) = be_val rnd mod (SM2_n - 1) + 1 /\
    SM2_mul (be_val (priv_d sk)) SM2_G = Aff x y /\ sm2_get_pub (priv_pub sk) = (SM2_fb x, SM2_fb y) /\
    (be_val (priv_d sk) <= SM2_n - 2 -> sm2_set_priv L (priv_d sk) = Ok sk).
Proof.
  intros w nn L rnd B Hr Hl. apply build_ok in B.
  destruct (gen_priv_spec w nn L B rnd Hr Hl) as (sk & x & y & E & (P1 & P2 & P3 & (_ & P4 & P5 & _))).
  assert (V : be_val (priv_d sk) = draw_k rnd).
  { rewrite P1, be_val_be_bytes. apply Z.mod_small. pose proof SM2_n_range. change (256 ^ Z.of_nat 32) with (2 ^ 256). lia. }
  exists sk, x, y. rewrite V. split; [exact E|]. split; [exact P2|]. split; [reflexivity|]. split; [exact P3|].
  split; [unfold sm2_get_pub; now rewrite P4, P5|]. exact (key_gen_set w nn L B rnd sk Hr Hl E).
Qed.
(** the random bytes n - 2 give the private key n - 1: set_priv rejects it, and no number of attempts
    makes sign return *)
Theorem C45_unusable_key_refuted : forall w nn L, build w nn L ->
  exists rnd sk, bytes rnd /\ length rnd = 32%nat /\ sm2_gen_priv L rnd = Ok sk /\
    sm2_set_priv L (priv_d sk) = Throw /\
    forall H Hd id msg draws, hash_ok H Hd -> id_ok id -> msg_ok H msg -> draws_ok draws ->
      sm2_sign L H sk msg id draws = Ok None.
Proof.
  intros w nn L B. apply build_ok in B.
  assert (Bb : bytes (be_bytes 32 (SM2_n - 2))) by apply be_bytes_bytes.
  assert (Bl : length (be_bytes 32 (SM2_n - 2)) = 32%nat) by apply be_bytes_length.
  assert (K : draw_k (be_bytes 32 (SM2_n - 2)) = SM2_n - 1) by (vm_compute; reflexivity).
  destruct (gen_priv_spec w nn L B _ Bb Bl) as (sk & x & y & E & PR). rewrite K in PR.
  exists (be_bytes 32 (SM2_n - 2)), sk. split; [exact Bb|]. split; [exact Bl|]. split; [exact E|]. split.
  - destruct PR as (P1 & _).
    destruct (set_priv_spec w nn L B (priv_d sk)) as [(R & _)|[_ X]].
    + rewrite P1. apply be_bytes_bytes.
    + rewrite P1. apply be_bytes_length.
    + exfalso. rewrite P1 in R. assert (V : be_val (be_bytes 32 (SM2_n - 1)) = SM2_n - 1) by (vm_compute; reflexivity).
      rewrite V in R. lia.
    + exact X.
  - intros H Hd id msg draws HO Hid Hm Hdr. exact (sign_last w nn L B H Hd HO sk x y msg id draws PR Hid Hm Hdr).
Qed.

(** ** C46: public key validation *)
Theorem C46_set_pub : forall w nn L x y, build w nn L -> bytes x -> length x = 32%nat -> bytes y -> length y = 32%nat ->
  let P := Aff (fof SM2_p (be_val x)) (fof SM2_p (be_val y)) in
  (SM2_on P -> exists pk, sm2_set_pub L x y = Ok pk /\ sm2_get_pub pk = (x, y)) /\
  (~ SM2_on P -> sm2_set_pub L x y = Throw).
Proof.
  intros w nn L x y B Hx Lx Hy Ly P. apply build_ok in B.
  destruct (set_pub_spec w nn L B x y Hx Lx Hy Ly) as [(HO & pk & E & G & _)|[HO E]].
  - split; [intros _; exists pk; split; assumption|intros N; contradiction].
  - split; [intros N; contradiction|intros _; exact E].
Qed.
(** set_pub does not check that the coordinates are below p: the bytes of p are accepted for x = 0 *)
Definition ex_y0 : Z := 0xfd4511e81736a60f07e88a83d6cf5a167fae6d1a9c9330e76e232e00f5cdc154.
Theorem C46_canonical_refuted : forall w nn L, build w nn L ->
  exists x y pk, bytes x /\ length x = 32%nat /\ bytes y /\ length y = 32%nat /\ SM2_p <= be_val x /\
    sm2_set_pub L x y = Ok pk.
Proof.
  intros w nn L B.
  assert (HO : SM2_on (Aff (fof SM2_p (be_val SM2_CURVE_P)) (fof SM2_p (be_val (be_bytes 32 ex_y0))))).
  { apply fval_inj. vm_compute. reflexivity. }
  assert (Bp : bytes SM2_CURVE_P) by (unfold SM2_CURVE_P; repeat (constructor; [unfold is_byte; lia|]); constructor).
  destruct (C46_set_pub w nn L SM2_CURVE_P (be_bytes 32 ex_y0) B Bp eq_refl (be_bytes_bytes _ _) (be_bytes_length _ _)) as [S _].
  destruct (S HO) as (pk & E & _). exists SM2_CURVE_P, (be_bytes 32 ex_y0), pk.
  split; [exact Bp|]. split; [reflexivity|]. split; [apply be_bytes_bytes|]. split; [apply be_bytes_length|].
  split; [vm_compute; discriminate|exact E].
Qed.
Example C46_example : SM2_on (Aff (fof SM2_p (be_val SM2_CURVE_GX)) (fof SM2_p (be_val SM2_CURVE_GY))) /\
  ~ SM2_on (Aff (fof SM2_p 0) (fof SM2_p 0)).
Proof.
  split; [apply fval_inj; vm_compute; reflexivity|]. intros E. apply (f_equal fval) in E. vm_compute in E. discriminate.
Qed.

(** ** C47: the KDF *)
Theorem C47_kdf : forall H Hd inp Zb, hash_ok H Hd -> bytes Zb -> 8 * (Z.of_nat (length Zb) + 4) < 2 ^ 64 ->
  Z.of_nat (length inp) < kdf_max H ->
  exists st, sm2_kdf_xor H inp Zb = Ok (xorl inp (SM2_kdf Hd Zb (length inp)), st) /\
    ((st = 0 \/ st = -1) /\
     (st = -1 <-> (0 < length inp)%nat /\ SM2_kdf Hd Zb (length inp) = repeat 0 (length inp))).
Proof.
  intros H Hd inp Zb HO HZ HL Hm. rewrite (kdf_xor_spec H Hd HO inp Zb HZ HL).
  destruct (Z.leb_spec (kdf_max H) (Z.of_nat (length inp))) as [X|_]; [lia|]. eexists. split; [reflexivity|].
  destruct (_ && _) eqn:E.
  - split; [right; reflexivity|]. split; [intros _|reflexivity]. now apply (kdf_zero_gen H Hd HO).
  - split; [left; reflexivity|]. split; [discriminate|]. intros X. apply (kdf_zero_gen H Hd HO Zb _ HZ) in X. congruence.
Qed.
Theorem C47_kdf_too_long : forall H Hd inp Zb, hash_ok H Hd -> bytes Zb -> 8 * (Z.of_nat (length Zb) + 4) < 2 ^ 64 ->
  kdf_max H <= Z.of_nat (length inp) -> sm2_kdf_xor H inp Zb = Throw.
Proof.
  intros H Hd inp Zb HO HZ HL Hm. rewrite (kdf_xor_spec H Hd HO inp Zb HZ HL).
  destruct (Z.leb_spec (kdf_max H) (Z.of_nat (length inp))) as [_|X]; [reflexivity|lia].
Qed.
Example C47_example : hash_ok (sm3_lib (repeat 0 64)) SM3 /\ Z.of_nat (length [1; 2; 3]) < kdf_max (sm3_lib (repeat 0 64)) /\
  SM2_kdf SM3 (SM2_fb Gx ++ SM2_fb Gy) 3 <> repeat 0 3.
Proof.
  split; [exact (sm3_hash_ok (repeat 0 64) eq_refl)|]. split; [vm_compute; reflexivity|].
  intros E. apply ex_kdf. split; [lia|exact E].
Qed.

Print Assumptions C37_base_point.
Print Assumptions C37_cofactor.
Print Assumptions C37_montgomery.
Print Assumptions C38_add.
Print Assumptions C39_scalar_mult.
Print Assumptions C40_round_trip.
Print Assumptions C41_sign_verifies.
Print Assumptions C41_sign_conforms.
Print Assumptions C42_verify_exact.
Print Assumptions C42_verify_infinity_refuted.
Print Assumptions C43_decrypt_encrypt.
Print Assumptions C44_decrypt_exact.
Print Assumptions C45_gen_priv_partial.
Print Assumptions C45_unusable_key_refuted.
Print Assumptions C46_set_pub.
Print Assumptions C47_kdf.

(** The assumptions of the remaining theorems, printed together. *)
Definition other_theorems_SM2 :=
  (@C41_sm3_instance, @C37_primes, @C37_byte_constants, @C38_double, @C38_add_affine, @C38_negate,
   @C38_from_affine, @C38_to_affine, @C38_is_infinity, @C38_normalise, @C38_equal, @C38_on_curve_check,
   @C38_add_one_infinite_refuted, @C38_add_affine_same_refuted, @C38_add_affine_infinite_refuted,
   @C39_scalar_mult_base, @C39_scalar_mult_affine, @C40_encode, @C40_decode_on_curve,
   @C40_rejects_full, @C40_rejects_compressed, @C40_rejects_prefix, @C40_short_input_refuted,
   @C40_mixed_parity_refuted, @C42_verify_standard_partial, @C43_encrypt_conforms,
   @C44_decrypt_success, @C44_output_untouched_refuted, @C45_set_priv, @C46_canonical_refuted,
   @C47_kdf_too_long).
Print Assumptions other_theorems_SM2.

(** Square roots and point encodings of SM2. *)
From Coq Require Import Znumtheory.
From Verif Require Import Base BaseFacts ModelEndian ProofEndian ModelNumber SpecNumber ProofNumber ModelMont SpecMont
  ProofMont SpecField SpecEC SpecJac ProofEC ProofECMul ProofFermat ModelEC ProofJac ProofJacRep
  ProofNumlib ProofZops SpecSM2Curve ProofSM2Curve ModelSM2 SpecSM2 SpecSM2Api ProofSM2Rep.

Notation K := SM2_K.
Notation fsq y := (fmul SM2_K y y).

Lemma fval_sm2_range (x : SM2_F) : 0 <= fval x < SM2_p.
Proof. apply fval_range. exact SM2_p_pos. Qed.
Lemma fval_sm2_mul (x y : SM2_F) : fval (fmul SM2_K x y) = (fval x * fval y) mod SM2_p.
Proof. change (fmul SM2_K x y) with (fp_mul x y). unfold fp_mul. apply fval_fof. Qed.
Lemma fval_sm2_opp (x : SM2_F) : fval (fopp SM2_K x) = (- fval x) mod SM2_p.
Proof. change (fopp SM2_K x) with (fp_opp x). unfold fp_opp. apply fval_fof. Qed.
Lemma fval_sm2_inj (x y : SM2_F) : fval x = fval y -> x = y.
Proof. apply fval_inj. Qed.

Lemma sm2_sqrt_exp : be_val P_SUB3_DIV4_ADD1 * 4 = SM2_p + 1.
Proof. reflexivity. Qed.
Lemma sm2_sqrt_exp_pos : 0 < be_val P_SUB3_DIV4_ADD1.
Proof. reflexivity. Qed.

(** p = 3 mod 4: a^((p+1)/4) is a square root of a square *)
Lemma sqrt_pow (y : Z) : (let t := ((y * y) mod SM2_p) ^ be_val P_SUB3_DIV4_ADD1 mod SM2_p in
  (t * t) mod SM2_p) = (y * y) mod SM2_p.
Proof.
  cbv zeta. pose proof SM2_p_pos as Hp. pose proof sm2_sqrt_exp as E. pose proof sm2_sqrt_exp_pos as E0.
  generalize dependent (be_val P_SUB3_DIV4_ADD1). intros e E E0.
  rewrite <- pow_base_mod by lia. rewrite <- Zmult_mod.
  assert (X : (y * y) ^ e * (y * y) ^ e = y ^ (SM2_p - 1) * (y * y)).
  { replace (y * y) with (y ^ 2) by ring. rewrite <- !Z.pow_mul_r by lia. rewrite <- !Z.pow_add_r by lia.
    f_equal. lia. }
  rewrite X. destruct (Z.eq_dec (y mod SM2_p) 0) as [Z0|NZ].
  - rewrite (Zmult_mod y y), Z0. rewrite (Zmult_mod (y ^ _)), (Zmult_mod y y), Z0.
    rewrite Z.mul_0_l, Z.mod_0_l by lia. rewrite Z.mul_0_r. apply Z.mod_0_l. lia.
  - assert (F : y ^ (SM2_p - 1) mod SM2_p = 1).
    { apply fermat; [exact SM2_p_prime|]. intros D. apply NZ. now apply Zdivide_mod. }
    rewrite Zmult_mod, F, Z.mul_1_l, Zmod_mod. reflexivity.
Qed.

Lemma square_eq_opp (x y : SM2_F) : fsq x = fsq y -> x = y \/ x = fopp SM2_K y.
Proof.
  intros E. pose proof SM2_p_pos as Hp. apply (f_equal fval) in E. rewrite !fval_sm2_mul in E.
  assert (D : (SM2_p | (fval x - fval y) * (fval x + fval y))).
  { apply Z.mod_divide; [lia|]. replace ((fval x - fval y) * (fval x + fval y)) with (fval x * fval x - fval y * fval y) by ring.
    rewrite Zminus_mod, E, Z.sub_diag. apply Z.mod_0_l. lia. }
  destruct (prime_mult _ SM2_p_prime _ _ D) as [D1|D1].
  - left. apply fval_sm2_inj. pose proof (fval_sm2_range x). pose proof (fval_sm2_range y).
    destruct D1 as [q Hq]. assert (q = 0) by nia. subst. lia.
  - right. apply fval_sm2_inj. rewrite fval_sm2_opp. pose proof (fval_sm2_range x).
    rewrite <- (Z.mod_small (fval x) SM2_p) by assumption.
    destruct D1 as [q Hq]. replace (fval x) with (- fval y + q * SM2_p) by lia. apply Z_mod_plus_full.
Qed.
Lemma opp_parity (y : SM2_F) : y <> f0 SM2_K -> fval (fopp SM2_K y) mod 2 = 1 - fval y mod 2.
Proof.
  intros N. pose proof (fval_sm2_range y) as B. rewrite fval_sm2_opp.
  assert (fval y <> 0). { intros E. apply N. apply fval_sm2_inj. rewrite E. reflexivity. }
  rewrite Z_mod_nz_opp_full, (Z.mod_small (fval y)) by (rewrite ?Z.mod_small by assumption; assumption).
  assert (SM2_p mod 2 = 1) by reflexivity.
  rewrite Zminus_mod, H0. assert (X : fval y mod 2 = 0 \/ fval y mod 2 = 1) by (pose proof (Z.mod_pos_bound (fval y) 2 ltac:(lia)); lia).
  destruct X as [-> | ->]; reflexivity.
Qed.
Lemma fval_bytes_val (x : SM2_F) : be_val (SM2_fb x) = fval x.
Proof.
  unfold SM2_fb. rewrite be_val_be_bytes. apply Z.mod_small. pose proof (fval_sm2_range x). pose proof SM2_p_range.
  change (256 ^ Z.of_nat 32) with (2 ^ 256). lia.
Qed.
Lemma fof_bytes_val (x : SM2_F) : fof SM2_p (be_val (SM2_fb x)) = x.
Proof. rewrite fval_bytes_val. apply fval_sm2_inj. rewrite fval_fof. apply Z.mod_small, fval_sm2_range. Qed.
Lemma SM2_fb_bytes x : bytes (SM2_fb x). Proof. apply be_bytes_bytes. Qed.
Lemma SM2_fb_length x : length (SM2_fb x) = 32%nat. Proof. apply be_bytes_length. Qed.
Lemma SM2_fb_inj x y : SM2_fb x = SM2_fb y -> x = y.
Proof. intros E. rewrite <- (fof_bytes_val x), <- (fof_bytes_val y). now rewrite E. Qed.

Lemma be_bytes_last n v : nz (be_bytes (S n) v) n = v mod 256.
Proof. unfold be_bytes, nz. rewrite rev_nth by (rewrite le_bytes_length; lia).
  rewrite le_bytes_length. replace (S n - S n)%nat with 0%nat by lia. cbn [le_bytes nth]. try apply land_255; reflexivity. Qed.
Lemma land1_mod2 x : Z.land x 1 = x mod 2.
Proof. change 1 with (Z.ones 1). now rewrite Z.land_ones by lia. Qed.
Lemma fb_lsb (y : SM2_F) : Z.land (nz (SM2_fb y) 31) 1 = fval y mod 2.
Proof.
  unfold SM2_fb. rewrite be_bytes_last, land1_mod2.
  rewrite <- (Zmod_div_mod 2 256); [reflexivity|lia|lia|exists 128; reflexivity].
Qed.

Section SM2.
  Variables (w : Z) (nn : nat) (L : numlib).
  Hypothesis LOK : numlib_ok w nn L.
  Notation Rp := (SpecSM2Api.Rp w nn).
  Notation ar := (aR Rp).

  Lemma sm2_sqrt_spec a x : Rp a x ->
    (exists t y, sm2_fp_sqrt L a = Ok (Some t) /\ Rp t y /\ fsq y = x) \/
    (sm2_fp_sqrt L a = Ok None /\ forall y, fsq y <> x).
  Proof.
    intros Ha. unfold sm2_fp_sqrt.
    destruct (ok_epi8 _ _ _ LOK P_SUB3_DIV4_ADD1 ltac:(const_bytes) eq_refl) as [Le Ve].
    pose proof sm2_sqrt_exp_pos as E0.
    destruct (ok_pow _ _ _ LOK _ _ _ _ _ (FP_CTX_ok w nn L LOK) Ha Le ltac:(rewrite Ve; clear - E0; lia)) as (t & Et & Rt).
    rewrite Et. cbn [bind]. rewrite Ve in Rt.
    set (ty := fof SM2_p (fval x ^ be_val P_SUB3_DIV4_ADD1)).
    assert (Rty : Rp t ty). { unfold SpecSM2Api.Rp, ty. rewrite fval_fof. exact Rt. }
    pose proof (ok_sqr _ _ _ LOK _ _ _ _ (FP_CTX_ok w nn L LOK) Rty) as R2.
    pose proof (ok_equal _ _ _ LOK _ _ _ _ _ _ (FP_CTX_ok w nn L LOK) Ha R2) as EQ.
    rewrite EQ. destruct (Z.eqb_spec (fval x) ((fval ty * fval ty) mod SM2_p)) as [E|N].
    - left. exists t, ty. split; [reflexivity|split; [exact Rty|]]. apply fval_sm2_inj. rewrite fval_sm2_mul. now symmetry.
    - right. split; [reflexivity|]. intros y Ey. apply N. subst x.
      unfold ty. rewrite fval_fof, fval_sm2_mul. symmetry. apply (sqrt_pow (fval y)).
  Qed.

  Lemma sm2_recover_spec a x yh : Rp a x -> yh = 0 \/ yh = 1 ->
    (exists t y, sm2_ec_recover_y L a yh = Ok (Some t) /\ Rp t y /\ SM2_on (Aff x y) /\ fval y mod 2 = yh) \/
    (sm2_ec_recover_y L a yh = Ok None /\ forall y, ~ SM2_on (Aff x y)).
  Proof.
    intros Ha Hy. unfold sm2_ec_recover_y.
    destruct (sm2_sqrt_spec _ _ (Rp_rhs w nn L LOK a x Ha)) as [(t & y & E & Rt & Sy)|(E & N)]; rewrite E; cbn [bind].
    - left. rewrite (Rp_to_bytes w nn L LOK _ _ Rt). change (be_bytes 32 (fval y)) with (SM2_fb y). rewrite fb_lsb.
      assert (On : SM2_on (Aff x y)) by exact Sy.
      assert (YN : y <> f0 SM2_K) by (apply (ec_y_nz _ _ _ sm2_curve_ok _ _ On)).
      destruct (Z.eqb_spec (fval y mod 2) yh) as [Ey|Ny]; cbn [negb].
      + exists t, y. auto.
      + exists (m_neg L (FP_CTX L) t), (fopp SM2_K y). split; [reflexivity|].
        split; [apply (r_neg _ _ _ _ (sm2_ops_rel w nn L LOK)); assumption|].
        split.
        * exact (ec_neg_on _ _ _ sm2_curve_ok _ On).
        * rewrite (opp_parity y YN). pose proof (Z.mod_pos_bound (fval y) 2 ltac:(lia)). clear - H Ny Hy. lia.
    - right. split; [reflexivity|]. intros y On. exact (N y On).
  Qed.

  (** ** Encoding *)
  Lemma to_bytes04_spec Q x y : ar Q (x, y) -> sm2_ec_a_to_bytes04 L Q = SM2_fb x ++ SM2_fb y.
  Proof.
    destruct Q as [a b]. intros [Ha Hb]. unfold sm2_ec_a_to_bytes04.
    rewrite (Rp_to_bytes w nn L LOK _ _ Ha), (Rp_to_bytes w nn L LOK _ _ Hb). reflexivity.
  Qed.
  Lemma to_uncompressed_spec Q x y : ar Q (x, y) -> sm2_ec_a_to_bytes_uncompressed L Q = SM2_uncompressed x y.
  Proof. intros H. unfold sm2_ec_a_to_bytes_uncompressed. now rewrite (to_bytes04_spec _ _ _ H). Qed.
  Lemma par_prefix k k1 (y : SM2_F) : k1 = k + 1 -> (if fval y mod 2 =? 0 then k else k1) = k + fval y mod 2.
  Proof. intros ->. pose proof (Z.mod_pos_bound (fval y) 2 ltac:(lia)). destruct (Z.eqb_spec (fval y mod 2) 0); lia. Qed.
  Lemma to_compressed_spec Q x y : ar Q (x, y) -> sm2_ec_a_to_bytes_compressed L Q = SM2_compressed x y.
  Proof.
    destruct Q as [a b]. intros [Ha Hb]. unfold sm2_ec_a_to_bytes_compressed.
    rewrite (Rp_to_bytes w nn L LOK _ _ Ha), (Rp_to_bytes w nn L LOK _ _ Hb).
    change (be_bytes 32 (fval y)) with (SM2_fb y). rewrite fb_lsb, (par_prefix 2 3 y eq_refl). reflexivity.
  Qed.
  Lemma to_mix_spec Q x y : ar Q (x, y) -> sm2_ec_a_to_bytes_mix L Q = SM2_mixed x y.
  Proof.
    intros H. unfold sm2_ec_a_to_bytes_mix. rewrite (to_bytes04_spec _ _ _ H).
    replace (nz (SM2_fb x ++ SM2_fb y) 63) with (nz (SM2_fb y) 31).
    - rewrite fb_lsb, (par_prefix 6 7 y eq_refl). reflexivity.
    - unfold nz. rewrite app_nth2 by (rewrite SM2_fb_length; lia). now rewrite SM2_fb_length.
  Qed.

  (** ** Decoding *)
  Lemma read_ok (l : list Z) off n : (off + n <= length l)%nat -> read l off n = Ok (slice l off n).
  Proof. intros H. unfold read. destruct (Nat.leb_spec (off + n) (length l)); [reflexivity|lia]. Qed.
  Lemma read_ub (l : list Z) off n : (length l < off + n)%nat -> read l off n = UB.
  Proof. intros H. unfold read. destruct (Nat.leb_spec (off + n) (length l)); [lia|reflexivity]. Qed.
  Lemma from_bytes04_spec l off : bytes l -> (off + 64 <= length l)%nat ->
    exists R, sm2_ec_a_from_bytes04 L l off = Ok R /\
      ar R (fof SM2_p (be_val (slice l off 32)), fof SM2_p (be_val (slice l (off + 32) 32))).
  Proof.
    intros Hb Hl. unfold sm2_ec_a_from_bytes04. rewrite read_ok by lia. cbn [bind].
    rewrite read_ok by lia. cbn [bind]. eexists. split; [reflexivity|].
    split; (apply (Rp_from_bytes w nn L LOK); [now apply bytes_slice|apply slice_length; lia]).
  Qed.

  Lemma on_dec (P : point SM2_F) : SM2_on P \/ ~ SM2_on P.
  Proof. destruct P as [|x y]; [left; exact I|]. unfold SM2_on, on_curve. apply (fun d : {_} + {_} => match d with left a => or_introl a | right b => or_intror b end); apply (feq_dec SM2_K). Qed.

  Lemma decode_full l inl b0 r : l = b0 :: r -> b0 = 4 \/ b0 = 6 \/ b0 = 7 -> bytes l -> (65 <= length l)%nat -> inl <> 0 ->
    let x := fof SM2_p (be_val (slice l 1 32)) in
    let y := fof SM2_p (be_val (slice l 33 32)) in
    (SM2_on (Aff x y) /\ exists R, sm2_ec_a_from_bytes L l inl = Ok (Some (R, 65)) /\ ar R (x, y)) \/
    (~ SM2_on (Aff x y) /\ sm2_ec_a_from_bytes L l inl = Ok None).
  Proof.
    intros El Hb0 Hb Hl Hi x y. unfold sm2_ec_a_from_bytes.
    destruct (Z.eqb_spec inl 0); [contradiction|]. rewrite (read_ok l 0 1) by lia. cbn [bind].
    assert (E0 : nz (slice l 0 1) 0 = b0) by (subst l; reflexivity). rewrite E0.
    replace ((b0 =? 4) || (b0 =? 6) || (b0 =? 7)) with true by lia.
    destruct (from_bytes04_spec l 1 Hb ltac:(lia)) as (R & E & AR). rewrite E. cbn [bind].
    change (1 + 32)%nat with 33%nat in AR. fold x y in AR.
    pose proof (sm2_check_spec w nn L LOK _ _ _ AR) as CK.
    destruct (sm2_ec_a_check L R).
    - left. split; [now apply CK|]. exists R. auto.
    - right. split; [|reflexivity]. intros H. apply CK in H. discriminate.
  Qed.
  Lemma decode_compressed l inl b0 r : l = b0 :: r -> b0 = 2 \/ b0 = 3 -> bytes l -> (33 <= length l)%nat -> inl <> 0 ->
    let x := fof SM2_p (be_val (slice l 1 32)) in
    (exists y R, SM2_on (Aff x y) /\ fval y mod 2 = b0 - 2 /\ sm2_ec_a_from_bytes L l inl = Ok (Some (R, 33)) /\ ar R (x, y)) \/
    ((forall y, ~ SM2_on (Aff x y)) /\ sm2_ec_a_from_bytes L l inl = Ok None).
  Proof.
    intros El Hb0 Hb Hl Hi x. unfold sm2_ec_a_from_bytes.
    destruct (Z.eqb_spec inl 0); [contradiction|]. rewrite (read_ok l 0 1) by lia. cbn [bind].
    assert (E0 : nz (slice l 0 1) 0 = b0) by (subst l; reflexivity). rewrite E0.
    replace ((b0 =? 4) || (b0 =? 6) || (b0 =? 7)) with false by lia.
    replace ((b0 =? 2) || (b0 =? 3)) with true by lia.
    rewrite read_ok by lia. cbn [bind].
    assert (Rx : Rp (sm2_fp_from_bytes L (slice l 1 32)) x).
    { apply (Rp_from_bytes w nn L LOK); [now apply bytes_slice|apply slice_length; lia]. }
    assert (EY : (if b0 =? 2 then 0 else 1) = b0 - 2) by (destruct (Z.eqb_spec b0 2); lia).
    rewrite EY.
    destruct (sm2_recover_spec _ x (b0 - 2) Rx ltac:(lia)) as [(t & y & E & Rt & On & Par)|(E & N)]; rewrite E; cbn [bind].
    - assert (AR : ar (sm2_fp_from_bytes L (slice l 1 32), t) (x, y)) by (split; assumption).
      pose proof (proj2 (sm2_check_spec w nn L LOK _ _ _ AR) On) as CK. rewrite CK.
      left. exists y, (sm2_fp_from_bytes L (slice l 1 32), t). auto.
    - right. auto.
  Qed.
  Lemma decode_other l inl b0 r : l = b0 :: r -> ~ (b0 = 2 \/ b0 = 3 \/ b0 = 4 \/ b0 = 6 \/ b0 = 7) ->
    sm2_ec_a_from_bytes L l inl = Ok None.
  Proof.
    intros El Hb0. unfold sm2_ec_a_from_bytes. destruct (Z.eqb_spec inl 0); [reflexivity|].
    rewrite (read_ok l 0 1) by (subst l; cbn; lia). cbn [bind].
    assert (E0 : nz (slice l 0 1) 0 = b0) by (subst l; reflexivity). rewrite E0.
    replace ((b0 =? 4) || (b0 =? 6) || (b0 =? 7)) with false by lia.
    replace ((b0 =? 2) || (b0 =? 3)) with false by lia. reflexivity.
  Qed.
  Lemma decode_short l inl b0 r : l = b0 :: r -> inl <> 0 ->
    ((b0 = 4 \/ b0 = 6 \/ b0 = 7) /\ (length l < 65)%nat) \/ ((b0 = 2 \/ b0 = 3) /\ (length l < 33)%nat) ->
    sm2_ec_a_from_bytes L l inl = UB.
  Proof.
    intros El Hi Hc. unfold sm2_ec_a_from_bytes. destruct (Z.eqb_spec inl 0); [contradiction|].
    rewrite (read_ok l 0 1) by (subst l; cbn; lia). cbn [bind].
    assert (E0 : nz (slice l 0 1) 0 = b0) by (subst l; reflexivity). rewrite E0.
    destruct Hc as [[Hb Hs]|[Hb Hs]].
    - replace ((b0 =? 4) || (b0 =? 6) || (b0 =? 7)) with true by lia.
      unfold sm2_ec_a_from_bytes04. unfold read at 1. destruct (Nat.leb_spec (1 + 32) (length l)); [|reflexivity].
      cbn [bind]. rewrite read_ub by lia. reflexivity.
    - replace ((b0 =? 4) || (b0 =? 6) || (b0 =? 7)) with false by lia.
      replace ((b0 =? 2) || (b0 =? 3)) with true by lia. rewrite read_ub by lia. reflexivity.
  Qed.

  (** what decoding accepts is a curve point *)
  Lemma decode_on l inl R len : bytes l -> sm2_ec_a_from_bytes L l inl = Ok (Some (R, len)) ->
    exists x y, ar R (x, y) /\ SM2_on (Aff x y) /\ (len = 33 \/ len = 65) /\ (Z.to_nat len <= length l)%nat.
  Proof.
    intros Hb E. destruct l as [|b0 r].
    - unfold sm2_ec_a_from_bytes in E. destruct (inl =? 0); discriminate.
    - destruct (Z.eq_dec inl 0) as [->|Hi]; [discriminate|].
      destruct (Z_le_gt_dec 65 (Z.of_nat (length (b0 :: r)))) as [G|G].
      + assert (C : (b0 = 4 \/ b0 = 6 \/ b0 = 7) \/ (b0 = 2 \/ b0 = 3) \/ ~ (b0 = 2 \/ b0 = 3 \/ b0 = 4 \/ b0 = 6 \/ b0 = 7)) by lia.
        destruct C as [C|[C|C]].
        * destruct (decode_full _ inl b0 r eq_refl C Hb ltac:(lia) Hi) as [(On & R' & E' & AR)|(_ & E')]; rewrite E' in E; [|discriminate].
          injection E as -> <-. eexists _, _. split; [exact AR|]. split; [exact On|]. split; [auto|]. lia.
        * destruct (decode_compressed _ inl b0 r eq_refl C Hb ltac:(lia) Hi) as [(y & R' & On & _ & E' & AR)|(_ & E')]; rewrite E' in E; [|discriminate].
          injection E as -> <-. eexists _, y. split; [exact AR|]. split; [exact On|]. split; [auto|]. lia.
        * rewrite (decode_other _ inl b0 r eq_refl C) in E. discriminate.
      + assert (C : (b0 = 4 \/ b0 = 6 \/ b0 = 7) \/ (b0 = 2 \/ b0 = 3) \/ ~ (b0 = 2 \/ b0 = 3 \/ b0 = 4 \/ b0 = 6 \/ b0 = 7)) by lia.
        destruct C as [C|[C|C]].
        * rewrite (decode_short _ inl b0 r eq_refl Hi) in E; [discriminate|left; split; [exact C|lia]].
        * destruct (Z_le_gt_dec 33 (Z.of_nat (length (b0 :: r)))) as [G2|G2].
          -- destruct (decode_compressed _ inl b0 r eq_refl C Hb ltac:(lia) Hi) as [(y & R' & On & _ & E' & AR)|(_ & E')]; rewrite E' in E; [|discriminate].
             injection E as -> <-. eexists _, y. split; [exact AR|]. split; [exact On|]. split; [auto|]. lia.
          -- rewrite (decode_short _ inl b0 r eq_refl Hi) in E; [discriminate|right; split; [exact C|lia]].
        * rewrite (decode_other _ inl b0 r eq_refl C) in E. discriminate.
  Qed.

  (** round trips *)
  Lemma slice_cons {A} b (l : list A) o n : slice (b :: l) (S o) n = slice l o n.
  Proof. reflexivity. Qed.
  Lemma slice_fb1 x r : slice (SM2_fb x ++ r) 0 32 = SM2_fb x.
  Proof. rewrite slice_0. apply firstn_exact, SM2_fb_length. Qed.
  Lemma slice_fb2 x y r : slice ((SM2_fb x ++ SM2_fb y) ++ r) 32 32 = SM2_fb y.
  Proof. rewrite <- app_assoc. apply slice_exact; apply SM2_fb_length. Qed.
  Lemma roundtrip_full pre x y r inl : pre = 4 \/ pre = 6 \/ pre = 7 -> SM2_on (Aff x y) -> bytes r -> inl <> 0 ->
    exists R, sm2_ec_a_from_bytes L ((pre :: SM2_fb x ++ SM2_fb y) ++ r) inl = Ok (Some (R, 65)) /\ ar R (x, y).
  Proof.
    intros Hp On Hr Hi. set (l := (pre :: SM2_fb x ++ SM2_fb y) ++ r).
    assert (Hb : bytes l).
    { constructor; [unfold is_byte; lia|]. apply bytes_app. split; [apply bytes_app; split; apply SM2_fb_bytes|exact Hr]. }
    assert (Hl : (65 <= length l)%nat). { unfold l. rewrite app_length. cbn [length]. rewrite app_length, !SM2_fb_length. lia. }
    destruct (decode_full l inl pre _ eq_refl Hp Hb Hl Hi) as [(_ & R & E & AR)|(N & _)].
    - exists R. split; [exact E|]. unfold l in AR. cbn [app] in AR. rewrite !slice_cons in AR.
      rewrite slice_fb2 in AR. rewrite <- app_assoc, slice_fb1, !fof_bytes_val in AR. exact AR.
    - exfalso. apply N. unfold l. cbn [app]. rewrite !slice_cons.
      rewrite slice_fb2. rewrite <- app_assoc, slice_fb1, !fof_bytes_val. exact On.
  Qed.
  Lemma roundtrip_compressed x y r inl : SM2_on (Aff x y) -> bytes r -> inl <> 0 ->
    exists R, sm2_ec_a_from_bytes L (SM2_compressed x y ++ r) inl = Ok (Some (R, 33)) /\ ar R (x, y).
  Proof.
    intros On Hr Hi. unfold SM2_compressed. pose proof (Z.mod_pos_bound (fval y) 2 ltac:(lia)) as PB.
    set (l := ((2 + fval y mod 2) :: SM2_fb x) ++ r).
    assert (Hb : bytes l).
    { constructor; [unfold is_byte; lia|]. apply bytes_app. split; [apply SM2_fb_bytes|exact Hr]. }
    assert (Hl : (33 <= length l)%nat). { unfold l. rewrite app_length. cbn [length]. rewrite SM2_fb_length. lia. }
    assert (EX : fof SM2_p (be_val (slice l 1 32)) = x).
    { unfold l. cbn [app]. rewrite slice_cons, slice_fb1. apply fof_bytes_val. }
    destruct (decode_compressed l inl _ _ eq_refl ltac:(lia) Hb Hl Hi) as [(y' & R & On' & Par & E & AR)|(N & _)]; rewrite EX in *.
    - exists R. split; [exact E|]. assert (Y : y' = y).
      { assert (S : fsq y' = fsq y). { unfold SM2_on, on_curve in On, On'. congruence. }
        destruct (square_eq_opp _ _ S) as [|Eo]; [assumption|]. exfalso.
        pose proof (opp_parity y (ec_y_nz _ _ _ sm2_curve_ok _ _ On)) as OP. rewrite <- Eo in OP. lia. }
      subst y'. exact AR.
    - exfalso. exact (N y On).
  Qed.
End SM2.

(** SM2: decryption of ciphertexts, exact conditions, and the deviations. *)
From Coq Require Import Znumtheory.
From Verif Require Import Base BaseFacts ModelEndian ProofEndian ModelNumber SpecNumber ProofNumber ModelMont SpecMont
  ProofMont SpecField SpecEC SpecJac ProofEC ProofECMul ProofFermat ModelEC ProofJac ProofJacRep
  ProofNumlib ProofZops SpecSM2Curve ProofSM2Curve ModelSM2 SpecSM2 SpecSM2Api ProofSM2Rep ProofSM2Enc ProofSM2 ProofSM2b.

Lemma parses_len C1 x y : SM2_parses C1 x y -> exists b0 r, C1 = b0 :: r /\
  ((b0 = 2 \/ b0 = 3) /\ length C1 = 33%nat \/ (b0 = 4 \/ b0 = 6 \/ b0 = 7) /\ length C1 = 65%nat).
Proof.
  intros (_ & [(b & X & Y & -> & Hb & LX & LY & _)|(b & X & -> & Hb & LX & _)]); eexists _, _; split; try reflexivity.
  - right. split; [exact Hb|]. cbn [length]. rewrite app_length. lia.
  - left. split; [exact Hb|]. cbn [length]. lia.
Qed.
Lemma app_inj_len {A} (a b c d : list A) : length a = length c -> a ++ b = c ++ d -> a = c /\ b = d.
Proof.
  revert c. induction a as [|x a IH]; destruct c as [|y c]; intros Hl E; try discriminate; [auto|].
  injection E as -> E. injection Hl as Hl. destruct (IH c Hl E) as [-> ->]. auto.
Qed.
Lemma parses_unique C1 x y x' y' : SM2_parses C1 x y -> SM2_parses C1 x' y' -> x = x' /\ y = y'.
Proof.
  intros (On & [(b & X & Y & E & Hb & LX & LY & -> & ->)|(b & X & E & Hb & LX & -> & Par)])
         (On' & [(b' & X' & Y' & E' & Hb' & LX' & LY' & -> & ->)|(b' & X' & E' & Hb' & LX' & -> & Par')]);
    rewrite E in E'; injection E' as <- E'.
  - destruct (app_inj_len _ _ _ _ (eq_trans LX (eq_sym LX')) E') as [-> ->]. auto.
  - lia.
  - lia.
  - subst X'. split; [reflexivity|].
    assert (S : fmul SM2_K y y = fmul SM2_K y' y') by (unfold SM2_on, on_curve in On, On'; congruence).
    destruct (square_eq_opp _ _ S) as [|Eo]; [assumption|]. exfalso.
    pose proof (opp_parity y' (ec_y_nz _ _ _ sm2_curve_ok _ _ On')) as OP. rewrite <- Eo in OP. lia.
Qed.

Lemma encode_parses PC x y : SM2_on (Aff x y) -> SM2_parses (SM2_encode_pt PC x y) x y.
Proof.
  intros On. split; [exact On|]. pose proof (Z.mod_pos_bound (fval y) 2 ltac:(lia)) as PB.
  destruct PC; cbn [SM2_encode_pt].
  - left. exists 4, (SM2_fb x), (SM2_fb y). rewrite !fof_bytes_val.
    repeat split; auto using SM2_fb_length.
  - right. exists (2 + fval y mod 2), (SM2_fb x). rewrite !fof_bytes_val.
    split; [reflexivity|]. split; [lia|]. split; [apply SM2_fb_length|]. split; [reflexivity|lia].
  - left. exists (6 + fval y mod 2), (SM2_fb x), (SM2_fb y). rewrite !fof_bytes_val.
    split; [reflexivity|]. split; [lia|]. repeat split; auto using SM2_fb_length.
Qed.
Lemma encode_bytes PC x y : bytes (SM2_encode_pt PC x y).
Proof.
  pose proof (Z.mod_pos_bound (fval y) 2 ltac:(lia)) as PB.
  destruct PC; cbn [SM2_encode_pt]; (constructor; [unfold is_byte; clear - PB; lia|]).
  - apply fb2_bytes.
  - apply SM2_fb_bytes.
  - apply fb2_bytes.
Qed.
Lemma encode_length PC x y : length (SM2_encode_pt PC x y) = match PC with COMPRESSED => 33%nat | _ => 65%nat end.
Proof.
  destruct PC; cbn [SM2_encode_pt SM2_uncompressed SM2_compressed SM2_mixed length]; rewrite ?app_length, ?SM2_fb_length; reflexivity.
Qed.

Section SM2.
  Variables (w : Z) (nn : nat) (L : numlib).
  Hypothesis LOK : numlib_ok w nn L.
  Variables (H : hashlib) (Hd : list Z -> list Z).
  Hypothesis HOK : hash_ok H Hd.
  Notation DS := (hl_ds H).
  Notation decrypts := (SpecSM2Api.decrypts H Hd).

  Lemma decrypt_parsed sk d px py C1 C3 C2 x1 y1 : priv_rep w nn sk d px py -> cipher_ok H (C1 ++ C3 ++ C2) ->
    length C3 = DS -> SM2_parses C1 x1 y1 ->
    sm2_decrypt L H sk (C1 ++ C3 ++ C2) = dec_out Hd d x1 y1 C3 C2.
  Proof.
    intros SK CO L3 P.
    destruct (decrypt_cases w nn L LOK H Hd HOK sk d px py _ SK CO) as [(C1' & C3' & C2' & x' & y' & E & L3' & P' & ED)|(N & _)].
    - destruct (parses_len _ _ _ P) as (b & r & E1 & LL). destruct (parses_len _ _ _ P') as (b' & r' & E1' & LL').
      assert (EB : b = b'). { rewrite E1, E1' in E. cbn [app] in E. congruence. }
      subst b'. assert (EL : length C1 = length C1') by (clear - LL LL'; lia).
      destruct (app_inj_len _ _ _ _ EL E) as [<- E2].
      destruct (app_inj_len _ _ _ _ (eq_trans L3 (eq_sym L3')) E2) as [<- <-].
      destruct (parses_unique _ _ _ _ _ P P') as [<- <-]. exact ED.
    - exfalso. exact (N C1 C3 C2 x1 y1 eq_refl L3 P).
  Qed.
  Lemma dec_fin d x1 y1 : 1 <= d <= SM2_n - 1 -> SM2_on (Aff x1 y1) -> exists x2 y2, zm d (Aff x1 y1) = Aff x2 y2.
  Proof.
    intros Hd1 On. assert (F : zm d (Aff x1 y1) <> Inf) by (apply zm_fin; [exact On|discriminate|lia]).
    destruct (zm d (Aff x1 y1)) as [|x2 y2]; [contradiction|eauto].
  Qed.

  Theorem decrypt_iff sk d px py c : priv_rep w nn sk d px py -> cipher_ok H c ->
    (exists M, decrypts d c M /\ sm2_decrypt L H sk c = (M, Ok (Z.of_nat (length M)))) \/
    ((forall M, ~ decrypts d c M) /\ exists junk, sm2_decrypt L H sk c = (junk, Throw)).
  Proof.
    intros SK CO. pose proof SK as (_ & Hd1 & _).
    destruct (decrypt_cases w nn L LOK H Hd HOK sk d px py c SK CO) as [(C1 & C3 & C2 & x1 & y1 & E & L3 & P & ED)|(N & ED)].
    - destruct (dec_fin d x1 y1 Hd1 (proj1 P)) as (x2 & y2 & E2).
      unfold dec_out in ED. rewrite E2 in ED. cbn [pt_x pt_y] in ED. cbv zeta in ED.
      set (M := SM2_C2 Hd x2 y2 C2) in *.
      assert (UQ : forall M', decrypts d c M' -> M' = M /\ ~ SM2_kdf_zero Hd x2 y2 (length C2) /\ C3 = SM2_C3 Hd x2 y2 M).
      { intros M' (C1' & C3' & C2' & x1' & y1' & x2' & y2' & E' & L3' & P' & E2' & EM' & NZ & EC3).
        destruct (parses_len _ _ _ P) as (b & r & EE & LL). destruct (parses_len _ _ _ P') as (b' & r' & EE' & LL').
        assert (EB : b = b'). { rewrite E in E'. rewrite EE, EE' in E'. cbn [app] in E'. congruence. }
        subst b'. assert (EL : length C1 = length C1') by (clear - LL LL'; lia).
        rewrite E in E'. destruct (app_inj_len _ _ _ _ EL E') as [<- E3].
        destruct (app_inj_len _ _ _ _ (eq_trans L3 (eq_sym L3')) E3) as [<- <-].
        destruct (parses_unique _ _ _ _ _ P P') as [<- <-].
        change (SM2_mul d (Aff x1 y1)) with (zm d (Aff x1 y1)) in E2'. rewrite E2 in E2'. injection E2' as <- <-.
        fold M in EM'. subst M'. auto. }
      destruct ((0 <? length C2)%nat && _) eqn:EZ.
      + right. split; [|eauto]. intros M' D. destruct (UQ M' D) as (_ & NZ & _). apply NZ. now apply (kdf_zero_iff H Hd HOK).
      + destruct (mem_eq _ C3) eqn:EM.
        * left. exists M. split; [|exact ED]. apply mem_eq_iff in EM.
          exists C1, C3, C2, x1, y1, x2, y2. repeat split; try assumption; try apply P; try reflexivity; try now symmetry.
          intros Z0. apply (kdf_zero_iff H Hd HOK) in Z0. rewrite EZ in Z0. discriminate.
        * right. split; [|eauto]. intros M' D. destruct (UQ M' D) as (_ & _ & EC). symmetry in EC. apply mem_eq_iff in EC. congruence.
    - right. split; [|eauto]. intros M (C1 & C3 & C2 & x1 & y1 & x2 & y2 & E & L3 & P & _). exact (N _ _ _ _ _ E L3 P).
  Qed.

  Lemma cipher_ok_of PC x1 y1 C3 C2 : bytes C3 -> length C3 = DS -> bytes C2 ->
    Z.of_nat (length C2) < kdf_max H -> 8 * (64 + Z.of_nat (length C2)) < 2 ^ 64 ->
    cipher_ok H (SM2_encode_pt PC x1 y1 ++ C3 ++ C2).
  Proof.
    intros B3 L3 B2 L2 L2'.
    assert (CL : c2_len H (SM2_encode_pt PC x1 y1 ++ C3 ++ C2) = length C2).
    { unfold c2_len. rewrite !app_length, encode_length, L3. pose proof (Z.mod_pos_bound (fval y1) 2 ltac:(lia)).
      destruct PC; cbn [SM2_encode_pt SM2_uncompressed SM2_compressed SM2_mixed app].
      - change ((4 =? 2) || (4 =? 3)) with false. cbv iota. lia.
      - replace ((2 + fval y1 mod 2 =? 2) || (2 + fval y1 mod 2 =? 3)) with true by lia. lia.
      - replace ((6 + fval y1 mod 2 =? 2) || (6 + fval y1 mod 2 =? 3)) with false by lia. lia. }
    split; [apply bytes_app; split; [apply encode_bytes|apply bytes_app; auto]|]. rewrite CL. auto.
  Qed.

  Theorem encrypt_decrypt sk d x y pk m PC draws c : priv_rep w nn sk d x y -> pub_rep w nn pk x y ->
    plain_ok H m -> draws_ok draws -> sm2_encrypt L H pk m PC draws = Ok (Some c) ->
    sm2_decrypt L H sk c = (m, Ok (Z.of_nat (length m))) /\
    Z.of_nat (length c) = match PC with COMPRESSED => 33 | _ => 65 end + Z.of_nat DS + Z.of_nat (length m).
  Proof.
    intros SK PK PM HD EE. pose proof PM as (Bm & Lm1 & Lm2). pose proof SK as (_ & Hd1 & Exy & _).
    destruct (encrypt_spec w nn L LOK H Hd HOK pk x y m PC draws PK PM HD) as [(pre & rnd & post & c' & E & F & G & R)|(F & R)];
      rewrite R in EE; [|discriminate]. injection EE as <-.
    destruct G as (x1 & y1 & x2 & y2 & E1 & E2 & NZ & ->).
    change (SM2_mul (draw_k rnd) SM2_G) with (zm (draw_k rnd) SM2_G) in E1.
    change (SM2_mul (draw_k rnd) (Aff x y)) with (zm (draw_k rnd) (Aff x y)) in E2.
    pose proof (draw_k_range rnd) as KR. set (k := draw_k rnd) in *.
    assert (On1 : SM2_on (Aff x1 y1)) by (rewrite <- E1; apply zm_on; exact sm2_G_on).
    assert (ED : zm d (Aff x1 y1) = Aff x2 y2).
    { rewrite <- E1, <- zm_mul by (exact sm2_G_on || lia). rewrite Z.mul_comm, zm_mul by (exact sm2_G_on || lia).
      rewrite Exy. exact E2. }
    unfold SM2_cipher.
    assert (LC2 : length (SM2_C2 Hd x2 y2 m) = length m) by apply (C2_length H Hd HOK).
    assert (B2 : bytes (SM2_C2 Hd x2 y2 m)) by now apply (C2_bytes H Hd HOK).
    assert (LC3 : length (SM2_C3 Hd x2 y2 m) = DS) by now apply (C3_length H Hd HOK).
    assert (B3 : bytes (SM2_C3 Hd x2 y2 m)) by now apply (C3_bytes H Hd HOK).
    split.
    - rewrite (decrypt_parsed sk d x y _ _ _ x1 y1 SK); [|apply cipher_ok_of; rewrite ?LC2; assumption|exact LC3|now apply encode_parses].
      unfold dec_out. rewrite ED. cbn [pt_x pt_y]. cbv zeta. rewrite (C2_invol H Hd HOK), LC2.
      destruct ((0 <? length m)%nat && _) eqn:EZ.
      + exfalso. apply NZ. now apply (kdf_zero_iff H Hd HOK).
      + replace (mem_eq _ _) with true by (symmetry; now apply mem_eq_iff). reflexivity.
    - rewrite !app_length, LC2, LC3, encode_length. destruct PC; lia.
  Qed.

  (** a wrong check value: the call throws, but the plaintext has been written to the buffer *)
  Theorem decrypt_releases sk d x y pk m PC draws c C1 C3 C2 bad : priv_rep w nn sk d x y -> pub_rep w nn pk x y ->
    plain_ok H m -> draws_ok draws -> sm2_encrypt L H pk m PC draws = Ok (Some c) ->
    c = C1 ++ C3 ++ C2 -> length C3 = DS -> length C2 = length m ->
    length bad = DS -> bytes bad -> bad <> C3 ->
    sm2_decrypt L H sk (C1 ++ bad ++ C2) = (m, Throw).
  Proof.
    intros SK PK PM HD EE EC L3 L2 LB BB NB. pose proof PM as (Bm & Lm1 & Lm2). pose proof SK as (_ & Hd1 & Exy & _).
    destruct (encrypt_spec w nn L LOK H Hd HOK pk x y m PC draws PK PM HD) as [(pre & rnd & post & c' & E & F & G & R)|(F & R)];
      rewrite R in EE; [|discriminate]. injection EE as ->.
    destruct G as (x1 & y1 & x2 & y2 & E1 & E2 & NZ & ECC). rewrite EC in ECC. unfold SM2_cipher in ECC.
    change (SM2_mul (draw_k rnd) SM2_G) with (zm (draw_k rnd) SM2_G) in E1.
    change (SM2_mul (draw_k rnd) (Aff x y)) with (zm (draw_k rnd) (Aff x y)) in E2.
    pose proof (draw_k_range rnd) as KR. set (k := draw_k rnd) in *.
    assert (On1 : SM2_on (Aff x1 y1)) by (rewrite <- E1; apply zm_on; exact sm2_G_on).
    assert (ED : zm d (Aff x1 y1) = Aff x2 y2).
    { rewrite <- E1, <- zm_mul by (exact sm2_G_on || lia). rewrite Z.mul_comm, zm_mul by (exact sm2_G_on || lia).
      rewrite Exy. exact E2. }
    assert (LC2 : length (SM2_C2 Hd x2 y2 m) = length m) by apply (C2_length H Hd HOK).
    assert (B2 : bytes (SM2_C2 Hd x2 y2 m)) by now apply (C2_bytes H Hd HOK).
    assert (LC3 : length (SM2_C3 Hd x2 y2 m) = DS) by now apply (C3_length H Hd HOK).
    assert (L1 : length C1 = length (SM2_encode_pt PC x1 y1)).
    { apply (f_equal (@length Z)) in ECC. rewrite !app_length in ECC. lia. }
    destruct (app_inj_len _ _ _ _ L1 ECC) as [-> ECC2].
    destruct (app_inj_len _ _ _ _ (eq_trans L3 (eq_sym LC3)) ECC2) as [-> ->].
    rewrite (decrypt_parsed sk d x y _ _ _ x1 y1 SK); [|apply cipher_ok_of; rewrite ?LC2; assumption|exact LB|now apply encode_parses].
    unfold dec_out. rewrite ED. cbn [pt_x pt_y]. cbv zeta. rewrite (C2_invol H Hd HOK), LC2.
    destruct ((0 <? length m)%nat && _) eqn:EZ; [reflexivity|].
    destruct (mem_eq _ bad) eqn:EM; [|reflexivity]. apply mem_eq_iff in EM. congruence.
  Qed.

  (** Verification of a forged signature for the key G: r = e, s = -e/2 *)
  Theorem verify_infinity pk id msg x y : SM2_G = Aff x y -> pub_rep w nn pk x y -> id_ok id -> msg_ok H msg ->
    let e := SM2_e Hd id msg x y mod SM2_n in
    e <> 0 ->
    let s := ((SM2_n - 1) / 2 * e) mod SM2_n in
    sm2_verify L H pk (be_bytes 32 e ++ be_bytes 32 s) msg id = Ok true /\
    ~ SM2_valid Hd x y id msg e s.
  Proof.
    intros EG PK Hid Hmsg e He s. pose proof sm2_n_gt2 as N2.
    assert (Be : 0 <= e < SM2_n) by (apply Z.mod_pos_bound; lia).
    assert (Bs : 0 <= s < SM2_n) by (apply Z.mod_pos_bound; lia).
    assert (HALF : 2 * ((SM2_n - 1) / 2) = SM2_n - 1) by reflexivity.
    set (h := (SM2_n - 1) / 2) in *. clearbody h.
    assert (S2 : (2 * s + e) mod SM2_n = 0).
    { unfold s. rewrite <- Zplus_mod_idemp_l, Zmult_mod_idemp_r, Zplus_mod_idemp_l.
      replace (2 * (h * e) + e) with ((2 * h + 1) * e) by ring. rewrite HALF. replace ((SM2_n - 1 + 1) * e) with (e * SM2_n) by ring.
      apply Z_mod_mult. }
    assert (S0 : s <> 0). { intros E. rewrite E, Z.mod_small in S2 by lia. contradiction. }
    set (t := (e + s) mod SM2_n).
    assert (T0 : t <> 0).
    { intros E. assert (E2 : (s + t) mod SM2_n = 0).
      { unfold t. rewrite Zplus_mod_idemp_r. rewrite <- S2. f_equal. ring. }
      rewrite E, Z.add_0_r, Z.mod_small in E2 by assumption. contradiction. }
    assert (Bt : 0 <= t < SM2_n) by (apply Z.mod_pos_bound; lia).
    assert (SUM : SM2_add (SM2_mul s SM2_G) (SM2_mul t (Aff x y)) = Inf).
    { change (SM2_mul s SM2_G) with (zm s SM2_G). change (SM2_mul t (Aff x y)) with (zm t (Aff x y)). rewrite <- EG.
      rewrite <- zm_add by (exact sm2_G_on || lia). apply sm2_mul_inf_iff; [exact sm2_G_on|exact sm2_G_finite|lia|].
      unfold t. rewrite Zplus_mod_idemp_r. rewrite <- S2. f_equal. ring. }
    split.
    - rewrite verify_rs by apply be_bytes_length.
      destruct (verify_spec w nn L LOK H Hd HOK pk x y (be_bytes 32 e) (be_bytes 32 s) msg id PK Hid Hmsg
        (be_bytes_bytes _ _) (be_bytes_length _ _) (be_bytes_bytes _ _) (be_bytes_length _ _)) as (b & EV & IFF).
      rewrite EV. f_equal. apply IFF. rewrite !k_bytes by assumption. apply accepts_iff. right.
      repeat split; try lia; try assumption.
    - intros (_ & _ & _ & x1 & y1 & E & _). fold t in E. rewrite SUM in E. discriminate.
  Qed.
End SM2.

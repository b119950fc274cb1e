(** SM2 signing, encryption and decryption. *)
From Coq Require Import Znumtheory.
From Verif Require Import Base BaseFacts ModelEndian ProofEndian ModelNumber SpecNumber ProofNumber ModelMont SpecMont
  ProofMont SpecField SpecEC SpecJac ProofEC ProofECMul ProofFermat ModelEC ProofJac ProofJacRep
  ProofNumlib ProofZops SpecSM2Curve ProofSM2Curve ModelSM2 SpecSM2 SpecSM2Api ProofSM2Rep ProofSM2Enc ProofSM2.

Lemma sm2_n_gt2 : 2 < SM2_n. Proof. reflexivity. Qed.

Lemma firstn_split {A} a b (l : list A) : firstn (a + b) l = firstn a l ++ firstn b (skipn a l).
Proof.
  revert l. induction a as [|a IH]; intros l; [reflexivity|].
  destruct l as [|x l]; cbn [plus firstn skipn]; [now rewrite firstn_nil|]. now rewrite IH.
Qed.

(** ** Signatures as numbers *)
Lemma pt_x_aff (x y : SM2_F) : pt_x (Aff x y) = x. Proof. reflexivity. Qed.

Definition sig_r (e k : Z) : Z := (e + fval (pt_x (zm k SM2_G))) mod SM2_n.
Definition sig_s (d e k : Z) : Z := ((1 + d) ^ (SM2_n - 2) * (k - sig_r e k * d)) mod SM2_n.
Definition sig_bad (d e k : Z) : bool :=
  (sig_r e k =? 0) || ((sig_r e k + k) mod SM2_n =? 0) || (sig_s d e k =? 0).

Lemma inv_1d d : 1 <= d <= SM2_n - 2 -> ((1 + d) * (1 + d) ^ (SM2_n - 2)) mod SM2_n = 1.
Proof.
  intros Hd. pose proof sm2_n_gt2 as N2. rewrite (fermat_inv SM2_n (1 + d) SM2_n_prime N2).
  - reflexivity.
  - rewrite Z.mod_small; lia.
Qed.
Lemma sig_s_range d e k : 0 <= sig_s d e k < SM2_n.
Proof. apply Z.mod_pos_bound. pose proof sm2_n_gt2. lia. Qed.
Lemma sig_r_range e k : 0 <= sig_r e k < SM2_n.
Proof. apply Z.mod_pos_bound. pose proof sm2_n_gt2. lia. Qed.
Lemma sig_s_eq d e k : 1 <= d <= SM2_n - 2 -> ((1 + d) * sig_s d e k) mod SM2_n = (k - sig_r e k * d) mod SM2_n.
Proof.
  intros Hd. unfold sig_s. rewrite Zmult_mod_idemp_r, Z.mul_assoc, Zmult_mod, inv_1d by exact Hd.
  now rewrite Z.mul_1_l, Zmod_mod.
Qed.
Lemma mod_cancel n a u v : prime n -> 1 <= a < n -> 0 <= u < n -> 0 <= v < n -> (a * u) mod n = (a * v) mod n -> u = v.
Proof.
  intros Hp Ha Hu Hv E. assert (D : (n | a * (u - v))).
  { apply Z.mod_divide; [lia|]. rewrite Z.mul_sub_distr_l, Zminus_mod, E, Z.sub_diag. apply Z.mod_0_l. lia. }
  destruct (prime_mult _ Hp _ _ D) as [D1|[q Hq]].
  - apply Z.divide_pos_le in D1; lia.
  - assert (q = 0) by nia. subst q. lia.
Qed.

Lemma sig_iff d e k r s : 1 <= d <= SM2_n - 2 -> 1 <= k <= SM2_n - 1 ->
  (SM2_signature d e k r s <-> (sig_bad d e k = false /\ r = sig_r e k /\ s = sig_s d e k)).
Proof.
  intros Hd Hk. destruct (mul_G_aff k ltac:(lia)) as (x1 & y1 & E1).
  assert (ER : sig_r e k = (e + fval x1) mod SM2_n) by (unfold sig_r; now rewrite E1).
  pose proof (sig_r_range e k) as BR. pose proof (sig_s_range d e k) as BS. pose proof sm2_n_gt2.
  pose proof (sig_s_eq d e k Hd) as ES. unfold sig_bad.
  assert (RK : (sig_r e k + k) mod SM2_n = 0 <-> sig_r e k + k = SM2_n).
  { split; [|intros ->; apply Z_mod_same_full]. intros E. apply Z.mod_divide in E; [|lia]. destruct E as [q Hq].
    assert (q = 1) by nia. subst q. lia. }
  split.
  - intros (x & y & E & Er & R0 & RN & Sr & Se). change (SM2_mul k SM2_G) with (zm k SM2_G) in E.
    rewrite E1 in E. injection E as <- <-. rewrite <- ER in Er. subst r.
    assert (Es : s = sig_s d e k).
    { apply (mod_cancel SM2_n (1 + d)); [exact SM2_n_prime|lia|lia|lia|]. now rewrite Se, ES. }
    subst s. split; [|auto].
    destruct (Z.eqb_spec (sig_r e k) 0); [contradiction|].
    destruct (Z.eqb_spec ((sig_r e k + k) mod SM2_n) 0); [tauto|].
    destruct (Z.eqb_spec (sig_s d e k) 0); [lia|reflexivity].
  - intros (B & -> & ->). exists x1, y1.
    destruct (Z.eqb_spec (sig_r e k) 0); [discriminate|].
    destruct (Z.eqb_spec ((sig_r e k + k) mod SM2_n) 0); [discriminate|].
    destruct (Z.eqb_spec (sig_s d e k) 0); [discriminate|].
    split; [exact E1|]. split; [exact ER|]. split; [assumption|]. split; [tauto|]. split; [lia|exact ES].
Qed.
Lemma sig_bad_last e k : sig_bad (SM2_n - 1) e k = true.
Proof.
  unfold sig_bad. replace (sig_s (SM2_n - 1) e k) with 0; [now rewrite orb_true_r|].
  unfold sig_s. replace (1 + (SM2_n - 1)) with SM2_n by ring. pose proof sm2_n_gt2 as N2.
  assert (E : SM2_n ^ (SM2_n - 2) mod SM2_n = 0).
  { rewrite pow_base_mod, Z_mod_same_full by lia. rewrite Z.pow_0_l by lia. apply Z.mod_0_l. lia. }
  generalize dependent (SM2_n ^ (SM2_n - 2)). intros u Eu.
  rewrite Zmult_mod, Eu, Z.mul_0_l. symmetry. apply Z.mod_0_l. lia.
Qed.

Section SM2.
  Variables (w : Z) (nn : nat) (L : numlib).
  Hypothesis LOK : numlib_ok w nn L.
  Variables (H : hashlib) (Hd : list Z -> list Z).
  Hypothesis HOK : hash_ok H Hd.
  Notation DS := (hl_ds H).
  Notation plain_ok := (SpecSM2Api.plain_ok H).
  Notation cipher_ok := (SpecSM2Api.cipher_ok H).
  Notation c2_len := (SpecSM2Api.c2_len H).
  Notation enc_with := (SpecSM2Api.enc_with Hd).
  Notation Rp := (SpecSM2Api.Rp w nn).
  Notation Rn := (SpecSM2Api.Rn w nn).
  Notation ar := (aR Rp).
  Notation jr := (jrep SM2_K Rp).

  Lemma accepts_iff x y id msg r s : accepts Hd x y id msg r s <->
    (SM2_valid Hd x y id msg r s \/
     (1 <= r <= SM2_n - 1 /\ 1 <= s <= SM2_n - 1 /\ (r + s) mod SM2_n <> 0 /\
      SM2_add (SM2_mul s SM2_G) (SM2_mul ((r + s) mod SM2_n) (Aff x y)) = Inf /\
      SM2_e Hd id msg x y mod SM2_n = r)).
  Proof.
    unfold accepts, SM2_valid. cbv zeta.
    change (SM2_mul s SM2_G) with (zm s SM2_G). change (SM2_mul ((r + s) mod SM2_n) (Aff x y)) with (zm ((r + s) mod SM2_n) (Aff x y)).
    destruct (SM2_add (zm s SM2_G) (zm ((r + s) mod SM2_n) (Aff x y))) as [|x1 y1].
    - cbn [pt_x]. change (fval (fof SM2_p 0)) with (0 mod SM2_p). rewrite Z.mod_0_l, Z.add_0_r by (pose proof SM2_p_pos; lia).
      split.
      + intros (A & B & C & D). right. auto.
      + intros [(A & B & C & x1 & y1 & E & _)|(A & B & C & _ & D)]; [discriminate|auto].
    - cbn [pt_x]. split.
      + intros (A & B & C & D). left. split; [assumption|]. split; [assumption|]. split; [assumption|]. eauto.
      + intros [(A & B & C & x' & y' & E & D)|(A & B & C & E & D)]; [|discriminate].
        injection E as <- <-. auto.
  Qed.

  Lemma sign_try_spec sk d x y dg rnd : priv_rep w nn sk d x y -> bytes dg -> bytes rnd -> length rnd = 32%nat ->
    let e := be_val dg in let k := draw_k rnd in
    sm2_sign_try L sk dg rnd =
    Ok (if sig_bad d e k then None else Some (be_bytes 32 (sig_r e k), be_bytes 32 (sig_s d e k))).
  Proof.
    intros (Ed & Hd1 & _ & _) Bdg Br Lr e k. unfold sm2_sign_try. rewrite (draw_spec w nn L LOK rnd Br Lr).
    pose proof (draw_k_range rnd) as KR. fold k in KR |- *. pose proof (FN_CTX_ok w nn L LOK) as CT.
    destruct (mulg_k w nn L LOK k ltac:(lia)) as (J & E & R). rewrite E. cbn [bind].
    pose proof (sm2_to_a w nn L LOK J _ R) as A. destruct (sm2_ec_j_to_a L J) as [ax ay]. destruct A as [Ax _]. cbn [fst].
    destruct (Rn_from_bytes_ex w nn L LOK dg Bdg) as (eb & Ee & Re). rewrite Ee. cbn [bind].
    pose proof (ok_add _ _ _ LOK _ _ _ _ _ _ CT Re (Rn_from_fp w nn L LOK _ _ Ax)) as Rr.
    rewrite <- Zplus_mod in Rr. fold e in Rr. fold (sig_r e k) in Rr.
    pose proof (Rn_from_bytes w nn L LOK (be_bytes 32 k) (be_bytes_bytes _ _) (be_bytes_length _ _)) as Rk.
    rewrite k_bytes, Z.mod_small in Rk by lia.
    pose proof (ok_add _ _ _ LOK _ _ _ _ _ _ CT Rr Rk) as Rrk.
    rewrite (ok_equal_zero _ _ _ LOK _ _ _ _ CT Rr), (ok_equal_zero _ _ _ LOK _ _ _ _ CT Rrk).
    rewrite Ed.
    pose proof (Rn_from_bytes w nn L LOK (be_bytes 32 d) (be_bytes_bytes _ _) (be_bytes_length _ _)) as Rd.
    rewrite k_bytes, Z.mod_small in Rd by lia.
    pose proof (ok_add _ _ _ LOK _ _ _ _ _ _ CT (ok_one _ _ _ LOK _ _ CT) Rd) as R1.
    pose proof (ok_inv _ _ _ LOK _ _ _ _ CT R1) as R2.
    pose proof (ok_mul _ _ _ LOK _ _ _ _ _ _ CT Rr Rd) as R3.
    pose proof (ok_msub _ _ _ LOK _ _ _ _ _ _ CT Rk R3) as R4.
    pose proof (ok_mul _ _ _ LOK _ _ _ _ _ _ CT R2 R4) as R5.
    assert (ES : ((((1 + d) mod SM2_n) ^ (SM2_n - 2) mod SM2_n * ((k - (sig_r e k * d) mod SM2_n) mod SM2_n)) mod SM2_n)
                 = sig_s d e k).
    { unfold sig_s. rewrite <- pow_base_mod by (pose proof sm2_n_gt2; lia). rewrite <- Zmult_mod.
      rewrite Zmult_mod, Zminus_mod_idemp_r, <- Zmult_mod. reflexivity. }
    rewrite ES in R5. rewrite (ok_equal_zero _ _ _ LOK _ _ _ _ CT R5). unfold sig_bad.
    destruct ((sig_r e k =? 0) || ((sig_r e k + k) mod SM2_n =? 0)); [reflexivity|]. cbn [orb].
    destruct (sig_s d e k =? 0); [reflexivity|].
    rewrite (Rn_to_bytes w nn L LOK _ _ Rr), (Rn_to_bytes w nn L LOK _ _ R5). reflexivity.
  Qed.

  Lemma sign_loop_spec sk d x y dg draws : priv_rep w nn sk d x y -> bytes dg -> draws_ok draws ->
    let e := be_val dg in
    (exists pre rnd post, draws = pre ++ rnd :: post /\
        Forall (fun r => sig_bad d e (draw_k r) = true) pre /\ sig_bad d e (draw_k rnd) = false /\
        sm2_sign_loop L sk dg draws = Ok (Some (be_bytes 32 (sig_r e (draw_k rnd)), be_bytes 32 (sig_s d e (draw_k rnd))))) \/
    (Forall (fun r => sig_bad d e (draw_k r) = true) draws /\ sm2_sign_loop L sk dg draws = Ok None).
  Proof.
    intros SK Bdg HD e. induction HD as [|rnd draws [Br Lr] HD IH]; [right; split; [constructor|reflexivity]|].
    cbn [sm2_sign_loop]. rewrite (sign_try_spec sk d x y dg rnd SK Bdg Br Lr). cbn [bind]. fold e.
    destruct (sig_bad d e (draw_k rnd)) eqn:EB.
    - destruct IH as [(pre & r & post & E & F & G & R)|(F & R)].
      + left. exists (rnd :: pre), r, post. rewrite E. split; [reflexivity|]. split; [constructor; assumption|].
        split; [assumption|]. rewrite <- E. exact R.
      + right. split; [constructor; assumption|exact R].
    - left. exists [], rnd, draws. split; [reflexivity|]. split; [constructor|]. split; [assumption|reflexivity].
  Qed.

  Lemma sign_spec sk d x y msg id draws : priv_rep w nn sk d x y -> d <= SM2_n - 2 ->
    id_ok id -> msg_ok H msg -> draws_ok draws ->
    let e := SM2_e Hd id msg x y in
    (exists pre rnd post r s, draws = pre ++ rnd :: post /\
        Forall (fun q => forall r' s', ~ SM2_signature d e (draw_k q) r' s') pre /\
        SM2_signature d e (draw_k rnd) r s /\
        sm2_sign L H sk msg id draws = Ok (Some (be_bytes 32 r ++ be_bytes 32 s))) \/
    (Forall (fun q => forall r' s', ~ SM2_signature d e (draw_k q) r' s') draws /\
     sm2_sign L H sk msg id draws = Ok None).
  Proof.
    intros SK Hd2 Hid Hmsg HD e. assert (Hd1 : 1 <= d <= SM2_n - 2) by (destruct SK as (_ & ? & _); lia).
    unfold sm2_sign. destruct SK as (A & B & C & PK).
    destruct (digest_ok w nn H Hd HOK _ _ _ _ _ PK Hid Hmsg) as [ED BD]. rewrite ED. cbn [bind].
    assert (NS : forall q, sig_bad d e (draw_k q) = true -> forall r' s', ~ SM2_signature d e (draw_k q) r' s').
    { intros q Hq r' s' Hs. apply sig_iff in Hs; [|exact Hd1|apply draw_k_range]. rewrite Hq in Hs. now destruct Hs. }
    destruct (sign_loop_spec sk d x y _ draws (conj A (conj B (conj C PK))) BD HD) as [(pre & rnd & post & E & F & G & R)|(F & R)];
      change (be_val (SM2_dg Hd id msg x y)) with e in *; rewrite R; cbn [bind].
    - left. exists pre, rnd, post. eexists _, _. split; [exact E|]. split; [|split; [|reflexivity]].
      + revert F. apply Forall_impl. exact NS.
      + apply sig_iff; [exact Hd1|apply draw_k_range|auto].
    - right. split; [|reflexivity]. revert F. apply Forall_impl. exact NS.
  Qed.
  Lemma sign_last sk x y msg id draws : priv_rep w nn sk (SM2_n - 1) x y ->
    id_ok id -> msg_ok H msg -> draws_ok draws -> sm2_sign L H sk msg id draws = Ok None.
  Proof.
    intros SK Hid Hmsg HD. unfold sm2_sign. destruct SK as (A & B & C & PK).
    destruct (digest_ok w nn H Hd HOK _ _ _ _ _ PK Hid Hmsg) as [ED BD]. rewrite ED. cbn [bind].
    destruct (sign_loop_spec sk _ x y _ draws (conj A (conj B (conj C PK))) BD HD) as [(pre & rnd & post & E & F & G & R)|(F & R)];
      rewrite ?R; cbn [bind]; [|reflexivity].
    rewrite sig_bad_last in G. discriminate.
  Qed.

  Lemma signature_accepted d e k r s x y id msg : 1 <= d <= SM2_n - 2 -> 1 <= k <= SM2_n - 1 ->
    zm d SM2_G = Aff x y -> e = SM2_e Hd id msg x y -> SM2_signature d e k r s ->
    SM2_valid Hd x y id msg r s.
  Proof.
    intros Hd1 Hk Exy Ee (x1 & y1 & E & Er & R0 & RN & Sr & Se). change (SM2_mul k SM2_G) with (zm k SM2_G) in E.
    pose proof sm2_n_gt2 as N2.
    assert (BR : 0 <= r < SM2_n) by (rewrite Er; apply Z.mod_pos_bound; lia).
    set (t := (r + s) mod SM2_n).
    assert (Bt : 0 <= t < SM2_n) by (apply Z.mod_pos_bound; lia).
    split; [lia|]. split; [lia|]. fold t.
    assert (T0 : t <> 0).
    { intros T0. apply RN.
      (* s = -r, so k = s + d (r + s) = -r *)
      apply Z.mod_divide in T0; [|lia]. destruct T0 as [q Hq]. assert (q = 1) by (clear - Hq BR Sr R0; nia). subst q.
      assert (D : (k - r * d - (1 + d) * s) mod SM2_n = 0).
      { rewrite Zminus_mod, <- Se, Z.sub_diag. apply Z.mod_0_l. lia. }
      replace (k - r * d - (1 + d) * s) with (r + k + (- (1 + d)) * SM2_n) in D
        by (rewrite Z.mul_1_l in Hq; rewrite <- Hq; ring).
      rewrite Z_mod_plus_full in D. apply Z.mod_divide in D; [|lia]. destruct D as [q Hq']. assert (q = 1) by (clear - Hq' BR Hk R0; nia). subst q. clear - Hq'. lia. }
    split; [exact T0|].
    assert (SUM : SM2_add (SM2_mul s SM2_G) (SM2_mul t (Aff x y)) = Aff x1 y1).
    { change (SM2_mul s SM2_G) with (zm s SM2_G). change (SM2_mul t (Aff x y)) with (zm t (Aff x y)).
      rewrite <- Exy, <- zm_mul, <- zm_add, <- E by (exact sm2_G_on || (clear - Sr Bt Hd1; nia)).
      apply zm_inj; [clear - Sr Bt Hd1; nia|clear - Hk; lia|].
      assert (X : (s + t * d) mod SM2_n = (s + (r + s) * d) mod SM2_n).
      { unfold t. rewrite <- (Zplus_mod_idemp_r (_ * d)), Zmult_mod_idemp_l, Zplus_mod_idemp_r. reflexivity. }
      rewrite X. replace (s + (r + s) * d) with ((1 + d) * s + r * d) by ring.
      rewrite Zplus_mod, Se, <- Zplus_mod. f_equal. ring. }
    exists x1, y1. split; [exact SUM|]. now rewrite <- Ee.
  Qed.

  Lemma read_app_l (a b : list Z) n : length a = n -> read (a ++ b) 0 n = Ok a.
  Proof. intros Hn. rewrite read_ok by (rewrite app_length; lia). rewrite slice_0. f_equal. now apply firstn_exact. Qed.
  Lemma read_app_r (a b : list Z) n m : length a = n -> length b = m -> read (a ++ b) n m = Ok b.
  Proof.
    intros Hn Hm. rewrite read_ok by (rewrite app_length; lia). f_equal. rewrite <- (app_nil_r b) at 1.
    now apply slice_exact.
  Qed.
  Lemma verify_rs pk msg id rb sb : length rb = 32%nat -> length sb = 32%nat ->
    sm2_verify L H pk (rb ++ sb) msg id = sm2_verify_ L H pk rb sb msg id.
  Proof.
    intros Lr Ls. unfold sm2_verify. rewrite read_app_l by exact Lr. cbn [bind]. rewrite read_app_r by assumption. reflexivity.
  Qed.

  Theorem sign_verify sk d x y msg id draws sig : priv_rep w nn sk d x y -> d <= SM2_n - 2 ->
    id_ok id -> msg_ok H msg -> draws_ok draws ->
    sm2_sign L H sk msg id draws = Ok (Some sig) ->
    forall pk, pub_rep w nn pk x y -> sm2_verify L H pk sig msg id = Ok true.
  Proof.
    intros SK Hd2 Hid Hmsg HD ES pk PK. pose proof SK as (_ & Hd1 & Exy & _).
    destruct (sign_spec sk d x y msg id draws SK Hd2 Hid Hmsg HD) as [(pre & rnd & post & r & s & E & F & G & R)|(F & R)];
      rewrite R in ES; [|discriminate].
    assert (EQ : sig = be_bytes 32 r ++ be_bytes 32 s) by congruence. subst sig. clear ES.
    pose proof (signature_accepted d _ (draw_k rnd) r s x y id msg ltac:(lia) (draw_k_range rnd) Exy eq_refl G) as V.
    rewrite verify_rs by apply be_bytes_length.
    destruct (verify_spec w nn L LOK H Hd HOK pk x y (be_bytes 32 r) (be_bytes 32 s) msg id PK Hid Hmsg
      (be_bytes_bytes _ _) (be_bytes_length _ _) (be_bytes_bytes _ _) (be_bytes_length _ _)) as (b & EV & IFF).
    rewrite EV. f_equal. apply IFF. apply accepts_iff. left.
    assert (Br : 1 <= r <= SM2_n - 1) by apply V. assert (Bs : 1 <= s <= SM2_n - 1) by apply V.
    rewrite !k_bytes by lia. exact V.
  Qed.

  (** ** Encryption *)
  Lemma encode_spec PC Q x y : ar Q (x, y) -> sm2_encode L PC Q = SM2_encode_pt PC x y.
  Proof.
    intros HQ. destruct PC; cbn [sm2_encode SM2_encode_pt].
    - now apply (to_uncompressed_spec w nn L LOK).
    - now apply (to_compressed_spec w nn L LOK).
    - now apply (to_mix_spec w nn L LOK).
  Qed.
  Lemma fb2_bytes x y : bytes (SM2_fb x ++ SM2_fb y).
  Proof. apply bytes_app. split; apply SM2_fb_bytes. Qed.
  Lemma fb2_len x y : length (SM2_fb x ++ SM2_fb y) = 64%nat.
  Proof. rewrite app_length, !SM2_fb_length. reflexivity. Qed.
  Lemma kdf_zero_iff x2 y2 k :
    (0 <? k)%nat && all0 (SM2_kdf Hd (SM2_fb x2 ++ SM2_fb y2) k) = true <-> SM2_kdf_zero Hd x2 y2 k.
  Proof.
    unfold SM2_kdf_zero. rewrite andb_true_iff, Nat.ltb_lt, all0_repeat, (kdf_length H Hd HOK) by apply fb2_bytes. tauto.
  Qed.
  Lemma c3_ok x2 y2 m : bytes m -> 8 * (64 + Z.of_nat (length m)) < 2 ^ 64 ->
    hl_run H [firstn 32 (SM2_fb x2 ++ SM2_fb y2); m; skipn 32 (SM2_fb x2 ++ SM2_fb y2)] [] = Ok (SM2_C3 Hd x2 y2 m).
  Proof.
    intros Bm Lm. rewrite firstn_exact, skipn_exact by apply SM2_fb_length. unfold SM2_C3.
    apply (run_ok H Hd HOK); [cbn [concat]; now rewrite !app_nil_r| |].
    - apply bytes_app; split; [apply SM2_fb_bytes|]. apply bytes_app; split; [exact Bm|apply SM2_fb_bytes].
    - rewrite !app_length, !SM2_fb_length. lia.
  Qed.
  Lemma kdf_on x2 y2 m : Z.of_nat (length m) < kdf_max H ->
    sm2_kdf_xor H m (SM2_fb x2 ++ SM2_fb y2) =
    Ok (SM2_C2 Hd x2 y2 m,
        if (0 <? length m)%nat && all0 (SM2_kdf Hd (SM2_fb x2 ++ SM2_fb y2) (length m)) then -1 else 0).
  Proof.
    intros Lm. rewrite (kdf_xor_spec H Hd HOK) by (try apply fb2_bytes; rewrite fb2_len; lia).
    destruct (Z.leb_spec (kdf_max H) (Z.of_nat (length m))); [lia|]. reflexivity.
  Qed.

  Lemma encrypt_spec pk x y m PC draws : pub_rep w nn pk x y -> plain_ok m -> draws_ok draws ->
    (exists pre rnd post c, draws = pre ++ rnd :: post /\
        Forall (fun q => forall c', ~ enc_with x y (draw_k q) m PC c') pre /\
        enc_with x y (draw_k rnd) m PC c /\ sm2_encrypt L H pk m PC draws = Ok (Some c)) \/
    (Forall (fun q => forall c', ~ enc_with x y (draw_k q) m PC c') draws /\ sm2_encrypt L H pk m PC draws = Ok None).
  Proof.
    intros PK (Bm & Lm1 & Lm2) HD. pose proof PK as (AR & _ & _ & On).
    induction HD as [|rnd draws [Br Lr] HD IH]; [right; split; [constructor|reflexivity]|].
    cbn [sm2_encrypt]. rewrite (draw_spec w nn L LOK rnd Br Lr). pose proof (draw_k_range rnd) as KR.
    set (k := draw_k rnd) in *.
    destruct (mulg_k w nn L LOK k ltac:(lia)) as (J1 & E1 & R1). rewrite E1. cbn [bind].
    destruct (mula_k w nn L LOK k _ _ _ ltac:(lia) AR On) as (J2 & E2 & R2). rewrite E2. cbn [bind].
    destruct (mul_G_aff k ltac:(lia)) as (x1 & y1 & Exy1).
    assert (F2 : zm k (Aff x y) <> Inf) by (apply zm_fin; [exact On|discriminate|lia]).
    destruct (zm k (Aff x y)) as [|x2 y2] eqn:Exy2; [contradiction|].
    pose proof (sm2_to_a w nn L LOK J1 _ R1) as A1. rewrite Exy1 in A1. cbn [pt_x pt_y] in A1.
    pose proof (sm2_to_a w nn L LOK J2 _ R2) as A2. cbn [pt_x pt_y] in A2.
    rewrite (to_bytes04_spec w nn L LOK _ _ _ A2). rewrite kdf_on by exact Lm1. cbn [bind].
    destruct ((0 <? length m)%nat && all0 (SM2_kdf Hd (SM2_fb x2 ++ SM2_fb y2) (length m))) eqn:EZ; cbn [Z.eqb negb].
    - assert (NB : forall c', ~ enc_with x y k m PC c').
      { intros c' (a & b & c & d & P1 & P2 & P3 & P4). apply P3. apply kdf_zero_iff.
        change (SM2_mul k (Aff x y)) with (zm k (Aff x y)) in P2. rewrite Exy2 in P2. injection P2 as <- <-. exact EZ. }
      destruct IH as [(pre & r & post & c & E & F & G & R)|(F & R)].
      + left. exists (rnd :: pre), r, post, c. rewrite E at 1. split; [reflexivity|]. split; [constructor; assumption|].
        split; assumption.
      + right. split; [constructor; assumption|exact R].
    - rewrite c3_ok by assumption. cbn [bind]. left. exists [], rnd, draws. eexists. split; [reflexivity|].
      split; [constructor|]. split; [|rewrite (encode_spec PC _ _ _ A1); reflexivity].
      exists x1, y1, x2, y2. split; [exact Exy1|]. split; [exact Exy2|]. split; [|reflexivity].
      intros Z0. apply kdf_zero_iff in Z0. rewrite EZ in Z0. discriminate.
  Qed.

  (** ** Decryption *)
  Lemma mem_eq_iff a b : mem_eq a b = true <-> a = b.
  Proof.
    revert b. induction a as [|x a IH]; destruct b as [|y b]; cbn [mem_eq]; try (split; (reflexivity || discriminate)).
    rewrite andb_true_iff, Z.eqb_eq, IH. split; [intros [-> ->]; reflexivity|intros E; injection E; auto].
  Qed.
  Definition dec_out (d : Z) (x1 y1 : SM2_F) (C3 C2 : list Z) : list Z * res Z :=
    let x2 := pt_x (zm d (Aff x1 y1)) in let y2 := pt_y (zm d (Aff x1 y1)) in
    let M := SM2_C2 Hd x2 y2 C2 in
    (M, if (0 <? length C2)%nat && all0 (SM2_kdf Hd (SM2_fb x2 ++ SM2_fb y2) (length C2)) then Throw
        else if mem_eq (SM2_C3 Hd x2 y2 M) C3 then Ok (Z.of_nat (length M)) else Throw).

  Lemma C2_bytes x2 y2 m : bytes m -> bytes (SM2_C2 Hd x2 y2 m).
  Proof. intros Bm. apply xorl_bytes; [exact Bm|]. apply (kdf_bytes H Hd HOK). apply fb2_bytes. Qed.
  Lemma C2_length x2 y2 m : length (SM2_C2 Hd x2 y2 m) = length m.
  Proof. unfold SM2_C2. rewrite xorl_length, (kdf_length H Hd HOK) by apply fb2_bytes. lia. Qed.
  Lemma C3_length x2 y2 m : bytes m -> length (SM2_C3 Hd x2 y2 m) = DS.
  Proof.
    intros Bm. apply (ho_len _ _ HOK). apply bytes_app; split; [apply SM2_fb_bytes|]. apply bytes_app; split; [exact Bm|apply SM2_fb_bytes].
  Qed.
  Lemma C3_bytes x2 y2 m : bytes m -> bytes (SM2_C3 Hd x2 y2 m).
  Proof.
    intros Bm. apply (ho_bytes _ _ HOK). apply bytes_app; split; [apply SM2_fb_bytes|]. apply bytes_app; split; [exact Bm|apply SM2_fb_bytes].
  Qed.
  Lemma C2_invol x2 y2 m : SM2_C2 Hd x2 y2 (SM2_C2 Hd x2 y2 m) = m.
  Proof.
    unfold SM2_C2. rewrite xorl_length, (kdf_length H Hd HOK), Nat.min_id by apply fb2_bytes.
    apply xorl_cancel_r. rewrite (kdf_length H Hd HOK) by apply fb2_bytes. lia.
  Qed.

  Lemma decrypt_core sk d px py c b0 r h C1 x1 y1 : priv_rep w nn sk d px py -> cipher_ok c -> c = b0 :: r ->
    ((b0 = 2 \/ b0 = 3) /\ h = 33%nat) \/ ((b0 = 4 \/ b0 = 6 \/ b0 = 7) /\ h = 65%nat) ->
    (h + DS <= length c)%nat ->
    sm2_ec_a_from_bytes L c (Z.of_nat h) = Ok (Some (C1, Z.of_nat h)) -> ar C1 (x1, y1) -> SM2_on (Aff x1 y1) ->
    sm2_decrypt L H sk c = dec_out d x1 y1 (slice c h DS) (skipn (h + DS) c).
  Proof.
    intros SK (Bc & Lc1 & Lc2) Ec Hh Hlen Edec AR On. unfold sm2_decrypt.
    assert (CL : c2_len c = (length c - h - DS)%nat).
    { unfold SpecSM2Api.c2_len. rewrite Ec. destruct Hh as [[Hb ->]|[Hb ->]].
      - replace ((b0 =? 2) || (b0 =? 3)) with true by lia. reflexivity.
      - replace ((b0 =? 2) || (b0 =? 3)) with false by lia. reflexivity. }
    rewrite CL in Lc1, Lc2.
    assert (EP : sm2_plaintext_len H c = Ok (Z.of_nat (length c) - Z.of_nat h - Z.of_nat DS)).
    { unfold sm2_plaintext_len. destruct (Z.eqb_spec (Z.of_nat (length c)) 0); [lia|].
      assert (E0 : nz c 0 = b0) by (subst c; reflexivity). rewrite E0.
      destruct Hh as [[Hb ->]|[Hb ->]].
      - replace ((b0 =? 2) || (b0 =? 3)) with true by lia. cbn [bind].
        destruct (Z.ltb_spec (Z.of_nat (length c)) (33 + Z.of_nat DS)); [lia|]. f_equal. lia.
      - replace ((b0 =? 2) || (b0 =? 3)) with false by lia. replace ((b0 =? 4) || (b0 =? 6) || (b0 =? 7)) with true by lia. cbn [bind].
        destruct (Z.ltb_spec (Z.of_nat (length c)) (65 + Z.of_nat DS)); [lia|]. f_equal. lia. }
    rewrite EP. cbv zeta.
    replace (Z.of_nat (length c) - (Z.of_nat (length c) - Z.of_nat h - Z.of_nat DS) - Z.of_nat DS) with (Z.of_nat h) by lia.
    rewrite Edec, !Z.eqb_refl. cbn [negb orb]. rewrite Nat2Z.id.
    replace (Z.to_nat (Z.of_nat (length c) - Z.of_nat h - Z.of_nat DS)) with (length c - h - DS)%nat by lia.
    rewrite read_ok by lia. cbn [bind]. rewrite read_ok by lia. cbn [bind].
    assert (EC2 : slice c (h + DS) (length c - h - DS) = skipn (h + DS) c).
    { unfold slice. apply firstn_all2. rewrite skipn_length. lia. }
    rewrite EC2. set (C2 := skipn (h + DS) c). set (C3 := slice c h DS).
    destruct SK as (Ed & Hd1 & _). rewrite Ed.
    destruct (mula_k w nn L LOK d _ _ _ ltac:(lia) AR On) as (J & EJ & RJ). rewrite EJ. cbn [bind].
    pose proof (sm2_to_a w nn L LOK J _ RJ) as A. rewrite (to_bytes04_spec w nn L LOK _ _ _ A).
    unfold dec_out. set (x2 := pt_x _). set (y2 := pt_y _). cbv zeta.
    assert (LC2 : length C2 = (length c - h - DS)%nat) by (unfold C2; rewrite skipn_length; lia).
    assert (BC2 : bytes C2) by now apply bytes_skipn.
    rewrite kdf_on by lia. cbn [bind].
    set (M := SM2_C2 Hd x2 y2 C2).
    f_equal. destruct ((0 <? length C2)%nat && _); cbn [Z.eqb negb]; [reflexivity|].
    assert (BM : bytes M) by now apply C2_bytes.
    assert (LM : length M = length C2) by apply C2_length.
    rewrite c3_ok by (try exact BM; rewrite LM; lia). cbn [bind].
    rewrite firstn_all2 by (rewrite C3_length by exact BM; lia). reflexivity.
  Qed.

  (** every decryption ends in one of these ways *)
  Lemma decrypt_cases sk d px py c : priv_rep w nn sk d px py -> cipher_ok c ->
    (exists C1 C3 C2 x1 y1, c = C1 ++ C3 ++ C2 /\ length C3 = DS /\ SM2_parses C1 x1 y1 /\
        sm2_decrypt L H sk c = dec_out d x1 y1 C3 C2) \/
    ((forall C1 C3 C2 x1 y1, c = C1 ++ C3 ++ C2 -> length C3 = DS -> ~ SM2_parses C1 x1 y1) /\
     sm2_decrypt L H sk c = ([], Throw)).
  Proof.
    intros SK CO. pose proof CO as (Bc & Lc1 & Lc2).
    destruct c as [|b0 r].
    { right. split; [|reflexivity]. intros C1 C3 C2 x1 y1 E _ P. destruct C1; [|discriminate].
      destruct P as (_ & [(? & ? & ? & E' & _)|(? & ? & E' & _)]); discriminate. }
    set (c := b0 :: r) in *.
    assert (SPL : forall h, (h + DS <= length c)%nat -> c = firstn h c ++ slice c h DS ++ skipn (h + DS) c).
    { intros h Hh. unfold slice. rewrite <- (skipn_skipn' DS h c), firstn_skipn, firstn_skipn. reflexivity. }
    (* facts about any parse of c *)
    assert (PF : forall C1 C3 C2 x1 y1, c = C1 ++ C3 ++ C2 -> SM2_parses C1 x1 y1 ->
       ((b0 = 4 \/ b0 = 6 \/ b0 = 7) /\ length C1 = 65%nat /\ x1 = fof SM2_p (be_val (slice c 1 32)) /\ y1 = fof SM2_p (be_val (slice c 33 32))) \/
       ((b0 = 2 \/ b0 = 3) /\ length C1 = 33%nat /\ x1 = fof SM2_p (be_val (slice c 1 32)))).
    { intros C1 C3 C2 x1 y1 E (_ & [(b & X & Y & E1 & Hb & LX & LY & -> & ->)|(b & X & E1 & Hb & LX & -> & _)]).
      - left. subst C1. unfold c in E. injection E as -> E. split; [exact Hb|].
        split; [cbn [length]; rewrite app_length; lia|]. unfold c. rewrite E.
        rewrite !slice_cons. rewrite <- app_assoc. rewrite slice_0, firstn_exact by exact LX.
        rewrite slice_exact by assumption. auto.
      - right. subst C1. unfold c in E. injection E as -> E. split; [exact Hb|].
        split; [cbn [length]; lia|]. unfold c. rewrite E, slice_cons, slice_0, firstn_exact by exact LX. reflexivity. }
    assert (CS : (b0 = 4 \/ b0 = 6 \/ b0 = 7) \/ (b0 = 2 \/ b0 = 3) \/ ~ (b0 = 2 \/ b0 = 3 \/ b0 = 4 \/ b0 = 6 \/ b0 = 7)) by lia.
    assert (L0 : Z.of_nat (length c) =? 0 = false) by (apply Z.eqb_neq; cbn; lia).
    assert (N0 : nz c 0 = b0) by reflexivity.
    destruct CS as [C|[C|C]].
    - destruct (Nat.le_gt_cases (65 + DS) (length c)) as [G|G].
      + destruct (decode_full w nn L LOK c (Z.of_nat 65) b0 r eq_refl C Bc ltac:(lia) ltac:(lia)) as [(On & R & E & AR)|(NOn & E)].
        * left. exists (firstn 65 c), (slice c 65 DS), (skipn (65 + DS) c). eexists _, _.
          split; [now apply SPL|]. split; [apply slice_length; lia|]. split.
          -- split; [exact On|]. left. exists b0, (slice c 1 32), (slice c 33 32).
             split; [|split; [exact C|split; [apply slice_length; lia|split; [apply slice_length; lia|auto]]]].
             exact (f_equal (cons b0) (firstn_split 32 32 r)).
          -- exact (decrypt_core sk d px py c b0 r 65 R _ _ SK CO eq_refl (or_intror (conj C eq_refl)) G E AR On).
        * right. split.
          -- intros C1 C3 C2 x1 y1 E1 L3 P. destruct (PF _ _ _ _ _ E1 P) as [(_ & _ & -> & ->)|(Cb & _)].
             ++ apply NOn. apply P.
             ++ clear - C Cb. lia.
          -- unfold sm2_decrypt, sm2_plaintext_len. rewrite L0, N0.
             replace ((b0 =? 2) || (b0 =? 3)) with false by lia. replace ((b0 =? 4) || (b0 =? 6) || (b0 =? 7)) with true by lia. cbn [bind].
             destruct (Z.ltb_spec (Z.of_nat (length c)) (65 + Z.of_nat DS)); [lia|].
             replace (Z.of_nat (length c) - (Z.of_nat (length c) - (65 + Z.of_nat DS)) - Z.of_nat DS) with (Z.of_nat 65) by lia.
             rewrite E. reflexivity.
      + right. split.
        * intros C1 C3 C2 x1 y1 E1 L3 P. destruct (PF _ _ _ _ _ E1 P) as [(_ & LL & _)|(Cb & _)]; [|clear - C Cb; lia].
          rewrite E1, !app_length in G. lia.
        * unfold sm2_decrypt, sm2_plaintext_len. rewrite L0, N0.
          replace ((b0 =? 2) || (b0 =? 3)) with false by lia. replace ((b0 =? 4) || (b0 =? 6) || (b0 =? 7)) with true by lia. cbn [bind].
          destruct (Z.ltb_spec (Z.of_nat (length c)) (65 + Z.of_nat DS)); [reflexivity|lia].
    - destruct (Nat.le_gt_cases (33 + DS) (length c)) as [G|G].
      + destruct (decode_compressed w nn L LOK c (Z.of_nat 33) b0 r eq_refl C Bc ltac:(lia) ltac:(lia)) as [(y & R & On & Par & E & AR)|(NOn & E)].
        * left. exists (firstn 33 c), (slice c 33 DS), (skipn (33 + DS) c). eexists _, y.
          split; [now apply SPL|]. split; [apply slice_length; lia|]. split.
          -- split; [exact On|]. right. exists b0, (slice c 1 32).
             split; [reflexivity|split; [exact C|split; [apply slice_length; lia|auto]]].
          -- exact (decrypt_core sk d px py c b0 r 33 R _ _ SK CO eq_refl (or_introl (conj C eq_refl)) G E AR On).
        * right. split.
          -- intros C1 C3 C2 x1 y1 E1 L3 P. destruct (PF _ _ _ _ _ E1 P) as [(Cb & _)|(_ & _ & ->)].
             ++ clear - C Cb. lia.
             ++ apply (NOn y1). apply P.
          -- unfold sm2_decrypt, sm2_plaintext_len. rewrite L0, N0.
             replace ((b0 =? 2) || (b0 =? 3)) with true by lia. cbn [bind].
             destruct (Z.ltb_spec (Z.of_nat (length c)) (33 + Z.of_nat DS)); [lia|].
             replace (Z.of_nat (length c) - (Z.of_nat (length c) - (33 + Z.of_nat DS)) - Z.of_nat DS) with (Z.of_nat 33) by lia.
             rewrite E. reflexivity.
      + right. split.
        * intros C1 C3 C2 x1 y1 E1 L3 P. destruct (PF _ _ _ _ _ E1 P) as [(Cb & _)|(_ & LL & _)]; [clear - C Cb; lia|].
          rewrite E1, !app_length in G. lia.
        * unfold sm2_decrypt, sm2_plaintext_len. rewrite L0, N0.
          replace ((b0 =? 2) || (b0 =? 3)) with true by lia. cbn [bind].
          destruct (Z.ltb_spec (Z.of_nat (length c)) (33 + Z.of_nat DS)); [reflexivity|lia].
    - right. split.
      + intros C1 C3 C2 x1 y1 E1 L3 P. destruct (PF _ _ _ _ _ E1 P) as [(Cb & _)|(Cb & _)]; clear - C Cb; lia.
      + unfold sm2_decrypt, sm2_plaintext_len. rewrite L0, N0.
        replace ((b0 =? 2) || (b0 =? 3)) with false by lia. replace ((b0 =? 4) || (b0 =? 6) || (b0 =? 7)) with false by lia. reflexivity.
  Qed.
End SM2.

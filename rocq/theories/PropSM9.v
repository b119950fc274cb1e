(** Properties C48 - C50, C52, C58, C59: SM9 hash-to-range, tower fields, scalar multiplication, byte
    forms of points and keys, final exponentiation.  [build9 w nn L9] ranges over the two builds of
    the number library; what the stored objects stand for is written in SpecSM9 and SpecSM9Api. *)
From Coq Require Import Znumtheory.
From Verif Require Import Base BaseFacts ModelEndian ModelNumber SpecNumber ModelMont SpecMont
  SpecField SpecTower SpecEC SpecJac ProofECMul ModelEC ModelSM2 ProofNumlib ProofJacRep ModelSM9 ProofNumlib9
  SpecSM9 ProofTowerRep ProofFrob ProofSM9Frob ProofSM9Rep ProofSM9Fin ProofSM9Curve SpecSM2 SpecSM2Api SpecSM9Api ProofSM9Point ProofSM9Enc ProofSM9
  ProofSM9Sign ProofSM9Pub ProofSM2d ModelSM3 SpecSM3.

(** ** Glue *)
Lemma build9_ok w nn L9 : build9 w nn L9 -> numlib9_ok w nn L9.
Proof. intros []; [exact lib9_common_ok|exact lib9_x64_ok]. Qed.
Lemma stored1_W w nn a x : stored1 w nn a x <-> W1 w nn a x.
Proof.
  split; intros [H|(A & B & C & D)]; try (left; exact H); right; (split; [exact A|]); (split; [exact B|]); (split; [exact C|]).
  - subst x. reflexivity.
  - apply fval_inj. rewrite D. reflexivity.
Qed.
Lemma stored2_W w nn a x : stored2 w nn a x <-> rel2 (W1 w nn) a x.
Proof. unfold stored2, rel2. rewrite !stored1_W. reflexivity. Qed.
Lemma stored4_W w nn a x : stored4 w nn a x <-> rel2 (rel2 (W1 w nn)) a x.
Proof. unfold stored4. rewrite !stored2_W. reflexivity. Qed.
Lemma stored12_W w nn a x : stored12 w nn a x <-> rel3 (rel2 (rel2 (W1 w nn))) a x.
Proof. destruct a as [[a0 a1] a2], x as [[x0 x1] x2]. unfold stored12, rel3. rewrite !stored4_W. reflexivity. Qed.
Lemma holds12_R w nn a x : holds12 w nn a x <-> rel3 (rel2 (rel2 (R1 w nn))) a x.
Proof. destruct a as [[a0 a1] a2], x as [[x0 x1] x2]. reflexivity. Qed.
Lemma holds_a_R {T F} (R : T -> F -> Prop) Q x y : holds_a R Q x y <-> aR R Q (x, y).
Proof. destruct Q as [X Y]. reflexivity. Qed.
Lemma holds_j_R {T F} (K : field F) (R : T -> F -> Prop) J P : holds_j K R J P <-> jrep K R J P.
Proof. reflexivity. Qed.

(** ** C48: H1 and H2 *)
Theorem C48_hash_to_range : forall w nn L9 H Hd tag Z1 Z2, build9 w nn L9 -> hash_ok H Hd ->
  is_byte tag -> bytes Z1 -> bytes Z2 ->
  sm9_Hn L9 H Z1 Z2 tag =
    (if 8 * (Z.of_nat (length (Z1 ++ Z2)) + 5) <? 2 ^ 64
     then Ok (be_bytes 32 (SM9_H H Hd tag (Z1 ++ Z2))) else Throw) /\
  1 <= SM9_H H Hd tag (Z1 ++ Z2) <= SM9_n - 1.
Proof.
  intros w nn L9 H Hd tag Z1 Z2 B HOK Ht H1 H2. split; [|apply SM9_H_range].
  exact (Hn_spec w nn L9 (build9_ok _ _ _ B) H Hd HOK tag Z1 Z2 Ht H1 H2).
Qed.
(** the random scalars are made by the same reduction *)
Theorem C48_random_scalar : forall w nn L9 rnd, build9 w nn L9 -> bytes rnd -> length rnd = 32%nat ->
  sm9_draw L9 rnd = be_bytes 32 (be_val rnd mod (SM9_n - 1) + 1) /\
  1 <= be_val rnd mod (SM9_n - 1) + 1 <= SM9_n - 1.
Proof.
  intros w nn L9 rnd B Hb Hl. split; [exact (draw9_spec w nn L9 (build9_ok _ _ _ B) rnd Hb Hl)|exact (draw9_range rnd)].
Qed.
(** every scalar in the range is hit *)
Theorem C48_random_scalar_onto : forall k, 1 <= k <= SM9_n - 1 ->
  exists rnd, bytes rnd /\ length rnd = 32%nat /\ be_val rnd mod (SM9_n - 1) + 1 = k.
Proof.
  intros k Hk. exists (be_bytes 32 (k - 1)). split; [apply be_bytes_bytes|]. split; [apply be_bytes_length|].
  pose proof n9_b as [N1 N2]. rewrite be_val_be_bytes. change (256 ^ Z.of_nat 32) with (2 ^ 256).
  rewrite (Z.mod_small (k - 1) (2 ^ 256)) by (clear - Hk N1; lia). rewrite Z.mod_small by (clear - Hk; lia). clear. lia.
Qed.
Example C48_example : hash_ok (MkHash 32 (sm3_hash compress_yang (repeat 0 64))) SM3 /\ is_byte 1 /\
  bytes [65; 108; 105; 99; 101; 1] /\ 8 * (Z.of_nat (length [65; 108; 105; 99; 101; 1]) + 5) < 2 ^ 64.
Proof.
  split; [exact (sm3_hash_ok _ (repeat_length 0 64))|]. split; [unfold is_byte; lia|].
  split; [repeat constructor; unfold is_byte; lia|reflexivity].
Qed.

(** ** C49: the tower fields *)
Theorem C49_fp2 : forall w nn L9 a b x y, build9 w nn L9 ->
  let O := sm9_fp_ops L9 in
  (stored2 w nn a x -> stored2 w nn b y -> holds2 w nn (fp2_mul O a b) (fmul K2 x y)) /\
  (stored2 w nn a x -> holds2 w nn (fp2_sqr O a) (fmul K2 x x)) /\
  (stored2 w nn a x -> holds2 w nn b y -> holds2 w nn (fp2_add O a b) (fadd K2 x y)) /\
  (holds2 w nn a x -> stored2 w nn b y -> holds2 w nn (fp2_sub O a b) (fsub K2 x y)) /\
  (stored2 w nn a x -> stored2 w nn (fp2_neg O a) (fopp K2 x)) /\
  (stored2 w nn a x -> stored2 w nn (fp2_inv O a) (finv K2 x)) /\
  (holds2 w nn a x -> holds2 w nn b y -> (fp2_equal O a b = true <-> x = y)).
Proof.
  intros w nn L9 a b x y B O. apply build9_ok in B. rewrite !stored2_W.
  split; [exact (r2_mul w nn L9 B a b x y)|]. split; [exact (r2_sqr w nn L9 B a x)|].
  split; [exact (r2_add w nn L9 B a b x y)|]. split; [exact (r2_sub w nn L9 B a b x y)|].
  split; [exact (r2_neg w nn L9 B a x)|]. split; [exact (r2_inv w nn L9 B a x)|].
  intros Ha Hb. unfold O. pose proof (r2_eq w nn L9 B a b x y Ha Hb) as E. unfold fp9 in *. rewrite E.
  destruct (feq_dec K2 x y); split; intros; try assumption; try reflexivity; try discriminate. contradiction.
Qed.
Theorem C49_fp4 : forall w nn L9 a b x y, build9 w nn L9 ->
  let O := sm9_fp_ops L9 in
  (stored4 w nn a x -> stored4 w nn b y -> holds4 w nn (fp4_mul O a b) (fmul K4 x y)) /\
  (stored4 w nn a x -> holds4 w nn (fp4_sqr O a) (fmul K4 x x)) /\
  (stored4 w nn a x -> holds4 w nn b y -> holds4 w nn (fp4_add O a b) (fadd K4 x y)) /\
  (holds4 w nn a x -> stored4 w nn b y -> holds4 w nn (fp4_sub O a b) (fsub K4 x y)) /\
  (stored4 w nn a x -> stored4 w nn (fp4_neg O a) (fopp K4 x)) /\
  (stored4 w nn a x -> stored4 w nn (fp4_inv O a) (finv K4 x)).
Proof.
  intros w nn L9 a b x y B O. apply build9_ok in B. rewrite !stored4_W.
  split; [exact (r4_mul w nn L9 B a b x y)|]. split; [exact (r4_sqr w nn L9 B a x)|].
  split; [exact (r4_add w nn L9 B a b x y)|]. split; [exact (r4_sub w nn L9 B a b x y)|].
  split; [exact (r4_neg w nn L9 B a x)|exact (r4_inv w nn L9 B a x)].
Qed.
Theorem C49_fp12 : forall w nn L9 a b x y, build9 w nn L9 ->
  let O := sm9_fp_ops L9 in
  (stored12 w nn a x -> stored12 w nn b y -> holds12 w nn (fp12_mul O a b) (fmul K12 x y)) /\
  (stored12 w nn a x -> holds12 w nn (fp12_sqr O a) (fmul K12 x x)) /\
  (stored12 w nn a x -> holds12 w nn b y -> holds12 w nn (fp12_add O a b) (fadd K12 x y)) /\
  (holds12 w nn a x -> stored12 w nn b y -> holds12 w nn (fp12_sub O a b) (fsub K12 x y)) /\
  (stored12 w nn a x -> stored12 w nn (fp12_neg O a) (fopp K12 x)).
Proof.
  intros w nn L9 a b x y B O. apply build9_ok in B. rewrite !stored12_W, !holds12_R.
  split; [exact (r12_mul w nn L9 B a b x y)|]. split; [exact (r12_sqr w nn L9 B a x)|].
  split; [exact (r12_add w nn L9 B a b x y)|]. split; [exact (r12_sub w nn L9 B a b x y)|exact (r12_neg w nn L9 B a x)].
Qed.
(** the inverse: always right in the x64 build; in the portable build when the coefficient of u v in
    a2^2 is not 0, where a = a0 + a1 w + a2 w^2 *)
Theorem C49_fp12_inv_x64 : forall a x, stored12 64 4 a x ->
  holds12 64 4 (fp12_inv (sm9_fp_ops lib9_x64) a) (finv K12 x) /\
  (x <> f0 K12 -> fmul K12 (finv K12 x) x = f1 K12).
Proof.
  intros a x Ha. apply stored12_W in Ha. split.
  - apply holds12_R. apply (r12_inv 64 4 lib9_x64 lib9_x64_ok _ _ Ha). apply (safe_strong 64 4 lib9_x64 lib9_x64_ok); [|exact Ha].
    intros b y [Hy|(C & _)]; [exact Hy|discriminate].
  - intros N. exact (Field_theory.Finv_l (f_theory K12) x N).
Qed.
Theorem C49_fp12_inv_partial : forall a x, stored12 32 8 a x ->
  snd (snd (fmul K4 (snd x) (snd x))) <> f0 K1 ->
  holds12 32 8 (fp12_inv (sm9_fp_ops lib9_common) a) (finv K12 x).
Proof.
  intros a x Ha N. apply stored12_W in Ha. apply holds12_R. apply (r12_inv 32 8 lib9_common lib9_common_ok _ _ Ha).
  now apply (safe_nz 32 8 lib9_common lib9_common_ok).
Qed.
(** in the portable build the inverse of 1 comes out as 1 - w *)
Theorem C49_fp12_inv_refuted : exists a, holds12 32 8 a (f1 K12) /\
  holds12 32 8 (fp12_inv (sm9_fp_ops lib9_common) a) (fsub K12 (f1 K12) w12) /\
  fmul K12 (fsub K12 (f1 K12) w12) (f1 K12) <> f1 K12.
Proof.
  exists (fp12_one (sm9_fp_ops lib9_common)).
  split; [apply holds12_R; exact (r12_one 32 8 lib9_common lib9_common_ok)|].
  assert (E : fsub K12 (f1 K12) w12 = (f1 K4, fopp K4 (f1 K4), f0 K4)).
  { change (fsub K12 (f1 K12) w12) with (fsub K4 (f1 K4) (f0 K4), fsub K4 (f0 K4) (f1 K4), fsub K4 (f0 K4) (f0 K4)).
    rewrite (sub_0_r K4), (sub_0_l K4), (sub_0_r K4). reflexivity. }
  split; [apply holds12_R; rewrite E; exact fp12_inv_one_portable|].
  rewrite (mul_one K12), E. intros C. apply (f_equal (fun z : F12 => snd (fst z))) in C. cbn [fst snd] in C.
  apply (f_equal (fun z : F4 => fval (fst (fst z)))) in C. vm_compute in C. discriminate C.
Qed.
Example C49_example : forall w nn L9, build9 w nn L9 -> stored12 w nn (fp12_one (sm9_fp_ops L9)) (f1 K12) /\
  f1 K12 <> f0 K12.
Proof.
  intros w nn L9 B. apply build9_ok in B. split.
  - apply stored12_W. apply (r12_w w nn L9 B). exact (r12_one w nn L9 B).
  - exact (Field_theory.F_1_neq_0 (f_theory K12)).
Qed.

(** ** C50: scalar multiplication *)
Theorem C50_g1_mul_partial : forall w nn L9 k Q x y, build9 w nn L9 -> bytes k -> length k = 32%nat ->
  holds_a (holds1 w nn) Q x y -> E1_on (Aff x y) -> be_val k mod SM9_n <> SM9_n - 2 ->
  exists J, sm9_ec_j_mul_a L9 k Q = Ok J /\ holds_j K1 (holds1 w nn) J (E1_mul (be_val k mod SM9_n) (Aff x y)).
Proof.
  intros w nn L9 k Q x y B Hk Hl HQ On N. apply holds_a_R in HQ.
  exact (g1_mul w nn L9 (build9_ok _ _ _ B) k Q x y Hk Hl HQ On N).
Qed.
Theorem C50_g2_mul_partial : forall w nn L9 k Q x y, build9 w nn L9 -> bytes k -> length k = 32%nat ->
  holds_a (holds2 w nn) Q x y -> E2_on (Aff x y) -> E2_mul SM9_n (Aff x y) = Inf -> be_val k mod SM9_n <> SM9_n - 2 ->
  exists J, sm9_ec2_j_mul_a L9 k Q = Ok J /\ holds_j K2 (holds2 w nn) J (E2_mul (be_val k mod SM9_n) (Aff x y)).
Proof.
  intros w nn L9 k Q x y B Hk Hl HQ On Oo N. apply holds_a_R in HQ.
  exact (g2_mul w nn L9 (build9_ok _ _ _ B) k Q x y Hk Hl HQ On Oo N).
Qed.
(** the affine coordinates handed out *)
Theorem C50_to_affine : forall w nn L9 J x y, build9 w nn L9 -> holds_j K1 (holds1 w nn) J (Aff x y) ->
  holds_a (holds1 w nn) (sm9_ec_j_to_a L9 J) x y.
Proof.
  intros w nn L9 J x y B HJ. apply holds_a_R. exact (g1_to_a w nn L9 (build9_ok _ _ _ B) J (Aff x y) HJ).
Qed.
Theorem C50_to_affine_g2 : forall w nn L9 J x y, build9 w nn L9 -> holds_j K2 (holds2 w nn) J (Aff x y) ->
  holds_a (holds2 w nn) (sm9_ec2_j_to_a L9 J) x y.
Proof.
  intros w nn L9 J x y B HJ. apply holds_a_R. exact (g2_to_a w nn L9 (build9_ok _ _ _ B) J (Aff x y) HJ).
Qed.
(** the curves: E(F_p) has n points, P1 generates it; P2 has order n *)
Theorem C50_groups : prime SM9_n /\
  (forall P, E1_on P -> (exists k, 0 <= k < SM9_n /\ P = E1_mul k SpecSM9.P1) /\ E1_mul SM9_n P = Inf) /\
  E2_on P2 /\ P2 <> Inf /\ E2_mul SM9_n P2 = Inf.
Proof.
  split; [exact SM9_n_prime|]. split.
  { intros P HP. split; [exact (E1_generated P HP)|exact (E1_order P HP)]. }
  split; [exact P2_on|]. split; [exact P2_finite|exact P2_order].
Qed.
(** the scalar n - 2 gives infinity instead of -2P, for every point of either group *)
Theorem C50_mul_refuted : forall w nn L9 k, build9 w nn L9 -> bytes k -> length k = 32%nat ->
  be_val k mod SM9_n = SM9_n - 2 ->
  (forall Q x y, holds_a (holds1 w nn) Q x y -> E1_on (Aff x y) ->
    exists J, sm9_ec_j_mul_a L9 k Q = Ok J /\ holds_j K1 (holds1 w nn) J Inf /\ E1_mul (SM9_n - 2) (Aff x y) <> Inf) /\
  (forall Q x y, holds_a (holds2 w nn) Q x y -> E2_on (Aff x y) -> E2_mul SM9_n (Aff x y) = Inf ->
    exists J, sm9_ec2_j_mul_a L9 k Q = Ok J /\ holds_j K2 (holds2 w nn) J Inf /\ E2_mul (SM9_n - 2) (Aff x y) <> Inf).
Proof.
  intros w nn L9 k B Hk Hl E. apply build9_ok in B.
  assert (R : 0 <= SM9_n - 2 /\ (SM9_n - 2) mod SM9_n = SM9_n - 2) by (split; [discriminate|reflexivity]). destruct R as [R0 R1].
  split; intros Q x y HQ On; [|intros Oo].
  - apply holds_a_R in HQ. destruct (g1_mul_last w nn L9 B k Q x y Hk Hl HQ On E) as (J & EJ & RJ). exists J. split; [exact EJ|]. split; [exact RJ|].
    intros C. apply (ord1 _ On ltac:(discriminate) _ R0) in C. rewrite R1 in C. discriminate C.
  - apply holds_a_R in HQ. destruct (g2_mul_last w nn L9 B k Q x y Hk Hl HQ On Oo E) as (J & EJ & RJ). exists J. split; [exact EJ|]. split; [exact RJ|].
    intros C. apply (ord2 _ On ltac:(discriminate) Oo _ R0) in C. rewrite R1 in C. discriminate C.
Qed.
Example C50_example : forall w nn L9, build9 w nn L9 ->
  holds_a (holds1 w nn) (sm9_P1 L9) (num SM9_G1x) (num SM9_G1y) /\ E1_on (Aff (num SM9_G1x) (num SM9_G1y)) /\
  be_val (be_bytes 32 (SM9_n - 2)) mod SM9_n = SM9_n - 2 /\ be_val (be_bytes 32 7) mod SM9_n <> SM9_n - 2.
Proof.
  intros w nn L9 B. split; [apply holds_a_R; exact (P1_ar w nn L9 (build9_ok _ _ _ B))|]. split; [exact P1_on|].
  split; [vm_compute; reflexivity|vm_compute; discriminate].
Qed.

(** ** C52: the byte form of points of G2 *)
(** what the 128-byte form contains, and what it decodes to: the low coefficient of x is lost and the
    high coefficient of y takes its place *)
Theorem C52_g2_bytes_partial : forall w nn L9 out Q x y, build9 w nn L9 -> bytes out -> length out = 128%nat ->
  holds_a (holds2 w nn) Q x y ->
  sm9_ec2_a_to_bytes04 L9 out Q = Ok (F1_bytes (snd x) ++ F2_bytes y ++ skipn 96 out) /\
  exists R, sm9_ec2_a_from_bytes04 L9 (F1_bytes (snd x) ++ F2_bytes y ++ skipn 96 out) 0 = Ok R /\
    holds_a (holds2 w nn) R (snd y, snd x) y.
Proof.
  intros w nn L9 out Q x y B Ho Hl HQ. apply build9_ok in B. apply holds_a_R in HQ.
  pose proof (ec2_bytes04 w nn L9 B out Q x y Hl HQ) as E. split; [exact E|].
  destruct (ec2_roundtrip w nn L9 B out Q x y Ho Hl HQ) as (b & R & Eb & ER & AR). unfold fp9 in *. rewrite E in Eb.
  assert (b = F1_bytes (snd x) ++ F2_bytes y ++ skipn 96 out) by congruence. subst b.
  exists R. split; [exact ER|]. apply holds_a_R. exact AR.
Qed.
(** so the generator does not survive the round trip *)
Theorem C52_g2_roundtrip_refuted : forall w nn L9 out Q, build9 w nn L9 -> bytes out -> length out = 128%nat ->
  holds_a (holds2 w nn) Q (num SM9_G2x0, num SM9_G2x1) (num SM9_G2y0, num SM9_G2y1) ->
  exists b R x y, sm9_ec2_a_to_bytes04 L9 out Q = Ok b /\ sm9_ec2_a_from_bytes04 L9 b 0 = Ok R /\
    holds_a (holds2 w nn) R x y /\ Aff x y <> P2.
Proof.
  intros w nn L9 out Q B Ho Hl HQ. destruct (C52_g2_bytes_partial w nn L9 out Q _ _ B Ho Hl HQ) as (E & R & ER & AR).
  eexists _, R, _, _. split; [exact E|]. split; [exact ER|]. split; [exact AR|]. intros C.
  unfold P2 in C. injection C as C. vm_compute in C. discriminate C.
Qed.

(** ** C58: the values of the pairing have order n *)
(** the final exponentiation raises to (p^12 - 1) / n: the result is an n-th root of unity *)
Theorem C58_final_exponentiation_x64 : forall f x, stored12 64 4 f x -> x <> f0 K12 ->
  exists c, final_exp lib9_x64 f = Ok c /\ holds12 64 4 c (fpow K12 x ((SM9_p ^ 12 - 1) / SM9_n)) /\
    fpow K12 (fpow K12 x ((SM9_p ^ 12 - 1) / SM9_n)) SM9_n = f1 K12.
Proof.
  intros f x Hf N. apply stored12_W in Hf.
  destruct (final_exp_strong 64 4 lib9_x64 lib9_x64_ok f x) as (c & Ec & Rc); [intros b y [Hy|(C & _)]; [exact Hy|discriminate]|exact Hf|exact N|].
  exists c. split; [exact Ec|]. split; [apply holds12_R; exact Rc|exact (fe_order x N)].
Qed.
(** the portable build: when the two inverses taken are of elements it inverts correctly (C49) *)
Theorem C58_final_exponentiation_partial : forall f x, stored12 32 8 f x -> x <> f0 K12 ->
  inv_good x ->
  (forall y z, fmul K12 y x = fpow K12 x (SM9_p ^ 6) ->
     z = fpow K12 (fmul K12 y (fpow K12 y (SM9_p ^ 2))) (be_val FE_A3) -> inv_good z) ->
  exists c, final_exp lib9_common f = Ok c /\ holds12 32 8 c (fpow K12 x ((SM9_p ^ 12 - 1) / SM9_n)) /\
    fpow K12 (fpow K12 x ((SM9_p ^ 12 - 1) / SM9_n)) SM9_n = f1 K12.
Proof.
  intros f x Hf N G1 G2. apply stored12_W in Hf.
  destruct (final_exp_good 32 8 lib9_common lib9_common_ok f x Hf N G1 G2) as (c & Ec & Rc).
  exists c. split; [exact Ec|]. split; [apply holds12_R; exact Rc|exact (fe_order x N)].
Qed.
(** exponentiation as used by sign and verify *)
Theorem C58_pow : forall w nn L9 a x mem, build9 w nn L9 -> holds12 w nn a x -> (32 <= length mem)%nat ->
  bytes (firstn 32 mem) -> be_val (firstn 32 mem) <> 0 ->
  exists c, sm9_fp12_pow L9 a mem = Ok c /\ holds12 w nn c (fpow K12 x (be_val (firstn 32 mem))).
Proof.
  intros w nn L9 a x mem B Ha Hl Hb N. apply holds12_R in Ha.
  destruct (s_pow w nn L9 (build9_ok _ _ _ B) a x mem Ha Hl Hb N) as (c & Ec & Rc). exists c. split; [exact Ec|]. now apply holds12_R.
Qed.
(** the exponent 0 runs past the exponent: with nothing readable after it, undefined behaviour *)
Theorem C58_pow_zero_refuted : forall w nn L9 a x, build9 w nn L9 -> holds12 w nn a x -> x <> f0 K12 ->
  sm9_fp12_pow L9 a (repeat 0 32) = UB.
Proof.
  intros w nn L9 a x B Ha N. apply holds12_R in Ha. exact (pow_zero_ub w nn L9 (build9_ok _ _ _ B) a x Ha N).
Qed.
Example C58_example : forall w nn L9, build9 w nn L9 ->
  stored12 w nn (fp12_one (sm9_fp_ops L9)) (f1 K12) /\ holds12 w nn (fp12_one (sm9_fp_ops L9)) (f1 K12) /\ f1 K12 <> f0 K12.
Proof.
  intros w nn L9 B. destruct (C49_example w nn L9 B) as [A N]. split; [exact A|]. split; [|exact N].
  apply holds12_R. exact (r12_one w nn L9 (build9_ok _ _ _ B)).
Qed.

(** ** C59: the byte forms of points of G1 *)
Theorem C59_g1_encode : forall w nn L9 PC Q x y, build9 w nn L9 -> holds_a (holds1 w nn) Q x y ->
  sm9_encode L9 PC Q = SM9_encode_pt PC x y.
Proof.
  intros w nn L9 PC Q x y B HQ. apply build9_ok in B. apply holds_a_R in HQ. destruct PC; cbn [sm9_encode SM9_encode_pt].
  - exact (g1_to_uncompressed_spec w nn L9 B _ _ _ HQ).
  - exact (g1_to_compressed_spec w nn L9 B _ _ _ HQ).
  - exact (g1_to_mix_spec w nn L9 B _ _ _ HQ).
Qed.
Theorem C59_g1_roundtrip : forall w nn L9 PC Q x y, build9 w nn L9 -> holds_a (holds1 w nn) Q x y -> E1_on (Aff x y) ->
  exists R, sm9_ec_a_from_bytes L9 (sm9_encode L9 PC Q) (Z.of_nat (length (sm9_encode L9 PC Q)))
      = Ok (Some (R, Z.of_nat (length (sm9_encode L9 PC Q)))) /\ holds_a (holds1 w nn) R x y.
Proof.
  intros w nn L9 PC Q x y B HQ On. pose proof (build9_ok _ _ _ B) as LOK.
  rewrite (C59_g1_encode w nn L9 PC Q x y B HQ).
  pose proof (encode9_parses PC x y On) as PS. destruct (parses9_reads _ _ _ PS) as (N0 & H4 & H2).
  destruct (decode_sig w nn L9 LOK (SM9_encode_pt PC x y) (encode9_bytes PC x y) N0 H4 H2) as [(R & x' & y' & E & AR & PS')|(NP & _)].
  - destruct (parses9_unique _ _ _ _ _ PS PS') as [<- <-]. exists R. split; [exact E|]. apply holds_a_R. exact AR.
  - exfalso. exact (NP _ _ PS).
Qed.
(** a buffer is accepted as a whole exactly when it stands for a point of the curve, which is the
    point returned *)
Theorem C59_g1_decode : forall w nn L9 l, build9 w nn L9 -> bytes l -> l <> [] ->
  ((nz l 0 = 4 \/ nz l 0 = 6 \/ nz l 0 = 7) -> (65 <= length l)%nat) ->
  ((nz l 0 = 2 \/ nz l 0 = 3) -> (33 <= length l)%nat) ->
  (exists R x y, sm9_ec_a_from_bytes L9 l (Z.of_nat (length l)) = Ok (Some (R, Z.of_nat (length l))) /\
     holds_a (holds1 w nn) R x y /\ SM9_parses l x y) \/
  ((forall x y, ~ SM9_parses l x y) /\
   (sm9_ec_a_from_bytes L9 l (Z.of_nat (length l)) = Ok None \/
    exists R size, sm9_ec_a_from_bytes L9 l (Z.of_nat (length l)) = Ok (Some (R, size)) /\ size <> Z.of_nat (length l))).
Proof.
  intros w nn L9 l B Hb Hn H4 H2. destruct (decode_sig w nn L9 (build9_ok _ _ _ B) l Hb Hn H4 H2) as [(R & x & y & E & AR & P)|C].
  - left. exists R, x, y. split; [exact E|]. split; [now apply holds_a_R|exact P].
  - right. exact C.
Qed.
Theorem C59_parses_unique : forall l x y x' y', SM9_parses l x y -> SM9_parses l x' y' -> x = x' /\ y = y'.
Proof. exact parses9_unique. Qed.
(** a buffer shorter than its first byte announces is read past its end *)
Theorem C59_short_buffer_refuted : forall L9 b0 r, 
  ((b0 = 4 \/ b0 = 6 \/ b0 = 7) /\ (length (b0 :: r) < 65)%nat) \/ ((b0 = 2 \/ b0 = 3) /\ (length (b0 :: r) < 33)%nat) ->
  sm9_ec_a_from_bytes L9 (b0 :: r) (Z.of_nat (length (b0 :: r))) = UB.
Proof. intros L9 b0 r Hc. refine (g1_decode_short L9 _ _ b0 r eq_refl _ Hc). cbn [length]. lia. Qed.

Print Assumptions C48_hash_to_range.
Print Assumptions C48_random_scalar.
Print Assumptions C48_random_scalar_onto.
Print Assumptions C49_fp2.
Print Assumptions C49_fp4.
Print Assumptions C49_fp12.
Print Assumptions C49_fp12_inv_x64.
Print Assumptions C49_fp12_inv_partial.
Print Assumptions C49_fp12_inv_refuted.
Print Assumptions C50_g1_mul_partial.
Print Assumptions C50_g2_mul_partial.
Print Assumptions C50_mul_refuted.
Print Assumptions C50_groups.
Print Assumptions C52_g2_bytes_partial.
Print Assumptions C52_g2_roundtrip_refuted.
Print Assumptions C58_final_exponentiation_x64.
Print Assumptions C58_final_exponentiation_partial.
Print Assumptions C58_pow.
Print Assumptions C58_pow_zero_refuted.
Print Assumptions C59_g1_encode.
Print Assumptions C59_g1_roundtrip.
Print Assumptions C59_g1_decode.
Print Assumptions C59_short_buffer_refuted.

(** The assumptions of the remaining theorems, printed together. *)
Definition other_theorems_SM9 :=
  (build9_ok, stored1_W, stored2_W, stored4_W, stored12_W, @holds12_R, @holds_a_R, @holds_j_R,
   @C50_to_affine, @C50_to_affine_g2, @C59_parses_unique).
Print Assumptions other_theorems_SM9.

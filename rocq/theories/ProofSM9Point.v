(** The SM9 curve functions on stored numbers: both groups. *)
From Coq Require Import Znumtheory Field_theory.
From Verif Require Import Base BaseFacts ModelEndian ProofEndian ModelNumber SpecNumber ProofNumber ModelMont SpecMont
  ProofMont SpecField SpecTower SpecEC SpecJac ProofEC ProofECMul ProofFermat ModelEC ProofJac ProofJacRep
  ProofNumlib ModelSM9 ProofNumlib9 SpecSM9 ProofTower ProofTowerRep ProofSM2Rep ProofSM9Rep ProofSM9Curve
  SpecSM2Api SpecSM9Api.

Lemma build9_ok w nn L9 : build9 w nn L9 -> numlib9_ok w nn L9.
Proof. intros [|]; [exact lib9_common_ok|exact lib9_x64_ok]. Qed.

Lemma SM9_n_val : be_val (rev (rev SM9_CURVE_N)) = SM9_n. Proof. reflexivity. Qed.
Lemma SM9_n_mod4 : SM9_n mod 4 = 1. Proof. reflexivity. Qed.
Lemma n1_zero : num 0 = f0 K1. Proof. reflexivity. Qed.
Lemma K2_inv0 : finv K2 (f0 K2) = f0 K2.
Proof. apply injective_projections; apply fval_inj; vm_compute; reflexivity. Qed.

Lemma ord1 P : E1_on P -> P <> Inf -> forall k, 0 <= k -> (zm1 k P = Inf <-> k mod SM9_n = 0).
Proof. intros H1 H2 k Hk. exact (zmul_inf_iff K1 _ _ E1_ok SM9_n P SM9_n_prime H1 (E1_order P H1) H2 k Hk). Qed.
Lemma ord2 P : E2_on P -> P <> Inf -> zm2 SM9_n P = Inf -> forall k, 0 <= k -> (zm2 k P = Inf <-> k mod SM9_n = 0).
Proof. intros H1 H2 H3 k Hk. exact (zmul_inf_iff K2 _ _ E2_ok SM9_n P SM9_n_prime H1 H3 H2 k Hk). Qed.

(** what to_a gives for infinity: both coordinates 0 *)
Definition px {F} (K : field F) (P : point F) : F := match P with Inf => f0 K | Aff x _ => x end.
Definition py {F} (K : field F) (P : point F) : F := match P with Inf => f0 K | Aff _ y => y end.

Lemma n_lt : SM9_n < 2 ^ 256. Proof. exact (proj2 SM9_n_range). Qed.
Lemma n_ge : 2 ^ 256 <= 2 * SM9_n. Proof. pose proof SM9_n_range. lia. Qed.

Section SM9.
  Variables (w : Z) (nn : nat) (L9 : numlib9).
  Hypothesis LOK : numlib9_ok w nn L9.
  Notation L := (l9 L9).
  Notation R1 := (R1 w nn). Notation W1 := (W1 w nn). Notation Rn9 := (Rn9 w nn).
  Notation R2 := (rel2 R1). Notation W2 := (rel2 W1).
  Notation Op := (sm9_fp_ops L9).
  Notation LK := (k_lib _ _ _ LOK).
  Notation rel1 := (sm9_rel1 w nn L9 LOK).
  Notation rl2 := (sm9_rel2 w nn L9 LOK).
  Notation jr1 := (jrep K1 R1). Notation jr2 := (jrep K2 R2).
  Notation ar1 := (aR R1). Notation ar2 := (aR R2).

  Lemma N9_limbs : limbs w nn (nl_epi8 L N9_DATA) /\ val w (nl_epi8 L N9_DATA) = SM9_n.
  Proof.
    destruct (ok_epi8 _ _ _ LK N9_DATA ltac:(const_bytes) eq_refl) as [A B]. split; [exact A|].
    rewrite B. reflexivity.
  Qed.

  (** ** G1 *)
  Lemma g1_dbl J P : jr1 J P -> jr1 (sm9_ec_j_dbl L9 J) (E1_add P P).
  Proof. intros H. exact (jrep_dbl_2009l _ _ _ _ rel1 _ _ E1_ok J P eq_refl H). Qed.
  Lemma g1_add J1 J2 P Q : jr1 J1 P -> jr1 J2 Q -> E1_on P -> E1_on Q -> (P = Inf <-> Q = Inf) ->
    jr1 (sm9_ec_j_add L9 J1 J2) (E1_add P Q).
  Proof.
    apply (jrep_add _ _ _ _ rel1 _ _ E1_ok) with (dblF := j_dbl_2009l (Fops K1)).
    - apply (dbl_2009l_rep _ _ _ _ rel1).
    - intros J P0 HJ. destruct E1_ok as [O1 O2].
      exact (dbl_2009l_ok _ _ _ _ _ _ _ _ _ _ (f_theory K1) _ O1 J P0 eq_refl HJ).
  Qed.
  Lemma g1_mul k Q x y : bytes k -> length k = 32%nat -> ar1 Q (x, y) -> E1_on (Aff x y) ->
    be_val k mod SM9_n <> SM9_n - 2 ->
    exists J, sm9_ec_j_mul_a L9 k Q = Ok J /\ jr1 J (zm1 (be_val k mod SM9_n) (Aff x y)).
  Proof.
    intros Hk Hl HQ Hon Hs. destruct N9_limbs as [LN VN].
    exact (j_mul_a_rep _ K1 R1 W1 rel1 _ _ E1_ok w nn L LK (sm9_ec_j_dbl L9) g1_dbl
      SM9_n Q x y SM9_n_gt5 SM9_n_odd HQ Hon (ord1 _ Hon ltac:(discriminate))
      _ k LN VN n_lt n_ge Hk Hl (or_intror Hs)).
  Qed.
  Lemma g1_mul_last k Q x y : bytes k -> length k = 32%nat -> ar1 Q (x, y) -> E1_on (Aff x y) ->
    be_val k mod SM9_n = SM9_n - 2 ->
    exists J, sm9_ec_j_mul_a L9 k Q = Ok J /\ jr1 J Inf.
  Proof.
    intros Hk Hl HQ Hon Hs. destruct N9_limbs as [LN VN].
    exact (j_mul_a_last _ K1 R1 W1 rel1 _ _ E1_ok w nn L LK (sm9_ec_j_dbl L9) g1_dbl
      SM9_n Q x y SM9_n_gt5 SM9_n_odd HQ Hon (ord1 _ Hon ltac:(discriminate))
      _ k LN VN n_lt n_ge Hk Hl SM9_n_mod4 Hs).
  Qed.
  Lemma P1_ar : ar1 (sm9_P1 L9) (num SM9_G1x, num SM9_G1y).
  Proof.
    split.
    - change SM9_G1x with (be_val SM9_CURVE_GX). apply (R1_from_bytes w nn L9 LOK); [const_bytes|reflexivity].
    - change SM9_G1y with (be_val SM9_CURVE_GY). apply (R1_from_bytes w nn L9 LOK); [const_bytes|reflexivity].
  Qed.
  Lemma g1_to_a J P : jr1 J P -> ar1 (sm9_ec_j_to_a L9 J) (px K1 P, py K1 P).
  Proof.
    destruct P as [|x y]; intros H.
    - exact (jrep_to_a_inf _ _ _ _ rel1 J K1_inv0 H).
    - exact (jrep_to_a _ _ _ _ rel1 J x y H).
  Qed.

  (** ** G2 *)
  Lemma g2_dbl J P : jr2 J P -> jr2 (sm9_ec2_j_dbl L9 J) (E2_add P P).
  Proof. intros H. exact (jrep_dbl_2009l _ _ _ _ rl2 _ _ E2_ok J P eq_refl H). Qed.
  Lemma g2_add J1 J2 P Q : jr2 J1 P -> jr2 J2 Q -> E2_on P -> E2_on Q -> (P = Inf <-> Q = Inf) ->
    jr2 (sm9_ec2_j_add L9 J1 J2) (E2_add P Q).
  Proof.
    apply (jrep_add _ _ _ _ rl2 _ _ E2_ok) with (dblF := j_dbl_2009l (Fops K2)).
    - apply (dbl_2009l_rep _ _ _ _ rl2).
    - intros J P0 HJ. destruct E2_ok as [O1 O2].
      exact (dbl_2009l_ok _ _ _ _ _ _ _ _ _ _ (f_theory K2) _ O1 J P0 eq_refl HJ).
  Qed.
  Lemma g2_add_a J Q P x y : jr2 J P -> ar2 Q (x, y) -> E2_on P -> E2_on (Aff x y) -> P <> Inf -> P <> Aff x y ->
    jr2 (sm9_ec2_j_add_a L9 J Q) (E2_add P (Aff x y)).
  Proof.
    intros HJ HQ HP Hon N1 N2. apply (jrep_add_a _ _ _ _ rl2 _ _ E2_ok); try assumption.
    destruct Q as [X Y]. destruct HQ as [HX HY]. split; now apply (r2_w w nn L9 LOK).
  Qed.
  Lemma g2_mul k Q x y : bytes k -> length k = 32%nat -> ar2 Q (x, y) -> E2_on (Aff x y) ->
    zm2 SM9_n (Aff x y) = Inf -> be_val k mod SM9_n <> SM9_n - 2 ->
    exists J, sm9_ec2_j_mul_a L9 k Q = Ok J /\ jr2 J (zm2 (be_val k mod SM9_n) (Aff x y)).
  Proof.
    intros Hk Hl HQ Hon Ho Hs. destruct N9_limbs as [LN VN].
    exact (j_mul_a_rep _ K2 R2 W2 rl2 _ _ E2_ok w nn L LK (sm9_ec2_j_dbl L9) g2_dbl
      SM9_n Q x y SM9_n_gt5 SM9_n_odd HQ Hon (ord2 _ Hon ltac:(discriminate) Ho)
      _ k LN VN n_lt n_ge Hk Hl (or_intror Hs)).
  Qed.
  Lemma g2_mul_last k Q x y : bytes k -> length k = 32%nat -> ar2 Q (x, y) -> E2_on (Aff x y) ->
    zm2 SM9_n (Aff x y) = Inf -> be_val k mod SM9_n = SM9_n - 2 ->
    exists J, sm9_ec2_j_mul_a L9 k Q = Ok J /\ jr2 J Inf.
  Proof.
    intros Hk Hl HQ Hon Ho Hs. destruct N9_limbs as [LN VN].
    exact (j_mul_a_last _ K2 R2 W2 rl2 _ _ E2_ok w nn L LK (sm9_ec2_j_dbl L9) g2_dbl
      SM9_n Q x y SM9_n_gt5 SM9_n_odd HQ Hon (ord2 _ Hon ltac:(discriminate) Ho)
      _ k LN VN n_lt n_ge Hk Hl SM9_n_mod4 Hs).
  Qed.
  Lemma P2_ar : exists G, sm9_P2 L9 = Ok G /\ ar2 G ((num SM9_G2x0, num SM9_G2x1), (num SM9_G2y0, num SM9_G2y1)).
  Proof.
    unfold sm9_P2, sm9_fp2_from_bytes.
    change (read SM9_CURVE2_GX 0 32) with (Ok (firstn 32 SM9_CURVE2_GX)).
    change (read SM9_CURVE2_GX (0 + 32) 32) with (Ok (skipn 32 SM9_CURVE2_GX)).
    change (read SM9_CURVE2_GY 0 32) with (Ok (firstn 32 SM9_CURVE2_GY)).
    change (read SM9_CURVE2_GY (0 + 32) 32) with (Ok (skipn 32 SM9_CURVE2_GY)).
    cbn [bind]. eexists. split; [reflexivity|].
    change SM9_G2x1 with (be_val (firstn 32 SM9_CURVE2_GX)).
    change SM9_G2x0 with (be_val (skipn 32 SM9_CURVE2_GX)).
    change SM9_G2y1 with (be_val (firstn 32 SM9_CURVE2_GY)).
    change SM9_G2y0 with (be_val (skipn 32 SM9_CURVE2_GY)).
    repeat split; cbn [fst snd]; apply (R1_from_bytes w nn L9 LOK); try const_bytes; reflexivity.
  Qed.
  Lemma g2_mulg k : bytes k -> length k = 32%nat -> be_val k mod SM9_n <> SM9_n - 2 ->
    exists J, sm9_ec2_j_mul_g L9 k = Ok J /\ jr2 J (zm2 (be_val k mod SM9_n) P2).
  Proof.
    intros Hk Hl Hs. destruct P2_ar as (G & E & HG). unfold sm9_ec2_j_mul_g. rewrite E. cbn [bind].
    exact (g2_mul k G _ _ Hk Hl HG P2_on P2_order Hs).
  Qed.
  Lemma g2_to_a J P : jr2 J P -> ar2 (sm9_ec2_j_to_a L9 J) (px K2 P, py K2 P).
  Proof.
    destruct P as [|x y]; intros H.
    - exact (jrep_to_a_inf _ _ _ _ rl2 J K2_inv0 H).
    - exact (jrep_to_a _ _ _ _ rl2 J x y H).
  Qed.
End SM9.

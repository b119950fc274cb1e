(** Property C60: the pairing of the model is the R-ate pairing of the standard (SpecPairing). *)
From Coq Require Import Znumtheory.
From Verif Require Import Base ModelNumber SpecNumber SpecField SpecEC SpecJac ModelEC ModelSM2 ModelSM9 SpecSM9 SpecSM2Api SpecSM9Api
  SpecPairing ProofJacRep ProofTowerRep ProofNumlib9 ProofSM9Rep ProofSM9Fin ProofECMul ProofSM9Curve ProofSM9Point ProofSM9Pub ProofMiller PropSM9.

(** the constants: t, the digits of the loop, p and n *)
Theorem C60_parameters : digits_value SM9_digits = 6 * SM9_t + 2 /\
  SM9_p = 36 * SM9_t ^ 4 + 36 * SM9_t ^ 3 + 24 * SM9_t ^ 2 + 6 * SM9_t + 1 /\
  SM9_n = 36 * SM9_t ^ 4 + 36 * SM9_t ^ 3 + 18 * SM9_t ^ 2 + 6 * SM9_t + 1 /\
  (SM9_p ^ 12 - 1) mod SM9_n = 0.
Proof.
  split; [vm_compute; reflexivity|]. split; [vm_compute; reflexivity|]. split; [vm_compute; reflexivity|].
  rewrite <- fe_exp_n. apply Z_mod_mult.
Qed.

(** for every point P of G1 and Q of G2 other than the point at infinity the x64 build computes e(P, Q) *)
Theorem C60_pairing_x64 : forall P Q xP yP xQ yQ,
  holds_a (stored1 64 4) P xP yP -> E1_on (Aff xP yP) ->
  holds_a (holds2 64 4) Q xQ yQ -> E2_on (Aff xQ yQ) -> E2_mul SM9_n (Aff xQ yQ) = Inf ->
  exists g, sm9_pairing lib9_x64 P Q = Ok g /\ holds12 64 4 g (SM9_e (Aff xP yP) (Aff xQ yQ)).
Proof.
  intros [xs ys] [Xq Yq] xP yP xQ yQ [HxP HyP] OnP [HX HY] OnQ Qn. apply stored1_W in HxP, HyP.
  destruct (pairing_strong xQ yQ OnQ Qn 64 4%nat lib9_x64 lib9_x64_ok xs ys xP yP HxP HyP (ec_y_nz _ _ _ E1_ok _ _ OnP) Xq Yq HX HY)
    as (g & Eg & Rg); [intros b z [Hz|(C & _)]; [exact Hz|discriminate]|].
  exists g. split; [exact Eg|]. apply holds12_R. exact Rg.
Qed.
(** the portable build does, when the two inverses taken in the final exponentiation are of elements it
    inverts correctly (C49) *)
Theorem C60_pairing_partial : forall P Q xP yP xQ yQ,
  holds_a (stored1 32 8) P xP yP -> E1_on (Aff xP yP) ->
  holds_a (holds2 32 8) Q xQ yQ -> E2_on (Aff xQ yQ) -> E2_mul SM9_n (Aff xQ yQ) = Inf ->
  (forall v, stored12 32 8 (sm9_miller lib9_common P Q) v -> inv_good v /\
     forall u z, fmul K12 u v = fpow K12 v (SM9_p ^ 6) ->
       z = fpow K12 (fmul K12 u (fpow K12 u (SM9_p ^ 2))) (be_val FE_A3) -> inv_good z) ->
  exists g, sm9_pairing lib9_common P Q = Ok g /\ holds12 32 8 g (SM9_e (Aff xP yP) (Aff xQ yQ)).
Proof.
  intros [xs ys] [Xq Yq] xP yP xQ yQ [HxP HyP] OnP [HX HY] OnQ Qn G. apply stored1_W in HxP, HyP.
  destruct (pairing_good xQ yQ OnQ Qn 32 8%nat lib9_common lib9_common_ok xs ys xP yP HxP HyP (ec_y_nz _ _ _ E1_ok _ _ OnP) Xq Yq HX HY)
    as (g & Eg & Rg).
  { intros v Hv. exact (G v (proj2 (stored12_W 32 8%nat (sm9_miller lib9_common (xs, ys) (Xq, Yq)) v) Hv)). }
  exists g. split; [exact Eg|]. apply holds12_R. exact Rg.
Qed.
Example C60_example : forall w nn L9, build9 w nn L9 -> exists Q,
  holds_a (stored1 w nn) (sm9_P1 L9) (num SM9_G1x) (num SM9_G1y) /\ E1_on (Aff (num SM9_G1x) (num SM9_G1y)) /\
  sm9_P2 L9 = Ok Q /\ holds_a (holds2 w nn) Q (num SM9_G2x0, num SM9_G2x1) (num SM9_G2y0, num SM9_G2y1) /\
  E2_on P2 /\ E2_mul SM9_n P2 = Inf /\ P2 = Aff (num SM9_G2x0, num SM9_G2x1) (num SM9_G2y0, num SM9_G2y1).
Proof.
  intros w nn L9 B. apply build9_ok in B. destruct (P2_ar w nn L9 B) as (Q & EQ & AQ). exists Q.
  split. { pose proof (P1_ar w nn L9 B) as A. apply holds_a_R in A. destruct (sm9_P1 L9) as [X Y]. destruct A as [A1 A2]. split; left; [exact A1|exact A2]. }
  split; [exact P1_on|]. split; [exact EQ|]. split; [apply holds_a_R; exact AQ|]. split; [exact P2_on|]. split; [exact P2_order|unfold P2; exact eq_refl].
Qed.

Print Assumptions C60_parameters.
Print Assumptions C60_pairing_x64.
Print Assumptions C60_pairing_partial.

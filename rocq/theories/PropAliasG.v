(** C73: scalar multiplication on the three curves, exponentiation in F_p^12, the final
    exponentiation and the pairing, on memory (ModelAliasG.v).  Each copies its result out as its last
    step, so the result object may overlap the operands in any way at all; nothing else of the
    callers' memory changes.  [returns] is in SpecAliasG, [frame] in SpecAliasF.  Both builds. *)
From Verif Require Import Base BaseFacts SpecNumber ModelNumber ModelNumberX64 ModelMont.
From Verif Require Import ModelEC ModelSM2 SpecField SpecEC SpecSM2Curve SpecSM2Api SpecSM9 SpecSM9Api ModelSM9 SpecPairing.
From Verif Require Import ModelAlias SpecAlias ModelAliasF SpecAliasF ModelAliasG SpecAliasG.
From Verif Require Import ProofAlias ProofAliasF4 ProofAliasG ProofAliasG3 ProofAliasG4 PropAlias PropAliasF PropSM2 PropSM9 PropPairing.
From Verif Require Import ProofSM2Curve ModelAliasF.

(** ** Scalar multiplication *)
Theorem C73_sm2_mul : forall b kb sp r p m,
  let k := lims b in let L := l9 (lib_of b) in
  (p + 2 * k <= sp)%nat -> (r + 3 * k <= sp)%nat -> words (bits b) m ->
  returns (bits b) (3 * k) (jac_at b) sp r m
    (j_mul_a_m k (sm2_fp_m b) (j_dbl_2001b_m k (sm2_fp_m b)) L (nl_epi8 L SM2_CURVE_N) kb sp r p m)
    (sm2_ec_j_mul_a L kb (aff_at b m p)).
Proof.
  intros b kb sp r p m k L Hp Hr W.
  exact (mul_ok _ _ _ _ _ _ _ _ _ _ _ _ _ _ L (sm2_points b) (aff_local b) (jac_local b) sp p m Hp (lims_pos b) _ kb r Hr W).
Qed.
Theorem C73_sm9_g1_mul : forall b kb sp r p m,
  let k := lims b in let L := l9 (lib_of b) in
  (p + 2 * k <= sp)%nat -> (r + 3 * k <= sp)%nat -> words (bits b) m ->
  returns (bits b) (3 * k) (jac_at b) sp r m
    (j_mul_a_m k (sm9_fp_m b) (j_dbl_2009l_m k (sm9_fp_m b)) L (nl_epi8 L N9_DATA) kb sp r p m)
    (sm9_ec_j_mul_a (lib_of b) kb (aff_at b m p)).
Proof.
  intros b kb sp r p m k L Hp Hr W.
  exact (mul_ok _ _ _ _ _ _ _ _ _ _ _ _ _ _ L (sm9_points b) (aff_local b) (jac_local b) sp p m Hp (lims_pos b) _ kb r Hr W).
Qed.
Theorem C73_sm9_g2_mul : forall b kb sp r p m,
  let k := lims b in let L := l9 (lib_of b) in
  (p + 4 * k <= sp)%nat -> (r + 6 * k <= sp)%nat -> words (bits b) m ->
  returns (bits b) (6 * k) (jac2_at b) sp r m
    (j_mul_a_m (2 * k) (sm9_fp2_m b) (j_dbl_2009l_m (2 * k) (sm9_fp2_m b)) L (nl_epi8 L N9_DATA) kb sp r p m)
    (sm9_ec2_j_mul_a (lib_of b) kb (aff2_at b m p)).
Proof.
  intros b kb sp r p m k L Hp Hr W.
  assert (E6 : (3 * (2 * k))%nat = (6 * k)%nat) by lia. assert (E4 : (2 * (2 * k))%nat = (4 * k)%nat) by lia.
  pose proof (aff2_local b) as La. pose proof (jac2_local b) as Lj. change (lims b) with k in La, Lj.
  rewrite <- E4 in Hp, La. rewrite <- E6 in Hr, Lj |- *. pose proof (lims_pos b).
  refine (mul_ok _ _ _ _ _ _ _ _ _ _ _ _ _ _ L (sm9_points2 b) La Lj sp p m Hp _ _ kb r Hr W). unfold k. lia.
Qed.
(** in the group: SM2, any scalar and any point of the curve, the product over the point or anywhere else *)
Theorem C73_sm2_multiple : forall b kb sp r p m x y,
  let k := lims b in let L := l9 (lib_of b) in
  (p + 2 * k <= sp)%nat -> (r + 3 * k <= sp)%nat -> words (bits b) m ->
  bytes kb -> length kb = 32%nat -> stored_a (bits b) k (aff_at b m p) x y -> SM2_on (Aff x y) ->
  exists m', j_mul_a_m k (sm2_fp_m b) (j_dbl_2001b_m k (sm2_fp_m b)) L (nl_epi8 L SM2_CURVE_N) kb sp r p m = Ok m' /\
    stored_j (bits b) k (jac_at b m' r) (SM2_mul (be_val kb) (Aff x y)) /\ frame sp r (3 * k) m m'.
Proof.
  intros b kb sp r p m x y k L Hp Hr W Hb Hl HQ On. pose proof (C73_sm2_mul b kb sp r p m Hp Hr W) as R. cbv zeta in R.
  assert (B : SpecSM2Api.build (bits b) k L) by (destruct b; constructor).
  destruct (C39_scalar_mult _ _ _ kb _ _ _ B Hb Hl HQ On) as (J & E & S). unfold L in E. rewrite E in R.
  destruct R as (m' & E1 & E2 & F & _). exists m'. split; [exact E1|]. split; [rewrite E2; exact S|exact F].
Qed.

(** ** Exponentiation in F_p^12 *)
Theorem C73_pow : forall b eb sp r a m,
  let k := (12 * lims b)%nat in
  (r + k <= sp)%nat -> (a + k <= sp)%nat -> words (bits b) m ->
  returns (bits b) k (fp12_at b) sp r m (sm9_fp12_pow_m b eb sp r a m) (sm9_fp12_pow (lib_of b) (fp12_at b m a) eb) /\
  (bytes eb -> length eb = 32%nat -> be_val eb <> 0 ->
   exists v, sm9_fp12_pow (lib_of b) (fp12_at b m a) eb = Ok v).
Proof.
  intros b eb sp r a m k Hr Ha W. unfold k in *. split.
  - rewrite <- k12_eq in *. exact (sm9_pow_ok b eb sp r a m Hr Ha W).
  - intros H1 H2 H3. exact (pow_total (sm9_fp_ops (lib_of b)) (fp12_at b m a) eb H1 H2 H3).
Qed.
(** in the field *)
Theorem C73_power : forall b eb sp r a m x,
  let k := (12 * lims b)%nat in
  (r + k <= sp)%nat -> (a + k <= sp)%nat -> words (bits b) m ->
  bytes eb -> length eb = 32%nat -> be_val eb <> 0 -> holds12 (bits b) (lims b) (fp12_at b m a) x ->
  exists m', sm9_fp12_pow_m b eb sp r a m = Ok m' /\
    holds12 (bits b) (lims b) (fp12_at b m' r) (fpow K12 x (be_val eb)) /\ frame sp r k m m'.
Proof.
  intros b eb sp r a m x k Hr Ha W H1 H2 H3 Hx. destruct (C73_pow b eb sp r a m Hr Ha W) as (R & _). cbv zeta in R.
  assert (EF : firstn 32 eb = eb) by (apply firstn_all2; lia).
  destruct (C58_pow _ _ _ _ x eb (build9_of b) Hx) as (c & E & Hc); rewrite ?EF; [lia|exact H1|exact H3|]. rewrite EF in Hc.
  rewrite E in R. destruct R as (m' & E1 & E2 & F & _). exists m'. split; [exact E1|]. split; [rewrite E2; exact Hc|exact F].
Qed.

(** ** The final exponentiation and the pairing *)
Theorem C73_final_exponentiation : forall b sp r a m,
  let k := (12 * lims b)%nat in
  (r + k <= sp)%nat -> (a + k <= sp)%nat -> same_or_apart k r k a -> words (bits b) m ->
  let m' := final_exp_m b sp r [a] m in
  final_exp (lib_of b) (fp12_at b m a) = Ok (fp12_at b m' r) /\ frame sp r k m m' /\ words (bits b) m'.
Proof.
  intros b sp r a m k Hr Ha Ar W. unfold k in *. rewrite <- k12_eq in *. cbv zeta.
  destruct (final_ok b sp r [a] m eq_refl Hr (Forall_cons _ (conj Ha Ar) (Forall_nil _)) W) as (E & F & W').
  cbn [map nth] in E. rewrite final_eq. split; [apply (f_equal Ok); symmetry; exact E|]. split; [exact F|exact W'].
Qed.
Theorem C73_pairing : forall b sp r p q m,
  let k := lims b in
  (r + 12 * k <= sp)%nat -> (p + 2 * k <= sp)%nat -> (q + 4 * k <= sp)%nat -> words (bits b) m ->
  let m' := sm9_pairing_m b sp r p q m in
  sm9_pairing (lib_of b) (aff_at b m p) (aff2_at b m q) = Ok (fp12_at b m' r) /\
  frame sp r (12 * k) m m' /\ words (bits b) m'.
Proof. intros b sp r p q m k Hr Hp Hq W. exact (pairing_ok b sp p q m Hp Hq r Hr W). Qed.
(** the pairing of the standard, in the x64 build *)
Theorem C73_pairing_value : forall sp r p q m xP yP xQ yQ,
  (r + 48 <= sp)%nat -> (p + 8 <= sp)%nat -> (q + 16 <= sp)%nat -> words 64 m ->
  holds_a (stored1 64 4) (aff_at X64 m p) xP yP -> E1_on (Aff xP yP) ->
  holds_a (holds2 64 4) (aff2_at X64 m q) xQ yQ -> E2_on (Aff xQ yQ) -> E2_mul SM9_n (Aff xQ yQ) = Inf ->
  let m' := sm9_pairing_m X64 sp r p q m in
  holds12 64 4 (fp12_at X64 m' r) (SM9_e (Aff xP yP) (Aff xQ yQ)) /\ frame sp r 48 m m'.
Proof.
  intros sp r p q m xP yP xQ yQ Hr Hp Hq W HP OnP HQ OnQ Oo. cbv zeta.
  destruct (C73_pairing X64 sp r p q m Hr Hp Hq W) as (E & F & _).
  destruct (C60_pairing_x64 _ _ _ _ _ _ HP OnP HQ OnQ Oo) as (g & Eg & Hg). split; [|exact F].
  change (lib_of X64) with lib9_x64 in E. rewrite Eg in E. assert (EE : forall (x y : p12 (list Z)), Ok x = Ok y -> x = y) by (intros x y H; congruence).
  apply EE in E. rewrite <- E. exact Hg.
Qed.

(** ** Concrete calls *)
Lemma limbs_check l : forallb (fun x => (0 <=? x) && (x <? 2 ^ 64)) l = true -> Forall (fun x => 0 <= x < 2 ^ 64) l.
Proof.
  intros H. apply Forall_forall. intros x Hx. rewrite forallb_forall in H. specialize (H x Hx).
  apply andb_prop in H. destruct H as [H1 H2]. apply Z.leb_le in H1. apply Z.ltb_lt in H2. split; assumption.
Qed.
(** the SM2 base point at address 0 of the x64 build's memory, multiplied by n - 2 over itself *)
Definition ex_base : mem := ex_mem 0
    [7003811626178052766; 4501772161142669392; 15465903839640863683; 10454678132920236805;
     13922119968254397917; 13976329324541941242; 10181788862614489336; 7191516143366387133].
Example C73_sm2_multiple_example : exists m',
  j_mul_a_m 4 (sm2_fp_m X64) (j_dbl_2001b_m 4 (sm2_fp_m X64)) lib_x64 (nl_epi8 lib_x64 SM2_CURVE_N)
    (be_bytes 32 (SM2_n - 2)) 12 0 0 ex_base = Ok m' /\
  stored_j 64 4 (jac_at X64 m' 0) (SM2_mul (SM2_n - 2) SM2_G).
Proof.
  assert (W : words 64 ex_base).
  { apply wr_words; [intros q; cbn; lia|]. apply limbs_check. vm_compute. reflexivity. }
  assert (EA : aff_at X64 ex_base 0 = (sm2_fp_from_bytes lib_x64 SM2_CURVE_GX, sm2_fp_from_bytes lib_x64 SM2_CURVE_GY))
    by (vm_compute; reflexivity).
  assert (B : SpecSM2Api.build 64 4 lib_x64) by constructor.
  destruct (C39_example 64 4 lib_x64 B) as (HG & On & _). rewrite <- EA in HG.
  assert (EB : be_val (be_bytes 32 (SM2_n - 2)) = SM2_n - 2) by (vm_compute; reflexivity).
  assert (Hb : bytes (be_bytes 32 (SM2_n - 2))) by apply be_bytes_bytes.
  destruct (C73_sm2_multiple X64 (be_bytes 32 (SM2_n - 2)) 12 0 0 ex_base (fof SM2_p SM2_Gx) (fof SM2_p SM2_Gy)) as (m' & E & S & _);
    [cbn; lia|cbn; lia|exact W|exact Hb|reflexivity|exact HG|exact On|].
  rewrite EB in S. exists m'. split; [exact E|exact S].
Qed.
(** the generators P1 at address 0 and P2 at address 8; the pairing value goes over both of them *)
Definition ex_pair : mem := ex_mem 0
    [2515601114198462491; 12197715220955867180; 17280539129006148030; 5848338067346243765;
     17183368147483752391; 1537483109202699638; 3630837607499624383; 8220601452423518248;
     2738794020164786831; 9143824977025745003; 17939381591462204484; 7060782304838796497;
     15811492337866025126; 9567355737024360756; 1762036856896691521; 10399113848259820087;
     13852812486156337738; 10591247264239991975; 2613589846412197083; 1190240994075225806;
     17850067341124681659; 3965124762595606831; 2173513021680187241; 9359685931284192595].
Example C73_pairing_value_example :
  holds12 64 4 (fp12_at X64 (sm9_pairing_m X64 48 0 0 8 ex_pair) 0) (SM9_e SpecSM9.P1 SpecSM9.P2).
Proof.
  destruct (C60_example 64 4 lib9_x64 (build9_of X64)) as (Q & HP & OnP & EQ & HQ & OnQ & Oo & EP2).
  assert (E2 : sm9_P2 lib9_x64 = Ok (aff2_at X64 ex_pair 8)) by (vm_compute; reflexivity).
  assert (E1 : sm9_P1 lib9_x64 = aff_at X64 ex_pair 0) by (vm_compute; reflexivity).
  assert (W : words 64 ex_pair).
  { apply wr_words; [intros q; cbn; lia|]. apply limbs_check. vm_compute. reflexivity. }
  assert (EE : forall (x y : aff (p2 (list Z))), Ok x = Ok y -> x = y) by (intros x y H; congruence).
  rewrite EQ in E2. apply EE in E2. rewrite E2 in HQ. rewrite E1 in HP. rewrite EP2 in OnQ, Oo.
  rewrite EP2. exact (proj1 (C73_pairing_value 48 0 0 8 ex_pair _ _ _ _ ltac:(lia) ltac:(lia) ltac:(lia) W HP OnP HQ OnQ Oo)).
Qed.
(** one at address 0, raised to a power over itself *)
Example C73_power_example : forall e, bytes e -> length e = 32%nat -> be_val e <> 0 ->
  let m := sm9_fp12_m Common One 96%nat 0%nat [] (fun _ => 0) in
  exists m', sm9_fp12_pow_m Common e 96 0 0 m = Ok m' /\ holds12 32 8 (fp12_at Common m' 0) (fpow K12 (f1 K12) (be_val e)).
Proof.
  intros e H1 H2 H3 m. destruct C72_fp12_product_example as (W & _ & _). cbv zeta in W. fold m in W.
  destruct (C72_fp12 Common) as (_ & _ & _ & _ & _ & _ & _ & _ & H & _).
  destruct (H 96%nat 0%nat [] (fun _ => 0) eq_refl (Nat.le_refl 96) (Forall_nil _)) as (E & _ & _). { intros q. cbn. lia. }
  fold m in E. cbn [map] in E. destruct (C58_example 32 8 lib9_common (build9_of Common)) as (_ & H12 & _).
  change (lib_of Common) with lib9_common in E. rewrite <- E in H12.
  destruct (C73_power Common e 96 0 0 m (f1 K12)) as (m' & E1 & S & _); [cbn; lia|cbn; lia|exact W|exact H1|exact H2|exact H3|exact H12|].
  exists m'. split; [exact E1|exact S].
Qed.

Definition C73_theorems := (@C73_sm2_mul, @C73_sm9_g1_mul, @C73_sm9_g2_mul, @C73_sm2_multiple, @C73_pow, @C73_power,
  @C73_final_exponentiation, @C73_pairing, @C73_pairing_value).
Print Assumptions C73_theorems.

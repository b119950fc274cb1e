(** SM9: importing and exporting keys, the byte form of G2 points, and the inverse in F_p^12. *)
From Coq Require Import Znumtheory Field_theory Ring Field.
From Verif Require Import Base BaseFacts ModelEndian ProofEndian ModelNumber SpecNumber ProofNumber ModelMont SpecMont
  ProofMont SpecField SpecTower SpecEC SpecJac ProofEC ProofECMul ProofFermat ModelEC ProofJac ProofJacRep
  ProofNumlib ProofZops ModelSM2 ProofSM2Enc ProofSM2b ProofSM2c ModelSM9 ProofNumlib9 SpecSM9 ProofTower ProofTowerRep ProofSM2Rep
  ProofFrob ProofSM9Frob ProofSM9Pow ProofSM9Fin ProofSM9Rep ProofSM9Curve SpecSM2 SpecSM2Api SpecSM9Api ProofSM9Point
  ProofSM9Enc ProofSM9 ProofSM9Sign.

Lemma F2_bytes_bytes z : bytes (F2_bytes z).
Proof. unfold F2_bytes. apply bytes_app; split; apply F1_bytes_bytes. Qed.
Lemma F2_bytes_length z : length (F2_bytes z) = 64%nat.
Proof. unfold F2_bytes. rewrite app_length, !F1_bytes_length. reflexivity. Qed.
Section Zero.
  Context {F : Type} (K : field F).
  Add Field FKzm : (f_theory K).
  Lemma zero_mul x : fmul K (f0 K) x = f0 K. Proof. ring. Qed.
End Zero.
Lemma rhs2_eq (x : F2) :
  fadd K2 (num 0, num 5) (fmul K2 (fmul K2 x x) x)
  = fadd K2 (fadd K2 (fmul K2 (fmul K2 x x) x) (fmul K2 (f0 K2) x)) (num 0, num 5).
Proof.
  generalize (num 0, num 5). intros t.
  pose proof (Field_theory.F_R (f_theory K2)) as T.
  assert (Z0 : fmul K2 (f0 K2) x = f0 K2).
  { exact (zero_mul K2 x). }
  rewrite Z0. generalize (fmul K2 (fmul K2 x x) x). intros s. destruct T.
  transitivity (fadd K2 s t); [apply Radd_comm|]. f_equal.
  transitivity (fadd K2 (f0 K2) s); [symmetry; apply Radd_0_l|apply Radd_comm].
Qed.

Section SM9.
  Variables (w : Z) (nn : nat) (L9 : numlib9).
  Hypothesis LOK : numlib9_ok w nn L9.
  Notation L := (l9 L9).
  Notation R1 := (R1 w nn). Notation W1 := (W1 w nn).
  Notation R2 := (rel2 R1). Notation W2 := (rel2 W1).
  Notation R4 := (rel2 R2). Notation W4 := (rel2 W2).
  Notation R12 := (rel3 R4). Notation W12 := (rel3 W4).
  Notation Op := (sm9_fp_ops L9).
  Notation ar1 := (aR R1). Notation ar2 := (aR R2).

  Lemma r2_bytes c z : R2 c z -> sm9_fp2_to_bytes L9 c = F2_bytes z.
  Proof.
    destruct c as [c0 c1], z as [z0 z1]. intros [C0 C1]. unfold sm9_fp2_to_bytes, F2_bytes. cbn [fst snd] in *.
    rewrite (R1_to_bytes w nn L9 LOK _ _ C0), (R1_to_bytes w nn L9 LOK _ _ C1). reflexivity.
  Qed.
  Lemma fp2_read b off : bytes b -> (off + 64 <= length b)%nat ->
    exists c, sm9_fp2_from_bytes L9 b off = Ok c /\ R2 c (num (be_val (slice b (off + 32) 32)), num (be_val (slice b off 32))).
  Proof.
    intros Hb Hl. unfold sm9_fp2_from_bytes. rewrite (read_ok b off 32) by lia. cbn [bind].
    rewrite (read_ok b (off + 32) 32) by lia. cbn [bind]. eexists. split; [reflexivity|].
    split; cbn [fst snd]; apply (R1_from_bytes w nn L9 LOK); try (apply slice_length; lia); now apply bytes_slice.
  Qed.
  Lemma ec2_check Q x y : ar2 Q (x, y) -> sm9_ec2_a_check L9 Q = true <-> E2_on (Aff x y).
  Proof.
    destruct Q as [X Y]. intros [HX HY]. unfold sm9_ec2_a_check. cbv zeta.
    pose proof (r2_sqr w nn L9 LOK _ _ (r2_w w nn L9 LOK _ _ HY)) as H1.
    assert (HB : R2 (m_zero L, sm9_fp_from_bytes L9 SM9_CURVE_B) (num 0, num 5)).
    { split; cbn [fst snd].
      - exact (ok_zero _ _ _ (k_lib _ _ _ LOK) _ _ (FP9_CTX_ok w nn L9 LOK)).
      - change 5 with (be_val SM9_CURVE_B). apply (R1_from_bytes w nn L9 LOK); [const_bytes|reflexivity]. }
    pose proof (r2_sqr w nn L9 LOK _ _ (r2_w w nn L9 LOK _ _ HX)) as H3.
    pose proof (r2_mul w nn L9 LOK _ _ _ _ (r2_w w nn L9 LOK _ _ H3) (r2_w w nn L9 LOK _ _ HX)) as H4.
    pose proof (r2_add w nn L9 LOK _ _ _ _ (r2_w w nn L9 LOK _ _ HB) H4) as H5.
    rewrite rhs2_eq in H5.
    pose proof (r2_eq w nn L9 LOK _ _ _ _ H1 H5) as E. unfold fp9 in *. rewrite E.
    unfold E2_on, on_curve.
    destruct (feq_dec K2 _ _) as [EE|NE]; split; intros HH; try reflexivity; try discriminate; [exact EE|]. exfalso. now apply NE.
  Qed.

  (** the 128-byte form of a point of G2: y is written over the low coefficient of x *)
  Theorem ec2_bytes04 out Q x y : length out = 128%nat -> ar2 Q (x, y) ->
    sm9_ec2_a_to_bytes04 L9 out Q = Ok (F1_bytes (snd x) ++ F2_bytes y ++ skipn 96 out).
  Proof.
    intros Hl. destruct Q as [X Y]. intros [HX HY]. unfold sm9_ec2_a_to_bytes04.
    rewrite (r2_bytes _ _ HX), (r2_bytes _ _ HY).
    pose proof (F2_bytes_length x) as LX. pose proof (F2_bytes_length y) as LY.
    unfold write. destruct (Nat.leb_spec (0 + length (F2_bytes x)) (length out)) as [_|C]; [|lia]. cbn [bind].
    change (firstn 0 out) with (@nil Z). rewrite app_nil_l.
    set (o1 := F2_bytes x ++ skipn (0 + length (F2_bytes x)) out).
    assert (L1 : length o1 = 128%nat) by (unfold o1; rewrite app_length, skipn_length; lia).
    destruct (Nat.leb_spec (32 + length (F2_bytes y)) (length o1)) as [_|C]; [|lia]. 
    assert (E1 : firstn 32 o1 = F1_bytes (snd x)).
    { unfold o1, F2_bytes. rewrite <- !app_assoc. apply firstn_exact. apply F1_bytes_length. }
    assert (E2 : skipn (32 + length (F2_bytes y)) o1 = skipn 96 out).
    { rewrite LY. unfold o1. rewrite skipn_app, LX, skipn_all2 by lia. cbn [app]. rewrite skipn_skipn'. f_equal. }
    rewrite E1, E2. reflexivity.
  Qed.
  Theorem ec2_decode04 b off : bytes b -> (off + 96 <= length b)%nat ->
    exists R, sm9_ec2_a_from_bytes04 L9 b off = Ok R /\
      ar2 R ((num (be_val (slice b (off + 32) 32)), num (be_val (slice b off 32))),
             (num (be_val (slice b (off + 64) 32)), num (be_val (slice b (off + 32) 32)))).
  Proof.
    intros Hb Hl. unfold sm9_ec2_a_from_bytes04. destruct (fp2_read b off Hb ltac:(lia)) as (c & Ec & Rc). unfold fp9 in *. rewrite Ec. cbn [bind].
    destruct (fp2_read b (off + 32) Hb ltac:(lia)) as (d & Ed & Rd). unfold fp9 in *. rewrite Ed. cbn [bind].
    replace (off + 32 + 32)%nat with (off + 64)%nat in Rd by lia. eexists. split; [reflexivity|]. split; assumption.
  Qed.
  Theorem ec2_roundtrip out Q x y : bytes out -> length out = 128%nat -> ar2 Q (x, y) ->
    exists b R, sm9_ec2_a_to_bytes04 L9 out Q = Ok b /\ sm9_ec2_a_from_bytes04 L9 b 0 = Ok R /\
      ar2 R ((snd y, snd x), y).
  Proof.
    intros Ho Hl HQ. pose proof (ec2_bytes04 out Q x y Hl HQ) as E. eexists. 
    set (b := F1_bytes (snd x) ++ F2_bytes y ++ skipn 96 out) in *.
    assert (Hb : bytes b).
    { unfold b. apply bytes_app. split; [apply F1_bytes_bytes|]. apply bytes_app. split; [apply F2_bytes_bytes|now apply bytes_skipn]. }
    assert (Lb : length b = 128%nat).
    { unfold b. rewrite !app_length, F1_bytes_length, F2_bytes_length, skipn_length. lia. }
    destruct (ec2_decode04 b 0 Hb ltac:(lia)) as (R & ER & AR). exists R. split; [exact E|]. split; [exact ER|].
    cbn [Nat.add] in AR.
    assert (S0 : slice b 0 32 = F1_bytes (snd x)).
    { rewrite slice_0. unfold b. apply firstn_exact. apply F1_bytes_length. }
    assert (S1 : slice b 32 32 = F1_bytes (snd y)).
    { unfold slice, b. rewrite (skipn_exact 32 _ _ (F1_bytes_length _)). unfold F2_bytes. rewrite <- !app_assoc. apply firstn_exact. apply F1_bytes_length. }
    assert (S2 : slice b 64 32 = F1_bytes (fst y)).
    { unfold slice, b. replace 64%nat with (32 + 32)%nat by reflexivity. rewrite <- skipn_skipn'.
      rewrite (skipn_exact 32 _ _ (F1_bytes_length _)). unfold F2_bytes. rewrite <- !app_assoc.
      rewrite (skipn_exact 32 _ _ (F1_bytes_length _)). apply firstn_exact. apply F1_bytes_length. }
    rewrite S0, S1, S2, !g1_fof_bytes_val in AR. destruct y as [y0 y1]. exact AR.
  Qed.

  Section Keys.
    Variable pr : aff (list Z) -> aff (p2 (list Z)) -> res (p12 (list Z)).
    Variables (good : point F1 -> point F2 -> Prop) (e : point F1 -> point F2 -> F12).
    Hypothesis POK : pairing_ok w nn pr good e.
    Notation pub_rep9 := (pub_rep9 w nn e). Notation priv_rep9 := (priv_rep9 w nn e).

    Theorem get_pub_spec pk x y : pub_rep9 pk x y -> sm9_get_pub L9 pk = (F2_bytes x, F2_bytes y).
    Proof.
      intros (PA & _). unfold sm9_get_pub. destruct (pub9_P pk) as [X Y]. destruct PA as [HX HY].
      rewrite (r2_bytes _ _ HX), (r2_bytes _ _ HY). reflexivity.
    Qed.
    Theorem set_pub_spec bx by_ : bytes bx -> length bx = 64%nat -> bytes by_ -> length by_ = 64%nat ->
      let x := (num (be_val (skipn 32 bx)), num (be_val (firstn 32 bx))) in
      let y := (num (be_val (skipn 32 by_)), num (be_val (firstn 32 by_))) in
      (~ E2_on (Aff x y) -> sm9_set_pub L9 pr bx by_ = Throw) /\
      (E2_on (Aff x y) -> zm2 SM9_n (Aff x y) = Inf -> good P1 (Aff x y) ->
        exists pk, sm9_set_pub L9 pr bx by_ = Ok pk /\ pub_rep9 pk x y).
    Proof.
      intros Bx Lx By Ly x y. unfold sm9_set_pub.
      destruct (fp2_read bx 0 Bx ltac:(lia)) as (X & EX & RX). destruct (fp2_read by_ 0 By ltac:(lia)) as (Y & EY & RY).
      unfold fp9 in *. rewrite EX. cbn [bind]. rewrite EY. cbn [bind]. cbn [Nat.add] in RX, RY.
      assert (S0 : forall b : list Z, length b = 64%nat -> slice b 0 32 = firstn 32 b /\ slice b 32 32 = skipn 32 b).
      { intros b Lb. split; [apply slice_0|]. unfold slice. apply firstn_all2. rewrite skipn_length. lia. }
      destruct (S0 bx Lx) as [S1 S2], (S0 by_ Ly) as [S3 S4]. rewrite S1, S2 in RX. rewrite S3, S4 in RY. fold x in RX. fold y in RY.
      assert (AR : ar2 (X, Y) (x, y)) by (split; assumption).
      pose proof (ec2_check _ _ _ AR) as CK. unfold fp9 in *. split.
      - intros N. destruct (sm9_ec2_a_check L9 (X, Y)); [exfalso; apply N; now apply CK|reflexivity].
      - intros On Oo Gd. apply CK in On as C. rewrite C. cbn [negb].
        destruct (pr_ok w nn pr good e POK _ _ _ _ _ _ (P1_ar w nn L9 LOK) AR P1_on On Oo Gd) as (r & Er & Hr).
        unfold fp9 in *. rewrite Er. cbn [bind]. eexists. split; [reflexivity|]. split; [exact AR|]. split; [exact Hr|]. split; assumption.
    Qed.
    Theorem pub_roundtrip pk x y : pub_rep9 pk x y -> good P1 (Aff x y) ->
      exists pk', sm9_set_pub L9 pr (fst (sm9_get_pub L9 pk)) (snd (sm9_get_pub L9 pk)) = Ok pk' /\ pub_rep9 pk' x y.
    Proof.
      intros PK Gd. rewrite (get_pub_spec _ _ _ PK). cbn [fst snd].
      pose proof (set_pub_spec (F2_bytes x) (F2_bytes y) (F2_bytes_bytes _) (F2_bytes_length _) (F2_bytes_bytes _) (F2_bytes_length _)) as S.
      cbv zeta in S.
      assert (Q : forall z, firstn 32 (F2_bytes z) = F1_bytes (snd z) /\ skipn 32 (F2_bytes z) = F1_bytes (fst z)).
      { intros z. unfold F2_bytes. split; [apply firstn_exact|apply skipn_exact]; apply F1_bytes_length. }
      destruct (Q x) as [Q1 Q2], (Q y) as [Q3 Q4]. rewrite Q1, Q2, Q3, Q4, !g1_fof_bytes_val in S.
      destruct PK as (_ & _ & On & Oo). destruct x as [x0 x1], y as [y0 y1]. cbn [fst snd] in *.
      exact (proj2 S On Oo Gd).
    Qed.
    Theorem get_priv_spec sk dx dy x y : priv_rep9 sk dx dy x y ->
      sm9_get_priv L9 sk = (F1_bytes dx, F1_bytes dy, (F2_bytes x, F2_bytes y)).
    Proof.
      intros (SA & _ & PK). unfold sm9_get_priv. rewrite (get_pub_spec _ _ _ PK). destruct (sp_priv sk) as [X Y]. destruct SA as [HX HY].
      rewrite (R1_to_bytes w nn L9 LOK _ _ HX), (R1_to_bytes w nn L9 LOK _ _ HY). reflexivity.
    Qed.
    Theorem priv_roundtrip sk dx dy x y : priv_rep9 sk dx dy x y -> good P1 (Aff x y) ->
      let '(kx, ky, (px, py)) := sm9_get_priv L9 sk in
      exists sk', sm9_set_priv L9 pr kx ky px py = Ok sk' /\ priv_rep9 sk' dx dy x y.
    Proof.
      intros SK Gd. rewrite (get_priv_spec _ _ _ _ _ SK). destruct SK as (SA & SO & PK).
      destruct (pub_roundtrip _ _ _ PK Gd) as (pk' & E & PK'). rewrite (get_pub_spec _ _ _ PK) in E. cbn [fst snd] in E.
      unfold sm9_set_priv. cbv zeta.
      pose proof (R1_from_bytes w nn L9 LOK (F1_bytes dx) (F1_bytes_bytes _) (F1_bytes_length _)) as HX.
      pose proof (R1_from_bytes w nn L9 LOK (F1_bytes dy) (F1_bytes_bytes _) (F1_bytes_length _)) as HY.
      rewrite g1_fof_bytes_val in HX, HY.
      assert (AR : ar1 (sm9_fp_from_bytes L9 (F1_bytes dx), sm9_fp_from_bytes L9 (F1_bytes dy)) (dx, dy)) by (split; assumption).
      pose proof (g1_check w nn L9 LOK _ _ _ AR) as CK. apply CK in SO as C. rewrite C. cbn [negb].
      rewrite E. cbn [bind]. eexists. split; [reflexivity|]. split; [exact AR|]. split; [exact SO|exact PK'].
    Qed.
  End Keys.
End SM9.

(** ** The portable build inverts 1 in F_p^12 to 1 - w *)
Section KF.
  Context {F : Type} (K : field F).
  Add Field FKkf : (f_theory K).
  Notation "1" := (f1 K). Notation "0" := (f0 K).
  Infix "+" := (fadd K). Infix "*" := (fmul K). Infix "-" := (fsub K).
  Lemma one_A v : 1 * 1 - v * (0 * 0) = 1. Proof. ring. Qed.
  Lemma one_C : 0 * 0 - 1 * 0 = 0. Proof. ring. Qed.
  Lemma one_t v b : v * (0 * 0 + 0 * b) + 1 * 1 = 1. Proof. ring. Qed.
  Lemma one_mul x : 1 * x = x. Proof. ring. Qed.
  Lemma mul_one x : x * 1 = x. Proof. ring. Qed.
  Lemma inv_one : finv K 1 = 1. Proof. field. intros E. exact (Field_theory.F_1_neq_0 (f_theory K) E). Qed.
End KF.
Theorem fp12_inv_one_portable :
  rel3 (rel2 (rel2 (R1 32 8))) (fp12_inv (sm9_fp_ops lib9_common) (fp12_one (sm9_fp_ops lib9_common)))
    (f1 K4, fopp K4 (f1 K4), f0 K4).
Proof.
  set (O := sm9_fp_ops lib9_common). unfold fp12_inv, fp12_one. cbv zeta.
  set (B := fp4_sub O (fp4_mul_v O (fp4_sqr O (fp4_zero O))) (fp4_mul O (fp4_one O) (fp4_zero O))).
  assert (HB : rel2 (rel2 (R1 32 8)) B (fopp K4 (f1 K4))).
  { assert (EB : B = ([3332541178; 3403626063; 888528311; 1139091094; 3944582794; 2886162079; 88559075; 1820327936],
        repeat 0 8, (repeat 0 8, repeat 0 8))) by (vm_compute; reflexivity).
    rewrite EB. clear EB B.
    assert (RZ : R1 32 8 (repeat 0 8) (num 0)) by (exact (ok_zero _ _ _ (k_lib _ _ _ lib9_common_ok) _ _ (FP9_CTX_ok 32 8 lib9_common lib9_common_ok))).
    assert (E : fopp K4 (f1 K4) = ((num (-1), num 0), (num 0, num 0))).
    { change (fopp K4 (f1 K4)) with ((fopp K1 (f1 K1), fopp K1 (f0 K1)), (fopp K1 (f0 K1), fopp K1 (f0 K1))).
      assert (E1 : fopp K1 (f1 K1) = num (-1)) by (apply fval_inj; vm_compute; reflexivity).
      assert (E0 : fopp K1 (f0 K1) = num 0) by (apply fval_inj; vm_compute; reflexivity).
      rewrite E1, E0. reflexivity. }
    rewrite E. split; split; try exact RZ.
    split; [|split; [|split]].
    - split; [reflexivity|]. repeat constructor; lia.
    - vm_compute. split; [discriminate|reflexivity].
    - vm_compute. split; [discriminate|reflexivity].
    - vm_compute. reflexivity. }
  clearbody B. pose proof lib9_common_ok as LOK.
  pose proof (one4 _ _ _ _ (sm9_ops9 _ _ _ LOK)) as H1. pose proof (zero4 _ _ _ _ (sm9_ops9 _ _ _ LOK)) as H0.
  change (fp4_one (Fops K1)) with (f1 K4) in H1. change (fp4_zero (Fops K1)) with (f0 K4) in H0. fold O in H1, H0.
  pose proof (r4_w 32 8 _ LOK _ _ H1) as W1'. pose proof (r4_w 32 8 _ LOK _ _ H0) as W0'.
  pose proof (r4_w 32 8 _ LOK _ _ HB) as WB.
  pose proof (r4_sub 32 8 _ LOK _ _ _ _ (r4_sqr 32 8 _ LOK _ _ W1') (r4_mul_v 32 8 _ LOK _ _ (r4_mul 32 8 _ LOK _ _ _ _ W0' W0'))) as HA.
  pose proof (r4_sub 32 8 _ LOK _ _ _ _ (r4_sqr 32 8 _ LOK _ _ W0') (r4_w 32 8 _ LOK _ _ (r4_mul 32 8 _ LOK _ _ _ _ W1' W0'))) as HC.
  rewrite one_A in HA. rewrite one_C in HC. fold O in HA, HC. unfold fp9 in *.
  set (A := fp4_sub O (fp4_sqr O (fp4_one O)) _) in *. set (C := fp4_sub O (fp4_sqr O (fp4_zero O)) _) in *. clearbody A C.
  pose proof (r4_w 32 8 _ LOK _ _ HA) as WA. pose proof (r4_w 32 8 _ LOK _ _ HC) as WC.
  pose proof (r4_add 32 8 _ LOK _ _ _ _ (r4_mul_v 32 8 _ LOK _ _ (r4_add 32 8 _ LOK _ _ _ _ (r4_w 32 8 _ LOK _ _ (r4_mul 32 8 _ LOK _ _ _ _ W0' WC))
     (r4_mul 32 8 _ LOK _ _ _ _ W0' WB))) (r4_mul 32 8 _ LOK _ _ _ _ W1' WA)) as HT.
  rewrite one_t in HT. pose proof (r4_inv 32 8 _ LOK _ _ (r4_w 32 8 _ LOK _ _ HT)) as HI. rewrite inv_one in HI. fold O in HI. unfold fp9 in *.
  set (ti := fp4_inv O _) in *. clearbody ti.
  pose proof (r4_mul 32 8 _ LOK _ _ _ _ WA HI) as G0. pose proof (r4_mul 32 8 _ LOK _ _ _ _ WB HI) as G1. pose proof (r4_mul 32 8 _ LOK _ _ _ _ WC HI) as G2.
  rewrite mul_one in G0, G1, G2. split; [exact G0|]. split; [exact G1|exact G2].
Qed.
Section KS.
  Context {F : Type} (K : field F).
  Add Field FKks : (f_theory K).
  Lemma sub_0_r x : fsub K x (f0 K) = x. Proof. ring. Qed.
  Lemma sub_0_l x : fsub K (f0 K) x = fopp K x. Proof. ring. Qed.
End KS.

(** ** Values of the final exponentiation *)
Lemma fe_order x : x <> f0 K12 -> fpow K12 (fpow K12 x ((SM9_p ^ 12 - 1) / SM9_n)) SM9_n = f1 K12.
Proof.
  intros N. rewrite <- fe_exp_div. rewrite <- fpow_mul; [|pose proof fe_exp_pos; lia|exact (Z.lt_le_incl _ _ n9_pos)].
  rewrite fe_exp_n. exact (fpow_p12_1 x N).
Qed.
Theorem pow_zero_ub w nn L9 : numlib9_ok w nn L9 -> forall a x, rel3 (rel2 (rel2 (R1 w nn))) a x -> x <> f0 K12 ->
  sm9_fp12_pow L9 a (repeat 0 32) = UB.
Proof.
  intros LOK a x Ha N. pose proof (r12_pow w nn L9 LOK a x (repeat 0 32) Ha) as HR.
  assert (E : fp12_pow (Fops K1) x (repeat 0 32) = UB).
  { unfold fp12_pow. destruct (fp12_equal_zero (Fops K1) x) eqn:EZ; [apply is012_k1 in EZ; contradiction|]. reflexivity. }
  rewrite E in HR. unfold sm9_fp12_pow. destruct (fp12_pow _ a (repeat 0 32)); try contradiction. reflexivity.
Qed.
Lemma parses9_reads l x y : SM9_parses l x y -> l <> [] /\
  ((nz l 0 = 4 \/ nz l 0 = 6 \/ nz l 0 = 7) -> (65 <= length l)%nat) /\ ((nz l 0 = 2 \/ nz l 0 = 3) -> (33 <= length l)%nat).
Proof.
  intros PS. destruct (parses9_len _ _ _ PS) as (b0 & r & E0 & LL). split; [rewrite E0; discriminate|].
  assert (E : nz l 0 = b0) by (rewrite E0; reflexivity). rewrite E. clear - LL. split; lia.
Qed.

(** Bytes, comparisons and conversions of SM9 and SM2 field elements. *)
From Coq Require Import Znumtheory Field_theory.
From Verif Require Import Base BaseFacts ModelEndian ProofEndian ModelNumber SpecNumber ProofNumber ModelMont SpecMont
  ProofMont SpecField SpecTower SpecEC SpecJac ProofEC ProofECMul ProofFermat ModelEC ProofJac ProofJacRep
  ProofNumlib ProofZops ModelSM2 ProofSM2Enc ProofSM2b ProofSM2c ModelSM9 ProofNumlib9 SpecSM9 ProofTower ProofTowerRep ProofSM2Rep
  ProofFrob ProofSM9Frob ProofSM9Pow ProofSM9Fin ProofSM9Rep ProofSM9Curve SpecSM2 SpecSM2Curve SpecSM2Api SpecSM9Api ProofSM9Point
  ProofSM9Enc ProofSM9 ProofSM9Sign ProofSM9Pub ModelSM9Elem SpecSM9Elem.

Lemma app_inj_len {A} (a b c d : list A) : length a = length c -> a ++ b = c ++ d -> a = c /\ b = d.
Proof.
  revert c. induction a as [|x a IH]; intros [|y c] Hl E; cbn in *; try discriminate; [auto|].
  injection E as E1 E2. destruct (IH c (eq_add_S _ _ Hl) E2). subst. auto.
Qed.
Lemma F4_bytes_length z : length (F4_bytes z) = 128%nat.
Proof. unfold F4_bytes. rewrite app_length, !F2_bytes_length. reflexivity. Qed.
Lemma F4_bytes_bytes z : bytes (F4_bytes z).
Proof. unfold F4_bytes. apply bytes_app; split; apply F2_bytes_bytes. Qed.
Lemma F2_bytes_inj x y : F2_bytes x = F2_bytes y -> x = y.
Proof.
  destruct x as [x0 x1], y as [y0 y1]. intros E. unfold F2_bytes in E. cbn [fst snd] in E.
  apply app_inj_len in E; [|now rewrite !F1_bytes_length]. destruct E as [E1 E0].
  apply F1_bytes_inj in E1, E0. subst. reflexivity.
Qed.
Lemma F4_bytes_inj x y : F4_bytes x = F4_bytes y -> x = y.
Proof.
  destruct x as [x0 x1], y as [y0 y1]. intros E. unfold F4_bytes in E. cbn [fst snd] in E.
  apply app_inj_len in E; [|now rewrite !F2_bytes_length]. destruct E as [E1 E0].
  apply F2_bytes_inj in E1, E0. subst. reflexivity.
Qed.
Lemma F12_bytes_inj x y : F12_bytes x = F12_bytes y -> x = y.
Proof.
  destruct x as [[x0 x1] x2], y as [[y0 y1] y2]. intros E. unfold F12_bytes in E.
  apply app_inj_len in E; [|now rewrite !F4_bytes_length]. destruct E as [E2 E].
  apply app_inj_len in E; [|now rewrite !F4_bytes_length]. destruct E as [E1 E0].
  apply F4_bytes_inj in E2, E1, E0. subst. reflexivity.
Qed.

(** groups of an encoding *)
Lemma num_F1_bytes x : num (be_val (F1_bytes x)) = x.
Proof.
  unfold F1_bytes. rewrite be_val_be_bytes.
  pose proof (fval_range _ x eq_refl) as R.
  assert (P : SM9_p < 256 ^ Z.of_nat 32) by reflexivity.
  rewrite Z.mod_small by (clear - R P; lia). apply fof_fval.
Qed.
Lemma g1_at pre x post : F1_at (pre ++ F1_bytes x ++ post) (length pre) = x.
Proof. unfold F1_at. rewrite slice_exact by (reflexivity || apply F1_bytes_length). apply num_F1_bytes. Qed.
Lemma g2_at pre x post : F2_at (pre ++ F2_bytes x ++ post) (length pre) = x.
Proof.
  destruct x as [x0 x1]. unfold F2_at, F2_bytes. cbn [fst snd]. rewrite <- app_assoc. f_equal.
  - rewrite app_assoc. replace (length pre + 32)%nat with (length (pre ++ F1_bytes x1)); [apply g1_at|].
    rewrite app_length, F1_bytes_length. reflexivity.
  - apply g1_at.
Qed.
Lemma g4_at pre x post : F4_at (pre ++ F4_bytes x ++ post) (length pre) = x.
Proof.
  destruct x as [x0 x1]. unfold F4_at, F4_bytes. cbn [fst snd]. rewrite <- app_assoc. f_equal.
  - rewrite app_assoc. replace (length pre + 64)%nat with (length (pre ++ F2_bytes x1)); [apply g2_at|].
    rewrite app_length, F2_bytes_length. reflexivity.
  - apply g2_at.
Qed.
Lemma g12_at pre x post : F12_at (pre ++ F12_bytes x ++ post) (length pre) = x.
Proof.
  destruct x as [[x0 x1] x2]. unfold F12_at, F12_bytes. rewrite <- !app_assoc. f_equal; [f_equal|].
  - rewrite (app_assoc pre), (app_assoc (pre ++ F4_bytes x2)).
    replace (length pre + 256)%nat with (length ((pre ++ F4_bytes x2) ++ F4_bytes x1)); [apply g4_at|].
    rewrite !app_length, !F4_bytes_length. lia.
  - rewrite (app_assoc pre).
    replace (length pre + 128)%nat with (length (pre ++ F4_bytes x2)); [apply g4_at|].
    rewrite !app_length, !F4_bytes_length. lia.
  - apply g4_at.
Qed.
(** encodings of groups below p *)
Lemma slice_app_next {A} (l : list A) o m k : slice l o m ++ slice l (o + m) k = slice l o (m + k).
Proof.
  unfold slice. rewrite <- (skipn_skipn' m o l).
  generalize (skipn o l). clear. intros r. revert r. induction m as [|m IH]; intros [|x r]; cbn; try reflexivity.
  - now rewrite firstn_nil.
  - f_equal. apply IH.
Qed.
Definition below (b : list Z) (o : nat) : Prop := be_val (slice b o 32) < SM9_p.
Lemma F1_g1 b o : bytes b -> (o + 32 <= length b)%nat -> below b o -> F1_bytes (F1_at b o) = slice b o 32.
Proof.
  intros Hb Hl Hp. unfold F1_bytes, F1_at. unfold below in Hp.
  pose proof (bytes_slice b o 32 Hb) as HS. pose proof (slice_length b o 32 Hl) as LS.
  revert Hp HS LS. generalize (slice b o 32). clear. intros s Hp HS LS.
  rewrite fval_num. rewrite Z.mod_small.
  - rewrite <- LS. now apply be_bytes_be_val.
  - pose proof (be_val_bound s HS). lia.
Qed.
Lemma F2_g2 b o : bytes b -> (o + 64 <= length b)%nat -> below b o -> below b (o + 32) -> F2_bytes (F2_at b o) = slice b o 64.
Proof.
  intros Hb Hl B0 B1. unfold F2_bytes, F2_at. cbn [fst snd]. rewrite !F1_g1 by (assumption || lia).
  apply (slice_app_next b o 32 32).
Qed.
Lemma F4_g4 b o : bytes b -> (o + 128 <= length b)%nat -> (forall i, (i < 4)%nat -> below b (o + 32 * i)) -> F4_bytes (F4_at b o) = slice b o 128.
Proof.
  intros Hb Hl B. unfold F4_bytes, F4_at. cbn [fst snd].
  pose proof (B 0%nat ltac:(lia)) as B0. pose proof (B 1%nat ltac:(lia)) as B1.
  pose proof (B 2%nat ltac:(lia)) as B2. pose proof (B 3%nat ltac:(lia)) as B3. cbn [Nat.mul Nat.add] in *.
  rewrite Nat.add_0_r in B0.
  rewrite (F2_g2 b o), (F2_g2 b (o + 64)); try assumption; try lia; try (replace (o + 64 + 32)%nat with (o + 96)%nat by lia; assumption).
  apply (slice_app_next b o 64 64).
Qed.
Lemma F12_g12 b o : bytes b -> (o + 384 <= length b)%nat -> (forall i, (i < 12)%nat -> below b (o + 32 * i)) -> F12_bytes (F12_at b o) = slice b o 384.
Proof.
  intros Hb Hl B. unfold F12_bytes, F12_at.
  rewrite (F4_g4 b o), (F4_g4 b (o + 128)), (F4_g4 b (o + 256)); try assumption; try lia.
  - rewrite (slice_app_next b (o + 128) 128 128) || (replace (o + 256)%nat with (o + 128 + 128)%nat by lia; rewrite (slice_app_next b (o + 128) 128 128)).
    apply (slice_app_next b o 128 256).
  - intros i Hi. replace (o + 256 + 32 * i)%nat with (o + 32 * (i + 8))%nat by lia. apply B. lia.
  - intros i Hi. replace (o + 128 + 32 * i)%nat with (o + 32 * (i + 4))%nat by lia. apply B. lia.
  - intros i Hi. apply B. lia.
Qed.

Section SM9.
  Variables (w : Z) (nn : nat) (L9 : numlib9).
  Hypothesis LOK : numlib9_ok w nn L9.
  Notation L := (l9 L9).
  Notation LK := (k_lib w nn L9 LOK).
  Notation R1 := (R1 w nn). Notation R2 := (rel2 R1). Notation R4 := (rel2 R2). Notation R12 := (rel3 R4).
  Notation Op := (sm9_fp_ops L9).
  Notation Rn9 := (Rn9 w nn).

  Lemma r4_bytes c z : R4 c z -> sm9_fp4_to_bytes L9 c = F4_bytes z.
  Proof.
    destruct c as [c0 c1], z as [z0 z1]. intros [C0 C1]. unfold sm9_fp4_to_bytes, F4_bytes. cbn [fst snd] in *.
    rewrite (r2_bytes w nn L9 LOK _ _ C0), (r2_bytes w nn L9 LOK _ _ C1). reflexivity.
  Qed.
  Lemma fp4_read b off : bytes b -> (off + 128 <= length b)%nat ->
    exists c, sm9_fp4_from_bytes L9 b off = Ok c /\ R4 c (F4_at b off).
  Proof.
    intros Hb Hl. unfold sm9_fp4_from_bytes.
    destruct (fp2_read w nn L9 LOK b off Hb ltac:(lia)) as (c1 & E1 & H1).
    destruct (fp2_read w nn L9 LOK b (off + 64) Hb ltac:(lia)) as (c0 & E0 & H0).
    unfold fp9 in *. rewrite E1. cbn [bind]. rewrite E0. cbn [bind]. eexists. split; [reflexivity|].
    split; [exact H0|exact H1].
  Qed.
  Lemma fp12_read b off : bytes b -> (off + 384 <= length b)%nat ->
    exists c, sm9_fp12_from_bytes L9 b off = Ok c /\ R12 c (F12_at b off).
  Proof.
    intros Hb Hl. unfold sm9_fp12_from_bytes.
    destruct (fp4_read b off Hb ltac:(lia)) as (c2 & E2 & H2).
    destruct (fp4_read b (off + 128) Hb ltac:(lia)) as (c1 & E1 & H1).
    destruct (fp4_read b (off + 256) Hb ltac:(lia)) as (c0 & E0 & H0).
    unfold fp9 in *. rewrite E2. cbn [bind]. rewrite E1. cbn [bind]. rewrite E0. cbn [bind]. eexists. split; [reflexivity|].
    split; [exact H0|]. split; [exact H1|exact H2].
  Qed.

  (** ** Comparisons *)
  Lemma e2 a b x y : R2 a x -> R2 b y -> (fp2_equal Op a b = true <-> x = y).
  Proof. intros Ha Hb. rewrite (r2_eq w nn L9 LOK _ _ _ _ Ha Hb). destruct (feq_dec K2 x y); split; intros; (assumption || reflexivity || discriminate || contradiction). Qed.
  Lemma z2 a x : R2 a x -> (fp2_equal_zero Op a = true <-> x = f0 K2).
  Proof. intros Ha. rewrite (r2_is0 w nn L9 LOK _ _ Ha). destruct (feq_dec K2 x (f0 K2)); split; intros; (assumption || reflexivity || discriminate || contradiction). Qed.
  Lemma z1 a x : R1 a x -> (o_is0 Op a = true <-> x = f0 K1).
  Proof.
    intros Ha. change (o_is0 Op a) with (m_equal_zero L (FP9_CTX L9) a).
    rewrite (ok_equal_zero _ _ _ LK _ _ _ _ (FP9_CTX_ok w nn L9 LOK) Ha), Z.eqb_eq. split; intros E.
    - apply fval_inj. rewrite E. reflexivity.
    - rewrite E. reflexivity.
  Qed.
  Lemma o1 a x : R1 a x -> (m_equal_one L (FP9_CTX L9) a = true <-> x = f1 K1).
  Proof.
    intros Ha. rewrite (ok_equal_one _ _ _ LK _ _ _ _ (FP9_CTX_ok w nn L9 LOK) Ha), Z.eqb_eq. split; intros E.
    - apply fval_inj. rewrite E. reflexivity.
    - rewrite E. reflexivity.
  Qed.
  Lemma pair_iff {A B} (a c : A) (b d : B) : (a, b) = (c, d) <-> a = c /\ b = d.
  Proof. split; [intros E; injection E; auto|intros [-> ->]; reflexivity]. Qed.
  Lemma o2 a x : R2 a x -> (sm9_fp2_equal_one L9 a = true <-> x = f1 K2).
  Proof.
    destruct a as [a0 a1], x as [x0 x1]. intros [H0 H1]. cbn [fst snd] in *. unfold sm9_fp2_equal_one. cbn [fst snd].
    rewrite Bool.andb_true_iff, (o1 _ _ H0), (z1 _ _ H1). change (f1 K2) with (f1 K1, f0 K1). symmetry. apply pair_iff.
  Qed.
  Lemma e4 a b x y : R4 a x -> R4 b y -> (sm9_fp4_equal L9 a b = true <-> x = y).
  Proof.
    destruct a as [a0 a1], b as [b0 b1], x as [x0 x1], y as [y0 y1]. intros [H0 H1] [G0 G1]. cbn [fst snd] in *.
    unfold sm9_fp4_equal. cbn [fst snd]. rewrite Bool.andb_true_iff. unfold fp9 in *. rewrite (e2 _ _ _ _ H0 G0), (e2 _ _ _ _ H1 G1). symmetry. apply pair_iff.
  Qed.
  Lemma z4 a x : R4 a x -> (fp4_equal_zero Op a = true <-> x = f0 K4).
  Proof.
    destruct a as [a0 a1], x as [x0 x1]. intros [H0 H1]. cbn [fst snd] in *.
    unfold fp4_equal_zero. cbn [fst snd]. rewrite Bool.andb_true_iff, (z2 _ _ H0), (z2 _ _ H1).
    change (f0 K4) with (f0 K2, f0 K2). symmetry. apply pair_iff.
  Qed.
  Lemma o4 a x : R4 a x -> (sm9_fp4_equal_one L9 a = true <-> x = f1 K4).
  Proof.
    destruct a as [a0 a1], x as [x0 x1]. intros [H0 H1]. cbn [fst snd] in *.
    unfold sm9_fp4_equal_one. cbn [fst snd]. rewrite Bool.andb_true_iff. unfold fp9 in *. rewrite (o2 _ _ H0), (z2 _ _ H1).
    change (f1 K4) with (f1 K2, f0 K2). symmetry. apply pair_iff.
  Qed.
  Lemma triple_iff {A B C} (a a' : A) (b b' : B) (c c' : C) : (a, b, c) = (a', b', c') <-> (a = a' /\ b = b') /\ c = c'.
  Proof. rewrite !pair_iff. reflexivity. Qed.
  Lemma e12 a b x y : R12 a x -> R12 b y -> (sm9_fp12_equal L9 a b = true <-> x = y).
  Proof.
    destruct a as [[a0 a1] a2], b as [[b0 b1] b2], x as [[x0 x1] x2], y as [[y0 y1] y2]. intros (H0 & H1 & H2) (G0 & G1 & G2).
    unfold sm9_fp12_equal. rewrite !Bool.andb_true_iff, (e4 _ _ _ _ H0 G0), (e4 _ _ _ _ H1 G1), (e4 _ _ _ _ H2 G2). symmetry. apply triple_iff.
  Qed.
  Lemma z12 a x : R12 a x -> (fp12_equal_zero Op a = true <-> x = f0 K12).
  Proof.
    destruct a as [[a0 a1] a2], x as [[x0 x1] x2]. intros (H0 & H1 & H2).
    unfold fp12_equal_zero. rewrite !Bool.andb_true_iff, (z4 _ _ H0), (z4 _ _ H1), (z4 _ _ H2).
    change (f0 K12) with (f0 K4, f0 K4, f0 K4). symmetry. apply triple_iff.
  Qed.
  Lemma o12 a x : R12 a x -> (sm9_fp12_equal_one L9 a = true <-> x = f1 K12).
  Proof.
    destruct a as [[a0 a1] a2], x as [[x0 x1] x2]. intros (H0 & H1 & H2).
    unfold sm9_fp12_equal_one. rewrite !Bool.andb_true_iff. unfold fp9 in *. rewrite (o4 _ _ H0), (z4 _ _ H1), (z4 _ _ H2).
    change (f1 K12) with (f1 K4, f0 K4, f0 K4). symmetry. apply triple_iff.
  Qed.
  Lemma je1 J1 J2 x1 y1 x2 y2 : jrep K1 R1 J1 (Aff x1 y1) -> jrep K1 R1 J2 (Aff x2 y2) ->
    (j_equal Op J1 J2 = true <-> x1 = x2 /\ y1 = y2).
  Proof.
    intros (j1 & H1 & Q1) (j2 & H2 & Q2). rewrite (equal_rep _ _ _ _ (sm9_rel1 w nn L9 LOK) _ _ _ _ H1 H2).
    assert (E : j_equal (Fops K1) j1 j2 = true <-> Aff x1 y1 = Aff x2 y2).
    { clear - Q1 Q2. destruct K1. apply (j_equal_ok _ _ _ _ _ _ _ _ _ _ f_theory j1 j2 _ _ Q1 Q2); discriminate. }
    rewrite E. split; [intros V; injection V; auto|intros [-> ->]; reflexivity].
  Qed.
  Lemma je2 J1 J2 x1 y1 x2 y2 : jrep K2 R2 J1 (Aff x1 y1) -> jrep K2 R2 J2 (Aff x2 y2) ->
    (j_equal (sm9_fp2_ops L9) J1 J2 = true <-> x1 = x2 /\ y1 = y2).
  Proof.
    intros (j1 & H1 & Q1) (j2 & H2 & Q2). rewrite (equal_rep _ _ _ _ (sm9_rel2 w nn L9 LOK) _ _ _ _ H1 H2).
    assert (E : j_equal (Fops K2) j1 j2 = true <-> Aff x1 y1 = Aff x2 y2).
    { clear - Q1 Q2. destruct K2. apply (j_equal_ok _ _ _ _ _ _ _ _ _ _ f_theory j1 j2 _ _ Q1 Q2); discriminate. }
    rewrite E. split; [intros V; injection V; auto|intros [-> ->]; reflexivity].
  Qed.

  (** ** Conversions *)
  Lemma p256 : SM9_p < 256 ^ Z.of_nat 32. Proof. reflexivity. Qed.
  Lemma n256 : SM9_n < 256 ^ Z.of_nat 32. Proof. reflexivity. Qed.
  Lemma n_lt_p : SM9_n < SM9_p. Proof. reflexivity. Qed.
  Lemma bv32 x P : P < 256 ^ Z.of_nat 32 -> 0 <= x < P -> be_val (be_bytes 32 x) = x.
  Proof. intros H1 H2. rewrite be_val_be_bytes. apply Z.mod_small. revert H1. generalize (256 ^ Z.of_nat 32). intros. lia. Qed.
  Lemma fp_bn a x : R1 a x -> limbs w nn (sm9_fp_to_bn L9 a) /\ val w (sm9_fp_to_bn L9 a) = fval x.
  Proof.
    intros Ha. unfold sm9_fp_to_bn. rewrite (R1_to_bytes w nn L9 LOK _ _ Ha).
    destruct (ok_from_bytes _ _ _ LK (F1_bytes x) (F1_bytes_bytes x) (F1_bytes_length x)) as [A B]. split; [exact A|].
    rewrite B. unfold F1_bytes. apply (bv32 _ SM9_p p256). apply (fval_range _ x eq_refl).
  Qed.
  Lemma bvl a : limbs w nn a -> be_val (be_bytes 32 (val w a)) = val w a.
  Proof. intros Ha. rewrite be_val_be_bytes. apply Z.mod_small. exact (vb256 w nn L9 LOK a Ha). Qed.
  Lemma bn_fp a : limbs w nn a -> R1 (sm9_fp_from_bn L9 a) (num (val w a)).
  Proof.
    intros Ha. unfold sm9_fp_from_bn. rewrite (ok_to_bytes _ _ _ LK a Ha).
    pose proof (R1_from_bytes w nn L9 LOK (be_bytes 32 (val w a)) (be_bytes_bytes _ _) (be_bytes_length _ _)) as R.
    rewrite (bvl a Ha) in R. exact R.
  Qed.
  Lemma bn_fn a : limbs w nn a -> Rn9 (sm9_fn_from_bn L9 a) (val w a mod SM9_n).
  Proof.
    intros Ha. unfold sm9_fn_from_bn. rewrite (ok_to_bytes _ _ _ LK a Ha).
    pose proof (Rn9_from_bytes w nn L9 LOK (be_bytes 32 (val w a)) (be_bytes_bytes _ _) (be_bytes_length _ _)) as R.
    rewrite (bvl a Ha) in R. exact R.
  Qed.
  Lemma fn_bn a x : Rn9 a x -> limbs w nn (sm9_fn_to_bn L9 a) /\ val w (sm9_fn_to_bn L9 a) = x.
  Proof.
    intros Ha. unfold sm9_fn_to_bn. rewrite (Rn9_to_bytes w nn L9 LOK _ _ Ha).
    destruct (ok_from_bytes _ _ _ LK (be_bytes 32 x) (be_bytes_bytes _ _) (be_bytes_length _ _)) as [A B]. split; [exact A|].
    rewrite B. apply (bv32 _ SM9_n n256). exact (proj1 (proj2 (proj2 Ha))).
  Qed.
  Lemma fp_fn a x : R1 a x -> Rn9 (sm9_fn_from_fp L9 a) (fval x mod SM9_n).
  Proof.
    intros Ha. unfold sm9_fn_from_fp. rewrite (R1_to_bytes w nn L9 LOK _ _ Ha).
    pose proof (Rn9_from_bytes w nn L9 LOK _ (F1_bytes_bytes x) (F1_bytes_length x)) as R.
    unfold F1_bytes in R at 2. rewrite (bv32 _ SM9_p p256 (fval_range _ x eq_refl)) in R. exact R.
  Qed.
  Lemma fn_fp a x : Rn9 a x -> R1 (sm9_fn_to_fp L9 a) (num x).
  Proof.
    intros Ha. unfold sm9_fn_to_fp. rewrite (Rn9_to_bytes w nn L9 LOK _ _ Ha).
    pose proof (R1_from_bytes w nn L9 LOK _ (be_bytes_bytes 32 x) (be_bytes_length 32 x)) as R.
    rewrite (bv32 _ SM9_n n256 (proj1 (proj2 (proj2 Ha)))) in R. exact R.
  Qed.

  (** ** Reductions modulo n - 2, n - 3 *)
  Lemma cond_sub a d m : limbs w nn a -> bytes d -> length d = 32%nat -> be_val d = m -> 0 < m -> 2 ^ 256 < 2 * m ->
    let r := if 0 <=? nl_cmp L a (nl_epi8 L d) then fst (nl_sub L a (nl_epi8 L d)) else a in
    limbs w nn r /\ val w r = val w a mod m.
  Proof.
    intros Ha Hd Ld Vd M0 M1. destruct (ok_epi8 _ _ _ LK d Hd Ld) as [A B]. rewrite Vd in B. cbv zeta.
    pose proof (vb256 w nn L9 LOK _ Ha) as VB.
    rewrite (ok_cmp _ _ _ LK _ _ Ha A), B.
    assert (CG : forall x y, (0 <=? Zcmp x y) = (y <=? x)).
    { clear. intros x y. unfold Zcmp. destruct (Z.ltb_spec y x), (Z.ltb_spec x y); cbn; lia. }
    rewrite CG. destruct (Z.leb_spec m (val w a)) as [G|G].
    - destruct (ok_sub _ _ _ LK a _ Ha A ltac:(rewrite B; exact G)) as [S1 S2]. split; [exact S1|]. rewrite S2, B.
      clear - VB M0 M1 G. revert VB M0 M1 G. generalize (val w a) (2 ^ 256). intros v M. intros.
      rewrite <- (Z.mod_small (v - m) m) by lia. rewrite <- (Z_mod_plus_full (v - m) 1 m). f_equal. lia.
    - split; [exact Ha|]. symmetry. apply Z.mod_small. clear - VB G. lia.
  Qed.
  Lemma mod_sub2 a : limbs w nn a ->
    limbs w nn (sm9_bn_mod_n_sub2 L9 a) /\ val w (sm9_bn_mod_n_sub2 L9 a) = val w a mod (SM9_n - 2).
  Proof. intros Ha. apply (cond_sub a N9_SUB2_DATA (SM9_n - 2) Ha); [const_bytes|reflexivity..]. Qed.
  Lemma mod_sub3 a : limbs w nn a ->
    limbs w nn (sm9_bn_mod_n_sub3 L9 a) /\ val w (sm9_bn_mod_n_sub3 L9 a) = val w a mod (SM9_n - 3).
  Proof. intros Ha. apply (cond_sub a N9_SUB3_DATA (SM9_n - 3) Ha); [const_bytes|reflexivity..]. Qed.
End SM9.

Section SM2.
  Variables (w : Z) (nn : nat) (L : numlib).
  Hypothesis LOK : numlib_ok w nn L.
  Notation Rp := (Rp w nn). Notation Rn := (Rn w nn).
  Lemma sp256 : SM2_p < 256 ^ Z.of_nat 32. Proof. reflexivity. Qed.
  Lemma sn256 : SM2_n < 256 ^ Z.of_nat 32. Proof. reflexivity. Qed.
  Lemma svb a : limbs w nn a -> 0 <= val w a < 2 ^ 256.
  Proof.
    intros Ha. pose proof (val_bound w nn a (Z.lt_le_incl _ _ (Z.lt_trans _ _ _ Z.lt_0_1 (ok_w _ _ _ LOK))) Ha) as VB.
    unfold pw in VB. rewrite (ok_wn _ _ _ LOK) in VB. exact VB.
  Qed.
  Lemma sbvl a : limbs w nn a -> be_val (be_bytes 32 (val w a)) = val w a.
  Proof. intros Ha. rewrite be_val_be_bytes. apply Z.mod_small. exact (svb a Ha). Qed.
  Lemma s_fp_bn a x : Rp a x -> limbs w nn (sm2_fp_to_bn L a) /\ val w (sm2_fp_to_bn L a) = fval x.
  Proof.
    intros Ha. unfold sm2_fp_to_bn. rewrite (Rp_to_bytes w nn L LOK _ _ Ha).
    destruct (ok_from_bytes _ _ _ LOK (be_bytes 32 (fval x)) (be_bytes_bytes _ _) (be_bytes_length _ _)) as [A B]. split; [exact A|].
    rewrite B. apply (bv32 _ SM2_p sp256). apply (fval_range _ x eq_refl).
  Qed.
  Lemma s_bn_fp a : limbs w nn a -> Rp (sm2_fp_from_bn L a) (fof SM2_p (val w a)).
  Proof.
    intros Ha. unfold sm2_fp_from_bn. rewrite (ok_to_bytes _ _ _ LOK a Ha).
    pose proof (Rp_from_bytes w nn L LOK (be_bytes 32 (val w a)) (be_bytes_bytes _ _) (be_bytes_length _ _)) as R.
    rewrite (sbvl a Ha) in R. exact R.
  Qed.
  Lemma s_bn_fn a : limbs w nn a -> Rn (sm2_fn_from_bn L a) (val w a mod SM2_n).
  Proof.
    intros Ha. unfold sm2_fn_from_bn. rewrite (ok_to_bytes _ _ _ LOK a Ha).
    pose proof (Rn_from_bytes w nn L LOK (be_bytes 32 (val w a)) (be_bytes_bytes _ _) (be_bytes_length _ _)) as R.
    rewrite (sbvl a Ha) in R. exact R.
  Qed.
  Lemma s_fn_bn a x : Rn a x -> limbs w nn (sm2_fn_to_bn L a) /\ val w (sm2_fn_to_bn L a) = x.
  Proof.
    intros Ha. unfold sm2_fn_to_bn. rewrite (Rn_to_bytes w nn L LOK _ _ Ha).
    destruct (ok_from_bytes _ _ _ LOK (be_bytes 32 x) (be_bytes_bytes _ _) (be_bytes_length _ _)) as [A B]. split; [exact A|].
    rewrite B. apply (bv32 _ SM2_n sn256). exact (proj1 (proj2 (proj2 Ha))).
  Qed.
  Lemma s_fn_fp a x : Rn a x -> Rp (sm2_fn_to_fp L a) (fof SM2_p x).
  Proof.
    intros Ha. unfold sm2_fn_to_fp. rewrite (Rn_to_bytes w nn L LOK _ _ Ha).
    pose proof (Rp_from_bytes w nn L LOK _ (be_bytes_bytes 32 x) (be_bytes_length 32 x)) as R.
    rewrite (bv32 _ SM2_n sn256 (proj1 (proj2 (proj2 Ha)))) in R. exact R.
  Qed.
  Lemma s_mod_sub2 a : limbs w nn a ->
    limbs w nn (sm2_bn_mod_n_sub2 L a) /\ val w (sm2_bn_mod_n_sub2 L a) = val w a mod (SM2_n - 2).
  Proof.
    intros Ha. unfold sm2_bn_mod_n_sub2.
    destruct (ok_epi8 _ _ _ LOK N_SUB2_DATA ltac:(const_bytes) eq_refl) as [A B].
    assert (V : be_val N_SUB2_DATA = SM2_n - 2) by reflexivity. rewrite V in B.
    assert (M : 0 < SM2_n - 2 /\ 2 ^ 256 < 2 * (SM2_n - 2)) by (split; reflexivity).
    pose proof (svb _ Ha) as VB. rewrite (ok_cmp _ _ _ LOK _ _ Ha A), B.
    assert (CG : forall x y, (0 <=? Zcmp x y) = (y <=? x)).
    { clear. intros x y. unfold Zcmp. destruct (Z.ltb_spec y x), (Z.ltb_spec x y); cbn; lia. }
    rewrite CG. destruct (Z.leb_spec (SM2_n - 2) (val w a)) as [G|G].
    - destruct (ok_sub _ _ _ LOK a _ Ha A ltac:(rewrite B; exact G)) as [S1 S2]. split; [exact S1|]. rewrite S2, B.
      clear - VB M G. revert VB M G. generalize (SM2_n - 2) (val w a) (2 ^ 256). intros m v K VB [M0 M1] G.
      rewrite <- (Z.mod_small (v - m) m) by lia. rewrite <- (Z_mod_plus_full (v - m) 1 m). f_equal. lia.
    - split; [exact Ha|]. symmetry. apply Z.mod_small. clear - VB G. lia.
  Qed.
End SM2.

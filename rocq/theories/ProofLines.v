(** Lines meeting the curve y^2 = x^3 + b: the identities behind the bilinearity of the pairing. *)
From Coq Require Import Field.
From Verif Require Import Base SpecField SpecEC SpecPairing ProofEC ProofECMul ProofIso.

Section Lines.
  Context {L : Type} (K : field L) (b : L).
  Add Field FKlines : (f_theory K).
  Infix "+" := (fadd K). Infix "*" := (fmul K). Infix "-" := (fsub K). Infix "/" := (fdiv K).
  Notation "- x" := (fopp K x).
  (** the line y = l x + m meets the curve in (xA, yA), (xB, yB) and (xE, -yE), with multiplicity *)
  Definition dat (xA yA xB yB xE yE l m : L) : Prop :=
    (yA = l * xA + m /\ yB = l * xB + m /\ - yE = l * xE + m) /\
    (l * l = xA + xB + xE /\ - (l * m + l * m) = xA * xB + xA * xE + xB * xE /\ m * m - b = xA * xB * xE).
  Lemma dat_fact xA yA xB yB xE yE l m : dat xA yA xB yB xE yE l m -> forall x,
    x * x * x + b - (l * x + m) * (l * x + m) = (x - xA) * (x - xB) * (x - xE).
  Proof.
    intros [_ (H1 & H2 & H3)] x.
    transitivity (x * x * x - l * l * (x * x) + - (l * m + l * m) * x - (m * m - b)); [ring|]. rewrite H1, H2, H3. ring.
  Qed.
  Lemma dat_sym xA yA xB yB xE yE l m : dat xA yA xB yB xE yE l m -> dat xB yB xA yA xE yE l m.
  Proof.
    intros [(A1 & A2 & A3) (H1 & H2 & H3)]. split; [split; [exact A2|split; [exact A1|exact A3]]|].
    rewrite H1, H2, H3. split; [|split]; ring.
  Qed.
  Lemma dat_neg xA yA xB yB xE yE l m : dat xA yA xB yB xE yE l m -> dat xA (- yA) xB (- yB) xE (- yE) (- l) (- m).
  Proof.
    intros [(A1 & A2 & A3) (H1 & H2 & H3)]. split; [split; [rewrite A1; ring|split; [rewrite A2; ring|rewrite A3; ring]]|].
    split; [|split]; [rewrite <- H1|rewrite <- H2|rewrite <- H3]; ring.
  Qed.

  (** two lines with a common point *)
  Lemma pair_ok A B E C G l m l' m' : l * B + m = l' * B + m' ->
    l * l = A + B + E -> - (l * m + l * m) = A * B + A * E + B * E ->
    l' * l' = C + B + G -> - (l' * m' + l' * m') = C * B + C * G + B * G -> forall x,
    (l - l') * ((l + l') * x + (m + m')) = (x - C) * (x - G) - (x - A) * (x - E).
  Proof.
    intros H0 H1 H2 H3 H4 x.
    assert (S1 : (l - l') * (l + l') = A + E - C - G).
    { transitivity (l * l - l' * l'); [ring|]. rewrite H1, H3. ring. }
    assert (M : m - m' = - ((l - l') * B)).
    { transitivity ((l * B + m) - (l' * B + m') - (l - l') * B); [ring|]. rewrite H0. ring. }
    assert (S2 : (l - l') * (m + m') = C * G - A * E).
    { transitivity (- (- (l * m + l * m) - - (l' * m' + l' * m')) - (l + l') * (m - m')); [ring|].
      rewrite M, H2, H4. transitivity ((l - l') * (l + l') * B - (A * B + A * E + B * E) + (C * B + C * G + B * G)); [ring|].
      rewrite S1. ring. }
    transitivity ((l - l') * (l + l') * x + (l - l') * (m + m')); [ring|]. rewrite S1, S2. ring.
  Qed.
  Lemma same_line l m l' m' x1 x2 : x1 <> x2 -> l * x1 + m = l' * x1 + m' -> l * x2 + m = l' * x2 + m' -> l = l' /\ m = m'.
  Proof.
    intros N H1 H2.
    assert (E : l = l').
    { apply (fcancel_r K _ _ (x1 - x2)); [now apply fsub_nz|].
      transitivity ((l * x1 + m) - (l * x2 + m)); [ring|]. rewrite H1, H2. ring. }
    split; [exact E|]. subst l'. transitivity (l * x1 + m - l * x1); [ring|]. rewrite H1. ring.
  Qed.
  Hypothesis two : f1 K + f1 K <> f0 K.
  Lemma half x y : x + x = y + y -> x = y.
  Proof.
    intros H. apply (fcancel_r K _ _ (f1 K + f1 K) two). transitivity (x + x); [ring|]. rewrite H. ring.
  Qed.
  (** the four lines in (A + B) + C = A + (B + C), in general position *)
  Section Four.
    Variables xA yA xB yB xC yC xE yE xG yG xD yD l1 m1 l2 m2 l3 m3 l4 m4 : L.
    Hypothesis D1 : dat xA yA xB yB xE yE l1 m1.
    Hypothesis D2 : dat xE yE xC yC xD yD l2 m2.
    Hypothesis D3 : dat xB yB xC yC xG yG l3 m3.
    Hypothesis D4 : dat xA yA xG yG xD yD l4 m4.
    Hypothesis N0 : xE <> xG.
    Hypothesis N1 : xE <> xC \/ xE <> xD.
    Hypothesis N2 : xG <> xA \/ xG <> xD.
    Lemma four_slopes : l1 + l2 = l3 + l4.
    Proof.
      destruct D1 as [(A1 & A2 & A3) (H1 & H2 & H3)], D2 as [(B1 & B2 & B3) (I1 & I2 & I3)],
        D3 as [(C1 & C2 & C3) (J1 & J2 & J3)], D4 as [(G1 & G2 & G3) (K1 & K2 & K3)].
      assert (eB : l1 * xB + m1 = l3 * xB + m3) by (rewrite <- A2, <- C1; reflexivity).
      assert (eA : l1 * xA + m1 = l4 * xA + m4) by (rewrite <- A1, <- G1; reflexivity).
      assert (eC : l2 * xC + m2 = l3 * xC + m3) by (rewrite <- B2, <- C2; reflexivity).
      assert (eD : l2 * xD + m2 = l4 * xD + m4) by (rewrite <- B3, <- G3; reflexivity).
      assert (eE : l1 * xE + m1 = - (l2 * xE + m2)) by (rewrite <- A3, <- B1; reflexivity).
      assert (eG : l3 * xG + m3 = - (l4 * xG + m4)) by (rewrite <- C3, <- G2; reflexivity).
      assert (NZ : xE - xG <> f0 K) by now apply fsub_nz.
      assert (P13 : forall x, (l1 - l3) * ((l1 + l3) * x + (m1 + m3)) = (x - xC) * (x - xG) - (x - xA) * (x - xE)).
      { intros x. apply (pair_ok xA xB xE xC xG); try assumption; [rewrite J1; ring|rewrite J2; ring]. }
      assert (P14 : forall x, (l1 - l4) * ((l1 + l4) * x + (m1 + m4)) = (x - xG) * (x - xD) - (x - xB) * (x - xE)).
      { intros x. apply (pair_ok xB xA xE xG xD); try assumption; [rewrite H1; ring|rewrite H2; ring|rewrite K1; ring|rewrite K2; ring]. }
      assert (P23 : forall x, (l2 - l3) * ((l2 + l3) * x + (m2 + m3)) = (x - xB) * (x - xG) - (x - xE) * (x - xD)).
      { intros x. apply (pair_ok xE xC xD xB xG); try assumption. }
      assert (F13 : forall x, l1 * x + m1 - (l3 * x + m3) = (l1 - l3) * (x - xB)).
      { intros x. transitivity ((l1 - l3) * (x - xB) + (l1 * xB + m1) - (l3 * xB + m3)); [ring|]. rewrite eB. ring. }
      assert (F23 : forall x, l2 * x + m2 - (l3 * x + m3) = (l2 - l3) * (x - xC)).
      { intros x. transitivity ((l2 - l3) * (x - xC) + (l2 * xC + m2) - (l3 * xC + m3)); [ring|]. rewrite eC. ring. }
      assert (F14 : forall x, l1 * x + m1 - (l4 * x + m4) = (l1 - l4) * (x - xA)).
      { intros x. transitivity ((l1 - l4) * (x - xA) + (l1 * xA + m1) - (l4 * xA + m4)); [ring|]. rewrite eA. ring. }
      assert (F24 : forall x, l2 * x + m2 - (l4 * x + m4) = (l2 - l4) * (x - xD)).
      { intros x. transitivity ((l2 - l4) * (x - xD) + (l2 * xD + m2) - (l4 * xD + m4)); [ring|]. rewrite eD. ring. }
      (* products of differences of slopes *)
      assert (Q1 : xE <> xC -> (l1 - l3) * (l2 - l3) = - (xE - xG)).
      { intros N. apply (fcancel_r K _ _ (xE - xC)); [now apply fsub_nz|].
        transitivity ((l1 - l3) * ((l2 - l3) * (xE - xC))); [ring|]. rewrite <- F23.
        transitivity (- ((l1 - l3) * (- (l2 * xE + m2) + (l3 * xE + m3)))); [ring|]. rewrite <- eE.
        transitivity (- ((l1 - l3) * ((l1 + l3) * xE + (m1 + m3)))); [ring|]. rewrite P13. ring. }
      assert (Q2 : xG <> xA -> (l1 - l3) * (l1 - l4) = xE - xG).
      { intros N. apply (fcancel_r K _ _ (xG - xA)); [now apply fsub_nz|].
        transitivity ((l1 - l3) * ((l1 - l4) * (xG - xA))); [ring|]. rewrite <- F14.
        transitivity ((l1 - l3) * (l1 * xG + m1 + - (l4 * xG + m4))); [ring|]. rewrite <- eG.
        transitivity ((l1 - l3) * ((l1 + l3) * xG + (m1 + m3))); [ring|]. rewrite P13. ring. }
      assert (Q3 : xE <> xD -> (l1 - l4) * (l2 - l4) = - (xE - xG)).
      { intros N. apply (fcancel_r K _ _ (xE - xD)); [now apply fsub_nz|].
        transitivity ((l1 - l4) * ((l2 - l4) * (xE - xD))); [ring|]. rewrite <- F24.
        transitivity (- ((l1 - l4) * (- (l2 * xE + m2) + (l4 * xE + m4)))); [ring|]. rewrite <- eE.
        transitivity (- ((l1 - l4) * ((l1 + l4) * xE + (m1 + m4)))); [ring|]. rewrite P14. ring. }
      assert (Q4 : xG <> xD -> (l2 - l3) * (l2 - l4) = xE - xG).
      { intros N. apply (fcancel_r K _ _ (xG - xD)); [now apply fsub_nz|].
        transitivity ((l2 - l3) * ((l2 - l4) * (xG - xD))); [ring|]. rewrite <- F24.
        transitivity ((l2 - l3) * (l2 * xG + m2 + - (l4 * xG + m4))); [ring|]. rewrite <- eG.
        transitivity ((l2 - l3) * ((l2 + l3) * xG + (m2 + m3))); [ring|]. rewrite P23. ring. }
      assert (Z : forall u v, u * v = xE - xG \/ u * v = - (xE - xG) -> u <> f0 K).
      { intros u v [Hu|Hu] E0; apply NZ; rewrite E0 in Hu.
        - rewrite <- Hu. ring.
        - transitivity (- (- (xE - xG))); [ring|]. rewrite <- Hu. ring. }
      assert (S0 : forall u v w, u * v = - (xE - xG) -> u * w = xE - xG -> w = - v).
      { intros u v w Hu Hw. apply (fcancel_r K _ _ u); [exact (Z u w (or_introl Hw))|].
        transitivity (u * w); [ring|]. rewrite Hw. transitivity (- (u * v)); [rewrite Hu; ring|ring]. }
      assert (fin1 : l1 - l4 = - (l2 - l3) -> l1 + l2 = l3 + l4).
      { intros E. transitivity (l1 - l4 + l2 + l4); [ring|]. rewrite E. ring. }
      assert (fin2 : l2 - l4 = - (l1 - l3) -> l1 + l2 = l3 + l4).
      { intros E. transitivity (l1 + (l2 - l4) + l4); [ring|]. rewrite E. ring. }
      destruct N1 as [n1|n1], N2 as [n2|n2].
      - apply fin1. exact (S0 _ _ _ (Q1 n1) (Q2 n2)).
      - apply fin2. apply (S0 (l2 - l3)); [|exact (Q4 n2)]. rewrite <- (Q1 n1). ring.
      - apply fin2. transitivity (- - (l2 - l4)); [ring|]. f_equal. symmetry.
        apply (S0 (l1 - l4)); [exact (Q3 n1)|]. rewrite <- (Q2 n2). ring.
      - apply fin1. transitivity (- - (l1 - l4)); [ring|]. f_equal. symmetry.
        apply (S0 (l2 - l4)); [rewrite <- (Q3 n1); ring|]. rewrite <- (Q4 n2). ring.
    Qed.
    Theorem four_lines x y : y * y = x * x * x + b ->
      (l1 * x + m1 - y) * (l2 * x + m2 - y) * (x - xG) = (l3 * x + m3 - y) * (l4 * x + m4 - y) * (x - xE).
    Proof.
      intros On. pose proof four_slopes as SL.
      pose proof (dat_fact _ _ _ _ _ _ _ _ D1 x) as T1. pose proof (dat_fact _ _ _ _ _ _ _ _ D2 x) as T2.
      pose proof (dat_fact _ _ _ _ _ _ _ _ D3 x) as T3. pose proof (dat_fact _ _ _ _ _ _ _ _ D4 x) as T4.
      destruct D1 as [(A1 & A2 & A3) (H1 & H2 & H3)], D2 as [(B1 & B2 & B3) (I1 & I2 & I3)],
        D3 as [(C1 & C2 & C3) (J1 & J2 & J3)], D4 as [(G1 & G2 & G3) (K1 & K2 & K3)].
      assert (eE : m1 + m2 = - ((l1 + l2) * xE)).
      { transitivity ((l1 * xE + m1) + (l2 * xE + m2) - (l1 + l2) * xE); [ring|]. rewrite <- A3, <- B1. ring. }
      assert (eG : m3 + m4 = - ((l3 + l4) * xG)).
      { transitivity ((l3 * xG + m3) + (l4 * xG + m4) - (l3 + l4) * xG); [ring|]. rewrite <- C3, <- G2. ring. }
      assert (NZ : xE - xG <> f0 K) by now apply fsub_nz.
      assert (P8 : (xA - xC) * (xB - xD) = (l1 + l2) * (l1 + l2) * (xE - xG)).
      { (* the slopes: l1 l2 and l3 l4 *)
        assert (eB : l1 * xB + m1 = l3 * xB + m3) by (rewrite <- A2, <- C1; reflexivity).
        assert (U1 : (l1 - l3) * (l1 + l3) = xA - xC + (xE - xG)).
        { transitivity (l1 * l1 - l3 * l3); [ring|]. rewrite H1, J1. ring. }
        assert (U2 : (l2 - l4) * (l2 + l4) = - (xA - xC) + (xE - xG)).
        { transitivity (l2 * l2 - l4 * l4); [ring|]. rewrite I1, K1. ring. }
        assert (U3 : (l1 - l4) * (l1 + l4) = xB - xD + (xE - xG)).
        { transitivity (l1 * l1 - l4 * l4); [ring|]. rewrite H1, K1. ring. }
        assert (U4 : (l2 - l3) * (l2 + l3) = - (xB - xD) + (xE - xG)).
        { transitivity (l2 * l2 - l3 * l3); [ring|]. rewrite I1, J1. ring. }
        assert (E4 : l4 = l1 + l2 - l3) by (rewrite SL; ring).
        assert (V1 : xA - xC = (l1 + l2) * (l1 - l3)).
        { apply half. transitivity (xA - xC + (xE - xG) - (- (xA - xC) + (xE - xG))); [ring|]. rewrite <- U1, <- U2, E4. ring. }
        assert (V2 : xB - xD = (l1 + l2) * (l1 - l4)).
        { apply half. transitivity (xB - xD + (xE - xG) - (- (xB - xD) + (xE - xG))); [ring|]. rewrite <- U3, <- U4, E4. ring. }
        assert (V3 : xE - xG = (l1 - l3) * (l1 - l4)).
        { apply half. transitivity ((xA - xC + (xE - xG)) + (- (xA - xC) + (xE - xG))); [ring|]. rewrite <- U1, <- U2, E4. ring. }
        rewrite V1, V2, V3. ring. }
      apply half.
      assert (W : forall p q r s M1 M2 v, x * x * x + b - M1 * M1 = p * v -> x * x * x + b - M2 * M2 = q * v -> M1 + M2 = s * v -> r = s ->
        (M1 - y) * (M2 - y) + (M1 - y) * (M2 - y) = v * (s * s * v + p + q - (s + s) * y)).
      { intros p q r s M1 M2 v X1 X2 X3 _.
        transitivity ((M1 + M2) * (M1 + M2) + (y * y - M1 * M1) + (y * y - M2 * M2) - (y + y) * (M1 + M2)); [ring|].
        rewrite On, X1, X2, X3. ring. }
      assert (Y1 : (l1 * x + m1) + (l2 * x + m2) = (l1 + l2) * (x - xE)).
      { transitivity ((l1 + l2) * x + (m1 + m2)); [ring|]. rewrite eE. ring. }
      assert (Y2 : (l3 * x + m3) + (l4 * x + m4) = (l3 + l4) * (x - xG)).
      { transitivity ((l3 + l4) * x + (m3 + m4)); [ring|]. rewrite eG. ring. }
      assert (T2' : x * x * x + b - (l2 * x + m2) * (l2 * x + m2) = (x - xC) * (x - xD) * (x - xE)) by (rewrite T2; ring).
      assert (T4' : x * x * x + b - (l4 * x + m4) * (l4 * x + m4) = (x - xA) * (x - xD) * (x - xG)) by (rewrite T4; ring).
      pose proof (W ((x - xA) * (x - xB)) ((x - xC) * (x - xD)) (l1 + l2) (l1 + l2) _ _ (x - xE) T1 T2' Y1 eq_refl) as Z1.
      pose proof (W ((x - xB) * (x - xC)) ((x - xA) * (x - xD)) (l3 + l4) (l3 + l4) _ _ (x - xG) T3 T4' Y2 eq_refl) as Z2.
      transitivity (((l1 * x + m1 - y) * (l2 * x + m2 - y) + (l1 * x + m1 - y) * (l2 * x + m2 - y)) * (x - xG)); [ring|].
      transitivity (((l3 * x + m3 - y) * (l4 * x + m4 - y) + (l3 * x + m3 - y) * (l4 * x + m4 - y)) * (x - xE)); [|ring].
      rewrite Z1, Z2, <- SL.
      assert (ZZ : (x - xA) * (x - xB) + (x - xC) * (x - xD) - (l1 + l2) * (l1 + l2) * xE =
                   (x - xB) * (x - xC) + (x - xA) * (x - xD) - (l1 + l2) * (l1 + l2) * xG).
      { transitivity ((x - xB) * (x - xC) + (x - xA) * (x - xD) + (xA - xC) * (xB - xD) - (l1 + l2) * (l1 + l2) * xE); [ring|]. rewrite P8. ring. }
      transitivity ((x - xE) * ((l1 + l2) * (l1 + l2) * x + ((x - xA) * (x - xB) + (x - xC) * (x - xD) - (l1 + l2) * (l1 + l2) * xE) - ((l1 + l2) + (l1 + l2)) * y) * (x - xG)); [ring|].
      rewrite ZZ. ring.
    Qed.
  End Four.
  (** opposite lines *)
  Lemma opp_lines xA yA xB yB xE yE l m l' m' : dat xA yA xB yB xE yE l m -> l' = - l -> m' = - m -> forall x y, y * y = x * x * x + b ->
    (l * x + m - y) * (l' * x + m' - y) = (x - xA) * (x - xB) * (x - xE).
  Proof.
    intros D -> -> x y On. rewrite <- (dat_fact _ _ _ _ _ _ _ _ D x), <- On. ring.
  Qed.

  (** two lines meeting the curve in A, B, -E and P, Q, -R *)
  Theorem two_lines xA yA xB yB xE yE l1 m1 xP yP xQ yQ xR yR l2 m2 :
    dat xA yA xB yB xE yE l1 m1 -> dat xP yP xQ yQ xR yR l2 m2 ->
    (xR - xA) * (xR - xB) * (xR - xE) <> f0 K -> (xE - xP) * (xE - xQ) * (xE - xR) <> f0 K ->
    (l1 * xR + m1 - yR) * (l2 * xA + m2 - yA) * (l2 * xB + m2 - yB) * - ((xE - xP) * (xE - xQ) * (xE - xR)) =
    (l1 * xP + m1 - yP) * (l1 * xQ + m1 - yQ) * (l2 * xE + m2 - yE) * ((xR - xA) * (xR - xB) * (xR - xE)).
  Proof.
    intros D1 D2 N1 N2.
    pose proof (dat_fact _ _ _ _ _ _ _ _ D1 xR) as T1. pose proof (dat_fact _ _ _ _ _ _ _ _ D2 xR) as T2.
    pose proof (dat_fact _ _ _ _ _ _ _ _ D1 xE) as T3. pose proof (dat_fact _ _ _ _ _ _ _ _ D2 xE) as T4.
    destruct D1 as [(A1 & A2 & A3) (H1 & H2 & H3)], D2 as [(B1 & B2 & B3) (I1 & I2 & I3)].
    set (d := fun x => (l2 - l1) * x + (m2 - m1)).
    assert (V1 : d xR * (l1 * xR + m1 - yR) = (xR - xA) * (xR - xB) * (xR - xE)).
    { rewrite <- T1. transitivity (d xR * (l1 * xR + m1 + - yR)); [ring|]. rewrite B3. unfold d.
      transitivity ((l2 * xR + m2) * (l2 * xR + m2) - (l1 * xR + m1) * (l1 * xR + m1)); [ring|].
      assert (E : (l2 * xR + m2) * (l2 * xR + m2) = xR * xR * xR + b).
      { transitivity (xR * xR * xR + b - (xR * xR * xR + b - (l2 * xR + m2) * (l2 * xR + m2))); [ring|]. rewrite T2. ring. }
      rewrite E. reflexivity. }
    assert (V2 : d xE * (l2 * xE + m2 - yE) = - ((xE - xP) * (xE - xQ) * (xE - xR))).
    { rewrite <- T4. transitivity (d xE * (l2 * xE + m2 + - yE)); [ring|]. rewrite A3. unfold d.
      transitivity ((l2 * xE + m2) * (l2 * xE + m2) - (l1 * xE + m1) * (l1 * xE + m1)); [ring|].
      assert (E : (l1 * xE + m1) * (l1 * xE + m1) = xE * xE * xE + b).
      { transitivity (xE * xE * xE + b - (xE * xE * xE + b - (l1 * xE + m1) * (l1 * xE + m1))); [ring|]. rewrite T3. ring. }
      rewrite E. ring. }
    assert (V3 : d xA * d xB * d xE = d xP * d xQ * d xR).
    { unfold d. set (p := l2 - l1). set (q := m2 - m1).
      transitivity (p * p * p * (xA * xB * xE) + p * p * q * (xA * xB + xA * xE + xB * xE) + p * q * q * (xA + xB + xE) + q * q * q); [ring|].
      transitivity (p * p * p * (xP * xQ * xR) + p * p * q * (xP * xQ + xP * xR + xQ * xR) + p * q * q * (xP + xQ + xR) + q * q * q); [|ring].
      rewrite <- H1, <- H2, <- H3, <- I1, <- I2, <- I3. unfold p, q. ring. }
    assert (eA : l2 * xA + m2 - yA = d xA) by (rewrite A1; unfold d; ring).
    assert (eB : l2 * xB + m2 - yB = d xB) by (rewrite A2; unfold d; ring).
    assert (eP : l1 * xP + m1 - yP = - d xP) by (rewrite B1; unfold d; ring).
    assert (eQ : l1 * xQ + m1 - yQ = - d xQ) by (rewrite B2; unfold d; ring).
    rewrite eA, eB, eP, eQ, <- V1, <- V2. clearbody d.
    transitivity ((l1 * xR + m1 - yR) * (l2 * xE + m2 - yE) * (d xA * d xB * d xE)); [ring|]. rewrite V3. ring.
  Qed.
End Lines.

(** ** Every sum of two points gives such a line *)
Section Exist.
  Context {L : Type} (K : field L) (b : L).
  Add Field FKex : (f_theory K).
  Infix "+" := (fadd K). Infix "*" := (fmul K). Infix "-" := (fsub K). Infix "/" := (fdiv K).
  Notation "- x" := (fopp K x).
  Lemma dat_chord x1 y1 x2 y2 : x1 <> x2 -> y1 * y1 = x1 * x1 * x1 + b -> y2 * y2 = x2 * x2 * x2 + b ->
    let l := (y2 - y1) / (x2 - x1) in let x3 := l * l - x1 - x2 in
    dat K b x1 y1 x2 y2 x3 (l * (x1 - x3) - y1) l (y1 - l * x1).
  Proof.
    intros N H1 H2 l x3. assert (D : x2 - x1 <> f0 K) by (apply fsub_nz; congruence).
    assert (E2 : y2 = l * x2 + (y1 - l * x1)). { unfold l. field. exact D. }
    assert (E1 : y1 = l * x1 + (y1 - l * x1)) by ring.
    set (m := y1 - l * x1) in *.
    assert (S1 : l * l = x1 + x2 + x3) by (unfold x3; ring).
    assert (S2 : - (l * m + l * m) = x1 * x2 + x1 * x3 + x2 * x3).
    { apply (fcancel_r K _ _ (x2 - x1) D).
      assert (Q : (l * x2 + m) * (l * x2 + m) - (l * x1 + m) * (l * x1 + m) = x2 * x2 * x2 - x1 * x1 * x1).
      { rewrite <- E1, <- E2, H1, H2. ring. }
      transitivity (l * l * (x2 * x2 - x1 * x1) - ((l * x2 + m) * (l * x2 + m) - (l * x1 + m) * (l * x1 + m))); [ring|].
      rewrite Q, S1. ring. }
    split.
    - split; [exact E1|]. split; [exact E2|]. transitivity (l * x3 + (y1 - l * x1)); [ring|]. reflexivity.
    - split; [exact S1|]. split; [exact S2|].
      transitivity ((l * x1 + m) * (l * x1 + m) - l * l * (x1 * x1) + - (l * m + l * m) * x1 - b); [ring|].
      rewrite <- E1, H1, S1, S2. ring.
  Qed.
  Lemma dat_tangent x1 y1 : y1 + y1 <> f0 K -> y1 * y1 = x1 * x1 * x1 + b ->
    let l := (x1 * x1 + x1 * x1 + x1 * x1 + f0 K) / (y1 + y1) in let x3 := l * l - x1 - x1 in
    dat K b x1 y1 x1 y1 x3 (l * (x1 - x3) - y1) l (y1 - l * x1).
  Proof.
    intros D H1 l x3.
    assert (T : l * (y1 + y1) = x1 * x1 + x1 * x1 + x1 * x1). { unfold l. field. exact D. }
    assert (E1 : y1 = l * x1 + (y1 - l * x1)) by ring.
    set (m := y1 - l * x1) in *.
    assert (S1 : l * l = x1 + x1 + x3) by (unfold x3; ring).
    assert (S2 : - (l * m + l * m) = x1 * x1 + x1 * x3 + x1 * x3).
    { transitivity (l * l * (x1 + x1) - l * ((l * x1 + m) + (l * x1 + m))); [ring|]. rewrite <- E1, T, S1. ring. }
    split.
    - split; [exact E1|]. split; [exact E1|]. transitivity (l * x3 + (y1 - l * x1)); [ring|]. reflexivity.
    - split; [exact S1|]. split; [exact S2|].
      transitivity ((l * x1 + m) * (l * x1 + m) - l * l * (x1 * x1) + - (l * m + l * m) * x1 - b); [ring|].
      rewrite <- E1, H1, S1, S2. ring.
  Qed.
  Hypothesis OK : curve_ok K (f0 K) b.
  Lemma on_eq x y : on_curve K (f0 K) b (Aff x y) -> y * y = x * x * x + b.
  Proof. cbn. intros ->. ring. Qed.
  Lemma dat_add x1 y1 x2 y2 x3 y3 : on_curve K (f0 K) b (Aff x1 y1) -> on_curve K (f0 K) b (Aff x2 y2) ->
    ec_add K (f0 K) (Aff x1 y1) (Aff x2 y2) = Aff x3 y3 -> exists l m, dat K b x1 y1 x2 y2 x3 y3 l m.
  Proof.
    intros O1 O2 E. cbn [ec_add] in E. destruct (feq_dec K x1 x2) as [e|N].
    - subst x2. destruct (feq_dec K y1 (- y2)) as [e|N]; [discriminate|].
      pose proof (same_x_cases K _ _ _ _ O1 O2 N). subst y2.
      pose proof (dat_tangent x1 y1 (dbl_y K _ OK _ _ O1) (on_eq _ _ O1)) as D. cbv zeta in D.
      unfold ec_line in E. cbv zeta in E. injection E as <- <-. eexists _, _. exact D.
    - pose proof (dat_chord x1 y1 x2 y2 N (on_eq _ _ O1) (on_eq _ _ O2)) as D. cbv zeta in D.
      unfold ec_line in E. cbv zeta in E. injection E as <- <-. eexists _, _. exact D.
  Qed.
  (** what line_at computes *)
  Lemma dat_line xU yU xV yV xE yE l m xS yS : dat K b xU yU xV yV xE yE l m -> ~ (xU = xV /\ yU = - yV) ->
    line_at K (Aff xU yU) (Aff xV yV) (Aff xS yS) = l * xS + m - yS.
  Proof.
    intros [(A1 & A2 & A3) (H1 & H2 & H3)] N. cbn [line_at].
    destruct (feq_dec K xU xV) as [e|n].
    - destruct (feq_dec K yU (- yV)) as [e'|n']; [exfalso; apply N; split; assumption|].
      subst xV. assert (EY : yV = yU) by (rewrite A1, A2; reflexivity). clear A2. subst yV.
      assert (D : yU + yU <> f0 K).
      { intros D. apply n'. transitivity (yU + yU - yU); [ring|]. rewrite D. ring. }
      assert (T : (xU * xU + xU * xU + xU * xU) / (yU + yU) = l).
      { apply (fcancel_r K _ _ (yU + yU) D). transitivity (xU * xU + xU * xU + xU * xU); [field; exact D|].
        transitivity (l * l * (xU + xU) - - (l * m + l * m)).
        - rewrite H1, H2. ring.
        - rewrite A1. ring. }
      cbv zeta. rewrite T. transitivity (l * xS - l * xU - yS + yU); [ring|]. rewrite A1. ring.
    - assert (D : xU - xV <> f0 K) by now apply fsub_nz.
      assert (T : (yU - yV) / (xU - xV) = l). { rewrite A1, A2. field. exact D. }
      cbv zeta. rewrite T. transitivity (l * xS - l * xV - yS + yV); [ring|]. rewrite A2. ring.
  Qed.
  Lemma dat_scale xA yA xB yB xE yE l m c : dat K b xA yA xB yB xE yE l m ->
    let c2 := c * c in let c3 := c * c * c in
    dat K (b * (c3 * c3)) (xA * c2) (yA * c3) (xB * c2) (yB * c3) (xE * c2) (yE * c3) (l * c) (m * c3).
  Proof.
    intros [(A1 & A2 & A3) (H1 & H2 & H3)] c2 c3. unfold c2, c3. split.
    - rewrite A1, A2. split; [ring|]. split; [ring|]. transitivity (- yE * (c * c * c)); [ring|]. rewrite A3. ring.
    - split; [|split].
      + transitivity (l * l * (c * c)); [ring|]. rewrite H1. ring.
      + transitivity (- (l * m + l * m) * (c * c * (c * c))); [ring|]. rewrite H2. ring.
      + transitivity ((m * m - b) * (c * c * c * (c * c * c))); [ring|]. rewrite H3. ring.
  Qed.
End Exist.
Lemma dat_hom {F L} (K : field F) (KL : field L) em (Hm : hom K KL em) b xA yA xB yB xE yE l m : dat K b xA yA xB yB xE yE l m ->
  dat KL (em b) (em xA) (em yA) (em xB) (em yB) (em xE) (em yE) (em l) (em m).
Proof.
  intros [(A1 & A2 & A3) (H1 & H2 & H3)].
  pose proof (h_add _ _ _ Hm) as ha. pose proof (h_mul _ _ _ Hm) as hm.
  split; [split; [|split]|split; [|split]].
  - now rewrite <- hm, <- ha, <- A1.
  - now rewrite <- hm, <- ha, <- A2.
  - now rewrite <- hm, <- ha, <- A3, (em_opp _ _ _ Hm).
  - now rewrite <- hm, <- !ha, <- H1.
  - now rewrite <- !hm, <- !ha, <- H2, (em_opp _ _ _ Hm).
  - now rewrite <- !hm, <- (em_sub _ _ _ Hm), <- H3.
Qed.

(** The chord-and-tangent law is an abelian group law, for a curve with no point of order two over a
    field of characteristic other than two.  Associativity goes through the complete addition
    formulas of Bosma-Lenstra / Renes-Costello-Batina: they describe the sum of every pair of points by
    one triple of polynomials, so associativity is two polynomial identities. *)
From Coq Require Import Field.
From Verif Require Import Base SpecField SpecEC.

Section Group.
  Variable F : Type.
  Variables (z o : F) (pl mu mi : F -> F -> F) (op : F -> F) (di : F -> F -> F) (iv : F -> F).
  Variable dec : forall x y : F, {x = y} + {x <> y}.
  Hypothesis FT : field_theory z o pl mu mi op di iv eq.
  Let K := MkField F z o pl mu mi op di iv dec FT.
  Variables a b : F.
  Notation "0" := z. Notation "1" := o.
  Infix "+" := pl. Infix "*" := mu. Infix "-" := mi. Infix "/" := di. Notation "- x" := (op x).
  Add Field KF : FT.

  Hypothesis two_nz : 1 + 1 <> 0.
  Hypothesis no_two_torsion : forall x, x * x * x + a * x + b <> 0.

  Notation on := (on_curve K a b).
  Notation add := (ec_add K a).
  Notation neg := (ec_neg K).

  Lemma mul_nz x y : x <> 0 -> y <> 0 -> x * y <> 0.
  Proof.
    intros Hx Hy H. apply Hy. replace y with ((1 / x) * (x * y)) by now field. rewrite H. ring.
  Qed.
  Lemma mul_zero x y : x * y = 0 -> x = 0 \/ y = 0.
  Proof.
    intros H. destruct (dec x 0) as [E|E]; [now left|right].
    destruct (dec y 0) as [E'|E']; [assumption|]. now elim (mul_nz x y E E').
  Qed.
  Lemma sub_zero x y : x - y = 0 -> x = y.
  Proof. intros H. replace x with ((x - y) + y) by ring. rewrite H. ring. Qed.
  Lemma sub_nz x y : x <> y -> x - y <> 0.
  Proof. intros H E. apply H. now apply sub_zero. Qed.

  Lemma on_y x y : on (Aff x y) -> y <> 0.
  Proof. cbn. intros H E. apply (no_two_torsion x). rewrite <- H, E. ring. Qed.

  Lemma dbl_nz y : y <> 0 -> y + y <> 0.
  Proof. intros H E. apply (mul_nz (1 + 1) y two_nz H). rewrite <- E. ring. Qed.

  Lemma same_x x y1 y2 : on (Aff x y1) -> on (Aff x y2) -> y1 = y2 \/ y1 = - y2.
  Proof.
    cbn. intros H1 H2. destruct (mul_zero (y1 - y2) (y1 + y2)) as [E|E].
    - replace ((y1 - y2) * (y1 + y2)) with (y1 * y1 - y2 * y2) by ring. rewrite H1, H2. ring.
    - left. now apply sub_zero.
    - right. apply sub_zero. rewrite <- E. ring.
  Qed.

  (** ** Closure *)
  Lemma neg_on P : on P -> on (neg P).
  Proof. destruct P as [|x y]; cbn; [trivial|]. intros H. rewrite <- H. ring. Qed.

  Lemma chord_on x1 y1 x2 y2 : on (Aff x1 y1) -> on (Aff x2 y2) -> x1 <> x2 ->
    on (ec_line K ((y2 - y1) / (x2 - x1)) x1 y1 x2).
  Proof.
    cbn. intros H1 H2 Hx. assert (D : x2 - x1 <> 0) by (apply sub_nz; congruence).
    field_simplify_eq; [|assumption]. ring [H1 H2].
  Qed.

  Lemma tangent_on x1 y1 : on (Aff x1 y1) ->
    on (ec_line K ((x1 * x1 + x1 * x1 + x1 * x1 + a) / (y1 + y1)) x1 y1 x1).
  Proof.
    intros H1. pose proof (dbl_nz y1 (on_y _ _ H1)) as D. cbn in *.
    field_simplify_eq; [|assumption]. ring [H1].
  Qed.

  Lemma add_aff x1 y1 x2 y2 : add (Aff x1 y1) (Aff x2 y2) =
    if dec x1 x2 then
      if dec y1 (- y2) then Inf
      else ec_line K ((x1 * x1 + x1 * x1 + x1 * x1 + a) / (y1 + y1)) x1 y1 x1
    else ec_line K ((y2 - y1) / (x2 - x1)) x1 y1 x2.
  Proof. reflexivity. Qed.

  Lemma add_on P Q : on P -> on Q -> on (add P Q).
  Proof.
    destruct P as [|x1 y1]; [intros _ H; exact H|]. destruct Q as [|x2 y2]; [intros H _; exact H|].
    intros H1 H2. rewrite add_aff. destruct (dec x1 x2) as [->|E].
    - destruct (dec y1 (- y2)) as [E|E]; [exact I|]. now apply tangent_on.
    - now apply chord_on.
  Qed.

  (** ** Unit, inverse, commutativity *)
  Lemma add_inf_l P : add Inf P = P. Proof. reflexivity. Qed.
  Lemma add_inf_r P : add P Inf = P. Proof. now destruct P. Qed.
  Lemma neg_neg P : neg (neg P) = P.
  Proof. destruct P; cbn; [reflexivity|]. f_equal. ring. Qed.
  Lemma add_neg P : add P (neg P) = Inf.
  Proof.
    destruct P as [|x y]; [reflexivity|]. cbn [ec_neg]. rewrite add_aff.
    destruct (dec x x) as [_|E]; [|now elim E].
    change (fopp K y) with (- y).
    destruct (dec y (- - y)) as [_|E]; [reflexivity|]. elim E. ring.
  Qed.
  Lemma add_comm P Q : on P -> on Q -> add P Q = add Q P.
  Proof.
    destruct P as [|x1 y1]; [intros _ _; symmetry; apply add_inf_r|].
    destruct Q as [|x2 y2]; [intros _ _; apply add_inf_r|].
    intros H1 H2. rewrite !add_aff. destruct (dec x1 x2) as [->|E].
    - destruct (dec x2 x2) as [_|E]; [|now elim E].
      destruct (same_x _ _ _ H1 H2) as [->|E]; [reflexivity|].
      destruct (dec y1 (- y2)) as [_|E']; [|now elim E'].
      destruct (dec y2 (- y1)) as [_|E']; [reflexivity|]. elim E'. rewrite E. ring.
    - destruct (dec x2 x1) as [E'|_]; [congruence|].
      pose proof (sub_nz _ _ E). assert (x2 - x1 <> 0) by (apply sub_nz; congruence).
      unfold ec_line. cbn. f_equal; field; split; assumption || (repeat split; assumption).
  Qed.

  (** ** The complete projective formulas *)
  Definition thr x := x + x + x.
  Definition cX X1 Y1 Z1 X2 Y2 Z2 :=
    (X1*Y2 + X2*Y1) * (Y1*Y2 - a*(X1*Z2 + X2*Z1) - thr b*(Z1*Z2))
    - (Y1*Z2 + Y2*Z1) * (a*(X1*X2) + thr b*(X1*Z2 + X2*Z1) - a*a*(Z1*Z2)).
  Definition cY X1 Y1 Z1 X2 Y2 Z2 :=
    (thr (X1*X2) + a*(Z1*Z2)) * (a*(X1*X2) + thr b*(X1*Z2 + X2*Z1) - a*a*(Z1*Z2))
    + (Y1*Y2 + a*(X1*Z2 + X2*Z1) + thr b*(Z1*Z2)) * (Y1*Y2 - a*(X1*Z2 + X2*Z1) - thr b*(Z1*Z2)).
  Definition cZ X1 Y1 Z1 X2 Y2 Z2 :=
    (Y1*Z2 + Y2*Z1) * (Y1*Y2 + a*(X1*Z2 + X2*Z1) + thr b*(Z1*Z2))
    + (X1*Y2 + X2*Y1) * (thr (X1*X2) + a*(Z1*Z2)).

  (** homogeneous coordinates of a point *)
  Definition proj (X Y Z : F) (P : point F) : Prop :=
    match P with
    | Inf => X = 0 /\ Z = 0 /\ Y <> 0
    | Aff x y => Z <> 0 /\ X = x * Z /\ Y = y * Z
    end.

  Lemma proj_eq X1 Y1 Z1 X2 Y2 Z2 P Q : proj X1 Y1 Z1 P -> proj X2 Y2 Z2 Q ->
    X1 * Z2 = Z1 * X2 -> Y1 * Z2 = Z1 * Y2 -> P = Q.
  Proof.
    destruct P as [|x1 y1], Q as [|x2 y2]; cbn.
    - reflexivity.
    - intros (-> & -> & H1) (H2 & -> & ->) _ E. elim (mul_nz Y1 Z2 H1 H2). rewrite E. ring.
    - intros (H1 & -> & ->) (-> & -> & H2) _ E. elim (mul_nz Z1 Y2 H1 H2). rewrite <- E. ring.
    - intros (H1 & -> & ->) (H2 & -> & ->) E1 E2. f_equal; apply sub_zero.
      + replace (x1 - x2) with ((x1 * Z1 * Z2 - Z1 * (x2 * Z2)) / (Z1 * Z2)) by (field; now split).
        rewrite E1. field. now split.
      + replace (y1 - y2) with ((y1 * Z1 * Z2 - Z1 * (y2 * Z2)) / (Z1 * Z2)) by (field; now split).
        rewrite E2. field. now split.
  Qed.

  Lemma proj_scale X Y Z P c : c <> 0 -> proj X Y Z P -> proj (c * X) (c * Y) (c * Z) P.
  Proof.
    intros Hc. destruct P as [|x y]; cbn.
    - intros (-> & -> & H). split; [ring|]. split; [ring|]. now apply mul_nz.
    - intros (H & -> & ->). split; [now apply mul_nz|]. split; ring.
  Qed.

  Definition nX (P : point F) := match P with Inf => 0 | Aff x _ => x end.
  Definition nY (P : point F) := match P with Inf => 1 | Aff _ y => y end.
  Definition nZ (P : point F) := match P with Inf => 0 | Aff _ _ => 1 end.

  Lemma one_nz : 1 <> 0.
  Proof. apply (F_1_neq_0 FT). Qed.

  Lemma proj_n P : proj (nX P) (nY P) (nZ P) P.
  Proof.
    destruct P; cbn; [split; [reflexivity|]; split; [reflexivity|]; apply one_nz|].
    split; [apply one_nz|]. split; ring.
  Qed.

  Lemma proj_inv X Y Z P : proj X Y Z P -> exists c, c <> 0 /\ X = c * nX P /\ Y = c * nY P /\ Z = c * nZ P.
  Proof.
    destruct P as [|x y]; cbn.
    - intros (-> & -> & H). exists Y. split; [assumption|]. repeat split; ring.
    - intros (H & -> & ->). exists Z. split; [assumption|]. repeat split; ring.
  Qed.

  Lemma complete_norm P Q : on P -> on Q ->
    proj (cX (nX P) (nY P) (nZ P) (nX Q) (nY Q) (nZ Q))
         (cY (nX P) (nY P) (nZ P) (nX Q) (nY Q) (nZ Q))
         (cZ (nX P) (nY P) (nZ P) (nX Q) (nY Q) (nZ Q)) (add P Q).
  Proof.
    destruct P as [|x1 y1], Q as [|x2 y2]; intros H1 H2.
    - unfold cX, cY, cZ, thr. cbn. split; [ring|]. split; [ring|].
      intros E. apply one_nz. rewrite <- E. ring.
    - pose proof (on_y _ _ H2) as N. unfold cX, cY, cZ, thr. cbn.
      split; [intros E; apply N; rewrite <- E; ring|]. split; ring.
    - pose proof (on_y _ _ H1) as N. unfold cX, cY, cZ, thr. cbn.
      split; [intros E; apply N; rewrite <- E; ring|]. split; ring.
    - pose proof (on_y _ _ H1) as N1. pose proof (on_y _ _ H2) as N2.
      rewrite add_aff. destruct (dec x1 x2) as [->|E].
      + destruct (dec y1 (- y2)) as [->|E].
        * (* opposite points *)
          pose proof (tangent_on x2 y2 H2) as T. apply on_y in T.
          pose proof (dbl_nz y2 N2) as D.
          assert (D8 : (y2 + y2) * ((y2 + y2) * (y2 + y2)) <> 0) by (repeat apply mul_nz; assumption).
          pose proof (mul_nz _ _ T D8) as T8. clear T. cbn [nX nY nZ].
          unfold cX, cY, cZ, thr. unfold ec_line in T8. cbn in H1, H2, T8 |- *.
          split; [ring|]. split; [ring|]. intros E. apply T8.
          transitivity (0 - ((1 + 1) * (1 + 1)) * 0 * 0 + 0).
          2: ring.
          rewrite <- E at 1. field_simplify_eq; [|assumption]. ring [H2].
        * (* equal points *)
          destruct (same_x _ _ _ H1 H2) as [->|E']; [|now elim E].
          pose proof (dbl_nz y2 N2) as D. cbn [nX nY nZ].
          assert (D8 : (y2 + y2) * ((y2 + y2) * (y2 + y2)) <> 0) by (repeat apply mul_nz; assumption).
          assert (EZ : cZ x2 y2 1 x2 y2 1 = (y2 + y2) * ((y2 + y2) * (y2 + y2))).
          { unfold cZ, thr. cbn in H2. ring [H2]. }
          rewrite EZ. unfold cX, cY, thr. cbn in H2 |- *.
          split; [assumption|].
          split; (field_simplify_eq; [|assumption]); ring [H2].
      + (* distinct abscissas *)
        assert (D : x2 - x1 <> 0) by (apply sub_nz; congruence).
        assert (H2' : on (Aff x2 (- y2))) by (apply (neg_on (Aff x2 y2)); exact H2).
        pose proof (chord_on _ _ _ _ H1 H2' E) as T. apply on_y in T.
        assert (D3 : (x2 - x1) * ((x2 - x1) * (x2 - x1)) <> 0) by (repeat apply mul_nz; assumption).
        pose proof (mul_nz _ _ T D3) as N. clear T. cbn [nX nY nZ].
        unfold cX, cY, cZ, thr, ec_line in *. cbn in H1, H2, N |- *. clear H2'.
        split.
        { intros EZ. apply N. transitivity (0 + 0 * 0). 2: ring. rewrite <- EZ at 1.
          field_simplify_eq; [|assumption]. ring [H1 H2]. }
        split; (field_simplify_eq; [|assumption]); ring [H1 H2].
  Qed.

  Lemma complete X1 Y1 Z1 X2 Y2 Z2 P Q : on P -> on Q -> proj X1 Y1 Z1 P -> proj X2 Y2 Z2 Q ->
    proj (cX X1 Y1 Z1 X2 Y2 Z2) (cY X1 Y1 Z1 X2 Y2 Z2) (cZ X1 Y1 Z1 X2 Y2 Z2) (add P Q).
  Proof.
    intros H1 H2 R1 R2. destruct (proj_inv _ _ _ _ R1) as (c & Hc & -> & -> & ->).
    destruct (proj_inv _ _ _ _ R2) as (d & Hd & -> & -> & ->).
    pose proof (complete_norm P Q H1 H2) as N.
    apply (proj_scale _ _ _ _ ((c * d) * (c * d))) in N; [|repeat apply mul_nz; assumption].
    revert N. generalize (nX P) (nY P) (nZ P) (nX Q) (nY Q) (nZ Q). intros u1 u2 u3 v1 v2 v3 N.
    replace (cX _ _ _ _ _ _) with ((c * d) * (c * d) * cX u1 u2 u3 v1 v2 v3) by (unfold cX, thr; ring).
    replace (cY _ _ _ _ _ _) with ((c * d) * (c * d) * cY u1 u2 u3 v1 v2 v3) by (unfold cY, thr; ring).
    replace (cZ _ _ _ _ _ _) with ((c * d) * (c * d) * cZ u1 u2 u3 v1 v2 v3) by (unfold cZ, thr; ring).
    exact N.
  Qed.

  (** ** Associativity: two polynomial identities *)
  Lemma assocXZ x1 y1 x2 y2 x3 y3 :
    y1*y1 = x1*x1*x1 + a*x1 + b -> y2*y2 = x2*x2*x2 + a*x2 + b -> y3*y3 = x3*x3*x3 + a*x3 + b ->
    cX (cX x1 y1 1 x2 y2 1) (cY x1 y1 1 x2 y2 1) (cZ x1 y1 1 x2 y2 1) x3 y3 1
    * cZ x1 y1 1 (cX x2 y2 1 x3 y3 1) (cY x2 y2 1 x3 y3 1) (cZ x2 y2 1 x3 y3 1) =
    cZ (cX x1 y1 1 x2 y2 1) (cY x1 y1 1 x2 y2 1) (cZ x1 y1 1 x2 y2 1) x3 y3 1
    * cX x1 y1 1 (cX x2 y2 1 x3 y3 1) (cY x2 y2 1 x3 y3 1) (cZ x2 y2 1 x3 y3 1).
  Proof. intros H1 H2 H3. unfold cX, cY, cZ, thr. ring [H1 H2 H3]. Qed.

  Lemma assocYZ x1 y1 x2 y2 x3 y3 :
    y1*y1 = x1*x1*x1 + a*x1 + b -> y2*y2 = x2*x2*x2 + a*x2 + b -> y3*y3 = x3*x3*x3 + a*x3 + b ->
    cY (cX x1 y1 1 x2 y2 1) (cY x1 y1 1 x2 y2 1) (cZ x1 y1 1 x2 y2 1) x3 y3 1
    * cZ x1 y1 1 (cX x2 y2 1 x3 y3 1) (cY x2 y2 1 x3 y3 1) (cZ x2 y2 1 x3 y3 1) =
    cZ (cX x1 y1 1 x2 y2 1) (cY x1 y1 1 x2 y2 1) (cZ x1 y1 1 x2 y2 1) x3 y3 1
    * cY x1 y1 1 (cX x2 y2 1 x3 y3 1) (cY x2 y2 1 x3 y3 1) (cZ x2 y2 1 x3 y3 1).
  Proof. intros H1 H2 H3. unfold cX, cY, cZ, thr. ring [H1 H2 H3]. Qed.

  Lemma add_assoc P Q R : on P -> on Q -> on R -> add (add P Q) R = add P (add Q R).
  Proof.
    destruct P as [|x1 y1]; [reflexivity|].
    destruct Q as [|x2 y2]; [intros _ _ _; now rewrite add_inf_r|].
    destruct R as [|x3 y3]; [intros _ _ _; now rewrite !add_inf_r|].
    intros H1 H2 H3.
    pose proof (complete_norm _ _ H1 H2) as S12. pose proof (complete_norm _ _ H2 H3) as S23.
    pose proof (complete _ _ _ _ _ _ _ _ (add_on _ _ H1 H2) H3 S12 (proj_n (Aff x3 y3))) as L.
    pose proof (complete _ _ _ _ _ _ _ _ H1 (add_on _ _ H2 H3) (proj_n (Aff x1 y1)) S23) as R.
    cbn [nX nY nZ] in L, R.
    exact (proj_eq _ _ _ _ _ _ _ _ L R (assocXZ _ _ _ _ _ _ H1 H2 H3) (assocYZ _ _ _ _ _ _ H1 H2 H3)).
  Qed.
End Group.

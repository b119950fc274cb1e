(** Maps between curves: a field homomorphism followed by (x, y) -> (c^2 x, c^3 y) respects the group
    law; and the line functions of the pairing in Jacobian coordinates. *)
From Coq Require Import Field.
From Verif Require Import Base SpecField SpecEC ProofEC ProofECMul.

Record hom {F L} (K : field F) (KL : field L) (em : F -> L) : Prop := MkHom {
  h_0 : em (f0 K) = f0 KL;
  h_1 : em (f1 K) = f1 KL;
  h_add : forall x y, em (fadd K x y) = fadd KL (em x) (em y);
  h_mul : forall x y, em (fmul K x y) = fmul KL (em x) (em y)
}.

Section Fld.
  Context {F : Type} (K : field F).
  Add Field FKfld : (f_theory K).
  Lemma fnz_mul x y : x <> f0 K -> y <> f0 K -> fmul K x y <> f0 K.
  Proof.
    intros Hx Hy E. apply Hy. transitivity (fmul K (finv K x) (fmul K x y)); [field; exact Hx|]. rewrite E. ring.
  Qed.
  Lemma fsub0 x y : fsub K x y = f0 K -> x = y.
  Proof. intros E. transitivity (fadd K (fsub K x y) y); [ring|]. rewrite E. ring. Qed.
  Lemma fsub_nz x y : x <> y -> fsub K x y <> f0 K.
  Proof. intros N E. apply N. now apply fsub0. Qed.
  Lemma fcancel_r x y c : c <> f0 K -> fmul K x c = fmul K y c -> x = y.
  Proof.
    intros Hc E. transitivity (fmul K (fmul K x c) (finv K c)); [field; exact Hc|]. rewrite E. field. exact Hc.
  Qed.
  Lemma finv_nz c : c <> f0 K -> finv K c <> f0 K.
  Proof.
    intros Hc E. apply (Field_theory.F_1_neq_0 (f_theory K)). transitivity (fmul K (finv K c) c); [field; exact Hc|].
    rewrite E. ring.
  Qed.
End Fld.

Section Hom.
  Context {F L : Type} (K : field F) (KL : field L) (em : F -> L).
  Hypothesis Hm : hom K KL em.
  Add Field FKh : (f_theory K). Add Field FLh : (f_theory KL).

  Lemma em_opp x : em (fopp K x) = fopp KL (em x).
  Proof.
    assert (E : fadd KL (em (fopp K x)) (em x) = f0 KL).
    { rewrite <- (h_add _ _ _ Hm). replace (fadd K (fopp K x) x) with (f0 K) by ring. exact (h_0 _ _ _ Hm). }
    transitivity (fsub KL (fadd KL (em (fopp K x)) (em x)) (em x)); [ring|]. rewrite E. ring.
  Qed.
  Lemma em_sub x y : em (fsub K x y) = fsub KL (em x) (em y).
  Proof.
    replace (fsub K x y) with (fadd K x (fopp K y)) by ring. rewrite (h_add _ _ _ Hm), em_opp. ring.
  Qed.
  Lemma em_nz x : x <> f0 K -> em x <> f0 KL.
  Proof.
    intros Hx E. apply (Field_theory.F_1_neq_0 (f_theory KL)). rewrite <- (h_1 _ _ _ Hm).
    replace (f1 K) with (fmul K (finv K x) x) by (field; exact Hx). rewrite (h_mul _ _ _ Hm), E. ring.
  Qed.
  Lemma em_inj x y : em x = em y -> x = y.
  Proof.
    intros E. destruct (feq_dec K x y) as [|N]; [assumption|exfalso].
    apply (em_nz (fsub K x y)); [now apply fsub_nz|]. rewrite em_sub, E. ring.
  Qed.
  Lemma em_inv x : x <> f0 K -> em (finv K x) = finv KL (em x).
  Proof.
    intros Hx. apply (fcancel_r KL _ _ (em x)); [now apply em_nz|]. rewrite <- (h_mul _ _ _ Hm).
    replace (fmul K (finv K x) x) with (f1 K) by (field; exact Hx). rewrite (h_1 _ _ _ Hm).
    field. now apply em_nz.
  Qed.
  Lemma em_div x y : y <> f0 K -> em (fdiv K x y) = fdiv KL (em x) (em y).
  Proof.
    intros Hy. replace (fdiv K x y) with (fmul K x (finv K y)) by (field; exact Hy).
    rewrite (h_mul _ _ _ Hm), (em_inv y Hy). field. now apply em_nz.
  Qed.

  Variable c : L.
  Hypothesis Hc : c <> f0 KL.
  Notation c2 := (fmul KL c c). Notation c3 := (fmul KL (fmul KL c c) c).
  Definition iso (P : point F) : point L :=
    match P with Inf => Inf | Aff x y => Aff (fmul KL (em x) c2) (fmul KL (em y) c3) end.
  Lemma c2_nz : c2 <> f0 KL. Proof. now apply fnz_mul. Qed.
  Lemma c3_nz : c3 <> f0 KL. Proof. apply fnz_mul; [exact c2_nz|exact Hc]. Qed.
  Lemma iso_neg P : iso (ec_neg K P) = ec_neg KL (iso P).
  Proof. destruct P as [|x y]; [reflexivity|]. cbn. rewrite em_opp. f_equal. ring. Qed.
  Lemma iso_line l x1 y1 x2 : iso (ec_line K l x1 y1 x2) =
    ec_line KL (fmul KL (em l) c) (fmul KL (em x1) c2) (fmul KL (em y1) c3) (fmul KL (em x2) c2).
  Proof.
    unfold ec_line. cbv zeta. cbn [iso]. rewrite !em_sub, !(h_mul _ _ _ Hm), !em_sub, !(h_mul _ _ _ Hm).
    f_equal; ring.
  Qed.
  Lemma iso_inj P Q : iso P = iso Q -> P = Q.
  Proof.
    destruct P as [|x y], Q as [|x' y']; try discriminate; [reflexivity|]. cbn. intros E.
    injection E as E1 E2. f_equal; apply em_inj; eapply fcancel_r; [exact c2_nz|exact E1|exact c3_nz|exact E2].
  Qed.

  Variable b : F.
  Hypothesis OK : curve_ok K (f0 K) b.
  Lemma dbl_y x y : on_curve K (f0 K) b (Aff x y) -> fadd K y y <> f0 K.
  Proof.
    intros On. pose proof (ec_y_nz K _ _ OK _ _ On) as Hy. destruct OK as [O1 _].
    replace (fadd K y y) with (fmul K (fadd K (f1 K) (f1 K)) y) by ring. now apply fnz_mul.
  Qed.
  Lemma same_x_cases x y1 y2 : on_curve K (f0 K) b (Aff x y1) -> on_curve K (f0 K) b (Aff x y2) ->
    y1 <> fopp K y2 -> y1 = y2.
  Proof.
    cbn. intros H1 H2 N. destruct (feq_dec K y1 y2) as [|N2]; [assumption|exfalso].
    apply (fnz_mul K (fsub K y1 y2) (fadd K y1 y2)).
    - now apply fsub_nz.
    - intros E. apply N. transitivity (fsub K (fadd K y1 y2) y2); [ring|]. rewrite E. ring.
    - transitivity (fsub K (fmul K y1 y1) (fmul K y2 y2)); [ring|]. rewrite H1, H2. ring.
  Qed.
  Theorem iso_add P Q : on_curve K (f0 K) b P -> on_curve K (f0 K) b Q ->
    iso (ec_add K (f0 K) P Q) = ec_add KL (f0 KL) (iso P) (iso Q).
  Proof.
    destruct P as [|x1 y1], Q as [|x2 y2]; intros OP OQ; try reflexivity.
    cbn [ec_add iso].
    destruct (feq_dec K x1 x2) as [E|N].
    - subst x2. destruct (feq_dec KL _ _) as [_|C]; [|exfalso; apply C; reflexivity].
      destruct (feq_dec K y1 (fopp K y2)) as [E|N].
      + subst y1. destruct (feq_dec KL _ _) as [_|C]; [reflexivity|]. exfalso. apply C. rewrite em_opp. ring.
      + destruct (feq_dec KL _ _) as [C|_].
        { exfalso. apply N. apply em_inj. rewrite em_opp. apply (fcancel_r KL _ _ c3 c3_nz). rewrite C. ring. }
        rewrite iso_line. f_equal. pose proof (dbl_y _ _ OP) as D. rewrite em_div by exact D.
        rewrite !(h_add _ _ _ Hm), !(h_mul _ _ _ Hm), (h_0 _ _ _ Hm).
        apply em_nz in D. rewrite (h_add _ _ _ Hm) in D. field. repeat split; try exact Hc; try exact D.
        intros C. apply (fnz_mul KL _ _ D c3_nz). rewrite <- C. ring.
    - destruct (feq_dec KL _ _) as [C|_].
      { exfalso. apply N. apply em_inj. exact (fcancel_r KL _ _ c2 c2_nz C). }
      rewrite iso_line. f_equal.
      assert (D : fsub K x2 x1 <> f0 K) by (apply fsub_nz; intros E; now apply N).
      rewrite em_div by exact D. rewrite !em_sub. apply em_nz in D. rewrite em_sub in D. field.
      repeat split; try exact Hc; try exact D. intros C. apply (fnz_mul KL _ _ D c2_nz). rewrite <- C. ring.
  Qed.
  Lemma iso_mul k P : on_curve K (f0 K) b P -> iso (ec_mul K (f0 K) k P) = ec_mul KL (f0 KL) k (iso P).
  Proof.
    intros OP. induction k as [|k IH]; [reflexivity|]. cbn [ec_mul]. rewrite iso_add, IH; [reflexivity|exact OP|].
    now apply ec_mul_on.
  Qed.
  Lemma on_iso b' P : fmul KL (em b) (fmul KL c3 c3) = b' -> on_curve K (f0 K) b P -> on_curve KL (f0 KL) b' (iso P).
  Proof.
    intros <-. destruct P as [|x y]; [trivial|]. cbn. intros E. apply (f_equal em) in E.
    rewrite !(h_add _ _ _ Hm), !(h_mul _ _ _ Hm), (h_0 _ _ _ Hm) in E.
    transitivity (fmul KL (fmul KL (em y) (em y)) (fmul KL c3 c3)); [ring|]. rewrite E. ring.
  Qed.
End Hom.

(** ** Lines *)
Section Lines.
  Context {L : Type} (K : field L).
  Add Field FKl : (f_theory K).
  Infix "+" := (fadd K). Infix "*" := (fmul K). Infix "-" := (fsub K). Infix "/" := (fdiv K).
  Notation "- x" := (fopp K x).
  Variables w xP yP : L.
  Hypothesis Hw : w <> f0 K.
  Lemma tangent_id x y Z X Y : Z <> f0 K -> y + y <> f0 K -> X = x * (Z * Z) -> Y = y * (Z * (Z * Z)) ->
    let x' := x / (w * w) in let y' := y / (w * w * w) in
    (Y * Y + Y * Y - (X * X * X + X * X * X + X * X * X)) + - ((Z * Z * Z * Y + Z * Z * Z * Y) * yP) * (w * w * w)
      + (Z * Z * (X * X) * xP + Z * Z * (X * X) * xP + Z * Z * (X * X) * xP) * (w * w)
    = (y + y) * (Z * Z * Z * (Z * Z * Z)) * (w * w * w)
      * (((x' * x' + x' * x' + x' * x') / (y' + y')) * (xP - x') - yP + y').
  Proof.
    intros HZ Hy -> ->. cbv zeta. field. repeat split; try exact Hw; try exact Hy.
  Qed.
  Lemma jaa_id x1 y1 x2 y2 Z X Y : Z <> f0 K -> x1 <> x2 -> X = x1 * (Z * Z) -> Y = y1 * (Z * (Z * Z)) ->
    let x1' := x1 / (w * w) in let y1' := y1 / (w * w * w) in
    let x2' := x2 / (w * w) in let y2' := y2 / (w * w * w) in
    ((X - Z * Z * x2) * Z * y2 - (Y - Z * Z * Z * y2) * x2) + - ((X - Z * Z * x2) * Z * yP) * (w * w * w)
      + (Y - Z * Z * Z * y2) * xP * (w * w)
    = (x1 - x2) * (Z * Z * Z) * (w * w * w) * (((y1' - y2') / (x1' - x2')) * (xP - x2') - yP + y2').
  Proof.
    intros HZ Hx -> ->. cbv zeta. assert (Hd : x1 - x2 <> f0 K) by now apply fsub_nz. field.
    repeat split; try exact Hw; try exact Hd.
  Qed.
  Lemma jja_id x1 y1 x2 y2 Z X Y Z' X' Y' : Z <> f0 K -> Z' <> f0 K -> x1 <> x2 ->
    X = x1 * (Z * Z) -> Y = y1 * (Z * (Z * Z)) -> X' = x2 * (Z' * Z') -> Y' = y2 * (Z' * (Z' * Z')) ->
    let x1' := x1 / (w * w) in let y1' := y1 / (w * w * w) in
    let x2' := x2 / (w * w) in let y2' := y2 / (w * w * w) in
    let t1 := (Z' * Z' * X - Z * Z * X') * Z * Z' in
    let t3 := Z' * Z' * Z' * Y - Z * Z * Z * Y' in
    (t1 * Y' - t3 * X' * Z') + - (t1 * (Z' * Z' * Z') * yP) * (w * w * w) + Z' * Z' * Z' * t3 * xP * (w * w)
    = (x1 - x2) * (Z * Z * Z) * (Z' * Z' * Z' * (Z' * Z' * Z')) * (w * w * w)
      * (((y1' - y2') / (x1' - x2')) * (xP - x2') - yP + y2').
  Proof.
    intros HZ HZ' Hx -> -> -> ->. cbv zeta. assert (Hd : x1 - x2 <> f0 K) by now apply fsub_nz. field.
    repeat split; try exact Hw; try exact Hd.
  Qed.
End Lines.

(** The Jacobian formulas of ModelEC, run with the operations of a field, compute the group law. *)
From Coq Require Import Field.
From Verif Require Import Base BaseFacts SpecField SpecEC SpecJac ProofEC ProofECMul ModelEC.

(** the operations of a field as a record of field functions *)
Definition Fops {F} (K : field F) : fops F :=
  MkOps F (fadd K) (fsub K) (fmul K) (fun x => fmul K x x) (fun x => fadd K x x)
    (fun x => fadd K (fadd K x x) x) (fopp K) (finv K)
    (fun x y => if feq_dec K x y then true else false)
    (fun x => if feq_dec K x (f0 K) then true else false) (f0 K) (f1 K).

Section J.
  Variable F : Type.
  Variables (z o : F) (pl mu mi : F -> F -> F) (op : F -> F) (di : F -> F -> F) (iv : F -> F).
  Variable dec : forall x y : F, {x = y} + {x <> y}.
  Hypothesis FT : field_theory z o pl mu mi op di iv eq.
  Let K := MkField F z o pl mu mi op di iv dec FT.
  Variables a b : F.
  Notation "0" := z. Notation "1" := o.
  Infix "+" := pl. Infix "*" := mu. Infix "-" := mi. Infix "/" := di. Notation "- x" := (op x).
  Add Field KJ : FT.
  Hypothesis two_nz : 1 + 1 <> 0.
  Notation on := (on_curve K a b).
  Notation add := (ec_add K a).
  Notation neg := (ec_neg K).
  Let O := Fops K.

  Let mul_nz := mul_nz F z o pl mu mi op di iv FT.
  Let sub_nz := sub_nz F z o pl mu mi op di iv FT.
  Let dbl_nz := dbl_nz F z o pl mu mi op di iv FT two_nz.

  Lemma jrel_unf X Y Z P : jrel K (X, Y, Z) P <->
    match P with Inf => Z = 0 | Aff x y => Z <> 0 /\ X = x * (Z * Z) /\ Y = y * (Z * (Z * Z)) end.
  Proof. destruct P; reflexivity. Qed.

  (** ** Doubling *)
  Lemma neg_self y : y = - y -> y = 0.
  Proof.
    intros H. destruct (dec y 0) as [E|E]; [assumption|]. elim (dbl_nz y E). rewrite H at 1. ring.
  Qed.
  Lemma dbl_aff x y : add (Aff x y) (Aff x y) =
    if dec y 0 then Inf
    else ec_line K ((x * x + x * x + x * x + a) / (y + y)) x y x.
  Proof.
    change (add (Aff x y) (Aff x y)) with
      (if dec x x then if dec y (- y) then Inf
         else ec_line K ((x * x + x * x + x * x + a) / (y + y)) x y x
       else ec_line K ((y - y) / (x - x)) x y x).
    destruct (dec x x) as [_|E]; [|now elim E].
    destruct (dec y (- y)) as [E|E]; destruct (dec y 0) as [E'|E']; try reflexivity.
    - elim E'. now apply neg_self.
    - elim E. rewrite E'. ring.
  Qed.

  Lemma dbl_2001b_ok J P : a = - (1 + 1 + 1) -> jrel K J P -> jrel K (j_dbl_2001b O J) (add P P).
  Proof.
    intros Ha. destruct J as [[X Y] Z]. rewrite jrel_unf. destruct P as [|x y].
    - intros ->. cbn. ring.
    - intros (HZ & -> & ->). rewrite dbl_aff. destruct (dec y 0) as [->|Hy]; cbn.
      + ring.
      + assert (N : (1 + 1) * y * (Z * Z * (Z * Z)) <> 0).
        { repeat apply mul_nz; assumption. }
        split; [|split].
        * intros E. apply N. rewrite <- E. ring.
        * rewrite Ha. field. now apply dbl_nz.
        * rewrite Ha. field. now apply dbl_nz.
  Qed.
  Lemma dbl_2009l_ok J P : a = 0 -> jrel K J P -> jrel K (j_dbl_2009l O J) (add P P).
  Proof.
    intros Ha. destruct J as [[X Y] Z]. rewrite jrel_unf. destruct P as [|x y].
    - intros ->. cbn. ring.
    - intros (HZ & -> & ->). rewrite dbl_aff. destruct (dec y 0) as [->|Hy]; cbn.
      + ring.
      + assert (N : (1 + 1) * y * (Z * Z * (Z * Z)) <> 0).
        { repeat apply mul_nz; assumption. }
        split; [|split].
        * intros E. apply N. rewrite <- E. ring.
        * rewrite Ha. field. now apply dbl_nz.
        * rewrite Ha. field. now apply dbl_nz.
  Qed.

  (** ** Mixed addition: operands neither infinite nor equal *)
  Lemma add_neq x1 y1 x2 y2 : x1 <> x2 ->
    add (Aff x1 y1) (Aff x2 y2) = ec_line K ((y2 - y1) / (x2 - x1)) x1 y1 x2.
  Proof.
    intros H. cbn [ec_add]. change (feq_dec K) with dec. now destruct (dec x1 x2) as [E|_].
  Qed.
  Lemma add_opp x y : add (Aff x y) (Aff x (- y)) = Inf.
  Proof.
    cbn [ec_add]. change (feq_dec K) with dec. change (fopp K) with op.
    destruct (dec x x) as [_|E]; [|now elim E].
    destruct (dec y (- - y)) as [_|E]; [reflexivity|]. elim E. ring.
  Qed.

  Lemma add_a_ok X1 Y1 Z1 x1 y1 x y : jrel K (X1, Y1, Z1) (Aff x1 y1) ->
    on (Aff x1 y1) -> on (Aff x y) -> (x1, y1) <> (x, y) ->
    jrel K (j_add_a O (X1, Y1, Z1) (x, y)) (add (Aff x1 y1) (Aff x y)).
  Proof.
    intros HJ H1 H2 Hne. rewrite jrel_unf in HJ. destruct HJ as (HZ & -> & ->).
    destruct (dec x1 x) as [->|Hx].
    - destruct (same_x F z o pl mu mi op di iv dec FT a b x y1 y H1 H2) as [->| ->]; [now elim Hne|].
      replace (Aff x y) with (Aff x (- - y)) by (f_equal; ring).
      rewrite add_opp. cbn. ring.
    - rewrite add_neq by assumption.
      assert (D : x - x1 <> 0) by (apply sub_nz; congruence).
      cbn. split; [|split].
      + intros E. assert (N : (1 + 1) * (x - x1) * (Z1 * Z1 * Z1) <> 0)
          by (repeat apply mul_nz; assumption).
        apply N. rewrite <- E. ring.
      + field. assumption.
      + field. assumption.
  Qed.

  (** ** The exceptional operands of the mixed addition: the result has Z = 0 *)
  Lemma add_a_Z X1 Y1 Z1 x y :
    snd (j_add_a O (X1, Y1, Z1) (x, y)) = (1 + 1) * Z1 * (x * (Z1 * Z1) - X1).
  Proof. cbn. ring. Qed.
  Lemma dbl_2001b_Z X1 Y1 Z1 : snd (j_dbl_2001b O (X1, Y1, Z1)) = (1 + 1) * (Y1 * Z1).
  Proof. cbn. ring. Qed.
  Lemma dbl_2009l_Z X1 Y1 Z1 : snd (j_dbl_2009l O (X1, Y1, Z1)) = (1 + 1) * (Y1 * Z1).
  Proof. cbn. ring. Qed.
  Lemma add_a_same X1 Y1 Z1 x y : jrel K (X1, Y1, Z1) (Aff x y) ->
    j_add_a O (X1, Y1, Z1) (x, y) = (0, 0, 0).
  Proof.
    intros HJ. rewrite jrel_unf in HJ. destruct HJ as (HZ & -> & ->). cbn.
    f_equal; [f_equal|]; ring.
  Qed.

  (** ** Full addition: both operands finite, or both infinite *)
  Lemma j_add_ok dbl J1 J2 P Q :
    (forall J P, jrel K J P -> jrel K (dbl J) (add P P)) ->
    jrel K J1 P -> jrel K J2 Q -> on P -> on Q -> (P = Inf <-> Q = Inf) ->
    jrel K (j_add O dbl J1 J2) (add P Q).
  Proof.
    intros Hd. destruct J1 as [[X1 Y1] Z1], J2 as [[X2 Y2] Z2]. intros R1 R2 HP HQ HI.
    pose proof (Hd _ _ R1) as RD. rewrite jrel_unf in R1, R2.
    destruct P as [|x1 y1], Q as [|x2 y2]; try (destruct HI as [I1 I2]; try discriminate (I1 eq_refl); discriminate (I2 eq_refl)).
    - subst Z1 Z2. unfold j_add. cbn - [jrel feq_dec]. change (feq_dec K) with dec.
      destruct (dec (X1 * (0 * 0)) (X2 * (0 * 0))) as [_|E]; [|elim E; ring].
      destruct (dec (Y1 * 0 * (0 * 0)) (Y2 * 0 * (0 * 0))) as [_|E]; [|elim E; ring].
      exact RD.
    - destruct R1 as (HZ1 & -> & ->), R2 as (HZ2 & -> & ->). unfold j_add. cbn - [jrel feq_dec ec_add].
      change (feq_dec K) with dec.
      assert (ZZ : Z1 * Z1 * (Z2 * Z2) <> 0) by (repeat apply mul_nz; assumption).
      destruct (dec (x1 * (Z1 * Z1) * (Z2 * Z2)) (x2 * (Z2 * Z2) * (Z1 * Z1))) as [E|E].
      + assert (Ex : x1 = x2).
        { destruct (dec x1 x2) as [H|H]; [assumption|]. elim (mul_nz _ _ (sub_nz _ _ H) ZZ).
          replace ((x1 - x2) * (Z1 * Z1 * (Z2 * Z2))) with
            (x1 * (Z1 * Z1) * (Z2 * Z2) - x2 * (Z2 * Z2) * (Z1 * Z1)) by ring. rewrite E. ring. }
        subst x2.
        destruct (dec (y1 * (Z1 * (Z1 * Z1)) * Z2 * (Z2 * Z2)) (y2 * (Z2 * (Z2 * Z2)) * Z1 * (Z1 * Z1))) as [E'|E'].
        * assert (Ey : y1 = y2).
          { destruct (dec y1 y2) as [H|H]; [assumption|].
            assert (ZZZ : Z1 * Z1 * (Z2 * Z2) * (Z1 * Z2) <> 0) by (repeat apply mul_nz; assumption).
            elim (mul_nz _ _ (sub_nz _ _ H) ZZZ).
            replace ((y1 - y2) * (Z1 * Z1 * (Z2 * Z2) * (Z1 * Z2))) with
              (y1 * (Z1 * (Z1 * Z1)) * Z2 * (Z2 * Z2) - y2 * (Z2 * (Z2 * Z2)) * Z1 * (Z1 * Z1)) by ring.
            rewrite E'. ring. }
          subst y2. exact RD.
        * destruct (same_x F z o pl mu mi op di iv dec FT a b x1 y1 y2 HP HQ) as [->| ->].
          { elim E'. ring. }
          replace (Aff x1 y2) with (Aff x1 (- - y2)) by (f_equal; ring).
          rewrite add_opp. reflexivity.
      + assert (Hx : x1 <> x2) by (intros ->; apply E; ring).
        rewrite add_neq by assumption.
        assert (D : x2 - x1 <> 0) by (apply sub_nz; congruence).
        cbn. split; [|split].
        * intros E0. assert (N : (1 + 1) * (x2 - x1) * (Z1 * Z1 * Z1 * (Z2 * Z2 * Z2)) <> 0)
            by (repeat apply mul_nz; assumption).
          apply N. rewrite <- E0. ring.
        * field. assumption.
        * field. assumption.
  Qed.

  (** ** Conversions *)
  Lemma to_a_ok X Y Z x y : jrel K (X, Y, Z) (Aff x y) -> j_to_a O (X, Y, Z) = (x, y).
  Proof.
    intros H. rewrite jrel_unf in H. destruct H as (HZ & -> & ->). cbn. f_equal; field; assumption.
  Qed.
  Lemma to_a_inf X Y Z : iv 0 = 0 -> jrel K (X, Y, Z) Inf -> j_to_a O (X, Y, Z) = (0, 0).
  Proof. intros Hi H. rewrite jrel_unf in H. subst Z. cbn. rewrite Hi. f_equal; ring. Qed.
  Lemma from_a_ok x y : jrel K (j_from_a O (x, y)) (Aff x y).
  Proof. cbn. split; [|split; ring]. exact (F_1_neq_0 FT). Qed.
  Lemma j_neg_ok J P : jrel K J P -> jrel K (j_neg O J) (neg P).
  Proof.
    destruct J as [[X Y] Z]. rewrite jrel_unf. destruct P as [|x y]; [intros H; exact H|].
    intros (HZ & -> & ->). cbn. split; [assumption|]. split; ring.
  Qed.
  Lemma set_inf_ok : jrel K (j_set_inf O) Inf. Proof. reflexivity. Qed.
  Lemma normal_ok J P : jrel K J P -> jrel K (j_normal O J) P /\
    (snd (j_normal O J) = 0 \/ snd (j_normal O J) = 1).
  Proof.
    destruct J as [[X Y] Z]. rewrite jrel_unf. unfold j_normal, j_is_inf.
    cbn - [jrel feq_dec]. change (feq_dec K) with dec.
    destruct P as [|x y].
    - intros ->. destruct (dec 0 0) as [_|E]; [|now elim E]. split; [reflexivity|now left].
    - intros (HZ & -> & ->). destruct (dec Z 0) as [E|_]; [now elim HZ|].
      split; [|now right]. cbn. split; [|split; field; assumption]. exact (F_1_neq_0 FT).
  Qed.
  Lemma is_inf_ok J P : jrel K J P -> (j_is_inf O J = true <-> P = Inf).
  Proof.
    destruct J as [[X Y] Z]. rewrite jrel_unf. unfold j_is_inf. cbn. change (feq_dec K) with dec.
    destruct P as [|x y].
    - intros ->. destruct (dec 0 0) as [_|E]; [|now elim E]. split; reflexivity.
    - intros (HZ & _). destruct (dec Z 0) as [E|_]; [now elim HZ|]. split; discriminate.
  Qed.
  (** equality of representatives, for infinite representatives with X <> 0 (such as set_inf's) *)
  Lemma j_equal_ok J1 J2 P Q : jrel K J1 P -> jrel K J2 Q ->
    (P = Inf -> fst (fst J1) <> 0) -> (Q = Inf -> fst (fst J2) <> 0) ->
    (j_equal O J1 J2 = true <-> P = Q).
  Proof.
    destruct J1 as [[X1 Y1] Z1], J2 as [[X2 Y2] Z2]. rewrite !jrel_unf. unfold j_equal.
    cbn - [feq_dec]. change (feq_dec K) with dec.
    destruct P as [|x1 y1], Q as [|x2 y2].
    - intros -> -> _ _.
      destruct (dec (X1 * (0 * 0)) (X2 * (0 * 0))) as [_|E]; [|elim E; ring].
      destruct (dec (Y1 * (0 * 0 * 0)) (Y2 * (0 * 0 * 0))) as [_|E]; [|elim E; ring]. split; reflexivity.
    - intros -> (HZ & -> & ->) HX _.
      destruct (dec (X1 * (Z2 * Z2)) (x2 * (Z2 * Z2) * (0 * 0))) as [E|_]; [|split; discriminate].
      elim (mul_nz _ _ (HX eq_refl) (mul_nz _ _ HZ HZ)). rewrite E. ring.
    - intros (HZ & -> & ->) -> _ HX.
      destruct (dec (x1 * (Z1 * Z1) * (0 * 0)) (X2 * (Z1 * Z1))) as [E|_]; [|split; discriminate].
      elim (mul_nz _ _ (HX eq_refl) (mul_nz _ _ HZ HZ)). rewrite <- E. ring.
    - intros (HZ1 & -> & ->) (HZ2 & -> & ->) _ _.
      assert (ZZ : Z1 * Z1 * (Z2 * Z2) <> 0) by (repeat apply mul_nz; assumption).
      assert (ZZZ : Z1 * Z1 * (Z2 * Z2) * (Z1 * Z2) <> 0) by (repeat apply mul_nz; assumption).
      destruct (dec (x1 * (Z1 * Z1) * (Z2 * Z2)) (x2 * (Z2 * Z2) * (Z1 * Z1))) as [E|E]; cbn.
      + assert (x1 = x2).
        { destruct (dec x1 x2) as [H|H]; [assumption|]. elim (mul_nz _ _ (sub_nz _ _ H) ZZ).
          replace ((x1 - x2) * (Z1 * Z1 * (Z2 * Z2))) with
            (x1 * (Z1 * Z1) * (Z2 * Z2) - x2 * (Z2 * Z2) * (Z1 * Z1)) by ring. rewrite E. ring. }
        subst x2.
        destruct (dec (y1 * (Z1 * (Z1 * Z1)) * (Z2 * Z2 * Z2)) (y2 * (Z2 * (Z2 * Z2)) * (Z1 * Z1 * Z1))) as [E'|E']; cbn.
        * split; [intros _|reflexivity]. f_equal.
          destruct (dec y1 y2) as [H|H]; [assumption|].
            elim (mul_nz _ _ (sub_nz _ _ H) ZZZ).
            replace ((y1 - y2) * (Z1 * Z1 * (Z2 * Z2) * (Z1 * Z2))) with
              (y1 * (Z1 * (Z1 * Z1)) * (Z2 * Z2 * Z2) - y2 * (Z2 * (Z2 * Z2)) * (Z1 * Z1 * Z1)) by ring.
            rewrite E'. ring.
        * split; [discriminate|]. intros [= <-]. elim E'. ring.
      + split; [discriminate|]. intros [= <- <-]. elim E. ring.
  Qed.
End J.

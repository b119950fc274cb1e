(** The tower functions on stored numbers.  [R a x]: [a] is the reduced stored form of [x];
    [W a x]: a stored form that may be unreduced (in the portable build negating zero leaves the
    modulus itself).  Products and sums behave on both; only subtraction needs its first argument
    reduced. *)
From Verif Require Import Base SpecField SpecTower ModelEC ProofJac ProofJacRep ModelSM9 ProofTower.

Record ops9 {T F} (Op : fops T) (K : field F) (R W : T -> F -> Prop) : Prop := Mk9 {
  t_w : forall a x, R a x -> W a x;
  t_add : forall a b x y, W a x -> R b y -> R (o_add Op a b) (fadd K x y);
  t_addw : forall a b x y, R a x -> W b y -> R (o_add Op a b) (fadd K x y);
  t_addww : forall a b x y, W a x -> W b y -> W (o_add Op a b) (fadd K x y);
  t_sub : forall a b x y, R a x -> W b y -> R (o_sub Op a b) (fsub K x y);
  t_mul : forall a b x y, W a x -> W b y -> R (o_mul Op a b) (fmul K x y);
  t_sqr : forall a x, W a x -> R (o_sqr Op a) (fmul K x x);
  t_dbl : forall a x, R a x -> R (o_dbl Op a) (fadd K x x);
  t_tpl : forall a x, R a x -> R (o_tpl Op a) (fadd K (fadd K x x) x);
  t_neg : forall a x, W a x -> W (o_neg Op a) (fopp K x);
  t_inv : forall a x, R a x -> R (o_inv Op a) (finv K x);
  t_eq : forall a b x y, R a x -> R b y -> o_eq Op a b = if feq_dec K x y then true else false;
  t_is0 : forall a x, R a x -> o_is0 Op a = if feq_dec K x (f0 K) then true else false;
  t_zero : R (o_zero Op) (f0 K);
  t_one : R (o_one Op) (f1 K)
}.

(** stored pairs and triples *)
Definition rel2 {T F} (R : T -> F -> Prop) (a : T * T) (x : F * F) : Prop :=
  R (fst a) (fst x) /\ R (snd a) (snd x).
Definition rel3 {T F} (R : T -> F -> Prop) (a : T * T * T) (x : F * F * F) : Prop :=
  let '(a0, a1, a2) := a in let '(x0, x1, x2) := x in R a0 x0 /\ R a1 x1 /\ R a2 x2.

Section Rep.
  Context {T F : Type} (Op : fops T) (K : field F) (R W : T -> F -> Prop).
  Hypothesis OR : ops9 Op K R W.
  Notation O1 := (Fops K).
  Notation R2 := (rel2 R). Notation W2 := (rel2 W).
  Notation R4 := (rel2 R2). Notation W4 := (rel2 W2).
  Notation R12 := (rel3 R4). Notation W12 := (rel3 W4).

  Lemma w2 a x : R2 a x -> W2 a x.
  Proof. intros [H1 H2]. split; now apply (t_w _ _ _ _ OR). Qed.
  Lemma w4 a x : R4 a x -> W4 a x.
  Proof. intros [H1 H2]. split; now apply w2. Qed.
  Lemma w12_ a x : R12 a x -> W12 a x.
  Proof. destruct a as [[a0 a1] a2], x as [[x0 x1] x2]. intros (H0 & H1 & H2). repeat split; apply w4; assumption. Qed.

  Ltac w1 := first [assumption | apply (t_w _ _ _ _ OR); assumption].
  Ltac rl := match goal with
    | H : R ?a ?x |- R ?a ?x => exact H
    | H : W ?a ?x |- W ?a ?x => exact H
    | |- R (o_mul _ _ _) _ => apply (t_mul _ _ _ _ OR); rl
    | |- R (o_sqr _ _) _ => apply (t_sqr _ _ _ _ OR); rl
    | |- R (o_sub _ _ _) _ => apply (t_sub _ _ _ _ OR); rl
    | |- R (o_dbl _ _) _ => apply (t_dbl _ _ _ _ OR); rl
    | |- R (o_tpl _ _) _ => apply (t_tpl _ _ _ _ OR); rl
    | |- R (o_inv _ _) _ => apply (t_inv _ _ _ _ OR); rl
    | |- R (o_add _ _ _) _ => first [apply (t_add _ _ _ _ OR); [solve [rl]|solve [rl]] | apply (t_addw _ _ _ _ OR); rl]
    | |- R (o_zero _) _ => exact (t_zero _ _ _ _ OR)
    | |- R (o_one _) _ => exact (t_one _ _ _ _ OR)
    | |- W (o_add _ _ _) _ => apply (t_addww _ _ _ _ OR); rl
    | |- W (o_neg _ _) _ => apply (t_neg _ _ _ _ OR); rl
    | |- W _ _ => apply (t_w _ _ _ _ OR); rl
    end.
  Ltac d2 := repeat match goal with
    | a : (T * T)%type |- _ => destruct a
    | x : (F * F)%type |- _ => destruct x
    end.
  Ltac s2 := d2; repeat match goal with H : rel2 _ (_, _) (_, _) |- _ => destruct H; cbn [fst snd] in * end;
    split; cbn [fst snd]; cbn; rl.

  (** ** F_p^2 *)
  Lemma add2 a b x y : W2 a x -> R2 b y -> R2 (fp2_add Op a b) (fp2_add O1 x y).
  Proof. intros [H0 H1] [H2 H3]. s2. Qed.
  Lemma add2w a b x y : R2 a x -> W2 b y -> R2 (fp2_add Op a b) (fp2_add O1 x y).
  Proof. intros [H0 H1] [H2 H3]. s2. Qed.
  Lemma add2ww a b x y : W2 a x -> W2 b y -> W2 (fp2_add Op a b) (fp2_add O1 x y).
  Proof. intros [H0 H1] [H2 H3]. s2. Qed.
  Lemma sub2 a b x y : R2 a x -> W2 b y -> R2 (fp2_sub Op a b) (fp2_sub O1 x y).
  Proof. intros [H0 H1] [H2 H3]. s2. Qed.
  Lemma dbl2 a x : R2 a x -> R2 (fp2_dbl Op a) (fp2_dbl O1 x).
  Proof. intros [H0 H1]. s2. Qed.
  Lemma tpl2 a x : R2 a x -> R2 (fp2_tpl Op a) (fp2_tpl O1 x).
  Proof. intros [H0 H1]. s2. Qed.
  Lemma neg2 a x : W2 a x -> W2 (fp2_neg Op a) (fp2_neg O1 x).
  Proof. intros [H0 H1]. s2. Qed.
  Lemma conj2 a x : W2 a x -> W2 (fp2_conjugate Op a) (fp2_conjugate O1 x).
  Proof. intros [H0 H1]. s2. Qed.
  Lemma mul2 a b x y : W2 a x -> W2 b y -> R2 (fp2_mul Op a b) (fp2_mul O1 x y).
  Proof. intros [H0 H1] [H2 H3]. s2. Qed.
  Lemma sqr2 a x : W2 a x -> R2 (fp2_sqr Op a) (fp2_sqr O1 x).
  Proof. intros [H0 H1]. s2. Qed.
  Lemma mulu2 a x : R2 a x -> W2 (fp2_mul_u Op a) (fp2_mul_u O1 x).
  Proof. intros [H0 H1]. s2. Qed.
  Lemma mulf2 a b x y : W2 a x -> W b y -> R2 (fp2_mul_fp Op a b) (fp2_mul_fp O1 x y).
  Proof. intros [H0 H1] H2. s2. Qed.
  Lemma inv2 a x : W2 a x -> W2 (fp2_inv Op a) (fp2_inv O1 x).
  Proof. intros [H0 H1]. s2. Qed.
  Lemma zero2 : R2 (fp2_zero Op) (f0 K, f0 K).
  Proof. s2. Qed.
  Lemma one2 : R2 (fp2_one Op) (f1 K, f0 K).
  Proof. s2. Qed.
  Lemma is02 a x : R2 a x -> fp2_equal_zero Op a = if q_eq_dec K x (f0 K, f0 K) then true else false.
  Proof.
    intros [H0 H1]. d2. cbn [fst snd] in *. unfold fp2_equal_zero. cbn [fst snd].
    rewrite (t_is0 _ _ _ _ OR _ _ H0), (t_is0 _ _ _ _ OR _ _ H1). unfold q_eq_dec.
    destruct (feq_dec K _ (SpecField.f0 K)) as [->|]; [|reflexivity]. cbn [andb].
    destruct (feq_dec K _ (SpecField.f0 K)) as [->|]; reflexivity.
  Qed.
  Lemma eq2 a b x y : R2 a x -> R2 b y -> fp2_equal Op a b = if q_eq_dec K x y then true else false.
  Proof.
    intros [H0 H1] [H2 H3]. d2. cbn [fst snd] in *. unfold fp2_equal. cbn [fst snd].
    rewrite (t_eq _ _ _ _ OR _ _ _ _ H0 H2), (t_eq _ _ _ _ OR _ _ _ _ H1 H3). unfold q_eq_dec.
    destruct (feq_dec K _ _) as [->|]; [|reflexivity]. cbn [andb].
    destruct (feq_dec K _ _) as [->|]; reflexivity.
  Qed.

  Ltac rl2 := match goal with
    | H : ?r ?a ?x |- ?r ?a ?x => exact H
    | |- R2 (fp2_mul _ _ _) _ => apply mul2; rl2
    | |- R2 (fp2_sqr _ _) _ => apply sqr2; rl2
    | |- R2 (fp2_sub _ _ _) _ => apply sub2; rl2
    | |- R2 (fp2_dbl _ _) _ => apply dbl2; rl2
    | |- R2 (fp2_tpl _ _) _ => apply tpl2; rl2
    | |- R2 (fp2_mul_fp _ _ _) _ => apply mulf2; rl2
    | |- R2 (fp2_add _ _ _) _ => first [apply add2; [solve [rl2]|solve [rl2]] | apply add2w; rl2]
    | |- R2 (fp2_zero _) _ => exact zero2
    | |- R2 (fp2_one _) _ => exact one2
    | |- W2 (fp2_add _ _ _) _ => apply add2ww; rl2
    | |- W2 (fp2_neg _ _) _ => apply neg2; rl2
    | |- W2 (fp2_conjugate _ _) _ => apply conj2; rl2
    | |- W2 (fp2_mul_u _ _) _ => apply mulu2; rl2
    | |- W2 (fp2_inv _ _) _ => apply inv2; rl2
    | |- W2 _ _ => apply w2; rl2
    | |- W _ _ => apply (t_w _ _ _ _ OR); rl2
    end.
  Ltac d4 := repeat match goal with
    | a : p4 T |- _ => destruct a
    | x : p4 F |- _ => destruct x
    | a : (p2 T * p2 T)%type |- _ => destruct a
    | x : (p2 F * p2 F)%type |- _ => destruct x
    end.
  Ltac s4 := unfold p4 in *; unfold p2 in *; repeat match goal with
    | a : (T * T * (T * T))%type |- _ => destruct a
    | x : (F * F * (F * F))%type |- _ => destruct x
    end; repeat match goal with H : rel2 _ (_, _) (_, _) |- _ => destruct H end; cbn [fst snd] in *;
    split; cbn [fst snd].

  (** ** F_p^4 *)
  Lemma add4 a b x y : W4 a x -> R4 b y -> R4 (fp4_add Op a b) (fp4_add O1 x y).
  Proof. intros [H0 H1] [H2 H3]. split; cbn [fst snd fp4_add]; rl2. Qed.
  Lemma add4w a b x y : R4 a x -> W4 b y -> R4 (fp4_add Op a b) (fp4_add O1 x y).
  Proof. intros [H0 H1] [H2 H3]. split; cbn [fst snd fp4_add]; rl2. Qed.
  Lemma add4ww a b x y : W4 a x -> W4 b y -> W4 (fp4_add Op a b) (fp4_add O1 x y).
  Proof. intros [H0 H1] [H2 H3]. split; cbn [fst snd fp4_add]; rl2. Qed.
  Lemma sub4 a b x y : R4 a x -> W4 b y -> R4 (fp4_sub Op a b) (fp4_sub O1 x y).
  Proof. intros [H0 H1] [H2 H3]. split; cbn [fst snd fp4_sub]; rl2. Qed.
  Lemma neg4 a x : W4 a x -> W4 (fp4_neg Op a) (fp4_neg O1 x).
  Proof. intros [H0 H1]. split; cbn [fst snd fp4_neg]; rl2. Qed.
  Lemma conj4 a x : W4 a x -> W4 (fp4_conjugate Op a) (fp4_conjugate O1 x).
  Proof. intros [H0 H1]. split; cbn [fst snd fp4_conjugate]; rl2. Qed.
  Lemma mul4 a b x y : W4 a x -> W4 b y -> R4 (fp4_mul Op a b) (fp4_mul O1 x y).
  Proof.
    destruct a, b, x, y. intros [H0 H1] [H2 H3]. cbn [fst snd] in *.
    split; unfold fp4_mul; cbv zeta; cbn [fst snd]; rl2.
  Qed.
  Lemma sqr4 a x : W4 a x -> R4 (fp4_sqr Op a) (fp4_sqr O1 x).
  Proof.
    destruct a, x. intros [H0 H1]. cbn [fst snd] in *.
    split; unfold fp4_sqr; cbv zeta; cbn [fst snd]; rl2.
  Qed.
  Lemma mulv4 a x : R4 a x -> W4 (fp4_mul_v Op a) (fp4_mul_v O1 x).
  Proof.
    destruct a, x. intros [H0 H1]. cbn [fst snd] in *.
    split; unfold fp4_mul_v; cbv zeta; cbn [fst snd]; rl2.
  Qed.
  Lemma mulf4 a b x y : W4 a x -> W b y -> R4 (fp4_mul_fp Op a b) (fp4_mul_fp O1 x y).
  Proof. intros [H0 H1] H2. split; cbn [fst snd fp4_mul_fp]; rl2. Qed.
  Lemma inv4 a x : W4 a x -> W4 (fp4_inv Op a) (fp4_inv O1 x).
  Proof.
    destruct a, x. intros [H0 H1]. cbn [fst snd] in *.
    split; unfold fp4_inv; cbv zeta; cbn [fst snd]; rl2.
  Qed.
  Lemma zero4 : R4 (fp4_zero Op) (fp4_zero O1).
  Proof. split; exact zero2. Qed.
  Lemma one4 : R4 (fp4_one Op) (fp4_one O1).
  Proof. split; [exact one2|exact zero2]. Qed.
  Lemma is04 a x : R4 a x -> fp4_equal_zero Op a = fp4_equal_zero O1 x.
  Proof.
    destruct a as [a0 a1], x as [[x0 x1] [x2 x3]]. intros [H0 H1]. unfold fp4_equal_zero. cbn [fst snd] in *.
    rewrite (is02 _ _ H0), (is02 _ _ H1).
    unfold fp2_equal_zero. cbn [fst snd q_eq_dec o_is0 Fops].
    repeat (destruct (feq_dec K _ (SpecField.f0 K)) as [->|]; cbn [andb]; try reflexivity).
  Qed.

  Ltac rl4 := match goal with
    | H : ?r ?a ?x |- ?r ?a ?x => exact H
    | |- R4 (fp4_mul _ _ _) _ => apply mul4; rl4
    | |- R4 (fp4_sqr _ _) _ => apply sqr4; rl4
    | |- R4 (fp4_sub _ _ _) _ => apply sub4; rl4
    | |- R4 (fp4_mul_fp _ _ _) _ => apply mulf4; rl4
    | |- R4 (fp4_add _ _ _) _ => first [apply add4; [solve [rl4]|solve [rl4]] | apply add4w; rl4]
    | |- R4 (fp4_zero _) _ => exact zero4
    | |- R4 (fp4_one _) _ => exact one4
    | |- W4 (fp4_add _ _ _) _ => apply add4ww; rl4
    | |- W4 (fp4_neg _ _) _ => apply neg4; rl4
    | |- W4 (fp4_conjugate _ _) _ => apply conj4; rl4
    | |- W4 (fp4_mul_v _ _) _ => apply mulv4; rl4
    | |- W4 (fp4_inv _ _) _ => apply inv4; rl4
    | |- W4 _ _ => apply w4; rl4
    | |- W _ _ => apply (t_w _ _ _ _ OR); rl4
    end.

  (** ** F_p^12 *)
  Lemma add12 a b x y : W12 a x -> R12 b y -> R12 (fp12_add Op a b) (fp12_add O1 x y).
  Proof.
    destruct a as [[a0 a1] a2], b as [[b0 b1] b2], x as [[x0 x1] x2], y as [[y0 y1] y2].
    intros (H0 & H1 & H2) (H3 & H4 & H5). unfold fp12_add. split; [|split]; rl4.
  Qed.
  Lemma sub12 a b x y : R12 a x -> W12 b y -> R12 (fp12_sub Op a b) (fp12_sub O1 x y).
  Proof.
    destruct a as [[a0 a1] a2], b as [[b0 b1] b2], x as [[x0 x1] x2], y as [[y0 y1] y2].
    intros (H0 & H1 & H2) (H3 & H4 & H5). unfold fp12_sub. split; [|split]; rl4.
  Qed.
  Lemma neg12 a x : W12 a x -> W12 (fp12_neg Op a) (fp12_neg O1 x).
  Proof.
    destruct a as [[a0 a1] a2], x as [[x0 x1] x2]. intros (H0 & H1 & H2). unfold fp12_neg. split; [|split]; rl4.
  Qed.
  Lemma mul12 a b x y : W12 a x -> W12 b y -> R12 (fp12_mul Op a b) (fp12_mul O1 x y).
  Proof.
    destruct a as [[a0 a1] a2], b as [[b0 b1] b2], x as [[x0 x1] x2], y as [[y0 y1] y2].
    intros (H0 & H1 & H2) (H3 & H4 & H5). unfold fp12_mul. cbv zeta. split; [|split]; rl4.
  Qed.
  Lemma sqr12 a x : W12 a x -> R12 (fp12_sqr Op a) (fp12_sqr O1 x).
  Proof. intros H. now apply mul12. Qed.
  Lemma zero12 : R12 (fp12_zero Op) (fp12_zero O1).
  Proof. split; [|split]; exact zero4. Qed.
  Lemma one12 : R12 (fp12_one Op) (fp12_one O1).
  Proof. split; [exact one4|split; exact zero4]. Qed.
  Lemma is012 a x : R12 a x -> fp12_equal_zero Op a = fp12_equal_zero O1 x.
  Proof.
    destruct a as [[a0 a1] a2], x as [[x0 x1] x2]. intros (H0 & H1 & H2). unfold fp12_equal_zero.
    now rewrite (is04 _ _ H0), (is04 _ _ H1), (is04 _ _ H2).
  Qed.

  (** The inverse subtracts from an unreduced value; it is right when that value is reduced. *)
  Definition inv12_safe (a : p12 T) (x : p12 F) : Prop :=
    let '(a0, a1, a2) := a in
    let '(x0, x1, x2) := x in
    R4 (fp4_sub Op (fp4_mul_v Op (fp4_sqr Op a2)) (fp4_mul Op a0 a1))
       (fp4_sub O1 (fp4_mul_v O1 (fp4_sqr O1 x2)) (fp4_mul O1 x0 x1)).
  Lemma inv12 a x : W12 a x -> inv12_safe a x -> R12 (fp12_inv Op a) (fp12_inv O1 x).
  Proof.
    destruct a as [[a0 a1] a2], x as [[x0 x1] x2]. intros (H0 & H1 & H2) HS. unfold inv12_safe in HS.
    unfold fp12_inv. cbv zeta.
    set (B := fp4_sub Op (fp4_mul_v Op (fp4_sqr Op a2)) (fp4_mul Op a0 a1)) in *.
    set (b := fp4_sub O1 (fp4_mul_v O1 (fp4_sqr O1 x2)) (fp4_mul O1 x0 x1)) in *. clearbody B b.
    split; [|split]; rl4.
  Qed.

  (** ** Exponentiation *)
  Lemma lut12_rep n a x p y : W12 a x -> R12 p y ->
    Forall2 R12 (lut12_from Op n a p) (lut12_from O1 n x y).
  Proof.
    intros Ha. revert p y. induction n as [|n IH]; intros p y Hp; cbn [lut12_from]; [constructor|].
    assert (Hq : R12 (fp12_mul Op p a) (fp12_mul O1 y x)) by (apply mul12; [now apply w12_|assumption]).
    constructor; [exact Hq|]. now apply IH.
  Qed.
  Definition res_rel {A B} (P : A -> B -> Prop) (r : res A) (s : res B) : Prop :=
    match r, s with
    | Ok a, Ok b => P a b
    | Throw, Throw => True
    | UB, UB => True
    | _, _ => False
    end.
  Lemma pick12_rep a x lut lutx i : R12 a x -> Forall2 R12 lut lutx ->
    res_rel R12 (pick12 a lut i) (pick12 x lutx i).
  Proof.
    intros Ha HL. unfold pick12. destruct (i =? 1); [exact Ha|]. destruct (i <? 2); [exact I|].
    revert HL. generalize (Z.to_nat (i - 2)). intros k HL. revert k.
    induction HL as [|b y l l' Hb HL IH]; intros [|k]; cbn [nth_error res_rel]; try exact I; [exact Hb|apply IH].
  Qed.
  Lemma sqr12_4_rep t y : W12 t y -> R12 (sqr12_4 Op t) (sqr12_4 O1 y).
  Proof. intros H. unfold sqr12_4. do 3 (apply sqr12; apply w12_). apply sqr12. exact H. Qed.
  Lemma nibble12_rep a x lut lutx t y i : R12 a x -> Forall2 R12 lut lutx -> R12 t y ->
    res_rel R12 (nibble12 Op a lut t i) (nibble12 O1 x lutx y i).
  Proof.
    intros Ha HL Ht. unfold nibble12. destruct (i =? 0); [exact Ht|].
    pose proof (pick12_rep a x lut lutx i Ha HL) as HP.
    destruct (pick12 a lut i), (pick12 x lutx i); cbn [res_rel bind] in *; try contradiction; try exact I.
    apply mul12; now apply w12_.
  Qed.
  Lemma pow12_loop_rep a x lut lutx bs : R12 a x -> Forall2 R12 lut lutx -> forall t y, R12 t y ->
    res_rel R12 (pow12_loop Op a lut t bs) (pow12_loop O1 x lutx y bs).
  Proof.
    intros Ha HL. induction bs as [|b bs IH]; intros t y Ht; cbn [pow12_loop]; [exact Ht|]. cbv zeta.
    pose proof (nibble12_rep a x lut lutx _ _ (Z.land (Z.shiftr b 4) 15) Ha HL (sqr12_4_rep _ _ (w12_ _ _ Ht))) as H1.
    destruct (nibble12 Op a lut (sqr12_4 Op t) _) as [t1| |], (nibble12 O1 x lutx (sqr12_4 O1 y) _) as [y1| |];
      cbn [res_rel bind] in *; try contradiction; try exact I.
    pose proof (nibble12_rep a x lut lutx _ _ (Z.land b 15) Ha HL (sqr12_4_rep _ _ (w12_ _ _ H1))) as H2.
    destruct (nibble12 Op a lut (sqr12_4 Op t1) _) as [t2| |], (nibble12 O1 x lutx (sqr12_4 O1 y1) _) as [y2| |];
      cbn [res_rel bind] in *; try contradiction; try exact I.
    now apply IH.
  Qed.
  Lemma pow12_rep a x mem : R12 a x -> res_rel R12 (fp12_pow Op a mem) (fp12_pow O1 x mem).
  Proof.
    intros Ha. unfold fp12_pow. rewrite (is012 _ _ Ha). destruct (fp12_equal_zero O1 x); [exact zero12|].
    cbv zeta.
    assert (HL : Forall2 R12 (lut12 Op a) (lut12 O1 x)).
    { unfold lut12. cbv zeta. pose proof (sqr12 _ _ (w12_ _ _ Ha)) as Hs. constructor; [exact Hs|].
      apply lut12_rep; [now apply w12_|exact Hs]. }
    destruct (skip0 mem 0) as [[i m]| |]; cbn [bind res_rel]; try exact I.
    set (b := nz m 0). clearbody b.
    match goal with |- res_rel _ (bind ?p _) (bind ?q _) => assert (HT : res_rel R12 p q) end.
    { destruct (15 <? b).
      - pose proof (pick12_rep a x _ _ (Z.land (Z.shiftr b 4) 15) Ha HL) as H1.
        destruct (pick12 a (lut12 Op a) _) as [t1| |], (pick12 x (lut12 O1 x) _) as [y1| |];
          cbn [res_rel bind] in *; try contradiction; try exact I.
        apply nibble12_rep; [assumption|assumption|]. apply sqr12_4_rep. now apply w12_.
      - now apply pick12_rep. }
    match goal with |- res_rel _ (bind ?p _) (bind ?q _) => destruct p as [t1| |], q as [y1| |] end;
      cbn [res_rel bind] in *; try contradiction; try exact I.
    destruct (if (S i <? 32)%nat then _ else _) as [bs| |]; cbn [bind res_rel]; try exact I.
    now apply pow12_loop_rep.
  Qed.

  (** ** Frobenius maps *)
  Lemma frob_rep c1 c2 c3 c4 c5 k1 k2 k3 k4 k5 a x : W c1 k1 -> W c2 k2 -> W c3 k3 -> W c4 k4 -> W c5 k5 -> W12 a x ->
    W12 (fp12_frobenius Op c1 c2 c3 c4 c5 a) (fp12_frobenius O1 k1 k2 k3 k4 k5 x).
  Proof.
    intros C1 C2 C3 C4 C5. destruct a as [[[a0 a1] [a2 a3]] [a4 a5]], x as [[[x0 x1] [x2 x3]] [x4 x5]].
    intros ([H0 H1] & [H2 H3] & [H4 H5]). cbn [fst snd] in *.
    unfold fp12_frobenius. cbv zeta. cbn [fst snd].
    split; [|split]; split; cbn [fst snd]; rl2.
  Qed.
  Lemma frob2_rep c2 c4 k2 k4 a x : W c2 k2 -> W c4 k4 -> W12 a x ->
    W12 (fp12_frobenius2 Op c2 c4 a) (fp12_frobenius2 O1 k2 k4 x).
  Proof.
    intros C2 C4. destruct a as [[a0 a1] a2], x as [[x0 x1] x2]. intros (H0 & H1 & H2).
    unfold fp12_frobenius2. split; [|split]; rl4.
  Qed.
  Lemma frob3_rep c k a x : W c k -> W12 a x ->
    W12 (fp12_frobenius3 Op c a) (fp12_frobenius3 O1 k x).
  Proof.
    intros C1. destruct a as [[[a0 a1] [a2 a3]] [a4 a5]], x as [[[x0 x1] [x2 x3]] [x4 x5]].
    intros ([H0 H1] & [H2 H3] & [H4 H5]). cbn [fst snd] in *.
    unfold fp12_frobenius3. cbv zeta. cbn [fst snd].
    split; [|split]; split; cbn [fst snd]; rl2.
  Qed.
  Lemma frob6_rep a x : W12 a x -> W12 (fp12_frobenius6 Op a) (fp12_frobenius6 O1 x).
  Proof.
    destruct a as [[a0 a1] a2], x as [[x0 x1] x2]. intros (H0 & H1 & H2).
    unfold fp12_frobenius6. split; [|split]; rl4.
  Qed.

  (** ** Line functions *)
  Notation jW2 := (fun (J : jac (p2 T)) (j : jac (p2 F)) =>
    let '(X, Y, Z) := J in let '(x, y, z) := j in W2 X x /\ W2 Y y /\ W2 Z z).
  Notation jR2 := (jR R2).
  Notation aW2 := (fun (Q : aff (p2 T)) (q : aff (p2 F)) =>
    let '(X, Y) := Q in let '(x, y) := q in W2 X x /\ W2 Y y).
  Notation aW1 := (fun (Q : aff T) (q : aff F) =>
    let '(X, Y) := Q in let '(x, y) := q in W X x /\ W Y y).
  Lemma tangent_rep J j P q : jW2 J j -> aW1 P q ->
    W12 (g_tangent_ja Op J P) (g_tangent_ja O1 j q).
  Proof.
    destruct J as [[X Y] Z], j as [[x y] z], P as [a b], q as [c d]. intros (HX & HY & HZ) (HA & HB).
    unfold g_tangent_ja. cbv zeta. split; [|split]; split; cbn [fst snd]; rl2.
  Qed.
  Lemma line_jja_rep J j J' j' P q : jW2 J j -> jW2 J' j' -> aW1 P q ->
    W12 (g_line_jja Op J J' P) (g_line_jja O1 j j' q).
  Proof.
    destruct J as [[X Y] Z], j as [[x y] z], J' as [[X' Y'] Z'], j' as [[x' y'] z'], P as [a b], q as [c d].
    intros (HX & HY & HZ) (HX' & HY' & HZ') (HA & HB).
    unfold g_line_jja. cbv zeta. split; [|split]; split; cbn [fst snd]; rl2.
  Qed.
  Lemma line_jaa_rep J j Q t P q : jR2 J j -> aW2 Q t -> aW1 P q ->
    W12 (g_line_jaa Op J Q P) (g_line_jaa O1 j t q).
  Proof.
    destruct J as [[X Y] Z], j as [[x y] z], Q as [X' Y'], t as [x' y'], P as [a b], q as [c d].
    intros (HX & HY & HZ) (HX' & HY') (HA & HB).
    unfold g_line_jaa. cbv zeta. split; [|split]; split; cbn [fst snd]; rl2.
  Qed.
End Rep.

(** Multiples of a point on the SM9 twist over F_p^2 by a chain of affine steps with certified slopes and
    quotients: the checker over pairs of integers, and its soundness. *)
From Coq Require Import Znumtheory Field.
From Verif Require Import Base BaseFacts SpecField SpecEC ProofEC ProofECMul ProofFast ProofZops SpecTower SpecSM9.

(** ** Certified affine steps over any field *)
Section Steps.
  Context {F : Type} (K : field F) (a b : F).
  Hypothesis OK : curve_ok K a b.
  Add Field FKS : (f_theory K).
  Infix "*" := (fmul K). Infix "+" := (fadd K). Infix "-" := (fsub K). Infix "/" := (fdiv K).
  Lemma step_dbl x y l x3 y3 : on_curve K a b (Aff x y) ->
    (y + y) * l = x * x + x * x + x * x + a -> l * l = x + x + x3 -> l * (x - x3) = y + y3 ->
    ec_add K a (Aff x y) (Aff x y) = Aff x3 y3.
  Proof.
    intros On C1 C2 C3. pose proof (ec_y_nz K a b OK _ _ On) as Hy.
    assert (D : y + y <> f0 K).
    { intros E. destruct OK as [O1 _]. apply Hy.
      transitivity ((y + y) / (f1 K + f1 K)); [field; exact O1|]. rewrite E. field. exact O1. }
    cbn [ec_add]. destruct (feq_dec K x x) as [_|N]; [|now elim N].
    destruct (feq_dec K y (fopp K y)) as [E|_].
    { exfalso. apply D. rewrite E at 1. ring. }
    unfold ec_line.
    assert (L : (x * x + x * x + x * x + a) / (y + y) = l) by (rewrite <- C1; field; exact D).
    rewrite L. assert (X3 : l * l - x - x = x3) by (rewrite C2; ring).
    rewrite X3. f_equal. rewrite C3. ring.
  Qed.
  Lemma step_add x y gx hy l x3 y3 : x <> gx ->
    l * (gx - x) = hy - y -> l * l = x + gx + x3 -> l * (x - x3) = y + y3 ->
    ec_add K a (Aff x y) (Aff gx hy) = Aff x3 y3.
  Proof.
    intros N C1 C2 C3.
    assert (D : gx - x <> f0 K).
    { intros E. apply N. transitivity (gx - (gx - x)); [ring|]. rewrite E. ring. }
    cbn [ec_add]. destruct (feq_dec K x gx) as [E|_]; [contradiction|].
    unfold ec_line. assert (L : (hy - y) / (gx - x) = l) by (rewrite <- C1; field; exact D).
    rewrite L. assert (X3 : l * l - x - gx = x3) by (rewrite C2; ring).
    rewrite X3. f_equal. rewrite C3. ring.
  Qed.
End Steps.

(** ** Pairs of integers *)
Definition zz : Type := (Z * Z)%type.
Definition zadd (x y : zz) : zz := (fst x + fst y, snd x + snd y).
Definition zsub (x y : zz) : zz := (fst x - fst y, snd x - snd y).
Definition zmul2 (x y : zz) : zz :=
  let m0 := fmulz (fst x) (fst y) in let m1 := fmulz (snd x) (snd y) in
  (m0 - 2 * m1, fmulz (fst x + snd x) (fst y + snd y) - m0 - m1).
Definition zsqr2 (x : zz) : zz :=
  let m := fmulz (fst x) (snd x) in
  (fmulz (fst x + snd x) (fst x - 2 * snd x) + m, 2 * m).
Definition zeq (x y : zz) : bool := (fst x =? fst y) && (snd x =? snd y).
Definition bn_t : Z := 0x600000000058F98A.
(** q * p by Horner's rule on p = 36 t^4 + 36 t^3 + 24 t^2 + 6 t + 1 *)
Definition mp1 (q : Z) : Z :=
  let h := bn_t * (36 * q) + 36 * q in
  let h := bn_t * h + 24 * q in
  let h := bn_t * h + 6 * q in
  bn_t * h + q.
Definition mp2 (q : zz) : zz := (mp1 (fst q), mp1 (snd q)).
Definition em2 (x : zz) : F2 := (num (fst x), num (snd x)).

Lemma mp1_ok q : mp1 q = q * SM9_p.
Proof.
  unfold mp1. cbv zeta.
  replace SM9_p with (36 * bn_t ^ 4 + 36 * bn_t ^ 3 + 24 * bn_t ^ 2 + 6 * bn_t + 1) by (vm_compute; reflexivity).
  generalize bn_t. intros t. ring.
Qed.
Lemma n_add x y : num (x + y) = fadd K1 (num x) (num y).
Proof. exact (phi_add SM9_p x y). Qed.
Lemma n_sub x y : num (x - y) = fsub K1 (num x) (num y).
Proof. exact (phi_sub SM9_p x y). Qed.
Lemma n_mul x y : num (x * y) = fmul K1 (num x) (num y).
Proof. exact (phi_mul SM9_p x y). Qed.
Lemma n_0 : num 0 = f0 K1. Proof. reflexivity. Qed.
Lemma n_mp q : num (mp1 q) = f0 K1.
Proof. rewrite mp1_ok. apply fof_eq. rewrite Z_mod_mult. reflexivity. Qed.
Lemma n_m2 : num (-2) = fopp K1 (fadd K1 (f1 K1) (f1 K1)).
Proof. apply fval_inj. vm_compute. reflexivity. Qed.
Lemma n_2 : num 2 = fadd K1 (f1 K1) (f1 K1).
Proof. apply fval_inj. vm_compute. reflexivity. Qed.

Section Phi.
  Add Field FK1 : (f_theory K1).
  Lemma pair_eq (a b c d : F1) : a = c -> b = d -> (a, b) = (c, d). Proof. now intros -> ->. Qed.
  Lemma em2_add x y : em2 (zadd x y) = fadd K2 (em2 x) (em2 y).
  Proof. unfold em2, zadd. cbn [fst snd]. rewrite !n_add. reflexivity. Qed.
  Lemma em2_sub x y : em2 (zsub x y) = fsub K2 (em2 x) (em2 y).
  Proof. unfold em2, zsub. cbn [fst snd]. rewrite !n_sub. reflexivity. Qed.
  Lemma em2_mul x y : em2 (zmul2 x y) = fmul K2 (em2 x) (em2 y).
  Proof.
    unfold em2, zmul2. cbv zeta. cbn [fst snd]. rewrite !fmulz_spec.
    change (fmul K2) with (q_mul K1 (num (-2))). unfold q_mul. cbn [fst snd]. rewrite n_m2.
    apply pair_eq; rewrite ?n_sub, ?n_mul, ?n_add, ?n_2; ring.
  Qed.
  Lemma em2_sqr x : em2 (zsqr2 x) = fmul K2 (em2 x) (em2 x).
  Proof.
    unfold em2, zsqr2. cbv zeta. cbn [fst snd]. rewrite !fmulz_spec.
    change (fmul K2) with (q_mul K1 (num (-2))). unfold q_mul. cbn [fst snd]. rewrite n_m2.
    apply pair_eq.
    - rewrite n_add, n_mul, n_add, n_sub, !n_mul, n_2. ring.
    - rewrite !n_mul, n_2. ring.
  Qed.
  Lemma em2_mp x q : em2 (zadd x (mp2 q)) = em2 x.
  Proof.
    unfold em2, zadd, mp2. cbn [fst snd]. rewrite !n_add, !n_mp. apply pair_eq; ring.
  Qed.
  Lemma zeq_em2 x y : zeq x y = true -> em2 x = em2 y.
  Proof. unfold zeq, em2. intros H. apply andb_true_iff in H. destruct H as [H1 H2]. apply Z.eqb_eq in H1, H2. now rewrite H1, H2. Qed.
End Phi.

(** ** The checker *)
Inductive step2 := Step2 (d : Z) (l1 x1 y1 q1 q2 q3 : zz) (l2 x2 y2 r1 r2 r3 : zz).
Section Chain2.
  Variables (gx gy : zz).
  Definition dbl_check2 (x y l x3 y3 q1 q2 q3 : zz) : bool :=
    let s := zsqr2 x in
    zeq (zmul2 (zadd y y) l) (zadd (zadd (zadd s s) s) (mp2 q1))
    && zeq (zsqr2 l) (zadd (zadd (zadd x x) x3) (mp2 q2))
    && zeq (zmul2 l (zsub x x3)) (zadd (zadd y y3) (mp2 q3)).
  Definition in_range (x : zz) : bool :=
    (0 <=? fst x) && (fst x <? SM9_p) && (0 <=? snd x) && (snd x <? SM9_p).
  Definition add_check2 (hy x y l x3 y3 q1 q2 q3 : zz) : bool :=
    in_range x && negb (zeq x gx)
    && zeq (zmul2 l (zsub gx x)) (zadd (zsub hy y) (mp2 q1))
    && zeq (zsqr2 l) (zadd (zadd (zadd x gx) x3) (mp2 q2))
    && zeq (zmul2 l (zsub x x3)) (zadd (zadd y y3) (mp2 q3)).
  Definition zneg2 (x : zz) : zz := (- fst x, - snd x).
  Fixpoint aff_chain2 (ds : list step2) (x y : zz) : option (zz * zz) :=
    match ds with
    | [] => Some (x, y)
    | Step2 d l1 x1 y1 q1 q2 q3 l2 x2 y2 r1 r2 r3 :: ds' =>
        if dbl_check2 x y l1 x1 y1 q1 q2 q3 then
          match d with
          | Z0 => aff_chain2 ds' x1 y1
          | Zpos _ => if add_check2 gy x1 y1 l2 x2 y2 r1 r2 r3 then aff_chain2 ds' x2 y2 else None
          | Zneg _ => if add_check2 (zneg2 gy) x1 y1 l2 x2 y2 r1 r2 r3 then aff_chain2 ds' x2 y2 else None
          end
        else None
    end.
  Fixpoint chain_val2 (ds : list step2) (m : Z) : Z :=
    match ds with
    | [] => m
    | Step2 d _ _ _ _ _ _ _ _ _ _ _ _ :: ds' => chain_val2 ds' (2 * m + Z.sgn d)
    end.
  Definition chain_check2 (ds : list step2) (m : Z) : bool :=
    match aff_chain2 ds gx gy with
    | Some (x, y) => zeq x gx && zeq (zadd y gy) (SM9_p, SM9_p) && (chain_val2 ds 1 =? m)
    | None => false
    end.

  Variables (a b : F2).
  Hypothesis Ha : a = f0 K2.
  Hypothesis OK : curve_ok K2 a b.
  Notation P := (Aff (em2 gx) (em2 gy)).
  Hypothesis Hon : on_curve K2 a b P.
  Hypothesis Hgx : in_range gx = true.
  Notation zm := (zmul K2 a).

  Lemma in_range_inj x y : in_range x = true -> in_range y = true -> em2 x = em2 y -> x = y.
  Proof.
    destruct x as [x0 x1], y as [y0 y1]. unfold in_range, em2. cbn [fst snd]. rewrite !andb_true_iff.
    rewrite !Z.leb_le, !Z.ltb_lt. intros H1 H2 E. apply pair_equal_spec in E. destruct E as [E1 E2].
    apply fof_eq in E1, E2. rewrite !Z.mod_small in E1, E2 by lia. now subst.
  Qed.
  Lemma em2_neg x : em2 (zneg2 x) = fopp K2 (em2 x).
  Proof.
    destruct x as [x0 x1]. unfold em2, zneg2. cbn [fst snd]. change (fopp K2) with (q_opp K1). unfold q_opp. cbn [fst snd].
    assert (N : forall z, num (- z) = fopp K1 (num z)).
    { intros z. exact (phi_opp SM9_p z). }
    now rewrite !N.
  Qed.
  Ltac push2 H := repeat first [rewrite em2_mul in H|rewrite em2_sqr in H|rewrite em2_add in H|rewrite em2_sub in H].
  Lemma dbl_step2 x y l x3 y3 q1 q2 q3 : on_curve K2 a b (Aff (em2 x) (em2 y)) ->
    dbl_check2 x y l x3 y3 q1 q2 q3 = true ->
    ec_add K2 a (Aff (em2 x) (em2 y)) (Aff (em2 x) (em2 y)) = Aff (em2 x3) (em2 y3).
  Proof.
    intros On C. unfold dbl_check2 in C. cbv zeta in C. rewrite !andb_true_iff in C. destruct C as [[C1 C2] C3].
    apply zeq_em2 in C1, C2, C3. rewrite em2_mp in C1, C2, C3.
    push2 C1. push2 C2. push2 C3.
    apply (step_dbl K2 a b OK _ _ (em2 l)); [exact On| |exact C2|exact C3].
    rewrite C1, Ha. clear. generalize (fmul K2 (em2 x) (em2 x)). intros s.
    pose proof (f_theory K2) as FT. symmetry.
    rewrite (Ring_theory.Radd_comm (F_R FT)). apply (Ring_theory.Radd_0_l (F_R FT)).
  Qed.
  Lemma add_step2 hy x y l x3 y3 q1 q2 q3 :
    add_check2 hy x y l x3 y3 q1 q2 q3 = true ->
    ec_add K2 a (Aff (em2 x) (em2 y)) (Aff (em2 gx) (em2 hy)) = Aff (em2 x3) (em2 y3).
  Proof.
    intros C. unfold add_check2 in C. rewrite !andb_true_iff in C. destruct C as [[[[C C0] C1] C2] C3].
    apply zeq_em2 in C1, C2, C3. rewrite em2_mp in C1, C2, C3.
    push2 C1. push2 C2. push2 C3.
    apply (step_add K2 a _ _ _ _ (em2 l)); [|exact C1|exact C2|exact C3].
    intros E. apply in_range_inj in E; [|exact C|exact Hgx]. apply negb_true_iff in C0. subst x.
    unfold zeq in C0. now rewrite !Z.eqb_refl in C0.
  Qed.
  Lemma aff_chain2_ok ds : forall x y m x' y', 1 <= m -> Aff (em2 x) (em2 y) = zm m P ->
    aff_chain2 ds x y = Some (x', y') ->
    1 <= chain_val2 ds m /\ Aff (em2 x') (em2 y') = zm (chain_val2 ds m) P.
  Proof.
    induction ds as [|[d l1 x1 y1 q1 q2 q3 l2 x2 y2 r1 r2 r3] ds IH]; intros x y m x' y' Hm HJ HC.
    { injection HC as <- <-. split; assumption. }
    cbn [aff_chain2 chain_val2] in *.
    destruct (dbl_check2 x y l1 x1 y1 q1 q2 q3) eqn:ED; [|discriminate].
    assert (On : on_curve K2 a b (Aff (em2 x) (em2 y))).
    { rewrite HJ. apply (zmul_on K2 _ _ OK). exact Hon. }
    pose proof (dbl_step2 _ _ _ _ _ _ _ _ On ED) as HD. rewrite HJ in HD.
    rewrite <- (zmul_dbl K2 _ _ OK) in HD by (exact Hon || lia).
    destruct d as [|d|d]; cbn [Z.sgn].
    - apply (IH x1 y1 (2 * m + 0) x' y'); [lia| |exact HC]. rewrite Z.add_0_r. now symmetry.
    - destruct (add_check2 gy x1 y1 l2 x2 y2 r1 r2 r3) eqn:EA; [|discriminate].
      apply add_step2 in EA. rewrite <- HD in EA.
      apply (IH x2 y2 (2 * m + 1) x' y'); [lia| |exact HC].
      rewrite (zmul_add K2 _ _ OK), (zmul_1 K2) by (exact Hon || lia). now symmetry.
    - destruct (add_check2 (zneg2 gy) x1 y1 l2 x2 y2 r1 r2 r3) eqn:EA; [|discriminate].
      apply add_step2 in EA. rewrite <- HD, em2_neg in EA.
      apply (IH x2 y2 (2 * m + -1) x' y'); [lia| |exact HC].
      change (2 * m + -1) with (2 * m - 1).
      rewrite (zmul_pred K2 _ _ OK) by (exact Hon || lia). now symmetry.
  Qed.
  Theorem chain_inf2 ds m : chain_check2 ds m = true -> zm (m + 1) P = Inf.
  Proof.
    intros C. unfold chain_check2 in C. destruct (aff_chain2 ds gx gy) as [[x y]|] eqn:E; [|discriminate].
    rewrite !andb_true_iff in C. destruct C as [[CX CY] CV]. apply Z.eqb_eq in CV.
    destruct (aff_chain2_ok ds gx gy 1 x y ltac:(lia) ltac:(now rewrite (zmul_1 K2)) E) as [Hm EP].
    rewrite CV in EP, Hm. rewrite (zmul_add K2 _ _ OK), (zmul_1 K2), <- EP by (exact Hon || lia).
    assert (EN : Aff (em2 x) (em2 y) = ec_neg K2 P).
    { cbn [ec_neg]. apply zeq_em2 in CX. rewrite CX. f_equal. rewrite <- em2_neg.
      unfold zeq, zadd in CY. cbn [fst snd] in CY. apply andb_true_iff in CY. destruct CY as [Y0 Y1].
      apply Z.eqb_eq in Y0, Y1. unfold em2, zneg2. cbn [fst snd].
      assert (N : forall u v, u + v = SM9_p -> num u = num (- v)).
      { intros u v H. apply fof_eq. replace u with (- v + 1 * SM9_p) by lia. apply Z_mod_plus_full. }
      now rewrite (N _ _ Y0), (N _ _ Y1). }
    rewrite EN. rewrite (ec_add_comm K2 _ _ OK) by (exact Hon || exact (ec_neg_on K2 _ _ OK _ Hon)).
    apply (ec_add_neg K2 _ _ OK).
  Qed.
End Chain2.

(** The line functions of sm9_field.cpp on stored numbers: each stands for the textbook line times a
    factor of F_p^4; and the addition of a point whose second operand may be stored unreduced. *)
From Coq Require Import Field Znumtheory.
From Verif Require Import Base BaseFacts SpecField SpecTower SpecEC SpecJac ProofEC ProofECMul ModelEC ProofJac ProofJacRep ModelSM9
  ProofNumlib9 SpecSM9 ProofTower ProofTowerRep ProofFrob ProofSM9Frob ProofSM9Rep ProofSM9Fin ProofSM9Curve ProofSM9Point SpecPairing ProofIso
  ProofPairing.

(** ** Lines over any pair of fields *)
Section Gen.
  Context {F L : Type} (K : field F) (KL : field L) (em : F -> L).
  Hypothesis Hm : hom K KL em.
  Add Field FKp : (f_theory K). Add Field FLp : (f_theory KL).
  Variable w : L. Hypothesis Hw : w <> f0 KL.
  Notation w2 := (fmul KL w w). Notation w3 := (fmul KL (fmul KL w w) w).
  Infix "+" := (fadd K). Infix "*" := (fmul K). Infix "-" := (fsub K). Notation "- x" := (fopp K x).
  Definition unt (x y : F) : point L := Aff (fdiv KL (em x) w2) (fdiv KL (em y) w3).
  Definition comb (a0 a1 a4 : F) : L := fadd KL (fadd KL (em a0) (fmul KL (em a1) w3)) (fmul KL (em a4) w2).
  Lemma gw2 : w2 <> f0 KL. Proof. now apply fnz_mul. Qed.
  Lemma gw3 : w3 <> f0 KL. Proof. apply fnz_mul; [exact gw2|exact Hw]. Qed.
  Lemma divx x y : fdiv KL (em x) w2 = fdiv KL (em y) w2 -> x = y.
  Proof.
    intros E. apply (em_inj K KL em Hm). transitivity (fmul KL (fdiv KL (em x) w2) w2); [field; exact Hw|].
    rewrite E. field. exact Hw.
  Qed.
  Lemma divy x y : fdiv KL (em x) w3 = fopp KL (fdiv KL (em y) w3) -> x = - y.
  Proof.
    intros E. apply (em_inj K KL em Hm). rewrite (em_opp K KL em Hm).
    transitivity (fmul KL (fdiv KL (em x) w3) w3); [field; exact Hw|]. rewrite E. field. exact Hw.
  Qed.
  Variables xP yP : F.
  Notation PP := (Aff (em xP) (em yP)).
  Ltac push := rewrite ?(em_sub K KL em Hm), ?(em_opp K KL em Hm), ?(h_add _ _ _ Hm), ?(h_mul _ _ _ Hm),
    ?(em_sub K KL em Hm), ?(em_opp K KL em Hm), ?(h_add _ _ _ Hm), ?(h_mul _ _ _ Hm), ?(em_sub K KL em Hm), ?(h_mul _ _ _ Hm).
  Lemma tangent_at x y Z X Y : Z <> f0 K -> y + y <> f0 K -> X = x * (Z * Z) -> Y = y * (Z * (Z * Z)) ->
    comb (Y * Y + Y * Y - (X * X * X + X * X * X + X * X * X)) (- ((Z * Z * Z * Y + Z * Z * Z * Y) * yP))
      (Z * Z * (X * X) * xP + Z * Z * (X * X) * xP + Z * Z * (X * X) * xP)
    = fmul KL (fmul KL (em ((y + y) * (Z * Z * Z * (Z * Z * Z)))) w3) (line_at KL (unt x y) (unt x y) PP).
  Proof.
    intros HZ Hy EX EY. unfold unt, line_at. destruct (feq_dec KL _ _) as [_|C]; [|now elim C].
    destruct (feq_dec KL _ _) as [C|_].
    { exfalso. apply Hy. apply divy in C. rewrite C at 1. ring. }
    cbv zeta. unfold comb. push.
    apply (f_equal em) in EX, EY. rewrite !(h_mul _ _ _ Hm) in EX; rewrite !(h_mul _ _ _ Hm) in EY.
    apply (tangent_id KL w (em xP) (em yP) Hw (em x) (em y) (em Z) (em X) (em Y)); [now apply (em_nz K KL em Hm)| |exact EX|exact EY].
    rewrite <- (h_add _ _ _ Hm). now apply (em_nz K KL em Hm).
  Qed.
  Lemma jaa_at x1 y1 x2 y2 Z X Y : Z <> f0 K -> x1 <> x2 -> X = x1 * (Z * Z) -> Y = y1 * (Z * (Z * Z)) ->
    comb ((X - Z * Z * x2) * Z * y2 - (Y - Z * Z * Z * y2) * x2) (- ((X - Z * Z * x2) * Z * yP)) ((Y - Z * Z * Z * y2) * xP)
    = fmul KL (fmul KL (em ((x1 - x2) * (Z * Z * Z))) w3) (line_at KL (unt x1 y1) (unt x2 y2) PP).
  Proof.
    intros HZ Hx EX EY. unfold unt, line_at. destruct (feq_dec KL _ _) as [C|_]; [apply divx in C; contradiction|].
    cbv zeta. unfold comb. push.
    apply (f_equal em) in EX, EY. rewrite !(h_mul _ _ _ Hm) in EX; rewrite !(h_mul _ _ _ Hm) in EY.
    apply (jaa_id KL w (em xP) (em yP) Hw (em x1) (em y1) (em x2) (em y2) (em Z) (em X) (em Y)); [now apply (em_nz K KL em Hm)| |exact EX|exact EY].
    intros C. apply Hx. exact (em_inj K KL em Hm _ _ C).
  Qed.
  Lemma jja_at x1 y1 x2 y2 Z X Y Z' X' Y' : Z <> f0 K -> Z' <> f0 K -> x1 <> x2 ->
    X = x1 * (Z * Z) -> Y = y1 * (Z * (Z * Z)) -> X' = x2 * (Z' * Z') -> Y' = y2 * (Z' * (Z' * Z')) ->
    let t1 := (Z' * Z' * X - Z * Z * X') * Z * Z' in
    let t3 := Z' * Z' * Z' * Y - Z * Z * Z * Y' in
    comb (t1 * Y' - t3 * X' * Z') (- (t1 * (Z' * Z' * Z') * yP)) (Z' * Z' * Z' * t3 * xP)
    = fmul KL (fmul KL (em ((x1 - x2) * (Z * Z * Z) * (Z' * Z' * Z' * (Z' * Z' * Z')))) w3) (line_at KL (unt x1 y1) (unt x2 y2) PP).
  Proof.
    intros HZ HZ' Hx EX EY EX' EY'. unfold unt, line_at. destruct (feq_dec KL _ _) as [C|_]; [apply divx in C; contradiction|].
    cbv zeta. unfold comb. push.
    apply (f_equal em) in EX, EY, EX', EY'. rewrite !(h_mul _ _ _ Hm) in EX; rewrite !(h_mul _ _ _ Hm) in EY; rewrite !(h_mul _ _ _ Hm) in EX'; rewrite !(h_mul _ _ _ Hm) in EY'.
    apply (jja_id KL w (em xP) (em yP) Hw (em x1) (em y1) (em x2) (em y2) (em Z) (em X) (em Y) (em Z') (em X') (em Y'));
      [now apply (em_nz K KL em Hm)|now apply (em_nz K KL em Hm)| |exact EX|exact EY|exact EX'|exact EY'].
    intros C. apply Hx. exact (em_inj K KL em Hm _ _ C).
  Qed.
  (** the middle coefficients are not 0 *)
  Lemma tangent_nz y Z Y : Z <> f0 K -> y + y <> f0 K -> yP <> f0 K -> Y = y * (Z * (Z * Z)) ->
    - ((Z * Z * Z * Y + Z * Z * Z * Y) * yP) <> f0 K.
  Proof.
    intros HZ Hy HP -> E. apply (fnz_mul K ((y + y) * (Z * Z * Z * (Z * Z * Z))) yP); [|exact HP|].
    - repeat apply fnz_mul; assumption.
    - transitivity (- - ((Z * Z * Z * (y * (Z * (Z * Z))) + Z * Z * Z * (y * (Z * (Z * Z)))) * yP)); [ring|]. rewrite E. ring.
  Qed.
  Lemma jaa_nz x1 x2 Z X : Z <> f0 K -> x1 <> x2 -> yP <> f0 K -> X = x1 * (Z * Z) -> - ((X - Z * Z * x2) * Z * yP) <> f0 K.
  Proof.
    intros HZ Hx HP -> E. apply (fnz_mul K ((x1 - x2) * (Z * Z * Z)) yP); [|exact HP|].
    - apply fnz_mul; [now apply fsub_nz|]. repeat apply fnz_mul; assumption.
    - transitivity (- - ((x1 * (Z * Z) - Z * Z * x2) * Z * yP)); [ring|]. rewrite E. ring.
  Qed.
  Lemma jja_nz x1 x2 Z X Z' X' : Z <> f0 K -> Z' <> f0 K -> x1 <> x2 -> yP <> f0 K -> X = x1 * (Z * Z) -> X' = x2 * (Z' * Z') ->
    - ((Z' * Z' * X - Z * Z * X') * Z * Z' * (Z' * Z' * Z') * yP) <> f0 K.
  Proof.
    intros HZ HZ' Hx HP -> -> E. apply (fnz_mul K ((x1 - x2) * (Z * Z * Z) * (Z' * Z' * Z' * (Z' * Z' * Z'))) yP); [|exact HP|].
    - apply fnz_mul; [apply fnz_mul; [now apply fsub_nz|]|]; repeat apply fnz_mul; assumption.
    - transitivity (- - ((Z' * Z' * (x1 * (Z * Z)) - Z * Z * (x2 * (Z' * Z'))) * Z * Z' * (Z' * Z' * Z') * yP)); [ring|]. rewrite E. ring.
  Qed.
End Gen.

(** ** Values known up to a factor of F_p^4 *)
Definition scaled (v s : F12) : Prop := v <> f0 K12 /\ exists c, c <> f0 K4 /\ v = emb4 c *' s.
Section Alg.
  Context {F : Type} (K : field F).
  Add Field FKalg : (f_theory K).
  Lemma mul_swap4 a b c d : fmul K (fmul K a b) (fmul K c d) = fmul K (fmul K a c) (fmul K b d). Proof. ring. Qed.
  Lemma mul_1l a : fmul K (f1 K) a = a. Proof. ring. Qed.
End Alg.
Lemma scaled_mul v s v' s' : scaled v s -> scaled v' s' -> scaled (v *' v') (s *' s').
Proof.
  intros (N & c & Hc & E) (N' & c' & Hc' & E'). split; [exact (fnz_mul K12 _ _ N N')|].
  exists (fmul K4 c c'). split; [exact (fnz_mul K4 _ _ Hc Hc')|]. rewrite (h_mul _ _ _ emb4_hom), E, E'. apply mul_swap4.
Qed.
Lemma scaled_one : scaled (f1 K12) (f1 K12).
Proof.
  split; [exact (F_1_neq_0 (f_theory K12))|]. exists (f1 K4). split; [exact (F_1_neq_0 (f_theory K4))|].
  rewrite (h_1 _ _ _ emb4_hom). symmetry. apply mul_1l.
Qed.
Lemma line_scaled a0 a1 a4 k g : a1 <> f0 K2 -> k <> f0 K2 ->
  comb K12 emb2 w12 a0 a1 a4 = emb2 k *' (w12 *' w12 *' w12) *' g ->
  scaled ((a0, a1), (f0 K2, f0 K2), (a4, f0 K2)) g.
Proof.
  intros H1 Hk E. split.
  - intros C. apply H1. exact (f_equal (fun z : F12 => snd (fst (fst z))) C).
  - exists (fmul K4 (e24 k) v4). split; [exact (fnz_mul K4 _ _ (em_nz K2 K4 e24 e24_hom k Hk) v4_nz)|].
    rewrite line_sum. etransitivity; [exact E|]. rewrite w12_3. rewrite (h_mul _ _ _ emb4_hom). reflexivity.
Qed.
Lemma untwist_unt x y : untwist (Aff x y) = unt K12 emb2 w12 x y. Proof. reflexivity. Qed.
Lemma lift1_emb x y : lift1 (Aff x y) = Aff (emb2 (e12 x)) (emb2 (e12 y)). Proof. reflexivity. Qed.
Lemma e12_nz y : y <> f0 K1 -> e12 y <> f0 K2. Proof. exact (em_nz K1 K2 e12 e12_hom y). Qed.
Global Opaque emb2 emb4 w12 e24.

Section SM9.
  Variables (w : Z) (nn : nat) (L9 : numlib9).
  Hypothesis LOK : numlib9_ok w nn L9.
  Notation R1 := (R1 w nn). Notation W1 := (W1 w nn).
  Notation R2 := (rel2 R1). Notation W2 := (rel2 W1).
  Notation R4 := (rel2 R2). Notation W4 := (rel2 W2).
  Notation R12 := (rel3 R4). Notation W12 := (rel3 W4).
  Notation Op := (sm9_fp_ops L9).
  Notation O9 := (sm9_ops9 _ _ _ LOK).
  Notation rl2 := (sm9_rel2 w nn L9 LOK).
  Notation jr2 := (jrep K2 R2).
  Notation ar1 := (aR R1).
  Lemma r2_mulf a b x y : W2 a x -> W1 b y -> R2 (fp2_mul_fp Op a b) (fmul K2 x (e12 y)).
  Proof. intros H1 H2. pose proof (mulf2 _ _ _ _ O9 a b x y H1 H2) as H. rewrite (@fp2_mul_fp_eq F1 K1 _ neg2_nonsquare) in H. exact H. Qed.
  Lemma r2_dbl a x : R2 a x -> R2 (fp2_dbl Op a) (fadd K2 x x).
  Proof. exact (dbl2 _ _ _ _ O9 a x). Qed.
  Lemma r2_tpl a x : R2 a x -> R2 (fp2_tpl Op a) (fadd K2 (fadd K2 x x) x).
  Proof. exact (tpl2 _ _ _ _ O9 a x). Qed.
  Lemma r2_zero : R2 (fp2_zero Op) (f0 K2).
  Proof. exact (zero2 _ _ _ _ O9). Qed.
  Ltac rl := match goal with
    | H : ?r ?a _ |- ?r ?a _ => exact H
    | |- R2 (fp2_mul _ _ _) _ => apply (r2_mul _ _ _ LOK); rl
    | |- R2 (fp2_sqr _ _) _ => apply (r2_sqr _ _ _ LOK); rl
    | |- R2 (fp2_sub _ _ _) _ => apply (r2_sub _ _ _ LOK); rl
    | |- R2 (fp2_dbl _ _) _ => apply r2_dbl; rl
    | |- R2 (fp2_tpl _ _) _ => apply r2_tpl; rl
    | |- R2 (fp2_mul_fp _ _ _) _ => apply r2_mulf; rl
    | |- R2 (fp2_zero _) _ => exact r2_zero
    | |- W2 (fp2_neg _ _) _ => apply (r2_neg _ _ _ LOK); rl
    | |- W2 _ _ => apply (r2_w _ _ _ LOK); rl
    end.
  Lemma line_rep a0 a1 a4 x0 x1 x4 : W2 a0 x0 -> W2 a1 x1 -> W2 a4 x4 ->
    W12 ((a0, a1), (fp2_zero Op, fp2_zero Op), (a4, fp2_zero Op)) ((x0, x1), (f0 K2, f0 K2), (x4, f0 K2)).
  Proof.
    intros H0 H1 H4. pose proof (r2_w _ _ _ LOK _ _ r2_zero) as HZ. split; [|split]; split; assumption.
  Qed.

  Variables (xs ys : fp9) (xP yP : F1).
  Hypotheses (HxP : W1 xs xP) (HyP : W1 ys yP) (NyP : yP <> f0 K1).
  Notation PT := (lift1 (Aff xP yP)).
  Definition stands (a : p12 fp9) (g : F12) : Prop := exists v, W12 a v /\ scaled v g.

  Lemma tangent_rep J x y : jr2 J (Aff x y) -> fadd K2 y y <> f0 K2 ->
    stands (g_tangent_ja Op J (xs, ys)) (g_line (untwist (Aff x y)) (untwist (Aff x y)) PT).
  Proof.
    intros (j & HJ & HP) Hy. destruct J as [[XT YT] ZT], j as [[X Y] Z]. destruct HJ as (HX & HY & HZ). destruct HP as (NZ & EX & EY).
    eexists. split.
    - unfold g_tangent_ja. cbv zeta. apply line_rep; rl.
    - rewrite untwist_unt, lift1_emb. unfold g_line. eapply line_scaled.
      + exact (tangent_nz K2 (e12 yP) y Z Y NZ Hy (e12_nz _ NyP) EY).
      + apply (fnz_mul K2); [exact Hy|]. apply (fnz_mul K2); apply (fnz_mul K2); [apply (fnz_mul K2)| |apply (fnz_mul K2)|]; exact NZ.
      + exact (tangent_at K2 K12 emb2 emb2_hom w12 w12_nz (e12 xP) (e12 yP) x y Z X Y NZ Hy EX EY).
  Qed.
  Lemma jaa_rep J x1 y1 XQ YQ x2 y2 : jr2 J (Aff x1 y1) -> W2 XQ x2 -> W2 YQ y2 -> x1 <> x2 ->
    stands (g_line_jaa Op J (XQ, YQ) (xs, ys)) (g_line (untwist (Aff x1 y1)) (untwist (Aff x2 y2)) PT).
  Proof.
    intros (j & HJ & HP) HQx HQy Nx. destruct J as [[XT YT] ZT], j as [[X Y] Z]. destruct HJ as (HX & HY & HZ). destruct HP as (NZ & EX & EY).
    eexists. split.
    - unfold g_line_jaa. cbv zeta. apply line_rep; rl.
    - rewrite !untwist_unt, lift1_emb. unfold g_line. eapply line_scaled.
      + exact (jaa_nz K2 (e12 yP) x1 x2 Z X NZ Nx (e12_nz _ NyP) EX).
      + apply (fnz_mul K2); [exact (fsub_nz K2 _ _ Nx)|]. apply (fnz_mul K2); [apply (fnz_mul K2)|]; exact NZ.
      + exact (jaa_at K2 K12 emb2 emb2_hom w12 w12_nz (e12 xP) (e12 yP) x1 y1 x2 y2 Z X Y NZ Nx EX EY).
  Qed.
  Lemma jja_rep J x1 y1 XQ YQ ZQ X' Y' Z' x2 y2 : jr2 J (Aff x1 y1) -> W2 XQ X' -> W2 YQ Y' -> R2 ZQ Z' ->
    jrel K2 (X', Y', Z') (Aff x2 y2) -> x1 <> x2 ->
    stands (g_line_jja Op J (XQ, YQ, ZQ) (xs, ys)) (g_line (untwist (Aff x1 y1)) (untwist (Aff x2 y2)) PT).
  Proof.
    intros (j & HJ & HP) HQx HQy HQz HQ Nx. destruct J as [[XT YT] ZT], j as [[X Y] Z]. destruct HJ as (HX & HY & HZ).
    destruct HP as (NZ & EX & EY). destruct HQ as (NZ' & EX' & EY').
    eexists. split.
    - unfold g_line_jja. cbv zeta. apply line_rep; rl.
    - rewrite !untwist_unt, lift1_emb. unfold g_line. eapply line_scaled.
      + exact (jja_nz K2 (e12 yP) x1 x2 Z X Z' X' NZ NZ' Nx (e12_nz _ NyP) EX EX').
      + apply (fnz_mul K2); [apply (fnz_mul K2); [exact (fsub_nz K2 _ _ Nx)|]|].
        * apply (fnz_mul K2); [apply (fnz_mul K2)|]; exact NZ.
        * apply (fnz_mul K2); apply (fnz_mul K2); [apply (fnz_mul K2)| |apply (fnz_mul K2)|]; exact NZ'.
      + exact (jja_at K2 K12 emb2 emb2_hom w12 w12_nz (e12 xP) (e12 yP) x1 y1 x2 y2 Z X Y Z' X' Y' NZ NZ' Nx EX EY EX' EY').
  Qed.
  Lemma stands_mul a b g h : stands a g -> stands b h -> stands (fp12_mul Op a b) (g *' h).
  Proof.
    intros (v & H & S) (v' & H' & S'). exists (v *' v'). split; [|now apply scaled_mul].
    apply (r12_w _ _ _ LOK). now apply (r12_mul _ _ _ LOK).
  Qed.
  Lemma stands_one : stands (fp12_one Op) (f1 K12).
  Proof. exists (f1 K12). split; [|exact scaled_one]. apply (r12_w _ _ _ LOK). exact (r12_one _ _ _ LOK). Qed.
End SM9.

(** ** Addition with an unreduced second operand *)
Section AddW.
  Context {T F : Type} (Op : fops T) (K : field F) (R W : T -> F -> Prop).
  Hypothesis OR : ops_rel Op K R W.
  Notation FK := (Fops K).
  Ltac rel := match goal with
    | |- _ /\ _ => split; rel
    | H : R ?a ?x |- R ?a ?x => exact H
    | H : W ?a ?x |- W ?a ?x => exact H
    | |- R (o_mul _ _ _) _ => apply (r_mul _ _ _ _ OR); rel
    | |- R (o_sqr _ _) _ => apply (r_sqr _ _ _ _ OR); rel
    | |- R (o_sub _ _ _) _ => apply (r_sub _ _ _ _ OR); rel
    | |- R (o_add _ _ _) _ => apply (r_add _ _ _ _ OR); rel
    | |- R (o_dbl _ _) _ => apply (r_dbl _ _ _ _ OR); rel
    | |- W _ _ => apply (r_w _ _ _ _ OR); rel
    end.
  Lemma j_add_rep_w dbl dblF J j X' Y' Z' x' y' z' :
    (forall J j, jR R J j -> jR R (dbl J) (dblF j)) ->
    jR R J j -> W X' x' -> W Y' y' -> R Z' z' -> jR R (j_add Op dbl J (X', Y', Z')) (j_add FK dblF j (x', y', z')).
  Proof.
    intros Hd HJ HX' HY' HZ'. pose proof (Hd _ _ HJ) as HD.
    destruct J as [[X Y] Z], j as [[x y] z]. destruct HJ as (HX & HY & HZ).
    unfold j_add. cbv zeta.
    rewrite (r_eq _ _ _ _ OR _ _ (fmul K x (fmul K z' z')) (fmul K x' (fmul K z z))) by rel.
    rewrite (r_eq _ _ _ _ OR _ _ (fmul K (fmul K y z') (fmul K z' z')) (fmul K (fmul K y' z) (fmul K z z))) by rel.
    cbn [o_eq o_mul o_sqr Fops].
    destruct (feq_dec K _ _); [destruct (feq_dec K _ _); [exact HD|exact (set_inf_rep _ _ _ _ OR)]|].
    cbn. split; [|split]; rel.
  Qed.
  Variables a b : F.
  Hypothesis OK : curve_ok K a b.
  Notation on := (on_curve K a b). Notation add := (ec_add K a).
  Lemma jrep_add_w dbl dblF J X' Y' Z' x' y' z' P Q :
    (forall J j, jR R J j -> jR R (dbl J) (dblF j)) ->
    (forall J P, jrel K J P -> jrel K (dblF J) (add P P)) ->
    jrep K R J P -> W X' x' -> W Y' y' -> R Z' z' -> jrel K (x', y', z') Q -> on P -> on Q -> (P = Inf <-> Q = Inf) ->
    jrep K R (j_add Op dbl J (X', Y', Z')) (add P Q).
  Proof.
    intros Hd HdF (j1 & H1 & HP) HX HY HZ HQ OP OQ HI. exists (j_add FK dblF j1 (x', y', z')).
    split; [now apply j_add_rep_w|].
    clear - OK HP OP HQ OQ HI HdF. destruct K, OK as [O1 O2].
    exact (j_add_ok _ _ _ _ _ _ _ _ _ _ f_theory a b O1 dblF j1 (x', y', z') P Q HdF HP HQ OP OQ HI).
  Qed.
End AddW.

(** The values of lines at a fixed point form a symmetric cocycle on a group of points, up to values of
    vertical lines; and adding the points of evaluation changes it by a coboundary. *)
From Coq Require Import Field.
From Verif Require Import Base SpecField SpecEC SpecPairing ProofEC ProofECMul ProofIso ProofLines SpecSM9 ProofFrob.

(** ** Lines and field homomorphisms *)
Section LineHom.
  Context {L : Type} (KL : field L) (h : L -> L).
  Hypothesis Hh : hom KL KL h.
  Definition pmap (P : point L) : point L := match P with Inf => Inf | Aff x y => Aff (h x) (h y) end.
  Lemma line_hom U V S : (forall x y, V = Aff x y -> fadd KL y y <> f0 KL) -> line_at KL (pmap U) (pmap V) (pmap S) = h (line_at KL U V S).
  Proof.
    intros HV. destruct U as [|x1 y1]; [symmetry; exact (h_1 _ _ _ Hh)|]. destruct V as [|x2 y2]; [symmetry; exact (h_1 _ _ _ Hh)|].
    destruct S as [|x3 y3]; [symmetry; exact (h_1 _ _ _ Hh)|]. cbn [pmap line_at].
    pose proof (h_add _ _ _ Hh) as ha. pose proof (h_mul _ _ _ Hh) as hm. pose proof (em_sub _ _ _ Hh) as hs.
    destruct (feq_dec KL x1 x2) as [e|n].
    - destruct (feq_dec KL (h x1) (h x2)) as [_|N]; [|exfalso; apply N; now f_equal].
      destruct (feq_dec KL y1 (fopp KL y2)) as [e'|n'].
      + destruct (feq_dec KL (h y1) _) as [_|N]; [now rewrite hs|exfalso; apply N; rewrite e'; apply (em_opp _ _ _ Hh)].
      + destruct (feq_dec KL (h y1) _) as [E|_]; [exfalso; apply n'; apply (em_inj _ _ _ Hh); rewrite E; symmetry; apply (em_opp _ _ _ Hh)|].
        pose proof (HV _ _ eq_refl) as NZ.
        rewrite ha, hs, hm, hs, (em_div _ _ _ Hh _ _ NZ), !ha, !hm. reflexivity.
    - destruct (feq_dec KL (h x1) (h x2)) as [E|_]; [exfalso; apply n; exact (em_inj _ _ _ Hh _ _ E)|].
      assert (NZ : fsub KL x1 x2 <> f0 KL) by now apply fsub_nz.
      rewrite ha, hs, hm, hs, (em_div _ _ _ Hh _ _ NZ), !hs. reflexivity.
  Qed.
End LineHom.

(** ** The cocycle *)
Section Coc.
  Context {F L : Type} (K : field F) (KL : field L) (em : F -> L).
  Hypothesis Hm : hom K KL em.
  Add Field FKc : (f_theory K). Add Field FLc : (f_theory KL).
  Variable c : L. Hypothesis Hc : c <> f0 KL.
  Variables (b : F) (b' : L).
  Hypothesis OK : curve_ok K (f0 K) b.
  Infix "+" := (fadd KL). Infix "*" := (fmul KL). Infix "-" := (fsub KL). Notation "- x" := (fopp KL x).
  Notation on := (on_curve K (f0 K) b). Infix "[+]" := (ec_add K (f0 K)) (at level 50, left associativity).
  Notation neg := (ec_neg K).
  Hypothesis Hb : em b * (c * c * c * (c * c * c)) = b'.
  Notation tX x := (em x * (c * c)). Notation tY y := (em y * (c * c * c)).
  (** the points considered: a subgroup without points of order 3 *)
  Variable good : point F -> Prop.
  Hypothesis g_on : forall A, good A -> on A.
  Hypothesis g_inf : good Inf.
  Hypothesis g_add : forall A B, good A -> good B -> good (A [+] B).
  Hypothesis g_neg : forall A, good A -> good (neg A).
  Hypothesis no3 : forall x y x' y', good (Aff x y) -> Aff x y [+] Aff x y = Aff x' y' -> x' <> x.
  Variable pw : L -> L.
  Hypothesis pw_mul : forall u v, pw (u * v) = pw u * pw v.
  Hypothesis pw_1 : pw (f1 KL) = f1 KL.
  Hypothesis pw_m1 : pw (- f1 KL) = f1 KL.
  Section Pt.
  Variables px py : L.
  Hypothesis OnP : py * py = px * px * px + b'.
  Hypothesis pw_v : forall x y, good (Aff x y) -> pw (px - tX x) = f1 KL.
  Hypothesis v_nz : forall x y, good (Aff x y) -> px - tX x <> f0 KL.
  Lemma twoL : f1 KL + f1 KL <> f0 KL.
  Proof. rewrite <- (h_1 _ _ _ Hm), <- (h_add _ _ _ Hm). apply (em_nz _ _ _ Hm). destruct OK as [O1 _]. exact O1. Qed.
  Lemma tX_inj x x' : tX x = tX x' -> x = x'.
  Proof. intros E. apply (em_inj _ _ _ Hm). exact (fcancel_r KL _ _ (c * c) (c2_nz KL c Hc) E). Qed.
  Lemma tX_ne x x' : x <> x' -> tX x <> tX x'. Proof. intros N E. apply N. now apply tX_inj. Qed.
  Lemma tY_neg y : tY (fopp K y) = - tY y. Proof. rewrite (em_opp _ _ _ Hm). ring. Qed.
  Lemma tY_inj y y' : tY y = tY y' -> y = y'.
  Proof. intros E. apply (em_inj _ _ _ Hm). exact (fcancel_r KL _ _ _ (c3_nz KL c Hc) E). Qed.
  Definition ev (A B : point F) : L := line_at KL (iso KL em c A) (iso KL em c B) (Aff px py).
  Definition cc (A B : point F) : L := pw (ev A B).
  Notation D x1 y1 x2 y2 x3 y3 l m := (dat KL b' (tX x1) (tY y1) (tX x2) (tY y2) (tX x3) (tY y3) l m).
  Lemma D_ex x1 y1 x2 y2 x3 y3 : good (Aff x1 y1) -> good (Aff x2 y2) -> Aff x1 y1 [+] Aff x2 y2 = Aff x3 y3 ->
    exists l m, D x1 y1 x2 y2 x3 y3 l m.
  Proof.
    intros G1 G2 E. destruct (dat_add K b OK _ _ _ _ _ _ (g_on _ G1) (g_on _ G2) E) as (l & m & H).
    pose proof (dat_scale KL (em b) _ _ _ _ _ _ _ _ c (dat_hom K KL em Hm b _ _ _ _ _ _ _ _ H)) as S. cbv zeta in S. rewrite Hb in S.
    eexists _, _. exact S.
  Qed.
  Lemma sum_ne x1 y1 x2 y2 x3 y3 : Aff x1 y1 [+] Aff x2 y2 = Aff x3 y3 -> ~ (tX x1 = tX x2 /\ tY y1 = - tY y2).
  Proof.
    intros E [E1 E2]. apply tX_inj in E1. rewrite <- tY_neg in E2. apply tY_inj in E2. subst x2 y1.
    pose proof (ec_add_neg K (f0 K) b OK (Aff x1 (fopp K y2))) as N. cbn [ec_neg] in N.
    replace (fopp K (fopp K y2)) with y2 in N by ring. rewrite N in E. discriminate.
  Qed.
  Lemma ev_D x1 y1 x2 y2 x3 y3 l m : Aff x1 y1 [+] Aff x2 y2 = Aff x3 y3 -> D x1 y1 x2 y2 x3 y3 l m ->
    ev (Aff x1 y1) (Aff x2 y2) = l * px + m - py.
  Proof. intros E H. exact (dat_line KL b' _ _ _ _ _ _ _ _ px py H (sum_ne _ _ _ _ _ _ E)). Qed.
  Lemma ev_inf_l A : ev Inf A = f1 KL. Proof. reflexivity. Qed.
  Lemma ev_inf_r A : ev A Inf = f1 KL. Proof. now destruct A. Qed.
  Lemma ev_neg x y : ev (Aff x y) (Aff x (fopp K y)) = px - tX x.
  Proof.
    unfold ev, iso, line_at. destruct (feq_dec KL _ _) as [_|N]; [|now elim N].
    destruct (feq_dec KL _ _) as [_|N]; [reflexivity|]. elim N. rewrite tY_neg. ring.
  Qed.
  Lemma cc_inf_l A : cc Inf A = f1 KL. Proof. unfold cc. rewrite ev_inf_l. exact pw_1. Qed.
  Lemma cc_inf_r A : cc A Inf = f1 KL. Proof. unfold cc. rewrite ev_inf_r. exact pw_1. Qed.
  Lemma cc_neg A : good A -> cc A (neg A) = f1 KL.
  Proof.
    destruct A as [|x y]; intros G; [apply cc_inf_l|]. unfold cc. cbn [ec_neg]. rewrite ev_neg. exact (pw_v _ _ G).
  Qed.
  Lemma sum_inf A B : good A -> good B -> A [+] B = Inf -> B = neg A.
  Proof. intros GA GB E. exact (ec_add_inf_neg K _ _ OK A B (g_on _ GA) (g_on _ GB) E). Qed.
  Lemma g_comm A B : good A -> good B -> A [+] B = B [+] A.
  Proof. intros GA GB. exact (ec_add_comm K _ _ OK A B (g_on _ GA) (g_on _ GB)). Qed.
  Lemma g_assoc A B C : good A -> good B -> good C -> A [+] B [+] C = A [+] (B [+] C).
  Proof. intros GA GB GC. exact (ec_add_assoc K _ _ OK A B C (g_on _ GA) (g_on _ GB) (g_on _ GC)). Qed.
  Lemma g_addneg A : A [+] neg A = Inf. Proof. exact (ec_add_neg K _ _ OK A). Qed.
  Lemma g_negneg A : neg (neg A) = A. Proof. exact (ec_neg_neg K _ _ OK A). Qed.
  Lemma g_inf_r A : A [+] Inf = A. Proof. now destruct A. Qed.
  Theorem cc_sym A B : good A -> good B -> cc A B = cc B A.
  Proof.
    intros GA GB. unfold cc. f_equal. destruct A as [|x1 y1]; [now rewrite ev_inf_r|]. destruct B as [|x2 y2]; [reflexivity|].
    destruct (Aff x1 y1 [+] Aff x2 y2) as [|x3 y3] eqn:E.
    - pose proof (sum_inf _ _ GA GB E) as N. cbn [ec_neg] in N. injection N as -> ->. rewrite ev_neg.
      pose proof (ev_neg x1 (fopp K y1)) as N. replace (fopp K (fopp K y1)) with y1 in N by ring. now rewrite N.
    - destruct (D_ex _ _ _ _ _ _ GA GB E) as (l & m & H). rewrite (ev_D _ _ _ _ _ _ _ _ E H).
      rewrite (g_comm _ _ GA GB) in E. symmetry. exact (ev_D _ _ _ _ _ _ _ _ E (dat_sym KL b' _ _ _ _ _ _ _ _ H)).
  Qed.
  (** points with the same abscissa *)
  Lemma same_x x y y' : good (Aff x y) -> good (Aff x y') -> y = y' \/ y = fopp K y'.
  Proof.
    intros G G'. destruct (feq_dec K y (fopp K y')) as [E|N]; [now right|left].
    exact (same_x_cases K b x y y' (g_on _ G) (g_on _ G') N).
  Qed.
  Lemma not_all x1 y1 x2 y2 x3 y3 : good (Aff x1 y1) -> good (Aff x2 y2) -> Aff x1 y1 [+] Aff x2 y2 = Aff x3 y3 ->
    ~ (x1 = x2 /\ x1 = x3).
  Proof.
    intros G1 G2 E [<- <-]. destruct (same_x x1 y1 y2 G1 G2) as [<-|E'].
    - exact (no3 _ _ _ _ G1 E eq_refl).
    - pose proof (g_addneg (Aff x1 y1)) as N. cbn [ec_neg] in N. subst y1. replace (fopp K (fopp K y2)) with y2 in N by ring.
      rewrite N in E. discriminate.
  Qed.
  (** lines agreeing at three abscissas that are not all equal *)
  Lemma same3 x1 x2 x3 l m l' m' : ~ (x1 = x2 /\ x1 = x3) ->
    l * tX x1 + m = l' * tX x1 + m' -> l * tX x2 + m = l' * tX x2 + m' -> l * tX x3 + m = l' * tX x3 + m' -> l = l' /\ m = m'.
  Proof.
    intros N H1 H2 H3. destruct (feq_dec K x1 x2) as [e|n].
    - assert (n : x1 <> x3) by (intros e'; apply N; now split).
      exact (same_line KL l m l' m' _ _ (tX_ne _ _ n) H1 H3).
    - exact (same_line KL l m l' m' _ _ (tX_ne _ _ n) H1 H2).
  Qed.
  Lemma pw_prod3 x1 y1 x2 y2 x3 y3 : good (Aff x1 y1) -> good (Aff x2 y2) -> good (Aff x3 y3) ->
    pw ((px - tX x1) * (px - tX x2) * (px - tX x3)) = f1 KL.
  Proof. intros G1 G2 G3. rewrite !pw_mul, (pw_v _ _ G1), (pw_v _ _ G2), (pw_v _ _ G3). ring. Qed.
  (** the line and its mirror image *)
  Lemma ev_mirror x1 y1 x2 y2 x3 y3 l m : Aff x1 y1 [+] Aff x2 y2 = Aff x3 y3 -> D x1 y1 x2 y2 x3 y3 l m ->
    (l * px + m - py) * (- l * px + - m - py) = (px - tX x1) * (px - tX x2) * (px - tX x3).
  Proof. intros E H. exact (opp_lines KL b' _ _ _ _ _ _ _ _ (- l) (- m) H eq_refl eq_refl px py OnP). Qed.
  Lemma neg_sum x1 y1 x2 y2 x3 y3 : good (Aff x1 y1) -> good (Aff x2 y2) -> Aff x1 y1 [+] Aff x2 y2 = Aff x3 y3 ->
    Aff x1 (fopp K y1) [+] Aff x2 (fopp K y2) = Aff x3 (fopp K y3).
  Proof.
    intros G1 G2 E. pose proof (g_neg _ G1) as N1. pose proof (g_neg _ G2) as N2. cbn [ec_neg] in N1, N2.
    assert (G3 : good (Aff x3 y3)) by (rewrite <- E; now apply g_add).
    assert (GS : good (Aff x1 (fopp K y1) [+] Aff x2 (fopp K y2))) by now apply g_add.
    change (Aff x3 (fopp K y3)) with (neg (Aff x3 y3)).
    apply sum_inf; [exact G3|exact GS|]. rewrite <- E.
    rewrite (g_comm _ _ N1 N2), (g_assoc _ _ _ G1 G2 (g_add _ _ N2 N1)), <- (g_assoc _ _ _ G2 N2 N1).
    pose proof (g_addneg (Aff x2 y2)) as A2. pose proof (g_addneg (Aff x1 y1)) as A1. cbn [ec_neg] in A1, A2. rewrite A2.
    exact A1.
  Qed.
  Theorem cc_nn A B : good A -> good B -> cc (neg A) (neg B) * cc A B = f1 KL.
  Proof.
    intros GA GB. destruct A as [|x1 y1]; [cbn [ec_neg]; rewrite !cc_inf_l; ring|].
    destruct B as [|x2 y2]; [cbn [ec_neg]; rewrite !cc_inf_r; ring|].
    destruct (Aff x1 y1 [+] Aff x2 y2) as [|x3 y3] eqn:E.
    - pose proof (sum_inf _ _ GA GB E) as N. rewrite N. rewrite (cc_neg _ GA), (cc_neg _ (g_neg _ GA)). ring.
    - assert (G3 : good (Aff x3 y3)) by (rewrite <- E; now apply g_add).
      destruct (D_ex _ _ _ _ _ _ GA GB E) as (l & m & H). pose proof (neg_sum _ _ _ _ _ _ GA GB E) as E'.
      pose proof (dat_neg KL b' _ _ _ _ _ _ _ _ H) as H'. rewrite <- !tY_neg in H'.
      unfold cc. cbn [ec_neg]. rewrite (ev_D _ _ _ _ _ _ _ _ E H), (ev_D _ _ _ _ _ _ _ _ E' H'), <- pw_mul.
      rewrite <- (pw_prod3 _ _ _ _ _ _ GA GB G3). f_equal. rewrite <- (ev_mirror _ _ _ _ _ _ _ _ E H). ring.
  Qed.
  Lemma ev_nz A B : good A -> good B -> ev A B <> f0 KL.
  Proof.
    intros GA GB. pose proof (F_1_neq_0 (f_theory KL)) as N1. destruct A as [|x1 y1]; [exact N1|]. destruct B as [|x2 y2]; [exact N1|].
    destruct (Aff x1 y1 [+] Aff x2 y2) as [|x3 y3] eqn:E.
    - pose proof (sum_inf _ _ GA GB E) as N. cbn [ec_neg] in N. injection N as -> ->. rewrite ev_neg. exact (v_nz _ _ GA).
    - assert (G3 : good (Aff x3 y3)) by (rewrite <- E; now apply g_add).
      destruct (D_ex _ _ _ _ _ _ GA GB E) as (l & m & H). rewrite (ev_D _ _ _ _ _ _ _ _ E H).
      intros Z0. apply (fnz_mul KL _ _ (fnz_mul KL _ _ (v_nz _ _ GA) (v_nz _ _ GB)) (v_nz _ _ G3)).
      rewrite <- (ev_mirror _ _ _ _ _ _ _ _ E H), Z0. ring.
  Qed.
  (** -A, C and A, C - A *)
  Lemma coc_inf A C : good A -> good C -> cc (neg A) C * cc A (neg A [+] C) = f1 KL.
  Proof.
    intros GA GC. pose proof (g_neg _ GA) as GN.
    assert (EC : A [+] (neg A [+] C) = C).
    { rewrite <- (g_assoc _ _ _ GA GN GC), g_addneg. reflexivity. }
    destruct (neg A [+] C) as [|xG yG] eqn:EG.
    { rewrite g_inf_r in EC. subst C. rewrite cc_inf_r, (cc_sym _ _ GN GA), (cc_neg _ GA). ring. }
    assert (GG : good (Aff xG yG)) by (rewrite <- EG; now apply g_add).
    destruct A as [|xA yA]; [cbn [ec_neg]; rewrite !cc_inf_l; ring|].
    destruct C as [|xC yC]; [rewrite cc_inf_r; cbn [ec_neg] in EG; rewrite g_inf_r in EG; injection EG as <- <-; pose proof (cc_neg _ GA) as Q; cbn [ec_neg] in Q; rewrite Q; ring|].
    cbn [ec_neg] in *.
    destruct (D_ex _ _ _ _ _ _ GN GC EG) as (l3 & m3 & H3). destruct (D_ex _ _ _ _ _ _ GA GG EC) as (l4 & m4 & H4).
    assert (Q : l4 = - l3 /\ m4 = - m3).
    { destruct H3 as [(A1 & A2 & A3) _], H4 as [(B1 & B2 & B3) _]. rewrite tY_neg in A1.
      apply (same3 xA xC xG _ _ _ _ (not_all _ _ _ _ _ _ GN GC EG)).
      - rewrite <- B1. transitivity (- - tY yA); [ring|]. rewrite A1. ring.
      - rewrite <- B3, A2. ring.
      - rewrite <- B2. transitivity (- - tY yG); [ring|]. rewrite A3. ring. }
    destruct Q as [-> ->]. unfold cc. rewrite (ev_D _ _ _ _ _ _ _ _ EG H3), (ev_D _ _ _ _ _ _ _ _ EC H4), <- pw_mul.
    rewrite (ev_mirror _ _ _ _ _ _ _ _ EG H3). exact (pw_prod3 _ _ _ _ _ _ GN GC GG).
  Qed.
  Theorem cc_coc A B C : good A -> good B -> good C -> cc A B * cc (A [+] B) C = cc B C * cc A (B [+] C).
  Proof.
    intros GA GB GC. pose proof (g_assoc _ _ _ GA GB GC) as AS.
    destruct A as [|xA yA]; [rewrite !cc_inf_l; cbn [ec_add]; ring|].
    destruct B as [|xB yB]; [rewrite cc_inf_l, cc_inf_r; cbn [ec_add]; ring|].
    destruct C as [|xC yC]; [rewrite !cc_inf_r, !g_inf_r; ring|].
    destruct (Aff xA yA [+] Aff xB yB) as [|xE yE] eqn:EE.
    { pose proof (sum_inf _ _ GA GB EE) as N. rewrite N. rewrite cc_inf_l, (cc_neg _ GA), (coc_inf _ _ GA GC). ring. }
    assert (GE : good (Aff xE yE)) by (rewrite <- EE; now apply g_add).
    destruct (Aff xB yB [+] Aff xC yC) as [|xG yG] eqn:EG.
    { rewrite (g_comm _ _ GB GC) in EG. pose proof (sum_inf _ _ GC GB EG) as N. rewrite cc_inf_r, N in *.
      pose proof (coc_inf _ _ GC GA) as CI. rewrite (g_comm _ _ (g_neg _ GC) GA), EE in CI.
      rewrite (cc_sym _ _ GA (g_neg _ GC)), (cc_sym _ _ GE GC), CI, (cc_sym _ _ (g_neg _ GC) GC), (cc_neg _ GC). ring. }
    assert (GG : good (Aff xG yG)) by (rewrite <- EG; now apply g_add).
    destruct (D_ex _ _ _ _ _ _ GA GB EE) as (l1 & m1 & H1). destruct (D_ex _ _ _ _ _ _ GB GC EG) as (l3 & m3 & H3).
    destruct (Aff xE yE [+] Aff xC yC) as [|xD yD] eqn:ED.
    { (* A + B + C = 0: one line *)
      pose proof (sum_inf _ _ GE GC ED) as NC. pose proof (sum_inf _ _ GA GG (eq_sym AS)) as NG.
      cbn [ec_neg] in NC, NG. injection NC as -> ->. injection NG as -> ->.
      change (Aff xE (fopp K yE)) with (neg (Aff xE yE)). rewrite (cc_neg _ GE).
      change (Aff xA (fopp K yA)) with (neg (Aff xA yA)). rewrite (cc_neg _ GA). cbn [ec_neg].
      unfold cc. rewrite (ev_D _ _ _ _ _ _ _ _ EE H1), (ev_D _ _ _ _ _ _ _ _ EG H3).
      assert (Q : l1 = l3 /\ m1 = m3).
      { destruct H1 as [(A1 & A2 & A3) _], H3 as [(B1 & B2 & B3) _]. rewrite tY_neg in B2, B3.
        apply (same3 xA xB xE _ _ _ _ (not_all _ _ _ _ _ _ GA GB EE)).
        - rewrite <- A1, <- B3. ring.
        - rewrite <- A2, <- B1. reflexivity.
        - rewrite <- A3, <- B2. reflexivity. }
      destruct Q as [-> ->]. reflexivity. }
    symmetry in AS. assert (GD : good (Aff xD yD)) by (rewrite <- ED; now apply g_add).
    destruct (D_ex _ _ _ _ _ _ GE GC ED) as (l2 & m2 & H2). destruct (D_ex _ _ _ _ _ _ GA GG AS) as (l4 & m4 & H4).
    unfold cc. rewrite (ev_D _ _ _ _ _ _ _ _ EE H1), (ev_D _ _ _ _ _ _ _ _ ED H2), (ev_D _ _ _ _ _ _ _ _ EG H3), (ev_D _ _ _ _ _ _ _ _ AS H4).
    rewrite <- !pw_mul.
    destruct (feq_dec K xE xG) as [e|N].
    - subst xG. destruct (same_x xE yE yG GE GG) as [e|e].
      + (* A + B = B + C *)
        subst yG. assert (AC : Aff xA yA = Aff xC yC).
        { apply (ec_add_cancel K _ _ OK (Aff xB yB) _ _ (g_on _ GB) (g_on _ GA) (g_on _ GC)).
          change (Aff xB yB [+] Aff xA yA = Aff xB yB [+] Aff xC yC). rewrite (g_comm _ _ GB GA), EE, EG. reflexivity. }
        injection AC as <- <-.
        assert (Q1 : l1 = l3 /\ m1 = m3).
        { destruct H1 as [(A1 & A2 & A3) _], H3 as [(B1 & B2 & B3) _].
          apply (same3 xA xB xE _ _ _ _ (not_all _ _ _ _ _ _ GA GB EE)); [rewrite <- A1, <- B2|rewrite <- A2, <- B1|rewrite <- A3, <- B3]; reflexivity. }
        assert (Q2 : l2 = l4 /\ m2 = m4).
        { destruct H2 as [(A1 & A2 & A3) _], H4 as [(B1 & B2 & B3) _].
          apply (same3 xE xA xD _ _ _ _ (not_all _ _ _ _ _ _ GE GC ED)); [rewrite <- A1, <- B2|rewrite <- A2, <- B1|rewrite <- A3, <- B3]; reflexivity. }
        destruct Q1 as [-> ->], Q2 as [-> ->]. reflexivity.
      + (* A + B = -(B + C), and A + B + C = -B *)
        assert (EB : Aff xD yD = Aff xB (fopp K yB)).
        { change (Aff xB (fopp K yB)) with (neg (Aff xB yB)). apply sum_inf; [exact GB|exact GD|].
          rewrite (g_comm _ _ GB GD), <- ED, (g_assoc _ _ _ GE GC GB), (g_comm _ _ GC GB), EG.
          pose proof (g_addneg (Aff xE yE)) as N. cbn [ec_neg] in N. rewrite e in N at 2. replace (fopp K (fopp K yG)) with yG in N by ring. exact N. }
        injection EB as -> ->. subst yE.
        assert (Q1 : l1 = l4 /\ m1 = m4).
        { destruct H1 as [(A1 & A2 & A3) _], H4 as [(B1 & B2 & B3) _]. rewrite tY_neg in A3, B3.
          apply (same3 xA xB xE _ _ _ _ (not_all _ _ _ _ _ _ GA GB EE)).
          - rewrite <- A1, <- B1. reflexivity.
          - rewrite <- A2, <- B3. ring.
          - rewrite <- A3, <- B2. ring. }
        assert (Q2 : l2 = l3 /\ m2 = m3).
        { destruct H2 as [(A1 & A2 & A3) _], H3 as [(B1 & B2 & B3) _]. rewrite tY_neg in A1, A3.
          apply (same3 xB xC xE _ _ _ _ (not_all _ _ _ _ _ _ GB GC EG)).
          - rewrite <- A3, <- B1. ring.
          - rewrite <- A2, <- B2. reflexivity.
          - rewrite <- A1, <- B3. reflexivity. }
        destruct Q1 as [-> ->], Q2 as [-> ->]. f_equal. ring.
    - (* general position *)
      assert (N1 : tX xE <> tX xC \/ tX xE <> tX xD).
      { destruct (feq_dec K xE xC) as [e1|n1]; [right|left; now apply tX_ne]. apply tX_ne. intros e2.
        exact (not_all _ _ _ _ _ _ GE GC ED (conj e1 e2)). }
      assert (N2 : tX xG <> tX xA \/ tX xG <> tX xD).
      { destruct (feq_dec K xG xA) as [e1|n1]; [right|left; now apply tX_ne]. apply tX_ne. intros e2.
        apply (not_all _ _ _ _ _ _ GA GG AS). split; [now symmetry|]. now transitivity xG. }
      pose proof (four_lines KL b' twoL _ _ _ _ _ _ _ _ _ _ _ _ _ _ _ _ _ _ _ _ H1 H2 H3 H4 (tX_ne _ _ N) N1 N2 px py OnP) as Q.
      apply (f_equal pw) in Q. rewrite (pw_mul _ (px - tX xG)), (pw_mul _ (px - tX xE)), (pw_v _ _ GG), (pw_v _ _ GE) in Q.
      transitivity (pw ((l1 * px + m1 - py) * (l2 * px + m2 - py)) * f1 KL); [ring|]. rewrite Q. ring.
  Qed.
  End Pt.

  (** ** Adding the points of evaluation *)
  Definition vert_ok (px : L) : Prop := forall x y, good (Aff x y) -> pw (px - tX x) = f1 KL /\ px - tX x <> f0 KL.
  Lemma pw_opp z : pw (- z) = pw z.
  Proof. replace (- z) with (- f1 KL * z) by ring. rewrite pw_mul, pw_m1. ring. Qed.
  Section Lin.
    Variables sx sy tx ty rx ry l2 m2 : L.
    Hypothesis DS : dat KL b' sx sy tx ty rx ry l2 m2.
    Hypothesis VS : vert_ok sx. Hypothesis VT : vert_ok tx. Hypothesis VR : vert_ok rx.
    Definition hh (A : point F) : L := match A with Inf => f1 KL | Aff x y => pw (l2 * tX x + m2 - tY y) end.
    Lemma hh_neg A : good A -> hh (neg A) * hh A = f1 KL.
    Proof.
      destruct A as [|x y]; intros G; [cbn; ring|]. cbn [ec_neg hh]. rewrite <- pw_mul, tY_neg.
      pose proof (dat_fact KL b' _ _ _ _ _ _ _ _ DS (tX x)) as E.
      assert (O : tY y * tY y = tX x * tX x * tX x + b').
      { pose proof (on_iso K KL em Hm c b b' (Aff x y) Hb (g_on _ G)) as O. exact (on_eq KL b' _ _ O). }
      destruct (VS _ _ G) as [V1 _], (VT _ _ G) as [V2 _], (VR _ _ G) as [V3 _].
      transitivity (pw ((sx - tX x) * (tx - tX x) * (rx - tX x))); [|rewrite !pw_mul, V1, V2, V3; ring].
      f_equal. transitivity (- (tX x * tX x * tX x + b' - (l2 * tX x + m2) * (l2 * tX x + m2))); [rewrite <- O; ring|rewrite E; ring].
    Qed.
    Lemma hh_nz A : good A -> hh A <> f0 KL.
    Proof. intros G E. pose proof (hh_neg A G) as H. rewrite E in H. apply (F_1_neq_0 (f_theory KL)). rewrite <- H. ring. Qed.
    Lemma vpw px x y : vert_ok px -> good (Aff x y) -> pw (tX x - px) = f1 KL.
    Proof. intros V G. rewrite <- (proj1 (V _ _ G)), <- pw_opp. f_equal. ring. Qed.
    Theorem hh_cob A B : good A -> good B ->
      cc rx ry A B * hh A * hh B = cc sx sy A B * cc tx ty A B * hh (A [+] B).
    Proof.
      intros GA GB.
      destruct A as [|x1 y1]; [unfold cc; rewrite !ev_inf_l, pw_1; cbn [hh ec_add]; ring|].
      destruct B as [|x2 y2]; [unfold cc; rewrite !ev_inf_r, pw_1; cbn [hh ec_add]; ring|].
      destruct (Aff x1 y1 [+] Aff x2 y2) as [|x3 y3] eqn:E.
      - pose proof (sum_inf _ _ GA GB E) as N. rewrite N.
        rewrite (cc_neg rx ry (fun x y G => proj1 (VR x y G)) _ GA), (cc_neg sx sy (fun x y G => proj1 (VS x y G)) _ GA),
          (cc_neg tx ty (fun x y G => proj1 (VT x y G)) _ GA).
        pose proof (hh_neg _ GA) as H. cbn [hh]. transitivity (hh (neg (Aff x1 y1)) * hh (Aff x1 y1)); [cbn [hh]; ring|]. rewrite H. ring.
      - assert (G3 : good (Aff x3 y3)) by (rewrite <- E; now apply g_add).
        destruct (D_ex _ _ _ _ _ _ GA GB E) as (l & m & H). unfold cc.
        rewrite (ev_D rx ry _ _ _ _ _ _ _ _ E H), (ev_D sx sy _ _ _ _ _ _ _ _ E H), (ev_D tx ty _ _ _ _ _ _ _ _ E H).
        cbn [hh]. rewrite <- !pw_mul.
        assert (N1 : (rx - tX x1) * (rx - tX x2) * (rx - tX x3) <> f0 KL).
        { apply fnz_mul; [apply fnz_mul|]; [exact (proj2 (VR _ _ GA))|exact (proj2 (VR _ _ GB))|exact (proj2 (VR _ _ G3))]. }
        assert (N2 : (tX x3 - sx) * (tX x3 - tx) * (tX x3 - rx) <> f0 KL).
        { intros Z0. apply (fnz_mul KL _ _ (fnz_mul KL _ _ (proj2 (VS _ _ G3)) (proj2 (VT _ _ G3))) (proj2 (VR _ _ G3))).
          transitivity (- ((tX x3 - sx) * (tX x3 - tx) * (tX x3 - rx))); [ring|]. rewrite Z0. ring. }
        pose proof (two_lines KL b' _ _ _ _ _ _ _ _ _ _ _ _ _ _ _ _ H DS N1 N2) as Q.
        apply (f_equal pw) in Q. rewrite (pw_mul _ (- _)), (pw_mul _ ((rx - _) * _ * _)) in Q. rewrite pw_opp in Q.
        assert (P1 : pw ((tX x3 - sx) * (tX x3 - tx) * (tX x3 - rx)) = f1 KL).
        { rewrite !pw_mul, (vpw _ _ _ VS G3), (vpw _ _ _ VT G3), (vpw _ _ _ VR G3). ring. }
        assert (P2 : pw ((rx - tX x1) * (rx - tX x2) * (rx - tX x3)) = f1 KL).
        { rewrite !pw_mul, (proj1 (VR _ _ GA)), (proj1 (VR _ _ GB)), (proj1 (VR _ _ G3)). ring. }
        rewrite P1, P2 in Q.
        match type of Q with ?u * _ = ?v * _ => transitivity (u * f1 KL); [ring|rewrite Q; ring] end.
    Qed.
  End Lin.
  (** a point of evaluation and its opposite *)
  Lemma cc_opp px py A B : py * py = px * px * px + b' -> vert_ok px -> good A -> good B -> cc px (- py) A B * cc px py A B = f1 KL.
  Proof.
    intros OnP V GA GB. pose proof (fun x y G => proj1 (V x y G)) as V1.
    destruct A as [|x1 y1]; [unfold cc; rewrite !ev_inf_l, pw_1; ring|].
    destruct B as [|x2 y2]; [unfold cc; rewrite !ev_inf_r, pw_1; ring|].
    destruct (Aff x1 y1 [+] Aff x2 y2) as [|x3 y3] eqn:E.
    - pose proof (sum_inf _ _ GA GB E) as N. rewrite N.
      rewrite (cc_neg px py V1 _ GA), (cc_neg px (- py) V1 _ GA). ring.
    - assert (G3 : good (Aff x3 y3)) by (rewrite <- E; now apply g_add).
      destruct (D_ex _ _ _ _ _ _ GA GB E) as (l & m & H). unfold cc.
      rewrite (ev_D px py _ _ _ _ _ _ _ _ E H), (ev_D px (- py) _ _ _ _ _ _ _ _ E H), <- pw_mul.
      rewrite <- (pw_prod3 px V1 _ _ _ _ _ _ GA GB G3), <- pw_opp. f_equal.
      rewrite <- (ev_mirror px py OnP _ _ _ _ _ _ _ _ E H). ring.
  Qed.

  (** ** A field homomorphism h that fixes the point of evaluation, and the map it induces on the points *)
  Section Frob.
    Variables (h : L -> L) (f : point F -> point F) (p : Z).
    Hypothesis Hh : hom KL KL h.
    Hypothesis h_iso : forall A, iso KL em c (f A) = pmap h (iso KL em c A).
    Hypothesis pw_h : forall z, pw (h z) = fpow KL (pw z) p.
    Lemma cc_f px py A B : h px = px -> h py = py -> good B -> cc px py (f A) (f B) = fpow KL (cc px py A B) p.
    Proof.
      intros Ex Ey GB. unfold cc, ev. rewrite !h_iso. rewrite <- pw_h. f_equal.
      pose proof (line_hom KL h Hh (iso KL em c A) (iso KL em c B) (Aff px py)) as E. cbn [pmap] in E. rewrite Ex, Ey in E. apply E.
      intros x y EB. destruct B as [|xB yB]; [discriminate|]. injection EB as <- <-.
      pose proof (dbl_y K b OK _ _ (g_on _ GB)) as NY. intros Z0. apply (em_nz _ _ _ Hm _ NY). rewrite (h_add _ _ _ Hm).
      apply (fcancel_r KL _ _ _ (c3_nz KL c Hc)). transitivity (tY yB + tY yB); [ring|]. rewrite Z0. ring.
    Qed.
    Lemma hh_f l2 m2 A : h l2 = l2 -> h m2 = m2 -> hh l2 m2 (f A) = fpow KL (hh l2 m2 A) p.
    Proof.
      intros El Em. pose proof (h_iso A) as E. destruct A as [|x y].
      - destruct (f Inf) as [|x' y']; [|discriminate]. cbn [hh]. symmetry. apply fpow_one.
      - destruct (f (Aff x y)) as [|x' y']; [discriminate|]. cbn [iso pmap] in E. injection E as E1 E2. cbn [hh].
        rewrite <- pw_h, (em_sub _ _ _ Hh), (h_add _ _ _ Hh), (h_mul _ _ _ Hh), El, Em, <- E1, <- E2. reflexivity.
    Qed.
  End Frob.
End Coc.


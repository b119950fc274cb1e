(** The curve code of ModelEC on represented field elements (Montgomery limbs), and the scalar
    multiplication.  [R a x]: the stored value [a] is the reduced representation of the field
    element [x]; [W a x]: it is a possibly unreduced one (what negating zero can leave). *)
From Coq Require Import Znumtheory.
From Verif Require Import Base BaseFacts ModelEndian ModelNumber SpecNumber ProofNumber SpecField SpecEC SpecJac
  ProofEC ProofECMul ModelEC ProofJac ProofNumlib.

Record ops_rel {T F} (Op : fops T) (K : field F) (R W : T -> F -> Prop) : Prop := MkRel {
  r_w : forall a x, R a x -> W a x;
  r_add : forall a b x y, R a x -> R b y -> R (o_add Op a b) (fadd K x y);
  r_sub : forall a b x y, R a x -> R b y -> R (o_sub Op a b) (fsub K x y);
  r_mul : forall a b x y, W a x -> W b y -> R (o_mul Op a b) (fmul K x y);
  r_sqr : forall a x, W a x -> R (o_sqr Op a) (fmul K x x);
  r_dbl : forall a x, R a x -> R (o_dbl Op a) (fadd K x x);
  r_tpl : forall a x, R a x -> R (o_tpl Op a) (fadd K (fadd K x x) x);
  r_neg : forall a x, R a x -> x <> f0 K -> W (o_neg Op a) (fopp K x);
  r_inv : forall a x, R a x -> W (o_inv Op a) (finv K x);
  r_eq : forall a b x y, R a x -> R b y -> o_eq Op a b = if feq_dec K x y then true else false;
  r_is0 : forall a x, R a x -> o_is0 Op a = if feq_dec K x (f0 K) then true else false;
  r_zero : R (o_zero Op) (f0 K);
  r_one : R (o_one Op) (f1 K)
}.

Section Rep.
  Context {T F : Type} (Op : fops T) (K : field F) (R W : T -> F -> Prop).
  Hypothesis OR : ops_rel Op K R W.
  Notation FK := (Fops K).

  Definition jR (J : jac T) (j : jac F) : Prop :=
    let '(X, Y, Z) := J in let '(x, y, z) := j in R X x /\ R Y y /\ R Z z.
  Definition aW (Q : aff T) (q : aff F) : Prop :=
    let '(X, Y) := Q in let '(x, y) := q in W X x /\ W Y y.
  Definition aR (Q : aff T) (q : aff F) : Prop :=
    let '(X, Y) := Q in let '(x, y) := q in R X x /\ R Y y.

  Ltac rel := match goal with
    | |- _ /\ _ => split; rel
    | H : R ?a ?x |- R ?a ?x => exact H
    | H : W ?a ?x |- W ?a ?x => exact H
    | |- R (o_mul _ _ _) _ => apply (r_mul _ _ _ _ OR); rel
    | |- R (o_sqr _ _) _ => apply (r_sqr _ _ _ _ OR); rel
    | |- R (o_sub _ _ _) _ => apply (r_sub _ _ _ _ OR); rel
    | |- R (o_add _ _ _) _ => apply (r_add _ _ _ _ OR); rel
    | |- R (o_dbl _ _) _ => apply (r_dbl _ _ _ _ OR); rel
    | |- R (o_tpl _ _) _ => apply (r_tpl _ _ _ _ OR); rel
    | |- R (o_zero _) _ => exact (r_zero _ _ _ _ OR)
    | |- R (o_one _) _ => exact (r_one _ _ _ _ OR)
    | |- W (o_inv _ _) _ => apply (r_inv _ _ _ _ OR); rel
    | |- W _ _ => apply (r_w _ _ _ _ OR); rel
    end.

  Lemma aR_aW Q q : aR Q q -> aW Q q.
  Proof. destruct Q, q. intros [H1 H2]. split; now apply (r_w _ _ _ _ OR). Qed.
  Lemma dbl_2001b_rep J j : jR J j -> jR (j_dbl_2001b Op J) (j_dbl_2001b FK j).
  Proof.
    destruct J as [[X Y] Z], j as [[x y] z]. intros (HX & HY & HZ).
    cbn. split; [|split]; rel.
  Qed.
  Lemma dbl_2009l_rep J j : jR J j -> jR (j_dbl_2009l Op J) (j_dbl_2009l FK j).
  Proof.
    destruct J as [[X Y] Z], j as [[x y] z]. intros (HX & HY & HZ).
    cbn. split; [|split]; rel.
  Qed.
  Lemma add_a_rep J j Q q : jR J j -> aW Q q -> jR (j_add_a Op J Q) (j_add_a FK j q).
  Proof.
    destruct J as [[X Y] Z], j as [[x y] z], Q as [A B], q as [a b].
    intros (HX & HY & HZ) (HA & HB). cbn.
    split; [|split]; rel.
  Qed.
  Lemma set_inf_rep : jR (j_set_inf Op) (j_set_inf FK).
  Proof. cbn. split; [|split]; rel. Qed.
  Lemma j_add_rep dbl dblF J j J' j' :
    (forall J j, jR J j -> jR (dbl J) (dblF j)) ->
    jR J j -> jR J' j' -> jR (j_add Op dbl J J') (j_add FK dblF j j').
  Proof.
    intros Hd HJ HJ'. pose proof (Hd _ _ HJ) as HD.
    destruct J as [[X Y] Z], j as [[x y] z], J' as [[X' Y'] Z'], j' as [[x' y'] z'].
    destruct HJ as (HX & HY & HZ), HJ' as (HX' & HY' & HZ').
    unfold j_add. cbv zeta.
    rewrite (r_eq _ _ _ _ OR _ _ (fmul K x (fmul K z' z')) (fmul K x' (fmul K z z))) by rel.
    rewrite (r_eq _ _ _ _ OR _ _ (fmul K (fmul K y z') (fmul K z' z')) (fmul K (fmul K y' z) (fmul K z z))) by rel.
    cbn [o_eq o_mul o_sqr Fops].
    destruct (feq_dec K _ _); [destruct (feq_dec K _ _); [exact HD|exact set_inf_rep]|].
    cbn. split; [|split]; rel.
  Qed.
  Lemma to_a_rep J j : jR J j -> aR (j_to_a Op J) (j_to_a FK j).
  Proof.
    destruct J as [[X Y] Z], j as [[x y] z]. intros (HX & HY & HZ). cbn. split; rel.
  Qed.
  Lemma from_a_rep Q q : aR Q q -> jR (j_from_a Op Q) (j_from_a FK q).
  Proof. destruct Q as [A B], q as [a b]. intros (HA & HB). cbn. split; [|split]; rel. Qed.
  Lemma is_inf_rep J j : jR J j -> j_is_inf Op J = j_is_inf FK j.
  Proof.
    destruct J as [[X Y] Z], j as [[x y] z]. intros (HX & HY & HZ). cbn.
    now apply (r_is0 _ _ _ _ OR).
  Qed.
  Lemma normal_rep J j : jR J j -> jR (j_normal Op J) (j_normal FK j).
  Proof.
    intros H. unfold j_normal. rewrite (is_inf_rep J j H). destruct (j_is_inf FK j); [exact set_inf_rep|].
    destruct J as [[X Y] Z], j as [[x y] z]. destruct H as (HX & HY & HZ). cbn. split; [|split]; rel.
  Qed.
  Lemma equal_rep J j J' j' : jR J j -> jR J' j' -> j_equal Op J J' = j_equal FK j j'.
  Proof.
    destruct J as [[X Y] Z], j as [[x y] z], J' as [[X' Y'] Z'], j' as [[x' y'] z'].
    intros (HX & HY & HZ) (HX' & HY' & HZ'). unfold j_equal. cbv zeta.
    rewrite (r_eq _ _ _ _ OR _ _ (fmul K x (fmul K z' z')) (fmul K x' (fmul K z z))) by rel.
    rewrite (r_eq _ _ _ _ OR _ _ (fmul K y (fmul K (fmul K z' z') z')) (fmul K y' (fmul K (fmul K z z) z))) by rel.
    reflexivity.
  Qed.
  Lemma j_neg_rep X Y Z x y z : jR (X, Y, Z) (x, y, z) -> y <> f0 K ->
    R X x /\ W (o_neg Op Y) (fopp K y) /\ R Z z.
  Proof. intros (HX & HY & HZ) Hy. split; [assumption|]. split; [|assumption]. now apply (r_neg _ _ _ _ OR). Qed.

  (** ** Stored points standing for points of the curve *)
  Definition jrep (J : jac T) (P : point F) : Prop := exists j, jR J j /\ jrel K j P.

  Variables a b : F.
  Hypothesis OK : curve_ok K a b.
  Notation on := (on_curve K a b).
  Notation add := (ec_add K a).
  Notation neg := (ec_neg K).
  Notation zm := (zmul K a).

  Lemma jrep_set_inf : jrep (j_set_inf Op) Inf.
  Proof.
    exists (j_set_inf FK). split; [exact set_inf_rep|].
    reflexivity.
  Qed.
  Lemma jrep_dbl_2001b J P : a = fopp K (fadd K (fadd K (f1 K) (f1 K)) (f1 K)) ->
    jrep J P -> jrep (j_dbl_2001b Op J) (add P P).
  Proof.
    intros Ha (j & Hj & HP). exists (j_dbl_2001b FK j). split; [now apply dbl_2001b_rep|].
    clear - OK Ha HP. destruct K, OK as [O1 O2].
    exact (dbl_2001b_ok _ _ _ _ _ _ _ _ _ _ f_theory a O1 j P Ha HP).
  Qed.
  Lemma jrep_dbl_2009l J P : a = f0 K -> jrep J P -> jrep (j_dbl_2009l Op J) (add P P).
  Proof.
    intros Ha (j & Hj & HP). exists (j_dbl_2009l FK j). split; [now apply dbl_2009l_rep|].
    clear - OK Ha HP. destruct K, OK as [O1 O2].
    exact (dbl_2009l_ok _ _ _ _ _ _ _ _ _ _ f_theory a O1 j P Ha HP).
  Qed.
  Lemma jrep_add_a J Q P x y : jrep J P -> aW Q (x, y) -> on P -> on (Aff x y) ->
    P <> Inf -> P <> Aff x y -> jrep (j_add_a Op J Q) (add P (Aff x y)).
  Proof.
    intros (j & Hj & HP) HQ OP OQ N1 N2. exists (j_add_a FK j (x, y)). split; [now apply add_a_rep|].
    destruct P as [|x1 y1]; [now elim N1|]. destruct j as [[X Y] Z].
    assert (N : (x1, y1) <> (x, y)) by congruence.
    clear - OK HP OP OQ N. destruct K, OK as [O1 O2].
    exact (add_a_ok _ _ _ _ _ _ _ _ _ _ f_theory a b O1 X Y Z x1 y1 x y HP OP OQ N).
  Qed.
  Lemma jrep_add dbl dblF J1 J2 P Q :
    (forall J j, jR J j -> jR (dbl J) (dblF j)) ->
    (forall J P, jrel K J P -> jrel K (dblF J) (add P P)) ->
    jrep J1 P -> jrep J2 Q -> on P -> on Q -> (P = Inf <-> Q = Inf) ->
    jrep (j_add Op dbl J1 J2) (add P Q).
  Proof.
    intros Hd HdF (j1 & H1 & HP) (j2 & H2 & HQ) OP OQ HI. exists (j_add FK dblF j1 j2).
    split; [now apply j_add_rep|].
    clear - OK HP OP HQ OQ HI HdF. destruct K, OK as [O1 O2].
    exact (j_add_ok _ _ _ _ _ _ _ _ _ _ f_theory a b O1 dblF j1 j2 P Q HdF HP HQ OP OQ HI).
  Qed.
  Lemma jrep_from_a Q x y : aR Q (x, y) -> jrep (j_from_a Op Q) (Aff x y).
  Proof.
    intros H. exists (j_from_a FK (x, y)). split; [now apply from_a_rep|].
    clear - x. destruct K. exact (from_a_ok _ _ _ _ _ _ _ _ _ _ f_theory x y).
  Qed.
  Lemma jrep_to_a J x y : jrep J (Aff x y) -> aR (j_to_a Op J) (x, y).
  Proof.
    intros (j & H & HP). apply to_a_rep in H. destruct j as [[X Y] Z].
    assert (E : j_to_a FK (X, Y, Z) = (x, y)).
    { clear - HP. destruct K. exact (to_a_ok _ _ _ _ _ _ _ _ _ _ f_theory X Y Z x y HP). }
    now rewrite E in H.
  Qed.
  Lemma jrep_to_a_inf J : finv K (f0 K) = f0 K -> jrep J Inf -> aR (j_to_a Op J) (f0 K, f0 K).
  Proof.
    intros Hi (j & H & HP). apply to_a_rep in H. destruct j as [[X Y] Z].
    assert (E : j_to_a FK (X, Y, Z) = (f0 K, f0 K)).
    { clear - HP Hi. destruct K. exact (to_a_inf _ _ _ _ _ _ _ _ _ _ f_theory X Y Z Hi HP). }
    now rewrite E in H.
  Qed.
  Lemma jrep_is_inf J P : jrep J P -> (j_is_inf Op J = true <-> P = Inf).
  Proof.
    intros (j & H & HP). rewrite (is_inf_rep _ _ H). clear - HP.
    destruct K. exact (is_inf_ok _ _ _ _ _ _ _ _ _ _ f_theory j P HP).
  Qed.
  Lemma jrep_normal J P : jrep J P -> jrep (j_normal Op J) P.
  Proof.
    intros (j & H & HP). exists (j_normal FK j). split; [now apply normal_rep|].
    clear - HP. destruct K. exact (proj1 (normal_ok _ _ _ _ _ _ _ _ _ _ f_theory j P HP)).
  Qed.

  (** ** Scalar multiplication *)
  Variables (w : Z) (nn : nat) (L : numlib).
  Hypothesis LOK : numlib_ok w nn L.
  Variable dbl : jac T -> jac T.
  Hypothesis Hdbl : forall J P, jrep J P -> jrep (dbl J) (add P P).
  Variables (n : Z) (Q : aff T) (x y : F).
  Notation P := (Aff x y).
  Hypotheses (Hn5 : 5 < n) (Hodd : Z.odd n = true) (HQ : aR Q (x, y)) (HP : on P)
    (Hord : forall k, 0 <= k -> (zm k P = Inf <-> k mod n = 0)).

  Lemma HQneg : aW (a_neg Op Q) (x, fopp K y).
  Proof.
    destruct Q as [X Y]. destruct HQ as [H1 H2]. split; [now apply (r_w _ _ _ _ OR)|].
    apply (r_neg _ _ _ _ OR); [assumption|]. exact (ec_y_nz K a b OK x y HP).
  Qed.

  (** the multiple held after the bits of 3e and e above position i have been used *)
  Definition held (e i : Z) : Z := (3 * e) / 2 ^ i - e / 2 ^ i.

  Lemma held_step e i : 0 <= i ->
    held e i = 2 * held e (i + 1) + (if Z.testbit (3 * e) i then 1 else 0) - (if Z.testbit e i then 1 else 0).
  Proof.
    intros Hi. unfold held.
    assert (H : forall v, v / 2 ^ i = 2 * (v / 2 ^ (i + 1)) + (if Z.testbit v i then 1 else 0)).
    { intros v. rewrite Z.pow_add_r, Z.pow_1_r by lia. rewrite <- Z.div_div by lia.
      pose proof (Z.testbit_spec' v i Hi) as B. destruct (Z.testbit v i); cbn [Z.b2z] in B;
        pose proof (Z.div_mod (v / 2 ^ i) 2 ltac:(lia)); clear - H B; lia. }
    rewrite (H (3 * e)), (H e). ring.
  Qed.
  Lemma held_1 e : held e 1 = e.
  Proof. unfold held. change (2 ^ 1) with 2. lia. Qed.
  Lemma held_hi e i : 2 <= i -> 0 <= e -> 2 * held e i <= e + 1.
  Proof.
    intros Hi He. unfold held. pose proof (Z.pow_le_mono_r 2 2 i ltac:(lia) Hi) as B. change (2 ^ 2) with 4 in B.
    pose proof (Z.mul_div_le (3 * e) (2 ^ i) ltac:(lia)).
    pose proof (Z.mul_succ_div_gt e (2 ^ i) ltac:(lia)).
    set (q := 2 ^ i) in *. set (u := 3 * e / q) in *. set (v := e / q) in *. clearbody q u v. clear - B H H0 He.
    assert (q * (u - v) < 2 * e + q) by nia.
    destruct (Z.le_gt_cases (2 * (u - v)) (e + 1)); [assumption|]. nia.
  Qed.

  Lemma mul_step_rep e e3 le le3 i J :
    limbs w nn le -> val w le = e -> limbs w nn le3 -> (exists c, 0 <= c /\ val w le3 + 2 ^ 256 * c = 3 * e) ->
    e3 = 3 * e -> 1 <= e < n -> (i = 1 -> n mod 4 = 3 \/ e <> n - 2) -> 1 <= i <= 255 -> 1 <= held e (i + 1) ->
    jrep J (zm (held e (i + 1)) P) ->
    1 <= held e i /\
    exists J', mul_step Op dbl L Q (a_neg Op Q) le le3 i J = Ok J' /\ jrep J' (zm (held e i) P).
  Proof.
    intros Hle Ve Hle3 (c & Hc & V3) E3 He Hs Hi Hh HJ.
    pose proof (held_step e i ltac:(lia)) as ST.
    set (m := held e (i + 1)) in *.
    assert (T3 : Z.testbit (val w le3) i = Z.testbit (3 * e) i).
    { rewrite <- V3. replace (2 ^ 256 * c) with (c * 2 ^ 256) by ring.
      rewrite <- (Z.mod_pow2_bits_low (val w le3 + c * 2 ^ 256) 256 i) by lia.
      rewrite Z_mod_plus_full. now rewrite Z.mod_pow2_bits_low by lia. }
    unfold mul_step.
    rewrite (ok_bit _ _ _ LOK le i Hle ltac:(lia)), Ve. cbn [bind].
    rewrite (ok_bit _ _ _ LOK le3 i Hle3 ltac:(lia)), T3. cbn [bind].
    assert (HD : jrep (dbl J) (zm (2 * m) P)).
    { rewrite (zmul_dbl K a b OK m P HP ltac:(lia)). now apply Hdbl. }
    assert (O2 : on (zm (2 * m) P)) by (apply (zmul_on K a b OK); exact HP).
    (* bounds on 2m *)
    assert (B : 2 * m + 1 <= n + 1 /\ (2 <= i -> 2 * m + 1 < n)).
    { split.
      - pose proof (held_hi e (i + 1) ltac:(lia) ltac:(lia)) as H. fold m in H. lia.
      - intros H2. pose proof (held_hi e i ltac:(lia) ltac:(lia)) as H. fold m in ST. rewrite ST in H.
        destruct (Z.testbit (3 * e) i), (Z.testbit e i); lia. }
    assert (N0 : zm (2 * m) P <> Inf).
    { intros E. apply Hord in E; [|lia]. destruct B as [B _].
      destruct (Z.eq_dec (2 * m) n) as [E'|N'].
      - rewrite <- E' in Hodd. rewrite Z.odd_mul in Hodd. discriminate.
      - rewrite Z.mod_small in E by lia. lia. }
    destruct (Z.testbit (3 * e) i) eqn:Tb; destruct (Z.testbit e i) eqn:Te; cbn [negb andb].
    - split; [lia|]. eexists. split; [reflexivity|]. rewrite ST. now replace (2 * m + 1 - 1) with (2 * m) by lia.
    - split; [lia|]. eexists. split; [reflexivity|]. rewrite ST.
      replace (2 * m + 1 - 0) with (2 * m + 1) by lia.
      rewrite (zmul_add K a b OK), (zmul_1 K a) by (exact HP || lia).
      destruct Q as [X Y]. apply jrep_add_a; try assumption; [exact (aR_aW _ _ HQ)|].
      (* 2m P = P would make (2m - 1) P infinite *)
      intros E.
      assert (E1 : zm (2 * m - 1) P = Inf).
      { rewrite (zmul_pred K a b OK (2 * m) P HP ltac:(lia)), E. apply (ec_add_neg K a b OK). }
      apply Hord in E1; [|lia]. rewrite Z.mod_small in E1 by lia. lia.
    - split; [lia|]. eexists. split; [reflexivity|]. rewrite ST.
      replace (2 * m + 0 - 1) with (2 * m - 1) by lia.
      rewrite (zmul_pred K a b OK) by (exact HP || lia). cbn [ec_neg].
      apply jrep_add_a; try assumption; [exact HQneg|exact (ec_neg_on K a b OK P HP)|].
      intros E.
      assert (E1 : zm (2 * m + 1) P = Inf).
      { rewrite (zmul_add K a b OK), (zmul_1 K a) by (exact HP || lia). rewrite E.
        change (Aff x (fopp K y)) with (neg P).
        rewrite (ec_add_comm K a b OK) by (exact HP || exact (ec_neg_on K a b OK P HP)).
        apply (ec_add_neg K a b OK). }
      apply Hord in E1; [|lia].
      (* 2m + 1 = n only for the last bit and e = n - 2 *)
      destruct (Z.eq_dec i 1) as [->|Ni].
      + rewrite held_1 in ST. destruct B as [B _].
        assert (E2 : 2 * m + 1 = n).
        { destruct (Z.eq_dec (2 * m + 1) n); [assumption|].
          destruct (Z.eq_dec (2 * m + 1) (n + 1)) as [E3'|]; [|rewrite Z.mod_small in E1; lia].
          rewrite E3' in E1. replace (n + 1) with (1 + 1 * n) in E1 by ring.
          rewrite Z_mod_plus_full, Z.mod_1_l in E1 by lia. discriminate. }
        assert (E4 : e = n - 2) by lia.
        destruct (Hs eq_refl) as [Hs'|Hs']; [|contradiction].
        assert (M : e mod 4 = 1).
        { rewrite E4. rewrite Zminus_mod, Hs'. reflexivity. }
        (* bit 1 of e is set *)
        pose proof (Z.testbit_spec' e 1 ltac:(lia)) as TB. rewrite Te in TB. cbn [Z.b2z] in TB.
        change (2 ^ 1) with 2 in TB. clear - M TB. lia.
      + destruct B as [_ B]. rewrite Z.mod_small in E1 by lia. lia.
    - split; [lia|]. eexists. split; [reflexivity|]. rewrite ST. now replace (2 * m + 0 - 0) with (2 * m) by lia.
  Qed.

  Lemma mul_loop_rep e le le3 : limbs w nn le -> val w le = e -> limbs w nn le3 ->
    (exists c, 0 <= c /\ val w le3 + 2 ^ 256 * c = 3 * e) ->
    1 <= e < n -> n mod 4 = 3 \/ e <> n - 2 ->
    forall i J, (i <= 255)%nat -> 1 <= held e (Z.of_nat i + 1) ->
    jrep J (zm (held e (Z.of_nat i + 1)) P) ->
    exists J', mul_loop Op dbl L Q (a_neg Op Q) le le3 i J = Ok J' /\ jrep J' (zm e P).
  Proof.
    intros H1 H2 H3 H4 H5 H6. induction i as [|i IH]; intros J Hi Hh HJ.
    - exists J. split; [reflexivity|]. change (Z.of_nat 0 + 1) with 1 in HJ. now rewrite held_1 in HJ.
    - cbn [mul_loop].
      destruct (mul_step_rep e (3 * e) le le3 (Z.of_nat (S i)) J H1 H2 H3 H4 eq_refl H5 (fun _ => H6) ltac:(lia) Hh HJ)
        as (Hh' & J' & E & HJ').
      rewrite E. cbn [bind]. apply IH; [lia|..]; now replace (Z.of_nat i + 1) with (Z.of_nat (S i)) by lia.
  Qed.

  Lemma top_bit_spec l v : limbs w nn l -> val w l = v -> forall i, (i <= 255)%nat -> 1 <= v < 2 ^ (Z.of_nat i + 1) ->
    exists t, top_bit L l i = Ok t /\ (t <= i)%nat /\ v / 2 ^ Z.of_nat t = 1.
  Proof.
    intros Hl Hv. induction i as [|i IH]; intros Hi Hb.
    - cbn [top_bit]. rewrite (ok_bit _ _ _ LOK l (Z.of_nat 0) Hl ltac:(lia)), Hv. cbn [bind].
      change (2 ^ (Z.of_nat 0 + 1)) with 2 in Hb. assert (v = 1) as -> by lia.
      cbn. exists 0%nat. repeat split; reflexivity || lia.
    - cbn [top_bit]. rewrite (ok_bit _ _ _ LOK l (Z.of_nat (S i)) Hl ltac:(lia)), Hv. cbn [bind].
      pose proof (Z.testbit_spec' v (Z.of_nat (S i)) ltac:(lia)) as TB.
      rewrite Z.pow_add_r, Z.pow_1_r in Hb by lia.
      assert (D : 0 <= v / 2 ^ Z.of_nat (S i) < 2).
      { split; [apply Z.div_pos; lia|]. apply Z.div_lt_upper_bound; lia. }
      rewrite Z.mod_small in TB by exact D.
      destruct (Z.testbit v (Z.of_nat (S i))); cbn [Z.b2z] in TB.
      + exists (S i). split; [reflexivity|]. split; [lia|]. lia.
      + destruct (IH ltac:(lia)) as (t & E & Ht & Et).
        { split; [lia|]. symmetry in TB. apply Z.div_small_iff in TB; [|lia].
          replace (Z.of_nat i + 1) with (Z.of_nat (S i)) by lia. lia. }
        exists t. split; [exact E|]. split; [lia|assumption].
  Qed.

  (** the scalar actually used: k modulo n *)
  Theorem j_mul_a_rep N k : limbs w nn N -> val w N = n -> n < 2 ^ 256 -> 2 ^ 256 <= 2 * n ->
    bytes k -> length k = 32%nat ->
    n mod 4 = 3 \/ be_val k mod n <> n - 2 ->
    exists J, j_mul_a Op dbl L N k Q = Ok J /\ jrep J (zm (be_val k mod n) P).
  Proof.
    intros HN VN Hn1 Hn2 Hk Lk Hs. unfold j_mul_a.
    destruct (ok_from_bytes _ _ _ LOK k Hk Lk) as [Lf Vf].
    pose proof (be_val_bound k Hk) as Bk. rewrite Lk in Bk. change (256 ^ Z.of_nat 32) with (2 ^ 256) in Bk.
    set (f := nl_from_bytes L k) in *.
    assert (HE : exists le, (if 0 <=? nl_cmp L f N then fst (nl_sub L f N) else f) = le /\
       limbs w nn le /\ val w le = be_val k mod n).
    { rewrite (ok_cmp _ _ _ LOK f N Lf HN), Vf, VN, Zcmp_ge.
      destruct (n <=? be_val k) eqn:E.
      - destruct (ok_sub _ _ _ LOK f N Lf HN ltac:(lia)) as [Ls Vs].
        eexists. split; [reflexivity|]. split; [exact Ls|]. rewrite Vs, Vf, VN.
        apply (Z.mod_unique_pos _ _ 1); lia.
      - exists f. split; [reflexivity|]. split; [exact Lf|]. rewrite Vf. symmetry. apply Z.mod_small. lia. }
    destruct HE as (le & -> & Lle & Vle). cbv zeta. clearbody f. clear f Lf Vf.
    set (e := be_val k mod n) in *.
    assert (Be : 0 <= e < n) by (apply Z.mod_pos_bound; lia). clearbody e.
    rewrite (ok_is0 _ _ _ LOK le Lle), Vle. destruct (e =? 0) eqn:E0.
    { assert (e = 0) as -> by lia. exists (j_set_inf Op). split; [reflexivity|]. exact jrep_set_inf. }
    pose proof (ok_tpl _ _ _ LOK le Lle) as TP. destruct (nl_tpl L le) as [e3 c].
    destruct TP as (L3 & Bc & V3). rewrite Vle in V3.
    assert (HC : exists c, 0 <= c /\ val w e3 + 2 ^ 256 * c = 3 * e) by (exists c; split; [lia|exact V3]).
    assert (B3 : 0 <= val w e3 < 2 ^ 256).
    { pose proof (val_bound w nn e3 ltac:(pose proof (ok_w _ _ _ LOK); lia) L3) as B.
      unfold pw in B. rewrite (ok_wn _ _ _ LOK) in B. exact B. }
    assert (He : 1 <= e < n) by lia.
    pose proof (jrep_from_a Q x y HQ) as HF.
    assert (Eh : held e 256 = c).
    { unfold held. rewrite (Z.div_small e) by lia. rewrite <- V3, (Z.mul_comm _ c), Z.div_add, Z.div_small by lia. lia. }
    destruct (c =? 1) eqn:C1; [|destruct (c =? 2) eqn:C2].
    - apply (mul_loop_rep e le e3 Lle Vle L3 HC He Hs); [lia|..].
      + change (Z.of_nat 255 + 1) with 256. lia.
      + change (Z.of_nat 255 + 1) with 256. rewrite Eh. assert (c = 1) as -> by lia.
        rewrite (zmul_1 K a). exact HF.
    - apply (mul_loop_rep e le e3 Lle Vle L3 HC He Hs); [lia|..].
      + change (Z.of_nat 255 + 1) with 256. lia.
      + change (Z.of_nat 255 + 1) with 256. rewrite Eh. assert (c = 2) as -> by lia.
        change 2 with (2 * 1) at 1. rewrite (zmul_dbl K a b OK) by (exact HP || lia).
        rewrite (zmul_1 K a). now apply Hdbl.
    - assert (c = 0) as -> by lia. rewrite Z.mul_0_r, Z.add_0_r in V3.
      destruct (top_bit_spec e3 (3 * e) L3 V3 255 ltac:(lia)) as (t & Et & Ht & Vt).
      { change (2 ^ (Z.of_nat 255 + 1)) with (2 ^ 256). lia. }
      rewrite Et. cbn [bind].
      assert (Ht1 : (1 <= t)%nat).
      { destruct t; [|lia]. change (2 ^ Z.of_nat 0) with 1 in Vt. rewrite Z.div_1_r in Vt. lia. }
      assert (Eh' : held e (Z.of_nat (pred t) + 1) = 1).
      { replace (Z.of_nat (pred t) + 1) with (Z.of_nat t) by lia. unfold held. rewrite Vt.
        assert (e / 2 ^ Z.of_nat t = 0); [|lia].
        apply Z.div_small. split; [lia|].
        pose proof (Z.mul_succ_div_gt (3 * e) (2 ^ Z.of_nat t) ltac:(lia)) as G. rewrite Vt in G. clear - G He. lia. }
      apply (mul_loop_rep e le e3 Lle Vle L3 HC He Hs); [lia|lia|].
      rewrite Eh', (zmul_1 K a). exact HF.
  Qed.

  (** ** The last scalar: for n = 1 mod 4 the code adds -P to -P with the mixed formula, which does not double *)
  Lemma mul_loop_to1 e le le3 : limbs w nn le -> val w le = e -> limbs w nn le3 ->
    (exists c, 0 <= c /\ val w le3 + 2 ^ 256 * c = 3 * e) -> 1 <= e < n ->
    forall i J, (1 <= i <= 255)%nat -> 1 <= held e (Z.of_nat i + 1) ->
    jrep J (zm (held e (Z.of_nat i + 1)) P) ->
    exists J1, mul_loop Op dbl L Q (a_neg Op Q) le le3 i J = mul_loop Op dbl L Q (a_neg Op Q) le le3 1 J1 /\
      1 <= held e 2 /\ jrep J1 (zm (held e 2) P).
  Proof.
    intros H1 H2 H3 H4 H5. induction i as [|i IH]; intros J Hi Hh HJ; [lia|].
    destruct i as [|i].
    - exists J. split; [reflexivity|]. split; assumption.
    - change (mul_loop Op dbl L Q (a_neg Op Q) le le3 (S (S i)) J) with
        (do Q0 <- mul_step Op dbl L Q (a_neg Op Q) le le3 (Z.of_nat (S (S i))) J;
         mul_loop Op dbl L Q (a_neg Op Q) le le3 (S i) Q0).
      destruct (mul_step_rep e (3 * e) le le3 (Z.of_nat (S (S i))) J H1 H2 H3 H4 eq_refl H5 ltac:(lia) ltac:(lia) Hh HJ)
        as (Hh' & J' & E & HJ').
      rewrite E. cbn [bind]. apply IH; [lia|..]; now replace (Z.of_nat (S i) + 1) with (Z.of_nat (S (S i))) by lia.
  Qed.

  Lemma add_a_self J X Y : jrep J (Aff X Y) -> forall q, aW q (X, Y) -> jrep (j_add_a Op J q) Inf.
  Proof.
    intros (j & Hj & HJ) q Hq. exists (j_add_a FK j (X, Y)). split; [now apply add_a_rep|].
    destruct j as [[u v] z]. cbn [jrel] in HJ. destruct HJ as (Hz & -> & ->). clear.
    unfold j_add_a. cbn [o_add o_sub o_mul o_sqr o_dbl Fops]. cbv zeta. cbn [jrel].
    Add Field FKR : (f_theory K).
    ring.
  Qed.

  Theorem j_mul_a_last N k : limbs w nn N -> val w N = n -> n < 2 ^ 256 -> 2 ^ 256 <= 2 * n ->
    bytes k -> length k = 32%nat -> n mod 4 = 1 -> be_val k mod n = n - 2 ->
    exists J, j_mul_a Op dbl L N k Q = Ok J /\ jrep J Inf.
  Proof.
    intros HN VN Hn1 Hn2 Hk Lk Hm4 Hs. unfold j_mul_a.
    destruct (ok_from_bytes _ _ _ LOK k Hk Lk) as [Lf Vf].
    pose proof (be_val_bound k Hk) as Bk. rewrite Lk in Bk. change (256 ^ Z.of_nat 32) with (2 ^ 256) in Bk.
    set (f := nl_from_bytes L k) in *.
    assert (HE : exists le, (if 0 <=? nl_cmp L f N then fst (nl_sub L f N) else f) = le /\
       limbs w nn le /\ val w le = n - 2).
    { rewrite (ok_cmp _ _ _ LOK f N Lf HN), Vf, VN, Zcmp_ge.
      destruct (n <=? be_val k) eqn:E.
      - destruct (ok_sub _ _ _ LOK f N Lf HN ltac:(lia)) as [Ls Vs].
        eexists. split; [reflexivity|]. split; [exact Ls|]. rewrite Vs, Vf, VN, <- Hs.
        apply (Z.mod_unique_pos _ _ 1); lia.
      - exists f. split; [reflexivity|]. split; [exact Lf|]. rewrite Vf, <- Hs. symmetry. apply Z.mod_small. lia. }
    destruct HE as (le & -> & Lle & Vle). cbv zeta. clearbody f. clear f Lf Vf Hs.
    rewrite (ok_is0 _ _ _ LOK le Lle), Vle. replace (n - 2 =? 0) with false by lia.
    pose proof (ok_tpl _ _ _ LOK le Lle) as TP. destruct (nl_tpl L le) as [e3 c].
    destruct TP as (L3 & Bc & V3). rewrite Vle in V3.
    assert (B3 : 0 <= val w e3 < 2 ^ 256).
    { pose proof (val_bound w nn e3 ltac:(pose proof (ok_w _ _ _ LOK); lia) L3) as B.
      unfold pw in B. rewrite (ok_wn _ _ _ LOK) in B. exact B. }
    assert (Hc1 : 1 <= c) by lia.
    set (e := n - 2) in *.
    assert (HC : exists c, 0 <= c /\ val w e3 + 2 ^ 256 * c = 3 * e) by (exists c; split; [lia|exact V3]).
    assert (He : 1 <= e < n) by lia.
    pose proof (jrep_from_a Q x y HQ) as HF.
    assert (Eh : held e 256 = c).
    { unfold held. rewrite (Z.div_small e) by lia. rewrite <- V3, (Z.mul_comm _ c), Z.div_add, Z.div_small by lia. lia. }
    assert (HL : forall J, jrep J (zm c P) -> exists J',
      mul_loop Op dbl L Q (a_neg Op Q) le e3 255 J = Ok J' /\ jrep J' Inf).
    { intros J HJ. rewrite <- Eh in HJ.
      destruct (mul_loop_to1 e le e3 Lle Vle L3 HC He 255 J ltac:(lia)) as (J1 & E1 & Hh & HJ1);
        [change (Z.of_nat 255 + 1) with 256; lia|exact HJ|].
      rewrite E1. cbn [mul_loop]. change (Z.of_nat 1) with 1.
      set (m := held e 2) in *.
      pose proof (held_step e 1 ltac:(lia)) as ST. rewrite held_1 in ST. change (1 + 1) with 2 in ST. fold m in ST.
      assert (T3 : Z.testbit (val w e3) 1 = Z.testbit (3 * e) 1).
      { rewrite <- V3. replace (2 ^ 256 * c) with (c * 2 ^ 256) by ring.
        rewrite <- (Z.mod_pow2_bits_low (val w e3 + c * 2 ^ 256) 256 1) by lia.
        rewrite Z_mod_plus_full. now rewrite Z.mod_pow2_bits_low by lia. }
      assert (M4 : e mod 4 = 3).
      { unfold e. rewrite Zminus_mod, Hm4. reflexivity. }
      assert (Te : Z.testbit e 1 = true).
      { pose proof (Z.testbit_spec' e 1 ltac:(lia)) as TB. change (2 ^ 1) with 2 in TB.
        destruct (Z.testbit e 1); [reflexivity|]. cbn [Z.b2z] in TB. clear - M4 TB. lia. }
      assert (Tb : Z.testbit (3 * e) 1 = false).
      { pose proof (Z.testbit_spec' (3 * e) 1 ltac:(lia)) as TB. change (2 ^ 1) with 2 in TB.
        destruct (Z.testbit (3 * e) 1); [|reflexivity]. cbn [Z.b2z] in TB. clear - M4 TB. lia. }
      unfold mul_step.
      rewrite (ok_bit _ _ _ LOK le 1 Lle ltac:(lia)), Vle. cbn [bind].
      rewrite (ok_bit _ _ _ LOK e3 1 L3 ltac:(lia)), T3. cbn [bind]. rewrite Te, Tb. cbn [negb andb bind].
      eexists. split; [reflexivity|]. rewrite Te, Tb in ST.
      assert (HD : jrep (dbl J1) (zm (2 * m) P)).
      { rewrite (zmul_dbl K a b OK m P HP ltac:(lia)). now apply Hdbl. }
      assert (O2 : on (zm (2 * m) P)) by (apply (zmul_on K a b OK); exact HP).
      assert (E2 : zm (2 * m + 1) P = Inf).
      { apply Hord; [lia|]. replace (2 * m + 1) with n by (unfold e in ST; lia). apply Z_mod_same_full. }
      rewrite (zmul_add K a b OK), (zmul_1 K a) in E2 by (exact HP || lia).
      apply (ec_add_inf_neg K a b OK) in E2; [|exact O2|exact HP].
      assert (E4 : zm (2 * m) P = ec_neg K P).
      { apply (f_equal (ec_neg K)) in E2. rewrite (ec_neg_neg K a b OK) in E2. symmetry. exact E2. }
      rewrite E4 in HD. cbn [ec_neg] in HD. exact (add_a_self _ _ _ HD _ HQneg). }
    destruct (c =? 1) eqn:C1; [|destruct (c =? 2) eqn:C2].
    - apply HL. assert (c = 1) as -> by lia. rewrite (zmul_1 K a). exact HF.
    - apply HL. assert (c = 2) as -> by lia.
      change 2 with (2 * 1) at 1. rewrite (zmul_dbl K a b OK) by (exact HP || lia).
      rewrite (zmul_1 K a). now apply Hdbl.
    - lia.
  Qed.
End Rep.

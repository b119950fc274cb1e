(** Fast arithmetic on integers standing for elements of F_p, and two certificate checkers used for
    the curve constants: a cubic without roots, and a multiple of a point by a digit chain. *)
From Coq Require Import Znumtheory Field.
From Verif Require Import Base BaseFacts SpecField SpecEC SpecJac ProofEC ProofECMul ProofFermat ProofFast
  ModelEC ProofJac ProofJacRep.

Lemma pow_base_mod a e p : 0 <= e -> a ^ e mod p = (a mod p) ^ e mod p.
Proof.
  intros He. pattern e. apply natlike_ind; [reflexivity| |exact He].
  intros k Hk IH. rewrite !Z.pow_succ_r by assumption.
  rewrite (Zmult_mod a), IH, Zmult_mod_idemp_r. reflexivity.
Qed.

Section Zops.
  Variables (p : Z) (Hp : prime p) (H2 : 2 < p) (red : Z -> Z).
  Hypothesis red_ok : forall x, red x mod p = x mod p.
  Notation K := (Fp p Hp H2).

  Definition Zops : fops Z :=
    MkOps Z Z.add Z.sub (fun x y => red (fmulz x y)) (fun x => red (fmulz x x))
      (fun x => x + x) (fun x => x + x + x) Z.opp (fun x => x ^ (p - 2))
      (fun x y => x mod p =? y mod p) (fun x => x mod p =? 0) 0 1.
  Definition Rz (z : Z) (x : fp p) : Prop := z mod p = fval x.

  Lemma Zops_rel : ops_rel Zops K Rz Rz.
  Proof.
    constructor; unfold Rz;
      cbn [Zops o_add o_sub o_mul o_sqr o_dbl o_tpl o_neg o_inv o_eq o_is0 o_zero o_one
           Fp f0 f1 fadd fmul fsub fopp fdiv finv feq_dec];
      unfold fp_add, fp_mul, fp_sub, fp_opp, fp_inv; try setoid_rewrite fval_fof.
    - trivial.
    - intros a b x y <- <-. now rewrite <- Zplus_mod.
    - intros a b x y <- <-. now rewrite <- Zminus_mod.
    - intros a b x y <- <-. now rewrite red_ok, fmulz_spec, <- Zmult_mod.
    - intros a x <-. now rewrite red_ok, fmulz_spec, <- Zmult_mod.
    - intros a x <-. now rewrite <- Zplus_mod.
    - intros a x <-. now rewrite fval_fof, <- (Zplus_mod a a), <- (Zplus_mod (a + a) a).
    - intros a x <- _. replace (- a) with (0 - a) by lia. replace (- (a mod p)) with (0 - a mod p) by lia. now rewrite Zminus_mod_idemp_r.
    - intros a x <-. rewrite pow_mod_spec, Z2Pos.id, Zmod_mod by lia. apply pow_base_mod. lia.
    - intros a b x y Ea Eb. rewrite Ea, Eb. destruct (fp_eq_dec p x y) as [->|N]; [apply Z.eqb_refl|].
      apply Z.eqb_neq. intros E. apply N. now apply fval_inj.
    - intros a x Ea. rewrite Ea. destruct (fp_eq_dec p x (fof p 0)) as [->|N].
      + apply Z.eqb_eq. rewrite fval_fof. apply Z.mod_0_l. lia.
      + apply Z.eqb_neq. intros E. apply N. apply fval_inj. rewrite fval_fof, Z.mod_0_l by lia. exact E.
    - reflexivity.
    - reflexivity.
  Qed.

  (** ** A cubic x^3 + a x + b without roots *)
  Variables a b : Z.
  Definition poly : Type := (Z * Z * Z)%type.
  Definition pol_mul (g h : poly) : poly :=
    let '(g0, g1, g2) := g in let '(h0, h1, h2) := h in
    let m4 := red (fmulz g2 h2) in
    let m3 := red (fmulz g1 h2 + fmulz g2 h1) in
    (red (fmulz g0 h0 - fmulz b m3),
     red (fmulz g0 h1 + fmulz g1 h0 - fmulz a m3 - fmulz b m4),
     red (fmulz g0 h2 + fmulz g1 h1 + fmulz g2 h0 - fmulz a m4)).
  Definition pol_sqr (g : poly) : poly :=
    let '(g0, g1, g2) := g in
    let m4 := red (fmulz g2 g2) in
    let m3 := red (2 * fmulz g1 g2) in
    (red (fmulz g0 g0 - fmulz b m3),
     red (2 * fmulz g0 g1 - fmulz a m3 - fmulz b m4),
     red (2 * fmulz g0 g2 + fmulz g1 g1 - fmulz a m4)).
  Definition pol_x (g : poly) : poly :=
    let '(g0, g1, g2) := g in (red (- fmulz b g2), red (g0 - fmulz a g2), g1).
  Fixpoint pol_pow (e : positive) : poly :=
    match e with
    | xH => (0, 1, 0)
    | xO e' => pol_sqr (pol_pow e')
    | xI e' => pol_x (pol_sqr (pol_pow e'))
    end.


  Notation phi := (fof p).
  Lemma phi_add u v : phi (u + v) = fp_add (phi u) (phi v).
  Proof. apply fval_inj. unfold fp_add. rewrite !fval_fof. apply Zplus_mod. Qed.
  Lemma phi_sub u v : phi (u - v) = fp_sub (phi u) (phi v).
  Proof. apply fval_inj. unfold fp_sub. rewrite !fval_fof. apply Zminus_mod. Qed.
  Lemma phi_mul u v : phi (u * v) = fp_mul (phi u) (phi v).
  Proof. apply fval_inj. unfold fp_mul. rewrite !fval_fof. apply Zmult_mod. Qed.
  Lemma phi_opp u : phi (- u) = fp_opp (phi u).
  Proof.
    apply fval_inj. unfold fp_opp. rewrite !fval_fof. replace (- u) with (0 - u) by ring.
    replace (- (u mod p)) with (0 - u mod p) by ring. now rewrite Zminus_mod_idemp_r.
  Qed.
  Lemma phi_red u : phi (red u) = phi u.
  Proof. apply fval_inj. rewrite !fval_fof. apply red_ok. Qed.
  Lemma phi_2 : phi 2 = fp_add (phi 1) (phi 1). Proof. exact (phi_add 1 1). Qed.

  Add Field FPF : (fp_theory p Hp H2).
  Section Root.
    Variable x : fp p.
    Hypothesis Hx : fadd K (fadd K (fmul K (fmul K x x) x) (fmul K (phi a) x)) (phi b) = f0 K.
    Definition ev (g : poly) : fp p :=
      let '(c0, c1, c2) := g in
      fadd K (fadd K (phi c0) (fmul K (phi c1) x)) (fmul K (phi c2) (fmul K x x)).
    Ltac phis := rewrite ?fmulz_spec, ?phi_red, ?phi_add, ?phi_sub, ?phi_mul, ?phi_opp, ?phi_red, ?phi_2,
                   ?phi_add, ?phi_sub, ?phi_mul, ?phi_opp.

    Lemma ev_mul g h : ev (pol_mul g h) = fmul K (ev g) (ev h).
    Proof.
      destruct g as [[g0 g1] g2], h as [[h0 h1] h2]. unfold pol_mul. cbv zeta. cbn [ev]. phis.
      cbn [Fp f0 fadd fmul] in *.
      match goal with |- ?L = ?R => transitivity (fp_sub R (fp_mul
        (fp_add (fp_add (fp_mul (phi g1) (phi h2)) (fp_mul (phi g2) (phi h1))) (fp_mul (fp_mul (phi g2) (phi h2)) x))
        (fp_add (fp_add (fp_mul (fp_mul x x) x) (fp_mul (phi a) x)) (phi b)))) end; [ring|].
      rewrite Hx. ring.
    Qed.
    Lemma ev_sqr g : ev (pol_sqr g) = fmul K (ev g) (ev g).
    Proof.
      destruct g as [[g0 g1] g2]. unfold pol_sqr. cbv zeta. cbn [ev]. phis. rewrite ?phi_2.
      cbn [Fp f0 fadd fmul] in *.
      match goal with |- ?L = ?R => transitivity (fp_sub R (fp_mul
        (fp_add (fp_add (fp_mul (phi g1) (phi g2)) (fp_mul (phi g2) (phi g1))) (fp_mul (fp_mul (phi g2) (phi g2)) x))
        (fp_add (fp_add (fp_mul (fp_mul x x) x) (fp_mul (phi a) x)) (phi b)))) end; [ring|].
      rewrite Hx. ring.
    Qed.
    Lemma ev_x g : ev (pol_x g) = fmul K (ev g) x.
    Proof.
      destruct g as [[g0 g1] g2]. unfold pol_x. cbv zeta. cbn [ev]. phis.
      cbn [Fp f0 fadd fmul] in *.
      match goal with |- ?L = ?R => transitivity (fp_sub R (fp_mul (phi g2)
        (fp_add (fp_add (fp_mul (fp_mul x x) x) (fp_mul (phi a) x)) (phi b)))) end; [ring|].
      rewrite Hx. ring.
    Qed.
    Lemma ev_pow e : fval (ev (pol_pow e)) = fval x ^ Z.pos e mod p.
    Proof.
      induction e as [e IH|e IH|]; cbn [pol_pow].
      - rewrite ev_x, ev_sqr. cbn [Fp fmul]. unfold fp_mul. rewrite !fval_fof, IH.
        rewrite <- Zmult_mod, Zmult_mod_idemp_l. f_equal.
        rewrite Pos2Z.inj_xI, Z.pow_add_r, Z.pow_twice_r by lia. lia.
      - rewrite ev_sqr. cbn [Fp fmul]. unfold fp_mul. rewrite !fval_fof, IH.
        rewrite <- Zmult_mod. f_equal. rewrite Pos2Z.inj_xO, Z.pow_twice_r. lia.
      - rewrite Z.pow_1_r, fval_mod. f_equal. cbn [ev]. cbn [Fp f0 f1 fadd fmul]. ring.
    Qed.
  End Root.

  (** [u] is a certificate: an inverse of x^p - x modulo the cubic *)
  Definition no_root_check (u : poly) : bool :=
    let '(g0, g1, g2) := pol_pow (Z.to_pos p) in
    let '(r0, r1, r2) := pol_mul u (g0, g1 - 1, g2) in
    (r0 mod p =? 1) && (r1 mod p =? 0) && (r2 mod p =? 0).
  Theorem no_root u : no_root_check u = true -> forall x : fp p,
    fadd K (fadd K (fmul K (fmul K x x) x) (fmul K (phi a) x)) (phi b) <> f0 K.
  Proof.
    intros C x Hx. unfold no_root_check in C.
    pose proof (ev_pow x Hx (Z.to_pos p)) as E. rewrite Z2Pos.id in E by lia.
    assert (F : fval x ^ p mod p = fval x).
    { destruct (Z.eq_dec (fval x) 0) as [E0|N0].
      - rewrite E0, Z.pow_0_l by lia. apply Z.mod_0_l. lia.
      - assert (PE : fval x ^ p = fval x * fval x ^ (p - 1)).
        { rewrite <- Z.pow_succ_r by lia. f_equal. lia. }
        rewrite PE.
        rewrite <- Zmult_mod_idemp_r, fermat, Z.mul_1_r; [apply fval_mod|exact Hp|].
        intros D. apply N0. rewrite <- fval_mod. apply Zdivide_mod in D. exact D. }
    rewrite F in E. apply fval_inj in E.
    destruct (pol_pow (Z.to_pos p)) as [[g0 g1] g2].
    pose proof (ev_mul x Hx u (g0, g1 - 1, g2)) as M.
    destruct (pol_mul u (g0, g1 - 1, g2)) as [[r0 r1] r2].
    apply andb_true_iff in C. destruct C as [C C2]. apply andb_true_iff in C. destruct C as [C0 C1].
    apply Z.eqb_eq in C0, C1, C2.
    assert (E0 : phi r0 = phi 1) by (apply fval_inj; rewrite !fval_fof, C0; symmetry; apply Z.mod_1_l; lia).
    assert (E1 : phi r1 = phi 0) by (apply fval_inj; now rewrite !fval_fof, C1).
    assert (E2 : phi r2 = phi 0) by (apply fval_inj; now rewrite !fval_fof, C2).
    cbn [ev] in M, E. rewrite E0, E1, E2, phi_sub in M.
    cbn [Fp f0 f1 fadd fmul] in M, E.
    assert (Z0 : fp_add (fp_add (phi g0) (fp_mul (fp_sub (phi g1) (phi 1)) x)) (fp_mul (phi g2) (fp_mul x x)) = phi 0).
    { transitivity (fp_sub (fp_add (fp_add (phi g0) (fp_mul (phi g1) x)) (fp_mul (phi g2) (fp_mul x x))) x); [ring|].
      rewrite E. ring. }
    rewrite Z0 in M.
    apply (F_1_neq_0 (fp_theory p Hp H2)).
    transitivity (fp_add (fp_add (phi 1) (fp_mul (phi 0) x)) (fp_mul (phi 0) (fp_mul x x))); [ring|].
    rewrite M. ring.
  Qed.
End Zops.

(** ** Multiples of a point by a chain of affine steps with certified slopes and quotients *)
Inductive step := Step (d : Z) (l1 x1 y1 q1 q2 q3 : Z) (l2 x2 y2 r1 r2 r3 : Z).

Section Chain.
  Variables (p : Z) (mp : Z -> Z) (a gx gy : Z).
  Definition dbl_check (x y l x3 y3 q1 q2 q3 : Z) : bool :=
    (2 * fmulz y l =? 3 * fmulz x x + a + mp q1) && (fmulz l l =? 2 * x + x3 + mp q2)
    && (fmulz l (x - x3) =? y + y3 + mp q3).
  Definition add_check (hy x y l x3 y3 q1 q2 q3 : Z) : bool :=
    (0 <=? x) && (x <? p) && negb (x =? gx)
    && (fmulz l (gx - x) =? hy - y + mp q1) && (fmulz l l =? x + gx + x3 + mp q2)
    && (fmulz l (x - x3) =? y + y3 + mp q3).
  (** d = 0: doubling only; d > 0: then add the point; d < 0: then subtract it *)
  Fixpoint aff_chain (ds : list step) (x y : Z) : option (Z * Z) :=
    match ds with
    | [] => Some (x, y)
    | Step d l1 x1 y1 q1 q2 q3 l2 x2 y2 r1 r2 r3 :: ds' =>
        if dbl_check x y l1 x1 y1 q1 q2 q3 then
          match d with
          | Z0 => aff_chain ds' x1 y1
          | Zpos _ => if add_check gy x1 y1 l2 x2 y2 r1 r2 r3 then aff_chain ds' x2 y2 else None
          | Zneg _ => if add_check (- gy) x1 y1 l2 x2 y2 r1 r2 r3 then aff_chain ds' x2 y2 else None
          end
        else None
    end.
  Fixpoint chain_val (ds : list step) (m : Z) : Z :=
    match ds with
    | [] => m
    | Step d _ _ _ _ _ _ _ _ _ _ _ _ :: ds' => chain_val ds' (2 * m + Z.sgn d)
    end.
  Definition chain_check (ds : list step) (m : Z) : bool :=
    match aff_chain ds gx gy with
    | Some (x, y) => (x =? gx) && ((y + gy) =? p) && (chain_val ds 1 =? m)
    | None => false
    end.

  Hypotheses (Hp : prime p) (H2 : 2 < p) (Hmp : forall q, mp q = q * p) (Hgx : 0 <= gx < p).
  Variable b : Z.
  Notation K := (Fp p Hp H2).
  Notation phi := (fof p).
  Hypothesis OK : curve_ok K (phi a) (phi b).
  Notation P := (Aff (phi gx) (phi gy)).
  Hypothesis Hon : on_curve K (phi a) (phi b) P.
  Notation zm := (zmul K (phi a)).
  Add Field FPC : (fp_theory p Hp H2).

  Lemma phi_mp q : phi (mp q) = phi 0.
  Proof. rewrite Hmp. apply fof_eq. rewrite Z_mod_mult. symmetry. apply Z.mod_0_l. lia. Qed.
  Lemma phi_3 : phi 3 = fp_add (fp_add (phi 1) (phi 1)) (phi 1).
  Proof. exact (eq_trans (phi_add p 2 1) (f_equal (fun t => fp_add t (phi 1)) (phi_2 p))). Qed.

  Ltac push H := apply (f_equal (fof p)) in H;
    rewrite ?fmulz_spec in H;
    repeat first [rewrite phi_mp in H|rewrite phi_mul in H|rewrite phi_add in H|rewrite phi_sub in H
                 |rewrite phi_opp in H|rewrite phi_2 in H|rewrite phi_3 in H].

  Lemma dbl_step x y l x3 y3 q1 q2 q3 : on_curve K (phi a) (phi b) (Aff (phi x) (phi y)) ->
    dbl_check x y l x3 y3 q1 q2 q3 = true ->
    ec_add K (phi a) (Aff (phi x) (phi y)) (Aff (phi x) (phi y)) = Aff (phi x3) (phi y3).
  Proof.
    intros On C. unfold dbl_check in C.
    apply andb_true_iff in C. destruct C as [C C3]. apply andb_true_iff in C. destruct C as [C1 C2].
    apply Z.eqb_eq in C1, C2, C3.
    push C1. push C2. push C3.
    pose proof (ec_y_nz K (phi a) (phi b) OK _ _ On) as Hy.
    assert (D : fp_add (phi y) (phi y) <> phi 0).
    { intros E. destruct OK as [O1 _].
      exact (dbl_nz _ _ _ _ _ _ _ _ _ (fp_theory p Hp H2) O1 (phi y) Hy E). }
    cbn [ec_add]. destruct (feq_dec K (phi x) (phi x)) as [_|N]; [|now elim N].
    destruct (feq_dec K (phi y) (fopp K (phi y))) as [E|_].
    { exfalso. apply D. cbn in E. rewrite E at 1. ring. }
    unfold ec_line. cbn [Fp f0 f1 fadd fmul fsub fopp fdiv finv].
    assert (L : fp_div (fp_add (fp_add (fp_add (fp_mul (phi x) (phi x)) (fp_mul (phi x) (phi x)))
                   (fp_mul (phi x) (phi x))) (phi a)) (fp_add (phi y) (phi y)) = phi l).
    { transitivity (fp_div (fp_mul (fp_add (phi y) (phi y)) (phi l)) (fp_add (phi y) (phi y))).
      - f_equal. transitivity (fp_mul (fp_add (phi 1) (phi 1)) (fp_mul (phi y) (phi l))); [|ring].
        rewrite C1. ring.
      - field. exact D. }
    rewrite L.
    assert (X3 : fp_sub (fp_sub (fp_mul (phi l) (phi l)) (phi x)) (phi x) = phi x3) by (rewrite C2; ring).
    rewrite X3. f_equal. rewrite C3. ring.
  Qed.
  Lemma add_step hy x y l x3 y3 q1 q2 q3 :
    add_check hy x y l x3 y3 q1 q2 q3 = true ->
    ec_add K (phi a) (Aff (phi x) (phi y)) (Aff (phi gx) (phi hy)) = Aff (phi x3) (phi y3).
  Proof.
    intros C. unfold add_check in C.
    repeat (apply andb_true_iff in C; let H := fresh "C" in destruct C as [C H]).
    apply negb_true_iff, Z.eqb_neq in C3. apply Z.leb_le in C. apply Z.ltb_lt in C4.
    apply Z.eqb_eq in C2, C1, C0.
    push C2. push C1. push C0.
    assert (N : phi x <> phi gx).
    { intros E. apply fof_eq in E. rewrite !Z.mod_small in E by lia. contradiction. }
    assert (D : fp_sub (phi gx) (phi x) <> phi 0).
    { intros E. apply N. transitivity (fp_sub (phi gx) (fp_sub (phi gx) (phi x))); [ring|].
      rewrite E. ring. }
    cbn [ec_add]. destruct (feq_dec K (phi x) (phi gx)) as [E|_]; [contradiction|].
    unfold ec_line. cbn [Fp f0 f1 fadd fmul fsub fopp fdiv finv].
    assert (L : fp_div (fp_sub (phi hy) (phi y)) (fp_sub (phi gx) (phi x)) = phi l).
    { transitivity (fp_div (fp_mul (phi l) (fp_sub (phi gx) (phi x))) (fp_sub (phi gx) (phi x))).
      - f_equal. rewrite C2. ring.
      - field. exact D. }
    rewrite L.
    assert (X3 : fp_sub (fp_sub (fp_mul (phi l) (phi l)) (phi x)) (phi gx) = phi x3) by (rewrite C1; ring).
    rewrite X3. f_equal. rewrite C0. ring.
  Qed.

  Lemma aff_chain_ok ds : forall x y m x' y', 1 <= m -> Aff (phi x) (phi y) = zm m P ->
    aff_chain ds x y = Some (x', y') ->
    1 <= chain_val ds m /\ Aff (phi x') (phi y') = zm (chain_val ds m) P.
  Proof.
    induction ds as [|[d l1 x1 y1 q1 q2 q3 l2 x2 y2 r1 r2 r3] ds IH]; intros x y m x' y' Hm HJ HC.
    { injection HC as <- <-. split; assumption. }
    cbn [aff_chain chain_val] in *.
    destruct (dbl_check x y l1 x1 y1 q1 q2 q3) eqn:ED; [|discriminate].
    assert (On : on_curve K (phi a) (phi b) (Aff (phi x) (phi y))).
    { rewrite HJ. apply (zmul_on K _ _ OK). exact Hon. }
    pose proof (dbl_step _ _ _ _ _ _ _ _ On ED) as HD. rewrite HJ in HD.
    rewrite <- (zmul_dbl K _ _ OK) in HD by (exact Hon || lia).
    destruct d as [|d|d]; cbn [Z.sgn].
    - apply (IH x1 y1 (2 * m + 0) x' y'); [lia| |exact HC]. rewrite Z.add_0_r. now symmetry.
    - destruct (add_check gy x1 y1 l2 x2 y2 r1 r2 r3) eqn:EA; [|discriminate].
      apply add_step in EA. rewrite <- HD in EA.
      apply (IH x2 y2 (2 * m + 1) x' y'); [lia| |exact HC].
      rewrite (zmul_add K _ _ OK), (zmul_1 K) by (exact Hon || lia). now symmetry.
    - destruct (add_check (- gy) x1 y1 l2 x2 y2 r1 r2 r3) eqn:EA; [|discriminate].
      apply add_step in EA. rewrite <- HD, phi_opp in EA.
      apply (IH x2 y2 (2 * m + -1) x' y'); [lia| |exact HC].
      change (2 * m + -1) with (2 * m - 1).
      rewrite (zmul_pred K _ _ OK) by (exact Hon || lia). now symmetry.
  Qed.

  (** the chain ends on the opposite of the point: then [m + 1]P is infinite *)
  Theorem chain_inf ds m : chain_check ds m = true -> zm (m + 1) P = Inf.
  Proof.
    intros C. unfold chain_check in C. destruct (aff_chain ds gx gy) as [[x y]|] eqn:E; [|discriminate].
    apply andb_true_iff in C. destruct C as [C CV]. apply andb_true_iff in C. destruct C as [CX CY].
    apply Z.eqb_eq in CX, CY, CV.
    destruct (aff_chain_ok ds gx gy 1 x y ltac:(lia) ltac:(now rewrite (zmul_1 K)) E) as [Hm EP].
    rewrite CV in EP, Hm. rewrite (zmul_add K _ _ OK), (zmul_1 K), <- EP by (exact Hon || lia).
    assert (EN : Aff (phi x) (phi y) = ec_neg K P).
    { cbn. rewrite CX. f_equal. replace y with (p - gy) by lia.
      rewrite phi_sub. apply fval_inj. unfold fp_sub, fp_opp. rewrite !fval_fof.
      rewrite Z_mod_same_full. reflexivity. }
    rewrite EN. rewrite (ec_add_comm K _ _ OK) by (exact Hon || exact (ec_neg_on K _ _ OK _ Hon)).
    apply (ec_add_neg K _ _ OK).
  Qed.
End Chain.

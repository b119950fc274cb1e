(** An endomorphism f of a curve with f^4 + 1 = f^2 on the points of prime order n: what follows when
    f(Q) is a multiple of Q, and when [m]Q + f(Q) = +- f(f(Q)). *)
From Coq Require Import Field Znumtheory.
From Verif Require Import Base BaseFacts SpecField SpecEC ProofEC ProofECMul.

(** horizontal chords: the three points with the same y on y^2 = x^3 + b *)
Section Rho.
  Context {F : Type} (K : field F).
  Add Field FKr : (f_theory K).
  Infix "+" := (fadd K). Infix "*" := (fmul K). Notation "- x" := (fopp K x).
  Notation nz_mul := (fun x y => @mul_nz F).
  Lemma mulz x y : x * y = f0 K -> y <> f0 K -> x = f0 K.
  Proof. intros E N. transitivity (x * y * finv K y); [field; exact N|]. rewrite E. ring. Qed.
  Lemma rho_rel c x y : y + y <> f0 K -> c * c * (c * c) + - (c * c) + f1 K = f0 K ->
    ec_add K (f0 K) (Aff (x * (c * c * (c * c)) * (c * c * (c * c))) y) (Aff x y) = Aff (x * (c * c * (c * c))) (- y).
  Proof.
    intros Hy Hc.
    assert (E8 : c * c * (c * c) * (c * c * (c * c)) + c * c * (c * c) + f1 K = f0 K).
    { transitivity ((c * c * (c * c) + - (c * c) + f1 K) * (c * c * (c * c) + c * c + f1 K)); [ring|]. rewrite Hc. ring. }
    set (o := c * c * (c * c)) in *. clearbody o. clear Hc c.
    assert (H3 : o * o = - o + - f1 K).
    { transitivity (o * o + o + f1 K + (- o + - f1 K)); [ring|]. rewrite E8. ring. }
    cbn [ec_add]. destruct (feq_dec K _ _) as [E|N].
    - destruct (feq_dec K y (- y)) as [C|_].
      { exfalso. apply Hy. rewrite C at 1. ring. }
      assert (X0 : x * o * o = x) by exact E.
      assert (Z0 : x * (o + (f1 K + f1 K)) = f0 K).
      { transitivity (x + - (x * (o * o)) + x * (o * o + o + f1 K)); [ring|]. rewrite E8.
        transitivity (x + - (x * o * o)); [ring|]. rewrite X0. ring. }
      assert (Z1 : x * (o + (f1 K + f1 K)) * (o + - f1 K) = x * (o * o + o + f1 K) + - (x + x + x)) by ring.
      rewrite Z0, E8 in Z1.
      assert (Z2 : x + x + x = f0 K).
      { transitivity (x * f0 K + - (x * f0 K + - (x + x + x))); [ring|]. rewrite <- Z1. ring. }
      unfold ec_line. cbv zeta. rewrite !X0.
      assert (S0 : fdiv K (x * x + x * x + x * x + f0 K) (y + y) = f0 K).
      { replace (x * x + x * x + x * x + f0 K) with ((x + x + x) * x) by ring. rewrite Z2. field. exact Hy. }
      rewrite S0. f_equal.
      + transitivity (- (x + x)); [ring|]. transitivity (x + - (x + x + x)); [ring|]. rewrite Z2.
        transitivity x; [ring|]. symmetry. transitivity (x * (o + (f1 K + f1 K)) + - (x + x + x) + x); [ring|]. rewrite Z0, Z2. ring.
      + ring.
    - unfold ec_line. cbv zeta.
      assert (D : fsub K x (x * o * o) <> f0 K).
      { intros C. apply N. symmetry. transitivity (fsub K x (x * o * o) + x * o * o); [ring|]. rewrite C. ring. }
      assert (S0 : fdiv K (fsub K y y) (fsub K x (x * o * o)) = f0 K) by (field; exact D).
      rewrite S0. f_equal.
      + transitivity (- (x * (o * o)) + - x); [ring|]. rewrite H3. ring.
      + ring.
  Qed.
End Rho.

Section Endo.
  Context {F : Type} (K : field F) (a b : F).
  Hypothesis OK : curve_ok K a b.
  Notation on := (on_curve K a b).
  Notation add := (ec_add K a). Notation neg := (ec_neg K).
  Notation zmul := (zmul K a).
  Variable n : Z. Hypothesis Hn : prime n.
  Variable f : point F -> point F.
  Hypothesis f_on : forall P, on P -> on (f P).
  Hypothesis f_add : forall P Q, on P -> on Q -> f (add P Q) = add (f P) (f Q).
  Hypothesis f_neg : forall P, f (neg P) = neg (f P).
  Hypothesis f_mul : forall k P, on P -> f (zmul k P) = zmul k (f P).
  Hypothesis f_rel : forall P, on P -> add (f (f (f (f P)))) P = f (f P).
  Variable Q : point F.
  Hypothesis HQ : on Q. Hypothesis Qn : zmul n Q = Inf. Hypothesis Qf : Q <> Inf.

  Lemma n_pos' : 0 < n. Proof. pose proof (prime_ge_2 n Hn). lia. Qed.
  Lemma endo_quartic s : 0 <= s -> f Q = zmul s Q -> (s * s * (s * s) + 1) mod n = (s * s) mod n.
  Proof.
    intros Hs E.
    assert (St : forall k, 0 <= k -> f (zmul k Q) = zmul (k * s) Q).
    { intros k Hk. rewrite f_mul by exact HQ. rewrite E. symmetry. now apply (zmul_mul K a b OK). }
    pose proof (f_rel Q HQ) as R. rewrite E in R. rewrite (St s Hs), (St (s * s)), (St (s * s * s)) in R by nia.
    replace (s * s * s * s) with (s * s * (s * s)) in R by ring.
    rewrite <- (zmul_1 K a Q) in R at 2. rewrite <- (zmul_add K a b OK) in R; [|exact HQ|nia|lia].
    apply (zmul_inj K a b OK n Q Hn HQ Qn Qf) in R; [exact R|nia|nia].
  Qed.
  Lemma f_order : zmul n (f Q) = Inf.
  Proof. rewrite <- f_mul, Qn by exact HQ. change Inf with (zmul 0 Q) at 1. rewrite f_mul by exact HQ. reflexivity. Qed.

  (** [m^2 + 1]Q + [2m] f(Q) = 0 *)
  Lemma endo_quad m : 0 <= m -> add (zmul m Q) (f Q) = f (f Q) \/ add (zmul m Q) (f Q) = neg (f (f Q)) ->
    add (zmul (m * m + 1) Q) (zmul (2 * m) (f Q)) = Inf.
  Proof.
    intros Hm H. pose proof (f_on Q HQ) as O1. pose proof (f_on _ O1) as O2. pose proof (f_on _ O2) as O3.
    pose proof (zmul_on K a b OK m Q HQ) as OmQ. pose proof (zmul_on K a b OK m _ O1) as Oma.
    pose proof (zmul_on K a b OK m _ O2) as Omb.
    set (q := Q) in *. set (aa := f q) in *. set (bb := f aa) in *.
    assert (G : forall d, on d -> d = add (add (zmul (m * m) q) (zmul m aa)) (add (zmul m aa) bb) -> add d q = bb ->
      add (zmul (m * m + 1) q) (zmul (2 * m) aa) = Inf).
    { intros d Od Ed E.
      pose proof (zmul_on K a b OK (m * m) q HQ) as Omm.
      rewrite (zmul_add K a b OK (m * m) 1 q HQ), (zmul_1 K a) by nia.
      replace (2 * m) with (m + m) by ring. rewrite (zmul_add K a b OK m m aa O1 Hm Hm).
      set (X := zmul (m * m) q) in *. set (Y := zmul m aa) in *.
      apply (ec_add_cancel K a b OK bb _ Inf O2); [|exact I|].
      { apply (ec_add_on K a b OK); apply (ec_add_on K a b OK); assumption. }
      rewrite (ec_add_inf_r K a). transitivity (add d q); [|exact E]. rewrite Ed. clear Ed E.
      assert (OXY : on (add X Y)) by (apply (ec_add_on K a b OK); assumption).
      assert (OYb : on (add Y bb)) by (apply (ec_add_on K a b OK); assumption).
      assert (OYY : on (add Y Y)) by (apply (ec_add_on K a b OK); assumption).
      assert (OXq : on (add X q)) by (apply (ec_add_on K a b OK); assumption).
      (* bb + ((X + q) + (Y + Y)) = ((X + Y) + (Y + bb)) + q *)
      rewrite (ec_add_comm K a b OK bb) by (try assumption; apply (ec_add_on K a b OK); assumption).
      rewrite (ec_add_comm K a b OK (add X q) (add Y Y)) by assumption.
      rewrite (ec_add_assoc K a b OK (add Y Y) (add X q) bb) by assumption.
      rewrite (ec_add_assoc K a b OK X q bb) by assumption.
      rewrite (ec_add_comm K a b OK q bb) by assumption.
      rewrite <- (ec_add_assoc K a b OK X bb q) by assumption.
      assert (OXb : on (add X bb)) by (apply (ec_add_on K a b OK); assumption).
      rewrite <- (ec_add_assoc K a b OK (add Y Y) (add X bb) q) by assumption. f_equal.
      rewrite (ec_add_assoc K a b OK Y Y (add X bb)) by assumption.
      rewrite (ec_add_comm K a b OK X Y) by assumption.
      rewrite (ec_add_assoc K a b OK Y X (add Y bb)) by assumption. f_equal.
      rewrite <- (ec_add_assoc K a b OK Y X bb), <- (ec_add_assoc K a b OK X Y bb) by assumption.
      rewrite (ec_add_comm K a b OK X Y) by assumption. reflexivity. }
    assert (Emb : add (zmul (m * m) q) (zmul m aa) = zmul m (add (zmul m q) aa)).
    { rewrite (zmul_mul K a b OK m m q HQ Hm Hm). unfold ProofECMul.zmul at 1 3. symmetry. exact (ec_mul_distr K a b OK _ _ _ OmQ O1). }
    destruct H as [H|H].
    - assert (Ec : f bb = add (zmul m aa) bb) by (rewrite <- H, f_add, f_mul by assumption; fold aa; fold bb; now rewrite H).
      assert (Ed : f (f bb) = add (zmul m bb) (add (zmul m aa) bb)) by (rewrite Ec, f_add, f_mul by assumption; fold bb; now rewrite Ec).
      apply (G (f (f bb))); [now repeat apply f_on| |exact (f_rel q HQ)].
      rewrite Ed, Emb, H. reflexivity.
    - assert (Eb : bb = neg (add (zmul m q) aa)) by (rewrite H; symmetry; apply (ec_neg_neg K a b OK)).
      assert (Ec : f bb = neg (add (zmul m aa) bb)) by (rewrite Eb, f_neg, f_add, f_mul by assumption; fold aa; fold bb; now rewrite <- Eb).
      assert (Ed : f (f bb) = neg (add (zmul m bb) (f bb))) by (rewrite Ec at 1; rewrite f_neg, f_add, f_mul by assumption; reflexivity).
      apply (G (f (f bb))); [now repeat apply f_on| |exact (f_rel q HQ)].
      rewrite Ed, Emb, H.
      assert (ON : on (neg (zmul m bb))) by (apply (ec_neg_on K a b OK); exact Omb).
      assert (Nadd : forall P R, on P -> on R -> neg (add P R) = add (neg P) (neg R)).
      { intros P R HP HR. pose proof (ec_neg_on K a b OK P HP) as NP. pose proof (ec_neg_on K a b OK R HR) as NR.
        pose proof (ec_add_on K a b OK P R HP HR) as OPR.
        symmetry. apply (ec_add_inf_neg K a b OK (add P R) _ OPR); [now apply (ec_add_on K a b OK)|].
        rewrite (ec_add_comm K a b OK P R) by assumption. rewrite (ec_add_assoc K a b OK R P) by (try assumption; now apply (ec_add_on K a b OK)).
        rewrite <- (ec_add_assoc K a b OK P (neg P)) by assumption. rewrite (ec_add_neg K a b OK), (ec_add_inf_l K a). apply (ec_add_neg K a b OK). }
      rewrite Nadd; [|exact Omb|exact O3].
      assert (Ezn : neg (zmul m bb) = zmul m (neg bb)).
      { symmetry. apply (ec_add_inf_neg K a b OK (zmul m bb)); [exact Omb|apply (zmul_on K a b OK); apply (ec_neg_on K a b OK); exact O2|].
        unfold ProofECMul.zmul. rewrite <- (ec_mul_distr K a b OK _ _ _ O2 (ec_neg_on K a b OK _ O2)), (ec_add_neg K a b OK). apply (ec_mul_inf K a). }
      rewrite Ezn. f_equal. rewrite Ec. apply (ec_neg_neg K a b OK).
  Qed.
  Lemma endo_scalar m v : 0 <= m -> m * m + 1 <= n -> 0 <= v -> (2 * m * v) mod n = 1 ->
    add (zmul m Q) (f Q) = f (f Q) \/ add (zmul m Q) (f Q) = neg (f (f Q)) ->
    f Q = zmul (v * (n - (m * m + 1))) Q.
  Proof.
    intros Hm Hmn Hv Ev H. apply endo_quad in H; [|exact Hm]. pose proof (f_on Q HQ) as O1.
    pose proof (zmul_on K a b OK (m * m + 1) Q HQ) as OX. pose proof (zmul_on K a b OK (2 * m) _ O1) as OY.
    assert (E : zmul (2 * m) (f Q) = zmul (n - (m * m + 1)) Q).
    { apply (ec_add_cancel K a b OK (zmul (m * m + 1) Q) _ _ OX OY); [now apply (zmul_on K a b OK)|].
      rewrite H, <- (zmul_add K a b OK _ _ Q HQ) by nia. replace (m * m + 1 + (n - (m * m + 1))) with n by ring. now rewrite Qn. }
    rewrite (zmul_mul K a b OK v _ Q HQ) by lia. rewrite <- E. rewrite <- (zmul_mul K a b OK v (2 * m) _ O1) by lia.
    rewrite <- (zmul_mod K a b OK n (f Q) Hn O1 f_order) by nia. rewrite (Z.mul_comm v), Ev. symmetry. apply (zmul_1 K a).
  Qed.
End Endo.

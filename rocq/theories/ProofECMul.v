(** Group-law consequences used by the curve code: the laws for any [field] record, multiples of a
    point, and arithmetic of multiples modulo a prime order. *)
From Coq Require Import Znumtheory.
From Verif Require Import Base BaseFacts SpecField SpecEC ProofEC.

Definition curve_ok {F} (K : field F) (a b : F) : Prop :=
  fadd K (f1 K) (f1 K) <> f0 K /\
  forall x, fadd K (fadd K (fmul K (fmul K x x) x) (fmul K a x)) b <> f0 K.

Section Laws.
  Context {F : Type} (K : field F) (a b : F).
  Hypothesis OK : curve_ok K a b.
  Notation on := (on_curve K a b).
  Notation add := (ec_add K a).
  Notation neg := (ec_neg K).
  Notation mul := (ec_mul K a).

  Lemma ec_add_on P Q : on P -> on Q -> on (add P Q).
  Proof. destruct K, OK as [O1 O2]. exact (add_on _ _ _ _ _ _ _ _ _ _ _ a b O1 O2 P Q). Qed.
  Lemma ec_neg_on P : on P -> on (neg P).
  Proof. destruct K. exact (neg_on _ _ _ _ _ _ _ _ _ _ f_theory a b P). Qed.
  Lemma ec_add_comm P Q : on P -> on Q -> add P Q = add Q P.
  Proof. destruct K. exact (add_comm _ _ _ _ _ _ _ _ _ _ f_theory a b P Q). Qed.
  Lemma ec_add_assoc P Q R : on P -> on Q -> on R -> add (add P Q) R = add P (add Q R).
  Proof. destruct K, OK as [O1 O2]. exact (add_assoc _ _ _ _ _ _ _ _ _ _ _ a b O1 O2 P Q R). Qed.
  Lemma ec_add_neg P : add P (neg P) = Inf.
  Proof. destruct K. exact (add_neg _ _ _ _ _ _ _ _ _ _ f_theory a P). Qed.
  Lemma ec_neg_neg P : neg (neg P) = P.
  Proof. destruct K. exact (neg_neg _ _ _ _ _ _ _ _ _ _ f_theory P). Qed.
  Lemma ec_add_inf_l P : add Inf P = P. Proof. reflexivity. Qed.
  Lemma ec_add_inf_r P : add P Inf = P. Proof. now destruct P. Qed.
  Lemma ec_y_nz x y : on (Aff x y) -> y <> f0 K.
  Proof. destruct K, OK as [O1 O2]. exact (on_y _ _ _ _ _ _ _ _ _ _ f_theory a b O2 x y). Qed.

  Lemma ec_add_inf_neg P Q : on P -> on Q -> add P Q = Inf -> Q = neg P.
  Proof.
    intros HP HQ E.
    rewrite <- (ec_add_inf_l Q), <- (ec_add_neg P), (ec_add_comm P (neg P)) by (try apply ec_neg_on; assumption).
    rewrite ec_add_assoc, E by (try apply ec_neg_on; assumption). apply ec_add_inf_r.
  Qed.
  Lemma ec_add_cancel P Q R : on P -> on Q -> on R -> add P Q = add P R -> Q = R.
  Proof.
    intros HP HQ HR E. pose proof (ec_neg_on P HP) as HN.
    rewrite <- (ec_add_inf_l Q), <- (ec_add_inf_l R), <- (ec_add_neg P), (ec_add_comm P (neg P)) by assumption.
    rewrite !ec_add_assoc, E by assumption. reflexivity.
  Qed.

  Lemma ec_mul_on k P : on P -> on (mul k P).
  Proof. intros H. induction k; cbn; [exact I|]. now apply ec_add_on. Qed.
  Lemma ec_mul_1 P : mul 1 P = P.
  Proof. cbn. apply ec_add_inf_r. Qed.
  Lemma ec_mul_add j k P : on P -> mul (j + k) P = add (mul j P) (mul k P).
  Proof.
    intros H. induction j as [|j IH]; [reflexivity|].
    cbn [Nat.add ec_mul]. rewrite IH. rewrite ec_add_assoc; [reflexivity|..]; try assumption;
      now apply ec_mul_on.
  Qed.
  Lemma ec_mul_inf k : mul k Inf = Inf.
  Proof. induction k; [reflexivity|]. cbn. exact IHk. Qed.
  Lemma ec_mul_mul j k P : on P -> mul (j * k) P = mul j (mul k P).
  Proof.
    intros H. induction j as [|j IH]; [reflexivity|].
    cbn [Nat.mul ec_mul]. rewrite ec_mul_add, IH by assumption. reflexivity.
  Qed.
  Lemma ec_mul_distr k P Q : on P -> on Q -> mul k (add P Q) = add (mul k P) (mul k Q).
  Proof.
    intros HP HQ. induction k as [|k IH]; [reflexivity|]. cbn [ec_mul].
    pose proof (ec_mul_on k P HP). pose proof (ec_mul_on k Q HQ).
    pose proof (ec_add_on _ _ HQ H0). pose proof (ec_add_on _ _ H H0).
    rewrite IH. rewrite (ec_add_assoc P Q), (ec_add_assoc P (mul k P)) by assumption. f_equal.
    rewrite <- !ec_add_assoc by assumption. f_equal. now apply ec_add_comm.
  Qed.

  (** multiples by a non-negative integer *)
  Definition zmul (k : Z) (P : point F) : point F := mul (Z.to_nat k) P.
  Lemma zmul_on k P : on P -> on (zmul k P). Proof. apply ec_mul_on. Qed.
  Lemma zmul_0 P : zmul 0 P = Inf. Proof. reflexivity. Qed.
  Lemma zmul_1 P : zmul 1 P = P. Proof. apply ec_mul_1. Qed.
  Lemma zmul_add j k P : on P -> 0 <= j -> 0 <= k -> zmul (j + k) P = add (zmul j P) (zmul k P).
  Proof. intros. unfold zmul. rewrite Z2Nat.inj_add by lia. now apply ec_mul_add. Qed.
  Lemma zmul_mul j k P : on P -> 0 <= j -> 0 <= k -> zmul (j * k) P = zmul j (zmul k P).
  Proof. intros. unfold zmul. rewrite Z2Nat.inj_mul by lia. now apply ec_mul_mul. Qed.
  Lemma zmul_dbl k P : on P -> 0 <= k -> zmul (2 * k) P = add (zmul k P) (zmul k P).
  Proof. intros. replace (2 * k) with (k + k) by lia. now apply zmul_add. Qed.
  Lemma zmul_pred k P : on P -> 1 <= k -> zmul (k - 1) P = add (zmul k P) (neg P).
  Proof.
    intros H Hk. replace k with ((k - 1) + 1) at 2 by lia. rewrite zmul_add, zmul_1 by (assumption || lia).
    rewrite ec_add_assoc, ec_add_neg, ec_add_inf_r; [reflexivity|..]; try assumption;
      [now apply zmul_on|now apply ec_neg_on].
  Qed.

  (** ** A point of prime order n *)
  Section Order.
    Variables (n : Z) (G : point F).
    Hypotheses (Hn : prime n) (HG : on G) (Gn : zmul n G = Inf) (G0 : G <> Inf).

    Lemma n_pos : 1 < n. Proof. destruct Hn. assumption. Qed.

    Lemma zmul_n_any k : 0 <= k -> zmul (k * n) G = Inf.
    Proof.
      intros Hk. pose proof n_pos. rewrite zmul_mul by (assumption || lia). rewrite Gn. apply ec_mul_inf.
    Qed.
    Lemma zmul_mod k : 0 <= k -> zmul (k mod n) G = zmul k G.
    Proof.
      intros Hk. pose proof n_pos. pose proof (Z.mod_pos_bound k n ltac:(lia)).
      pose proof (Z.div_pos k n Hk ltac:(lia)).
      rewrite (Z.div_mod k n) at 2 by lia.
      rewrite (Z.mul_comm n), zmul_add, zmul_n_any by (assumption || nia). reflexivity.
    Qed.
    Lemma zmul_inf_iff k : 0 <= k -> (zmul k G = Inf <-> k mod n = 0).
    Proof.
      intros Hk. pose proof n_pos as Pn. split.
      - intros E. destruct (Z.eq_dec (k mod n) 0) as [|N]; [assumption|exfalso].
        (* k is invertible modulo n *)
        assert (RP : rel_prime k n).
        { apply rel_prime_sym, prime_rel_prime; [assumption|]. intros D.
          apply N. now apply Zdivide_mod. }
        destruct (rel_prime_bezout _ _ RP) as [u v B].
        (* use u mod n >= 0 *)
        assert (E1 : zmul ((u mod n) * k) G = Inf).
        { pose proof (Z.mod_pos_bound u n ltac:(lia)).
          rewrite zmul_mul, E by (assumption || lia). apply ec_mul_inf. }
        assert (M : ((u mod n) * k) mod n = 1).
        { rewrite Zmult_mod_idemp_l. replace (u * k) with (1 + (- v) * n) by lia.
          rewrite Z_mod_plus_full. apply Z.mod_1_l. lia. }
        pose proof (Z.mod_pos_bound u n ltac:(lia)).
        rewrite <- zmul_mod, M, zmul_1 in E1 by nia. contradiction.
      - intros E. rewrite <- zmul_mod, E by assumption. reflexivity.
    Qed.
    Lemma zmul_neg k : 0 <= k <= n -> zmul (n - k) G = neg (zmul k G).
    Proof.
      intros Hk. apply ec_add_inf_neg; [now apply zmul_on|now apply zmul_on|].
      rewrite <- zmul_add by (assumption || lia). replace (k + (n - k)) with n by lia. exact Gn.
    Qed.
    Lemma zmul_inj j k : 0 <= j -> 0 <= k -> (zmul j G = zmul k G <-> j mod n = k mod n).
    Proof.
      intros Hj Hk. pose proof n_pos as Pn. split.
      - intros E.
        assert (HL : forall x y, 0 <= x -> 0 <= y -> x <= y -> zmul x G = zmul y G -> x mod n = y mod n).
        { clear j k E Hj Hk. intros x y Hx Hy L E. replace y with (x + (y - x)) in E by lia.
          rewrite zmul_add in E by (assumption || lia).
          rewrite <- (ec_add_inf_r (zmul x G)) in E at 1.
          apply ec_add_cancel in E; [|now apply zmul_on|exact I|now apply zmul_on].
          symmetry in E. apply zmul_inf_iff in E; [|lia].
          replace y with (x + (y - x)) by lia. rewrite Zplus_mod, E, Z.add_0_r, Zmod_mod. reflexivity. }
        destruct (Z.le_ge_cases j k); [now apply HL|symmetry; apply HL; now try symmetry].
      - intros E. rewrite <- (zmul_mod j), <- (zmul_mod k), E by assumption. reflexivity.
    Qed.
  End Order.
End Laws.

(** Powers in a field; the binomial theorem and (x + y)^p = x^p + y^p in characteristic p; the
    p-th power in quadratic and cubic extensions. *)
From Coq Require Import Field Znumtheory.
From Verif Require Import Base BaseFacts SpecField SpecTower SpecSM9 ProofFermat.

(** ** Binomial coefficients *)
Fixpoint binom (n k : nat) : nat :=
  match n, k with
  | _, O => 1
  | O, S _ => 0
  | S n', S k' => binom n' k' + binom n' (S k')
  end%nat.
Lemma binom_0 n : binom n 0 = 1%nat. Proof. destruct n; reflexivity. Qed.
Lemma binom_gt n k : (n < k)%nat -> binom n k = 0%nat.
Proof.
  revert k. induction n as [|n IH]; intros [|k] H; try lia; [reflexivity|]. cbn [binom].
  rewrite !IH by lia. reflexivity.
Qed.
Lemma binom_nn n : binom n n = 1%nat.
Proof. induction n as [|n IH]; [reflexivity|]. cbn [binom]. rewrite IH, binom_gt by lia. reflexivity. Qed.
Lemma binom_absorb n k : (S k * binom (S n) (S k) = S n * binom n k)%nat.
Proof.
  revert k. induction n as [|n IH]; intros k.
  - destruct k as [|k]; [reflexivity|]. cbn [binom]. destruct k; cbn; lia.
  - change (binom (S (S n)) (S k)) with (binom (S n) k + binom (S n) (S k))%nat.
    destruct k as [|k].
    + pose proof (IH 0%nat) as I. rewrite !binom_0 in *. lia.
    + pose proof (IH k) as I1. pose proof (IH (S k)) as I2.
      change (binom (S n) (S k)) with (binom n k + binom n (S k))%nat in *. nia.
Qed.
Lemma binom_prime p k : prime (Z.of_nat p) -> (0 < k < p)%nat -> (Z.of_nat p | Z.of_nat (binom p k)).
Proof.
  intros Hp Hk. destruct p as [|p]; [lia|]. destruct k as [|k]; [lia|].
  pose proof (binom_absorb p k) as A.
  assert (D : (Z.of_nat (S p) | Z.of_nat (S k) * Z.of_nat (binom (S p) (S k)))).
  { exists (Z.of_nat (binom p k)). rewrite <- Nat2Z.inj_mul, A, Nat2Z.inj_mul. ring. }
  apply prime_mult in D; [|exact Hp]. destruct D as [D|D]; [|exact D].
  apply Z.divide_pos_le in D; lia.
Qed.

Section Pow.
  Context {F : Type} (K : field F).
  Add Field FK : (f_theory K).
  Infix "+" := (fadd K). Infix "*" := (fmul K).
  Notation pw := (fpow_nat K).

  Lemma pw_add x a b : pw x (a + b) = pw x a * pw x b.
  Proof. induction a as [|a IH]; cbn [Nat.add fpow_nat]; [ring|]. rewrite IH. ring. Qed.
  Lemma pw_mulb x y n : pw (x * y) n = pw x n * pw y n.
  Proof. induction n as [|n IH]; cbn [fpow_nat]; [ring|]. rewrite IH. ring. Qed.
  Lemma pw_one n : pw (f1 K) n = f1 K.
  Proof. induction n as [|n IH]; cbn [fpow_nat]; [ring|]. rewrite IH. ring. Qed.
  Lemma pw_mul x a b : pw x (a * b) = pw (pw x a) b.
  Proof.
    induction b as [|b IH]; [rewrite Nat.mul_0_r; reflexivity|]. rewrite Nat.mul_succ_r, Nat.add_comm, pw_add, IH.
    reflexivity.
  Qed.
  Lemma pw_zero n : (0 < n)%nat -> pw (f0 K) n = f0 K.
  Proof. intros H. destruct n; [lia|]. cbn [fpow_nat]. ring. Qed.
  Lemma mul_nz x y : x <> f0 K -> y <> f0 K -> x * y <> f0 K.
  Proof.
    intros Hx Hy E. apply Hy. transitivity (finv K x * (x * y)); [field; exact Hx|]. rewrite E. ring.
  Qed.
  Lemma mul_cancel1 x y : x <> f0 K -> y * x = x -> y = f1 K.
  Proof. intros N E. transitivity ((y * x) * finv K x); [field; exact N|]. rewrite E. field. exact N. Qed.
  Lemma pw_nz x n : x <> f0 K -> pw x n <> f0 K.
  Proof.
    intros H. induction n as [|n IH]; cbn [fpow_nat]; [exact (F_1_neq_0 (f_theory K))|]. now apply mul_nz.
  Qed.

  Lemma fpow_0 x : fpow K x 0 = f1 K. Proof. reflexivity. Qed.
  Lemma fpow_1 x : fpow K x 1 = x. Proof. change (x * f1 K = x). ring. Qed.
  Lemma fpow_2 x : fpow K x 2 = x * x. Proof. change (x * (x * f1 K) = x * x). ring. Qed.
  Lemma fpow_add x a b : 0 <= a -> 0 <= b -> fpow K x (a + b) = fpow K x a * fpow K x b.
  Proof. intros Ha Hb. unfold fpow. rewrite Z2Nat.inj_add by assumption. apply pw_add. Qed.
  Lemma fpow_mul x a b : 0 <= a -> 0 <= b -> fpow K x (a * b) = fpow K (fpow K x a) b.
  Proof. intros Ha Hb. unfold fpow. rewrite Z2Nat.inj_mul by assumption. apply pw_mul. Qed.
  Lemma fpow_mulb x y n : fpow K (x * y) n = fpow K x n * fpow K y n.
  Proof. apply pw_mulb. Qed.
  Lemma fpow_one n : fpow K (f1 K) n = f1 K. Proof. apply pw_one. Qed.
  Lemma fpow_zero n : 0 < n -> fpow K (f0 K) n = f0 K.
  Proof. intros H. apply pw_zero. lia. Qed.
  Lemma fpow_nz x n : x <> f0 K -> fpow K x n <> f0 K. Proof. apply pw_nz. Qed.
  Lemma fpow_inv x n : x <> f0 K -> fpow K (finv K x) n * fpow K x n = f1 K.
  Proof.
    intros H. rewrite <- fpow_mulb. assert (E : finv K x * x = f1 K) by (field; exact H). rewrite E. apply fpow_one.
  Qed.

  (** ** Sums and the binomial theorem *)
  Fixpoint sumf (f : nat -> F) (n : nat) : F :=
    match n with O => f0 K | S m => f O + sumf (fun k => f (S k)) m end.
  Fixpoint nsm (n : nat) (x : F) : F := match n with O => f0 K | S m => x + nsm m x end.
  Lemma nsm_add a b x : nsm (a + b) x = nsm a x + nsm b x.
  Proof. induction a as [|a IH]; cbn [Nat.add nsm]; [ring|]. rewrite IH. ring. Qed.
  Lemma nsm_mul_l n x : nsm n x = nsm n (f1 K) * x.
  Proof. induction n as [|n IH]; cbn [nsm]; [ring|]. rewrite IH. ring. Qed.
  Lemma nsm_mul a b x : nsm (a * b) x = nsm a (nsm b x).
  Proof. induction a as [|a IH]; cbn [Nat.mul nsm]; [reflexivity|]. rewrite nsm_add, IH. reflexivity. Qed.
  Lemma sumf_ext f g n : (forall k, (k < n)%nat -> f k = g k) -> sumf f n = sumf g n.
  Proof.
    revert f g. induction n as [|n IH]; intros f g H; cbn [sumf]; [reflexivity|].
    rewrite (H 0%nat) by lia. f_equal. apply IH. intros k Hk. apply H. lia.
  Qed.
  Lemma sumf_add f g n : sumf (fun k => f k + g k) n = sumf f n + sumf g n.
  Proof. revert f g. induction n as [|n IH]; intros f g; cbn [sumf]; [ring|]. rewrite (IH (fun k => f (S k)) (fun k => g (S k))). ring. Qed.
  Lemma sumf_scale c f n : sumf (fun k => c * f k) n = c * sumf f n.
  Proof. revert f. induction n as [|n IH]; intros f; cbn [sumf]; [ring|]. rewrite (IH (fun k => f (S k))). ring. Qed.
  Lemma sumf_last f n : sumf f (S n) = sumf f n + f n.
  Proof.
    revert f. induction n as [|n IH]; intros f; [cbn [sumf]; ring|].
    change (sumf f (S (S n))) with (f O + sumf (fun k => f (S k)) (S n)). rewrite IH. cbn [sumf]. ring.
  Qed.
  Lemma sumf_0 f n : (forall k, (k < n)%nat -> f k = f0 K) -> sumf f n = f0 K.
  Proof.
    revert f. induction n as [|n IH]; intros f H; cbn [sumf]; [reflexivity|].
    rewrite (H 0%nat), IH by (try lia; intros; apply H; lia). ring.
  Qed.
  Definition bterm (z : F) (n k : nat) : F := nsm (binom n k) (pw z k).
  Lemma binomial z n : forall m, (n <= m)%nat -> sumf (bterm z n) (S m) = pw (f1 K + z) n.
  Proof.
    induction n as [|n IH]; intros m Hm.
    - cbn [sumf fpow_nat]. rewrite (sumf_0 (fun k => bterm z 0 (S k))) by (intros; reflexivity).
      unfold bterm. cbn [binom nsm fpow_nat]. ring.
    - destruct m as [|m]; [lia|].
      change (sumf (bterm z (S n)) (S (S m))) with
        ((f1 K + f0 K) + sumf (fun k => nsm (binom n k + binom n (S k)) (z * pw z k)) (S m)).
      change (pw (f1 K + z) (S n)) with ((f1 K + z) * pw (f1 K + z) n).
      transitivity (z * sumf (bterm z n) (S m) + sumf (bterm z n) (S (S m))).
      2: { rewrite (IH m), (IH (S m)) by lia. ring. }
      rewrite <- (sumf_scale z). change (sumf (bterm z n) (S (S m))) with (bterm z n 0 + sumf (fun k => bterm z n (S k)) (S m)).
      assert (E0 : bterm z n 0 = f1 K + f0 K) by (unfold bterm; rewrite binom_0; reflexivity). rewrite E0.
      assert (E : sumf (fun k => nsm (binom n k + binom n (S k)) (z * pw z k)) (S m)
                  = sumf (fun k => z * bterm z n k) (S m) + sumf (fun k => bterm z n (S k)) (S m)).
      { rewrite <- sumf_add. apply sumf_ext. intros k _. rewrite nsm_add. unfold bterm. cbn [fpow_nat].
        rewrite (nsm_mul_l (binom n k) (z * pw z k)), (nsm_mul_l (binom n k) (pw z k)). ring. }
      rewrite E. ring.
  Qed.

  (** ** Characteristic p *)
  Variable p : nat.
  Hypothesis (Hp : prime (Z.of_nat p)) (Hchar : nsm p (f1 K) = f0 K).
  Lemma nsm_char k x : nsm (p * k) x = f0 K.
  Proof. rewrite nsm_mul, nsm_mul_l, Hchar. ring. Qed.
  Lemma frob_1 z : pw (f1 K + z) p = f1 K + pw z p.
  Proof.
    pose proof (prime_ge_2 _ Hp). assert (E : p = S (pred p)) by lia.
    rewrite <- (binomial z p p) by lia. rewrite sumf_last. rewrite E at 2. cbn [sumf].
    rewrite (sumf_0 (fun k => bterm z p (S k))).
    - unfold bterm. rewrite binom_nn, binom_0. cbn [nsm fpow_nat]. ring.
    - intros k Hk. destruct (binom_prime p (S k) Hp ltac:(lia)) as [c Hc].
      assert (Ec : binom p (S k) = (p * Z.to_nat c)%nat).
      { apply Nat2Z.inj. rewrite Nat2Z.inj_mul, Z2Nat.id by nia. lia. }
      unfold bterm. rewrite Ec. apply nsm_char.
  Qed.
  Theorem frob_add x y : pw (x + y) p = pw x p + pw y p.
  Proof.
    pose proof (prime_ge_2 _ Hp). destruct (feq_dec K x (f0 K)) as [->|N].
    - assert (E : f0 K + y = y) by ring. rewrite E, pw_zero by lia. ring.
    - assert (E : x + y = x * (f1 K + y * finv K x)) by (field; exact N). rewrite E, pw_mulb, frob_1, pw_mulb.
      assert (E2 : pw (finv K x) p * pw x p = f1 K).
      { rewrite <- pw_mulb. assert (E1 : finv K x * x = f1 K) by (field; exact N). rewrite E1. apply pw_one. }
      transitivity (pw x p + pw y p * (pw (finv K x) p * pw x p)); [ring|]. rewrite E2. ring.
  Qed.
End Pow.
Arguments sumf {F}. Arguments nsm {F}.

(** ** Powers in extensions *)
Section QuadPow.
  Context {F : Type} (K : field F) (d : F) (Hd : forall x, fmul K x x <> d).
  Notation Q := (Quad K d Hd).
  Add Field FKQ : (f_theory K).
  Lemma q_eq (a b c e : F) : a = c -> b = e -> (a, b) = (c, e). Proof. now intros -> ->. Qed.
  Lemma q_emb_pow a n : fpow_nat Q (a, f0 K) n = (fpow_nat K a n, f0 K).
  Proof.
    induction n as [|n IH]; [reflexivity|]. cbn [fpow_nat]. rewrite IH.
    change (fmul Q) with (q_mul K d). unfold q_mul. cbn [fst snd]. apply q_eq; ring.
  Qed.
  Lemma q_emb_mul a b : fmul Q (a, f0 K) (b, f0 K) = (fmul K a b, f0 K).
  Proof. change (fmul Q) with (q_mul K d). unfold q_mul. cbn [fst snd]. apply q_eq; ring. Qed.
  Lemma q_nsm n : nsm Q n (f1 Q) = (nsm K n (f1 K), f0 K).
  Proof.
    induction n as [|n IH]; [reflexivity|]. cbn [nsm]. rewrite IH. change (fadd Q) with (q_add K).
    change (f1 Q) with (f1 K, f0 K). unfold q_add. cbn [fst snd]. apply q_eq; ring.
  Qed.
  Lemma q_split a b : (a, b) = fadd Q (a, f0 K) (fmul Q (b, f0 K) (f0 K, f1 K)).
  Proof.
    change (fadd Q) with (q_add K). change (fmul Q) with (q_mul K d). unfold q_add, q_mul. cbn [fst snd]. apply q_eq; ring.
  Qed.
  Lemma q_t_sq : fmul Q (f0 K, f1 K) (f0 K, f1 K) = (d, f0 K).
  Proof. change (fmul Q) with (q_mul K d). unfold q_mul. cbn [fst snd]. apply q_eq; ring. Qed.
  Lemma q_frob p h a b : prime (Z.of_nat p) -> nsm K p (f1 K) = f0 K -> p = (2 * h + 1)%nat ->
    fpow_nat Q (a, b) p = (fpow_nat K a p, fmul K (fpow_nat K b p) (fpow_nat K d h)).
  Proof.
    intros Hp Hc Eh. rewrite (q_split a b).
    rewrite (frob_add Q p Hp) by (rewrite q_nsm, Hc; reflexivity).
    rewrite pw_mulb, !q_emb_pow. rewrite Eh at 3. rewrite pw_add, pw_mul.
    assert (E2 : fpow_nat Q (f0 K, f1 K) 2 = (d, f0 K)).
    { cbn [fpow_nat]. change (f1 Q) with (f1 K, f0 K). change (fmul Q) with (q_mul K d). unfold q_mul. cbn [fst snd]. apply q_eq; ring. }
    rewrite E2, q_emb_pow. cbn [fpow_nat]. change (f1 Q) with (f1 K, f0 K).
    change (fadd Q) with (q_add K). change (fmul Q) with (q_mul K d). unfold q_add, q_mul. cbn [fst snd]. apply q_eq; ring.
  Qed.
End QuadPow.
Section CubicPow.
  Context {F : Type} (K : field F) (d : F) (Hd : forall x, fmul K (fmul K x x) x <> d).
  Notation Q := (Cubic K d Hd).
  Add Field FKC : (f_theory K).
  Lemma c_eq (a b c a' b' c' : F) : a = a' -> b = b' -> c = c' -> (a, b, c) = (a', b', c'). Proof. now intros -> -> ->. Qed.
  Lemma c_emb_pow a n : fpow_nat Q (a, f0 K, f0 K) n = (fpow_nat K a n, f0 K, f0 K).
  Proof.
    induction n as [|n IH]; [reflexivity|]. cbn [fpow_nat]. rewrite IH.
    change (fmul Q) with (c_mul K d). unfold c_mul. apply c_eq; ring.
  Qed.
  Lemma c_nsm n : nsm Q n (f1 Q) = (nsm K n (f1 K), f0 K, f0 K).
  Proof.
    induction n as [|n IH]; [reflexivity|]. cbn [nsm]. rewrite IH. change (fadd Q) with (c_add K).
    change (f1 Q) with (f1 K, f0 K, f0 K). unfold c_add. apply c_eq; ring.
  Qed.
  Notation t := (f0 K, f1 K, f0 K).
  Lemma c_split a b c : (a, b, c) = fadd Q (fadd Q (a, f0 K, f0 K) (fmul Q (b, f0 K, f0 K) t)) (fmul Q (c, f0 K, f0 K) (fmul Q t t)).
  Proof.
    change (fadd Q) with (c_add K). change (fmul Q) with (c_mul K d). unfold c_add, c_mul. apply c_eq; ring.
  Qed.
  Lemma c_frob p h a b c : prime (Z.of_nat p) -> nsm K p (f1 K) = f0 K -> p = (3 * h + 1)%nat ->
    fpow_nat Q (a, b, c) p = (fpow_nat K a p, fmul K (fpow_nat K b p) (fpow_nat K d h),
                              fmul K (fpow_nat K c p) (fmul K (fpow_nat K d h) (fpow_nat K d h))).
  Proof.
    intros Hp Hc Eh. rewrite (c_split a b c).
    rewrite !(frob_add Q p Hp) by (rewrite c_nsm, Hc; reflexivity).
    rewrite !pw_mulb, !c_emb_pow.
    assert (E3 : fpow_nat Q t 3 = (d, f0 K, f0 K)).
    { cbn [fpow_nat]. change (f1 Q) with (f1 K, f0 K, f0 K). change (fmul Q) with (c_mul K d). unfold c_mul. apply c_eq; ring. }
    assert (Et : fpow_nat Q t p = fmul Q (fpow_nat K d h, f0 K, f0 K) t).
    { rewrite Eh, pw_add, pw_mul, E3, c_emb_pow. cbn [fpow_nat]. change (f1 Q) with (f1 K, f0 K, f0 K).
      change (fmul Q) with (c_mul K d). unfold c_mul. apply c_eq; ring. }
    rewrite Et.
    change (fadd Q) with (c_add K). change (fmul Q) with (c_mul K d). unfold c_add, c_mul. apply c_eq; ring.
  Qed.
End CubicPow.

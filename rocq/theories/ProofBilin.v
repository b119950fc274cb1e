(** Symmetric 2-cocycles with values in a field, and the element that the R-ate pairing attaches to a
    point: it is additive in the point when the cocycle is compatible with an endomorphism, and depends
    on the cocycle up to coboundaries only. *)
From Coq Require Import Field.
From Coq Require Import Lia.
From Verif Require Import Base SpecField SpecTower SpecSM9 ProofIso ProofFrob.

Section Cocycle.
  Context {F : Type} (K : field F).
  Add Field FKco : (f_theory K).
  Infix "*:" := (fmul K) (at level 40, left associativity). Notation one := (f1 K). Infix "^." := (fpow K) (at level 30, right associativity).
  Variables (T : Type) (ok : T -> Prop) (add : T -> T -> T) (zer : T) (neg f : T -> T).
  Infix "[+]" := add (at level 50, left associativity). Notation "[-] x" := (neg x) (at level 35, right associativity).
  Hypothesis ok_add : forall A B, ok A -> ok B -> ok (A [+] B).
  Hypothesis ok_zer : ok zer.
  Hypothesis ok_neg : forall A, ok A -> ok ([-] A).
  Hypothesis ok_f : forall A, ok A -> ok (f A).
  Hypothesis comm : forall A B, ok A -> ok B -> A [+] B = B [+] A.
  Hypothesis assoc : forall A B C, ok A -> ok B -> ok C -> (A [+] B) [+] C = A [+] (B [+] C).
  Hypothesis zer_l : forall A, zer [+] A = A.
  Hypothesis zer_r : forall A, A [+] zer = A.
  Hypothesis add_neg : forall A, ok A -> A [+] ([-] A) = zer.
  Hypothesis f_add : forall A B, ok A -> ok B -> f (A [+] B) = f A [+] f B.
  Hypothesis f_neg : forall A, f ([-] A) = [-] (f A).
  Hypothesis neg_add : forall A B, ok A -> ok B -> [-] (A [+] B) = [-] A [+] [-] B.
  (** [k]Q *)
  Variable mul : Z -> T -> T.
  Hypothesis mul_0 : forall Q, mul 0 Q = zer.
  Hypothesis mul_succ : forall k Q, ok Q -> 0 <= k -> mul (k + 1) Q = mul k Q [+] Q.
  Lemma ok_mul_nat k Q : ok Q -> ok (mul (Z.of_nat k) Q).
  Proof.
    intros HQ. induction k as [|k IH]; [rewrite mul_0; exact ok_zer|].
    replace (Z.of_nat (S k)) with (Z.of_nat k + 1)%Z by lia. rewrite mul_succ by (assumption || lia). now apply ok_add.
  Qed.
  Lemma ok_mul k Q : 0 <= k -> ok Q -> ok (mul k Q).
  Proof. intros Hk HQ. rewrite <- (Z2Nat.id k Hk). now apply ok_mul_nat. Qed.
  Lemma mul_nat_add i j Q : ok Q -> mul (Z.of_nat (i + j)) Q = mul (Z.of_nat i) Q [+] mul (Z.of_nat j) Q.
  Proof.
    intros HQ. induction j as [|j IH]; [rewrite Nat.add_0_r, mul_0, zer_r; reflexivity|].
    replace (Z.of_nat (i + S j)) with (Z.of_nat (i + j) + 1)%Z by lia. replace (Z.of_nat (S j)) with (Z.of_nat j + 1)%Z by lia.
    rewrite !mul_succ, IH by (assumption || lia). apply assoc; try assumption; now apply ok_mul_nat.
  Qed.
  Lemma mul_distr k A B : ok A -> ok B -> mul (Z.of_nat k) (A [+] B) = mul (Z.of_nat k) A [+] mul (Z.of_nat k) B.
  Proof.
    intros HA HB. induction k as [|k IH]; [rewrite !mul_0, zer_r; reflexivity|].
    replace (Z.of_nat (S k)) with (Z.of_nat k + 1)%Z by lia. rewrite !mul_succ, IH by (try apply ok_add; assumption || lia).
    set (U := mul (Z.of_nat k) A). set (V := mul (Z.of_nat k) B). assert (OU : ok U) by now apply ok_mul_nat. assert (OV : ok V) by now apply ok_mul_nat.
    rewrite (assoc U V (A [+] B) OU OV (ok_add _ _ HA HB)), (assoc U A (V [+] B) OU HA (ok_add _ _ OV HB)). f_equal.
    rewrite <- (assoc V A B OV HA HB), <- (assoc A V B HA OV HB). f_equal. now apply comm.
  Qed.
  Variables (n p m : Z).
  Hypothesis p0 : 0 <= p. Hypothesis m0 : 0 <= m.

  Section One.
    Variable c : T -> T -> F.
    Hypothesis c_sym : forall A B, ok A -> ok B -> c A B = c B A.
    Hypothesis c_coc : forall A B C, ok A -> ok B -> ok C -> c A B *: c (A [+] B) C = c B C *: c A (B [+] C).
    Hypothesis c_zer : forall A, c zer A = one.
    Hypothesis c_neg : forall A, ok A -> c A ([-] A) = one.
    Lemma c4 a b x y : ok a -> ok b -> ok x -> ok y -> c a b *: c (a [+] b) (x [+] y) *: c x y = c a x *: c b y *: c (a [+] x) (b [+] y).
    Proof.
      intros Ha Hb Hx Hy.
      transitivity (c a b *: (c x y *: c (a [+] b) (x [+] y))); [ring|].
      rewrite <- (c_coc (a [+] b) x y (ok_add _ _ Ha Hb) Hx Hy).
      transitivity (c a b *: c (a [+] b) x *: c (a [+] b [+] x) y); [ring|].
      rewrite (c_sym a b Ha Hb), (comm a b Ha Hb), (c_coc b a x Hb Ha Hx).
      transitivity (c a x *: (c (a [+] x) b *: c (a [+] x [+] b) y)).
      { rewrite (c_sym b (a [+] x) Hb (ok_add _ _ Ha Hx)). rewrite (assoc b a x Hb Ha Hx), (comm b (a [+] x) Hb (ok_add _ _ Ha Hx)). ring. }
      rewrite (c_coc (a [+] x) b y (ok_add _ _ Ha Hx) Hb Hy). ring.
    Qed.
    Fixpoint fq (Q : T) (k : nat) : F :=
      match k with O => one | S k' => fq Q k' *: c (mul (Z.of_nat k') Q) Q end.
    Lemma fq_add Q i j : ok Q -> fq Q (i + j) = fq Q i *: fq Q j *: c (mul (Z.of_nat i) Q) (mul (Z.of_nat j) Q).
    Proof.
      intros HQ. induction j as [|j IH].
      - rewrite Nat.add_0_r. cbn [fq]. change (Z.of_nat 0) with 0. rewrite mul_0, (c_sym _ _ (ok_mul_nat i Q HQ) ok_zer), c_zer. ring.
      - rewrite <- plus_n_Sm. cbn [fq]. rewrite IH, (mul_nat_add i j Q HQ).
        transitivity (fq Q i *: fq Q j *: (c (mul (Z.of_nat i) Q) (mul (Z.of_nat j) Q) *: c (mul (Z.of_nat i) Q [+] mul (Z.of_nat j) Q) Q)); [ring|].
        rewrite (c_coc _ _ _ (ok_mul_nat i Q HQ) (ok_mul_nat j Q HQ) HQ).
        replace (Z.of_nat (S j)) with (Z.of_nat j + 1)%Z by lia. rewrite mul_succ by (assumption || lia). ring.
    Qed.
    Definition fz (k : Z) (Q : T) : F := fq Q (Z.to_nat k).
    Lemma fz_1 Q : fz 1 Q = one.
    Proof. change (fz 1 Q) with (one *: c (mul 0 Q) Q). rewrite mul_0, c_zer. ring. Qed.
    Lemma fz_dbl k Q : ok Q -> 0 <= k -> fz (2 * k) Q = fz k Q *: fz k Q *: c (mul k Q) (mul k Q).
    Proof.
      intros HQ Hk. unfold fz. replace (Z.to_nat (2 * k)) with (Z.to_nat k + Z.to_nat k)%nat by lia.
      rewrite fq_add by assumption. now rewrite Z2Nat.id by assumption.
    Qed.
    Lemma fz_succ k Q : ok Q -> 0 <= k -> fz (k + 1) Q = fz k Q *: c (mul k Q) Q.
    Proof.
      intros HQ Hk. unfold fz. replace (Z.to_nat (k + 1)) with (S (Z.to_nat k)) by lia. cbn [fq].
      now rewrite Z2Nat.id by assumption.
    Qed.
    Lemma fz_pred k Q : ok Q -> 1 <= k -> fz (k - 1) Q = fz k Q *: c (mul k Q) ([-] Q).
    Proof.
      intros HQ Hk. replace k with (k - 1 + 1)%Z at 2 3 by lia. rewrite fz_succ, mul_succ by (assumption || lia).
      set (U := mul (k - 1) Q). assert (OU : ok U) by (apply ok_mul; [lia|assumption]).
      transitivity (fz (k - 1) Q *: (c U Q *: c (U [+] Q) ([-] Q))); [|ring].
      rewrite (c_coc U Q ([-] Q) OU HQ (ok_neg _ HQ)), (c_neg Q HQ), (add_neg Q HQ), (c_sym U zer OU ok_zer), c_zer. ring.
    Qed.
    Definition er (Q : T) : F :=
      fz m Q *: c (mul m Q) (f Q) *: c (mul m Q [+] f Q) ([-] f (f Q)).
    Lemma fz_sum A B k : ok A -> ok B ->
      fz (Z.of_nat k) (A [+] B) *: c A B ^. Z.of_nat k = fz (Z.of_nat k) A *: fz (Z.of_nat k) B *: c (mul (Z.of_nat k) A) (mul (Z.of_nat k) B).
    Proof.
      intros HA HB. unfold fz. rewrite Nat2Z.id. induction k as [|k IH].
      - cbn [fq]. change (Z.of_nat 0) with 0. rewrite !mul_0, c_zer, fpow_0. ring.
      - cbn [fq]. replace (Z.of_nat (S k)) with (Z.of_nat k + 1)%Z by lia.
        rewrite fpow_add, fpow_1, !mul_succ, mul_distr by (assumption || lia).
        set (U := mul (Z.of_nat k) A) in *. set (V := mul (Z.of_nat k) B) in *.
        assert (OU : ok U) by now apply ok_mul_nat. assert (OV : ok V) by now apply ok_mul_nat.
        transitivity (fq (A [+] B) k *: c A B ^. Z.of_nat k *: (c (U [+] V) (A [+] B) *: c A B)); [ring|]. rewrite IH.
        pose proof (c4 U V A B OU OV HA HB) as E.
        transitivity (fq A k *: fq B k *: (c U V *: c (U [+] V) (A [+] B) *: c A B)); [ring|]. rewrite E. ring.
    Qed.
    Hypothesis c_nz : forall A B, ok A -> ok B -> c A B <> f0 K.
    Hypothesis c_n : forall A B, ok A -> ok B -> c A B ^. n = one.
    Hypothesis c_nn : forall A B, ok A -> ok B -> c ([-] A) ([-] B) *: c A B = one.
    Hypothesis c_f : forall A B, ok A -> ok B -> c (f A) (f B) = c A B ^. p.
    Definition closes (Q : T) : Prop := mul m Q [+] f Q [+] [-] f (f Q) = [-] f (f (f Q)).
    Variable j : Z.
    Hypothesis j0 : 0 <= j. Hypothesis n0 : 0 <= n.
    Hypothesis dvd : (m + p + p * (p * p) = p * p + n * j)%Z.
    Lemma c_ff A B : ok A -> ok B -> c (f (f A)) (f (f B)) = c A B ^. (p * p).
    Proof. intros HA HB. rewrite (c_f _ _ (ok_f _ HA) (ok_f _ HB)), (c_f _ _ HA HB), fpow_mul by assumption. reflexivity. Qed.
    Theorem er_add A B : ok A -> ok B -> closes A -> closes B -> er (A [+] B) = er A *: er B.
    Proof.
      intros HA HB CA CB. unfold er, closes in *.
      pose proof (fz_sum A B (Z.to_nat m) HA HB) as E0. rewrite Z2Nat.id in E0 by assumption.
      pose proof (mul_distr (Z.to_nat m) A B HA HB) as EM. rewrite Z2Nat.id in EM by assumption.
      rewrite EM. rewrite (f_add A B HA HB). rewrite (f_add (f A) (f B) (ok_f _ HA) (ok_f _ HB)).
      rewrite (neg_add (f (f A)) (f (f B)) (ok_f _ (ok_f _ HA)) (ok_f _ (ok_f _ HB))).
      assert (OA : ok (mul m A)) by now apply ok_mul. assert (OB : ok (mul m B)) by now apply ok_mul.
      pose proof (ok_f _ HA) as OfA. pose proof (ok_f _ HB) as OfB.
      pose proof (ok_f _ OfA) as OffA. pose proof (ok_f _ OfB) as OffB.
      pose proof (ok_neg _ OffA) as OnA. pose proof (ok_neg _ OffB) as OnB.
      pose proof (c4 (mul m A) (mul m B) (f A) (f B) OA OB OfA OfB) as E1.
      pose proof (c4 (mul m A [+] f A) (mul m B [+] f B) _ _ (ok_add _ _ OA OfA) (ok_add _ _ OB OfB) OnA OnB) as E2.
      rewrite CA, CB in E2.
      assert (ES : mul m A [+] mul m B [+] (f A [+] f B) = mul m A [+] f A [+] (mul m B [+] f B)).
      { rewrite (assoc _ _ _ OA OB (ok_add _ _ OfA OfB)), (assoc _ _ _ OA OfA (ok_add _ _ OB OfB)). f_equal.
        rewrite <- (assoc _ _ _ OB OfA OfB), <- (assoc _ _ _ OfA OB OfB). f_equal. now apply comm. }
      rewrite ES.
      pose proof (c_nn _ _ OffA OffB) as N2. rewrite (c_ff A B HA HB) in N2.
      pose proof (c_nn _ _ (ok_f _ OffA) (ok_f _ OffB)) as N3. rewrite (c_f _ _ OffA OffB), (c_ff A B HA HB) in N3.
      rewrite <- fpow_mul in N3 by (assumption || lia).
      pose proof (c_f _ _ HA HB) as F1.
      rewrite F1 in E1.
      pose proof (c_nz A B HA HB) as NZ. pose proof (c_n A B HA HB) as CN.
      assert (PW : c A B ^. m *: c A B ^. p *: c A B ^. (p * p * p) = c A B ^. (p * p)).
      { rewrite <- !fpow_add by lia. replace (m + p + p * p * p)%Z with (p * p + n * j)%Z by lia.
        rewrite (fpow_add K _ (p * p) (n * j)), (fpow_mul K _ n j), CN, fpow_one by lia. ring. }
      set (x := c A B) in *.
      set (v1 := c (mul m A [+] f A) (mul m B [+] f B)) in *. set (u := c ([-] f (f A)) ([-] f (f B))) in *.
      set (r := c ([-] f (f (f A))) ([-] f (f (f B)))) in *.
      set (z0 := fz m (A [+] B)) in *. set (z1 := fz m A) in *. set (z2 := fz m B) in *.
      set (s := c (mul m A) (mul m B)) in *. set (g0 := c (mul m A [+] mul m B) (f A [+] f B)) in *.
      set (g1 := c (mul m A) (f A)) in *. set (g2 := c (mul m B) (f B)) in *.
      set (h0 := c (mul m A [+] f A [+] (mul m B [+] f B)) ([-] f (f A) [+] [-] f (f B))) in *.
      set (h1 := c (mul m A [+] f A) ([-] f (f A))) in *. set (h2 := c (mul m B [+] f B) ([-] f (f B))) in *.
      assert (Nv : v1 <> f0 K) by (apply c_nz; now apply ok_add).
      assert (Ns : s <> f0 K) by now apply c_nz.
      set (a := x ^. m) in *. set (b := x ^. p) in *. set (d := x ^. (p * p)) in *. set (e := x ^. (p * p * p)) in *.
      assert (Nd : d <> f0 K) by (apply fpow_nz; exact NZ).
      clearbody x v1 u r z0 z1 z2 s g0 g1 g2 h0 h1 h2 a b d e.
      (* E0: z0 a = z1 z2 s;  E1: s g0 b = g1 g2 v1;  E2: v1 h0 u = h1 h2 r;  u d = 1;  r e = 1;  a b e = d *)
      apply (fcancel_r K _ _ (s *: v1 *: (a *: b))).
      { apply fnz_mul; [apply fnz_mul; assumption|]. intros Z0. apply Nd. rewrite <- PW, Z0. ring. }
      transitivity ((z0 *: a) *: (s *: g0 *: b) *: (v1 *: h0)); [ring|]. rewrite E0, E1.
      assert (EH : v1 *: h0 = h1 *: h2 *: r *: d).
      { transitivity (v1 *: h0 *: (u *: d)); [rewrite N2; ring|]. transitivity (v1 *: h0 *: u *: d); [ring|]. rewrite E2. ring. }
      rewrite EH.
      assert (ER : r *: d = a *: b). { rewrite <- PW. transitivity (a *: b *: (r *: e)); [ring|]. rewrite N3. ring. }
      transitivity (z1 *: z2 *: s *: (g1 *: g2 *: v1) *: (h1 *: h2) *: (r *: d)); [ring|]. rewrite ER. ring.
    Qed.
  End One.

  Section Three.
    Variables (c1 c2 c3 : T -> T -> F) (h : T -> F).
    Hypothesis cob : forall A B, ok A -> ok B -> c3 A B *: h A *: h B = c1 A B *: c2 A B *: h (A [+] B).
    Hypothesis h_zer : h zer = one.
    Hypothesis h_nz : forall A, ok A -> h A <> f0 K.
    Hypothesis h_neg : forall A, ok A -> h ([-] A) *: h A = one.
    Hypothesis h_f : forall A, ok A -> h (f A) = h A ^. p.
    Hypothesis h_n : forall A, ok A -> h A ^. n = one.
    Variable j : Z.
    Hypothesis j0 : 0 <= j. Hypothesis n0 : 0 <= n.
    Hypothesis dvd : (m + p + p * (p * p) = p * p + n * j)%Z.
    Lemma fz_cob Q k : ok Q -> fz c3 (Z.of_nat k) Q *: h Q ^. Z.of_nat k = fz c1 (Z.of_nat k) Q *: fz c2 (Z.of_nat k) Q *: h (mul (Z.of_nat k) Q).
    Proof.
      intros HQ. unfold fz. rewrite Nat2Z.id. induction k as [|k IH].
      - cbn [fq]. change (Z.of_nat 0) with 0. rewrite mul_0, h_zer, fpow_0. ring.
      - cbn [fq]. replace (Z.of_nat (S k)) with (Z.of_nat k + 1)%Z by lia.
        rewrite fpow_add, fpow_1, !mul_succ by (assumption || lia).
        set (U := mul (Z.of_nat k) Q) in *. assert (OU : ok U) by now apply ok_mul_nat.
        pose proof (cob U Q OU HQ) as E. apply (fcancel_r K _ _ (h U) (h_nz U OU)).
        transitivity (fq c3 Q k *: h Q ^. Z.of_nat k *: (c3 U Q *: h U *: h Q)); [ring|]. rewrite IH, E. ring.
    Qed.
    Theorem er_cob Q : ok Q -> closes Q -> er c3 Q = er c1 Q *: er c2 Q.
    Proof.
      intros HQ CQ. unfold er, closes in *.
      pose proof (fz_cob Q (Z.to_nat m) HQ) as E0. rewrite Z2Nat.id in E0 by assumption.
      assert (OQ : ok (mul m Q)) by now apply ok_mul. pose proof (ok_f _ HQ) as Of. pose proof (ok_f _ Of) as Off.
      pose proof (ok_neg _ Off) as On.
      pose proof (cob (mul m Q) (f Q) OQ Of) as E1. pose proof (cob (mul m Q [+] f Q) _ (ok_add _ _ OQ Of) On) as E2.
      rewrite CQ in E2. rewrite (h_f Q HQ) in E1.
      pose proof (h_neg _ Off) as N2. pose proof (h_neg _ (ok_f _ Off)) as N3.
      rewrite (h_f _ Off), (h_f _ Of), (h_f _ HQ) in N3. rewrite (h_f _ Of), (h_f _ HQ) in N2.
      rewrite <- !fpow_mul in N3 by (assumption || lia). rewrite ?Z.mul_assoc in N3. rewrite <- fpow_mul in N2 by assumption.
      pose proof (h_nz Q HQ) as NZ. pose proof (h_n Q HQ) as HN.
      assert (PW : h Q ^. m *: h Q ^. p *: h Q ^. (p * p * p) = h Q ^. (p * p)).
      { rewrite <- !fpow_add by lia. replace (m + p + p * p * p)%Z with (p * p + n * j)%Z by lia.
        rewrite (fpow_add K _ (p * p) (n * j)), (fpow_mul K _ n j), HN, fpow_one by lia. ring. }
      set (x := h Q) in *.
      set (h1 := h (mul m Q)) in *. set (h2 := h (mul m Q [+] f Q)) in *. set (u := h ([-] f (f Q))) in *. set (r := h ([-] f (f (f Q)))) in *.
      assert (Nh1 : h1 <> f0 K) by now apply h_nz. assert (Nh2 : h2 <> f0 K) by (apply h_nz; now apply ok_add).
      set (a := x ^. m) in *. set (b := x ^. p) in *. set (d := x ^. (p * p)) in *. set (e := x ^. (p * p * p)) in *.
      assert (Nd : d <> f0 K) by (apply fpow_nz; exact NZ).
      set (z3 := fz c3 m Q) in *. set (z1 := fz c1 m Q) in *. set (z2 := fz c2 m Q) in *.
      set (k3 := c3 (mul m Q) (f Q)) in *. set (k1 := c1 (mul m Q) (f Q)) in *. set (k2 := c2 (mul m Q) (f Q)) in *.
      set (g3 := c3 (mul m Q [+] f Q) _) in *. set (g1 := c1 (mul m Q [+] f Q) _) in *. set (g2 := c2 (mul m Q [+] f Q) _) in *.
      clearbody x h1 h2 u r a b d e z1 z2 z3 k1 k2 k3 g1 g2 g3.
      apply (fcancel_r K _ _ (h1 *: h2 *: (a *: b))).
      { apply fnz_mul; [apply fnz_mul; assumption|]. intros Z0. apply Nd. rewrite <- PW, Z0. ring. }
      transitivity ((z3 *: a) *: (k3 *: h1 *: b) *: (g3 *: h2)); [ring|]. rewrite E0, E1.
      assert (EG : g3 *: h2 = g1 *: g2 *: r *: d).
      { transitivity (g3 *: h2 *: (u *: d)); [rewrite N2; ring|]. transitivity (g3 *: h2 *: u *: d); [ring|]. rewrite E2. ring. }
      rewrite EG.
      assert (ER : r *: d = a *: b). { rewrite <- PW. transitivity (a *: b *: (r *: e)); [ring|]. rewrite N3. ring. }
      transitivity (z1 *: z2 *: h1 *: (k1 *: k2 *: h2) *: (g1 *: g2) *: (r *: d)); [ring|]. rewrite ER. ring.
    Qed.
  End Three.
End Cocycle.

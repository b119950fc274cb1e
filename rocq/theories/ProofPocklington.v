(** Pocklington's primality criterion. *)
From Coq Require Import Znumtheory Zpow_facts.
From Verif Require Import Base BaseFacts ProofFermat ProofFast.

Lemma prime_divisor n : 1 < n -> exists q, prime q /\ (q | n).
Proof.
  intros Hn. assert (H : forall k, (forall m, 1 < m < k -> exists q, prime q /\ (q | m)) ->
    1 < k -> exists q, prime q /\ (q | k)).
  { clear n Hn. intros k IH Hk. destruct (prime_dec k) as [P|P]; [exists k; split; [exact P|apply Z.divide_refl]|].
    destruct (not_prime_divide k Hk P) as (m & Hm & D). destruct (IH m Hm) as (q & Q & Dq).
    exists q. split; [exact Q|]. now apply Z.divide_trans with m. }
  assert (A : forall j : nat, forall k, 1 < k <= Z.of_nat j -> exists q, prime q /\ (q | k)).
  { induction j as [|j IH]; intros k Hk; [lia|]. apply H; [|lia]. intros m Hm. apply IH. lia. }
  apply (A (Z.to_nat n)). lia.
Qed.

(** powers modulo r *)
Lemma pow_mod_1 r b d k : 1 < r -> 0 <= d -> 0 <= k -> b ^ d mod r = 1 -> b ^ (d * k) mod r = 1.
Proof.
  intros Hr Hd Hk E. rewrite Z.pow_mul_r by assumption. rewrite Zpower_mod, E by lia.
  rewrite Z.pow_1_l by assumption. apply Z.mod_1_l. assumption.
Qed.

Lemma pow_gcd_1 r b d e : prime r -> 0 < d -> 0 < e -> b ^ d mod r = 1 -> b ^ e mod r = 1 ->
  b ^ (Z.gcd d e) mod r = 1.
Proof.
  intros Pr Hd He Ed Ee. assert (Hr : 1 < r) by (destruct Pr; assumption).
  destruct (Z.gcd_bezout d e (Z.gcd d e) eq_refl) as (u & v & B).
  (* make the coefficients non-negative: g + d * (|u| e') ... *)
  set (g := Z.gcd d e) in *.
  pose proof (Z.gcd_nonneg d e) as G0. fold g in G0.
  (* v e = g - u d ; choose m with u + m e >= 0 *)
  set (m := Z.abs u + Z.abs v).
  assert (Hm : 0 <= m) by (unfold m; lia).
  assert (Q2 : g + (d * (m * e) + e * (m * d)) = d * (u + m * e) + e * (v + m * d)).
  { rewrite <- B. ring. }
  assert (M1 : m * 1 <= m * e) by (apply Z.mul_le_mono_nonneg_l; lia).
  assert (M2 : m * 1 <= m * d) by (apply Z.mul_le_mono_nonneg_l; lia).
  assert (U : 0 <= u + m * e) by (unfold m in *; lia).
  assert (V : 0 <= v + m * d) by (unfold m in *; lia).
  assert (W1 : 0 <= m * e) by lia. assert (W2 : 0 <= m * d) by lia.
  clear M1 M2. clearbody m g.
  assert (L : (b ^ g * (b ^ (d * (m * e)) * b ^ (e * (m * d)))) mod r =
              (b ^ (d * (u + m * e)) * b ^ (e * (v + m * d))) mod r).
  { rewrite <- !Z.pow_add_r by (repeat apply Z.add_nonneg_nonneg; try apply Z.mul_nonneg_nonneg; lia). now rewrite Q2. }
  assert (X1 : b ^ (d * (m * e)) mod r = 1) by (apply pow_mod_1; (assumption || lia)).
  assert (X2 : b ^ (e * (m * d)) mod r = 1) by (apply pow_mod_1; (assumption || lia)).
  assert (X3 : b ^ (d * (u + m * e)) mod r = 1) by (apply pow_mod_1; (assumption || lia)).
  assert (X4 : b ^ (e * (v + m * d)) mod r = 1) by (apply pow_mod_1; (assumption || lia)).
  rewrite (Zmult_mod (b ^ (d * (u + m * e)))), X3, X4 in L.
  rewrite <- Zmult_mod_idemp_r, (Zmult_mod (b ^ (d * (m * e)))), X1, X2 in L.
  replace ((1 * 1) mod r) with 1 in L by (symmetry; apply Z.mod_1_l; assumption).
  rewrite Z.mul_1_r in L. exact L.
Qed.

Theorem pocklington N F b : 1 < N -> 1 < F -> N <= F * F -> b ^ F mod N = 1 ->
  (forall q, prime q -> (q | F) -> exists u, ((b ^ (F / q) - 1) * u) mod N = 1) -> prime N.
Proof.
  intros HN HF HS E HQ.
  assert (Key : forall r, prime r -> (r | N) -> F < r).
  { intros r Pr [c Dr]. assert (Hr : 1 < r) by (destruct Pr; assumption).
    assert (MR : forall x, x mod N = 1 -> x mod r = 1).
    { intros x Hx. rewrite (Z.div_mod x N) by lia. rewrite Hx.
      replace (N * (x / N) + 1) with (1 + (c * (x / N)) * r) by (rewrite Dr; ring).
      rewrite Z_mod_plus_full. apply Z.mod_1_l. assumption. }
    pose proof (MR _ E) as Er.
    assert (Nb : b mod r <> 0).
    { intros Z0. rewrite Zpower_mod in Er by lia. rewrite Z0 in Er. rewrite Z.pow_0_l in Er by lia.
      rewrite Z.mod_0_l in Er by lia. discriminate. }
    pose proof (fermat r b Pr ltac:(intros Db; apply Nb; now apply Zdivide_mod)) as Fm.
    pose proof (pow_gcd_1 r b (r - 1) F Pr ltac:(lia) ltac:(lia) Fm Er) as Eg.
    set (g := Z.gcd (r - 1) F) in *.
    assert (Dg : (g | F)) by apply Z.gcd_divide_r.
    assert (Dg1 : (g | r - 1)) by apply Z.gcd_divide_l.
    assert (G1 : 0 < g).
    { pose proof (Z.gcd_nonneg (r - 1) F). fold g in H. destruct (Z.eq_dec g 0) as [Z0|]; [|lia].
      unfold g in Z0. apply Z.gcd_eq_0_r in Z0. lia. }
    destruct (Z.eq_dec g F) as [EF|NF].
    - rewrite EF in Dg1. apply Z.divide_pos_le in Dg1; lia.
    - exfalso. destruct Dg as [k Dk].
      assert (Hk0 : 0 < k) by (clear - Dk G1 HF; nia).
      assert (Hk1 : k <> 1) by (clear - Dk NF; intros ->; lia).
      assert (Hk : 1 < k) by (clear - Hk0 Hk1; lia).
      destruct (prime_divisor k Hk) as (q & Pq & [j Dj]).
      assert (Hq : 1 < q) by (destruct Pq; assumption).
      assert (Dq : (q | F)) by (exists (j * g); rewrite Dk, Dj; ring).
      destruct (HQ q Pq Dq) as [u Hu].
      assert (FQ : F / q = g * j).
      { rewrite Dk, Dj. replace (j * q * g) with ((g * j) * q) by ring. apply Z.div_mul. clear - Hq; lia. }
      assert (Hj : 0 <= j) by (clear - Dj Hq Hk; nia).
      pose proof (pow_mod_1 r b g j Hr ltac:(lia) Hj Eg) as EJ. rewrite <- FQ in EJ.
      apply MR in Hu. rewrite Z.mul_comm, <- Zmult_mod_idemp_r in Hu.
      rewrite Zminus_mod, EJ, (Z.mod_1_l r), Z.sub_diag, Z.mod_0_l, Z.mul_0_r, Z.mod_0_l in Hu by lia.
      discriminate. }
  destruct (prime_dec N) as [P|P]; [exact P|exfalso].
  destruct (not_prime_divide N HN P) as (x & Hx & [y Dy]).
  assert (Hy : 1 < y) by (clear - Dy Hx; nia).
  destruct (prime_divisor x ltac:(lia)) as (r & Pr & Rx).
  destruct (prime_divisor y Hy) as (s & Ps & Sy).
  pose proof (Key r Pr (Z.divide_trans _ _ _ Rx ltac:(exists y; exact Dy))) as K1.
  assert (DN : (y | N)) by (exists x; rewrite Dy at 1; apply Z.mul_comm).
  pose proof (Key s Ps (Z.divide_trans _ _ _ Sy DN)) as K2.
  apply Z.divide_pos_le in Rx; [|lia]. apply Z.divide_pos_le in Sy; [|lia].
  clear - K1 K2 Rx Sy Dy HS HF. nia.
Qed.

Lemma prime_div_eq q r : prime q -> 1 < r -> (r | q) -> r = q.
Proof.
  intros P Hr D. assert (1 < q) by (destruct P; assumption).
  destruct (prime_divisors q P r D) as [E|[E|[E|E]]]; lia.
Qed.

(** ** Checked certificates *)
(** one prime factor *)
Lemma pock1 N q c red u : (forall x, red x mod N = x mod N) -> prime (Zpos q) ->
  forall a : Z,
  1 < N -> N <= Zpos q * Zpos q ->
  (let b := fpow red a c in
   ((fpow red b q - 1) mod N =? 0) && ((fmulz (b - 1) u - 1) mod N =? 0)) = true -> prime N.
Proof.
  intros R Pq a HN HS C. cbv zeta in C. apply andb_prop in C. destruct C as [C1 C2].
  apply Z.eqb_eq in C1. apply Z.eqb_eq in C2. rewrite fmulz_spec in C2.
  assert (Hq : 1 < Zpos q) by (destruct Pq; assumption).
  assert (M1 : forall x, (x - 1) mod N = 0 -> x mod N = 1).
  { intros x Hx. replace x with ((x - 1) + 1) by lia. rewrite Zplus_mod, Hx, Z.add_0_l, Zmod_mod.
    apply Z.mod_1_l. exact HN. }
  apply (pocklington N (Zpos q) (fpow red a c)); [exact HN|exact Hq|exact HS|..].
  - apply M1 in C1. rewrite (fpow_spec N red R) in C1. exact C1.
  - intros r Pr D. assert (r = Zpos q).
    { apply prime_div_eq; [exact Pq|destruct Pr; assumption|exact D]. }
    subst r. rewrite Z.div_same by lia. rewrite Z.pow_1_r. exists u. now apply M1.
Qed.

(** two prime factors *)
Lemma pock2 N q1 q2 c red u1 u2 : (forall x, red x mod N = x mod N) -> prime (Zpos q1) -> prime (Zpos q2) ->
  forall a : Z,
  1 < N -> N <= (Zpos q1 * Zpos q2) * (Zpos q1 * Zpos q2) ->
  (let b := fpow red a c in
   let b1 := fpow red b q1 in let b2 := fpow red b q2 in
   ((fpow red b1 q2 - 1) mod N =? 0) && ((fmulz (b1 - 1) u1 - 1) mod N =? 0)
   && ((fmulz (b2 - 1) u2 - 1) mod N =? 0)) = true -> prime N.
Proof.
  intros R P1 P2 a HN HS C. cbv zeta in C. apply andb_prop in C. destruct C as [C C3].
  apply andb_prop in C. destruct C as [C1 C2].
  apply Z.eqb_eq in C1. apply Z.eqb_eq in C2. apply Z.eqb_eq in C3. rewrite fmulz_spec in C2, C3.
  assert (H1 : 1 < Zpos q1) by (destruct P1; assumption).
  assert (H2 : 1 < Zpos q2) by (destruct P2; assumption).
  assert (M1 : forall x, (x - 1) mod N = 0 -> x mod N = 1).
  { intros x Hx. replace x with ((x - 1) + 1) by lia. rewrite Zplus_mod, Hx, Z.add_0_l, Zmod_mod.
    apply Z.mod_1_l. exact HN. }
  set (b := fpow red a c) in *.
  assert (PW : forall x e, (fpow red x e - x ^ Zpos e) mod N = 0).
  { intros x e. rewrite Zminus_mod, (fpow_spec N red R), Z.sub_diag. apply Z.mod_0_l. lia. }
  assert (MU : forall x q u, ((fpow red x q - 1) * u - 1) mod N = 0 -> ((x ^ Zpos q - 1) * u) mod N = 1).
  { intros x q u Hu. apply M1. rewrite <- Hu.
    replace ((fpow red x q - 1) * u - 1) with (((x ^ Zpos q - 1) * u - 1) + (fpow red x q - x ^ Zpos q) * u) by ring.
    rewrite (Zplus_mod _ ((fpow red x q - x ^ Zpos q) * u)).
    rewrite (Zmult_mod (fpow red x q - x ^ Zpos q)), PW, Z.mul_0_l, Z.mod_0_l, Z.add_0_r, Zmod_mod by lia.
    reflexivity. }
  apply (pocklington N (Zpos q1 * Zpos q2) b); [exact HN|clear - H1 H2; nia|exact HS|..].
  - apply M1 in C1. rewrite (fpow_spec N red R), Zpower_mod, (fpow_spec N red R), <- Zpower_mod in C1 by lia.
    rewrite <- Z.pow_mul_r in C1 by lia. exact C1.
  - intros r Pr D. assert (Hr : 1 < r) by (destruct Pr; assumption).
    destruct (prime_mult r Pr _ _ D) as [D1|D1].
    + assert (r = Zpos q1) by (apply prime_div_eq; assumption). subst r.
      rewrite Z.mul_comm, Z.div_mul by lia. exists u2. now apply MU.
    + assert (r = Zpos q2) by (apply prime_div_eq; assumption). subst r.
      rewrite Z.div_mul by lia. exists u1. now apply MU.
Qed.

(** trial division, for the leaves *)
Fixpoint no_div (N : Z) (k : nat) (d : Z) : bool :=
  match k with O => true | S k' => negb (N mod d =? 0) && no_div N k' (d + 1) end.
Lemma prime_trial N k : 1 < N -> N < (Z.of_nat k + 2) * (Z.of_nat k + 2) -> no_div N k 2 = true -> prime N.
Proof.
  intros HN HS C.
  assert (A : forall j d, no_div N j d = true -> forall x, d <= x < d + Z.of_nat j -> N mod x <> 0).
  { induction j as [|j IH]; intros d Cd x Hx; [lia|]. cbn [no_div] in Cd. apply andb_prop in Cd.
    destruct Cd as [Cd1 Cd2]. destruct (Z.eq_dec x d) as [->|]; [|apply (IH (d + 1)); [assumption|lia]].
    apply negb_true_iff, Z.eqb_neq in Cd1. exact Cd1. }
  specialize (A k 2 C).
  destruct (prime_dec N) as [P|P]; [exact P|exfalso].
  destruct (not_prime_divide N HN P) as (x & Hx & [y Dy]).
  assert (Hy : 1 < y < N) by (clear - Dy Hx; nia).
  destruct (Z.le_gt_cases x y).
  - apply (A x); [clear - Dy Hx Hy HS H; nia|]. rewrite Dy. apply Z.mod_mul. lia.
  - apply (A y); [clear - Dy Hx Hy HS H; nia|]. rewrite Dy, Z.mul_comm. apply Z.mod_mul. lia.
Qed.

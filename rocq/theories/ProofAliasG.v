(** Scalar multiplication on memory. *)
From Verif Require Import Base BaseFacts ModelNumber ModelNumberX64 ModelMont ModelAlias SpecAlias ModelEC ModelSM2 ModelSM9 ModelAliasF.
From Verif Require Import ModelAliasG SpecAliasF SpecAliasG ProofAliasF ProofAliasF4.

Lemma keep {A} k (get : mem -> nat -> A) sp r n m m' a : local_get k get -> frame sp r n m m' ->
  (a + k <= sp)%nat -> apart n r k a -> get m' a = get m a.
Proof. intros Hl F H1 H2. apply Hl. intros q Q1 Q2. unfold apart in H2. apply F; lia. Qed.
Lemma frame_at sp r n m m' q : frame sp r n m m' -> (q < sp)%nat -> (q < r \/ r + n <= q)%nat -> m' q = m q.
Proof. intros F H1 H2. exact (F q H1 H2). Qed.

Section Mul.
  Context {A : Type} (Op : fops A).
  Variables (w : Z) (k : nat) (vdbl : jac A -> jac A) (fa : mem -> nat -> aff A) (fj : mem -> nat -> jac A) (P : op -> proc)
    (neg dbl add normal to_a : proc) (is_inf : mem -> nat -> bool) (equal : nat -> list nat -> mem -> mem * bool) (L : numlib).
  Hypothesis HP : points_in_place w k Op vdbl fa fj (a_neg_m k P) neg dbl add normal (j_cpy_m k P) (j_set_inf_m k P)
    (j_from_a_m k P) to_a (j_add_a_m k P) is_inf equal.
  Hypothesis La : local_get (2 * k) fa.
  Hypothesis Lj : local_get (3 * k) fj.
  Variables (sp p : nat) (m0 : mem).
  Hypothesis Hp : (p + 2 * k <= sp)%nat.
  Notation PV := (fa m0 p).
  Notation PN := (a_neg Op (fa m0 p)).
  Definition minv (m : mem) (v : jac A) : Prop :=
    fj m (mulT sp) = v /\ fa m (mulPn k sp) = PN /\ fa m p = PV /\ words w m /\ (forall q, (q < sp)%nat -> m q = m0 q).
  (** a call that writes T only *)
  Lemma minv_T m m' v v' : minv m v -> fj m' (mulT sp) = v' -> frame (mulSp k sp) (mulT sp) (3 * k) m m' -> words w m' -> minv m' v'.
  Proof.
    intros (I1 & I2 & I3 & I4 & I5) E F W. unfold minv, mulT, mulPn, mulSp in *. split; [exact E|].
    split. { rewrite <- I2. apply (keep _ _ _ _ _ _ _ _ La F); [lia|unfold apart; lia]. }
    split. { rewrite <- I3. apply (keep _ _ _ _ _ _ _ _ La F); [lia|unfold apart; lia]. }
    split; [exact W|]. intros q Hq. rewrite <- I5 by exact Hq. apply F; lia.
  Qed.
  Lemma minv_dbl m v : minv m v -> minv (dbl (mulSp k sp) (mulT sp) [mulT sp] m) (vdbl v).
  Proof.
    intros I. pose proof I as (I1 & _ & _ & I4 & _). destruct HP as (_ & _ & Hd & _).
    destruct (Hd (mulSp k sp) (mulT sp) [mulT sp] m eq_refl) as (E & F & W).
    { unfold mulT, mulSp. lia. }
    { constructor; [|constructor]. split; [unfold mulT, mulSp; lia|left; reflexivity]. }
    { exact I4. }
    apply (minv_T _ _ _ _ I); [|exact F|exact W]. rewrite E. cbn [map nth]. now rewrite I1.
  Qed.
  Lemma minv_add m v q : minv m v -> q = p \/ q = mulPn k sp ->
    minv (j_add_a_m k P (mulSp k sp) (mulT sp) [mulT sp; q] m) (j_add_a Op v (if (q =? p)%nat then PV else PN)).
  Proof.
    intros I Hq. pose proof I as (I1 & I2 & I3 & I4 & _). destruct HP as (_ & _ & _ & _ & _ & _ & _ & _ & _ & Haa & _).
    destruct (Haa (mulSp k sp) (mulT sp) (mulT sp) q m) as (E & F & W).
    { unfold mulT, mulSp. lia. } { unfold mulT, mulSp. lia. }
    { unfold mulPn, mulSp in *. destruct Hq as [->| ->]; lia. }
    { left. reflexivity. }
    { right. unfold mulT, mulPn in *. destruct Hq as [->| ->]; lia. }
    { exact I4. }
    apply (minv_T _ _ _ _ I); [|exact F|exact W]. rewrite E, I1. f_equal.
    destruct (Nat.eqb_spec q p) as [->|N]; [exact I3|]. destruct Hq as [->| ->]; [contradiction|exact I2].
  Qed.
  Lemma minv_add_p m v : minv m v -> minv (j_add_a_m k P (mulSp k sp) (mulT sp) [mulT sp; p] m) (j_add_a Op v PV).
  Proof. intros I. pose proof (minv_add m v p I (or_introl eq_refl)) as Q. now rewrite Nat.eqb_refl in Q. Qed.
  Lemma minv_add_n m v : (0 < k)%nat -> minv m v -> minv (j_add_a_m k P (mulSp k sp) (mulT sp) [mulT sp; mulPn k sp] m) (j_add_a Op v PN).
  Proof.
    intros Hk I. pose proof (minv_add m v _ I (or_intror eq_refl)) as Q. destruct (Nat.eqb_spec (mulPn k sp) p) as [E|N]; [|exact Q].
    unfold mulPn in E. lia.
  Qed.
  Hypothesis Hk : (0 < k)%nat.

  Definition step_ok (x : res mem) (v : res (jac A)) : Prop :=
    match v with Ok y => exists m', x = Ok m' /\ minv m' y | Throw => x = Throw | UB => x = UB end.
  Lemma mul_step_ok e e3 i m v : minv m v -> step_ok (mul_step_m k P dbl L sp p e e3 i m) (mul_step Op vdbl L PV PN e e3 i v).
  Proof.
    intros I. unfold mul_step_m, mul_step. pose proof (minv_dbl m v I) as J.
    destruct (nl_bit L e i) as [ei| |]; cbn [bind]; [|reflexivity|reflexivity].
    destruct (nl_bit L e3 i) as [e3i| |]; cbn [bind]; [|reflexivity|reflexivity].
    destruct (e3i && negb ei); [eexists; split; [reflexivity|]; now apply minv_add_p|].
    destruct (negb e3i && ei); [eexists; split; [reflexivity|]; now apply minv_add_n|].
    eexists; split; [reflexivity|exact J].
  Qed.
  Lemma mul_loop_ok e e3 i : forall m v, minv m v ->
    step_ok (mul_loop_m k P dbl L sp p e e3 i m) (mul_loop Op vdbl L PV PN e e3 i v).
  Proof.
    induction i as [|i IH]; intros m v I; [eexists; split; [reflexivity|exact I]|].
    cbn [mul_loop_m mul_loop]. pose proof (mul_step_ok e e3 (Z.of_nat (S i)) m v I) as S1.
    destruct (mul_step Op vdbl L PV PN e e3 (Z.of_nat (S i)) v) as [v'| |]; cbn [step_ok] in S1.
    - destruct S1 as (m' & -> & J). cbn [bind]. now apply IH.
    - rewrite S1. reflexivity.
    - rewrite S1. reflexivity.
  Qed.
  Lemma mul_ok N kb r : (r + 3 * k <= sp)%nat -> words w m0 ->
    returns w (3 * k) fj sp r m0 (j_mul_a_m k P dbl L N kb sp r p m0) (j_mul_a Op vdbl L N kb (fa m0 p)).
  Proof.
    intros Hr W0. unfold j_mul_a_m, j_mul_a. cbv zeta.
    set (e := if 0 <=? nl_cmp L (nl_from_bytes L kb) N then fst (nl_sub L (nl_from_bytes L kb) N) else nl_from_bytes L kb).
    destruct HP as (Hna & _ & _ & _ & _ & Hc & Hi & Hfa & _).
    destruct (nl_is0 L e).
    { destruct (Hi sp r [] m0 eq_refl Hr (Forall_nil _) W0) as (E & F & W). eexists. split; [reflexivity|].
      split; [exact E|]. split; [exact F|exact W]. }
    destruct (nl_tpl L e) as [e3 c].
    destruct (Hfa (mulSp k sp) (mulT sp) p m0) as (E1 & F1 & W1).
    { unfold mulT, mulSp. lia. } { unfold mulSp. lia. } { right. unfold mulT. lia. } { exact W0. }
    set (m1 := j_from_a_m k P (mulSp k sp) (mulT sp) [p] m0) in *.
    destruct (Hna (mulSp k sp) (mulPn k sp) [p] m1 eq_refl) as (E2 & F2 & W2).
    { unfold mulPn, mulSp. lia. }
    { constructor; [|constructor]. split; [unfold mulSp; lia|right; unfold mulPn; lia]. }
    { exact W1. }
    set (m2 := a_neg_m k P (mulSp k sp) (mulPn k sp) [p] m1) in *. cbn [map nth] in E2.
    assert (PV1 : fa m1 p = PV).
    { apply (keep _ _ _ _ _ _ _ _ La F1); [unfold mulSp; lia|unfold apart, mulT; lia]. }
    assert (I2 : minv m2 (j_from_a Op PV)).
    { split. { rewrite <- E1. apply (keep _ _ _ _ _ _ _ _ Lj F2); unfold apart, mulT, mulPn, mulSp; lia. }
      split. { rewrite E2, PV1. reflexivity. }
      split. { rewrite <- PV1. apply (keep _ _ _ _ _ _ _ _ La F2); unfold apart, mulPn, mulSp; lia. }
      split; [exact W2|]. intros q Hq. rewrite (F2 q); [|unfold mulSp; lia|unfold mulPn; lia].
      apply F1; unfold mulSp, mulT; lia. }
    assert (FIN : forall x v, step_ok x v ->
      returns w (3 * k) fj sp r m0 (do m <- x; Ok (j_cpy_m k P (mulSp k sp) r [mulT sp] m)) v).
    { intros x v S1. destruct v as [v| |]; cbn [step_ok returns] in *; [|now rewrite S1|now rewrite S1].
      destruct S1 as (m' & -> & (I1 & _ & _ & I4 & I5)). cbn [bind].
      destruct (Hc (mulSp k sp) r [mulT sp] m' eq_refl) as (E & F & W).
      { unfold mulSp. lia. }
      { constructor; [|constructor]. split; [unfold mulT, mulSp; lia|right; unfold mulT; lia]. }
      { exact I4. }
      eexists. split; [reflexivity|]. split; [rewrite E; exact I1|]. split; [|exact W].
      intros q Q1 Q2. rewrite <- I5 by exact Q1. apply F; [unfold mulSp; lia|exact Q2]. }
    destruct (c =? 1); [exact (FIN _ _ (mul_loop_ok e e3 255 m2 _ I2))|].
    destruct (c =? 2); [exact (FIN _ _ (mul_loop_ok e e3 255 _ _ (minv_dbl _ _ I2)))|].
    destruct (top_bit L e3 255) as [i| |]; cbn [bind]; [|reflexivity|reflexivity].
    exact (FIN _ _ (mul_loop_ok e e3 (pred i) m2 _ I2)).
  Qed.
End Mul.

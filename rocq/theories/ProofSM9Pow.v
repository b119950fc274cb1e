(** sm9_fp12_pow is the power in F_p^12; the final exponentiation is the power (p^12 - 1) / n. *)
From Verif Require Import Base BaseFacts SpecField ModelEC ProofJac ModelSM9 SpecTower SpecSM9 ProofTower
  ProofTowerRep ProofMont ProofNumlib9 ProofSM9Rep ProofFrob ProofSM9Frob.
From Coq Require Import ZArith List Lia Znumtheory Field.
Import ListNotations.
Local Open Scope Z_scope.

Notation O1 := (Fops K1).
Notation "x '**' e" := (fpow K12 x e) (at level 30).
Lemma k12_mul x y : fp12_mul O1 x y = fmul K12 x y.
Proof. exact (@fp12_mul_eq F1 K1 _ num_neg2 neg2_nonsquare u_nonsquare v_noncube x y). Qed.
Lemma k12_sqr x : fp12_sqr O1 x = fmul K12 x x. Proof. exact (k12_mul x x). Qed.
Lemma k12_inv x : fp12_inv O1 x = finv K12 x.
Proof. exact (@fp12_inv_eq F1 K1 _ num_neg2 neg2_nonsquare u_nonsquare v_noncube x). Qed.

Lemma nib_hi9 b : is_byte b -> Z.land (Z.shiftr b 4) 15 = b / 16.
Proof.
  intros Hb. unfold is_byte in Hb. rewrite Z.shiftr_div_pow2 by lia. change (2 ^ 4) with 16.
  change 15 with (Z.ones 4). rewrite Z.land_ones by lia. apply Z.mod_small.
  split; [apply Z.div_pos; lia|]. apply Z.div_lt_upper_bound; lia.
Qed.
Lemma nib_lo9 b : Z.land b 15 = b mod 16.
Proof. change 15 with (Z.ones 4). apply Z.land_ones. lia. Qed.

(** ** The window method *)
Section Pow12.
  Variable x : F12.
  Lemma mul_pk a b e f : 0 <= e -> 0 <= f -> a = x ** e -> b = x ** f -> fp12_mul O1 a b = x ** (e + f).
  Proof. intros He Hf -> ->. rewrite k12_mul. symmetry. now apply fpow_add. Qed.
  Lemma sqr4_pk a e : 0 <= e -> a = x ** e -> sqr12_4 O1 a = x ** (16 * e).
  Proof.
    intros He Ha. unfold sqr12_4, fp12_sqr.
    replace (16 * e) with ((e + e + (e + e)) + (e + e + (e + e)) + ((e + e + (e + e)) + (e + e + (e + e)))) by ring.
    assert (H2 : fp12_mul O1 a a = x ** (e + e)) by (apply mul_pk; assumption).
    assert (H4 : fp12_mul O1 (fp12_mul O1 a a) (fp12_mul O1 a a) = x ** (e + e + (e + e))) by (apply mul_pk; try lia; exact H2).
    repeat (apply mul_pk; [lia|lia| |]); exact Ha.
  Qed.
  Lemma lut_from_pk n : forall prev e, 0 <= e -> prev = x ** e -> forall j, (j < n)%nat ->
    nth_error (lut12_from O1 n x prev) j = Some (x ** (e + 1 + Z.of_nat j)).
  Proof.
    induction n as [|n IH]; intros prev e He Hp j Hj; [lia|]. cbn [lut12_from]. cbv zeta.
    assert (Hx : fp12_mul O1 prev x = x ** (e + 1)) by (apply mul_pk; [lia|lia|exact Hp|symmetry; apply fpow_1]).
    destruct j as [|j].
    - cbn [nth_error]. rewrite Hx, Z.add_0_r. reflexivity.
    - cbn [nth_error]. replace (e + 1 + Z.of_nat (S j)) with (e + 1 + 1 + Z.of_nat j) by lia.
      apply IH; [lia|exact Hx|lia].
  Qed.
  Lemma pick_pk i : 1 <= i <= 15 -> pick12 x (lut12 O1 x) i = Ok (x ** i).
  Proof.
    intros Hi. unfold pick12. destruct (i =? 1) eqn:E.
    - assert (i = 1) as -> by lia. rewrite fpow_1. reflexivity.
    - replace (i <? 2) with false by lia.
      assert (H2 : fp12_sqr O1 x = x ** 2).
      { change 2 with (1 + 1). apply mul_pk; [lia|lia| |]; symmetry; apply fpow_1. }
      assert (EL : nth_error (lut12 O1 x) (Z.to_nat (i - 2)) = Some (x ** i)).
      { unfold lut12. cbv zeta. destruct (Z.to_nat (i - 2)) as [|j] eqn:EJ.
        - cbn [nth_error]. rewrite H2. repeat f_equal. lia.
        - cbn [nth_error]. rewrite (lut_from_pk 13 _ 2 ltac:(lia) H2 j ltac:(lia)). repeat f_equal. lia. }
      rewrite EL. reflexivity.
  Qed.
  Lemma nibble_pk t e i : 0 <= e -> 0 <= i <= 15 -> t = x ** e -> nibble12 O1 x (lut12 O1 x) t i = Ok (x ** (e + i)).
  Proof.
    intros He Hi Ht. unfold nibble12. destruct (i =? 0) eqn:E.
    - assert (i = 0) as -> by lia. rewrite Z.add_0_r, Ht. reflexivity.
    - rewrite pick_pk by lia. cbn [bind]. f_equal. apply mul_pk; [lia|lia|exact Ht|reflexivity].
  Qed.
  Lemma loop_pk bs : forall t e, 0 <= e -> bytes bs -> t = x ** e ->
    pow12_loop O1 x (lut12 O1 x) t bs = Ok (x ** (e * 256 ^ Z.of_nat (length bs) + be_val bs)).
  Proof.
    induction bs as [|b bs IH]; intros t e He Hb Ht.
    - rewrite be_val_nil. cbn [length pow12_loop]. change (256 ^ Z.of_nat 0) with 1.
      rewrite Z.mul_1_r, Z.add_0_r, Ht. reflexivity.
    - apply Forall_cons_iff in Hb; destruct Hb as [Hb0 Hbs]. cbn [pow12_loop]. cbv zeta.
      rewrite nib_hi9, nib_lo9 by assumption. unfold is_byte in Hb0.
      pose proof (Z.div_mod b 16 ltac:(lia)) as DM. pose proof (Z.mod_pos_bound b 16 ltac:(lia)) as Hm.
      rewrite (nibble_pk _ (16 * e) (b / 16)) by (try lia; now apply sqr4_pk). cbn [bind].
      rewrite (nibble_pk _ (16 * (16 * e + b / 16)) (b mod 16) ltac:(lia) ltac:(lia) (sqr4_pk _ (16 * e + b / 16) ltac:(lia) eq_refl)).
      cbn [bind]. rewrite (IH _ (16 * (16 * e + b / 16) + b mod 16) ltac:(lia) Hbs eq_refl).
      do 2 f_equal. rewrite be_val_cons. cbn [length]. rewrite Nat2Z.inj_succ, Z.pow_succ_r by lia.
      replace (16 * (16 * e + b / 16) + b mod 16) with (256 * e + b) by lia. ring.
  Qed.
End Pow12.

Lemma skip0_spec m : forall k i, (k <= length m)%nat -> be_val (firstn k m) <> 0 -> bytes (firstn k m) ->
  exists j, (j < k)%nat /\ skip0 m i = Ok ((i + j)%nat, skipn j m) /\ nz (skipn j m) 0 <> 0 /\
            be_val (firstn k m) = be_val (skipn j (firstn k m)).
Proof.
  induction m as [|b m IH]; intros k i Hk Hn Hb.
  - cbn in Hk. destruct k; [|lia]. elim Hn. reflexivity.
  - destruct k as [|k]; [elim Hn; reflexivity|]. cbn [firstn] in *. cbn [skip0].
    apply Forall_cons_iff in Hb; destruct Hb as [Hb0 Hbs]. rewrite be_val_cons in *.
    destruct (b =? 0) eqn:E.
    + assert (b = 0) as -> by lia. rewrite Z.mul_0_l, Z.add_0_l in *. cbn [length] in Hk.
      destruct (IH k (S i) ltac:(lia) Hn Hbs) as (j & Hj & E1 & E2 & E3). exists (S j).
      split; [lia|]. split; [rewrite E1; do 2 f_equal; lia|]. split; [exact E2|exact E3].
    + exists 0%nat. split; [lia|]. split; [rewrite Nat.add_0_r; reflexivity|].
      split; [unfold nz; cbn; lia|]. cbn [skipn]. now rewrite be_val_cons.
Qed.

Lemma is012_k1 x : fp12_equal_zero O1 x = true <-> x = f0 K12.
Proof.
  destruct x as [[[[a0 a1] [a2 a3]] [[b0 b1] [b2 b3]]] [[c0 c1] [c2 c3]]].
  unfold fp12_equal_zero, fp4_equal_zero, fp2_equal_zero. cbn [fst snd o_is0 Fops].
  change (f0 K12) with ((((f0 K1, f0 K1), (f0 K1, f0 K1)), ((f0 K1, f0 K1), (f0 K1, f0 K1))), ((f0 K1, f0 K1), (f0 K1, f0 K1))).
  assert (FB : forall v, (if feq_dec K1 v (f0 K1) then true else false) = true <-> v = f0 K1)
    by (intros v; destruct (feq_dec K1 v (f0 K1)); split; congruence).
  rewrite !Bool.andb_true_iff, !FB. split.
  - intros H. decompose [and] H. clear H. subst. reflexivity.
  - intros H. injection H; intros. repeat split; assumption.
Qed.

Theorem pow12_spec x mem : (32 <= length mem)%nat -> bytes (firstn 32 mem) -> be_val (firstn 32 mem) <> 0 ->
  fp12_pow O1 x mem = Ok (x ** be_val (firstn 32 mem)).
Proof.
  intros HL Hb Hn. pose proof (be_val_bound _ Hb) as HB. unfold fp12_pow.
  destruct (fp12_equal_zero O1 x) eqn:EZ.
  - apply is012_k1 in EZ. subst x. rewrite fpow_zero by lia. reflexivity.
  - clear EZ. cbv zeta. destruct (skip0_spec mem 32 0 HL Hn Hb) as (j & Hj & E1 & E2 & E3).
    rewrite E1. cbn [bind]. rewrite Nat.add_0_l.
    assert (EM : skipn j (firstn 32 mem) = nz (skipn j mem) 0 :: slice mem (S j) (32 - S j)).
    { rewrite skipn_firstn_comm. unfold slice.
      destruct (skipn j mem) as [|b m] eqn:ES.
      - apply (f_equal (@length Z)) in ES. rewrite skipn_length in ES. cbn in ES. lia.
      - assert (ES' : skipn (S j) mem = m).
        { replace (S j) with (j + 1)%nat by lia. rewrite <- skipn_skipn', ES. reflexivity. }
        rewrite ES'. replace (32 - j)%nat with (S (32 - S j)) by lia. reflexivity. }
    set (b := nz (skipn j mem) 0) in *.
    assert (Hbs : bytes (skipn j (firstn 32 mem))).
    { rewrite <- (firstn_skipn j) in Hb. apply Forall_app in Hb. apply Hb. }
    rewrite EM in Hbs. apply Forall_cons_iff in Hbs; destruct Hbs as [Hb0 Hbr].
    assert (EB : be_val (firstn 32 mem) = b * 256 ^ Z.of_nat (length (slice mem (S j) (32 - S j))) + be_val (slice mem (S j) (32 - S j)))
      by (rewrite E3, EM; apply be_val_cons).
    rewrite nib_hi9, nib_lo9 by assumption. unfold is_byte in Hb0.
    pose proof (Z.div_mod b 16 ltac:(lia)) as DM. pose proof (Z.mod_pos_bound b 16 ltac:(lia)) as Hm.
    assert (Est : (if 15 <? b then do t <- pick12 x (lut12 O1 x) (b / 16);
               nibble12 O1 x (lut12 O1 x) (sqr12_4 O1 t) (b mod 16)
             else pick12 x (lut12 O1 x) (b mod 16)) = Ok (x ** b)).
    { destruct (15 <? b) eqn:E15.
      - rewrite pick_pk by lia. cbn [bind]. rewrite (nibble_pk x _ (16 * (b / 16)) (b mod 16) ltac:(lia) ltac:(lia) (sqr4_pk x _ (b / 16) ltac:(lia) eq_refl)).
        do 2 f_equal. lia.
      - rewrite Z.mod_small by lia. apply pick_pk. lia. }
    rewrite Est. cbn [bind].
    assert (Erd : (if (S j <? 32)%nat then read mem (S j) (32 - S j) else Ok []) = Ok (slice mem (S j) (32 - S j))).
    { destruct (S j <? 32)%nat eqn:E32.
      - unfold read. replace (S j + (32 - S j) <=? length mem)%nat with true by lia. reflexivity.
      - replace (32 - S j)%nat with 0%nat by lia. reflexivity. }
    rewrite Erd. cbn [bind]. rewrite (loop_pk x _ _ b ltac:(lia) Hbr eq_refl). now rewrite EB.
Qed.

(** ** Integer powers of a non-zero element *)
Section ZPow.
  Context {F : Type} (K : field F).
  Add Field FKZ : (f_theory K).
  Variable x : F.
  Hypothesis Nx : x <> f0 K.
  (** t = x^e, e any integer *)
  Definition zp (e : Z) (t : F) : Prop := forall k, 0 <= k -> 0 <= k + e -> fmul K t (fpow K x k) = fpow K x (k + e).
  Lemma zp_pos e t : 0 <= e -> zp e t -> t = fpow K x e.
  Proof. intros He H. specialize (H 0 ltac:(lia) ltac:(lia)). rewrite fpow_0, Z.add_0_l in H. rewrite <- H. ring. Qed.
  Lemma pos_zp e t : 0 <= e -> t = fpow K x e -> zp e t.
  Proof. intros He -> k Hk _. rewrite fpow_add by assumption. ring. Qed.
  Lemma zp_1 : zp 1 x. Proof. apply pos_zp; [lia|symmetry; apply fpow_1]. Qed.
  Lemma cancel a b k : fmul K a (fpow K x k) = fmul K b (fpow K x k) -> a = b.
  Proof.
    intros H. pose proof (fpow_nz K x k Nx) as N.
    transitivity (fmul K (fmul K a (fpow K x k)) (finv K (fpow K x k))); [field; exact N|]. rewrite H. field. exact N.
  Qed.
  Lemma zp_mul e f s t : zp e s -> zp f t -> zp (e + f) (fmul K s t).
  Proof.
    intros Hs Ht k Hk Hkef. set (m := Z.abs e + Z.abs f).
    apply (cancel _ _ m). rewrite <- fpow_add by lia.
    replace (k + (e + f) + m) with ((m + k + f) + e) by ring. rewrite <- Hs by lia.
    replace (m + k + f) with ((m + k) + f) by ring. rewrite <- Ht by lia.
    rewrite fpow_add by lia. ring.
  Qed.
  Lemma zp_inv e t : zp e t -> zp (- e) (finv K t).
  Proof.
    intros Ht k Hk Hke.
    assert (Nt : t <> f0 K).
    { intros E. specialize (Ht (Z.abs e) ltac:(lia) ltac:(lia)). rewrite E in Ht.
      apply (fpow_nz K x (Z.abs e + e) Nx). rewrite <- Ht. ring. }
    assert (E : fmul K t (fpow K x (k + - e)) = fpow K x k) by (rewrite Ht by lia; f_equal; lia).
    rewrite <- E. field. exact Nt.
  Qed.
  Lemma zp_pow e t n : 0 <= n -> zp e t -> zp (e * n) (fpow K t n).
  Proof.
    intros Hn Ht. revert n Hn. apply natlike_ind.
    - rewrite Z.mul_0_r. apply pos_zp; [lia|reflexivity].
    - intros n Hn IH. replace (e * Z.succ n) with (e + e * n) by ring.
      replace (fpow K t (Z.succ n)) with (fmul K t (fpow K t n)); [now apply zp_mul|].
      rewrite <- Z.add_1_l, fpow_add, fpow_1 by lia. reflexivity.
  Qed.
  Lemma zp_nz e t : zp e t -> t <> f0 K.
  Proof.
    intros Ht E. specialize (Ht (Z.abs e) ltac:(lia) ltac:(lia)). rewrite E in Ht.
    apply (fpow_nz K x (Z.abs e + e) Nx). rewrite <- Ht. ring.
  Qed.
End ZPow.

(** Montgomery exponentiation, inversion, byte conversions and predicates, both variants. *)
From Coq Require Import Znumtheory.
From Verif Require Import Base BaseFacts ModelEndian ProofEndian ModelNumber ModelNumberX64 SpecNumber
  ProofNumber ProofNumberX64 ModelMont SpecMont ProofMont ProofFermat.

Lemma uint256_to_bytes_spec a : limbs 32 8 a -> uint256_to_bytes a = be_bytes 32 (val 32 a).
Proof.
  intros Ha. apply (to_bytes_spec 32 store32_be 8 4 a); [lia|lia| |assumption].
  intros x. apply store32_be_eq.
Qed.

Lemma x64_to_bytes_spec a : limbs 64 4 a -> x64_to_bytes a = be_bytes 32 (val 64 a).
Proof.
  intros Ha. apply (to_bytes_spec 64 (be_bytes 8) 4 8 a); [lia|lia| |assumption]. reflexivity.
Qed.

Lemma be_val_256 n v : 0 <= v < 2 ^ 256 -> n = 32%nat -> be_val (be_bytes n v) = v.
Proof.
  intros Hv ->. rewrite be_val_be_bytes. apply Z.mod_small. exact Hv.
Qed.

Lemma mont_repr_zero_iff w n P a x : Z.odd P = true -> 2 < P -> mont_repr w n P a x ->
  (val w a = 0 <-> x = 0).
Proof.
  intros Ho HP (A1 & A2 & A3 & A4). split; intros H.
  - assert (Q : (x * 2 ^ 256) mod P = (0 * 2 ^ 256) mod P).
    { rewrite <- A4, Z.mul_0_l, Z.mod_0_l; lia. }
    apply mod_cancel_pow2 in Q; [|assumption|lia|lia].
    rewrite Z.mod_small, Z.mod_0_l in Q by lia. exact Q.
  - subst x. rewrite A4, Z.mul_0_l. apply Z.mod_0_l. lia.
Qed.

Lemma mont_repr_inj w n P a b x y : Z.odd P = true -> 2 < P -> mont_repr w n P a x ->
  mont_repr w n P b y -> (val w a = val w b <-> x = y).
Proof.
  intros Ho HP (A1 & A2 & A3 & A4) (B1 & B2 & B3 & B4). split; intros H.
  - rewrite A4, B4 in H. apply mod_cancel_pow2 in H; [|assumption|lia|lia].
    rewrite !Z.mod_small in H by lia. exact H.
  - subst y. now rewrite A4, B4.
Qed.

(** ** Portable *)
Section Portable2.
  Variables (ctx : mont_ctx) (P : Z).
  Hypothesis OK : mont_ctx_ok 32 8 P ctx.
  Notation repr := (mont_repr 32 8 P).
  Let Ho : Z.odd P = true := co_odd _ _ _ _ OK.
  Let HP2 : 2 < P := co_pos _ _ _ _ OK.

  Lemma zero_repr : repr uint256_set_zero 0.
  Proof.
    assert (H : repr uint256_set_zero (0 mod P)).
    { apply mont_repr_intro; [apply (limbs_zeros 32 8); lia|lia|].
      rewrite Z.mul_0_l, Z.mod_0_l by lia. reflexivity. }
    rewrite Z.mod_0_l in H by lia. exact H.
  Qed.

  Lemma one_repr : repr (mont256_set_one ctx) 1.
  Proof.
    assert (H : repr (mont256_set_one ctx) (1 mod P)).
    { apply mont_repr_intro; [apply (co_R _ _ _ _ OK)|lia|].
      rewrite Z.mul_1_l. apply (co_Rv _ _ _ _ OK). }
    rewrite Z.mod_small in H by lia. exact H.
  Qed.

  Lemma pow_repr a x e : repr a x -> limbs 32 8 e -> val 32 e <> 0 ->
    exists r, mont256_pow ctx a e = Ok r /\ repr r (x ^ val 32 e mod P).
  Proof.
    intros HA He Hnz. unfold mont256_pow, uint256_equal_zero. pose proof HA as (A1 & A2 & A3 & A4).
    rewrite (equal_zero_spec 32 8 a) by (assumption || lia).
    rewrite (equal_zero_spec 32 8 e) by (assumption || lia).
    pose proof (val_bound 32 8 e ltac:(lia) He) as Be. rewrite C256 in Be.
    destruct (val 32 a =? 0) eqn:E.
    - apply Z.eqb_eq in E. apply (mont_repr_zero_iff 32 8 P a x Ho HP2 HA) in E. subst x.
      exists uint256_set_zero. split; [reflexivity|]. rewrite Z.pow_0_l by lia.
      rewrite Z.mod_0_l by lia. apply zero_repr.
    - apply Z.eqb_neq in Hnz. rewrite Hnz. rewrite uint256_to_bytes_spec by assumption.
      unfold pow_gen.
      pose proof (pow_start_spec repr P (mont256_mul ctx) (mont256_sqr ctx) a x ltac:(lia)
                    (mul_repr ctx P OK) (sqr_repr ctx P OK)) as S.
      rewrite Z.mod_small in S by lia. specialize (S HA (be_bytes 32 (val 32 e)) (be_bytes_bytes _ _)).
      rewrite (be_val_256 32 (val 32 e) Be eq_refl) in S.
      apply S. lia.
  Qed.

  Lemma inv_repr a x : prime P -> repr a x -> x <> 0 ->
    exists y, repr (mont256_inv ctx a) y /\ (x * y) mod P = 1.
  Proof.
    intros Hp HA Hx. pose proof (co_P2v _ _ _ _ OK) as E2. pose proof HA as (_ & _ & A3 & _).
    destruct (pow_repr a x (m_P_SUB2 ctx) HA (co_P2 _ _ _ _ OK) ltac:(lia)) as (r & E & R).
    rewrite E2 in R. unfold mont256_inv. rewrite E.
    exists (x ^ (P - 2) mod P). split; [exact R|].
    rewrite Zmult_mod_idemp_r. apply fermat_inv; [assumption|lia|]. rewrite Z.mod_small; lia.
  Qed.

  Lemma inv_zero a : repr a 0 -> mont256_inv ctx a = uint256_set_zero.
  Proof.
    intros HA. unfold mont256_inv, mont256_pow, uint256_equal_zero. pose proof HA as (A1 & _).
    rewrite (equal_zero_spec 32 8 a) by (assumption || lia).
    rewrite (proj2 (mont_repr_zero_iff 32 8 P a 0 Ho HP2 HA) eq_refl). reflexivity.
  Qed.

  Lemma from_bytes_repr b : bytes b -> length b = 32%nat ->
    repr (mont256_from_bytes ctx b) (be_val b mod P).
  Proof.
    intros Hb Hl. destruct (from_bytes_spec b Hb Hl) as [F1 F2]. unfold mont256_from_bytes.
    rewrite <- F2. now apply to_mont_repr.
  Qed.

  Lemma to_bytes_repr a x : repr a x -> mont256_to_bytes ctx a = be_bytes 32 x.
  Proof.
    intros HA. unfold mont256_to_bytes. destruct (from_mont_val ctx P OK a x HA) as [F1 F2].
    rewrite uint256_to_bytes_spec by assumption. now rewrite F2.
  Qed.

  Lemma from_bytes_ex_repr b : bytes b ->
    exists r, mont256_from_bytes_ex ctx b = Some r /\ repr r (be_val b mod P).
  Proof.
    intros Hb. unfold mont256_from_bytes_ex.
    destruct (uint256_mod_spec b (m_P ctx) Hb (co_P _ _ _ _ OK)) as (t & E & T1 & T2).
    { rewrite (co_Pv _ _ _ _ OK). lia. }
    rewrite E. eexists. split; [reflexivity|].
    rewrite (co_Pv _ _ _ _ OK) in T2.
    pose proof (to_mont_repr ctx P OK t T1) as R. rewrite T2, Z.mod_mod in R by lia. exact R.
  Qed.

  Lemma equal_repr a b x y : repr a x -> repr b y -> mont256_equal ctx a b = (x =? y).
  Proof.
    intros HA HB. unfold mont256_equal, uint256_equal.
    rewrite (equal_spec 32 8 a b) by (lia || apply HA || apply HB).
    pose proof (mont_repr_inj 32 8 P a b x y Ho HP2 HA HB) as I. clear - I. lia.
  Qed.

  Lemma equal_zero_repr a x : repr a x -> mont256_equal_zero ctx a = (x =? 0).
  Proof.
    intros HA. unfold mont256_equal_zero, uint256_equal_zero.
    rewrite (equal_zero_spec 32 8 a) by (lia || apply HA).
    pose proof (mont_repr_zero_iff 32 8 P a x Ho HP2 HA) as I. clear - I. lia.
  Qed.

  Lemma equal_one_repr a x : repr a x -> mont256_equal_one ctx a = (x =? 1).
  Proof. intros HA. exact (equal_repr a _ x 1 HA one_repr). Qed.

  Lemma set_uint32_repr n : 0 <= n < 2 ^ 32 -> repr (mont256_set_uint32 ctx n) (n mod P).
  Proof.
    intros Hn. unfold mont256_set_uint32.
    assert (L : limbs 32 8 (uint256_set_uint32 n)).
    { split; [reflexivity|]. unfold uint256_set_uint32.
      apply Forall_cons; [lia|]. repeat (apply Forall_cons; [lia|]). constructor. }
    pose proof (to_mont_repr ctx P OK _ L) as R.
    replace (val 32 (uint256_set_uint32 n)) with n in R; [exact R|].
    unfold uint256_set_uint32. cbn [val]. lia.
  Qed.

  Lemma pow_zero_exponent a e : limbs 32 8 e -> val 32 e = 0 -> limbs 32 8 a -> val 32 a <> 0 ->
    mont256_pow ctx a e = Ok uint256_set_one.
  Proof.
    intros He E Ha Hnz. unfold mont256_pow, uint256_equal_zero.
    rewrite (equal_zero_spec 32 8 a), (equal_zero_spec 32 8 e) by (assumption || lia).
    rewrite E. replace (val 32 a =? 0) with false by lia. reflexivity.
  Qed.
End Portable2.

(** ** x64 *)
Section X642.
  Variables (ctx : mont_ctx) (P : Z).
  Hypothesis OK : mont_ctx_ok 64 4 P ctx.
  Notation repr := (mont_repr 64 4 P).
  Let Ho : Z.odd P = true := co_odd _ _ _ _ OK.
  Let HP2 : 2 < P := co_pos _ _ _ _ OK.

  Lemma x64_zero_repr : repr x64_set_zero 0.
  Proof.
    assert (H : repr x64_set_zero (0 mod P)).
    { apply mont_repr_intro; [apply (limbs_zeros 64 4); lia|lia|].
      rewrite Z.mul_0_l, Z.mod_0_l by lia. reflexivity. }
    rewrite Z.mod_0_l in H by lia. exact H.
  Qed.

  Lemma x64_pow_repr a x e : repr a x -> limbs 64 4 e -> val 64 e <> 0 ->
    exists r, x64_mont_pow ctx a e = Ok r /\ repr r (x ^ val 64 e mod P).
  Proof.
    intros HA He Hnz. unfold x64_mont_pow, x64_equal_zero. pose proof HA as (A1 & A2 & A3 & A4).
    rewrite (equal_zero_spec 64 4 a) by (assumption || lia).
    rewrite (equal_zero_spec 64 4 e) by (assumption || lia).
    pose proof (val_bound 64 4 e ltac:(lia) He) as Be. rewrite C256x in Be.
    destruct (val 64 a =? 0) eqn:E.
    - apply Z.eqb_eq in E. apply (mont_repr_zero_iff 64 4 P a x Ho HP2 HA) in E. subst x.
      exists x64_set_zero. split; [reflexivity|]. rewrite Z.pow_0_l by lia.
      rewrite Z.mod_0_l by lia. apply x64_zero_repr.
    - apply Z.eqb_neq in Hnz. rewrite Hnz. rewrite x64_to_bytes_spec by assumption.
      unfold pow_gen.
      pose proof (pow_start_spec repr P (x64_mont_mul ctx) (x64_mont_sqr ctx) a x ltac:(lia)
                    (x64_mul_repr ctx P OK) (x64_sqr_repr ctx P OK)) as S.
      rewrite Z.mod_small in S by lia. specialize (S HA (be_bytes 32 (val 64 e)) (be_bytes_bytes _ _)).
      rewrite (be_val_256 32 (val 64 e) Be eq_refl) in S.
      apply S. lia.
  Qed.

  Lemma x64_inv_repr a x : prime P -> repr a x -> x <> 0 ->
    exists y, repr (x64_mont_inv ctx a) y /\ (x * y) mod P = 1.
  Proof.
    intros Hp HA Hx. pose proof (co_P2v _ _ _ _ OK) as E2. pose proof HA as (_ & _ & A3 & _).
    destruct (x64_pow_repr a x (m_P_SUB2 ctx) HA (co_P2 _ _ _ _ OK) ltac:(lia)) as (r & E & R).
    rewrite E2 in R. unfold x64_mont_inv. rewrite E.
    exists (x ^ (P - 2) mod P). split; [exact R|].
    rewrite Zmult_mod_idemp_r. apply fermat_inv; [assumption|lia|]. rewrite Z.mod_small; lia.
  Qed.

  Lemma x64_from_bytes_repr b : bytes b -> length b = 32%nat ->
    repr (x64_mont_from_bytes ctx b) (be_val b mod P).
  Proof.
    intros Hb Hl. destruct (x64_from_bytes_spec b Hb Hl) as [F1 F2]. unfold x64_mont_from_bytes.
    rewrite <- F2. now apply x64_to_mont_repr.
  Qed.

  Lemma x64_to_bytes_repr a x : repr a x -> x64_mont_to_bytes ctx a = be_bytes 32 x.
  Proof.
    intros HA. unfold x64_mont_to_bytes. destruct (x64_from_mont_val ctx P OK a x HA) as [F1 F2].
    rewrite x64_to_bytes_spec by assumption. now rewrite F2.
  Qed.

  Lemma x64_from_bytes_ex_repr b : bytes b ->
    exists r, x64_mont_from_bytes_ex ctx b = Some r /\ repr r (be_val b mod P).
  Proof.
    intros Hb. unfold x64_mont_from_bytes_ex.
    destruct (x64_mod_spec b (m_P ctx) Hb (co_P _ _ _ _ OK)) as (t & E & T1 & T2).
    { rewrite (co_Pv _ _ _ _ OK). lia. }
    rewrite E. eexists. split; [reflexivity|].
    rewrite (co_Pv _ _ _ _ OK) in T2.
    pose proof (x64_to_mont_repr ctx P OK t T1) as R. rewrite T2, Z.mod_mod in R by lia. exact R.
  Qed.
End X642.

(** ** Small remaining exactness facts used by PropNumber.v *)
Lemma x64_tpl_carry_spec a : limbs 64 4 a ->
  let (r, c) := x64_tpl_carry a in
  limbs 64 4 r /\ 0 <= c <= 2 /\ val 64 r + 2 ^ 256 * c = 3 * val 64 a.
Proof.
  intros Ha. unfold x64_tpl_carry.
  pose proof (addc_spec 4 0 a a Ha Ha ltac:(lia)) as S.
  destruct (addc 0 a a) as [t c1]. destruct S as (S1 & S2 & S3).
  pose proof (addc_spec 4 0 a t Ha S1 ltac:(lia)) as T.
  destruct (addc 0 a t) as [r c2]. destruct T as (T1 & T2 & T3). rewrite C256x in *.
  split; [assumption|]. lia.
Qed.

Lemma limbs_single w n x : 0 < w -> 0 <= x < 2 ^ w ->
  limbs w (S n) (x :: repeat 0 n) /\ val w (x :: repeat 0 n) = x.
Proof.
  intros Hw Hx. split.
  - apply limbs_cons. split; [assumption|]. apply limbs_zeros. lia.
  - cbn [val]. rewrite val_zeros. lia.
Qed.

Lemma bittest_spec a i : limbs 32 8 a -> 0 <= i < 256 ->
  uint256_bittest a i = Ok (Z.testbit (val 32 a) i).
Proof.
  intros Ha Hi. unfold uint256_bittest. replace ((0 <=? i) && (i <? 256)) with true by lia.
  rewrite land_shiftr_1 by (apply Z.mod_pos_bound; lia).
  rewrite (nz_testbit 32 8 a i) by (assumption || lia).
  destruct (Z.testbit (val 32 a) i); reflexivity.
Qed.

Lemma x64_bittest_spec a i : limbs 64 4 a -> 0 <= i < 256 ->
  x64_bittest a i = Ok (Z.testbit (val 64 a) i).
Proof.
  intros Ha Hi. unfold x64_bittest. replace ((0 <=? i) && (i <? 256)) with true by lia.
  rewrite land_shiftr_1 by (apply Z.mod_pos_bound; lia).
  rewrite (nz_testbit 64 4 a i) by (assumption || lia).
  destruct (Z.testbit (val 64 a) i); reflexivity.
Qed.

(** uint256_mod with divisor zero never ends *)
Lemma sub_while_zero t d : limbs 32 8 t -> limbs 32 8 d -> val 32 d = 0 -> sub_while t d = None.
Proof.
  intros Ht Hd E. unfold sub_while. rewrite while2_diverges; [reflexivity| |].
  - rewrite (cmp32 t d Ht Hd), E. pose proof (val_bound 32 8 t ltac:(lia) Ht). lia.
  - pose proof (sub_limbs_spec 8 t d 0 Ht Hd ltac:(lia)) as S. unfold uint256_sub_borrow.
    destruct (sub_limbs t d 0) as [r b]. destruct S as (S1 & S2 & S3). cbn [fst].
    pose proof (val_bound 32 8 r ltac:(lia) S1). pose proof (val_bound 32 8 t ltac:(lia) Ht).
    rewrite C256 in *. apply (val_inj 32 8); [lia|assumption|assumption|]. lia.
Qed.

Lemma uint256_mod_zero data d : bytes data -> data <> [] -> limbs 32 8 d -> val 32 d = 0 ->
  uint256_mod data d = None.
Proof.
  intros Hb Hne Hd E. unfold uint256_mod.
  destruct (32 <=? length data)%nat eqn:El.
  - unfold mod_absorb.
    destruct (from_bytes_spec (firstn 32 data)) as [F1 F2].
    { now apply bytes_firstn. }
    { rewrite firstn_length. lia. }
    rewrite sub_while_zero by assumption. reflexivity.
  - unfold mod_tail, mod_absorb. destruct data as [|b0 data]; [congruence|].
    destruct (from_bytes_spec (repeat 0 (32 - length (b0 :: data)) ++ b0 :: data)) as [F1 F2].
    { apply bytes_app. split; [apply bytes_repeat; unfold is_byte; lia|assumption]. }
    { rewrite app_length, repeat_length. lia. }
    rewrite sub_while_zero by assumption. reflexivity.
Qed.

(** the arrays behind an integer, used to build concrete examples *)
Fixpoint to_limbs (w : Z) (n : nat) (x : Z) : list Z :=
  match n with O => [] | S n' => x mod 2 ^ w :: to_limbs w n' (x / 2 ^ w) end.
Lemma to_limbs_spec w n x : 0 < w -> 0 <= x < pw w n ->
  limbs w n (to_limbs w n x) /\ val w (to_limbs w n x) = x.
Proof.
  intros Hw. revert x. induction n as [|n IH]; intros x Hx.
  - rewrite pw_0 in Hx. split; [apply limbs_nil|]. cbn [to_limbs val]. lia.
  - rewrite pw_S in Hx by lia. cbn [to_limbs].
    assert (Hp : 0 < 2 ^ w) by lia.
    destruct (IH (x / 2 ^ w)) as [I1 I2].
    { split; [apply Z.div_pos; lia|]. apply Z.div_lt_upper_bound; lia. }
    split; [apply limbs_cons; split; [apply Z.mod_pos_bound; lia|assumption]|].
    cbn [val]. rewrite I2. pose proof (Z.div_mod x (2 ^ w)). lia.
Qed.

(** the context the library's callers fill in for a modulus *)
Definition ctx_of (w : Z) (n : nat) (P : Z) : mont_ctx :=
  MkCtx (to_limbs w n P) (to_limbs w n (P - 2)) (to_limbs w n (2 ^ 256 mod P))
        (to_limbs w n (2 ^ 512 mod P)) (mont_compute_N w (P mod 2 ^ w)).

Lemma ctx_of_ok w n P : 1 < w -> (0 < n)%nat -> Z.odd P = true -> 2 < P -> P < pw w n ->
  mont_ctx_ok w n P (ctx_of w n P).
Proof.
  intros Hw Hn Ho HP Hlt. unfold ctx_of.
  assert (Hodd : Z.odd (P mod 2 ^ w) = true).
  { pose proof (odd_mod2 P Ho). rewrite Zodd_mod.
    replace (P mod 2 ^ w) with (P + (- (P / 2 ^ w * 2 ^ (w - 1))) * 2).
    - rewrite Z.mod_add by lia. apply Zeq_is_eq_bool. assumption.
    - rewrite Z.mod_eq by lia. set (q := P / 2 ^ w).
      assert (E : 2 ^ w = 2 * 2 ^ (w - 1)) by (rewrite <- Z.pow_succ_r by lia; f_equal; lia).
      rewrite E. ring. }
  assert (Hp : 0 < 2 ^ w) by lia.
  pose proof (Z.mod_pos_bound P (2 ^ w) Hp) as Hb.
  assert (Hnz : P mod 2 ^ w <> 0) by (intros E; rewrite E in Hodd; discriminate).
  destruct (mont_compute_N_spec w (P mod 2 ^ w) Hw ltac:(lia) Hodd) as [N1 N2].
  pose proof (Z.mod_pos_bound (2 ^ 256) P ltac:(lia)).
  pose proof (Z.mod_pos_bound (2 ^ 512) P ltac:(lia)).
  constructor; cbn [m_P m_P_SUB2 m_R m_R_POW2 m_N];
    try apply to_limbs_spec; try assumption; try lia.
  rewrite <- Zmult_mod_idemp_r. exact N2.
Qed.

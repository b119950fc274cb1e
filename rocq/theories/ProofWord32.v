(** 32-bit word facts shared by SM3, SM4, AES proofs. *)
From Verif Require Import Base BaseFacts.

Lemma w32_u32 x : is_u32 (w32 x).
Proof. unfold is_u32, w32. apply mod_pow2_bound; lia. Qed.
Lemma lxor_u32 a b : is_u32 a -> is_u32 b -> is_u32 (Z.lxor a b).
Proof. unfold is_u32; intros; apply lxor_bound; lia. Qed.
Lemma lor_u32 a b : is_u32 a -> is_u32 b -> is_u32 (Z.lor a b).
Proof. unfold is_u32; intros; apply lor_bound; lia. Qed.
Lemma land_u32 a b : is_u32 a -> is_u32 (Z.land a b).
Proof. unfold is_u32; intros; apply land_bound_l; lia. Qed.
Lemma shiftr_u32 a n : 0 <= n -> is_u32 a -> is_u32 (Z.shiftr a n).
Proof. unfold is_u32; intros; apply shiftr_bound; lia. Qed.
Lemma be_val4_u32 l : bytes l -> length l = 4%nat -> is_u32 (be_val l).
Proof. intros H Hl. pose proof (be_val_bound l H) as B. rewrite Hl in B. exact B. Qed.
Lemma w32_small x : is_u32 x -> w32 x = x.
Proof. intros; apply Z.mod_small; assumption. Qed.

(** Rotation as written in C: shift-or. *)
Definition rotl32 (x n : Z) : Z := Z.lor (w32 (Z.shiftl x n)) (Z.shiftr x (32 - n)).

Lemma rotl32_u32 x n : 0 <= n <= 32 -> is_u32 x -> is_u32 (rotl32 x n).
Proof. intros Hn Hx. apply lor_u32; [apply w32_u32|apply shiftr_u32; [lia|assumption]]. Qed.

Lemma rotl32_testbit x n i :
  is_u32 x -> 0 < n < 32 -> 0 <= i < 32 ->
  Z.testbit (rotl32 x n) i = Z.testbit x ((i - n) mod 32).
Proof.
  intros Hx Hn Hi. unfold rotl32, w32.
  rewrite Z.lor_spec, testbit_mod_pow2 by lia.
  replace (i <? 32) with true by lia. cbn [andb].
  rewrite Z.shiftr_spec by lia.
  destruct (Z.lt_ge_cases i n).
  - rewrite Z.shiftl_spec_low by lia. cbn [orb]. f_equal. lia.
  - rewrite Z.shiftl_spec by lia.
    rewrite (testbit_small x 32 (i + (32 - n))) by (unfold is_u32 in Hx; lia).
    rewrite orb_false_r. f_equal. lia.
Qed.

Lemma rotl32_lxor a b n :
  is_u32 a -> is_u32 b -> 0 < n < 32 ->
  rotl32 (Z.lxor a b) n = Z.lxor (rotl32 a n) (rotl32 b n).
Proof.
  intros Ha Hb Hn. apply (bits_inj_small 32); try lia.
  - apply rotl32_u32; [lia|apply lxor_u32; assumption].
  - apply lxor_u32; apply rotl32_u32; try assumption; lia.
  - intros i Hi. rewrite Z.lxor_spec, !rotl32_testbit, Z.lxor_spec; auto using lxor_u32.
Qed.

Lemma rotl32_arith x n :
  is_u32 x -> 0 < n < 32 -> rotl32 x n = (x * 2 ^ n) mod 2 ^ 32 + x / 2 ^ (32 - n).
Proof.
  intros Hx Hn. unfold rotl32, w32.
  rewrite Z.shiftl_mul_pow2, Z.shiftr_div_pow2 by lia.
  assert (E : (x * 2 ^ n) mod 2 ^ 32 = (x mod 2 ^ (32 - n)) * 2 ^ n).
  { replace (2 ^ 32) with (2 ^ (32 - n) * 2 ^ n) by (rewrite <- Z.pow_add_r by lia; f_equal; lia).
    rewrite Z.mul_mod_distr_r; [reflexivity| |]; apply Z.pow_nonzero; lia. }
  rewrite E. apply lor_add_disjoint; [lia|].
  unfold is_u32 in Hx.
  assert (0 < 2 ^ (32 - n)) by (apply Z.pow_pos_nonneg; lia).
  split; [apply Z.div_pos; lia|]. apply Z.div_lt_upper_bound; [lia|].
  rewrite <- Z.pow_add_r by lia. replace (32 - n + n) with 32 by lia. lia.
Qed.

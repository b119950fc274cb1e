(** Properties C30 - C36: the number library. *)
From Coq Require Import Znumtheory.
From Verif Require Import Base BaseFacts ModelEndian ProofEndian ModelNumber ModelNumberX64 SpecNumber
  ProofNumber ProofNumberX64 ModelMont SpecMont ProofMont ProofMont2.

(** ** C30: the portable 256-bit code is exact.  Arrays are eight 32-bit limbs. *)
Theorem C30_add_exact : forall a b, limbs 32 8 a -> limbs 32 8 b ->
  let (r, c) := uint256_add_carry a b in
  limbs 32 8 r /\ 0 <= c <= 1 /\ val 32 r + 2 ^ 256 * c = val 32 a + val 32 b.
Proof.
  intros a b Ha Hb. pose proof (add_limbs_spec 8 a b 0 Ha Hb ltac:(lia)) as S.
  unfold uint256_add_carry. destruct (add_limbs a b 0). rewrite C256, Z.add_0_r in S. exact S.
Qed.

Theorem C30_sub_exact : forall a b, limbs 32 8 a -> limbs 32 8 b ->
  let (r, c) := uint256_sub_borrow a b in
  limbs 32 8 r /\ -1 <= c <= 0 /\ val 32 r + 2 ^ 256 * c = val 32 a - val 32 b.
Proof.
  intros a b Ha Hb. pose proof (sub_limbs_spec 8 a b 0 Ha Hb ltac:(lia)) as S.
  unfold uint256_sub_borrow. destruct (sub_limbs a b 0). rewrite C256, Z.add_0_r in S. exact S.
Qed.

Theorem C30_dbl_exact : forall a, limbs 32 8 a ->
  let (r, c) := uint256_dbl_carry a in
  limbs 32 8 r /\ 0 <= c <= 1 /\ val 32 r + 2 ^ 256 * c = 2 * val 32 a.
Proof.
  intros a Ha. pose proof (dbl_limbs_spec 8 a 0 Ha ltac:(lia)) as S.
  unfold uint256_dbl_carry. destruct (dbl_limbs a 0). rewrite C256, Z.add_0_r in S. exact S.
Qed.

Theorem C30_tpl_exact : forall a, limbs 32 8 a ->
  let (r, c) := uint256_tpl_carry a in
  limbs 32 8 r /\ 0 <= c <= 2 /\ val 32 r + 2 ^ 256 * c = 3 * val 32 a.
Proof.
  intros a Ha. pose proof (tpl_limbs_spec 8 a 0 Ha ltac:(lia)) as S.
  unfold uint256_tpl_carry. destruct (tpl_limbs a 0). rewrite C256, Z.add_0_r in S. exact S.
Qed.

Theorem C30_mul_exact : forall a b, limbs 32 8 a -> limbs 32 8 b ->
  limbs 32 16 (uint256_mul a b) /\ val 32 (uint256_mul a b) = val 32 a * val 32 b.
Proof. intros a b Ha Hb. exact (mul_limbs_spec 8 a b Ha Hb). Qed.

Theorem C30_sqr_exact : forall a, limbs 32 8 a ->
  limbs 32 16 (uint256_sqr a) /\ val 32 (uint256_sqr a) = val 32 a ^ 2.
Proof. intros a Ha. rewrite Z.pow_2_r. exact (mul_limbs_spec 8 a a Ha Ha). Qed.

Theorem C30_word_ops_exact : forall a x, limbs 32 8 a -> 0 <= x < 2 ^ 32 ->
  (let (r, c) := uint256_add_carry_uint32 a x in
   limbs 32 8 r /\ 0 <= c <= 1 /\ val 32 r + 2 ^ 256 * c = val 32 a + x) /\
  (let (r, c) := uint256_sub_borrow_uint32 a x in
   limbs 32 8 r /\ -1 <= c <= 0 /\ val 32 r + 2 ^ 256 * c = val 32 a - x) /\
  (let (r, c) := uint256_mul_carry_uint32 a x in
   limbs 32 8 r /\ 0 <= c < 2 ^ 32 /\ val 32 r + 2 ^ 256 * c = val 32 a * x).
Proof.
  intros a x Ha Hx. destruct (limbs_single 32 7 x ltac:(lia) Hx) as [L V].
  change (x :: repeat 0 7) with [x; 0; 0; 0; 0; 0; 0; 0] in *.
  split; [|split].
  - pose proof (add_limbs_spec 8 a _ 0 Ha L ltac:(lia)) as S.
    unfold uint256_add_carry_uint32. destruct (add_limbs a _ 0).
    rewrite C256, Z.add_0_r, V in S. exact S.
  - pose proof (sub_limbs_spec 8 a _ 0 Ha L ltac:(lia)) as S.
    unfold uint256_sub_borrow_uint32. destruct (sub_limbs a _ 0).
    rewrite C256, Z.add_0_r, V in S. exact S.
  - pose proof (mul_row_spec 8 a x 0 Ha Hx ltac:(lia)) as S.
    unfold uint256_mul_carry_uint32. destruct (mul_row a x 0).
    rewrite C256, Z.add_0_r in S. exact S.
Qed.

Theorem C30_div_exact : forall a d, limbs 32 8 a -> 0 < d < 2 ^ 32 ->
  exists q r, uint256_div_uint32 a d = Ok (q, r) /\ limbs 32 8 q /\
    val 32 q = val 32 a / d /\ r = val 32 a mod d.
Proof. intros a d Ha Hd. exact (div_uint32_spec 8 a d Ha Hd). Qed.

Theorem C30_cmp_exact : forall a b, limbs 32 8 a -> limbs 32 8 b ->
  uint256_cmp a b = (if val 32 a <? val 32 b then -1 else if val 32 b <? val 32 a then 1 else 0) /\
  uint256_equal a b = (val 32 a =? val 32 b) /\
  uint256_equal_zero a = (val 32 a =? 0) /\
  uint256_equal_one a = (val 32 a =? 1).
Proof.
  intros a b Ha Hb. unfold uint256_cmp. rewrite (cmp_from_top_spec 32 8 a b) by (assumption || lia).
  split; [unfold Zcmp; repeat match goal with |- context [?x <? ?y] => destruct (x <? y) eqn:? end; lia|].
  split; [apply (equal_spec 32 8); assumption || lia|].
  split; [apply (equal_zero_spec 32 8); assumption || lia|].
  apply (equal_one_spec 32 7); assumption || lia.
Qed.

Theorem C30_cmp_word_exact : forall a x, limbs 32 8 a -> 0 <= x < 2 ^ 32 ->
  uint256_cmp_uint32 a x = (if val 32 a <? x then -1 else if x <? val 32 a then 1 else 0).
Proof.
  intros a x Ha Hx. unfold uint256_cmp_uint32. rewrite (cmp_uint_spec 32 7 a x) by (assumption || lia).
  unfold Zcmp; repeat match goal with |- context [?x <? ?y] => destruct (x <? y) eqn:? end; lia.
Qed.

Theorem C30_bytes_exact : forall a b, limbs 32 8 a -> bytes b -> length b = 32%nat ->
  (limbs 32 8 (uint256_from_bytes b) /\ val 32 (uint256_from_bytes b) = be_val b) /\
  uint256_to_bytes a = be_bytes 32 (val 32 a).
Proof. intros a b Ha Hb Hl. split; [now apply from_bytes_spec|now apply uint256_to_bytes_spec]. Qed.

Theorem C30_bittest_exact : forall a i, limbs 32 8 a -> 0 <= i < 256 ->
  uint256_bittest a i = Ok (Z.testbit (val 32 a) i).
Proof. exact bittest_spec. Qed.

Theorem C30_modular_exact : forall a b d, limbs 32 8 a -> limbs 32 8 b -> limbs 32 8 d ->
  val 32 a < val 32 d -> val 32 b < val 32 d ->
  (limbs 32 8 (uint256_mod_add a b d) /\
   val 32 (uint256_mod_add a b d) = (val 32 a + val 32 b) mod val 32 d) /\
  (limbs 32 8 (uint256_mod_sub a b d) /\
   val 32 (uint256_mod_sub a b d) = (val 32 a - val 32 b) mod val 32 d) /\
  forall n, limbs 32 8 (uint256_self_mod_sll_n a n d) /\
   val 32 (uint256_self_mod_sll_n a n d) = (val 32 a * 2 ^ Z.of_nat n) mod val 32 d.
Proof.
  intros a b d Ha Hb Hd La Lb.
  destruct (mod_add_spec a b d Ha Hb Hd La Lb) as (A1 & A2 & _).
  destruct (mod_sub_spec a b d Ha Hb Hd La Lb) as (S1 & S2 & _).
  split; [split; assumption|]. split; [split; assumption|].
  intros n. destruct (sll_spec n a d Ha Hd La) as (F1 & F2 & _). split; assumption.
Qed.

(** ** C31: the x64 code is exact.  Arrays are four 64-bit limbs. *)
Theorem C31_add_sub_exact : forall a b, limbs 64 4 a -> limbs 64 4 b ->
  (let (r, c) := x64_add_carry a b in
   limbs 64 4 r /\ 0 <= c <= 1 /\ val 64 r + 2 ^ 256 * c = val 64 a + val 64 b) /\
  (let (r, c) := x64_sub_borrow a b in
   limbs 64 4 r /\ -1 <= c <= 0 /\ val 64 r + 2 ^ 256 * c = val 64 a - val 64 b).
Proof.
  intros a b Ha Hb. split.
  - pose proof (addc_spec 4 0 a b Ha Hb ltac:(lia)) as S.
    unfold x64_add_carry. destruct (addc 0 a b). rewrite C256x, Z.add_0_r in S. exact S.
  - pose proof (subb_spec 4 0 a b Ha Hb ltac:(lia)) as S.
    unfold x64_sub_borrow. destruct (subb 0 a b) as [r c]. rewrite C256x in S.
    destruct S as (S1 & S2 & S3). split; [assumption|]. lia.
Qed.

Theorem C31_dbl_tpl_exact : forall a, limbs 64 4 a ->
  (let (r, c) := x64_dbl_carry a in
   limbs 64 4 r /\ 0 <= c <= 1 /\ val 64 r + 2 ^ 256 * c = 2 * val 64 a) /\
  (let (r, c) := x64_tpl_carry a in
   limbs 64 4 r /\ 0 <= c <= 2 /\ val 64 r + 2 ^ 256 * c = 3 * val 64 a).
Proof.
  intros a Ha. split; [|now apply x64_tpl_carry_spec].
  pose proof (addc_spec 4 0 a a Ha Ha ltac:(lia)) as S.
  unfold x64_dbl_carry. destruct (addc 0 a a) as [r c]. rewrite C256x in S.
  destruct S as (S1 & S2 & S3). split; [assumption|]. lia.
Qed.

Theorem C31_mul_exact : forall a b, limbs 64 4 a -> limbs 64 4 b ->
  limbs 64 8 (x64_mul a b) /\ val 64 (x64_mul a b) = val 64 a * val 64 b.
Proof. exact x64_mul_spec. Qed.

Theorem C31_sqr_exact : forall a, limbs 64 4 a ->
  limbs 64 8 (x64_sqr a) /\ val 64 (x64_sqr a) = val 64 a ^ 2.
Proof. intros a Ha. rewrite Z.pow_2_r. exact (x64_mul_spec a a Ha Ha). Qed.

Theorem C31_word_ops_exact : forall a x, limbs 64 4 a -> 0 <= x < 2 ^ 64 ->
  (let (r, c) := x64_add_carry_uint64 a x in
   limbs 64 4 r /\ 0 <= c <= 1 /\ val 64 r + 2 ^ 256 * c = val 64 a + x) /\
  (let (r, c) := x64_sub_borrow_uint64 a x in
   limbs 64 4 r /\ -1 <= c <= 0 /\ val 64 r + 2 ^ 256 * c = val 64 a - x) /\
  (let (r, c) := x64_mul_carry_uint64 a x in
   limbs 64 4 r /\ 0 <= c < 2 ^ 64 /\ val 64 r + 2 ^ 256 * c = val 64 a * x).
Proof.
  intros a x Ha Hx. destruct (limbs_single 64 3 x ltac:(lia) Hx) as [L V].
  change (x :: repeat 0 3) with [x; 0; 0; 0] in *.
  split; [|split].
  - pose proof (addc_spec 4 0 a _ Ha L ltac:(lia)) as S.
    unfold x64_add_carry_uint64. destruct (addc 0 a _).
    rewrite C256x, Z.add_0_r, V in S. exact S.
  - pose proof (subb_spec 4 0 a _ Ha L ltac:(lia)) as S.
    unfold x64_sub_borrow_uint64. destruct (subb 0 a _) as [r c].
    rewrite C256x, V in S. destruct S as (S1 & S2 & S3). split; [assumption|]. lia.
  - exact (x64_mul_carry_spec a x Ha Hx).
Qed.

(** The compatibility wrapper uint256_mul_carry_uint32 truncates the carry word to 32 bits, which
    loses nothing: the carry of a multiplication by a 32-bit number fits. *)
Theorem C31_mul_carry_uint32_exact : forall a x, limbs 64 4 a -> 0 <= x < 2 ^ 32 ->
  let (r, c) := x64_mul_carry_uint32 a x in
  limbs 64 4 r /\ 0 <= c < 2 ^ 32 /\ val 64 r + 2 ^ 256 * c = val 64 a * x.
Proof.
  intros a x Ha Hx. pose proof (x64_mul_carry_spec a x Ha ltac:(lia)) as S.
  unfold x64_mul_carry_uint32. destruct (x64_mul_carry_uint64 a x) as [r c].
  destruct S as (S1 & S2 & S3).
  pose proof (val_bound 64 4 a ltac:(lia) Ha) as Ba. pose proof (val_bound 64 4 r ltac:(lia) S1) as Br.
  rewrite C256x in *. assert (c < 2 ^ 32) by nia.
  unfold w32. rewrite Z.mod_small by lia. split; [assumption|]. lia.
Qed.

Theorem C31_div_exact : forall a d, limbs 64 4 a -> 0 < d < 2 ^ 64 ->
  exists q r, x64_div_uint64 a d = Ok (q, r) /\ limbs 64 4 q /\
    val 64 q = val 64 a / d /\ r = val 64 a mod d.
Proof. intros a d Ha Hd. exact (x64_div_uint64_spec 4 a d Ha Hd). Qed.

Theorem C31_cmp_exact : forall a b, limbs 64 4 a -> limbs 64 4 b ->
  x64_cmp a b = (if val 64 a <? val 64 b then -1 else if val 64 b <? val 64 a then 1 else 0) /\
  x64_equal a b = (val 64 a =? val 64 b) /\
  x64_equal_zero a = (val 64 a =? 0) /\
  x64_equal_one a = (val 64 a =? 1).
Proof.
  intros a b Ha Hb. unfold x64_cmp. rewrite (cmp_from_top_spec 64 4 a b) by (assumption || lia).
  split; [unfold Zcmp; repeat match goal with |- context [?x <? ?y] => destruct (x <? y) eqn:? end; lia|].
  split; [apply (equal_spec 64 4); assumption || lia|].
  split; [apply (equal_zero_spec 64 4); assumption || lia|].
  apply (equal_one_spec 64 3); assumption || lia.
Qed.

Theorem C31_cmp_word_exact : forall a x, limbs 64 4 a -> 0 <= x < 2 ^ 64 ->
  x64_cmp_uint64 a x = (if val 64 a <? x then -1 else if x <? val 64 a then 1 else 0).
Proof.
  intros a x Ha Hx. unfold x64_cmp_uint64. rewrite (cmp_uint_spec 64 3 a x) by (assumption || lia).
  unfold Zcmp; repeat match goal with |- context [?x <? ?y] => destruct (x <? y) eqn:? end; lia.
Qed.

Theorem C31_bytes_exact : forall a b, limbs 64 4 a -> bytes b -> length b = 32%nat ->
  (limbs 64 4 (x64_from_bytes b) /\ val 64 (x64_from_bytes b) = be_val b) /\
  x64_to_bytes a = be_bytes 32 (val 64 a).
Proof. intros a b Ha Hb Hl. split; [now apply x64_from_bytes_spec|now apply x64_to_bytes_spec]. Qed.

Theorem C31_bittest_exact : forall a i, limbs 64 4 a -> 0 <= i < 256 ->
  x64_bittest a i = Ok (Z.testbit (val 64 a) i).
Proof. exact x64_bittest_spec. Qed.

Theorem C31_modular_exact : forall a b d, limbs 64 4 a -> limbs 64 4 b -> limbs 64 4 d ->
  val 64 a < val 64 d -> val 64 b < val 64 d ->
  (limbs 64 4 (x64_mod_add a b d) /\
   val 64 (x64_mod_add a b d) = (val 64 a + val 64 b) mod val 64 d) /\
  (limbs 64 4 (x64_mod_sub a b d) /\
   val 64 (x64_mod_sub a b d) = (val 64 a - val 64 b) mod val 64 d) /\
  forall n, limbs 64 4 (x64_self_mod_sll_n a n d) /\
   val 64 (x64_self_mod_sll_n a n d) = (val 64 a * 2 ^ Z.of_nat n) mod val 64 d.
Proof.
  intros a b d Ha Hb Hd La Lb.
  destruct (x64_mod_add_spec a b d Ha Hb Hd La Lb) as (A1 & A2 & _).
  destruct (x64_mod_sub_spec a b d Ha Hb Hd La Lb) as (S1 & S2 & _).
  split; [split; assumption|]. split; [split; assumption|].
  intros n. destruct (x64_sll_spec n a d Ha Hd La) as (F1 & F2 & _). split; assumption.
Qed.

(** ** C32: the any-size helpers, both variants *)
Theorem C32_mpz_add_exact : forall n a b c, (0 < n)%nat -> 0 <= c <= 1 ->
  (limbs 32 n a -> limbs 32 n b ->
   let (r, c1) := mpz_add_carry a b c in
   limbs 32 n r /\ 0 <= c1 <= 1 /\
   val 32 r + 2 ^ (32 * Z.of_nat n) * c1 = val 32 a + val 32 b + c) /\
  (limbs 64 n a -> limbs 64 n b ->
   let (r, c1) := x64_mpz_add_carry a b c in
   limbs 64 n r /\ 0 <= c1 <= 1 /\
   val 64 r + 2 ^ (64 * Z.of_nat n) * c1 = val 64 a + val 64 b + c).
Proof.
  intros n a b c Hn Hc. split; intros Ha Hb.
  - unfold mpz_add_carry. destruct a; [destruct Ha as [Ha _]; cbn in Ha; lia|].
    exact (add_limbs_spec n _ b c Ha Hb Hc).
  - unfold x64_mpz_add_carry. destruct a; [destruct Ha as [Ha _]; cbn in Ha; lia|].
    exact (addc_spec n c _ b Ha Hb Hc).
Qed.

(** borrows are 0 or -1, in and out *)
Theorem C32_mpz_sub_exact : forall n a b c, (0 < n)%nat -> -1 <= c <= 0 ->
  (limbs 32 n a -> limbs 32 n b ->
   let (r, c1) := mpz_sub_borrow a b c in
   limbs 32 n r /\ -1 <= c1 <= 0 /\
   val 32 r + 2 ^ (32 * Z.of_nat n) * c1 = val 32 a - val 32 b + c) /\
  (limbs 64 n a -> limbs 64 n b ->
   let (r, c1) := x64_mpz_sub_borrow a b c in
   limbs 64 n r /\ -1 <= c1 <= 0 /\
   val 64 r + 2 ^ (64 * Z.of_nat n) * c1 = val 64 a - val 64 b + c).
Proof.
  intros n a b c Hn Hc. split; intros Ha Hb.
  - unfold mpz_sub_borrow. destruct a; [destruct Ha as [Ha _]; cbn in Ha; lia|].
    exact (sub_limbs_spec n _ b c Ha Hb Hc).
  - unfold x64_mpz_sub_borrow. destruct a; [destruct Ha as [Ha _]; cbn in Ha; lia|].
    assert (E : w8 (- c) = - c) by (unfold w8; apply Z.mod_small; lia). rewrite E.
    pose proof (subb_spec n (- c) _ b Ha Hb ltac:(lia)) as S.
    destruct (subb (- c) _ b) as [r d]. destruct S as (S1 & S2 & S3). unfold pw in S3.
    split; [assumption|]. lia.
Qed.

Theorem C32_mpz_mul_exact : forall n a b,
  (limbs 32 n a -> limbs 32 n b ->
   limbs 32 (n + n) (mpz_mul a b) /\ val 32 (mpz_mul a b) = val 32 a * val 32 b) /\
  (limbs 64 n a -> limbs 64 n b ->
   limbs 64 (n + n) (x64_mpz_mul a b) /\ val 64 (x64_mpz_mul a b) = val 64 a * val 64 b).
Proof. intros n a b. split; [apply mul_limbs_spec|apply x64_mpz_mul_spec]. Qed.

Theorem C32_mpz_cmp_common_exact : forall n a b, limbs 32 n a -> limbs 32 n b ->
  mpz_cmp a b = (if val 32 a <? val 32 b then -1 else if val 32 b <? val 32 a then 1 else 0).
Proof.
  intros n a b Ha Hb. unfold mpz_cmp. rewrite (cmp_from_top_spec 32 n a b) by (assumption || lia).
  unfold Zcmp; repeat match goal with |- context [?x <? ?y] => destruct (x <? y) eqn:? end; lia.
Qed.

Theorem C32_mpz_bytes_exact : forall n a b, bytes b ->
  (limbs 32 n a -> length b = (4 * n)%nat ->
   limbs 32 n (mpz_from_bytes b n) /\ val 32 (mpz_from_bytes b n) = be_val b /\
   mpz_to_bytes a = be_bytes (4 * n) (val 32 a)) /\
  (limbs 64 n a -> length b = (8 * n)%nat ->
   limbs 64 n (x64_mpz_from_bytes b n) /\ val 64 (x64_mpz_from_bytes b n) = be_val b /\
   x64_mpz_to_bytes a = be_bytes (8 * n) (val 64 a)).
Proof.
  intros n a b Hb. split; intros Ha Hl.
  - destruct (val_rev_be 32 load32_be n 4 b ltac:(lia) ltac:(lia) load32_be_val Hb Hl) as [F1 F2].
    split; [exact F1|]. split; [exact F2|].
    apply (to_bytes_spec 32 store32_be n 4 a); [lia|lia|apply store32_be_eq|assumption].
  - destruct (val_rev_be 64 be_val n 8 b ltac:(lia) ltac:(lia) ltac:(reflexivity) Hb Hl) as [F1 F2].
    split; [exact F1|]. split; [exact F2|].
    apply (to_bytes_spec 64 (be_bytes 8) n 8 a); [lia|lia|reflexivity|assumption].
Qed.

(** Deviation: the x64 mpz_cmp looks at the least significant limb first.  It calls
    2^64 + 0 smaller than 1. *)
Theorem C32_mpz_cmp_x64_refuted : exists a b, limbs 64 2 a /\ limbs 64 2 b /\
  val 64 b < val 64 a /\ x64_mpz_cmp a b = -1.
Proof.
  exists [0; 1], [1; 0]. split; [|split; [|split; [reflexivity|reflexivity]]];
    (split; [reflexivity|]); repeat (apply Forall_cons; [lia|]); constructor.
Qed.

(** Deviation: with no limbs at all the incoming carry or borrow disappears. *)
Theorem C32_mpz_zero_limbs_refuted :
  mpz_add_carry [] [] 1 = ([], 0) /\ mpz_sub_borrow [] [] (-1) = ([], 0) /\
  x64_mpz_add_carry [] [] 1 = ([], 0) /\ x64_mpz_sub_borrow [] [] (-1) = ([], 0).
Proof. repeat split. Qed.

(** ** C33: Montgomery ring operations.  [mont_repr w n P a x] says that array [a] is the canonical
    Montgomery form of the residue [x]; [mont_ctx_ok] says the context belongs to [P]. *)
Theorem C33_common_ring : forall ctx P a b x y, mont_ctx_ok 32 8 P ctx ->
  mont_repr 32 8 P a x -> mont_repr 32 8 P b y ->
  mont_repr 32 8 P (mont256_add ctx a b) ((x + y) mod P) /\
  mont_repr 32 8 P (mont256_sub ctx a b) ((x - y) mod P) /\
  mont_repr 32 8 P (mont256_mul ctx a b) ((x * y) mod P) /\
  mont_repr 32 8 P (mont256_sqr ctx a) ((x * x) mod P) /\
  mont_repr 32 8 P (mont256_dbl ctx a) ((2 * x) mod P) /\
  (exists h, mont_repr 32 8 P (mont256_div2 ctx a) h /\ (2 * h) mod P = x).
Proof.
  intros ctx P a b x y OK HA HB.
  split; [exact (add_repr ctx P OK a b x y HA HB)|].
  split; [exact (sub_repr ctx P OK a b x y HA HB)|].
  split; [exact (mul_repr ctx P OK a b x y HA HB)|].
  split; [exact (sqr_repr ctx P OK a x HA)|].
  split; [exact (dbl_repr ctx P OK a x HA)|].
  exact (div2_repr ctx P a x OK HA).
Qed.

Theorem C33_common_tpl : forall ctx P a x, mont_ctx_ok 32 8 P ctx -> 2 ^ 255 <= P ->
  mont_repr 32 8 P a x -> mont_repr 32 8 P (mont256_tpl ctx a) ((3 * x) mod P).
Proof. intros ctx P a x OK HP HA. exact (tpl_repr ctx P OK a x HP HA). Qed.

(** Deviation: below 2^255 the portable mont256_tpl subtracts the modulus too few times; for P = 7
    the triple of (the form of) a residue comes out as a value above 7. *)
Theorem C33_common_tpl_small_modulus_refuted : exists ctx P a x,
  mont_ctx_ok 32 8 P ctx /\ mont_repr 32 8 P a x /\ P <= val 32 (mont256_tpl ctx a).
Proof.
  exists (ctx_of 32 8 7), 7, [6; 0; 0; 0; 0; 0; 0; 0], 3.
  split; [apply ctx_of_ok; [lia|lia|reflexivity|lia|reflexivity]|].
  split; [|vm_compute; discriminate].
  split; [split; [reflexivity|]; repeat (apply Forall_cons; [lia|]); constructor|].
  split; [split; [discriminate|reflexivity]|]. split; [lia|]. reflexivity.
Qed.

Theorem C33_common_conversions : forall ctx P a b x n, mont_ctx_ok 32 8 P ctx ->
  mont_repr 32 8 P a x -> bytes b -> length b = 32%nat -> 0 <= n < 2 ^ 32 ->
  mont_repr 32 8 P (mont256_from_bytes ctx b) (be_val b mod P) /\
  mont256_to_bytes ctx a = be_bytes 32 x /\
  mont_repr 32 8 P (mont256_set_zero ctx) 0 /\
  mont_repr 32 8 P (mont256_set_one ctx) 1 /\
  mont_repr 32 8 P (mont256_set_uint32 ctx n) (n mod P) /\
  (limbs 32 8 (uint256_from_mont ctx a) /\ val 32 (uint256_from_mont ctx a) = x) /\
  forall u, limbs 32 8 u -> mont_repr 32 8 P (uint256_to_mont ctx u) (val 32 u mod P).
Proof.
  intros ctx P a b x n OK HA Hb Hl Hn.
  split; [exact (from_bytes_repr ctx P OK b Hb Hl)|].
  split; [exact (to_bytes_repr ctx P OK a x HA)|].
  split; [exact (zero_repr ctx P OK)|].
  split; [exact (one_repr ctx P OK)|].
  split; [exact (set_uint32_repr ctx P OK n Hn)|].
  split; [exact (from_mont_val ctx P OK a x HA)|].
  exact (to_mont_repr ctx P OK).
Qed.

Theorem C33_common_predicates : forall ctx P a b x y, mont_ctx_ok 32 8 P ctx ->
  mont_repr 32 8 P a x -> mont_repr 32 8 P b y ->
  mont256_equal ctx a b = (x =? y) /\ mont256_equal_zero ctx a = (x =? 0) /\
  mont256_equal_one ctx a = (x =? 1).
Proof.
  intros ctx P a b x y OK HA HB.
  split; [exact (equal_repr ctx P OK a b x y HA HB)|].
  split; [exact (equal_zero_repr ctx P OK a x HA)|].
  exact (equal_one_repr ctx P OK a x HA).
Qed.

(** The reduction itself, on any input below P * 2^256. *)
Theorem C33_common_redc : forall ctx P t, mont_ctx_ok 32 8 P ctx -> limbs 32 16 t ->
  val 32 t < P * 2 ^ 256 ->
  limbs 32 8 (mont256_redc ctx t) /\ 0 <= val 32 (mont256_redc ctx t) < P /\
  (val 32 (mont256_redc ctx t) * 2 ^ 256) mod P = val 32 t mod P.
Proof. exact redc_spec. Qed.

Theorem C33_x64_ring : forall ctx P a b x y, mont_ctx_ok 64 4 P ctx ->
  mont_repr 64 4 P a x -> mont_repr 64 4 P b y ->
  mont_repr 64 4 P (x64_mont_add ctx a b) ((x + y) mod P) /\
  mont_repr 64 4 P (x64_mont_sub ctx a b) ((x - y) mod P) /\
  mont_repr 64 4 P (x64_mont_mul ctx a b) ((x * y) mod P) /\
  mont_repr 64 4 P (x64_mont_sqr ctx a) ((x * x) mod P) /\
  mont_repr 64 4 P (x64_mont_dbl ctx a) ((2 * x) mod P) /\
  mont_repr 64 4 P (x64_mont_tpl ctx a) ((3 * x) mod P) /\
  (exists h, mont_repr 64 4 P (x64_mont_div2 ctx a) h /\ (2 * h) mod P = x).
Proof.
  intros ctx P a b x y OK HA HB.
  split; [exact (x64_add_repr ctx P OK a b x y HA HB)|].
  split; [exact (x64_sub_repr ctx P OK a b x y HA HB)|].
  split; [exact (x64_mul_repr ctx P OK a b x y HA HB)|].
  split; [exact (x64_sqr_repr ctx P OK a x HA)|].
  split; [exact (x64_dbl_repr ctx P OK a x HA)|].
  split; [exact (x64_tpl_repr ctx P OK a x HA)|].
  exact (x64_div2_repr ctx P a x OK HA).
Qed.

Theorem C33_x64_conversions : forall ctx P a b x, mont_ctx_ok 64 4 P ctx ->
  mont_repr 64 4 P a x -> bytes b -> length b = 32%nat ->
  mont_repr 64 4 P (x64_mont_from_bytes ctx b) (be_val b mod P) /\
  x64_mont_to_bytes ctx a = be_bytes 32 x /\
  (limbs 64 4 (x64_from_mont ctx a) /\ val 64 (x64_from_mont ctx a) = x) /\
  forall u, limbs 64 4 u -> mont_repr 64 4 P (x64_to_mont ctx u) (val 64 u mod P).
Proof.
  intros ctx P a b x OK HA Hb Hl.
  split; [exact (x64_from_bytes_repr ctx P OK b Hb Hl)|].
  split; [exact (x64_to_bytes_repr ctx P OK a x HA)|].
  split; [exact (x64_from_mont_val ctx P OK a x HA)|].
  exact (x64_to_mont_repr ctx P OK).
Qed.

Theorem C33_x64_redc : forall ctx P t, mont_ctx_ok 64 4 P ctx -> limbs 64 8 t ->
  val 64 t < P * 2 ^ 256 ->
  limbs 64 4 (x64_redc ctx t) /\ 0 <= val 64 (x64_redc ctx t) < P /\
  (val 64 (x64_redc ctx t) * 2 ^ 256) mod P = val 64 t mod P.
Proof. exact x64_redc_spec. Qed.

(** The header's constant: for every odd low limb, N * P0 = -1 modulo the limb size, and the
    extended-Euclid loop ends. *)
Theorem C33_compute_N : forall w P0, w = 32 \/ w = 64 -> 0 < P0 < 2 ^ w -> Z.odd P0 = true ->
  0 <= mont_compute_N w P0 < 2 ^ w /\ (mont_compute_N w P0 * P0) mod 2 ^ w = 2 ^ w - 1.
Proof. intros w P0 Hw HP Ho. apply mont_compute_N_spec; [lia|assumption|assumption]. Qed.

(** ** C34: exponentiation and inversion *)
Theorem C34_pow : forall ctx P a x e, mont_ctx_ok 32 8 P ctx -> mont_repr 32 8 P a x ->
  limbs 32 8 e -> 0 < val 32 e ->
  exists r, mont256_pow ctx a e = Ok r /\ mont_repr 32 8 P r (x ^ val 32 e mod P).
Proof. intros ctx P a x e OK HA He Hp. apply (pow_repr ctx P OK a x e HA He). lia. Qed.

Theorem C34_inv : forall ctx P a x, mont_ctx_ok 32 8 P ctx -> prime P -> mont_repr 32 8 P a x ->
  x <> 0 -> exists y, mont_repr 32 8 P (mont256_inv ctx a) y /\ (x * y) mod P = 1.
Proof. intros ctx P a x OK Hp HA Hx. exact (inv_repr ctx P OK a x Hp HA Hx). Qed.

Theorem C34_x64_pow : forall ctx P a x e, mont_ctx_ok 64 4 P ctx -> mont_repr 64 4 P a x ->
  limbs 64 4 e -> 0 < val 64 e ->
  exists r, x64_mont_pow ctx a e = Ok r /\ mont_repr 64 4 P r (x ^ val 64 e mod P).
Proof. intros ctx P a x e OK HA He Hp. apply (x64_pow_repr ctx P OK a x e HA He). lia. Qed.

Theorem C34_x64_inv : forall ctx P a x, mont_ctx_ok 64 4 P ctx -> prime P -> mont_repr 64 4 P a x ->
  x <> 0 -> exists y, mont_repr 64 4 P (x64_mont_inv ctx a) y /\ (x * y) mod P = 1.
Proof. intros ctx P a x OK Hp HA Hx. exact (x64_inv_repr ctx P OK a x Hp HA Hx). Qed.

(** Deviation outside the property: with exponent 0 the result is the integer 1, not the
    Montgomery form of 1, unless 2^256 = 1 modulo P. *)
Theorem C34_pow_zero_exponent : forall ctx P a x, mont_ctx_ok 32 8 P ctx ->
  mont_repr 32 8 P a x -> x <> 0 -> 2 ^ 256 mod P <> 1 ->
  mont256_pow ctx a uint256_set_zero = Ok uint256_set_one /\
  ~ mont_repr 32 8 P uint256_set_one 1.
Proof.
  intros ctx P a x OK HA Hx HR. pose proof (co_odd _ _ _ _ OK) as Ho.
  pose proof (co_pos _ _ _ _ OK) as HP. split.
  - pose proof (mont_repr_zero_iff 32 8 P a x Ho HP HA) as I.
    apply (pow_zero_exponent ctx P); [apply (limbs_zeros 32 8); lia|reflexivity|apply HA|].
    intros E. apply I in E. contradiction.
  - intros (_ & _ & _ & E). rewrite Z.mul_1_l in E. apply HR. rewrite <- E. reflexivity.
Qed.

(** ** C35: negation *)
Theorem C35_x64_neg : forall ctx P a x, mont_ctx_ok 64 4 P ctx -> mont_repr 64 4 P a x ->
  mont_repr 64 4 P (x64_mont_neg ctx a) ((- x) mod P).
Proof. intros ctx P a x OK HA. exact (x64_neg_repr ctx P OK a x HA). Qed.

Theorem C35_common_neg_partial : forall ctx P a x, mont_ctx_ok 32 8 P ctx ->
  mont_repr 32 8 P a x -> x <> 0 -> mont_repr 32 8 P (mont256_neg ctx a) ((- x) mod P).
Proof. intros ctx P a x OK HA Hx. exact (neg_repr ctx P OK a x HA Hx). Qed.

(** The missing case is false of the code: the portable mont256_neg maps zero to P itself, which
    is not a canonical representative, for every modulus. *)
Theorem C35_common_neg_zero_refuted : forall ctx P a, mont_ctx_ok 32 8 P ctx ->
  mont_repr 32 8 P a 0 ->
  val 32 (mont256_neg ctx a) = P /\ ~ mont_repr 32 8 P (mont256_neg ctx a) ((- 0) mod P).
Proof.
  intros ctx P a OK HA. rewrite (neg_zero ctx P OK a HA). rewrite (co_Pv _ _ _ _ OK).
  split; [reflexivity|]. intros (_ & R & _). rewrite (co_Pv _ _ _ _ OK) in R. lia.
Qed.

(** ** C36: reduction of byte strings of any length *)
Theorem C36_mod : forall data d, bytes data -> limbs 32 8 d -> 0 < val 32 d ->
  exists r, uint256_mod data d = Some r /\ limbs 32 8 r /\ val 32 r = be_val data mod val 32 d.
Proof. exact uint256_mod_spec. Qed.

Theorem C36_x64_mod : forall data d, bytes data -> limbs 64 4 d -> 0 < val 64 d ->
  exists r, x64_mod data d = Some r /\ limbs 64 4 r /\ val 64 r = be_val data mod val 64 d.
Proof. exact x64_mod_spec. Qed.

Theorem C36_from_bytes_ex : forall ctx P data, mont_ctx_ok 32 8 P ctx -> bytes data ->
  exists r, mont256_from_bytes_ex ctx data = Some r /\ mont_repr 32 8 P r (be_val data mod P).
Proof. intros ctx P data OK Hb. exact (from_bytes_ex_repr ctx P OK data Hb). Qed.

Theorem C36_x64_from_bytes_ex : forall ctx P data, mont_ctx_ok 64 4 P ctx -> bytes data ->
  exists r, x64_mont_from_bytes_ex ctx data = Some r /\ mont_repr 64 4 P r (be_val data mod P).
Proof. intros ctx P data OK Hb. exact (x64_from_bytes_ex_repr ctx P OK data Hb). Qed.

(** Divisor zero is outside the property: the loop [while (t >= 0) t -= 0] never ends. *)
Theorem C36_mod_zero_divisor_diverges : forall data d, bytes data -> data <> [] -> limbs 32 8 d ->
  val 32 d = 0 -> uint256_mod data d = None.
Proof. exact uint256_mod_zero. Qed.

(** ** Non-vacuity: the SM2 prime, both limb sizes *)
Definition ex_P : Z :=
  be_val [0xFF; 0xFF; 0xFF; 0xFE; 0xFF; 0xFF; 0xFF; 0xFF; 0xFF; 0xFF; 0xFF; 0xFF; 0xFF; 0xFF; 0xFF; 0xFF;
          0xFF; 0xFF; 0xFF; 0xFF; 0x00; 0x00; 0x00; 0x00; 0xFF; 0xFF; 0xFF; 0xFF; 0xFF; 0xFF; 0xFF; 0xFF].
Example C33_ctx_example : mont_ctx_ok 32 8 ex_P (ctx_of 32 8 ex_P) /\
  mont_ctx_ok 64 4 ex_P (ctx_of 64 4 ex_P) /\ 2 ^ 255 <= ex_P.
Proof.
  split; [|split; [|vm_compute; discriminate]]; apply ctx_of_ok; try lia; reflexivity.
Qed.
Example C33_repr_example :
  mont_repr 32 8 ex_P (mont256_set_uint32 (ctx_of 32 8 ex_P) 12345) 12345.
Proof.
  apply (set_uint32_repr _ _ (proj1 C33_ctx_example) 12345 ltac:(lia)).
Qed.
Example C33_mul_example :
  mont256_to_bytes (ctx_of 32 8 ex_P)
    (mont256_mul (ctx_of 32 8 ex_P) (mont256_set_uint32 (ctx_of 32 8 ex_P) 70000)
                 (mont256_set_uint32 (ctx_of 32 8 ex_P) 70000)) = be_bytes 32 4900000000.
Proof. vm_compute. reflexivity. Qed.
Example C34_inv_example : prime 7 /\ mont_ctx_ok 32 8 7 (ctx_of 32 8 7) /\
  mont_repr 32 8 7 [6; 0; 0; 0; 0; 0; 0; 0] 3.
Proof.
  split; [|split; [apply ctx_of_ok; [lia|lia|reflexivity|lia|reflexivity]|]].
  - apply prime_intro; [lia|]. intros n Hn. apply Zgcd_1_rel_prime.
    assert (n = 1 \/ n = 2 \/ n = 3 \/ n = 4 \/ n = 5 \/ n = 6) as D by lia.
    destruct D as [-> | [-> | [-> | [-> | [-> | ->]]]]]; reflexivity.
  - split; [split; [reflexivity|]; repeat (apply Forall_cons; [lia|]); constructor|].
    split; [split; [discriminate|reflexivity]|]. split; [lia|]. reflexivity.
Qed.
Example C35_zero_example : mont_repr 32 8 ex_P uint256_set_zero 0.
Proof. apply (zero_repr _ _ (proj1 C33_ctx_example)). Qed.
Example C36_example : limbs 32 8 (to_limbs 32 8 ex_P) /\ 0 < val 32 (to_limbs 32 8 ex_P) /\
  uint256_mod (repeat 255 37) (to_limbs 32 8 ex_P) = Some (to_limbs 32 8 ((256 ^ 37 - 1) mod ex_P)).
Proof.
  destruct (to_limbs_spec 32 8 ex_P ltac:(lia) ltac:(split; [discriminate|reflexivity])) as [L V].
  split; [exact L|]. split; [rewrite V; reflexivity|]. vm_compute. reflexivity.
Qed.

Print Assumptions C30_mul_exact.
Print Assumptions C31_mul_exact.
Print Assumptions C32_mpz_mul_exact.
Print Assumptions C33_common_ring.
Print Assumptions C33_common_tpl.
Print Assumptions C33_x64_ring.
Print Assumptions C34_pow.
Print Assumptions C34_inv.
Print Assumptions C35_x64_neg.
Print Assumptions C36_mod.
Print Assumptions C36_from_bytes_ex.

(** The assumptions of the remaining theorems, printed together. *)
Definition other_theorems_Number :=
  (@C30_add_exact, @C30_sub_exact, @C30_dbl_exact, @C30_tpl_exact, @C30_sqr_exact, @C30_word_ops_exact,
   @C30_div_exact, @C30_cmp_exact, @C30_cmp_word_exact, @C30_bytes_exact, @C30_bittest_exact,
   @C30_modular_exact, @C31_add_sub_exact, @C31_dbl_tpl_exact, @C31_sqr_exact, @C31_word_ops_exact,
   @C31_mul_carry_uint32_exact, @C31_div_exact, @C31_cmp_exact, @C31_cmp_word_exact, @C31_bytes_exact,
   @C31_bittest_exact, @C31_modular_exact, @C32_mpz_add_exact, @C32_mpz_sub_exact,
   @C32_mpz_cmp_common_exact, @C32_mpz_bytes_exact, @C32_mpz_cmp_x64_refuted,
   @C32_mpz_zero_limbs_refuted, @C33_common_tpl_small_modulus_refuted, @C33_common_conversions,
   @C33_common_predicates, @C33_common_redc, @C33_x64_conversions, @C33_x64_redc, @C33_compute_N,
   @C34_x64_pow, @C34_x64_inv, @C34_pow_zero_exponent, @C35_common_neg_partial,
   @C35_common_neg_zero_refuted, @C36_x64_mod, @C36_x64_from_bytes_ex, @C36_mod_zero_divisor_diverges).
Print Assumptions other_theorems_Number.

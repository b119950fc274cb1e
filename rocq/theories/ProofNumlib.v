(** What the curve code relies on from the number library, proved for both build variants. *)
From Coq Require Import Znumtheory.
From Verif Require Import Base BaseFacts ModelEndian ProofEndian ModelNumber ModelNumberX64 SpecNumber
  ProofNumber ProofNumberX64 ModelMont SpecMont ProofMont ProofMont2 ModelEC.

Record numlib_ok (w : Z) (n : nat) (L : numlib) : Prop := MkLibOk {
  ok_w : 1 < w;
  ok_wn : w * Z.of_nat n = 256;
  ok_epi8 : forall b, bytes b -> length b = 32%nat ->
    limbs w n (nl_epi8 L b) /\ val w (nl_epi8 L b) = be_val b;
  ok_N : forall P0, 0 < P0 < 2 ^ w -> Z.odd P0 = true ->
    0 <= nl_N L P0 < 2 ^ w /\ (nl_N L P0 * P0) mod 2 ^ w = 2 ^ w - 1;
  ok_cmp : forall a b, limbs w n a -> limbs w n b -> nl_cmp L a b = Zcmp (val w a) (val w b);
  ok_is0 : forall a, limbs w n a -> nl_is0 L a = (val w a =? 0);
  ok_add32 : forall a x, limbs w n a -> 0 <= x < 2 ^ 32 ->
    let (r, c) := nl_add32 L a x in
    limbs w n r /\ 0 <= c <= 1 /\ val w r + 2 ^ 256 * c = val w a + x;
  ok_sub : forall a b, limbs w n a -> limbs w n b -> val w b <= val w a ->
    limbs w n (fst (nl_sub L a b)) /\ val w (fst (nl_sub L a b)) = val w a - val w b;
  ok_tpl : forall a, limbs w n a ->
    let (r, c) := nl_tpl L a in
    limbs w n r /\ 0 <= c <= 2 /\ val w r + 2 ^ 256 * c = 3 * val w a;
  ok_bit : forall a i, limbs w n a -> 0 <= i < 256 -> nl_bit L a i = Ok (Z.testbit (val w a) i);
  ok_from_bytes : forall b, bytes b -> length b = 32%nat ->
    limbs w n (nl_from_bytes L b) /\ val w (nl_from_bytes L b) = be_val b;
  ok_to_bytes : forall a, limbs w n a -> nl_to_bytes L a = be_bytes 32 (val w a);
  ok_add : forall ctx P a b x y, mont_ctx_ok w n P ctx -> mont_repr w n P a x -> mont_repr w n P b y ->
    mont_repr w n P (m_add L ctx a b) ((x + y) mod P);
  ok_msub : forall ctx P a b x y, mont_ctx_ok w n P ctx -> mont_repr w n P a x -> mont_repr w n P b y ->
    mont_repr w n P (m_sub L ctx a b) ((x - y) mod P);
  ok_mul : forall ctx P a b x y, mont_ctx_ok w n P ctx -> mont_repr w n P a x -> mont_repr w n P b y ->
    mont_repr w n P (m_mul L ctx a b) ((x * y) mod P);
  ok_sqr : forall ctx P a x, mont_ctx_ok w n P ctx -> mont_repr w n P a x ->
    mont_repr w n P (m_sqr L ctx a) ((x * x) mod P);
  ok_dbl : forall ctx P a x, mont_ctx_ok w n P ctx -> mont_repr w n P a x ->
    mont_repr w n P (m_dbl L ctx a) ((2 * x) mod P);
  ok_mtpl : forall ctx P a x, mont_ctx_ok w n P ctx -> 2 ^ 255 <= P -> mont_repr w n P a x ->
    mont_repr w n P (m_tpl L ctx a) ((3 * x) mod P);
  ok_div2 : forall ctx P a x, mont_ctx_ok w n P ctx -> mont_repr w n P a x ->
    exists y, mont_repr w n P (m_div2 L ctx a) y /\ (2 * y) mod P = x;
  ok_neg : forall ctx P a x, mont_ctx_ok w n P ctx -> mont_repr w n P a x -> x <> 0 ->
    mont_repr w n P (m_neg L ctx a) ((- x) mod P);
  ok_inv : forall ctx P a x, mont_ctx_ok w n P ctx -> mont_repr w n P a x ->
    mont_repr w n P (m_inv L ctx a) (x ^ (P - 2) mod P);
  ok_pow : forall ctx P a x e, mont_ctx_ok w n P ctx -> mont_repr w n P a x -> limbs w n e ->
    val w e <> 0 -> exists r, m_pow L ctx a e = Ok r /\ mont_repr w n P r (x ^ val w e mod P);
  ok_equal : forall ctx P a b x y, mont_ctx_ok w n P ctx -> mont_repr w n P a x ->
    mont_repr w n P b y -> m_equal L ctx a b = (x =? y);
  ok_equal_zero : forall ctx P a x, mont_ctx_ok w n P ctx -> mont_repr w n P a x ->
    m_equal_zero L ctx a = (x =? 0);
  ok_equal_one : forall ctx P a x, mont_ctx_ok w n P ctx -> mont_repr w n P a x ->
    m_equal_one L ctx a = (x =? 1);
  ok_zero : forall ctx P, mont_ctx_ok w n P ctx -> mont_repr w n P (m_zero L) 0;
  ok_one : forall ctx P, mont_ctx_ok w n P ctx -> mont_repr w n P (m_one L ctx) 1;
  ok_mfrom : forall ctx P b, mont_ctx_ok w n P ctx -> bytes b -> length b = 32%nat ->
    mont_repr w n P (m_from_bytes L ctx b) (be_val b mod P);
  ok_mto : forall ctx P a x, mont_ctx_ok w n P ctx -> mont_repr w n P a x ->
    m_to_bytes L ctx a = be_bytes 32 x;
  ok_mex : forall ctx P b, mont_ctx_ok w n P ctx -> bytes b ->
    exists r, m_from_bytes_ex L ctx b = Some r /\ mont_repr w n P r (be_val b mod P)
}.

Lemma lib_common_ok : numlib_ok 32 8 lib_common.
Proof.
  constructor; cbn [nl_epi8 nl_N nl_cmp nl_is0 nl_add32 nl_sub nl_tpl nl_bit nl_from_bytes nl_to_bytes
    m_add m_sub m_mul m_sqr m_dbl m_tpl m_div2 m_neg m_inv m_pow m_equal m_equal_zero m_equal_one
    m_zero m_one m_from_bytes m_to_bytes m_from_bytes_ex lib_common].
  - lia.
  - lia.
  - intros b Hb Hl. unfold mpz_set_epi8. rewrite Hl. change (32 / 4)%nat with 8%nat.
    apply (val_rev_be 32 load32_be 8 4 b); try lia; try assumption. exact load32_be_val.
  - intros P0 H Ho. now apply mont_compute_N_spec.
  - intros a b Ha Hb. apply (cmp_from_top_spec 32 8); [lia|assumption..].
  - intros a Ha. apply (equal_zero_spec 32 8); [lia|assumption].
  - intros a x Ha Hx. destruct (limbs_single 32 7 x ltac:(lia) Hx) as [L V].
    change (x :: repeat 0 7) with [x; 0; 0; 0; 0; 0; 0; 0] in *.
    pose proof (add_limbs_spec 8 a _ 0 Ha L ltac:(lia)) as S.
    unfold uint256_add_carry_uint32. destruct (add_limbs a _ 0).
    rewrite C256, Z.add_0_r, V in S. exact S.
  - intros a b Ha Hb Hle. pose proof (sub_limbs_spec 8 a b 0 Ha Hb ltac:(lia)) as S.
    unfold uint256_sub_borrow. destruct (sub_limbs a b 0) as [r c]. rewrite C256, Z.add_0_r in S.
    destruct S as (S1 & S2 & S3). pose proof (val_bound 32 8 r ltac:(lia) S1) as B.
    rewrite C256 in B. cbn [fst]. split; [assumption|]. lia.
  - intros a Ha. pose proof (tpl_limbs_spec 8 a 0 Ha ltac:(lia)) as S.
    unfold uint256_tpl_carry. destruct (tpl_limbs a 0). rewrite C256, Z.add_0_r in S. exact S.
  - intros a i Ha Hi. now apply bittest_spec.
  - intros b Hb Hl. now apply from_bytes_spec.
  - intros a Ha. now apply uint256_to_bytes_spec.
  - intros; now apply add_repr.
  - intros; now apply sub_repr.
  - intros; now apply mul_repr.
  - intros; now apply sqr_repr.
  - intros; now apply dbl_repr.
  - intros; now apply tpl_repr.
  - intros ctx P a x OK HA. exact (div2_repr ctx P a x OK HA).
  - intros; now apply neg_repr.
  - intros ctx P a x OK HA. pose proof (co_P2v _ _ _ _ OK) as E2. pose proof (co_pos _ _ _ _ OK).
    destruct (pow_repr ctx P OK a x (m_P_SUB2 ctx) HA (co_P2 _ _ _ _ OK) ltac:(lia)) as (r & E & R).
    unfold mont256_inv. rewrite E. now rewrite E2 in R.
  - intros ctx P a x e OK HA He Hn. now apply pow_repr.
  - intros ctx P a b x y OK. exact (equal_repr ctx P OK a b x y).
  - intros ctx P a x OK. exact (equal_zero_repr ctx P OK a x).
  - intros ctx P a x OK. exact (equal_one_repr ctx P OK a x).
  - intros ctx P OK. exact (zero_repr ctx P OK).
  - intros ctx P OK. exact (one_repr ctx P OK).
  - intros ctx P b OK. exact (from_bytes_repr ctx P OK b).
  - intros ctx P a x OK. exact (to_bytes_repr ctx P OK a x).
  - intros ctx P b OK. exact (from_bytes_ex_repr ctx P OK b).
Qed.

Lemma lib_x64_ok : numlib_ok 64 4 lib_x64.
Proof.
  constructor; cbn [nl_epi8 nl_N nl_cmp nl_is0 nl_add32 nl_sub nl_tpl nl_bit nl_from_bytes nl_to_bytes
    m_add m_sub m_mul m_sqr m_dbl m_tpl m_div2 m_neg m_inv m_pow m_equal m_equal_zero m_equal_one
    m_zero m_one m_from_bytes m_to_bytes m_from_bytes_ex lib_x64].
  - lia.
  - lia.
  - intros b Hb Hl. now apply x64_from_bytes_spec.
  - intros P0 H Ho. now apply mont_compute_N_spec.
  - intros a b Ha Hb. apply (cmp_from_top_spec 64 4); [lia|assumption..].
  - intros a Ha. apply (equal_zero_spec 64 4); [lia|assumption].
  - intros a x Ha Hx. destruct (limbs_single 64 3 x ltac:(lia) ltac:(lia)) as [L V].
    change (x :: repeat 0 3) with [x; 0; 0; 0] in *.
    pose proof (addc_spec 4 0 a _ Ha L ltac:(lia)) as S.
    unfold x64_add_carry_uint64. destruct (addc 0 a _).
    rewrite C256x, Z.add_0_r, V in S. exact S.
  - intros a b Ha Hb Hle. pose proof (subb_spec 4 0 a b Ha Hb ltac:(lia)) as S.
    unfold x64_sub_borrow. destruct (subb 0 a b) as [r c]. rewrite C256x, Z.sub_0_r in S.
    destruct S as (S1 & S2 & S3). pose proof (val_bound 64 4 r ltac:(lia) S1) as B.
    rewrite C256x in B. cbn [fst]. split; [assumption|]. lia.
  - intros a Ha. now apply x64_tpl_carry_spec.
  - intros a i Ha Hi. now apply x64_bittest_spec.
  - intros b Hb Hl. now apply x64_from_bytes_spec.
  - intros a Ha. now apply x64_to_bytes_spec.
  - intros; now apply x64_add_repr.
  - intros; now apply x64_sub_repr.
  - intros; now apply x64_mul_repr.
  - intros; now apply x64_sqr_repr.
  - intros; now apply x64_dbl_repr.
  - intros; now apply x64_tpl_repr.
  - intros ctx P a x OK HA. exact (x64_div2_repr ctx P a x OK HA).
  - intros; now apply x64_neg_repr.
  - intros ctx P a x OK HA. pose proof (co_P2v _ _ _ _ OK) as E2. pose proof (co_pos _ _ _ _ OK).
    destruct (x64_pow_repr ctx P OK a x (m_P_SUB2 ctx) HA (co_P2 _ _ _ _ OK) ltac:(lia)) as (r & E & R).
    unfold x64_mont_inv. rewrite E. now rewrite E2 in R.
  - intros ctx P a x e OK HA He Hn. now apply x64_pow_repr.
  - intros ctx P a b x y OK HA HB. unfold x64_equal.
    rewrite (equal_spec 64 4 a b) by (lia || apply HA || apply HB).
    pose proof (mont_repr_inj 64 4 P a b x y (co_odd _ _ _ _ OK) (co_pos _ _ _ _ OK) HA HB) as I.
    clear - I. lia.
  - intros ctx P a x OK HA. unfold x64_equal_zero.
    rewrite (equal_zero_spec 64 4 a) by (lia || apply HA).
    pose proof (mont_repr_zero_iff 64 4 P a x (co_odd _ _ _ _ OK) (co_pos _ _ _ _ OK) HA) as I.
    clear - I. lia.
  - intros ctx P a x OK HA.
    assert (R : mont_repr 64 4 P (m_R ctx) 1).
    { pose proof (co_pos _ _ _ _ OK) as HP. pose proof (co_Rv _ _ _ _ OK) as E.
      pose proof (Z.mod_pos_bound (2 ^ 256) P ltac:(lia)) as B. rewrite <- E in B.
      split; [apply (co_R _ _ _ _ OK)|]. split; [exact B|]. split; [lia|]. now rewrite Z.mul_1_l. }
    unfold x64_equal. rewrite (equal_spec 64 4 a _) by (lia || apply HA || apply R).
    pose proof (mont_repr_inj 64 4 P a _ x 1 (co_odd _ _ _ _ OK) (co_pos _ _ _ _ OK) HA R) as I.
    clear - I. lia.
  - intros ctx P OK. exact (x64_zero_repr ctx P OK).
  - intros ctx P OK. pose proof (co_pos _ _ _ _ OK) as HP. pose proof (co_Rv _ _ _ _ OK) as E.
    pose proof (Z.mod_pos_bound (2 ^ 256) P ltac:(lia)) as B. rewrite <- E in B.
    split; [apply (co_R _ _ _ _ OK)|]. split; [exact B|]. split; [lia|]. now rewrite Z.mul_1_l.
  - intros ctx P b OK. exact (x64_from_bytes_repr ctx P OK b).
  - intros ctx P a x OK. exact (x64_to_bytes_repr ctx P OK a x).
  - intros ctx P b OK. exact (x64_from_bytes_ex_repr ctx P OK b).
Qed.

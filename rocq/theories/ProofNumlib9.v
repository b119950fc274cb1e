(** What the SM9 code relies on from the number library, for both build variants: everything of
    [numlib_ok], and the behaviour on the unreduced zero (the modulus itself) that the portable
    mont256_neg produces. *)
From Coq Require Import Znumtheory.
From Verif Require Import Base BaseFacts ModelEndian ProofEndian ModelNumber ModelNumberX64 SpecNumber
  ProofNumber ProofNumberX64 ModelMont SpecMont ProofMont ProofMont2 ModelEC ProofNumlib ModelSM9.

(** [a] stands for [x], and is reduced, or (portable build only) [a] is the modulus and [x] is 0 *)
Definition mont_weak (w : Z) (n : nat) (P : Z) (a : list Z) (x : Z) : Prop :=
  mont_repr w n P a x \/ (w = 32 /\ limbs w n a /\ val w a = P /\ x = 0).

Record numlib9_ok (w : Z) (n : nat) (L9 : numlib9) : Prop := MkLib9Ok {
  k_lib : numlib_ok w n (l9 L9);
  k_sub32 : forall a x, limbs w n a -> 0 <= x < 2 ^ 32 -> x <= val w a ->
    limbs w n (fst (l9_sub32 L9 a x)) /\ val w (fst (l9_sub32 L9 a x)) = val w a - x;
  k_mod : forall data d, bytes data -> limbs w n d -> 0 < val w d ->
    exists x, l9_mod L9 data d = Some x /\ limbs w n x /\ val w x = be_val data mod val w d;
  k_add : forall ctx P a b x y, mont_ctx_ok w n P ctx -> mont_weak w n P a x -> mont_repr w n P b y ->
    mont_repr w n P (m_add (l9 L9) ctx a b) ((x + y) mod P);
  k_addw : forall ctx P a b x y, mont_ctx_ok w n P ctx -> mont_repr w n P a x -> mont_weak w n P b y ->
    mont_repr w n P (m_add (l9 L9) ctx a b) ((x + y) mod P);
  k_addww : forall ctx P a b x y, mont_ctx_ok w n P ctx -> mont_weak w n P a x -> mont_weak w n P b y ->
    mont_weak w n P (m_add (l9 L9) ctx a b) ((x + y) mod P);
  k_sub : forall ctx P a b x y, mont_ctx_ok w n P ctx -> mont_repr w n P a x -> mont_weak w n P b y ->
    mont_repr w n P (m_sub (l9 L9) ctx a b) ((x - y) mod P);
  k_mul : forall ctx P a b x y, mont_ctx_ok w n P ctx -> mont_weak w n P a x -> mont_weak w n P b y ->
    mont_repr w n P (m_mul (l9 L9) ctx a b) ((x * y) mod P);
  k_sqr : forall ctx P a x, mont_ctx_ok w n P ctx -> mont_weak w n P a x ->
    mont_repr w n P (m_sqr (l9 L9) ctx a) ((x * x) mod P);
  k_neg : forall ctx P a x, mont_ctx_ok w n P ctx -> mont_weak w n P a x ->
    mont_weak w n P (m_neg (l9 L9) ctx a) ((- x) mod P);
  k_to : forall ctx P a x, mont_ctx_ok w n P ctx -> mont_weak w n P a x ->
    m_to_bytes (l9 L9) ctx a = be_bytes 32 x
}.

Section Weak.
  Variables (ctx : mont_ctx) (P : Z).
  Hypothesis OK : mont_ctx_ok 32 8 P ctx.
  Notation repr := (mont_repr 32 8 P).
  Notation weak := (mont_weak 32 8 P).
  Let Ho : Z.odd P = true := co_odd _ _ _ _ OK.
  Let HP : limbs 32 8 (m_P ctx) := co_P _ _ _ _ OK.
  Let HPv : val 32 (m_P ctx) = P := co_Pv _ _ _ _ OK.
  Let HP2 : 2 < P := co_pos _ _ _ _ OK.

  Lemma weak_facts a x : weak a x ->
    limbs 32 8 a /\ 0 <= val 32 a <= P /\ 0 <= x < P /\ val 32 a mod P = (x * 2 ^ 256) mod P.
  Proof.
    intros [(A1 & A2 & A3 & A4)|(_ & A1 & A2 & ->)].
    - split; [assumption|]. split; [lia|]. split; [assumption|]. rewrite A4. apply Z.mod_mod. lia.
    - split; [assumption|]. split; [lia|]. split; [lia|]. rewrite A2, Z_mod_same_full. now rewrite Z.mul_0_l, Z.mod_0_l by lia.
  Qed.
  Lemma weak_of a x : limbs 32 8 a -> 0 <= val 32 a <= P -> val 32 a mod P = (x * 2 ^ 256) mod P -> weak a (x mod P).
  Proof.
    intros A1 A2 A3. destruct (Z.eq_dec (val 32 a) P) as [E|N].
    - right. split; [reflexivity|]. split; [assumption|]. split; [assumption|].
      rewrite E, Z_mod_same_full in A3.
      assert (Q : (x * 2 ^ 256) mod P = (0 * 2 ^ 256) mod P) by (rewrite <- A3, Z.mul_0_l, Z.mod_0_l; lia).
      apply mod_cancel_pow2 in Q; [|assumption|lia|lia]. rewrite Q. apply Z.mod_0_l. lia.
    - left. apply mont_repr_intro; [assumption|lia|]. rewrite <- A3. symmetry. apply Z.mod_small. lia.
  Qed.
  Lemma sum_mod A B x y : A mod P = (x * 2 ^ 256) mod P -> B mod P = (y * 2 ^ 256) mod P ->
    (A + B) mod P = ((x + y) * 2 ^ 256) mod P.
  Proof. intros HA HB. rewrite Z.add_mod, HA, HB, <- Z.add_mod by lia. f_equal. ring. Qed.

  Lemma add_lt a b : limbs 32 8 a -> limbs 32 8 b -> val 32 a + val 32 b < 2 * P ->
    limbs 32 8 (mont256_add ctx a b) /\ val 32 (mont256_add ctx a b) = (val 32 a + val 32 b) mod P.
  Proof.
    intros Ha Hb Hlt. unfold mont256_add, uint256_mod_add, uint256_add_carry.
    pose proof (add_limbs_spec 8 a b 0 Ha Hb ltac:(lia)) as S.
    destruct (add_limbs a b 0) as [s c]. destruct S as (S1 & S2 & S3). rewrite C256 in S3.
    pose proof (cond_sub_spec s c (m_P ctx) S1 HP S2 ltac:(lia)) as H. cbv zeta in H.
    rewrite S3, Z.add_0_r, HPv in H. split; [exact (proj1 H)|exact (proj1 (proj2 H))].
  Qed.
  Lemma weak_add a b x y : weak a x -> repr b y -> repr (mont256_add ctx a b) ((x + y) mod P).
  Proof.
    intros HA HB. destruct (weak_facts a x HA) as (A1 & A2 & A3 & A4).
    destruct (weak_facts b y (or_introl HB)) as (B1 & _ & B3 & B4). destruct HB as (_ & B2 & _).
    destruct (add_lt a b A1 B1 ltac:(lia)) as [F1 F2].
    apply mont_repr_intro; [assumption|lia|]. rewrite F2. now apply sum_mod.
  Qed.
  Lemma weak_addw a b x y : repr a x -> weak b y -> repr (mont256_add ctx a b) ((x + y) mod P).
  Proof.
    intros HA HB. destruct (weak_facts b y HB) as (B1 & B2 & B3 & B4).
    destruct (weak_facts a x (or_introl HA)) as (A1 & _ & A3 & A4). destruct HA as (_ & A2 & _).
    destruct (add_lt a b A1 B1 ltac:(lia)) as [F1 F2].
    apply mont_repr_intro; [assumption|lia|]. rewrite F2. now apply sum_mod.
  Qed.
  Lemma weak_addww a b x y : weak a x -> weak b y -> weak (mont256_add ctx a b) ((x + y) mod P).
  Proof.
    intros HA HB. destruct HA as [HA|(_ & A1 & A2 & ->)]; [left; now apply weak_addw|].
    destruct HB as [HB|(_ & B1 & B2 & ->)]; [left; apply weak_add; [right; tauto|assumption]|].
    right. split; [reflexivity|].
    unfold mont256_add, uint256_mod_add, uint256_add_carry.
    pose proof (add_limbs_spec 8 a b 0 A1 B1 ltac:(lia)) as S.
    destruct (add_limbs a b 0) as [s c]. destruct S as (S1 & S2 & S3). rewrite C256 in S3.
    rewrite (cmp32 s _ S1 HP), HPv. pose proof (val_bound 32 8 s ltac:(lia) S1) as Bs. rewrite C256 in Bs.
    assert (E : negb (c =? 0) || (P <=? val 32 s) = true) by lia. rewrite E.
    pose proof (sub_limbs_spec 8 s (m_P ctx) 0 S1 HP ltac:(lia)) as S. unfold uint256_sub_borrow.
    destruct (sub_limbs s (m_P ctx) 0) as [r b']. destruct S as (R1 & R2 & R3). rewrite C256 in R3.
    cbn [fst]. pose proof (val_bound 32 8 r ltac:(lia) R1) as Br. rewrite C256 in Br.
    pose proof (P_lt ctx P OK) as PL.
    split; [assumption|]. split; [lia|]. now rewrite Z.mod_0_l by lia.
  Qed.
  Lemma weak_sub a b x y : repr a x -> weak b y -> repr (mont256_sub ctx a b) ((x - y) mod P).
  Proof.
    intros HA HB. destruct HB as [HB|(_ & B1 & B2 & ->)]; [now apply sub_repr|].
    rewrite Z.sub_0_r. pose proof HA as (A1 & A2 & A3 & A4).
    unfold mont256_sub, uint256_mod_sub, uint256_sub_borrow.
    pose proof (sub_limbs_spec 8 a b 0 A1 B1 ltac:(lia)) as S.
    destruct (sub_limbs a b 0) as [s c]. destruct S as (S1 & S2 & S3). rewrite C256 in S3.
    pose proof (val_bound 32 8 s ltac:(lia) S1) as Bs. rewrite C256 in Bs.
    assert (E : negb (c =? 0) = true) by lia. rewrite E. cbn [orb].
    unfold uint256_add_carry. pose proof (add_limbs_spec 8 s (m_P ctx) 0 S1 HP ltac:(lia)) as S.
    destruct (add_limbs s (m_P ctx) 0) as [r b']. destruct S as (R1 & R2 & R3). rewrite C256 in R3.
    cbn [fst]. pose proof (val_bound 32 8 r ltac:(lia) R1) as Br. rewrite C256 in Br.
    pose proof (P_lt ctx P OK) as PL.
    apply mont_repr_intro; [assumption|lia|]. rewrite <- A4. lia.
  Qed.
  Lemma weak_mul a b x y : weak a x -> weak b y -> repr (mont256_mul ctx a b) ((x * y) mod P).
  Proof.
    intros HA HB. destruct (weak_facts a x HA) as (A1 & A2 & A3 & A4).
    destruct (weak_facts b y HB) as (B1 & B2 & B3 & B4).
    unfold mont256_mul, uint256_mul. destruct (mul_limbs_spec 8 a b A1 B1) as [M1 M2].
    eapply redc_repr; [exact Ho|lia|apply redc_spec; [assumption|exact M1|]|].
    - rewrite M2. pose proof (P_lt ctx P OK) as PL. clear - A2 B2 PL HP2. nia.
    - rewrite M2. rewrite Z.mul_mod, A4, B4 by lia. rewrite <- Z.mul_mod by lia. f_equal. ring.
  Qed.
  Lemma weak_neg a x : weak a x -> weak (mont256_neg ctx a) ((- x) mod P).
  Proof.
    intros HA. destruct (weak_facts a x HA) as (A1 & A2 & A3 & A4).
    unfold mont256_neg, uint256_sub_borrow.
    pose proof (sub_limbs_spec 8 (m_P ctx) a 0 HP A1 ltac:(lia)) as S.
    destruct (sub_limbs (m_P ctx) a 0) as [t b]. destruct S as (T1 & T2 & T3). rewrite C256 in T3.
    pose proof (val_bound 32 8 t ltac:(lia) T1) as Bt. rewrite C256 in Bt. pose proof (P_lt ctx P OK) as PL.
    cbn [fst]. assert (E : val 32 t = P - val 32 a) by lia.
    apply weak_of; [assumption|lia|]. rewrite E.
    replace (P - val 32 a) with (0 - val 32 a + 1 * P) by ring. rewrite Z_mod_plus_full.
    rewrite Zminus_mod, A4, <- Zminus_mod. f_equal. ring.
  Qed.
  Lemma weak_to a x : weak a x -> mont256_to_bytes ctx a = be_bytes 32 x.
  Proof.
    intros HA. destruct (weak_facts a x HA) as (A1 & A2 & A3 & A4).
    unfold mont256_to_bytes, uint256_from_mont.
    assert (Vz : val 32 (a ++ [0; 0; 0; 0; 0; 0; 0; 0]) = val 32 a).
    { rewrite val_app by lia. cbn [val]. ring. }
    assert (Lz : limbs 32 16 (a ++ [0; 0; 0; 0; 0; 0; 0; 0])).
    { apply (limbs_app 32 8 8); [assumption|]. apply (limbs_zeros 32 8). lia. }
    destruct (redc_spec ctx P _ OK Lz) as (R1 & R2 & R3).
    { rewrite Vz. nia. }
    rewrite uint256_to_bytes_spec by exact R1. f_equal. rewrite Vz, A4 in R3.
    apply mod_cancel_pow2 in R3; [|assumption|lia|lia].
    rewrite !Z.mod_small in R3 by lia. exact R3.
  Qed.
End Weak.

Lemma lib9_common_ok : numlib9_ok 32 8 lib9_common.
Proof.
  constructor; cbn [l9 l9_sub32 l9_mod lib9_common lib_common m_add m_sub m_mul m_sqr m_neg m_to_bytes].
  - exact lib_common_ok.
  - intros a x Ha Hx Hle. destruct (limbs_single 32 7 x ltac:(lia) Hx) as [L V].
    change (x :: repeat 0 7) with [x; 0; 0; 0; 0; 0; 0; 0] in *.
    pose proof (sub_limbs_spec 8 a _ 0 Ha L ltac:(lia)) as S.
    unfold uint256_sub_borrow_uint32. destruct (sub_limbs a _ 0) as [r c].
    rewrite C256, Z.add_0_r, V in S. destruct S as (S1 & S2 & S3).
    pose proof (val_bound 32 8 r ltac:(lia) S1) as B. rewrite C256 in B. cbn [fst]. split; [assumption|]. lia.
  - exact uint256_mod_spec.
  - intros; now apply weak_add.
  - intros; now apply weak_addw.
  - intros; now apply weak_addww.
  - intros; now apply weak_sub.
  - intros; now apply weak_mul.
  - intros ctx P a x OK HA. exact (weak_mul ctx P OK a a x x HA HA).
  - intros; now apply weak_neg.
  - intros ctx P a x OK HA. exact (weak_to ctx P OK a x HA).
Qed.

Lemma weak_x64 P a x : mont_weak 64 4 P a x -> mont_repr 64 4 P a x.
Proof. intros [H|[H _]]; [exact H|discriminate]. Qed.
Lemma lib9_x64_ok : numlib9_ok 64 4 lib9_x64.
Proof.
  constructor; cbn [l9 l9_sub32 l9_mod lib9_x64 lib_x64 m_add m_sub m_mul m_sqr m_neg m_to_bytes].
  - exact lib_x64_ok.
  - intros a x Ha Hx Hle. destruct (limbs_single 64 3 x ltac:(lia) ltac:(lia)) as [L V].
    change (x :: repeat 0 3) with [x; 0; 0; 0] in *.
    unfold x64_sub_borrow_uint64.
    pose proof (subb_spec 4 0 a _ Ha L ltac:(lia)) as S. destruct (subb 0 a _) as [r c].
    destruct S as (S1 & S2 & S3). rewrite C256x, V in S3.
    pose proof (val_bound 64 4 r ltac:(lia) S1) as B. rewrite C256x in B. cbn [fst]. split; [assumption|]. lia.
  - exact x64_mod_spec.
  - intros ctx P a b x y OK HA HB. apply weak_x64 in HA. now apply x64_add_repr.
  - intros ctx P a b x y OK HA HB. apply weak_x64 in HB. now apply x64_add_repr.
  - intros ctx P a b x y OK HA HB. apply weak_x64 in HA, HB. left. now apply x64_add_repr.
  - intros ctx P a b x y OK HA HB. apply weak_x64 in HB. now apply x64_sub_repr.
  - intros ctx P a b x y OK HA HB. apply weak_x64 in HA, HB. now apply x64_mul_repr.
  - intros ctx P a x OK HA. apply weak_x64 in HA. now apply x64_sqr_repr.
  - intros ctx P a x OK HA. apply weak_x64 in HA. left. now apply x64_neg_repr.
  - intros ctx P a x OK HA. apply weak_x64 in HA. exact (ok_mto _ _ _ lib_x64_ok ctx P a x OK HA).
Qed.

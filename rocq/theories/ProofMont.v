(** Correctness of Montgomery arithmetic, both variants (ModelMont.v). *)
From Coq Require Import Znumtheory Zpow_facts.
From Verif Require Import Base BaseFacts ModelEndian ProofEndian ModelNumber ModelNumberX64 SpecNumber
  ProofNumber ProofNumberX64 ModelMont SpecMont.

(** ** Congruences *)
Lemma mod_eq_iff P a b : 0 < P -> (a mod P = b mod P <-> exists k, a = b + k * P).
Proof.
  intros HP. split.
  - intros H. exists (a / P - b / P). pose proof (Z.div_mod a P). pose proof (Z.div_mod b P). lia.
  - intros [k ->]. apply Z.mod_add. lia.
Qed.

Lemma odd_rel_prime_2 P n : Z.odd P = true -> 0 <= n -> rel_prime P (2 ^ n).
Proof.
  intros HP Hn. apply rel_prime_Zpower_r; [assumption|].
  apply rel_prime_sym, prime_rel_prime; [apply prime_2|].
  intros [k Hk]. subst P. rewrite Z.mul_comm, Z.odd_mul in HP. discriminate.
Qed.

Lemma mod_cancel_pow2 P n a b : Z.odd P = true -> 0 < P -> 0 <= n ->
  (a * 2 ^ n) mod P = (b * 2 ^ n) mod P -> a mod P = b mod P.
Proof.
  intros Ho HP Hn H. apply mod_eq_iff in H; [|assumption]. destruct H as [k H].
  assert (D : (P | 2 ^ n * (a - b))) by (exists k; lia).
  apply Gauss in D; [|now apply odd_rel_prime_2].
  destruct D as [j Hj]. apply mod_eq_iff; [assumption|]. exists j. lia.
Qed.

(** ** mont_compute_N *)
Lemma egcd_loop_total k w a b x1 x2 y1 y2 m : (2 * m + 1 <= k)%nat ->
  0 <= b < 2 ^ Z.of_nat m -> egcd_loop k w a b x1 x2 y1 y2 <> None.
Proof.
  revert k a b x1 x2 y1 y2. induction m as [|m IH]; intros k a b x1 x2 y1 y2 Hk Hb.
  - destruct k as [|k]; [lia|]. change (2 ^ Z.of_nat 0) with 1 in Hb.
    assert (b = 0) as -> by lia. cbn [egcd_loop]. rewrite Z.eqb_refl. discriminate.
  - destruct k as [|[|k]]; [lia|lia|]. cbn [egcd_loop].
    destruct (b =? 0) eqn:E0; [discriminate|].
    pose proof (Z.mod_pos_bound a b ltac:(lia)) as Hr. set (r := a mod b) in *.
    destruct (r =? 0) eqn:E1; [discriminate|].
    apply IH; [lia|].
    pose proof (Z.mod_pos_bound b r ltac:(lia)) as Hr2. split; [lia|].
    rewrite Nat2Z.inj_succ, Z.pow_succ_r in Hb by lia.
    assert (2 * (b mod r) < b); [|lia].
    pose proof (Z.div_mod b r ltac:(lia)) as DM.
    assert (1 <= b / r) by (apply Z.div_le_lower_bound; lia). nia.
Qed.

Lemma egcd_loop_inv k w A B a b x1 x2 y1 y2 X Y : 0 < w -> 0 <= a -> 0 <= b ->
  (x1 * A + y1 * B) mod 2 ^ w = a mod 2 ^ w -> (x2 * A + y2 * B) mod 2 ^ w = b mod 2 ^ w ->
  rel_prime a b ->
  egcd_loop k w a b x1 x2 y1 y2 = Some (X, Y) -> (X * A + Y * B) mod 2 ^ w = 1 mod 2 ^ w.
Proof.
  intros Hw. assert (Hp : 0 < 2 ^ w) by lia.
  revert a b x1 x2 y1 y2. induction k as [|k IH]; intros a b x1 x2 y1 y2 Ha Hb E1 E2 Hg H;
    [discriminate|].
  cbn [egcd_loop] in H. destruct (b =? 0) eqn:E0.
  - injection H as <- <-. assert (b = 0) by lia. subst b. rewrite E1. f_equal.
    assert (Hd : (a | 1)).
    { apply Hg; [exists 1; lia|exists 0; lia]. }
    apply Z.divide_1_r in Hd. lia.
  - revert H. apply IH; clear IH.
    + lia.
    + apply Z.mod_pos_bound. lia.
    + exact E2.
    + apply mod_eq_iff in E1; [|assumption]. destruct E1 as [k1 E1].
      apply mod_eq_iff in E2; [|assumption]. destruct E2 as [k2 E2].
      set (q := a / b). 
      rewrite (Z.mod_eq (x1 - q * x2)), (Z.mod_eq (y1 - q * y2)) by lia.
      set (u := (x1 - q * x2) / 2 ^ w). set (v := (y1 - q * y2) / 2 ^ w).
      apply mod_eq_iff; [assumption|].
      exists (k1 - q * k2 - u * A - v * B).
      rewrite (Z.mod_eq a b) by lia. fold q.
      replace a with (x1 * A + y1 * B - k1 * 2 ^ w) at 1 by lia.
      replace (b * q) with (q * (x2 * A + y2 * B - k2 * 2 ^ w)).
      2: { rewrite E2. ring. }
      ring.
    + apply rel_prime_sym. apply rel_prime_mod; [lia|]. assumption.
Qed.

Lemma mont_compute_N_spec w P0 : 1 < w -> 0 < P0 < 2 ^ w -> Z.odd P0 = true ->
  0 <= mont_compute_N w P0 < 2 ^ w /\ (mont_compute_N w P0 * P0) mod 2 ^ w = 2 ^ w - 1.
Proof.
  intros Hw HP Ho. unfold mont_compute_N.
  assert (Hp : 2 <= 2 ^ w).
  { change 2 with (2 ^ 1) at 1. apply Z.pow_le_mono_r; lia. }
  assert (Hneg : (- P0) mod 2 ^ w = 2 ^ w - P0).
  { symmetry. apply (Z.mod_unique_pos _ _ (-1)); lia. }
  rewrite Hneg.
  pose proof (egcd_loop_total (Z.to_nat (2 * w) + 2) w P0 (2 ^ w - P0) 1 0 0 1 (Z.to_nat w)
                ltac:(lia) ltac:(rewrite Z2Nat.id by lia; lia)) as T.
  destruct (egcd_loop _ w P0 (2 ^ w - P0) 1 0 0 1) as [[X Y]|] eqn:E; [|congruence]. clear T.
  apply (egcd_loop_inv _ w P0 (2 ^ w - P0)) in E; try lia.
  2: { f_equal. ring. } 2: { f_equal. ring. }
  2: { apply rel_prime_sym.
       replace (2 ^ w - P0) with (2 ^ w + (-1) * P0) by ring.
       pose proof (odd_rel_prime_2 P0 w Ho ltac:(lia)) as G. apply rel_prime_sym in G.
       clear - G. constructor; [apply Z.divide_1_l|apply Z.divide_1_l|].
       intros x [p Hx] [q Hy]. destruct G as [_ _ G]. apply G; [|exists q; assumption].
       exists (p + q). lia. }
  split; [apply Z.mod_pos_bound; lia|].
  rewrite Zmult_mod_idemp_l.
  apply mod_eq_iff in E; [|lia]. destruct E as [k E].
  symmetry. apply (Z.mod_unique_pos _ _ (Y - k - 1)); [lia|].
  replace (- (X - Y) * P0) with (- (X * P0 + Y * (2 ^ w - P0)) + Y * 2 ^ w) by ring.
  rewrite E. ring.
Qed.

(** ** Reduction, portable *)
Lemma carry_prop_spec n l c : limbs 32 n l -> 0 <= c <= 1 ->
  let (r, c2) := carry_prop l c in
  limbs 32 n r /\ 0 <= c2 <= 1 /\ val 32 r + pw 32 n * c2 = val 32 l + c.
Proof.
  revert l c. induction n as [|n IH]; intros l c Hl Hc.
  - destruct l; [|destruct Hl; discriminate]. cbn [carry_prop val]. rewrite pw_0.
    split; [apply limbs_nil|]. lia.
  - destruct l as [|x l]; [destruct Hl; discriminate|]. cbn [carry_prop].
    destruct (c =? 0) eqn:E.
    + assert (c = 0) as -> by lia. split; [assumption|]. lia.
    + apply limbs_cons in Hl. destruct Hl as [Hx Hl].
      pose proof (add_carry_spec x 0 c Hx ltac:(lia) Hc) as S.
      destruct (add_carry x 0 c) as [s c1]. destruct S as (S1 & S2 & S3).
      specialize (IH l c1 Hl S3). destruct (carry_prop l c1) as [r c2].
      destruct IH as (I1 & I2 & I3). split; [apply limbs_cons; split; assumption|].
      split; [assumption|]. cbn [val]. rewrite pw_S by lia.
      replace (s + 2 ^ 32 * val 32 r + 2 ^ 32 * pw 32 n * c2)
        with (s + 2 ^ 32 * (val 32 r + pw 32 n * c2)) by ring. rewrite I3. lia.
Qed.

(** the digit chosen by the reduction kills the lowest limb *)
Lemma redc_digit w N P u : 0 < w -> (N * P) mod 2 ^ w = 2 ^ w - 1 ->
  (u + ((u * N) mod 2 ^ w) * P) mod 2 ^ w = 0.
Proof.
  intros Hw HN. assert (0 < 2 ^ w) by lia.
  rewrite <- Zplus_mod_idemp_r, Zmult_mod_idemp_l, Zplus_mod_idemp_r.
  rewrite <- Z.mul_assoc. rewrite <- Zplus_mod_idemp_r, <- Zmult_mod_idemp_r, HN, Zplus_mod_idemp_r.
  replace (u + u * (2 ^ w - 1)) with (u * 2 ^ w) by ring. apply Z.mod_mul. lia.
Qed.

Lemma val_hd_mod w n l : 0 <= w -> limbs w n l -> val w l mod 2 ^ w = nz l 0 mod 2 ^ w.
Proof.
  intros Hw Hl. destruct l as [|x l]; [reflexivity|]. cbn [val]. change (nz (x :: l) 0) with x.
  rewrite Z.mul_comm, Z.mod_add; [reflexivity|]. lia.
Qed.

Lemma redc_step_spec k ctx u P :
  mont_ctx_ok 32 8 P ctx -> limbs 32 (9 + k) u ->
  exists m v c, redc_step ctx u = (v, c) /\ 0 <= m < 2 ^ 32 /\ 0 <= c <= 1 /\
    limbs 32 (8 + k) (skipn 1 v) /\
    2 ^ 32 * (val 32 (skipn 1 v) + pw 32 (8 + k) * c) = val 32 u + m * P.
Proof.
  intros OK Hu. destruct OK as [O1 O2 HP HPv _ _ _ _ _ _ HN HNv].
  unfold redc_step. cbv zeta.
  set (m := w32 (nz u 0 * m_N ctx)).
  assert (Hm : 0 <= m < 2 ^ 32) by (unfold m, w32; apply Z.mod_pos_bound; lia).
  pose proof (limbs_firstn 32 _ 8 u Hu ltac:(lia)) as Hf.
  pose proof (limbs_skipn 32 _ 8 u Hu ltac:(lia)) as Hs.
  replace (9 + k - 8)%nat with (S k) in Hs by lia.
  assert (Vu : val 32 u = val 32 (firstn 8 u) + pw 32 8 * val 32 (skipn 8 u)).
  { rewrite <- (firstn_skipn 8 u) at 1. rewrite val_app by lia.
    now rewrite (limbs_length _ _ _ Hf). }
  pose proof (addmul_row_spec 8 (firstn 8 u) (m_P ctx) m 0 Hf HP Hm ltac:(lia)) as S.
  destruct (addmul_row (firstn 8 u) (m_P ctx) m 0) as [lo carry]. destruct S as (S1 & S2 & S3).
  destruct (skipn 8 u) as [|x rest]; [destruct Hs; discriminate|].
  apply limbs_cons in Hs. destruct Hs as [Hx Hr].
  pose proof (add_carry_spec x carry 0 Hx S2 ltac:(lia)) as T.
  destruct (add_carry x carry 0) as [s c]. destruct T as (T1 & T2 & T3).
  pose proof (carry_prop_spec k rest c Hr T3) as W.
  destruct (carry_prop rest c) as [r c2]. destruct W as (W1 & W2 & W3).
  assert (Hv : limbs 32 (9 + k) (lo ++ s :: r)).
  { replace (9 + k)%nat with (8 + S k)%nat by lia. apply limbs_app; [assumption|].
    apply limbs_cons. split; assumption. }
  assert (Tot : val 32 (lo ++ s :: r) + pw 32 (9 + k) * c2 = val 32 u + m * P).
  { rewrite val_app by lia. rewrite (limbs_length _ _ _ S1). cbn [val] in *.
    rewrite Vu. rewrite HPv in S3.
    replace (9 + k)%nat with (8 + S k)%nat by lia. rewrite pw_add by lia. rewrite (pw_S 32 k) by lia.
    replace (val 32 lo + pw 32 8 * (s + 2 ^ 32 * val 32 r) + pw 32 8 * (2 ^ 32 * pw 32 k) * c2)
      with (val 32 lo + pw 32 8 * (s + 2 ^ 32 * (val 32 r + pw 32 k * c2))) by ring.
    rewrite W3.
    replace (s + 2 ^ 32 * (val 32 rest + c)) with (x + carry + 2 ^ 32 * val 32 rest) by lia.
    replace (m * P) with (P * m) by ring. lia. }
  exists m, (lo ++ s :: r), c2. split; [reflexivity|]. split; [assumption|]. split; [assumption|].
  set (v := lo ++ s :: r) in *. clearbody v.
  destruct v as [|v0 v]; [destruct Hv; discriminate|]. cbn [skipn].
  change (9 + k)%nat with (S (8 + k)) in *. apply limbs_cons in Hv. destruct Hv as [Hv0 Hv].
  split; [assumption|]. cbn [val] in Tot. rewrite pw_S in Tot by lia.
  assert (Hz : v0 = 0).
  { assert (E : (v0 + 2 ^ 32 * (val 32 v + pw 32 (8 + k) * c2)) mod 2 ^ 32 = 0).
    { replace (v0 + 2 ^ 32 * (val 32 v + pw 32 (8 + k) * c2)) with (val 32 u + m * P) by lia.
      rewrite <- Zplus_mod_idemp_l, (val_hd_mod 32 _ _ ltac:(lia) Hu), Zplus_mod_idemp_l.
      unfold m, w32. apply redc_digit; [lia|assumption]. }
    rewrite Z.mul_comm, Z.mod_add, Z.mod_small in E by lia. exact E. }
  lia.
Qed.

Lemma redc_loop_spec n ctx P : mont_ctx_ok 32 8 P ctx -> forall u t16,
  limbs 32 (8 + n) u -> 0 <= t16 -> t16 + Z.of_nat n < 2 ^ 32 ->
  exists M r t, redc_loop n ctx u t16 = (r, t) /\ 0 <= M < pw 32 n /\ limbs 32 8 r /\ 0 <= t /\
    pw 32 n * (val 32 r + 2 ^ 256 * t) = val 32 u + pw 32 (8 + n) * t16 + M * P.
Proof.
  intros OK. induction n as [|n IH]; intros u t16 Hu Ht Hb.
  - exists 0, u, t16. split; [reflexivity|]. rewrite pw_0. split; [lia|]. split; [assumption|].
    split; [assumption|]. change (pw 32 (8 + 0)) with (2 ^ 256). lia.
  - cbn [redc_loop].
    replace (8 + S n)%nat with (9 + n)%nat in * by lia.
    destruct (redc_step_spec n ctx u P OK Hu) as (m & v & c & E & Hm & Hc & Hv & Tot).
    rewrite E. unfold w32. rewrite (Z.mod_small (t16 + c)) by lia.
    destruct (IH (skipn 1 v) (t16 + c) Hv ltac:(lia) ltac:(lia))
      as (M & r & t & E2 & HM & Hr & Ht2 & Tot2).
    exists (m + 2 ^ 32 * M), r, t. split; [exact E2|].
    rewrite pw_S by lia. split; [nia|]. split; [assumption|]. split; [assumption|].
    change (9 + n)%nat with (S (8 + n)). rewrite pw_S by lia.
    replace (2 ^ 32 * pw 32 n * (val 32 r + 2 ^ 256 * t))
      with (2 ^ 32 * (pw 32 n * (val 32 r + 2 ^ 256 * t))) by ring.
    rewrite Tot2.
    replace ((m + 2 ^ 32 * M) * P) with (m * P + 2 ^ 32 * (M * P)) by ring. lia.
Qed.

(** what a Montgomery reduction must deliver *)
Definition redc_ok (w : Z) (n : nat) (P : Z) (r : list Z) (T : Z) : Prop :=
  limbs w n r /\ 0 <= val w r < P /\ (val w r * 2 ^ 256) mod P = T mod P.

Lemma redc_spec ctx P t : mont_ctx_ok 32 8 P ctx -> limbs 32 16 t -> val 32 t < P * 2 ^ 256 ->
  redc_ok 32 8 P (mont256_redc ctx t) (val 32 t).
Proof.
  intros OK Ht Hlt. unfold mont256_redc.
  destruct (redc_loop_spec 8 ctx P OK t 0 Ht ltac:(lia) ltac:(lia))
    as (M & r & t16 & E & HM & Hr & Ht16 & Tot).
  rewrite E. change (pw 32 8) with (2 ^ 256) in *.
  destruct OK as [O1 O2 HP HPv _ _ _ _ _ _ _ _].
  pose proof (val_bound 32 8 r ltac:(lia) Hr) as Br. rewrite C256 in Br.
  pose proof (val_bound 32 8 (m_P ctx) ltac:(lia) HP) as BP. rewrite C256, HPv in BP.
  set (W := val 32 r + 2 ^ 256 * t16) in *.
  assert (HW : W < 2 * P) by nia.
  assert (Hc : 0 <= t16 <= 1) by (unfold W in HW; lia).
  pose proof (cond_sub_spec r t16 (m_P ctx) Hr HP Hc) as F. rewrite HPv in F. fold W in F.
  specialize (F HW). cbv zeta in F. destruct F as (F1 & F2 & F3).
  split; [exact F1|]. split; [exact F3|].
  rewrite F2. rewrite Zmult_mod_idemp_l. apply mod_eq_iff; [lia|]. exists M. lia.
Qed.

(** ** Reduction, x64 *)
Lemma val_zeros w n : val w (repeat 0 n) = 0.
Proof. induction n as [|n IH]; [reflexivity|]. cbn [repeat val]. rewrite IH. lia. Qed.
Lemma limbs_zeros w n : 0 <= w -> limbs w n (repeat 0 n).
Proof.
  intros. split; [apply repeat_length|]. apply Forall_forall. intros x Hx.
  apply repeat_spec in Hx. subst. lia.
Qed.

Lemma x64_redc_step_spec k ctx u P T8 :
  mont_ctx_ok 64 4 P ctx -> limbs 64 (5 + k) u -> 0 <= T8 < 2 ^ 64 - 1 ->
  exists m v t, x64_redc_step ctx u T8 = (v, t) /\ 0 <= m < 2 ^ 64 /\ T8 <= t <= T8 + 1 /\
    limbs 64 (4 + k) (skipn 1 v) /\
    2 ^ 64 * (val 64 (skipn 1 v) + pw 64 (4 + k) * t) = val 64 u + pw 64 (5 + k) * T8 + m * P.
Proof.
  intros OK Hu HT. destruct OK as [O1 O2 HP HPv _ _ _ _ _ _ HN HNv].
  unfold x64_redc_step. cbv zeta.
  set (m := w64 (nz u 0 * m_N ctx)).
  assert (Hm : 0 <= m < 2 ^ 64) by (unfold m, w64; apply Z.mod_pos_bound; lia).
  destruct (mul_step1_spec 4 (m_P ctx) m ltac:(lia) HP Hm) as [L V].
  rewrite (limbs_length _ _ _ Hu). replace (5 + k - 5)%nat with k by lia.
  assert (Lp : limbs 64 (5 + k) (x64_mul_step1 (m_P ctx) m ++ repeat 0 k)).
  { apply limbs_app; [exact L|apply limbs_zeros; lia]. }
  assert (Vp : val 64 (x64_mul_step1 (m_P ctx) m ++ repeat 0 k) = m * P).
  { rewrite val_app by lia. rewrite val_zeros, V, HPv. ring. }
  pose proof (addc_spec (5 + k) 0 u _ Hu Lp ltac:(lia)) as S.
  destruct (addc 0 u _) as [v c]. destruct S as (Hv & S2 & S3). rewrite Vp in S3.
  pose proof (addcarry_spec c T8 0 S2 ltac:(lia) ltac:(lia)) as A.
  destruct (addcarry_u64 c T8 0) as [t8 c']. destruct A as (A1 & A2 & A3).
  assert (c' = 0) by lia. subst c'. assert (t8 = T8 + c) by lia. subst t8.
  exists m, v, (T8 + c). split; [reflexivity|]. split; [assumption|]. split; [lia|].
  destruct v as [|v0 v]; [destruct Hv; discriminate|]. cbn [skipn].
  change (5 + k)%nat with (S (4 + k)) in *. apply limbs_cons in Hv. destruct Hv as [Hv0 Hv].
  split; [assumption|]. cbn [val] in S3. rewrite pw_S in S3 |- * by lia.
  assert (Hz : v0 = 0).
  { assert (E : (v0 + 2 ^ 64 * (val 64 v + pw 64 (4 + k) * c)) mod 2 ^ 64 = 0).
    { replace (v0 + 2 ^ 64 * (val 64 v + pw 64 (4 + k) * c)) with (val 64 u + m * P) by lia.
      rewrite <- Zplus_mod_idemp_l, (val_hd_mod 64 _ _ ltac:(lia) Hu), Zplus_mod_idemp_l.
      unfold m, w64. apply redc_digit; [lia|assumption]. }
    rewrite Z.mul_comm, Z.mod_add, Z.mod_small in E by lia. exact E. }
  lia.
Qed.

Lemma x64_redc_loop_spec n ctx P : mont_ctx_ok 64 4 P ctx -> forall u t8,
  limbs 64 (4 + n) u -> 0 <= t8 -> t8 + Z.of_nat n < 2 ^ 64 - 1 ->
  exists M r t, x64_redc_loop n ctx u t8 = (r, t) /\ 0 <= M < pw 64 n /\ limbs 64 4 r /\ 0 <= t /\
    pw 64 n * (val 64 r + 2 ^ 256 * t) = val 64 u + pw 64 (4 + n) * t8 + M * P.
Proof.
  intros OK. induction n as [|n IH]; intros u t16 Hu Ht Hb.
  - exists 0, u, t16. split; [reflexivity|]. rewrite pw_0. split; [lia|]. split; [assumption|].
    split; [assumption|]. change (pw 64 (4 + 0)) with (2 ^ 256). lia.
  - cbn [x64_redc_loop].
    replace (4 + S n)%nat with (5 + n)%nat in * by lia.
    destruct (x64_redc_step_spec n ctx u P t16 OK Hu ltac:(lia)) as (m & v & c & E & Hm & Hc & Hv & Tot).
    rewrite E.
    destruct (IH (skipn 1 v) c Hv ltac:(lia) ltac:(lia))
      as (M & r & t & E2 & HM & Hr & Ht2 & Tot2).
    exists (m + 2 ^ 64 * M), r, t. split; [exact E2|].
    rewrite pw_S by lia. split; [nia|]. split; [assumption|]. split; [assumption|].
    replace (2 ^ 64 * pw 64 n * (val 64 r + 2 ^ 256 * t))
      with (2 ^ 64 * (pw 64 n * (val 64 r + 2 ^ 256 * t))) by ring.
    rewrite Tot2.
    replace ((m + 2 ^ 64 * M) * P) with (m * P + 2 ^ 64 * (M * P)) by ring. lia.
Qed.

Lemma x64_redc_spec ctx P t : mont_ctx_ok 64 4 P ctx -> limbs 64 8 t -> val 64 t < P * 2 ^ 256 ->
  redc_ok 64 4 P (x64_redc ctx t) (val 64 t).
Proof.
  intros OK Ht Hlt. unfold x64_redc.
  destruct (x64_redc_loop_spec 4 ctx P OK t 0 Ht ltac:(lia) ltac:(lia))
    as (M & r & t16 & E & HM & Hr & Ht16 & Tot).
  rewrite E. change (pw 64 4) with (2 ^ 256) in *.
  destruct OK as [O1 O2 HP HPv _ _ _ _ _ _ _ _].
  pose proof (val_bound 64 4 r ltac:(lia) Hr) as Br. rewrite C256x in Br.
  pose proof (val_bound 64 4 (m_P ctx) ltac:(lia) HP) as BP. rewrite C256x, HPv in BP.
  set (W := val 64 r + 2 ^ 256 * t16) in *.
  assert (HW : W < 2 * P) by nia.
  assert (Hc : 0 <= t16 <= 1) by (unfold W in HW; lia).
  pose proof (x64_cond_sub_spec r t16 (m_P ctx) Hr HP Hc) as F. rewrite HPv in F. fold W in F.
  specialize (F HW). cbv zeta in F. destruct F as (F1 & F2 & F3).
  split; [exact F1|]. split; [exact F3|].
  rewrite F2. rewrite Zmult_mod_idemp_l. apply mod_eq_iff; [lia|]. exists M. lia.
Qed.

(** ** Representation of residues *)
Lemma mont_repr_intro w n P a x : limbs w n a -> 0 < P -> val w a = (x * 2 ^ 256) mod P ->
  mont_repr w n P a (x mod P).
Proof.
  intros Ha HP E. split; [assumption|]. split; [rewrite E; apply Z.mod_pos_bound; lia|].
  split; [apply Z.mod_pos_bound; lia|]. now rewrite Zmult_mod_idemp_l.
Qed.

Lemma redc_repr w n P r T x : Z.odd P = true -> 0 < P -> redc_ok w n P r T ->
  T mod P = (x * 2 ^ 256 * 2 ^ 256) mod P -> mont_repr w n P r (x mod P).
Proof.
  intros Ho HP (R1 & R2 & R3) ET. apply mont_repr_intro; [assumption|assumption|].
  rewrite ET in R3. apply mod_cancel_pow2 in R3; [|assumption|assumption|lia].
  rewrite <- R3. symmetry. now apply Z.mod_small.
Qed.

Lemma repr_prod P x y A B : 0 < P -> A = (x * 2 ^ 256) mod P -> B = (y * 2 ^ 256) mod P ->
  (A * B) mod P = (x * y * 2 ^ 256 * 2 ^ 256) mod P.
Proof.
  intros HP -> ->. rewrite <- Z.mul_mod by lia. f_equal. ring.
Qed.

Lemma mul_lt_P A B P : 0 <= A < 2 ^ 256 -> 0 <= B < P -> A * B < P * 2 ^ 256.
Proof. intros. nia. Qed.

Section Portable.
  Variables (ctx : mont_ctx) (P : Z).
  Hypothesis OK : mont_ctx_ok 32 8 P ctx.
  Notation repr := (mont_repr 32 8 P).
  Let Ho : Z.odd P = true := co_odd _ _ _ _ OK.
  Let HP : limbs 32 8 (m_P ctx) := co_P _ _ _ _ OK.
  Let HPv : val 32 (m_P ctx) = P := co_Pv _ _ _ _ OK.
  Let HP2 : 2 < P := co_pos _ _ _ _ OK.
  Lemma P_lt : P < 2 ^ 256.
  Proof.
    rewrite <- HPv. pose proof (val_bound 32 8 _ ltac:(lia) HP) as B. rewrite C256 in B. lia.
  Qed.

  Lemma mul_redc a b : limbs 32 8 a -> limbs 32 8 b -> val 32 b < P ->
    redc_ok 32 8 P (mont256_mul ctx a b) (val 32 a * val 32 b).
  Proof.
    intros Ha Hb Hlt. unfold mont256_mul, uint256_mul.
    destruct (mul_limbs_spec 8 a b Ha Hb) as [M1 M2]. rewrite <- M2.
    apply redc_spec; [assumption|exact M1|]. rewrite M2.
    pose proof (val_bound 32 8 _ ltac:(lia) Ha) as Ba. rewrite C256 in Ba.
    pose proof (val_bound 32 8 _ ltac:(lia) Hb) as Bb. apply mul_lt_P; lia.
  Qed.

  Lemma mul_repr a b x y : repr a x -> repr b y -> repr (mont256_mul ctx a b) ((x * y) mod P).
  Proof.
    intros (A1 & A2 & A3 & A4) (B1 & B2 & B3 & B4).
    eapply redc_repr; [exact Ho|lia|apply mul_redc; [assumption|assumption|lia]|].
    now apply repr_prod; [lia| |].
  Qed.

  Lemma sqr_repr a x : repr a x -> repr (mont256_sqr ctx a) ((x * x) mod P).
  Proof. intros H. exact (mul_repr a a x x H H). Qed.

  Lemma to_mont_repr a : limbs 32 8 a -> repr (uint256_to_mont ctx a) (val 32 a mod P).
  Proof.
    intros Ha. pose proof (co_RR _ _ _ _ OK) as R1. pose proof (co_RRv _ _ _ _ OK) as R2.
    eapply redc_repr; [exact Ho|lia| |].
    - apply mul_redc; [exact Ha|exact R1|]. rewrite R2. apply Z.mod_pos_bound. lia.
    - rewrite R2. rewrite Zmult_mod_idemp_r. f_equal.
      rewrite <- Z.mul_assoc. f_equal.
  Qed.

  Lemma from_mont_val a x : repr a x ->
    limbs 32 8 (uint256_from_mont ctx a) /\ val 32 (uint256_from_mont ctx a) = x.
  Proof.
    intros (A1 & A2 & A3 & A4). unfold uint256_from_mont.
    assert (Vz : val 32 (a ++ [0; 0; 0; 0; 0; 0; 0; 0]) = val 32 a).
    { rewrite val_app by lia. cbn [val]. ring. }
    assert (Lz : limbs 32 16 (a ++ [0; 0; 0; 0; 0; 0; 0; 0])).
    { apply (limbs_app 32 8 8); [assumption|]. apply (limbs_zeros 32 8). lia. }
    destruct (redc_spec ctx P _ OK Lz) as (R1 & R2 & R3).
    { rewrite Vz. nia. }
    split; [exact R1|]. rewrite Vz, A4, Z.mod_mod in R3 by lia.
    apply mod_cancel_pow2 in R3; [|assumption|lia|lia].
    rewrite !Z.mod_small in R3 by lia. exact R3.
  Qed.

  Lemma add_repr a b x y : repr a x -> repr b y -> repr (mont256_add ctx a b) ((x + y) mod P).
  Proof.
    intros (A1 & A2 & A3 & A4) (B1 & B2 & B3 & B4). unfold mont256_add.
    destruct (mod_add_spec a b (m_P ctx) A1 B1 HP ltac:(lia) ltac:(lia)) as (F1 & F2 & F3).
    apply mont_repr_intro; [assumption|lia|]. rewrite F2, HPv, A4, B4.
    rewrite <- Z.add_mod by lia. f_equal. ring.
  Qed.

  Lemma sub_repr a b x y : repr a x -> repr b y -> repr (mont256_sub ctx a b) ((x - y) mod P).
  Proof.
    intros (A1 & A2 & A3 & A4) (B1 & B2 & B3 & B4). unfold mont256_sub.
    destruct (mod_sub_spec a b (m_P ctx) A1 B1 HP ltac:(lia) ltac:(lia)) as (F1 & F2 & F3).
    apply mont_repr_intro; [assumption|lia|]. rewrite F2, HPv, A4, B4.
    rewrite <- Zminus_mod. f_equal. ring.
  Qed.

  Lemma dbl_repr a x : repr a x -> repr (mont256_dbl ctx a) ((2 * x) mod P).
  Proof.
    intros (A1 & A2 & A3 & A4). unfold mont256_dbl, uint256_dbl_carry.
    pose proof (dbl_limbs_spec 8 a 0 A1 ltac:(lia)) as S.
    destruct (dbl_limbs a 0) as [s c]. destruct S as (S1 & S2 & S3). rewrite C256 in S3.
    pose proof (cond_sub_spec s c (m_P ctx) S1 HP S2 ltac:(lia)) as F. cbv zeta in F.
    destruct F as (F1 & F2 & F3).
    apply mont_repr_intro; [assumption|lia|]. rewrite F2, HPv, S3, A4.
    rewrite Z.add_0_r. rewrite Zmult_mod_idemp_r. f_equal. ring.
  Qed.

  Lemma tpl_repr a x : 2 ^ 255 <= P -> repr a x -> repr (mont256_tpl ctx a) ((3 * x) mod P).
  Proof.
    intros Hbig (A1 & A2 & A3 & A4). unfold mont256_tpl, uint256_tpl_carry.
    pose proof P_lt as HPlt.
    pose proof (tpl_limbs_spec 8 a 0 A1 ltac:(lia)) as S.
    destruct (tpl_limbs a 0) as [s0 c0]. destruct S as (S1 & S2 & S3). rewrite C256 in S3.
    set (Inv := fun s : list Z * Z => limbs 32 8 (fst s) /\ 0 <= snd s /\
                  (val 32 (fst s) + 2 ^ 256 * snd s) mod P = (3 * val 32 a) mod P).
    pose proof (while2_spec Inv (fun s => val 32 (fst s) + 2 ^ 256 * snd s)
                  (fun s : list Z * Z => negb (snd s =? 0))
                  (fun s => let (r, b) := uint256_sub_borrow (fst s) (m_P ctx) in (r, snd s + b))
                  259 (s0, c0)) as W.
    assert (H1 : forall s, Inv s -> negb (snd s =? 0) = true ->
       Inv (let (r, b) := uint256_sub_borrow (fst s) (m_P ctx) in (r, snd s + b)) /\
       0 <= val 32 (fst (let (r, b) := uint256_sub_borrow (fst s) (m_P ctx) in (r, snd s + b))) +
            2 ^ 256 * snd (let (r, b) := uint256_sub_borrow (fst s) (m_P ctx) in (r, snd s + b))
         < val 32 (fst s) + 2 ^ 256 * snd s).
    { intros [r c] (I1 & I2 & I3) Hc. cbn [fst snd] in *.
      pose proof (sub_limbs_spec 8 r (m_P ctx) 0 I1 HP ltac:(lia)) as S. unfold uint256_sub_borrow.
      destruct (sub_limbs r (m_P ctx) 0) as [t b]. destruct S as (T1 & T2 & T3). rewrite C256 in T3.
      pose proof (val_bound 32 8 t ltac:(lia) T1) as Bt. rewrite C256 in Bt.
      unfold Inv. cbn [fst snd].
      assert (E : val 32 t + 2 ^ 256 * (c + b) = val 32 r + 2 ^ 256 * c - P) by lia.
      split; [split; [assumption|split; [lia|]]|lia].
      rewrite E, <- I3.
      replace (val 32 r + 2 ^ 256 * c - P) with (val 32 r + 2 ^ 256 * c + (-1) * P) by ring.
      apply Z.mod_add. lia. }
    specialize (W H1). clear H1.
    assert (HI : Inv (s0, c0)).
    { unfold Inv. cbn [fst snd]. split; [assumption|]. split; [lia|]. rewrite S3. f_equal. lia. }
    pose proof (val_bound 32 8 s0 ltac:(lia) S1) as Bs. rewrite C256 in Bs.
    specialize (W HI ltac:(cbn [fst snd]; lia)).
    destruct (while2 259 _ _ (s0, c0)) as [s|s].
    - exfalso. destruct W as (_ & W2 & W3). cbn [fst snd] in W3.
      change (Z.of_nat 259) with 259 in W3. lia.
    - destruct s as [r c]. destruct W as [(I1 & I2 & I3) Wc]. cbn [fst snd] in *.
      assert (c = 0) by lia. subst c. rewrite Z.mul_0_r, Z.add_0_r in I3.
      pose proof (val_bound 32 8 r ltac:(lia) I1) as Br. rewrite C256 in Br.
      pose proof (cond_sub_spec r 0 (m_P ctx) I1 HP ltac:(lia) ltac:(lia)) as F. cbv zeta in F.
      change (negb (0 =? 0)) with false in F. cbn [orb] in F.
      destruct F as (F1 & F2 & F3).
      apply mont_repr_intro; [assumption|lia|]. rewrite F2, HPv, Z.mul_0_r, Z.add_0_r, I3, A4.
      rewrite Zmult_mod_idemp_r. f_equal. ring.
  Qed.

  Lemma neg_repr a x : repr a x -> x <> 0 -> repr (mont256_neg ctx a) ((- x) mod P).
  Proof.
    intros (A1 & A2 & A3 & A4) Hx. unfold mont256_neg, uint256_sub_borrow.
    pose proof (sub_limbs_spec 8 (m_P ctx) a 0 HP A1 ltac:(lia)) as S.
    destruct (sub_limbs (m_P ctx) a 0) as [t b]. destruct S as (T1 & T2 & T3). rewrite C256 in T3.
    pose proof (val_bound 32 8 t ltac:(lia) T1) as Bt. rewrite C256 in Bt. pose proof P_lt.
    cbn [fst]. assert (E : val 32 t = P - val 32 a) by lia.
    assert (Hnz : val 32 a <> 0).
    { intros Z0. rewrite Z0 in A4.
      assert (Q : (x * 2 ^ 256) mod P = (0 * 2 ^ 256) mod P).
      { rewrite <- A4, Z.mul_0_l, Z.mod_0_l; lia. }
      apply mod_cancel_pow2 in Q; [|assumption|lia|lia].
      rewrite Z.mod_small, Z.mod_0_l in Q by lia. lia. }
    apply mont_repr_intro; [assumption|lia|]. rewrite E.
    symmetry. rewrite <- (Z.mod_small (P - val 32 a) P) by lia.
    rewrite A4. replace (P - (x * 2 ^ 256) mod P) with (0 - (x * 2 ^ 256) mod P + 1 * P) by ring.
    rewrite Z.mod_add by lia. rewrite Zminus_mod_idemp_r. f_equal. ring.
  Qed.

  Lemma neg_zero a : repr a 0 -> mont256_neg ctx a = m_P ctx.
  Proof.
    intros (A1 & A2 & A3 & A4). rewrite Z.mul_0_l, Z.mod_0_l in A4 by lia.
    unfold mont256_neg, uint256_sub_borrow.
    pose proof (sub_limbs_spec 8 (m_P ctx) a 0 HP A1 ltac:(lia)) as S.
    destruct (sub_limbs (m_P ctx) a 0) as [t b]. destruct S as (T1 & T2 & T3). rewrite C256 in T3.
    pose proof (val_bound 32 8 t ltac:(lia) T1) as Bt. rewrite C256 in Bt. pose proof P_lt.
    cbn [fst]. apply (val_inj 32 8); [lia|assumption|exact HP|]. lia.
  Qed.
End Portable.

(** ** Halving (both variants) *)
Lemma shr1_spec w n l c : 0 < w -> limbs w (S n) l -> 0 <= c <= 1 ->
  limbs w (S n) (shr1_limbs w l c) /\
  2 * val w (shr1_limbs w l c) + nz l 0 mod 2 = val w l + pw w (S n) * c.
Proof.
  intros Hw. revert l. induction n as [|n IH]; intros l Hl Hc.
  - destruct l as [|x [|? ?]]; try (destruct Hl; discriminate).
    apply limbs_cons in Hl. destruct Hl as [Hx _]. cbn [shr1_limbs val].
    change (nz [x] 0) with x. rewrite pw_S, pw_0 by lia.
    rewrite Z.shiftl_mul_pow2, Z.shiftr_div_pow2 by lia. change (2 ^ 1) with 2.
    assert (E2 : 2 ^ w = 2 * 2 ^ (w - 1)).
    { rewrite <- Z.pow_succ_r by lia. f_equal. lia. }
    assert (Hp : 0 < 2 ^ (w - 1)) by lia.
    assert (Hh : 0 <= x / 2 < 2 ^ (w - 1)).
    { split; [apply Z.div_pos; lia|]. apply Z.div_lt_upper_bound; lia. }
    rewrite (Z.mod_small (c * 2 ^ (w - 1))) by nia.
    rewrite (lor_add_disjoint _ _ (w - 1)) by (try lia; apply Z.mod_mul; lia).
    split; [apply limbs_1; nia|]. pose proof (Z.div_mod x 2). lia.
  - destruct l as [|x l]; [destruct Hl; discriminate|].
    apply limbs_cons in Hl. destruct Hl as [Hx Hl].
    destruct l as [|y l]; [destruct Hl; discriminate|].
    destruct (IH _ Hl Hc) as [I1 I2].
    change (shr1_limbs w (x :: y :: l) c) with
      (Z.lor ((Z.shiftl y (w - 1)) mod 2 ^ w) (Z.shiftr x 1) :: shr1_limbs w (y :: l) c).
    set (rest := shr1_limbs w (y :: l) c) in *. clearbody rest.
    change (nz (x :: y :: l) 0) with x. change (nz (y :: l) 0) with y in I2.
    pose proof (proj1 (proj1 (limbs_cons _ _ _ _) Hl)) as Hy.
    change (val w (x :: y :: l)) with (x + 2 ^ w * val w (y :: l)).
    rewrite pw_S by lia. set (V := val w (y :: l)) in *. clearbody V. cbn [val].
    rewrite Z.shiftl_mul_pow2, Z.shiftr_div_pow2 by lia. change (2 ^ 1) with 2.
    assert (E2 : 2 ^ w = 2 * 2 ^ (w - 1)).
    { rewrite <- Z.pow_succ_r by lia. f_equal. lia. }
    assert (Hp : 0 < 2 ^ (w - 1)) by lia.
    assert (Hh : 0 <= x / 2 < 2 ^ (w - 1)).
    { split; [apply Z.div_pos; lia|]. apply Z.div_lt_upper_bound; lia. }
    assert (Em : (y * 2 ^ (w - 1)) mod 2 ^ w = y mod 2 * 2 ^ (w - 1)).
    { rewrite E2, Z.mul_mod_distr_r by lia. reflexivity. }
    rewrite Em. pose proof (Z.mod_pos_bound y 2 ltac:(lia)) as Hy2.
    rewrite (lor_add_disjoint _ _ (w - 1)) by (try lia; apply Z.mod_mul; lia).
    split; [apply limbs_cons; split; [nia|assumption]|].
    pose proof (Z.div_mod x 2).
    replace (2 * (y mod 2 * 2 ^ (w - 1) + x / 2 + 2 ^ w * val w rest) + x mod 2)
      with (2 ^ w * (y mod 2 + 2 * val w rest) + x) by lia.
    replace (y mod 2 + 2 * val w rest) with (V + pw w (S n) * c) by lia. ring.
Qed.

Lemma land1_mod2 x : Z.land x 1 = x mod 2.
Proof. change 1 with (Z.ones 1). apply Z.land_ones. lia. Qed.

Lemma val_mod2 w n l : 0 < w -> limbs w n l -> nz l 0 mod 2 = val w l mod 2.
Proof.
  intros Hw Hl. destruct l as [|x l]; [reflexivity|]. cbn [val]. change (nz (x :: l) 0) with x.
  replace (2 ^ w) with (2 ^ (w - 1) * 2).
  2: { rewrite Z.mul_comm, <- Z.pow_succ_r by lia. f_equal. lia. }
  replace (2 ^ (w - 1) * 2 * val w l) with (2 ^ (w - 1) * val w l * 2) by ring.
  rewrite Z.mod_add; lia.
Qed.

Lemma odd_mod2 x : Z.odd x = true -> x mod 2 = 1.
Proof. intros H. rewrite Zmod_odd, H. reflexivity. Qed.

(** an array [r] with 2r = a or 2r = a + P represents half of the residue *)
Lemma half_repr w n P a x r V : Z.odd P = true -> 2 < P -> mont_repr w n P a x ->
  limbs w n r -> 2 * val w r = V -> V = val w a \/ V = val w a + P ->
  exists y, mont_repr w n P r y /\ (2 * y) mod P = x.
Proof.
  intros Ho HP (A1 & A2 & A3 & A4) Hr EV HV.
  set (i2 := (P + 1) / 2).
  assert (Hi : 2 * i2 = P + 1).
  { unfold i2. pose proof (odd_mod2 P Ho). pose proof (Z.div_mod P 2 ltac:(lia)).
    replace (P + 1) with ((P / 2 + 1) * 2) by lia. rewrite Z.div_mul by lia. ring. }
  exists ((x * i2) mod P). split.
  - apply mont_repr_intro; [assumption|lia|].
    assert (E : (val w r * 2 ^ 1) mod P = (x * i2 * 2 ^ 256 * 2 ^ 1) mod P).
    { change (2 ^ 1) with 2. replace (val w r * 2) with V by lia.
      assert (EV2 : V mod P = val w a).
      { destruct HV as [-> | ->].
        - apply Z.mod_small. lia.
        - replace (val w a + P) with (val w a + 1 * P) by ring. rewrite Z.mod_add by lia.
          apply Z.mod_small. lia. }
      rewrite EV2, A4.
      replace (x * i2 * 2 ^ 256 * 2) with (x * 2 ^ 256 * (2 * i2)) by ring. rewrite Hi.
      replace (x * 2 ^ 256 * (P + 1)) with (x * 2 ^ 256 + x * 2 ^ 256 * P) by ring.
      rewrite Z.mod_add by lia. reflexivity. }
    apply mod_cancel_pow2 in E; [|assumption|lia|lia].
    rewrite <- E. symmetry. apply Z.mod_small. lia.
  - rewrite Zmult_mod_idemp_r. replace (2 * (x * i2)) with (x * (2 * i2)) by ring. rewrite Hi.
    replace (x * (P + 1)) with (x + x * P) by ring. rewrite Z.mod_add by lia.
    apply Z.mod_small. lia.
Qed.

Lemma div2_repr ctx P a x : mont_ctx_ok 32 8 P ctx -> mont_repr 32 8 P a x ->
  exists y, mont_repr 32 8 P (mont256_div2 ctx a) y /\ (2 * y) mod P = x.
Proof.
  intros OK HA. destruct OK as [Ho HP2 HP HPv _ _ _ _ _ _ _ _]. pose proof HA as (A1 & A2 & A3 & A4).
  unfold mont256_div2. rewrite land1_mod2.
  destruct (nz a 0 mod 2 =? 0) eqn:E.
  - destruct (shr1_spec 32 7 a 0 ltac:(lia) A1 ltac:(lia)) as [S1 S2].
    apply (half_repr 32 8 P a x _ (val 32 a) Ho HP2 HA S1); [lia|now left].
  - pose proof (add_limbs_spec 8 a (m_P ctx) 0 A1 HP ltac:(lia)) as S. unfold uint256_add_carry.
    destruct (add_limbs a (m_P ctx) 0) as [r c]. destruct S as (S1 & S2 & S3). rewrite C256 in S3.
    destruct (shr1_spec 32 7 r c ltac:(lia) S1 S2) as [T1 T2]. rewrite C256 in T2.
    apply (half_repr 32 8 P a x _ (val 32 a + P) Ho HP2 HA T1); [|now right].
    assert (Hev : nz r 0 mod 2 = 0); [|lia].
    rewrite (val_mod2 32 8 r ltac:(lia) S1).
    rewrite (val_mod2 32 8 a ltac:(lia) A1) in E.
    pose proof (odd_mod2 P Ho) as HPo. pose proof (Z.mod_pos_bound (val 32 a) 2 ltac:(lia)).
    assert (Hae : val 32 a mod 2 = 1) by lia.
    replace (val 32 r) with (val 32 a + P + (- (2 ^ 255 * c)) * 2).
    2: { change (2 ^ 256) with (2 * 2 ^ 255) in S3. lia. }
    rewrite Z.mod_add by lia. rewrite Z.add_mod, Hae, HPo by lia. reflexivity.
Qed.

Lemma x64_div2_repr ctx P a x : mont_ctx_ok 64 4 P ctx -> mont_repr 64 4 P a x ->
  exists y, mont_repr 64 4 P (x64_mont_div2 ctx a) y /\ (2 * y) mod P = x.
Proof.
  intros OK HA. destruct OK as [Ho HP2 HP HPv _ _ _ _ _ _ _ _]. pose proof HA as (A1 & A2 & A3 & A4).
  unfold x64_mont_div2. rewrite land1_mod2.
  destruct (nz a 0 mod 2 =? 0) eqn:E.
  - destruct (shr1_spec 64 3 a 0 ltac:(lia) A1 ltac:(lia)) as [S1 S2].
    apply (half_repr 64 4 P a x _ (val 64 a) Ho HP2 HA S1); [lia|now left].
  - pose proof (addc_spec 4 0 a (m_P ctx) A1 HP ltac:(lia)) as S. unfold x64_add_carry.
    destruct (addc 0 a (m_P ctx)) as [r c]. destruct S as (S1 & S2 & S3). rewrite C256x in S3.
    destruct (shr1_spec 64 3 r c ltac:(lia) S1 S2) as [T1 T2]. rewrite C256x in T2.
    apply (half_repr 64 4 P a x _ (val 64 a + P) Ho HP2 HA T1); [|now right].
    assert (Hev : nz r 0 mod 2 = 0); [|lia].
    rewrite (val_mod2 64 4 r ltac:(lia) S1).
    rewrite (val_mod2 64 4 a ltac:(lia) A1) in E.
    pose proof (odd_mod2 P Ho) as HPo. pose proof (Z.mod_pos_bound (val 64 a) 2 ltac:(lia)).
    assert (Hae : val 64 a mod 2 = 1) by lia.
    replace (val 64 r) with (val 64 a + P + (- (2 ^ 255 * c)) * 2).
    2: { change (2 ^ 256) with (2 * 2 ^ 255) in S3. lia. }
    rewrite Z.mod_add by lia. rewrite Z.add_mod, Hae, HPo by lia. reflexivity.
Qed.

(** ** x64 ring operations *)
Section X64.
  Variables (ctx : mont_ctx) (P : Z).
  Hypothesis OK : mont_ctx_ok 64 4 P ctx.
  Notation repr := (mont_repr 64 4 P).
  Let Ho : Z.odd P = true := co_odd _ _ _ _ OK.
  Let HP : limbs 64 4 (m_P ctx) := co_P _ _ _ _ OK.
  Let HPv : val 64 (m_P ctx) = P := co_Pv _ _ _ _ OK.
  Let HP2 : 2 < P := co_pos _ _ _ _ OK.
  Lemma x64_P_lt : P < 2 ^ 256.
  Proof.
    rewrite <- HPv. pose proof (val_bound 64 4 _ ltac:(lia) HP) as B. rewrite C256x in B. lia.
  Qed.

  Lemma x64_mul_redc a b : limbs 64 4 a -> limbs 64 4 b -> val 64 b < P ->
    redc_ok 64 4 P (x64_mont_mul ctx a b) (val 64 a * val 64 b).
  Proof.
    intros Ha Hb Hlt. unfold x64_mont_mul.
    destruct (x64_mul_spec a b Ha Hb) as [M1 M2]. rewrite <- M2.
    apply x64_redc_spec; [assumption|exact M1|]. rewrite M2.
    pose proof (val_bound 64 4 _ ltac:(lia) Ha) as Ba. rewrite C256x in Ba.
    pose proof (val_bound 64 4 _ ltac:(lia) Hb) as Bb. apply mul_lt_P; lia.
  Qed.

  Lemma x64_mul_repr a b x y : repr a x -> repr b y -> repr (x64_mont_mul ctx a b) ((x * y) mod P).
  Proof.
    intros (A1 & A2 & A3 & A4) (B1 & B2 & B3 & B4).
    eapply redc_repr; [exact Ho|lia|apply x64_mul_redc; [assumption|assumption|lia]|].
    now apply repr_prod; [lia| |].
  Qed.

  Lemma x64_sqr_repr a x : repr a x -> repr (x64_mont_sqr ctx a) ((x * x) mod P).
  Proof. intros H. exact (x64_mul_repr a a x x H H). Qed.

  Lemma x64_to_mont_repr a : limbs 64 4 a -> repr (x64_to_mont ctx a) (val 64 a mod P).
  Proof.
    intros Ha. pose proof (co_RR _ _ _ _ OK) as R1. pose proof (co_RRv _ _ _ _ OK) as R2.
    eapply redc_repr; [exact Ho|lia| |].
    - apply x64_mul_redc; [exact Ha|exact R1|]. rewrite R2. apply Z.mod_pos_bound. lia.
    - rewrite R2. rewrite Zmult_mod_idemp_r. f_equal.
      rewrite <- Z.mul_assoc. f_equal.
  Qed.

  Lemma x64_from_mont_val a x : repr a x ->
    limbs 64 4 (x64_from_mont ctx a) /\ val 64 (x64_from_mont ctx a) = x.
  Proof.
    intros (A1 & A2 & A3 & A4). unfold x64_from_mont.
    assert (Vz : val 64 (a ++ [0; 0; 0; 0]) = val 64 a).
    { rewrite val_app by lia. cbn [val]. ring. }
    assert (Lz : limbs 64 8 (a ++ [0; 0; 0; 0])).
    { apply (limbs_app 64 4 4); [assumption|]. apply (limbs_zeros 64 4). lia. }
    destruct (x64_redc_spec ctx P _ OK Lz) as (R1 & R2 & R3).
    { rewrite Vz. nia. }
    split; [exact R1|]. rewrite Vz, A4, Z.mod_mod in R3 by lia.
    apply mod_cancel_pow2 in R3; [|assumption|lia|lia].
    rewrite !Z.mod_small in R3 by lia. exact R3.
  Qed.

  Lemma x64_add_repr a b x y : repr a x -> repr b y -> repr (x64_mont_add ctx a b) ((x + y) mod P).
  Proof.
    intros (A1 & A2 & A3 & A4) (B1 & B2 & B3 & B4).
    destruct (x64_mod_add_spec a b (m_P ctx) A1 B1 HP ltac:(lia) ltac:(lia)) as (F1 & F2 & F3).
    change (x64_mod_add a b (m_P ctx)) with (x64_mont_add ctx a b) in *.
    apply mont_repr_intro; [assumption|lia|]. rewrite F2, HPv, A4, B4.
    rewrite <- Z.add_mod by lia. f_equal. ring.
  Qed.

  Lemma x64_sub_repr a b x y : repr a x -> repr b y -> repr (x64_mont_sub ctx a b) ((x - y) mod P).
  Proof.
    intros (A1 & A2 & A3 & A4) (B1 & B2 & B3 & B4).
    destruct (x64_mod_sub_spec a b (m_P ctx) A1 B1 HP ltac:(lia) ltac:(lia)) as (F1 & F2 & F3).
    change (x64_mod_sub a b (m_P ctx)) with (x64_mont_sub ctx a b) in *.
    apply mont_repr_intro; [assumption|lia|]. rewrite F2, HPv, A4, B4.
    rewrite <- Zminus_mod. f_equal. ring.
  Qed.

  Lemma x64_dbl_repr a x : repr a x -> repr (x64_mont_dbl ctx a) ((2 * x) mod P).
  Proof.
    intros H. pose proof (x64_add_repr a a x x H H) as S.
    replace (2 * x) with (x + x) by ring. exact S.
  Qed.

  Lemma x64_tpl_repr a x : repr a x -> repr (x64_mont_tpl ctx a) ((3 * x) mod P).
  Proof.
    intros H. pose proof (x64_add_repr _ a _ x (x64_dbl_repr a x H) H) as S.
    rewrite Zplus_mod_idemp_l in S. replace (3 * x) with (2 * x + x) by ring. exact S.
  Qed.

  Lemma x64_neg_repr a x : repr a x -> repr (x64_mont_neg ctx a) ((- x) mod P).
  Proof.
    intros (A1 & A2 & A3 & A4). unfold x64_mont_neg, x64_equal_zero.
    rewrite (equal_zero_spec 64 4 a) by (assumption || lia).
    destruct (val 64 a =? 0) eqn:E.
    - assert (Q : (x * 2 ^ 256) mod P = (0 * 2 ^ 256) mod P).
      { rewrite <- A4, Z.mul_0_l, Z.mod_0_l; lia. }
      apply mod_cancel_pow2 in Q; [|assumption|lia|lia].
      rewrite Z.mod_small, Z.mod_0_l in Q by lia. subst x.
      apply mont_repr_intro; [apply (limbs_zeros 64 4); lia|lia|].
      change (val 64 x64_set_zero) with 0. change (-0 * 2 ^ 256) with 0. rewrite Z.mod_0_l; lia.
    - unfold x64_sub_borrow. pose proof (subb_spec 4 0 (m_P ctx) a HP A1 ltac:(lia)) as S.
      destruct (subb 0 (m_P ctx) a) as [t b]. destruct S as (T1 & T2 & T3). rewrite C256x in T3.
      pose proof (val_bound 64 4 t ltac:(lia) T1) as Bt. rewrite C256x in Bt. pose proof x64_P_lt.
      cbn [fst]. assert (Et : val 64 t = P - val 64 a) by lia.
      apply mont_repr_intro; [assumption|lia|]. rewrite Et.
      symmetry. rewrite <- (Z.mod_small (P - val 64 a) P) by lia.
      rewrite A4. replace (P - (x * 2 ^ 256) mod P) with (0 - (x * 2 ^ 256) mod P + 1 * P) by ring.
      rewrite Z.mod_add by lia. rewrite Zminus_mod_idemp_r. f_equal. ring.
  Qed.
End X64.

(** ** Exponentiation *)
Section PowSpec.
  Variables (rep : list Z -> Z -> Prop) (P : Z) (mul : list Z -> list Z -> list Z)
            (sqr : list Z -> list Z) (base : list Z) (x : Z).
  Hypothesis HP : 0 < P.
  Hypothesis Hmul : forall a b u v, rep a u -> rep b v -> rep (mul a b) ((u * v) mod P).
  Hypothesis Hsqr : forall a u, rep a u -> rep (sqr a) ((u * u) mod P).
  Hypothesis Hbase : rep base (x mod P).

  Let pk (e : Z) (a : list Z) : Prop := rep a (x ^ e mod P).

  Lemma pk_base : pk 1 base.
  Proof. unfold pk. rewrite Z.pow_1_r. exact Hbase. Qed.
  Lemma pk_mul e f a b : 0 <= e -> 0 <= f -> pk e a -> pk f b -> pk (e + f) (mul a b).
  Proof.
    intros He Hf Ha Hb. unfold pk in *. rewrite Z.pow_add_r, Z.mul_mod by lia. now apply Hmul.
  Qed.
  Lemma pk_sqr e a : 0 <= e -> pk e a -> pk (2 * e) (sqr a).
  Proof.
    intros He Ha. unfold pk in *. replace (2 * e) with (e + e) by ring.
    rewrite Z.pow_add_r, Z.mul_mod by lia. now apply Hsqr.
  Qed.
  Lemma pk_sqr4 e a : 0 <= e -> pk e a -> pk (16 * e) (sqr4 sqr a).
  Proof.
    intros He Ha. unfold sqr4. replace (16 * e) with (2 * (2 * (2 * (2 * e)))) by ring.
    do 4 (apply pk_sqr; [lia|]). exact Ha.
  Qed.

  Lemma lut_from_spec n prev e : 0 <= e -> pk e prev ->
    forall j, (j < n)%nat -> pk (e + 1 + Z.of_nat j) (nth j (lut_from mul base n prev) []).
  Proof.
    revert prev e. induction n as [|n IH]; intros prev e He Hp j Hj; [lia|].
    cbn [lut_from]. pose proof (pk_mul e 1 prev base He ltac:(lia) Hp pk_base) as Hx.
    destruct j as [|j].
    - cbn [nth]. rewrite Z.add_0_r. exact Hx.
    - cbn [nth]. replace (e + 1 + Z.of_nat (S j)) with (e + 1 + 1 + Z.of_nat j) by lia.
      apply IH; [lia|exact Hx|lia].
  Qed.

  Lemma pow_lut_spec j : (j < 14)%nat -> pk (Z.of_nat j + 2) (nth j (pow_lut mul sqr base) []).
  Proof.
    intros Hj. unfold pow_lut. pose proof (pk_sqr 1 base ltac:(lia) pk_base) as H2.
    destruct j as [|j]; [exact H2|]. cbn [nth].
    replace (Z.of_nat (S j) + 2) with (2 * 1 + 1 + Z.of_nat j) by lia.
    apply lut_from_spec; [lia|exact H2|lia].
  Qed.

  Notation lut := (pow_lut mul sqr base).
  Lemma pow_pick_spec i : 1 <= i <= 15 -> exists a, pow_pick base lut i = Ok a /\ pk i a.
  Proof.
    intros Hi. unfold pow_pick. destruct (i =? 1) eqn:E.
    - assert (i = 1) as -> by lia. exists base. split; [reflexivity|apply pk_base].
    - replace ((2 <=? i) && (i <=? 15)) with true by lia.
      eexists. split; [reflexivity|].
      replace i with (Z.of_nat (Z.to_nat (i - 2)) + 2) at 1 by lia. apply pow_lut_spec. lia.
  Qed.

  Lemma pow_nibble_spec t e i : 0 <= e -> 0 <= i <= 15 -> pk e t ->
    exists a, pow_nibble mul sqr base lut t i = Ok a /\ pk (16 * e + i) a.
  Proof.
    intros He Hi Ht. unfold pow_nibble. cbv zeta. pose proof (pk_sqr4 e t He Ht) as H4.
    destruct (i =? 0) eqn:E.
    - assert (i = 0) as -> by lia. eexists. split; [reflexivity|]. rewrite Z.add_0_r. exact H4.
    - destruct (pow_pick_spec i ltac:(lia)) as (a & E1 & E2). rewrite E1. cbn [bind].
      eexists. split; [reflexivity|]. apply pk_mul; [lia|lia|exact H4|exact E2].
  Qed.

  Lemma nib_hi b : is_byte b -> Z.land (Z.shiftr b 4) 15 = b / 16.
  Proof.
    intros Hb. unfold is_byte in Hb. rewrite Z.shiftr_div_pow2 by lia. change (2 ^ 4) with 16.
    change 15 with (Z.ones 4). rewrite Z.land_ones by lia. apply Z.mod_small.
    split; [apply Z.div_pos; lia|]. apply Z.div_lt_upper_bound; lia.
  Qed.
  Lemma nib_lo b : Z.land b 15 = b mod 16.
  Proof. change 15 with (Z.ones 4). apply Z.land_ones. lia. Qed.

  Lemma pow_bytes_spec bs : forall t e, 0 <= e -> bytes bs -> pk e t ->
    exists a, pow_bytes mul sqr base lut t bs = Ok a /\
              pk (e * 256 ^ Z.of_nat (length bs) + be_val bs) a.
  Proof.
    induction bs as [|b bs IH]; intros t e He Hb Ht.
    - exists t. split; [reflexivity|]. rewrite be_val_nil. cbn [length].
      change (256 ^ Z.of_nat 0) with 1. rewrite Z.mul_1_r, Z.add_0_r. exact Ht.
    - inversion Hb as [|? ? Hb0 Hbs]; subst. cbn [pow_bytes].
      rewrite nib_hi, nib_lo by assumption. unfold is_byte in Hb0.
      pose proof (Z.div_mod b 16 ltac:(lia)) as DM.
      pose proof (Z.mod_pos_bound b 16 ltac:(lia)) as Hm.
      assert (Hq : 0 <= b / 16 <= 15) by lia.
      destruct (pow_nibble_spec t e (b / 16) He Hq Ht) as (t1 & E1 & K1). rewrite E1. cbn [bind].
      destruct (pow_nibble_spec t1 (16 * e + b / 16) (b mod 16) ltac:(lia) ltac:(lia) K1)
        as (t2 & E2 & K2).
      rewrite E2. cbn [bind].
      destruct (IH t2 (16 * (16 * e + b / 16) + b mod 16) ltac:(lia) Hbs K2) as (a & E3 & K3).
      exists a. split; [exact E3|].
      replace (e * 256 ^ Z.of_nat (length (b :: bs)) + be_val (b :: bs)) with
        ((16 * (16 * e + b / 16) + b mod 16) * 256 ^ Z.of_nat (length bs) + be_val bs); [exact K3|].
      rewrite be_val_cons. cbn [length]. rewrite Nat2Z.inj_succ, Z.pow_succ_r by lia.
      replace (16 * (16 * e + b / 16) + b mod 16) with (256 * e + b) by lia. ring.
  Qed.

  Lemma pow_start_spec bs : bytes bs -> be_val bs <> 0 ->
    exists a, pow_start mul sqr base lut bs = Ok a /\ pk (be_val bs) a.
  Proof.
    induction bs as [|b bs IH]; intros Hb Hnz; [now rewrite be_val_nil in Hnz|].
    inversion Hb as [|? ? Hb0 Hbs]; subst. cbn [pow_start].
    destruct (b =? 0) eqn:E.
    - assert (b = 0) as -> by lia. rewrite be_val_cons in *. rewrite Z.mul_0_l, Z.add_0_l in *.
      now apply IH.
    - rewrite nib_hi, nib_lo by assumption. unfold is_byte in Hb0.
      pose proof (Z.div_mod b 16 ltac:(lia)) as DM.
      pose proof (Z.mod_pos_bound b 16 ltac:(lia)) as Hm.
      assert (Hst : exists t, (if 15 <? b then do x <- pow_pick base lut (b / 16);
                       pow_nibble mul sqr base lut x (b mod 16)
                     else pow_pick base lut (b mod 16)) = Ok t /\ pk b t).
      { destruct (15 <? b) eqn:E2.
        - destruct (pow_pick_spec (b / 16) ltac:(lia)) as (t0 & E3 & K3). rewrite E3. cbn [bind].
          destruct (pow_nibble_spec t0 (b / 16) (b mod 16) ltac:(lia) ltac:(lia) K3) as (t & E4 & K4).
          exists t. split; [exact E4|]. now rewrite DM.
        - destruct (pow_pick_spec (b mod 16)) as (t0 & E3 & K3).
          { rewrite Z.mod_small by lia. lia. }
          exists t0. split; [exact E3|]. rewrite Z.mod_small in K3 by lia. exact K3. }
      destruct Hst as (t & E3 & K3). rewrite E3. cbn [bind].
      destruct (pow_bytes_spec bs t b ltac:(lia) Hbs K3) as (a & E4 & K4).
      exists a. split; [exact E4|]. rewrite be_val_cons. exact K4.
  Qed.
End PowSpec.

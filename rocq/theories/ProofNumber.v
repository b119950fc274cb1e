(** Exactness of the portable multi-precision code (ModelNumber.v). *)
From Verif Require Import Base BaseFacts ModelEndian ProofEndian ModelNumber SpecNumber.

(** ** Values and bounds *)
Definition pw (w : Z) (n : nat) : Z := 2 ^ (w * Z.of_nat n).

Lemma pw_0 w : pw w 0 = 1.
Proof. unfold pw. rewrite Z.mul_0_r. reflexivity. Qed.
Lemma pw_S w n : 0 <= w -> pw w (S n) = 2 ^ w * pw w n.
Proof.
  intros. unfold pw. rewrite <- Z.pow_add_r by lia. f_equal. lia.
Qed.
Lemma pw_pos w n : 0 <= w -> 0 < pw w n.
Proof. intros. unfold pw. apply Z.pow_pos_nonneg; lia. Qed.
Lemma pw_add w a b : 0 <= w -> pw w (a + b) = pw w a * pw w b.
Proof. intros. unfold pw. rewrite <- Z.pow_add_r by lia. f_equal. lia. Qed.

Lemma limbs_nil w : limbs w 0 [].
Proof. split; [reflexivity|constructor]. Qed.
Lemma limbs_cons w n x l : limbs w (S n) (x :: l) <-> (0 <= x < 2 ^ w) /\ limbs w n l.
Proof.
  unfold limbs. cbn [length]. rewrite Forall_cons_iff. split.
  - intros [H1 [H2 H3]]. repeat (split; [try assumption; try lia|]); try assumption. 
  - intros [H1 [H2 H3]]. split; [lia|]. split; assumption.
Qed.
Lemma limbs_app w n m a b : limbs w n a -> limbs w m b -> limbs w (n + m) (a ++ b).
Proof.
  intros [H1 H2] [H3 H4]. split; [rewrite app_length; lia|]. apply Forall_app; auto.
Qed.
Lemma limbs_rev w n a : limbs w n a -> limbs w n (rev a).
Proof. intros [H1 H2]. split; [rewrite rev_length; lia|]. now apply Forall_rev. Qed.
Lemma limbs_firstn w n k a : limbs w n a -> (k <= n)%nat -> limbs w k (firstn k a).
Proof.
  intros [H1 H2] Hk. split; [rewrite firstn_length; lia|].
  rewrite <- (firstn_skipn k a) in H2. apply Forall_app in H2. tauto.
Qed.
Lemma limbs_skipn w n k a : limbs w n a -> (k <= n)%nat -> limbs w (n - k) (skipn k a).
Proof.
  intros [H1 H2] Hk. split; [rewrite skipn_length; lia|].
  rewrite <- (firstn_skipn k a) in H2. apply Forall_app in H2. tauto.
Qed.
Lemma limbs_length w n a : limbs w n a -> length a = n.
Proof. intros [H _]. exact H. Qed.

Lemma val_bound w n l : 0 <= w -> limbs w n l -> 0 <= val w l < pw w n.
Proof.
  intros Hw. revert n. induction l as [|x l IH]; intros n [H1 H2].
  - cbn in H1. subst n. rewrite pw_0. cbn [val]. lia.
  - destruct n as [|n]; [discriminate|].
    assert (H : limbs w (S n) (x :: l)) by (split; assumption).
    apply limbs_cons in H. destruct H as [Hx Hl].
    specialize (IH n Hl). cbn [val]. rewrite pw_S by assumption.
    assert (0 < 2 ^ w) by (apply Z.pow_pos_nonneg; lia). nia.
Qed.
Lemma val_app w a b : 0 <= w -> val w (a ++ b) = val w a + pw w (length a) * val w b.
Proof.
  intros Hw. induction a as [|x a IH]; cbn [app val length].
  - rewrite pw_0. lia.
  - rewrite IH, pw_S by assumption. ring.
Qed.
Lemma val_inj w n a b : 0 <= w -> limbs w n a -> limbs w n b -> val w a = val w b -> a = b.
Proof.
  intros Hw. revert n b. induction a as [|x a IH]; intros n b Ha Hb E.
  - destruct Ha as [Ha _], Hb as [Hb _]. cbn in Ha. subst n. destruct b; [reflexivity|discriminate].
  - destruct n as [|n]; [destruct Ha as [Ha _]; discriminate|].
    destruct b as [|y b]; [destruct Hb as [Hb _]; discriminate|].
    apply limbs_cons in Ha. apply limbs_cons in Hb. destruct Ha as [Hx Ha], Hb as [Hy Hb].
    cbn [val] in E.
    pose proof (val_bound w n a Hw Ha). pose proof (val_bound w n b Hw Hb).
    assert (E2 : val w a = val w b).
    { destruct (Z.lt_trichotomy (val w a) (val w b)) as [L|[L|L]]; [nia|exact L|nia]. }
    assert (x = y) as -> by (rewrite E2 in E; lia).
    f_equal. exact (IH n b Ha Hb E2).
Qed.

(** ** Limb primitives *)
Lemma land_mask32 x : Z.land x (2 ^ 32 - 1) = x mod 2 ^ 32.
Proof. change (2 ^ 32 - 1) with (Z.ones 32). apply Z.land_ones. lia. Qed.

Ltac prim :=
  cbv beta iota zeta delta [add_carry dbl_carry tpl_carry sub_borrow mul_carry add_mul_carry to_int w32 w64];
  rewrite ?land_mask32; rewrite ?Z.shiftr_div_pow2 by lia.

Lemma add_carry_spec a b c : 0 <= a < 2 ^ 32 -> 0 <= b < 2 ^ 32 -> 0 <= c <= 1 ->
  let (s, c1) := add_carry a b c in
  s + 2 ^ 32 * c1 = a + b + c /\ 0 <= s < 2 ^ 32 /\ 0 <= c1 <= 1.
Proof.
  intros Ha Hb Hc. prim.
  rewrite (Z.mod_small c (2 ^ 64)) by lia.
  rewrite (Z.mod_small (a + b) (2 ^ 64)) by lia.
  rewrite (Z.mod_small (a + b + c) (2 ^ 64)) by lia.
  assert (0 <= (a + b + c) / 2 ^ 32 <= 1) by lia.
  rewrite (Z.mod_small ((a + b + c) / 2 ^ 32)) by lia.
  replace ((a + b + c) / 2 ^ 32 <? 2 ^ 31) with true by lia.
  pose proof (Z.div_mod (a + b + c) (2 ^ 32)). 
  pose proof (Z.mod_pos_bound (a + b + c) (2 ^ 32)). lia.
Qed.

Lemma dbl_carry_spec a c : 0 <= a < 2 ^ 32 -> 0 <= c <= 1 ->
  let (s, c1) := dbl_carry a c in
  s + 2 ^ 32 * c1 = 2 * a + c /\ 0 <= s < 2 ^ 32 /\ 0 <= c1 <= 1.
Proof.
  intros Ha Hc. pose proof (add_carry_spec a a c Ha Ha Hc) as H.
  change (dbl_carry a c) with (add_carry a a c). destruct (add_carry a a c). lia.
Qed.

Lemma tpl_carry_spec a c : 0 <= a < 2 ^ 32 -> 0 <= c <= 2 ->
  let (s, c1) := tpl_carry a c in
  s + 2 ^ 32 * c1 = 3 * a + c /\ 0 <= s < 2 ^ 32 /\ 0 <= c1 <= 2.
Proof.
  intros Ha Hc. prim.
  rewrite (Z.mod_small c (2 ^ 64)) by lia.
  rewrite (Z.mod_small (a + a) (2 ^ 64)) by lia.
  rewrite (Z.mod_small (a + a + a) (2 ^ 64)) by lia.
  rewrite (Z.mod_small (a + a + a + c) (2 ^ 64)) by lia.
  assert (0 <= (a + a + a + c) / 2 ^ 32 <= 2) by lia.
  rewrite (Z.mod_small ((a + a + a + c) / 2 ^ 32)) by lia.
  replace ((a + a + a + c) / 2 ^ 32 <? 2 ^ 31) with true by lia.
  pose proof (Z.div_mod (a + a + a + c) (2 ^ 32)).
  pose proof (Z.mod_pos_bound (a + a + a + c) (2 ^ 32)). lia.
Qed.

Lemma sub_borrow_spec a b c : 0 <= a < 2 ^ 32 -> 0 <= b < 2 ^ 32 -> -1 <= c <= 0 ->
  let (s, c1) := sub_borrow a b c in
  s + 2 ^ 32 * c1 = a - b + c /\ 0 <= s < 2 ^ 32 /\ -1 <= c1 <= 0.
Proof.
  intros Ha Hb Hc. prim.
  assert (E : ((a - b) mod 2 ^ 64 + c mod 2 ^ 64) mod 2 ^ 64 =
              if a - b + c <? 0 then a - b + c + 2 ^ 64 else a - b + c).
  { rewrite <- Z.add_mod by lia. destruct (a - b + c <? 0) eqn:E.
    - symmetry. apply (Z.mod_unique _ _ (-1)); lia.
    - apply Z.mod_small. lia. }
  rewrite E. destruct (a - b + c <? 0) eqn:E1.
  - assert (E2 : (a - b + c + 2 ^ 64) / 2 ^ 32 = 2 ^ 32 - 1).
    { symmetry. apply (Z.div_unique _ _ _ (a - b + c + 2 ^ 32)); lia. }
    assert (E3 : (a - b + c + 2 ^ 64) mod 2 ^ 32 = a - b + c + 2 ^ 32).
    { symmetry. apply (Z.mod_unique _ _ (2 ^ 32 - 1)); lia. }
    rewrite E2, E3. change ((2 ^ 32 - 1) mod 2 ^ 32) with (2 ^ 32 - 1).
    change (2 ^ 32 - 1 <? 2 ^ 31) with false. lia.
  - rewrite (Z.div_small (a - b + c)), (Z.mod_small (a - b + c)) by lia.
    change (0 mod 2 ^ 32 <? 2 ^ 31) with true. change (0 mod 2 ^ 32) with 0. lia.
Qed.

Lemma mul_carry_spec a b c : 0 <= a < 2 ^ 32 -> 0 <= b < 2 ^ 32 -> 0 <= c < 2 ^ 32 ->
  let (s, c1) := mul_carry a b c in
  s + 2 ^ 32 * c1 = a * b + c /\ 0 <= s < 2 ^ 32 /\ 0 <= c1 < 2 ^ 32.
Proof.
  intros Ha Hb Hc. prim.
  assert (0 <= a * b <= (2 ^ 32 - 1) * (2 ^ 32 - 1)) by nia.
  rewrite (Z.mod_small (a * b) (2 ^ 64)) by lia.
  rewrite (Z.mod_small (a * b + c) (2 ^ 64)) by lia.
  assert (0 <= (a * b + c) / 2 ^ 32 < 2 ^ 32) by lia.
  rewrite (Z.mod_small ((a * b + c) / 2 ^ 32)) by lia.
  pose proof (Z.div_mod (a * b + c) (2 ^ 32)).
  pose proof (Z.mod_pos_bound (a * b + c) (2 ^ 32)). lia.
Qed.

Lemma add_mul_carry_spec r a b c :
  0 <= r < 2 ^ 32 -> 0 <= a < 2 ^ 32 -> 0 <= b < 2 ^ 32 -> 0 <= c < 2 ^ 32 ->
  let (s, c1) := add_mul_carry r a b c in
  s + 2 ^ 32 * c1 = r + a * b + c /\ 0 <= s < 2 ^ 32 /\ 0 <= c1 < 2 ^ 32.
Proof.
  intros Hr Ha Hb Hc. prim.
  assert (0 <= a * b <= (2 ^ 32 - 1) * (2 ^ 32 - 1)) by nia.
  rewrite (Z.mod_small (a * b) (2 ^ 64)) by lia.
  rewrite (Z.mod_small (a * b + r) (2 ^ 64)) by lia.
  rewrite (Z.mod_small (a * b + r + c) (2 ^ 64)) by lia.
  assert (0 <= (a * b + r + c) / 2 ^ 32 < 2 ^ 32) by lia.
  rewrite (Z.mod_small ((a * b + r + c) / 2 ^ 32)) by lia.
  pose proof (Z.div_mod (a * b + r + c) (2 ^ 32)).
  pose proof (Z.mod_pos_bound (a * b + r + c) (2 ^ 32)). lia.
Qed.
Global Opaque add_carry dbl_carry tpl_carry sub_borrow mul_carry add_mul_carry.

(** ** Limb loops *)
Lemma add_limbs_spec n a b c : limbs 32 n a -> limbs 32 n b -> 0 <= c <= 1 ->
  let (r, c1) := add_limbs a b c in
  limbs 32 n r /\ 0 <= c1 <= 1 /\ val 32 r + pw 32 n * c1 = val 32 a + val 32 b + c.
Proof.
  revert a b c. induction n as [|n IH]; intros a b c Ha Hb Hc.
  - destruct a; [|destruct Ha; discriminate]. destruct b; [|destruct Hb; discriminate].
    cbn [add_limbs val]. rewrite pw_0. split; [apply limbs_nil|]. lia.
  - destruct a as [|x a]; [destruct Ha; discriminate|].
    destruct b as [|y b]; [destruct Hb; discriminate|].
    apply limbs_cons in Ha, Hb. destruct Ha as [Hx Ha], Hb as [Hy Hb].
    cbn [add_limbs val]. pose proof (add_carry_spec x y c Hx Hy Hc) as S.
    destruct (add_carry x y c) as [s c1]. destruct S as (S1 & S2 & S3).
    specialize (IH a b c1 Ha Hb S3). destruct (add_limbs a b c1) as [r c2].
    destruct IH as (I1 & I2 & I3). split; [apply limbs_cons; split; assumption|].
    split; [assumption|]. cbn [val]. rewrite pw_S by lia.
    replace (s + 2 ^ 32 * val 32 r + 2 ^ 32 * pw 32 n * c2)
      with (s + 2 ^ 32 * (val 32 r + pw 32 n * c2)) by ring. rewrite I3. lia.
Qed.

Lemma sub_limbs_spec n a b c : limbs 32 n a -> limbs 32 n b -> -1 <= c <= 0 ->
  let (r, c1) := sub_limbs a b c in
  limbs 32 n r /\ -1 <= c1 <= 0 /\ val 32 r + pw 32 n * c1 = val 32 a - val 32 b + c.
Proof.
  revert a b c. induction n as [|n IH]; intros a b c Ha Hb Hc.
  - destruct a; [|destruct Ha; discriminate]. destruct b; [|destruct Hb; discriminate].
    cbn [sub_limbs val]. rewrite pw_0. split; [apply limbs_nil|]. lia.
  - destruct a as [|x a]; [destruct Ha; discriminate|].
    destruct b as [|y b]; [destruct Hb; discriminate|].
    apply limbs_cons in Ha, Hb. destruct Ha as [Hx Ha], Hb as [Hy Hb].
    cbn [sub_limbs val]. pose proof (sub_borrow_spec x y c Hx Hy Hc) as S.
    destruct (sub_borrow x y c) as [s c1]. destruct S as (S1 & S2 & S3).
    specialize (IH a b c1 Ha Hb S3). destruct (sub_limbs a b c1) as [r c2].
    destruct IH as (I1 & I2 & I3). split; [apply limbs_cons; split; assumption|].
    split; [assumption|]. cbn [val]. rewrite pw_S by lia.
    replace (s + 2 ^ 32 * val 32 r + 2 ^ 32 * pw 32 n * c2)
      with (s + 2 ^ 32 * (val 32 r + pw 32 n * c2)) by ring. rewrite I3. lia.
Qed.

Lemma dbl_limbs_spec n a c : limbs 32 n a -> 0 <= c <= 1 ->
  let (r, c1) := dbl_limbs a c in
  limbs 32 n r /\ 0 <= c1 <= 1 /\ val 32 r + pw 32 n * c1 = 2 * val 32 a + c.
Proof.
  revert a c. induction n as [|n IH]; intros a c Ha Hc.
  - destruct a; [|destruct Ha; discriminate].
    cbn [dbl_limbs val]. rewrite pw_0. split; [apply limbs_nil|]. lia.
  - destruct a as [|x a]; [destruct Ha; discriminate|].
    apply limbs_cons in Ha. destruct Ha as [Hx Ha].
    cbn [dbl_limbs val]. pose proof (dbl_carry_spec x c Hx Hc) as S.
    destruct (dbl_carry x c) as [s c1]. destruct S as (S1 & S2 & S3).
    specialize (IH a c1 Ha S3). destruct (dbl_limbs a c1) as [r c2].
    destruct IH as (I1 & I2 & I3). split; [apply limbs_cons; split; assumption|].
    split; [assumption|]. cbn [val]. rewrite pw_S by lia.
    replace (s + 2 ^ 32 * val 32 r + 2 ^ 32 * pw 32 n * c2)
      with (s + 2 ^ 32 * (val 32 r + pw 32 n * c2)) by ring. rewrite I3. lia.
Qed.

Lemma tpl_limbs_spec n a c : limbs 32 n a -> 0 <= c <= 2 ->
  let (r, c1) := tpl_limbs a c in
  limbs 32 n r /\ 0 <= c1 <= 2 /\ val 32 r + pw 32 n * c1 = 3 * val 32 a + c.
Proof.
  revert a c. induction n as [|n IH]; intros a c Ha Hc.
  - destruct a; [|destruct Ha; discriminate].
    cbn [tpl_limbs val]. rewrite pw_0. split; [apply limbs_nil|]. lia.
  - destruct a as [|x a]; [destruct Ha; discriminate|].
    apply limbs_cons in Ha. destruct Ha as [Hx Ha].
    cbn [tpl_limbs val]. pose proof (tpl_carry_spec x c Hx Hc) as S.
    destruct (tpl_carry x c) as [s c1]. destruct S as (S1 & S2 & S3).
    specialize (IH a c1 Ha S3). destruct (tpl_limbs a c1) as [r c2].
    destruct IH as (I1 & I2 & I3). split; [apply limbs_cons; split; assumption|].
    split; [assumption|]. cbn [val]. rewrite pw_S by lia.
    replace (s + 2 ^ 32 * val 32 r + 2 ^ 32 * pw 32 n * c2)
      with (s + 2 ^ 32 * (val 32 r + pw 32 n * c2)) by ring. rewrite I3. lia.
Qed.

Lemma mul_row_spec n a b c : limbs 32 n a -> 0 <= b < 2 ^ 32 -> 0 <= c < 2 ^ 32 ->
  let (r, c1) := mul_row a b c in
  limbs 32 n r /\ 0 <= c1 < 2 ^ 32 /\ val 32 r + pw 32 n * c1 = val 32 a * b + c.
Proof.
  revert a c. induction n as [|n IH]; intros a c Ha Hb Hc.
  - destruct a; [|destruct Ha; discriminate].
    cbn [mul_row val]. rewrite pw_0. split; [apply limbs_nil|]. lia.
  - destruct a as [|x a]; [destruct Ha; discriminate|].
    apply limbs_cons in Ha. destruct Ha as [Hx Ha].
    cbn [mul_row val]. pose proof (mul_carry_spec x b c Hx Hb Hc) as S.
    destruct (mul_carry x b c) as [s c1]. destruct S as (S1 & S2 & S3).
    specialize (IH a c1 Ha Hb S3). destruct (mul_row a b c1) as [r c2].
    destruct IH as (I1 & I2 & I3). split; [apply limbs_cons; split; assumption|].
    split; [assumption|]. cbn [val]. rewrite pw_S by lia.
    replace (s + 2 ^ 32 * val 32 r + 2 ^ 32 * pw 32 n * c2)
      with (s + 2 ^ 32 * (val 32 r + pw 32 n * c2)) by ring. rewrite I3. lia.
Qed.

Lemma addmul_row_spec n r a b c :
  limbs 32 n r -> limbs 32 n a -> 0 <= b < 2 ^ 32 -> 0 <= c < 2 ^ 32 ->
  let (u, c1) := addmul_row r a b c in
  limbs 32 n u /\ 0 <= c1 < 2 ^ 32 /\ val 32 u + pw 32 n * c1 = val 32 r + val 32 a * b + c.
Proof.
  revert r a c. induction n as [|n IH]; intros r a c Hr Ha Hb Hc.
  - destruct a; [|destruct Ha; discriminate]. destruct r; [|destruct Hr; discriminate].
    cbn [addmul_row val]. rewrite pw_0. split; [apply limbs_nil|]. lia.
  - destruct a as [|x a]; [destruct Ha; discriminate|].
    destruct r as [|t r]; [destruct Hr; discriminate|].
    apply limbs_cons in Ha, Hr. destruct Ha as [Hx Ha], Hr as [Ht Hr].
    cbn [addmul_row val]. pose proof (add_mul_carry_spec t x b c Ht Hx Hb Hc) as S.
    destruct (add_mul_carry t x b c) as [s c1]. destruct S as (S1 & S2 & S3).
    specialize (IH r a c1 Hr Ha Hb S3). destruct (addmul_row r a b c1) as [u c2].
    destruct IH as (I1 & I2 & I3). split; [apply limbs_cons; split; assumption|].
    split; [assumption|]. cbn [val]. rewrite pw_S by lia.
    replace (s + 2 ^ 32 * val 32 u + 2 ^ 32 * pw 32 n * c2)
      with (s + 2 ^ 32 * (val 32 u + pw 32 n * c2)) by ring. rewrite I3. lia.
Qed.

Lemma limbs_1 w c : 0 <= c < 2 ^ w -> limbs w 1 [c].
Proof. intros. apply limbs_cons. split; [assumption|apply limbs_nil]. Qed.

Lemma mul_rows_spec k n r a bs :
  (0 < n)%nat -> limbs 32 n r -> limbs 32 n a -> limbs 32 k bs ->
  limbs 32 (n + k) (mul_rows r a bs) /\
  val 32 (mul_rows r a bs) = val 32 r + val 32 a * val 32 bs.
Proof.
  intros Hn. revert r bs. induction k as [|k IH]; intros r bs Hr Ha Hbs.
  - destruct bs; [|destruct Hbs; discriminate]. cbn [mul_rows val].
    rewrite Nat.add_0_r. split; [assumption|]. lia.
  - destruct bs as [|b bs]; [destruct Hbs; discriminate|].
    apply limbs_cons in Hbs. destruct Hbs as [Hb Hbs]. cbn [mul_rows].
    pose proof (addmul_row_spec n r a b 0 Hr Ha Hb ltac:(lia)) as S.
    destruct (addmul_row r a b 0) as [u c]. destruct S as (S1 & S2 & S3).
    destruct u as [|h t]; [destruct S1 as [S1 _]; cbn in S1; lia|].
    destruct n as [|n]; [lia|].
    apply limbs_cons in S1. destruct S1 as [Hh Ht].
    assert (Htc : limbs 32 (S n) (t ++ [c])).
    { replace (S n) with (n + 1)%nat by lia. apply limbs_app; [exact Ht|now apply limbs_1]. }
    destruct (IH (t ++ [c]) bs Htc Ha Hbs) as [I1 I2].
    split.
    + replace (S n + S k)%nat with (S (S n + k)) by lia. apply limbs_cons. split; assumption.
    + cbn [val] in *. rewrite I2, val_app by lia. rewrite (limbs_length _ _ _ Ht). cbn [val].
      rewrite pw_S in S3 by lia.
      replace (val 32 a * (b + 2 ^ 32 * val 32 bs)) with
        (val 32 a * b + 2 ^ 32 * (val 32 a * val 32 bs)) by ring.
      rewrite Z.mul_0_r, Z.add_0_r. 
      replace (h + 2 ^ 32 * (val 32 t + pw 32 n * c + val 32 a * val 32 bs)) with
        (h + 2 ^ 32 * val 32 t + 2 ^ 32 * pw 32 n * c + 2 ^ 32 * (val 32 a * val 32 bs)) by ring.
      rewrite S3. ring.
Qed.

Lemma mul_limbs_spec n a b : limbs 32 n a -> limbs 32 n b ->
  limbs 32 (n + n) (mul_limbs a b) /\ val 32 (mul_limbs a b) = val 32 a * val 32 b.
Proof.
  intros Ha Hb. destruct n as [|n].
  - destruct a; [|destruct Ha; discriminate]. destruct b; [|destruct Hb; discriminate].
    split; [apply limbs_nil|reflexivity].
  - destruct b as [|b0 bs]; [destruct Hb; discriminate|].
    apply limbs_cons in Hb. destruct Hb as [Hb Hbs]. unfold mul_limbs.
    pose proof (mul_row_spec (S n) a b0 0 Ha Hb ltac:(lia)) as S.
    destruct (mul_row a b0 0) as [u c]. destruct S as (S1 & S2 & S3).
    destruct u as [|h t]; [destruct S1 as [S1 _]; cbn in S1; lia|].
    apply limbs_cons in S1. destruct S1 as [Hh Ht].
    assert (Htc : limbs 32 (S n) (t ++ [c])).
    { replace (S n) with (n + 1)%nat by lia. apply limbs_app; [exact Ht|now apply limbs_1]. }
    destruct (mul_rows_spec n (S n) (t ++ [c]) a bs ltac:(lia) Htc Ha Hbs) as [I1 I2].
    split.
    + replace (S n + S n)%nat with (S (S n + n)) by lia. apply limbs_cons. split; assumption.
    + cbn [val] in *. rewrite I2, val_app by lia. rewrite (limbs_length _ _ _ Ht). cbn [val].
      rewrite pw_S in S3 by lia.
      replace (h + 2 ^ 32 * (val 32 t + pw 32 n * (c + 2 ^ 32 * 0) + val 32 a * val 32 bs)) with
        (h + 2 ^ 32 * val 32 t + 2 ^ 32 * pw 32 n * c + 2 ^ 32 * (val 32 a * val 32 bs)) by ring.
      rewrite S3. ring.
Qed.

(** ** Comparison *)
Definition Zcmp (a b : Z) : Z := if b <? a then 1 else if a <? b then -1 else 0.

Lemma cmp_snoc w n a b x y : 0 <= w -> limbs w n a -> limbs w n b ->
  0 <= x < 2 ^ w -> 0 <= y < 2 ^ w ->
  val w (a ++ [x]) - val w (b ++ [y]) = val w a - val w b + pw w n * (x - y).
Proof.
  intros. rewrite !val_app by assumption.
  rewrite (limbs_length _ _ _ H0), (limbs_length _ _ _ H1). cbn [val]. ring.
Qed.

Lemma cmp_from_top_spec w n a b : 0 <= w -> limbs w n a -> limbs w n b ->
  cmp_from_top (rev a) (rev b) = Zcmp (val w a) (val w b).
Proof.
  intros Hw. revert a b. induction n as [|n IH]; intros a b Ha Hb.
  - destruct a; [|destruct Ha; discriminate]. destruct b; [|destruct Hb; discriminate].
    reflexivity.
  - destruct (@exists_last _ a) as [a' [x Ea]]; [intros ->; destruct Ha; discriminate|].
    destruct (@exists_last _ b) as [b' [y Eb]]; [intros ->; destruct Hb; discriminate|].
    subst a b.
    assert (HA : limbs w n a' /\ 0 <= x < 2 ^ w).
    { destruct Ha as [H1 H2]. rewrite app_length in H1. cbn in H1. apply Forall_app in H2.
      destruct H2 as [H2 H3]. inversion H3; subst. repeat split; try assumption; try lia. }
    assert (HB : limbs w n b' /\ 0 <= y < 2 ^ w).
    { destruct Hb as [H1 H2]. rewrite app_length in H1. cbn in H1. apply Forall_app in H2.
      destruct H2 as [H2 H3]. inversion H3; subst. repeat split; try assumption; try lia. }
    destruct HA as [HA Hx], HB as [HB Hy].
    rewrite !rev_app_distr. cbn [rev app cmp_from_top].
    specialize (IH a' b' HA HB). rewrite IH.
    pose proof (cmp_snoc w n a' b' x y Hw HA HB Hx Hy).
    pose proof (val_bound w n a' Hw HA). pose proof (val_bound w n b' Hw HB).
    pose proof (pw_pos w n Hw). unfold Zcmp.
    destruct (y <? x) eqn:E1; [|destruct (x <? y) eqn:E2].
    + replace (val w (b' ++ [y]) <? val w (a' ++ [x])) with true by nia. reflexivity.
    + replace (val w (b' ++ [y]) <? val w (a' ++ [x])) with false by nia.
      replace (val w (a' ++ [x]) <? val w (b' ++ [y])) with true by nia. reflexivity.
    + assert (x = y) by lia. subst y. rewrite Z.sub_diag, Z.mul_0_r, Z.add_0_r in H.
      replace (val w (b' ++ [x]) <? val w (a' ++ [x])) with (val w b' <? val w a') by lia.
      replace (val w (a' ++ [x]) <? val w (b' ++ [x])) with (val w a' <? val w b') by lia.
      reflexivity.
Qed.

Lemma cmp_from_top_refl l : cmp_from_top l l = 0.
Proof. induction l as [|x l IH]; cbn; [reflexivity|]. rewrite Z.ltb_irrefl. exact IH. Qed.

Lemma fold_lor_0 l acc : Forall (fun x => 0 <= x) l -> 0 <= acc ->
  (fold_left Z.lor l acc = 0 <-> acc = 0 /\ Forall (fun x => x = 0) l).
Proof.
  revert acc. induction l as [|x l IH]; intros acc Hl Ha; cbn [fold_left].
  - split; [intros; split; [assumption|constructor]|tauto].
  - inversion Hl as [|? ? Hx Hl']; subst. rewrite IH.
    + rewrite Z.lor_eq_0_iff, Forall_cons_iff. tauto.
    + assumption.
    + apply Z.lor_nonneg. tauto.
Qed.

Lemma limbs_nonneg w n l : limbs w n l -> Forall (fun x => 0 <= x) l.
Proof. intros [_ H]. eapply Forall_impl; [|exact H]. cbn. lia. Qed.

Lemma val_0_iff w n l : 0 <= w -> limbs w n l -> (val w l = 0 <-> Forall (fun x => x = 0) l).
Proof.
  intros Hw. revert n. induction l as [|x l IH]; intros n Hl.
  - split; [constructor|reflexivity].
  - destruct n as [|n]; [destruct Hl; discriminate|]. apply limbs_cons in Hl.
    destruct Hl as [Hx Hl]. specialize (IH n Hl). cbn [val]. rewrite Forall_cons_iff, <- IH.
    pose proof (val_bound w n l Hw Hl). assert (0 < 2 ^ w) by (apply Z.pow_pos_nonneg; lia). nia.
Qed.

Lemma equal_zero_spec w n l : 0 <= w -> limbs w n l ->
  (fold_left Z.lor l 0 =? 0) = (val w l =? 0).
Proof.
  intros Hw Hl. pose proof (fold_lor_0 l 0 (limbs_nonneg _ _ _ Hl) ltac:(lia)) as H.
  pose proof (val_0_iff w n l Hw Hl) as H2.
  destruct (fold_left Z.lor l 0 =? 0) eqn:E1, (val w l =? 0) eqn:E2; try reflexivity; exfalso.
  - apply Z.eqb_eq in E1. apply Z.eqb_neq in E2. tauto.
  - apply Z.eqb_neq in E1. apply Z.eqb_eq in E2. tauto.
Qed.

Lemma xorl_zero w n a b : limbs w n a -> limbs w n b ->
  (Forall (fun x => x = 0) (xorl a b) <-> a = b).
Proof.
  revert a b. induction n as [|n IH]; intros a b Ha Hb.
  - destruct a; [|destruct Ha; discriminate]. destruct b; [|destruct Hb; discriminate].
    split; [reflexivity|constructor].
  - destruct a as [|x a]; [destruct Ha; discriminate|].
    destruct b as [|y b]; [destruct Hb; discriminate|].
    apply limbs_cons in Ha, Hb. destruct Ha as [Hx Ha], Hb as [Hy Hb].
    cbn [xorl]. rewrite Forall_cons_iff, (IH a b Ha Hb), Z.lxor_eq_0_iff.
    split; [intros [-> ->]; reflexivity|intros E; inversion E; auto].
Qed.

Lemma equal_spec w n a b : 0 <= w -> limbs w n a -> limbs w n b ->
  (fold_left Z.lor (xorl a b) 0 =? 0) = (val w a =? val w b).
Proof.
  intros Hw Ha Hb.
  assert (HF : Forall (fun x => 0 <= x) (xorl a b)).
  { apply limbs_nonneg in Ha, Hb. revert b Hb. induction Ha as [|x a Hx Ha IH]; intros b Hb;
      destruct b as [|y b]; cbn [xorl]; constructor.
    - inversion Hb; subst. apply Z.lxor_nonneg. tauto.
    - apply IH. inversion Hb; assumption. }
  pose proof (fold_lor_0 (xorl a b) 0 HF ltac:(lia)) as H.
  pose proof (xorl_zero w n a b Ha Hb) as H2.
  destruct (fold_left Z.lor (xorl a b) 0 =? 0) eqn:E1, (val w a =? val w b) eqn:E2;
    try reflexivity; exfalso.
  - apply Z.eqb_eq in E1. apply Z.eqb_neq in E2. apply E2. f_equal. tauto.
  - apply Z.eqb_neq in E1. apply Z.eqb_eq in E2. apply E1.
    assert (a = b) by (eapply val_inj; eassumption). tauto.
Qed.

Lemma existsb_pos w n l : 0 <= w -> limbs w n l ->
  existsb (fun x => 0 <? x) (rev l) = (0 <? val w l).
Proof.
  intros Hw Hl.
  assert (E : existsb (fun x => 0 <? x) (rev l) = existsb (fun x => 0 <? x) l).
  { apply eq_iff_eq_true. rewrite !existsb_exists. split; intros [x [H1 H2]]; exists x;
      (split; [apply in_rev|assumption]); [|rewrite rev_involutive]; assumption. }
  rewrite E. clear E. revert n Hl. induction l as [|x l IH]; intros n Hl; [reflexivity|].
  destruct n as [|n]; [destruct Hl; discriminate|]. apply limbs_cons in Hl. destruct Hl as [Hx Hl].
  cbn [existsb val]. rewrite (IH n Hl). pose proof (val_bound w n l Hw Hl).
  assert (0 < 2 ^ w) by (apply Z.pow_pos_nonneg; lia).
  destruct (0 <? x) eqn:E1, (0 <? val w l) eqn:E2, (0 <? x + 2 ^ w * val w l) eqn:E3;
    cbn; try reflexivity; exfalso; nia.
Qed.

Lemma cmp_uint_spec w n a b : 0 <= w -> limbs w (S n) a -> 0 <= b < 2 ^ w ->
  (if existsb (fun x => 0 <? x) (rev (skipn 1 a)) then 1
   else if b <? nz a 0 then 1 else if nz a 0 <? b then -1 else 0) = Zcmp (val w a) b.
Proof.
  intros Hw Ha Hb. destruct a as [|x a]; [destruct Ha; discriminate|].
  apply limbs_cons in Ha. destruct Ha as [Hx Ha]. change (skipn 1 (x :: a)) with a.
  change (nz (x :: a) 0) with x. rewrite (existsb_pos w n a Hw Ha).
  cbn [val]. pose proof (val_bound w n a Hw Ha). unfold Zcmp.
  destruct (0 <? val w a) eqn:E.
  - replace (b <? x + 2 ^ w * val w a) with true by nia. reflexivity.
  - assert (val w a = 0) as -> by lia. rewrite Z.mul_0_r, Z.add_0_r. reflexivity.
Qed.

Lemma equal_one_spec w n a : 0 < w -> limbs w (S n) a ->
  (fold_left Z.lor (skipn 1 a) 0 =? 0) && (nz a 0 =? 1) = (val w a =? 1).
Proof.
  intros Hw Ha. destruct a as [|x a]; [destruct Ha; discriminate|].
  apply limbs_cons in Ha. destruct Ha as [Hx Ha]. change (skipn 1 (x :: a)) with a.
  change (nz (x :: a) 0) with x. rewrite (equal_zero_spec w n a ltac:(lia) Ha).
  cbn [val]. pose proof (val_bound w n a ltac:(lia) Ha).
  assert (2 ^ 1 <= 2 ^ w) by (apply Z.pow_le_mono_r; lia). change (2 ^ 1) with 2 in *.
  destruct (val w a =? 0) eqn:E1, (x =? 1) eqn:E2, (x + 2 ^ w * val w a =? 1) eqn:E3; cbn;
    try reflexivity; exfalso; nia.
Qed.

(** ** Division by a limb *)
Lemma div_from_top_spec l rem d : Forall (fun x => 0 <= x < 2 ^ 32) l -> 0 < d < 2 ^ 32 ->
  0 <= rem < d ->
  let (q, r) := div_from_top l rem d in
  length q = length l /\ Forall (fun x => 0 <= x < 2 ^ 32) q /\ 0 <= r < d /\
  rem * pw 32 (length l) + val 32 (rev l) = d * val 32 (rev q) + r.
Proof.
  intros Hl Hd. revert rem. induction Hl as [|x l Hx Hl IH]; intros rem Hr.
  - cbn [div_from_top rev val length]. rewrite pw_0. repeat split; try constructor; lia.
  - cbn [div_from_top].
    assert (E : Z.lor (w64 (Z.shiftl rem 32)) x = rem * 2 ^ 32 + x).
    { unfold w64. rewrite Z.shiftl_mul_pow2 by lia. rewrite Z.mod_small by nia.
      rewrite (lor_add_disjoint _ _ 32); lia || (try (rewrite Z.mod_mul; lia)). }
    rewrite E. set (cur := rem * 2 ^ 32 + x) in *.
    assert (Hm : 0 <= cur mod d < d) by (apply Z.mod_pos_bound; lia).
    assert (Hq : 0 <= cur / d < 2 ^ 32).
    { split; [apply Z.div_pos; nia|]. apply Z.div_lt_upper_bound; nia. }
    specialize (IH (cur mod d) Hm).
    destruct (div_from_top l (cur mod d) d) as [q r]. destruct IH as (I1 & I2 & I3 & I4).
    unfold w32. rewrite (Z.mod_small _ _ Hq).
    cbn [length rev]. split; [lia|]. split; [constructor; assumption|]. split; [assumption|].
    rewrite !val_app by lia. rewrite !rev_length. cbn [val]. rewrite pw_S by lia. rewrite I1.
    pose proof (Z.div_mod cur d). 
    replace (rem * (2 ^ 32 * pw 32 (length l)) + (val 32 (rev l) + pw 32 (length l) * (x + 2 ^ 32 * 0)))
      with (cur * pw 32 (length l) + val 32 (rev l)) by (unfold cur; ring).
    rewrite H at 1 by lia.
    replace ((d * (cur / d) + cur mod d) * pw 32 (length l) + val 32 (rev l)) with
      (d * (cur / d) * pw 32 (length l) + (cur mod d * pw 32 (length l) + val 32 (rev l))) by ring.
    rewrite I4. ring.
Qed.

Lemma div_uint32_spec n a d : limbs 32 n a -> 0 < d < 2 ^ 32 ->
  exists q r, uint256_div_uint32 a d = Ok (q, r) /\ limbs 32 n q /\
              val 32 q = val 32 a / d /\ r = val 32 a mod d.
Proof.
  intros Ha Hd. unfold uint256_div_uint32. replace (d =? 0) with false by lia.
  pose proof (limbs_rev _ _ _ Ha) as [R1 R2].
  pose proof (div_from_top_spec (rev a) 0 d R2 Hd ltac:(lia)) as S.
  destruct (div_from_top (rev a) 0 d) as [q r]. destruct S as (S1 & S2 & S3 & S4).
  rewrite rev_involutive in S4.
  exists (rev q), (w32 r). split; [reflexivity|]. split; [|split].
  - split; [rewrite rev_length; lia|now apply Forall_rev].
  - apply (Z.div_unique_pos _ _ _ r); lia.
  - unfold w32. rewrite Z.mod_small by lia. apply (Z.mod_unique_pos _ _ (val 32 (rev q))); lia.
Qed.

(** ** Bytes *)
Lemma be_val_split n l :
  be_val l = be_val (firstn n l) * 256 ^ Z.of_nat (length (skipn n l)) + be_val (skipn n l).
Proof. rewrite <- be_val_app, firstn_skipn. reflexivity. Qed.

Lemma val_rev_be w f k n l : 0 <= w -> w = 8 * Z.of_nat n ->
  (forall b, bytes b -> length b = n -> f b = be_val b) ->
  bytes l -> length l = (n * k)%nat ->
  limbs w k (rev (map f (cut n k l))) /\ val w (rev (map f (cut n k l))) = be_val l.
Proof.
  intros Hw Ew Hf. revert l. induction k as [|k IH]; intros l Hl Hlen.
  - destruct l; [|cbn in Hlen; lia]. split; [apply limbs_nil|reflexivity].
  - cbn [cut map rev].
    assert (Hb1 : bytes (firstn n l)) by now apply bytes_firstn.
    assert (Hl1 : length (firstn n l) = n) by (rewrite firstn_length; lia).
    assert (Hl2 : length (skipn n l) = (n * k)%nat) by (rewrite skipn_length; lia).
    destruct (IH (skipn n l) (bytes_skipn n l Hl) Hl2) as [I1 I2].
    pose proof (be_val_bound (firstn n l) Hb1) as Hv. rewrite Hl1 in Hv.
    rewrite (Hf _ Hb1 Hl1).
    assert (E8 : 256 ^ Z.of_nat n = 2 ^ w).
    { rewrite Ew. change 256 with (2 ^ 8). rewrite <- Z.pow_mul_r by lia. reflexivity. }
    split.
    + replace (S k) with (k + 1)%nat by lia. apply limbs_app; [exact I1|]. apply limbs_1. lia.
    + rewrite val_app by assumption. rewrite I2. cbn [val].
      rewrite (be_val_split n l), Hl2.
      rewrite rev_length, map_length, cut_length.
      replace (256 ^ Z.of_nat (n * k)) with (pw w k).
      * ring.
      * unfold pw. rewrite Ew. change 256 with (2 ^ 8). rewrite <- Z.pow_mul_r by lia. f_equal. lia.
Qed.

Lemma to_bytes_spec w f k n a : 0 <= w -> w = 8 * Z.of_nat n ->
  (forall x, f x = be_bytes n x) -> limbs w k a ->
  concat (map f (rev a)) = be_bytes (n * k) (val w a).
Proof.
  intros Hw Ew Hf Ha.
  assert (E8 : 256 ^ Z.of_nat n = 2 ^ w).
  { rewrite Ew. change 256 with (2 ^ 8). rewrite <- Z.pow_mul_r by lia. reflexivity. }
  assert (G : bytes (concat (map f (rev a))) /\ length (concat (map f (rev a))) = (n * k)%nat /\
              be_val (concat (map f (rev a))) = val w a).
  { revert k Ha. induction a as [|x a IH]; intros k Ha.
    - destruct Ha as [Ha _]. cbn in Ha. subst k. rewrite Nat.mul_0_r.
      split; [apply bytes_nil|split; reflexivity].
    - destruct k as [|k]; [destruct Ha; discriminate|]. apply limbs_cons in Ha.
      destruct Ha as [Hx Ha]. destruct (IH k Ha) as (I1 & I2 & I3).
      cbn [rev]. rewrite map_app, concat_app. cbn [map concat]. rewrite app_nil_r, Hf.
      split; [|split].
      + apply bytes_app. split; [exact I1|apply be_bytes_bytes].
      + rewrite app_length, be_bytes_length, I2. lia.
      + rewrite be_val_app, I3, be_val_be_bytes, be_bytes_length, E8. cbn [val].
        rewrite Z.mod_small by lia. ring. }
  destruct G as (G1 & G2 & G3). rewrite <- G3, <- G2. symmetry. now apply be_bytes_be_val.
Qed.

(** ** Bit test *)
Lemma nz_testbit w n a i : 0 < w -> limbs w n a -> 0 <= i < w * Z.of_nat n ->
  Z.testbit (nz a (Z.to_nat (i / w))) (i mod w) = Z.testbit (val w a) i.
Proof.
  intros Hw. revert n i. induction a as [|x a IH]; intros n i Ha Hi.
  - destruct Ha as [Ha _]. cbn in Ha. subst n. lia.
  - destruct n as [|n]; [destruct Ha; discriminate|]. apply limbs_cons in Ha.
    destruct Ha as [Hx Ha]. cbn [val].
    assert (E : x + 2 ^ w * val w a = Z.lor x (Z.shiftl (val w a) w)).
    { rewrite Z.shiftl_mul_pow2 by lia. rewrite Z.lor_comm, (lor_add_disjoint _ _ w); try lia.
    }
    rewrite E, Z.lor_spec, Z.shiftl_spec by lia.
    destruct (Z.ltb_spec i w) as [Hlt|Hge].
    + rewrite (Z.div_small i w), (Z.mod_small i w) by lia. change (nz (x :: a) (Z.to_nat 0)) with x.
      rewrite (Z.testbit_neg_r _ (i - w)) by lia. now rewrite orb_false_r.
    + rewrite (testbit_small x w i) by lia. cbn [orb].
      assert (E1 : i / w = 1 + (i - w) / w).
      { replace i with ((i - w) + 1 * w) at 1 by lia. rewrite Z.div_add by lia. lia. }
      assert (E2 : i mod w = (i - w) mod w).
      { replace i with ((i - w) + 1 * w) at 1 by lia. now rewrite Z.mod_add by lia. }
      assert (0 <= (i - w) / w) by (apply Z.div_pos; lia).
      rewrite E1, E2. replace (Z.to_nat (1 + (i - w) / w)) with (S (Z.to_nat ((i - w) / w))) by lia.
      change (nz (x :: a) (S ?k)) with (nz a k). apply (IH n); [exact Ha|lia].
Qed.

Lemma land_shiftr_1 x i : 0 <= i -> Z.land (Z.shiftr x i) 1 = Z.b2z (Z.testbit x i).
Proof.
  intros. change 1 with (Z.ones 1). rewrite Z.land_ones by lia. change (2 ^ 1) with 2.
  rewrite <- Z.bit0_mod, Z.shiftr_spec by lia. f_equal.
Qed.

(** ** Modular addition and subtraction on canonical operands *)
Lemma Zcmp_ge a b : (0 <=? Zcmp a b) = (b <=? a).
Proof. unfold Zcmp. destruct (b <? a) eqn:E1; [|destruct (a <? b) eqn:E2]; lia. Qed.

Definition C256 : pw 32 8 = 2 ^ 256 := eq_refl.

Lemma cmp32 a b : limbs 32 8 a -> limbs 32 8 b ->
  (0 <=? uint256_cmp a b) = (val 32 b <=? val 32 a).
Proof.
  intros Ha Hb. unfold uint256_cmp. rewrite (cmp_from_top_spec 32 8 a b) by (assumption || lia).
  apply Zcmp_ge.
Qed.

(** Reduction [if (carry || r >= d) r -= d] of a value below [2 d]. *)
Lemma cond_sub_spec r c d : limbs 32 8 r -> limbs 32 8 d -> 0 <= c <= 1 ->
  val 32 r + 2 ^ 256 * c < 2 * val 32 d ->
  let x := if negb (c =? 0) || (0 <=? uint256_cmp r d)
           then fst (uint256_sub_borrow r d) else r in
  limbs 32 8 x /\ val 32 x = (val 32 r + 2 ^ 256 * c) mod val 32 d /\ 0 <= val 32 x < val 32 d.
Proof.
  intros Hr Hd Hc Hlt. cbv zeta. rewrite (cmp32 r d Hr Hd).
  pose proof (val_bound 32 8 r ltac:(lia) Hr) as Br.
  pose proof (val_bound 32 8 d ltac:(lia) Hd) as Bd. rewrite C256 in *.
  destruct (negb (c =? 0) || (val 32 d <=? val 32 r)) eqn:E.
  - pose proof (sub_limbs_spec 8 r d 0 Hr Hd ltac:(lia)) as S. unfold uint256_sub_borrow.
    destruct (sub_limbs r d 0) as [s b]. destruct S as (S1 & S2 & S3). cbn [fst].
    pose proof (val_bound 32 8 s ltac:(lia) S1) as Bs. rewrite C256 in *.
    split; [assumption|].
    assert (val 32 s = val 32 r + 2 ^ 256 * c - val 32 d) by lia.
    split; [|lia]. apply (Z.mod_unique_pos _ _ 1); lia.
  - apply orb_false_iff in E. destruct E as [E1 E2].
    assert (c = 0) as -> by (destruct (c =? 0) eqn:Ec; [lia|discriminate]).
    split; [assumption|]. split; [|lia]. rewrite Z.mul_0_r, Z.add_0_r. symmetry. apply Z.mod_small. lia.
Qed.

Lemma mod_add_spec a b d : limbs 32 8 a -> limbs 32 8 b -> limbs 32 8 d ->
  val 32 a < val 32 d -> val 32 b < val 32 d ->
  limbs 32 8 (uint256_mod_add a b d) /\
  val 32 (uint256_mod_add a b d) = (val 32 a + val 32 b) mod val 32 d /\
  0 <= val 32 (uint256_mod_add a b d) < val 32 d.
Proof.
  intros Ha Hb Hd La Lb. unfold uint256_mod_add, uint256_add_carry.
  pose proof (add_limbs_spec 8 a b 0 Ha Hb ltac:(lia)) as S.
  destruct (add_limbs a b 0) as [s c]. destruct S as (S1 & S2 & S3). rewrite C256 in S3.
  pose proof (cond_sub_spec s c d S1 Hd S2 ltac:(lia)) as H. cbv zeta in H.
  rewrite S3, Z.add_0_r in H. exact H.
Qed.

Lemma mod_sub_spec a b d : limbs 32 8 a -> limbs 32 8 b -> limbs 32 8 d ->
  val 32 a < val 32 d -> val 32 b < val 32 d ->
  limbs 32 8 (uint256_mod_sub a b d) /\
  val 32 (uint256_mod_sub a b d) = (val 32 a - val 32 b) mod val 32 d /\
  0 <= val 32 (uint256_mod_sub a b d) < val 32 d.
Proof.
  intros Ha Hb Hd La Lb. unfold uint256_mod_sub, uint256_sub_borrow.
  pose proof (sub_limbs_spec 8 a b 0 Ha Hb ltac:(lia)) as S.
  destruct (sub_limbs a b 0) as [s c]. destruct S as (S1 & S2 & S3). rewrite C256 in S3.
  pose proof (val_bound 32 8 a ltac:(lia) Ha) as Ba.
  pose proof (val_bound 32 8 b ltac:(lia) Hb) as Bb.
  pose proof (val_bound 32 8 s ltac:(lia) S1) as Bs.
  pose proof (val_bound 32 8 d ltac:(lia) Hd) as Bd. rewrite C256 in *.
  rewrite (cmp32 s d S1 Hd).
  destruct (negb (c =? 0) || (val 32 d <=? val 32 s)) eqn:E.
  - assert (c = -1).
    { destruct (c =? 0) eqn:Ec; [|lia]. cbn in E. lia. }
    subst c. pose proof (add_limbs_spec 8 s d 0 S1 Hd ltac:(lia)) as T. unfold uint256_add_carry.
    destruct (add_limbs s d 0) as [t k]. destruct T as (T1 & T2 & T3). cbn [fst]. rewrite C256 in T3.
    pose proof (val_bound 32 8 t ltac:(lia) T1) as Bt. rewrite C256 in *.
    assert (k = 1) by lia. subst k.
    split; [assumption|]. split; [|lia]. apply (Z.mod_unique_pos _ _ (-1)); lia.
  - apply orb_false_iff in E. destruct E as [E1 E2].
    assert (c = 0) as -> by (destruct (c =? 0) eqn:Ec; [lia|discriminate]).
    split; [assumption|]. split; [|lia]. symmetry. rewrite Z.mod_small; lia.
Qed.

(** ** The subtraction loop *)
Lemma while2_spec {S} (Inv : S -> Prop) (meas : S -> Z) (cond : S -> bool) (body : S -> S) k s :
  (forall s, Inv s -> cond s = true -> Inv (body s) /\ 0 <= meas (body s) < meas s) ->
  Inv s -> 0 <= meas s -> 
  match while2 k cond body s with
  | inr s' => Inv s' /\ cond s' = false
  | inl s' => Inv s' /\ 0 <= meas s' /\ meas s' + 2 ^ Z.of_nat k <= meas s
  end.
Proof.
  intros Hstep. revert s. induction k as [|k IH]; intros s HI Hm; cbn [while2].
  - destruct (cond s) eqn:E; [|split; assumption].
    destruct (Hstep s HI E). change (2 ^ Z.of_nat 0) with 1. split; [assumption|lia].
  - pose proof (IH s HI Hm) as H1. destruct (while2 k cond body s) as [s1|s1]; [|exact H1].
    destruct H1 as (H1 & H2 & H3). pose proof (IH s1 H1 H2) as H4.
    destruct (while2 k cond body s1) as [s2|s2]; [|exact H4].
    destruct H4 as (H4 & H5 & H6). split; [assumption|]. split; [assumption|].
    rewrite Nat2Z.inj_succ, Z.pow_succ_r by lia. lia.
Qed.

Lemma sub_while_spec t d : limbs 32 8 t -> limbs 32 8 d -> 0 < val 32 d ->
  exists t', sub_while t d = Some t' /\ limbs 32 8 t' /\ val 32 t' = val 32 t mod val 32 d.
Proof.
  intros Ht Hd Hpos. unfold sub_while.
  pose proof (while2_spec (fun x => limbs 32 8 x /\ val 32 x mod val 32 d = val 32 t mod val 32 d)
                (val 32) (fun t => 0 <=? uint256_cmp t d)
                (fun t => fst (uint256_sub_borrow t d)) 257 t) as W.
  assert (H1 : forall s : list Z,
      limbs 32 8 s /\ val 32 s mod val 32 d = val 32 t mod val 32 d ->
      (0 <=? uint256_cmp s d) = true ->
      (limbs 32 8 (fst (uint256_sub_borrow s d)) /\
       val 32 (fst (uint256_sub_borrow s d)) mod val 32 d = val 32 t mod val 32 d) /\
      0 <= val 32 (fst (uint256_sub_borrow s d)) < val 32 s).
  { intros s [Hs Es] Hc. rewrite (cmp32 s d Hs Hd) in Hc.
    pose proof (sub_limbs_spec 8 s d 0 Hs Hd ltac:(lia)) as S. unfold uint256_sub_borrow.
    destruct (sub_limbs s d 0) as [r b]. destruct S as (S1 & S2 & S3). cbn [fst].
    pose proof (val_bound 32 8 r ltac:(lia) S1) as Br.
    pose proof (val_bound 32 8 s ltac:(lia) Hs) as Bs. rewrite C256 in *.
    assert (E : val 32 r = val 32 s - val 32 d) by lia.
    split; [split; [assumption|]|lia].
    rewrite E, <- Es. replace (val 32 s - val 32 d) with (val 32 s + (-1) * val 32 d) by ring.
    apply Z.mod_add. lia. }
  specialize (W H1 (conj Ht eq_refl)). 
  pose proof (val_bound 32 8 t ltac:(lia) Ht) as Bt. rewrite C256 in Bt.
  specialize (W ltac:(lia)).
  destruct (while2 257 _ _ t) as [s|s].
  - exfalso. destruct W as (_ & W2 & W3). change (Z.of_nat 257) with 257 in W3. lia.
  - destruct W as [[W1 W2] W3]. rewrite (cmp32 s d W1 Hd) in W3.
    pose proof (val_bound 32 8 s ltac:(lia) W1) as Bs.
    exists s. split; [reflexivity|]. split; [assumption|]. rewrite <- W2. symmetry.
    apply Z.mod_small. lia.
Qed.

Lemma mod_absorb_spec r t d : limbs 32 8 r -> limbs 32 8 t -> limbs 32 8 d ->
  val 32 r < val 32 d ->
  exists x, mod_absorb r t d = Some x /\ limbs 32 8 x /\
            val 32 x = (val 32 r + val 32 t) mod val 32 d /\ 0 <= val 32 x < val 32 d.
Proof.
  intros Hr Ht Hd Hlt. pose proof (val_bound 32 8 r ltac:(lia) Hr) as Br.
  destruct (sub_while_spec t d Ht Hd ltac:(lia)) as (t' & E1 & E2 & E3).
  unfold mod_absorb. rewrite E1. exists (uint256_mod_add r t' d). split; [reflexivity|].
  assert (val 32 t' < val 32 d) by (rewrite E3; apply Z.mod_pos_bound; lia).
  destruct (mod_add_spec r t' d Hr E2 Hd Hlt H) as (F1 & F2 & F3).
  split; [assumption|]. split; [|assumption]. rewrite F2, E3. now rewrite Zplus_mod_idemp_r.
Qed.

Lemma iter_dbl_spec n r d : limbs 32 8 r -> limbs 32 8 d -> val 32 r < val 32 d ->
  let x := Nat.iter n (fun x => uint256_mod_add x x d) r in
  limbs 32 8 x /\ val 32 x = (val 32 r * 2 ^ Z.of_nat n) mod val 32 d /\ 0 <= val 32 x < val 32 d.
Proof.
  intros Hr Hd Hlt. cbv zeta. pose proof (val_bound 32 8 r ltac:(lia) Hr) as Br.
  induction n as [|n IH].
  - cbn [Nat.iter nat_rect]. change (2 ^ Z.of_nat 0) with 1. rewrite Z.mul_1_r, Z.mod_small by lia.
    split; [assumption|lia].
  - change (Nat.iter (S n) ?f r) with (f (Nat.iter n f r)).
    set (x := Nat.iter n (fun x => uint256_mod_add x x d) r) in *.
    destruct IH as (I1 & I2 & I3).
    destruct (mod_add_spec x x d I1 I1 Hd ltac:(lia) ltac:(lia)) as (F1 & F2 & F3).
    split; [exact F1|]. split; [|exact F3]. rewrite F2, I2.
    rewrite <- Z.add_mod by lia. rewrite Nat2Z.inj_succ, Z.pow_succ_r by lia. f_equal. ring.
Qed.

Lemma sll_spec n r d : limbs 32 8 r -> limbs 32 8 d -> val 32 r < val 32 d ->
  let x := uint256_self_mod_sll_n r n d in
  limbs 32 8 x /\ val 32 x = (val 32 r * 2 ^ Z.of_nat n) mod val 32 d /\ 0 <= val 32 x < val 32 d.
Proof.
  intros Hr Hd Hlt. cbv zeta. unfold uint256_self_mod_sll_n, uint256_equal_zero.
  rewrite (equal_zero_spec 32 8 r) by (assumption || lia).
  pose proof (val_bound 32 8 r ltac:(lia) Hr) as Br.
  destruct (val 32 r =? 0) eqn:E.
  - apply Z.eqb_eq in E. rewrite E, Z.mul_0_l, Z.mod_0_l by lia. split; [assumption|lia].
  - apply iter_dbl_spec; assumption.
Qed.

Lemma from_bytes_spec b : bytes b -> length b = 32%nat ->
  limbs 32 8 (uint256_from_bytes b) /\ val 32 (uint256_from_bytes b) = be_val b.
Proof.
  intros Hb Hl. unfold uint256_from_bytes.
  apply (val_rev_be 32 load32_be 8 4 b); try lia; try assumption.
  exact load32_be_val.
Qed.

Lemma pow_256_bits n : 256 ^ Z.of_nat n = 2 ^ Z.of_nat (8 * n).
Proof. change 256 with (2 ^ 8). rewrite <- Z.pow_mul_r by lia. f_equal. lia. Qed.

Lemma mod_blocks_spec k r data d v : limbs 32 8 r -> limbs 32 8 d -> bytes data ->
  (32 * k <= length data)%nat -> 0 <= val 32 r < val 32 d -> val 32 r = v mod val 32 d ->
  exists x, mod_blocks k r data d = Some x /\ limbs 32 8 x /\ 0 <= val 32 x < val 32 d /\
    val 32 x = (v * 256 ^ Z.of_nat (32 * k) + be_val (firstn (32 * k) data)) mod val 32 d.
Proof.
  intros Hr Hd. revert r data v Hr. induction k as [|k IH]; intros r data v Hr Hb Hl Hlt Ev.
  - exists r. split; [reflexivity|]. split; [assumption|]. split; [assumption|].
    rewrite Nat.mul_0_r. cbn [firstn]. rewrite be_val_nil. change (256 ^ Z.of_nat 0) with 1.
    rewrite Z.mul_1_r, Z.add_0_r. exact Ev.
  - cbn [mod_blocks].
    destruct (sll_spec 256 r d Hr Hd ltac:(lia)) as (F1 & F2 & F3).
    set (r1 := uint256_self_mod_sll_n r 256 d) in *.
    assert (Hb1 : bytes (firstn 32 data)) by now apply bytes_firstn.
    assert (Hl1 : length (firstn 32 data) = 32%nat) by (rewrite firstn_length; lia).
    destruct (from_bytes_spec _ Hb1 Hl1) as [G1 G2].
    destruct (mod_absorb_spec r1 (uint256_from_bytes (firstn 32 data)) d F1 G1 Hd ltac:(lia))
      as (x & X1 & X2 & X3 & X4).
    rewrite X1.
    destruct (IH x (skipn 32 data) (v * 256 ^ 32 + be_val (firstn 32 data)) X2
                (bytes_skipn _ _ Hb)) as (y & Y1 & Y2 & Y3 & Y4).
    + rewrite skipn_length. clear - Hl. lia.
    + assumption.
    + rewrite X3, F2, G2, Ev. change (Z.of_nat 256) with 256. change (256 ^ 32) with (2 ^ 256).
      rewrite Zmult_mod_idemp_l. rewrite Zplus_mod_idemp_l. reflexivity.
    + exists y. split; [exact Y1|]. split; [assumption|]. split; [assumption|].
      rewrite Y4. f_equal.
      clear - Hl. replace (32 * S k)%nat with (32 + 32 * k)%nat by lia.
      rewrite (be_val_split 32 (firstn (32 + 32 * k) data)).
      rewrite firstn_firstn, Nat.min_l by lia. rewrite skipn_firstn_comm.
      replace (32 + 32 * k - 32)%nat with (32 * k)%nat by lia.
      rewrite firstn_length, skipn_length, Nat.min_l by lia.
      replace (Z.of_nat (32 + 32 * k)) with (32 + Z.of_nat (32 * k)) by lia.
      rewrite Z.pow_add_r by lia. ring.
Qed.

Lemma be_val_zeros n l : be_val (repeat 0 n ++ l) = be_val l.
Proof.
  rewrite be_val_app. replace (be_val (repeat 0 n)) with 0; [lia|].
  induction n as [|n IH]; [reflexivity|]. cbn [repeat]. rewrite be_val_cons, <- IH. lia.
Qed.

Lemma mod_tail_spec r data d v : limbs 32 8 r -> limbs 32 8 d -> bytes data ->
  (length data < 32)%nat -> 0 <= val 32 r < val 32 d -> val 32 r = v mod val 32 d ->
  exists x, mod_tail r data d = Some x /\ limbs 32 8 x /\ 0 <= val 32 x < val 32 d /\
    val 32 x = (v * 256 ^ Z.of_nat (length data) + be_val data) mod val 32 d.
Proof.
  intros Hr Hd Hb Hl Hlt Ev. destruct data as [|b0 data'] eqn:Ed.
  - exists r. split; [reflexivity|]. split; [assumption|]. split; [assumption|].
    rewrite be_val_nil. change (256 ^ Z.of_nat (length [])) with 1. rewrite Z.mul_1_r, Z.add_0_r. exact Ev.
  - unfold mod_tail. rewrite <- Ed in *. clear Ed.
    destruct (sll_spec (8 * length data) r d Hr Hd ltac:(lia)) as (F1 & F2 & F3).
    set (r1 := uint256_self_mod_sll_n r _ d) in *.
    assert (Hb1 : bytes (repeat 0 (32 - length data) ++ data)).
    { apply bytes_app. split; [apply bytes_repeat; unfold is_byte; lia|assumption]. }
    assert (Hl1 : length (repeat 0 (32 - length data) ++ data) = 32%nat).
    { rewrite app_length, repeat_length. lia. }
    destruct (from_bytes_spec _ Hb1 Hl1) as [G1 G2]. rewrite be_val_zeros in G2.
    destruct (mod_absorb_spec r1 _ d F1 G1 Hd ltac:(lia)) as (x & X1 & X2 & X3 & X4).
    exists x. split; [exact X1|]. split; [assumption|]. split; [assumption|].
    rewrite X3, F2, G2, Ev, pow_256_bits. rewrite Zmult_mod_idemp_l, Zplus_mod_idemp_l. reflexivity.
Qed.

Lemma uint256_mod_spec data d : bytes data -> limbs 32 8 d -> 0 < val 32 d ->
  exists x, uint256_mod data d = Some x /\ limbs 32 8 x /\ val 32 x = be_val data mod val 32 d.
Proof.
  intros Hb Hd Hpos. unfold uint256_mod.
  assert (Hz : limbs 32 8 uint256_set_zero).
  { split; [reflexivity|]. unfold uint256_set_zero. repeat (apply Forall_cons; [lia|]). constructor. }
  assert (Vz : val 32 uint256_set_zero = 0) by reflexivity.
  destruct (32 <=? length data)%nat eqn:E.
  - assert (Hb1 : bytes (firstn 32 data)) by now apply bytes_firstn.
    assert (Hl1 : length (firstn 32 data) = 32%nat) by (rewrite firstn_length; lia).
    destruct (from_bytes_spec _ Hb1 Hl1) as [G1 G2].
    destruct (mod_absorb_spec uint256_set_zero _ d Hz G1 Hd ltac:(lia)) as (r & R1 & R2 & R3 & R4).
    rewrite R1. cbv zeta. rewrite Vz, G2, Z.add_0_l in R3.
    set (d1 := skipn 32 data). set (k := (length d1 / 32)%nat).
    assert (Hd1 : bytes d1) by now apply bytes_skipn.
    pose proof (Nat.div_mod (length d1) 32 ltac:(lia)) as DM. fold k in DM.
    pose proof (Nat.mod_upper_bound (length d1) 32 ltac:(lia)) as DB.
    destruct (mod_blocks_spec k r d1 d (be_val (firstn 32 data)) R2 Hd Hd1 ltac:(lia) R4 R3)
      as (x & X1 & X2 & X3 & X4).
    rewrite X1.
    destruct (mod_tail_spec x (skipn (32 * k) d1) d _ X2 Hd (bytes_skipn _ _ Hd1)
                ltac:(rewrite skipn_length; lia) X3 X4) as (y & Y1 & Y2 & Y3 & Y4).
    exists y. split; [exact Y1|]. split; [assumption|]. rewrite Y4. f_equal.
    rewrite (be_val_split 32 data). fold d1. rewrite (be_val_split (32 * k) d1).
    rewrite skipn_length.
    replace (Z.of_nat (length d1)) with (Z.of_nat (32 * k) + Z.of_nat (length d1 - 32 * k)) by lia.
    rewrite Z.pow_add_r by lia. ring.
  - destruct (mod_tail_spec uint256_set_zero data d 0 Hz Hd Hb ltac:(lia) ltac:(lia)) as (y & Y1 & Y2 & Y3 & Y4).
    + rewrite Vz. symmetry. apply Z.mod_0_l. lia.
    + exists y. split; [exact Y1|]. split; [assumption|]. rewrite Y4. f_equal.
Qed.

(** With divisor 0 the subtraction loop never ends: the state never changes and the loop
    condition stays true, whatever the number of iterations. *)
Lemma while2_diverges {S} (cond : S -> bool) (body : S -> S) k s :
  cond s = true -> body s = s -> while2 k cond body s = inl s.
Proof.
  intros Hc Hb. induction k as [|k IH]; cbn [while2]; [rewrite Hc, Hb; reflexivity|].
  rewrite IH. exact IH.
Qed.

(** Exactness of the x64 multi-precision code (ModelNumberX64.v). *)
From Verif Require Import Base BaseFacts ModelNumber ModelNumberX64 SpecNumber ProofNumber.

Lemma cf_small c : 0 <= c <= 1 -> cf c = c.
Proof. intros. assert (c = 0 \/ c = 1) as [-> | ->] by lia; reflexivity. Qed.

Lemma addcarry_spec c a b : 0 <= c <= 1 -> 0 <= a < 2 ^ 64 -> 0 <= b < 2 ^ 64 ->
  let (s, c1) := addcarry_u64 c a b in
  s + 2 ^ 64 * c1 = a + b + c /\ 0 <= s < 2 ^ 64 /\ 0 <= c1 <= 1.
Proof.
  intros Hc Ha Hb. unfold addcarry_u64. rewrite cf_small by assumption.
  destruct (a + b + c <? 2 ^ 64) eqn:E.
  - rewrite Z.mod_small by lia. lia.
  - replace ((a + b + c) mod 2 ^ 64) with (a + b + c - 2 ^ 64); [lia|].
    apply (Z.mod_unique_pos _ _ 1); lia.
Qed.

Lemma subborrow_spec c a b : 0 <= c <= 1 -> 0 <= a < 2 ^ 64 -> 0 <= b < 2 ^ 64 ->
  let (s, c1) := subborrow_u64 c a b in
  s - 2 ^ 64 * c1 = a - b - c /\ 0 <= s < 2 ^ 64 /\ 0 <= c1 <= 1.
Proof.
  intros Hc Ha Hb. unfold subborrow_u64. rewrite cf_small by assumption.
  destruct (a - b - c <? 0) eqn:E.
  - replace ((a - b - c) mod 2 ^ 64) with (a - b - c + 2 ^ 64); [lia|].
    apply (Z.mod_unique_pos _ _ (-1)); lia.
  - rewrite Z.mod_small by lia. lia.
Qed.

Lemma mulx_spec a b : 0 <= a < 2 ^ 64 -> 0 <= b < 2 ^ 64 ->
  mulx_lo a b + 2 ^ 64 * mulx_hi a b = a * b /\ 0 <= mulx_lo a b < 2 ^ 64 /\
  0 <= mulx_hi a b <= 2 ^ 64 - 2.
Proof.
  intros Ha Hb. unfold mulx_lo, mulx_hi.
  pose proof (Z.div_mod (a * b) (2 ^ 64) ltac:(lia)).
  pose proof (Z.mod_pos_bound (a * b) (2 ^ 64) ltac:(lia)).
  assert (0 <= a * b <= (2 ^ 64 - 1) * (2 ^ 64 - 1)) by nia.
  split; [lia|]. split; [lia|]. split; [apply Z.div_pos; lia|].
  assert (a * b / 2 ^ 64 < 2 ^ 64 - 1); [|lia]. apply Z.div_lt_upper_bound; lia.
Qed.
Global Opaque addcarry_u64 subborrow_u64 mulx_lo mulx_hi.

Lemma addc_spec n c a b : limbs 64 n a -> limbs 64 n b -> 0 <= c <= 1 ->
  let (r, c1) := addc c a b in
  limbs 64 n r /\ 0 <= c1 <= 1 /\ val 64 r + pw 64 n * c1 = val 64 a + val 64 b + c.
Proof.
  revert a b c. induction n as [|n IH]; intros a b c Ha Hb Hc.
  - destruct a; [|destruct Ha; discriminate]. destruct b; [|destruct Hb; discriminate].
    cbn [addc val]. rewrite pw_0. split; [apply limbs_nil|]. lia.
  - destruct a as [|x a]; [destruct Ha; discriminate|].
    destruct b as [|y b]; [destruct Hb; discriminate|].
    apply limbs_cons in Ha, Hb. destruct Ha as [Hx Ha], Hb as [Hy Hb].
    cbn [addc val]. pose proof (addcarry_spec c x y Hc Hx Hy) as S.
    destruct (addcarry_u64 c x y) as [s c1]. destruct S as (S1 & S2 & S3).
    specialize (IH a b c1 Ha Hb S3). destruct (addc c1 a b) as [r c2].
    destruct IH as (I1 & I2 & I3). split; [apply limbs_cons; split; assumption|].
    split; [assumption|]. cbn [val]. rewrite pw_S by lia.
    replace (s + 2 ^ 64 * val 64 r + 2 ^ 64 * pw 64 n * c2)
      with (s + 2 ^ 64 * (val 64 r + pw 64 n * c2)) by ring. rewrite I3. lia.
Qed.

Lemma subb_spec n c a b : limbs 64 n a -> limbs 64 n b -> 0 <= c <= 1 ->
  let (r, c1) := subb c a b in
  limbs 64 n r /\ 0 <= c1 <= 1 /\ val 64 r - pw 64 n * c1 = val 64 a - val 64 b - c.
Proof.
  revert a b c. induction n as [|n IH]; intros a b c Ha Hb Hc.
  - destruct a; [|destruct Ha; discriminate]. destruct b; [|destruct Hb; discriminate].
    cbn [subb val]. rewrite pw_0. split; [apply limbs_nil|]. lia.
  - destruct a as [|x a]; [destruct Ha; discriminate|].
    destruct b as [|y b]; [destruct Hb; discriminate|].
    apply limbs_cons in Ha, Hb. destruct Ha as [Hx Ha], Hb as [Hy Hb].
    cbn [subb val]. pose proof (subborrow_spec c x y Hc Hx Hy) as S.
    destruct (subborrow_u64 c x y) as [s c1]. destruct S as (S1 & S2 & S3).
    specialize (IH a b c1 Ha Hb S3). destruct (subb c1 a b) as [r c2].
    destruct IH as (I1 & I2 & I3). split; [apply limbs_cons; split; assumption|].
    split; [assumption|]. cbn [val]. rewrite pw_S by lia.
    replace (s + 2 ^ 64 * val 64 r - 2 ^ 64 * pw 64 n * c2)
      with (s + 2 ^ 64 * (val 64 r - pw 64 n * c2)) by ring. rewrite I3. lia.
Qed.

(** ** Multiplication by one limb *)
Lemma mulx_map_spec n a b : limbs 64 n a -> 0 <= b < 2 ^ 64 ->
  limbs 64 n (map (fun x => mulx_lo x b) a) /\ limbs 64 n (map (fun x => mulx_hi x b) a) /\
  val 64 (map (fun x => mulx_lo x b) a) + 2 ^ 64 * val 64 (map (fun x => mulx_hi x b) a) =
  val 64 a * b.
Proof.
  revert a. induction n as [|n IH]; intros a Ha Hb.
  - destruct a; [|destruct Ha; discriminate]. cbn [map val].
    split; [apply limbs_nil|]. split; [apply limbs_nil|]. lia.
  - destruct a as [|x a]; [destruct Ha; discriminate|].
    apply limbs_cons in Ha. destruct Ha as [Hx Ha]. cbn [map val].
    destruct (IH a Ha Hb) as (I1 & I2 & I3). destruct (mulx_spec x b Hx Hb) as (M1 & M2 & M3).
    split; [apply limbs_cons; split; assumption|].
    split; [apply limbs_cons; split; [lia|assumption]|].
    replace ((x + 2 ^ 64 * val 64 a) * b) with (x * b + 2 ^ 64 * (val 64 a * b)) by ring.
    rewrite <- I3, <- M1. ring.
Qed.

Lemma mul_step1_spec n a b : (0 < n)%nat -> limbs 64 n a -> 0 <= b < 2 ^ 64 ->
  limbs 64 (S n) (x64_mul_step1 a b) /\ val 64 (x64_mul_step1 a b) = val 64 a * b.
Proof.
  intros Hn Ha Hb. unfold x64_mul_step1.
  destruct (mulx_map_spec n a b Ha Hb) as (I1 & I2 & I3).
  set (lo := map (fun x => mulx_lo x b) a) in *. set (hi := map (fun x => mulx_hi x b) a) in *.
  destruct n as [|n]; [lia|].
  destruct lo as [|l0 l]; [destruct I1; discriminate|].
  apply limbs_cons in I1. destruct I1 as [Hl0 Hl].
  assert (Hl' : limbs 64 (S n) (l ++ [0])).
  { replace (S n) with (n + 1)%nat by lia. apply limbs_app; [exact Hl|apply limbs_1; lia]. }
  pose proof (addc_spec (S n) 0 (l ++ [0]) hi Hl' I2 ltac:(lia)) as S.
  destruct (addc 0 (l ++ [0]) hi) as [r c]. destruct S as (S1 & S2 & S3). cbn [fst].
  split; [apply limbs_cons; split; assumption|].
  rewrite val_app in S3 by lia. cbn [val] in S3, I3 |- *. rewrite <- I3.
  pose proof (val_bound 64 (S n) a ltac:(lia) Ha) as Ba.
  pose proof (val_bound 64 (S n) r ltac:(lia) S1) as Br.
  pose proof (val_bound 64 n l ltac:(lia) Hl) as Bl.
  pose proof (val_bound 64 (S n) hi ltac:(lia) I2) as Bh.
  pose proof (pw_pos 64 (S n) ltac:(lia)) as Bp.
  assert (c = 0); [|subst c; lia].
  assert (Hlt : val 64 a * b < pw 64 (S n) * 2 ^ 64) by nia.
  rewrite <- I3 in Hlt. destruct (Z.eq_dec c 0) as [|Hc]; [assumption|].
  assert (c = 1) by lia. subst c. exfalso. lia.
Qed.

Lemma mul_step_spec n acc a b : (0 < n)%nat -> limbs 64 n acc -> limbs 64 n a -> 0 <= b < 2 ^ 64 ->
  limbs 64 (S n) (x64_mul_step acc a b) /\
  val 64 (x64_mul_step acc a b) = val 64 acc + val 64 a * b.
Proof.
  intros Hn Hacc Ha Hb. unfold x64_mul_step.
  destruct (mulx_map_spec n a b Ha Hb) as (I1 & I2 & I3).
  set (lo := map (fun x => mulx_lo x b) a) in *. set (hi := map (fun x => mulx_hi x b) a) in *.
  pose proof (addc_spec n 0 acc lo Hacc I1 ltac:(lia)) as S.
  destruct (addc 0 acc lo) as [s c]. destruct S as (S1 & S2 & S3).
  pose proof (addcarry_spec c 0 0 S2 ltac:(lia) ltac:(lia)) as T.
  destruct (addcarry_u64 c 0 0) as [top c']. destruct T as (T1 & T2 & T3).
  assert (top = c) by lia. subst top.
  destruct n as [|n]; [lia|].
  destruct s as [|s0 s]; [destruct S1; discriminate|].
  apply limbs_cons in S1. destruct S1 as [Hs0 Hs].
  assert (Hs' : limbs 64 (S n) (s ++ [c])).
  { replace (S n) with (n + 1)%nat by lia. apply limbs_app; [exact Hs|apply limbs_1; lia]. }
  pose proof (addc_spec (S n) 0 (s ++ [c]) hi Hs' I2 ltac:(lia)) as U.
  destruct (addc 0 (s ++ [c]) hi) as [r d]. destruct U as (U1 & U2 & U3). cbn [fst].
  split; [apply limbs_cons; split; assumption|].
  rewrite val_app, (limbs_length _ _ _ Hs) in U3 by lia. cbn [val] in S3, U3 |- *.
  pose proof (val_bound 64 (S n) a ltac:(lia) Ha) as Ba.
  pose proof (val_bound 64 (S n) acc ltac:(lia) Hacc) as Bacc.
  pose proof (val_bound 64 (S n) r ltac:(lia) U1) as Br.
  pose proof (pw_pos 64 n ltac:(lia)) as Bp0.
  rewrite pw_S in * by lia. set (B := pw 64 n) in *.
  assert (Htot : s0 + 2 ^ 64 * (val 64 r + 2 ^ 64 * B * d) = val 64 acc + val 64 a * b).
  { rewrite U3. rewrite <- I3. lia. }
  assert (Hlt : val 64 acc + val 64 a * b < 2 ^ 64 * (2 ^ 64 * B)) by nia.
  rewrite <- Htot in Hlt |- *.
  assert (d = 0 \/ d = 1) as [-> | ->] by lia; [ring|].
  exfalso. lia.
Qed.

Lemma x64_mul_spec a b : limbs 64 4 a -> limbs 64 4 b ->
  limbs 64 8 (x64_mul a b) /\ val 64 (x64_mul a b) = val 64 a * val 64 b.
Proof.
  intros Ha Hb.
  destruct b as [|b0 [|b1 [|b2 [|b3 [|? ?]]]]]; try (destruct Hb; discriminate).
  apply limbs_cons in Hb. destruct Hb as [H0 Hb]. apply limbs_cons in Hb. destruct Hb as [H1 Hb].
  apply limbs_cons in Hb. destruct Hb as [H2 Hb]. apply limbs_cons in Hb. destruct Hb as [H3 _].
  unfold x64_mul. change (nz [b0; b1; b2; b3] 0) with b0. change (nz [b0; b1; b2; b3] 1) with b1.
  change (nz [b0; b1; b2; b3] 2) with b2. change (nz [b0; b1; b2; b3] 3) with b3.
  destruct (mul_step1_spec 4 a b0 ltac:(lia) Ha H0) as [L0 V0].
  destruct (x64_mul_step1 a b0) as [|p0 r1]; [destruct L0; discriminate|].
  apply limbs_cons in L0. destruct L0 as [P0 L1].
  destruct (mul_step_spec 4 r1 a b1 ltac:(lia) L1 Ha H1) as [L2 V2].
  destruct (x64_mul_step r1 a b1) as [|p1 r2]; [destruct L2; discriminate|].
  apply limbs_cons in L2. destruct L2 as [P1 L2].
  destruct (mul_step_spec 4 r2 a b2 ltac:(lia) L2 Ha H2) as [L3 V3].
  destruct (x64_mul_step r2 a b2) as [|p2 r3]; [destruct L3; discriminate|].
  apply limbs_cons in L3. destruct L3 as [P2 L3].
  destruct (mul_step_spec 4 r3 a b3 ltac:(lia) L3 Ha H3) as [L4 V4].
  split; [repeat (apply limbs_cons; split; [assumption|]); exact L4|].
  cbn [val] in *. rewrite V4.
  replace (val 64 a * (b0 + 2 ^ 64 * (b1 + 2 ^ 64 * (b2 + 2 ^ 64 * (b3 + 2 ^ 64 * 0))))) with
    (val 64 a * b0 + 2 ^ 64 * (val 64 a * b1 + 2 ^ 64 * (val 64 a * b2 + 2 ^ 64 * (val 64 a * b3)))) by ring.
  rewrite <- V0.
  replace (val 64 a * b1) with (p1 + 2 ^ 64 * val 64 r2 - val 64 r1) by lia.
  replace (val 64 a * b2) with (p2 + 2 ^ 64 * val 64 r3 - val 64 r2) by lia.
  ring.
Qed.

Lemma x64_mul_carry_spec a b : limbs 64 4 a -> 0 <= b < 2 ^ 64 ->
  let (p, c) := x64_mul_carry_uint64 a b in
  limbs 64 4 p /\ 0 <= c < 2 ^ 64 /\ val 64 p + 2 ^ 256 * c = val 64 a * b.
Proof.
  intros Ha Hb. unfold x64_mul_carry_uint64.
  destruct (mul_step1_spec 4 a b ltac:(lia) Ha Hb) as [L V]. cbv zeta.
  destruct (x64_mul_step1 a b) as [|p0 [|p1 [|p2 [|p3 [|p4 [|? ?]]]]]]; try (destruct L; discriminate).
  change (firstn 4 [p0; p1; p2; p3; p4]) with [p0; p1; p2; p3].
  change (nz [p0; p1; p2; p3; p4] 4) with p4.
  assert (L' : limbs 64 (4 + 1) ([p0; p1; p2; p3] ++ [p4])) by exact L.
  split; [exact (limbs_firstn 64 5 4 _ L ltac:(lia))|].
  destruct L as [_ L]. inversion L as [|? ? ? L2]; subst. inversion L2 as [|? ? ? L3]; subst.
  inversion L3 as [|? ? ? L4]; subst. inversion L4 as [|? ? ? L5]; subst.
  inversion L5 as [|? ? L6 ?]; subst.
  split; [exact L6|]. rewrite <- V. cbn [val].
  change (2 ^ 256) with (2 ^ 64 * 2 ^ 64 * 2 ^ 64 * 2 ^ 64). ring.
Qed.

(** ** Division by a limb *)
Lemma x64_div_from_top_spec l rem d : Forall (fun x => 0 <= x < 2 ^ 64) l -> 0 < d < 2 ^ 64 ->
  0 <= rem < d ->
  let (q, r) := x64_div_from_top l rem d in
  length q = length l /\ Forall (fun x => 0 <= x < 2 ^ 64) q /\ 0 <= r < d /\
  rem * pw 64 (length l) + val 64 (rev l) = d * val 64 (rev q) + r.
Proof.
  intros Hl Hd. revert rem. induction Hl as [|x l Hx Hl IH]; intros rem Hr.
  - cbn [x64_div_from_top rev val length]. rewrite pw_0. repeat split; try constructor; lia.
  - cbn [x64_div_from_top].
    assert (E : Z.lor (Z.shiftl rem 64) x = rem * 2 ^ 64 + x).
    { rewrite Z.shiftl_mul_pow2 by lia. rewrite (lor_add_disjoint _ _ 64); lia. }
    rewrite E. set (cur := rem * 2 ^ 64 + x) in *.
    assert (Hm : 0 <= cur mod d < d) by (apply Z.mod_pos_bound; lia).
    assert (Hq : 0 <= cur / d < 2 ^ 64).
    { split; [apply Z.div_pos; nia|]. apply Z.div_lt_upper_bound; nia. }
    unfold w64. rewrite (Z.mod_small (cur mod d)) by lia.
    specialize (IH (cur mod d) Hm).
    destruct (x64_div_from_top l (cur mod d) d) as [q r]. destruct IH as (I1 & I2 & I3 & I4).
    rewrite (Z.mod_small _ _ Hq).
    cbn [length rev]. split; [lia|]. split; [constructor; assumption|]. split; [assumption|].
    rewrite !val_app by lia. rewrite !rev_length. cbn [val]. rewrite pw_S by lia. rewrite I1.
    pose proof (Z.div_mod cur d) as DM.
    replace (rem * (2 ^ 64 * pw 64 (length l)) + (val 64 (rev l) + pw 64 (length l) * (x + 2 ^ 64 * 0)))
      with (cur * pw 64 (length l) + val 64 (rev l)) by (unfold cur; ring).
    rewrite DM at 1 by lia.
    replace ((d * (cur / d) + cur mod d) * pw 64 (length l) + val 64 (rev l)) with
      (d * (cur / d) * pw 64 (length l) + (cur mod d * pw 64 (length l) + val 64 (rev l))) by ring.
    rewrite I4. ring.
Qed.

Lemma x64_div_uint64_spec n a d : limbs 64 n a -> 0 < d < 2 ^ 64 ->
  exists q r, x64_div_uint64 a d = Ok (q, r) /\ limbs 64 n q /\
              val 64 q = val 64 a / d /\ r = val 64 a mod d.
Proof.
  intros Ha Hd. unfold x64_div_uint64. replace (d =? 0) with false by lia.
  pose proof (limbs_rev _ _ _ Ha) as [R1 R2].
  pose proof (x64_div_from_top_spec (rev a) 0 d R2 Hd ltac:(lia)) as S.
  destruct (x64_div_from_top (rev a) 0 d) as [q r]. destruct S as (S1 & S2 & S3 & S4).
  rewrite rev_involutive in S4.
  exists (rev q), r. split; [reflexivity|]. split; [|split].
  - split; [rewrite rev_length; lia|now apply Forall_rev].
  - apply (Z.div_unique_pos _ _ _ r); lia.
  - apply (Z.mod_unique_pos _ _ (val 64 (rev q))); lia.
Qed.

(** ** Modular operations *)
Definition C256x : pw 64 4 = 2 ^ 256 := eq_refl.

Lemma cmp64 a b : limbs 64 4 a -> limbs 64 4 b -> (0 <=? x64_cmp a b) = (val 64 b <=? val 64 a).
Proof.
  intros Ha Hb. unfold x64_cmp. rewrite (cmp_from_top_spec 64 4 a b) by (assumption || lia).
  apply Zcmp_ge.
Qed.

Lemma x64_cond_sub_spec r c d : limbs 64 4 r -> limbs 64 4 d -> 0 <= c <= 1 ->
  val 64 r + 2 ^ 256 * c < 2 * val 64 d ->
  let x := if negb (c =? 0) || (0 <=? x64_cmp r d) then fst (subb 0 r d) else r in
  limbs 64 4 x /\ val 64 x = (val 64 r + 2 ^ 256 * c) mod val 64 d /\ 0 <= val 64 x < val 64 d.
Proof.
  intros Hr Hd Hc Hlt. cbv zeta. rewrite (cmp64 r d Hr Hd).
  pose proof (val_bound 64 4 r ltac:(lia) Hr) as Br.
  pose proof (val_bound 64 4 d ltac:(lia) Hd) as Bd. rewrite C256x in *.
  destruct (negb (c =? 0) || (val 64 d <=? val 64 r)) eqn:E.
  - pose proof (subb_spec 4 0 r d Hr Hd ltac:(lia)) as S.
    destruct (subb 0 r d) as [s b]. destruct S as (S1 & S2 & S3). cbn [fst].
    pose proof (val_bound 64 4 s ltac:(lia) S1) as Bs. rewrite C256x in *.
    split; [assumption|].
    assert (val 64 s = val 64 r + 2 ^ 256 * c - val 64 d) by lia.
    split; [|lia]. apply (Z.mod_unique_pos _ _ 1); lia.
  - apply orb_false_iff in E. destruct E as [E1 E2].
    assert (c = 0) as -> by (destruct (c =? 0) eqn:Ec; [lia|discriminate]).
    split; [assumption|]. split; [|lia]. rewrite Z.mul_0_r, Z.add_0_r. symmetry. apply Z.mod_small. lia.
Qed.

Lemma x64_mod_add_spec a b d : limbs 64 4 a -> limbs 64 4 b -> limbs 64 4 d ->
  val 64 a < val 64 d -> val 64 b < val 64 d ->
  limbs 64 4 (x64_mod_add a b d) /\
  val 64 (x64_mod_add a b d) = (val 64 a + val 64 b) mod val 64 d /\
  0 <= val 64 (x64_mod_add a b d) < val 64 d.
Proof.
  intros Ha Hb Hd La Lb. unfold x64_mod_add.
  pose proof (addc_spec 4 0 a b Ha Hb ltac:(lia)) as S.
  destruct (addc 0 a b) as [s c]. destruct S as (S1 & S2 & S3). rewrite C256x in S3.
  pose proof (x64_cond_sub_spec s c d S1 Hd S2 ltac:(lia)) as H. cbv zeta in H.
  rewrite S3, Z.add_0_r in H. exact H.
Qed.

Lemma x64_mod_sub_spec a b d : limbs 64 4 a -> limbs 64 4 b -> limbs 64 4 d ->
  val 64 a < val 64 d -> val 64 b < val 64 d ->
  limbs 64 4 (x64_mod_sub a b d) /\
  val 64 (x64_mod_sub a b d) = (val 64 a - val 64 b) mod val 64 d /\
  0 <= val 64 (x64_mod_sub a b d) < val 64 d.
Proof.
  intros Ha Hb Hd La Lb. unfold x64_mod_sub.
  pose proof (subb_spec 4 0 a b Ha Hb ltac:(lia)) as S.
  destruct (subb 0 a b) as [s c]. destruct S as (S1 & S2 & S3). rewrite C256x in S3.
  pose proof (val_bound 64 4 a ltac:(lia) Ha) as Ba.
  pose proof (val_bound 64 4 b ltac:(lia) Hb) as Bb.
  pose proof (val_bound 64 4 s ltac:(lia) S1) as Bs.
  pose proof (val_bound 64 4 d ltac:(lia) Hd) as Bd. rewrite C256x in *.
  rewrite (cmp64 s d S1 Hd).
  destruct (negb (c =? 0) || (val 64 d <=? val 64 s)) eqn:E.
  - assert (c = 1).
    { destruct (c =? 0) eqn:Ec; [|lia]. cbn in E. lia. }
    subst c. pose proof (addc_spec 4 0 s d S1 Hd ltac:(lia)) as T.
    destruct (addc 0 s d) as [t k]. destruct T as (T1 & T2 & T3). cbn [fst]. rewrite C256x in T3.
    pose proof (val_bound 64 4 t ltac:(lia) T1) as Bt. rewrite C256x in *.
    assert (k = 1) by lia. subst k.
    split; [assumption|]. split; [|lia]. apply (Z.mod_unique_pos _ _ (-1)); lia.
  - apply orb_false_iff in E. destruct E as [E1 E2].
    assert (c = 0) as -> by (destruct (c =? 0) eqn:Ec; [lia|discriminate]).
    split; [assumption|]. split; [|lia]. symmetry. rewrite Z.mod_small; lia.
Qed.

Lemma x64_sub_while_spec t d : limbs 64 4 t -> limbs 64 4 d -> 0 < val 64 d ->
  exists t', x64_sub_while t d = Some t' /\ limbs 64 4 t' /\ val 64 t' = val 64 t mod val 64 d.
Proof.
  intros Ht Hd Hpos. unfold x64_sub_while.
  pose proof (while2_spec (fun x => limbs 64 4 x /\ val 64 x mod val 64 d = val 64 t mod val 64 d)
                (val 64) (fun t => 0 <=? x64_cmp t d)
                (fun t => fst (x64_sub_borrow t d)) 257 t) as W.
  assert (H1 : forall s : list Z,
      limbs 64 4 s /\ val 64 s mod val 64 d = val 64 t mod val 64 d ->
      (0 <=? x64_cmp s d) = true ->
      (limbs 64 4 (fst (x64_sub_borrow s d)) /\
       val 64 (fst (x64_sub_borrow s d)) mod val 64 d = val 64 t mod val 64 d) /\
      0 <= val 64 (fst (x64_sub_borrow s d)) < val 64 s).
  { intros s [Hs Es] Hc. rewrite (cmp64 s d Hs Hd) in Hc.
    pose proof (subb_spec 4 0 s d Hs Hd ltac:(lia)) as S. unfold x64_sub_borrow.
    destruct (subb 0 s d) as [r b]. destruct S as (S1 & S2 & S3). cbn [fst].
    pose proof (val_bound 64 4 r ltac:(lia) S1) as Br.
    pose proof (val_bound 64 4 s ltac:(lia) Hs) as Bs. rewrite C256x in *.
    assert (E : val 64 r = val 64 s - val 64 d) by lia.
    split; [split; [assumption|]|lia].
    rewrite E, <- Es. replace (val 64 s - val 64 d) with (val 64 s + (-1) * val 64 d) by ring.
    apply Z.mod_add. lia. }
  specialize (W H1 (conj Ht eq_refl)).
  pose proof (val_bound 64 4 t ltac:(lia) Ht) as Bt. rewrite C256x in Bt.
  specialize (W ltac:(lia)).
  destruct (while2 257 _ _ t) as [s|s].
  - exfalso. destruct W as (_ & W2 & W3). change (Z.of_nat 257) with 257 in W3. lia.
  - destruct W as [[W1 W2] W3]. rewrite (cmp64 s d W1 Hd) in W3.
    pose proof (val_bound 64 4 s ltac:(lia) W1) as Bs.
    exists s. split; [reflexivity|]. split; [assumption|]. rewrite <- W2. symmetry.
    apply Z.mod_small. lia.
Qed.

Lemma x64_mod_absorb_spec r t d : limbs 64 4 r -> limbs 64 4 t -> limbs 64 4 d ->
  val 64 r < val 64 d ->
  exists x, x64_mod_absorb r t d = Some x /\ limbs 64 4 x /\
            val 64 x = (val 64 r + val 64 t) mod val 64 d /\ 0 <= val 64 x < val 64 d.
Proof.
  intros Hr Ht Hd Hlt. pose proof (val_bound 64 4 r ltac:(lia) Hr) as Br.
  destruct (x64_sub_while_spec t d Ht Hd ltac:(lia)) as (t' & E1 & E2 & E3).
  unfold x64_mod_absorb. rewrite E1. exists (x64_mod_add r t' d). split; [reflexivity|].
  assert (val 64 t' < val 64 d) by (rewrite E3; apply Z.mod_pos_bound; lia).
  destruct (x64_mod_add_spec r t' d Hr E2 Hd Hlt H) as (F1 & F2 & F3).
  split; [assumption|]. split; [|assumption]. rewrite F2, E3. now rewrite Zplus_mod_idemp_r.
Qed.

Lemma x64_iter_dbl_spec n r d : limbs 64 4 r -> limbs 64 4 d -> val 64 r < val 64 d ->
  let x := Nat.iter n (fun x => x64_mod_add x x d) r in
  limbs 64 4 x /\ val 64 x = (val 64 r * 2 ^ Z.of_nat n) mod val 64 d /\ 0 <= val 64 x < val 64 d.
Proof.
  intros Hr Hd Hlt. cbv zeta. pose proof (val_bound 64 4 r ltac:(lia) Hr) as Br.
  induction n as [|n IH].
  - cbn [Nat.iter nat_rect]. change (2 ^ Z.of_nat 0) with 1. rewrite Z.mul_1_r, Z.mod_small by lia.
    split; [assumption|lia].
  - change (Nat.iter (S n) ?f r) with (f (Nat.iter n f r)).
    set (x := Nat.iter n (fun x => x64_mod_add x x d) r) in *.
    destruct IH as (I1 & I2 & I3).
    destruct (x64_mod_add_spec x x d I1 I1 Hd ltac:(lia) ltac:(lia)) as (F1 & F2 & F3).
    split; [exact F1|]. split; [|exact F3]. rewrite F2, I2.
    rewrite <- Z.add_mod by lia. rewrite Nat2Z.inj_succ, Z.pow_succ_r by lia. f_equal. ring.
Qed.

Lemma x64_sll_spec n r d : limbs 64 4 r -> limbs 64 4 d -> val 64 r < val 64 d ->
  let x := x64_self_mod_sll_n r n d in
  limbs 64 4 x /\ val 64 x = (val 64 r * 2 ^ Z.of_nat n) mod val 64 d /\ 0 <= val 64 x < val 64 d.
Proof.
  intros Hr Hd Hlt. cbv zeta. unfold x64_self_mod_sll_n, x64_equal_zero.
  rewrite (equal_zero_spec 64 4 r) by (assumption || lia).
  pose proof (val_bound 64 4 r ltac:(lia) Hr) as Br.
  destruct (val 64 r =? 0) eqn:E.
  - apply Z.eqb_eq in E. rewrite E, Z.mul_0_l, Z.mod_0_l by lia. split; [assumption|lia].
  - apply x64_iter_dbl_spec; assumption.
Qed.

Lemma x64_from_bytes_spec b : bytes b -> length b = 32%nat ->
  limbs 64 4 (x64_from_bytes b) /\ val 64 (x64_from_bytes b) = be_val b.
Proof.
  intros Hb Hl. unfold x64_from_bytes.
  apply (val_rev_be 64 be_val 4 8 b); try lia; try assumption.
Qed.

Lemma x64_mod_blocks_spec k r data d v : limbs 64 4 r -> limbs 64 4 d -> bytes data ->
  (32 * k <= length data)%nat -> 0 <= val 64 r < val 64 d -> val 64 r = v mod val 64 d ->
  exists x, x64_mod_blocks k r data d = Some x /\ limbs 64 4 x /\ 0 <= val 64 x < val 64 d /\
    val 64 x = (v * 256 ^ Z.of_nat (32 * k) + be_val (firstn (32 * k) data)) mod val 64 d.
Proof.
  intros Hr Hd. revert r data v Hr. induction k as [|k IH]; intros r data v Hr Hb Hl Hlt Ev.
  - exists r. split; [reflexivity|]. split; [assumption|]. split; [assumption|].
    rewrite Nat.mul_0_r. cbn [firstn]. rewrite be_val_nil. change (256 ^ Z.of_nat 0) with 1.
    rewrite Z.mul_1_r, Z.add_0_r. exact Ev.
  - cbn [x64_mod_blocks].
    destruct (x64_sll_spec 256 r d Hr Hd ltac:(lia)) as (F1 & F2 & F3).
    set (r1 := x64_self_mod_sll_n r 256 d) in *.
    assert (Hb1 : bytes (firstn 32 data)) by now apply bytes_firstn.
    assert (Hl1 : length (firstn 32 data) = 32%nat).
    { rewrite firstn_length. clear - Hl. lia. }
    destruct (x64_from_bytes_spec _ Hb1 Hl1) as [G1 G2].
    destruct (x64_mod_absorb_spec r1 (x64_from_bytes (firstn 32 data)) d F1 G1 Hd (proj2 F3))
      as (x & X1 & X2 & X3 & X4).
    rewrite X1.
    destruct (IH x (skipn 32 data) (v * 256 ^ 32 + be_val (firstn 32 data)) X2
                (bytes_skipn _ _ Hb)) as (y & Y1 & Y2 & Y3 & Y4).
    + rewrite skipn_length. clear - Hl. lia.
    + assumption.
    + rewrite X3, F2, G2, Ev. change (Z.of_nat 256) with 256. change (256 ^ 32) with (2 ^ 256).
      rewrite Zmult_mod_idemp_l. rewrite Zplus_mod_idemp_l. reflexivity.
    + exists y. split; [exact Y1|]. split; [assumption|]. split; [assumption|].
      rewrite Y4. f_equal.
      clear - Hl. replace (32 * S k)%nat with (32 + 32 * k)%nat by lia.
      rewrite (be_val_split 32 (firstn (32 + 32 * k) data)).
      rewrite firstn_firstn, Nat.min_l by lia. rewrite skipn_firstn_comm.
      replace (32 + 32 * k - 32)%nat with (32 * k)%nat by lia.
      rewrite firstn_length, skipn_length, Nat.min_l by lia.
      replace (Z.of_nat (32 + 32 * k)) with (32 + Z.of_nat (32 * k)) by lia.
      rewrite Z.pow_add_r by lia. ring.
Qed.

Lemma x64_mod_tail_spec r data d v : limbs 64 4 r -> limbs 64 4 d -> bytes data ->
  (length data < 32)%nat -> 0 <= val 64 r < val 64 d -> val 64 r = v mod val 64 d ->
  exists x, x64_mod_tail r data d = Some x /\ limbs 64 4 x /\ 0 <= val 64 x < val 64 d /\
    val 64 x = (v * 256 ^ Z.of_nat (length data) + be_val data) mod val 64 d.
Proof.
  intros Hr Hd Hb Hl Hlt Ev. destruct data as [|b0 data'] eqn:Ed.
  - exists r. split; [reflexivity|]. split; [assumption|]. split; [assumption|].
    rewrite be_val_nil. change (256 ^ Z.of_nat (length [])) with 1. rewrite Z.mul_1_r, Z.add_0_r. exact Ev.
  - unfold x64_mod_tail. rewrite <- Ed in *. clear Ed.
    destruct (x64_sll_spec (8 * length data) r d Hr Hd ltac:(lia)) as (F1 & F2 & F3).
    set (r1 := x64_self_mod_sll_n r _ d) in *.
    assert (Hb1 : bytes (repeat 0 (32 - length data) ++ data)).
    { apply bytes_app. split; [apply bytes_repeat; unfold is_byte; lia|assumption]. }
    assert (Hl1 : length (repeat 0 (32 - length data) ++ data) = 32%nat).
    { rewrite app_length, repeat_length. lia. }
    destruct (x64_from_bytes_spec _ Hb1 Hl1) as [G1 G2]. rewrite be_val_zeros in G2.
    destruct (x64_mod_absorb_spec r1 _ d F1 G1 Hd ltac:(lia)) as (x & X1 & X2 & X3 & X4).
    exists x. split; [exact X1|]. split; [assumption|]. split; [assumption|].
    rewrite X3, F2, G2, Ev, pow_256_bits. rewrite Zmult_mod_idemp_l, Zplus_mod_idemp_l. reflexivity.
Qed.

Lemma x64_mod_spec data d : bytes data -> limbs 64 4 d -> 0 < val 64 d ->
  exists x, x64_mod data d = Some x /\ limbs 64 4 x /\ val 64 x = be_val data mod val 64 d.
Proof.
  intros Hb Hd Hpos. unfold x64_mod.
  assert (Hz : limbs 64 4 x64_set_zero).
  { split; [reflexivity|]. unfold x64_set_zero. repeat (apply Forall_cons; [lia|]). constructor. }
  assert (Vz : val 64 x64_set_zero = 0) by reflexivity.
  destruct (32 <=? length data)%nat eqn:E.
  - assert (Hb1 : bytes (firstn 32 data)) by now apply bytes_firstn.
    assert (Hl1 : length (firstn 32 data) = 32%nat) by (rewrite firstn_length; lia).
    destruct (x64_from_bytes_spec _ Hb1 Hl1) as [G1 G2].
    destruct (x64_mod_absorb_spec x64_set_zero _ d Hz G1 Hd ltac:(lia)) as (r & R1 & R2 & R3 & R4).
    rewrite R1. cbv zeta. rewrite Vz, G2, Z.add_0_l in R3.
    set (d1 := skipn 32 data). set (k := (length d1 / 32)%nat).
    assert (Hd1 : bytes d1) by now apply bytes_skipn.
    pose proof (Nat.div_mod (length d1) 32 ltac:(lia)) as DM. fold k in DM.
    pose proof (Nat.mod_upper_bound (length d1) 32 ltac:(lia)) as DB.
    destruct (x64_mod_blocks_spec k r d1 d (be_val (firstn 32 data)) R2 Hd Hd1 ltac:(lia) R4 R3)
      as (x & X1 & X2 & X3 & X4).
    rewrite X1.
    destruct (x64_mod_tail_spec x (skipn (32 * k) d1) d _ X2 Hd (bytes_skipn _ _ Hd1)
                ltac:(rewrite skipn_length; lia) X3 X4) as (y & Y1 & Y2 & Y3 & Y4).
    exists y. split; [exact Y1|]. split; [assumption|]. rewrite Y4. f_equal.
    rewrite (be_val_split 32 data). fold d1. rewrite (be_val_split (32 * k) d1).
    rewrite skipn_length.
    replace (Z.of_nat (length d1)) with (Z.of_nat (32 * k) + Z.of_nat (length d1 - 32 * k)) by lia.
    rewrite Z.pow_add_r by lia. ring.
  - destruct (x64_mod_tail_spec x64_set_zero data d 0 Hz Hd Hb ltac:(lia) ltac:(lia)) as (y & Y1 & Y2 & Y3 & Y4).
    + rewrite Vz. symmetry. apply Z.mod_0_l. lia.
    + exists y. split; [exact Y1|]. split; [assumption|]. rewrite Y4. f_equal.
Qed.

(** ** mpz multiplication *)
Lemma x64_mpz_row0_spec n a b h : limbs 64 n a -> 0 <= b < 2 ^ 64 -> 0 <= h < 2 ^ 64 ->
  let (r, c) := x64_mpz_row0 a b h in
  limbs 64 n r /\ 0 <= c < 2 ^ 64 /\ val 64 r + pw 64 n * c = val 64 a * b + h.
Proof.
  revert a h. induction n as [|n IH]; intros a h Ha Hb Hh.
  - destruct a; [|destruct Ha; discriminate].
    cbn [x64_mpz_row0 val]. rewrite pw_0. split; [apply limbs_nil|]. lia.
  - destruct a as [|x a]; [destruct Ha; discriminate|].
    apply limbs_cons in Ha. destruct Ha as [Hx Ha]. cbn [x64_mpz_row0 val].
    destruct (mulx_spec x b Hx Hb) as (M1 & M2 & M3).
    pose proof (addcarry_spec 0 (mulx_lo x b) h ltac:(lia) M2 Hh) as S.
    destruct (addcarry_u64 0 (mulx_lo x b) h) as [p c]. destruct S as (S1 & S2 & S3).
    pose proof (addcarry_spec c (mulx_hi x b) 0 S3 ltac:(lia) ltac:(lia)) as T.
    destruct (addcarry_u64 c (mulx_hi x b) 0) as [hi c']. destruct T as (T1 & T2 & T3).
    specialize (IH a hi Ha Hb T2). destruct (x64_mpz_row0 a b hi) as [r h'].
    destruct IH as (I1 & I2 & I3). split; [apply limbs_cons; split; assumption|].
    split; [assumption|]. cbn [val]. rewrite pw_S by lia.
    assert (c' = 0) by lia. subst c'.
    replace (p + 2 ^ 64 * val 64 r + 2 ^ 64 * pw 64 n * h')
      with (p + 2 ^ 64 * (val 64 r + pw 64 n * h')) by ring. rewrite I3.
    replace ((x + 2 ^ 64 * val 64 a) * b + h) with (x * b + 2 ^ 64 * (val 64 a * b) + h) by ring.
    lia.
Qed.

Lemma x64_mpz_row_spec n r a b h :
  limbs 64 n r -> limbs 64 n a -> 0 <= b < 2 ^ 64 -> 0 <= h < 2 ^ 64 ->
  let (u, c) := x64_mpz_row r a b h in
  limbs 64 n u /\ 0 <= c < 2 ^ 64 /\ val 64 u + pw 64 n * c = val 64 r + val 64 a * b + h.
Proof.
  revert r a h. induction n as [|n IH]; intros r a h Hr Ha Hb Hh.
  - destruct a; [|destruct Ha; discriminate]. destruct r; [|destruct Hr; discriminate].
    cbn [x64_mpz_row val]. rewrite pw_0. split; [apply limbs_nil|]. lia.
  - destruct a as [|x a]; [destruct Ha; discriminate|].
    destruct r as [|t r]; [destruct Hr; discriminate|].
    apply limbs_cons in Ha, Hr. destruct Ha as [Hx Ha], Hr as [Ht Hr]. cbn [x64_mpz_row val].
    destruct (mulx_spec x b Hx Hb) as (M1 & M2 & M3).
    pose proof (addcarry_spec 0 t (mulx_lo x b) ltac:(lia) Ht M2) as S.
    destruct (addcarry_u64 0 t (mulx_lo x b)) as [p1 c1]. destruct S as (S1 & S2 & S3).
    pose proof (addcarry_spec c1 (mulx_hi x b) 0 S3 ltac:(lia) ltac:(lia)) as T.
    destruct (addcarry_u64 c1 (mulx_hi x b) 0) as [h1 d1]. destruct T as (T1 & T2 & T3).
    pose proof (addcarry_spec 0 p1 h ltac:(lia) S2 Hh) as U.
    destruct (addcarry_u64 0 p1 h) as [p2 c2]. destruct U as (U1 & U2 & U3).
    pose proof (addcarry_spec c2 h1 0 U3 T2 ltac:(lia)) as W.
    destruct (addcarry_u64 c2 h1 0) as [h2 d2]. destruct W as (W1 & W2 & W3).
    specialize (IH r a h2 Hr Ha Hb W2). destruct (x64_mpz_row r a b h2) as [u h'].
    destruct IH as (I1 & I2 & I3). split; [apply limbs_cons; split; assumption|].
    split; [assumption|]. cbn [val]. rewrite pw_S by lia.
    assert (d1 = 0) by lia. subst d1.
    assert (Hb2 : x * b <= (2 ^ 64 - 1) * (2 ^ 64 - 1)) by nia.
    assert (d2 = 0) by lia. subst d2.
    replace (p2 + 2 ^ 64 * val 64 u + 2 ^ 64 * pw 64 n * h')
      with (p2 + 2 ^ 64 * (val 64 u + pw 64 n * h')) by ring. rewrite I3.
    replace (t + 2 ^ 64 * val 64 r + (x + 2 ^ 64 * val 64 a) * b + h) with
      (t + 2 ^ 64 * val 64 r + x * b + 2 ^ 64 * (val 64 a * b) + h) by ring.
    lia.
Qed.

Lemma x64_mpz_rows_spec k n r a bs :
  (0 < n)%nat -> limbs 64 n r -> limbs 64 n a -> limbs 64 k bs ->
  limbs 64 (n + k) (x64_mpz_rows r a bs) /\
  val 64 (x64_mpz_rows r a bs) = val 64 r + val 64 a * val 64 bs.
Proof.
  intros Hn. revert r bs. induction k as [|k IH]; intros r bs Hr Ha Hbs.
  - destruct bs; [|destruct Hbs; discriminate]. cbn [x64_mpz_rows val].
    rewrite Nat.add_0_r. split; [assumption|]. lia.
  - destruct bs as [|b bs]; [destruct Hbs; discriminate|].
    apply limbs_cons in Hbs. destruct Hbs as [Hb Hbs]. cbn [x64_mpz_rows].
    pose proof (x64_mpz_row_spec n r a b 0 Hr Ha Hb ltac:(lia)) as S.
    destruct (x64_mpz_row r a b 0) as [u c]. destruct S as (S1 & S2 & S3).
    destruct u as [|h t]; [destruct S1 as [S1 _]; cbn in S1; lia|].
    destruct n as [|n]; [lia|].
    apply limbs_cons in S1. destruct S1 as [Hh Ht].
    assert (Htc : limbs 64 (S n) (t ++ [c])).
    { replace (S n) with (n + 1)%nat by lia. apply limbs_app; [exact Ht|now apply limbs_1]. }
    destruct (IH (t ++ [c]) bs Htc Ha Hbs) as [I1 I2].
    split.
    + replace (S n + S k)%nat with (S (S n + k)) by lia. apply limbs_cons. split; assumption.
    + cbn [val] in *. rewrite I2, val_app by lia. rewrite (limbs_length _ _ _ Ht). cbn [val].
      rewrite pw_S in S3 by lia.
      replace (val 64 a * (b + 2 ^ 64 * val 64 bs)) with
        (val 64 a * b + 2 ^ 64 * (val 64 a * val 64 bs)) by ring.
      rewrite Z.mul_0_r, Z.add_0_r.
      replace (h + 2 ^ 64 * (val 64 t + pw 64 n * c + val 64 a * val 64 bs)) with
        (h + 2 ^ 64 * val 64 t + 2 ^ 64 * pw 64 n * c + 2 ^ 64 * (val 64 a * val 64 bs)) by ring.
      rewrite S3. ring.
Qed.

Lemma x64_mpz_mul_spec n a b : limbs 64 n a -> limbs 64 n b ->
  limbs 64 (n + n) (x64_mpz_mul a b) /\ val 64 (x64_mpz_mul a b) = val 64 a * val 64 b.
Proof.
  intros Ha Hb. destruct n as [|n].
  - destruct a; [|destruct Ha; discriminate]. destruct b; [|destruct Hb; discriminate].
    split; [apply limbs_nil|reflexivity].
  - destruct b as [|b0 bs]; [destruct Hb; discriminate|].
    apply limbs_cons in Hb. destruct Hb as [Hb Hbs]. unfold x64_mpz_mul.
    pose proof (x64_mpz_row0_spec (S n) a b0 0 Ha Hb ltac:(lia)) as S.
    destruct (x64_mpz_row0 a b0 0) as [u c]. destruct S as (S1 & S2 & S3).
    destruct u as [|h t]; [destruct S1 as [S1 _]; cbn in S1; lia|].
    apply limbs_cons in S1. destruct S1 as [Hh Ht].
    assert (Htc : limbs 64 (S n) (t ++ [c])).
    { replace (S n) with (n + 1)%nat by lia. apply limbs_app; [exact Ht|now apply limbs_1]. }
    destruct (x64_mpz_rows_spec n (S n) (t ++ [c]) a bs ltac:(lia) Htc Ha Hbs) as [I1 I2].
    split.
    + replace (S n + S n)%nat with (S (S n + n)) by lia. apply limbs_cons. split; assumption.
    + cbn [val] in *. rewrite I2, val_app by lia. rewrite (limbs_length _ _ _ Ht). cbn [val].
      rewrite pw_S in S3 by lia.
      replace (h + 2 ^ 64 * (val 64 t + pw 64 n * (c + 2 ^ 64 * 0) + val 64 a * val 64 bs)) with
        (h + 2 ^ 64 * val 64 t + 2 ^ 64 * pw 64 n * c + 2 ^ 64 * (val 64 a * val 64 bs)) by ring.
      rewrite S3. ring.
Qed.

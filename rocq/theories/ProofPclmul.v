(** GHASH: polynomial view of the block multiplication; the pclmulqdq variant. *)
From Verif Require Import Base BaseFacts ModelEndian ProofEndian ModelHash TablesGHASH SpecGHASH ModelGHASH ProofLinear ProofGHASH.

Lemma lxor_shiftl_1 a b : Z.shiftl (Z.lxor a b) 1 = Z.lxor (Z.shiftl a 1) (Z.shiftl b 1).
Proof. apply Z.shiftl_lxor. Qed.
Ltac lin_tac :=
  repeat first [ apply lin_xor | apply lin_shiftr | apply lin_shiftl | apply lin_land | apply lin_land_l | apply lin_id | apply lin_const0 ].

(** ** rev128 *)
Lemma lin_rev128 : lin rev128.
Proof.
  unfold rev128. intros a b.
  assert (G : forall l r1 r2, fold_left (fun r i => if Z.testbit (Z.lxor a b) (127 - i) then Z.lxor r (Z.shiftl 1 i) else r) l (Z.lxor r1 r2) =
     Z.lxor (fold_left (fun r i => if Z.testbit a (127 - i) then Z.lxor r (Z.shiftl 1 i) else r) l r1)
            (fold_left (fun r i => if Z.testbit b (127 - i) then Z.lxor r (Z.shiftl 1 i) else r) l r2)).
  { induction l as [|x l IH]; intros r1 r2; [reflexivity|]. cbn [fold_left]. rewrite <- IH. f_equal.
    rewrite Z.lxor_spec. destruct (Z.testbit a (127 - x)), (Z.testbit b (127 - x)); cbn [xorb].
    - rewrite lxor_swap, Z.lxor_nilpotent, Z.lxor_0_r. reflexivity.
    - rewrite !Z.lxor_assoc. f_equal. apply Z.lxor_comm.
    - rewrite Z.lxor_assoc. reflexivity.
    - reflexivity. }
  apply (G (map Z.of_nat (seq 0 128)) 0 0).
Qed.
Lemma rev128_rev128 x : is_blk x -> rev128 (rev128 x) = x.
Proof.
  apply (lin_ext_b (fun x => rev128 (rev128 x)) (fun x => x) 128).
  - apply lin_comp; apply lin_rev128.
  - apply lin_id.
  - vm_compute. reflexivity.
Qed.
Lemma rev128_fold_blk x l : (forall i, In i l -> 0 <= i < 128) -> forall r, is_blk r ->
  is_blk (fold_left (fun r i => if Z.testbit x (127 - i) then Z.lxor r (Z.shiftl 1 i) else r) l r).
Proof.
  induction l as [|y l IH]; intros Hl r Hr; [exact Hr|]. cbn [fold_left]. apply IH.
  - intros i Hi. apply Hl. right; exact Hi.
  - destruct (Z.testbit x (127 - y)); [|exact Hr]. apply lxor_bound; [lia|exact Hr|].
    specialize (Hl y (or_introl eq_refl)). rewrite Z.shiftl_1_l. split; [lia|]. apply Z.pow_lt_mono_r; lia.
Qed.
Lemma rev128_blk x : is_blk (rev128 x).
Proof.
  unfold rev128. apply rev128_fold_blk; [|unfold is_blk; lia].
  intros i Hi. apply in_map_iff in Hi. destruct Hi as (n & <- & Hn). apply in_seq in Hn. lia.
Qed.

Global Opaque rev128.
(** ** polynomials *)
Definition P128 : Z := 2 ^ 128 + 0x87.
Definition xtime (a : Z) : Z := Z.lxor (Z.shiftl a 1) (if Z.testbit a 127 then P128 else 0).
Lemma lin_xtime : lin xtime.
Proof.
  intros a b. apply (lin_xor (fun x => Z.shiftl x 1) (fun x => if Z.testbit x 127 then P128 else 0)).
  - lin_tac.
  - apply (lin_if (fun x => x)), lin_id.
Qed.
Lemma rev_mulx V : is_blk V -> rev128 (mulx V) = xtime (rev128 V).
Proof.
  apply (lin_ext_b (fun x => rev128 (mulx x)) (fun x => xtime (rev128 x)) 128).
  - exact (lin_comp rev128 mulx lin_rev128 lin_mulx).
  - exact (lin_comp xtime rev128 lin_xtime lin_rev128).
  - vm_compute. reflexivity.
Qed.

Lemma lin_polymod n : lin (polymod n).
Proof.
  induction n as [|n IH]; intros a b; [reflexivity|]. cbn [polymod]. rewrite <- IH. f_equal.
  rewrite Z.lxor_spec. set (q := Z.shiftl _ _).
  destruct (Z.testbit a _), (Z.testbit b _); cbn [xorb].
  - rewrite lxor_swap, Z.lxor_nilpotent, Z.lxor_0_r. reflexivity.
  - rewrite !Z.lxor_assoc. f_equal. apply Z.lxor_comm.
  - rewrite Z.lxor_assoc. reflexivity.
  - reflexivity.
Qed.
Lemma polymod_blk n a : is_blk a -> polymod n a = a.
Proof.
  induction n as [|n IH]; intros Ha; [reflexivity|]. cbn [polymod].
  rewrite (testbit_small a 128) by (exact Ha || lia). apply IH; assumption.
Qed.
Lemma polymod_double n : forall a, polymod (S n) (Z.shiftl a 1) = xtime (polymod n a).
Proof.
  induction n as [|n IH]; intros a.
  - cbn [polymod]. unfold xtime. rewrite Z.shiftl_spec by lia.
    change (128 + Z.of_nat 0 - 1) with 127. change (Z.shiftl (2 ^ 128 + 0x87) (Z.of_nat 0)) with P128.
    destruct (Z.testbit a 127); [reflexivity|]. rewrite Z.lxor_0_r. reflexivity.
  - change (polymod (S (S n)) (Z.shiftl a 1)) with
      (polymod (S n) (if Z.testbit (Z.shiftl a 1) (128 + Z.of_nat (S n)) then Z.lxor (Z.shiftl a 1) (Z.shiftl P128 (Z.of_nat (S n))) else Z.shiftl a 1)).
    change (polymod (S n) a) with (polymod n (if Z.testbit a (128 + Z.of_nat n) then Z.lxor a (Z.shiftl P128 (Z.of_nat n)) else a)).
    rewrite <- IH. f_equal. rewrite Z.shiftl_spec by lia.
    replace (128 + Z.of_nat (S n) - 1) with (128 + Z.of_nat n) by lia.
    destruct (Z.testbit a (128 + Z.of_nat n)); [|reflexivity].
    rewrite Z.shiftl_lxor, Z.shiftl_shiftl by lia. do 2 f_equal. lia.
Qed.
Fixpoint xtimes (n : nat) (a : Z) : Z := match n with O => a | S n' => xtime (xtimes n' a) end.
Lemma polymod_shift n a : polymod n (Z.shiftl a (Z.of_nat n)) = xtimes n a.
Proof.
  induction n as [|n IH]; [apply Z.shiftl_0_r|].
  replace (Z.shiftl a (Z.of_nat (S n))) with (Z.shiftl (Z.shiftl a (Z.of_nat n)) 1)
    by (rewrite Z.shiftl_shiftl by lia; f_equal; lia).
  rewrite polymod_double, IH. reflexivity.
Qed.
Lemma polymod_le n m a : 0 <= a < 2 ^ (128 + Z.of_nat n) -> (n <= m)%nat -> polymod m a = polymod n a.
Proof.
  intros Ha Hm. induction m as [|m IH]; [replace n with 0%nat by lia; reflexivity|].
  destruct (Nat.eq_dec n (S m)) as [->|]; [reflexivity|]. cbn [polymod].
  rewrite (testbit_small a (128 + Z.of_nat n)) by (exact Ha || lia). apply IH. lia.
Qed.

Lemma cl_loop_front n a b : cl_loop (S n) a b = Z.lxor (if Z.testbit b 0 then a else 0) (Z.shiftl (cl_loop n a (Z.shiftr b 1)) 1).
Proof.
  induction n as [|n IH].
  - cbn [cl_loop]. change (Z.of_nat 0) with 0. rewrite Z.shiftl_0_r. reflexivity.
  - change (cl_loop (S (S n)) a b) with
      (Z.lxor (if Z.testbit b (Z.of_nat (S n)) then Z.shiftl a (Z.of_nat (S n)) else 0) (cl_loop (S n) a b)).
    rewrite IH. cbn [cl_loop]. rewrite Z.shiftl_lxor. rewrite <- !Z.lxor_assoc. f_equal.
    rewrite Z.lxor_comm. f_equal. rewrite Z.shiftr_spec by lia. replace (Z.of_nat n + 1) with (Z.of_nat (S n)) by lia.
    destruct (Z.testbit b (Z.of_nat (S n))); [|reflexivity]. rewrite Z.shiftl_shiftl by lia. f_equal. lia.
Qed.
Lemma clmul_cl n : forall a b, clmul n a b = cl_loop n b a.
Proof.
  induction n as [|n IH]; intros a b; [reflexivity|]. rewrite cl_loop_front. cbn [clmul]. rewrite IH, Z.bit0_odd. reflexivity.
Qed.
Lemma lin_cl_a n b : lin (fun a => cl_loop n a b).
Proof.
  induction n as [|n IH]; [intros x y; reflexivity|]. cbn [cl_loop].
  apply (lin_xor (fun a => if Z.testbit b (Z.of_nat n) then Z.shiftl a (Z.of_nat n) else 0)); [|exact IH].
  apply (lin_ite _ (fun a => Z.shiftl a (Z.of_nat n)) (fun _ => 0)); lin_tac.
Qed.
Lemma lin_cl_b n a : lin (fun b => cl_loop n a b).
Proof.
  induction n as [|n IH]; [intros x y; reflexivity|]. cbn [cl_loop].
  apply (lin_xor (fun b => if Z.testbit b (Z.of_nat n) then Z.shiftl a (Z.of_nat n) else 0)); [|exact IH].
  apply (lin_if (fun x => x)), lin_id.
Qed.
Lemma cl_pow2 n a i : cl_loop n a (2 ^ Z.of_nat i) = if (i <? n)%nat then Z.shiftl a (Z.of_nat i) else 0.
Proof.
  induction n as [|n IH]; [reflexivity|]. cbn [cl_loop]. rewrite IH, Z.pow2_bits_eqb by lia.
  destruct (Z.eqb_spec (Z.of_nat i) (Z.of_nat n)) as [E|E].
  - assert (i = n) by lia. subst. destruct (Nat.ltb_spec n n); [lia|]. destruct (Nat.ltb_spec n (S n)); [|lia].
    apply Z.lxor_0_r.
  - rewrite Z.lxor_0_l. destruct (Nat.ltb_spec i n), (Nat.ltb_spec i (S n)); lia || reflexivity.
Qed.

(** SP 800-38D's product is the product of polynomials modulo x^128 + x^7 + x^2 + x + 1. *)
Lemma gmul_poly X Y : is_blk X -> is_blk Y -> rev128 (gmul X Y) = polymod 128 (clmul 128 (rev128 X) (rev128 Y)).
Proof.
  intros HX HY. rewrite clmul_cl.
  assert (XT : forall n, is_blk (mulxn n Y) /\ rev128 (mulxn n Y) = xtimes n (rev128 Y)).
  { induction n as [|n [I1 I2]]; [split; [exact HY|cbn [mulxn xtimes]; reflexivity]|]. rewrite mulxn_S. cbn [xtimes]. rewrite <- I2. split; [apply mulx_blk; assumption|].
    apply rev_mulx; assumption. }
  assert (L : forall x, is_blk x -> rev128 (gmul x Y) = polymod 128 (cl_loop 128 (rev128 Y) (rev128 x))).
  { apply (lin_ext (fun x => rev128 (gmul x Y)) (fun x => polymod 128 (cl_loop 128 (rev128 Y) (rev128 x))) 128).
    - exact (lin_comp rev128 (fun x => gmul x Y) lin_rev128 (lin_gmul_X Y)).
    - apply (lin_comp (polymod 128)); [apply lin_polymod|].
      exact (lin_comp (fun b => cl_loop 128 (rev128 Y) b) rev128 (lin_cl_b 128 (rev128 Y)) lin_rev128).
    - intros i Hi.
      assert (G : gmul (2 ^ Z.of_nat i) Y = mulxn (127 - i) Y).
      { Transparent gmul gmul_loop. unfold gmul.
        assert (Z0 : forall n j V, (forall k, (k < n)%nat -> 127 - (j + Z.of_nat k) <> Z.of_nat i) ->
                 gmul_loop n (2 ^ Z.of_nat i) j 0 V = 0).
        { induction n as [|n IH]; intros j V Hk; [reflexivity|]. cbn [gmul_loop].
          assert (T : Z.testbit (2 ^ Z.of_nat i) (127 - j) = false).
          { destruct (Z.ltb_spec (127 - j) 0); [apply Z.testbit_neg_r; lia|]. apply Z.pow2_bits_false.
            specialize (Hk 0%nat ltac:(lia)). lia. }
          rewrite T. apply IH. intros k Hk'. specialize (Hk (S k) ltac:(lia)). lia. }
        replace 128%nat with ((127 - i) + (1 + i))%nat by lia. rewrite gmul_loop_app.
        rewrite (Z0 (127 - i)%nat 0) by (intros; lia).
        rewrite gmul_loop_app. rewrite gmul_loop_acc.
        rewrite (Z0 i) by (intros; lia). rewrite Z.lxor_0_r. cbn [gmul_loop].
        rewrite Z.pow2_bits_eqb by lia. destruct (Z.eqb_spec (Z.of_nat i) (127 - (0 + Z.of_nat (127 - i)))); [|lia].
        apply Z.lxor_0_l. }
      Opaque gmul gmul_loop.
      rewrite G. destruct (XT (127 - i)%nat) as [_ ->].
      assert (R : rev128 (2 ^ Z.of_nat i) = 2 ^ Z.of_nat (127 - i)).
      { assert (C : forallb (fun i => rev128 (2 ^ Z.of_nat i) =? 2 ^ Z.of_nat (127 - i)) (seq 0 128) = true) by (vm_compute; reflexivity).
        rewrite forallb_forall in C. apply Z.eqb_eq, C, in_seq. lia. }
      rewrite R, cl_pow2. destruct (Nat.ltb_spec (127 - i) 128); [|lia].
      rewrite <- polymod_shift. symmetry. apply polymod_le; [|lia].
      pose proof (rev128_blk Y) as B. rewrite Z.shiftl_mul_pow2, Z.pow_add_r by lia. unfold is_blk in B.
      split; [apply Z.mul_nonneg_nonneg; lia|]. apply Z.mul_lt_mono_pos_r; lia. }
  apply L. exact HX.
Qed.

(** ** Registers: lane operations are linear *)
Lemma lin_lane w i f : lin f -> lin (fun x => lane w (f x) i).
Proof. intros F. unfold lane. lin_tac. exact F. Qed.
Lemma lin_unlanes {A} w (l : list A) (g : A -> Z -> Z) : (forall a, lin (g a)) -> lin (fun x => unlanes w (map (fun a => g a x) l)).
Proof.
  intros H. induction l as [|a l IH]; [intros x y; reflexivity|]. cbn [map unlanes fold_right].
  apply (lin_xor (g a)); [apply H|]. apply lin_shiftl. exact IH.
Qed.
Lemma lin_map_lanes w n (h : Z -> Z) f : lin h -> lin f -> lin (fun x => unlanes w (map h (lanes w n (f x)))).
Proof.
  intros Hh F. unfold lanes. intros a b. rewrite !map_map.
  apply (lin_unlanes w (seq 0 n) (fun i x => h (lane w (f x) (Z.of_nat i)))).
  intros i. apply (lin_comp h); [exact Hh|]. apply lin_lane, F.
Qed.
Lemma lin_srli32 k f : lin f -> lin (fun x => srli_epi32 (f x) k).
Proof. intros F. unfold srli_epi32. apply (lin_map_lanes 32 4 (fun a => Z.shiftr a k)); [lin_tac|exact F]. Qed.
Lemma lin_srli16 k f : lin f -> lin (fun x => srli_epi16 (f x) k).
Proof. intros F. unfold srli_epi16. apply (lin_map_lanes 16 8 (fun a => Z.shiftr a k)); [lin_tac|exact F]. Qed.
Lemma lin_slli32 k f : lin f -> lin (fun x => slli_epi32 (f x) k).
Proof. intros F. unfold slli_epi32. apply (lin_map_lanes 32 4 (fun a => Z.land (Z.shiftl a k) (Z.ones 32))); [lin_tac|exact F]. Qed.
Lemma lin_shuf32 imm f : lin f -> lin (fun x => shuffle_epi32 (f x) imm).
Proof.
  intros F. unfold shuffle_epi32.
  apply (lin_unlanes 32 [0;1;2;3] (fun j x => lane 32 (f x) (Z.land (Z.shiftr imm (2 * j)) 3))).
  intros j. apply lin_lane, F.
Qed.
Ltac lin2 := repeat first [ apply lin_xor | apply lin_shiftr | apply lin_shiftl | apply lin_land | apply lin_land_l
  | apply lin_srli32 | apply lin_srli16 | apply lin_slli32 | apply lin_shuf32 | apply lin_lane | apply lin_id | apply lin_const0 ].

(** the reduction, as a function of one 256-bit product *)
Definition red256 (p : Z) : Z := gf_reduce (Z.shiftr p 128) (Z.land p (Z.ones 128)).
Lemma lin_red256 : lin red256.
Proof. unfold red256, gf_reduce, andnot. cbv zeta. lin2. Qed.
Lemma red256_ok p : 0 <= p < 2 ^ 256 -> red256 p = polymod 128 p.
Proof.
  apply (lin_ext_b red256 (polymod 128) 256); [apply lin_red256|apply lin_polymod|]. vm_compute. reflexivity.
Qed.

(** Karatsuba *)
Definition karatsuba (a b : Z) : Z :=
  let lo := clmul00 a b in
  let hi := clmul11 a b in
  let mid := clmul00 (Z.lxor (shuffle_epi32 a 78) a) (Z.lxor (shuffle_epi32 b 78) b) in
  let m := Z.lxor (Z.lxor mid lo) hi in
  Z.lxor (Z.shiftl hi 128) (Z.lxor (Z.shiftl m 64) lo).
Lemma clmul_bound n a b k : 0 <= a < 2 ^ k -> 0 <= k -> 0 <= cl_loop n a b < 2 ^ (k + Z.of_nat n).
Proof.
  intros Ha Hk. induction n as [|n IH]; [cbn; split; [lia|]; apply Z.pow_pos_nonneg; lia|]. cbn [cl_loop].
  apply lxor_bound; [lia| |].
  - destruct (Z.testbit b (Z.of_nat n)); [|split; [lia|apply Z.pow_pos_nonneg; lia]].
    rewrite Z.shiftl_mul_pow2 by lia. split; [apply Z.mul_nonneg_nonneg; lia|].
    apply Z.lt_le_trans with (2 ^ k * 2 ^ Z.of_nat n); [apply Z.mul_lt_mono_pos_r; lia|].
    rewrite <- Z.pow_add_r by lia. apply Z.pow_le_mono_r; lia.
  - destruct IH as [I1 I2]. split; [exact I1|]. apply Z.lt_le_trans with (1 := I2). apply Z.pow_le_mono_r; lia.
Qed.
Lemma lane_bound w x i : 0 <= w -> 0 <= lane w x i < 2 ^ w.
Proof. intros Hw. unfold lane. rewrite Z.land_ones by lia. apply mod_pow2_bound; assumption. Qed.
Lemma lane_bit w x i j : 0 <= w -> 0 <= i -> 0 <= j -> Z.testbit (lane w x i) j = if j <? w then Z.testbit x (w * i + j) else false.
Proof.
  intros Hw Hi Hj. unfold lane. rewrite Z.land_spec, Z.shiftr_spec, Z.testbit_ones_nonneg by lia.
  destruct (j <? w); [rewrite andb_true_r; f_equal; lia|apply andb_false_r].
Qed.
Lemma gfmul_kar a b : gfmul a b = red256 (karatsuba a b).
Proof.
  unfold gfmul, red256, karatsuba. cbv zeta.
  set (lo := clmul00 a b). set (hi := clmul11 a b).
  set (m := Z.lxor (Z.lxor (clmul00 _ _) _) _).
  assert (Blo : 0 <= lo < 2 ^ 128) by (apply (clmul_bound 64 _ _ 64); [apply lane_bound; lia|lia]).
  assert (Bhi : 0 <= hi < 2 ^ 128) by (apply (clmul_bound 64 _ _ 64); [apply lane_bound; lia|lia]).
  assert (Bm : 0 <= m < 2 ^ 128).
  { apply lxor_bound; [lia|apply lxor_bound; [lia| |exact Blo]|exact Bhi]. apply (clmul_bound 64 _ _ 64); [apply lane_bound; lia|lia]. }
  f_equal; unfold slli_si128, srli_si128; change (8 * 8) with 64; apply Z.bits_inj'; intros i Hi;
    rewrite ?Z.land_spec, ?Z.lxor_spec, ?Z.shiftr_spec, ?Z.testbit_ones_nonneg, ?Z.lxor_spec, ?Z.shiftl_spec by lia.
  - rewrite (testbit_small lo 128) by (exact Blo || lia). rewrite xorb_false_r. f_equal; f_equal; lia.
  - rewrite ?Z.land_spec, ?Z.shiftl_spec, ?Z.testbit_ones_nonneg by lia. destruct (Z.ltb_spec i 128).
    + rewrite (Z.testbit_neg_r hi) by lia. rewrite !andb_true_r, xorb_false_l. apply xorb_comm.
    + rewrite (testbit_small lo 128) by (exact Blo || lia). rewrite !andb_false_r. reflexivity.
Qed.
Opaque cl_loop lane shuffle_epi32.
Lemma lin_kar_a b : lin (fun a => karatsuba a b).
Proof.
  unfold karatsuba, clmul00, clmul11. cbv zeta.
  assert (C : forall f g, lin f -> lin (fun a => cl_loop 64 (f a) g)).
  { intros f g F. exact (lin_comp (fun a => cl_loop 64 a g) f (lin_cl_a 64 g) F). }
  repeat first [apply C | progress lin2].
Qed.
Lemma lin_kar_b a : lin (karatsuba a).
Proof.
  unfold karatsuba, clmul00, clmul11. cbv zeta.
  assert (C : forall f g, lin f -> lin (fun a => cl_loop 64 g (f a))).
  { intros f g F. exact (lin_comp (fun a => cl_loop 64 g a) f (lin_cl_b 64 g) F). }
  repeat first [apply C | progress lin2].
Qed.
Transparent cl_loop lane shuffle_epi32.
Lemma shuf78_lane x : 0 <= x < 2 ^ 128 -> lane 64 (shuffle_epi32 x 78) 0 = lane 64 x 1.
Proof.
  apply (lin_ext_b (fun x => lane 64 (shuffle_epi32 x 78) 0) (fun x => lane 64 x 1) 128); [lin2|lin2|]. vm_compute. reflexivity.
Qed.
Lemma lane_lxor w x y i : lane w (Z.lxor x y) i = Z.lxor (lane w x i) (lane w y i).
Proof. apply (lin_lane w i (fun x => x)), lin_id. Qed.
Lemma lane64_pow2 i : (i < 128)%nat ->
  lane 64 (2 ^ Z.of_nat i) 0 = (if (i <? 64)%nat then 2 ^ Z.of_nat i else 0) /\
  lane 64 (2 ^ Z.of_nat i) 1 = (if (i <? 64)%nat then 0 else 2 ^ Z.of_nat (i - 64)).
Proof.
  intros Hi. assert (C : forallb (fun i => (lane 64 (2 ^ Z.of_nat i) 0 =? if (i <? 64)%nat then 2 ^ Z.of_nat i else 0) &&
   (lane 64 (2 ^ Z.of_nat i) 1 =? if (i <? 64)%nat then 0 else 2 ^ Z.of_nat (i - 64)))%bool (seq 0 128) = true) by (vm_compute; reflexivity).
  rewrite forallb_forall in C. specialize (C i). rewrite in_seq in C. specialize (C ltac:(lia)).
  apply andb_prop in C. destruct C as [C1 C2]. apply Z.eqb_eq in C1, C2. auto.
Qed.
Lemma cl_0_l n b : cl_loop n 0 b = 0. Proof. apply (lin_0 _ (lin_cl_a n b)). Qed.
Lemma cl_0_r n a : cl_loop n a 0 = 0. Proof. apply (lin_0 _ (lin_cl_b n a)). Qed.
Lemma cl_pow2_2 n i j : (j < n)%nat -> cl_loop n (2 ^ Z.of_nat i) (2 ^ Z.of_nat j) = 2 ^ Z.of_nat (i + j).
Proof.
  intros H. rewrite cl_pow2. destruct (Nat.ltb_spec j n); [|lia]. rewrite Z.shiftl_mul_pow2, <- Z.pow_add_r by lia. f_equal. lia.
Qed.
Lemma shl_pow2 i k : 0 <= k -> Z.shiftl (2 ^ Z.of_nat i) k = 2 ^ (Z.of_nat i + k).
Proof. intros H. rewrite Z.shiftl_mul_pow2, <- Z.pow_add_r by lia. reflexivity. Qed.
Lemma karatsuba_ok a b : 0 <= a < 2 ^ 128 -> 0 <= b < 2 ^ 128 -> karatsuba a b = cl_loop 128 b a.
Proof.
  intros Ha Hb.
  apply (lin_ext (fun a => karatsuba a b) (fun a => cl_loop 128 b a) 128); [apply lin_kar_a|apply lin_cl_b| |exact Ha].
  intros i Hi. apply (lin_ext (karatsuba (2 ^ Z.of_nat i)) (fun b => cl_loop 128 b (2 ^ Z.of_nat i)) 128); [apply lin_kar_b|apply lin_cl_a| |exact Hb].
  intros j Hj. rewrite cl_pow2_2 by assumption. clear a b Ha Hb.
  unfold karatsuba, clmul00, clmul11. cbv zeta. rewrite !lane_lxor.
  assert (Bi : forall i, (i < 128)%nat -> 0 <= 2 ^ Z.of_nat i < 2 ^ 128).
  { intros k Hk. split; [lia|]. apply Z.pow_lt_mono_r; lia. }
  rewrite !shuf78_lane by auto.
  destruct (lane64_pow2 i Hi) as [E1 E2], (lane64_pow2 j Hj) as [E3 E4]. rewrite E1, E2, E3, E4.
  destruct (Nat.ltb_spec i 64), (Nat.ltb_spec j 64); rewrite ?cl_0_l, ?cl_0_r, ?Z.lxor_0_l, ?Z.lxor_0_r;
    rewrite ?cl_0_l, ?cl_0_r, ?Z.lxor_0_l, ?Z.lxor_0_r, ?cl_pow2_2 by lia; rewrite ?Z.lxor_nilpotent, ?Z.shiftl_0_l, ?Z.lxor_0_l, ?Z.lxor_0_r.
  - f_equal. lia.
  - rewrite shl_pow2 by lia. f_equal. lia.
  - rewrite shl_pow2 by lia. f_equal. lia.
  - rewrite shl_pow2 by lia. f_equal. lia.
Qed.
Lemma gfmul_poly a b : is_blk a -> is_blk b -> gfmul a b = polymod 128 (clmul 128 a b).
Proof.
  intros Ha Hb. rewrite gfmul_kar, karatsuba_ok by assumption. rewrite clmul_cl. apply red256_ok.
  apply (clmul_bound 128 b a 128); [exact Hb|lia].
Qed.
Lemma gfmul_gmul X Y : is_blk X -> is_blk Y -> gfmul (rev128 X) (rev128 Y) = rev128 (gmul X Y).
Proof. intros HX HY. rewrite gfmul_poly by apply rev128_blk. symmetry. apply gmul_poly; assumption. Qed.

(** ** reflect_xmm *)
Definition revb (c : Z) : Z :=
  unlanes 1 (map (fun k => lane 1 c (7 - Z.of_nat k)) (seq 0 8)).
Lemma lin_revb : lin revb.
Proof. unfold revb. apply (lin_unlanes 1 (seq 0 8) (fun k c => lane 1 c (7 - Z.of_nat k))). intros k. apply (lin_lane 1 _ (fun x => x)), lin_id. Qed.
Lemma unlanes_xor w {A} (f g : A -> Z) l : Z.lxor (unlanes w (map f l)) (unlanes w (map g l)) = unlanes w (map (fun a => Z.lxor (f a) (g a)) l).
Proof.
  induction l as [|a l IH]; [reflexivity|]. cbn [map unlanes fold_right]. rewrite lxor_swap, <- Z.shiftl_lxor. f_equal. f_equal. exact IH.
Qed.
Definition HI_TAB : Z := set_epi32 0xf070b030 0xd0509010 0xe060a020 0xc0408000.
Definition LO_TAB : Z := set_epi32 0x0f070b03 0x0d050901 0x0e060a02 0x0c040800.
Lemma nibble_rev c : is_byte c ->
  Z.lxor (if Z.testbit (Z.land c 15) 7 then 0 else lane 8 HI_TAB (Z.land (Z.land c 15) 15))
         (if Z.testbit (Z.shiftr c 4) 7 then 0 else lane 8 LO_TAB (Z.land (Z.shiftr c 4) 15)) = revb c.
Proof.
  intros Hc.
  assert (C : forallb (fun n => let c := Z.of_nat n in
   Z.lxor (if Z.testbit (Z.land c 15) 7 then 0 else lane 8 HI_TAB (Z.land (Z.land c 15) 15))
         (if Z.testbit (Z.shiftr c 4) 7 then 0 else lane 8 LO_TAB (Z.land (Z.shiftr c 4) 15)) =? revb c) (seq 0 256) = true) by (vm_compute; reflexivity).
  rewrite forallb_forall in C. specialize (C (Z.to_nat c)). rewrite in_seq in C. unfold is_byte in Hc. specialize (C ltac:(lia)).
  cbv zeta in C. rewrite Z2Nat.id in C by lia. apply Z.eqb_eq, C.
Qed.
Definition AND_MASK : Z := set_epi32 0x0f0f0f0f 0x0f0f0f0f 0x0f0f0f0f 0x0f0f0f0f.
Lemma lane_and X j : is_blk X -> (j < 16)%nat ->
  lane 8 (Z.land X AND_MASK) (Z.of_nat j) = Z.land (lane 8 X (Z.of_nat j)) 15 /\
  lane 8 (Z.land (srli_epi16 X 4) AND_MASK) (Z.of_nat j) = Z.shiftr (lane 8 X (Z.of_nat j)) 4.
Proof.
  intros HX Hj.
  assert (M : lane 8 AND_MASK (Z.of_nat j) = 15).
  { assert (C : forallb (fun j => lane 8 AND_MASK (Z.of_nat j) =? 15) (seq 0 16) = true) by (vm_compute; reflexivity).
    rewrite forallb_forall in C. apply Z.eqb_eq, C, in_seq. lia. }
  assert (A : forall Y, lane 8 (Z.land Y AND_MASK) (Z.of_nat j) = Z.land (lane 8 Y (Z.of_nat j)) 15).
  { intros Y. rewrite <- M. apply Z.bits_inj'. intros i Hi. rewrite Z.land_spec, !lane_bit by lia.
    destruct (i <? 8); [apply Z.land_spec|reflexivity]. }
  split; [apply A|].
  assert (E : Z.land (srli_epi16 X 4) AND_MASK = Z.land (Z.shiftr X 4) AND_MASK).
  { revert X HX. apply (lin_ext_b (fun X => Z.land (srli_epi16 X 4) AND_MASK) (fun X => Z.land (Z.shiftr X 4) AND_MASK) 128); [lin2|lin2|].
    vm_compute. reflexivity. }
  rewrite E, A. apply Z.bits_inj'. intros i Hi. rewrite Z.land_spec, Z.shiftr_spec, !lane_bit by lia.
  change 15 with (Z.ones 4). rewrite Z.testbit_ones_nonneg by lia.
  destruct (Z.ltb_spec i 8), (Z.ltb_spec i 4), (Z.ltb_spec (i + 4) 8); try lia; rewrite ?andb_true_r, ?andb_false_r; try reflexivity.
  rewrite Z.shiftr_spec by lia. f_equal. lia.
Qed.
Lemma reflect_lanes X : is_blk X -> reflect_xmm X = unlanes 8 (map revb (lanes 8 16 X)).
Proof.
  intros HX. unfold reflect_xmm. cbv zeta. fold AND_MASK HI_TAB LO_TAB. unfold mm_shuffle_epi8, lanes.
  rewrite !map_map, unlanes_xor. f_equal. apply map_ext_in. intros j Hj. apply in_seq in Hj.
  destruct (lane_and X j HX ltac:(lia)) as [-> ->]. apply nibble_rev. apply (lane_bound 8). lia.
Qed.

Lemma le_val_lanes l : bytes l -> le_val l = unlanes 8 l.
Proof.
  induction 1 as [|b l Hb Hl IH]; [reflexivity|]. cbn [le_val unlanes fold_right]. fold (unlanes 8 l). rewrite <- IH.
  rewrite <- Z.add_nocarry_lxor.
  - rewrite Z.shiftl_mul_pow2 by lia. change (2 ^ 8) with 256. lia.
  - apply Z.bits_inj'. intros i Hi. rewrite Z.land_spec, Z.bits_0. destruct (Z.ltb_spec i 8).
    + rewrite (Z.shiftl_spec_low _ 8) by lia. apply andb_false_r.
    + rewrite (testbit_small b 8) by (exact Hb || lia). reflexivity.
Qed.
Lemma le_bytes_lanes n : forall x, le_bytes n x = lanes 8 n x.
Proof.
  unfold lanes. induction n as [|n IH]; intros x; [reflexivity|]. cbn [le_bytes seq map].
  rewrite IH, <- seq_shift, !map_map. f_equal.
  - unfold lane. change (8 * Z.of_nat 0) with 0. rewrite Z.shiftr_0_r, Z.land_ones by lia. reflexivity.
  - apply map_ext. intros i. unfold lane. f_equal. change 256 with (2 ^ 8). rewrite <- Z.shiftr_div_pow2 by lia.
    rewrite Z.shiftr_shiftr by lia. f_equal. lia.
Qed.
(** byte-reversed (big-endian) value, reflected within bytes = full bit reversal *)
Lemma reflect_load b : bytes b -> length b = 16%nat -> reflect_xmm (loadu b) = rev128 (be_val b).
Proof.
  intros Hb Hl. unfold loadu. rewrite firstn_all2 by lia.
  pose proof (be_val_bound b Hb) as B. rewrite Hl in B. change (256 ^ Z.of_nat 16) with (2 ^ 128) in B.
  assert (E : le_val b = unlanes 8 (map (fun i => lane 8 (be_val b) (15 - Z.of_nat i)) (seq 0 16))).
  { rewrite le_val_lanes by assumption. f_equal. rewrite <- (be_bytes_be_val b Hb) at 1. rewrite Hl. unfold be_bytes.
    rewrite le_bytes_lanes. reflexivity. }
  assert (BX : is_blk (le_val b)).
  { rewrite <- (rev_involutive b), le_val_rev. pose proof (be_val_bound (rev b)) as Q. rewrite rev_length, Hl in Q. apply Q.
    apply Forall_rev. exact Hb. }
  rewrite reflect_lanes by exact BX. rewrite E. set (V := be_val b) in *. clearbody V. clear - B.
  revert V B.
  apply (lin_ext_b (fun V => unlanes 8 (map revb (lanes 8 16 (unlanes 8 (map (fun i => lane 8 V (15 - Z.of_nat i)) (seq 0 16)))))) rev128 128).
  - apply (lin_map_lanes 8 16 revb); [apply lin_revb|]. apply (lin_unlanes 8 (seq 0 16) (fun i V => lane 8 V (15 - Z.of_nat i))).
    intros i. lin2.
  - apply lin_rev128.
  - vm_compute. reflexivity.
Qed.
Lemma reflect_reflect S : is_blk S -> unlanes 8 (map revb (lanes 8 16 (unlanes 8 (map revb (lanes 8 16 S))))) = S.
Proof.
  revert S. apply (lin_ext_b (fun S => unlanes 8 (map revb (lanes 8 16 (unlanes 8 (map revb (lanes 8 16 S)))))) (fun S => S) 128).
  - apply (lin_map_lanes 8 16 revb); [apply lin_revb|]. apply (lin_map_lanes 8 16 revb); [apply lin_revb|apply lin_id].
  - apply lin_id.
  - vm_compute. reflexivity.
Qed.
Lemma reflect_store S : is_blk S -> storeu (reflect_xmm S) = be_bytes 16 (rev128 S).
Proof.
  intros HS. set (b := be_bytes 16 (rev128 S)).
  assert (Bb : bytes b) by apply be_bytes_bytes.
  assert (Lb : length b = 16%nat) by apply be_bytes_length.
  pose proof (reflect_load b Bb Lb) as R.
  assert (BX : is_blk (le_val b)).
  { rewrite <- (rev_involutive b), le_val_rev. pose proof (be_val_bound (rev b)) as Q. rewrite rev_length, Lb in Q. apply Q.
    apply Forall_rev. exact Bb. }
  unfold loadu in R. rewrite firstn_all2 in R by lia. unfold b at 2 in R. rewrite be_val_be_bytes in R.
  change (256 ^ Z.of_nat 16) with (2 ^ 128) in R. rewrite Z.mod_small, rev128_rev128 in R by (apply rev128_blk || exact HS).
  rewrite <- R at 1. rewrite reflect_lanes by (rewrite R; exact HS). rewrite reflect_lanes by exact BX.
  rewrite reflect_reflect by exact BX. unfold storeu. rewrite <- Lb. apply le_bytes_le_val. exact Bb.
Qed.

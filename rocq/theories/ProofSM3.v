(** SM3: both implementations refine GB/T 32905. *)
From Verif Require Import Base BaseFacts ModelEndian ModelHash ModelSM3 SpecSM3
  ProofEndian ProofHash ProofWord32.

Lemma rotl_rol x n : is_u32 x -> 0 < n < 32 -> rotl x n = rol x n.
Proof.
  intros Hx Hn. change (rotl x n) with (rotl32 x n). rewrite rotl32_arith by assumption.
  unfold rol. rewrite (Z.mod_small n) by lia. reflexivity.
Qed.

Lemma rol_u32 x k : is_u32 x -> is_u32 (rol x k).
Proof.
  intros Hx. assert (H : 0 <= k mod 32 < 32) by (apply Z.mod_pos_bound; lia).
  destruct (Z.eq_dec (k mod 32) 0) as [E|E].
  - unfold rol. rewrite E. cbv zeta. change (2 ^ 0) with 1. rewrite Z.mul_1_r.
    unfold is_u32 in *. rewrite Z.mod_small, Z.div_small; lia.
  - unfold rol.
    assert (HR := rotl32_arith x (k mod 32) Hx ltac:(lia)). cbv zeta. rewrite <- HR.
    apply rotl32_u32; [lia|assumption].
Qed.

Lemma rotl_u32 x n : is_u32 x -> 0 < n < 32 -> is_u32 (rotl x n).
Proof. intros; rewrite rotl_rol by assumption; apply rol_u32; assumption. Qed.

#[local] Hint Resolve w32_u32 lxor_u32 lor_u32 land_u32 rol_u32 rotl_u32 : u32.

Lemma P0_SP0 x : is_u32 x -> P0 x = SP0 x.
Proof. intros; unfold P0, SP0; rewrite !rotl_rol by (auto; lia); reflexivity. Qed.
Lemma P1_SP1 x : is_u32 x -> P1 x = SP1 x.
Proof. intros; unfold P1, SP1; rewrite !rotl_rol by (auto; lia); reflexivity. Qed.
Lemma SP0_u32 x : is_u32 x -> is_u32 (SP0 x).
Proof. intros; unfold SP0; auto with u32. Qed.
Lemma SP1_u32 x : is_u32 x -> is_u32 (SP1 x).
Proof. intros; unfold SP1; auto with u32. Qed.

Lemma neg32_testbit x i : is_u32 x -> 0 <= i < 32 -> Z.testbit (neg32 x) i = negb (Z.testbit x i).
Proof.
  intros Hx Hi. unfold neg32.
  replace (2 ^ 32 - 1 - x) with (Z.lxor (Z.ones 32) x).
  - rewrite Z.lxor_spec, Z.ones_spec_low by lia. apply xorb_true_l.
  - assert (E : Z.land (Z.lxor (Z.ones 32) x) x = 0).
    { apply Z.bits_inj'; intros j Hj. rewrite Z.land_spec, Z.lxor_spec, Z.bits_0.
      destruct (Z.lt_ge_cases j 32).
      - rewrite Z.ones_spec_low by lia. destruct (Z.testbit x j); reflexivity.
      - rewrite (testbit_small x 32) by (unfold is_u32 in Hx; lia). apply andb_false_r. }
    assert (E2 : Z.lxor (Z.ones 32) x + x = Z.ones 32).
    { rewrite Z.add_nocarry_lxor by assumption.
      rewrite Z.lxor_assoc, Z.lxor_nilpotent, Z.lxor_0_r. reflexivity. }
    rewrite Z.ones_equiv in E2 |- *. lia.
Qed.

Lemma neg32_u32 x : is_u32 x -> is_u32 (neg32 x).
Proof. unfold is_u32, neg32; lia. Qed.

Lemma GG16_spec x y z : is_u32 x -> is_u32 y -> is_u32 z ->
  GG16 x y z = Z.lor (Z.land x y) (Z.land (neg32 x) z).
Proof.
  intros Hx Hy Hz. unfold GG16. apply (bits_inj_small 32); try lia.
  - apply lxor_u32; [apply land_u32, lxor_u32|]; assumption.
  - apply lor_u32; apply land_u32; auto using neg32_u32.
  - intros i Hi. rewrite Z.lxor_spec, Z.land_spec, Z.lxor_spec, Z.lor_spec, !Z.land_spec.
    rewrite neg32_testbit by assumption.
    destruct (Z.testbit x i), (Z.testbit y i), (Z.testbit z i); reflexivity.
Qed.

Definition FF_sel (j : nat) : Z -> Z -> Z -> Z := if (j <? 16)%nat then FF00 else FF16.
Definition GG_sel (j : nat) : Z -> Z -> Z -> Z := if (j <? 16)%nat then GG00 else GG16.

Lemma ltb16_leb15 j : (j <? 16)%nat = (j <=? 15)%nat.
Proof. destruct (Nat.ltb_spec j 16), (Nat.leb_spec j 15); lia. Qed.

Lemma FF_sel_spec j x y z : FF_sel j x y z = FFj j x y z.
Proof. unfold FF_sel, FFj. rewrite ltb16_leb15. destruct (j <=? 15)%nat; reflexivity. Qed.
Lemma GG_sel_spec j x y z : is_u32 x -> is_u32 y -> is_u32 z -> GG_sel j x y z = GGj j x y z.
Proof.
  intros. unfold GG_sel, GGj. rewrite ltb16_leb15. destruct (j <=? 15)%nat; [reflexivity|].
  apply GG16_spec; assumption.
Qed.

Lemma sum4 a b c d : w32 (w32 (w32 (a + b) + c) + d) = (a + b + c + d) mod 2 ^ 32.
Proof.
  unfold w32. rewrite (Zplus_mod_idemp_l (a + b) c), Zplus_mod_idemp_l. reflexivity.
Qed.
Lemma sum3 a b c : w32 (w32 (a + b) + c) = (a + b + c) mod 2 ^ 32.
Proof. unfold w32. rewrite Zplus_mod_idemp_l. reflexivity. Qed.

(** ** Registers versus spec tuples *)
Definition tup (s : regs) : st8 := (rA s, rB s, rC s, rD s, rE s, rF s, rG s, rH s).
Record regs_ok (s : regs) : Prop := {
  okA : is_u32 (rA s); okB : is_u32 (rB s); okC : is_u32 (rC s); okD : is_u32 (rD s);
  okE : is_u32 (rE s); okF : is_u32 (rF s); okG : is_u32 (rG s); okH : is_u32 (rH s) }.

(** ** Message expansion *)
Definition u32s (l : list Z) : Prop := Forall is_u32 l.
Lemma u32s_nz l i : u32s l -> is_u32 (nz l i).
Proof.
  intros H; unfold nz. destruct (nth_in_or_default i l 0) as [Hi|Hi].
  - unfold u32s in H; rewrite Forall_forall in H; auto.
  - rewrite Hi; unfold is_u32; lia.
Qed.

Lemma load32_be_prefix a b : length a = 4%nat -> load32_be (a ++ b) = load32_be a.
Proof. intros H. destruct_list. reflexivity. Qed.

Lemma load_word B i : bytes B -> (4 * i + 4 <= length B)%nat ->
  load32_be (skipn (4 * i) B) = word B i.
Proof.
  intros HB Hl. unfold word.
  rewrite <- (firstn_skipn 4 (skipn (4 * i) B)).
  rewrite load32_be_prefix by (rewrite firstn_length, skipn_length; lia).
  apply load32_be_val; [apply bytes_slice; assumption|].
  apply slice_length; lia.
Qed.

Lemma Wlist_length B n : length (Wlist B n) = n.
Proof. induction n as [|n IH]; cbn [Wlist]; [reflexivity|]. rewrite app_length, IH. simpl. lia. Qed.

Lemma word_u32 B i : bytes B -> is_u32 (word B i).
Proof.
  intros HB. unfold word.
  assert (H : bytes (slice B (4 * i) 4)) by (apply bytes_slice; assumption).
  pose proof (be_val_bound _ H) as Hb.
  assert (Hle : (length (slice B (4 * i) 4) <= 4)%nat) by (unfold slice; rewrite firstn_length; lia).
  assert (256 ^ Z.of_nat (length (slice B (4 * i) 4)) <= 256 ^ 4) by (apply Z.pow_le_mono_r; lia).
  change (2 ^ 32) with (256 ^ 4) in *. unfold is_u32. change (2 ^ 32) with (256 ^ 4). lia.
Qed.

Lemma Wlist_u32 B n : bytes B -> u32s (Wlist B n).
Proof.
  intros HB. induction n as [|n IH]; cbn [Wlist]; [constructor|].
  apply Forall_app; split; [exact IH|]. constructor; [|constructor].
  destruct (n <? 16)%nat; [apply word_u32; assumption|].
  assert (HN : forall i, is_u32 (nth i (Wlist B n) 0)) by (intros; apply u32s_nz; exact IH).
  auto 10 using SP1_u32 with u32.
Qed.

Lemma Wlist_app B n k : (n <= k)%nat -> exists t, Wlist B k = Wlist B n ++ t.
Proof.
  induction 1 as [|k H [t IH]]; [exists []; rewrite app_nil_r; reflexivity|].
  cbn [Wlist]. rewrite IH. rewrite <- app_assoc. eexists; reflexivity.
Qed.

Lemma Wlist16 B : bytes B -> length B = 64%nat -> load_words B = Wlist B 16.
Proof.
  intros HB Hl.
  assert (G : forall n, (n <= 16)%nat ->
     map (fun i => load32_be (skipn (4 * i) B)) (seq 0 n) = Wlist B n).
  { induction n as [|n IH]; intros Hn; [reflexivity|].
    rewrite seq_S, map_app, IH by lia. cbn [Wlist map plus]. f_equal. f_equal.
    destruct (Nat.ltb_spec n 16); [|lia]. apply load_word; [assumption|lia]. }
  apply G; lia.
Qed.

Lemma w_extend_spec B k : bytes B -> forall n, (16 <= n)%nat ->
  w_extend k (Wlist B n) = Wlist B (k + n).
Proof.
  intros HB. induction k as [|k IH]; intros n Hn; [reflexivity|].
  cbn [w_extend]. replace (S k + n)%nat with (k + S n)%nat by lia.
  rewrite <- IH by lia. f_equal. cbn [Wlist]. f_equal. f_equal.
  destruct (Nat.ltb_spec n 16); [lia|].
  unfold w_next. rewrite Wlist_length. cbv zeta.
  assert (HN : forall i, is_u32 (nz (Wlist B n) i)) by (intros; apply u32s_nz, Wlist_u32; assumption).
  rewrite P1_SP1 by (pose proof (rotl_u32 _ 15 (HN (n - 3)%nat)); auto 10 with u32; apply lxor_u32; [auto with u32|apply H0; lia]).
  rewrite !rotl_rol by (auto; lia). reflexivity.
Qed.

Lemma expand_W_spec B : bytes B -> length B = 64%nat -> expand_W B = Wlist B 68.
Proof.
  intros HB Hl. unfold expand_W. rewrite Wlist16 by assumption.
  rewrite w_extend_spec by (auto; lia). reflexivity.
Qed.

(** ** Round constants *)
Definition good_shr (shr32 : Z -> Z) : Prop := forall x, shr32 x = 0 \/ shr32 x = x.

Lemma Tj_u32 j : is_u32 (Tj j).
Proof. unfold Tj, is_u32; destruct (j <=? 15)%nat; lia. Qed.

Lemma rol_mod x k : rol x k = rol x (k mod 32).
Proof. unfold rol. rewrite Z.mod_mod by lia. reflexivity. Qed.

Lemma rotl_c_rol shr32 x n :
  good_shr shr32 -> is_u32 x -> 0 <= n < 32 -> rotl_c shr32 x n = rol x n.
Proof.
  intros G Hx Hn. unfold rotl_c. destruct (Z.eqb_spec n 0) as [->|Hn0].
  - rewrite Z.shiftl_0_r, w32_small by assumption.
    unfold rol. change (0 mod 32) with 0. cbv zeta. rewrite Z.mul_1_r, Z.mod_small by assumption.
    rewrite Z.div_small by (exact Hx). rewrite Z.add_0_r.
    destruct (G x) as [->| ->]; [apply Z.lor_0_r|apply Z.lor_diag].
  - apply rotl_rol; [assumption|lia].
Qed.

Lemma T_yang15_ok : forall j, (j < 64)%nat -> nz T_yang15 j = rol (Tj j) (Z.of_nat j).
Proof.
  assert (H : forallb (fun j => nz T_yang15 j =? rol (Tj j) (Z.of_nat j)) (seq 0 64) = true)
    by (vm_compute; reflexivity).
  intros j Hj. rewrite forallb_forall in H. apply Z.eqb_eq, H, in_seq. lia.
Qed.

(** A generic round in terms of the spec constant. *)
Definition R_gen (W : list Z) (s : regs) (j : nat) : regs :=
  let SS1 := rotl (w32 (w32 (rotl (rA s) 12 + rE s) + rol (Tj j) (Z.of_nat j))) 7 in
  let SS2 := Z.lxor SS1 (rotl (rA s) 12) in
  let TT1 := w32 (w32 (w32 (FF_sel j (rA s) (rB s) (rC s) + rD s) + SS2) +
                  Z.lxor (nz W j) (nz W (j + 4))) in
  let TT2 := w32 (w32 (w32 (GG_sel j (rE s) (rF s) (rG s) + rH s) + SS1) + nz W j) in
  mkR TT1 (rA s) (rotl (rB s) 9) (rC s) (P0 TT2) (rE s) (rotl (rF s) 19) (rG s).

Lemma R_gen_ok W s j : regs_ok s -> regs_ok (R_gen W s j).
Proof.
  intros [A B C D E F G H]. constructor; cbn [R_gen rA rB rC rD rE rF rG rH]; auto using w32_u32.
  - apply rotl_u32; [assumption|lia].
  - rewrite P0_SP0 by apply w32_u32. apply SP0_u32, w32_u32.
  - apply rotl_u32; [assumption|lia].
Qed.

Lemma R_gen_spec W s j : regs_ok s -> tup (R_gen W s j) = step W (tup s) j.
Proof.
  intros [A B C D E F G H]. unfold step, tup, R_gen. cbn [rA rB rC rD rE rF rG rH].
  rewrite P0_SP0 by apply w32_u32.
  rewrite !sum4, !sum3.
  rewrite !(rotl_rol (rA s)), !(rotl_rol (rB s)), !(rotl_rol (rF s)) by (auto; lia).
  rewrite rotl_rol by (first [lia | unfold is_u32; apply mod_pow2_bound; lia]).
  rewrite FF_sel_spec, GG_sel_spec by assumption. reflexivity.
Qed.

Lemma fold_R_gen W l : forall s, regs_ok s ->
  regs_ok (fold_left (R_gen W) l s) /\ tup (fold_left (R_gen W) l s) = fold_left (step W) l (tup s).
Proof.
  induction l as [|j l IH]; intros s Hs; cbn [fold_left]; [auto|].
  rewrite <- R_gen_spec by assumption. apply IH, R_gen_ok, Hs.
Qed.

(** ** Compression function *)
Lemma R_common_gen shr32 W s j :
  good_shr shr32 -> (j < 64)%nat ->
  R_common shr32 W (expand_W' W) s j = R_gen W s j.
Proof.
  intros G Hj. unfold R_common, R_gen.
  assert (E : nz (expand_W' W) j = Z.lxor (nz W j) (nz W (j + 4))).
  { unfold nz at 1, expand_W'.
    rewrite nth_indep with (d' := (fun j => Z.lxor (nz W j) (nz W (j + 4))) 0%nat)
      by (rewrite map_length, seq_length; lia).
    rewrite (map_nth (fun j => Z.lxor (nz W j) (nz W (j + 4)))), seq_nth by lia. reflexivity. }
  rewrite E.
  assert (T : rotl_c shr32 (if (j <? 16)%nat then T00 else T16) (Z.of_nat (j mod 32)) =
              rol (Tj j) (Z.of_nat j)).
  { replace (if (j <? 16)%nat then T00 else T16) with (Tj j)
      by (unfold Tj; rewrite ltb16_leb15; reflexivity).
    rewrite rotl_c_rol; [|assumption|apply Tj_u32|pose proof (Nat.mod_upper_bound j 32); lia].
    rewrite (rol_mod _ (Z.of_nat j)). f_equal. apply Nat2Z.inj_mod. }
  cbv zeta. rewrite T. unfold FF_sel, GG_sel. destruct (j <? 16)%nat; reflexivity.
Qed.

Lemma fold_ext {A B} (f g : A -> B -> A) l : forall a,
  (forall a x, In x l -> f a x = g a x) -> fold_left f l a = fold_left g l a.
Proof.
  induction l as [|x l IH]; intros a H; cbn [fold_left]; [reflexivity|].
  rewrite H by (left; reflexivity). apply IH. intros; apply H; right; assumption.
Qed.

Definition compress_gen (s : regs) (data : list Z) : regs :=
  xor_regs s (fold_left (R_gen (expand_W data)) (seq 0 64) s).

Lemma compress_common_gen shr32 s data :
  good_shr shr32 -> compress_common shr32 s data = compress_gen s data.
Proof.
  intros G. unfold compress_common, compress_gen. cbv zeta. apply (f_equal (xor_regs s)).
  rewrite <- fold_left_app. change (seq 0 16 ++ seq 16 48) with (seq 0 64).
  apply fold_ext. intros a x Hx. apply in_seq in Hx. apply R_common_gen; [assumption|lia].
Qed.

Lemma R4_yang_gen lo W s j :
  (j + 4 <= 64)%nat -> (lo = true -> j + 4 <= 16)%nat -> (lo = false -> 16 <= j)%nat ->
  R4_yang lo W s j = fold_left (R_gen W) (seq j 4) s.
Proof.
  intros Hj Ht Hf.
  assert (HS : forall i, (j <= i < j + 4)%nat -> FF_sel i = (if lo then FF00 else FF16) /\
                GG_sel i = (if lo then GG00 else GG16)).
  { intros i Hi. unfold FF_sel, GG_sel. destruct lo.
    - specialize (Ht eq_refl). destruct (Nat.ltb_spec i 16); [auto|lia].
    - specialize (Hf eq_refl). destruct (Nat.ltb_spec i 16); [lia|auto]. }
  destruct s as [A B C D E F G H].
  cbn [seq fold_left]. unfold R4_yang, R_gen, R_yang.
  cbn [rA rB rC rD rE rF rG rH].
  replace (j + 1)%nat with (S j) by lia. replace (j + 2)%nat with (S (S j)) by lia.
  replace (j + 3)%nat with (S (S (S j))) by lia.
  rewrite !T_yang15_ok by lia.
  destruct (HS j ltac:(lia)) as [-> ->].
  destruct (HS (S j) ltac:(lia)) as [-> ->].
  destruct (HS (S (S j)) ltac:(lia)) as [-> ->].
  destruct (HS (S (S (S j))) ltac:(lia)) as [-> ->].
  reflexivity.
Qed.

Lemma fold_R4 lo W n : forall a s,
  (4 * (a + n) <= 64)%nat -> (lo = true -> 4 * (a + n) <= 16)%nat -> (lo = false -> 16 <= 4 * a)%nat ->
  fold_left (fun v t => R4_yang lo W v (4 * t)) (seq a n) s =
  fold_left (R_gen W) (seq (4 * a) (4 * n)) s.
Proof.
  induction n as [|n IH]; intros a s H1 H2 H3; [reflexivity|].
  cbn [seq fold_left]. rewrite IH by lia. rewrite R4_yang_gen by lia.
  replace (4 * S n)%nat with (4 + 4 * n)%nat by lia.
  rewrite seq_app, fold_left_app. do 2 f_equal. lia.
Qed.

Lemma compress_yang_gen s data : compress_yang s data = compress_gen s data.
Proof.
  unfold compress_yang, compress_gen. cbv zeta. apply (f_equal (xor_regs s)).
  rewrite fold_R4, fold_R4; try (intros; lia); try discriminate.
  change (4 * 0)%nat with 0%nat. change (4 * 4)%nat with 16%nat. change (4 * 12)%nat with 48%nat.
  rewrite <- fold_left_app. change (seq 0 16 ++ seq 16 48) with (seq 0 64). reflexivity.
Qed.

Lemma compress_gen_spec s data :
  regs_ok s -> bytes data -> length data = 64%nat ->
  regs_ok (compress_gen s data) /\ tup (compress_gen s data) = CF (tup s) data.
Proof.
  intros Hs Hb Hl. unfold compress_gen. rewrite expand_W_spec by assumption.
  destruct (fold_R_gen (Wlist data 68) (seq 0 64) s Hs) as [F1 F2].
  set (v := fold_left (R_gen (Wlist data 68)) (seq 0 64) s) in *.
  split.
  - destruct Hs, F1. constructor; cbn [xor_regs rA rB rC rD rE rF rG rH]; apply lxor_u32; assumption.
  - unfold CF. rewrite <- F2. unfold tup, xor_regs. cbn [rA rB rC rD rE rF rG rH].
    rewrite (Z.lxor_comm (rA v)), (Z.lxor_comm (rB v)), (Z.lxor_comm (rC v)), (Z.lxor_comm (rD v)),
      (Z.lxor_comm (rE v)), (Z.lxor_comm (rF v)), (Z.lxor_comm (rG v)), (Z.lxor_comm (rH v)).
    reflexivity.
Qed.

(** ** The object *)
Lemma fold_cut_S {A B} (f : A -> list B -> A) n k d a :
  fold_left f (cut n (S k) d) a = fold_left f (cut n k (skipn n d)) (f a (firstn n d)).
Proof. reflexivity. Qed.

Section OBJ.
  Variable compress : regs -> list Z -> regs.
  Hypothesis compress_spec : forall s data,
    regs_ok s -> bytes data -> length data = 64%nat ->
    regs_ok (compress s data) /\ tup (compress s data) = CF (tup s) data.
  (** compress reads exactly 64 bytes (by construction it is applied to [firstn 64]). *)

  Notation cb := (compress_blocks compress).

  Lemma cb_add s d n m : cb s d (n + m) = cb (cb s d n) (skipn (n * 64) d) m.
  Proof.
    revert s d; induction n as [|n IH]; intros s d; [reflexivity|].
    cbn [plus compress_blocks]. rewrite IH, skipn_skipn'. do 2 f_equal.
  Qed.

  Lemma cb_loc s d e n : (n * 64 <= length d)%nat -> cb s (d ++ e) n = cb s d n.
  Proof.
    revert s d; induction n as [|n IH]; intros s d H; [reflexivity|].
    cbn [compress_blocks]. rewrite firstn_app, skipn_app.
    replace (64 - length d)%nat with 0%nat by lia. rewrite firstn_O, app_nil_r, skipn_O.
    apply IH. rewrite skipn_length. lia.
  Qed.

  Lemma cb_spec n : forall s d, regs_ok s -> bytes d -> (n * 64 <= length d)%nat ->
    regs_ok (cb s d n) /\ tup (cb s d n) = fold_left CF (cut 64 n d) (tup s).
  Proof.
    induction n as [|n IH]; intros s d Hs Hb Hl; [auto|].
    rewrite fold_cut_S. cbn [compress_blocks].
    destruct (compress_spec s (firstn 64 d)) as [C1 C2]; auto using bytes_firstn.
    { rewrite firstn_length; lia. }
    rewrite <- C2. apply IH; auto using bytes_skipn. rewrite skipn_length; lia.
  Qed.

  Definition V (c : sm3ctx) : Prop := 0 <= cbits c < 2 ^ 64.

  Notation ub := (sm3_update_blocks compress).
  Notation fb := (sm3_final_block compress).

  (** The counter check is exact. *)
  Lemma ub_char c d n : V c ->
    ub c d n = if 512 * Z.of_nat n + cbits c <? 2 ^ 64
               then Ok (mkCtx (cb (cstate c) d n) (512 * Z.of_nat n + cbits c)) else Throw.
  Proof.
    unfold V; intros HV. unfold sm3_update_blocks.
    destruct (Z.ltb_spec ((2 ^ 64 - 1) / 512) (Z.of_nat n)) as [H1|H1].
    - destruct (Z.ltb_spec (512 * Z.of_nat n + cbits c) (2 ^ 64)); [|reflexivity].
      exfalso. apply Z.lt_le_pred in H1. change ((2 ^ 64 - 1) / 512) with (2 ^ 55 - 1) in H1. lia.
    - change ((2 ^ 64 - 1) / 512) with (2 ^ 55 - 1) in H1. cbv zeta. unfold w64.
      destruct (Z.ltb_spec (512 * Z.of_nat n + cbits c) (2 ^ 64)) as [H2|H2].
      + rewrite Z.mod_small by lia.
        destruct (Z.ltb_spec (Z.of_nat n * 512 + cbits c) (cbits c)); [lia|].
        do 2 f_equal. lia.
      + replace ((Z.of_nat n * 512 + cbits c) mod 2 ^ 64)
          with (Z.of_nat n * 512 + cbits c - 2 ^ 64).
        2:{ apply Z.mod_unique with 1; lia. }
        destruct (Z.ltb_spec (Z.of_nat n * 512 + cbits c - 2 ^ 64) (cbits c)); [reflexivity|lia].
  Qed.

  Lemma ub_V' c d n c' : V c -> ub c d n = Ok c' -> V c'.
  Proof.
    intros HV. rewrite ub_char by assumption. unfold V in *.
    destruct (Z.ltb_spec (512 * Z.of_nat n + cbits c) (2 ^ 64)); [|discriminate].
    intros [= <-]. cbn [cbits]. lia.
  Qed.
  Lemma ub_0' c d : V c -> ub c d 0 = Ok c.
  Proof.
    intros HV. rewrite ub_char by assumption. unfold V in HV.
    destruct (Z.ltb_spec (512 * Z.of_nat 0 + cbits c) (2 ^ 64)); [|lia].
    destruct c; reflexivity.
  Qed.
  Lemma ub_add' c d n m : V c ->
    ub c d (n + m) = bind (ub c d n) (fun c' => ub c' (skipn (n * 64) d) m).
  Proof.
    intros HV. rewrite !ub_char by assumption. pose proof HV as HV'. unfold V in HV.
    destruct (Z.ltb_spec (512 * Z.of_nat n + cbits c) (2 ^ 64)) as [H1|H1].
    - cbn [bind]. rewrite ub_char by (unfold V; cbn [cbits]; lia). cbn [cbits cstate].
      destruct (Z.ltb_spec (512 * Z.of_nat (n + m) + cbits c) (2 ^ 64));
      destruct (Z.ltb_spec (512 * Z.of_nat m + (512 * Z.of_nat n + cbits c)) (2 ^ 64)); try lia.
      + rewrite cb_add. do 2 f_equal. lia.
      + reflexivity.
    - destruct (Z.ltb_spec (512 * Z.of_nat (n + m) + cbits c) (2 ^ 64)); [lia|reflexivity].
  Qed.
  Lemma ub_loc' c d e n : (n * 64 <= length d)%nat -> ub c (d ++ e) n = ub c d n.
  Proof. intros H. unfold sm3_update_blocks. rewrite cb_loc by assumption. reflexivity. Qed.
  Lemma ub_not_UB' c d n : ub c d n <> UB.
  Proof.
    unfold sm3_update_blocks. destruct (_ <? Z.of_nat n); [discriminate|]. cbv zeta.
    destruct (_ <? _); discriminate.
  Qed.

  Lemma store_regs_out s : regs_ok s -> store_regs s = out8 (tup s).
  Proof.
    intros _. unfold store_regs, out8, tup. rewrite !store32_be_eq.
    cbn [map concat]. rewrite app_nil_r. reflexivity.
  Qed.

  Lemma fb_len' c d c' o : fb c d = Ok (c', o) -> length o = 32%nat.
  Proof.
    unfold sm3_final_block. cbv zeta. destruct (_ <? _); [discriminate|].
    destruct (_ <? _)%nat; [discriminate|]. intros [= <- <-]. reflexivity.
  Qed.

  (** What the class computes on a whole message. *)
  Lemma digest_SM3 m : bytes m ->
    digest_of sm3ctx 64 ub fb sm3_init m =
    if 8 * Z.of_nat (length m) <? 2 ^ 64 then Ok (SM3 m) else Throw.
  Proof.
    intros Hb. unfold digest_of.
    set (q := (length m / 64)%nat).
    rewrite ub_char by (unfold V; cbn; lia). cbn [cbits cstate sm3_init]. rewrite Z.add_0_r.
    set (r := skipn (64 * q) m).
    assert (Hq : (length m = 64 * q + length r)%nat).
    { unfold r. rewrite skipn_length. pose proof (Nat.mul_div_le (length m) 64). fold q in H. lia. }
    assert (Hr : (length r < 64)%nat).
    { unfold r. rewrite skipn_length. unfold q.
      pose proof (Nat.div_mod (length m) 64). pose proof (Nat.mod_upper_bound (length m) 64). lia. }
    destruct (Z.ltb_spec (512 * Z.of_nat q) (2 ^ 64)) as [H1|H1].
    2:{ destruct (Z.ltb_spec (8 * Z.of_nat (length m)) (2 ^ 64)); [lia|reflexivity]. }
    cbn [bind]. unfold sm3_final_block. cbn [cbits cstate]. cbv zeta.
    assert (E8 : w64 (Z.of_nat (length r) * 8) = Z.of_nat (length r) * 8)
      by (unfold w64; apply Z.mod_small; lia).
    rewrite E8.
    destruct (Z.ltb_spec (8 * Z.of_nat (length m)) (2 ^ 64)) as [H2|H2].
    - assert (EN : w64 (Z.of_nat (length r) * 8 + 512 * Z.of_nat q) = 8 * Z.of_nat (length m)).
      { unfold w64. rewrite Z.mod_small; lia. }
      rewrite EN.
      destruct (Z.ltb_spec (8 * Z.of_nat (length m)) (512 * Z.of_nat q)); [lia|].
      set (pn := Z.to_nat (w64 (64 + 56 - 1 - Z.of_nat (length r)) mod 64)).
      assert (EP : Z.of_nat pn = (55 - Z.of_nat (length m)) mod 64).
      { unfold pn, w64. rewrite Z2Nat.id by (apply Z.mod_pos_bound; lia).
        rewrite (Z.mod_small _ (2 ^ 64)) by lia. lia. }
      rewrite store64_be_eq.
      set (tail := [128] ++ repeat 0 pn ++ be_bytes 8 (8 * Z.of_nat (length m))).
      assert (Hpad : pad m = firstn (64 * q) m ++ (r ++ tail)).
      { unfold pad. rewrite <- EP, Nat2Z.id. fold tail. rewrite app_assoc. f_equal.
        unfold r. rewrite firstn_skipn. reflexivity. }
      assert (Htl : (length tail = 9 + pn)%nat).
      { unfold tail. rewrite !app_length, repeat_length, be_bytes_length. simpl. lia. }
      assert (Hbl : exists k, (length (r ++ tail) = 64 * k /\ k <= 2)%nat).
      { rewrite app_length, Htl.
        assert (Z.of_nat pn < 64 /\ 0 <= Z.of_nat pn) by lia.
        destruct (Nat.le_gt_cases (length r) 55).
        - exists 1%nat. lia.
        - exists 2%nat. lia. }
      destruct Hbl as (k & Hk & Hk2).
      destruct (Nat.ltb_spec 128 (length (r ++ tail))); [lia|].
      assert (Ek : ((length (r ++ tail) + 63) / 64 = k)%nat).
      { rewrite Hk. replace (64 * k + 63)%nat with (63 + k * 64)%nat by lia.
        rewrite Nat.div_add by lia. reflexivity. }
      rewrite Ek. cbn [bind]. f_equal.
      assert (Hbt : bytes (r ++ tail)).
      { apply bytes_app; split; [apply bytes_skipn; assumption|].
        unfold tail. apply bytes_app; split; [constructor; [unfold is_byte; lia|constructor]|].
        apply bytes_app; split; [apply bytes_repeat; unfold is_byte; lia|apply be_bytes_bytes]. }
      assert (Hiv : regs_ok sm3_iv) by (constructor; unfold is_u32; cbn; lia).
      destruct (cb_spec q sm3_iv m Hiv Hb ltac:(lia)) as [A1 A2].
      destruct (cb_spec k (cb sm3_iv m q) (r ++ tail) A1 Hbt ltac:(lia)) as [B1 B2].
      rewrite store_regs_out by assumption. rewrite B2, A2. unfold SM3. f_equal.
      rewrite <- fold_left_app.
      assert (Ecut : cut 64 (length (pad m) / 64) (pad m) = cut 64 q m ++ cut 64 k (r ++ tail)).
      { rewrite Hpad. rewrite app_length, Hk, firstn_length.
        replace (Nat.min (64 * q) (length m)) with (64 * q)%nat by lia.
        replace (64 * q + 64 * k)%nat with ((q + k) * 64)%nat by lia.
        rewrite Nat.div_mul by lia. rewrite cut_app.
        rewrite cut_firstn by (rewrite firstn_length; lia).
        rewrite skipn_app.
        rewrite (skipn_all2 (firstn (64 * q) m)) by (rewrite firstn_length; lia).
        rewrite firstn_length. replace (q * 64 - Nat.min (64 * q) (length m))%nat with 0%nat by lia.
        cbn [app skipn]. f_equal.
        rewrite <- (firstn_skipn (64 * q) m) at 2.
        rewrite cut_firstn by (rewrite firstn_length; lia). reflexivity. }
      rewrite Ecut. reflexivity.
    - assert (EN : w64 (Z.of_nat (length r) * 8 + 512 * Z.of_nat q) =
                   8 * Z.of_nat (length m) - 2 ^ 64).
      { unfold w64. symmetry. apply Z.mod_unique with 1; lia. }
      rewrite EN.
      destruct (Z.ltb_spec (8 * Z.of_nat (length m) - 2 ^ 64) (512 * Z.of_nat q)); [reflexivity|lia].
  Qed.

  Lemma sm3_hash_spec junk chunks last :
    length junk = 64%nat -> bytes (concat chunks ++ last) ->
    sm3_hash compress junk chunks last =
    if 8 * Z.of_nat (length (concat chunks ++ last)) <? 2 ^ 64
    then Ok (SM3 (concat chunks ++ last)) else Throw.
  Proof.
    intros Hj Hb. unfold sm3_hash.
    rewrite (h_digest_streaming sm3ctx 64 ub fb ltac:(lia) V ub_V' ub_0' ub_add' ub_loc' ub_not_UB'
               eq_refl sm3_init junk chunks last); [|unfold V; cbn; lia|assumption].
    apply digest_SM3; assumption.
  Qed.

  Lemma SM3_bytes m : bytes (SM3 m).
  Proof.
    unfold SM3. destruct (fold_left CF _ IV) as [[[[[[[a b] c] d] e] f] g] h].
    unfold out8. cbn [map concat].
    repeat (apply bytes_app; split; [apply be_bytes_bytes|]). constructor.
  Qed.
  Lemma SM3_length m : length (SM3 m) = 32%nat.
  Proof.
    unfold SM3. destruct (fold_left CF _ IV) as [[[[[[[a b] c] d] e] f] g] h].
    unfold out8. cbn [map concat]. rewrite !app_length, !be_bytes_length. reflexivity.
  Qed.

  Lemma map_xor_repeat K c n : length K = n -> map (fun b => Z.lxor b c) K = xorl K (repeat c n).
  Proof.
    intros <-. induction K as [|x K IH]; [reflexivity|]. cbn [map length repeat xorl]. f_equal. exact IH.
  Qed.

  Lemma sm3_hmac_spec junk key chunks last :
    length junk = 64%nat -> bytes key -> bytes (concat chunks ++ last) ->
    let m := concat chunks ++ last in
    sm3_hmac compress junk key chunks last =
    if (8 * Z.of_nat (length key) <? 2 ^ 64) && (8 * (64 + Z.of_nat (length m)) <? 2 ^ 64)
    then Ok (HMAC SM3 64 key m) else Throw.
  Proof.
    intros Hj Hk Hb m. unfold sm3_hmac.
    rewrite (hmac_streaming sm3ctx 64 ub fb ltac:(lia) V ub_V' ub_0' ub_add' ub_loc' ub_not_UB'
               eq_refl 32 sm3_init ltac:(unfold V; cbn; lia) fb_len' ltac:(lia)
               junk key chunks last Hj).
    fold m. unfold hmac_of, HMAC, hmac_key0.
    assert (MAIN : forall k, bytes k -> (length k <= 64)%nat ->
      (let K := k ++ repeat 0 (64 - length k) in
       bind (digest_of sm3ctx 64 ub fb sm3_init (map (fun b => Z.lxor b 54) K ++ m)) (fun i =>
       digest_of sm3ctx 64 ub fb sm3_init (map (fun b => Z.lxor b 92) K ++ i))) =
      if 8 * (64 + Z.of_nat (length m)) <? 2 ^ 64
      then Ok (SM3 (xorl (k ++ repeat 0 (64 - length k)) (repeat 92 64) ++
                    SM3 (xorl (k ++ repeat 0 (64 - length k)) (repeat 54 64) ++ m)))
      else Throw).
    { intros k Hkb Hkl. cbv zeta. set (K := k ++ repeat 0 (64 - length k)).
      assert (HK : length K = 64%nat) by (unfold K; rewrite app_length, repeat_length; lia).
      assert (HKb : bytes K).
      { unfold K. apply bytes_app; split; [assumption|apply bytes_repeat; unfold is_byte; lia]. }
      rewrite !(map_xor_repeat K _ 64 HK).
      assert (X : forall c, is_byte c -> bytes (xorl K (repeat c 64)) /\
                    length (xorl K (repeat c 64)) = 64%nat).
      { intros c Hc. split; [apply xorl_bytes; [assumption|apply bytes_repeat; assumption]|].
        rewrite xorl_length, repeat_length, HK. reflexivity. }
      destruct (X 54 ltac:(unfold is_byte; lia)) as [X1 X2].
      destruct (X 92 ltac:(unfold is_byte; lia)) as [X3 X4].
      rewrite digest_SM3 by (apply bytes_app; auto).
      rewrite app_length, X2, Nat2Z.inj_add. change (Z.of_nat 64) with 64.
      destruct (_ <? 2 ^ 64); [|reflexivity]. cbn [bind].
      rewrite digest_SM3 by (apply bytes_app; split; [assumption|apply SM3_bytes]).
      rewrite app_length, X4, SM3_length. reflexivity. }
    destruct (Nat.ltb_spec 64 (length key)) as [Hl|Hl].
    - rewrite digest_SM3 by assumption.
      destruct (8 * Z.of_nat (length key) <? 2 ^ 64); [|reflexivity]. cbn [bind andb].
      apply MAIN; [apply SM3_bytes|rewrite SM3_length; lia].
    - replace (8 * Z.of_nat (length key) <? 2 ^ 64) with true by lia. cbn [bind andb].
      apply MAIN; assumption.
  Qed.
End OBJ.

Lemma compress_common_spec shr32 : good_shr shr32 -> forall s data,
  regs_ok s -> bytes data -> length data = 64%nat ->
  regs_ok (compress_common shr32 s data) /\ tup (compress_common shr32 s data) = CF (tup s) data.
Proof. intros G s data. rewrite compress_common_gen by assumption. apply compress_gen_spec. Qed.

Lemma compress_yang_spec : forall s data,
  regs_ok s -> bytes data -> length data = 64%nat ->
  regs_ok (compress_yang s data) /\ tup (compress_yang s data) = CF (tup s) data.
Proof. intros s data. rewrite compress_yang_gen. apply compress_gen_spec. Qed.

Lemma compress_variants shr32 s data :
  good_shr shr32 -> compress_yang s data = compress_common shr32 s data.
Proof. intros G. rewrite compress_yang_gen, compress_common_gen by assumption. reflexivity. Qed.

Lemma sm3_streaming junk1 junk2 chunks1 chunks2 last1 last2 :
  length junk1 = 64%nat -> length junk2 = 64%nat ->
  bytes (concat chunks1 ++ last1) ->
  concat chunks1 ++ last1 = concat chunks2 ++ last2 ->
  sm3_hash compress_yang junk1 chunks1 last1 = sm3_hash compress_yang junk2 chunks2 last2.
Proof.
  intros H1 H2 Hb E.
  rewrite (sm3_hash_spec _ compress_yang_spec junk1 chunks1 last1 H1 Hb).
  rewrite E in *. symmetry. apply (sm3_hash_spec _ compress_yang_spec); assumption.
Qed.

Lemma compress_blocks_ext f g : (forall s d, f s d = g s d) ->
  forall n s d, compress_blocks f s d n = compress_blocks g s d n.
Proof.
  intros H; induction n as [|n IH]; intros s d; [reflexivity|].
  cbn [compress_blocks]. rewrite H. apply IH.
Qed.

Lemma sm3_variants shr32 : good_shr shr32 ->
  (forall s data, compress_yang s data = compress_common shr32 s data) /\
  (forall c data n, sm3_update_blocks compress_yang c data n =
                    sm3_update_blocks (compress_common shr32) c data n) /\
  (forall c tail, sm3_final_block compress_yang c tail =
                  sm3_final_block (compress_common shr32) c tail).
Proof.
  intros G. assert (E := compress_variants shr32). repeat split; intros.
  - apply E; assumption.
  - unfold sm3_update_blocks.
    rewrite (compress_blocks_ext compress_yang (compress_common shr32)) by (intros; apply E; assumption).
    reflexivity.
  - unfold sm3_final_block. cbv zeta.
    rewrite (compress_blocks_ext compress_yang (compress_common shr32)) by (intros; apply E; assumption).
    reflexivity.
Qed.

Lemma sm3_counter_exact c data n : 0 <= cbits c < 2 ^ 64 ->
  match sm3_update_blocks compress_yang c data n with
  | Ok c' => cbits c' = cbits c + 512 * Z.of_nat n /\ cbits c' < 2 ^ 64
  | Throw => 2 ^ 64 <= cbits c + 512 * Z.of_nat n
  | UB => False
  end.
Proof.
  intros H. rewrite (ub_char compress_yang compress_yang_spec c data n H).
  destruct (Z.ltb_spec (512 * Z.of_nat n + cbits c) (2 ^ 64)); cbn [cbits]; lia.
Qed.

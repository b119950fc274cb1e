(** GHASH: the common and lut256 variants compute SP 800-38D's block multiplication. *)
From Verif Require Import Base BaseFacts ModelEndian ProofEndian ModelHash TablesGHASH SpecGHASH ModelGHASH ProofLinear.

(** ** The multiplication of the specification *)
Lemma mulx_alt V : mulx V = Z.lxor (Z.shiftr V 1) (if Z.testbit V 0 then R128 else 0).
Proof. unfold mulx. rewrite Z.bit0_odd. destruct (Z.odd V); [reflexivity|]. rewrite Z.lxor_0_r. reflexivity. Qed.
Lemma lin_mulx : lin mulx.
Proof.
  intros a b. rewrite !mulx_alt.
  apply (lin_xor (fun x => Z.shiftr x 1) (fun x => if Z.testbit x 0 then R128 else 0)).
  - apply lin_shiftr, lin_id.
  - apply (lin_if (fun x => x)), lin_id.
Qed.
Definition is_blk (x : Z) : Prop := 0 <= x < 2 ^ 128.
Lemma mulx_blk V : is_blk V -> is_blk (mulx V).
Proof.
  intros H. rewrite mulx_alt. apply lxor_bound; [lia| |].
  - apply shiftr_bound; lia || exact H.
  - destruct (Z.testbit V 0); unfold R128; lia.
Qed.
Fixpoint mulxn (n : nat) (V : Z) : Z := match n with O => V | S n' => mulxn n' (mulx V) end.
Lemma mulxn_S n V : mulxn (S n) V = mulx (mulxn n V).
Proof. revert V. induction n as [|n IH]; intros V; [reflexivity|]. cbn [mulxn] in *. apply IH. Qed.
Lemma mulxn_add n m V : mulxn (n + m) V = mulxn m (mulxn n V).
Proof. revert V. induction n as [|n IH]; intros V; [reflexivity|]. cbn [mulxn Nat.add]. apply IH. Qed.
Lemma lin_mulxn n : lin (mulxn n).
Proof. induction n as [|n IH]; intros a b; [reflexivity|]. cbn [mulxn]. rewrite lin_mulx, IH. reflexivity. Qed.
Lemma mulxn_blk n V : is_blk V -> is_blk (mulxn n V).
Proof. revert V; induction n; intros; cbn [mulxn]; auto using mulx_blk. Qed.

Lemma gmul_loop_acc n X : forall i Zi V, gmul_loop n X i Zi V = Z.lxor Zi (gmul_loop n X i 0 V).
Proof.
  induction n as [|n IH]; intros i Zi V; cbn [gmul_loop]; [rewrite Z.lxor_0_r; reflexivity|].
  rewrite IH, (IH _ (if Z.testbit X (127 - i) then Z.lxor 0 V else 0)). destruct (Z.testbit X (127 - i)).
  - rewrite Z.lxor_0_l, Z.lxor_assoc. reflexivity.
  - rewrite Z.lxor_0_l. reflexivity.
Qed.
Lemma gmul_loop_app n m X : forall i Zi V,
  gmul_loop (n + m) X i Zi V = gmul_loop m X (i + Z.of_nat n) (gmul_loop n X i Zi V) (mulxn n V).
Proof.
  induction n as [|n IH]; intros i Zi V.
  - cbn [Nat.add gmul_loop mulxn]. f_equal. lia.
  - cbn [Nat.add gmul_loop mulxn]. rewrite IH. f_equal. lia.
Qed.
Lemma lin_gmul_loop_V n X i : lin (fun V => gmul_loop n X i 0 V).
Proof.
  revert i. induction n as [|n IH]; intros i a b; cbn [gmul_loop]; [reflexivity|].
  rewrite !(gmul_loop_acc n _ _ (if Z.testbit X (127 - i) then _ else _)). rewrite lin_mulx, (IH (i + 1)).
  destruct (Z.testbit X (127 - i)); rewrite ?Z.lxor_0_l; [apply lxor_swap|reflexivity].
Qed.
Lemma lin_gmul_loop_X n V i : lin (fun X => gmul_loop n X i 0 V).
Proof.
  revert V i. induction n as [|n IH]; intros V i a b; cbn [gmul_loop]; [reflexivity|].
  rewrite !(gmul_loop_acc n _ _ (if Z.testbit _ (127 - i) then _ else _)). rewrite (IH (mulx V) (i + 1)).
  rewrite lxor_swap. f_equal. rewrite !Z.lxor_0_l.
  apply (lin_if (fun x => x) (127 - i) V lin_id).
Qed.
Lemma lin_gmul_X Y : lin (fun X => gmul X Y). Proof. unfold gmul. exact (lin_gmul_loop_X 128 Y 0). Qed.
Lemma lin_gmul_Y X : lin (gmul X). Proof. unfold gmul. exact (lin_gmul_loop_V 128 X 0). Qed.
Lemma gmul_loop_blk n X : forall i Zi V, is_blk Zi -> is_blk V -> is_blk (gmul_loop n X i Zi V).
Proof.
  induction n as [|n IH]; intros i Zi V HZ HV; cbn [gmul_loop]; [assumption|].
  apply IH; [|apply mulx_blk; assumption]. destruct (Z.testbit X (127 - i)); [|assumption].
  apply lxor_bound; [lia|exact HZ|exact HV].
Qed.
Lemma gmul_blk X Y : is_blk Y -> is_blk (gmul X Y).
Proof. intros. unfold gmul. apply (gmul_loop_blk 128 X 0); [unfold is_blk; lia|assumption]. Qed.

(** ** Pairs of words *)
Definition val (p : pair64) : Z := Z.lxor (Z.shiftl (fst p) 64) (snd p).
Definition u2 (p : pair64) : Prop := is_u64 (fst p) /\ is_u64 (snd p).
Lemma val_add p : u2 p -> val p = fst p * 2 ^ 64 + snd p.
Proof.
  intros [H1 H2]. unfold val. rewrite <- Z.add_nocarry_lxor.
  - rewrite Z.shiftl_mul_pow2 by lia. reflexivity.
  - apply Z.bits_inj'. intros i Hi. rewrite Z.land_spec, Z.bits_0.
    destruct (Z.ltb_spec i 64).
    + rewrite Z.shiftl_spec_low by lia. reflexivity.
    + rewrite (testbit_small (snd p) 64) by (exact H2 || lia). apply andb_false_r.
Qed.
Lemma val_blk p : u2 p -> is_blk (val p).
Proof. intros H. rewrite val_add by assumption. destruct H. unfold is_u64, is_blk in *. lia. Qed.
Lemma val_xor2 a b : val (xor2 a b) = Z.lxor (val a) (val b).
Proof. unfold val, xor2. cbn [fst snd]. rewrite Z.shiftl_lxor. apply lxor_swap. Qed.
Lemma u2_xor2 a b : u2 a -> u2 b -> u2 (xor2 a b).
Proof. intros [] []. split; cbn; apply lxor_bound; auto; lia. Qed.
Lemma val_inj a b : u2 a -> u2 b -> val a = val b -> a = b.
Proof.
  intros Ha Hb. rewrite !val_add by assumption. destruct a, b, Ha, Hb. cbn in *. unfold is_u64 in *.
  intros. f_equal; lia.
Qed.
(** the bits of the pair *)
Lemma val_bit p i : u2 p -> 0 <= i -> Z.testbit (val p) i = if i <? 64 then Z.testbit (snd p) i else Z.testbit (fst p) (i - 64).
Proof.
  intros [H1 H2] Hi. unfold val. rewrite Z.lxor_spec, Z.shiftl_spec by lia.
  destruct (Z.ltb_spec i 64).
  - rewrite (Z.testbit_neg_r (fst p)) by lia. apply xorb_false_l.
  - rewrite (testbit_small (snd p) 64) by (exact H2 || lia). apply xorb_false_r.
Qed.

Definition shr_pair (k : Z) (p : pair64) : pair64 :=
  (Z.shiftr (fst p) k, Z.lor (w64 (Z.shiftl (fst p) (64 - k))) (Z.shiftr (snd p) k)).
Lemma shr_pair_ok k p : 0 < k < 64 -> u2 p -> u2 (shr_pair k p) /\ val (shr_pair k p) = Z.shiftr (val p) k.
Proof.
  intros Hk Hp. assert (U : u2 (shr_pair k p)).
  { destruct Hp as [H1 H2]. split; cbn.
    - apply shiftr_bound; [lia|lia|exact H1].
    - apply lor_bound; [lia| |apply shiftr_bound; [lia|lia|exact H2]].
      apply mod_pow2_bound. lia. }
  split; [exact U|]. apply Z.bits_inj'. intros i Hi.
  rewrite Z.shiftr_spec, !val_bit by (auto; lia). unfold shr_pair. cbn [fst snd].
  unfold w64. rewrite Z.lor_spec, Z.shiftr_spec, testbit_mod_pow2 by lia.
  rewrite Z.shiftl_spec by lia. destruct Hp as [H1 H2].
  destruct (Z.ltb_spec i 64).
  - destruct (Z.ltb_spec (i + k) 64).
    + rewrite (Z.testbit_neg_r (fst p)) by lia. rewrite andb_false_r. reflexivity.
    + rewrite (testbit_small (snd p) 64 (i + k)) by (exact H2 || lia).
      rewrite orb_false_r. cbn [andb]. f_equal. lia.
  - destruct (Z.ltb_spec (i + k) 64); [lia|]. rewrite Z.shiftr_spec by lia. f_equal. lia.
Qed.

Lemma land1 x : Z.land x 1 = if Z.testbit x 0 then 1 else 0.
Proof.
  change 1 with (Z.ones 1) at 1. rewrite Z.land_ones by lia. change (2 ^ 1) with 2.
  rewrite Z.bit0_odd, Zmod_odd. reflexivity.
Qed.
Lemma shift_V_ok p : u2 p -> u2 (shift_V p) /\ val (shift_V p) = mulx (val p).
Proof.
  intros Hp. destruct (shr_pair_ok 1 p ltac:(lia) Hp) as [U E].
  assert (Q : shift_V p = xor2 (shr_pair 1 p) (if Z.testbit (snd p) 0 then Rh else 0, 0)).
  { unfold shift_V, shr_pair, xor2. cbn [fst snd]. rewrite Z.lxor_0_r, land1. f_equal.
    rewrite Z.lxor_comm. f_equal. destruct (Z.testbit (snd p) 0); reflexivity. }
  rewrite Q. split.
  - apply u2_xor2; [assumption|]. split; cbn [fst snd]; unfold is_u64, Rh; destruct (Z.testbit (snd p) 0); lia.
  - rewrite val_xor2, E, mulx_alt. rewrite (val_bit p 0) by (assumption || lia). cbn [Z.ltb].
    destruct (Z.testbit (snd p) 0); reflexivity.
Qed.

(** ** ghash_common.cpp *)
Lemma top_bit x : is_u64 x -> negb (Z.land x 0x8000000000000000 =? 0) = Z.testbit x 63.
Proof.
  intros H. change 0x8000000000000000 with (2 ^ 63).
  destruct (Z.testbit x 63) eqn:E.
  - destruct (Z.eqb_spec (Z.land x (2 ^ 63)) 0) as [K|]; [|reflexivity].
    assert (T : Z.testbit (Z.land x (2 ^ 63)) 63 = false) by (rewrite K; apply Z.bits_0).
    rewrite Z.land_spec, E, Z.pow2_bits_true in T by lia. discriminate.
  - assert (K : Z.land x (2 ^ 63) = 0).
    { apply Z.bits_inj'. intros i Hi. rewrite Z.land_spec, Z.bits_0, Z.pow2_bits_eqb by lia.
      destruct (Z.eqb_spec 63 i) as [<-|]; [rewrite E; reflexivity|apply andb_false_r]. }
    rewrite K. reflexivity.
Qed.
Lemma gc_loop_ok XX X off : is_u64 X ->
  (forall j, 0 <= j < 64 -> Z.testbit XX (127 - (off + j)) = Z.testbit X (63 - j)) ->
  forall n k Zp V, (k + n <= 64)%nat -> u2 Zp -> u2 V ->
  let r := gc_loop n (w64 (Z.shiftl X (Z.of_nat k))) Zp V in
  u2 (fst r) /\ u2 (snd r) /\
  val (fst r) = gmul_loop n XX (off + Z.of_nat k) (val Zp) (val V) /\ val (snd r) = mulxn n (val V).
Proof.
  intros HX Hb. induction n as [|n IH]; intros k Zp V Hk HZ HV; cbn [gc_loop gmul_loop mulxn].
  - cbn. auto.
  - set (Zp' := if negb _ then _ else _).
    assert (U : is_u64 (w64 (Z.shiftl X (Z.of_nat k)))) by (apply mod_pow2_bound; lia).
    assert (B : Z.testbit (w64 (Z.shiftl X (Z.of_nat k))) 63 = Z.testbit XX (127 - (off + Z.of_nat k))).
    { unfold w64. rewrite testbit_mod_pow2, Z.shiftl_spec, Hb by lia. reflexivity. }
    assert (Q : u2 Zp' /\ val Zp' = if Z.testbit XX (127 - (off + Z.of_nat k)) then Z.lxor (val Zp) (val V) else val Zp).
    { unfold Zp'. rewrite top_bit, B by assumption. destruct (Z.testbit XX _); [|auto].
      split; [apply u2_xor2; assumption|apply val_xor2]. }
    destruct Q as [Q1 Q2]. destruct (shift_V_ok V HV) as [S1 S2].
    assert (Sh : w64 (Z.shiftl (w64 (Z.shiftl X (Z.of_nat k))) 1) = w64 (Z.shiftl X (Z.of_nat (S k)))).
    { unfold w64. apply Z.bits_inj'. intros i Hi. rewrite !testbit_mod_pow2 by lia.
      destruct (Z.ltb_spec i 64); [|reflexivity]. cbn [andb]. rewrite !Z.shiftl_spec by lia.
      destruct (Z.ltb_spec (i - 1) 0).
      - rewrite !Z.testbit_neg_r by lia. reflexivity.
      - rewrite testbit_mod_pow2, Z.shiftl_spec by lia. destruct (Z.ltb_spec (i - 1) 64); [|lia].
        cbn [andb]. f_equal. lia. }
    rewrite Sh. specialize (IH (S k) Zp' (shift_V V) ltac:(lia) Q1 S1). cbv zeta in IH.
    destruct IH as (A & B1 & C & D). cbv zeta. split; [exact A|]. split; [exact B1|].
    rewrite C, D, S2, Q2. split; [|reflexivity]. f_equal. lia.
Qed.

Lemma load2_ok b : bytes b -> length b = 16%nat -> u2 (load2 b) /\ val (load2 b) = be_val b.
Proof.
  intros Hb Hl. unfold load2.
  assert (S1 : bytes (slice b 0 8) /\ length (slice b 0 8) = 8%nat) by (split; [apply bytes_slice; assumption|rewrite slice_length; lia]).
  assert (S2 : bytes (slice b 8 8) /\ length (slice b 8 8) = 8%nat) by (split; [apply bytes_slice; assumption|rewrite slice_length; lia]).
  destruct S1 as [B1 L1], S2 as [B2 L2]. rewrite !load64_be_val by assumption.
  pose proof (be_val_bound _ B1) as V1. pose proof (be_val_bound _ B2) as V2. rewrite L1 in V1. rewrite L2 in V2.
  change (256 ^ Z.of_nat 8) with (2 ^ 64) in *.
  assert (U : u2 (be_val (slice b 0 8), be_val (slice b 8 8))) by (split; assumption).
  split; [exact U|]. rewrite val_add by assumption. cbn [fst snd].
  replace b with (slice b 0 8 ++ slice b 8 8) at 3.
  - rewrite be_val_app, L2. reflexivity.
  - unfold slice. cbn [skipn]. rewrite <- (firstn_skipn 8 b) at 3. f_equal.
    apply firstn_all2. rewrite skipn_length. lia.
Qed.
Lemma store2_ok p : u2 p -> store2 p = be_bytes 16 (val p).
Proof.
  intros Hp. rewrite val_add by assumption. destruct Hp as [H1 H2]. unfold store2. rewrite !store64_be_eq.
  apply be_val_inj; auto using be_bytes_bytes.
  - apply bytes_app. auto using be_bytes_bytes.
  - rewrite be_val_app, !be_val_be_bytes, be_bytes_length.
    change (256 ^ Z.of_nat 8) with (2 ^ 64). change (256 ^ Z.of_nat 16) with (2 ^ 128).
    unfold is_u64 in *. rewrite !Z.mod_small; lia.
Qed.

Lemma gc_block_ok H s blk : u2 H -> u2 s -> bytes blk -> length blk = 16%nat ->
  u2 (gc_block H s blk) /\ val (gc_block H s blk) = gmul (Z.lxor (val s) (be_val blk)) (val H).
Proof.
  intros HH Hs Hb Hl. unfold gc_block. destruct (load2_ok blk Hb Hl) as [L1 L2].
  assert (UX := u2_xor2 _ _ Hs L1). rewrite <- L2, <- val_xor2. set (X := xor2 s (load2 blk)) in *.
  pose proof (gc_loop_ok (val X) (fst X) 0 (proj1 UX)) as G1.
  assert (Hb1 : forall j, 0 <= j < 64 -> Z.testbit (val X) (127 - (0 + j)) = Z.testbit (fst X) (63 - j)).
  { intros j Hj. rewrite val_bit by (assumption || lia). destruct (Z.ltb_spec (127 - (0 + j)) 64); [lia|]. f_equal. lia. }
  specialize (G1 Hb1 64%nat 0%nat (0, 0) H ltac:(lia)).
  change (Z.of_nat 0) with 0 in G1. rewrite Z.shiftl_0_r in G1.
  assert (W1 : w64 (fst X) = fst X) by (apply Z.mod_small, (proj1 UX)). rewrite W1 in G1.
  assert (U0 : u2 (0, 0)) by (split; cbn; unfold is_u64; lia).
  specialize (G1 U0 HH). cbv zeta in G1. destruct (gc_loop 64 (fst X) (0, 0) H) as [Z1 V1]. cbn [fst snd] in G1.
  destruct G1 as (A1 & A2 & A3 & A4).
  pose proof (gc_loop_ok (val X) (snd X) 64 (proj2 UX)) as G2.
  assert (Hb2 : forall j, 0 <= j < 64 -> Z.testbit (val X) (127 - (64 + j)) = Z.testbit (snd X) (63 - j)).
  { intros j Hj. rewrite val_bit by (assumption || lia). destruct (Z.ltb_spec (127 - (64 + j)) 64); [|lia]. f_equal. lia. }
  specialize (G2 Hb2 64%nat 0%nat Z1 V1 ltac:(lia)).
  change (Z.of_nat 0) with 0 in G2. rewrite Z.shiftl_0_r in G2.
  assert (W2 : w64 (snd X) = snd X) by (apply Z.mod_small, (proj2 UX)). rewrite W2 in G2.
  specialize (G2 A1 A2). cbv zeta in G2. destruct (gc_loop 64 (snd X) Z1 V1) as [Z2 V2]. cbn [fst snd] in G2.
  destruct G2 as (B1 & B2 & B3 & B4). split; [exact B1|].
  rewrite B3, A3, A4. unfold gmul. change 128%nat with (64 + 64)%nat. rewrite gmul_loop_app.
  reflexivity.
Qed.

(** ** ghash_lut256.cpp *)
(** M(j): byte [j], bit k (from the least significant) weighing mulx^k H *)
Fixpoint Msum (n : nat) (j : Z) (H : Z) : Z :=
  match n with O => 0 | S n' => Z.lxor (if Z.odd j then H else 0) (Msum n' (j / 2) (mulx H)) end.
Lemma Msum_mulx n : forall j H, Msum n j (mulx H) = mulx (Msum n j H).
Proof.
  induction n as [|n IH]; intros j H; cbn [Msum]; [reflexivity|]. rewrite IH, lin_mulx. f_equal.
  destruct (Z.odd j); reflexivity.
Qed.
Lemma Msum_0 n H : Msum n 0 H = 0.
Proof. revert H; induction n as [|n IH]; intros H; cbn [Msum]; [reflexivity|]. rewrite IH. reflexivity. Qed.
Lemma Msum_ext n m : forall j H, 0 <= j < 2 ^ Z.of_nat n -> (n <= m)%nat -> Msum m j H = Msum n j H.
Proof.
  revert m. induction n as [|n IH]; intros m j H Hj Hm.
  - change (2 ^ Z.of_nat 0) with 1 in Hj. replace j with 0 by lia. apply Msum_0.
  - destruct m as [|m]; [lia|]. cbn [Msum]. f_equal. apply IH; [|lia].
    rewrite Nat2Z.inj_succ, Z.pow_succ_r in Hj by lia. lia.
Qed.

Lemma tget_tset_same T i v : (Z.to_nat i < length T)%nat -> tget (tset T i v) i = v.
Proof.
  intros H. unfold tget, tset. rewrite app_nth2; rewrite firstn_length; [|lia].
  replace (Z.to_nat i - Nat.min (Z.to_nat i) (length T))%nat with 0%nat by lia. reflexivity.
Qed.
Lemma tget_tset_other T i j v : (Z.to_nat i < length T)%nat -> Z.to_nat i <> Z.to_nat j -> tget (tset T i v) j = tget T j.
Proof.
  intros H N. unfold tget, tset. destruct (le_lt_dec (Z.to_nat i) (Z.to_nat j)).
  - rewrite app_nth2; rewrite firstn_length; [|lia].
    replace (Z.to_nat j - Nat.min (Z.to_nat i) (length T))%nat with (S (Z.to_nat j - Z.to_nat i - 1)) by lia.
    cbn [nth]. rewrite <- (firstn_skipn (S (Z.to_nat i)) T) at 2.
    rewrite (app_nth2 (firstn _ T)); rewrite firstn_length; [|lia]. f_equal. lia.
  - rewrite app_nth1 by (rewrite firstn_length; lia).
    rewrite <- (firstn_skipn (Z.to_nat i) T) at 2. rewrite app_nth1 by (rewrite firstn_length; lia). reflexivity.
Qed.
Lemma tset_length T i v : (Z.to_nat i < length T)%nat -> length (tset T i v) = length T.
Proof. intros H. unfold tset. rewrite app_length. cbn [length]. rewrite firstn_length, skipn_length. lia. Qed.

(** REV_U8 is an involution on bytes, with REV 0 = 0, REV 1 = 128. *)
Lemma REV_ok b : is_byte b -> is_byte (REV b) /\ REV (REV b) = b.
Proof.
  intros Hb.
  assert (H : forallb (fun n => let r := REV (Z.of_nat n) in (0 <=? r) && (r <? 256) && (REV r =? Z.of_nat n))%bool (seq 0 256) = true)
    by (vm_compute; reflexivity).
  rewrite forallb_forall in H. specialize (H (Z.to_nat b)). rewrite Z2Nat.id in H by (destruct Hb; lia).
  assert (I : In (Z.to_nat b) (seq 0 256)) by (apply in_seq; unfold is_byte in Hb; lia). specialize (H I).
  cbv zeta in H. apply andb_prop in H. destruct H as [H E]. split; [unfold is_byte; lia|lia].
Qed.
Lemma REV_inj a b : is_byte a -> is_byte b -> Z.to_nat (REV a) = Z.to_nat (REV b) -> a = b.
Proof.
  intros Ha Hb E. destruct (REV_ok a Ha) as [A1 A2], (REV_ok b Hb) as [B1 B2].
  assert (REV a = REV b) by (unfold is_byte in *; lia). congruence.
Qed.

Definition lut_inv (Hv : Z) (T : table) (i : Z) : Prop :=
  length T = 256%nat /\ forall j, 0 <= j < i -> u2 (tget T (REV j)) /\ val (tget T (REV j)) = Msum 8 j Hv.

Lemma lut_double_ok m : u2 m -> u2 (lut_double m) /\ val (lut_double m) = mulx (val m).
Proof.
  intros Hp. destruct (shr_pair_ok 1 m ltac:(lia) Hp) as [U E].
  assert (Q : lut_double m = xor2 (shr_pair 1 m) (if Z.testbit (snd m) 0 then Rh else 0, 0)).
  { unfold lut_double, shr_pair, xor2. cbn [fst snd]. rewrite Z.lxor_0_r, land1. f_equal.
    destruct (Z.testbit (snd m) 0); cbn [Z.eqb negb]; [reflexivity|rewrite Z.lxor_0_r; reflexivity]. }
  rewrite Q. split.
  - apply u2_xor2; [assumption|]. split; cbn [fst snd]; unfold is_u64, Rh; destruct (Z.testbit (snd m) 0); lia.
  - rewrite val_xor2, E, mulx_alt. rewrite (val_bit m 0) by (assumption || lia). cbn [Z.ltb].
    destruct (Z.testbit (snd m) 0); reflexivity.
Qed.

Lemma lut_step_ok Hv T i : lut_inv Hv T i -> 2 <= i < 256 -> lut_inv Hv (lut_step T i) (i + 1).
Proof.
  intros [L Inv] Hi. assert (Bi : is_byte i) by (unfold is_byte; lia).
  assert (R1 : (Z.to_nat (REV i) < length T)%nat).
  { destruct (REV_ok i Bi) as [Hr _]. unfold is_byte in Hr. rewrite L. lia. }
  assert (G : forall v, u2 v -> val v = Msum 8 i Hv -> lut_inv Hv (tset T (REV i) v) (i + 1)).
  { intros v Uv Ev. split; [rewrite tset_length; assumption|]. intros j Hj.
    destruct (Z.eq_dec j i) as [->|Nj].
    - rewrite tget_tset_same by assumption. auto.
    - rewrite tget_tset_other; [apply Inv; lia|assumption|].
      intros E. apply REV_inj in E; [lia|assumption|unfold is_byte; lia]. }
  unfold lut_step. rewrite land1, Z.bit0_odd. destruct (Z.odd i) eqn:O; cbn [Z.eqb negb].
  - destruct (Inv (i - 1) ltac:(lia)) as [U1 V1]. destruct (Inv 1 ltac:(lia)) as [U2 V2].
    apply G; [apply u2_xor2; assumption|]. rewrite val_xor2, V1, V2.
    change (Msum 8 i Hv) with (Z.lxor (if Z.odd i then Hv else 0) (Msum 7 (i / 2) (mulx Hv))).
    change (Msum 8 (i - 1) Hv) with (Z.lxor (if Z.odd (i - 1) then Hv else 0) (Msum 7 ((i - 1) / 2) (mulx Hv))).
    change (Msum 8 1 Hv) with (Z.lxor Hv (Msum 7 0 (mulx Hv))). rewrite Msum_0, Z.lxor_0_r.
    rewrite O. rewrite Z.odd_sub. rewrite O. cbn [xorb Z.odd]. rewrite Z.lxor_0_l, Z.lxor_comm.
    do 2 f_equal. apply Zodd_bool_iff in O. apply Zodd_ex in O. destruct O as [q O]. lia.
  - destruct (Inv (i / 2) ltac:(lia)) as [U1 V1]. destruct (lut_double_ok _ U1) as [U2 V2].
    apply G; [assumption|]. rewrite V2, V1.
    change (Msum 8 i Hv) with (Z.lxor (if Z.odd i then Hv else 0) (Msum 7 (i / 2) (mulx Hv))).
    rewrite O, Z.lxor_0_l, <- Msum_mulx. apply Msum_ext; [|lia]. change (2 ^ Z.of_nat 7) with 128. lia.
Qed.
Lemma lut_table_ok T0 H : length T0 = 256%nat -> bytes H -> length H = 16%nat ->
  forall b, is_byte b -> u2 (tget (gf128_init_lut_table T0 H) b) /\
    val (tget (gf128_init_lut_table T0 H) b) = Msum 8 (REV b) (be_val H).
Proof.
  intros L0 Hb Hl. destruct (load2_ok H Hb Hl) as [L1 L2].
  unfold gf128_init_lut_table.
  set (T1 := tset T0 0 (0, 0)). set (T2 := tset T1 (REV 1) (load2 H)).
  assert (LT1 : length T1 = 256%nat) by (unfold T1; rewrite tset_length; cbn; lia).
  assert (R1 : REV 1 = 128) by reflexivity. assert (R0 : REV 0 = 0) by reflexivity.
  assert (I2 : lut_inv (be_val H) T2 2).
  { split; [unfold T2; rewrite tset_length; rewrite LT1; [reflexivity|rewrite R1; cbn; lia]|].
    intros j Hj. assert (J : j = 0 \/ j = 1) by lia. unfold T2. destruct J as [-> | ->].
    - rewrite tget_tset_other by (rewrite ?LT1, ?R1, ?R0; cbn; lia).
      unfold T1. rewrite R0, tget_tset_same by (rewrite L0; cbn; lia).
      split; [split; cbn; unfold is_u64; lia|]. rewrite Msum_0. reflexivity.
    - rewrite tget_tset_same by (rewrite LT1, R1; cbn; lia). split; [assumption|]. rewrite L2.
      change (Msum 8 1 (be_val H)) with (Z.lxor (be_val H) (Msum 7 0 (mulx (be_val H)))).
      rewrite Msum_0, Z.lxor_0_r. reflexivity. }
  assert (IN : forall n T, lut_inv (be_val H) T (Z.of_nat n) -> (2 <= n)%nat -> forall m, (n + m <= 256)%nat ->
     lut_inv (be_val H) (fold_left lut_step (map Z.of_nat (seq n m)) T) (Z.of_nat (n + m))).
  { intros n T I Hn m. revert n T I Hn. induction m as [|m IH]; intros n T I Hn Hm; cbn [seq map fold_left].
    - rewrite Nat.add_0_r. exact I.
    - replace (n + S m)%nat with (S n + m)%nat by lia. apply IH; [|lia|lia].
      replace (Z.of_nat (S n)) with (Z.of_nat n + 1) by lia. apply lut_step_ok; [assumption|lia]. }
  specialize (IN 2%nat T2 I2 ltac:(lia) 254%nat ltac:(lia)). destruct IN as [_ IN].
  intros b Bb. destruct (REV_ok b Bb) as [Rb RRb]. specialize (IN (REV b)). rewrite RRb in IN.
  apply IN. change (Z.of_nat (2 + 254)) with 256. exact Rb.
Qed.

(** REDUCE_TABLE: the byte shifted out, times x^8 *)
Lemma reduce_ok r : is_byte r ->
  is_u64 (Z.shiftl (nz REDUCE_TABLE (Z.to_nat r)) 48) /\
  mulxn 8 r = Z.shiftl (Z.shiftl (nz REDUCE_TABLE (Z.to_nat r)) 48) 64.
Proof.
  intros Hb.
  assert (H : forallb (fun n => let v := Z.shiftl (nz REDUCE_TABLE n) 48 in
     (0 <=? v) && (v <? 2 ^ 64) && (mulxn 8 (Z.of_nat n) =? Z.shiftl v 64))%bool (seq 0 256) = true)
    by (vm_compute; reflexivity).
  rewrite forallb_forall in H. specialize (H (Z.to_nat r)). rewrite Z2Nat.id in H by (destruct Hb; lia).
  assert (I : In (Z.to_nat r) (seq 0 256)) by (apply in_seq; unfold is_byte in Hb; lia). specialize (H I).
  cbv zeta in H. apply andb_prop in H. destruct H as [H E]. split; [unfold is_u64; lia|]. apply Z.eqb_eq; exact E.
Qed.
Lemma mulx_even q : mulx (Z.shiftl q 1) = q.
Proof.
  rewrite mulx_alt. rewrite Z.shiftl_spec_low by lia. rewrite Z.lxor_0_r, Z.shiftr_shiftl_l, Z.shiftl_0_r by lia. reflexivity.
Qed.
Lemma mulxn_shl n q : mulxn n (Z.shiftl q (Z.of_nat n)) = q.
Proof.
  revert q. induction n as [|n IH]; intros q; [apply Z.shiftl_0_r|]. cbn [mulxn].
  replace (Z.shiftl q (Z.of_nat (S n))) with (Z.shiftl (Z.shiftl q (Z.of_nat n)) 1)
    by (rewrite Z.shiftl_shiftl by lia; f_equal; lia).
  rewrite mulx_even. apply IH.
Qed.
Lemma split_byte x : x = Z.lxor (Z.shiftl (Z.shiftr x 8) 8) (Z.land x 255).
Proof.
  apply Z.bits_inj'. intros i Hi. rewrite Z.lxor_spec, Z.shiftl_spec, Z.land_spec by lia.
  change 255 with (Z.ones 8). rewrite Z.testbit_ones_nonneg by lia.
  destruct (Z.ltb_spec i 8).
  - rewrite (Z.testbit_neg_r _ (i - 8)) by lia. rewrite andb_true_r, xorb_false_l. reflexivity.
  - rewrite Z.shiftr_spec by lia. rewrite andb_false_r, xorb_false_r. f_equal. lia.
Qed.
Lemma mulxn8 x : mulxn 8 x = Z.lxor (Z.shiftr x 8) (mulxn 8 (Z.land x 255)).
Proof. rewrite (split_byte x) at 1. rewrite lin_mulxn, (mulxn_shl 8). reflexivity. Qed.

(** A byte in the top position times H *)
Lemma Msum_REV b H : is_byte b -> Msum 8 (REV b) H = gmul_loop 8 (Z.shiftl b 120) 0 0 H.
Proof.
  intros Hb.
  assert (S : forall n j X i Zi V, (forall k, (k < n)%nat -> Z.testbit X (127 - (i + Z.of_nat k)) = Z.testbit j (Z.of_nat k)) ->
     0 <= j -> gmul_loop n X i Zi V = Z.lxor Zi (Msum n j V)).
  { induction n as [|n IH]; intros j X i Zi V Hk Hj; cbn [gmul_loop Msum]; [rewrite Z.lxor_0_r; reflexivity|].
    rewrite (IH (j / 2)).
    - pose proof (Hk 0%nat ltac:(lia)) as H0. change (Z.of_nat 0) with 0 in H0. rewrite Z.add_0_r in H0. rewrite H0, Z.bit0_odd.
      destruct (Z.odd j); [rewrite Z.lxor_assoc|rewrite Z.lxor_0_l]; reflexivity.
    - intros k Hk'. pose proof (Hk (S k) ltac:(lia)) as H1. rewrite <- Z.div2_div, Z.div2_spec, Z.shiftr_spec by lia.
      replace (Z.of_nat k + 1) with (Z.of_nat (S k)) by lia. rewrite <- H1. f_equal. lia.
    - lia. }
  rewrite (S 8%nat (REV b)); [rewrite Z.lxor_0_l; reflexivity| |destruct (REV_ok b Hb) as [R _]; unfold is_byte in R; lia].
  assert (Q : forallb (fun n => forallb (fun k => Bool.eqb (Z.testbit (Z.shiftl (Z.of_nat n) 120) (127 - (0 + Z.of_nat k)))
       (Z.testbit (REV (Z.of_nat n)) (Z.of_nat k))) (seq 0 8)) (seq 0 256) = true) by (vm_compute; reflexivity).
  intros k Hk. rewrite forallb_forall in Q. specialize (Q (Z.to_nat b)). rewrite Z2Nat.id in Q by (destruct Hb; lia).
  assert (I : In (Z.to_nat b) (seq 0 256)) by (apply in_seq; unfold is_byte in Hb; lia). specialize (Q I).
  rewrite forallb_forall in Q. apply Bool.eqb_prop, Q, in_seq. lia.
Qed.
Lemma gmul_loop_ext n : forall X X' i i' Zi V,
  (forall k, (k < n)%nat -> Z.testbit X (127 - (i + Z.of_nat k)) = Z.testbit X' (127 - (i' + Z.of_nat k))) ->
  gmul_loop n X i Zi V = gmul_loop n X' i' Zi V.
Proof.
  induction n as [|n IH]; intros X X' i i' Zi V H; cbn [gmul_loop]; [reflexivity|].
  pose proof (H 0%nat ltac:(lia)) as H0. change (Z.of_nat 0) with 0 in H0. rewrite !Z.add_0_r in H0. rewrite H0.
  apply IH. intros k Hk. specialize (H (S k) ltac:(lia)).
  replace (i + 1 + Z.of_nat k) with (i + Z.of_nat (S k)) by lia.
  replace (i' + 1 + Z.of_nat k) with (i' + Z.of_nat (S k)) by lia. exact H.
Qed.
Lemma gmul_loop_mulx n X : forall i V, gmul_loop n X i 0 (mulx V) = mulx (gmul_loop n X i 0 V).
Proof.
  induction n as [|n IH]; intros i V; cbn [gmul_loop]; [reflexivity|].
  rewrite !(gmul_loop_acc n _ _ (if Z.testbit X (127 - i) then _ else _)). rewrite IH, lin_mulx. f_equal.
  destruct (Z.testbit X (127 - i)); rewrite ?Z.lxor_0_l; reflexivity.
Qed.
Lemma gmul_loop_mulxn m n X i V : gmul_loop n X i 0 (mulxn m V) = mulxn m (gmul_loop n X i 0 V).
Proof. revert V; induction m as [|m IH]; intros V; cbn [mulxn]; [reflexivity|]. rewrite IH, gmul_loop_mulx. reflexivity. Qed.

Definition Gm (m : nat) (X H : Z) : Z := gmul_loop (8 * m) (Z.shiftl X (128 - 8 * Z.of_nat m)) 0 0 H.
Definition byte_of (X : Z) (s : Z) : Z := Z.land (Z.shiftr X (8 * s)) 255.
Lemma byte_of_byte X s : is_byte (byte_of X s).
Proof. unfold byte_of. rewrite land_255. apply Z.mod_pos_bound. lia. Qed.
Lemma byte_of_bit X s i : 0 <= i -> 0 <= s -> Z.testbit (byte_of X s) i = if i <? 8 then Z.testbit X (8 * s + i) else false.
Proof.
  intros Hi Hs. unfold byte_of. rewrite Z.land_spec, Z.shiftr_spec by lia. change 255 with (Z.ones 8).
  rewrite Z.testbit_ones_nonneg by lia. destruct (i <? 8).
  - rewrite andb_true_r. f_equal. lia.
  - apply andb_false_r.
Qed.
Lemma Gm_S m X H : (m < 16)%nat ->
  Gm (S m) X H = Z.lxor (Msum 8 (REV (byte_of X (Z.of_nat m))) H) (mulxn 8 (Gm m X H)).
Proof.
  intros Hm. unfold Gm. replace (8 * S m)%nat with (8 + 8 * m)%nat by lia. rewrite gmul_loop_app.
  rewrite gmul_loop_acc, gmul_loop_mulxn. f_equal.
  - rewrite Msum_REV by apply byte_of_byte. apply gmul_loop_ext. intros k Hk.
    rewrite !Z.shiftl_spec by lia. rewrite byte_of_bit by lia.
    destruct (Z.ltb_spec (127 - (0 + Z.of_nat k) - 120) 8); [|lia]. f_equal. lia.
  - f_equal. apply gmul_loop_ext. intros k Hk. rewrite !Z.shiftl_spec by lia. f_equal. lia.
Qed.
Lemma Gm_16 X H : Gm 16 X H = gmul X H.
Proof. unfold Gm, gmul. change (8 * 16)%nat with 128%nat. change (128 - 8 * Z.of_nat 16) with 0. rewrite Z.shiftl_0_r. reflexivity. Qed.

Lemma round_ok T X R s Hv m : (forall b, is_byte b -> u2 (tget T b) /\ val (tget T b) = Msum 8 (REV b) Hv) ->
  s = Z.of_nat m -> (m < 16)%nat -> u2 X -> u2 R -> val R = Gm m (val X) Hv ->
  u2 (gmul128_round T X R s) /\ val (gmul128_round T X R s) = Gm (S m) (val X) Hv.
Proof.
  intros HT -> Hm UX UR ER.
  assert (B : Z.land (Z.shiftr (if 1 - Z.of_nat m / 8 =? 0 then fst X else snd X) (8 * (Z.of_nat m mod 8))) 255 = byte_of (val X) (Z.of_nat m)).
  { apply Z.bits_inj'. intros i Hi. rewrite byte_of_bit by lia. rewrite Z.land_spec, Z.shiftr_spec by lia.
    change 255 with (Z.ones 8). rewrite Z.testbit_ones_nonneg by lia. destruct (Z.ltb_spec i 8); [|apply andb_false_r].
    rewrite andb_true_r, val_bit by (assumption || lia).
    destruct (Z.ltb_spec (8 * Z.of_nat m + i) 64); destruct (Z.eqb_spec (1 - Z.of_nat m / 8) 0);
      try (exfalso; lia); f_equal; lia. }
  unfold gmul128_round. rewrite B. set (b := byte_of (val X) (Z.of_nat m)).
  destruct (HT b (byte_of_byte _ _)) as [Ut Et]. set (t := tget T b) in *.
  set (rem := Z.land (snd R) 255).
  assert (Hrem : is_byte rem) by (unfold rem; rewrite land_255; apply Z.mod_pos_bound; lia).
  destruct (reduce_ok rem Hrem) as [RU RE]. change (64 - 16) with 48.
  assert (W : w64 (Z.shiftl (nz REDUCE_TABLE (Z.to_nat rem)) 48) = Z.shiftl (nz REDUCE_TABLE (Z.to_nat rem)) 48)
    by (apply Z.mod_small; exact RU).
  rewrite W. clear W. set (q := Z.shiftl (nz REDUCE_TABLE (Z.to_nat rem)) 48) in *. cbv zeta.
  destruct (shr_pair_ok 8 R ltac:(lia) UR) as [SU SE].
  match goal with |- u2 ?e /\ _ => assert (Q : e = xor2 (xor2 (shr_pair 8 R) (q, 0)) t) end.
  { unfold xor2, shr_pair. cbn [fst snd]. rewrite Z.lxor_0_r. reflexivity. }
  rewrite Q. assert (Uq : u2 (q, 0)) by (split; [exact RU|cbn; unfold is_u64; lia]).
  split; [auto using u2_xor2|]. rewrite !val_xor2, SE, Et, Gm_S by assumption. fold b.
  rewrite Z.lxor_comm. f_equal. rewrite <- ER, (mulxn8 (val R)). f_equal.
  replace (Z.land (val R) 255) with rem.
  - rewrite RE. unfold val. cbn [fst snd]. apply Z.lxor_0_r.
  - unfold rem. apply Z.bits_inj'. intros i Hi. rewrite !Z.land_spec. change 255 with (Z.ones 8).
    rewrite Z.testbit_ones_nonneg by lia. destruct (Z.ltb_spec i 8); [|rewrite !andb_false_r; reflexivity].
    rewrite val_bit by (assumption || lia). destruct (Z.ltb_spec i 64); [reflexivity|lia].
Qed.
Lemma lut_block_ok T Hv s blk : (forall b, is_byte b -> u2 (tget T b) /\ val (tget T b) = Msum 8 (REV b) Hv) ->
  u2 s -> bytes blk -> length blk = 16%nat ->
  u2 (lut_block T s blk) /\ val (lut_block T s blk) = gmul (Z.lxor (val s) (be_val blk)) Hv.
Proof.
  intros HT Hs Hb Hl. unfold lut_block. destruct (load2_ok blk Hb Hl) as [L1 L2].
  assert (UX := u2_xor2 _ _ Hs L1). rewrite <- L2, <- val_xor2. set (X := xor2 s (load2 blk)) in *.
  cbv zeta.
  assert (B : Z.land (snd X) 255 = byte_of (val X) 0).
  { apply Z.bits_inj'. intros i Hi. rewrite byte_of_bit by lia. rewrite Z.land_spec.
    change 255 with (Z.ones 8). rewrite Z.testbit_ones_nonneg by lia. destruct (Z.ltb_spec i 8); [|apply andb_false_r].
    rewrite andb_true_r, val_bit by (assumption || lia). destruct (Z.ltb_spec (8 * 0 + i) 64); [reflexivity|lia]. }
  rewrite B. destruct (HT (byte_of (val X) 0) (byte_of_byte _ _)) as [U0 E0].
  set (R0 := tget T (byte_of (val X) 0)) in *.
  assert (G0 : val R0 = Gm 1 (val X) Hv).
  { rewrite Gm_S by lia. change (Gm 0 (val X) Hv) with 0. rewrite (lin_0 _ (lin_mulxn 8)), Z.lxor_0_r. exact E0. }
  rewrite <- Gm_16.
  assert (L : forall n m R, u2 R -> val R = Gm m (val X) Hv -> (m + n <= 16)%nat ->
    let r := fold_left (gmul128_round T X) (map Z.of_nat (seq m n)) R in u2 r /\ val r = Gm (m + n) (val X) Hv).
  { induction n as [|n IH]; intros m R UR ER Hmn; cbv zeta; cbn [seq map fold_left].
    - rewrite Nat.add_0_r. auto.
    - destruct (round_ok T X R (Z.of_nat m) Hv m HT eq_refl ltac:(lia) UX UR ER) as [A1 A2].
      specialize (IH (S m) _ A1 A2 ltac:(lia)). cbv zeta in IH. replace (m + S n)%nat with (S m + n)%nat by lia. exact IH. }
  exact (L 15%nat 1%nat R0 U0 G0 ltac:(lia)).
Qed.

(** ** Whole messages *)
Global Opaque gmul gmul_loop.

Lemma GHASH_blocks_cons H Y x l : GHASH_blocks H Y (x :: l) = GHASH_blocks H (gmul (Z.lxor Y x) H) l.
Proof. reflexivity. Qed.
Lemma g_blocks_ok {K} (blk : K -> pair64 -> list Z -> pair64) k Hv :
  (forall s b, u2 s -> bytes b -> length b = 16%nat -> u2 (blk k s b) /\ val (blk k s b) = gmul (Z.lxor (val s) (be_val b)) Hv) ->
  forall n d s, u2 s -> bytes d -> (16 * n <= length d)%nat ->
  let c := g_blocks blk (mkG k s) d n in
  gkey c = k /\ u2 (gst c) /\ val (gst c) = GHASH_blocks Hv (val s) (map be_val (cut 16 n d)).
Proof.
  intros HB. induction n as [|n IH]; intros d s Hs Hd Hl; cbn [g_blocks cut map]; [cbv zeta; cbn; auto|].
  rewrite GHASH_blocks_cons.
  cbn [gkey gst]. destruct (HB s (firstn 16 d)) as [A1 A2]; auto using bytes_firstn; [rewrite firstn_length; lia|].
  specialize (IH (skipn 16 d) (blk k s (firstn 16 d)) A1 (bytes_skipn _ _ Hd)). rewrite skipn_length in IH.
  specialize (IH ltac:(lia)). cbv zeta in IH. destruct IH as (I1 & I2 & I3). cbv zeta.
  split; [exact I1|]. split; [exact I2|]. rewrite I3, A2. reflexivity.
Qed.

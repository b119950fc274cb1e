(** The SM9 algorithms: hashing to a range, random scalars, keys, signatures. *)
From Coq Require Import Znumtheory Field_theory.
From Verif Require Import Base BaseFacts ModelEndian ProofEndian ModelNumber SpecNumber ProofNumber ModelMont SpecMont
  ProofMont SpecField SpecTower SpecEC SpecJac ProofEC ProofECMul ProofFermat ModelEC ProofJac ProofJacRep
  ProofNumlib ProofZops ModelSM2 ProofSM2Enc ModelSM9 ProofNumlib9 SpecSM9 ProofTower ProofTowerRep ProofSM2Rep
  ProofFrob ProofSM9Frob ProofSM9Pow ProofSM9Fin ProofSM9Rep ProofSM9Curve SpecSM2 SpecSM2Api SpecSM9Api ProofSM9Point ProofSM9Enc.

Lemma n9_1 : 1 < SM9_n - 1. Proof. reflexivity. Qed.
Lemma n9_b : SM9_n - 1 < 2 ^ 256 /\ 2 ^ 256 < 2 * (SM9_n - 1). Proof. split; reflexivity. Qed.
Lemma n9_pos : 0 < SM9_n. Proof. reflexivity. Qed.

Lemma mod_range1 x : 1 <= x mod (SM9_n - 1) + 1 <= SM9_n - 1.
Proof.
  pose proof n9_1 as H. revert H. generalize (SM9_n - 1). intros m Hm.
  pose proof (Z.mod_pos_bound x m ltac:(lia)). lia.
Qed.
Lemma draw9_range rnd : 1 <= draw9 rnd <= SM9_n - 1. Proof. apply mod_range1. Qed.
Lemma SM9_H_range H Hd tag z : 1 <= SM9_H H Hd tag z <= SM9_n - 1. Proof. apply mod_range1. Qed.
Lemma range_256 x : 1 <= x <= SM9_n - 1 -> 0 <= x < 2 ^ 256.
Proof. pose proof n9_b. lia. Qed.
Lemma be_val_32 x : 1 <= x <= SM9_n - 1 -> be_val (be_bytes 32 x) = x.
Proof. intros H. rewrite be_val_be_bytes. apply Z.mod_small. exact (range_256 x H). Qed.

Section SM9.
  Variables (w : Z) (nn : nat) (L9 : numlib9).
  Hypothesis LOK : numlib9_ok w nn L9.
  Notation L := (l9 L9).
  Notation R1 := (R1 w nn). Notation W1 := (W1 w nn). Notation Rn9 := (Rn9 w nn).
  Notation R2 := (rel2 R1). Notation W2 := (rel2 W1).
  Notation R4 := (rel2 R2). Notation W4 := (rel2 W2).
  Notation R12 := (rel3 R4). Notation W12 := (rel3 W4).
  Notation Op := (sm9_fp_ops L9).
  Notation LK := (k_lib _ _ _ LOK).
  Notation jr1 := (jrep K1 R1). Notation jr2 := (jrep K2 R2).
  Notation ar1 := (aR R1). Notation ar2 := (aR R2).

  (** ** Reduction modulo n - 1 *)
  Lemma vb256 a : limbs w nn a -> 0 <= val w a < 2 ^ 256.
  Proof.
    intros Ha. pose proof (val_bound w nn a (Z.lt_le_incl _ _ (Z.lt_trans _ _ _ Z.lt_0_1 (ok_w _ _ _ LK))) Ha) as VB.
    unfold pw in VB. rewrite (ok_wn _ _ _ LK) in VB. exact VB.
  Qed.
  Lemma n_sub1_spec : limbs w nn (sm9_n_sub1 L9) /\ val w (sm9_n_sub1 L9) = SM9_n - 1.
  Proof.
    destruct (N9_limbs w nn L9 LOK) as [LN VN]. pose proof n9_1 as N1.
    destruct (k_sub32 _ _ _ LOK _ 1 LN ltac:(lia) ltac:(rewrite VN; lia)) as [A B].
    rewrite VN in B. split; [exact A|exact B].
  Qed.
  Lemma add1_spec a x : limbs w nn a -> val w a = x -> 0 <= x < SM9_n - 1 ->
    limbs w nn (sm9_bn_add_uint32 L9 a 1) /\ val w (sm9_bn_add_uint32 L9 a 1) = x + 1.
  Proof.
    intros Ha Va Hx. unfold sm9_bn_add_uint32. pose proof (ok_add32 _ _ _ LK a 1 Ha ltac:(lia)) as A.
    destruct (nl_add32 L a 1) as [r c]. destruct A as (A1 & A2 & A3). cbn [fst]. split; [exact A1|].
    pose proof n9_b as [N1 _]. pose proof (vb256 _ A1) as VB.
    revert N1 VB A3 A2 Hx. rewrite Va. generalize (SM9_n - 1) (2 ^ 256) (val w r). clear. intros m M v. intros.
    assert (C : c = 0 \/ c = 1) by lia. destruct C; subst c; lia.
  Qed.
  Lemma mod_ex_spec data : bytes data ->
    exists a, sm9_bn_mod_n_sub1_ex L9 data = Ok a /\ limbs w nn a /\ val w a = be_val data mod (SM9_n - 1).
  Proof.
    intros Hb. destruct n_sub1_spec as [A B]. pose proof n9_1 as N1.
    destruct (k_mod _ _ _ LOK data _ Hb A ltac:(rewrite B; lia)) as (x & E & X1 & X2).
    exists x. unfold sm9_bn_mod_n_sub1_ex. rewrite E. split; [reflexivity|]. split; [exact X1|]. rewrite X2, B. reflexivity.
  Qed.
  Lemma mod_sub1_spec a : limbs w nn a -> 
    limbs w nn (sm9_bn_mod_n_sub1 L9 a) /\ val w (sm9_bn_mod_n_sub1 L9 a) = val w a mod (SM9_n - 1).
  Proof.
    intros Ha. destruct n_sub1_spec as [A B]. unfold sm9_bn_mod_n_sub1.
    pose proof (vb256 _ Ha) as VB.
    rewrite (ok_cmp _ _ _ LK _ _ Ha A), B. pose proof n9_b as [N1 N2]. pose proof n9_1 as N3.
    assert (CG : forall x y, (0 <=? Zcmp x y) = (y <=? x)).
    { intros x y. unfold Zcmp. destruct (Z.ltb_spec y x), (Z.ltb_spec x y); cbn; lia. }
    rewrite CG. destruct (Z.leb_spec (SM9_n - 1) (val w a)) as [G|G].
    - destruct (ok_sub _ _ _ LK a _ Ha A ltac:(rewrite B; exact G)) as [S1 S2]. split; [exact S1|]. rewrite S2, B.
      clear - VB N1 N2 N3 G. revert VB N1 N2 N3 G. generalize (SM9_n - 1) (val w a) (2 ^ 256). intros m v M. intros.
      rewrite <- (Z.mod_small (v - m) m) by lia. rewrite <- (Z_mod_plus_full (v - m) 1 m). f_equal. lia.
    - split; [exact Ha|]. symmetry. apply Z.mod_small. lia.
  Qed.
  Lemma draw_bn rnd : bytes rnd -> length rnd = 32%nat ->
    let r := sm9_bn_add_uint32 L9 (sm9_bn_mod_n_sub1 L9 (nl_from_bytes L rnd)) 1 in
    limbs w nn r /\ val w r = draw9 rnd.
  Proof.
    intros Hb Hl. destruct (ok_from_bytes _ _ _ LK rnd Hb Hl) as [F1 F2].
    destruct (mod_sub1_spec _ F1) as [M1 M2]. rewrite F2 in M2.
    apply (add1_spec _ _ M1 M2). pose proof (draw9_range rnd) as D. unfold draw9 in D.
    revert D. generalize (be_val rnd mod (SM9_n - 1)) SM9_n. clear. intros. lia.
  Qed.
  Lemma draw9_spec rnd : bytes rnd -> length rnd = 32%nat -> sm9_draw L9 rnd = be_bytes 32 (draw9 rnd).
  Proof.
    intros Hb Hl. destruct (draw_bn rnd Hb Hl) as [A B]. unfold sm9_draw. rewrite (ok_to_bytes _ _ _ LK _ A), B. reflexivity.
  Qed.

  (** ** H1 and H2 *)
  Variables (H : hashlib) (Hd : list Z -> list Z).
  Hypothesis HOK : hash_ok H Hd.
  Notation DS := (hl_ds H).
  Definition hfits (z : list Z) : Prop := 8 * (Z.of_nat (length z) + 5) < 2 ^ 64.
  Lemma hn_bytes tag z i : is_byte tag -> bytes z -> bytes (tag :: z ++ be_bytes 4 i).
  Proof. intros Ht Hz. constructor; [exact Ht|]. apply bytes_app. split; [exact Hz|apply be_bytes_bytes]. Qed.
  Lemma hn_run tag Z1 Z2 c : is_byte tag -> bytes Z1 -> bytes Z2 ->
    hl_run H [[tag]; Z1; Z2] (store32_be (w32 (Z.of_nat c))) =
    if 8 * (Z.of_nat (length (Z1 ++ Z2)) + 5) <? 2 ^ 64
    then Ok (Hd (tag :: (Z1 ++ Z2) ++ be_bytes 4 (Z.of_nat c))) else Throw.
  Proof.
    intros Ht H1 H2. rewrite store32_be_eq.
    assert (E : be_bytes 4 (w32 (Z.of_nat c)) = be_bytes 4 (Z.of_nat c)) by exact (be_bytes_mod 4 (Z.of_nat c)).
    rewrite E. assert (EC : concat [[tag]; Z1; Z2] ++ be_bytes 4 (Z.of_nat c) = tag :: (Z1 ++ Z2) ++ be_bytes 4 (Z.of_nat c)).
    { cbn [concat]. rewrite app_nil_r. reflexivity. }
    rewrite (ho_run _ _ HOK) by (rewrite EC; apply hn_bytes; [exact Ht|apply bytes_app; split; assumption]).
    rewrite EC. replace (Z.of_nat (length (tag :: (Z1 ++ Z2) ++ be_bytes 4 (Z.of_nat c)))) with (Z.of_nat (length (Z1 ++ Z2)) + 5).
    - reflexivity.
    - cbn [length]. rewrite (app_length (Z1 ++ Z2)), be_bytes_length. lia.
  Qed.
  Lemma w32_succ c : w32 (w32 (Z.of_nat c) + 1) = w32 (Z.of_nat (S c)).
  Proof. unfold w32. rewrite Nat2Z.inj_succ, Zplus_mod_idemp_l. reflexivity. Qed.
  Lemma hn_loop_spec tag Z1 Z2 : is_byte tag -> bytes Z1 -> bytes Z2 -> hfits (Z1 ++ Z2) -> forall k c,
    hn_loop H k tag Z1 Z2 (w32 (Z.of_nat c)) =
    Ok (concat (map (fun i => Hd (tag :: (Z1 ++ Z2) ++ be_bytes 4 (Z.of_nat i))) (seq c k))).
  Proof.
    intros Ht H1 H2 Hf. induction k as [|k IH]; intros c; [reflexivity|]. cbn [hn_loop seq map concat].
    rewrite hn_run by assumption. unfold hfits in Hf.
    destruct (Z.ltb_spec (8 * (Z.of_nat (length (Z1 ++ Z2)) + 5)) (2 ^ 64)); [|lia].
    cbn [bind]. rewrite w32_succ, IH. reflexivity.
  Qed.
  Lemma hn_loop_long tag Z1 Z2 k c : is_byte tag -> bytes Z1 -> bytes Z2 -> ~ hfits (Z1 ++ Z2) ->
    hn_loop H (S k) tag Z1 Z2 (w32 (Z.of_nat c)) = Throw.
  Proof.
    intros Ht H1 H2 Hf. cbn [hn_loop]. rewrite hn_run by assumption. unfold hfits in Hf.
    destruct (Z.ltb_spec (8 * (Z.of_nat (length (Z1 ++ Z2)) + 5)) (2 ^ 64)); [lia|reflexivity].
  Qed.
  Lemma Ha_length tag z k : is_byte tag -> bytes z -> forall c,
    length (concat (map (fun i => Hd (tag :: z ++ be_bytes 4 (Z.of_nat i))) (seq c k))) = (k * DS)%nat.
  Proof.
    intros Ht Hz. induction k as [|k IH]; intros c; [reflexivity|]. cbn [seq map concat].
    rewrite app_length, IH, (ho_len _ _ HOK) by now apply hn_bytes. reflexivity.
  Qed.
  Lemma Ha_bytes tag z k : is_byte tag -> bytes z -> forall c,
    bytes (concat (map (fun i => Hd (tag :: z ++ be_bytes 4 (Z.of_nat i))) (seq c k))).
  Proof.
    intros Ht Hz. induction k as [|k IH]; intros c; [constructor|]. cbn [seq map concat].
    apply bytes_app. split; [|apply IH]. apply (ho_bytes _ _ HOK). now apply hn_bytes.
  Qed.
  Lemma blocks_enough d : (0 < d)%nat -> (40 <= (40 + d - 1) / d * d)%nat.
  Proof. intros Hp. pose proof (Nat.div_mod (40 + d - 1) d ltac:(lia)). pose proof (Nat.mod_upper_bound (40 + d - 1) d ltac:(lia)). nia. Qed.
  Theorem Hn_spec tag Z1 Z2 : is_byte tag -> bytes Z1 -> bytes Z2 ->
    sm9_Hn L9 H Z1 Z2 tag =
    if 8 * (Z.of_nat (length (Z1 ++ Z2)) + 5) <? 2 ^ 64
    then Ok (be_bytes 32 (SM9_H H Hd tag (Z1 ++ Z2))) else Throw.
  Proof.
    intros Ht H1 H2. pose proof (ho_pos _ _ HOK) as DP. pose proof (blocks_enough DS DP) as BE. unfold sm9_Hn.
    change 1 with (w32 (Z.of_nat 1)) at 1.
    destruct (Z.ltb_spec (8 * (Z.of_nat (length (Z1 ++ Z2)) + 5)) (2 ^ 64)) as [G|G].
    - rewrite hn_loop_spec by assumption. cbn [bind].
      assert (Hz : bytes (Z1 ++ Z2)) by (apply bytes_app; split; assumption).
      fold (SM9_Ha Hd tag (Z1 ++ Z2) ((40 + DS - 1) / DS)).
      assert (LA : length (SM9_Ha Hd tag (Z1 ++ Z2) ((40 + DS - 1) / DS)) = ((40 + DS - 1) / DS * DS)%nat) by now apply Ha_length.
      rewrite read_ok by lia. cbn [bind]. rewrite slice_0.
      assert (BA : bytes (firstn 40 (SM9_Ha Hd tag (Z1 ++ Z2) ((40 + DS - 1) / DS)))).
      { apply bytes_firstn. now apply Ha_bytes. }
      destruct (mod_ex_spec _ BA) as (a & E & A1 & A2). rewrite E. cbn [bind].
      pose proof (SM9_H_range H Hd tag (Z1 ++ Z2)) as HR. unfold SM9_H in *.
      destruct (add1_spec _ _ A1 A2) as [B1 B2].
      { revert HR. generalize (be_val (firstn 40 (SM9_Ha Hd tag (Z1 ++ Z2) ((40 + DS - 1) / DS))) mod (SM9_n - 1)) SM9_n. clear. intros. lia. }
      rewrite (ok_to_bytes _ _ _ LK _ B1), B2. reflexivity.
    - destruct ((40 + DS - 1) / DS)%nat as [|k] eqn:EK; [lia|].
      rewrite hn_loop_long; [reflexivity|assumption..|unfold hfits; lia].
  Qed.
End SM9.

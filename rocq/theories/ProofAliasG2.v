(** Exponentiation in F_p^12 on memory. *)
From Verif Require Import Base BaseFacts ModelNumber ModelNumberX64 ModelMont ModelAlias SpecAlias ModelEC ModelSM2 ModelSM9 ModelAliasF.
From Verif Require Import ModelAliasG SpecAliasF SpecAliasG ProofAliasF ProofAliasG.

Section Pow.
  Context {T : Type} (Op : fops T).
  Variables (w : Z) (k : nat) (get : mem -> nat -> p12 T) (P : op -> proc) (is0 : mem -> nat -> bool) (z : p12 T).
  Hypothesis Hk : (0 < k)%nat.
  Hypothesis Hl : local_get k get.
  Hypothesis Hmul : call_ok w k get 2 (P Mul) (fun l => fp12_mul Op (nth 0 l z) (nth 1 l z)).
  Hypothesis Hsqr : call_ok w k get 1 (P Sqr) (fun l => fp12_sqr Op (nth 0 l z)).
  Hypothesis Hcpy : call_ok w k get 1 (P Cpy) (fun l => nth 0 l z).
  Hypothesis Hzero : call_ok w k get 0 (P Zero) (fun _ => fp12_zero Op).
  Hypothesis His0 : forall m a, is0 m a = fp12_equal_zero Op (get m a).
  Variables (sp a : nat) (m0 : mem).
  Hypothesis Ha : (a + k <= sp)%nat.
  Notation av := (get m0 a).
  Fixpoint V (j : nat) : p12 T := match j with O => fp12_sqr Op av | S j' => fp12_mul Op (V j') av end.
  Lemma lut_V : lut12 Op av = map V (seq 0 14). Proof. reflexivity. Qed.
  Lemma lut_nth j : (j < 14)%nat -> nth_error (lut12 Op av) j = Some (V j).
  Proof.
    intros H. rewrite lut_V. rewrite nth_error_map. rewrite (nth_error_nth' _ 0%nat) by (rewrite seq_length; exact H).
    rewrite seq_nth by exact H. reflexivity.
  Qed.
  Definition tinv (n : nat) (m : mem) : Prop :=
    (forall i, (i < n)%nat -> get m (powLut k sp i) = V i) /\ get m a = av /\ words w m /\ (forall q, (q < sp)%nat -> m q = m0 q).
  Lemma lut_b i j : (i < j)%nat -> (powLut k sp i + k <= powLut k sp j)%nat.
  Proof.
    intros H. unfold powLut. assert (k * S i + k <= k * S j)%nat; [|lia].
    replace (k * S i + k)%nat with (k * S (S i))%nat by lia. apply Nat.mul_le_mono_l. lia.
  Qed.
  Lemma lut_top i : (i < 14)%nat -> (powLut k sp i + k <= powSp k sp)%nat.
  Proof.
    intros H. unfold powLut, powSp. assert (k * S i + k <= k * 15)%nat; [|lia].
    replace (k * S i + k)%nat with (k * S (S i))%nat by lia. apply Nat.mul_le_mono_l. lia.
  Qed.
  Lemma lut_bot i : (sp + k <= powLut k sp i)%nat.
  Proof. unfold powLut. assert (k * 1 <= k * S i)%nat by (apply Nat.mul_le_mono_l; lia). lia. Qed.
  Lemma sp_top : (sp + k <= powSp k sp)%nat. Proof. unfold powSp. lia. Qed.
  Lemma lut_step j m : (1 <= j)%nat -> (j < 14)%nat -> tinv j m ->
    tinv (S j) (P Mul (powSp k sp) (powLut k sp j) [powLut k sp (pred j); a] m).
  Proof.
    intros H1 H2 (I1 & I2 & I3 & I4). pose proof (lut_top j H2) as Bj. pose proof (lut_b (pred j) j ltac:(lia)) as Bp.
    pose proof (lut_bot j) as B0. pose proof sp_top as BT.
    destruct (Hmul (powSp k sp) (powLut k sp j) [powLut k sp (pred j); a] m eq_refl Bj) as (E & F & W).
    { constructor; [split; [lia|right; right; lia]|]. constructor; [split; [lia|right; right; lia]|constructor]. }
    { exact I3. }
    split. { intros i Hi. destruct (Nat.eq_dec i j) as [->|N].
      - rewrite E. cbn [map nth]. rewrite I2, (I1 (pred j)) by lia. destruct j as [|j]; [lia|]. reflexivity.
      - rewrite <- (I1 i) by lia. pose proof (lut_b i j ltac:(lia)) as Bi. pose proof (lut_top i ltac:(lia)).
        apply (keep _ _ _ _ _ _ _ _ Hl F); [assumption|right; exact Bi]. }
    split. { rewrite <- I2. apply (keep _ _ _ _ _ _ _ _ Hl F); [lia|right; lia]. }
    split; [exact W|]. intros q Hq. rewrite <- I4 by exact Hq. apply F; lia.
  Qed.
  Lemma lut_loop n : forall j m, (1 <= j)%nat -> (j + n <= 14)%nat -> tinv j m -> tinv (j + n) (lut12_m k P sp a j n m).
  Proof.
    induction n as [|n IH]; intros j m H1 H2 I.
    - rewrite Nat.add_0_r. exact I.
    - cbn [lut12_m]. replace (j + S n)%nat with (S j + n)%nat by lia. apply IH; [lia|lia|]. apply lut_step; [exact H1|lia|exact I].
  Qed.
  Lemma lut_init : words w m0 -> tinv 1 (P Sqr (powSp k sp) (powLut k sp 0) [a] m0).
  Proof.
    intros W0. pose proof (lut_top 0 ltac:(lia)) as Bj. pose proof (lut_bot 0) as B0. pose proof sp_top as BT.
    destruct (Hsqr (powSp k sp) (powLut k sp 0) [a] m0 eq_refl Bj) as (E & F & W).
    { constructor; [split; [lia|right; right; lia]|constructor]. }
    { exact W0. }
    split. { intros i Hi. replace i with 0%nat by lia. exact E. }
    split. { apply (keep _ _ _ _ _ _ _ _ Hl F); [lia|right; lia]. }
    split; [exact W|]. intros q Hq. apply F; lia.
  Qed.

  (** *** the result t *)
  Definition pinv (m : mem) (t : p12 T) : Prop := tinv 14 m /\ get m (powT sp) = t.
  Lemma pinv_T m m' t : tinv 14 m -> get m' (powT sp) = t -> frame (powSp k sp) (powT sp) k m m' -> words w m' -> pinv m' t.
  Proof.
    intros (I1 & I2 & I3 & I4) E F W. unfold powT in *. pose proof sp_top as BT. split; [|exact E].
    split. { intros i Hi. rewrite <- I1 by exact Hi. apply (keep _ _ _ _ _ _ _ _ Hl F); [exact (lut_top i Hi)|left; exact (lut_bot i)]. }
    split. { rewrite <- I2. apply (keep _ _ _ _ _ _ _ _ Hl F); [lia|right; lia]. }
    split; [exact W|]. intros q Hq. rewrite <- I4 by exact Hq. apply F; lia.
  Qed.
  Lemma pinv_sqr m t : pinv m t -> pinv (sqr12_m k P sp m) (fp12_sqr Op t).
  Proof.
    intros (I & E). pose proof I as (_ & _ & I3 & _). pose proof sp_top as BT.
    destruct (Hsqr (powSp k sp) (powT sp) [powT sp] m eq_refl BT) as (E1 & F & W).
    { constructor; [split; [exact BT|left; reflexivity]|constructor]. } { exact I3. }
    apply (pinv_T m); [exact I| |exact F|exact W]. unfold sqr12_m. rewrite E1. cbn [map nth]. now rewrite E.
  Qed.
  Lemma pinv_sqr4 m t : pinv m t -> pinv (sqr12_4_m k P sp m) (sqr12_4 Op t).
  Proof. intros I. unfold sqr12_4_m, sqr12_4. now do 4 apply pinv_sqr. Qed.
  (** the addresses the table lookups give *)
  Definition slot (x : nat) (v : p12 T) : Prop :=
    (x + k <= powSp k sp)%nat /\ apart k sp k x /\ (forall m, tinv 14 m -> get m x = v).
  Lemma pick_ok i : match pick12 av (lut12 Op av) i with
    | Ok v => exists x, pick12_m k sp a i = Ok x /\ slot x v | Throw => pick12_m k sp a i = Throw | UB => pick12_m k sp a i = UB end.
  Proof.
    unfold pick12, pick12_m. destruct (i =? 1).
    { exists a. split; [reflexivity|]. pose proof sp_top. split; [lia|]. split; [right; lia|]. intros m (_ & I & _). exact I. }
    destruct (i <? 2) eqn:E2; [reflexivity|]. apply Z.ltb_ge in E2.
    destruct (Z.ltb_spec (i - 2) 14) as [L|L].
    - rewrite lut_nth by lia. eexists. split; [reflexivity|]. split; [apply lut_top; lia|].
      split; [left; apply lut_bot|]. intros m (I & _). apply I. lia.
    - rewrite (proj2 (nth_error_None (lut12 Op av) (Z.to_nat (i - 2)))); [reflexivity|].
      rewrite lut_V, map_length, seq_length. lia.
  Qed.
  Definition pstep (x : res mem) (v : res (p12 T)) : Prop :=
    match v with Ok y => exists m', x = Ok m' /\ pinv m' y | Throw => x = Throw | UB => x = UB end.
  Lemma nibble_ok i m t : pinv m t -> pstep (nibble12_m k P sp a i m) (nibble12 Op av (lut12 Op av) t i).
  Proof.
    intros I. unfold nibble12_m, nibble12. destruct (i =? 0); [exists m; split; [reflexivity|exact I]|].
    pose proof (pick_ok i) as Q. destruct (pick12 av (lut12 Op av) i) as [v| |]; cbn [bind]; [|now rewrite Q|now rewrite Q].
    destruct Q as (x & -> & S1 & S2 & S3). cbn [bind]. pose proof I as (I1 & E). pose proof I1 as (_ & _ & W0 & _). pose proof sp_top as BT.
    destruct (Hmul (powSp k sp) (powT sp) [powT sp; x] m eq_refl BT) as (E1 & F & W).
    { constructor; [split; [exact BT|left; reflexivity]|]. constructor; [split; [exact S1|right; exact S2]|constructor]. }
    { exact W0. }
    eexists. split; [reflexivity|]. apply (pinv_T m); [exact I1| |exact F|exact W]. rewrite E1. cbn [map nth]. rewrite E, (S3 m I1). reflexivity.
  Qed.
  Lemma pow_loop_ok bs : forall m t, pinv m t -> pstep (pow12_loop_m k P sp a bs m) (pow12_loop Op av (lut12 Op av) t bs).
  Proof.
    induction bs as [|b bs IH]; intros m t I; [exists m; split; [reflexivity|exact I]|].
    cbn [pow12_loop_m pow12_loop].
    pose proof (nibble_ok (Z.land (Z.shiftr b 4) 15) _ _ (pinv_sqr4 m t I)) as N1.
    destruct (nibble12 Op av (lut12 Op av) (sqr12_4 Op t) (Z.land (Z.shiftr b 4) 15)) as [t1| |]; cbn [pstep bind] in *;
      [|now rewrite N1|now rewrite N1].
    destruct N1 as (m1 & -> & I1). cbn [bind].
    pose proof (nibble_ok (Z.land b 15) _ _ (pinv_sqr4 m1 t1 I1)) as N2.
    destruct (nibble12 Op av (lut12 Op av) (sqr12_4 Op t1) (Z.land b 15)) as [t2| |]; cbn [pstep bind] in *;
      [|now rewrite N2|now rewrite N2].
    destruct N2 as (m2 & -> & I2). cbn [bind]. now apply IH.
  Qed.
  Lemma cpy_ok i m : tinv 14 m -> pstep (do x <- pick12_m k sp a i; Ok (P Cpy (powSp k sp) (powT sp) [x] m)) (pick12 av (lut12 Op av) i).
  Proof.
    intros I1. pose proof (pick_ok i) as Q. destruct (pick12 av (lut12 Op av) i) as [v| |]; cbn [bind]; [|now rewrite Q|now rewrite Q].
    destruct Q as (x & -> & S1 & S2 & S3). cbn [bind]. pose proof I1 as (_ & _ & W0 & _). pose proof sp_top as BT.
    destruct (Hcpy (powSp k sp) (powT sp) [x] m eq_refl BT) as (E1 & F & W).
    { constructor; [split; [exact S1|right; exact S2]|constructor]. } { exact W0. }
    eexists. split; [reflexivity|]. apply (pinv_T m); [exact I1| |exact F|exact W]. rewrite E1. cbn [map nth]. exact (S3 m I1).
  Qed.
  Lemma pow_ok eb r : (r + k <= sp)%nat -> words w m0 ->
    returns w k get sp r m0 (fp12_pow_m k P is0 eb sp r a m0) (fp12_pow Op av eb).
  Proof.
    intros Hr W0. unfold fp12_pow_m, fp12_pow. rewrite His0. destruct (fp12_equal_zero Op av).
    { destruct (Hzero sp r [] m0 eq_refl Hr (Forall_nil _) W0) as (E & F & W). eexists. split; [reflexivity|].
      split; [exact E|]. split; [exact F|exact W]. }
    cbv zeta. pose proof (lut_loop 13 1 _ ltac:(lia) ltac:(lia) (lut_init W0)) as IT. cbn [Nat.add] in IT.
    set (m1 := lut12_m k P sp a 1 13 (P Sqr (powSp k sp) (powLut k sp 0) [a] m0)) in *. clearbody m1.
    destruct (skip0 eb 0) as [[i rest]| |]; cbn [bind]; [|reflexivity|reflexivity].
    set (b := nz rest 0).
    assert (S1 : pstep (if 15 <? b then
                 do x <- pick12_m k sp a (Z.land (Z.shiftr b 4) 15);
                 nibble12_m k P sp a (Z.land b 15) (sqr12_4_m k P sp (P Cpy (powSp k sp) (powT sp) [x] m1))
               else do x <- pick12_m k sp a (Z.land b 15); Ok (P Cpy (powSp k sp) (powT sp) [x] m1))
            (if 15 <? b then
                 do t <- pick12 av (lut12 Op av) (Z.land (Z.shiftr b 4) 15);
                 nibble12 Op av (lut12 Op av) (sqr12_4 Op t) (Z.land b 15)
               else pick12 av (lut12 Op av) (Z.land b 15))).
    { destruct (15 <? b); [|exact (cpy_ok _ _ IT)].
      pose proof (cpy_ok (Z.land (Z.shiftr b 4) 15) _ IT) as C. pose proof (pick_ok (Z.land (Z.shiftr b 4) 15)) as Q.
      destruct (pick12 av (lut12 Op av) (Z.land (Z.shiftr b 4) 15)) as [t| |]; cbn [bind pstep] in *; [|now rewrite Q|now rewrite Q].
      destruct Q as (x & E & _). rewrite E in *. cbn [bind] in *. destruct C as (m' & E' & I').
      assert (E2 : P Cpy (powSp k sp) (powT sp) [x] m1 = m') by congruence. rewrite E2.
      apply nibble_ok. now apply pinv_sqr4. }
    set (X := if 15 <? b then _ else _) in S1 |- *. set (Y := if 15 <? b then _ else _) in S1 |- *. clearbody X Y.
    destruct Y as [t| |]; cbn [pstep bind] in S1 |- *; [|now rewrite S1|now rewrite S1].
    destruct S1 as (m2 & -> & I2). cbn [bind].
    set (Z' := if (S i <? 32)%nat then _ else _). destruct Z' as [bs| |]; cbn [bind]; [|reflexivity|reflexivity].
    pose proof (pow_loop_ok bs m2 t I2) as S2.
    destruct (pow12_loop Op av (lut12 Op av) t bs) as [v| |]; cbn [pstep bind returns] in *; [|now rewrite S2|now rewrite S2].
    destruct S2 as (m3 & -> & (_ & _ & W3 & B3) & E3). cbn [bind]. pose proof sp_top as BT.
    destruct (Hcpy (powSp k sp) r [powT sp] m3 eq_refl ltac:(lia)) as (E & F & W).
    { constructor; [split; [exact BT|right; unfold powT; lia]|constructor]. } { exact W3. }
    eexists. split; [reflexivity|]. split; [rewrite E; exact E3|]. split; [|exact W].
    intros q Q1 Q2. rewrite <- B3 by exact Q1. apply F; [lia|exact Q2].
  Qed.
End Pow.

(** Proofs for ModelAlias: the x64 build on memory. *)
From Coq Require Import Lia.
From Verif Require Import Base BaseFacts ModelEndian ModelNumber ModelNumberX64 ModelMont SpecNumber SpecMont
  ProofNumber ProofNumberX64 ProofMont ProofMont2 ModelAlias SpecAlias ProofAlias ProofAlias2 ProofAlias3.

Local Transparent mulx_lo mulx_hi addcarry_u64.
Lemma mulx_lo_word x y : 0 <= mulx_lo x y < 2 ^ 64.
Proof. unfold mulx_lo. apply (Z.mod_pos_bound _ (2 ^ 64)). reflexivity. Qed.
Lemma addcarry_word c x y : 0 <= fst (addcarry_u64 c x y) < 2 ^ 64.
Proof. unfold addcarry_u64. cbn [fst]. apply (Z.mod_pos_bound _ (2 ^ 64)). reflexivity. Qed.
Local Opaque mulx_lo mulx_hi addcarry_u64.
Lemma addc_snoc a : forall b c x y, length a = length b ->
  addc c (a ++ [x]) (b ++ [y]) =
  (fst (addc c a b) ++ [fst (addcarry_u64 (snd (addc c a b)) x y)], snd (addcarry_u64 (snd (addc c a b)) x y)).
Proof.
  induction a as [|u a IH]; intros [|v b] c x y H; try discriminate H.
  - cbn [app addc fst snd]. destruct (addcarry_u64 c x y) as [s d]. reflexivity.
  - cbn [app addc]. destruct (addcarry_u64 c u v) as [s d].
    rewrite IH by (cbn in H; lia). destruct (addc d a b) as [t e]. reflexivity.
Qed.

Lemma mulx_spec n : forall r a b m, src_ok r n (Ptr a) ->
  match b with At p => (p < r \/ r + n <= p)%nat | Cst _ => True | _ => False end ->
  rd (fst (x64_mulx_m n r a b m)) r n = map (fun x => mulx_lo x (ld b m)) (rd m a n) /\
  snd (x64_mulx_m n r a b m) = map (fun x => mulx_hi x (ld b m)) (rd m a n) /\
  (forall q, (q < r \/ r + n <= q)%nat -> fst (x64_mulx_m n r a b m) q = m q).
Proof.
  induction n as [|n IH]; intros r a b m Ha Hb.
  - cbn. auto.
  - cbn [x64_mulx_m rd map]. set (v := mulx_lo (m a) (ld b m)).
    assert (Lb : ld b (upd m r v) = ld b m).
    { destruct b as [p|p|x|l]; cbn [ld] in *; try contradiction; [|reflexivity]. apply upd_ne. lia. }
    destruct (IH (S r) (S a) b (upd m r v)) as (I1 & I2 & I3).
    { cbn [src_ok] in *. lia. }
    { destruct b; try contradiction; [lia|exact I]. }
    rewrite Lb in I1, I2. rewrite rd_upd_out in I1, I2 by (cbn [src_ok] in Ha; lia).
    destruct (x64_mulx_m n (S r) (S a) b (upd m r v)) as [m1 his]. cbn [fst snd] in *.
    split; [|split].
    + rewrite I3 by lia. rewrite upd_eq, I1. reflexivity.
    + rewrite I2. reflexivity.
    + intros q Hq. rewrite I3 by lia. apply upd_ne. lia.
Qed.
Lemma mulx_words n : forall r a b m, words 64 m -> words 64 (fst (x64_mulx_m n r a b m)).
Proof.
  induction n as [|n IH]; intros r a b m Hm; [exact Hm|]. cbn [x64_mulx_m].
  specialize (IH (S r) (S a) b (upd m r (mulx_lo (m a) (ld b m)))).
  destruct (x64_mulx_m n (S r) (S a) b _) as [m1 his]. cbn [fst] in *. apply IH.
  apply words_upd; [exact Hm|apply mulx_lo_word].
Qed.

Definition bhd (r n : nat) (b : src) : Prop :=
  match b with At p => (p < r \/ r + n <= p)%nat | Cst _ => True | _ => False end.

Lemma step1_spec r a b m : src_ok r 4 (Ptr a) -> bhd r 5 b ->
  rd (x64_mul_step1_m r a b m) r 5 = x64_mul_step1 (rd m a 4) (ld b m) /\
  (forall q, (q < r \/ r + 5 <= q)%nat -> x64_mul_step1_m r a b m q = m q).
Proof.
  intros Ha Hb. unfold x64_mul_step1_m.
  destruct (mulx_spec 4 r a b m Ha) as (M1 & M2 & M3); [destruct b; cbn [bhd] in Hb; try exact Hb; lia|].
  destruct (x64_mulx_m 4 r a b m) as [m1 hi]. cbn [fst snd] in *.
  assert (H3 : length (firstn 3 hi) = 3%nat) by (rewrite M2; reflexivity).
  destruct (chain_spec f_add64 3 (S r) (Ptr (S r)) (Imm (firstn 3 hi)) 0 m1 ltac:(cbn [src_ok]; lia) H3) as (C1 & C2 & C3).
  cbn [vals] in C1, C2. rewrite vch_add64 in C1, C2 by reflexivity.
  destruct (chain f_add64 3 (S r) (Ptr (S r)) (Imm (firstn 3 hi)) 0 m1) as [m2 c]. cbn [fst snd] in *.
  split.
  - unfold x64_mul_step1. cbv zeta. rewrite <- M1, <- M2. change (rd m1 r 4) with (m1 r :: rd m1 (S r) 3).
    assert (Hh : hi = firstn 3 hi ++ [nz hi 3]) by (rewrite M2; reflexivity).
    cbv iota beta. rewrite Hh at 2. rewrite addc_snoc by (rewrite H3; reflexivity). cbn [fst].
    rewrite <- C1, <- C2. change 5%nat with (1 + (3 + 1))%nat. rewrite rd_app, rd_app.
    cbn [rd app]. rewrite upd_ne by lia. rewrite C3 by lia. f_equal.
    replace (r + 1)%nat with (S r) by lia.
    rewrite !upd_ne by lia. replace (S r + 3)%nat with (r + 4)%nat by lia. rewrite upd_eq. reflexivity.
  - intros q Hq. rewrite upd_ne by lia. rewrite C3 by lia. apply M3. lia.
Qed.
Lemma step1_words r a b m : words 64 m -> words 64 (x64_mul_step1_m r a b m).
Proof.
  intros Hm. unfold x64_mul_step1_m. pose proof (mulx_words 4 r a b m Hm) as H.
  destruct (x64_mulx_m 4 r a b m) as [m1 hi]. cbn [fst] in H.
  pose proof (chain_words 64 f_add64 3 ltac:(lia) fw_add64 (S r) (Ptr (S r)) (Imm (firstn 3 hi)) 0 m1 H I) as H2.
  destruct (chain f_add64 3 (S r) (Ptr (S r)) (Imm (firstn 3 hi)) 0 m1) as [m2 c]. cbn [fst] in H2.
  apply words_upd; [exact H2|apply addcarry_word].
Qed.

Lemma step_spec r a b m : bhd r 5 b ->
  rd (x64_mul_step_m r a b m) r 5 = x64_mul_step (rd m r 4) (rd m a 4) (ld b m) /\
  (forall q, (q < r \/ r + 5 <= q)%nat -> x64_mul_step_m r a b m q = m q).
Proof.
  intros Hb. unfold x64_mul_step_m. cbv zeta.
  set (lo := map (fun x => mulx_lo x (ld b m)) (rd m a 4)).
  set (hi := map (fun x => mulx_hi x (ld b m)) (rd m a 4)).
  destruct (chain_spec f_add64 4 r (Ptr r) (Imm lo) 0 m ltac:(cbn [src_ok]; lia) eq_refl) as (C1 & C2 & C3).
  cbn [vals] in C1, C2. rewrite vch_add64 in C1, C2 by reflexivity.
  destruct (chain f_add64 4 r (Ptr r) (Imm lo) 0 m) as [m1 c]. cbn [fst snd] in *.
  set (top := fst (addcarry_u64 c 0 0)). set (m2 := upd m1 (r + 4) top).
  destruct (chain_spec f_add64 4 (S r) (Ptr (S r)) (Imm hi) 0 m2 ltac:(cbn [src_ok]; lia) eq_refl) as (D1 & D2 & D3).
  cbn [vals] in D1, D2. rewrite vch_add64 in D1 by reflexivity.
  assert (E2 : rd m2 (S r) 4 = rd m1 (S r) 3 ++ [top]).
  { change 4%nat with (3 + 1)%nat. rewrite rd_app. f_equal; [apply rd_upd_out; lia|].
    cbn [rd]. subst m2. replace (S r + 3)%nat with (r + 4)%nat by lia. rewrite upd_eq. reflexivity. }
  rewrite E2 in D1. split.
  - unfold x64_mul_step. cbv zeta. fold lo hi. change (rd m1 r 4) with (m1 r :: rd m1 (S r) 3) in C1.
    destruct (addc 0 (rd m r 4) lo) as [s c']. cbn [fst snd] in C1, C2. subst c' s.
    subst top. destruct (addcarry_u64 c 0 0) as [top d]. cbn [fst] in *.
    rewrite <- D1. change 5%nat with (1 + 4)%nat. rewrite rd_app. replace (r + 1)%nat with (S r) by lia.
    cbn [rd app]. f_equal. rewrite D3 by lia. subst m2. apply upd_ne. lia.
  - intros q Hq. rewrite D3 by lia. subst m2. rewrite upd_ne by lia. apply C3. lia.
Qed.
Lemma step_words r a b m : words 64 m -> words 64 (x64_mul_step_m r a b m).
Proof.
  intros Hm. unfold x64_mul_step_m. cbv zeta.
  set (lo := map (fun x => mulx_lo x (ld b m)) (rd m a 4)).
  pose proof (chain_words 64 f_add64 4 ltac:(lia) fw_add64 r (Ptr r) (Imm lo) 0 m Hm I) as H2.
  destruct (chain f_add64 4 r (Ptr r) (Imm lo) 0 m) as [m1 c]. cbn [fst] in H2.
  apply chain_words; [lia|exact fw_add64| |exact I]. apply words_upd; [exact H2|apply addcarry_word].
Qed.

Lemma ld_hd b m : ld (hd_src b) m = ld b m.
Proof. destruct b; reflexivity. Qed.

Lemma x64_mul_m_spec r a b m : (a + 4 <= r \/ r + 8 <= a)%nat -> bsrc r (r + 8) 4 b ->
  rd (x64_mul_m r a b m) r 8 = x64_mul (rd m a 4) (vals b 4 m) /\
  (forall q, (q < r \/ r + 8 <= q)%nat -> x64_mul_m r a b m q = m q).
Proof.
  intros Ha Hb. unfold x64_mul_m. cbv zeta.
  set (b1 := nxt b). set (b2 := nxt b1). set (b3 := nxt b2).
  assert (HB : bhd r 8 (hd_src b) /\ bhd r 8 (hd_src b1) /\ bhd r 8 (hd_src b2) /\ bhd r 8 (hd_src b3)).
  { subst b3 b2 b1. destruct b; cbn [bsrc nxt hd_src bhd] in *; try contradiction; [lia|auto]. }
  destruct HB as (B0 & B1 & B2 & B3).
  assert (Bsub : forall x k, (k <= 3)%nat -> bhd r 8 x -> bhd (r + k) 5 x).
  { intros x k Hk. destruct x; cbn [bhd]; auto. lia. }
  assert (Hv : vals b 4 m = [ld b m; ld b1 m; ld b2 m; ld b3 m]).
  { subst b3 b2 b1. destruct b as [p|p|v|l]; cbn [bsrc] in Hb; try contradiction; [reflexivity|].
    destruct l as [|x0 [|x1 [|x2 [|x3 [|? ?]]]]]; try discriminate Hb. reflexivity. }
  assert (Lb : forall x m', bhd r 8 x -> (forall q, (q < r \/ r + 8 <= q)%nat -> m' q = m q) -> ld x m' = ld x m).
  { intros x m' Hx H. destruct x; cbn [bhd ld] in *; try contradiction; [|reflexivity]. apply H. lia. }
  assert (La : forall m', (forall q, (q < r \/ r + 8 <= q)%nat -> m' q = m q) -> rd m' a 4 = rd m a 4).
  { intros m' H. apply rd_ext. intros q Hq. apply H. lia. }
  destruct (step1_spec r a (hd_src b) m) as (S1 & F1).
  { cbn [src_ok]. lia. } { rewrite <- (Nat.add_0_r r). apply Bsub; [lia|exact B0]. }
  set (m1 := x64_mul_step1_m r a (hd_src b) m) in *.
  assert (G1 : forall q, (q < r \/ r + 8 <= q)%nat -> m1 q = m q) by (intros q Hq; apply F1; lia).
  destruct (step_spec (r + 1) a (hd_src b1) m1) as (S2 & F2); [apply Bsub; [lia|exact B1]|].
  set (m2 := x64_mul_step_m (r + 1) a (hd_src b1) m1) in *.
  assert (G2 : forall q, (q < r \/ r + 8 <= q)%nat -> m2 q = m q) by (intros q Hq; rewrite F2 by lia; apply G1; lia).
  destruct (step_spec (r + 2) a (hd_src b2) m2) as (S3 & F3); [apply Bsub; [lia|exact B2]|].
  set (m3 := x64_mul_step_m (r + 2) a (hd_src b2) m2) in *.
  assert (G3 : forall q, (q < r \/ r + 8 <= q)%nat -> m3 q = m q) by (intros q Hq; rewrite F3 by lia; apply G2; lia).
  destruct (step_spec (r + 3) a (hd_src b3) m3) as (S4 & F4); [apply Bsub; [lia|exact B3]|].
  set (m4 := x64_mul_step_m (r + 3) a (hd_src b3) m3) in *.
  rewrite (Lb _ m1 B1 G1), (La m1 G1), ld_hd in S2.
  rewrite (Lb _ m2 B2 G2), (La m2 G2), ld_hd in S3.
  rewrite (Lb _ m3 B3 G3), (La m3 G3), ld_hd in S4. rewrite ld_hd in S1.
  clearbody m1 m2 m3 m4. split.
  - unfold x64_mul. rewrite Hv. change (nz [ld b m; ld b1 m; ld b2 m; ld b3 m] 0) with (ld b m).
    change (nz [ld b m; ld b1 m; ld b2 m; ld b3 m] 1) with (ld b1 m).
    change (nz [ld b m; ld b1 m; ld b2 m; ld b3 m] 2) with (ld b2 m).
    change (nz [ld b m; ld b1 m; ld b2 m; ld b3 m] 3) with (ld b3 m).
    rewrite <- S1. change (rd m1 r 5) with (m1 r :: rd m1 (S r) 4). cbv iota beta.
    replace (S r) with (r + 1)%nat by lia.
    rewrite <- S2. change (rd m2 (r + 1) 5) with (m2 (r + 1)%nat :: rd m2 (S (r + 1)) 4). cbv iota beta.
    replace (S (r + 1)) with (r + 2)%nat by lia.
    rewrite <- S3. change (rd m3 (r + 2) 5) with (m3 (r + 2)%nat :: rd m3 (S (r + 2)) 4). cbv iota beta.
    replace (S (r + 2)) with (r + 3)%nat by lia.
    rewrite <- S4. change 8%nat with (3 + 5)%nat. rewrite rd_app. cbn [rd app].
    replace (S r) with (r + 1)%nat by lia. replace (S (r + 1)) with (r + 2)%nat by lia.
    rewrite (F4 r), (F3 r), (F2 r) by lia. rewrite (F4 (r + 1)%nat), (F3 (r + 1)%nat) by lia.
    rewrite (F4 (r + 2)%nat) by lia. reflexivity.
  - intros q Hq. rewrite F4 by lia. apply G3. exact Hq.
Qed.
Lemma x64_mul_words r a b m : words 64 m -> words 64 (x64_mul_m r a b m).
Proof. intros H. unfold x64_mul_m. cbv zeta. apply step_words, step_words, step_words, step1_words. exact H. Qed.

Lemma addc_length c a b : length a = length b -> length (fst (addc c a b)) = length a.
Proof.
  intros H. rewrite <- (vch_add64 a a) by reflexivity. apply vch_length; [reflexivity|lia].
Qed.
Lemma subb_length c a b : length a = length b -> length (fst (subb c a b)) = length a.
Proof.
  intros H. rewrite <- (vch_sub64 a a) by reflexivity. apply vch_length; [reflexivity|lia].
Qed.

Section C64.
  Variable ctx : mont_ctx.
  Variable P : Z.
  Hypothesis OK : mont_ctx_ok 64 4 P ctx.
  Let HPl : limbs 64 4 (m_P ctx) := co_P 64 4 P ctx OK.
  Let HP : length (m_P ctx) = 4%nat := proj1 HPl.

  Lemma m64_addg a b r m : src_ok r 4 (Ptr a) -> src_ok r 4 (Ptr b) -> words 64 m ->
    let m' := mod_op_m x64_cmp f_add64 f_sub64 4 r (Ptr a) (Ptr b) (Imm (m_P ctx)) m in
    rd m' r 4 = x64_mont_add ctx (rd m a 4) (rd m b 4) /\
    (forall q, (q < r \/ r + 4 <= q)%nat -> m' q = m q) /\ words 64 m'.
  Proof.
    intros Ha Hb Hm. cbv zeta.
    destruct (mod_op_spec x64_cmp f_add64 f_sub64 4 r (Ptr a) (Ptr b) (Imm (m_P ctx)) m
                (addc 0 (rd m a 4) (rd m b 4)) (subb 0 (fst (addc 0 (rd m a 4) (rd m b 4))) (m_P ctx)))
      as (S1 & S2); [exact Ha|exact Hb|exact HP| | |].
    - intros o Ho. apply vch_add64. rewrite Ho. reflexivity.
    - intros o Ho. apply vch_sub64. rewrite addc_length by reflexivity. rewrite Ho. reflexivity.
    - split; [|split].
      + rewrite S1. unfold x64_mont_add. destruct (addc 0 (rd m a 4) (rd m b 4)) as [s c]. reflexivity.
      + exact S2.
      + apply mod_op_words; [lia|exact fw_add64|exact fw_sub64|exact Hm|exact I].
  Qed.
  Lemma m64_add_ok : call_ok 64 4 get64 2 (m64_add ctx) (v2 (x64_mont_add ctx)).
  Proof.
    intros sp r l m Hl Hr Ha Hm. destruct (args2 _ l Hl Ha) as (a & b & -> & (Ha1 & Ha2) & (Hb1 & Hb2)).
    unfold m64_add, v2, get64. cbn [arg nth map].
    destruct (m64_addg a b r m (soa_src _ _ _ Ha2) (soa_src _ _ _ Hb2) Hm) as (S1 & S2 & S3). auto.
  Qed.
  Lemma m64_dbl_ok : call_ok 64 4 get64 1 (m64_dbl ctx) (v1 (x64_mont_dbl ctx)).
  Proof.
    intros sp r l m Hl Hr Ha Hm. destruct (args1 _ l Hl Ha) as (a & -> & (Ha1 & Ha2)).
    unfold m64_dbl, v1, get64. cbn [arg nth map].
    destruct (m64_addg a a r m (soa_src _ _ _ Ha2) (soa_src _ _ _ Ha2) Hm) as (S1 & S2 & S3). auto.
  Qed.
  Lemma m64_sub_ok : call_ok 64 4 get64 2 (m64_sub ctx) (v2 (x64_mont_sub ctx)).
  Proof.
    intros sp r l m Hl Hr Ha Hm. destruct (args2 _ l Hl Ha) as (a & b & -> & (Ha1 & Ha2) & (Hb1 & Hb2)).
    unfold m64_sub, v2, get64. cbn [arg nth map].
    destruct (mod_op_spec x64_cmp f_sub64 f_add64 4 r (Ptr a) (Ptr b) (Imm (m_P ctx)) m
                (subb 0 (rd m a 4) (rd m b 4)) (addc 0 (fst (subb 0 (rd m a 4) (rd m b 4))) (m_P ctx)))
      as (S1 & S2); [exact (soa_src _ _ _ Ha2)|exact (soa_src _ _ _ Hb2)|exact HP| | |].
    - intros o Ho. apply vch_sub64. rewrite Ho. reflexivity.
    - intros o Ho. apply vch_add64. rewrite subb_length by reflexivity. rewrite Ho. reflexivity.
    - split; [|split].
      + rewrite S1. unfold x64_mont_sub. destruct (subb 0 (rd m a 4) (rd m b 4)) as [s c]. reflexivity.
      + intros q _ Hq. apply S2. exact Hq.
      + apply mod_op_words; [lia|exact fw_sub64|exact fw_add64|exact Hm|exact I].
  Qed.
  Lemma m64_tpl_ok : call_ok 64 4 get64 1 (m64_tpl ctx) (v1 (x64_mont_tpl ctx)).
  Proof.
    intros sp r l m Hl Hr Ha Hm. destruct (args1 _ l Hl Ha) as (a & -> & (Ha1 & Ha2)).
    unfold m64_tpl, v1, get64, x64_mont_tpl. cbn [arg nth map].
    destruct (m64_dbl_ok (sp + 4)%nat sp [a] m eq_refl) as (D1 & D2 & D3);
      [lia|constructor; [split; [lia|right; lia]|constructor]|exact Hm|].
    set (m1 := m64_dbl ctx (sp + 4)%nat sp [a] m) in *.
    destruct (m64_add_ok (sp + 4)%nat r [sp; a] m1 eq_refl) as (A1 & A2 & A3);
      [lia|constructor; [split; [lia|right; lia]|constructor; [split; [lia|exact Ha2]|constructor]]|exact D3|].
    assert (E : rd m1 a 4 = rd m a 4) by (apply rd_ext; intros q Hq; apply D2; lia).
    unfold v2, v1, get64 in A1, D1. cbn [map nth] in A1, D1. rewrite E, D1 in A1.
    split; [exact A1|]. split; [|exact A3].
    intros q Hq1 Hq2. rewrite A2 by lia. apply D2; lia.
  Qed.
  Lemma m64_neg_ok : call_ok 64 4 get64 1 (m64_neg ctx) (v1 (x64_mont_neg ctx)).
  Proof.
    intros sp r l m Hl Hr Ha Hm. destruct (args1 _ l Hl Ha) as (a & -> & (Ha1 & Ha2)).
    unfold m64_neg, v1, get64, x64_mont_neg, x64_sub_borrow. cbn [arg nth map].
    destruct (x64_equal_zero (rd m a 4)).
    - split; [exact (wr_in x64_set_zero m r)|]. split; [intros q _ Hq; apply wr_out; exact Hq|].
      apply wr_words; [exact Hm|exact (proj2 (limbs_zeros 64 4 ltac:(lia)))].
    - destruct (chain_spec f_sub64 4 r (Imm (m_P ctx)) (Ptr a) 0 m HP (soa_src _ _ _ Ha2)) as (C1 & C2 & C3).
      cbn [vals] in C1. rewrite vch_sub64 in C1 by (rewrite rd_length, HP; reflexivity).
      split; [|split].
      + rewrite C1. destruct (subb 0 (m_P ctx) (rd m a 4)) as [s c]. reflexivity.
      + intros q _ Hq. apply C3. exact Hq.
      + apply chain_words; [lia|exact fw_sub64|exact Hm|exact (proj2 HPl)].
  Qed.

  Lemma m64_redc_spec sp r m : (r + 4 <= sp)%nat -> words 64 m ->
    rd (m64_redc ctx sp r m) r 4 = x64_redc ctx (rd m sp 8) /\
    (forall q, (q < r \/ r + 4 <= q)%nat -> m64_redc ctx sp r m q = m q) /\
    words 64 (m64_redc ctx sp r m).
  Proof.
    intros Hr Hm. unfold m64_redc, x64_redc.
    assert (HT : limbs 64 8 (rd m sp 8)) by (split; [apply rd_length|apply rd_words; exact Hm]).
    destruct (x64_redc_loop_spec 4 ctx P OK (rd m sp 8) 0 HT ltac:(lia) ltac:(lia))
      as (M & u & t16 & E & _ & Hu & _).
    rewrite E. set (m1 := wr m r u).
    assert (U1 : rd m1 r 4 = u) by (rewrite <- (proj1 Hu); apply wr_in).
    assert (U2 : forall q, (q < r \/ r + 4 <= q)%nat -> m1 q = m q).
    { intros q Hq. apply wr_out. rewrite (proj1 Hu). exact Hq. }
    assert (U3 : words 64 m1) by (apply wr_words; [exact Hm|exact (proj2 Hu)]).
    rewrite U1.
    destruct (negb (t16 =? 0) || (0 <=? x64_cmp u (m_P ctx))); [|split; [exact U1|split; [exact U2|exact U3]]].
    destruct (chain_spec f_sub64 4 r (Ptr r) (Imm (m_P ctx)) 0 m1 ltac:(cbn [src_ok]; lia) HP) as (C1 & C2 & C3).
    cbn [vals] in C1. rewrite vch_sub64, U1 in C1 by reflexivity.
    split; [exact C1|]. split.
    - intros q Hq. rewrite C3 by exact Hq. apply U2. exact Hq.
    - apply chain_words; [lia|exact fw_sub64|exact U3|exact I].
  Qed.

  Lemma m64_mul_src_spec sp r a b m : (r + 4 <= sp)%nat -> (a + 4 <= sp)%nat ->
    bsrc sp (sp + 8) 4 b -> words 64 m ->
    rd (m64_mul_src ctx sp r a b m) r 4 = x64_mont_mul ctx (rd m a 4) (vals b 4 m) /\
    (forall q, (q < sp)%nat -> (q < r \/ r + 4 <= q)%nat -> m64_mul_src ctx sp r a b m q = m q) /\
    words 64 (m64_mul_src ctx sp r a b m).
  Proof.
    intros Hr Ha Hb Hm. unfold m64_mul_src.
    destruct (x64_mul_m_spec sp a b m ltac:(lia) Hb) as (M1 & M2).
    pose proof (x64_mul_words sp a b m Hm) as W1.
    set (m1 := x64_mul_m sp a b m) in *.
    destruct (m64_redc_spec sp r m1 Hr W1) as (R1 & R2 & R3).
    split; [|split; [|exact R3]].
    - rewrite R1, M1. reflexivity.
    - intros q Hq1 Hq2. rewrite R2 by exact Hq2. apply M2. lia.
  Qed.
  Lemma m64_mul_ok : call_ok 64 4 get64 2 (m64_mul ctx) (v2 (x64_mont_mul ctx)).
  Proof.
    intros sp r l m Hl Hr Ha Hm. destruct (args2 _ l Hl Ha) as (a & b & -> & (Ha1 & Ha2) & (Hb1 & Hb2)).
    unfold m64_mul, v2, get64. cbn [arg nth map].
    apply (m64_mul_src_spec sp r a (Ptr b) m); try assumption. cbn [bsrc]. lia.
  Qed.
  Lemma m64_sqr_ok : call_ok 64 4 get64 1 (m64_sqr ctx) (v1 (x64_mont_sqr ctx)).
  Proof.
    intros sp r l m Hl Hr Ha Hm. destruct (args1 _ l Hl Ha) as (a & -> & (Ha1 & Ha2)).
    unfold m64_sqr, v1, get64. cbn [arg nth map].
    apply (m64_mul_src_spec sp r a (Ptr a) m); try assumption. cbn [bsrc]. lia.
  Qed.
  Lemma m64_from_bytes_ok b : bytes b -> length b = 32%nat ->
    call_ok 64 4 get64 0 (m64_from_bytes ctx b) (fun _ => x64_mont_from_bytes ctx b).
  Proof.
    intros Hb HL sp r l m Hl Hr Ha Hm. unfold m64_from_bytes, get64, x64_mont_from_bytes, x64_to_mont.
    assert (Hv : limbs 64 4 (x64_from_bytes b)).
    { destruct (x64_from_bytes_spec b Hb HL) as [H _]. exact H. }
    set (m1 := wr m r (x64_from_bytes b)).
    assert (U1 : rd m1 r 4 = x64_from_bytes b) by (rewrite <- (proj1 Hv) at 1; apply wr_in).
    assert (U2 : forall q, (q < r \/ r + 4 <= q)%nat -> m1 q = m q).
    { intros q Hq. apply wr_out. rewrite (proj1 Hv). exact Hq. }
    assert (U3 : words 64 m1) by (apply wr_words; [exact Hm|exact (proj2 Hv)]).
    destruct (m64_mul_src_spec sp r r (Imm (m_R_POW2 ctx)) m1 Hr Hr) as (M1 & M2 & M3).
    { exact (proj1 (co_RR 64 4 P ctx OK)). }
    { exact U3. }
    split; [|split; [|exact M3]].
    - rewrite M1, U1. reflexivity.
    - intros q Hq1 Hq2. rewrite M2 by assumption. apply U2. exact Hq2.
  Qed.

  Lemma m64_pow_spec sp r base e m : (base + 4 <= sp)%nat -> (r + 4 <= sp)%nat -> esrc 4 sp e -> words 64 m ->
    match x64_mont_pow ctx (rd m base 4) (vals e 4 m) with
    | Ok v => exists m', m64_pow ctx sp r base e m = Ok m' /\ rd m' r 4 = v /\ words 64 m' /\
        (forall q, (q < sp)%nat -> (q < r \/ r + 4 <= q)%nat -> m' q = m q)
    | UB => m64_pow ctx sp r base e m = UB
    | Throw => m64_pow ctx sp r base e m = Throw
    end.
  Proof.
    intros Hb Hr He Hm.
    exact (pow_m_spec 64 4 ltac:(lia) (m64_mul ctx) (m64_sqr ctx) (x64_mont_mul ctx) (x64_mont_sqr ctx)
             m64_mul_ok m64_sqr_ok sp base m Hb x64_equal_zero x64_to_bytes
             x64_set_zero x64_set_one (limbs_zeros 64 4 ltac:(lia))
             (proj1 (limbs_single 64 3 1 ltac:(lia) ltac:(lia))) r e Hm Hr He).
  Qed.
  Lemma m64_inv_ok : call_ok 64 4 get64 1 (m64_inv ctx) (v1 (x64_mont_inv ctx)).
  Proof.
    intros sp r l m Hl Hr Ha Hm. destruct (args1 _ l Hl Ha) as (a & -> & (Ha1 & Ha2)).
    unfold m64_inv, v1, get64, x64_mont_inv. cbn [arg nth map].
    pose proof (m64_pow_spec sp r a (Imm (m_P_SUB2 ctx)) m Ha1 Hr I Hm) as S. cbn [vals] in S.
    assert (Tot : exists v, x64_mont_pow ctx (rd m a 4) (m_P_SUB2 ctx) = Ok v).
    { unfold x64_mont_pow. destruct (x64_equal_zero (rd m a 4)); [eexists; reflexivity|].
      destruct (x64_equal_zero (m_P_SUB2 ctx)); [eexists; reflexivity|].
      pose proof (co_P2 64 4 P ctx OK) as L2. pose proof (co_P2v 64 4 P ctx OK) as E2.
      pose proof (co_pos 64 4 P ctx OK) as PP.
      pose proof (val_bound 64 4 (m_P_SUB2 ctx) ltac:(lia) L2) as Be. change (pw 64 4) with (2 ^ 256) in Be.
      rewrite x64_to_bytes_spec by exact L2. apply pow_gen_total; [apply be_bytes_bytes|].
      rewrite be_val_256 by (exact Be || reflexivity). lia. }
    destruct Tot as (v & E). rewrite E in S |- *. destruct S as (m' & -> & S1 & S2 & S3). auto.
  Qed.
End C64.

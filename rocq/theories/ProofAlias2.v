(** Proofs for ModelAlias: Montgomery multiplication, tripling, copies and powers on memory,
    portable build; the power is shared with the x64 build. *)
From Coq Require Import Lia.
From Verif Require Import Base BaseFacts ModelEndian ModelNumber ModelNumberX64 ModelMont SpecNumber SpecMont
  ProofNumber ProofMont ProofMont2 ModelAlias SpecAlias ProofAlias.

Lemma while2_sim {S S'} (R : S -> S' -> Prop) cond cond' body body' :
  (forall s s', R s s' -> cond s = cond' s') ->
  (forall s s', R s s' -> R (body s) (body' s')) ->
  forall k s s', R s s' ->
    match while2 k cond body s, while2 k cond' body' s' with
    | inl t, inl t' => R t t'
    | inr t, inr t' => R t t'
    | _, _ => False
    end.
Proof.
  intros Hc Hb. induction k as [|k IH]; intros s s' H; cbn [while2].
  - rewrite <- (Hc s s' H). destruct (cond s); [apply Hb|]; exact H.
  - pose proof (IH s s' H) as I. destruct (while2 k cond body s) as [t|t], (while2 k cond' body' s') as [t'|t'];
      try contradiction; [|exact I]. apply IH. exact I.
Qed.

Lemma mul_rows_v r a bs : mul_rows r a bs = vrows (fun o x b => addmul_row o x b 0) r a bs.
Proof.
  revert r. induction bs as [|b bs IH]; intros r; cbn [mul_rows vrows]; [reflexivity|].
  destruct (addmul_row r a b 0) as [[|h t] c]; [reflexivity|]. rewrite IH. reflexivity.
Qed.
Lemma mul_limbs_v a b : mul_limbs a b = vmul (fun x y => mul_row x y 0) (fun o x y => addmul_row o x y 0) a b.
Proof.
  destruct b as [|b bs]; [reflexivity|]. cbn [mul_limbs vmul].
  destruct (mul_row a b 0) as [[|h t] c]; [reflexivity|]. rewrite mul_rows_v. reflexivity.
Qed.
Lemma snd_mul32 o x y c : 0 <= snd (f_mul32 o x y c) < 2 ^ 32.
Proof. apply Z.mod_pos_bound. lia. Qed.
Lemma snd_addmul32 o x y c : 0 <= snd (f_addmul32 o x y c) < 2 ^ 32.
Proof. apply Z.mod_pos_bound. lia. Qed.

Lemma mul32_spec n r a b m : (0 < n)%nat -> (a + n <= r \/ r + n + n <= a)%nat ->
  bsrc r (r + n + n) n b ->
  rd (mul_m f_mul32 f_addmul32 n r a b m) r (n + n) = mul_limbs (rd m a n) (vals b n m) /\
  (forall q, (q < r \/ r + n + n <= q)%nat -> mul_m f_mul32 f_addmul32 n r a b m q = m q).
Proof.
  intros Hn Ha Hb. rewrite mul_limbs_v. apply mul_spec; try assumption.
  - intros o x y Ho. apply vch_mul32. exact Ho.
  - intros o x y Ho. apply vch_addmul32. exact Ho.
Qed.

(** ** Copies and constants, any number of limbs *)
Lemma cpy_ok w n : 0 <= w -> call_ok w n (fun m a => rd m a n) 1 (cpy_m n) (v1 (fun x => x)).
Proof.
  intros Hw sp r l m Hl Hr Ha Hm. destruct (args1 _ l Hl Ha) as (a & -> & (Ha1 & Ha2)).
  unfold cpy_m, v1. cbn [arg nth map].
  destruct (chain_spec f_cpy n r (Ptr a) (Cst 0) 0 m (soa_src _ _ _ Ha2) I) as (C1 & C2 & C3).
  split; [|split].
  - rewrite C1. cbn [vals]. rewrite vch_cpy; rewrite ?rd_length, ?repeat_length; reflexivity.
  - intros q _ Hq. apply C3. exact Hq.
  - apply chain_words; [exact Hw|apply fw_cpy|exact Hm|exact I].
Qed.
Lemma set_ok w n v : limbs w n v -> call_ok w n (fun m a => rd m a n) 0 (set_m v) (fun _ => v).
Proof.
  intros [Hv1 Hv2] sp r l m Hl Hr Ha Hm. unfold set_m. split; [|split].
  - rewrite <- Hv1. apply wr_in.
  - intros q _ Hq. apply wr_out. lia.
  - apply wr_words; assumption.
Qed.

Section C32.
  Variable ctx : mont_ctx.
  Variable P : Z.
  Hypothesis OK : mont_ctx_ok 32 8 P ctx.
  Let HPl : limbs 32 8 (m_P ctx) := co_P 32 8 P ctx OK.
  Let HP : length (m_P ctx) = 8%nat := proj1 HPl.

  Lemma m32_tpl_ok : call_ok 32 8 get32 1 (m32_tpl ctx) (v1 (mont256_tpl ctx)).
  Proof.
    intros sp r l m Hl Hr Ha Hm. destruct (args1 _ l Hl Ha) as (a & -> & (Ha1 & Ha2)).
    unfold m32_tpl, v1, get32, mont256_tpl. cbn [arg nth map].
    set (R := fun (s : mem * Z) (t : list Z * Z) =>
                rd (fst s) r 8 = fst t /\ snd s = snd t /\ words 32 (fst s) /\
                (forall q, (q < r \/ r + 8 <= q)%nat -> fst s q = m q)).
    assert (Sub : forall m1, words 32 m1 ->
              rd (fst (chain f_sub32 8 r (Ptr r) (Imm (m_P ctx)) 0 m1)) r 8 = fst (uint256_sub_borrow (rd m1 r 8) (m_P ctx)) /\
              snd (chain f_sub32 8 r (Ptr r) (Imm (m_P ctx)) 0 m1) = snd (uint256_sub_borrow (rd m1 r 8) (m_P ctx)) /\
              words 32 (fst (chain f_sub32 8 r (Ptr r) (Imm (m_P ctx)) 0 m1)) /\
              (forall q, (q < r \/ r + 8 <= q)%nat -> fst (chain f_sub32 8 r (Ptr r) (Imm (m_P ctx)) 0 m1) q = m1 q)).
    { intros m1 Hm1.
      destruct (chain_spec f_sub32 8 r (Ptr r) (Imm (m_P ctx)) 0 m1 ltac:(cbn [src_ok]; lia) HP) as (C1 & C2 & C3).
      cbn [vals] in C1, C2. rewrite vch_sub32 in C1, C2 by reflexivity.
      split; [exact C1|]. split; [exact C2|]. split; [|exact C3].
      apply chain_words; [lia|exact fw_sub32|exact Hm1|exact I]. }
    assert (R0 : R (chain f_tpl32 8 r (Ptr a) (Cst 0) 0 m) (uint256_tpl_carry (rd m a 8))).
    { destruct (chain_spec f_tpl32 8 r (Ptr a) (Cst 0) 0 m (soa_src _ _ _ Ha2) I) as (C1 & C2 & C3).
      cbn [vals] in C1, C2. rewrite vch_tpl32 in C1, C2 by reflexivity.
      split; [exact C1|]. split; [exact C2|]. split; [|exact C3].
      apply chain_words; [lia|exact fw_tpl32|exact Hm|exact I]. }
    pose proof (while2_sim R (fun s : mem * Z => negb (snd s =? 0)) (fun s : list Z * Z => negb (snd s =? 0))
      (fun s => let (m1, b) := chain f_sub32 8 r (Ptr r) (Imm (m_P ctx)) 0 (fst s) in (m1, snd s + b))
      (fun s => let (r, b) := uint256_sub_borrow (fst s) (m_P ctx) in (r, snd s + b))) as Sim.
    specialize (Sim ltac:(intros s s' (_ & H & _); rewrite H; reflexivity)).
    assert (Hstep : forall s s', R s s' ->
      R (let (m1, b) := chain f_sub32 8 r (Ptr r) (Imm (m_P ctx)) 0 (fst s) in (m1, snd s + b))
        (let (r, b) := uint256_sub_borrow (fst s') (m_P ctx) in (r, snd s' + b))).
    { intros [m1 c1] [u c2] (H1 & H2 & H3 & H4). cbn [fst snd] in *. subst u c2.
      destruct (Sub m1 H3) as (U1 & U2 & U3 & U4).
      destruct (chain f_sub32 8 r (Ptr r) (Imm (m_P ctx)) 0 m1) as [m2 b].
      destruct (uint256_sub_borrow (rd m1 r 8) (m_P ctx)) as [u b2]. cbn [fst snd] in *. subst b2.
      repeat split; cbn [fst snd]; try assumption; try apply U3.
      intros q Hq. rewrite U4 by exact Hq. apply H4. exact Hq. }
    specialize (Sim Hstep 259%nat _ _ R0).
    (* the value loop ends *)
    pose proof (while2_spec (fun s : list Z * Z => limbs 32 8 (fst s) /\ 0 <= snd s)
                  (fun s => val 32 (fst s) + 2 ^ 256 * snd s)
                  (fun s : list Z * Z => negb (snd s =? 0))
                  (fun s => let (r, b) := uint256_sub_borrow (fst s) (m_P ctx) in (r, snd s + b))
                  259 (uint256_tpl_carry (rd m a 8))) as W.
    assert (H1 : forall s : list Z * Z, limbs 32 8 (fst s) /\ 0 <= snd s -> negb (snd s =? 0) = true ->
       (limbs 32 8 (fst (let (r, b) := uint256_sub_borrow (fst s) (m_P ctx) in (r, snd s + b))) /\
        0 <= snd (let (r, b) := uint256_sub_borrow (fst s) (m_P ctx) in (r, snd s + b))) /\
       0 <= val 32 (fst (let (r, b) := uint256_sub_borrow (fst s) (m_P ctx) in (r, snd s + b))) +
            2 ^ 256 * snd (let (r, b) := uint256_sub_borrow (fst s) (m_P ctx) in (r, snd s + b))
         < val 32 (fst s) + 2 ^ 256 * snd s).
    { intros [u c] (I1 & I2) Hc. cbn [fst snd] in *.
      pose proof (sub_limbs_spec 8 u (m_P ctx) 0 I1 HPl ltac:(lia)) as Q. unfold uint256_sub_borrow.
      destruct (sub_limbs u (m_P ctx) 0) as [t b]. destruct Q as (T1 & T2 & T3). rewrite C256 in T3.
      pose proof (val_bound 32 8 t ltac:(lia) T1) as Bt. rewrite C256 in Bt.
      pose proof (val_bound 32 8 u ltac:(lia) I1) as Bu. rewrite C256 in Bu.
      pose proof (co_Pv 32 8 P ctx OK) as EP. pose proof (co_pos 32 8 P ctx OK) as PP.
      cbn [fst snd].
      assert (EE : val 32 t + 2 ^ 256 * (c + b) = val 32 u + 2 ^ 256 * c - P) by lia.
      split; [split; [exact T1|lia]|lia]. }
    specialize (W H1). clear H1.
    assert (HA : limbs 32 8 (rd m a 8)) by (split; [apply rd_length|apply rd_words; exact Hm]).
    pose proof (tpl_limbs_spec 8 (rd m a 8) 0 HA ltac:(lia)) as TS.
    unfold uint256_tpl_carry in *.
    destruct (tpl_limbs (rd m a 8) 0) as [s0 c0]. destruct TS as (S1 & S2 & S3).
    pose proof (val_bound 32 8 s0 ltac:(lia) S1) as Bs. rewrite C256 in Bs.
    cbn [fst snd] in W. specialize (W (conj S1 (proj1 S2)) ltac:(lia)).
    destruct (while2 259 _ _ (s0, c0)) as [s|[u c]].
    { exfalso. destruct W as (_ & W2 & W3). change (Z.of_nat 259) with 259 in W3. lia. }
    destruct (while2 259 _ _ (chain f_tpl32 8 r (Ptr a) (Cst 0) 0 m)) as [[m1 c1]|[m1 c1]]; [contradiction|].
    destruct Sim as (E1 & E2 & E3 & E4). cbn [fst snd] in *. subst u.
    destruct (Sub m1 E3) as (U1 & U2 & U3 & U4).
    destruct (0 <=? uint256_cmp (rd m1 r 8) (m_P ctx)).
    - split; [exact U1|]. split; [|exact U3]. intros q _ Hq. rewrite U4 by exact Hq. apply E4. exact Hq.
    - split; [reflexivity|]. split; [|exact E3]. intros q _ Hq. apply E4. exact Hq.
  Qed.

  Lemma m32_redc_spec sp r m : (r + 8 <= sp)%nat -> words 32 m ->
    rd (m32_redc ctx sp r m) r 8 = mont256_redc ctx (rd m sp 16) /\
    (forall q, (q < r \/ r + 8 <= q)%nat -> m32_redc ctx sp r m q = m q) /\
    words 32 (m32_redc ctx sp r m).
  Proof.
    intros Hr Hm. unfold m32_redc, mont256_redc.
    assert (HT : limbs 32 16 (rd m sp 16)) by (split; [apply rd_length|apply rd_words; exact Hm]).
    destruct (redc_loop_spec 8 ctx P OK (rd m sp 16) 0 HT ltac:(lia) ltac:(lia))
      as (_ & u & t16 & E & _ & Hu & _ & _).
    rewrite E. set (m1 := wr m r u).
    assert (U1 : rd m1 r 8 = u) by (rewrite <- (proj1 Hu); apply wr_in).
    assert (U2 : forall q, (q < r \/ r + 8 <= q)%nat -> m1 q = m q).
    { intros q Hq. apply wr_out. rewrite (proj1 Hu). exact Hq. }
    assert (U3 : words 32 m1) by (apply wr_words; [exact Hm|exact (proj2 Hu)]).
    rewrite U1.
    destruct (negb (t16 =? 0) || (0 <=? uint256_cmp u (m_P ctx))); [|split; [exact U1|split; [exact U2|exact U3]]].
    destruct (chain_spec f_sub32 8 r (Ptr r) (Imm (m_P ctx)) 0 m1 ltac:(cbn [src_ok]; lia) HP) as (C1 & C2 & C3).
    cbn [vals] in C1. rewrite vch_sub32, U1 in C1 by reflexivity.
    split; [exact C1|]. split.
    - intros q Hq. rewrite C3 by exact Hq. apply U2. exact Hq.
    - apply chain_words; [lia|exact fw_sub32|exact U3|exact I].
  Qed.

  Lemma m32_mul_src_spec sp r a b m : (r + 8 <= sp)%nat -> (a + 8 <= sp)%nat ->
    bsrc sp (sp + 16) 8 b -> words 32 m ->
    rd (m32_mul_src ctx sp r a b m) r 8 = mont256_mul ctx (rd m a 8) (vals b 8 m) /\
    (forall q, (q < sp)%nat -> (q < r \/ r + 8 <= q)%nat -> m32_mul_src ctx sp r a b m q = m q) /\
    words 32 (m32_mul_src ctx sp r a b m).
  Proof.
    intros Hr Ha Hb Hm. unfold m32_mul_src.
    destruct (mul32_spec 8 sp a b m ltac:(lia) ltac:(lia)) as (M1 & M2).
    { replace (sp + 8 + 8)%nat with (sp + 16)%nat by lia. exact Hb. }
    set (m1 := mul_m f_mul32 f_addmul32 8 sp a b m) in *.
    assert (W1 : words 32 m1).
    { apply mul_words; [lia|exact fw_mul32|exact fw_addmul32|exact snd_mul32|exact snd_addmul32|exact Hm]. }
    destruct (m32_redc_spec sp r m1 Hr W1) as (R1 & R2 & R3).
    split; [|split; [|exact R3]].
    - rewrite R1. change (8 + 8)%nat with 16%nat in M1. rewrite M1. reflexivity.
    - intros q Hq1 Hq2. rewrite R2 by exact Hq2. apply M2. lia.
  Qed.
  Lemma m32_mul_ok : call_ok 32 8 get32 2 (m32_mul ctx) (v2 (mont256_mul ctx)).
  Proof.
    intros sp r l m Hl Hr Ha Hm. destruct (args2 _ l Hl Ha) as (a & b & -> & (Ha1 & Ha2) & (Hb1 & Hb2)).
    unfold m32_mul, v2, get32. cbn [arg nth map].
    apply (m32_mul_src_spec sp r a (Ptr b) m); try assumption. cbn [bsrc]. lia.
  Qed.
  Lemma m32_sqr_ok : call_ok 32 8 get32 1 (m32_sqr ctx) (v1 (mont256_sqr ctx)).
  Proof.
    intros sp r l m Hl Hr Ha Hm. destruct (args1 _ l Hl Ha) as (a & -> & (Ha1 & Ha2)).
    unfold m32_sqr, v1, get32. cbn [arg nth map].
    apply (m32_mul_src_spec sp r a (Ptr a) m); try assumption. cbn [bsrc]. lia.
  Qed.
  Lemma m32_from_bytes_ok b : bytes b -> length b = 32%nat ->
    call_ok 32 8 get32 0 (m32_from_bytes ctx b) (fun _ => mont256_from_bytes ctx b).
  Proof.
    intros Hb HL sp r l m Hl Hr Ha Hm. unfold m32_from_bytes, get32, mont256_from_bytes, uint256_to_mont.
    assert (Hv : limbs 32 8 (uint256_from_bytes b)).
    { destruct (from_bytes_spec b Hb HL) as [H _]. exact H. }
    set (m1 := wr m r (uint256_from_bytes b)).
    assert (U1 : rd m1 r 8 = uint256_from_bytes b) by (rewrite <- (proj1 Hv) at 1; apply wr_in).
    assert (U2 : forall q, (q < r \/ r + 8 <= q)%nat -> m1 q = m q).
    { intros q Hq. apply wr_out. rewrite (proj1 Hv). exact Hq. }
    assert (U3 : words 32 m1) by (apply wr_words; [exact Hm|exact (proj2 Hv)]).
    destruct (m32_mul_src_spec sp r r (Imm (m_R_POW2 ctx)) m1 Hr Hr) as (M1 & M2 & M3).
    { exact (proj1 (co_RR 32 8 P ctx OK)). }
    { exact U3. }
    split; [|split; [|exact M3]].
    - rewrite M1, U1. reflexivity.
    - intros q Hq1 Hq2. rewrite M2 by assumption. apply U2. exact Hq2.
  Qed.
End C32.

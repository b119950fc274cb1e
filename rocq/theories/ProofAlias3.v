(** Proofs for ModelAlias: powers and inverses on memory (both builds). *)
From Coq Require Import Lia.
From Verif Require Import Base BaseFacts ModelEndian ModelNumber ModelNumberX64 ModelMont SpecNumber SpecMont
  ProofNumber ProofMont ProofMont2 ModelAlias SpecAlias ProofAlias ProofAlias2.

Section Pow.
  Variable w : Z.
  Variable n : nat.
  Hypothesis Hw : 0 <= w.
  Variables pmul psqr : proc.
  Variable vmulf : list Z -> list Z -> list Z.
  Variable vsqrf : list Z -> list Z.
  Let get := fun (m : mem) a => rd m a n.
  Hypothesis Hmul : call_ok w n get 2 pmul (v2 vmulf).
  Hypothesis Hsqr : call_ok w n get 1 psqr (v1 vsqrf).
  Variables sp base : nat.
  Variable m0 : mem.
  Hypothesis Hbase : (base + n <= sp)%nat.
  Notation bv := (rd m0 base n).
  Notation LUT := (pow_lut vmulf vsqrf bv).

  Lemma lut_lt i j : (i < j)%nat -> (pw_lut n sp i + n <= pw_lut n sp j)%nat.
  Proof. unfold pw_lut. intros H. assert (n * (i + 1) <= n * j)%nat by (apply Nat.mul_le_mono_l; lia). lia. Qed.
  Lemma lut_sp j : (j < 14)%nat -> (pw_lut n sp j + n <= pw_sp n sp)%nat.
  Proof. exact (lut_lt j 14). Qed.
  Lemma sp_lut j : (sp + n <= pw_lut n sp j)%nat.
  Proof. unfold pw_lut. lia. Qed.

  (** memory below the stack pointer is untouched *)
  Definition fr (m : mem) : Prop := words w m /\ forall q, (q < sp)%nat -> m q = m0 q.
  Lemma fr_base m : fr m -> rd m base n = bv.
  Proof. intros [_ H]. apply rd_ext. intros q Hq. apply H. lia. Qed.

  Lemma call2 d x y m : (d + n <= pw_sp n sp)%nat -> (x + n <= pw_sp n sp)%nat -> (y + n <= pw_sp n sp)%nat ->
    same_or_apart n d n x -> same_or_apart n d n y -> words w m ->
    let m' := pmul (pw_sp n sp) d [x; y] m in
    rd m' d n = vmulf (rd m x n) (rd m y n) /\
    (forall q, (q < pw_sp n sp)%nat -> (q < d \/ d + n <= q)%nat -> m' q = m q) /\ words w m'.
  Proof.
    intros Hd Hx Hy Sx Sy Hm. apply (Hmul (pw_sp n sp) d [x; y] m); auto.
  Qed.
  Lemma call1 d x m : (d + n <= pw_sp n sp)%nat -> (x + n <= pw_sp n sp)%nat ->
    same_or_apart n d n x -> words w m ->
    let m' := psqr (pw_sp n sp) d [x] m in
    rd m' d n = vsqrf (rd m x n) /\
    (forall q, (q < pw_sp n sp)%nat -> (q < d \/ d + n <= q)%nat -> m' q = m q) /\ words w m'.
  Proof.
    intros Hd Hx Sx Hm. apply (Hsqr (pw_sp n sp) d [x] m); auto.
  Qed.
  Lemma sp_le : (sp + n <= pw_sp n sp)%nat. Proof. unfold pw_sp. lia. Qed.

  Lemma lut_m_spec k : forall j m, (S j + k <= 14)%nat -> fr m ->
    let m' := lut_m n pmul k sp base j m in
    fr m' /\
    (forall i, (i < k)%nat -> rd m' (pw_lut n sp (S j + i)) n = nth i (lut_from vmulf bv k (rd m (pw_lut n sp j) n)) []) /\
    (forall i, (i <= j)%nat -> rd m' (pw_lut n sp i) n = rd m (pw_lut n sp i) n).
  Proof.
    induction k as [|k IH]; intros j m Hj Hf; cbn [lut_m]; cbv zeta.
    - split; [exact Hf|]. split; [intros i Hi; lia|reflexivity].
    - pose proof (sp_lut (S j)). pose proof (lut_lt j (S j) ltac:(lia)). pose proof (lut_sp (S j) ltac:(lia)).
      pose proof sp_le.
      destruct (call2 (pw_lut n sp (S j)) (pw_lut n sp j) base m) as (C1 & C2 & C3);
        [lia|lia|lia|right; lia|right; lia|exact (proj1 Hf)|].
      set (m1 := pmul (pw_sp n sp) (pw_lut n sp (S j)) [pw_lut n sp j; base] m) in *.
      assert (F1 : fr m1).
      { split; [exact C3|]. intros q Hq. rewrite C2 by lia. apply Hf. exact Hq. }
      destruct (IH (S j) m1 ltac:(lia) F1) as (I1 & I2 & I3).
      rewrite (fr_base m Hf) in C1.
      split; [exact I1|]. split.
      + intros [|i] Hi.
        * rewrite Nat.add_0_r. cbn [lut_from nth]. rewrite I3 by lia. exact C1.
        * replace (S j + S i)%nat with (S (S j) + i)%nat by lia. rewrite I2 by lia.
          cbn [lut_from nth]. rewrite C1. reflexivity.
      + intros i Hi. rewrite I3 by lia. apply rd_ext. intros q Hq. apply C2.
        * pose proof (lut_lt i (S j) ltac:(lia)). lia.
        * pose proof (lut_lt i (S j) ltac:(lia)). lia.
  Qed.

  (** the table is in place *)
  Definition tab (m : mem) : Prop :=
    fr m /\ forall j, (j < 14)%nat -> rd m (pw_lut n sp j) n = nth j LUT [].

  Lemma table m : fr m ->
    tab (lut_m n pmul 13 sp base 0 (psqr (pw_sp n sp) (pw_lut n sp 0) [base] m)).
  Proof.
    intros Hf. pose proof (sp_lut 0). pose proof (lut_sp 0 ltac:(lia)). pose proof sp_le.
    destruct (call1 (pw_lut n sp 0) base m) as (C1 & C2 & C3); [lia|lia|right; lia|exact (proj1 Hf)|].
    set (m1 := psqr (pw_sp n sp) (pw_lut n sp 0) [base] m) in *.
    assert (F1 : fr m1).
    { split; [exact C3|]. intros q Hq. rewrite C2 by lia. apply Hf. exact Hq. }
    destruct (lut_m_spec 13 0 m1 ltac:(lia) F1) as (L1 & L2 & L3).
    rewrite (fr_base m Hf) in C1.
    split; [exact L1|]. intros [|j] Hj.
    - rewrite L3 by lia. exact C1.
    - change (pw_lut n sp (S j)) with (pw_lut n sp (1 + j)). rewrite L2 by lia. rewrite C1. reflexivity.
  Qed.

  Lemma tab_step m m' : tab m -> words w m' ->
    (forall q, (q < pw_sp n sp)%nat -> (q < sp \/ sp + n <= q)%nat -> m' q = m q) -> tab m'.
  Proof.
    intros [Hf Ht] Hm H. split.
    - split; [exact Hm|]. intros q Hq. pose proof sp_le. rewrite H by lia. apply Hf. exact Hq.
    - intros j Hj. rewrite <- (Ht j Hj). apply rd_ext. intros q Hq.
      pose proof (sp_lut j). pose proof (lut_sp j Hj). apply H; lia.
  Qed.

  Lemma sqr_t m t : tab m -> rd m sp n = t ->
    tab (psqr (pw_sp n sp) sp [sp] m) /\ rd (psqr (pw_sp n sp) sp [sp] m) sp n = vsqrf t.
  Proof.
    intros Ht Hv. pose proof sp_le.
    destruct (call1 sp sp m) as (C1 & C2 & C3); [lia|lia|left; reflexivity|exact (proj1 (proj1 Ht))|].
    split; [exact (tab_step m _ Ht C3 C2)|]. rewrite C1, Hv. reflexivity.
  Qed.
  Lemma sqr4_t m t : tab m -> rd m sp n = t ->
    tab (sqr4_m n psqr sp m) /\ rd (sqr4_m n psqr sp m) sp n = sqr4 vsqrf t.
  Proof.
    intros Ht Hv. unfold sqr4_m, sqr4.
    destruct (sqr_t m t Ht Hv) as [T1 V1]. destruct (sqr_t _ _ T1 V1) as [T2 V2].
    destruct (sqr_t _ _ T2 V2) as [T3 V3]. exact (sqr_t _ _ T3 V3).
  Qed.

  Lemma pick_t m index : tab m ->
    match pow_pick bv LUT index with
    | Ok v => exists x, pick_m n sp base index = Ok x /\ rd m x n = v /\ (x + n <= pw_sp n sp)%nat /\ same_or_apart n sp n x
    | UB => pick_m n sp base index = UB
    | Throw => pick_m n sp base index = Throw
    end.
  Proof.
    intros Ht. unfold pow_pick, pick_m. pose proof sp_le.
    destruct (index =? 1).
    - exists base. split; [reflexivity|]. split; [apply fr_base; exact (proj1 Ht)|]. split; [lia|right; lia].
    - destruct ((2 <=? index) && (index <=? 15)) eqn:E; [|reflexivity].
      apply andb_prop in E. destruct E as [E1 E2]. apply Z.leb_le in E1. apply Z.leb_le in E2.
      assert (Hj : (Z.to_nat (index - 2) < 14)%nat) by lia.
      exists (pw_lut n sp (Z.to_nat (index - 2))). split; [reflexivity|].
      split; [exact (proj2 Ht _ Hj)|]. split; [apply lut_sp; exact Hj|].
      right. left. apply sp_lut.
  Qed.

  Definition rel (rv : res (list Z)) (rm : res mem) : Prop :=
    match rv with
    | Ok v => exists m, rm = Ok m /\ tab m /\ rd m sp n = v
    | UB => rm = UB
    | Throw => rm = Throw
    end.
  Lemma rel_bind rv rm F G : rel rv rm ->
    (forall v m, tab m -> rd m sp n = v -> rel (F v) (G m)) -> rel (bind rv F) (bind rm G).
  Proof.
    intros H K. destruct rv as [v| |]; cbn [rel] in H; [|rewrite H; reflexivity|rewrite H; reflexivity].
    destruct H as (m & -> & Ht & Hv). exact (K v m Ht Hv).
  Qed.

  Lemma nibble_t index m t : tab m -> rd m sp n = t ->
    rel (pow_nibble vmulf vsqrf bv LUT t index) (nibble_m n pmul psqr sp base index m).
  Proof.
    intros Ht Hv. unfold pow_nibble, nibble_m. cbv zeta.
    destruct (sqr4_t m t Ht Hv) as [T4 V4].
    set (m4 := sqr4_m n psqr sp m) in *. set (t4 := sqr4 vsqrf t) in *.
    destruct (index =? 0); [exists m4; auto|].
    pose proof (pick_t m4 index T4) as Pk. destruct (pow_pick bv LUT index) as [v| |]; cbn [bind rel];
      [|rewrite Pk; reflexivity|rewrite Pk; reflexivity].
    destruct Pk as (x & -> & Hx & X1 & X2). cbn [bind]. pose proof sp_le.
    destruct (call2 sp sp x m4) as (C1 & C2 & C3); [lia|lia|exact X1|left; reflexivity|exact X2|exact (proj1 (proj1 T4))|].
    eexists. split; [reflexivity|]. split; [exact (tab_step m4 _ T4 C3 C2)|]. rewrite C1, V4, Hx. reflexivity.
  Qed.
  Lemma bytes_t e : forall m t, tab m -> rd m sp n = t ->
    rel (pow_bytes vmulf vsqrf bv LUT t e) (bytes_m n pmul psqr sp base e m).
  Proof.
    induction e as [|b e IH]; intros m t Ht Hv; cbn [pow_bytes bytes_m].
    - exists m. auto.
    - apply rel_bind; [apply nibble_t; assumption|]. intros t1 m1 T1 V1.
      apply rel_bind; [apply nibble_t; assumption|]. intros t2 m2 T2 V2. apply IH; assumption.
  Qed.
  Lemma cpy_t m x v : tab m -> rd m x n = v -> (x + n <= pw_sp n sp)%nat -> same_or_apart n sp n x ->
    tab (cpy_m n sp sp [x] m) /\ rd (cpy_m n sp sp [x] m) sp n = v.
  Proof.
    intros Ht Hv X1 X2. pose proof sp_le.
    destruct (cpy_ok w n Hw (pw_sp n sp) sp [x] m) as (C1 & C2 & C3); auto; [exact (proj1 (proj1 Ht))|].
    change (cpy_m n (pw_sp n sp) sp [x] m) with (cpy_m n sp sp [x] m) in *.
    split; [exact (tab_step m _ Ht C3 C2)|]. rewrite C1. exact Hv.
  Qed.
  Lemma start_t e : forall m, tab m ->
    rel (pow_start vmulf vsqrf bv LUT e) (start_m n pmul psqr sp base e m).
  Proof.
    induction e as [|b e IH]; intros m Ht; cbn [pow_start start_m]; [reflexivity|].
    destruct (b =? 0); [apply IH; exact Ht|].
    apply rel_bind; [|intros v m' T' V'; apply bytes_t; assumption].
    destruct (15 <? b).
    - pose proof (pick_t m (Z.land (Z.shiftr b 4) 15) Ht) as Pk.
      destruct (pow_pick bv LUT (Z.land (Z.shiftr b 4) 15)) as [v| |]; cbn [bind rel];
        [|rewrite Pk; reflexivity|rewrite Pk; reflexivity].
      destruct Pk as (x & -> & Hx & X1 & X2). cbn [bind].
      destruct (cpy_t m x v Ht Hx X1 X2) as [T V]. apply nibble_t; assumption.
    - pose proof (pick_t m (Z.land b 15) Ht) as Pk.
      destruct (pow_pick bv LUT (Z.land b 15)) as [v| |]; cbn [bind rel];
        [|rewrite Pk; reflexivity|rewrite Pk; reflexivity].
      destruct Pk as (x & -> & Hx & X1 & X2). cbn [bind].
      destruct (cpy_t m x v Ht Hx X1 X2) as [T V]. eexists. split; [reflexivity|]. auto.
  Qed.

  Variable is0 : list Z -> bool.
  Variable to_bytes : list Z -> list Z.
  Variables zero one : list Z.
  Hypothesis Hzero : limbs w n zero.
  Hypothesis Hone : limbs w n one.
  Definition esrc (e : src) : Prop :=
    match e with Ptr p => (p + n <= sp)%nat | Imm _ => True | _ => False end.

  Lemma pow_m_spec r e : words w m0 -> (r + n <= sp)%nat -> esrc e ->
    match (if is0 bv then Ok zero else if is0 (vals e n m0) then Ok one
           else pow_gen vmulf vsqrf bv (to_bytes (vals e n m0))) with
    | Ok v => exists m', pow_m n pmul psqr is0 to_bytes zero one sp r base e m0 = Ok m' /\
        rd m' r n = v /\ words w m' /\
        (forall q, (q < sp)%nat -> (q < r \/ r + n <= q)%nat -> m' q = m0 q)
    | UB => pow_m n pmul psqr is0 to_bytes zero one sp r base e m0 = UB
    | Throw => pow_m n pmul psqr is0 to_bytes zero one sp r base e m0 = Throw
    end.
  Proof.
    intros Hm Hr He. unfold pow_m.
    assert (Wr : forall v, limbs w n v -> rd (wr m0 r v) r n = v /\ words w (wr m0 r v) /\
              (forall q, (q < sp)%nat -> (q < r \/ r + n <= q)%nat -> wr m0 r v q = m0 q)).
    { intros v [L1 L2]. split; [rewrite <- L1; apply wr_in|]. split; [apply wr_words; assumption|].
      intros q _ Hq. apply wr_out. lia. }
    destruct (is0 bv); [eexists; split; [reflexivity|]; apply Wr; exact Hzero|].
    destruct (is0 (vals e n m0)); [eexists; split; [reflexivity|]; apply Wr; exact Hone|].
    cbv zeta. assert (F0 : fr m0) by (split; [exact Hm|reflexivity]).
    pose proof (table m0 F0) as T0.
    set (m1 := lut_m n pmul 13 sp base 0 (psqr (pw_sp n sp) (pw_lut n sp 0) [base] m0)) in *.
    assert (Ve : vals e n m1 = vals e n m0).
    { destruct e as [p|p|v|l]; cbn [esrc vals] in *; try contradiction; [|reflexivity].
      apply rd_ext. intros q Hq. apply (proj1 T0). lia. }
    rewrite Ve. unfold pow_gen.
    pose proof (start_t (to_bytes (vals e n m0)) m1 T0) as S.
    destruct (pow_start vmulf vsqrf bv LUT (to_bytes (vals e n m0))) as [v| |]; cbn [rel] in S;
      [|rewrite S; reflexivity|rewrite S; reflexivity].
    destruct S as (m2 & -> & T2 & V2). cbn [bind]. eexists. split; [reflexivity|].
    pose proof sp_le.
    destruct (cpy_ok w n Hw (sp + n)%nat r [sp] m2) as (C1 & C2 & C3);
      [reflexivity|lia|constructor; [split; [lia|right; lia]|constructor]|exact (proj1 (proj1 T2))|].
    change (cpy_m n (sp + n)%nat r [sp] m2) with (cpy_m n sp r [sp] m2) in *.
    split; [rewrite C1; exact V2|]. split; [exact C3|].
    intros q Hq1 Hq2. rewrite C2 by lia. apply T2. exact Hq1.
  Qed.
End Pow.

(** a power with a non-zero exponent never runs out of its tables, whatever the base *)
Lemma pow_gen_total mul sqr base e : bytes e -> be_val e <> 0 -> exists v, pow_gen mul sqr base e = Ok v.
Proof.
  intros He Hz. unfold pow_gen.
  destruct (pow_start_spec (fun _ _ => True) 3 mul sqr base 0 ltac:(lia)
              (fun _ _ _ _ _ _ => I) (fun _ _ _ => I) I e He Hz) as (v & E & _).
  exists v. exact E.
Qed.

Section C32.
  Variable ctx : mont_ctx.
  Variable P : Z.
  Hypothesis OK : mont_ctx_ok 32 8 P ctx.

  Lemma m32_pow_spec sp r base e m : (base + 8 <= sp)%nat -> (r + 8 <= sp)%nat -> esrc 8 sp e -> words 32 m ->
    match mont256_pow ctx (rd m base 8) (vals e 8 m) with
    | Ok v => exists m', m32_pow ctx sp r base e m = Ok m' /\ rd m' r 8 = v /\ words 32 m' /\
        (forall q, (q < sp)%nat -> (q < r \/ r + 8 <= q)%nat -> m' q = m q)
    | UB => m32_pow ctx sp r base e m = UB
    | Throw => m32_pow ctx sp r base e m = Throw
    end.
  Proof.
    intros Hb Hr He Hm.
    exact (pow_m_spec 32 8 ltac:(lia) (m32_mul ctx) (m32_sqr ctx) (mont256_mul ctx) (mont256_sqr ctx)
             (m32_mul_ok ctx P OK) (m32_sqr_ok ctx P OK) sp base m Hb uint256_equal_zero uint256_to_bytes
             uint256_set_zero uint256_set_one (limbs_zeros 32 8 ltac:(lia))
             (proj1 (limbs_single 32 7 1 ltac:(lia) ltac:(lia))) r e Hm Hr He).
  Qed.

  Lemma m32_inv_ok : call_ok 32 8 get32 1 (m32_inv ctx) (v1 (mont256_inv ctx)).
  Proof.
    intros sp r l m Hl Hr Ha Hm. destruct (args1 _ l Hl Ha) as (a & -> & (Ha1 & Ha2)).
    unfold m32_inv, v1, get32, mont256_inv. cbn [arg nth map].
    pose proof (m32_pow_spec sp r a (Imm (m_P_SUB2 ctx)) m Ha1 Hr I Hm) as S. cbn [vals] in S.
    assert (Tot : exists v, mont256_pow ctx (rd m a 8) (m_P_SUB2 ctx) = Ok v).
    { unfold mont256_pow. destruct (uint256_equal_zero (rd m a 8)); [eexists; reflexivity|].
      destruct (uint256_equal_zero (m_P_SUB2 ctx)); [eexists; reflexivity|].
      pose proof (co_P2 32 8 P ctx OK) as L2. pose proof (co_P2v 32 8 P ctx OK) as E2.
      pose proof (co_pos 32 8 P ctx OK) as PP.
      pose proof (val_bound 32 8 (m_P_SUB2 ctx) ltac:(lia) L2) as Be. rewrite C256 in Be.
      rewrite uint256_to_bytes_spec by exact L2. apply pow_gen_total; [apply be_bytes_bytes|].
      rewrite be_val_256 by (exact Be || reflexivity). lia. }
    destruct Tot as (v & E). rewrite E in S |- *. destruct S as (m' & -> & S1 & S2 & S3). auto.
  Qed.
End C32.

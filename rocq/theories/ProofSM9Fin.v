(** The final exponentiation of the SM9 pairing over stored numbers. *)
From Coq Require Import ZArith List Lia Znumtheory Field.
From Verif Require Import Base BaseFacts SpecField ModelEC ProofJac ModelSM9 SpecTower SpecSM9 ProofTower
  ProofTowerRep ProofNumlib9 ProofSM9Rep ProofFrob ProofSM9Frob ProofSM9Pow.
Import ListNotations.
Local Open Scope Z_scope.

(** the exponent of the hard part, as the code evaluates it *)
Definition fe_h (p : Z) : Z :=
  let a3 := be_val FE_A3 in let a2 := be_val FE_A2 in
  p ^ 3 + (((p ^ 2 + ((p + p) + (- a3 + - a3 * p))) * a2)
           + ((- a3 + (- a3 + - a3 * p)) + (8 * (p + 1) + (p + 1)) + 4)).
Lemma fe_h_n : fe_h SM9_p * SM9_n = SM9_p ^ 4 - SM9_p ^ 2 + 1.
Proof. vm_compute. reflexivity. Qed.
Definition fe_exp : Z := (SM9_p ^ 6 - 1) * (SM9_p ^ 2 + 1) * fe_h SM9_p.
Lemma fe_exp_n : fe_exp * SM9_n = SM9_p ^ 12 - 1.
Proof.
  unfold fe_exp. transitivity ((SM9_p ^ 6 - 1) * (SM9_p ^ 2 + 1) * (fe_h SM9_p * SM9_n)); [ring|].
  rewrite fe_h_n. generalize SM9_p. intros p. ring.
Qed.
Lemma SM9_n_pos9 : 0 < SM9_n. Proof. vm_compute. reflexivity. Qed.
Lemma fe_exp_pos : 0 < fe_exp.
Proof.
  pose proof fe_exp_n as E. pose proof SM9_n_pos9 as Hn.
  assert (Hp : 1 < SM9_p ^ 12) by (apply Z.pow_gt_1; [pose proof SM9_p_gt2; lia|lia]).
  destruct (Z_lt_le_dec 0 fe_exp) as [H|H]; [exact H|exfalso].
  pose proof (Z.mul_nonpos_nonneg fe_exp SM9_n H (Z.lt_le_incl _ _ Hn)) as H2. rewrite E in H2.
  revert Hp H2. generalize (SM9_p ^ 12). intros q. lia.
Qed.
Lemma fe_exp_div : fe_exp = (SM9_p ^ 12 - 1) / SM9_n.
Proof. rewrite <- fe_exp_n. symmetry. apply Z.div_mul. pose proof SM9_n_pos9. lia. Qed.

(** where the portable build's inverse is exact: the last coefficient of the square of the third component
    is not 0 *)
Definition inv_good (x : F12) : Prop := snd (snd (fmul K4 (snd x) (snd x))) <> f0 K1.

Lemma A3_ok : bytes FE_A3 /\ length FE_A3 = 32%nat /\ be_val FE_A3 <> 0.
Proof. split; [repeat constructor; unfold is_byte; lia|]. split; [reflexivity|]. vm_compute. discriminate. Qed.
Lemma A2_ok : bytes FE_A2 /\ length FE_A2 = 32%nat /\ be_val FE_A2 <> 0.
Proof. split; [repeat constructor; unfold is_byte; lia|]. split; [reflexivity|]. vm_compute. discriminate. Qed.

Section Fin.
  Variables (w : Z) (nn : nat) (L9 : numlib9).
  Hypothesis LOK : numlib9_ok w nn L9.
  Notation R1 := (R1 w nn). Notation W1 := (W1 w nn).
  Notation R2 := (rel2 R1). Notation W2 := (rel2 W1).
  Notation R4 := (rel2 R2). Notation W4 := (rel2 W2).
  Notation R12 := (rel3 R4). Notation W12 := (rel3 W4).
  Notation Op := (sm9_fp_ops L9).
  Notation O9 := (sm9_ops9 _ _ _ LOK).
  Lemma mem_const b : bytes b -> length b = 32%nat -> W1 (sm9_fp_from_bytes L9 b) (num (be_val b)).
  Proof. intros Hb Hl. apply (t_w _ _ _ _ O9). now apply (R1_from_bytes _ _ _ LOK). Qed.
  Ltac cst := apply mem_const; [repeat constructor; unfold is_byte; lia|reflexivity].
  Lemma s_phi a x : W12 a x -> W12 (sm9_fp12_frobenius L9 a) (fpow K12 x SM9_p).
  Proof.
    intros H. rewrite <- phi_spec. unfold sm9_fp12_frobenius, phi. apply (frob_rep _ _ _ _ O9); try exact H; cst.
  Qed.
  Lemma s_phi2 a x : W12 a x -> W12 (sm9_fp12_frobenius2 L9 a) (fpow K12 x (SM9_p ^ 2)).
  Proof.
    intros H. rewrite <- phi2_spec. unfold sm9_fp12_frobenius2, phi2. apply (frob2_rep _ _ _ _ O9); try exact H; cst.
  Qed.
  Lemma s_phi3 a x : W12 a x -> W12 (sm9_fp12_frobenius3 L9 a) (fpow K12 x (SM9_p ^ 3)).
  Proof.
    intros H. rewrite <- phi3_spec. unfold sm9_fp12_frobenius3, phi3. apply (frob3_rep _ _ _ _ O9); try exact H; cst.
  Qed.
  Lemma s_phi6 a x : W12 a x -> W12 (sm9_fp12_frobenius6 L9 a) (fpow K12 x (SM9_p ^ 6)).
  Proof. intros H. rewrite <- phi6_spec. unfold sm9_fp12_frobenius6, phi6. now apply (frob6_rep _ _ _ _ O9). Qed.
  Lemma s_pow a x mem : R12 a x -> (32 <= length mem)%nat -> bytes (firstn 32 mem) -> be_val (firstn 32 mem) <> 0 ->
    exists c, sm9_fp12_pow L9 a mem = Ok c /\ R12 c (fpow K12 x (be_val (firstn 32 mem))).
  Proof.
    intros H Hl Hb Hn. pose proof (r12_pow _ _ _ LOK a x mem H) as HR. rewrite pow12_spec in HR by assumption.
    unfold sm9_fp12_pow. destruct (fp12_pow Op a mem) as [c| |]; try contradiction. now exists c.
  Qed.

  Section FE.
    Variables (f : p12 fp9) (x : F12).
    Hypotheses (Hf : W12 f x) (Nx : x <> f0 K12).
    Notation Z_ := (zp K12 x).
    (** stored [a] stands for x^e *)
    Definition sw (a : p12 fp9) (e : Z) : Prop := exists y, W12 a y /\ Z_ e y.
    Definition sr (a : p12 fp9) (e : Z) : Prop := exists y, R12 a y /\ Z_ e y.
    Lemma sr_w a e : sr a e -> sw a e.
    Proof. intros (y & H & Z1). exists y. split; [now apply (r12_w _ _ _ LOK)|exact Z1]. Qed.
    Lemma s_mul a b e g : sw a e -> sw b g -> sr (fp12_mul Op a b) (e + g).
    Proof.
      intros (y & H & Z1) (z & H2 & Z2). exists (fmul K12 y z). split; [now apply (r12_mul _ _ _ LOK)|].
      now apply zp_mul.
    Qed.
    Lemma s_sqr a e : sw a e -> sr (fp12_sqr Op a) (e + e). Proof. intros H. now apply s_mul. Qed.
    Lemma s_f (m : p12 fp9 -> p12 fp9) q : 0 <= q -> (forall a y, W12 a y -> W12 (m a) (fpow K12 y q)) ->
      forall a e, sw a e -> sw (m a) (e * q).
    Proof. intros Hq Hm a e (y & H & Z1). exists (fpow K12 y q). split; [now apply Hm|]. now apply zp_pow. Qed.
    Lemma s_pw a e mem : sr a e -> bytes mem -> length mem = 32%nat -> be_val mem <> 0 ->
      exists c, sm9_fp12_pow L9 a mem = Ok c /\ sr c (e * be_val mem).
    Proof.
      intros (y & H & Z1) Hb Hl Hn. pose proof (be_val_bound _ Hb).
      assert (E : firstn 32 mem = mem) by (apply firstn_all2; lia).
      destruct (s_pow a y mem H ltac:(lia)) as (c & Ec & Rc); [now rewrite E|now rewrite E|].
      rewrite E in Rc. exists c. split; [exact Ec|]. exists (fpow K12 y (be_val mem)). split; [exact Rc|].
      apply zp_pow; [exact Nx|lia|exact Z1].
    Qed.
    Variable safe : F12 -> Prop.
    Hypothesis Hsafe : forall a y, W12 a y -> safe y -> inv12_safe Op K1 R1 a y.
    Lemma s_inv a e : sw a e -> (forall y, Z_ e y -> safe y) -> sr (fp12_inv Op a) (- e).
    Proof.
      intros (y & H & Z1) Hs. exists (finv K12 y). split; [apply (r12_inv _ _ _ LOK); [exact H|]; auto|].
      now apply zp_inv.
    Qed.
    Lemma hard_spec a e : sr a e -> (forall y, Z_ (e * be_val FE_A3) y -> safe y) ->
      exists c, final_exp_hard_part L9 a = Ok c /\ sr c (e * fe_h SM9_p).
    Proof.
      intros Ha Hs. unfold final_exp_hard_part. pose proof A3_ok as (B3 & L3 & N3). pose proof A2_ok as (B2 & L2 & N2).
      pose proof (sr_w _ _ Ha) as Hw.
      pose proof (s_f _ SM9_p p_nn s_phi) as P1. pose proof (s_f _ _ (pk_nn 2) s_phi2) as P2.
      pose proof (s_f _ _ (pk_nn 3) s_phi3) as P3.
      destruct (s_pw a e FE_A3 Ha B3 L3 N3) as (t0 & E0 & H0). rewrite E0. cbn [bind]. cbv zeta.
      pose proof (s_inv _ _ (sr_w _ _ H0) Hs) as H1. set (u0 := fp12_inv Op t0) in *. clearbody u0.
      pose proof (sr_w _ _ H1) as H1w.
      pose proof (s_mul _ _ _ _ H1w (P1 _ _ H1w)) as H2. set (u1 := fp12_mul Op u0 _) in *. clearbody u1.
      pose proof (s_mul _ _ _ _ H1w (sr_w _ _ H2)) as H3. set (u2 := fp12_mul Op u0 u1) in *. clearbody u2.
      pose proof (P1 _ _ Hw) as H4. set (v2 := sm9_fp12_frobenius L9 a) in *. clearbody v2.
      pose proof (s_mul _ _ _ _ H4 Hw) as H5. set (v3 := fp12_mul Op v2 a) in *. clearbody v3.
      pose proof (s_sqr _ _ (sr_w _ _ (s_sqr _ _ (sr_w _ _ (s_sqr _ _ (sr_w _ _ H5)))))) as H6.
      set (v4 := fp12_sqr Op (fp12_sqr Op (fp12_sqr Op v3))) in *. clearbody v4.
      pose proof (s_mul _ _ _ _ (sr_w _ _ H6) (sr_w _ _ H5)) as H7. set (v5 := fp12_mul Op v4 v3) in *. clearbody v5.
      pose proof (s_mul _ _ _ _ (sr_w _ _ H3) (sr_w _ _ H7)) as H8. set (v6 := fp12_mul Op u2 v5) in *. clearbody v6.
      pose proof (s_sqr _ _ (sr_w _ _ (s_sqr _ _ Hw))) as H9. set (v7 := fp12_sqr Op (fp12_sqr Op a)) in *. clearbody v7.
      pose proof (s_mul _ _ _ _ (sr_w _ _ H8) (sr_w _ _ H9)) as H10. set (v8 := fp12_mul Op v6 v7) in *. clearbody v8.
      pose proof (s_mul _ _ _ _ (sr_w _ _ (s_sqr _ _ H4)) (sr_w _ _ H2)) as H11.
      set (v9 := fp12_mul Op (fp12_sqr Op v2) u1) in *. clearbody v9.
      pose proof (s_mul _ _ _ _ (P2 _ _ Hw) (sr_w _ _ H11)) as H12.
      set (v10 := fp12_mul Op (sm9_fp12_frobenius2 L9 a) v9) in *. clearbody v10.
      destruct (s_pw _ _ FE_A2 H12 B2 L2 N2) as (t2 & E2 & H13). rewrite E2. cbn [bind].
      pose proof (s_mul _ _ _ _ (P3 _ _ Hw) (sr_w _ _ (s_mul _ _ _ _ (sr_w _ _ H13) (sr_w _ _ H10)))) as H14.
      eexists. split; [reflexivity|].
      revert H14. match goal with |- sr _ ?A -> _ => replace A with (e * fe_h SM9_p); [intros H14; exact H14|] end.
      unfold fe_h. cbv zeta. generalize SM9_p (be_val FE_A2) (be_val FE_A3). intros p a2 a3. ring.
    Qed.
    Notation ez := ((SM9_p ^ 6 - 1) * (SM9_p ^ 2 + 1)).
    Lemma final_spec : safe x -> (forall y, Z_ (ez * be_val FE_A3) y -> safe y) ->
      exists c, final_exp L9 f = Ok c /\ R12 c (fpow K12 x fe_exp).
    Proof.
      intros S1 S2. unfold final_exp. cbv zeta.
      assert (H : sw f 1) by (exists x; split; [exact Hf|now apply zp_1]).
      pose proof (s_f _ _ (pk_nn 6) s_phi6 _ _ H) as H1.
      assert (H2 : sr (fp12_inv Op f) (- (1))).
      { apply s_inv; [exact H|]. intros y Hy. apply zp_pos in Hy; [|lia]. rewrite fpow_1 in Hy. now subst y. }
      pose proof (s_mul _ _ _ _ H1 (sr_w _ _ H2)) as H3. set (t := fp12_mul Op _ _) in *. clearbody t.
      pose proof (s_mul _ _ _ _ (sr_w _ _ H3) (s_f _ _ (pk_nn 2) s_phi2 _ _ (sr_w _ _ H3))) as H4.
      assert (H5 : sr (fp12_mul Op t (sm9_fp12_frobenius2 L9 t)) ez).
      { revert H4. match goal with |- sr _ ?A -> _ => replace A with ez; [intros H4; exact H4|] end.
        generalize SM9_p. intros p. ring. }
      destruct (hard_spec _ _ H5 S2) as (c & Ec & y & Rc & Zc). exists c. split; [exact Ec|].
      replace (fpow K12 x fe_exp) with y; [exact Rc|]. apply zp_pos; [|exact Zc].
      pose proof fe_exp_pos. unfold fe_exp in *. lia.
    Qed.
  End FE.

  (** a build where zero has one stored form *)
  Theorem final_exp_strong f x : (forall b y, W1 b y -> R1 b y) -> W12 f x -> x <> f0 K12 ->
    exists c, final_exp L9 f = Ok c /\ R12 c (fpow K12 x ((SM9_p ^ 12 - 1) / SM9_n)).
  Proof.
    intros S Hf Nx. rewrite <- fe_exp_div. apply (final_spec f x Hf Nx (fun _ => True)); auto.
    intros a y H _. now apply (safe_strong _ _ _ LOK).
  Qed.
  (** any build, where the inverse is exact *)
  Theorem final_exp_good f x : W12 f x -> x <> f0 K12 -> inv_good x ->
    (forall y z, fmul K12 y x = fpow K12 x (SM9_p ^ 6) -> z = fpow K12 (fmul K12 y (fpow K12 y (SM9_p ^ 2))) (be_val FE_A3) ->
       inv_good z) ->
    exists c, final_exp L9 f = Ok c /\ R12 c (fpow K12 x ((SM9_p ^ 12 - 1) / SM9_n)).
  Proof.
    intros Hf Nx G1 G2. rewrite <- fe_exp_div. apply (final_spec f x Hf Nx inv_good); [|exact G1|].
    - intros a y H G. now apply (safe_nz _ _ _ LOK).
    - intros z Hz.
      assert (Hy : zp K12 x (SM9_p ^ 6 - 1) (fmul K12 (fpow K12 x (SM9_p ^ 6)) (finv K12 x))).
      { replace (SM9_p ^ 6 - 1) with (SM9_p ^ 6 + - (1)) by ring. apply zp_mul; [exact Nx| |].
        - apply pos_zp; [apply pk_nn|reflexivity].
        - apply zp_inv; [exact Nx|now apply zp_1]. }
      set (y := fmul K12 (fpow K12 x (SM9_p ^ 6)) (finv K12 x)) in *.
      apply (G2 y).
      + unfold y. destruct K12 as [z0 o0 pl mu mi op di iv dec FT]. cbn in *.
        rewrite <- (F_R FT).(Rmul_assoc), (Finv_l FT) by exact Nx.
        rewrite (F_R FT).(Rmul_comm). apply (F_R FT).(Rmul_1_l).
      + assert (E : zp K12 x (0 + (SM9_p ^ 6 - 1) * (SM9_p ^ 2 + 1) * be_val FE_A3)
           (fpow K12 (fmul K12 y (fpow K12 y (SM9_p ^ 2))) (be_val FE_A3))).
        { rewrite Z.add_0_l. apply zp_pow; [exact Nx|pose proof A3_ok as (B3 & _); pose proof (be_val_bound _ B3); lia|].
          replace ((SM9_p ^ 6 - 1) * (SM9_p ^ 2 + 1)) with ((SM9_p ^ 6 - 1) + (SM9_p ^ 6 - 1) * SM9_p ^ 2)
            by (generalize SM9_p; intros p; ring).
          apply zp_mul; [exact Nx|exact Hy|]. apply zp_pow; [exact Nx|apply pk_nn|exact Hy]. }
        rewrite Z.add_0_l in E. set (m := Z.abs ((SM9_p ^ 6 - 1) * (SM9_p ^ 2 + 1) * be_val FE_A3)) in *.
        apply (cancel K12 x Nx _ _ m). rewrite Hz, E by lia. reflexivity.
  Qed.
End Fin.

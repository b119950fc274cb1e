(** The final exponentiation on memory. *)
From Verif Require Import Base BaseFacts ModelNumber ModelNumberX64 ModelMont ModelAlias SpecAlias ModelEC ModelSM2 ModelSM9 ModelAliasF.
From Verif Require Import ModelAliasG SpecAliasF SpecAliasG ProofAliasF ProofAliasF2 ProofAliasF4 ProofAliasG ProofAliasG2 ProofSM9Pow ProofSM9Fin.

(** ** The exponentiation does not fail for an exponent that is not 0 *)
Section PowTotal.
  Context {T : Type} (Op : fops T) (a : p12 T).
  Lemma pick_total i : 1 <= i <= 15 -> exists v, pick12 a (lut12 Op a) i = Ok v.
  Proof.
    intros H. unfold pick12. destruct (Z.eqb_spec i 1); [eexists; reflexivity|]. destruct (Z.ltb_spec i 2).
    - lia.
    - destruct (nth_error (lut12 Op a) (Z.to_nat (i - 2))) as [v|] eqn:E; [eexists; reflexivity|].
      apply nth_error_None in E. change (length (lut12 Op a)) with 14%nat in E. lia.
  Qed.
  Lemma nibble_total t i : 0 <= i <= 15 -> exists v, nibble12 Op a (lut12 Op a) t i = Ok v.
  Proof.
    intros H. unfold nibble12. destruct (Z.eqb_spec i 0); [eexists; reflexivity|].
    destruct (pick_total i ltac:(lia)) as (v & ->). eexists. reflexivity.
  Qed.
  Lemma loop_total bs : forall t, bytes bs -> exists v, pow12_loop Op a (lut12 Op a) t bs = Ok v.
  Proof.
    induction bs as [|b bs IH]; intros t Hb; [eexists; reflexivity|]. apply Forall_cons_iff in Hb; destruct Hb as [Hb0 Hbs].
    cbn [pow12_loop]. cbv zeta. rewrite nib_hi9, nib_lo9 by assumption. unfold is_byte in Hb0.
    pose proof (Z.div_mod b 16 ltac:(lia)) as DM. pose proof (Z.mod_pos_bound b 16 ltac:(lia)) as Hm.
    destruct (nibble_total (sqr12_4 Op t) (b / 16) ltac:(lia)) as (t1 & ->). cbn [bind].
    destruct (nibble_total (sqr12_4 Op t1) (b mod 16) ltac:(lia)) as (t2 & ->). cbn [bind]. exact (IH _ Hbs).
  Qed.
  Lemma pow_total mem : bytes mem -> length mem = 32%nat -> be_val mem <> 0 -> exists v, fp12_pow Op a mem = Ok v.
  Proof.
    intros Hb HL Hn. unfold fp12_pow. destruct (fp12_equal_zero Op a); [eexists; reflexivity|]. cbv zeta.
    assert (EF : firstn 32 mem = mem) by (apply firstn_all2; lia).
    destruct (skip0_spec mem 32 0 ltac:(lia) ltac:(rewrite EF; exact Hn) ltac:(rewrite EF; exact Hb)) as (j & Hj & E1 & E2 & _).
    rewrite E1. cbn [bind]. rewrite Nat.add_0_l. set (b := nz (skipn j mem) 0) in *.
    assert (Hb0 : is_byte b).
    { unfold b, nz. destruct (skipn j mem) as [|x l] eqn:ES; [unfold is_byte; cbn; lia|]. cbn.
      rewrite <- (firstn_skipn j mem) in Hb. apply Forall_app in Hb. destruct Hb as [_ Hb]. rewrite ES in Hb. now inversion Hb. }
    rewrite nib_hi9, nib_lo9 by exact Hb0. unfold is_byte in Hb0.
    pose proof (Z.div_mod b 16 ltac:(lia)) as DM. pose proof (Z.mod_pos_bound b 16 ltac:(lia)) as Hm.
    assert (S1 : exists t, (if 15 <? b then do t <- pick12 a (lut12 Op a) (b / 16); nibble12 Op a (lut12 Op a) (sqr12_4 Op t) (b mod 16)
                            else pick12 a (lut12 Op a) (b mod 16)) = Ok t).
    { destruct (Z.ltb_spec 15 b) as [G|G].
      - destruct (pick_total (b / 16) ltac:(lia)) as (t & ->). cbn [bind]. apply nibble_total. lia.
      - apply pick_total. lia. }
    destruct S1 as (t & ->). cbn [bind].
    assert (S2 : exists bs, (if (S j <? 32)%nat then read mem (S j) (32 - S j) else Ok []) = Ok bs /\ bytes bs).
    { destruct (Nat.ltb_spec (S j) 32) as [G|G]; [|exists []; split; [reflexivity|constructor]].
      exists (slice mem (S j) (32 - S j)). split; [unfold read; destruct (Nat.leb_spec (S j + (32 - S j)) (length mem)); [reflexivity|lia]|]. now apply bytes_slice. }
    destruct S2 as (bs & -> & Hbs). cbn [bind]. exact (loop_total bs t Hbs).
  Qed.
End PowTotal.

(** ** Straight-line code over F_p^12 *)
Definition tp1 {A} (g : nat -> A) : A := g 0%nat.
Lemma tp1_ext {A} (g h : nat -> A) : (forall i, (i < 1)%nat -> g i = h i) -> tp1 g = tp1 h.
Proof. intros H. unfold tp1. now rewrite H by lia. Qed.
Section Bodies.
  Context {A : Type} (F : op -> list A -> A).
  Definition hardF (f : A) : A :=
    let t0 := F (Ext 10) [f] in
    let t0 := F Inv [t0] in
    let t1 := F (Ext 1) [t0] in
    let t1 := F Mul [t0; t1] in
    let t0 := F Mul [t0; t1] in
    let t2 := F (Ext 1) [f] in
    let t3 := F Mul [t2; f] in
    let t4 := F Sqr [t3] in
    let t4 := F Sqr [t4] in
    let t4 := F Sqr [t4] in
    let t3 := F Mul [t4; t3] in
    let t0 := F Mul [t0; t3] in
    let t3 := F Sqr [f] in
    let t3 := F Sqr [t3] in
    let t0 := F Mul [t0; t3] in
    let t2 := F Sqr [t2] in
    let t2 := F Mul [t2; t1] in
    let t1 := F (Ext 2) [f] in
    let t1 := F Mul [t1; t2] in
    let t2 := F (Ext 11) [t1] in
    let t0 := F Mul [t2; t0] in
    let t1 := F (Ext 3) [f] in
    F Cpy [F Mul [t1; t0]].
  Lemma hard_body bs st : length bs = 1%nat -> tp1 (vrun F bs b_hard_part st OR) = hardF (tp1 (st (al bs (OA 0)))).
  Proof. intros H. bools bs H. bool_cases; reflexivity. Qed.
  Definition finF (f : A) : A :=
    let t0 := F (Ext 6) [f] in
    let t1 := F Inv [f] in
    let t0 := F Mul [t0; t1] in
    let t1 := F (Ext 2) [t0] in
    let t0 := F Mul [t0; t1] in
    F Cpy [F (Ext 12) [t0]].
  Lemma fin_body bs st : length bs = 1%nat -> tp1 (vrun F bs b_final_exp st OR) = finF (tp1 (st (al bs (OA 0)))).
  Proof. intros H. bools bs H. bool_cases; reflexivity. Qed.
End Bodies.

Section Final.
  Variable b : build.
  Notation k := (lims b).
  Notation Op := (sm9_fp_ops (lib_of b)).
  Notation con := (con_of b (FP9_CTX (lib_of b)) sm9_con).
  Notation z := (fp12_zero Op).
  Lemma fp12_okk o : ok12 o = true -> call_ok (bits b) (k12 k) (fp12_at b) (arity o) (sm9_fp12_m b o) (F12 Op con o).
  Proof. intros H. rewrite k12_eq. exact (fp12_ok b o H). Qed.
  Lemma k12_pos : (0 < k12 k)%nat.
  Proof. rewrite k12_eq. pose proof (lims_pos b). lia. Qed.
  Lemma fp12_local : local_get (k12 k) (fp12_at b).
  Proof.
    intros m m' p H. rewrite <- !get12_at. exact (get12_local k (fp_at b) (fp_local b) m m' p H).
  Qed.
  Lemma is012_val m p : is012 k (sm9_is0_m b) m p = fp12_equal_zero Op (fp12_at b m p).
  Proof.
    unfold is012, is04, is02, sm9_is0_m, is0_m. rewrite <- get12_at.
    unfold get12, get4, get2, getc, tp2, tp3, fp12_equal_zero, fp4_equal_zero, fp2_equal_zero. cbn [fst snd].
    unfold fp_at. rewrite !Nat.mul_0_r, !Nat.add_0_r, !Nat.mul_1_r. reflexivity.
  Qed.
  Lemma sm9_pow_ok eb sp r a m : (r + k12 k <= sp)%nat -> (a + k12 k <= sp)%nat -> words (bits b) m ->
    returns (bits b) (k12 k) (fp12_at b) sp r m (sm9_fp12_pow_m b eb sp r a m) (sm9_fp12_pow (lib_of b) (fp12_at b m a) eb).
  Proof.
    intros Hr Ha W. unfold sm9_fp12_pow_m, sm9_fp12_pow.
    refine (pow_ok Op (bits b) (k12 k) (fp12_at b) (sm9_fp12_m b) (is012 k (sm9_is0_m b)) z k12_pos fp12_local _ _ _ _ is012_val sp a m Ha eb r Hr W).
    - eapply call_ok_ext; [exact (fp12_okk Mul eq_refl)|]. intros l E. destruct l as [|x [|y [|? ?]]]; try discriminate E. reflexivity.
    - eapply call_ok_ext; [exact (fp12_okk Sqr eq_refl)|]. intros l E. destruct l as [|x [|? ?]]; try discriminate E. reflexivity.
    - eapply call_ok_ext; [exact (fp12_okk Cpy eq_refl)|]. intros l E. destruct l as [|x [|? ?]]; try discriminate E. reflexivity.
    - eapply call_ok_ext; [exact (fp12_okk Zero eq_refl)|]. intros l E. destruct l as [|x l]; try discriminate E. reflexivity.
  Qed.
  Definition powv (eb : list Z) (x : p12 (list Z)) : p12 (list Z) :=
    match sm9_fp12_pow (lib_of b) x eb with Ok y => y | _ => z end.
  Definition e_ok (eb : list Z) : Prop := bytes eb /\ length eb = 32%nat /\ be_val eb <> 0.
  Lemma powv_eq eb x : e_ok eb -> sm9_fp12_pow (lib_of b) x eb = Ok (powv eb x).
  Proof.
    intros (H1 & H2 & H3). unfold powv, sm9_fp12_pow. destruct (pow_total Op x eb H1 H2 H3) as (v & E). rewrite E. reflexivity.
  Qed.
  Lemma pow_const_ok eb : e_ok eb -> call_ok (bits b) (k12 k) (fp12_at b) 1 (pow_const b eb) (fun l => powv eb (nth 0 l z)).
  Proof.
    intros He sp r args m H1 H2 H3 H4. destruct args as [|a [|? ?]]; try discriminate H1.
    inversion H3 as [|? ? [Ha _] _]. subst. unfold pow_const. cbn [arg nth map].
    pose proof (sm9_pow_ok eb sp r a m H2 Ha H4) as R. rewrite (powv_eq eb _ He) in R. cbn [returns] in R.
    destruct R as (m' & E & E1 & F & W). unfold arg. cbn [nth]. rewrite E. split; [exact E1|]. split; [exact F|exact W].
  Qed.
  Definition Fp (o : op) (l : list (p12 (list Z))) : p12 (list Z) :=
    match o with Ext 10 => powv FE_A3 (nth 0 l z) | Ext 11 => powv FE_A2 (nth 0 l z) | _ => F12 Op con o l end.
  Definition okp (o : op) : bool := match o with Ext 10 | Ext 11 => true | _ => ok12 o end.
  Definition hard_v : p12 (list Z) -> p12 (list Z) := hardF Fp.
  Definition Ff (o : op) (l : list (p12 (list Z))) : p12 (list Z) :=
    match o with Ext 12 => hard_v (nth 0 l z) | _ => F12 Op con o l end.
  Definition okf (o : op) : bool := match o with Ext 12 => true | _ => ok12 o end.
  Definition fin_v : p12 (list Z) -> p12 (list Z) := finF Ff.
  Notation KT := (fun _ : mem => True).
  Notation RF := (fun _ : nat => False).
  Lemma P12p_ok o : okp o = true -> call_ok (bits b) (k12 k) (fp12_at b) (arity o) (P12p b o) (Fp o).
  Proof.
    intros Ho. destruct o as [| | | | | | | | | | |i|i]; try discriminate Ho; try (apply fp12_okk; exact Ho).
    destruct i as [|[|[|[|[|[|[|[|[|[|[|[|i]]]]]]]]]]]]; try discriminate Ho; try (apply fp12_okk; exact Ho).
    - exact (pow_const_ok FE_A3 A3_ok).
    - exact (pow_const_ok FE_A2 A2_ok).
  Qed.
  Lemma one_cell m p : getc (k12 k) (fp12_at b) tp1 m p = fp12_at b m p.
  Proof. unfold getc, tp1. now rewrite Nat.mul_0_r, Nat.add_0_r. Qed.
  Lemma hard_ok : call_ok (bits b) (k12 k) (fp12_at b) 1 (hard_part_m b) (fun l => hard_v (nth 0 l z)).
  Proof.
    apply (call_ok_get _ (k12 k * 1) _ _ _ _ _ _ (Nat.mul_1_r _) one_cell). apply call_k_ok.
    refine (lift (bits b) (k12 k) (fp12_at b) (P12p b) Fp okp KT RF k12_pos fp12_local
      (fun o H => call_ok_k _ _ _ _ _ _ _ _ (P12p_ok o H)) HK0 1 tp1 ltac:(lia) tp1_ext 1 5 b_hard_part _ eq_refl _).
    intros bs st H. exact (hard_body Fp bs st H).
  Qed.
  Lemma P12f_ok o : okf o = true -> call_ok (bits b) (k12 k) (fp12_at b) (arity o) (P12f b o) (Ff o).
  Proof.
    intros Ho. destruct o as [| | | | | | | | | | |i|i]; try discriminate Ho; try (apply fp12_okk; exact Ho).
    destruct i as [|[|[|[|[|[|[|[|[|[|[|[|[|i]]]]]]]]]]]]]; try discriminate Ho; try (apply fp12_okk; exact Ho).
    exact hard_ok.
  Qed.
  Lemma final_ok : call_ok (bits b) (k12 k) (fp12_at b) 1 (final_exp_m b) (fun l => fin_v (nth 0 l z)).
  Proof.
    apply (call_ok_get _ (k12 k * 1) _ _ _ _ _ _ (Nat.mul_1_r _) one_cell). apply call_k_ok.
    refine (lift (bits b) (k12 k) (fp12_at b) (P12f b) Ff okf KT RF k12_pos fp12_local
      (fun o H => call_ok_k _ _ _ _ _ _ _ _ (P12f_ok o H)) HK0 1 tp1 ltac:(lia) tp1_ext 1 2 b_final_exp _ eq_refl _).
    intros bs st H. exact (fin_body Ff bs st H).
  Qed.
  Lemma con_eq9 i : con i = sm9_fp_from_bytes (lib_of b) (sm9_con i).
  Proof. destruct b; reflexivity. Qed.
  Lemma fr1 x : Fp (Ext 1) [x] = sm9_fp12_frobenius (lib_of b) x.
  Proof. cbn [Fp F12]. rewrite !con_eq9. reflexivity. Qed.
  Lemma fr2 x : F12 Op con (Ext 2) [x] = sm9_fp12_frobenius2 (lib_of b) x.
  Proof. cbn [F12]. rewrite !con_eq9. reflexivity. Qed.
  Lemma fr3 x : Fp (Ext 3) [x] = sm9_fp12_frobenius3 (lib_of b) x.
  Proof. cbn [Fp F12]. rewrite !con_eq9. reflexivity. Qed.
  Lemma hard_eq f : final_exp_hard_part (lib_of b) f = Ok (hard_v f).
  Proof.
    unfold final_exp_hard_part. rewrite (powv_eq FE_A3 f A3_ok). cbn [bind]. cbv zeta. rewrite powv_eq by exact A2_ok. cbn [bind].
    unfold hard_v, hardF. cbv zeta. rewrite !fr1, fr3. change (Fp (Ext 2) [f]) with (F12 Op con (Ext 2) [f]). rewrite fr2. reflexivity.
  Qed.
  Lemma final_eq f : final_exp (lib_of b) f = Ok (fin_v f).
  Proof.
    unfold final_exp. cbv zeta. rewrite hard_eq. unfold fin_v, finF. cbv zeta.
    change (fun x => Ff (Ext 2) [x]) with (fun x => F12 Op con (Ext 2) [x]).
    match goal with |- context [Ff (Ext 2) [?x]] => change (Ff (Ext 2) [x]) with (F12 Op con (Ext 2) [x]) end.
    rewrite fr2. reflexivity.
  Qed.
End Final.

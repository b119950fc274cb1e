(** The pairing on memory. *)
From Verif Require Import Base BaseFacts ModelNumber ModelNumberX64 ModelMont ModelAlias SpecAlias ModelEC ModelSM2 ModelSM9 ModelAliasF.
From Verif Require Import ModelAliasG SpecAliasF SpecAliasG ProofAliasF ProofAliasF2 ProofAliasF3 ProofAliasF4 ProofAliasG ProofAliasG2 ProofAliasG3.

Section Local.
  Variable b : build.
  Notation k := (lims b).
  Lemma local_eq {A} j j' (g g' : mem -> nat -> A) : j = j' -> (forall m p, g m p = g' m p) -> local_get j g -> local_get j' g'.
  Proof. intros -> E H m m' p Q. rewrite <- !E. exact (H m m' p Q). Qed.
  Lemma local_more {A} j j' (g : mem -> nat -> A) : (j <= j')%nat -> local_get j g -> local_get j' g.
  Proof. intros L H m m' p Q. apply H. intros q Q1 Q2. apply Q; lia. Qed.
  Lemma aff_local : local_get (2 * k) (aff_at b).
  Proof. apply (local_eq (k * 2) _ (getA k (fp_at b))); [lia|exact (getA_at b)|]. apply getc_local; [exact (fp_local b)|exact tp2_ext]. Qed.
  Lemma jac_local : local_get (3 * k) (jac_at b).
  Proof. apply (local_eq (k * 3) _ (getJ k (fp_at b))); [lia|exact (getJ_at b)|]. apply getc_local; [exact (fp_local b)|exact tp3_ext]. Qed.
  Lemma aff2_local : local_get (4 * k) (aff2_at b).
  Proof. apply (local_eq (k2 k * 2) _ (getA (k2 k) (get2 k (fp_at b)))); [unfold k2; lia|exact (getA2_at b)|]. apply getc_local; [exact (G2_local b)|exact tp2_ext]. Qed.
  Lemma jac2_local : local_get (6 * k) (jac2_at b).
  Proof. apply (local_eq (k2 k * 3) _ (getJ (k2 k) (get2 k (fp_at b)))); [unfold k2; lia|exact (getJ2_at b)|]. apply getc_local; [exact (G2_local b)|exact tp3_ext]. Qed.
End Local.

Section Pairing.
  Variable b : build.
  Notation k := (lims b).
  Notation w := (bits b).
  Notation Op := (sm9_fp_ops (lib_of b)).
  Notation Op2 := (sm9_fp2_ops (lib_of b)).
  Notation con := (con_of b (FP9_CTX (lib_of b)) sm9_con).
  Notation z := (fp12_zero Op).
  Notation F := (prF b).
  Notation F0 := (prF0 b).
  Notation Q := (prQ b).
  Notation SP := (prSp b).
  (** *** the images of Q *)
  Lemma frob_call (body : list ins) (f : aff (p2 (list Z)) -> jac (p2 (list Z))) sp r a m :
    wf ok2 3 0 [2]%nat body = true ->
    (forall bs st, length bs = 1%nat -> tp3 (vrun (F2 Op con) bs body st OR) = f (tp2 (st (al bs (OA 0))))) ->
    (r + 6 * k <= sp)%nat -> (a + 4 * k <= sp)%nat -> same_or_apart (6 * k) r (4 * k) a -> words w m ->
    let m' := code (k2 k) (sm9_fp2_m b) 0 body sp r [a] m in
    jac2_at b m' r = f (aff2_at b m a) /\ frame sp r (6 * k) m m' /\ words w m'.
  Proof.
    intros Hw Hv H1 H2 H3 W. cbv zeta. unfold frame. rewrite <- getJ2_at, <- getA2_at.
    assert (E3' : (k2 k * 3)%nat = (6 * k)%nat) by (unfold k2; lia).
    assert (E2' : (k2 k * 2)%nat = (4 * k)%nat) by (unfold k2; lia).
    rewrite <- E3', <- E2' in *.
    destruct (mix w (k2 k) (get2 k (fp_at b)) (sm9_fp2_m b) (F2 Op con) ok2 (fun _ => True) (fun _ => False) (k2_pos' b) (G2_local b)
      (fun o _ => call2 Op con w k (fp_at b) (sm9_fp_m b) _ _ (lims_pos b) (fp_local b) (sm9_fp_k b) HK0 o) HK0 3 0 [2]%nat sp r [a] ltac:(lia) H1)
      with (body := body) (m := m)
      as (bs & st & B1 & B2 & B3 & E1 & E2 & E3); [|intros q []|exact Hw|exact W|exact I|].
    { constructor; [split; assumption|constructor]. }
    split; [|split; [exact E2|exact E3]].
    transitivity (tp3 (vrun (F2 Op con) bs body st OR)); [apply tp3_ext; exact E1|].
    rewrite (Hv bs st B1). f_equal. apply tp2_ext. intros i Hi. exact (B3 0%nat i Hi).
  Qed.
  Lemma frob_ok sp r a m : (r + 6 * k <= sp)%nat -> (a + 4 * k <= sp)%nat -> same_or_apart (6 * k) r (4 * k) a -> words w m ->
    let m' := frob_a_m b sp r [a] m in
    jac2_at b m' r = ec2_frobenius_a (lib_of b) (aff2_at b m a) /\ frame sp r (6 * k) m m' /\ words w m'.
  Proof.
    refine (frob_call b_frob_a (ec2_frobenius_a (lib_of b)) sp r a m eq_refl _). intros bs st H. bools bs H.
    transitivity (fp2_conjugate Op (st (al [b0] (OA 0)) 0%nat), fp2_conjugate Op (st (al [b0] (OA 0)) 1%nat), (con 0%nat, o_zero Op)).
    { bool_cases; reflexivity. }
    rewrite (con_eq9 b). reflexivity.
  Qed.
  Lemma frob2_ok sp r a m : (r + 6 * k <= sp)%nat -> (a + 4 * k <= sp)%nat -> same_or_apart (6 * k) r (4 * k) a -> words w m ->
    let m' := frob2_a_m b sp r [a] m in
    jac2_at b m' r = ec2_frobenius2_a (lib_of b) (aff2_at b m a) /\ frame sp r (6 * k) m m' /\ words w m'.
  Proof.
    refine (frob_call b_frob2_a (ec2_frobenius2_a (lib_of b)) sp r a m eq_refl _). intros bs st H. bools bs H.
    transitivity (st (al [b0] (OA 0)) 0%nat, st (al [b0] (OA 0)) 1%nat, (con 1%nat, o_zero Op)).
    { bool_cases; reflexivity. }
    rewrite (con_eq9 b). reflexivity.
  Qed.

  (** *** the state of the loop *)
  Variables (sp p q : nat) (m0 : mem).
  Hypothesis Hp : (p + 2 * k <= sp)%nat.
  Hypothesis Hq : (q + 4 * k <= sp)%nat.
  Notation vp := (aff_at b m0 p).
  Notation vq := (aff2_at b m0 q).
  Definition base (m : mem) : Prop := words w m /\ forall x, (x < sp)%nat -> m x = m0 x.
  Definition st {B} (gq : mem -> nat -> B) (m : mem) (f : p12 (list Z)) (t : jac (p2 (list Z))) (n : B) : Prop :=
    base m /\ fp12_at b m (F sp) = f /\ jac2_at b m (prT sp) = t /\ gq m (Q sp) = n.
  Lemma base_p m : base m -> aff_at b m p = vp.
  Proof. intros (_ & H). apply aff_local. intros x X1 X2. apply H. lia. Qed.
  Lemma base_q m : base m -> aff2_at b m q = vq.
  Proof. intros (_ & H). apply aff2_local. intros x X1 X2. apply H. lia. Qed.
  Lemma base_call r n m m' : (sp <= r)%nat -> frame (SP sp) r n m m' -> words w m' -> base m -> base m'.
  Proof. intros Hr Fr W (_ & H). split; [exact W|]. intros x Hx. rewrite <- H by exact Hx. apply Fr; unfold prSp; lia. Qed.
  Lemma L12 : local_get (12 * k) (fp12_at b).
  Proof. rewrite <- k12_eq. exact (fp12_local b). Qed.
  Ltac addr := unfold apart, same_or_apart, prF, prF0, prQ, prT, prSp in *; lia.
  Ltac kept L Fr := apply (keep _ _ _ _ _ _ _ _ L Fr); addr.
  Section Q.
    Context {B : Type} (gq : mem -> nat -> B).
    Hypothesis Lq : local_get (6 * k) gq.
    Lemma st_F m m' f t n f' : st gq m f t n -> fp12_at b m' (F sp) = f' -> frame (SP sp) (F sp) (12 * k) m m' -> words w m' -> st gq m' f' t n.
    Proof.
      intros (I1 & I2 & I3 & I4) E Fr W. split; [apply (base_call (F sp) (12 * k) m); [addr|exact Fr|exact W|exact I1]|].
      split; [exact E|]. split; [rewrite <- I3; kept (jac2_local b) Fr|rewrite <- I4; kept Lq Fr].
    Qed.
    Lemma st_F0 m m' f t n : st gq m f t n -> frame (SP sp) (F0 sp) (12 * k) m m' -> words w m' -> st gq m' f t n.
    Proof.
      intros (I1 & I2 & I3 & I4) Fr W. split; [apply (base_call (F0 sp) (12 * k) m); [addr|exact Fr|exact W|exact I1]|].
      split; [rewrite <- I2; kept L12 Fr|]. split; [rewrite <- I3; kept (jac2_local b) Fr|rewrite <- I4; kept Lq Fr].
    Qed.
    Lemma st_T m m' f t n t' : st gq m f t n -> jac2_at b m' (prT sp) = t' -> frame (SP sp) (prT sp) (6 * k) m m' -> words w m' -> st gq m' f t' n.
    Proof.
      intros (I1 & I2 & I3 & I4) E Fr W. split; [apply (base_call (prT sp) (6 * k) m); [addr|exact Fr|exact W|exact I1]|].
      split; [rewrite <- I2; kept L12 Fr|]. split; [exact E|rewrite <- I4; kept Lq Fr].
    Qed.
    Lemma st_Q {C} (gc : mem -> nat -> C) kq m m' f t n n' : st gq m f t n -> gc m' (Q sp) = n' -> (kq <= 6 * k)%nat ->
      frame (SP sp) (Q sp) kq m m' -> words w m' -> st gc m' f t n'.
    Proof.
      intros (I1 & I2 & I3 & I4) E Hkq Fr W. split; [apply (base_call (Q sp) kq m); [addr|exact Fr|exact W|exact I1]|].
      split; [rewrite <- I2; kept L12 Fr|]. split; [rewrite <- I3; kept (jac2_local b) Fr|exact E].
    Qed.
    Lemma sqr_st m f t n : st gq m f t n -> st gq (sm9_fp12_m b Sqr (SP sp) (F sp) [F sp] m) (fp12_sqr Op f) t n.
    Proof.
      intros I. pose proof I as ((W0 & _) & I2 & _).
      destruct (fp12_ok b Sqr eq_refl (SP sp) (F sp) [F sp] m eq_refl) as (E & Fr & W); [addr| |exact W0|].
      { constructor; [split; [addr|left; reflexivity]|constructor]. }
      apply (st_F m _ f); [exact I| |exact Fr|exact W]. rewrite E. cbn [map F12]. now rewrite I2.
    Qed.
    Lemma mul_st m f t n g : st gq m f t n -> fp12_at b m (F0 sp) = g -> st gq (mul_f b sp m) (fp12_mul Op f g) t n.
    Proof.
      intros I Eg. pose proof I as ((W0 & _) & I2 & _).
      destruct (fp12_ok b Mul eq_refl (SP sp) (F sp) [F sp; F0 sp] m eq_refl) as (E & Fr & W); [addr| |exact W0|].
      { constructor; [split; [addr|left; reflexivity]|]. constructor; [split; [addr|right; addr]|constructor]. }
      apply (st_F m _ f); [exact I| |exact Fr|exact W]. unfold mul_f. rewrite E. cbn [map F12]. now rewrite I2, Eg.
    Qed.
    Lemma tangent_st m f t n : st gq m f t n ->
      st gq (mul_f b sp (tangent_m k (sm9_fp_m b) (SP sp) (F0 sp) (prT sp) p m)) (fp12_mul Op f (g_tangent_ja Op t vp)) t n.
    Proof.
      intros I. pose proof I as ((W0 & B0) & I2 & I3 & _).
      destruct (lines b (SP sp) (F0 sp) (prT sp) p m) as ((E & Fr & W) & _); [addr|addr|addr|addr|addr|exact W0|].
      apply mul_st; [exact (st_F0 _ _ _ _ _ I Fr W)|]. rewrite E, I3, (base_p m (conj W0 B0)). reflexivity.
    Qed.
    Lemma jaa_st m f t n x v : st gq m f t n -> (x + 4 * k <= sp \/ x = Q sp)%nat -> aff2_at b m x = v ->
      st gq (mul_f b sp (line_jaa_m k (sm9_fp_m b) (SP sp) (F0 sp) (prT sp) x p m)) (fp12_mul Op f (g_line_jaa Op t v vp)) t n.
    Proof.
      intros I Hx Ev. pose proof I as ((W0 & B0) & I2 & I3 & _).
      destruct (lines b (SP sp) (F0 sp) (prT sp) p m) as (_ & _ & H); [addr|addr|addr|addr|addr|exact W0|].
      destruct (H x) as (E & Fr & W); [addr|addr|].
      apply mul_st; [exact (st_F0 _ _ _ _ _ I Fr W)|]. rewrite E, I3, Ev, (base_p m (conj W0 B0)). reflexivity.
    Qed.
    Lemma dbl_st m f t n : st gq m f t n -> st gq (g2_dbl_m b (SP sp) (prT sp) [prT sp] m) f (j_dbl_2009l Op2 t) n.
    Proof.
      intros I. pose proof I as ((W0 & _) & _ & I3 & _). destruct (sm9_points2 b) as (_ & _ & Hd & _).
      assert (E6 : (3 * (2 * k))%nat = (6 * k)%nat) by lia. rewrite E6 in Hd.
      destruct (Hd (SP sp) (prT sp) [prT sp] m eq_refl) as (E & Fr & W); [addr| |exact W0|].
      { constructor; [split; [addr|left; reflexivity]|constructor]. }
      apply (st_T m _ f t); [exact I| |exact Fr|exact W]. unfold g2_dbl_m. rewrite E. cbn [map nth]. now rewrite I3.
    Qed.
    Lemma add_a_st m f t n x v : st gq m f t n -> (x + 4 * k <= sp \/ x = Q sp)%nat -> aff2_at b m x = v ->
      st gq (j_add_a_m (2 * k) (sm9_fp2_m b) (SP sp) (prT sp) [prT sp; x] m) f (j_add_a Op2 t v) n.
    Proof.
      intros I Hx Ev. pose proof I as ((W0 & _) & _ & I3 & _). destruct (sm9_points2 b) as (_ & _ & _ & _ & _ & _ & _ & _ & _ & Ha & _).
      assert (E6 : (3 * (2 * k))%nat = (6 * k)%nat) by lia. assert (E4 : (2 * (2 * k))%nat = (4 * k)%nat) by lia. rewrite E6, E4 in Ha.
      destruct (Ha (SP sp) (prT sp) (prT sp) x m) as (E & Fr & W); [addr|addr|addr|left; reflexivity|right; addr|exact W0|].
      apply (st_T m _ f t); [exact I| |exact Fr|exact W]. rewrite E, I3, Ev. reflexivity.
    Qed.
  End Q.
  Lemma La2 : local_get (6 * k) (aff2_at b). Proof. apply (local_more (4 * k)); [lia|exact (aff2_local b)]. Qed.
  Notation vn := (a_neg Op2 vq).
  Lemma line_st m f t x v : st (aff2_at b) m f t vn -> (x = q /\ v = vq) \/ (x = Q sp /\ v = vn) ->
    st (aff2_at b) (line_step b sp p x m) (fp12_mul Op f (g_line_jaa Op t v vp)) (j_add_a Op2 t v) vn.
  Proof.
    intros I Hx. assert (Hx' : (x + 4 * k <= sp \/ x = Q sp)%nat) by (destruct Hx as [[-> _]|[-> _]]; [left; exact Hq|right; reflexivity]).
    assert (Ev : forall m f t, st (aff2_at b) m f t vn -> aff2_at b m x = v).
    { intros m' f' t' (J1 & _ & _ & J4). destruct Hx as [[-> ->]|[-> ->]]; [exact (base_q m' J1)|exact J4]. }
    unfold line_step. cbv zeta.
    pose proof (jaa_st (aff2_at b) La2 m f t vn x v I Hx' (Ev _ _ _ I)) as J.
    exact (add_a_st (aff2_at b) La2 _ _ _ _ x v J Hx' (Ev _ _ _ J)).
  Qed.
  Lemma step_st c m f t : st (aff2_at b) m f t vn ->
    let s := miller_step (lib_of b) vp vq vn c (f, t) in
    st (aff2_at b) (miller_step_m b sp p q c m) (fst s) (snd s) vn.
  Proof.
    intros I. cbv zeta. unfold miller_step_m, miller_step. cbv zeta.
    pose proof (dbl_st (aff2_at b) La2 _ _ _ _ (tangent_st (aff2_at b) La2 _ _ _ _ (sqr_st (aff2_at b) La2 _ _ _ _ I))) as J.
    destruct (c =? 1); [cbn [fst snd]; apply (line_st _ _ _ q vq J); left; split; reflexivity|].
    destruct (c =? 2); [cbn [fst snd]; apply (line_st _ _ _ (Q sp) vn J); right; split; reflexivity|].
    exact J.
  Qed.
  Lemma loop_st l : forall m s, st (aff2_at b) m (fst s) (snd s) vn ->
    let s' := fold_left (fun s c => miller_step (lib_of b) vp vq vn c s) l s in
    st (aff2_at b) (fold_left (fun m c => miller_step_m b sp p q c m) l m) (fst s') (snd s') vn.
  Proof.
    induction l as [|c l IH]; intros m s I; [exact I|]. cbv zeta. cbn [fold_left]. apply IH. destruct s as [f t]. exact (step_st c m f t I).
  Qed.
  Lemma jja_st m f t n : st (jac2_at b) m f t n ->
    st (jac2_at b) (mul_f b sp (line_jja_m k (sm9_fp_m b) (SP sp) (F0 sp) (prT sp) (Q sp) p m)) (fp12_mul Op f (g_line_jja Op t n vp)) t n.
  Proof.
    intros I. pose proof I as ((W0 & B0) & I2 & I3 & I4).
    destruct (lines b (SP sp) (F0 sp) (prT sp) p m) as (_ & H & _); [addr|addr|addr|addr|addr|exact W0|].
    destruct (H (Q sp)) as (E & Fr & W); [addr|addr|].
    apply (mul_st (jac2_at b) (jac2_local b)); [exact (st_F0 (jac2_at b) (jac2_local b) _ _ _ _ _ I Fr W)|].
    rewrite E, I3, I4, (base_p m (conj W0 B0)). reflexivity.
  Qed.
  Lemma init_st : words w m0 ->
    st (aff2_at b) (a_neg_m (2 * k) (sm9_fp2_m b) (SP sp) (Q sp) [q] (j_from_a_m (2 * k) (sm9_fp2_m b) (SP sp) (prT sp) [q]
       (sm9_fp12_m b One (SP sp) (F sp) [] m0))) (fp12_one Op) (j_from_a Op2 vq) vn.
  Proof.
    intros W0. destruct (fp12_ok b One eq_refl (SP sp) (F sp) [] m0 eq_refl) as (E1 & Fr1 & W1); [addr|constructor|exact W0|].
    set (m1 := sm9_fp12_m b One (SP sp) (F sp) [] m0) in *. cbn [map F12] in E1.
    assert (B1 : base m1). { apply (base_call (F sp) (12 * k) m0); [addr|exact Fr1|exact W1|split; [exact W0|reflexivity]]. }
    clearbody m1. destruct (sm9_points2 b) as (Hn & _ & _ & _ & _ & _ & _ & Hf & _).
    assert (E6 : (3 * (2 * k))%nat = (6 * k)%nat) by lia. assert (E4 : (2 * (2 * k))%nat = (4 * k)%nat) by lia. rewrite E4 in Hn, Hf. rewrite E6 in Hf.
    destruct (Hf (SP sp) (prT sp) q m1) as (E2 & Fr2 & W2); [addr|addr|addr|exact W1|].
    set (m2 := j_from_a_m (2 * k) (sm9_fp2_m b) (SP sp) (prT sp) [q] m1) in *.
    assert (I2 : st (aff2_at b) m2 (fp12_one Op) (j_from_a Op2 vq) (aff2_at b m2 (Q sp))).
    { apply (st_T (aff2_at b) La2 m1 m2 _ (jac2_at b m1 (prT sp))); [|rewrite E2, (base_q m1 B1); reflexivity|exact Fr2|exact W2].
      split; [exact B1|]. split; [exact E1|]. split; [reflexivity|]. symmetry. kept La2 Fr2. }
    clearbody m2.
    destruct (Hn (SP sp) (Q sp) [q] m2 eq_refl) as (E3 & Fr3 & W3); [addr| |exact W2|].
    { constructor; [split; [addr|right; addr]|constructor]. }
    apply (st_Q (aff2_at b) (aff2_at b) (4 * k) m2 _ _ _ _ _ I2); [|lia|exact Fr3|exact W3].
    rewrite E3. cbn [map nth]. destruct I2 as (I2 & _). rewrite (base_q m2 I2). reflexivity.
  Qed.
  Lemma pairing_ok r : (r + 12 * k <= sp)%nat -> words w m0 ->
    let m' := sm9_pairing_m b sp r p q m0 in
    sm9_pairing (lib_of b) vp vq = Ok (fp12_at b m' r) /\ frame sp r (12 * k) m0 m' /\ words w m'.
  Proof.
    intros Hr W0. cbv zeta. unfold sm9_pairing_m, sm9_pairing, sm9_miller. cbv zeta.
    pose proof (loop_st (tl NAF_A) _ (_, _) (init_st W0)) as J. cbv zeta in J. cbn [fst snd] in J.
    set (m1 := fold_left (fun m c => miller_step_m b sp p q c m) (tl NAF_A) _) in J |- *. clearbody m1.
    set (s := fold_left (fun s c => miller_step (lib_of b) vp vq vn c s) (tl NAF_A) _) in J |- *. clearbody s.
    destruct s as [f t]. cbn [fst snd] in J.
    pose proof J as (B1 & _). pose proof B1 as (W1 & _).
    destruct (frob_ok (SP sp) (Q sp) q m1) as (E2 & Fr2 & W2); [addr|addr|addr|exact W1|].
    rewrite (base_q m1 B1) in E2. set (m2 := frob_a_m b (SP sp) (Q sp) [q] m1) in *. clearbody m2.
    pose proof (st_Q (aff2_at b) (jac2_at b) (6 * k) m1 m2 _ _ _ _ J E2 ltac:(lia) Fr2 W2) as J2.
    apply jja_st in J2.
    set (m3 := mul_f b sp (line_jja_m k (sm9_fp_m b) (SP sp) (F0 sp) (prT sp) (Q sp) p m2)) in J2 |- *. clearbody m3.
    pose proof J2 as ((W3 & _) & _ & T3 & Q3). destruct (sm9_points2 b) as (_ & Hneg & _ & Hadd & _).
    assert (E6 : (3 * (2 * k))%nat = (6 * k)%nat) by lia. rewrite E6 in Hneg, Hadd.
    destruct (Hadd (SP sp) (prT sp) [prT sp; Q sp] m3 eq_refl) as (E4 & Fr4 & W4); [addr| |exact W3|].
    { constructor; [split; [addr|left; reflexivity]|]. constructor; [split; [addr|right; addr]|constructor]. }
    cbn [map nth] in E4. rewrite T3, Q3 in E4.
    pose proof (st_T (jac2_at b) (jac2_local b) m3 _ _ _ _ _ J2 E4 Fr4 W4) as J4.
    change (j_add_m (2 * k) (sm9_fp2_m b) (sm9_eq2_m b) (j_dbl_2009l_m (2 * k) (sm9_fp2_m b))) with (g2_add_m b) in J4.
    set (m4 := g2_add_m b (SP sp) (prT sp) [prT sp; Q sp] m3) in J4 |- *. clearbody m4. clear E4 Fr4 W4.
    pose proof J4 as (B4 & _). pose proof B4 as (W4 & _).
    destruct (frob2_ok (SP sp) (Q sp) q m4) as (E5 & Fr5 & W5); [addr|addr|addr|exact W4|].
    rewrite (base_q m4 B4) in E5. set (m5 := frob2_a_m b (SP sp) (Q sp) [q] m4) in *. clearbody m5.
    pose proof (st_Q (jac2_at b) (jac2_at b) (6 * k) m4 m5 _ _ _ _ J4 E5 ltac:(lia) Fr5 W5) as J5.
    destruct (Hneg (SP sp) (Q sp) [Q sp] m5 eq_refl) as (E7 & Fr7 & W7); [addr| |exact W5|].
    { constructor; [split; [addr|left; reflexivity]|constructor]. }
    cbn [map nth] in E7. rewrite E5 in E7.
    pose proof (st_Q (jac2_at b) (jac2_at b) (6 * k) m5 _ _ _ _ _ J5 E7 ltac:(lia) Fr7 W7) as J7.
    apply jja_st in J7.
    set (m8 := mul_f b sp _) in J7 |- *. clearbody m8.
    destruct J7 as ((W8 & B8) & F8 & _).
    destruct (final_ok b (SP sp) r [F sp] m8 eq_refl) as (E9 & Fr9 & W9).
    { rewrite k12_eq. addr. } { constructor; [|constructor]. rewrite k12_eq. split; [addr|right; addr]. } { exact W8. }
    cbn [map nth] in E9. rewrite F8 in E9. split; [rewrite final_eq; apply (f_equal Ok); symmetry; exact E9|]. split; [|exact W9].
    intros x X1 X2. rewrite <- B8 by exact X1. rewrite k12_eq in Fr9. apply Fr9; [addr|exact X2].
  Qed.
End Pairing.

(** The functions of the two builds on memory. *)
From Verif Require Import Base BaseFacts SpecNumber ModelNumber ModelNumberX64 ModelMont SpecMont ModelAlias SpecAlias.
From Verif Require Import ProofAlias ProofAlias2 ProofAlias3 ProofAlias4.
From Verif Require Import ModelEC ModelSM2 ModelSM9 ModelAliasF SpecAliasF ProofAliasF ProofAliasF2 ProofAliasF3.
From Verif Require Import ProofNumlib9 ProofSM2Rep ProofSM9Rep.

Definition ops_of (b : build) (ctx : mont_ctx) : fops (list Z) :=
  let L := l9 (lib_of b) in
  MkOps (list Z) (m_add L ctx) (m_sub L ctx) (m_mul L ctx) (m_sqr L ctx) (m_dbl L ctx) (m_tpl L ctx) (m_neg L ctx)
    (m_inv L ctx) (m_equal L ctx) (m_equal_zero L ctx) (m_zero L) (m_one L ctx).
Definition con_of (b : build) (ctx : mont_ctx) (cs : nat -> list Z) (i : nat) : list Z :=
  m_from_bytes (l9 (lib_of b)) ctx (cs i).
Lemma bits_pos b : 0 <= bits b. Proof. destruct b; cbn; lia. Qed.
Lemma lims_pos b : (0 < lims b)%nat. Proof. destruct b; cbn; lia. Qed.
Lemma fp_local b : local_get (lims b) (fp_at b).
Proof.
  intros m m' p H. unfold fp_at. revert p H. generalize (lims b) as n. induction n as [|n IH]; intros p H; [reflexivity|].
  cbn [rd]. rewrite H by lia. f_equal. apply IH. intros q Q1 Q2. apply H; lia.
Qed.
Lemma zero32 : limbs 32 8 uint256_set_zero. Proof. split; [reflexivity|]. repeat (constructor; [lia|]). constructor. Qed.
Lemma zero64 : limbs 64 4 x64_set_zero. Proof. split; [reflexivity|]. repeat (constructor; [lia|]). constructor. Qed.

Lemma len1 {A} (d : A) l : length l = 1%nat -> l = [nth 0 l d].
Proof. destruct l as [|x [|? ?]]; intros H; try discriminate H. reflexivity. Qed.
Lemma len2 {A} (d : A) l : length l = 2%nat -> l = [nth 0 l d; nth 1 l d].
Proof. destruct l as [|x [|? [|? ?]]]; intros H; try discriminate H. reflexivity. Qed.

Section Prime.
  Variables (b : build) (ctx : mont_ctx) (P : Z) (cs : nat -> list Z).
  Hypothesis OK : mont_ctx_ok (bits b) (lims b) P ctx.
  Hypothesis Hcs : forall i, bytes (cs i) /\ length (cs i) = 32%nat.
  Ltac red_ := lazy beta iota zeta delta [v1 v2 nth F1 ops_of lib_of l9 lib9_common lib9_x64 lib_common lib_x64 o_add o_sub o_mul o_sqr o_dbl o_tpl o_neg o_inv m_add m_sub m_mul m_sqr m_dbl m_tpl m_neg m_inv]; reflexivity.
  Ltac e1 H := apply (call_ok_ext _ _ _ _ _ _ _ H); let l := fresh in let Hl := fresh in
    intros l Hl; destruct l as [|? [|? ?]]; try discriminate Hl; red_.
  Ltac e2 H := apply (call_ok_ext _ _ _ _ _ _ _ H); let l := fresh in let Hl := fresh in
    intros l Hl; destruct l as [|? [|? [|? ?]]]; try discriminate Hl; red_.
  Lemma fp_m_ok o : ok1 o = true ->
    call_ok (bits b) (lims b) (fp_at b) (arity o) (fp_m b ctx cs o) (F1 (ops_of b ctx) (con_of b ctx cs) o).
  Proof.
    intros Ho. destruct b; cbn [bits lims] in OK.
    - change (fp_at Common) with get32. cbn [bits lims fp_m].
      destruct o as [| | | | | | | | | | |i|i]; cbn [arity]; try discriminate Ho.
      + e2 (m32_add_ok ctx P OK). + e2 (m32_sub_ok ctx P OK). + e2 (m32_mul_ok ctx P OK).
      + e1 (m32_sqr_ok ctx P OK). + e1 (m32_dbl_ok ctx P OK). + e1 (m32_tpl_ok ctx P OK).
      + e1 (m32_neg_ok ctx P OK). + e1 (m32_inv_ok ctx P OK). + e1 (cpy_ok 32 8 ltac:(lia)).
      + exact (set_ok 32 8 _ zero32).
      + exact (set_ok 32 8 _ (co_R _ _ _ _ OK)).
      + exact (m32_from_bytes_ok ctx P OK _ (proj1 (Hcs i)) (proj2 (Hcs i))).
    - change (fp_at X64) with get64. cbn [bits lims fp_m].
      destruct o as [| | | | | | | | | | |i|i]; cbn [arity]; try discriminate Ho.
      + e2 (m64_add_ok ctx P OK). + e2 (m64_sub_ok ctx P OK). + e2 (m64_mul_ok ctx P OK).
      + e1 (m64_sqr_ok ctx P OK). + e1 (m64_dbl_ok ctx P OK). + e1 (m64_tpl_ok ctx P OK).
      + e1 (m64_neg_ok ctx P OK). + e1 (m64_inv_ok ctx P OK). + e1 (cpy_ok 64 4 ltac:(lia)).
      + exact (set_ok 64 4 _ zero64).
      + exact (set_ok 64 4 _ (co_R _ _ _ _ OK)).
      + exact (m64_from_bytes_ok ctx P OK _ (proj1 (Hcs i)) (proj2 (Hcs i))).
  Qed.
End Prime.

Lemma lib_of_ok b : numlib9_ok (bits b) (lims b) (lib_of b).
Proof. destruct b; [exact lib9_common_ok|exact lib9_x64_ok]. Qed.
Definition b32 (l : list Z) : bool := forallb (fun x => (0 <=? x) && (x <? 256)) l && (length l =? 32)%nat.
Lemma b32_ok l : b32 l = true -> bytes l /\ length l = 32%nat.
Proof.
  unfold b32. rewrite andb_true_iff, Nat.eqb_eq, forallb_forall. intros [H1 H2]. split; [|exact H2].
  apply Forall_forall. intros x Hx. specialize (H1 x Hx). apply andb_true_iff in H1. unfold is_byte.
  rewrite Z.leb_le, Z.ltb_lt in H1. exact H1.
Qed.
Lemma zeros_ok : bytes (repeat 0 32) /\ length (repeat 0 32) = 32%nat.
Proof. apply b32_ok. reflexivity. Qed.
Lemma sm9_con_ok i : bytes (sm9_con i) /\ length (sm9_con i) = 32%nat.
Proof.
  destruct (le_lt_dec 8 i) as [L|L].
  { unfold sm9_con. rewrite nth_overflow; [exact zeros_ok|]. exact L. }
  apply b32_ok. do 8 (destruct i as [|i]; [reflexivity|]). lia.
Qed.
Lemma sm2_fp_ok b o : ok1 o = true ->
  call_ok (bits b) (lims b) (fp_at b) (arity o) (sm2_fp_m b o)
    (F1 (sm2_fp_ops (l9 (lib_of b))) (con_of b (FP_CTX (l9 (lib_of b))) (fun _ => repeat 0 32)) o).
Proof.
  intros Ho. refine (fp_m_ok b _ _ _ (FP_CTX_ok _ _ _ (k_lib _ _ _ (lib_of_ok b))) (fun _ => zeros_ok) o Ho).
Qed.
Lemma sm9_fp_ok b o : ok1 o = true ->
  call_ok (bits b) (lims b) (fp_at b) (arity o) (sm9_fp_m b o)
    (F1 (sm9_fp_ops (lib_of b)) (con_of b (FP9_CTX (lib_of b)) sm9_con) o).
Proof.
  intros Ho. refine (fp_m_ok b _ _ _ (FP9_CTX_ok _ _ _ (lib_of_ok b)) sm9_con_ok o Ho).
Qed.

(** ** layout *)
Lemma pair_cells {A} k (get : mem -> nat -> A) m p : getc k get tp2 m p = pair_at k get m p.
Proof. unfold getc, tp2, pair_at. rewrite Nat.mul_0_r, Nat.add_0_r, Nat.mul_1_r. reflexivity. Qed.
Lemma triple_cells {A} k (get : mem -> nat -> A) m p : getc k get tp3 m p = triple_at k get m p.
Proof. unfold getc, tp3, triple_at. rewrite Nat.mul_0_r, Nat.add_0_r, Nat.mul_1_r, (Nat.mul_comm k 2). reflexivity. Qed.
Lemma pair_ext {A} k k' (get get' : mem -> nat -> A) m p : k = k' -> (forall m p, get m p = get' m p) ->
  pair_at k get m p = pair_at k' get' m p.
Proof. intros -> H. unfold pair_at. now rewrite !H. Qed.
Lemma triple_ext {A} k k' (get get' : mem -> nat -> A) m p : k = k' -> (forall m p, get m p = get' m p) ->
  triple_at k get m p = triple_at k' get' m p.
Proof. intros -> H. unfold triple_at. now rewrite !H. Qed.
Section Layout.
  Variable b : build.
  Notation k := (lims b).
  Lemma k2_eq : k2 k = (2 * k)%nat. Proof. unfold k2. lia. Qed.
  Lemma k4_eq : k4 k = (4 * k)%nat. Proof. unfold k4, k2. lia. Qed.
  Lemma k12_eq : k12 k = (12 * k)%nat. Proof. unfold k12, k4, k2. lia. Qed.
  Lemma get2_at m p : get2 k (fp_at b) m p = fp2_at b m p.
  Proof. apply pair_cells. Qed.
  Lemma get4_at m p : get4 k (fp_at b) m p = fp4_at b m p.
  Proof. unfold get4. rewrite pair_cells. apply pair_ext; [exact k2_eq|exact get2_at]. Qed.
  Lemma get12_at m p : get12 k (fp_at b) m p = fp12_at b m p.
  Proof. unfold get12. rewrite triple_cells. apply triple_ext; [exact k4_eq|exact get4_at]. Qed.
  Lemma getA_at m p : getA k (fp_at b) m p = aff_at b m p.
  Proof. apply pair_cells. Qed.
  Lemma getJ_at m p : getJ k (fp_at b) m p = jac_at b m p.
  Proof. apply triple_cells. Qed.
  Lemma getA2_at m p : getA (k2 k) (get2 k (fp_at b)) m p = aff2_at b m p.
  Proof. unfold getA. rewrite pair_cells. apply pair_ext; [exact k2_eq|exact get2_at]. Qed.
  Lemma getJ2_at m p : getJ (k2 k) (get2 k (fp_at b)) m p = jac2_at b m p.
  Proof. unfold getJ. rewrite triple_cells. apply triple_ext; [exact k2_eq|exact get2_at]. Qed.
End Layout.
Lemma call_ok_get {A} w k k' (get get' : mem -> nat -> A) n p f : k = k' -> (forall m q, get m q = get' m q) ->
  call_ok w k get n p f -> call_ok w k' get' n p f.
Proof.
  intros -> E H sp r args m H1 H2 H3 H4. destruct (H sp r args m H1 H2 H3 H4) as (C1 & C2 & C3).
  split; [|split; assumption]. rewrite <- E, C1. f_equal. apply map_ext. intros q. apply E.
Qed.

(** ** SM9 tower *)
Section SM9.
  Variable b : build.
  Notation Op := (sm9_fp_ops (lib_of b)).
  Notation con := (con_of b (FP9_CTX (lib_of b)) sm9_con).
  Notation KT := (fun _ : mem => True).
  Notation RF := (fun _ : nat => False).
  Definition HK0 : forall m m' : mem, (forall q, RF q -> m' q = m q) -> KT m -> KT m' := fun _ _ _ _ => I.
  Lemma sm9_fp_k o (H : ok1 o = true) :
    call_k (bits b) (lims b) (fp_at b) KT RF (arity o) (sm9_fp_m b o) (F1 Op con o).
  Proof. apply call_ok_k. exact (sm9_fp_ok b o H). Qed.
  Lemma fp2_ok o : call_ok (bits b) (2 * lims b) (fp2_at b) (arity o) (sm9_fp2_m b o) (F2 Op con o).
  Proof.
    apply (call_ok_get _ _ _ _ _ _ _ _ (k2_eq b) (get2_at b)). apply call_k_ok.
    exact (call2 Op con (bits b) (lims b) (fp_at b) (sm9_fp_m b) KT RF (lims_pos b) (fp_local b) sm9_fp_k HK0 o).
  Qed.
  Lemma fp4_ok o : ok4 o = true -> call_ok (bits b) (4 * lims b) (fp4_at b) (arity o) (sm9_fp4_m b o) (F4 Op con o).
  Proof.
    intros Ho. apply (call_ok_get _ _ _ _ _ _ _ _ (k4_eq b) (get4_at b)). apply call_k_ok.
    exact (call4 Op con (bits b) (lims b) (fp_at b) (sm9_fp_m b) KT RF (lims_pos b) (fp_local b) sm9_fp_k HK0 o Ho).
  Qed.
  Lemma fp12_ok o : ok12 o = true -> call_ok (bits b) (12 * lims b) (fp12_at b) (arity o) (sm9_fp12_m b o) (F12 Op con o).
  Proof.
    intros Ho. apply (call_ok_get _ _ _ _ _ _ _ _ (k12_eq b) (get12_at b)). apply call_k_ok.
    exact (call12 Op con (bits b) (lims b) (fp_at b) (sm9_fp_m b) KT RF (lims_pos b) (fp_local b) sm9_fp_k HK0 o Ho).
  Qed.
End SM9.

(** ** SM9 G2: the curve formulas over F_p^2 *)
Section G2.
  Variable b : build.
  Notation Op := (sm9_fp_ops (lib_of b)).
  Notation Op2 := (sm9_fp2_ops (lib_of b)).
  Notation con := (con_of b (FP9_CTX (lib_of b)) sm9_con).
  Definition con2 (i : nat) : p2 (list Z) := (con i, o_zero Op).
  Notation k := (lims b).
  Notation G2_ := (get2 k (fp_at b)).
  Lemma F2_F1 o l : ok1 o = true -> F2 Op con o l = F1 Op2 con2 o l.
  Proof.
    intros Ho. destruct o as [| | | | | | | | | | |i|i]; try discriminate Ho; destruct l as [|x [|y [|? ?]]]; reflexivity.
  Qed.
  Lemma sm9_fp2_k o : ok1 o = true -> call_ok (bits b) (k2 k) G2_ (arity o) (sm9_fp2_m b o) (F1 Op2 con2 o).
  Proof.
    intros Ho. eapply call_ok_ext; [|intros l _; exact (F2_F1 o l Ho)]. apply call_k_ok.
    exact (call2 Op con (bits b) k (fp_at b) (sm9_fp_m b) _ _ (lims_pos b) (fp_local b) (sm9_fp_k b) (HK0) o).
  Qed.
  Lemma k2_pos' : (0 < k2 k)%nat. Proof. exact (k2_pos k (lims_pos b)). Qed.
  Lemma G2_local : local_get (k2 k) G2_. Proof. exact (get2_local k (fp_at b) (fp_local b)). Qed.
  Lemma eq2_val m p q : sm9_eq2_m b m p q = o_eq Op2 (G2_ m p) (G2_ m q).
  Proof.
    unfold sm9_eq2_m, eq2, sm9_eq_m, eq_m. cbn [o_eq sm9_fp2_ops fp2_ops]. unfold fp2_equal.
    rewrite (get2_at b m p), (get2_at b m q). reflexivity.
  Qed.
  Lemma is02_val m p : sm9_is02_m b m p = o_is0 Op2 (G2_ m p).
  Proof.
    unfold sm9_is02_m, is02, sm9_is0_m, is0_m. cbn [o_is0 sm9_fp2_ops fp2_ops]. unfold fp2_equal_zero.
    rewrite (get2_at b m p). reflexivity.
  Qed.
End G2.

(** ** All point functions of a curve *)
Section Points.
  Context {A : Type} (Op : fops A) (con : nat -> A).
  Variables (w : Z) (k : nat) (get : mem -> nat -> A) (P : op -> proc)
    (eqf : mem -> nat -> nat -> bool) (is0f : mem -> nat -> bool).
  Hypothesis Hk : (0 < k)%nat.
  Hypothesis Hget : local_get k get.
  Hypothesis Hop : forall o, ok1 o = true -> call_ok w k get (arity o) (P o) (F1 Op con o).
  Hypothesis Heq : forall m p q, eqf m p q = o_eq Op (get m p) (get m q).
  Hypothesis His0 : forall m p, is0f m p = o_is0 Op (get m p).
  Variables (dbl : proc) (vdbl : jac A -> jac A).
  Notation d := (o_zero Op).
  Hypothesis Hdbl : call_ok w (k * 3) (getJ k get) 1 dbl (u1 (d, d, d) vdbl).
  Variables (k' : nat) (fa : mem -> nat -> aff A) (fj : mem -> nat -> jac A).
  Hypothesis Ek : k = k'.
  Hypothesis Efa : forall m p, getA k get m p = fa m p.
  Hypothesis Efj : forall m p, getJ k get m p = fj m p.
  Lemma all_points : points_in_place w k' Op vdbl fa fj (a_neg_m k P) (j_neg_m k P) dbl (j_add_m k P eqf dbl)
    (j_normal_m k P is0f) (j_cpy_m k P) (j_set_inf_m k P) (j_from_a_m k P) (j_to_a_m k P) (j_add_a_m k P)
    (j_is_inf_m k is0f) (j_equal_m k P eqf).
  Proof.
    subst k'. assert (E2 : (k * 2 = 2 * k)%nat) by lia. assert (E3 : (k * 3 = 3 * k)%nat) by lia.
    split. { apply (call_ok_get _ _ _ _ _ _ _ _ E2 Efa). exact (a_neg_ok Op con w k get P eqf is0f Hk Hget Hop Heq His0). }
    split. { apply (call_ok_get _ _ _ _ _ _ _ _ E3 Efj). exact (j_neg_ok Op con w k get P eqf is0f Hk Hget Hop Heq His0). }
    split. { apply (call_ok_get _ _ _ _ _ _ _ _ E3 Efj). exact Hdbl. }
    split. { apply (call_ok_get _ _ _ _ _ _ _ _ E3 Efj). exact (j_add_ok Op con w k get P eqf is0f Hk Hget Hop Heq His0 dbl vdbl Hdbl). }
    split. { apply (call_ok_get _ _ _ _ _ _ _ _ E3 Efj). exact (j_normal_ok Op con w k get P eqf is0f Hk Hget Hop Heq His0). }
    split. { apply (call_ok_get _ _ _ _ _ _ _ _ E3 Efj). exact (j_cpy_ok Op con w k get P eqf is0f Hk Hget Hop Heq His0). }
    split. { apply (call_ok_get _ _ _ _ _ _ _ _ E3 Efj). exact (j_set_inf_ok Op con w k get P eqf is0f Hk Hget Hop Heq His0). }
    split. { intros sp r a m H1 H2 H3 H4. cbv zeta. unfold frame. rewrite <- Efj, <- Efa. rewrite <- E3 in *. rewrite <- E2 in *.
             exact (j_from_a_ok Op con w k get P eqf is0f Hk Hget Hop Heq His0 sp r a m H1 H2 H3 H4). }
    split. { intros sp r a m H1 H2 H3 H4. cbv zeta. unfold frame. rewrite <- Efj, <- Efa. rewrite <- E3 in *. rewrite <- E2 in *.
             exact (j_to_a_ok Op con w k get P eqf is0f Hk Hget Hop Heq His0 sp r a m H1 H2 H3 H4). }
    split. { intros sp r a b m H1 H2 H3 H4 H5 H6. cbv zeta. unfold frame. rewrite <- !Efj, <- Efa. rewrite <- E3 in *. rewrite <- E2 in *.
             exact (j_add_a_ok Op con w k get P eqf is0f Hk Hget Hop Heq His0 sp r a b m H1 H2 H3 H4 H5 H6). }
    split. { intros m a. rewrite <- Efj. exact (is_inf_val Op k get is0f His0 m a). }
    intros sp a b m H1 H2 H3. rewrite <- !Efj. rewrite <- E3 in *.
    pose proof (j_equal_ok Op con w k get P eqf is0f Hk Hget Hop Heq His0 sp a b m H1 H2 H3) as Q.
    destruct (j_equal_m k P eqf sp [a; b] m) as [m' e]. exact Q.
  Qed.
End Points.

Section Instances.
  Variable b : build.
  Notation k := (lims b).
  Definition sm2_points_ : Prop :=
    let Op := sm2_fp_ops (l9 (lib_of b)) in let P := sm2_fp_m b in
    points_in_place (bits b) k Op (j_dbl_2001b Op) (aff_at b) (jac_at b) (a_neg_m k P) (j_neg_m k P) (j_dbl_2001b_m k P)
      (j_add_m k P (sm2_eq_m b) (j_dbl_2001b_m k P)) (j_normal_m k P (sm2_is0_m b)) (j_cpy_m k P) (j_set_inf_m k P)
      (j_from_a_m k P) (j_to_a_m k P) (j_add_a_m k P) (j_is_inf_m k (sm2_is0_m b)) (j_equal_m k P (sm2_eq_m b)).
  Lemma sm2_points : sm2_points_.
  Proof.
    unfold sm2_points_. cbv zeta.
    refine (all_points (sm2_fp_ops (l9 (lib_of b))) _ (bits b) k (fp_at b) (sm2_fp_m b) (sm2_eq_m b) (sm2_is0_m b)
      (lims_pos b) (fp_local b) (sm2_fp_ok b) _ _ _ _ _ k (aff_at b) (jac_at b) eq_refl (getA_at b) (getJ_at b)).
    - intros m p q. reflexivity.
    - intros m p. reflexivity.
    - exact (j_dbl_2001b_ok (sm2_fp_ops (l9 (lib_of b))) _ (bits b) k (fp_at b) (sm2_fp_m b) (sm2_eq_m b) (sm2_is0_m b)
        (lims_pos b) (fp_local b) (sm2_fp_ok b) (fun m p q => eq_refl) (fun m p => eq_refl)).
  Qed.
  Definition sm9_points_ : Prop :=
    let Op := sm9_fp_ops (lib_of b) in let P := sm9_fp_m b in
    points_in_place (bits b) k Op (j_dbl_2009l Op) (aff_at b) (jac_at b) (a_neg_m k P) (j_neg_m k P) (j_dbl_2009l_m k P)
      (j_add_m k P (sm9_eq_m b) (j_dbl_2009l_m k P)) (j_normal_m k P (sm9_is0_m b)) (j_cpy_m k P) (j_set_inf_m k P)
      (j_from_a_m k P) (j_to_a_m k P) (j_add_a_m k P) (j_is_inf_m k (sm9_is0_m b)) (j_equal_m k P (sm9_eq_m b)).
  Lemma sm9_points : sm9_points_.
  Proof.
    unfold sm9_points_. cbv zeta.
    refine (all_points (sm9_fp_ops (lib_of b)) _ (bits b) k (fp_at b) (sm9_fp_m b) (sm9_eq_m b) (sm9_is0_m b)
      (lims_pos b) (fp_local b) (sm9_fp_ok b) _ _ _ _ _ k (aff_at b) (jac_at b) eq_refl (getA_at b) (getJ_at b)).
    - intros m p q. reflexivity.
    - intros m p. reflexivity.
    - exact (j_dbl_2009l_ok (sm9_fp_ops (lib_of b)) _ (bits b) k (fp_at b) (sm9_fp_m b) (sm9_eq_m b) (sm9_is0_m b)
        (lims_pos b) (fp_local b) (sm9_fp_ok b) (fun m p q => eq_refl) (fun m p => eq_refl)).
  Qed.
  Definition sm9_points2_ : Prop :=
    let Op := sm9_fp2_ops (lib_of b) in let P := sm9_fp2_m b in let k := (2 * lims b)%nat in
    points_in_place (bits b) k Op (j_dbl_2009l Op) (aff2_at b) (jac2_at b) (a_neg_m k P) (j_neg_m k P) (j_dbl_2009l_m k P)
      (j_add_m k P (sm9_eq2_m b) (j_dbl_2009l_m k P)) (j_normal_m k P (sm9_is02_m b)) (j_cpy_m k P) (j_set_inf_m k P)
      (j_from_a_m k P) (j_to_a_m k P) (j_add_a_m k P) (j_is_inf_m k (sm9_is02_m b)) (j_equal_m k P (sm9_eq2_m b)).
  Lemma sm9_points2 : sm9_points2_.
  Proof.
    unfold sm9_points2_. cbv zeta. rewrite <- (k2_eq b).
    refine (all_points (sm9_fp2_ops (lib_of b)) _ (bits b) (k2 k) (get2 k (fp_at b)) (sm9_fp2_m b) (sm9_eq2_m b) (sm9_is02_m b)
      (k2_pos' b) (G2_local b) (sm9_fp2_k b) (eq2_val b) (is02_val b) _ _ _ (k2 k) (aff2_at b) (jac2_at b) eq_refl (getA2_at b) (getJ2_at b)).
    exact (j_dbl_2009l_ok (sm9_fp2_ops (lib_of b)) _ (bits b) (k2 k) (get2 k (fp_at b)) (sm9_fp2_m b) (sm9_eq2_m b) (sm9_is02_m b)
      (k2_pos' b) (G2_local b) (sm9_fp2_k b) (eq2_val b) (is02_val b)).
  Qed.

  (** products with an element of a subfield *)
  Notation Op := (sm9_fp_ops (lib_of b)).
  Notation con := (con_of b (FP9_CTX (lib_of b)) sm9_con).
  Lemma scale2 : scales_in_place (bits b) k 2 (fp2_at b) (fp_at b) (fp2_mul_fp_m k (sm9_fp_m b)) (fp2_mul_fp Op).
  Proof.
    intros sp r a c m H1 H2 H3 H4 H5 H6. cbv zeta. rewrite <- !get2_at. unfold frame. rewrite <- (k2_eq b) in *.
    exact (mul_fp_k Op con (bits b) k (fp_at b) (sm9_fp_m b) _ _ (lims_pos b) (fp_local b) (sm9_fp_k b) HK0 sp r a c m H1 H2 H3 H4 H5 H6 I
             (fun q (F : False) => match F with end)).
  Qed.
  Lemma scale4 : scales_in_place (bits b) (2 * k) 2 (fp4_at b) (fp2_at b) (fp4_mul_fp2_m k (sm9_fp_m b))
    (fun x y => (fp2_mul Op (fst x) y, fp2_mul Op (snd x) y)).
  Proof.
    intros sp r a c m H1 H2 H3 H4 H5 H6. cbv zeta. rewrite <- !get2_at, <- !get4_at. unfold frame.
    assert (E : (2 * (2 * k))%nat = k4 k) by (rewrite k4_eq; lia). rewrite E in *. rewrite <- (k2_eq b) in *.
    exact (mul_fp2_k Op con (bits b) k (fp_at b) (sm9_fp_m b) _ _ (lims_pos b) (fp_local b) (sm9_fp_k b) HK0 sp r a c m H1 H2 H3 H4 H5 H6 I
             (fun q (F : False) => match F with end)).
  Qed.
  Lemma scale12 : scales_in_place (bits b) (4 * k) 3 (fp12_at b) (fp4_at b) (fp12_mul_fp4_m k (sm9_fp_m b))
    (fun x y => let '(x0, x1, x2) := x in (fp4_mul Op x0 y, fp4_mul Op x1 y, fp4_mul Op x2 y)).
  Proof.
    intros sp r a c m H1 H2 H3 H4 H5 H6. cbv zeta. rewrite <- !get4_at, <- !get12_at. unfold frame.
    assert (E : (3 * (4 * k))%nat = k12 k) by (rewrite k12_eq; lia). rewrite E in *. rewrite <- (k4_eq b) in *.
    exact (mul_fp4_k Op con (bits b) k (fp_at b) (sm9_fp_m b) _ _ (lims_pos b) (fp_local b) (sm9_fp_k b) HK0 sp r a c m H1 H2 H3 H4 H5 H6 I
             (fun q (F : False) => match F with end)).
  Qed.

  (** line functions *)
  Lemma getJ2_2 m p : ProofAliasF2.getJ2 k (fp_at b) m p = jac2_at b m p. Proof. exact (getJ2_at b m p). Qed.
  Lemma getA2_2 m p : ProofAliasF2.getA2 k (fp_at b) m p = aff2_at b m p. Proof. exact (getA2_at b m p). Qed.
  Lemma HK_at m p : Kl k (fp_at b) p (fst (aff_at b m p)) (snd (aff_at b m p)) m.
  Proof. split; reflexivity. Qed.
  Lemma lines sp f t p m : (f + 12 * k <= sp)%nat -> (t + 6 * k <= sp)%nat -> (p + 2 * k <= sp)%nat ->
    apart (12 * k) f (6 * k) t -> apart (12 * k) f (2 * k) p -> words (bits b) m ->
    (let m' := tangent_m k (sm9_fp_m b) sp f t p m in
     fp12_at b m' f = g_tangent_ja Op (jac2_at b m t) (aff_at b m p) /\ frame sp f (12 * k) m m' /\ words (bits b) m') /\
    (forall q, (q + 6 * k <= sp)%nat -> apart (12 * k) f (6 * k) q ->
     let m' := line_jja_m k (sm9_fp_m b) sp f t q p m in
     fp12_at b m' f = g_line_jja Op (jac2_at b m t) (jac2_at b m q) (aff_at b m p) /\ frame sp f (12 * k) m m' /\ words (bits b) m') /\
    (forall q, (q + 4 * k <= sp)%nat -> apart (12 * k) f (4 * k) q ->
     let m' := line_jaa_m k (sm9_fp_m b) sp f t q p m in
     fp12_at b m' f = g_line_jaa Op (jac2_at b m t) (aff2_at b m q) (aff_at b m p) /\ frame sp f (12 * k) m m' /\ words (bits b) m').
  Proof.
    intros Hf Ht Hp At Ap W. unfold apart, frame in *.
    assert (E3 : (k2 k * 3)%nat = (6 * k)%nat) by (unfold k2; lia).
    assert (E2 : (k2 k * 2)%nat = (4 * k)%nat) by (unfold k2; lia).
    assert (E1 : (k * 2)%nat = (2 * k)%nat) by lia.
    rewrite <- (k12_eq b) in *. cbv zeta.
    split; [|split].
    - rewrite <- get12_at, <- getJ2_2.
      refine (tangent_call Op con (bits b) k (fp_at b) (sm9_fp_m b) (lims_pos b) (fp_local b) (sm9_fp_ok b) p _ _ sp f m _ _ _ W (HK_at m p) t _ _);
        rewrite ?E1, ?E3; assumption.
    - intros q Hq Aq. rewrite <- get12_at, <- !getJ2_2.
      refine (jja_call Op con (bits b) k (fp_at b) (sm9_fp_m b) (lims_pos b) (fp_local b) (sm9_fp_ok b) p _ _ sp f m _ _ _ W (HK_at m p) t q _ _ _ _);
        rewrite ?E1, ?E3; assumption.
    - intros q Hq Aq. rewrite <- get12_at, <- getJ2_2, <- getA2_2.
      refine (jaa_call Op con (bits b) k (fp_at b) (sm9_fp_m b) (lims_pos b) (fp_local b) (sm9_fp_ok b) p _ _ sp f m _ _ _ W (HK_at m p) t q _ _ _ _);
        rewrite ?E1, ?E2, ?E3; assumption.
  Qed.
End Instances.

(** C72: the extension fields of SM9, the curve formulas of SM2 and SM9 and the line functions of the
    pairing, on memory: they may be called with the result object equal to an operand, and they write
    nothing but the result object.  The calls are those of ModelAliasF.v (pointers into one memory,
    instruction by instruction); the conclusions give the value left in the result object as the
    value function of ModelSM9.v / ModelEC.v on what the operands held before, whose meaning in the
    fields and groups is the subject of C37, C49, C50, C60.  Both builds. *)
From Verif Require Import Base BaseFacts SpecNumber ModelNumber ModelNumberX64 ModelMont.
From Verif Require Import ModelAlias SpecAlias ModelEC ModelSM2 SpecField SpecEC SpecSM9 SpecSM9Api ModelSM9 ModelAliasF SpecAliasF.
From Verif Require Import ProofAlias ProofAliasF ProofAliasF4 PropAlias ProofNumlib9 ProofSM9Rep PropSM9.

Definition fun1 {A} (d : A) (f : A -> A) (l : list A) : A := f (nth 0 l d).
Definition fun2 {A} (d : A) (f : A -> A -> A) (l : list A) : A := f (nth 0 l d) (nth 1 l d).
Ltac len_cases :=
  let l := fresh "l" in let E := fresh "E" in
  intros l E; cbn in E;
  repeat (let x := fresh "x" in destruct l as [|x l]; cbn in E; try discriminate E); cbv [fun1 fun2 nth]; reflexivity.

(** ** The fields *)
Theorem C72_fp2 : forall b : build,
  let O := sm9_fp_ops (lib_of b) in let z := fp2_zero O in
  let may_alias n p f := call_ok (bits b) (2 * lims b) (fp2_at b) n p f in
  may_alias 2%nat (sm9_fp2_m b Add) (fun2 z (fp2_add O)) /\
  may_alias 2%nat (sm9_fp2_m b Sub) (fun2 z (fp2_sub O)) /\
  may_alias 2%nat (sm9_fp2_m b Mul) (fun2 z (fp2_mul O)) /\
  may_alias 1%nat (sm9_fp2_m b Sqr) (fun1 z (fp2_sqr O)) /\
  may_alias 1%nat (sm9_fp2_m b Dbl) (fun1 z (fp2_dbl O)) /\
  may_alias 1%nat (sm9_fp2_m b Tpl) (fun1 z (fp2_tpl O)) /\
  may_alias 1%nat (sm9_fp2_m b Neg) (fun1 z (fp2_neg O)) /\
  may_alias 1%nat (sm9_fp2_m b Inv) (fun1 z (fp2_inv O)) /\
  may_alias 1%nat (sm9_fp2_m b Cpy) (fun1 z (fun x => x)) /\
  may_alias 1%nat (sm9_fp2_m b (Ext 0)) (fun1 z (fp2_mul_u O)) /\
  may_alias 1%nat (sm9_fp2_m b (Ext 1)) (fun1 z (fp2_conjugate O)) /\
  may_alias 0%nat (sm9_fp2_m b Zero) (fun _ => z) /\
  may_alias 0%nat (sm9_fp2_m b One) (fun _ => fp2_one O).
Proof.
  intros b O z may_alias.
  repeat match goal with |- _ /\ _ => split | |- may_alias _ (sm9_fp2_m b ?o) _ => apply (call_ok_ext _ _ _ _ _ _ _ (fp2_ok b o)) end; len_cases.
Qed.

Theorem C72_fp4 : forall b : build,
  let O := sm9_fp_ops (lib_of b) in let z := fp4_zero O in
  let may_alias n p f := call_ok (bits b) (4 * lims b) (fp4_at b) n p f in
  may_alias 2%nat (sm9_fp4_m b Add) (fun2 z (fp4_add O)) /\
  may_alias 2%nat (sm9_fp4_m b Sub) (fun2 z (fp4_sub O)) /\
  may_alias 2%nat (sm9_fp4_m b Mul) (fun2 z (fp4_mul O)) /\
  may_alias 1%nat (sm9_fp4_m b Sqr) (fun1 z (fp4_sqr O)) /\
  may_alias 1%nat (sm9_fp4_m b Neg) (fun1 z (fp4_neg O)) /\
  may_alias 1%nat (sm9_fp4_m b Inv) (fun1 z (fp4_inv O)) /\
  may_alias 1%nat (sm9_fp4_m b Cpy) (fun1 z (fun x => x)) /\
  may_alias 1%nat (sm9_fp4_m b (Ext 0)) (fun1 z (fp4_mul_v O)) /\
  may_alias 1%nat (sm9_fp4_m b (Ext 1)) (fun1 z (fp4_conjugate O)) /\
  may_alias 0%nat (sm9_fp4_m b Zero) (fun _ => z) /\
  may_alias 0%nat (sm9_fp4_m b One) (fun _ => fp4_one O).
Proof.
  intros b O z may_alias.
  repeat match goal with |- _ /\ _ => split | |- may_alias _ (sm9_fp4_m b ?o) _ => apply (call_ok_ext _ _ _ _ _ _ _ (fp4_ok b o eq_refl)) end; len_cases.
Qed.

Lemma con_eq b i : con_of b (FP9_CTX (lib_of b)) sm9_con i = sm9_fp_from_bytes (lib_of b) (sm9_con i).
Proof. destruct b; reflexivity. Qed.
Ltac frob_cases :=
  let l := fresh "l" in let E := fresh "E" in
  intros l E; cbn in E;
  repeat (let x := fresh "x" in destruct l as [|x l]; cbn in E; try discriminate E); cbv [fun1 fun2 nth];
  cbn [ProofAliasF2.F12]; rewrite ?con_eq; cbn [sm9_con nth]; reflexivity.

Theorem C72_fp12 : forall b : build,
  let O := sm9_fp_ops (lib_of b) in let z := fp12_zero O in
  let may_alias n p f := call_ok (bits b) (12 * lims b) (fp12_at b) n p f in
  may_alias 2%nat (sm9_fp12_m b Add) (fun2 z (fp12_add O)) /\
  may_alias 2%nat (sm9_fp12_m b Sub) (fun2 z (fp12_sub O)) /\
  may_alias 2%nat (sm9_fp12_m b Mul) (fun2 z (fp12_mul O)) /\
  may_alias 1%nat (sm9_fp12_m b Sqr) (fun1 z (fp12_sqr O)) /\
  may_alias 1%nat (sm9_fp12_m b Neg) (fun1 z (fp12_neg O)) /\
  may_alias 1%nat (sm9_fp12_m b Inv) (fun1 z (fp12_inv O)) /\
  may_alias 1%nat (sm9_fp12_m b Cpy) (fun1 z (fun x => x)) /\
  may_alias 0%nat (sm9_fp12_m b Zero) (fun _ => z) /\
  may_alias 0%nat (sm9_fp12_m b One) (fun _ => fp12_one O) /\
  may_alias 1%nat (sm9_fp12_m b (Ext 1)) (fun1 z (sm9_fp12_frobenius (lib_of b))) /\
  may_alias 1%nat (sm9_fp12_m b (Ext 2)) (fun1 z (sm9_fp12_frobenius2 (lib_of b))) /\
  may_alias 1%nat (sm9_fp12_m b (Ext 3)) (fun1 z (sm9_fp12_frobenius3 (lib_of b))) /\
  may_alias 1%nat (sm9_fp12_m b (Ext 6)) (fun1 z (sm9_fp12_frobenius6 (lib_of b))).
Proof.
  intros b O z may_alias.
  repeat match goal with |- _ /\ _ => split | |- may_alias _ (sm9_fp12_m b ?o) _ => apply (call_ok_ext _ _ _ _ _ _ _ (fp12_ok b o eq_refl)) end.
  1-9: len_cases.
  all: frob_cases.
Qed.

(** the field the objects stand for: any two elements of F_p^12 may be multiplied, squared, added,
    subtracted over one of the operands *)
Lemma build9_of b : build9 (bits b) (lims b) (lib_of b).
Proof. destruct b; constructor. Qed.
Theorem C72_fp12_product : forall b sp r a c m x y,
  let k := (12 * lims b)%nat in
  (r + k <= sp)%nat -> (a + k <= sp)%nat -> (c + k <= sp)%nat ->
  same_or_apart k r k a -> same_or_apart k r k c -> words (bits b) m ->
  stored12 (bits b) (lims b) (fp12_at b m a) x -> stored12 (bits b) (lims b) (fp12_at b m c) y ->
  (let m' := sm9_fp12_m b Mul sp r [a; c] m in
   holds12 (bits b) (lims b) (fp12_at b m' r) (fmul K12 x y) /\ frame sp r k m m') /\
  (let m' := sm9_fp12_m b Sqr sp r [a] m in
   holds12 (bits b) (lims b) (fp12_at b m' r) (fmul K12 x x) /\ frame sp r k m m').
Proof.
  intros b sp r a c m x y k Hr Ha Hc Aa Ac W Sx Sy.
  destruct (C72_fp12 b) as (_ & _ & HM & HS & _).
  pose proof (C49_fp12 _ _ _ (fp12_at b m a) (fp12_at b m c) x y (build9_of b)) as (VM & VS & _).
  split; cbv zeta.
  - destruct (HM sp r [a; c] m eq_refl Hr (Forall_cons _ (conj Ha Aa) (Forall_cons _ (conj Hc Ac) (Forall_nil _))) W) as (E & F & _).
    cbn [map] in E. cbv [fun2 nth] in E. split; [rewrite E; exact (VM Sx Sy)|exact F].
  - destruct (HS sp r [a] m eq_refl Hr (Forall_cons _ (conj Ha Aa) (Forall_nil _)) W) as (E & F & _).
    cbn [map] in E. cbv [fun1 nth] in E. split; [rewrite E; exact (VS Sx)|exact F].
Qed.

(** ** Products with an element of a subfield: the result may be the big operand *)
Theorem C72_scale : forall b : build,
  let O := sm9_fp_ops (lib_of b) in
  scales_in_place (bits b) (lims b) 2 (fp2_at b) (fp_at b) (fp2_mul_fp_m (lims b) (sm9_fp_m b)) (fp2_mul_fp O) /\
  scales_in_place (bits b) (2 * lims b) 2 (fp4_at b) (fp2_at b) (fp4_mul_fp2_m (lims b) (sm9_fp_m b))
    (fun x y => (fp2_mul O (fst x) y, fp2_mul O (snd x) y)) /\
  scales_in_place (bits b) (4 * lims b) 3 (fp12_at b) (fp4_at b) (fp12_mul_fp4_m (lims b) (sm9_fp_m b))
    (fun x y => let '(x0, x1, x2) := x in (fp4_mul O x0 y, fp4_mul O x1 y, fp4_mul O x2 y)).
Proof. intros b. exact (conj (scale2 b) (conj (scale4 b) (scale12 b))). Qed.

(** but not with the small operand inside the result: here it is the first coordinate of the result,
    and the second coordinate comes out wrong *)
Theorem C72_scale_refuted : exists m sp r a,
  words 64 m /\ (r + 2 * 4 <= sp)%nat /\ (a + 2 * 4 <= sp)%nat /\ same_or_apart (2 * 4) r (2 * 4) a /\
  fp2_at X64 (fp2_mul_fp_m 4 (sm9_fp_m X64) sp r [a; r] m) r <>
  fp2_mul_fp (sm9_fp_ops lib9_x64) (fp2_at X64 m a) (fp_at X64 m r).
Proof.
  exists (fun q => if (q mod 4 =? 0)%nat then 1 else 0), 16%nat, 0%nat, 8%nat.
  split. { intros q. destruct (q mod 4 =? 0)%nat; lia. }
  split; [cbn; lia|]. split; [cbn; lia|]. split; [right; left; cbn; lia|].
  intros E. apply (f_equal (fun x => nth 0 (snd x) 0)) in E. vm_compute in E. discriminate E.
Qed.

(** ** The points *)
Theorem C72_sm2_points : forall b : build,
  let k := lims b in let O := sm2_fp_ops (l9 (lib_of b)) in let P := sm2_fp_m b in
  points_in_place (bits b) k O (j_dbl_2001b O) (aff_at b) (jac_at b)
    (a_neg_m k P) (j_neg_m k P) (j_dbl_2001b_m k P) (j_add_m k P (sm2_eq_m b) (j_dbl_2001b_m k P))
    (j_normal_m k P (sm2_is0_m b)) (j_cpy_m k P) (j_set_inf_m k P) (j_from_a_m k P) (j_to_a_m k P)
    (j_add_a_m k P) (j_is_inf_m k (sm2_is0_m b)) (j_equal_m k P (sm2_eq_m b)).
Proof. exact sm2_points. Qed.
Theorem C72_sm9_g1_points : forall b : build,
  let k := lims b in let O := sm9_fp_ops (lib_of b) in let P := sm9_fp_m b in
  points_in_place (bits b) k O (j_dbl_2009l O) (aff_at b) (jac_at b)
    (a_neg_m k P) (j_neg_m k P) (j_dbl_2009l_m k P) (j_add_m k P (sm9_eq_m b) (j_dbl_2009l_m k P))
    (j_normal_m k P (sm9_is0_m b)) (j_cpy_m k P) (j_set_inf_m k P) (j_from_a_m k P) (j_to_a_m k P)
    (j_add_a_m k P) (j_is_inf_m k (sm9_is0_m b)) (j_equal_m k P (sm9_eq_m b)).
Proof. exact sm9_points. Qed.
Theorem C72_sm9_g2_points : forall b : build,
  let k := (2 * lims b)%nat in let O := sm9_fp2_ops (lib_of b) in let P := sm9_fp2_m b in
  points_in_place (bits b) k O (j_dbl_2009l O) (aff2_at b) (jac2_at b)
    (a_neg_m k P) (j_neg_m k P) (j_dbl_2009l_m k P) (j_add_m k P (sm9_eq2_m b) (j_dbl_2009l_m k P))
    (j_normal_m k P (sm9_is02_m b)) (j_cpy_m k P) (j_set_inf_m k P) (j_from_a_m k P) (j_to_a_m k P)
    (j_add_a_m k P) (j_is_inf_m k (sm9_is02_m b)) (j_equal_m k P (sm9_eq2_m b)).
Proof. exact sm9_points2. Qed.

(** ** The line functions: f apart from the operands, which they leave alone *)
Theorem C72_lines : forall b sp f t p m,
  let k := lims b in let O := sm9_fp_ops (lib_of b) in
  (f + 12 * k <= sp)%nat -> (t + 6 * k <= sp)%nat -> (p + 2 * k <= sp)%nat ->
  apart (12 * k) f (6 * k) t -> apart (12 * k) f (2 * k) p -> words (bits b) m ->
  (let m' := tangent_m k (sm9_fp_m b) sp f t p m in
   fp12_at b m' f = g_tangent_ja O (jac2_at b m t) (aff_at b m p) /\ frame sp f (12 * k) m m' /\ words (bits b) m') /\
  (forall q, (q + 6 * k <= sp)%nat -> apart (12 * k) f (6 * k) q ->
   let m' := line_jja_m k (sm9_fp_m b) sp f t q p m in
   fp12_at b m' f = g_line_jja O (jac2_at b m t) (jac2_at b m q) (aff_at b m p) /\ frame sp f (12 * k) m m' /\ words (bits b) m') /\
  (forall q, (q + 4 * k <= sp)%nat -> apart (12 * k) f (4 * k) q ->
   let m' := line_jaa_m k (sm9_fp_m b) sp f t q p m in
   fp12_at b m' f = g_line_jaa O (jac2_at b m t) (aff2_at b m q) (aff_at b m p) /\ frame sp f (12 * k) m m' /\ words (bits b) m').
Proof. intros b sp f t p m k O. exact (lines b sp f t p m). Qed.

(** ** Concrete calls *)
(** The SM9 generator of G1 doubled over itself, and added to itself with all three pointers equal,
    on a memory where it lies at address 8: the hypotheses of the theorems hold. *)
Definition ex_G : mem :=
  let (x, y) := sm9_P1 lib9_x64 in ex_mem 8 (x ++ y ++ o_one (sm9_fp_ops lib9_x64)).
Example C72_double_in_place_example :
  let O := sm9_fp_ops lib9_x64 in let P := sm9_fp_m X64 in
  let dbl := j_dbl_2009l_m 4 P in
  let m1 := dbl 20%nat 8%nat [8]%nat ex_G in
  let m2 := j_add_m 4 P (sm9_eq_m X64) dbl 20%nat 8%nat [8; 8]%nat ex_G in
  words 64 ex_G /\ jac_at X64 ex_G 8 = j_from_a O (sm9_P1 lib9_x64) /\
  jac_at X64 m1 8 = j_dbl_2009l O (j_from_a O (sm9_P1 lib9_x64)) /\
  jac_at X64 m2 8 = j_add O (j_dbl_2009l O) (j_from_a O (sm9_P1 lib9_x64)) (j_from_a O (sm9_P1 lib9_x64)) /\
  (forall q, (q < 8)%nat -> m1 q = ex_G q /\ m2 q = ex_G q).
Proof.
  intros O P dbl m1 m2.
  assert (W : words 64 ex_G).
  { unfold ex_G. destruct (sm9_P1 lib9_x64) as [x y] eqn:E. vm_compute in E. injection E as <- <-.
    apply wr_words; [intros q; cbn; lia|]. repeat constructor; vm_compute; congruence. }
  assert (EG : jac_at X64 ex_G 8 = j_from_a O (sm9_P1 lib9_x64)) by (vm_compute; reflexivity).
  assert (A8 : Forall (fun a => (a + 12 <= 20)%nat /\ same_or_apart 12 8 12 a) [8; 8]%nat).
  { repeat constructor. }
  destruct (C72_sm9_g1_points X64) as (_ & _ & HD & HA & _).
  destruct (HD 20%nat 8%nat [8]%nat ex_G eq_refl (Nat.le_refl 20) (Forall_inv_tail A8) W) as (E1 & F1 & _).
  destruct (HA 20%nat 8%nat [8; 8]%nat ex_G eq_refl (Nat.le_refl 20) A8 W) as (E2 & F2 & _).
  cbn [map nth] in E1, E2. rewrite EG in E1, E2.
  split; [exact W|]. split; [exact EG|]. split; [exact E1|]. split; [exact E2|].
  intros q Hq. split; [apply F1|apply F2]; (try (left; exact Hq)); lia.
Qed.

(** An element of F_p^2 (2 + 3 u, not in Montgomery form) squared over itself and multiplied by itself
    over itself. *)
Example C72_fp2_in_place_example :
  let m := ex_mem 8 [2; 0; 0; 0; 3; 0; 0; 0] in
  let m1 := sm9_fp2_m X64 Sqr 16%nat 8%nat [8]%nat m in
  let m2 := sm9_fp2_m X64 Mul 16%nat 8%nat [8; 8]%nat m in
  fp2_at X64 m 8 = ([2; 0; 0; 0], [3; 0; 0; 0]) /\
  fp2_at X64 m1 8 = fp2_sqr (sm9_fp_ops lib9_x64) (fp2_at X64 m 8) /\
  fp2_at X64 m2 8 = fp2_mul (sm9_fp_ops lib9_x64) (fp2_at X64 m 8) (fp2_at X64 m 8).
Proof.
  intros m m1 m2. split; [reflexivity|].
  assert (W : words 64 m). { apply wr_words; [intros q; cbn; lia|]. repeat constructor; vm_compute; congruence. }
  assert (A8 : Forall (fun a => (a + 8 <= 16)%nat /\ same_or_apart 8 8 8 a) [8; 8]%nat) by repeat constructor.
  destruct (C72_fp2 X64) as (_ & _ & HM & HS & _). split.
  - exact (proj1 (HS 16%nat 8%nat [8]%nat m eq_refl (Nat.le_refl 16) (Forall_inv_tail A8) W)).
  - exact (proj1 (HM 16%nat 8%nat [8; 8]%nat m eq_refl (Nat.le_refl 16) A8 W)).
Qed.

(** One in F_p^12 stored at address 0, in the portable build: the hypotheses of [C72_fp12_product] with
    r = a = c. *)
Example C72_fp12_product_example :
  let m := sm9_fp12_m Common One 96%nat 0%nat [] (fun _ => 0) in
  words 32 m /\ same_or_apart 96 0 96 0 /\ stored12 32 8 (fp12_at Common m 0) (f1 K12).
Proof.
  destruct (C72_fp12 Common) as (_ & _ & _ & _ & _ & _ & _ & _ & H & _).
  destruct (H 96%nat 0%nat [] (fun _ => 0) eq_refl (Nat.le_refl 96) (Forall_nil _)) as (E & _ & W).
  { intros q. cbn. lia. }
  cbv zeta. split; [exact W|]. split; [left; reflexivity|].
  rewrite E. apply stored12_W. exact (r12_w 32 8 lib9_common lib9_common_ok _ _ (r12_one 32 8 lib9_common lib9_common_ok)).
Qed.

Definition C72_theorems := (@C72_fp2, @C72_fp4, @C72_fp12, @C72_fp12_product, @C72_scale, @C72_scale_refuted,
  @C72_sm2_points, @C72_sm9_g1_points, @C72_sm9_g2_points, @C72_lines).
Print Assumptions C72_theorems.

(** The extension fields and the curve formulas on memory. *)
From Verif Require Import Base BaseFacts ModelNumber ModelNumberX64 ModelMont ModelAlias SpecAlias.
From Verif Require Import ModelEC ModelSM9 ModelAliasF ProofAliasF.

(** ** The functions on values *)
Section Tables.
  Context {T : Type} (Op : fops T) (con : nat -> T).
  Definition F1 (o : op) (l : list T) : T :=
    match o, l with
    | Add, [x; y] => o_add Op x y | Sub, [x; y] => o_sub Op x y | Mul, [x; y] => o_mul Op x y
    | Sqr, [x] => o_sqr Op x | Dbl, [x] => o_dbl Op x | Tpl, [x] => o_tpl Op x
    | Neg, [x] => o_neg Op x | Inv, [x] => o_inv Op x | Cpy, [x] => x
    | One, _ => o_one Op | Con i, _ => con i | _, _ => o_zero Op
    end.
  Definition F2 (o : op) (l : list (p2 T)) : p2 T :=
    match o, l with
    | Add, [x; y] => fp2_add Op x y | Sub, [x; y] => fp2_sub Op x y | Mul, [x; y] => fp2_mul Op x y
    | Sqr, [x] => fp2_sqr Op x | Dbl, [x] => fp2_dbl Op x | Tpl, [x] => fp2_tpl Op x
    | Neg, [x] => fp2_neg Op x | Inv, [x] => fp2_inv Op x | Cpy, [x] => x
    | One, _ => fp2_one Op | Con i, _ => (con i, o_zero Op)
    | Ext 0, [x] => fp2_mul_u Op x | Ext 1, [x] => fp2_conjugate Op x
    | Ext (S (S i)), [x] => fp2_mul_fp Op x (con i)
    | _, _ => fp2_zero Op
    end.
  Definition F4 (o : op) (l : list (p4 T)) : p4 T :=
    match o, l with
    | Add, [x; y] => fp4_add Op x y | Sub, [x; y] => fp4_sub Op x y | Mul, [x; y] => fp4_mul Op x y
    | Sqr, [x] => fp4_sqr Op x
    | Neg, [x] => fp4_neg Op x | Inv, [x] => fp4_inv Op x | Cpy, [x] => x
    | One, _ => fp4_one Op
    | Ext 0, [x] => fp4_mul_v Op x | Ext 1, [x] => fp4_conjugate Op x
    | Ext (S (S i)), [x] => fp4_mul_fp Op x (con i)
    | _, _ => fp4_zero Op
    end.
  Definition F12 (o : op) (l : list (p12 T)) : p12 T :=
    match o, l with
    | Add, [x; y] => fp12_add Op x y | Sub, [x; y] => fp12_sub Op x y | Mul, [x; y] => fp12_mul Op x y
    | Sqr, [x] => fp12_sqr Op x
    | Neg, [x] => fp12_neg Op x | Inv, [x] => fp12_inv Op x | Cpy, [x] => x
    | One, _ => fp12_one Op
    | Ext 1, [x] => fp12_frobenius Op (con 2%nat) (con 3%nat) (con 4%nat) (con 5%nat) (con 6%nat) x
    | Ext 2, [x] => fp12_frobenius2 Op (con 3%nat) (con 5%nat) x
    | Ext 3, [x] => fp12_frobenius3 Op (con 7%nat) x
    | Ext 6, [x] => fp12_frobenius6 Op x
    | _, _ => fp12_zero Op
    end.
  Definition ok1 (o : op) : bool := match o with Ext _ => false | _ => true end.
  Definition ok2 (o : op) : bool := true.
  Definition ok4 (o : op) : bool := match o with Dbl | Tpl | Con _ => false | _ => true end.
  Definition ok12 (o : op) : bool :=
    match o with Dbl | Tpl | Con _ => false | Ext 1 | Ext 2 | Ext 3 | Ext 6 => true | Ext _ => false | _ => true end.
End Tables.

Definition tp2 {A} (g : nat -> A) : A * A := (g 0%nat, g 1%nat).
Definition tp3 {A} (g : nat -> A) : A * A * A := (g 0%nat, g 1%nat, g 2%nat).
Definition tp4 {A} (g : nat -> A) : p4 A := ((g 0%nat, g 1%nat), (g 2%nat, g 3%nat)).
Definition tp12 {A} (g : nat -> A * A) : p12 A :=
  ((g 0%nat, g 1%nat), (g 2%nat, g 3%nat), (g 4%nat, g 5%nat)).
Lemma tp2_ext {A} (g h : nat -> A) : (forall i, (i < 2)%nat -> g i = h i) -> tp2 g = tp2 h.
Proof. intros H. unfold tp2. now rewrite !H by lia. Qed.
Lemma tp3_ext {A} (g h : nat -> A) : (forall i, (i < 3)%nat -> g i = h i) -> tp3 g = tp3 h.
Proof. intros H. unfold tp3. now rewrite !H by lia. Qed.
Lemma tp4_ext {A} (g h : nat -> A) : (forall i, (i < 4)%nat -> g i = h i) -> tp4 g = tp4 h.
Proof. intros H. unfold tp4. now rewrite !H by lia. Qed.
Lemma tp12_ext {A} (g h : nat -> A * A) : (forall i, (i < 6)%nat -> g i = h i) -> tp12 g = tp12 h.
Proof. intros H. unfold tp12. now rewrite !H by lia. Qed.

Ltac bools bs H :=
  lazymatch type of H with
  | _ = 0%nat => destruct bs; [clear H|discriminate H]
  | _ = S _ => destruct bs as [|? bs]; [discriminate H|cbn [length] in H; apply Nat.succ_inj in H; bools bs H]
  end.
Ltac bool_cases := repeat match goal with b : bool |- _ => destruct b end.
Ltac body_val := let bs := fresh "bs" in let H := fresh in intros bs ? H; bools bs H; bool_cases; reflexivity.

(** ** Calls with operands of different sizes *)
Lemma f2_len {A B} (R : A -> B -> Prop) l l' : Forall2 R l l' -> length l = length l'.
Proof. intros H. induction H as [|a b l l' _ _ IH]; [reflexivity|]. cbn [length]. now f_equal. Qed.
Lemma f2_nth (R : nat -> nat -> Prop) l l' : Forall2 R l l' -> forall j, (j < length l')%nat -> R (nth j l 0%nat) (nth j l' 0%nat).
Proof.
  intros H. induction H as [|a b l l' Ha _ IH]; intros j Hj; [cbn in Hj; lia|].
  destruct j as [|j]; [exact Ha|]. cbn [nth]. apply IH. cbn in Hj. lia.
Qed.
Section Mix.
  Context {A : Type}.
  Variables (w : Z) (k : nat) (get : mem -> nat -> A) (P : op -> proc) (F : op -> list A -> A)
    (okop : op -> bool) (K : mem -> Prop) (ro : nat -> Prop).
  Hypothesis Hk : (0 < k)%nat.
  Hypothesis Hget : local_get k get.
  Hypothesis Hop : forall o, okop o = true -> call_k w k get K ro (arity o) (P o) (F o).
  Hypothesis HK : forall m m', (forall q, ro q -> m' q = m q) -> K m -> K m'.
  Variables (c nloc : nat) (cs : list nat) (sp r : nat) (args : list nat).
  Hypothesis Hc : (0 < c)%nat.
  Hypothesis H2 : (r + k * c <= sp)%nat.
  Hypothesis H3 : Forall2 (fun a s => (a + k * s <= sp)%nat /\ same_or_apart (k * c) r (k * s) a) args cs.
  Hypothesis H6 : forall q, ro q -> (q < sp)%nat /\ ((q < r)%nat \/ (r + k * c <= q)%nat).
  Lemma mix_len : length args = length cs.
  Proof. exact (f2_len _ _ _ H3). Qed.
  Lemma mix_nth j : (j < length cs)%nat ->
    (arg args j + k * nth j cs 0 <= sp)%nat /\ same_or_apart (k * c) r (k * nth j cs 0%nat) (arg args j).
  Proof.
    exact (f2_nth _ _ _ H3 j).
  Qed.
  Lemma mix_placed : exists bs, length bs = length args /\ placed k ro c cs bs sp r args /\
    (forall j, nth j bs false = true -> arg args j = r).
  Proof.
    exists (bs_of r args). split; [apply map_length|]. split.
    - split; [exact H2|]. split; [|exact H6]. intros j Hj. destruct (mix_nth j Hj) as (Q1 & Q2). split; [exact Q1|].
      rewrite bs_nth by (rewrite mix_len; exact Hj).
      destruct (Nat.eqb_spec (arg args j) r) as [E|E]; [left; auto|right]. split; [reflexivity|].
      destruct Q2 as [Q2|Q2]; [contradiction|exact Q2].
    - intros j E. destruct (le_lt_dec (length args) j) as [L|L].
      { rewrite nth_overflow in E by (unfold bs_of; rewrite map_length; exact L). discriminate E. }
      rewrite bs_nth in E by exact L. now apply Nat.eqb_eq.
  Qed.
  Lemma mix body m : wf okop c nloc cs body = true -> words w m -> K m ->
    exists bs st, length bs = length args /\ (forall j, nth j bs false = true -> arg args j = r) /\
      (forall j i, (i < nth j cs 0)%nat -> st (al bs (OA j)) i = get m (arg args j + k * i)%nat) /\
      (forall i, (i < c)%nat -> get (code k P nloc body sp r args m) (r + k * i)%nat = vrun F bs body st OR i) /\
      (forall q, (q < sp)%nat -> (q < r)%nat \/ (r + k * c <= q)%nat -> code k P nloc body sp r args m q = m q) /\
      words w (code k P nloc body sp r args m).
  Proof.
    intros Hw W HKm. destruct mix_placed as (bs & B1 & B2 & B3). exists bs, (st0 k get sp r args m).
    destruct (code_spec w k get P F okop K ro Hk Hget Hop HK c nloc cs bs sp r args B2 body m Hw W HKm) as (E1 & E2 & E3 & _).
    split; [exact B1|]. split; [exact B3|]. split; [|split; [exact E1|split; [exact E2|exact E3]]].
    intros j i Hi. unfold st0, addr. cbn [fst snd]. f_equal. f_equal.
    apply (env_al k ro Hk c 0 cs bs sp r args B2 (OA j)). cbn [size]. lia.
  Qed.
End Mix.

Section TowerMem.
  Context {T : Type} (Op : fops T) (con : nat -> T).
  Variables (w : Z) (k : nat) (get1 : mem -> nat -> T) (P1_ : op -> proc) (K : mem -> Prop) (ro : nat -> Prop).
  Hypothesis Hk : (0 < k)%nat.
  Hypothesis Hget : local_get k get1.
  Hypothesis Hop : forall o, ok1 o = true -> call_k w k get1 K ro (arity o) (P1_ o) (F1 Op con o).
  Hypothesis HK : forall m m', (forall q, ro q -> m' q = m q) -> K m -> K m'.
  Definition get2 : mem -> nat -> p2 T := getc k get1 tp2.
  Definition get4 : mem -> nat -> p4 T := getc (k2 k) get2 tp2.
  Definition get12 : mem -> nat -> p12 T := getc (k4 k) get4 tp3.
  Lemma k2_pos : (0 < k2 k)%nat. Proof. unfold k2. lia. Qed.
  Lemma k4_pos : (0 < k4 k)%nat. Proof. unfold k4, k2. lia. Qed.
  Lemma get2_local : local_get (k2 k) get2.
  Proof. apply getc_local; [exact Hget|exact tp2_ext]. Qed.
  Lemma get4_local : local_get (k4 k) get4.
  Proof. apply getc_local; [exact get2_local|exact tp2_ext]. Qed.
  Lemma get12_local : local_get (k12 k) get12.
  Proof. apply getc_local; [exact get4_local|exact tp3_ext]. Qed.

  Ltac l2 := apply (lift w k get1 P1_ (F1 Op con) ok1 K ro Hk Hget Hop HK 2 tp2 ltac:(lia) tp2_ext);
    [reflexivity|body_val].
  Lemma call2 o : call_k w (k2 k) get2 K ro (arity o) (P2 k P1_ o) (F2 Op con o).
  Proof.
    destruct o as [| | | | | | | | | | |i|[|[|i]]]; cbn [arity P2]; l2.
  Qed.

  Ltac l4 := apply (lift w (k2 k) get2 (P2 k P1_) (F2 Op con) ok2 K ro k2_pos get2_local (fun o _ => call2 o) HK 2 tp2 ltac:(lia) tp2_ext);
    [reflexivity|body_val].
  Lemma get4_cells m p : getc k get1 tp4 m p = get4 m p.
  Proof using.
    clear. unfold get4, get2, getc, tp2, tp4, k2. repeat apply (f_equal2 pair); apply (f_equal (get1 m)); lia.
  Qed.
  Lemma call4 o : ok4 o = true -> call_k w (k4 k) get4 K ro (arity o) (P4 k P1_ o) (F4 Op con o).
  Proof.
    intros Ho. destruct o as [| | | | | | | | | | |i|[|[|i]]]; cbn [arity P4]; try discriminate Ho; try l4.
    apply (call_k_get w (k * 4) (k4 k) (getc k get1 tp4) get4); [unfold k4, k2; lia|exact get4_cells|].
    apply (lift w k get1 P1_ (F1 Op con) ok1 K ro Hk Hget Hop HK 4 tp4 ltac:(lia) tp4_ext); [reflexivity|body_val].
  Qed.

  Ltac l12 := apply (lift w (k4 k) get4 (P4 k P1_) (F4 Op con) ok4 K ro k4_pos get4_local call4 HK 3 tp3 ltac:(lia) tp3_ext);
    [reflexivity|body_val].
  Lemma get12_cells m p : getc (k2 k) get2 tp12 m p = get12 m p.
  Proof using. clear. unfold get12, get4, getc, tp2, tp3, tp12, k4, k2. repeat apply (f_equal2 pair); apply (f_equal (get1 m)); lia. Qed.
  Ltac l26 := apply (call_k_get w (k2 k * 6) (k12 k) (getc (k2 k) get2 tp12) get12); [unfold k12, k4; lia|exact get12_cells|];
    apply (lift w (k2 k) get2 (P2 k P1_) (F2 Op con) ok2 K ro k2_pos get2_local (fun o _ => call2 o) HK 6 tp12 ltac:(lia) tp12_ext);
    [reflexivity|body_val].
  Lemma call12_mul : call_k w (k12 k) get12 K ro 2 (fp12_mul_m k P1_) (F12 Op con Mul).
  Proof. unfold fp12_mul_m. l12. Qed.
  Lemma call12 o : ok12 o = true -> call_k w (k12 k) get12 K ro (arity o) (P12 k P1_ o) (F12 Op con o).
  Proof.
    intros Ho. destruct o as [| | | | | | | | | | |i|[|[|[|[|[|[|[|i]]]]]]]]; cbn [arity P12]; try discriminate Ho;
      [l12|l12|exact call12_mul| |l12|l12|l12|l12|l12|l26|l12|l26|l12].
    intros sp r args m H1 H2 H3 H4 H5 H6. destruct args as [|a [|? ?]]; try discriminate H1.
    cbn [arg nth map]. inversion H3 as [|? ? Ha _].
    destruct (call12_mul sp r [a; a] m eq_refl H2 (Forall_cons a Ha (Forall_cons a Ha (Forall_nil _))) H4 H5 H6) as (C1 & C2 & C3).
    split; [exact C1|split; assumption].
  Qed.

  (** *** products with an element of a smaller field *)
  Lemma vfp_val {A} (F : op -> list A -> A) (mul : A -> A -> A) bs st : length bs = 2%nat -> nth 1 bs false = false ->
    (forall x y, F Mul [x; y] = mul x y) ->
    tp2 (vrun F bs b2_mul_fp st OR) =
      (mul (st (al bs (OA 0)) 0%nat) (st (al bs (OA 1)) 0%nat), mul (st (al bs (OA 0)) 1%nat) (st (al bs (OA 1)) 0%nat)) /\
    tp3 (vrun F bs b12_mul_fp4 st OR) =
      (mul (st (al bs (OA 0)) 0%nat) (st (al bs (OA 1)) 0%nat), mul (st (al bs (OA 0)) 1%nat) (st (al bs (OA 1)) 0%nat),
       mul (st (al bs (OA 0)) 2%nat) (st (al bs (OA 1)) 0%nat)).
  Proof.
    intros H N E. bools bs H. cbn [nth] in N. subst b0. unfold tp2, tp3.
    split; [|]; repeat apply (f_equal2 pair); rewrite <- E; bool_cases; reflexivity.
  Qed.
  Lemma mul_fp_k sp r a b m : (r + k2 k <= sp)%nat -> (a + k2 k <= sp)%nat -> (b + k <= sp)%nat ->
    same_or_apart (k2 k) r (k2 k) a -> (r + k2 k <= b \/ b + k <= r)%nat -> words w m -> K m ->
    (forall q, ro q -> (q < sp)%nat /\ ((q < r)%nat \/ (r + k2 k <= q)%nat)) ->
    get2 (fp2_mul_fp_m k P1_ sp r [a; b] m) r = fp2_mul_fp Op (get2 m a) (get1 m b) /\
    (forall q, (q < sp)%nat -> (q < r)%nat \/ (r + k2 k <= q)%nat -> fp2_mul_fp_m k P1_ sp r [a; b] m q = m q) /\
    words w (fp2_mul_fp_m k P1_ sp r [a; b] m).
  Proof.
    intros H1 H2 H3 H4 H5 W HKm Hro. unfold k2 in *.
    destruct (mix w k get1 P1_ (F1 Op con) ok1 K ro Hk Hget Hop HK 2 0 [2; 1]%nat sp r [a; b] ltac:(lia) H1) with (body := b2_mul_fp) (m := m)
      as (bs & st & B1 & B2 & B3 & E1 & E2 & E3); [| |reflexivity|exact W|exact HKm|].
    { constructor; [split; assumption|]. constructor; [|constructor]. split; [lia|right; lia]. }
    { exact Hro. }
    assert (N : nth 1 bs false = false).
    { destruct (nth 1 bs false) eqn:E; [|reflexivity]. apply B2 in E. cbn [arg nth] in E. lia. }
    destruct (vfp_val (F1 Op con) (o_mul Op) bs st B1 N (fun x y => eq_refl)) as (V & _).
    split; [|split; [exact E2|exact E3]].
    transitivity (tp2 (vrun (F1 Op con) bs b2_mul_fp st OR)).
    { apply tp2_ext. exact E1. }
    rewrite V. pose proof (B3 0%nat 0%nat ltac:(cbn; lia)) as Q0. pose proof (B3 0%nat 1%nat ltac:(cbn; lia)) as Q1.
    pose proof (B3 1%nat 0%nat ltac:(cbn; lia)) as Q2. rewrite Q0, Q1, Q2. cbn [arg nth].
    replace (b + k * 0)%nat with b by lia. reflexivity.
  Qed.
  Lemma mul_fp2_k sp r a b m : (r + k4 k <= sp)%nat -> (a + k4 k <= sp)%nat -> (b + k2 k <= sp)%nat ->
    same_or_apart (k4 k) r (k4 k) a -> (r + k4 k <= b \/ b + k2 k <= r)%nat -> words w m -> K m ->
    (forall q, ro q -> (q < sp)%nat /\ ((q < r)%nat \/ (r + k4 k <= q)%nat)) ->
    get4 (fp4_mul_fp2_m k P1_ sp r [a; b] m) r =
      (fp2_mul Op (fst (get4 m a)) (get2 m b), fp2_mul Op (snd (get4 m a)) (get2 m b)) /\
    (forall q, (q < sp)%nat -> (q < r)%nat \/ (r + k4 k <= q)%nat -> fp4_mul_fp2_m k P1_ sp r [a; b] m q = m q) /\
    words w (fp4_mul_fp2_m k P1_ sp r [a; b] m).
  Proof.
    intros H1 H2 H3 H4 H5 W HKm Hro. pose proof k2_pos as Hk2. unfold k4 in *.
    destruct (mix w (k2 k) get2 (P2 k P1_) (F2 Op con) ok2 K ro k2_pos get2_local (fun o _ => call2 o) HK 2 0 [2; 1]%nat sp r [a; b] ltac:(lia) H1)
      with (body := b4_mul_fp2) (m := m)
      as (bs & st & B1 & B2 & B3 & E1 & E2 & E3); [| |reflexivity|exact W|exact HKm|].
    { constructor; [split; assumption|]. constructor; [|constructor]. split; [lia|right; lia]. }
    { exact Hro. }
    assert (N : nth 1 bs false = false).
    { destruct (nth 1 bs false) eqn:E; [|reflexivity]. apply B2 in E. cbn [arg nth] in E. lia. }
    destruct (vfp_val (F2 Op con) (fp2_mul Op) bs st B1 N (fun x y => eq_refl)) as (V & _).
    split; [|split; [exact E2|exact E3]].
    transitivity (tp2 (vrun (F2 Op con) bs b4_mul_fp2 st OR)).
    { apply tp2_ext. exact E1. }
    change b4_mul_fp2 with b2_mul_fp. rewrite V. pose proof (B3 0%nat 0%nat ltac:(cbn; lia)) as Q0. pose proof (B3 0%nat 1%nat ltac:(cbn; lia)) as Q1.
    pose proof (B3 1%nat 0%nat ltac:(cbn; lia)) as Q2. rewrite Q0, Q1, Q2. cbn [arg nth].
    replace (b + k2 k * 0)%nat with b by lia. reflexivity.
  Qed.
  Lemma mul_fp4_k sp r a b m : (r + k12 k <= sp)%nat -> (a + k12 k <= sp)%nat -> (b + k4 k <= sp)%nat ->
    same_or_apart (k12 k) r (k12 k) a -> (r + k12 k <= b \/ b + k4 k <= r)%nat -> words w m -> K m ->
    (forall q, ro q -> (q < sp)%nat /\ ((q < r)%nat \/ (r + k12 k <= q)%nat)) ->
    get12 (fp12_mul_fp4_m k P1_ sp r [a; b] m) r =
      (let '(x0, x1, x2) := get12 m a in
       (fp4_mul Op x0 (get4 m b), fp4_mul Op x1 (get4 m b), fp4_mul Op x2 (get4 m b))) /\
    (forall q, (q < sp)%nat -> (q < r)%nat \/ (r + k12 k <= q)%nat -> fp12_mul_fp4_m k P1_ sp r [a; b] m q = m q) /\
    words w (fp12_mul_fp4_m k P1_ sp r [a; b] m).
  Proof.
    intros H1 H2 H3 H4 H5 W HKm Hro. pose proof k4_pos as Hk4. unfold k12 in *.
    destruct (mix w (k4 k) get4 (P4 k P1_) (F4 Op con) ok4 K ro k4_pos get4_local call4 HK 3 0 [3; 1]%nat sp r [a; b] ltac:(lia) H1)
      with (body := b12_mul_fp4) (m := m)
      as (bs & st & B1 & B2 & B3 & E1 & E2 & E3); [| |reflexivity|exact W|exact HKm|].
    { constructor; [split; assumption|]. constructor; [|constructor]. split; [lia|right; lia]. }
    { exact Hro. }
    assert (N : nth 1 bs false = false).
    { destruct (nth 1 bs false) eqn:E; [|reflexivity]. apply B2 in E. cbn [arg nth] in E. lia. }
    destruct (vfp_val (F4 Op con) (fp4_mul Op) bs st B1 N (fun x y => eq_refl)) as (_ & V).
    split; [|split; [exact E2|exact E3]].
    transitivity (tp3 (vrun (F4 Op con) bs b12_mul_fp4 st OR)).
    { apply tp3_ext. exact E1. }
    rewrite V. pose proof (B3 0%nat 0%nat ltac:(cbn; lia)) as Q0. pose proof (B3 0%nat 1%nat ltac:(cbn; lia)) as Q1.
    pose proof (B3 0%nat 2%nat ltac:(cbn; lia)) as Q3.
    pose proof (B3 1%nat 0%nat ltac:(cbn; lia)) as Q2. rewrite Q0, Q1, Q2, Q3. cbn [arg nth].
    replace (b + k4 k * 0)%nat with b by lia. reflexivity.
  Qed.
End TowerMem.

(** ** Line functions: while xP and yP hold their values *)
Section Lines.
  Context {T : Type} (Op : fops T) (con : nat -> T).
  Variables (w : Z) (k : nat) (get1 : mem -> nat -> T) (P1_ : op -> proc).
  Hypothesis Hk : (0 < k)%nat.
  Hypothesis Hget : local_get k get1.
  Hypothesis Hop : forall o, ok1 o = true -> call_ok w k get1 (arity o) (P1_ o) (F1 Op con o).
  Variables (xp : nat) (x y : T).
  Notation yp := (xp + k)%nat.
  Definition Kl (m : mem) : Prop := get1 m xp = x /\ get1 m yp = y.
  Definition rol (q : nat) : Prop := (xp <= q)%nat /\ (q < xp + k * 2)%nat.
  Lemma Kl_stable m m' : (forall q, rol q -> m' q = m q) -> Kl m -> Kl m'.
  Proof.
    intros H [H1 H2]. split.
    - rewrite <- H1. apply Hget. intros q Q1 Q2. apply H. split; lia.
    - rewrite <- H2. apply Hget. intros q Q1 Q2. apply H. split; lia.
  Qed.
  Definition FL (o : op) (l : list (p2 T)) : p2 T :=
    match o, l with
    | Ext 20, [v] => fp2_mul_fp Op v x | Ext 21, [v] => fp2_mul_fp Op v y | _, _ => F2 Op con o l
    end.
  Lemma HopL o : ok1 o = true -> call_k w k get1 Kl rol (arity o) (P1_ o) (F1 Op con o).
  Proof. intros H. apply call_ok_k. exact (Hop o H). Qed.
  Definition okL (o : op) : bool := match o with Ext 20 | Ext 21 => true | Ext _ => false | _ => true end.
  Lemma callL o : okL o = true -> call_k w (k2 k) (get2 k get1) Kl rol (arity o) (PL k P1_ xp yp o) (FL o).
  Proof.
    intros Ho.
    assert (C : call_k w (k2 k) (get2 k get1) Kl rol (arity o) (P2 k P1_ o) (F2 Op con o)).
    { exact (call2 Op con w k get1 P1_ Kl rol Hk Hget HopL Kl_stable o). }
    assert (E : forall b v g, (b = xp /\ v = x) \/ (b = yp /\ v = y) -> (forall z, g [z] = fp2_mul_fp Op z v) ->
      call_k w (k2 k) (get2 k get1) Kl rol 1 (fun sp r l m => fp2_mul_fp_m k P1_ sp r [arg l 0; b] m) g).
    { intros b v g Hb Hg sp r args m H1 H2 H3 H4 H5 H6. destruct args as [|a [|? ?]]; try discriminate H1.
      cbn [arg nth map]. pose proof (Forall_inv H3) as [Ha1 Ha2].
      assert (Q1 := H6 xp ltac:(split; lia)). assert (Q2 := H6 (xp + k * 2 - 1)%nat ltac:(split; lia)).
      assert (QQ : (r + k2 k <= xp \/ xp + k * 2 <= r)%nat).
      { destruct (le_lt_dec (r + k2 k) xp) as [L|L]; [left; exact L|right].
        destruct (le_lt_dec (xp + k * 2) r) as [L'|L']; [exact L'|].
        assert (QA := H6 (Nat.max xp r) ltac:(split; unfold rol; lia)). unfold k2 in *. lia. }
      destruct (mul_fp_k Op con w k get1 P1_ Kl rol Hk Hget HopL Kl_stable sp r a b m H2 Ha1) as (C1 & C2 & C3);
        [destruct Hb as [[-> _]|[-> _]]; lia|exact Ha2| |exact H4|exact H5|exact H6|].
      { destruct Hb as [[-> _]|[-> _]]; lia. }
      split; [|split; assumption]. rewrite C1, Hg. f_equal. destruct H5 as [K1 K2].
      destruct Hb as [[-> ->]|[-> ->]]; assumption. }
    destruct o as [| | | | | | | | | | |i|i]; try exact C.
    cbn [okL] in Ho.
    do 20 (destruct i as [|i]; [discriminate Ho|]). destruct i as [|[|i]]; [| |discriminate Ho].
    - exact (E xp x _ (or_introl (conj eq_refl eq_refl)) (fun z => eq_refl)).
    - exact (E yp y _ (or_intror (conj eq_refl eq_refl)) (fun z => eq_refl)).
  Qed.

  (** the value of a straight-line program whose result and operands are apart *)
  Definition getA2 : mem -> nat -> aff (p2 T) := getc (k2 k) (get2 k get1) tp2.
  Definition getJ2 : mem -> nat -> jac (p2 T) := getc (k2 k) (get2 k get1) tp3.
  Section Call.
    Variables (sp f : nat) (m : mem).
    Hypothesis Hf : (f + k12 k <= sp)%nat.
    Hypothesis Hx1 : (xp + k * 2 <= sp)%nat.
    Hypothesis Hx2 : (f + k12 k <= xp \/ xp + k * 2 <= f)%nat.
    Hypothesis W : words w m.
    Hypothesis HKm : Kl m.
    Lemma line_call cs args body : wf okL 6 2 cs body = true ->
      Forall2 (fun a s => (a + k2 k * s <= sp)%nat /\ (f + k12 k <= a \/ a + k2 k * s <= f)%nat) args cs ->
      exists st, (forall j i, (i < nth j cs 0)%nat -> st (OA j) i = get2 k get1 m (arg args j + k2 k * i)) /\
        get12 k get1 (code (k2 k) (PL k P1_ xp yp) 2 body sp f args m) f = tp12 (vrun FL (repeat false (length args)) body st OR) /\
        (forall q, (q < sp)%nat -> (q < f)%nat \/ (f + k12 k <= q)%nat ->
           code (k2 k) (PL k P1_ xp yp) 2 body sp f args m q = m q) /\
        words w (code (k2 k) (PL k P1_ xp yp) 2 body sp f args m).
    Proof.
      intros Hw Ha. assert (E12 : k12 k = (k2 k * 6)%nat) by (unfold k12, k4; lia).
      pose proof (k2_pos k Hk) as Hk2. pose proof (get2_local k get1 Hget) as G2.
      assert (Hpl : placed (k2 k) rol 6 cs (repeat false (length args)) sp f args).
      { split; [lia|]. split.
        - intros j Hj. pose proof (f2_nth _ _ _ Ha j Hj) as (Q1 & Q2). split; [exact Q1|]. right.
          split; [|rewrite <- E12; exact Q2]. clear. revert j. induction (length args) as [|n IH]; intros [|j]; cbn; auto.
        - intros q [Q1 Q2]. rewrite <- E12. split; [lia|]. lia. }
      exists (st0 (k2 k) (get2 k get1) sp f args m).
      destruct (code_spec w (k2 k) (get2 k get1) (PL k P1_ xp yp) FL okL Kl rol Hk2 G2 callL Kl_stable 6 2 cs _ sp f args Hpl body m Hw W HKm)
        as (E1 & E2 & E3 & _).
      split; [reflexivity|]. split.
      - rewrite <- get12_cells. apply tp12_ext. exact E1.
      - rewrite E12. split; assumption.
    Qed.

    Lemma tangent_call t : (t + k2 k * 3 <= sp)%nat -> (f + k12 k <= t \/ t + k2 k * 3 <= f)%nat ->
      get12 k get1 (tangent_m k P1_ sp f t xp m) f = g_tangent_ja Op (getJ2 m t) (x, y) /\
      (forall q, (q < sp)%nat -> (q < f)%nat \/ (f + k12 k <= q)%nat -> tangent_m k P1_ sp f t xp m q = m q) /\
      words w (tangent_m k P1_ sp f t xp m).
    Proof.
      intros H1 H2. unfold tangent_m.
      destruct (line_call [3%nat] [t] b_tangent eq_refl) as (st & S1 & S2 & S3 & S4).
      { constructor; [split; assumption|constructor]. }
      split; [|split; assumption]. rewrite S2. unfold getJ2, getc, tp3.
      change t with (arg [t] 0). rewrite <- !(S1 0%nat) by (cbn; lia). reflexivity.
    Qed.
    Lemma jja_call t q_ : (t + k2 k * 3 <= sp)%nat -> (f + k12 k <= t \/ t + k2 k * 3 <= f)%nat ->
      (q_ + k2 k * 3 <= sp)%nat -> (f + k12 k <= q_ \/ q_ + k2 k * 3 <= f)%nat ->
      get12 k get1 (line_jja_m k P1_ sp f t q_ xp m) f = g_line_jja Op (getJ2 m t) (getJ2 m q_) (x, y) /\
      (forall q, (q < sp)%nat -> (q < f)%nat \/ (f + k12 k <= q)%nat -> line_jja_m k P1_ sp f t q_ xp m q = m q) /\
      words w (line_jja_m k P1_ sp f t q_ xp m).
    Proof.
      intros H1 H2 H3 H4. unfold line_jja_m.
      destruct (line_call [3; 3]%nat [t; q_] b_line_jja eq_refl) as (st & S1 & S2 & S3 & S4).
      { constructor; [split; assumption|constructor; [split; assumption|constructor]]. }
      split; [|split; assumption]. rewrite S2. unfold getJ2, getc, tp3.
      pose proof (S1 0%nat) as A. pose proof (S1 1%nat) as B. cbn [arg nth] in A, B.
      rewrite <- !A by lia. rewrite <- !B by lia. reflexivity.
    Qed.
    Lemma jaa_call t q_ : (t + k2 k * 3 <= sp)%nat -> (f + k12 k <= t \/ t + k2 k * 3 <= f)%nat ->
      (q_ + k2 k * 2 <= sp)%nat -> (f + k12 k <= q_ \/ q_ + k2 k * 2 <= f)%nat ->
      get12 k get1 (line_jaa_m k P1_ sp f t q_ xp m) f = g_line_jaa Op (getJ2 m t) (getA2 m q_) (x, y) /\
      (forall q, (q < sp)%nat -> (q < f)%nat \/ (f + k12 k <= q)%nat -> line_jaa_m k P1_ sp f t q_ xp m q = m q) /\
      words w (line_jaa_m k P1_ sp f t q_ xp m).
    Proof.
      intros H1 H2 H3 H4. unfold line_jaa_m.
      destruct (line_call [3; 2]%nat [t; q_] b_line_jaa eq_refl) as (st & S1 & S2 & S3 & S4).
      { constructor; [split; assumption|constructor; [split; assumption|constructor]]. }
      split; [|split; assumption]. rewrite S2. unfold getJ2, getA2, getc, tp3, tp2.
      pose proof (S1 0%nat) as A. pose proof (S1 1%nat) as B. cbn [arg nth] in A, B.
      rewrite <- !A by lia. rewrite <- !B by lia. reflexivity.
    Qed.
  End Call.
End Lines.

(** Curve points on memory. *)
From Verif Require Import Base BaseFacts ModelNumber ModelNumberX64 ModelMont ModelAlias SpecAlias.
From Verif Require Import ModelEC ModelSM9 ModelAliasF ProofAliasF ProofAliasF2.

(** a function of one or two operands as a function of the list of operands *)
Definition u1 {A : Type} (d : A) (f : A -> A) (l : list A) : A := f (nth 0 l d).
Definition u2 {A : Type} (d : A) (f : A -> A -> A) (l : list A) : A := f (nth 0 l d) (nth 1 l d).

Section CurveMem.
  Context {A : Type} (Op : fops A) (con : nat -> A).
  Variables (w : Z) (k : nat) (get : mem -> nat -> A) (P : op -> proc)
    (eqf : mem -> nat -> nat -> bool) (is0f : mem -> nat -> bool).
  Hypothesis Hk : (0 < k)%nat.
  Hypothesis Hget : local_get k get.
  Hypothesis Hop : forall o, ok1 o = true -> call_ok w k get (arity o) (P o) (F1 Op con o).
  Hypothesis Heq : forall m p q, eqf m p q = o_eq Op (get m p) (get m q).
  Hypothesis His0 : forall m p, is0f m p = o_is0 Op (get m p).
  Notation K := (fun _ : mem => True).
  Notation ro := (fun _ : nat => False).
  Definition getA : mem -> nat -> aff A := getc k get tp2.
  Definition getJ : mem -> nat -> jac A := getc k get tp3.
  Notation d := (o_zero Op).
  Definition HopC o (H : ok1 o = true) : call_k w k get K ro (arity o) (P o) (F1 Op con o) := call_ok_k _ _ _ _ _ _ _ _ (Hop o H).
  Definition HKC : forall m m' : mem, (forall q, ro q -> m' q = m q) -> K m -> K m' := fun _ _ _ _ => I.
  Lemma getA_local : local_get (k * 2) getA. Proof. apply getc_local; [exact Hget|exact tp2_ext]. Qed.
  Lemma getJ_local : local_get (k * 3) getJ. Proof. apply getc_local; [exact Hget|exact tp3_ext]. Qed.

  Ltac lA := apply call_k_ok; apply (lift w k get P (F1 Op con) ok1 K ro Hk Hget HopC HKC 2 tp2 ltac:(lia) tp2_ext);
    [reflexivity|body_val].
  Ltac lJ := apply call_k_ok; apply (lift w k get P (F1 Op con) ok1 K ro Hk Hget HopC HKC 3 tp3 ltac:(lia) tp3_ext);
    [reflexivity|body_val].
  Lemma a_neg_ok : call_ok w (k * 2) getA 1 (a_neg_m k P) (u1 (d, d) (a_neg Op)).
  Proof. lA. Qed.
  Lemma j_cpy_ok : call_ok w (k * 3) getJ 1 (j_cpy_m k P) (u1 (d, d, d) (fun x => x)).
  Proof. lJ. Qed.
  Lemma j_set_inf_ok : call_ok w (k * 3) getJ 0 (j_set_inf_m k P) (fun _ => j_set_inf Op).
  Proof. lJ. Qed.
  Lemma j_neg_ok : call_ok w (k * 3) getJ 1 (j_neg_m k P) (u1 (d, d, d) (j_neg Op)).
  Proof. lJ. Qed.
  Lemma j_dbl_2001b_ok : call_ok w (k * 3) getJ 1 (j_dbl_2001b_m k P) (u1 (d, d, d) (j_dbl_2001b Op)).
  Proof. lJ. Qed.
  Lemma j_dbl_2009l_ok : call_ok w (k * 3) getJ 1 (j_dbl_2009l_m k P) (u1 (d, d, d) (j_dbl_2009l Op)).
  Proof. lJ. Qed.
  Lemma j_normal_code_ok : call_ok w (k * 3) getJ 1 (code k P 2 bj_normal)
    (u1 (d, d, d) (fun p => let '(X, Y, Z) := p in
       let inv3 := o_inv Op Z in let inv2 := o_sqr Op inv3 in let inv3 := o_mul Op inv3 inv2 in
       (o_mul Op X inv2, o_mul Op Y inv3, o_one Op))).
  Proof. lJ. Qed.
  Lemma is_inf_val m p : j_is_inf_m k is0f m p = j_is_inf Op (getJ m p).
  Proof. unfold j_is_inf_m. rewrite His0. reflexivity. Qed.
  Lemma j_normal_ok : call_ok w (k * 3) getJ 1 (j_normal_m k P is0f) (u1 (d, d, d) (j_normal Op)).
  Proof.
    intros sp r args m H1 H2 H3 H4. destruct args as [|a [|? ?]]; try discriminate H1.
    unfold j_normal_m. cbn [arg nth]. rewrite is_inf_val. cbn [u1 map nth]. unfold j_normal, u1. cbn [nth].
    destruct (j_is_inf Op (getJ m a)).
    - exact (j_set_inf_ok sp r [] m eq_refl H2 (Forall_nil _) H4).
    - exact (j_normal_code_ok sp r [a] m eq_refl H2 H3 H4).
  Qed.

  (** *** operands of different sizes *)
  Lemma j_from_a_ok sp r a m : (r + k * 3 <= sp)%nat -> (a + k * 2 <= sp)%nat ->
    same_or_apart (k * 3) r (k * 2) a -> words w m ->
    getJ (j_from_a_m k P sp r [a] m) r = j_from_a Op (getA m a) /\
    (forall q, (q < sp)%nat -> (q < r)%nat \/ (r + k * 3 <= q)%nat -> j_from_a_m k P sp r [a] m q = m q) /\
    words w (j_from_a_m k P sp r [a] m).
  Proof.
    intros H1 H2 H3 W.
    destruct (mix w k get P (F1 Op con) ok1 K ro Hk Hget HopC HKC 3 0 [2]%nat sp r [a] ltac:(lia) H1) with (body := bj_from_a) (m := m)
      as (bs & st & B1 & B2 & B3 & E1 & E2 & E3); [|intros q []|reflexivity|exact W|exact I|].
    { constructor; [split; assumption|constructor]. }
    split; [|split; [exact E2|exact E3]].
    transitivity (tp3 (vrun (F1 Op con) bs bj_from_a st OR)); [apply tp3_ext; exact E1|].
    transitivity (j_from_a Op (tp2 (st (al bs (OA 0))))); [clear - B1; cbn [length] in B1; bools bs B1; bool_cases; reflexivity|].
    f_equal. apply tp2_ext. intros i Hi. exact (B3 0%nat i Hi).
  Qed.
  Lemma j_to_a_ok sp r a m : (r + k * 2 <= sp)%nat -> (a + k * 3 <= sp)%nat ->
    same_or_apart (k * 2) r (k * 3) a -> words w m ->
    getA (j_to_a_m k P sp r [a] m) r = j_to_a Op (getJ m a) /\
    (forall q, (q < sp)%nat -> (q < r)%nat \/ (r + k * 2 <= q)%nat -> j_to_a_m k P sp r [a] m q = m q) /\
    words w (j_to_a_m k P sp r [a] m).
  Proof.
    intros H1 H2 H3 W.
    destruct (mix w k get P (F1 Op con) ok1 K ro Hk Hget HopC HKC 2 2 [3]%nat sp r [a] ltac:(lia) H1) with (body := bj_to_a) (m := m)
      as (bs & st & B1 & B2 & B3 & E1 & E2 & E3); [|intros q []|reflexivity|exact W|exact I|].
    { constructor; [split; assumption|constructor]. }
    split; [|split; [exact E2|exact E3]].
    transitivity (tp2 (vrun (F1 Op con) bs bj_to_a st OR)); [apply tp2_ext; exact E1|].
    transitivity (j_to_a Op (tp3 (st (al bs (OA 0))))); [clear - B1; cbn [length] in B1; bools bs B1; bool_cases; reflexivity|].
    f_equal. apply tp3_ext. intros i Hi. exact (B3 0%nat i Hi).
  Qed.
  Lemma j_add_a_ok sp r a b m : (r + k * 3 <= sp)%nat -> (a + k * 3 <= sp)%nat -> (b + k * 2 <= sp)%nat ->
    same_or_apart (k * 3) r (k * 3) a -> same_or_apart (k * 3) r (k * 2) b -> words w m ->
    getJ (j_add_a_m k P sp r [a; b] m) r = j_add_a Op (getJ m a) (getA m b) /\
    (forall q, (q < sp)%nat -> (q < r)%nat \/ (r + k * 3 <= q)%nat -> j_add_a_m k P sp r [a; b] m q = m q) /\
    words w (j_add_a_m k P sp r [a; b] m).
  Proof.
    intros H1 H2 H2' H3 H3' W.
    destruct (mix w k get P (F1 Op con) ok1 K ro Hk Hget HopC HKC 3 9 [3; 2]%nat sp r [a; b] ltac:(lia) H1) with (body := bj_add_a) (m := m)
      as (bs & st & B1 & B2 & B3 & E1 & E2 & E3); [|intros q []|reflexivity|exact W|exact I|].
    { constructor; [split; assumption|constructor; [split; assumption|constructor]]. }
    split; [|split; [exact E2|exact E3]].
    transitivity (tp3 (vrun (F1 Op con) bs bj_add_a st OR)); [apply tp3_ext; exact E1|].
    transitivity (j_add_a Op (tp3 (st (al bs (OA 0)))) (tp2 (st (al bs (OA 1))))); [clear - B1; cbn [length] in B1; bools bs B1; bool_cases; reflexivity|].
    f_equal; [apply tp3_ext|apply tp2_ext]; intros i Hi; [exact (B3 0%nat i Hi)|exact (B3 1%nat i Hi)].
  Qed.

  (** *** addition *)
  Section AddCall.
  Variables (dbl : proc) (vdbl : jac A -> jac A).
  Hypothesis Hdbl : call_ok w (k * 3) getJ 1 dbl (u1 (d, d, d) vdbl).
  Lemma j_add_ok : call_ok w (k * 3) getJ 2 (j_add_m k P eqf dbl) (u2 (d, d, d) (j_add Op vdbl)).
  Proof.
    intros sp r args m H1 H2 H3 W. destruct args as [|a [|b [|? ?]]]; try discriminate H1.
    pose proof (Forall_inv H3) as [Ha1 Ha2]. pose proof (Forall_inv (Forall_inv_tail H3)) as [Hb1 Hb2].
    pose proof (placed_of k ro Hk 3 ltac:(lia) sp r [a; b] H2 H3 (fun q (F : False) => match F with end)) as Hpl.
    set (bs := bs_of r [a; b]) in *. assert (Lbs : length bs = 2%nat) by reflexivity. clearbody bs.
    assert (I0 : inv w k get K 3 11 (repeat 3%nat 2) bs sp r [a; b] m (st0 k get sp r [a; b] m)).
    { apply (inv0 w k get K ro Hk HKC 3 11 (repeat 3%nat 2) bs sp r [a; b] Hpl m W I). }
    set (st := st0 k get sp r [a; b] m) in *.
    assert (ST : forall j, (j < 2)%nat -> tp3 (st (al bs (OA j))) = getJ m (arg [a; b] j)).
    { intros j Hj. apply tp3_ext. intros i Hi. unfold st, st0, addr. cbn [fst snd]. f_equal. f_equal.
      apply (env_al k ro Hk 3 11 (repeat 3%nat 2) bs sp r [a; b] Hpl (OA j)).
      destruct j as [|[|j]]; [cbn; lia|cbn; lia|lia]. }
    clearbody st.
    destruct (sim_run w k get P (F1 Op con) ok1 K ro Hk Hget HopC HKC 3 11 (repeat 3%nat 2) bs sp r [a; b] Hpl bj_add_head m st eq_refl I0)
      as (I1 & FR1).
    unfold j_add_m. set (m1 := run k P (env_of sp r [a; b]) (sp + k * 11) bj_add_head m) in *.
    set (st1 := vrun (F1 Op con) bs bj_add_head st) in *.
    pose proof I1 as (W1 & _ & G1).
    assert (L : forall i, (i < 11)%nat -> get m1 (sp + k * i)%nat = st1 OL i).
    { intros i Hi. exact (G1 OL i Hi). }
    rewrite !Heq. rewrite !L by lia.
    assert (V2 : st1 OL 2%nat = o_mul Op (st (al bs (OA 0)) 0%nat) (o_sqr Op (st (al bs (OA 1)) 2%nat))).
    { unfold st1. clear - Lbs. bools bs Lbs. bool_cases; reflexivity. }
    assert (V3 : st1 OL 3%nat = o_mul Op (st (al bs (OA 1)) 0%nat) (o_sqr Op (st (al bs (OA 0)) 2%nat))).
    { unfold st1. clear - Lbs. bools bs Lbs. bool_cases; reflexivity. }
    assert (V4 : st1 OL 4%nat = o_mul Op (o_mul Op (st (al bs (OA 0)) 1%nat) (st (al bs (OA 1)) 2%nat)) (o_sqr Op (st (al bs (OA 1)) 2%nat))).
    { unfold st1. clear - Lbs. bools bs Lbs. bool_cases; reflexivity. }
    assert (V5 : st1 OL 5%nat = o_mul Op (o_mul Op (st (al bs (OA 1)) 1%nat) (st (al bs (OA 0)) 2%nat)) (o_sqr Op (st (al bs (OA 0)) 2%nat))).
    { unfold st1. clear - Lbs. bools bs Lbs. bool_cases; reflexivity. }
    assert (U : forall i, st1 (al bs (OA 0)) i = st (al bs (OA 0)) i).
    { intros i. unfold st1. clear - Lbs. bools bs Lbs. bool_cases; reflexivity. }
    assert (TP : tp3 (st1 (al bs (OA 0))) = getJ m a).
    { transitivity (tp3 (st (al bs (OA 0)))); [apply tp3_ext; intros i _; apply U|exact (ST 0%nat ltac:(lia))]. }
    assert (GP : getJ m1 a = getJ m a).
    { rewrite <- TP. apply tp3_ext. intros i Hi. exact (G1 (OA 0) i Hi). }
    unfold u2. cbn [map nth]. pose proof (ST 0%nat ltac:(lia)) as S0. pose proof (ST 1%nat ltac:(lia)) as S1.
    cbn [arg nth] in S0, S1. rewrite <- S0, <- S1. unfold j_add, tp3. cbv beta iota zeta. rewrite <- V2, <- V3, <- V4, <- V5.
    assert (FR : forall m2 : mem, (forall q, (q < sp + k * 11)%nat -> (q < r)%nat \/ (r + k * 3 <= q)%nat -> m2 q = m1 q) ->
      forall q, (q < sp)%nat -> (q < r)%nat \/ (r + k * 3 <= q)%nat -> m2 q = m q).
    { intros m2 E q Q1 Q2. rewrite E; [|lia|exact Q2]. exact (FR1 q Q1 Q2). }
    destruct (o_eq Op (st1 OL 2%nat) (st1 OL 3%nat)); [destruct (o_eq Op (st1 OL 4%nat) (st1 OL 5%nat))|].
    - destruct (Hdbl (sp + k * 11)%nat r [a] m1 eq_refl ltac:(lia)) as (D1 & D2 & D3).
      { constructor; [split; [lia|exact Ha2]|constructor]. }
      { exact W1. }
      cbn [arg nth]. split; [|split; [exact (FR _ D2)|exact D3]].
      rewrite D1. unfold u1. cbn [map nth]. rewrite GP, <- S0. reflexivity.
    - destruct (j_set_inf_ok (sp + k * 11)%nat r [] m1 eq_refl ltac:(lia) (Forall_nil _) W1) as (D1 & D2 & D3).
      split; [exact D1|split; [exact (FR _ D2)|exact D3]].
    - destruct (sim_run w k get P (F1 Op con) ok1 K ro Hk Hget HopC HKC 3 11 (repeat 3%nat 2) bs sp r [a; b] Hpl bj_add_tail m1 st1 eq_refl I1)
        as (I2 & FR2). pose proof I2 as (W2 & _ & G2).
      split; [|split; [intros q Q1 Q2; rewrite FR2 by assumption; now apply FR1|exact W2]].
      transitivity (tp3 (vrun (F1 Op con) bs bj_add_tail st1 OR)).
      { apply tp3_ext. intros i Hi. exact (G2 OR i Hi). }
      unfold st1. rewrite <- vrun_app. clear - Lbs. bools bs Lbs. bool_cases; reflexivity.
  Qed.
  End AddCall.

  (** *** comparison: nothing of the callers' memory changes *)
  Lemma j_equal_ok sp a b m : (a + k * 3 <= sp)%nat -> (b + k * 3 <= sp)%nat -> words w m ->
    snd (j_equal_m k P eqf sp [a; b] m) = j_equal Op (getJ m a) (getJ m b) /\
    (forall q, (q < sp)%nat -> fst (j_equal_m k P eqf sp [a; b] m) q = m q).
  Proof.
    intros Ha Hb W.
    assert (Hpl : placed k ro 0 [3; 3]%nat [false; false] sp 0 [a; b]).
    { split; [lia|]. split; [|intros q []]. intros [|[|j]] Hj; cbn [arg nth]; [| |cbn in Hj; lia];
        (split; [lia|right; split; [reflexivity|lia]]). }
    assert (I0 : inv w k get K 0 6 [3; 3]%nat [false; false] sp 0 [a; b] m (st0 k get sp 0 [a; b] m)).
    { apply (inv0 w k get K ro Hk HKC 0 6 [3; 3]%nat [false; false] sp 0%nat [a; b] Hpl m W I). }
    set (st := st0 k get sp 0 [a; b] m) in *.
    assert (S0 : tp3 (st (OA 0)) = getJ m a) by reflexivity.
    assert (S1 : tp3 (st (OA 1)) = getJ m b) by reflexivity. clearbody st.
    destruct (sim_run w k get P (F1 Op con) ok1 K ro Hk Hget HopC HKC 0 6 [3; 3]%nat [false; false] sp 0%nat [a; b] Hpl bj_equal_1 m st eq_refl I0)
      as (I1 & FR1).
    unfold j_equal_m. set (m1 := run k P (env_of sp 0 [a; b]) (sp + k * 6) bj_equal_1 m) in *.
    set (st1 := vrun (F1 Op con) [false; false] bj_equal_1 st) in *.
    pose proof I1 as (W1 & _ & G1).
    destruct (sim_run w k get P (F1 Op con) ok1 K ro Hk Hget HopC HKC 0 6 [3; 3]%nat [false; false] sp 0%nat [a; b] Hpl bj_equal_2 m1 st1 eq_refl I1)
      as (I2 & FR2).
    set (m2 := run k P (env_of sp 0 [a; b]) (sp + k * 6) bj_equal_2 m1) in *.
    set (st2 := vrun (F1 Op con) [false; false] bj_equal_2 st1) in *.
    pose proof I2 as (W2 & _ & G2).
    rewrite !Heq.
    assert (L1 : forall i, (i < 6)%nat -> get m1 (sp + k * i)%nat = st1 OL i) by (intros i Hi; exact (G1 OL i Hi)).
    assert (L2 : forall i, (i < 6)%nat -> get m2 (sp + k * i)%nat = st2 OL i) by (intros i Hi; exact (G2 OL i Hi)).
    rewrite !L1, !L2 by lia. rewrite <- S0, <- S1. split.
    - change (j_equal Op (tp3 (st (OA 0))) (tp3 (st (OA 1)))) with
        (if negb (o_eq Op (st1 OL 4%nat) (st1 OL 5%nat)) then false
         else if negb (o_eq Op (st2 OL 4%nat) (st2 OL 5%nat)) then false else true).
      destruct (negb (o_eq Op (st1 OL 4%nat) (st1 OL 5%nat))); [reflexivity|].
      destruct (negb (o_eq Op (st2 OL 4%nat) (st2 OL 5%nat))); reflexivity.
    - intros q Hq. destruct (negb (o_eq Op (st1 OL 4%nat) (st1 OL 5%nat))).
      { cbn [fst]. apply FR1; [exact Hq|lia]. }
      destruct (negb (o_eq Op (st2 OL 4%nat) (st2 OL 5%nat))); cbn [fst]; rewrite FR2 by (exact Hq || lia); apply FR1; [exact Hq|lia|exact Hq|lia].
  Qed.
End CurveMem.

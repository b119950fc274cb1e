(** Straight-line code on memory computes what it computes on values. *)
From Verif Require Import Base BaseFacts SpecNumber ModelNumber ModelNumberX64 ModelMont ModelAlias SpecAlias.
From Verif Require Import ProofAlias ProofAlias2 ModelEC ModelSM9 ModelAliasF.

Definition arity (o : op) : nat :=
  match o with Add | Sub | Mul => 2 | Zero | One | Con _ => 0 | _ => 1 end.
Definition obj_eqb (a b : obj) : bool :=
  match a, b with OR, OR => true | OL, OL => true | OA i, OA j => (i =? j)%nat | _, _ => false end.
Lemma obj_eqb_eq a b : obj_eqb a b = true <-> a = b.
Proof.
  destruct a as [| |i], b as [| |j]; cbn; try (split; [discriminate|discriminate]); try tauto.
  rewrite Nat.eqb_eq. split; [intros ->; reflexivity|intros H; now injection H].
Qed.

(** ** Values *)
Section Values.
  Context {A : Type}.
  Variable F : op -> list A -> A.
  Definition vst : Type := obj -> nat -> A.
  Definition vupd (st : vst) (o : obj) (i : nat) (v : A) : vst :=
    fun o' i' => if obj_eqb o' o && (i' =? i)%nat then v else st o' i'.
  (** operand i is the result array if the i-th entry of [bs] is true *)
  Definition al (bs : list bool) (o : obj) : obj :=
    match o with OA j => if nth j bs false then OR else OA j | _ => o end.
  Definition vexec (bs : list bool) (i : ins) (st : vst) : vst :=
    vupd st (al bs (fst (i_dst i))) (snd (i_dst i))
      (F (i_op i) (map (fun c => st (al bs (fst c)) (snd c)) (i_src i))).
  Fixpoint vrun (bs : list bool) (body : list ins) (st : vst) : vst :=
    match body with [] => st | i :: body' => vrun bs body' (vexec bs i st) end.
  Lemma vrun_app bs b1 b2 st : vrun bs (b1 ++ b2) st = vrun bs b2 (vrun bs b1 st).
  Proof. revert st. induction b1 as [|i b1 IH]; intros st; [reflexivity|]. cbn [app vrun]. apply IH. Qed.
End Values.
Lemma run_app k P env sp b1 b2 m : run k P env sp (b1 ++ b2) m = run k P env sp b2 (run k P env sp b1 m).
Proof. revert m. induction b1 as [|i b1 IH]; intros m; [reflexivity|]. cbn [app run]. apply IH. Qed.

(** ** Well-formed bodies *)
Definition size (szR nloc : nat) (szA : list nat) (o : obj) : nat :=
  match o with OR => szR | OL => nloc | OA j => nth j szA 0%nat end.
Definition wf_ins (okop : op -> bool) (szR nloc : nat) (szA : list nat) (i : ins) : bool :=
  okop (i_op i) && (length (i_src i) =? arity (i_op i))%nat &&
  (match fst (i_dst i) with OA _ => false | _ => true end) &&
  (snd (i_dst i) <? size szR nloc szA (fst (i_dst i)))%nat &&
  forallb (fun c => snd c <? size szR nloc szA (fst c))%nat (i_src i).
Definition wf (okop : op -> bool) (szR nloc : nat) (szA : list nat) (body : list ins) : bool :=
  forallb (wf_ins okop szR nloc szA) body.

(** ** Calls while some memory, not written, satisfies an invariant *)
Definition call_k {A : Type} (w : Z) (k : nat) (get : mem -> nat -> A) (K : mem -> Prop) (ro : nat -> Prop)
    (n : nat) (p : proc) (f : list A -> A) : Prop :=
  forall sp r args m,
    length args = n -> (r + k <= sp)%nat ->
    Forall (fun a => (a + k <= sp)%nat /\ same_or_apart k r k a) args ->
    words w m -> K m -> (forall q, ro q -> (q < sp)%nat /\ ((q < r)%nat \/ (r + k <= q)%nat)) ->
    get (p sp r args m) r = f (map (get m) args) /\
    (forall q, (q < sp)%nat -> (q < r)%nat \/ (r + k <= q)%nat -> p sp r args m q = m q) /\
    words w (p sp r args m).
Lemma call_ok_k {A} w k (get : mem -> nat -> A) K ro n p f : call_ok w k get n p f -> call_k w k get K ro n p f.
Proof. intros H sp r args m H1 H2 H3 H4 _ _. exact (H sp r args m H1 H2 H3 H4). Qed.
Lemma call_k_ok {A} w k (get : mem -> nat -> A) n p f :
  call_k w k get (fun _ => True) (fun _ => False) n p f -> call_ok w k get n p f.
Proof. intros H sp r args m H1 H2 H3 H4. apply (H sp r args m H1 H2 H3 H4 I). intros q []. Qed.
Lemma call_ok_ext {A} w k (get : mem -> nat -> A) n p f g : call_ok w k get n p f ->
  (forall l, length l = n -> f l = g l) -> call_ok w k get n p g.
Proof.
  intros H E sp r args m H1 H2 H3 H4. destruct (H sp r args m H1 H2 H3 H4) as (C1 & C2 & C3).
  split; [|split; assumption]. rewrite C1. apply E. now rewrite map_length.
Qed.

(** [get] at [p] looks at the [k] limbs at [p] only *)
Definition local_get {A : Type} (k : nat) (get : mem -> nat -> A) : Prop :=
  forall m m' p, (forall q, (p <= q)%nat -> (q < p + k)%nat -> m' q = m q) -> get m' p = get m p.

Section Sim.
  Context {A : Type}.
  Variables (w : Z) (k : nat) (get : mem -> nat -> A) (P : op -> proc) (F : op -> list A -> A)
    (okop : op -> bool) (K : mem -> Prop) (ro : nat -> Prop).
  Hypothesis Hk : (0 < k)%nat.
  Hypothesis Hget : local_get k get.
  Hypothesis Hop : forall o, okop o = true -> call_k w k get K ro (arity o) (P o) (F o).
  Hypothesis HK : forall m m', (forall q, ro q -> m' q = m q) -> K m -> K m'.
  Variables (szR nloc : nat) (szA : list nat) (bs : list bool) (sp r : nat) (args : list nat).
  Notation sz := (size szR nloc szA).
  Notation env := (env_of sp r args).
  Notation ad c := (addr k env c).
  Notation SP := (sp + k * nloc)%nat.
  (** each operand is the result array, or apart from it, and below the stack *)
  Definition placed : Prop :=
    (r + k * szR <= sp)%nat /\
    (forall j, (j < length szA)%nat ->
       (arg args j + k * nth j szA 0 <= sp)%nat /\
       ((nth j bs false = true /\ arg args j = r) \/
        (nth j bs false = false /\ (r + k * szR <= arg args j \/ arg args j + k * nth j szA 0 <= r)%nat))) /\
    (forall q, ro q -> (q < sp)%nat /\ ((q < r)%nat \/ (r + k * szR <= q)%nat)).
  Hypothesis Hpl : placed.

  Lemma env_al o : (0 < sz o)%nat -> env (al bs o) = env o.
  Proof.
    intros H. destruct o as [| |j]; try reflexivity. cbn [al].
    destruct (nth j bs false) eqn:E; [|reflexivity]. cbn [env_of].
    destruct Hpl as (_ & Q & _). cbn [size] in H.
    assert (Hj : (j < length szA)%nat).
    { destruct (le_lt_dec (length szA) j) as [L|L]; [|exact L]. rewrite nth_overflow in H by exact L. lia. }
    destruct (Q j Hj) as (_ & [[_ G]|[G _]]); [now rewrite G|congruence].
  Qed.
  Definition inv (m : mem) (st : @vst A) : Prop :=
    words w m /\ K m /\ forall o i, (i < sz o)%nat -> get m (ad (o, i)) = st (al bs o) i.
  Lemma cell_bound o i : (i < sz o)%nat -> (ad (o, i) + k <= SP)%nat.
  Proof.
    intros H. unfold addr. cbn [fst snd].
    assert (E : (k * i + k <= k * sz o)%nat) by (replace (k * i + k)%nat with (k * S i)%nat by lia; apply Nat.mul_le_mono_l; lia).
    destruct Hpl as (Q1 & Q2 & _). destruct o as [| |j]; cbn [env_of size] in *; try lia.
    assert (Hj : (j < length szA)%nat).
    { destruct (le_lt_dec (length szA) j) as [L|L]; [|exact L]. rewrite nth_overflow in H by exact L. lia. }
    destruct (Q2 j Hj) as (Q3 & _). lia.
  Qed.
  Lemma mulS a b : (a < b)%nat -> (k * a + k <= k * b)%nat.
  Proof. intros H. replace (k * a + k)%nat with (k * S a)%nat by lia. apply Nat.mul_le_mono_l. lia. Qed.
  (** two cells: the same one, or apart *)
  Lemma cells_apart d i o j : match d with OA _ => False | _ => True end -> (i < sz d)%nat -> (j < sz o)%nat ->
    (al bs o = d /\ i = j /\ ad (o, j) = ad (d, i)) \/
    ((al bs o <> d \/ i <> j) /\ (ad (d, i) + k <= ad (o, j) \/ ad (o, j) + k <= ad (d, i))%nat).
  Proof.
    intros Hd Hi Hj. unfold addr. cbn [fst snd].
    assert (Same : forall e, env e = env d -> al bs o = d -> env o = env e ->
       (al bs o = d /\ i = j /\ (env o + k * j)%nat = (env d + k * i)%nat) \/
       ((al bs o <> d \/ i <> j) /\ (env d + k * i + k <= env o + k * j \/ env o + k * j + k <= env d + k * i)%nat)).
    { intros e E1 E2 E3. rewrite E3, E1. destruct (Nat.eq_dec i j) as [->|N]; [left; auto|]. right.
      split; [right; exact N|].
      assert (i < j \/ j < i)%nat as [L|L] by lia; apply mulS in L; lia. }
    pose proof (mulS _ _ Hi) as Bi. pose proof (mulS _ _ Hj) as Bj.
    destruct Hpl as (Q1 & Q2 & _).
    destruct o as [| |jo].
    - destruct d as [| |]; [|right; split; [left; discriminate|cbn [env_of size] in *; lia]|contradiction].
      apply (Same OR); reflexivity.
    - destruct d as [| |]; [right; split; [left; discriminate|cbn [env_of size] in *; lia]| |contradiction].
      apply (Same OL); reflexivity.
    - cbn [size] in Hj, Bj.
      assert (Hjj : (jo < length szA)%nat).
      { destruct (le_lt_dec (length szA) jo) as [L|L]; [|exact L]. rewrite nth_overflow in Hj by exact L. lia. }
      destruct (Q2 jo Hjj) as (Q3 & [[G1 G2]|[G1 G2]]).
      + destruct d as [| |]; [| |contradiction].
        * apply (Same OR); cbn [al env_of]; [reflexivity|now rewrite G1|exact G2].
        * right. split; [left; cbn [al]; rewrite G1; discriminate|]. cbn [env_of size] in *. lia.
      + right. split; [left; cbn [al]; rewrite G1; destruct d; [discriminate|discriminate|contradiction]|].
        destruct d as [| |]; [| |contradiction]; cbn [env_of size] in *; lia.
  Qed.

  Lemma sim_exec i m st : wf_ins okop szR nloc szA i = true -> inv m st ->
    inv (exec k P env SP i m) (vexec F bs i st) /\
    (forall q, (q < sp)%nat -> (q < r \/ r + k * szR <= q)%nat -> exec k P env SP i m q = m q).
  Proof.
    intros Hw (W & HKm & G). unfold wf_ins in Hw. rewrite !andb_true_iff in Hw.
    destruct Hw as ((((W1 & W2) & W3) & W4) & W5). apply Nat.eqb_eq in W2. apply Nat.ltb_lt in W4.
    rewrite forallb_forall in W5.
    assert (S5 : forall c, In c (i_src i) -> (snd c < sz (fst c))%nat).
    { intros c Hc. apply Nat.ltb_lt. exact (W5 c Hc). }
    destruct (i_dst i) as [d di] eqn:Ed. cbn [fst snd] in *.
    assert (Hd : match d with OA _ => False | _ => True end) by (destruct d; [exact I|exact I|discriminate W3]).
    assert (Hro : forall q, ro q -> (q < SP)%nat /\ ((q < ad (d, di))%nat \/ (ad (d, di) + k <= q)%nat)).
    { intros q Hq. destruct Hpl as (Q1 & _ & Q4). destruct (Q4 q Hq) as (Q5 & Q6).
      pose proof (mulS _ _ W4) as B. unfold addr. cbn [fst snd].
      destruct d as [| |]; [| |contradiction]; cbn [env_of size] in *; lia. }
    destruct (Hop (i_op i) W1 SP (ad (d, di)) (map (fun c => ad c) (i_src i)) m) as (C1 & C2 & C3).
    { now rewrite map_length. }
    { apply cell_bound. exact W4. }
    { apply Forall_forall. intros x Hx. apply in_map_iff in Hx. destruct Hx as (c & <- & Hc).
      destruct c as [o j]. pose proof (S5 _ Hc) as Hj. cbn [fst snd] in Hj. split; [now apply cell_bound|].
      destruct (cells_apart d di o j Hd W4 Hj) as [(_ & _ & E)|(_ & E)]; [left; exact E|right; exact E]. }
    { exact W. } { exact HKm. } { exact Hro. }
    change (P (i_op i) SP (ad (d, di)) (map (fun c => ad c) (i_src i)) m) with
      (P (i_op i) SP (addr k env (d, di)) (map (addr k env) (i_src i)) m) in *.
    assert (EX : exec k P env SP i m = P (i_op i) SP (addr k env (d, di)) (map (addr k env) (i_src i)) m).
    { unfold exec. rewrite Ed. reflexivity. }
    rewrite EX. split.
    - split; [exact C3|]. split.
      { apply (HK m); [|exact HKm]. intros q Hq. destruct (Hro q Hq) as (Q1 & Q2). now apply C2. }
      intros o j Hj. unfold vexec. rewrite Ed. cbn [fst snd]. unfold vupd.
      assert (Eal : al bs d = d) by (destruct d; [reflexivity|reflexivity|contradiction]). rewrite Eal.
      destruct (cells_apart d di o j Hd W4 Hj) as [(E1 & E2 & E3)|(N & E)].
      + rewrite (proj2 (obj_eqb_eq _ _) E1). rewrite (proj2 (Nat.eqb_eq j di) (eq_sym E2)). cbn [andb]. etransitivity; [exact (f_equal _ E3)|].
        etransitivity; [exact C1|]. f_equal. rewrite map_map. apply map_ext_in. intros [o' j'] Hc.
        apply G. exact (S5 _ Hc).
      + replace (obj_eqb (al bs o) d && (j =? di)%nat) with false.
        2: { symmetry. apply andb_false_iff. destruct N as [N|N].
             - left. destruct (obj_eqb (al bs o) d) eqn:E'; [|reflexivity]. apply obj_eqb_eq in E'. contradiction.
             - right. apply Nat.eqb_neq. congruence. }
        rewrite <- (G o j Hj). apply Hget. intros q Hq1 Hq2.
        pose proof (cell_bound o j Hj). apply C2; lia.
    - intros q Hq1 Hq2. destruct Hpl as (Q1 & _ & _). pose proof (mulS _ _ W4) as B.
      assert (E : (env d + k * di)%nat = ad (d, di)) by reflexivity.
      apply C2; [lia|]. rewrite <- E. destruct d as [| |]; [| |contradiction]; cbn [env_of size] in *; lia.
  Qed.
  Lemma sim_run body : forall m st, wf okop szR nloc szA body = true -> inv m st ->
    inv (run k P env SP body m) (vrun F bs body st) /\
    (forall q, (q < sp)%nat -> (q < r \/ r + k * szR <= q)%nat -> run k P env SP body m q = m q).
  Proof.
    induction body as [|i body IH]; intros m st Hw Hi; [split; [exact Hi|reflexivity]|].
    cbn [wf forallb] in Hw. apply andb_true_iff in Hw. destruct Hw as [W1 W2].
    destruct (sim_exec i m st W1 Hi) as (E1 & E2). cbn [run vrun].
    destruct (IH _ _ W2 E1) as (E3 & E4). split; [exact E3|]. intros q Q1 Q2. rewrite E4 by assumption. now apply E2.
  Qed.
  (** the state of values at the start *)
  Definition st0 (m : mem) : @vst A := fun o i => get m (ad (o, i)).
  Lemma inv0 m : words w m -> K m -> inv m (st0 m).
  Proof.
    intros W HKm. split; [exact W|]. split; [exact HKm|]. intros o i Hi. unfold st0, addr. cbn [fst snd].
    rewrite env_al by lia. reflexivity.
  Qed.
  Theorem code_spec body m : wf okop szR nloc szA body = true -> words w m -> K m ->
    let m' := code k P nloc body sp r args m in
    (forall i, (i < szR)%nat -> get m' (r + k * i) = vrun F bs body (st0 m) OR i) /\
    (forall q, (q < sp)%nat -> (q < r \/ r + k * szR <= q)%nat -> m' q = m q) /\
    words w m' /\ K m'.
  Proof.
    intros Hw W HKm. cbv zeta. unfold code.
    destruct (sim_run body m (st0 m) Hw (inv0 m W HKm)) as ((E1 & E2 & E3) & E4).
    split; [|split; [exact E4|split; assumption]].
    intros i Hi. exact (E3 OR i Hi).
  Qed.
End Sim.

(** ** A body as one call on objects of [c] cells *)
Section Lift.
  Context {A B : Type}.
  Variables (w : Z) (k : nat) (get : mem -> nat -> A) (P : op -> proc) (F : op -> list A -> A)
    (okop : op -> bool) (K : mem -> Prop) (ro : nat -> Prop).
  Hypothesis Hk : (0 < k)%nat.
  Hypothesis Hget : local_get k get.
  Hypothesis Hop : forall o, okop o = true -> call_k w k get K ro (arity o) (P o) (F o).
  Hypothesis HK : forall m m', (forall q, ro q -> m' q = m q) -> K m -> K m'.
  Variables (c : nat) (tup : (nat -> A) -> B).
  Hypothesis Hc : (0 < c)%nat.
  Hypothesis tup_ext : forall g h, (forall i, (i < c)%nat -> g i = h i) -> tup g = tup h.
  Definition getc (m : mem) (p : nat) : B := tup (fun i => get m (p + k * i)%nat).
  Lemma getc_local : local_get (k * c) getc.
  Proof using Hget tup_ext.
    clear - Hget tup_ext.
    intros m m' p H. apply tup_ext. intros i Hi. apply Hget. intros q Q1 Q2. apply H; [lia|].
    assert (k * S i <= k * c)%nat by (apply Nat.mul_le_mono_l; lia). lia.
  Qed.
  Definition bs_of (r : nat) (args : list nat) : list bool := map (fun a => (a =? r)%nat) args.
  Lemma nth_repeat' (x : nat) n j : (j < n)%nat -> nth j (repeat x n) 0%nat = x.
  Proof. revert j. induction n as [|n IH]; intros [|j] H; cbn [repeat nth]; [lia|lia|reflexivity|]. apply IH. lia. Qed.
  Lemma bs_nth r args j : (j < length args)%nat -> nth j (bs_of r args) false = (arg args j =? r)%nat.
  Proof.
    intros H. unfold bs_of, arg. rewrite (nth_indep _ false (0 =? r)%nat) by now rewrite map_length.
    now rewrite map_nth with (f := fun a => (a =? r)%nat).
  Qed.
  Lemma placed_of sp r args : (r + k * c <= sp)%nat ->
    Forall (fun a => (a + k * c <= sp)%nat /\ same_or_apart (k * c) r (k * c) a) args ->
    (forall q, ro q -> (q < sp)%nat /\ ((q < r)%nat \/ (r + k * c <= q)%nat)) ->
    placed k ro c (repeat c (length args)) (bs_of r args) sp r args.
  Proof.
    intros H1 H2 H3. split; [exact H1|]. split; [|exact H3]. intros j Hj. rewrite repeat_length in Hj.
    rewrite nth_repeat' by exact Hj.
    assert (HA : In (arg args j) args) by (apply nth_In; exact Hj).
    rewrite Forall_forall in H2. destruct (H2 _ HA) as (Q1 & Q2). split; [exact Q1|].
    rewrite bs_nth by exact Hj. assert (0 < k * c)%nat by (apply Nat.mul_pos_pos; assumption).
    destruct (Nat.eqb_spec (arg args j) r) as [E|E]; [left; auto|right]. split; [reflexivity|].
    destruct Q2 as [Q2|Q2]; [contradiction|exact Q2].
  Qed.
  Lemma args_get m (sp r : nat) args : (r + k * c <= sp)%nat ->
    placed k ro c (repeat c (length args)) (bs_of r args) sp r args ->
    map (fun j => tup (st0 k get sp r args m (al (bs_of r args) (OA j)))) (seq 0 (length args)) = map (getc m) args.
  Proof.
    intros H1 H2. transitivity (map (fun j => getc m (arg args j)) (seq 0 (length args))).
    - apply map_ext_in. intros j Hj. apply in_seq in Hj. apply tup_ext. intros i Hi. unfold st0, addr. cbn [fst snd].
      f_equal. f_equal. rewrite (env_al k ro Hk c 0 (repeat c (length args)) (bs_of r args) sp r args H2 (OA j)); [reflexivity|].
      cbn [size]. rewrite nth_repeat'; lia.
    - clear. unfold arg. rewrite <- (map_map (fun j => nth j args 0%nat) (getc m)). f_equal.
      induction args as [|a l IH]; [reflexivity|]. cbn [length seq map nth]. f_equal. rewrite <- seq_shift, map_map. exact IH.
  Qed.
  Lemma lift n nloc body f : wf okop c nloc (repeat c n) body = true ->
    (forall bs st, length bs = n ->
       tup (vrun F bs body st OR) = f (map (fun j => tup (st (al bs (OA j)))) (seq 0 n))) ->
    call_k w (k * c) getc K ro n (code k P nloc body) f.
  Proof.
    intros Hw Hv sp r args m H1 H2 H3 H4 H5 H6. subst n.
    pose proof (placed_of sp r args H2 H3 H6) as Hpl.
    destruct (code_spec w k get P F okop K ro Hk Hget Hop HK c nloc (repeat c (length args)) (bs_of r args) sp r args Hpl
                body m Hw H4 H5) as (E1 & E2 & E3 & E4).
    split; [|split; [exact E2|exact E3]].
    transitivity (tup (vrun F (bs_of r args) body (st0 k get sp r args m) OR)).
    { apply tup_ext. exact E1. }
    rewrite Hv by apply map_length. now rewrite (args_get m sp r args H2 Hpl).
  Qed.
End Lift.

Lemma call_k_get {A} w k k' (get get' : mem -> nat -> A) K ro n p f : k = k' -> (forall m q, get m q = get' m q) ->
  call_k w k get K ro n p f -> call_k w k' get' K ro n p f.
Proof.
  intros -> E H sp r args m H1 H2 H3 H4 H5 H6. destruct (H sp r args m H1 H2 H3 H4 H5 H6) as (C1 & C2 & C3).
  split; [|split; assumption]. rewrite <- E, C1. f_equal. apply map_ext. intros q. apply E.
Qed.

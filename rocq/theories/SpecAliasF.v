(** How elements of the extension fields and curve points lie in memory. *)
From Verif Require Import Base ModelAlias SpecAlias ModelEC ModelAliasF.

(** two, three objects of [k] limbs next to each other *)
Definition pair_at {A : Type} (k : nat) (get : mem -> nat -> A) (m : mem) (p : nat) : A * A :=
  (get m p, get m (p + k)%nat).
Definition triple_at {A : Type} (k : nat) (get : mem -> nat -> A) (m : mem) (p : nat) : A * A * A :=
  (get m p, get m (p + k)%nat, get m (p + 2 * k)%nat).

(** the element of F_p, F_p^2, F_p^4, F_p^12 at an address *)
Definition fp_at (b : build) (m : mem) (p : nat) : list Z := rd m p (lims b).
Definition fp2_at (b : build) := pair_at (lims b) (fp_at b).
Definition fp4_at (b : build) := pair_at (2 * lims b) (fp2_at b).
Definition fp12_at (b : build) := triple_at (4 * lims b) (fp4_at b).
(** the affine, the Jacobian point over F_p, over F_p^2 *)
Definition aff_at (b : build) := pair_at (lims b) (fp_at b).
Definition jac_at (b : build) := triple_at (lims b) (fp_at b).
Definition aff2_at (b : build) := pair_at (2 * lims b) (fp2_at b).
Definition jac2_at (b : build) := triple_at (2 * lims b) (fp2_at b).

(** [m'] is [m] below the stack pointer [sp], except in the [k] limbs at [r] *)
Definition frame (sp r k : nat) (m m' : mem) : Prop :=
  forall q, (q < sp)%nat -> (q < r)%nat \/ (r + k <= q)%nat -> m' q = m q.
(** the [j] limbs at [a] do not overlap the [k] limbs at [r] *)
Definition apart (k r j a : nat) : Prop := (r + k <= a)%nat \/ (a + j <= r)%nat.

(** The point functions of one curve may be called in place: each leaves in the result object the
    value of the corresponding function on values, for the operands' values before the call, and
    changes nothing else of the callers' memory, whether operands are the result object or apart from
    it.  [fa], [fj] read an affine, a Jacobian point; coordinates have [k] limbs; [neg_a] ... [equal]
    are the functions on memory. *)
Definition points_in_place {A : Type} (w : Z) (k : nat) (Op : fops A) (vdbl : jac A -> jac A)
    (fa : mem -> nat -> aff A) (fj : mem -> nat -> jac A)
    (neg_a neg dbl add normal cpy set_inf from_a to_a add_a : proc)
    (is_inf : mem -> nat -> bool) (equal : nat -> list nat -> mem -> mem * bool) : Prop :=
  let za := (o_zero Op, o_zero Op) in
  let zj := (o_zero Op, o_zero Op, o_zero Op) in
  let one_arg := fun (f : jac A -> jac A) l => f (nth 0 l zj) in
  call_ok w (2 * k) fa 1 neg_a (fun l => a_neg Op (nth 0 l za)) /\
  call_ok w (3 * k) fj 1 neg (one_arg (j_neg Op)) /\
  call_ok w (3 * k) fj 1 dbl (one_arg vdbl) /\
  call_ok w (3 * k) fj 2 add (fun l => j_add Op vdbl (nth 0 l zj) (nth 1 l zj)) /\
  call_ok w (3 * k) fj 1 normal (one_arg (j_normal Op)) /\
  call_ok w (3 * k) fj 1 cpy (one_arg (fun x => x)) /\
  call_ok w (3 * k) fj 0 set_inf (fun _ => j_set_inf Op) /\
  (forall sp r a m, (r + 3 * k <= sp)%nat -> (a + 2 * k <= sp)%nat -> same_or_apart (3 * k) r (2 * k) a -> words w m ->
     let m' := from_a sp r [a] m in fj m' r = j_from_a Op (fa m a) /\ frame sp r (3 * k) m m' /\ words w m') /\
  (forall sp r a m, (r + 2 * k <= sp)%nat -> (a + 3 * k <= sp)%nat -> same_or_apart (2 * k) r (3 * k) a -> words w m ->
     let m' := to_a sp r [a] m in fa m' r = j_to_a Op (fj m a) /\ frame sp r (2 * k) m m' /\ words w m') /\
  (forall sp r a b m, (r + 3 * k <= sp)%nat -> (a + 3 * k <= sp)%nat -> (b + 2 * k <= sp)%nat ->
     same_or_apart (3 * k) r (3 * k) a -> same_or_apart (3 * k) r (2 * k) b -> words w m ->
     let m' := add_a sp r [a; b] m in
     fj m' r = j_add_a Op (fj m a) (fa m b) /\ frame sp r (3 * k) m m' /\ words w m') /\
  (forall m a, is_inf m a = j_is_inf Op (fj m a)) /\
  (forall sp a b m, (a + 3 * k <= sp)%nat -> (b + 3 * k <= sp)%nat -> words w m ->
     let (m', e) := equal sp [a; b] m in
     e = j_equal Op (fj m a) (fj m b) /\ forall q, (q < sp)%nat -> m' q = m q).

(** The product of an object of [c] cells of [k] limbs with one cell that is apart from the result *)
Definition scales_in_place {A B : Type} (w : Z) (k c : nat) (get : mem -> nat -> A) (get1 : mem -> nat -> B)
    (p : proc) (f : A -> B -> A) : Prop :=
  forall sp r a b m, (r + c * k <= sp)%nat -> (a + c * k <= sp)%nat -> (b + k <= sp)%nat ->
    same_or_apart (c * k) r (c * k) a -> apart (c * k) r k b -> words w m ->
    let m' := p sp r [a; b] m in
    get m' r = f (get m a) (get1 m b) /\ frame sp r (c * k) m m' /\ words w m'.

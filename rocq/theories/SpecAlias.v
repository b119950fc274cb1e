(** What it means for a function with pointer arguments to be safe when the result array is one of
    its operands. *)
From Verif Require Import Base ModelAlias SpecNumber.

(** Every limb in memory is a [w]-bit word. *)
Definition words (w : Z) (m : mem) : Prop := forall q, 0 <= m q < 2 ^ w.

(** The operand of [j] limbs at [a] is at the address of the result of [k] limbs at [r], or the two
    do not overlap. *)
Definition same_or_apart (k r j a : nat) : Prop := a = r \/ (r + k <= a)%nat \/ (a + j <= r)%nat.

(** [m'] differs from [m] at most in the [k] limbs at [r]. *)
Definition only_changes (r k : nat) (m m' : mem) : Prop :=
  forall q, (q < r)%nat \/ (r + k <= q)%nat -> m' q = m q.

(** A call p(r, args) whose operands and result are objects of [k] limbs below the stack pointer,
    each operand being the result object or apart from it (operands may coincide with each other):
    - afterwards the result object holds [f] of the values the operands had before;
    - nothing else of the callers' memory has changed. *)
Definition call_ok {A : Type} (w : Z) (k : nat) (get : mem -> nat -> A) (n : nat) (p : proc)
    (f : list A -> A) : Prop :=
  forall sp r args m,
    length args = n -> (r + k <= sp)%nat ->
    Forall (fun a => (a + k <= sp)%nat /\ same_or_apart k r k a) args ->
    words w m ->
    get (p sp r args m) r = f (map (get m) args) /\
    (forall q, (q < sp)%nat -> (q < r)%nat \/ (r + k <= q)%nat -> p sp r args m q = m q) /\
    words w (p sp r args m).

(** [x], the memory and the carry a call leaves, is the exact result [V]: the [k] limbs at [r] and
    the carry, of weight 2^(w k), stand for the integer [V]; the carry is between [lo] and [hi];
    nothing outside the [k] limbs at [r] has changed. *)
Definition exact_at (w : Z) (r k : nat) (m : mem) (x : mem * Z) (V lo hi : Z) : Prop :=
  val w (rd (fst x) r k) + 2 ^ (w * Z.of_nat k) * snd x = V /\ lo <= snd x <= hi /\
  only_changes r k m (fst x) /\ words w (fst x).

(** A call p(r, args) on Montgomery forms modulo [P]: if the operands hold the residues [xs], and
    [pre xs], then afterwards the result object holds a residue [y] with [post xs y], and nothing
    else of the callers' memory has changed. *)
Definition mont_call (w : Z) (k : nat) (P : Z) (n : nat) (p : proc)
    (pre : list Z -> Prop) (post : list Z -> Z -> Prop) : Prop :=
  forall sp r args m xs,
    length args = n -> (r + k <= sp)%nat ->
    Forall (fun a => (a + k <= sp)%nat /\ same_or_apart k r k a) args ->
    words w m -> Forall2 (fun a x => mont_repr w k P (rd m a k) x) args xs -> pre xs ->
    (exists y, mont_repr w k P (rd (p sp r args m) r k) y /\ post xs y) /\
    (forall q, (q < sp)%nat -> (q < r)%nat \/ (r + k <= q)%nat -> p sp r args m q = m q) /\
    words w (p sp r args m).

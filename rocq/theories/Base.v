(** Basic vocabulary shared by models, specifications and proofs: bytes and machine words as
    integers, outcomes of C++ calls, array reads and writes.  No proofs here. *)
From Coq Require Export ZArith List Bool.
Export ListNotations.
Open Scope Z_scope.

Global Arguments Z.mul : simpl never.
Global Arguments Z.add : simpl never.
Global Arguments Z.sub : simpl never.
Global Arguments Z.div : simpl never.
Global Arguments Z.modulo : simpl never.
Global Arguments Z.pow : simpl never.
Global Arguments Z.lxor : simpl never.
Global Arguments Z.lor : simpl never.
Global Arguments Z.land : simpl never.
Global Arguments Z.shiftl : simpl never.
Global Arguments Z.shiftr : simpl never.
Global Arguments Z.testbit : simpl never.
Global Arguments Z.of_nat : simpl never.
Global Arguments Z.to_nat : simpl never.

(** A byte string is a list of integers in [0,256). *)
Definition is_byte (b : Z) : Prop := 0 <= b < 256.
Definition bytes (l : list Z) : Prop := Forall is_byte l.

(** Machine words. *)
Definition w8 (x : Z) : Z := x mod 2 ^ 8.
Definition w16 (x : Z) : Z := x mod 2 ^ 16.
Definition w32 (x : Z) : Z := x mod 2 ^ 32.
Definition w64 (x : Z) : Z := x mod 2 ^ 64.
Definition is_u32 (x : Z) : Prop := 0 <= x < 2 ^ 32.
Definition is_u64 (x : Z) : Prop := 0 <= x < 2 ^ 64.

(** Outcome of a C++ call: a value, a thrown exception (or error return that the caller turns
    into one), or undefined behaviour (access outside an object, read of indeterminate data). *)
Inductive res (A : Type) : Type :=
| Ok (a : A)
| Throw
| UB.
Arguments Ok {A} a.
Arguments Throw {A}.
Arguments UB {A}.

Definition bind {A B} (x : res A) (f : A -> res B) : res B :=
  match x with Ok a => f a | Throw => Throw | UB => UB end.
Notation "'do' x <- e ; f" := (bind e (fun x => f))
  (at level 200, x pattern, e at level 100, f at level 200, right associativity).

Definition of_option {A} (o : option A) : res A :=
  match o with Some a => Ok a | None => Throw end.

(** [slice l off n]: the [n] elements of [l] from index [off] (shorter at the end of [l]). *)
Definition slice {A} (l : list A) (off n : nat) : list A := firstn n (skipn off l).

(** Checked read of [n] elements: [UB] when it leaves the object. *)
Definition read (l : list Z) (off n : nat) : res (list Z) :=
  if (off + n <=? length l)%nat then Ok (slice l off n) else UB.

(** memcpy of [d] into the array [a] at offset [off]; [UB] when it leaves the array. *)
Definition write (a : list Z) (off : nat) (d : list Z) : res (list Z) :=
  if (off + length d <=? length a)%nat
  then Ok (firstn off a ++ d ++ skipn (off + length d) a)
  else UB.

(** Element access with default 0; used only at indices the callers keep in range. *)
Definition nz (l : list Z) (i : nat) : Z := nth i l 0.

(** Pointwise XOR of two byte strings (stops at the shorter one). *)
Fixpoint xorl (a b : list Z) : list Z :=
  match a, b with
  | x :: a', y :: b' => Z.lxor x y :: xorl a' b'
  | _, _ => []
  end.

(** Cut a list into consecutive pieces of [n] elements, [k] of them. *)
Fixpoint cut {A} (n k : nat) (l : list A) : list (list A) :=
  match k with
  | O => []
  | S k' => firstn n l :: cut n k' (skipn n l)
  end.

(** Big-endian and little-endian value of a byte string. *)
Definition be_val (l : list Z) : Z := fold_left (fun a b => 256 * a + b) l 0.
Fixpoint le_val (l : list Z) : Z :=
  match l with [] => 0 | b :: r => b + 256 * le_val r end.

(** The [n]-byte little/big-endian representation of an integer. *)
Fixpoint le_bytes (n : nat) (v : Z) : list Z :=
  match n with O => [] | S n' => v mod 256 :: le_bytes n' (v / 256) end.
Definition be_bytes (n : nat) (v : Z) : list Z := rev (le_bytes n v).

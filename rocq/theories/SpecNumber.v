(** Specification vocabulary for the number library: a little-endian array of [w]-bit limbs, its
    integer value, and Montgomery representation.  Independent of the model. *)
From Verif Require Import Base.

(** [limbs w n l]: [l] is an array of [n] limbs of [w] bits. *)
Definition limbs (w : Z) (n : nat) (l : list Z) : Prop :=
  length l = n /\ Forall (fun x => 0 <= x < 2 ^ w) l.

(** The integer an array of [w]-bit limbs stands for, least significant limb first. *)
Fixpoint val (w : Z) (l : list Z) : Z :=
  match l with [] => 0 | x :: r => x + 2 ^ w * val w r end.

(** [mont_repr w n P a x]: the array [a] is the canonical Montgomery form (factor 2^256) of the
    residue [x] modulo [P]. *)
Definition mont_repr (w : Z) (n : nat) (P : Z) (a : list Z) (x : Z) : Prop :=
  limbs w n a /\ 0 <= val w a < P /\ 0 <= x < P /\ val w a = (x * 2 ^ 256) mod P.

(** What it means for a function that may fail to leave its result in memory. *)
From Verif Require Import Base ModelAlias SpecAlias ModelAliasF SpecAliasF.

(** A call, started in memory [m] with the stack pointer [sp], whose result is the object of [k] limbs
    at [r]: it fails exactly when the value [v] is a failure; otherwise it leaves the value in the
    result object, and nothing else of the callers' memory has changed. *)
Definition returns {A : Type} (w : Z) (k : nat) (get : mem -> nat -> A) (sp r : nat) (m : mem)
    (x : res mem) (v : res A) : Prop :=
  match v with
  | Ok y => exists m', x = Ok m' /\ get m' r = y /\ frame sp r k m m' /\ words w m'
  | Throw => x = Throw
  | UB => x = UB
  end.

(** NIST SP 800-38D sections 6.3-6.4: multiplication in GF(2^128) and GHASH.
    A block is a 128-bit string, given here as the integer whose most significant bit is bit 0 of
    the string (i.e. the big-endian value of its 16 bytes). *)
From Verif Require Import Base.

(** 6.3: R = 11100001 || 0^120 *)
Definition R128 : Z := 0xE1 * 2 ^ 120.
(** 6.3 step 3: V_{i+1} *)
Definition mulx (V : Z) : Z :=
  if Z.odd V then Z.lxor (Z.shiftr V 1) R128 else Z.shiftr V 1.
(** 6.3 Algorithm 1, from bit [i] on with [n] bits to go *)
Fixpoint gmul_loop (n : nat) (X : Z) (i : Z) (Zi V : Z) : Z :=
  match n with
  | O => Zi
  | S n' => gmul_loop n' X (i + 1) (if Z.testbit X (127 - i) then Z.lxor Zi V else Zi) (mulx V)
  end.
(** X . Y *)
Definition gmul (X Y : Z) : Z := gmul_loop 128 X 0 0 Y.

(** 6.4 Algorithm 2: GHASH_H(X_1 || ... || X_m) *)
Definition GHASH_blocks (H : Z) (Y0 : Z) (Xs : list Z) : Z :=
  fold_left (fun Y X => gmul (Z.lxor Y X) H) Xs Y0.
Definition GHASH (H m : list Z) : list Z :=
  be_bytes 16 (GHASH_blocks (be_val H) 0 (map be_val (cut 16 (length m / 16) m))).

(** The same field as binary polynomials: a polynomial is the integer with bit i = coefficient of
    x^i.  Block and polynomial are related by bit reversal: bit i of the string is the coefficient
    of x^i. *)
Definition rev128 (X : Z) : Z :=
  fold_left (fun r i => if Z.testbit X (127 - i) then Z.lxor r (Z.shiftl 1 i) else r)
            (map Z.of_nat (seq 0 128)) 0.
(** carry-less product of polynomials of degree < n *)
Fixpoint clmul (n : nat) (a b : Z) : Z :=
  match n with
  | O => 0
  | S n' => Z.lxor (if Z.odd a then b else 0) (Z.shiftl (clmul n' (Z.shiftr a 1) b) 1)
  end.
(** reduction modulo x^128 + x^7 + x^2 + x + 1 of a polynomial of degree < 128 + n *)
Fixpoint polymod (n : nat) (a : Z) : Z :=
  match n with
  | O => a
  | S n' => let d := 128 + Z.of_nat n' in
            polymod n' (if Z.testbit a d then Z.lxor a (Z.shiftl (2 ^ 128 + 0x87) (Z.of_nat n')) else a)
  end.

(** With [n] bytes hashed so far, every call starts on a block boundary or stays within the next block. *)
Fixpoint calls_ok (n : nat) (chunks : list (list Z)) : Prop :=
  match chunks with
  | [] => True
  | x :: r => (n mod 16 = 0 \/ n mod 16 + length x < 32)%nat /\ calls_ok (n + length x) r
  end.


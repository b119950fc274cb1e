(** The extension fields, the curve formulas and the line functions on memory, with pointers:
    src/sm9/sm9_field.cpp and src/sm2/sm2p256v1.cpp.

    The value models (ModelEC.v, ModelSM9.v) give the result of a call as a function of the operands'
    values.  In the code every function is a sequence of calls of smaller functions whose results and
    operands are cells (coordinates) of the arrays passed in or of local arrays, and the result array
    may be one of the operands.  Here such a body is a list of instructions, executed one after the
    other on the memory of ModelAlias.v; a cell of an operand is read when the instruction runs.

    Simplifications, besides those of ModelAlias.v: the local arrays of a function lie next to each
    other from the stack pointer on, as cells of one size; its callees' locals lie above them. *)
From Verif Require Import Base ModelNumber ModelNumberX64 ModelMont ModelAlias ModelEC ModelSM2 ModelSM9.

(** ** Straight-line code *)
(** the array a cell belongs to: the result, the locals, the i-th operand *)
Inductive obj := OR | OL | OA (i : nat).
Definition cell : Type := (obj * nat)%type.
(** the function called: the usual field operations; [Con i] stores the i-th constant; [Ext i] is
    another function of one operand, given where it is used *)
Inductive op := Add | Sub | Mul | Sqr | Dbl | Tpl | Neg | Inv | Cpy | Zero | One | Con (i : nat) | Ext (i : nat).
Record ins := Ins { i_op : op; i_dst : cell; i_src : list cell }.

Section Run.
  Variables (k : nat) (P : op -> proc).
  (** the address of a cell: cells have [k] limbs *)
  Definition addr (env : obj -> nat) (c : cell) : nat := (env (fst c) + k * snd c)%nat.
  Definition exec (env : obj -> nat) (sp : nat) (i : ins) (m : mem) : mem :=
    P (i_op i) sp (addr env (i_dst i)) (map (addr env) (i_src i)) m.
  Fixpoint run (env : obj -> nat) (sp : nat) (body : list ins) (m : mem) : mem :=
    match body with [] => m | i :: body' => run env sp body' (exec env sp i m) end.
  Definition env_of (sp r : nat) (args : list nat) (o : obj) : nat :=
    match o with OR => r | OL => sp | OA i => arg args i end.
  (** a function with [nloc] local cells *)
  Definition code (nloc : nat) (body : list ins) : proc :=
    fun sp r args m => run (env_of sp r args) (sp + k * nloc) body m.
End Run.

Definition R_ (i : nat) : cell := (OR, i).
Definition L_ (i : nat) : cell := (OL, i).
Definition a_ (i : nat) : cell := (OA 0, i).
Definition b_ (i : nat) : cell := (OA 1, i).
Definition i0 (o : op) (d : cell) : ins := Ins o d [].
Definition i1 (o : op) (d a : cell) : ins := Ins o d [a].
Definition i2 (o : op) (d a b : cell) : ins := Ins o d [a; b].
(** no function: never reached by the bodies below *)
Definition nop : proc := fun _ _ _ m => m.

(** ** F_p^2 over F_p (sm9_field.cpp) *)
(** 474-478 cpy, 507-535 add, dbl, tpl, neg, sub: both coordinates *)
Definition b2_un (o : op) : list ins := [i1 o (R_ 0) (a_ 0); i1 o (R_ 1) (a_ 1)].
Definition b2_bin (o : op) : list ins := [i2 o (R_ 0) (a_ 0) (b_ 0); i2 o (R_ 1) (a_ 1) (b_ 1)].
(** 495-499, 639-643 *)
Definition b2_zero : list ins := [i0 Zero (R_ 0); i0 Zero (R_ 1)].
(** 501-505, 645-649 *)
Definition b2_one : list ins := [i0 One (R_ 0); i0 Zero (R_ 1)].
(** 1841-1843, 1856-1858: set_zero(R[2][1]); from_bytes(R[2][0], C) *)
Definition b2_con (i : nat) : list ins := [i0 Zero (R_ 1); i0 (Con i) (R_ 0)].
(** 537-553, locals a0b0, a1b1, t *)
Definition b2_mul : list ins :=
  [i2 Mul (L_ 0) (a_ 0) (b_ 0); i2 Mul (L_ 1) (a_ 1) (b_ 1);
   i2 Add (L_ 2) (a_ 0) (a_ 1); i2 Add (R_ 1) (b_ 0) (b_ 1); i2 Mul (R_ 1) (L_ 2) (R_ 1);
   i2 Sub (R_ 1) (R_ 1) (L_ 0); i2 Sub (R_ 1) (R_ 1) (L_ 1);
   i1 Dbl (L_ 2) (L_ 1); i2 Sub (R_ 0) (L_ 0) (L_ 2)].
(** 555-562, local t *)
Definition b2_mul_u : list ins := [i1 Dbl (L_ 0) (a_ 1); i1 Cpy (R_ 1) (a_ 0); i1 Neg (R_ 0) (L_ 0)].
(** 564-568; the second operand is an element of F_p *)
Definition b2_mul_fp : list ins := [i2 Mul (R_ 0) (a_ 0) (b_ 0); i2 Mul (R_ 1) (a_ 1) (b_ 0)].
(** 570-584, locals a0a0, a1a1 *)
Definition b2_sqr : list ins :=
  [i1 Sqr (L_ 0) (a_ 0); i1 Sqr (L_ 1) (a_ 1);
   i2 Add (R_ 1) (a_ 0) (a_ 1); i1 Sqr (R_ 1) (R_ 1);
   i2 Sub (R_ 1) (R_ 1) (L_ 0); i2 Sub (R_ 1) (R_ 1) (L_ 1);
   i1 Dbl (L_ 1) (L_ 1); i2 Sub (R_ 0) (L_ 0) (L_ 1)].
(** 586-600, locals t0, t1 *)
Definition b2_inv : list ins :=
  [i1 Sqr (L_ 0) (a_ 0); i1 Sqr (L_ 1) (a_ 1); i1 Dbl (L_ 1) (L_ 1); i2 Add (L_ 0) (L_ 0) (L_ 1);
   i1 Inv (L_ 0) (L_ 0);
   i2 Mul (R_ 0) (a_ 0) (L_ 0); i2 Mul (R_ 1) (a_ 1) (L_ 0); i1 Neg (R_ 1) (R_ 1)].
(** 1821-1825, 2140-2144 *)
Definition b2_conj : list ins := [i1 Cpy (R_ 0) (a_ 0); i1 Neg (R_ 1) (a_ 1)].
(** 2116-2117, 2120-2121, ...: from_bytes(t, C); mul_fp(r, a, t).  Simplification: each use has its
    own local t. *)
Definition b2_mul_con (i : nat) : list ins :=
  [i0 (Con i) (L_ 0); i2 Mul (R_ 0) (a_ 0) (L_ 0); i2 Mul (R_ 1) (a_ 1) (L_ 0)].
(** 696-702 with the constant loaded before, on the four coordinates in F_p *)
Definition b4_mul_con (i : nat) : list ins :=
  [i0 (Con i) (L_ 0); i2 Mul (R_ 0) (a_ 0) (L_ 0); i2 Mul (R_ 1) (a_ 1) (L_ 0);
   i2 Mul (R_ 2) (a_ 2) (L_ 0); i2 Mul (R_ 3) (a_ 3) (L_ 0)].

(** ** F_p^4 over F_p^2; [Ext 0] below is the multiplication by u *)
(** 669-685, locals a0b0, a1b1, t *)
Definition b4_mul : list ins :=
  [i2 Mul (L_ 0) (a_ 0) (b_ 0); i2 Mul (L_ 1) (a_ 1) (b_ 1);
   i2 Add (L_ 2) (a_ 0) (a_ 1); i2 Add (R_ 1) (b_ 0) (b_ 1); i2 Mul (R_ 1) (L_ 2) (R_ 1);
   i2 Sub (R_ 1) (R_ 1) (L_ 0); i2 Sub (R_ 1) (R_ 1) (L_ 1);
   i1 (Ext 0) (L_ 2) (L_ 1); i2 Add (R_ 0) (L_ 0) (L_ 2)].
(** 687-694, local t *)
Definition b4_mul_v : list ins := [i1 (Ext 0) (L_ 0) (a_ 1); i1 Cpy (R_ 1) (a_ 0); i1 Cpy (R_ 0) (L_ 0)].
(** 704-708 *)
Definition b4_mul_fp2 : list ins := [i2 Mul (R_ 0) (a_ 0) (b_ 0); i2 Mul (R_ 1) (a_ 1) (b_ 0)].
(** 710-724, locals a0a0, a1a1 *)
Definition b4_sqr : list ins :=
  [i1 Sqr (L_ 0) (a_ 0); i1 Sqr (L_ 1) (a_ 1);
   i2 Add (R_ 1) (a_ 0) (a_ 1); i1 Sqr (R_ 1) (R_ 1);
   i2 Sub (R_ 1) (R_ 1) (L_ 0); i2 Sub (R_ 1) (R_ 1) (L_ 1);
   i1 (Ext 0) (L_ 1) (L_ 1); i2 Add (R_ 0) (L_ 0) (L_ 1)].
(** 726-740, locals t0, t1 *)
Definition b4_inv : list ins :=
  [i1 Sqr (L_ 0) (a_ 0); i1 Sqr (L_ 1) (a_ 1); i1 (Ext 0) (L_ 1) (L_ 1); i2 Sub (L_ 0) (L_ 0) (L_ 1);
   i1 Inv (L_ 0) (L_ 0);
   i2 Mul (R_ 0) (a_ 0) (L_ 0); i2 Mul (R_ 1) (a_ 1) (L_ 0); i1 Neg (R_ 1) (R_ 1)].

(** ** F_p^12 over F_p^4; [Ext 0] below is the multiplication by v *)
(** 760-765, 799-817 *)
Definition b12_un (o : op) : list ins := [i1 o (R_ 0) (a_ 0); i1 o (R_ 1) (a_ 1); i1 o (R_ 2) (a_ 2)].
Definition b12_bin (o : op) : list ins :=
  [i2 o (R_ 0) (a_ 0) (b_ 0); i2 o (R_ 1) (a_ 1) (b_ 1); i2 o (R_ 2) (a_ 2) (b_ 2)].
(** 785-790 *)
Definition b12_zero : list ins := [i0 Zero (R_ 0); i0 Zero (R_ 1); i0 Zero (R_ 2)].
(** 792-797 *)
Definition b12_one : list ins := [i0 One (R_ 0); i0 Zero (R_ 1); i0 Zero (R_ 2)].
(** 819-858, locals a0b0, a1b1, a2b2, a1_add_a2, a0_add_a1, a0_add_a2, b1_add_b2, b0_add_b1, b0_add_b2 *)
Definition b12_mul : list ins :=
  [i2 Mul (L_ 0) (a_ 0) (b_ 0); i2 Mul (L_ 1) (a_ 1) (b_ 1); i2 Mul (L_ 2) (a_ 2) (b_ 2);
   i2 Add (L_ 3) (a_ 1) (a_ 2); i2 Add (L_ 4) (a_ 0) (a_ 1); i2 Add (L_ 5) (a_ 0) (a_ 2);
   i2 Add (L_ 6) (b_ 1) (b_ 2); i2 Add (L_ 7) (b_ 0) (b_ 1); i2 Add (L_ 8) (b_ 0) (b_ 2);
   i2 Mul (R_ 0) (L_ 3) (L_ 6); i2 Sub (R_ 0) (R_ 0) (L_ 1); i2 Sub (R_ 0) (R_ 0) (L_ 2);
   i1 (Ext 0) (R_ 0) (R_ 0); i2 Add (R_ 0) (R_ 0) (L_ 0);
   i2 Mul (R_ 2) (L_ 5) (L_ 8); i2 Sub (R_ 2) (R_ 2) (L_ 0); i2 Sub (R_ 2) (R_ 2) (L_ 2);
   i2 Add (R_ 2) (R_ 2) (L_ 1);
   i2 Mul (R_ 1) (L_ 4) (L_ 7); i2 Sub (R_ 1) (R_ 1) (L_ 0); i2 Sub (R_ 1) (R_ 1) (L_ 1);
   i1 (Ext 0) (L_ 2) (L_ 2); i2 Add (R_ 1) (R_ 1) (L_ 2)].
(** 860-867 *)
Definition b12_mul_fp4 : list ins :=
  [i2 Mul (R_ 0) (a_ 0) (b_ 0); i2 Mul (R_ 1) (a_ 1) (b_ 0); i2 Mul (R_ 2) (a_ 2) (b_ 0)].
(** 874-908, locals A, B, C, t0, t1 *)
Definition b12_inv : list ins :=
  [i1 Sqr (L_ 0) (a_ 0); i2 Mul (L_ 3) (a_ 1) (a_ 2); i1 (Ext 0) (L_ 3) (L_ 3); i2 Sub (L_ 0) (L_ 0) (L_ 3);
   i1 Sqr (L_ 1) (a_ 2); i1 (Ext 0) (L_ 1) (L_ 1); i2 Mul (L_ 3) (a_ 0) (a_ 1); i2 Sub (L_ 1) (L_ 1) (L_ 3);
   i1 Sqr (L_ 2) (a_ 1); i2 Mul (L_ 3) (a_ 0) (a_ 2); i2 Sub (L_ 2) (L_ 2) (L_ 3);
   i2 Mul (L_ 3) (a_ 1) (L_ 2); i2 Mul (L_ 4) (a_ 2) (L_ 1); i2 Add (L_ 3) (L_ 3) (L_ 4);
   i1 (Ext 0) (L_ 3) (L_ 3); i2 Mul (L_ 4) (a_ 0) (L_ 0); i2 Add (L_ 3) (L_ 3) (L_ 4);
   i1 Inv (L_ 3) (L_ 3);
   i2 Mul (R_ 0) (L_ 0) (L_ 3); i2 Mul (R_ 1) (L_ 1) (L_ 3); i2 Mul (R_ 2) (L_ 2) (L_ 3)].

(** *** Frobenius maps.  Constants: 0 C of 1835, 1 C of 1850, 2 .. 6 SM9_ALPHA1 .. SM9_ALPHA5, 7 BETA.
    Over F_p^2 (six cells): [Ext 1] is the conjugate, [Ext (2 + i)] the product with constant i. *)
(** 2108-2138, locals r1, r2, r3 *)
Definition b12_frob : list ins :=
  [i1 (Ext 1) (L_ 0) (a_ 0); i1 (Ext 1) (L_ 1) (a_ 1); i1 (Ext 6) (L_ 1) (L_ 1);
   i1 (Ext 1) (L_ 2) (a_ 2); i1 (Ext 4) (L_ 2) (L_ 2); i1 (Ext 1) (L_ 3) (a_ 3); i1 (Ext 7) (L_ 3) (L_ 3);
   i1 (Ext 1) (L_ 4) (a_ 4); i1 (Ext 5) (L_ 4) (L_ 4); i1 (Ext 1) (L_ 5) (a_ 5); i1 (Ext 8) (L_ 5) (L_ 5);
   i1 Cpy (R_ 0) (L_ 0); i1 Cpy (R_ 1) (L_ 1); i1 Cpy (R_ 2) (L_ 2); i1 Cpy (R_ 3) (L_ 3);
   i1 Cpy (R_ 4) (L_ 4); i1 Cpy (R_ 5) (L_ 5)].
(** 2146-2164 over F_p^4, locals a, b, c; [Ext 1] is the conjugate *)
Definition b12_frob2 : list ins :=
  [i1 (Ext 1) (L_ 0) (a_ 0); i1 (Ext 1) (L_ 1) (a_ 1); i1 (Ext 5) (L_ 1) (L_ 1);
   i1 (Ext 1) (L_ 2) (a_ 2); i1 (Ext 7) (L_ 2) (L_ 2);
   i1 Cpy (R_ 0) (L_ 0); i1 Cpy (R_ 1) (L_ 1); i1 Cpy (R_ 2) (L_ 2)].
(** 2166-2192, locals ra, rb, rc *)
Definition b12_frob3 : list ins :=
  [i1 (Ext 1) (L_ 0) (a_ 0); i1 (Ext 1) (L_ 1) (a_ 1); i1 (Ext 9) (L_ 1) (L_ 1); i1 Neg (L_ 1) (L_ 1);
   i1 (Ext 1) (L_ 2) (a_ 2); i1 (Ext 9) (L_ 2) (L_ 2); i1 (Ext 1) (L_ 3) (a_ 3);
   i1 (Ext 1) (L_ 4) (a_ 4); i1 Neg (L_ 4) (L_ 4); i1 (Ext 1) (L_ 5) (a_ 5); i1 (Ext 9) (L_ 5) (L_ 5);
   i1 Cpy (R_ 0) (L_ 0); i1 Cpy (R_ 1) (L_ 1); i1 Cpy (R_ 2) (L_ 2); i1 Cpy (R_ 3) (L_ 3);
   i1 Cpy (R_ 4) (L_ 4); i1 Cpy (R_ 5) (L_ 5)].
(** 2194-2212 over F_p^4, locals a, b, c *)
Definition b12_frob6 : list ins :=
  [i1 Cpy (L_ 0) (a_ 0); i1 Cpy (L_ 1) (a_ 1); i1 Cpy (L_ 2) (a_ 2);
   i1 (Ext 1) (L_ 0) (L_ 0); i1 (Ext 1) (L_ 1) (L_ 1); i1 Neg (L_ 1) (L_ 1); i1 (Ext 1) (L_ 2) (L_ 2);
   i1 Cpy (R_ 0) (L_ 0); i1 Cpy (R_ 1) (L_ 1); i1 Cpy (R_ 2) (L_ 2)].

(** ** Curve points: affine 2 cells, Jacobian 3 cells *)
(** sm2p256v1.cpp 390-394, sm9_field.cpp 1105-1109 *)
Definition ba_neg : list ins := [i1 Cpy (R_ 0) (a_ 0); i1 Neg (R_ 1) (a_ 1)].
(** sm2p256v1.cpp 485-490, sm9_field.cpp 1497-1502 *)
Definition bj_cpy : list ins := [i1 Cpy (R_ 0) (a_ 0); i1 Cpy (R_ 1) (a_ 1); i1 Cpy (R_ 2) (a_ 2)].
(** sm2p256v1.cpp 497-503, sm9_field.cpp 1509-1515 *)
Definition bj_set_inf : list ins := [i0 One (R_ 0); i0 One (R_ 1); i0 Zero (R_ 2)].
(** sm2p256v1.cpp 505-510, sm9_field.cpp 1517-1522 *)
Definition bj_neg : list ins := [i1 Cpy (R_ 0) (a_ 0); i1 Neg (R_ 1) (a_ 1); i1 Cpy (R_ 2) (a_ 2)].
(** sm2p256v1.cpp 778-783, sm9_field.cpp 1758-1763 *)
Definition bj_from_a : list ins := [i1 Cpy (R_ 0) (a_ 0); i1 Cpy (R_ 1) (a_ 1); i0 One (R_ 2)].
(** sm2p256v1.cpp 785-794, sm9_field.cpp 1765-1774, locals inv2, inv3 *)
Definition bj_to_a : list ins :=
  [i1 Inv (L_ 1) (a_ 2); i1 Sqr (L_ 0) (L_ 1); i2 Mul (L_ 1) (L_ 1) (L_ 0);
   i2 Mul (R_ 0) (a_ 0) (L_ 0); i2 Mul (R_ 1) (a_ 1) (L_ 1)].
(** sm2p256v1.cpp 803-810, sm9_field.cpp 1783-1790: after the test for infinity *)
Definition bj_normal : list ins := bj_to_a ++ [i0 One (R_ 2)].
(** sm2p256v1.cpp 640-688, locals delta, gamma, beta, alpha *)
Definition bj_dbl_2001b : list ins :=
  [i1 Sqr (L_ 0) (a_ 2); i1 Sqr (L_ 1) (a_ 1);
   i2 Sub (L_ 3) (a_ 0) (L_ 0); i2 Add (L_ 2) (a_ 0) (L_ 0); i2 Mul (L_ 3) (L_ 3) (L_ 2); i1 Tpl (L_ 3) (L_ 3);
   i2 Mul (L_ 2) (a_ 0) (L_ 1);
   i1 Sqr (R_ 0) (L_ 3); i1 Dbl (L_ 2) (L_ 2); i1 Dbl (L_ 2) (L_ 2); i2 Sub (R_ 0) (R_ 0) (L_ 2);
   i2 Sub (R_ 0) (R_ 0) (L_ 2);
   i2 Add (R_ 2) (a_ 1) (a_ 2); i1 Sqr (R_ 2) (R_ 2); i2 Sub (R_ 2) (R_ 2) (L_ 1); i2 Sub (R_ 2) (R_ 2) (L_ 0);
   i2 Sub (R_ 1) (L_ 2) (R_ 0); i2 Mul (R_ 1) (R_ 1) (L_ 3);
   i1 Dbl (L_ 1) (L_ 1); i1 Sqr (L_ 1) (L_ 1); i1 Dbl (L_ 1) (L_ 1); i2 Sub (R_ 1) (R_ 1) (L_ 1)].
(** sm9_field.cpp 1243-1287 and 1650-1694, locals A .. F *)
Definition bj_dbl_2009l : list ins :=
  [i1 Sqr (L_ 0) (a_ 0); i1 Sqr (L_ 1) (a_ 1); i1 Sqr (L_ 2) (L_ 1);
   i2 Add (L_ 3) (a_ 0) (L_ 1); i1 Sqr (L_ 3) (L_ 3); i2 Sub (L_ 3) (L_ 3) (L_ 0); i2 Sub (L_ 3) (L_ 3) (L_ 2);
   i1 Dbl (L_ 3) (L_ 3); i1 Tpl (L_ 4) (L_ 0); i1 Sqr (L_ 5) (L_ 4);
   i2 Sub (R_ 0) (L_ 5) (L_ 3); i2 Sub (R_ 0) (R_ 0) (L_ 3);
   i2 Mul (R_ 2) (a_ 1) (a_ 2); i1 Dbl (R_ 2) (R_ 2);
   i2 Sub (R_ 1) (L_ 3) (R_ 0); i2 Mul (R_ 1) (R_ 1) (L_ 4);
   i1 Dbl (L_ 2) (L_ 2); i1 Dbl (L_ 2) (L_ 2); i1 Dbl (L_ 2) (L_ 2); i2 Sub (R_ 1) (R_ 1) (L_ 2)].
(** sm2p256v1.cpp 512-584, sm9_field.cpp 1117-1188 and 1524-1595,
    locals 0 Z1Z1, 1 Z2Z2, 2 U1, 3 U2, 4 S1, 5 S2, 6 H, 7 I, 8 J, 9 r, 10 V: up to the comparisons *)
Definition bj_add_head : list ins :=
  [i1 Sqr (L_ 0) (a_ 2); i1 Sqr (L_ 1) (b_ 2); i2 Mul (L_ 2) (a_ 0) (L_ 1); i2 Mul (L_ 3) (b_ 0) (L_ 0);
   i2 Mul (L_ 4) (a_ 1) (b_ 2); i2 Mul (L_ 4) (L_ 4) (L_ 1); i2 Mul (L_ 5) (b_ 1) (a_ 2); i2 Mul (L_ 5) (L_ 5) (L_ 0)].
(** and after them, when U1 and U2 differ *)
Definition bj_add_tail : list ins :=
  [i2 Sub (L_ 6) (L_ 3) (L_ 2); i1 Dbl (L_ 7) (L_ 6); i1 Sqr (L_ 7) (L_ 7); i2 Mul (L_ 8) (L_ 6) (L_ 7);
   i2 Sub (L_ 9) (L_ 5) (L_ 4); i1 Dbl (L_ 9) (L_ 9); i2 Mul (L_ 10) (L_ 2) (L_ 7);
   i1 Sqr (R_ 0) (L_ 9); i2 Sub (R_ 0) (R_ 0) (L_ 8); i2 Sub (R_ 0) (R_ 0) (L_ 10); i2 Sub (R_ 0) (R_ 0) (L_ 10);
   i2 Sub (R_ 1) (L_ 10) (R_ 0); i2 Mul (R_ 1) (R_ 1) (L_ 9); i2 Mul (L_ 10) (L_ 4) (L_ 8); i1 Dbl (L_ 10) (L_ 10);
   i2 Sub (R_ 1) (R_ 1) (L_ 10);
   i2 Add (R_ 2) (a_ 2) (b_ 2); i1 Sqr (R_ 2) (R_ 2); i2 Sub (R_ 2) (R_ 2) (L_ 0); i2 Sub (R_ 2) (R_ 2) (L_ 1);
   i2 Mul (R_ 2) (R_ 2) (L_ 6)].
(** sm2p256v1.cpp 586-638, sm9_field.cpp 1190-1241 and 1597-1648,
    locals 0 Z1Z1, 1 U2, 2 S2, 3 H, 4 HH, 5 I, 6 J, 7 r, 8 V *)
Definition bj_add_a : list ins :=
  [i1 Sqr (L_ 0) (a_ 2); i2 Mul (L_ 1) (b_ 0) (L_ 0); i2 Mul (L_ 2) (b_ 1) (a_ 2); i2 Mul (L_ 2) (L_ 2) (L_ 0);
   i2 Sub (L_ 3) (L_ 1) (a_ 0); i1 Sqr (L_ 4) (L_ 3); i1 Dbl (L_ 5) (L_ 4); i1 Dbl (L_ 5) (L_ 5);
   i2 Mul (L_ 6) (L_ 3) (L_ 5); i2 Sub (L_ 7) (L_ 2) (a_ 1); i1 Dbl (L_ 7) (L_ 7); i2 Mul (L_ 8) (a_ 0) (L_ 5);
   i1 Sqr (R_ 0) (L_ 7); i2 Sub (R_ 0) (R_ 0) (L_ 6); i2 Sub (R_ 0) (R_ 0) (L_ 8); i2 Sub (R_ 0) (R_ 0) (L_ 8);
   i2 Sub (L_ 8) (L_ 8) (R_ 0); i2 Mul (L_ 8) (L_ 7) (L_ 8); i2 Mul (R_ 1) (a_ 1) (L_ 6); i1 Dbl (R_ 1) (R_ 1);
   i2 Sub (R_ 1) (L_ 8) (R_ 1);
   i2 Add (R_ 2) (a_ 2) (L_ 3); i1 Sqr (R_ 2) (R_ 2); i2 Sub (R_ 2) (R_ 2) (L_ 0); i2 Sub (R_ 2) (R_ 2) (L_ 4)].
(** sm2p256v1.cpp 813-835, sm9_field.cpp 1795-1815, locals 0 Zq2, 1 Zq3, 2 Zp2, 3 Zp3, 4 t1, 5 t2:
    up to the first comparison, and from there to the second *)
Definition bj_equal_1 : list ins :=
  [i1 Sqr (L_ 2) (a_ 2); i2 Mul (L_ 3) (L_ 2) (a_ 2); i1 Sqr (L_ 0) (b_ 2); i2 Mul (L_ 1) (L_ 0) (b_ 2);
   i2 Mul (L_ 4) (a_ 0) (L_ 0); i2 Mul (L_ 5) (b_ 0) (L_ 2)].
Definition bj_equal_2 : list ins := [i2 Mul (L_ 4) (a_ 1) (L_ 1); i2 Mul (L_ 5) (b_ 1) (L_ 3)].

(** *** Line functions over F_p^2: the result is f (6 cells); d is an array of the caller, modelled by
    the two local cells L0 = d[0], L1 = d[1] (it is never read); the first operand is T, the second
    Q; [Ext 20] and [Ext 21] are the products with xP and yP.  t0, t1, t2 are f[1][0], f[1][1],
    f[2][1], as in the code. *)
Definition f00 := R_ 0. Definition f01 := R_ 1. Definition f10 := R_ 2. Definition f11 := R_ 3.
Definition f20 := R_ 4. Definition f21 := R_ 5.
(** 1861-1927 *)
Definition b_tangent : list ins :=
  [i1 Sqr f10 (a_ 2); i2 Mul f11 f10 (a_ 2); i2 Mul (L_ 1) f11 (a_ 1); i1 Dbl (L_ 1) (L_ 1);
   i1 (Ext 21) f21 (L_ 1); i1 Neg f01 f21;
   i1 Sqr f11 (a_ 0); i2 Mul f10 f10 f11; i1 (Ext 20) f10 f10; i1 Tpl f20 f10;
   i2 Mul f11 f11 (a_ 0); i1 Tpl f11 f11; i1 Sqr f10 (a_ 1); i1 Dbl f10 f10; i2 Sub f00 f10 f11;
   i0 Zero f10; i0 Zero f11; i0 Zero f21].
(** 1930-2002 *)
Definition b_line_jja : list ins :=
  [i1 Sqr f10 (b_ 2); i2 Mul f11 f10 (a_ 0); i2 Mul f10 f10 (b_ 2); i1 Sqr f21 (a_ 2);
   i2 Mul (L_ 0) f21 (b_ 0); i2 Mul f21 f21 (a_ 2); i2 Mul f21 f21 (b_ 1); i2 Sub f11 f11 (L_ 0);
   i2 Mul f11 f11 (a_ 2); i2 Mul f11 f11 (b_ 2); i2 Mul (L_ 1) f11 f10; i2 Mul f11 f11 (b_ 1);
   i2 Mul (L_ 0) f10 (a_ 1); i2 Sub (L_ 0) (L_ 0) f21; i2 Mul f10 f10 (L_ 0); i1 (Ext 20) f10 f10;
   i1 Cpy f20 f10; i2 Mul (L_ 0) (L_ 0) (b_ 0); i2 Mul (L_ 0) (L_ 0) (b_ 2); i2 Sub f11 f11 (L_ 0);
   i1 Cpy f00 f11; i1 (Ext 21) f21 (L_ 1); i1 Neg f21 f21; i1 Cpy f01 f21;
   i0 Zero f10; i0 Zero f11; i0 Zero f21; i0 Zero (L_ 0)].
(** 2005-2069 *)
Definition b_line_jaa : list ins :=
  [i1 Sqr f21 (a_ 2); i2 Mul (L_ 0) f21 (b_ 0); i2 Mul f21 f21 (a_ 2); i2 Mul f21 f21 (b_ 1);
   i2 Sub f11 (a_ 0) (L_ 0);
   i2 Mul f11 f11 (a_ 2); i1 Cpy (L_ 1) f11; i2 Mul f11 f11 (b_ 1); i1 Cpy (L_ 0) (a_ 1);
   i2 Sub (L_ 0) (L_ 0) f21; i1 (Ext 20) f10 (L_ 0); i1 Cpy f20 f10; i2 Mul (L_ 0) (L_ 0) (b_ 0);
   i2 Sub f11 f11 (L_ 0); i1 Cpy f00 f11; i1 (Ext 21) f21 (L_ 1); i1 Neg f21 f21; i1 Cpy f01 f21;
   i0 Zero f10; i0 Zero f11; i0 Zero f21; i0 Zero (L_ 0)].

(** ** The functions: a level of the tower is the size of its elements and its function table *)
Section Tower.
  (** F_p: size of an element, functions, comparison and test for zero *)
  Variables (k : nat) (P1 : op -> proc) (eq1 : mem -> nat -> nat -> bool) (is01 : mem -> nat -> bool).

  (** F_p^2 *)
  Definition k2 : nat := (k * 2)%nat.
  Definition P2 (o : op) : proc :=
    match o with
    | Add | Sub => code k P1 0 (b2_bin o)
    | Dbl | Tpl | Neg | Cpy => code k P1 0 (b2_un o)
    | Zero => code k P1 0 b2_zero
    | One => code k P1 0 b2_one
    | Con i => code k P1 0 (b2_con i)
    | Mul => code k P1 3 b2_mul
    | Sqr => code k P1 2 b2_sqr
    | Inv => code k P1 2 b2_inv
    | Ext 0 => code k P1 1 b2_mul_u
    | Ext 1 => code k P1 0 b2_conj
    | Ext (S (S i)) => code k P1 1 (b2_mul_con i)
    end.
  Definition fp2_mul_fp_m : proc := code k P1 0 b2_mul_fp.
  (** 480-488 *)
  Definition eq2 (m : mem) (p q : nat) : bool := eq1 m p q && eq1 m (p + k) (q + k).
  Definition is02 (m : mem) (p : nat) : bool := is01 m p && is01 m (p + k).

  (** F_p^4 *)
  Definition k4 : nat := (k2 * 2)%nat.
  Definition P4 (o : op) : proc :=
    match o with
    | Add | Sub => code k2 P2 0 (b2_bin o)
    | Neg | Cpy => code k2 P2 0 (b2_un o)
    | Zero => code k2 P2 0 b2_zero
    | One => code k2 P2 0 b2_one
    | Mul => code k2 P2 3 b4_mul
    | Sqr => code k2 P2 2 b4_sqr
    | Inv => code k2 P2 2 b4_inv
    | Ext 0 => code k2 P2 1 b4_mul_v
    | Ext 1 => code k2 P2 0 b2_conj
    | Ext (S (S i)) => code k P1 1 (b4_mul_con i)
    | _ => nop
    end.
  Definition fp4_mul_fp2_m : proc := code k2 P2 0 b4_mul_fp2.
  (** 629-632 *)
  Definition is04 (m : mem) (p : nat) : bool := is02 m p && is02 m (p + k2).

  (** F_p^12; [Ext 1], [Ext 2], [Ext 3], [Ext 6]: the Frobenius maps *)
  Definition k12 : nat := (k4 * 3)%nat.
  Definition fp12_mul_m : proc := code k4 P4 9 b12_mul.
  Definition P12 (o : op) : proc :=
    match o with
    | Add | Sub => code k4 P4 0 (b12_bin o)
    | Neg | Cpy => code k4 P4 0 (b12_un o)
    | Zero => code k4 P4 0 b12_zero
    | One => code k4 P4 0 b12_one
    | Mul => fp12_mul_m
    | Sqr => fun sp r l m => fp12_mul_m sp r [arg l 0; arg l 0] m
    | Inv => code k4 P4 5 b12_inv
    | Ext 1 => code k2 P2 6 b12_frob
    | Ext 2 => code k4 P4 3 b12_frob2
    | Ext 3 => code k2 P2 6 b12_frob3
    | Ext 6 => code k4 P4 3 b12_frob6
    | _ => nop
    end.
  Definition fp12_mul_fp4_m : proc := code k4 P4 0 b12_mul_fp4.
  (** 773-777 *)
  Definition is012 (m : mem) (p : nat) : bool := is04 m p && is04 m (p + k4) && is04 m (p + k4 * 2).

  (** line functions: f = result, operands T, Q, P; here [sp] is the address of d *)
  Definition PL (xp yp : nat) (o : op) : proc :=
    match o with
    | Ext 20 => fun sp r l m => fp2_mul_fp_m sp r [arg l 0; xp] m
    | Ext 21 => fun sp r l m => fp2_mul_fp_m sp r [arg l 0; yp] m
    | _ => P2 o
    end.
  Definition tangent_m (sp f t p : nat) (m : mem) : mem :=
    code k2 (PL p (p + k)) 2 b_tangent sp f [t] m.
  Definition line_jja_m (sp f t q p : nat) (m : mem) : mem :=
    code k2 (PL p (p + k)) 2 b_line_jja sp f [t; q] m.
  Definition line_jaa_m (sp f t q p : nat) (m : mem) : mem :=
    code k2 (PL p (p + k)) 2 b_line_jaa sp f [t; q] m.
End Tower.

(** ** Curve points over a field with cells of [k] limbs *)
Section Curve.
  Variables (k : nat) (P : op -> proc) (eqf : mem -> nat -> nat -> bool) (is0f : mem -> nat -> bool).
  Definition a_neg_m : proc := code k P 0 ba_neg.
  Definition j_cpy_m : proc := code k P 0 bj_cpy.
  Definition j_set_inf_m : proc := code k P 0 bj_set_inf.
  Definition j_neg_m : proc := code k P 0 bj_neg.
  Definition j_from_a_m : proc := code k P 0 bj_from_a.
  Definition j_to_a_m : proc := code k P 2 bj_to_a.
  Definition j_dbl_2001b_m : proc := code k P 4 bj_dbl_2001b.
  Definition j_dbl_2009l_m : proc := code k P 6 bj_dbl_2009l.
  Definition j_add_a_m : proc := code k P 9 bj_add_a.
  (** sm2p256v1.cpp 492-495 *)
  Definition j_is_inf_m (m : mem) (p : nat) : bool := is0f m (p + k * 2).
  (** sm2p256v1.cpp 796-811 *)
  Definition j_normal_m : proc := fun sp r l m =>
    if j_is_inf_m m (arg l 0) then j_set_inf_m sp r [] m else code k P 2 bj_normal sp r l m.
  (** sm2p256v1.cpp 512-584: eleven locals, then the callee's *)
  Definition j_add_m (dbl : proc) : proc := fun sp r l m =>
    let sp' := (sp + k * 11)%nat in
    let m1 := run k P (env_of sp r l) sp' bj_add_head m in
    if eqf m1 (sp + k * 2) (sp + k * 3) then
      if eqf m1 (sp + k * 4) (sp + k * 5) then dbl sp' r [arg l 0] m1 else j_set_inf_m sp' r [] m1
    else run k P (env_of sp r l) sp' bj_add_tail m1.
  (** sm2p256v1.cpp 813-835; [l]: the addresses of P and Q *)
  Definition j_equal_m (sp : nat) (l : list nat) (m : mem) : mem * bool :=
    let sp' := (sp + k * 6)%nat in
    let m1 := run k P (env_of sp 0 l) sp' bj_equal_1 m in
    if negb (eqf m1 (sp + k * 4) (sp + k * 5)) then (m1, false)
    else
      let m2 := run k P (env_of sp 0 l) sp' bj_equal_2 m1 in
      if negb (eqf m2 (sp + k * 4) (sp + k * 5)) then (m2, false) else (m2, true).
End Curve.

(** ** The two builds *)
Inductive build := Common | X64.
Definition bits (b : build) : Z := match b with Common => 32 | X64 => 64 end.
(** limbs of a number *)
Definition lims (b : build) : nat := match b with Common => 8%nat | X64 => 4%nat end.
Definition lib_of (b : build) : numlib9 := match b with Common => lib9_common | X64 => lib9_x64 end.
(** the functions of a prime field on memory; [cs]: the byte constants *)
Definition fp_m (b : build) (ctx : mont_ctx) (cs : nat -> list Z) (o : op) : proc :=
  match b with
  | Common =>
      match o with
      | Add => m32_add ctx | Sub => m32_sub ctx | Mul => m32_mul ctx | Sqr => m32_sqr ctx
      | Dbl => m32_dbl ctx | Tpl => m32_tpl ctx | Neg => m32_neg ctx | Inv => m32_inv ctx
      | Cpy => cpy_m 8 | Zero => set_m uint256_set_zero | One => set_m (m_R ctx)
      | Con i => m32_from_bytes ctx (cs i) | Ext _ => nop
      end
  | X64 =>
      match o with
      | Add => m64_add ctx | Sub => m64_sub ctx | Mul => m64_mul ctx | Sqr => m64_sqr ctx
      | Dbl => m64_dbl ctx | Tpl => m64_tpl ctx | Neg => m64_neg ctx | Inv => m64_inv ctx
      | Cpy => cpy_m 4 | Zero => set_m x64_set_zero | One => set_m (m_R ctx)
      | Con i => m64_from_bytes ctx (cs i) | Ext _ => nop
      end
  end.
Definition eq_m (b : build) (ctx : mont_ctx) (m : mem) (p q : nat) : bool :=
  m_equal (l9 (lib_of b)) ctx (rd m p (lims b)) (rd m q (lims b)).
Definition is0_m (b : build) (ctx : mont_ctx) (m : mem) (p : nat) : bool :=
  m_equal_zero (l9 (lib_of b)) ctx (rd m p (lims b)).

(** SM2 (sm2p256v1.cpp): no byte constant is used by the point functions *)
Definition sm2_fp_m (b : build) : op -> proc := fp_m b (FP_CTX (l9 (lib_of b))) (fun _ => repeat 0 32).
Definition sm2_eq_m (b : build) := eq_m b (FP_CTX (l9 (lib_of b))).
Definition sm2_is0_m (b : build) := is0_m b (FP_CTX (l9 (lib_of b))).
(** SM9 (sm9_field.cpp) *)
Definition sm9_con (i : nat) : list Z :=
  nth i [FROB_C; FROB2_C; SM9_ALPHA1_DATA; SM9_ALPHA2_DATA; SM9_ALPHA3_DATA; SM9_ALPHA4_DATA;
         SM9_ALPHA5_DATA; SM9_BETA_DATA] (repeat 0 32).
Definition sm9_fp_m (b : build) : op -> proc := fp_m b (FP9_CTX (lib_of b)) sm9_con.
Definition sm9_eq_m (b : build) := eq_m b (FP9_CTX (lib_of b)).
Definition sm9_is0_m (b : build) := is0_m b (FP9_CTX (lib_of b)).
Definition sm9_fp2_m (b : build) : op -> proc := P2 (lims b) (sm9_fp_m b).
Definition sm9_fp4_m (b : build) : op -> proc := P4 (lims b) (sm9_fp_m b).
Definition sm9_fp12_m (b : build) : op -> proc := P12 (lims b) (sm9_fp_m b).
Definition sm9_eq2_m (b : build) := eq2 (lims b) (sm9_eq_m b).
Definition sm9_is02_m (b : build) := is02 (lims b) (sm9_is0_m b).

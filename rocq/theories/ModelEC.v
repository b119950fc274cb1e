(** Model of the curve arithmetic shared by the SM2 and SM9 code, and of the number library as the
    curve code sees it.

    The Jacobian formulas of src/sm2/sm2p256v1.cpp (sm2_ec_j_*, over F_p) and src/sm9/sm9_field.cpp
    (sm9_ec_j_* over F_p, sm9_ec2_j_* over F_p^2) are the same text over different field functions,
    except for the doubling, so they are modelled once over a record of field functions.
    In-place calls (R == P, T[0] both input and output) are modelled by the functional result: in
    each function every read of an overwritten coordinate precedes the write.  ModelAliasF.v has the
    bodies on memory; C72 proves that they give these results. *)
From Verif Require Import Base ModelEndian ModelNumber ModelNumberX64 ModelMont.

(** ** The number library behind its public header (include/gmlib/number/*.h)

    One record per build variant, so that everything above it is proved for both. *)
Record numlib := MkLib {
  nl_epi8 : list Z -> list Z;                 (* mpz_set_epi8 with 32 arguments *)
  nl_N : Z -> Z;                              (* mont_compute_N_ *)
  nl_cmp : list Z -> list Z -> Z;
  nl_is0 : list Z -> bool;                    (* uint256_equal_zero *)
  nl_add32 : list Z -> Z -> list Z * Z;       (* uint256_add_carry_uint32 *)
  nl_sub : list Z -> list Z -> list Z * Z;    (* uint256_sub_borrow *)
  nl_tpl : list Z -> list Z * Z;              (* uint256_tpl_carry *)
  nl_bit : list Z -> Z -> res bool;           (* uint256_bittest *)
  nl_from_bytes : list Z -> list Z;
  nl_to_bytes : list Z -> list Z;
  m_add : mont_ctx -> list Z -> list Z -> list Z;
  m_sub : mont_ctx -> list Z -> list Z -> list Z;
  m_mul : mont_ctx -> list Z -> list Z -> list Z;
  m_sqr : mont_ctx -> list Z -> list Z;
  m_dbl : mont_ctx -> list Z -> list Z;
  m_tpl : mont_ctx -> list Z -> list Z;
  m_div2 : mont_ctx -> list Z -> list Z;
  m_neg : mont_ctx -> list Z -> list Z;
  m_inv : mont_ctx -> list Z -> list Z;
  m_pow : mont_ctx -> list Z -> list Z -> res (list Z);
  m_equal : mont_ctx -> list Z -> list Z -> bool;
  m_equal_zero : mont_ctx -> list Z -> bool;
  m_equal_one : mont_ctx -> list Z -> bool;
  m_zero : list Z;                            (* mont256_set_zero *)
  m_one : mont_ctx -> list Z;                 (* mont256_set_one *)
  m_from_bytes : mont_ctx -> list Z -> list Z;
  m_to_bytes : mont_ctx -> list Z -> list Z;
  m_from_bytes_ex : mont_ctx -> list Z -> option (list Z)
}.

(** The portable build: number/internal/*_common.h *)
Definition lib_common : numlib :=
  MkLib mpz_set_epi8 (mont_compute_N 32) uint256_cmp uint256_equal_zero uint256_add_carry_uint32
    uint256_sub_borrow uint256_tpl_carry uint256_bittest uint256_from_bytes uint256_to_bytes
    mont256_add mont256_sub mont256_mul mont256_sqr mont256_dbl mont256_tpl mont256_div2 mont256_neg
    mont256_inv mont256_pow mont256_equal mont256_equal_zero mont256_equal_one
    uint256_set_zero mont256_set_one
    mont256_from_bytes mont256_to_bytes mont256_from_bytes_ex.

(** The x64 build (CPU_FLAG_MOVBE and CPU_FLAG_BMI2): number/internal/*_x64.h.
    - uint256_add_carry_uint32 is the wrapper of include/gmlib/number/uint256.h 13-18;
    - mpz_set_epi8 (mpz_x64.h 17-39) has the layout of uint256_from_bytes;
    - mont256_equal / equal_zero / equal_one / set_one are mont256_x64.cpp 345-386. *)
Definition lib_x64 : numlib :=
  MkLib x64_from_bytes (mont_compute_N 64) x64_cmp x64_equal_zero x64_add_carry_uint64
    x64_sub_borrow x64_tpl_carry x64_bittest x64_from_bytes x64_to_bytes
    x64_mont_add x64_mont_sub x64_mont_mul x64_mont_sqr x64_mont_dbl x64_mont_tpl x64_mont_div2
    x64_mont_neg x64_mont_inv x64_mont_pow (fun _ => x64_equal) (fun _ => x64_equal_zero)
    (fun ctx a => x64_equal a (m_R ctx)) x64_set_zero m_R
    x64_mont_from_bytes x64_mont_to_bytes x64_mont_from_bytes_ex.

(** ** Field functions used by the curve formulas *)
Record fops (T : Type) := MkOps {
  o_add : T -> T -> T; o_sub : T -> T -> T; o_mul : T -> T -> T;
  o_sqr : T -> T; o_dbl : T -> T; o_tpl : T -> T; o_neg : T -> T; o_inv : T -> T;
  o_eq : T -> T -> bool; o_is0 : T -> bool; o_zero : T; o_one : T
}.
Arguments o_add {T}. Arguments o_sub {T}. Arguments o_mul {T}. Arguments o_sqr {T}.
Arguments o_dbl {T}. Arguments o_tpl {T}. Arguments o_neg {T}. Arguments o_inv {T}.
Arguments o_eq {T}. Arguments o_is0 {T}. Arguments o_zero {T}. Arguments o_one {T}.

(** sm2_ec_a: X, Y; sm2_ec_j: X, Y, Z *)
Definition aff (T : Type) : Type := (T * T)%type.
Definition jac (T : Type) : Type := (T * T * T)%type.

Section Formulas.
  Context {T : Type} (Op : fops T).
  Notation fadd := (o_add Op). Notation fsub := (o_sub Op). Notation fmul := (o_mul Op).
  Notation fsqr := (o_sqr Op). Notation fdbl := (o_dbl Op). Notation ftpl := (o_tpl Op).

  (** sm2p256v1.cpp 390-394, sm9_field.cpp 1105-1109 *)
  Definition a_neg (P : aff T) : aff T := let '(x, y) := P in (x, o_neg Op y).
  (** sm2p256v1.cpp 492-495 *)
  Definition j_is_inf (P : jac T) : bool := let '(_, _, z) := P in o_is0 Op z.
  (** sm2p256v1.cpp 497-503 *)
  Definition j_set_inf : jac T := (o_one Op, o_one Op, o_zero Op).
  (** sm2p256v1.cpp 505-510 *)
  Definition j_neg (P : jac T) : jac T := let '(x, y, z) := P in (x, o_neg Op y, z).
  (** sm2p256v1.cpp 778-783 *)
  Definition j_from_a (P : aff T) : jac T := let '(x, y) := P in (x, y, o_one Op).
  (** sm2p256v1.cpp 785-794 *)
  Definition j_to_a (P : jac T) : aff T :=
    let '(X, Y, Z) := P in
    let inv3 := o_inv Op Z in
    let inv2 := fsqr inv3 in
    let inv3 := fmul inv3 inv2 in
    (fmul X inv2, fmul Y inv3).
  (** sm2p256v1.cpp 796-811 *)
  Definition j_normal (P : jac T) : jac T :=
    if j_is_inf P then j_set_inf
    else
      let '(X, Y, Z) := P in
      let inv3 := o_inv Op Z in
      let inv2 := fsqr inv3 in
      let inv3 := fmul inv3 inv2 in
      (fmul X inv2, fmul Y inv3, o_one Op).
  (** sm2p256v1.cpp 813-835 *)
  Definition j_equal (P Q : jac T) : bool :=
    let '(Xp, Yp, Zp) := P in
    let '(Xq, Yq, Zq) := Q in
    let Zp2 := fsqr Zp in
    let Zp3 := fmul Zp2 Zp in
    let Zq2 := fsqr Zq in
    let Zq3 := fmul Zq2 Zq in
    let t1 := fmul Xp Zq2 in
    let t2 := fmul Xq Zp2 in
    if negb (o_eq Op t1 t2) then false
    else
      let t1 := fmul Yp Zq3 in
      let t2 := fmul Yq Zp3 in
      if negb (o_eq Op t1 t2) then false else true.

  (** sm2p256v1.cpp 640-688, dbl-2001-b, for a = -3 *)
  Definition j_dbl_2001b (P : jac T) : jac T :=
    let '(X1, Y1, Z1) := P in
    let delta := fsqr Z1 in
    let gamma := fsqr Y1 in
    let alpha := fsub X1 delta in
    let beta := fadd X1 delta in
    let alpha := fmul alpha beta in
    let alpha := ftpl alpha in
    let beta := fmul X1 gamma in
    let X3 := fsqr alpha in
    let beta := fdbl beta in
    let beta := fdbl beta in
    let X3 := fsub X3 beta in
    let X3 := fsub X3 beta in
    let Z3 := fadd Y1 Z1 in
    let Z3 := fsqr Z3 in
    let Z3 := fsub Z3 gamma in
    let Z3 := fsub Z3 delta in
    let Y3 := fsub beta X3 in
    let Y3 := fmul Y3 alpha in
    let gamma := fdbl gamma in
    let gamma := fsqr gamma in
    let gamma := fdbl gamma in
    let Y3 := fsub Y3 gamma in
    (X3, Y3, Z3).

  (** sm9_field.cpp 1243-1291 (G1) and 1650-1696 (G2), dbl-2009-l, for a = 0 *)
  Definition j_dbl_2009l (P : jac T) : jac T :=
    let '(X1, Y1, Z1) := P in
    let A := fsqr X1 in
    let B := fsqr Y1 in
    let C := fsqr B in
    let D := fadd X1 B in
    let D := fsqr D in
    let D := fsub D A in
    let D := fsub D C in
    let D := fdbl D in
    let E := ftpl A in
    let F := fsqr E in
    let X3 := fsub F D in
    let X3 := fsub X3 D in
    let Z3 := fmul Y1 Z1 in
    let Z3 := fdbl Z3 in
    let Y3 := fsub D X3 in
    let Y3 := fmul Y3 E in
    let C := fdbl C in
    let C := fdbl C in
    let C := fdbl C in
    let Y3 := fsub Y3 C in
    (X3, Y3, Z3).

  Variable dbl : jac T -> jac T.

  (** sm2p256v1.cpp 512-584, sm9_field.cpp j_add, add-2007-bl.  When the call is in place with
      R == Q (sm2.h 461) the coordinates of Q are not read after the first write to R except
      Z2 at 570, which precedes the write of Z3; with R == P likewise. *)
  Definition j_add (P Q : jac T) : jac T :=
    let '(X1, Y1, Z1) := P in
    let '(X2, Y2, Z2) := Q in
    let Z1Z1 := fsqr Z1 in
    let Z2Z2 := fsqr Z2 in
    let U1 := fmul X1 Z2Z2 in
    let U2 := fmul X2 Z1Z1 in
    let S1 := fmul Y1 Z2 in
    let S1 := fmul S1 Z2Z2 in
    let S2 := fmul Y2 Z1 in
    let S2 := fmul S2 Z1Z1 in
    if o_eq Op U1 U2 then
      if o_eq Op S1 S2 then dbl P else j_set_inf
    else
      let H := fsub U2 U1 in
      let I := fdbl H in
      let I := fsqr I in
      let J := fmul H I in
      let r := fsub S2 S1 in
      let r := fdbl r in
      let V := fmul U1 I in
      let X3 := fsqr r in
      let X3 := fsub X3 J in
      let X3 := fsub X3 V in
      let X3 := fsub X3 V in
      let Y3 := fsub V X3 in
      let Y3 := fmul Y3 r in
      let V := fmul S1 J in
      let V := fdbl V in
      let Y3 := fsub Y3 V in
      let Z3 := fadd Z1 Z2 in
      let Z3 := fsqr Z3 in
      let Z3 := fsub Z3 Z1Z1 in
      let Z3 := fsub Z3 Z2Z2 in
      let Z3 := fmul Z3 H in
      (X3, Y3, Z3).

  (** sm2p256v1.cpp 586-638, sm9_field.cpp j_add_a, madd-2007-bl *)
  Definition j_add_a (P : jac T) (Q : aff T) : jac T :=
    let '(X1, Y1, Z1) := P in
    let '(X2, Y2) := Q in
    let Z1Z1 := fsqr Z1 in
    let U2 := fmul X2 Z1Z1 in
    let S2 := fmul Y2 Z1 in
    let S2 := fmul S2 Z1Z1 in
    let H := fsub U2 X1 in
    let HH := fsqr H in
    let I := fdbl HH in
    let I := fdbl I in
    let J := fmul H I in
    let r := fsub S2 Y1 in
    let r := fdbl r in
    let V := fmul X1 I in
    let X3 := fsqr r in
    let X3 := fsub X3 J in
    let X3 := fsub X3 V in
    let X3 := fsub X3 V in
    let V := fsub V X3 in
    let V := fmul r V in
    let Y3 := fmul Y1 J in
    let Y3 := fdbl Y3 in
    let Y3 := fsub V Y3 in
    let Z3 := fadd Z1 H in
    let Z3 := fsqr Z3 in
    let Z3 := fsub Z3 Z1Z1 in
    let Z3 := fsub Z3 HH in
    (X3, Y3, Z3).

  (** ** Scalar multiplication *)
  Variable L : numlib.

  (** one iteration of the loop, sm2p256v1.cpp 755-765: bit i of e3 = 3e and of e *)
  Definition mul_step (P P_neg : aff T) (e e3 : list Z) (i : Z) (Q : jac T) : res (jac T) :=
    let Q := dbl Q in
    do ei <- nl_bit L e i;
    do e3i <- nl_bit L e3 i;
    if e3i && negb ei then Ok (j_add_a Q P)
    else if negb e3i && ei then Ok (j_add_a Q P_neg)
    else Ok Q.
  (** 753-766: for (; i >= 1; i--) *)
  Fixpoint mul_loop (P P_neg : aff T) (e e3 : list Z) (i : nat) (Q : jac T) : res (jac T) :=
    match i with
    | O => Ok Q
    | S i' => do Q <- mul_step P P_neg e e3 (Z.of_nat i) Q; mul_loop P P_neg e e3 i' Q
    end.
  (** 750: while (!uint256_bittest(e3, i)) i--; running below 0 is [UB] *)
  Fixpoint top_bit (e3 : list Z) (i : nat) : res nat :=
    do b <- nl_bit L e3 (Z.of_nat i);
    if b then Ok i else match i with O => UB | S i' => top_bit e3 i' end.

  (** sm2p256v1.cpp 690-768 sm2_ec_j_mul_a (720-767), sm9_field.cpp sm9_ec_j_mul_a and
      sm9_ec2_j_mul_a.  [N] is the group order constant N.v. *)
  Definition j_mul_a (N : list Z) (k : list Z) (P : aff T) : res (jac T) :=
    let e := nl_from_bytes L k in
    let e := if 0 <=? nl_cmp L e N then fst (nl_sub L e N) else e in
    if nl_is0 L e then Ok j_set_inf
    else
      let '(e3, c) := nl_tpl L e in
      let Q := j_from_a P in
      let P_neg := a_neg P in
      if c =? 1 then mul_loop P P_neg e e3 255 Q
      else if c =? 2 then mul_loop P P_neg e e3 255 (dbl Q)
      else do i <- top_bit e3 255; mul_loop P P_neg e e3 (pred i) Q.
End Formulas.

(** The number library on a memory of limbs, with pointers: src/number/uint256_common.cpp,
    uint256_x64.cpp, mpz_common.cpp, mpz_x64.cpp, mont256_common.cpp and mont256_x64.cpp.

    The value models (ModelNumber.v, ModelNumberX64.v, ModelMont.v) give the result of a call as a
    function of the operands' values.  The C++ functions take pointers and write limb by limb, so
    the result array may be one of the operands.  Here a function is a transformation of memory:
    a pointer is the address of a limb, every assignment through a pointer is one update, and every
    read happens at the time the code reads.

    Simplifications: one address space holds limbs only (of 32 or 64 bits, by build); the constant
    tables of a Mont256CTX are values, not memory (they are static const objects and no function
    writes them); the local arrays of a call live from the address [sp] on, which lies above every
    object of the callers; a local array that is only computed with (hi, lo, e_u8, and T during the
    reduction loop) is a list.  A run of limb assignments with increasing index and a carry is one
    [chain]. *)
From Verif Require Import Base ModelEndian ModelNumber ModelNumberX64 ModelMont.

(** ** Memory *)
Definition mem : Type := nat -> Z.
(** *p = v *)
Definition upd (m : mem) (p : nat) (v : Z) : mem := fun q => if (q =? p)%nat then v else m q.
(** the limbs p[0], ..., p[n-1] *)
Fixpoint rd (m : mem) (p n : nat) : list Z :=
  match n with O => [] | S n' => m p :: rd m (S p) n' end.
(** p[0] = l_0, p[1] = l_1, ... *)
Fixpoint wr (m : mem) (p : nat) (l : list Z) : mem :=
  match l with [] => m | x :: l' => wr (upd m p x) (S p) l' end.

(** An operand of a limb loop: an array in memory (index i at step i), one limb in memory (the same
    at every step), a constant, a constant array *)
Inductive src := Ptr (p : nat) | At (p : nat) | Cst (v : Z) | Imm (l : list Z).
(** the value read now *)
Definition ld (s : src) (m : mem) : Z :=
  match s with Ptr p => m p | At p => m p | Cst v => v | Imm l => nz l 0 end.
(** the operand for the next step *)
Definition nxt (s : src) : src :=
  match s with Ptr p => Ptr (S p) | Imm l => Imm (skipn 1 l) | s => s end.
(** b[0] as an operand that stays the same through the loop *)
Definition hd_src (s : src) : src :=
  match s with Ptr p => At p | Imm l => Cst (nz l 0) | s => s end.
(** the whole operand, read now *)
Definition vals (s : src) (n : nat) (m : mem) : list Z :=
  match s with Ptr p => rd m p n | At p => repeat (m p) n | Cst v => repeat v n | Imm l => l end.

(** The loop [c = f(&r[i], a[i], b[i], c)], i = 0, ..., n-1.  [f] gets the old value of r[i]. *)
Fixpoint chain (f : Z -> Z -> Z -> Z -> Z * Z) (n : nat) (r : nat) (a b : src) (c : Z) (m : mem) :
  mem * Z :=
  match n with
  | O => (m, c)
  | S n' =>
      let (v, c1) := f (m r) (ld a m) (ld b m) c in
      chain f n' (S r) (nxt a) (nxt b) c1 (upd m r v)
  end.

(** The limb steps of the two builds (uint256_common.cpp 5-74, mpz_common.cpp 7-76 and the
    intrinsics of uint256_x64.cpp, mpz_x64.cpp) *)
Definition f_cpy (_ x _ c : Z) : Z * Z := (x, c).
Definition f_add32 (_ x y c : Z) := add_carry x y c.
Definition f_sub32 (_ x y c : Z) := sub_borrow x y c.
Definition f_dbl32 (_ x _ c : Z) := dbl_carry x c.
Definition f_tpl32 (_ x _ c : Z) := tpl_carry x c.
Definition f_mul32 (_ x y c : Z) := mul_carry x y c.
Definition f_addmul32 (o x y c : Z) := add_mul_carry o x y c.
Definition f_add64 (_ x y c : Z) := addcarry_u64 c x y.
Definition f_sub64 (_ x y c : Z) := subborrow_u64 c x y.
(** mpz_x64.cpp 64-69 *)
Definition f_mul64 (_ x y pre_hi : Z) : Z * Z :=
  let (p, c) := addcarry_u64 0 (mulx_lo x y) pre_hi in
  let (hi, _) := addcarry_u64 c (mulx_hi x y) 0 in (p, hi).
(** mpz_x64.cpp 77-83 *)
Definition f_addmul64 (o x y pre_hi : Z) : Z * Z :=
  let (p1, c1) := addcarry_u64 0 o (mulx_lo x y) in
  let (h1, _) := addcarry_u64 c1 (mulx_hi x y) 0 in
  let (p2, c2) := addcarry_u64 0 p1 pre_hi in
  let (h2, _) := addcarry_u64 c2 h1 0 in (p2, h2).

(** ** mpz and uint256, any number of limbs *)
(** mpz_common.cpp 94-107; uint256_common.cpp 96-110 is the case n = 8, carry = 0 *)
Definition mpz_add_carry_m (n r a b : nat) (carry : Z) (m : mem) : mem * Z :=
  match n with O => (m, 0) | _ => chain f_add32 n r (Ptr a) (Ptr b) carry m end.
(** mpz_common.cpp 109-122; uint256_common.cpp 112-126 *)
Definition mpz_sub_borrow_m (n r a b : nat) (borrow : Z) (m : mem) : mem * Z :=
  match n with O => (m, 0) | _ => chain f_sub32 n r (Ptr a) (Ptr b) borrow m end.
(** uint256_common.cpp 128-156 *)
Definition uint256_dbl_carry_m (r a : nat) (m : mem) : mem * Z := chain f_dbl32 8 r (Ptr a) (Cst 0) 0 m.
Definition uint256_tpl_carry_m (r a : nat) (m : mem) : mem * Z := chain f_tpl32 8 r (Ptr a) (Cst 0) 0 m.
(** uint256_common.cpp 252-298 *)
Definition uint256_add_carry_uint32_m (r a : nat) (b : Z) (m : mem) : mem * Z :=
  chain f_add32 8 r (Ptr a) (Imm [b; 0; 0; 0; 0; 0; 0; 0]) 0 m.
Definition uint256_sub_borrow_uint32_m (r a : nat) (b : Z) (m : mem) : mem * Z :=
  chain f_sub32 8 r (Ptr a) (Imm [b; 0; 0; 0; 0; 0; 0; 0]) 0 m.
Definition uint256_mul_carry_uint32_m (r a : nat) (b : Z) (m : mem) : mem * Z :=
  chain f_mul32 8 r (Ptr a) (Cst b) 0 m.
(** mpz_x64.cpp 24-37; uint256_x64.cpp 36-46 *)
Definition x64_mpz_add_carry_m (n r a b : nat) (carry : Z) (m : mem) : mem * Z :=
  match n with O => (m, 0) | _ => chain f_add64 n r (Ptr a) (Ptr b) carry m end.
(** mpz_x64.cpp 39-52; uint256_x64.cpp 48-58 *)
Definition x64_mpz_sub_borrow_m (n r a b : nat) (borrow : Z) (m : mem) : mem * Z :=
  match n with
  | O => (m, 0)
  | _ => let (m1, c) := chain f_sub64 n r (Ptr a) (Ptr b) (w8 (- borrow)) m in (m1, - c)
  end.

(** mpz_common.cpp 140-148, mpz_x64.cpp 72-86 and the steps 1-7 of uint256_common.cpp 177-243:
    rows ib = 1, 2, ... of the product; [r] is r + ib, [b] is b + ib *)
Fixpoint rows_m (f : Z -> Z -> Z -> Z -> Z * Z) (n k r a : nat) (b : src) (m : mem) : mem :=
  match k with
  | O => m
  | S k' =>
      let (m1, c) := chain f n r (Ptr a) (hd_src b) 0 m in
      rows_m f n k' (S r) a (nxt b) (upd m1 (r + n) c)
  end.
(** mpz_common.cpp 124-148 and mpz_x64.cpp 54-87; uint256_common.cpp 158-244 is the case n = 8 *)
Definition mul_m (f0 f : Z -> Z -> Z -> Z -> Z * Z) (n r a : nat) (b : src) (m : mem) : mem :=
  match n with
  | O => m
  | S k =>
      let (m1, c) := chain f0 n r (Ptr a) (hd_src b) 0 m in
      rows_m f n k (S r) a (nxt b) (upd m1 (r + n) c)
  end.
Definition mpz_mul_m (n r a b : nat) (m : mem) : mem := mul_m f_mul32 f_addmul32 n r a (Ptr b) m.
Definition x64_mpz_mul_m (n r a b : nat) (m : mem) : mem := mul_m f_mul64 f_addmul64 n r a (Ptr b) m.

(** uint256_x64.cpp 101-104 (and 201-204): product[i] = _mulx_u64(multiplier[i], b[0], &hi[i]);
    the result is memory and the array hi *)
Fixpoint x64_mulx_m (n r a : nat) (b : src) (m : mem) : mem * list Z :=
  match n with
  | O => (m, [])
  | S n' =>
      let hi := mulx_hi (m a) (ld b m) in
      let (m1, his) := x64_mulx_m n' (S r) (S a) b (upd m r (mulx_lo (m a) (ld b m))) in
      (m1, hi :: his)
  end.
(** uint256_x64.cpp 101-109: step 1; the last addition stores to product[4] *)
Definition x64_mul_step1_m (r a : nat) (b : src) (m : mem) : mem :=
  let (m1, hi) := x64_mulx_m 4 r a b m in
  let (m2, c) := chain f_add64 3 (S r) (Ptr (S r)) (Imm (firstn 3 hi)) 0 m1 in
  upd m2 (r + 4) (fst (addcarry_u64 c 0 (nz hi 3))).
(** uint256_x64.cpp 112-126, 129-143, 146-160: steps 2 to 4; [r] is product + k *)
Definition x64_mul_step_m (r a : nat) (b : src) (m : mem) : mem :=
  let lo := map (fun x => mulx_lo x (ld b m)) (rd m a 4) in
  let hi := map (fun x => mulx_hi x (ld b m)) (rd m a 4) in
  let (m1, c) := chain f_add64 4 r (Ptr r) (Imm lo) 0 m in
  let m2 := upd m1 (r + 4) (fst (addcarry_u64 c 0 0)) in
  fst (chain f_add64 4 (S r) (Ptr (S r)) (Imm hi) 0 m2).
(** uint256_x64.cpp 90-162 *)
Definition x64_mul_m (r a : nat) (b : src) (m : mem) : mem :=
  let m := x64_mul_step1_m r a (hd_src b) m in
  let m := x64_mul_step_m (r + 1) a (hd_src (nxt b)) m in
  let m := x64_mul_step_m (r + 2) a (hd_src (nxt (nxt b))) m in
  x64_mul_step_m (r + 3) a (hd_src (nxt (nxt (nxt b)))) m.

(** uint256_x64.cpp 194-212; the last addition stores to the local ret *)
Definition x64_mul_carry_uint64_m (r a : nat) (b : Z) (m : mem) : mem * Z :=
  let (m1, hi) := x64_mulx_m 4 r a (Cst b) m in
  let (m2, c) := chain f_add64 3 (S r) (Ptr (S r)) (Imm (firstn 3 hi)) 0 m1 in
  (m2, fst (addcarry_u64 c 0 (nz hi 3))).
(** uint256_x64.cpp 71-88, with t at [sp] *)
Definition x64_tpl_carry_m (sp r a : nat) (m : mem) : mem * Z :=
  let (m1, c1) := chain f_add64 4 sp (Ptr a) (Ptr a) 0 m in
  let (m2, c2) := chain f_add64 4 r (Ptr a) (Ptr sp) 0 m1 in (m2, c1 + c2).

(** ** Modular addition and subtraction
    uint256_common.cpp 315-337, uint256_x64.cpp 226-262, mont256_common.cpp 87-122 and
    mont256_x64.cpp 147-201 all have this shape: [f] limb by limb into r, then a comparison of r
    with the modulus, then [g] in place on r. *)
Definition mod_op_m (cmp : list Z -> list Z -> Z) (f g : Z -> Z -> Z -> Z -> Z * Z)
    (n r : nat) (a b d : src) (m : mem) : mem :=
  let (m1, c) := chain f n r a b 0 m in
  if negb (c =? 0) || (0 <=? cmp (rd m1 r n) (vals d n m1))
  then fst (chain g n r (Ptr r) d 0 m1) else m1.

(** A procedure: stack pointer, result pointer, operand pointers, memory *)
Definition proc : Type := nat -> nat -> list nat -> mem -> mem.
Definition arg (l : list nat) (i : nat) : nat := nth i l 0%nat.

(** ** Montgomery arithmetic, portable build: mont256_common.cpp *)
Section M32.
  Variable ctx : mont_ctx.
  (** 87-98 *)
  Definition m32_add : proc := fun sp r l m =>
    mod_op_m uint256_cmp f_add32 f_sub32 8 r (Ptr (arg l 0)) (Ptr (arg l 1)) (Imm (m_P ctx)) m.
  (** 100-111 *)
  Definition m32_sub : proc := fun sp r l m =>
    mod_op_m uint256_cmp f_sub32 f_add32 8 r (Ptr (arg l 0)) (Ptr (arg l 1)) (Imm (m_P ctx)) m.
  (** 113-122 *)
  Definition m32_dbl : proc := fun sp r l m =>
    mod_op_m uint256_cmp f_dbl32 f_sub32 8 r (Ptr (arg l 0)) (Cst 0) (Imm (m_P ctx)) m.
  (** 124-137; the loop is bounded as in ModelMont.v, memory is left as it is when it has not ended *)
  Definition m32_tpl : proc := fun sp r l m =>
    match while2 259 (fun s : mem * Z => negb (snd s =? 0))
            (fun s => let (m1, b) := chain f_sub32 8 r (Ptr r) (Imm (m_P ctx)) 0 (fst s) in (m1, snd s + b))
            (chain f_tpl32 8 r (Ptr (arg l 0)) (Cst 0) 0 m) with
    | inr (m1, _) =>
        if 0 <=? uint256_cmp (rd m1 r 8) (m_P ctx)
        then fst (chain f_sub32 8 r (Ptr r) (Imm (m_P ctx)) 0 m1) else m1
    | inl (m1, _) => m1
    end.
  (** 139-148 *)
  Definition m32_neg : proc := fun sp r l m =>
    let m := if uint256_equal_zero (rd m (arg l 0) 8) then wr m r uint256_set_zero else m in
    fst (chain f_sub32 8 r (Imm (m_P ctx)) (Ptr (arg l 0)) 0 m).
  (** 30-63 mont256_redc, with t at [sp]: the loop 37-57 works on the local array only *)
  Definition m32_redc (sp r : nat) (m : mem) : mem :=
    let (u, t16) := redc_loop 8 ctx (rd m sp 16) 0 in
    let m := wr m r u in
    if negb (t16 =? 0) || (0 <=? uint256_cmp (rd m r 8) (m_P ctx))
    then fst (chain f_sub32 8 r (Ptr r) (Imm (m_P ctx)) 0 m) else m.
  (** 150-158, with T at [sp] *)
  Definition m32_mul_src (sp r a : nat) (b : src) (m : mem) : mem :=
    m32_redc sp r (mul_m f_mul32 f_addmul32 8 sp a b m).
  Definition m32_mul : proc := fun sp r l m => m32_mul_src sp r (arg l 0) (Ptr (arg l 1)) m.
  (** 160-167 *)
  Definition m32_sqr : proc := fun sp r l m => m32_mul_src sp r (arg l 0) (Ptr (arg l 0)) m.
End M32.

(** ** Montgomery arithmetic, x64 build: mont256_x64.cpp *)
Section M64.
  Variable ctx : mont_ctx.
  (** 147-164 *)
  Definition m64_add : proc := fun sp r l m =>
    mod_op_m x64_cmp f_add64 f_sub64 4 r (Ptr (arg l 0)) (Ptr (arg l 1)) (Imm (m_P ctx)) m.
  (** 166-183 *)
  Definition m64_sub : proc := fun sp r l m =>
    mod_op_m x64_cmp f_sub64 f_add64 4 r (Ptr (arg l 0)) (Ptr (arg l 1)) (Imm (m_P ctx)) m.
  (** 185-201 *)
  Definition m64_dbl : proc := fun sp r l m =>
    mod_op_m x64_cmp f_add64 f_sub64 4 r (Ptr (arg l 0)) (Ptr (arg l 0)) (Imm (m_P ctx)) m.
  (** 203-210, with t at [sp] *)
  Definition m64_tpl : proc := fun sp r l m =>
    m64_add (sp + 4)%nat r [sp; arg l 0] (m64_dbl (sp + 4)%nat sp [arg l 0] m).
  (** 212-222 *)
  Definition m64_neg : proc := fun sp r l m =>
    if x64_equal_zero (rd m (arg l 0) 4) then wr m r x64_set_zero
    else fst (chain f_sub64 4 r (Imm (m_P ctx)) (Ptr (arg l 0)) 0 m).
  (** 20-124 mont256_redc, with T at [sp] *)
  Definition m64_redc (sp r : nat) (m : mem) : mem :=
    let (u, T8) := x64_redc_loop 4 ctx (rd m sp 8) 0 in
    let m := wr m r u in
    if negb (T8 =? 0) || (0 <=? x64_cmp (rd m r 4) (m_P ctx))
    then fst (chain f_sub64 4 r (Ptr r) (Imm (m_P ctx)) 0 m) else m.
  (** 224-232, with T at [sp] *)
  Definition m64_mul_src (sp r a : nat) (b : src) (m : mem) : mem :=
    m64_redc sp r (x64_mul_m sp a b m).
  Definition m64_mul : proc := fun sp r l m => m64_mul_src sp r (arg l 0) (Ptr (arg l 1)) m.
  (** 234-241 *)
  Definition m64_sqr : proc := fun sp r l m => m64_mul_src sp r (arg l 0) (Ptr (arg l 0)) m.
End M64.

(** ** Halving: mont256_common.cpp 169-185, mont256_x64.cpp 320-336 *)
(** the loop quotient[i] = (ref[i+1] << (w-1)) | (ref[i] >> 1), with [c] shifted in at the top *)
Fixpoint shr1_m (w : Z) (n r a : nat) (c : Z) (m : mem) : mem :=
  match n with
  | O => m
  | S n' =>
      let up := match n' with O => c | _ => m (S a) end in
      shr1_m w n' (S r) (S a) c (upd m r (Z.lor ((Z.shiftl up (w - 1)) mod 2 ^ w) (Z.shiftr (m a) 1)))
  end.
Definition div2_m (w : Z) (fadd : Z -> Z -> Z -> Z -> Z * Z) (n : nat) (ctx : mont_ctx) : proc :=
  fun sp r l m =>
    let a := arg l 0 in
    if Z.land (m a) 1 =? 0 then shr1_m w n r a 0 m
    else let (m1, c) := chain fadd n r (Ptr a) (Imm (m_P ctx)) 0 m in shr1_m w n r r c m1.

(** ** Division by a limb: uint256_common.cpp 300-313, downwards from the top limb.  [k] limbs are
    left, index k-1 is next. *)
Fixpoint div_uint32_m (k r a : nat) (rem divisor : Z) (m : mem) : mem * Z :=
  match k with
  | O => (m, rem)
  | S k' =>
      let cur := Z.lor (w64 (Z.shiftl rem 32)) (m (a + k')%nat) in
      div_uint32_m k' r a (cur mod divisor) divisor (upd m (r + k') (w32 (cur / divisor)))
  end.

(** ** Copies and constants: uint256_common.cpp 444-465 (limb by limb), uint256_x64.cpp 367-387,
    mont256_common.cpp 297-312 and the x64 counterparts *)
Definition cpy_m (n : nat) : proc := fun sp r l m => fst (chain f_cpy n r (Ptr (arg l 0)) (Cst 0) 0 m).
Definition set_m (v : list Z) : proc := fun sp r l m => wr m r v.

(** ** Power: mont256_common.cpp 187-262 and mont256_x64.cpp 243-318 (the same text).  mont_t is at
    [sp], lut_table[j] at [sp + n + n*j]; called functions get the stack above. *)
Section PowM.
  Variable n : nat.
  Variables mul sqr : proc.
  Definition pw_lut (sp j : nat) : nat := (sp + n + n * j)%nat.
  Definition pw_sp (sp : nat) : nat := (sp + n + n * 14)%nat.
  (** 208-212: lut_table[j] from lut_table[j-1]; [k] entries to go *)
  Fixpoint lut_m (k : nat) (sp base j : nat) (m : mem) : mem :=
    match k with
    | O => m
    | S k' =>
        lut_m k' sp base (S j)
          (mul (pw_sp sp) (pw_lut sp (S j)) [pw_lut sp j; base] m)
    end.
  (** [(index == 1) ? base : lut_table[index - 2]] *)
  Definition pick_m (sp base : nat) (index : Z) : res nat :=
    if index =? 1 then Ok base
    else if (2 <=? index) && (index <=? 15) then Ok (pw_lut sp (Z.to_nat (index - 2))) else UB.
  Definition sqr4_m (sp : nat) (m : mem) : mem :=
    let s := sqr (pw_sp sp) sp [sp] in s (s (s (s m))).
  Definition nibble_m (sp base : nat) (index : Z) (m : mem) : res mem :=
    let m := sqr4_m sp m in
    if index =? 0 then Ok m
    else do x <- pick_m sp base index; Ok (mul (pw_sp sp) sp [sp; x] m).
  (** 238-260 *)
  Fixpoint bytes_m (sp base : nat) (e : list Z) (m : mem) : res mem :=
    match e with
    | [] => Ok m
    | b :: e' =>
        do m <- nibble_m sp base (Z.land (Z.shiftr b 4) 15) m;
        do m <- nibble_m sp base (Z.land b 15) m;
        bytes_m sp base e' m
    end.
  (** 215-237 *)
  Fixpoint start_m (sp base : nat) (e : list Z) (m : mem) : res mem :=
    match e with
    | [] => UB
    | b :: e' =>
        if b =? 0 then start_m sp base e' m
        else
          do m <- (if 15 <? b then
                     do x <- pick_m sp base (Z.land (Z.shiftr b 4) 15);
                     nibble_m sp base (Z.land b 15) (cpy_m n sp sp [x] m)
                   else do x <- pick_m sp base (Z.land b 15); Ok (cpy_m n sp sp [x] m));
          bytes_m sp base e' m
    end.
  (** 187-262; [one] is the array uint256_set_one stores, [to_bytes] is uint256_to_bytes *)
  Definition pow_m (is0 : list Z -> bool) (to_bytes : list Z -> list Z) (zero one : list Z)
      (sp r base : nat) (e : src) (m : mem) : res mem :=
    if is0 (rd m base n) then Ok (wr m r zero)
    else if is0 (vals e n m) then Ok (wr m r one)
    else
      let m := sqr (pw_sp sp) (pw_lut sp 0) [base] m in
      let m := lut_m 13 sp base 0 m in
      do m <- start_m sp base (to_bytes (vals e n m)) m;
      Ok (cpy_m n sp r [sp] m).
End PowM.

(** mont256_common.cpp 187-269 *)
Definition m32_pow (ctx : mont_ctx) (sp r base : nat) (e : src) (m : mem) : res mem :=
  pow_m 8 (m32_mul ctx) (m32_sqr ctx) uint256_equal_zero uint256_to_bytes uint256_set_zero
    uint256_set_one sp r base e m.
Definition m32_inv (ctx : mont_ctx) : proc := fun sp r l m =>
  match m32_pow ctx sp r (arg l 0) (Imm (m_P_SUB2 ctx)) m with Ok m' => m' | _ => m end.
(** mont256_x64.cpp 243-318, 338-343 *)
Definition m64_pow (ctx : mont_ctx) (sp r base : nat) (e : src) (m : mem) : res mem :=
  pow_m 4 (m64_mul ctx) (m64_sqr ctx) x64_equal_zero x64_to_bytes x64_set_zero
    x64_set_one sp r base e m.
Definition m64_inv (ctx : mont_ctx) : proc := fun sp r l m =>
  match m64_pow ctx sp r (arg l 0) (Imm (m_P_SUB2 ctx)) m with Ok m' => m' | _ => m end.

(** ** mont256_from_bytes (mont256_common.cpp 326-332, mont256_x64.cpp 400-406): the limbs of the byte string, then in place to Montgomery form *)
Definition m32_from_bytes (ctx : mont_ctx) (b : list Z) : proc := fun sp r l m =>
  m32_mul_src ctx sp r r (Imm (m_R_POW2 ctx)) (wr m r (uint256_from_bytes b)).
Definition m64_from_bytes (ctx : mont_ctx) (b : list Z) : proc := fun sp r l m =>
  m64_mul_src ctx sp r r (Imm (m_R_POW2 ctx)) (wr m r (x64_from_bytes b)).

(** Model of the portable multi-precision code: src/number/uint256_common.cpp and
    src/number/mpz_common.cpp.  A number is the list of its 32-bit limbs, least significant
    first.  A function that fills a result array returns that array; in the code the result may
    be the same array as an operand (the limb loops read index i before they write it), which the
    value semantics covers; ModelAlias.v models the pointers and C71 proves it.  The unrolled eight-line sequences of uint256_common.cpp are written
    as the recursion over the limbs that they unroll; uint256_common.cpp and mpz_common.cpp have
    textually identical limb primitives, modelled once. *)
From Verif Require Import Base ModelEndian.

(** Conversion of an unsigned value to [int] (32-bit two's complement). *)
Definition to_int (x : Z) : Z :=
  let y := w32 x in if y <? 2 ^ 31 then y else y - 2 ^ 32.

(** uint256_common.cpp 5-15, mpz_common.cpp 7-17, mont256_common.cpp 6-16: _add_carry.
    [carry] is an [int], converted to 64 bits. *)
Definition add_carry (a b carry : Z) : Z * Z :=
  let tmp := w64 (w64 (a + b) + w64 carry) in
  (Z.land tmp (2 ^ 32 - 1), to_int (Z.shiftr tmp 32)).

(** uint256_common.cpp 17-26: _dbl_carry *)
Definition dbl_carry (a carry : Z) : Z * Z :=
  let tmp := w64 (w64 (a + a) + w64 carry) in
  (Z.land tmp (2 ^ 32 - 1), to_int (Z.shiftr tmp 32)).

(** uint256_common.cpp 28-38: _tpl_carry *)
Definition tpl_carry (a carry : Z) : Z * Z :=
  let tmp := w64 (w64 (w64 (a + a) + a) + w64 carry) in
  (Z.land tmp (2 ^ 32 - 1), to_int (Z.shiftr tmp 32)).

(** uint256_common.cpp 40-50, mpz_common.cpp 42-52: _sub_borrow; [borrow] is 0 or -1 *)
Definition sub_borrow (a b borrow : Z) : Z * Z :=
  let tmp := w64 (w64 (a - b) + w64 borrow) in
  (Z.land tmp (2 ^ 32 - 1), to_int (Z.shiftr tmp 32)).

(** uint256_common.cpp 52-62, mpz_common.cpp 54-64: _mul_carry *)
Definition mul_carry (a b carry : Z) : Z * Z :=
  let tmp := w64 (w64 (a * b) + carry) in
  (Z.land tmp (2 ^ 32 - 1), w32 (Z.shiftr tmp 32)).

(** uint256_common.cpp 64-74, mpz_common.cpp 66-76, mont256_common.cpp 18-28: _add_mul_carry;
    the first argument is the old value of [*r] *)
Definition add_mul_carry (r n mul_val carry : Z) : Z * Z :=
  let tmp := w64 (w64 (w64 (n * mul_val) + r) + carry) in
  (Z.land tmp (2 ^ 32 - 1), w32 (Z.shiftr tmp 32)).

(** The limb loops. *)
Fixpoint add_limbs (a b : list Z) (c : Z) : list Z * Z :=
  match a, b with
  | x :: a', y :: b' =>
      let (s, c1) := add_carry x y c in
      let (r, c2) := add_limbs a' b' c1 in (s :: r, c2)
  | _, _ => ([], c)
  end.

Fixpoint sub_limbs (a b : list Z) (c : Z) : list Z * Z :=
  match a, b with
  | x :: a', y :: b' =>
      let (s, c1) := sub_borrow x y c in
      let (r, c2) := sub_limbs a' b' c1 in (s :: r, c2)
  | _, _ => ([], c)
  end.

Fixpoint dbl_limbs (a : list Z) (c : Z) : list Z * Z :=
  match a with
  | x :: a' =>
      let (s, c1) := dbl_carry x c in
      let (r, c2) := dbl_limbs a' c1 in (s :: r, c2)
  | [] => ([], c)
  end.

Fixpoint tpl_limbs (a : list Z) (c : Z) : list Z * Z :=
  match a with
  | x :: a' =>
      let (s, c1) := tpl_carry x c in
      let (r, c2) := tpl_limbs a' c1 in (s :: r, c2)
  | [] => ([], c)
  end.

Fixpoint mul_row (a : list Z) (b c : Z) : list Z * Z :=
  match a with
  | x :: a' =>
      let (s, c1) := mul_carry x b c in
      let (r, c2) := mul_row a' b c1 in (s :: r, c2)
  | [] => ([], c)
  end.

Fixpoint addmul_row (r a : list Z) (b c : Z) : list Z * Z :=
  match r, a with
  | t :: r', x :: a' =>
      let (s, c1) := add_mul_carry t x b c in
      let (u, c2) := addmul_row r' a' b c1 in (s :: u, c2)
  | _, _ => ([], c)
  end.

(** Rows 1, 2, ... of the schoolbook product.  [r] is [product[ib .. ib+n-1]]; the lowest limb is
    final after the row and the row's carry becomes [product[ib+n]]. *)
Fixpoint mul_rows (r a bs : list Z) : list Z :=
  match bs with
  | [] => r
  | b :: bs' =>
      match addmul_row r a b 0 with
      | (h :: t, c) => h :: mul_rows (t ++ [c]) a bs'
      | ([], c) => []
      end
  end.

Definition mul_limbs (a b : list Z) : list Z :=
  match b with
  | [] => []
  | b0 :: bs =>
      match mul_row a b0 0 with
      | (h :: t, c) => h :: mul_rows (t ++ [c]) a bs
      | ([], c) => []
      end
  end.

(** Comparison loop from the most significant limb; arguments are most significant first. *)
Fixpoint cmp_from_top (a b : list Z) : Z :=
  match a, b with
  | x :: a', y :: b' => if y <? x then 1 else if x <? y then -1 else cmp_from_top a' b'
  | _, _ => 0
  end.

(** mpz_common.cpp 94-107 mpz_add_carry; the arrays have [limb_size] elements *)
Definition mpz_add_carry (a b : list Z) (carry : Z) : list Z * Z :=
  match a with [] => ([], 0) | _ => add_limbs a b carry end.
(** mpz_common.cpp 109-122 mpz_sub_borrow *)
Definition mpz_sub_borrow (a b : list Z) (borrow : Z) : list Z * Z :=
  match a with [] => ([], 0) | _ => sub_limbs a b borrow end.
(** mpz_common.cpp 124-148 mpz_mul *)
Definition mpz_mul (a b : list Z) : list Z := mul_limbs a b.
(** mpz_common.cpp 150-162 mpz_cmp *)
Definition mpz_cmp (a b : list Z) : Z := cmp_from_top (rev a) (rev b).
(** mpz_common.cpp 164-169 mpz_cpy (memmove) *)
Definition mpz_cpy (a : list Z) : list Z := a.
(** mpz_common.cpp 171-180 mpz_from_bytes: limb [n-1-i] is loaded from [src + 4 i] *)
Definition mpz_from_bytes (src : list Z) (limb_size : nat) : list Z :=
  rev (map load32_be (cut 4 limb_size src)).
(** mpz_common.cpp 182-191 mpz_to_bytes *)
Definition mpz_to_bytes (src : list Z) : list Z := concat (map store32_be (rev src)).
(** include/gmlib/number/internal/mpz_common.h 16-36 mpz_set_epi8: the same layout built at
    compile time from a byte list (joint32 is the expression of MEM_LOAD32BE) *)
Definition mpz_set_epi8 (args : list Z) : list Z :=
  rev (map load32_be (cut 4 (length args / 4) args)).

(** uint256_common.cpp 96-110 *)
Definition uint256_add_carry (augend addend : list Z) : list Z * Z := add_limbs augend addend 0.
(** uint256_common.cpp 112-126 *)
Definition uint256_sub_borrow (minuend subtrahend : list Z) : list Z * Z :=
  sub_limbs minuend subtrahend 0.
(** uint256_common.cpp 128-141 *)
Definition uint256_dbl_carry (a : list Z) : list Z * Z := dbl_limbs a 0.
(** uint256_common.cpp 143-156 *)
Definition uint256_tpl_carry (a : list Z) : list Z * Z := tpl_limbs a 0.
(** uint256_common.cpp 158-244 *)
Definition uint256_mul (multiplier multiplicand : list Z) : list Z :=
  mul_limbs multiplier multiplicand.
(** uint256_common.cpp 246-250 *)
Definition uint256_sqr (a : list Z) : list Z := uint256_mul a a.
(** uint256_common.cpp 252-266 *)
Definition uint256_add_carry_uint32 (augend : list Z) (addend : Z) : list Z * Z :=
  add_limbs augend [addend; 0; 0; 0; 0; 0; 0; 0] 0.
(** uint256_common.cpp 268-282 *)
Definition uint256_sub_borrow_uint32 (minuend : list Z) (subtrahend : Z) : list Z * Z :=
  sub_limbs minuend [subtrahend; 0; 0; 0; 0; 0; 0; 0] 0.
(** uint256_common.cpp 284-298 *)
Definition uint256_mul_carry_uint32 (multiplier : list Z) (multiplicand : Z) : list Z * Z :=
  mul_row multiplier multiplicand 0.

(** uint256_common.cpp 300-313: long division from the most significant limb; the argument list is
    most significant first.  [rem << 32] is a 64-bit shift. *)
Fixpoint div_from_top (l : list Z) (rem divisor : Z) : list Z * Z :=
  match l with
  | [] => ([], rem)
  | x :: l' =>
      let cur := Z.lor (w64 (Z.shiftl rem 32)) x in
      let q := w32 (cur / divisor) in
      let (qs, r) := div_from_top l' (cur mod divisor) divisor in (q :: qs, r)
  end.
(** Division by zero is undefined behaviour in C++. *)
Definition uint256_div_uint32 (dividend : list Z) (divisor : Z) : res (list Z * Z) :=
  if divisor =? 0 then UB
  else let (q, r) := div_from_top (rev dividend) 0 divisor in Ok (rev q, w32 r).

(** uint256_common.cpp 402-410 *)
Definition uint256_cmp (a b : list Z) : Z := cmp_from_top (rev a) (rev b).
(** uint256_common.cpp 412-421 *)
Definition uint256_cmp_uint32 (a : list Z) (b : Z) : Z :=
  if existsb (fun x => 0 <? x) (rev (skipn 1 a)) then 1
  else if b <? nz a 0 then 1 else if nz a 0 <? b then -1 else 0.
(** uint256_common.cpp 423-427 *)
Definition uint256_equal (a b : list Z) : bool :=
  fold_left Z.lor (xorl a b) 0 =? 0.
(** uint256_common.cpp 429-432 *)
Definition uint256_equal_zero (a : list Z) : bool := fold_left Z.lor a 0 =? 0.
(** uint256_common.cpp 434-438 *)
Definition uint256_equal_one (a : list Z) : bool :=
  (fold_left Z.lor (skipn 1 a) 0 =? 0) && (nz a 0 =? 1).
(** uint256_common.cpp 444-448 *)
Definition uint256_cpy (num : list Z) : list Z := num.
(** uint256_common.cpp 450-453 *)
Definition uint256_set_zero : list Z := [0; 0; 0; 0; 0; 0; 0; 0].
(** uint256_common.cpp 455-459 *)
Definition uint256_set_one : list Z := [1; 0; 0; 0; 0; 0; 0; 0].
(** uint256_common.cpp 461-465 *)
Definition uint256_set_uint32 (num : Z) : list Z := [num; 0; 0; 0; 0; 0; 0; 0].
(** uint256_common.cpp 471-482 *)
Definition uint256_from_bytes (b : list Z) : list Z := rev (map load32_be (cut 4 8 b)).
(** uint256_common.cpp 484-495 *)
Definition uint256_to_bytes (num : list Z) : list Z := concat (map store32_be (rev num)).
(** uint256_common.cpp 501-504; [i] outside [0,256) reads outside the array or shifts by a
    negative amount *)
Definition uint256_bittest (num : list Z) (i : Z) : res bool :=
  if (0 <=? i) && (i <? 256)
  then Ok (Z.land (Z.shiftr (nz num (Z.to_nat (i / 32))) (i mod 32)) 1 =? 1)
  else UB.

(** uint256_common.cpp 315-325 *)
Definition uint256_mod_add (augend addend divisor : list Z) : list Z :=
  let (sum, carry) := uint256_add_carry augend addend in
  if negb (carry =? 0) || (0 <=? uint256_cmp sum divisor)
  then fst (uint256_sub_borrow sum divisor) else sum.
(** uint256_common.cpp 327-337 *)
Definition uint256_mod_sub (minuend subtrahend divisor : list Z) : list Z :=
  let (difference, borrow) := uint256_sub_borrow minuend subtrahend in
  if negb (borrow =? 0) || (0 <=? uint256_cmp difference divisor)
  then fst (uint256_add_carry difference divisor) else difference.

(** uint256_common.cpp 339-351 uint256_self_mod_sll_n *)
Definition uint256_self_mod_sll_n (num : list Z) (n : nat) (divisor : list Z) : list Z :=
  if uint256_equal_zero num then num
  else Nat.iter n (fun x => uint256_mod_add x x divisor) num.

(** An unbounded C++ loop [while (cond s) s = body s], run for at most [2^k] iterations:
    [inr s] when the condition became false in state [s], [inl s] when the budget ran out.  The
    recursion over [k] only organises the budget; iterations are performed one after another. *)
Fixpoint while2 {S : Type} (k : nat) (cond : S -> bool) (body : S -> S) (s : S) : S + S :=
  match k with
  | O => if cond s then inl (body s) else inr s
  | S k' =>
      match while2 k' cond body s with
      | inl s' => while2 k' cond body s'
      | inr s' => inr s'
      end
  end.

(** uint256_common.cpp 366-369, 376-379, 390-393: [while (cmp(t, divisor) >= 0) t -= divisor].
    [None]: the loop has not ended after 2^257 iterations (only possible for divisor 0, where it
    never ends). *)
Definition sub_while (t divisor : list Z) : option (list Z) :=
  match while2 257 (fun t => 0 <=? uint256_cmp t divisor)
                   (fun t => fst (uint256_sub_borrow t divisor)) t with
  | inr t' => Some t'
  | inl _ => None
  end.

(** One absorbed block: uint256_common.cpp 365-371, 375-381, 389-394 *)
Definition mod_absorb (remainder t divisor : list Z) : option (list Z) :=
  match sub_while t divisor with
  | Some t' => Some (uint256_mod_add remainder t' divisor)
  | None => None
  end.

(** uint256_common.cpp 373-383: the loop over whole 32-byte blocks after the first one; [k] blocks *)
Fixpoint mod_blocks (k : nat) (remainder data divisor : list Z) : option (list Z) :=
  match k with
  | O => Some remainder
  | S k' =>
      match mod_absorb (uint256_self_mod_sll_n remainder 256 divisor)
                       (uint256_from_bytes (firstn 32 data)) divisor with
      | Some r => mod_blocks k' r (skipn 32 data) divisor
      | None => None
      end
  end.

(** uint256_common.cpp 384-395: the final incomplete block, right-aligned in [tmp_buf] *)
Definition mod_tail (remainder data divisor : list Z) : option (list Z) :=
  match data with
  | [] => Some remainder
  | _ =>
      mod_absorb (uint256_self_mod_sll_n remainder (8 * length data) divisor)
                 (uint256_from_bytes (repeat 0 (32 - length data) ++ data)) divisor
  end.

(** uint256_common.cpp 353-396 uint256_mod; [data] has [data_len] bytes *)
Definition uint256_mod (data divisor : list Z) : option (list Z) :=
  let remainder := uint256_set_zero in
  if (32 <=? length data)%nat then
    match mod_absorb remainder (uint256_from_bytes (firstn 32 data)) divisor with
    | None => None
    | Some r =>
        let d1 := skipn 32 data in
        let k := (length d1 / 32)%nat in
        match mod_blocks k r d1 divisor with
        | None => None
        | Some r2 => mod_tail r2 (skipn (32 * k) d1) divisor
        end
    end
  else mod_tail remainder data divisor.

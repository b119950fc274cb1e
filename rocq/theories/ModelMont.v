(** Model of Montgomery arithmetic: src/number/mont256_common.cpp (8 x 32 bits) and
    src/number/mont256_x64.cpp (4 x 64 bits), and mont_compute_N_ of the two headers. *)
From Verif Require Import Base ModelEndian ModelNumber ModelNumberX64.

(** include/gmlib/number/internal/mont256_common.h 16-23 and mont256_x64.h 16-23, Mont256CTX *)
Record mont_ctx := MkCtx {
  m_P : list Z;
  m_P_SUB2 : list Z;
  m_R : list Z;
  m_R_POW2 : list Z;
  m_N : Z
}.

(** mont256_common.h 32-60, mont256_x64.h 32-60: mont_compute_N_, an extended Euclid loop on
    [w]-bit unsigned integers (w = 32, 64); [k] bounds the number of iterations, 0 is returned
    when the budget is exhausted (proved not to happen for odd P0). *)
Fixpoint egcd_loop (k : nat) (w a b x1 x2 y1 y2 : Z) : option (Z * Z) :=
  match k with
  | O => None
  | S k' =>
      if b =? 0 then Some (x1, y1)
      else
        let q := a / b in
        let r := a mod b in
        egcd_loop k' w b r x2 ((x1 - q * x2) mod 2 ^ w) y2 ((y1 - q * y2) mod 2 ^ w)
  end.
Definition mont_compute_N (w P0 : Z) : Z :=
  match egcd_loop (Z.to_nat (2 * w) + 2) w P0 ((- P0) mod 2 ^ w) 1 0 0 1 with
  | Some (x1, y1) => (- (x1 - y1)) mod 2 ^ w
  | None => 0
  end.

(** ** Portable variant *)

(** mont256_common.cpp 52-55: propagation of the carry through t[i+9 ..], stopping at carry 0 *)
Fixpoint carry_prop (l : list Z) (c : Z) : list Z * Z :=
  match l with
  | [] => ([], c)
  | x :: l' =>
      if c =? 0 then (l, c)
      else
        let (s, c1) := add_carry x 0 c in
        let (r, c2) := carry_prop l' c1 in (s :: r, c2)
  end.

(** mont256_common.cpp 37-57: one iteration of the reduction loop.  [u] is t[i .. 15]; the result
    is the updated t[i .. 15] and the carry [c] added to t16. *)
Definition redc_step (ctx : mont_ctx) (u : list Z) : list Z * Z :=
  let m := w32 (nz u 0 * m_N ctx) in
  let (lo, carry) := addmul_row (firstn 8 u) (m_P ctx) m 0 in
  match skipn 8 u with
  | x :: rest =>
      let (s, c) := add_carry x carry 0 in
      let (r, c2) := carry_prop rest c in (lo ++ s :: r, c2)
  | [] => (lo, 0)
  end.

(** mont256_common.cpp 35-57: the loop over i; returns t[8..15] and t16.  t[i] is not used again
    after iteration i, so the model drops it. *)
Fixpoint redc_loop (n : nat) (ctx : mont_ctx) (u : list Z) (t16 : Z) : list Z * Z :=
  match n with
  | O => (u, t16)
  | S n' =>
      let (v, c) := redc_step ctx u in
      redc_loop n' ctx (skipn 1 v) (w32 (t16 + c))
  end.

(** mont256_common.cpp 30-63 *)
Definition mont256_redc (ctx : mont_ctx) (t : list Z) : list Z :=
  let (r, t16) := redc_loop 8 ctx t 0 in
  if negb (t16 =? 0) || (0 <=? uint256_cmp r (m_P ctx))
  then fst (uint256_sub_borrow r (m_P ctx)) else r.

(** mont256_common.cpp 150-158 *)
Definition mont256_mul (ctx : mont_ctx) (a b : list Z) : list Z :=
  mont256_redc ctx (uint256_mul a b).
(** mont256_common.cpp 160-167 *)
Definition mont256_sqr (ctx : mont_ctx) (a : list Z) : list Z :=
  mont256_redc ctx (uint256_sqr a).
(** mont256_common.cpp 65-70 *)
Definition uint256_to_mont (ctx : mont_ctx) (a : list Z) : list Z := mont256_mul ctx a (m_R_POW2 ctx).
(** mont256_common.cpp 72-81 *)
Definition uint256_from_mont (ctx : mont_ctx) (a : list Z) : list Z :=
  mont256_redc ctx (a ++ [0; 0; 0; 0; 0; 0; 0; 0]).
(** mont256_common.cpp 87-98 *)
Definition mont256_add (ctx : mont_ctx) (a b : list Z) : list Z := uint256_mod_add a b (m_P ctx).
(** mont256_common.cpp 100-111 *)
Definition mont256_sub (ctx : mont_ctx) (a b : list Z) : list Z := uint256_mod_sub a b (m_P ctx).
(** mont256_common.cpp 113-122 *)
Definition mont256_dbl (ctx : mont_ctx) (a : list Z) : list Z :=
  let (r, carry) := uint256_dbl_carry a in
  if negb (carry =? 0) || (0 <=? uint256_cmp r (m_P ctx))
  then fst (uint256_sub_borrow r (m_P ctx)) else r.
(** mont256_common.cpp 124-137; the while loop is bounded by 2^259 iterations ([] when it has not
    ended by then, possible only for P = 0) *)
Definition mont256_tpl (ctx : mont_ctx) (a : list Z) : list Z :=
  match while2 259 (fun s : list Z * Z => negb (snd s =? 0))
          (fun s => let (r, b) := uint256_sub_borrow (fst s) (m_P ctx) in (r, snd s + b))
          (uint256_tpl_carry a) with
  | inr (r, _) =>
      if 0 <=? uint256_cmp r (m_P ctx) then fst (uint256_sub_borrow r (m_P ctx)) else r
  | inl _ => []
  end.
(** mont256_common.cpp 139-148: no [return] after the zero case, so the subtraction always runs *)
Definition mont256_neg (ctx : mont_ctx) (a : list Z) : list Z :=
  fst (uint256_sub_borrow (m_P ctx) a).
(** mont256_common.cpp 180-184: shift right by one limb-wise, [c] shifted in at the top *)
Fixpoint shr1_limbs (w : Z) (l : list Z) (c : Z) : list Z :=
  match l with
  | [] => []
  | x :: l' =>
      let up := match l' with [] => c | y :: _ => y end in
      Z.lor ((Z.shiftl up (w - 1)) mod 2 ^ w) (Z.shiftr x 1) :: shr1_limbs w l' c
  end.
(** mont256_common.cpp 169-185 *)
Definition mont256_div2 (ctx : mont_ctx) (a : list Z) : list Z :=
  if Z.land (nz a 0) 1 =? 0 then shr1_limbs 32 a 0
  else let (r, c) := uint256_add_carry a (m_P ctx) in shr1_limbs 32 r c.

(** mont256_common.cpp 187-262 and mont256_x64.cpp 243-318, which are the same text over the two
    limb types; [mul]/[sqr] are the variant's mont256_mul/mont256_sqr. *)
Section Pow.
  Variable mul : list Z -> list Z -> list Z.
  Variable sqr : list Z -> list Z.
  Variable base : list Z.
  (** lut_table[j] = base^(j+2), filled from lut_table[j-1] (lines 205-210) *)
  Fixpoint lut_from (n : nat) (prev : list Z) : list (list Z) :=
    match n with O => [] | S n' => let x := mul prev base in x :: lut_from n' x end.
  Definition pow_lut : list (list Z) := let l0 := sqr base in l0 :: lut_from 13 l0.
  (** [(index == 1) ? base : lut_table[index - 2]] *)
  Definition pow_pick (lut : list (list Z)) (index : Z) : res (list Z) :=
    if index =? 1 then Ok base
    else if (2 <=? index) && (index <=? 15) then Ok (nth (Z.to_nat (index - 2)) lut []) else UB.
  Definition sqr4 (t : list Z) : list Z := sqr (sqr (sqr (sqr t))).
  (** four squarings and, for a non-zero nibble, one multiplication *)
  Definition pow_nibble (lut : list (list Z)) (t : list Z) (index : Z) : res (list Z) :=
    let t4 := sqr4 t in
    if index =? 0 then Ok t4 else do x <- pow_pick lut index; Ok (mul t4 x).
  (** lines 238-260 *)
  Fixpoint pow_bytes (lut : list (list Z)) (t : list Z) (e : list Z) : res (list Z) :=
    match e with
    | [] => Ok t
    | b :: e' =>
        do t1 <- pow_nibble lut t (Z.land (Z.shiftr b 4) 15);
        do t2 <- pow_nibble lut t1 (Z.land b 15);
        pow_bytes lut t2 e'
    end.
  (** lines 212-237: skip zero bytes ([UB] when all 32 are zero: the loop would run past e_u8),
      then start from the first non-zero byte *)
  Fixpoint pow_start (lut : list (list Z)) (e : list Z) : res (list Z) :=
    match e with
    | [] => UB
    | b :: e' =>
        if b =? 0 then pow_start lut e'
        else
          do t <- (if 15 <? b then
                     do x <- pow_pick lut (Z.land (Z.shiftr b 4) 15);
                     pow_nibble lut x (Z.land b 15)
                   else pow_pick lut (Z.land b 15));
          pow_bytes lut t e'
    end.
  Definition pow_gen (e : list Z) : res (list Z) := pow_start pow_lut e.
End Pow.

Definition mont256_pow (ctx : mont_ctx) (base exponent : list Z) : res (list Z) :=
  if uint256_equal_zero base then Ok uint256_set_zero
  else if uint256_equal_zero exponent then Ok uint256_set_one
  else pow_gen (mont256_mul ctx) (mont256_sqr ctx) base (uint256_to_bytes exponent).
(** mont256_common.cpp 264-269.  The UB outcome of mont256_pow is proved unreachable; the wrapper
    returns [] for it, which is not a 256-bit number. *)
Definition mont256_inv (ctx : mont_ctx) (a : list Z) : list Z :=
  match mont256_pow ctx a (m_P_SUB2 ctx) with Ok r => r | _ => [] end.
(** mont256_common.cpp 275-291 *)
Definition mont256_equal (ctx : mont_ctx) (a b : list Z) : bool := uint256_equal a b.
Definition mont256_equal_zero (ctx : mont_ctx) (a : list Z) : bool := uint256_equal_zero a.
Definition mont256_equal_one (ctx : mont_ctx) (a : list Z) : bool := uint256_equal a (m_R ctx).
(** mont256_common.cpp 297-320 *)
Definition mont256_cpy (ctx : mont_ctx) (a : list Z) : list Z := uint256_cpy a.
Definition mont256_set_zero (ctx : mont_ctx) : list Z := uint256_set_zero.
Definition mont256_set_one (ctx : mont_ctx) : list Z := m_R ctx.
Definition mont256_set_uint32 (ctx : mont_ctx) (n : Z) : list Z :=
  uint256_to_mont ctx (uint256_set_uint32 n).
(** mont256_common.cpp 326-332 *)
Definition mont256_from_bytes (ctx : mont_ctx) (b : list Z) : list Z :=
  uint256_to_mont ctx (uint256_from_bytes b).
(** mont256_common.cpp 334-341 *)
Definition mont256_to_bytes (ctx : mont_ctx) (a : list Z) : list Z :=
  uint256_to_bytes (uint256_from_mont ctx a).
(** mont256_common.cpp 343-351 *)
Definition mont256_from_bytes_ex (ctx : mont_ctx) (b : list Z) : option (list Z) :=
  match uint256_mod b (m_P ctx) with
  | Some t => Some (uint256_to_mont ctx t)
  | None => None
  end.

(** ** x64 variant *)

(** mont256_x64.cpp 33-54 (step 1; steps 2-4 at 56-114 are the same one limb higher).  [u] is
    T[i .. 7]; the result is the updated T[i .. 7] and T8. *)
Definition x64_redc_step (ctx : mont_ctx) (u : list Z) (T8 : Z) : list Z * Z :=
  let m := w64 (nz u 0 * m_N ctx) in
  let mp := x64_mul_step1 (m_P ctx) m in
  let (v, c) := addc 0 u (mp ++ repeat 0 (length u - 5)) in
  let (t8, _) := addcarry_u64 c T8 0 in
  (v, t8).
Fixpoint x64_redc_loop (n : nat) (ctx : mont_ctx) (u : list Z) (T8 : Z) : list Z * Z :=
  match n with
  | O => (u, T8)
  | S n' => let (v, t8) := x64_redc_step ctx u T8 in x64_redc_loop n' ctx (skipn 1 v) t8
  end.
(** mont256_x64.cpp 20-124 *)
Definition x64_redc (ctx : mont_ctx) (T : list Z) : list Z :=
  let (r, T8) := x64_redc_loop 4 ctx T 0 in
  if negb (T8 =? 0) || (0 <=? x64_cmp r (m_P ctx)) then fst (subb 0 r (m_P ctx)) else r.
(** mont256_x64.cpp 224-241 *)
Definition x64_mont_mul (ctx : mont_ctx) (a b : list Z) : list Z := x64_redc ctx (x64_mul a b).
Definition x64_mont_sqr (ctx : mont_ctx) (a : list Z) : list Z := x64_redc ctx (x64_sqr a).
(** mont256_x64.cpp 126-141 *)
Definition x64_to_mont (ctx : mont_ctx) (a : list Z) : list Z := x64_mont_mul ctx a (m_R_POW2 ctx).
Definition x64_from_mont (ctx : mont_ctx) (a : list Z) : list Z := x64_redc ctx (a ++ [0; 0; 0; 0]).
(** mont256_x64.cpp 147-164 *)
Definition x64_mont_add (ctx : mont_ctx) (a b : list Z) : list Z :=
  let (s, c) := addc 0 a b in
  if negb (c =? 0) || (0 <=? x64_cmp s (m_P ctx)) then fst (subb 0 s (m_P ctx)) else s.
(** mont256_x64.cpp 166-183 *)
Definition x64_mont_sub (ctx : mont_ctx) (a b : list Z) : list Z :=
  let (s, c) := subb 0 a b in
  if negb (c =? 0) || (0 <=? x64_cmp s (m_P ctx)) then fst (addc 0 s (m_P ctx)) else s.
(** mont256_x64.cpp 185-201 *)
Definition x64_mont_dbl (ctx : mont_ctx) (a : list Z) : list Z :=
  let (s, c) := addc 0 a a in
  if negb (c =? 0) || (0 <=? x64_cmp s (m_P ctx)) then fst (subb 0 s (m_P ctx)) else s.
(** mont256_x64.cpp 203-210 *)
Definition x64_mont_tpl (ctx : mont_ctx) (a : list Z) : list Z :=
  x64_mont_add ctx (x64_mont_dbl ctx a) a.
(** mont256_x64.cpp 212-222 *)
Definition x64_mont_neg (ctx : mont_ctx) (a : list Z) : list Z :=
  if x64_equal_zero a then x64_set_zero else fst (x64_sub_borrow (m_P ctx) a).
(** mont256_x64.cpp 320-336 *)
Definition x64_mont_div2 (ctx : mont_ctx) (a : list Z) : list Z :=
  if Z.land (nz a 0) 1 =? 0 then shr1_limbs 64 a 0
  else let (r, c) := x64_add_carry a (m_P ctx) in shr1_limbs 64 r c.
(** mont256_x64.cpp 243-318 *)
Definition x64_mont_pow (ctx : mont_ctx) (base exponent : list Z) : res (list Z) :=
  if x64_equal_zero base then Ok x64_set_zero
  else if x64_equal_zero exponent then Ok x64_set_one
  else pow_gen (x64_mont_mul ctx) (x64_mont_sqr ctx) base (x64_to_bytes exponent).
(** mont256_x64.cpp 338-343 *)
Definition x64_mont_inv (ctx : mont_ctx) (a : list Z) : list Z :=
  match x64_mont_pow ctx a (m_P_SUB2 ctx) with Ok r => r | _ => [] end.
(** mont256_x64.cpp 388-425 *)
Definition x64_mont_set_uint64 (ctx : mont_ctx) (n : Z) : list Z := x64_to_mont ctx (x64_set_uint64 n).
Definition x64_mont_from_bytes (ctx : mont_ctx) (b : list Z) : list Z :=
  x64_to_mont ctx (x64_from_bytes b).
Definition x64_mont_to_bytes (ctx : mont_ctx) (a : list Z) : list Z :=
  x64_to_bytes (x64_from_mont ctx a).
Definition x64_mont_from_bytes_ex (ctx : mont_ctx) (b : list Z) : option (list Z) :=
  match x64_mod b (m_P ctx) with Some t => Some (x64_to_mont ctx t) | None => None end.

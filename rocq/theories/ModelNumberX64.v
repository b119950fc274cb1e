(** Model of the x64 multi-precision code (built only with CPU_FLAG_MOVBE and CPU_FLAG_BMI2):
    src/number/uint256_x64.cpp and src/number/mpz_x64.cpp.  Limbs are 64-bit, least significant
    first.  The three intrinsics are given their documented semantics. *)
From Verif Require Import Base ModelEndian ModelNumber.

(** _addcarry_u64(c_in, a, b, &out): any non-zero [c_in] counts as one *)
Definition cf (c : Z) : Z := if c mod 256 =? 0 then 0 else 1.
Definition addcarry_u64 (c a b : Z) : Z * Z :=
  let s := a + b + cf c in (s mod 2 ^ 64, if s <? 2 ^ 64 then 0 else 1).
(** _subborrow_u64(c_in, a, b, &out) *)
Definition subborrow_u64 (c a b : Z) : Z * Z :=
  let s := a - b - cf c in (s mod 2 ^ 64, if s <? 0 then 1 else 0).
(** _mulx_u64(a, b, &hi) *)
Definition mulx_lo (a b : Z) : Z := (a * b) mod 2 ^ 64.
Definition mulx_hi (a b : Z) : Z := (a * b) / 2 ^ 64.

(** A chain [CF = _addcarry_u64(CF, a[i], b[i], &r[i])], i = 0, 1, ... *)
Fixpoint addc (c : Z) (a b : list Z) : list Z * Z :=
  match a, b with
  | x :: a', y :: b' =>
      let (s, c1) := addcarry_u64 c x y in
      let (r, c2) := addc c1 a' b' in (s :: r, c2)
  | _, _ => ([], c)
  end.
(** A chain of _subborrow_u64 *)
Fixpoint subb (c : Z) (a b : list Z) : list Z * Z :=
  match a, b with
  | x :: a', y :: b' =>
      let (s, c1) := subborrow_u64 c x y in
      let (r, c2) := subb c1 a' b' in (s :: r, c2)
  | _, _ => ([], c)
  end.

(** uint256_x64.cpp 36-46 *)
Definition x64_add_carry (a b : list Z) : list Z * Z := addc 0 a b.
(** uint256_x64.cpp 48-58 *)
Definition x64_sub_borrow (a b : list Z) : list Z * Z :=
  let (r, c) := subb 0 a b in (r, - c).
(** uint256_x64.cpp 60-69 *)
Definition x64_dbl_carry (a : list Z) : list Z * Z := addc 0 a a.
(** uint256_x64.cpp 71-88 *)
Definition x64_tpl_carry (a : list Z) : list Z * Z :=
  let (t, c1) := addc 0 a a in
  let (r, c2) := addc 0 a t in (r, c1 + c2).

(** uint256_x64.cpp 90-162.  [product] is kept as a list that grows by one limb per step. *)
Definition x64_mul_step1 (a : list Z) (b0 : Z) : list Z :=
  let lo := map (fun x => mulx_lo x b0) a in
  let hi := map (fun x => mulx_hi x b0) a in
  match lo with
  | l0 :: l123 => l0 :: fst (addc 0 (l123 ++ [0]) hi)
  | [] => []
  end.
(** steps 2, 3, 4 (lines 116-130, 132-146, 148-161): [acc] is product[k .. k+3] for k = 1, 2, 3;
    the result is product[k .. k+4] *)
Definition x64_mul_step (acc a : list Z) (b : Z) : list Z :=
  let lo := map (fun x => mulx_lo x b) a in
  let hi := map (fun x => mulx_hi x b) a in
  let (s, c) := addc 0 acc lo in
  let (top, _) := addcarry_u64 c 0 0 in
  match s with
  | s0 :: s123 => s0 :: fst (addc 0 (s123 ++ [top]) hi)
  | [] => []
  end.
Definition x64_mul (a b : list Z) : list Z :=
  match x64_mul_step1 a (nz b 0) with
  | p0 :: r1 =>
      match x64_mul_step r1 a (nz b 1) with
      | p1 :: r2 =>
          match x64_mul_step r2 a (nz b 2) with
          | p2 :: r3 => p0 :: p1 :: p2 :: x64_mul_step r3 a (nz b 3)
          | [] => []
          end
      | [] => []
      end
  | [] => []
  end.
(** uint256_x64.cpp 164-168 *)
Definition x64_sqr (a : list Z) : list Z := x64_mul a a.
(** uint256_x64.cpp 170-180 *)
Definition x64_add_carry_uint64 (a : list Z) (b : Z) : list Z * Z := addc 0 a [b; 0; 0; 0].
(** uint256_x64.cpp 182-192 *)
Definition x64_sub_borrow_uint64 (a : list Z) (b : Z) : list Z * Z :=
  let (r, c) := subb 0 a [b; 0; 0; 0] in (r, - c).
(** uint256_x64.cpp 194-212: product and returned carry *)
Definition x64_mul_carry_uint64 (a : list Z) (b : Z) : list Z * Z :=
  let p := x64_mul_step1 a b in (firstn 4 p, nz p 4).
(** include/gmlib/number/uint256.h 26-33: the x64 build's uint256_mul_carry_uint32 truncates the
    64-bit carry of uint256_mul_carry_uint64 *)
Definition x64_mul_carry_uint32 (a : list Z) (b : Z) : list Z * Z :=
  let (p, c) := x64_mul_carry_uint64 a b in (p, w32 c).
(** uint256_x64.cpp 18-26 _udiv128 (GCC branch), most significant limb first *)
Fixpoint x64_div_from_top (l : list Z) (rem divisor : Z) : list Z * Z :=
  match l with
  | [] => ([], rem)
  | x :: l' =>
      let hl := Z.lor (Z.shiftl rem 64) x in
      let q := w64 (hl / divisor) in
      let (qs, r) := x64_div_from_top l' (w64 (hl mod divisor)) divisor in (q :: qs, r)
  end.
(** uint256_x64.cpp 214-224 *)
Definition x64_div_uint64 (dividend : list Z) (divisor : Z) : res (list Z * Z) :=
  if divisor =? 0 then UB
  else let (q, r) := x64_div_from_top (rev dividend) 0 divisor in Ok (rev q, r).
(** uint256_x64.cpp 327-335 *)
Definition x64_cmp (a b : list Z) : Z := cmp_from_top (rev a) (rev b).
(** uint256_x64.cpp 337-346 *)
Definition x64_cmp_uint64 (a : list Z) (b : Z) : Z :=
  if existsb (fun x => 0 <? x) (rev (skipn 1 a)) then 1
  else if b <? nz a 0 then 1 else if nz a 0 <? b then -1 else 0.
(** uint256_x64.cpp 348-351 *)
Definition x64_equal (a b : list Z) : bool := fold_left Z.lor (xorl a b) 0 =? 0.
(** uint256_x64.cpp 353-356 *)
Definition x64_equal_zero (a : list Z) : bool := fold_left Z.lor a 0 =? 0.
(** uint256_x64.cpp 358-361 *)
Definition x64_equal_one (a : list Z) : bool :=
  (fold_left Z.lor (skipn 1 a) 0 =? 0) && (nz a 0 =? 1).
(** uint256_x64.cpp 367-387 *)
Definition x64_cpy (a : list Z) : list Z := a.
Definition x64_set_zero : list Z := [0; 0; 0; 0].
Definition x64_set_one : list Z := [1; 0; 0; 0].
Definition x64_set_uint64 (n : Z) : list Z := [n; 0; 0; 0].
(** uint256_x64.cpp 393-400: _loadbe_i64 is a byte-swapped load, i.e. the big-endian value *)
Definition x64_from_bytes (b : list Z) : list Z := rev (map be_val (cut 8 4 b)).
(** uint256_x64.cpp 402-409 *)
Definition x64_to_bytes (a : list Z) : list Z := concat (map (be_bytes 8) (rev a)).
(** uint256_x64.cpp 415-419 *)
Definition x64_bittest (a : list Z) (i : Z) : res bool :=
  if (0 <=? i) && (i <? 256)
  then Ok (negb (Z.land (Z.shiftr (nz a (Z.to_nat (i / 64))) (i mod 64)) 1 =? 0))
  else UB.
(** uint256_x64.cpp 226-243 *)
Definition x64_mod_add (a b d : list Z) : list Z :=
  let (s, c) := addc 0 a b in
  if negb (c =? 0) || (0 <=? x64_cmp s d) then fst (subb 0 s d) else s.
(** uint256_x64.cpp 245-262 *)
Definition x64_mod_sub (a b d : list Z) : list Z :=
  let (s, c) := subb 0 a b in
  if negb (c =? 0) || (0 <=? x64_cmp s d) then fst (addc 0 s d) else s.
(** uint256_x64.cpp 264-276 *)
Definition x64_self_mod_sll_n (num : list Z) (n : nat) (d : list Z) : list Z :=
  if x64_equal_zero num then num else Nat.iter n (fun x => x64_mod_add x x d) num.
(** uint256_x64.cpp 278-321, decomposed like uint256_mod of ModelNumber.v *)
Definition x64_sub_while (t d : list Z) : option (list Z) :=
  match while2 257 (fun t => 0 <=? x64_cmp t d) (fun t => fst (x64_sub_borrow t d)) t with
  | inr t' => Some t'
  | inl _ => None
  end.
Definition x64_mod_absorb (r t d : list Z) : option (list Z) :=
  match x64_sub_while t d with Some t' => Some (x64_mod_add r t' d) | None => None end.
Fixpoint x64_mod_blocks (k : nat) (r data d : list Z) : option (list Z) :=
  match k with
  | O => Some r
  | S k' =>
      match x64_mod_absorb (x64_self_mod_sll_n r 256 d) (x64_from_bytes (firstn 32 data)) d with
      | Some r => x64_mod_blocks k' r (skipn 32 data) d
      | None => None
      end
  end.
Definition x64_mod_tail (r data d : list Z) : option (list Z) :=
  match data with
  | [] => Some r
  | _ => x64_mod_absorb (x64_self_mod_sll_n r (8 * length data) d)
                        (x64_from_bytes (repeat 0 (32 - length data) ++ data)) d
  end.
Definition x64_mod (data d : list Z) : option (list Z) :=
  if (32 <=? length data)%nat then
    match x64_mod_absorb x64_set_zero (x64_from_bytes (firstn 32 data)) d with
    | None => None
    | Some r =>
        let d1 := skipn 32 data in
        let k := (length d1 / 32)%nat in
        match x64_mod_blocks k r d1 d with
        | None => None
        | Some r2 => x64_mod_tail r2 (skipn (32 * k) d1) d
        end
    end
  else x64_mod_tail x64_set_zero data d.

(** mpz_x64.cpp 24-37: [(char)carry] *)
Definition x64_mpz_add_carry (a b : list Z) (carry : Z) : list Z * Z :=
  match a with [] => ([], 0) | _ => addc carry a b end.
(** mpz_x64.cpp 39-52: [unsigned char CF = -borrow] *)
Definition x64_mpz_sub_borrow (a b : list Z) (borrow : Z) : list Z * Z :=
  match a with [] => ([], 0) | _ => let (r, c) := subb (w8 (- borrow)) a b in (r, - c) end.
(** mpz_x64.cpp 61-71: first row; [hi + CF] with the final carry dropped *)
Fixpoint x64_mpz_row0 (a : list Z) (b pre_hi : Z) : list Z * Z :=
  match a with
  | [] => ([], pre_hi)
  | x :: a' =>
      let (p, c) := addcarry_u64 0 (mulx_lo x b) pre_hi in
      let (hi, _) := addcarry_u64 c (mulx_hi x b) 0 in
      let (r, h) := x64_mpz_row0 a' b hi in (p :: r, h)
  end.
(** mpz_x64.cpp 72-86: row i2 *)
Fixpoint x64_mpz_row (r a : list Z) (b pre_hi : Z) : list Z * Z :=
  match r, a with
  | t :: r', x :: a' =>
      let (p1, c1) := addcarry_u64 0 t (mulx_lo x b) in
      let (h1, _) := addcarry_u64 c1 (mulx_hi x b) 0 in
      let (p2, c2) := addcarry_u64 0 p1 pre_hi in
      let (h2, _) := addcarry_u64 c2 h1 0 in
      let (u, h) := x64_mpz_row r' a' b h2 in (p2 :: u, h)
  | _, _ => ([], pre_hi)
  end.
Fixpoint x64_mpz_rows (r a bs : list Z) : list Z :=
  match bs with
  | [] => r
  | b :: bs' =>
      match x64_mpz_row r a b 0 with
      | (h :: t, c) => h :: x64_mpz_rows (t ++ [c]) a bs'
      | ([], c) => []
      end
  end.
(** mpz_x64.cpp 54-87 *)
Definition x64_mpz_mul (a b : list Z) : list Z :=
  match b with
  | [] => []
  | b0 :: bs =>
      match x64_mpz_row0 a b0 0 with
      | (h :: t, c) => h :: x64_mpz_rows (t ++ [c]) a bs
      | ([], c) => []
      end
  end.
(** mpz_x64.cpp 89-101: [pos] is computed but the loop compares [a[i]] with [b[i]], i.e. it runs
    from the LEAST significant limb *)
Definition x64_mpz_cmp (a b : list Z) : Z := cmp_from_top a b.
(** mpz_x64.cpp 110-119 *)
Definition x64_mpz_from_bytes (src : list Z) (limb_size : nat) : list Z :=
  rev (map be_val (cut 8 limb_size src)).
(** mpz_x64.cpp 121-130 *)
Definition x64_mpz_to_bytes (src : list Z) : list Z := concat (map (be_bytes 8) (rev src)).

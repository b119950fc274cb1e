(** Model of src/sm4/sm4_common.cpp, src/sm4/sm4_lang18.cpp (including the AVX2 paths) and
    include/gmlib/sm4/sm4.h. *)
From Verif Require Import Base ModelEndian TablesSM4.

(** sm4_common.cpp 23-26, sm4_lang18.cpp 28-31; the shift count is always one of the constants
    2, 10, 13, 18, 23, 24. *)
Definition rotl4 (n s : Z) : Z := Z.lor (w32 (Z.shiftl n s)) (Z.shiftr n (32 - s)).

(** table[(x >> k) & 0xFF] *)
Definition look (t : list Z) (x k : Z) : Z := nz t (Z.to_nat (byte_at x k)).

(** sm4_common.cpp 96-99, 125-128; sm4_lang18.cpp 278-281 (uint8_t promoted to int and shifted into
    the sign bit, then converted to uint32_t: the low 32 bits). *)
Definition sbox_word (t : list Z) (x : Z) : Z :=
  Z.lor (Z.lor (Z.lor (w32 (Z.shiftl (look t x 24) 24)) (w32 (Z.shiftl (look t x 16) 16)))
               (w32 (Z.shiftl (look t x 8) 8))) (w32 (Z.shiftl (look t x 0) 0)).

(** ** Key schedule (the two files have the same code and their own copies of the tables) *)
Section KEY.
  Variable sbox fk ck : list Z.
  (** sm4_common.cpp 93-106 / sm4_lang18.cpp 275-288: one round; returns round_key[pos] and k[]. *)
  Definition key_round (k : Z * Z * Z * Z) (i : nat) : Z * (Z * Z * Z * Z) :=
    let '(k0, k1, k2, k3) := k in
    let tmp := Z.lxor (Z.lxor (Z.lxor k1 k2) k3) (nz ck i) in
    let tmp := sbox_word sbox tmp in
    let r := Z.lxor (Z.lxor (Z.lxor k0 tmp) (rotl4 tmp 13)) (rotl4 tmp 23) in
    (r, (k1, k2, k3, r)).
  Fixpoint key_rounds (k : Z * Z * Z * Z) (i n : nat) : list Z :=
    match n with
    | O => []
    | S n' => let '(r, k') := key_round k i in r :: key_rounds k' (S i) n'
    end.
  (** sm4_common.cpp 79-110 / sm4_lang18.cpp 261-292: pos runs 0..31 (enc) or 31..0. *)
  Definition sm4_key_init (user_key : list Z) (enc : bool) : list Z :=
    let k := (Z.lxor (load32_be user_key) (nz fk 0),
              Z.lxor (load32_be (skipn 4 user_key)) (nz fk 1),
              Z.lxor (load32_be (skipn 8 user_key)) (nz fk 2),
              Z.lxor (load32_be (skipn 12 user_key)) (nz fk 3)) in
    let r := key_rounds k 0 32 in
    if enc then r else rev r.
End KEY.

(** ** Block function *)
(** X0 after SM4_ROUND, sm4_common.cpp 120-131 *)
Definition round_common (x0 x1 x2 x3 rk : Z) : Z :=
  let tmp := sbox_word SM4_SBOX (Z.lxor (Z.lxor (Z.lxor x1 x2) x3) rk) in
  Z.lxor (Z.lxor (Z.lxor (Z.lxor (Z.lxor x0 tmp) (rotl4 tmp 2)) (rotl4 tmp 10)) (rotl4 tmp 18))
         (rotl4 tmp 24).
(** X0 after SM4_ROUND, sm4_lang18.cpp 303-312 *)
Definition round_l18 (x0 x1 x2 x3 rk : Z) : Z :=
  let tmp := Z.lxor (Z.lxor (Z.lxor x1 x2) x3) rk in
  Z.lxor (Z.lxor (Z.lxor (Z.lxor x0 (look T0 tmp 24)) (look T1 tmp 16)) (look T2 tmp 8))
         (look T3 tmp 0).

Section BLOCK.
  Variable rnd : Z -> Z -> Z -> Z -> Z -> Z.
  (** sm4_common.cpp 152-155, sm4_lang18.cpp 333-336: body of the loop at index i *)
  Definition four_rounds (rk : list Z) (x : Z * Z * Z * Z) (i : nat) : Z * Z * Z * Z :=
    let '(x0, x1, x2, x3) := x in
    let x0 := rnd x0 x1 x2 x3 (nz rk i) in
    let x1 := rnd x1 x2 x3 x0 (nz rk (i + 1)) in
    let x2 := rnd x2 x3 x0 x1 (nz rk (i + 2)) in
    let x3 := rnd x3 x0 x1 x2 (nz rk (i + 3)) in
    (x0, x1, x2, x3).
  (** the values of i in [for (int i = 0; i < 32; i += 4)] *)
  Definition loop_i : list nat := [0; 4; 8; 12; 16; 20; 24; 28]%nat.
  (** sm4_common.cpp 145-148 *)
  Definition load_quad (b : list Z) : Z * Z * Z * Z :=
    (load32_be b, load32_be (skipn 4 b), load32_be (skipn 8 b), load32_be (skipn 12 b)).
  (** sm4_common.cpp 158-161 *)
  Definition store_quad_rev (x : Z * Z * Z * Z) : list Z :=
    let '(x0, x1, x2, x3) := x in store32_be x3 ++ store32_be x2 ++ store32_be x1 ++ store32_be x0.
  (** sm4_common.cpp 139-162, sm4_lang18.cpp 320-343 *)
  Definition sm4_compute_block (rk b : list Z) : list Z :=
    store_quad_rev (fold_left (four_rounds rk) loop_i (load_quad b)).
End BLOCK.
Definition compute_block_common := sm4_compute_block round_common.
Definition compute_block_l18 := sm4_compute_block round_l18.

(** sm4_lang18.cpp 351-500: four blocks, each round done on all four lanes x[4b..4b+3] before the
    next; the state is kept as a list of four lanes. *)
Definition x4_round0 (rk : list Z) (i : nat) (q : Z * Z * Z * Z) : Z * Z * Z * Z :=
  let '(x0, x1, x2, x3) := q in (round_l18 x0 x1 x2 x3 (nz rk i), x1, x2, x3).
Definition x4_round1 (rk : list Z) (i : nat) (q : Z * Z * Z * Z) : Z * Z * Z * Z :=
  let '(x0, x1, x2, x3) := q in (x0, round_l18 x1 x2 x3 x0 (nz rk (i + 1)), x2, x3).
Definition x4_round2 (rk : list Z) (i : nat) (q : Z * Z * Z * Z) : Z * Z * Z * Z :=
  let '(x0, x1, x2, x3) := q in (x0, x1, round_l18 x2 x3 x0 x1 (nz rk (i + 2)), x3).
Definition x4_round3 (rk : list Z) (i : nat) (q : Z * Z * Z * Z) : Z * Z * Z * Z :=
  let '(x0, x1, x2, x3) := q in (x0, x1, x2, round_l18 x3 x0 x1 x2 (nz rk (i + 3))).
Definition x4_body (rk : list Z) (qs : list (Z * Z * Z * Z)) (i : nat) : list (Z * Z * Z * Z) :=
  let qs := map (x4_round0 rk i) qs in
  let qs := map (x4_round1 rk i) qs in
  let qs := map (x4_round2 rk i) qs in
  map (x4_round3 rk i) qs.
Definition compute_blocks_x4 (rk b : list Z) : list Z :=
  let qs := [load_quad b; load_quad (skipn 16 b); load_quad (skipn 32 b); load_quad (skipn 48 b)] in
  concat (map store_quad_rev (fold_left (x4_body rk) loop_i qs)).

(** ** AVX2: a __m256i is its 32 bytes in memory order. *)
(** the eight 32-bit elements, least significant first *)
Definition dwords (v : list Z) : list Z := map le_val (cut 4 8 v).
Definition of_dwords (l : list Z) : list Z := concat (map (le_bytes 4) l).
(** _mm256_set1_epi32, _mm256_srli_epi32, _mm256_and_si256, _mm256_i32gather_epi32 (scale 4) *)
Definition set1_epi32 (x : Z) : list Z := of_dwords (repeat x 8).
Definition srli_epi32 (v : list Z) (n : Z) : list Z := of_dwords (map (fun x => Z.shiftr x n) (dwords v)).
Fixpoint andl (a b : list Z) : list Z :=
  match a, b with x :: a', y :: b' => Z.land x y :: andl a' b' | _, _ => [] end.
Definition gather (t v : list Z) : list Z := of_dwords (map (fun i => nz t (Z.to_nat i)) (dwords v)).
(** _mm256_unpacklo_epi32 / unpackhi_epi32 / unpacklo_epi64 / unpackhi_epi64: within each 128-bit
    half, interleave the low (high) elements of a and b. *)
Definition elem (n : nat) (v : list Z) (i : nat) : list Z := slice v (n * i) n.
Definition unpacklo_epi32 (a b : list Z) : list Z :=
  elem 4 a 0 ++ elem 4 b 0 ++ elem 4 a 1 ++ elem 4 b 1 ++
  elem 4 a 4 ++ elem 4 b 4 ++ elem 4 a 5 ++ elem 4 b 5.
Definition unpackhi_epi32 (a b : list Z) : list Z :=
  elem 4 a 2 ++ elem 4 b 2 ++ elem 4 a 3 ++ elem 4 b 3 ++
  elem 4 a 6 ++ elem 4 b 6 ++ elem 4 a 7 ++ elem 4 b 7.
Definition unpacklo_epi64 (a b : list Z) : list Z :=
  elem 8 a 0 ++ elem 8 b 0 ++ elem 8 a 2 ++ elem 8 b 2.
Definition unpackhi_epi64 (a b : list Z) : list Z :=
  elem 8 a 1 ++ elem 8 b 1 ++ elem 8 a 3 ++ elem 8 b 3.
(** _mm256_shuffle_epi8: within each 128-bit half; index bytes are < 128 here. *)
Definition shuffle_epi8 (v ix : list Z) : list Z :=
  map (fun j => nz v (Z.to_nat (nz ix j mod 16) + 16 * (j / 16))) (seq 0 32).
(** sm4_lang18.cpp 538-540 *)
Definition vindex : list Z :=
  [3; 2; 1; 0; 7; 6; 5; 4; 11; 10; 9; 8; 15; 14; 13; 12;
   3; 2; 1; 0; 7; 6; 5; 4; 11; 10; 9; 8; 15; 14; 13; 12].
(** sm4_lang18.cpp 504-515 *)
Definition PACK0 a b c d := unpacklo_epi64 (unpacklo_epi32 a b) (unpacklo_epi32 c d).
Definition PACK1 a b c d := unpackhi_epi64 (unpacklo_epi32 a b) (unpacklo_epi32 c d).
Definition PACK2 a b c d := unpacklo_epi64 (unpackhi_epi32 a b) (unpackhi_epi32 c d).
Definition PACK3 a b c d := unpackhi_epi64 (unpackhi_epi32 a b) (unpackhi_epi32 c d).

Definition vquad := (list Z * list Z * list Z * list Z)%type.
(** sm4_lang18.cpp 548-573 (and, for each half of the registers, 632-681): one round *)
Definition avx_round (x : vquad) (rk : Z) : vquad :=
  let '(X0, X1, X2, X3) := x in
  let mask := set1_epi32 255 in
  let t0 := set1_epi32 rk in
  let t0 := xorl t0 X1 in
  let t0 := xorl t0 X2 in
  let t0 := xorl t0 X3 in
  let t1 := srli_epi32 t0 8 in
  let t2 := srli_epi32 t0 16 in
  let t3 := srli_epi32 t0 24 in
  let t0 := andl t0 mask in
  let t1 := andl t1 mask in
  let t2 := andl t2 mask in
  let t0 := gather T3 t0 in
  let t1 := gather T2 t1 in
  let t2 := gather T1 t2 in
  let t3 := gather T0 t3 in
  let t0 := xorl t0 t1 in
  let t0 := xorl X0 t0 in
  let t2 := xorl t2 t3 in
  let t0 := xorl t0 t2 in
  (X1, X2, X3, t0).
(** sm4_lang18.cpp 528-544 *)
Definition avx_load (b : list Z) : vquad :=
  let t0 := slice b 0 32 in let t1 := slice b 32 32 in
  let t2 := slice b 64 32 in let t3 := slice b 96 32 in
  (shuffle_epi8 (PACK0 t0 t1 t2 t3) vindex, shuffle_epi8 (PACK1 t0 t1 t2 t3) vindex,
   shuffle_epi8 (PACK2 t0 t1 t2 t3) vindex, shuffle_epi8 (PACK3 t0 t1 t2 t3) vindex).
(** sm4_lang18.cpp 575-587 *)
Definition avx_store (x : vquad) : list Z :=
  let '(X0, X1, X2, X3) := x in
  let X0 := shuffle_epi8 X0 vindex in let X1 := shuffle_epi8 X1 vindex in
  let X2 := shuffle_epi8 X2 vindex in let X3 := shuffle_epi8 X3 vindex in
  PACK0 X3 X2 X1 X0 ++ PACK1 X3 X2 X1 X0 ++ PACK2 X3 X2 X1 X0 ++ PACK3 X3 X2 X1 X0.
(** sm4_lang18.cpp 522-588 *)
Definition avx2_compute_blocks_x8 (rk b : list Z) : list Z :=
  avx_store (fold_left avx_round (map (nz rk) (seq 0 32)) (avx_load b)).
(** sm4_lang18.cpp 596-708: two independent halves X[0..3], X[4..7]; their instructions are
    interleaved but touch disjoint registers. *)
Definition avx2_compute_blocks_x16 (rk b : list Z) : list Z :=
  let XY := fold_left (fun xy r => (avx_round (fst xy) r, avx_round (snd xy) r))
              (map (nz rk) (seq 0 32)) (avx_load (firstn 128 b), avx_load (skipn 128 b)) in
  avx_store (fst XY) ++ avx_store (snd XY).

(** ** Multi-block functions *)
(** [while (block_num >= m) { f; out += 16m; in += 16m; block_num -= m; }]: output and what remains
    ([fuel] >= block_num). *)
Fixpoint while_ge (fuel m : nat) (f : list Z -> list Z) (b : list Z) (n : nat)
  : list Z * list Z * nat :=
  match fuel with
  | O => ([], b, n)
  | S fu =>
      if (m <=? n)%nat then
        let '(o, b', n') := while_ge fu m f (skipn (16 * m) b) (n - m) in
        (f (firstn (16 * m) b) ++ o, b', n')
      else ([], b, n)
  end.
(** sm4_common.cpp 196-222 *)
Definition sm4_blocks_common (rk b : list Z) (n : nat) : list Z :=
  fst (fst (while_ge n 1 (compute_block_common rk) b n)).
(** sm4_lang18.cpp 719-746 without CPU_FLAG_AVX2 *)
Definition sm4_blocks_l18 (rk b : list Z) (n : nat) : list Z :=
  let '(o4, b, n) := while_ge n 4 (compute_blocks_x4 rk) b n in
  let '(o1, _, _) := while_ge n 1 (compute_block_l18 rk) b n in
  o4 ++ o1.
(** sm4_lang18.cpp 719-746 with CPU_FLAG_AVX2 *)
Definition sm4_blocks_avx2 (rk b : list Z) (n : nat) : list Z :=
  let '(o16, b, n) := while_ge n 16 (avx2_compute_blocks_x16 rk) b n in
  let '(o8, b, n) := while_ge n 8 (avx2_compute_blocks_x8 rk) b n in
  let '(o4, b, n) := while_ge n 4 (compute_blocks_x4 rk) b n in
  let '(o1, _, _) := while_ge n 1 (compute_block_l18 rk) b n in
  o16 ++ o8 ++ o4 ++ o1.

(** sm4_common.cpp 172-180 / sm4_lang18.cpp 750-758 through SM4::set_key (sm4.h 59-69) *)
Definition sm4_set_key_common (user_key : list Z) (enc : bool) : list Z :=
  sm4_key_init SM4_SBOX FK CK user_key enc.
Definition sm4_set_key_l18 (user_key : list Z) (enc : bool) : list Z :=
  sm4_key_init SM4_SBOX_l18 FK_l18 CK_l18 user_key enc.

(** A uint8_t (uint32_t) array read through a pointer: every element reduced to its type's range
    (the identity on lists of bytes / 32-bit words). *)
Definition u8s (l : list Z) : list Z := map w8 l.
Definition u32s (l : list Z) : list Z := map w32 l.

(** Model of src/ghash/ghash_common.cpp, ghash_lut256.cpp, ghash_pclmul.cpp and of the class GHash
    (include/gmlib/ghash/ghash.h). *)
From Verif Require Import Base ModelEndian ModelHash TablesGHASH.

(** A 128-bit value kept as two uint64_t (high word first). *)
Definition pair64 := (Z * Z)%type.
Definition xor2 (a b : pair64) : pair64 := (Z.lxor (fst a) (fst b), Z.lxor (snd a) (snd b)).
(** MEM_LOAD64BE twice: ghash_common.cpp 27-28, 46-47; ghash_lut256.cpp 81-82, 138-139 *)
Definition load2 (b : list Z) : pair64 := (load64_be (slice b 0 8), load64_be (slice b 8 8)).
(** MEM_STORE64BE twice: ghash_common.cpp 89-90, ghash_lut256.cpp 182-183 *)
Definition store2 (p : pair64) : list Z := store64_be (fst p) ++ store64_be (snd p).

(** ** ghash_common.cpp *)
(** 43 *)
Definition Rh : Z := 0xE100000000000000.
(** 58-60, 70-72: V = V >> 1, reduced.  MASK is all ones when the low bit of Vl is set. *)
Definition shift_V (V : pair64) : pair64 :=
  let MASK := w64 (- (Z.land (snd V) 1)) in
  let Vl := Z.lor (w64 (Z.shiftl (fst V) 63)) (Z.shiftr (snd V) 1) in
  let Vh := Z.lxor (Z.land Rh MASK) (Z.shiftr (fst V) 1) in
  (Vh, Vl).
(** 50-61 (with Xh), 62-73 (with Xl): [n] iterations *)
Fixpoint gc_loop (n : nat) (X : Z) (Zv V : pair64) : pair64 * pair64 :=
  match n with
  | O => (Zv, V)
  | S n' =>
      let Zv := if negb (Z.land X 0x8000000000000000 =? 0) then xor2 Zv V else Zv in
      gc_loop n' (w64 (Z.shiftl X 1)) Zv (shift_V V)
  end.
(** 46-75: one block *)
Definition gc_block (H state : pair64) (blk : list Z) : pair64 :=
  let X := xor2 state (load2 blk) in
  let '(Z1, V1) := gc_loop 64 (fst X) (0, 0) H in
  let '(Z2, _) := gc_loop 64 (snd X) Z1 V1 in
  Z2.

(** GHashCTX of the common and lut256 variants: key material and state. *)
Record gctx (K : Type) := mkG { gkey : K; gst : pair64 }.
Arguments mkG {K}. Arguments gkey {K}. Arguments gst {K}.

(** while (block_num): 44-78, lut256 119-166 *)
Fixpoint g_blocks {K} (blk : K -> pair64 -> list Z -> pair64) (c : gctx K) (d : list Z) (n : nat) : gctx K :=
  match n with
  | O => c
  | S n' => g_blocks blk (mkG (gkey c) (blk (gkey c) (gst c) (firstn 16 d))) (skipn 16 d) n'
  end.
(** 81-92, lut256 171-185 *)
Definition g_final {K} (c : gctx K) (d : list Z) : res (list Z) :=
  if (length d =? 0)%nat then Ok (store2 (gst c)) else Throw.

(** 25-31 ghash_init, 33-37 ghash_reset *)
Definition gc_init (H : list Z) : gctx pair64 := mkG (load2 H) (0, 0).

(** ** ghash_lut256.cpp *)
Definition table := list pair64.
Definition tget (T : table) (i : Z) : pair64 := nth (Z.to_nat i) T (0, 0).
Definition tset (T : table) (i : Z) (v : pair64) : table :=
  firstn (Z.to_nat i) T ++ v :: skipn (S (Z.to_nat i)) T.
Definition REV (i : Z) : Z := nz REV_U8 (Z.to_nat i).
(** 97-107: M(i/2) * x *)
Definition lut_double (m : pair64) : pair64 :=
  let Rh := w64 (Z.shiftl 225 (64 - 8)) in
  let t1 := Z.lor (w64 (Z.shiftl (fst m) 63)) (Z.shiftr (snd m) 1) in
  let t0 := Z.shiftr (fst m) 1 in
  let t0 := if negb (Z.land (snd m) 1 =? 0) then Z.lxor t0 Rh else t0 in
  (t0, t1).
(** 86-109: loop body *)
Definition lut_step (T : table) (i : Z) : table :=
  if negb (Z.land i 1 =? 0)
  then tset T (REV i) (xor2 (tget T (REV (i - 1))) (tget T (REV 1)))
  else tset T (REV i) (lut_double (tget T (REV (i / 2)))).
(** 77-110 gf128_init_lut_table; [T0] is the indeterminate previous content of T *)
Definition gf128_init_lut_table (T0 : table) (H : list Z) : table :=
  let T := tset T0 0 (0, 0) in
  let T := tset T (REV 1) (load2 H) in
  fold_left lut_step (map Z.of_nat (seq 2 254)) T.
(** 124-133 GMUL128_ROUND(s) *)
Definition gmul128_round (T : table) (X R : pair64) (s : Z) : pair64 :=
  let rem := Z.land (snd R) 255 in
  let R1 := Z.lor (w64 (Z.shiftl (fst R) 56)) (Z.shiftr (snd R) 8) in
  let R0 := Z.lxor (Z.shiftr (fst R) 8) (w64 (Z.shiftl (nz REDUCE_TABLE (Z.to_nat rem)) (64 - 16))) in
  let Xs := if 1 - s / 8 =? 0 then fst X else snd X in
  let t := tget T (Z.land (Z.shiftr Xs (8 * (s mod 8))) 255) in
  (Z.lxor R0 (fst t), Z.lxor R1 (snd t)).
(** 138-163: one block *)
Definition lut_block (T : table) (state : pair64) (blk : list Z) : pair64 :=
  let X := xor2 state (load2 blk) in
  let R := tget T (Z.land (snd X) 255) in
  fold_left (gmul128_round T X) [1;2;3;4;5;6;7;8;9;10;11;12;13;14;15] R.
(** 112-117 ghash_init *)
Definition lut_init (T0 : table) (H : list Z) : gctx table := mkG (gf128_init_lut_table T0 H) (0, 0).

(** ** ghash_pclmul.cpp: 128-bit registers as integers *)
(** The [i]-th [w]-bit lane, and the register with given lanes (bit concatenation). *)
Definition lane (w : Z) (x : Z) (i : Z) : Z := Z.land (Z.shiftr x (w * i)) (Z.ones w).
Definition unlanes (w : Z) (l : list Z) : Z := fold_right (fun a r => Z.lxor a (Z.shiftl r w)) 0 l.
Definition lanes (w : Z) (n : nat) (x : Z) : list Z := map (lane w x) (map Z.of_nat (seq 0 n)).
(** _mm_srli_epi16, _mm_srli_epi32, _mm_slli_epi32 *)
Definition srli_epi16 (x k : Z) : Z := unlanes 16 (map (fun a => Z.shiftr a k) (lanes 16 8 x)).
Definition srli_epi32 (x k : Z) : Z := unlanes 32 (map (fun a => Z.shiftr a k) (lanes 32 4 x)).
Definition slli_epi32 (x k : Z) : Z := unlanes 32 (map (fun a => Z.land (Z.shiftl a k) (Z.ones 32)) (lanes 32 4 x)).
(** _mm_slli_si128, _mm_srli_si128 (byte shifts) *)
Definition slli_si128 (x k : Z) : Z := Z.land (Z.shiftl x (8 * k)) (Z.ones 128).
Definition srli_si128 (x k : Z) : Z := Z.shiftr x (8 * k).
(** _mm_shuffle_epi32 with an immediate: lane j of the result is lane (imm >> 2j) & 3 *)
Definition shuffle_epi32 (x imm : Z) : Z :=
  unlanes 32 (map (fun j => lane 32 x (Z.land (Z.shiftr imm (2 * j)) 3)) [0; 1; 2; 3]).
(** _mm_shuffle_epi8(a, b): byte i is 0 when bit 7 of b_i is set, else byte (b_i & 15) of a *)
Definition mm_shuffle_epi8 (a b : Z) : Z :=
  unlanes 8 (map (fun c => if Z.testbit c 7 then 0 else lane 8 a (Z.land c 15)) (lanes 8 16 b)).
(** _mm_set_epi32(e3, e2, e1, e0), _mm_setr_epi32 the other way round *)
Definition set_epi32 (e3 e2 e1 e0 : Z) : Z := unlanes 32 [e0; e1; e2; e3].
(** pclmulqdq: carry-less product of two 64-bit polynomials *)
Fixpoint cl_loop (n : nat) (a b : Z) : Z :=
  match n with
  | O => 0
  | S n' => Z.lxor (if Z.testbit b (Z.of_nat n') then Z.shiftl a (Z.of_nat n') else 0) (cl_loop n' a b)
  end.
Definition clmul00 (a b : Z) : Z := cl_loop 64 (lane 64 a 0) (lane 64 b 0).
Definition clmul11 (a b : Z) : Z := cl_loop 64 (lane 64 a 1) (lane 64 b 1).
(** _mm_andnot_si128(m, x) on 128 bits *)
Definition andnot (m x : Z) : Z := Z.land (Z.lxor m (Z.ones 128)) x.

(** 13-29 reflect_xmm *)
Definition reflect_xmm (X : Z) : Z :=
  let AND_MASK := set_epi32 0x0f0f0f0f 0x0f0f0f0f 0x0f0f0f0f 0x0f0f0f0f in
  let LOWER_MASK := set_epi32 0x0f070b03 0x0d050901 0x0e060a02 0x0c040800 in
  let HIGHER_MASK := set_epi32 0xf070b030 0xd0509010 0xe060a020 0xc0408000 in
  let tmp2 := srli_epi16 X 4 in
  let tmp1 := Z.land X AND_MASK in
  let tmp2 := Z.land tmp2 AND_MASK in
  let tmp1 := mm_shuffle_epi8 HIGHER_MASK tmp1 in
  let tmp2 := mm_shuffle_epi8 LOWER_MASK tmp2 in
  Z.lxor tmp1 tmp2.

(** 53-71: reduction of the 256-bit product tmp6:tmp3 *)
Definition gf_reduce (tmp6 tmp3 : Z) : Z :=
  let XMMMASK := set_epi32 0 0 0 0xffffffff in
  let tmp7 := srli_epi32 tmp6 31 in
  let tmp8 := srli_epi32 tmp6 30 in
  let tmp9 := srli_epi32 tmp6 25 in
  let tmp7 := Z.lxor tmp7 tmp8 in
  let tmp7 := Z.lxor tmp7 tmp9 in
  let tmp8 := shuffle_epi32 tmp7 147 in
  let tmp7 := Z.land XMMMASK tmp8 in
  let tmp8 := andnot XMMMASK tmp8 in
  let tmp3 := Z.lxor tmp3 tmp8 in
  let tmp6 := Z.lxor tmp6 tmp7 in
  let tmp10 := slli_epi32 tmp6 1 in
  let tmp3 := Z.lxor tmp3 tmp10 in
  let tmp11 := slli_epi32 tmp6 2 in
  let tmp3 := Z.lxor tmp3 tmp11 in
  let tmp12 := slli_epi32 tmp6 7 in
  let tmp3 := Z.lxor tmp3 tmp12 in
  Z.lxor tmp3 tmp6.
(** 37-72 gfmul *)
Definition gfmul (a b : Z) : Z :=
  let tmp3 := clmul00 a b in
  let tmp6 := clmul11 a b in
  let tmp4 := shuffle_epi32 a 78 in
  let tmp5 := shuffle_epi32 b 78 in
  let tmp4 := Z.lxor tmp4 a in
  let tmp5 := Z.lxor tmp5 b in
  let tmp4 := clmul00 tmp4 tmp5 in
  let tmp4 := Z.lxor tmp4 tmp3 in
  let tmp4 := Z.lxor tmp4 tmp6 in
  let tmp5 := slli_si128 tmp4 8 in
  let tmp4 := srli_si128 tmp4 8 in
  let tmp3 := Z.lxor tmp3 tmp5 in
  let tmp6 := Z.lxor tmp6 tmp4 in
  gf_reduce tmp6 tmp3.

(** Registers are loaded from and stored to memory little-endian. *)
Definition loadu (b : list Z) : Z := le_val (firstn 16 b).
Definition storeu (x : Z) : list Z := le_bytes 16 x.
(** context: H and state arrays (74-79, 81-84) *)
Record pctx := mkP { pH : Z; pst : Z }.
Definition pc_init (H : list Z) : pctx := mkP (reflect_xmm (loadu H)) 0.
(** 93-101 *)
Fixpoint pc_blocks (c : pctx) (d : list Z) (n : nat) : pctx :=
  match n with
  | O => c
  | S n' => pc_blocks (mkP (pH c) (gfmul (Z.lxor (pst c) (reflect_xmm (loadu d))) (pH c))) (skipn 16 d) n'
  end.
(** 104-116 *)
Definition pc_final (c : pctx) (d : list Z) : res (list Z) :=
  if (length d =? 0)%nat then Ok (storeu (reflect_xmm (pst c))) else Throw.

(** ** class GHash (ghash.h 21-70) over one of the three variants *)
Record ghash_impl := {
  gi_ctx : Type;
  gi_init : list Z -> gi_ctx;                          (* ghash_init, set_key *)
  gi_reset : gi_ctx -> gi_ctx;                         (* ghash_reset *)
  gi_blocks : gi_ctx -> list Z -> nat -> gi_ctx;       (* ghash_update_blocks *)
  gi_final : gi_ctx -> list Z -> res (list Z);         (* ghash_final_block *)
}.
Definition G_common : ghash_impl := {|
  gi_ctx := gctx pair64; gi_init := gc_init; gi_reset := fun c => mkG (gkey c) (0, 0);
  gi_blocks := fun c d n => g_blocks gc_block c (map w8 d) n; gi_final := g_final |}.
(** [T0]: indeterminate content of the table before ghash_init *)
Definition G_lut256 (T0 : table) : ghash_impl := {|
  gi_ctx := gctx table; gi_init := lut_init T0; gi_reset := fun c => mkG (gkey c) (0, 0);
  gi_blocks := fun c d n => g_blocks lut_block c (map w8 d) n; gi_final := g_final |}.
Definition G_pclmul : ghash_impl := {|
  gi_ctx := pctx; gi_init := pc_init; gi_reset := fun c => mkP (pH c) 0;
  gi_blocks := fun c d n => pc_blocks c (map w8 d) n; gi_final := pc_final |}.

Section CLASS.
  Variable G : ghash_impl.
  (** ghash.h 54-58, 60-69 *)
  Definition gh_ub (c : gi_ctx G) (d : list Z) (n : nat) : res (gi_ctx G) := Ok (gi_blocks G c d n).
  Definition gh_fb (c : gi_ctx G) (d : list Z) : res (gi_ctx G * list Z) :=
    do t <- gi_final G c d; Ok (c, t).
  Definition gh_update := h_update (gi_ctx G) 16 gh_ub.
  Definition gh_final := h_final (gi_ctx G) 16 gh_ub gh_fb.
  (** ghash.h 39-42 reset: does not call Hash::reset(), so buf_size_ keeps its value; 44-47 set_key
      likewise. *)
  Definition gh_reset (s : hstate (gi_ctx G)) : hstate (gi_ctx G) :=
    mkH (hbuf s) (hsize s) (gi_reset G (hctx s)).
  Definition gh_set_key (s : hstate (gi_ctx G)) (H : list Z) : hstate (gi_ctx G) :=
    mkH (hbuf s) (hsize s) (gi_init G H).
  (** GHash(H), updates, do_final *)
  Definition ghash (junk H : list Z) (chunks : list (list Z)) (last : list Z) : res (list Z) :=
    h_digest (gi_ctx G) 16 gh_ub gh_fb (h_new _ junk (gi_init G H)) chunks last.
End CLASS.

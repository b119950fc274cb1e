(** Model of src/aes/aes_lut.cpp, src/aes/aes_aesni.cpp and include/gmlib/aes/aes.h. *)
From Verif Require Import Base ModelEndian TablesAES SpecAES ModelSM4 ModelCipher.

(** ** src/aes/aes_lut.cpp *)
(** int nr = 10 + (bits - 128) / 32; int nk = bits / 32 (454-455, 515, 733, 765) *)
Definition aes_nr (bits : Z) : nat := Z.to_nat (10 + (bits - 128) / 32).
Definition aes_nk (bits : Z) : nat := Z.to_nat (bits / 32).

(** SBOX[(x >> k) & 0xFF] << s, converted to uint32_t *)
Definition sb_at (t : list Z) (x k s : Z) : Z := w32 (Z.shiftl (look t x k) s).

(** 466-485: the value written to w[i] *)
Definition key_word (nk : nat) (w : list Z) (i : nat) : Z :=
  let tmp := nz w (i - 1) in
  let tmp :=
    if (i mod nk =? 0)%nat then
      let t := look AES_SBOX tmp 24 in
      let t := Z.lor t (sb_at AES_SBOX tmp 0 8) in
      let t := Z.lor t (sb_at AES_SBOX tmp 8 16) in
      Z.lor t (w32 (Z.shiftl (Z.lxor (look AES_SBOX tmp 16) (nz AES_RCON (i / nk - 1))) 24))
    else if (6 <? nk)%nat && (i mod nk =? 4)%nat then
      let t := look AES_SBOX tmp 0 in
      let t := Z.lor t (sb_at AES_SBOX tmp 8 8) in
      let t := Z.lor t (sb_at AES_SBOX tmp 16 16) in
      Z.lor t (sb_at AES_SBOX tmp 24 24)
    else tmp in
  Z.lxor (nz w (i - nk)) tmp.
(** 464-486: the array is filled from left to right; [w] is the part already written *)
Fixpoint key_fill (nk n : nat) (w : list Z) : list Z :=
  match n with O => w | S n' => key_fill nk n' (w ++ [key_word nk w (length w)]) end.
(** 447-487 *)
Definition aes_enc_key_init (bits : Z) (user_key : list Z) : list Z :=
  let nk := aes_nk bits in
  key_fill nk (4 * (aes_nr bits + 1) - nk) (map (fun i => load32_be (skipn (4 * i) user_key)) (seq 0 nk)).

Definition word4 := (Z * Z * Z * Z)%type.
(** the four words at a pointer *)
Definition rk4 (w : list Z) (i : nat) : word4 := (nz w i, nz w (i + 1), nz w (i + 2), nz w (i + 3)).
Definition list4 (x : word4) : list Z := let '(a, b, c, d) := x in [a; b; c; d].

(** 496-499 *)
Definition inv_mix_word (si : Z) : Z :=
  let o := look TD0 (look AES_SBOX si 24) 0 in
  let o := Z.lxor o (look TD1 (look AES_SBOX si 16) 0) in
  let o := Z.lxor o (look TD2 (look AES_SBOX si 8) 0) in
  Z.lxor o (look TD3 (look AES_SBOX si 0) 0).
(** 489-501 *)
Definition aes_inv_mixcol (x : word4) : word4 :=
  let '(a, b, c, d) := x in (inv_mix_word a, inv_mix_word b, inv_mix_word c, inv_mix_word d).
(** 509-529 *)
Definition aes_dec_key_init (bits : Z) (user_key : list Z) : list Z :=
  let tmp := aes_enc_key_init bits user_key in
  let nr := aes_nr bits in
  list4 (rk4 tmp (4 * nr)) ++
  concat (map (fun i => list4 (aes_inv_mixcol (rk4 tmp (4 * (nr - i))))) (seq 1 (nr - 1))) ++
  list4 (rk4 tmp 0).

Definition xor4 (t rk : word4) : word4 :=
  let '(t0, t1, t2, t3) := t in let '(k0, k1, k2, k3) := rk in
  (Z.lxor t0 k0, Z.lxor t1 k1, Z.lxor t2 k2, Z.lxor t3 k3).
(** TE0[..] ^ TE1[..] ^ TE2[..] ^ TE3[..] *)
Definition tx (T0 T1 T2 T3 : list Z) (a b c d : Z) : Z :=
  let t := look T0 a 24 in
  let t := Z.lxor t (look T1 b 16) in
  let t := Z.lxor t (look T2 c 8) in
  Z.lxor t (look T3 d 0).
(** SBOX[..] << 24 | SBOX[..] << 16 | SBOX[..] << 8 | SBOX[..] << 0 *)
Definition sx (S : list Z) (a b c d : Z) : Z :=
  let t := sb_at S a 24 24 in
  let t := Z.lor t (sb_at S b 16 16) in
  let t := Z.lor t (sb_at S c 8 8) in
  Z.lor t (sb_at S d 0 0).
(** 578-608 *)
Definition aes_enc_round (s rk : word4) : word4 :=
  let '(s0, s1, s2, s3) := s in
  xor4 (tx TE0 TE1 TE2 TE3 s0 s1 s2 s3, tx TE0 TE1 TE2 TE3 s1 s2 s3 s0,
        tx TE0 TE1 TE2 TE3 s2 s3 s0 s1, tx TE0 TE1 TE2 TE3 s3 s0 s1 s2) rk.
(** 615-645 *)
Definition aes_enc_last (s rk : word4) : word4 :=
  let '(s0, s1, s2, s3) := s in
  xor4 (sx AES_SBOX s0 s1 s2 s3, sx AES_SBOX s1 s2 s3 s0, sx AES_SBOX s2 s3 s0 s1, sx AES_SBOX s3 s0 s1 s2) rk.
(** 652-682 *)
Definition aes_dec_round (s rk : word4) : word4 :=
  let '(s0, s1, s2, s3) := s in
  xor4 (tx TD0 TD1 TD2 TD3 s0 s3 s2 s1, tx TD0 TD1 TD2 TD3 s1 s0 s3 s2,
        tx TD0 TD1 TD2 TD3 s2 s1 s0 s3, tx TD0 TD1 TD2 TD3 s3 s2 s1 s0) rk.
(** 689-719 *)
Definition aes_dec_last (s rk : word4) : word4 :=
  let '(s0, s1, s2, s3) := s in
  xor4 (sx AES_INV_SBOX s0 s3 s2 s1, sx AES_INV_SBOX s1 s0 s3 s2,
        sx AES_INV_SBOX s2 s1 s0 s3, sx AES_INV_SBOX s3 s2 s1 s0) rk.
(** 728-783: the two functions differ in the round functions only *)
Definition aes_block (rnd last : word4 -> word4 -> word4) (bits : Z) (w b : list Z) : list Z :=
  let nr := aes_nr bits in
  let s := xor4 (rk4 w 0) (load32_be b, load32_be (skipn 4 b), load32_be (skipn 8 b), load32_be (skipn 12 b)) in
  let s := fold_left (fun s i => rnd s (rk4 w (4 * i))) (seq 1 (nr - 1)) s in
  let '(s0, s1, s2, s3) := last s (rk4 w (4 * nr)) in
  store32_be s0 ++ store32_be s1 ++ store32_be s2 ++ store32_be s3.
Definition aes_enc_block := aes_block aes_enc_round aes_enc_last.
Definition aes_dec_block := aes_block aes_dec_round aes_dec_last.
(** 785-809, and the loops of aes_aesni.cpp 298-315, 337-354, 436-455, 479-498, 586-607, 633-654 *)
Fixpoint each_block (f : list Z -> list Z) (b : list Z) (n : nat) : list Z :=
  match n with O => [] | S n' => f (firstn 16 b) ++ each_block f (skipn 16 b) n' end.

(** aes.h over aes_lut.cpp, for 128, 192 and 256 bits *)
Definition AES_lut (bits : Z) : cipher := {|
  cK := list Z; cBS := 16; cPN := 1;
  c_set_key := fun k enc => if enc : bool then aes_enc_key_init bits k else aes_dec_key_init bits k;
  c_eb := fun w b => aes_enc_block bits w b;
  c_db := fun w b => aes_dec_block bits w b;
  c_ebs := fun w b n => each_block (aes_enc_block bits w) b n;
  c_dbs := fun w b n => each_block (aes_dec_block bits w) b n;
|}.

(** ** src/aes/aes_aesni.cpp.  A __m128i is its 16 bytes in memory order.  The AES instructions are
    defined in the Intel SDM by the transformations of FIPS 197. *)
Definition mm_aesenc (s k : list Z) : list Z := xorl (MixColumns (SubBytes (ShiftRows s))) k.
Definition mm_aesenclast (s k : list Z) : list Z := xorl (SubBytes (ShiftRows s)) k.
Definition mm_aesdec (s k : list Z) : list Z := xorl (InvMixColumns (InvSubBytes (InvShiftRows s))) k.
Definition mm_aesdeclast (s k : list Z) : list Z := xorl (InvSubBytes (InvShiftRows s)) k.
Definition mm_aesimc (s : list Z) : list Z := InvMixColumns s.
(** dword j, most significant last *)
Definition dw (v : list Z) (j : nat) : list Z := slice v (4 * j) 4.
(** _mm_aeskeygenassist_si128: SubWord(X1), RotWord(SubWord(X1)) ^ RCON, SubWord(X3),
    RotWord(SubWord(X3)) ^ RCON; RotWord moves the lowest byte to the top *)
Definition mm_aeskeygenassist (v : list Z) (rcon : Z) : list Z :=
  let s1 := SubWord (dw v 1) in let s3 := SubWord (dw v 3) in
  s1 ++ xorl (RotWord s1) [rcon; 0; 0; 0] ++ s3 ++ xorl (RotWord s3) [rcon; 0; 0; 0].
(** _mm_slli_si128(v, 4), _mm_shuffle_epi32, _mm_shuffle_pd *)
Definition mm_slli4 (v : list Z) : list Z := repeat 0 4 ++ firstn 12 v.
Definition mm_shuffle_epi32 (v : list Z) (imm : nat) : list Z :=
  dw v (imm mod 4) ++ dw v (imm / 4 mod 4) ++ dw v (imm / 16 mod 4) ++ dw v (imm / 64 mod 4).
Definition mm_shuffle_pd (a b : list Z) (imm : nat) : list Z :=
  slice a (8 * (imm mod 2)) 8 ++ slice b (8 * (imm / 2 mod 2)) 8.

(** 22-34 AES_128_ASSIST; also 153-164 KEY_256_ASSIST_1 *)
Definition assist (t1 t2 : list Z) : list Z :=
  let t2 := mm_shuffle_epi32 t2 0xff in
  let t3 := mm_slli4 t1 in
  let t1 := xorl t1 t3 in
  let t3 := mm_slli4 t3 in
  let t1 := xorl t1 t3 in
  let t3 := mm_slli4 t3 in
  let t1 := xorl t1 t3 in
  xorl t1 t2.
(** 40-78 AES_128_Key_Expansion; the code has the ten steps written out *)
Fixpoint exp128 (t1 : list Z) (rcons : list Z) : list (list Z) :=
  match rcons with
  | [] => []
  | rc :: r => let t1 := assist t1 (mm_aeskeygenassist t1 rc) in t1 :: exp128 t1 r
  end.
Definition key_expansion_128 (userkey : list Z) : list (list Z) :=
  userkey :: exp128 userkey [0x1; 0x2; 0x4; 0x8; 0x10; 0x20; 0x40; 0x80; 0x1b; 0x36].

(** 84-101 KEY_192_ASSIST *)
Definition assist192 (t1 t2 t3 : list Z) : list Z * list Z :=
  let t2 := mm_shuffle_epi32 t2 0x55 in
  let t4 := mm_slli4 t1 in
  let t1 := xorl t1 t4 in
  let t4 := mm_slli4 t4 in
  let t1 := xorl t1 t4 in
  let t4 := mm_slli4 t4 in
  let t1 := xorl t1 t4 in
  let t1 := xorl t1 t2 in
  let t2 := mm_shuffle_epi32 t1 0xff in
  let t4 := mm_slli4 t3 in
  let t3 := xorl t3 t4 in
  let t3 := xorl t3 t2 in
  (t1, t3).
(** 107-147 AES_192_Key_Expansion, two steps at a time; the code has the eight steps written out.
    Key_Schedule[1], [4], [7], [10] are first temp3 and then replaced. *)
Fixpoint exp192 (t1 t3 : list Z) (rcons : list (Z * Z)) : list (list Z) :=
  match rcons with
  | [] => []
  | (rc, rc') :: r =>
      let ks := t3 in
      let '(t1, t3) := assist192 t1 (mm_aeskeygenassist t3 rc) t3 in
      let ks1 := mm_shuffle_pd ks t1 0 in
      let ks2 := mm_shuffle_pd t1 t3 1 in
      let '(t1, t3) := assist192 t1 (mm_aeskeygenassist t3 rc') t3 in
      ks1 :: ks2 :: t1 :: exp192 t1 t3 r
  end.
(** The load at 113 reads 16 bytes at userkey + 16: [over] is what lies behind the 24-byte key. *)
Definition key_expansion_192 (over userkey : list Z) : list (list Z) :=
  firstn 16 userkey :: exp192 (firstn 16 userkey) (skipn 16 userkey ++ over)
    [(0x1, 0x2); (0x4, 0x8); (0x10, 0x20); (0x40, 0x80)].

(** 170-182 KEY_256_ASSIST_2 *)
Definition assist256_2 (t1 t3 : list Z) : list Z :=
  let t4 := mm_aeskeygenassist t1 0 in
  let t2 := mm_shuffle_epi32 t4 0xaa in
  let t4 := mm_slli4 t3 in
  let t3 := xorl t3 t4 in
  let t4 := mm_slli4 t4 in
  let t3 := xorl t3 t4 in
  let t4 := mm_slli4 t4 in
  let t3 := xorl t3 t4 in
  xorl t3 t2.
(** 188-228 AES_256_Key_Expansion; the code has the steps written out *)
Fixpoint exp256 (t1 t3 : list Z) (rcons : list Z) : list (list Z) :=
  match rcons with
  | [] => []
  | [rc] => [assist t1 (mm_aeskeygenassist t3 rc)]
  | rc :: r =>
      let t1 := assist t1 (mm_aeskeygenassist t3 rc) in
      let t3 := assist256_2 t1 t3 in
      t1 :: t3 :: exp256 t1 t3 r
  end.
Definition key_expansion_256 (userkey : list Z) : list (list Z) :=
  firstn 16 userkey :: skipn 16 userkey ::
  exp256 (firstn 16 userkey) (skipn 16 userkey) [0x01; 0x02; 0x04; 0x08; 0x10; 0x20; 0x40].

(** 243-277, 375-413, 519-561: round_key[] of the context.  Decryption: reversed, with aesimc on all
    but the first and the last. *)
Definition dec_keys (rk : list (list Z)) : list (list Z) :=
  match rev rk with
  | [] => []
  | k :: r => k :: map mm_aesimc (firstn (length r - 1) r) ++ skipn (length r - 1) r
  end.
(** 279-373, 415-515, 563-669: one block, with the instruction sequence as a fold over round_key *)
Definition m128 (l : list Z) : list Z := firstn 16 (l ++ repeat 0 16).  (* a register holds 16 bytes *)
Definition ni_block (rnd last : list Z -> list Z -> list Z) (nr : nat) (rk : list (list Z)) (b : list Z) : list Z :=
  let s := xorl (m128 b) (m128 (nth 0 rk [])) in
  let s := fold_left (fun s i => rnd s (m128 (nth i rk []))) (seq 1 (nr - 1)) s in
  last s (m128 (nth nr rk [])).
Definition ni_enc_block := ni_block mm_aesenc mm_aesenclast.
Definition ni_dec_block := ni_block mm_aesdec mm_aesdeclast.

(** aes.h over aes_aesni.cpp (CPU_FLAG_AES and CPU_FLAG_SSE2 set) *)
Definition AES_ni (bits : Z) (over : list Z) : cipher := {|
  cK := list (list Z); cBS := 16; cPN := 1;
  c_set_key := fun k enc =>
    let rk := if bits =? 128 then key_expansion_128 k
              else if bits =? 192 then key_expansion_192 over k else key_expansion_256 k in
    if enc : bool then rk else dec_keys rk;
  c_eb := fun rk b => ni_enc_block (aes_nr bits) rk b;
  c_db := fun rk b => ni_dec_block (aes_nr bits) rk b;
  c_ebs := fun rk b n => each_block (ni_enc_block (aes_nr bits) rk) b n;
  c_dbs := fun rk b n => each_block (ni_dec_block (aes_nr bits) rk) b n;
|}.

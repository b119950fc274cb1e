(** Model of include/gmlib/memory_utils/endian.h (portable branches, i.e. CPU_FLAG_MOVBE unset).
    The MOVBE branches are hardware loads/stores with bswap and are not modelled. *)
From Verif Require Import Base.

(** endian.h 27-30, 70-73 load8_le / load8_be *)
Definition load8 (s : list Z) : Z := nz s 0.

(** endian.h 32-40 load16_le *)
Definition load16_le (s : list Z) : Z := Z.lor (w16 (Z.shiftl (nz s 1) 8)) (nz s 0).

(** endian.h 42-52 load32_le *)
Definition load32_le (s : list Z) : Z :=
  Z.lor (Z.lor (Z.lor (w32 (Z.shiftl (nz s 3) 24)) (w32 (Z.shiftl (nz s 2) 16)))
               (w32 (Z.shiftl (nz s 1) 8))) (nz s 0).

(** endian.h 54-68 load64_le *)
Definition load64_le (s : list Z) : Z :=
  Z.lor (Z.lor (Z.lor (Z.lor (Z.lor (Z.lor (Z.lor
    (w64 (Z.shiftl (nz s 7) 56)) (w64 (Z.shiftl (nz s 6) 48)))
    (w64 (Z.shiftl (nz s 5) 40))) (w64 (Z.shiftl (nz s 4) 32)))
    (w64 (Z.shiftl (nz s 3) 24))) (w64 (Z.shiftl (nz s 2) 16)))
    (w64 (Z.shiftl (nz s 1) 8))) (nz s 0).

(** endian.h 75-83 load16_be *)
Definition load16_be (s : list Z) : Z := Z.lor (w16 (Z.shiftl (nz s 0) 8)) (nz s 1).

(** endian.h 85-95 load32_be; the same expression is the macro MEM_LOAD32BE of
    src/sm3/sm3_common.cpp 7-11, src/sm3/sm3_yang15.cpp 8-12 and the SM4/AES sources. *)
Definition load32_be (s : list Z) : Z :=
  Z.lor (Z.lor (Z.lor (w32 (Z.shiftl (nz s 0) 24)) (w32 (Z.shiftl (nz s 1) 16)))
               (w32 (Z.shiftl (nz s 2) 8))) (nz s 3).

(** endian.h 97-111 load64_be *)
Definition load64_be (s : list Z) : Z :=
  Z.lor (Z.lor (Z.lor (Z.lor (Z.lor (Z.lor (Z.lor
    (w64 (Z.shiftl (nz s 0) 56)) (w64 (Z.shiftl (nz s 1) 48)))
    (w64 (Z.shiftl (nz s 2) 40))) (w64 (Z.shiftl (nz s 3) 32)))
    (w64 (Z.shiftl (nz s 4) 24))) (w64 (Z.shiftl (nz s 5) 16)))
    (w64 (Z.shiftl (nz s 6) 8))) (nz s 7).

(** [(n >> k) & 0xFF], the expression in every store function. *)
Definition byte_at (n k : Z) : Z := Z.land (Z.shiftr n k) 255.

(** endian.h 118-127 store16_le *)
Definition store16_le (n : Z) : list Z := [Z.land n 255; byte_at n 8].
(** endian.h 129-140 store32_le *)
Definition store32_le (n : Z) : list Z := [Z.land n 255; byte_at n 8; byte_at n 16; byte_at n 24].
(** endian.h 142-157 store64_le *)
Definition store64_le (n : Z) : list Z :=
  [Z.land n 255; byte_at n 8; byte_at n 16; byte_at n 24;
   byte_at n 32; byte_at n 40; byte_at n 48; byte_at n 56].
(** endian.h 164-173 store16_be *)
Definition store16_be (n : Z) : list Z := [byte_at n 8; byte_at n 0].
(** endian.h 175-186 store32_be; also MEM_STORE32BE of the SM3/SM4/AES sources *)
Definition store32_be (n : Z) : list Z := [byte_at n 24; byte_at n 16; byte_at n 8; byte_at n 0].
(** endian.h 188-203 store64_be; also MEM_STORE64BE of the SM3/GHASH sources *)
Definition store64_be (n : Z) : list Z :=
  [byte_at n 56; byte_at n 48; byte_at n 40; byte_at n 32;
   byte_at n 24; byte_at n 16; byte_at n 8; byte_at n 0].

(** Model of SM9: src/sm9/sm9_field.cpp, include/gmlib/sm9/internal/sm9_alg.h and
    include/gmlib/sm9/sm9.h (class templates over a Hash type).  Curve formulas are in ModelEC.

    Values: an element of F_p is an array of limbs; of F_p^2 a pair (a[0], a[1]) standing for
    a[0] + a[1] u; of F_p^4 a pair (a[0], a[1]) standing for a[0] + a[1] v; of F_p^12 a triple
    standing for a[0] + a[1] w + a[2] w^2.  Calls in place (r == a or r == b) are modelled by the
    functional result: in every function below the inputs are read before the first write to an
    output that could alias them (temporaries are used for the rest); ModelAliasF.v has the bodies on
    memory and C72 proves that they give these results. *)
From Verif Require Import Base ModelEndian ModelNumber ModelNumberX64 ModelMont ModelEC ModelSM2.

(** ** Constants *)
(** sm9_field.cpp 7-11 *)
Definition SM9_CURVE_P : list Z :=
  [0xb6; 0x40; 0x00; 0x00; 0x02; 0xa3; 0xa6; 0xf1; 0xd6; 0x03; 0xab; 0x4f; 0xf5; 0x8e; 0xc7; 0x45;
   0x21; 0xf2; 0x93; 0x4b; 0x1a; 0x7a; 0xee; 0xdb; 0xe5; 0x6f; 0x9b; 0x27; 0xe3; 0x51; 0x45; 0x7d].
(** sm9_field.cpp 19-23 *)
Definition SM9_CURVE_B : list Z :=
  [0x00; 0x00; 0x00; 0x00; 0x00; 0x00; 0x00; 0x00; 0x00; 0x00; 0x00; 0x00; 0x00; 0x00; 0x00; 0x00;
   0x00; 0x00; 0x00; 0x00; 0x00; 0x00; 0x00; 0x00; 0x00; 0x00; 0x00; 0x00; 0x00; 0x00; 0x00; 0x05].
(** sm9_field.cpp 25-29 *)
Definition SM9_CURVE_N : list Z :=
  [0xb6; 0x40; 0x00; 0x00; 0x02; 0xa3; 0xa6; 0xf1; 0xd6; 0x03; 0xab; 0x4f; 0xf5; 0x8e; 0xc7; 0x44;
   0x49; 0xf2; 0x93; 0x4b; 0x18; 0xea; 0x8b; 0xee; 0xe5; 0x6e; 0xe1; 0x9c; 0xd6; 0x9e; 0xcf; 0x25].
(** sm9_field.cpp 31-35 *)
Definition SM9_CURVE_GX : list Z :=
  [0x93; 0xde; 0x05; 0x1d; 0x62; 0xbf; 0x71; 0x8f; 0xf5; 0xed; 0x07; 0x04; 0x48; 0x7d; 0x01; 0xd6;
   0xe1; 0xe4; 0x08; 0x69; 0x09; 0xdc; 0x32; 0x80; 0xe8; 0xc4; 0xe4; 0x81; 0x7c; 0x66; 0xdd; 0xdd].
(** sm9_field.cpp 37-41 *)
Definition SM9_CURVE_GY : list Z :=
  [0x21; 0xfe; 0x8d; 0xda; 0x4f; 0x21; 0xe6; 0x07; 0x63; 0x10; 0x65; 0x12; 0x5c; 0x39; 0x5b; 0xbc;
   0x1c; 0x1c; 0x00; 0xcb; 0xfa; 0x60; 0x24; 0x35; 0x0c; 0x46; 0x4c; 0xd7; 0x0a; 0x3e; 0xa6; 0x16].
(** sm9_field.cpp 45-52 *)
Definition SM9_CURVE2_GX : list Z :=
  [0x85; 0xae; 0xf3; 0xd0; 0x78; 0x64; 0x0c; 0x98; 0x59; 0x7b; 0x60; 0x27; 0xb4; 0x41; 0xa0; 0x1f;
   0xf1; 0xdd; 0x2c; 0x19; 0x0f; 0x5e; 0x93; 0xc4; 0x54; 0x80; 0x6c; 0x11; 0xd8; 0x80; 0x61; 0x41;
   0x37; 0x22; 0x75; 0x52; 0x92; 0x13; 0x0b; 0x08; 0xd2; 0xaa; 0xb9; 0x7f; 0xd3; 0x4e; 0xc1; 0x20;
   0xee; 0x26; 0x59; 0x48; 0xd1; 0x9c; 0x17; 0xab; 0xf9; 0xb7; 0x21; 0x3b; 0xaf; 0x82; 0xd6; 0x5b].
(** sm9_field.cpp 56-63 *)
Definition SM9_CURVE2_GY : list Z :=
  [0x17; 0x50; 0x9b; 0x09; 0x2e; 0x84; 0x5c; 0x12; 0x66; 0xba; 0x0d; 0x26; 0x2c; 0xbe; 0xe6; 0xed;
   0x07; 0x36; 0xa9; 0x6f; 0xa3; 0x47; 0xc8; 0xbd; 0x85; 0x6d; 0xc7; 0x6b; 0x84; 0xeb; 0xeb; 0x96;
   0xa7; 0xcf; 0x28; 0xd5; 0x19; 0xbe; 0x3d; 0xa6; 0x5f; 0x31; 0x70; 0x15; 0x3d; 0x27; 0x8f; 0xf2;
   0x47; 0xef; 0xba; 0x98; 0xa7; 0x1a; 0x08; 0x11; 0x62; 0x15; 0xbb; 0xa5; 0xc9; 0x99; 0xa7; 0xc7].
(** sm9_field.cpp 65-68 *)
Definition P9_DATA : list Z :=
  [0xb6; 0x40; 0x00; 0x00; 0x02; 0xa3; 0xa6; 0xf1; 0xd6; 0x03; 0xab; 0x4f; 0xf5; 0x8e; 0xc7; 0x45;
   0x21; 0xf2; 0x93; 0x4b; 0x1a; 0x7a; 0xee; 0xdb; 0xe5; 0x6f; 0x9b; 0x27; 0xe3; 0x51; 0x45; 0x7d].
(** sm9_field.cpp 70-73 *)
Definition P9_SUB2_DATA : list Z :=
  [0xb6; 0x40; 0x00; 0x00; 0x02; 0xa3; 0xa6; 0xf1; 0xd6; 0x03; 0xab; 0x4f; 0xf5; 0x8e; 0xc7; 0x45;
   0x21; 0xf2; 0x93; 0x4b; 0x1a; 0x7a; 0xee; 0xdb; 0xe5; 0x6f; 0x9b; 0x27; 0xe3; 0x51; 0x45; 0x7b].
(** sm9_field.cpp 75-78 *)
Definition FP9_R_DATA : list Z :=
  [0x49; 0xbf; 0xff; 0xff; 0xfd; 0x5c; 0x59; 0x0e; 0x29; 0xfc; 0x54; 0xb0; 0x0a; 0x71; 0x38; 0xba;
   0xde; 0x0d; 0x6c; 0xb4; 0xe5; 0x85; 0x11; 0x24; 0x1a; 0x90; 0x64; 0xd8; 0x1c; 0xae; 0xba; 0x83].
(** sm9_field.cpp 80-83 *)
Definition FP9_R_POW2_DATA : list Z :=
  [0x2e; 0xa7; 0x95; 0xa6; 0x56; 0xf6; 0x2f; 0xbd; 0xe4; 0x79; 0xb5; 0x22; 0xd6; 0x70; 0x6e; 0x7b;
   0x88; 0xf8; 0x10; 0x5f; 0xae; 0x1a; 0x5d; 0x3f; 0x27; 0xde; 0xa3; 0x12; 0xb4; 0x17; 0xe2; 0xd2].
(** sm9_field.cpp 91-94 *)
Definition N9_DATA : list Z :=
  [0xb6; 0x40; 0x00; 0x00; 0x02; 0xa3; 0xa6; 0xf1; 0xd6; 0x03; 0xab; 0x4f; 0xf5; 0x8e; 0xc7; 0x44;
   0x49; 0xf2; 0x93; 0x4b; 0x18; 0xea; 0x8b; 0xee; 0xe5; 0x6e; 0xe1; 0x9c; 0xd6; 0x9e; 0xcf; 0x25].
(** sm9_field.cpp 96-99 *)
Definition N9_SUB2_DATA : list Z :=
  [0xb6; 0x40; 0x00; 0x00; 0x02; 0xa3; 0xa6; 0xf1; 0xd6; 0x03; 0xab; 0x4f; 0xf5; 0x8e; 0xc7; 0x44;
   0x49; 0xf2; 0x93; 0x4b; 0x18; 0xea; 0x8b; 0xee; 0xe5; 0x6e; 0xe1; 0x9c; 0xd6; 0x9e; 0xcf; 0x23].
(** sm9_field.cpp 106-109 *)
Definition FN9_R_DATA : list Z :=
  [0x49; 0xbf; 0xff; 0xff; 0xfd; 0x5c; 0x59; 0x0e; 0x29; 0xfc; 0x54; 0xb0; 0x0a; 0x71; 0x38; 0xbb;
   0xb6; 0x0d; 0x6c; 0xb4; 0xe7; 0x15; 0x74; 0x11; 0x1a; 0x91; 0x1e; 0x63; 0x29; 0x61; 0x30; 0xdb].
(** sm9_field.cpp 111-114 *)
Definition FN9_R_POW2_DATA : list Z :=
  [0x88; 0x94; 0xf5; 0xd1; 0x63; 0x69; 0x5d; 0x0e; 0xbf; 0xee; 0x4b; 0xae; 0x7d; 0x78; 0xa1; 0xf9;
   0xe4; 0xa0; 0x81; 0x10; 0xbb; 0x6d; 0xae; 0xab; 0x75; 0x98; 0xcd; 0x79; 0xcd; 0x75; 0x0c; 0x35].
(** sm9_field.cpp 326-329 *)
Definition U_ADD1 : list Z :=
  [0x16; 0xc8; 0x00; 0x00; 0x00; 0x54; 0x74; 0xde; 0x3a; 0xc0; 0x75; 0x69; 0xfe; 0xb1; 0xd8; 0xe8;
   0xa4; 0x3e; 0x52; 0x69; 0x63; 0x4f; 0x5d; 0xdb; 0x7c; 0xad; 0xf3; 0x64; 0xfc; 0x6a; 0x28; 0xb0].
(** sm9_field.cpp 330-333 *)
Definition U_MUL2_ADD1 : list Z :=
  [0x2d; 0x90; 0x00; 0x00; 0x00; 0xa8; 0xe9; 0xbc; 0x75; 0x80; 0xea; 0xd3; 0xfd; 0x63; 0xb1; 0xd1;
   0x48; 0x7c; 0xa4; 0xd2; 0xc6; 0x9e; 0xbb; 0xb6; 0xf9; 0x5b; 0xe6; 0xc9; 0xf8; 0xd4; 0x51; 0x5f].
(** sm9_field.cpp 334-338 *)
Definition TWO_POW_2U1_DATA : list Z :=
  [0x49; 0xdb; 0x72; 0x1a; 0x26; 0x99; 0x67; 0xc4; 0xe0; 0xa8; 0xde; 0xbc; 0x07; 0x83; 0x18; 0x2f;
   0x82; 0x55; 0x52; 0x33; 0x13; 0x9e; 0x9d; 0x63; 0xef; 0xbd; 0x7b; 0x54; 0x09; 0x2c; 0x75; 0x6c].
(** sm9_field.cpp 2078-2082 *)
Definition SM9_ALPHA1_DATA : list Z :=
  [0x3f; 0x23; 0xea; 0x58; 0xe5; 0x72; 0x0b; 0xdb; 0x84; 0x3c; 0x6c; 0xfa; 0x9c; 0x08; 0x67; 0x49;
   0x47; 0xc5; 0xc8; 0x6e; 0x0d; 0xdd; 0x04; 0xed; 0xa9; 0x1d; 0x83; 0x54; 0x37; 0x7b; 0x69; 0x8b].
(** sm9_field.cpp 2084-2088 *)
Definition SM9_ALPHA2_DATA : list Z :=
  [0x00; 0x00; 0x00; 0x00; 0x00; 0x00; 0x00; 0x00; 0xf3; 0x00; 0x00; 0x00; 0x02; 0xa3; 0xa6; 0xf2;
   0x78; 0x02; 0x72; 0x35; 0x4f; 0x8b; 0x78; 0xf4; 0xd5; 0xfc; 0x11; 0x96; 0x7b; 0xe6; 0x53; 0x34].
(** sm9_field.cpp 2090-2094 *)
Definition SM9_ALPHA3_DATA : list Z :=
  [0x6c; 0x64; 0x8d; 0xe5; 0xdc; 0x0a; 0x3f; 0x2c; 0xf5; 0x5a; 0xcc; 0x93; 0xee; 0x0b; 0xaf; 0x15;
   0x9f; 0x9d; 0x41; 0x18; 0x06; 0xdc; 0x51; 0x77; 0xf5; 0xb2; 0x1f; 0xd3; 0xda; 0x24; 0xd0; 0x11].
(** sm9_field.cpp 2096-2100 *)
Definition SM9_ALPHA4_DATA : list Z :=
  [0x00; 0x00; 0x00; 0x00; 0x00; 0x00; 0x00; 0x00; 0xf3; 0x00; 0x00; 0x00; 0x02; 0xa3; 0xa6; 0xf2;
   0x78; 0x02; 0x72; 0x35; 0x4f; 0x8b; 0x78; 0xf4; 0xd5; 0xfc; 0x11; 0x96; 0x7b; 0xe6; 0x53; 0x33].
(** sm9_field.cpp 2102-2106 *)
Definition SM9_ALPHA5_DATA : list Z :=
  [0x2d; 0x40; 0xa3; 0x8c; 0xf6; 0x98; 0x33; 0x51; 0x71; 0x1e; 0x5f; 0x99; 0x52; 0x03; 0x47; 0xcc;
   0x57; 0xd7; 0x78; 0xa9; 0xf8; 0xff; 0x4c; 0x8a; 0x4c; 0x94; 0x9c; 0x7f; 0xa2; 0xa9; 0x66; 0x86].
(** sm9_field.cpp 2072-2076 *)
Definition SM9_BETA_DATA : list Z :=
  [0x6c; 0x64; 0x8d; 0xe5; 0xdc; 0x0a; 0x3f; 0x2c; 0xf5; 0x5a; 0xcc; 0x93; 0xee; 0x0b; 0xaf; 0x15;
   0x9f; 0x9d; 0x41; 0x18; 0x06; 0xdc; 0x51; 0x77; 0xf5; 0xb2; 0x1f; 0xd3; 0xda; 0x24; 0xd0; 0x11].
(** sm9_field.cpp 2219-2223 *)
Definition FE_A2 : list Z :=
  [0x00; 0x00; 0x00; 0x00; 0x00; 0x00; 0x00; 0x00; 0x00; 0x00; 0x00; 0x00; 0x00; 0x00; 0x00; 0x00;
   0xd8; 0x00; 0x00; 0x00; 0x01; 0x90; 0x62; 0xed; 0x00; 0x00; 0xb9; 0x8b; 0x0c; 0xb2; 0x76; 0x59].
(** sm9_field.cpp 2224-2228 *)
Definition FE_A3 : list Z :=
  [0x00; 0x00; 0x00; 0x00; 0x00; 0x00; 0x00; 0x00; 0x00; 0x00; 0x00; 0x00; 0x00; 0x00; 0x00; 0x00;
   0x00; 0x00; 0x00; 0x00; 0x00; 0x00; 0x00; 0x02; 0x40; 0x00; 0x00; 0x00; 0x02; 0x15; 0xd9; 0x41].
(** sm9_field.cpp 1835-1839 *)
Definition FROB_C : list Z :=
  [0x3f; 0x23; 0xea; 0x58; 0xe5; 0x72; 0x0b; 0xdb; 0x84; 0x3c; 0x6c; 0xfa; 0x9c; 0x08; 0x67; 0x49;
   0x47; 0xc5; 0xc8; 0x6e; 0x0d; 0xdd; 0x04; 0xed; 0xa9; 0x1d; 0x83; 0x54; 0x37; 0x7b; 0x69; 0x8b].
(** sm9_field.cpp 1850-1854 *)
Definition FROB2_C : list Z :=
  [0x00; 0x00; 0x00; 0x00; 0x00; 0x00; 0x00; 0x00; 0xf3; 0x00; 0x00; 0x00; 0x02; 0xa3; 0xa6; 0xf2;
   0x78; 0x02; 0x72; 0x35; 0x4f; 0x8b; 0x78; 0xf4; 0xd5; 0xfc; 0x11; 0x96; 0x7b; 0xe6; 0x53; 0x34].

(** sm9_field.cpp 2283-2285: the digits of naf_a, most significant first ('2' stands for -1) *)
Definition NAF_A : list Z :=
  [1; 0; 0; 1; 0; 0; 0; 0; 0; 0; 0; 0; 0; 0; 0; 0; 0; 0; 0; 0; 0; 0; 0; 0; 0; 0; 0; 0; 0; 0; 0; 0;
   0; 0; 0; 0; 0; 0; 0; 0; 1; 0; 0; 0; 0; 1; 0; 1; 1; 0; 0; 0; 2; 0; 2; 0; 0; 1; 0; 1; 0; 0; 0; 0;
   2; 0].

(** The two further number library functions SM9 uses: uint256_sub_borrow_uint32 and uint256_mod. *)
Record numlib9 := MkLib9 {
  l9 : numlib;
  l9_sub32 : list Z -> Z -> list Z * Z;
  l9_mod : list Z -> list Z -> option (list Z)
}.
Definition lib9_common : numlib9 := MkLib9 lib_common uint256_sub_borrow_uint32 uint256_mod.
(** include/gmlib/number/uint256.h 20-25 forwards to the 64-bit function *)
Definition lib9_x64 : numlib9 := MkLib9 lib_x64 x64_sub_borrow_uint64 x64_mod.

(** include/gmlib/sm9/internal/sm9_field.h: fp2, fp4 and fp12 values over a type of base field values *)
Definition p2 (T : Type) : Type := (T * T)%type.
Definition p4 (T : Type) : Type := (p2 T * p2 T)%type.
Definition p12 (T : Type) : Type := (p4 T * p4 T * p4 T)%type.

(** ** The tower (sm9_field.cpp 462-974, 1821-2212; line numbers below are of that file), over the functions of the base field *)
Section Tower.
  Context {T : Type} (Op : fops T).
  Notation add := (o_add Op). Notation sub := (o_sub Op). Notation mul := (o_mul Op).
  Notation sqr := (o_sqr Op). Notation dbl := (o_dbl Op). Notation tpl := (o_tpl Op).
  Notation neg := (o_neg Op). Notation inv := (o_inv Op).

  (** 480-483 *)
  Definition fp2_equal (a b : p2 T) : bool :=
    o_eq Op (fst a) (fst b) && o_eq Op (snd a) (snd b).
  (** 485-488 *)
  Definition fp2_equal_zero (a : p2 T) : bool := o_is0 Op (fst a) && o_is0 Op (snd a).
  (** 495-499 *)
  Definition fp2_zero : p2 T := (o_zero Op, o_zero Op).
  (** 501-505 *)
  Definition fp2_one : p2 T := (o_one Op, o_zero Op).
  (** 507-511 *)
  Definition fp2_add (a b : p2 T) : p2 T := (add (fst a) (fst b), add (snd a) (snd b)).
  (** 513-517 *)
  Definition fp2_dbl (a : p2 T) : p2 T := (dbl (fst a), dbl (snd a)).
  (** 519-523 *)
  Definition fp2_tpl (a : p2 T) : p2 T := (tpl (fst a), tpl (snd a)).
  (** 525-529 *)
  Definition fp2_neg (a : p2 T) : p2 T := (neg (fst a), neg (snd a)).
  (** 531-535 *)
  Definition fp2_sub (a b : p2 T) : p2 T := (sub (fst a) (fst b), sub (snd a) (snd b)).
  (** 537-553 *)
  Definition fp2_mul (a b : p2 T) : p2 T :=
    let '(a0, a1) := a in
    let '(b0, b1) := b in
    let a0b0 := mul a0 b0 in
    let a1b1 := mul a1 b1 in
    let t := add a0 a1 in
    let r1 := add b0 b1 in
    let r1 := mul t r1 in
    let r1 := sub r1 a0b0 in
    let r1 := sub r1 a1b1 in
    let t := dbl a1b1 in
    (sub a0b0 t, r1).
  (** 555-562 *)
  Definition fp2_mul_u (a : p2 T) : p2 T :=
    let '(a0, a1) := a in
    let t := dbl a1 in (neg t, a0).
  (** 564-568 *)
  Definition fp2_mul_fp (a : p2 T) (b : T) : p2 T := (mul (fst a) b, mul (snd a) b).
  (** 570-584 *)
  Definition fp2_sqr (a : p2 T) : p2 T :=
    let '(a0, a1) := a in
    let a0a0 := sqr a0 in
    let a1a1 := sqr a1 in
    let r1 := add a0 a1 in
    let r1 := sqr r1 in
    let r1 := sub r1 a0a0 in
    let r1 := sub r1 a1a1 in
    let a1a1 := dbl a1a1 in
    (sub a0a0 a1a1, r1).
  (** 586-600 *)
  Definition fp2_inv (a : p2 T) : p2 T :=
    let '(a0, a1) := a in
    let t0 := sqr a0 in
    let t1 := sqr a1 in
    let t1 := dbl t1 in
    let t0 := add t0 t1 in
    let t0 := inv t0 in
    let r0 := mul a0 t0 in
    let r1 := mul a1 t0 in
    let r1 := neg r1 in
    (r0, r1).
  (** the F_p^2 functions as the G2 formulas use them *)
  Definition fp2_ops : fops (p2 T) :=
    MkOps (p2 T) fp2_add fp2_sub fp2_mul fp2_sqr fp2_dbl fp2_tpl fp2_neg fp2_inv fp2_equal
      fp2_equal_zero fp2_zero fp2_one.

  (** 629-632 *)
  Definition fp4_equal_zero (a : p4 T) : bool := fp2_equal_zero (fst a) && fp2_equal_zero (snd a).
  (** 639-643 *)
  Definition fp4_zero : p4 T := (fp2_zero, fp2_zero).
  (** 645-649 *)
  Definition fp4_one : p4 T := (fp2_one, fp2_zero).
  (** 651-655 *)
  Definition fp4_add (a b : p4 T) : p4 T := (fp2_add (fst a) (fst b), fp2_add (snd a) (snd b)).
  (** 657-661 *)
  Definition fp4_neg (a : p4 T) : p4 T := (fp2_neg (fst a), fp2_neg (snd a)).
  (** 663-667 *)
  Definition fp4_sub (a b : p4 T) : p4 T := (fp2_sub (fst a) (fst b), fp2_sub (snd a) (snd b)).
  (** 669-685 *)
  Definition fp4_mul (a b : p4 T) : p4 T :=
    let '(a0, a1) := a in
    let '(b0, b1) := b in
    let a0b0 := fp2_mul a0 b0 in
    let a1b1 := fp2_mul a1 b1 in
    let t := fp2_add a0 a1 in
    let r1 := fp2_add b0 b1 in
    let r1 := fp2_mul t r1 in
    let r1 := fp2_sub r1 a0b0 in
    let r1 := fp2_sub r1 a1b1 in
    let t := fp2_mul_u a1b1 in
    (fp2_add a0b0 t, r1).
  (** 687-694 *)
  Definition fp4_mul_v (a : p4 T) : p4 T :=
    let '(a0, a1) := a in
    let t := fp2_mul_u a1 in (t, a0).
  (** 696-702 *)
  Definition fp4_mul_fp (a : p4 T) (b : T) : p4 T := (fp2_mul_fp (fst a) b, fp2_mul_fp (snd a) b).
  (** 710-724 *)
  Definition fp4_sqr (a : p4 T) : p4 T :=
    let '(a0, a1) := a in
    let a0a0 := fp2_sqr a0 in
    let a1a1 := fp2_sqr a1 in
    let r1 := fp2_add a0 a1 in
    let r1 := fp2_sqr r1 in
    let r1 := fp2_sub r1 a0a0 in
    let r1 := fp2_sub r1 a1a1 in
    let a1a1 := fp2_mul_u a1a1 in
    (fp2_add a0a0 a1a1, r1).
  (** 726-740 *)
  Definition fp4_inv (a : p4 T) : p4 T :=
    let '(a0, a1) := a in
    let t0 := fp2_sqr a0 in
    let t1 := fp2_sqr a1 in
    let t1 := fp2_mul_u t1 in
    let t0 := fp2_sub t0 t1 in
    let t0 := fp2_inv t0 in
    let r0 := fp2_mul a0 t0 in
    let r1 := fp2_mul a1 t0 in
    let r1 := fp2_neg r1 in
    (r0, r1).

  (** 773-777 *)
  Definition fp12_equal_zero (a : p12 T) : bool :=
    let '(a0, a1, a2) := a in fp4_equal_zero a0 && fp4_equal_zero a1 && fp4_equal_zero a2.
  (** 785-790 *)
  Definition fp12_zero : p12 T := (fp4_zero, fp4_zero, fp4_zero).
  (** 792-797 *)
  Definition fp12_one : p12 T := (fp4_one, fp4_zero, fp4_zero).
  (** 799-804 *)
  Definition fp12_add (a b : p12 T) : p12 T :=
    let '(a0, a1, a2) := a in
    let '(b0, b1, b2) := b in (fp4_add a0 b0, fp4_add a1 b1, fp4_add a2 b2).
  (** 806-811 *)
  Definition fp12_neg (a : p12 T) : p12 T :=
    let '(a0, a1, a2) := a in (fp4_neg a0, fp4_neg a1, fp4_neg a2).
  (** 812-817 *)
  Definition fp12_sub (a b : p12 T) : p12 T :=
    let '(a0, a1, a2) := a in
    let '(b0, b1, b2) := b in (fp4_sub a0 b0, fp4_sub a1 b1, fp4_sub a2 b2).
  (** 819-858 *)
  Definition fp12_mul (a b : p12 T) : p12 T :=
    let '(a0, a1, a2) := a in
    let '(b0, b1, b2) := b in
    let a0b0 := fp4_mul a0 b0 in
    let a1b1 := fp4_mul a1 b1 in
    let a2b2 := fp4_mul a2 b2 in
    let a1_add_a2 := fp4_add a1 a2 in
    let a0_add_a1 := fp4_add a0 a1 in
    let a0_add_a2 := fp4_add a0 a2 in
    let b1_add_b2 := fp4_add b1 b2 in
    let b0_add_b1 := fp4_add b0 b1 in
    let b0_add_b2 := fp4_add b0 b2 in
    let r0 := fp4_mul a1_add_a2 b1_add_b2 in
    let r0 := fp4_sub r0 a1b1 in
    let r0 := fp4_sub r0 a2b2 in
    let r0 := fp4_mul_v r0 in
    let r0 := fp4_add r0 a0b0 in
    let r2 := fp4_mul a0_add_a2 b0_add_b2 in
    let r2 := fp4_sub r2 a0b0 in
    let r2 := fp4_sub r2 a2b2 in
    let r2 := fp4_add r2 a1b1 in
    let r1 := fp4_mul a0_add_a1 b0_add_b1 in
    let r1 := fp4_sub r1 a0b0 in
    let r1 := fp4_sub r1 a1b1 in
    let a2b2 := fp4_mul_v a2b2 in
    let r1 := fp4_add r1 a2b2 in
    (r0, r1, r2).
  (** 869-872 *)
  Definition fp12_sqr (a : p12 T) : p12 T := fp12_mul a a.
  (** 874-908 *)
  Definition fp12_inv (a : p12 T) : p12 T :=
    let '(a0, a1, a2) := a in
    let A := fp4_sqr a0 in
    let t0 := fp4_mul a1 a2 in
    let t0 := fp4_mul_v t0 in
    let A := fp4_sub A t0 in
    let B := fp4_sqr a2 in
    let B := fp4_mul_v B in
    let t0 := fp4_mul a0 a1 in
    let B := fp4_sub B t0 in
    let C := fp4_sqr a1 in
    let t0 := fp4_mul a0 a2 in
    let C := fp4_sub C t0 in
    let t0 := fp4_mul a1 C in
    let t1 := fp4_mul a2 B in
    let t0 := fp4_add t0 t1 in
    let t0 := fp4_mul_v t0 in
    let t1 := fp4_mul a0 A in
    let t0 := fp4_add t0 t1 in
    let t0 := fp4_inv t0 in
    (fp4_mul A t0, fp4_mul B t0, fp4_mul C t0).

  (** *** Exponentiation, 910-974 *)
  (** 920-928: lut_table[j] = a^(j+2) *)
  Fixpoint lut12_from (n : nat) (a prev : p12 T) : list (p12 T) :=
    match n with O => [] | S n' => let x := fp12_mul prev a in x :: lut12_from n' a x end.
  Definition lut12 (a : p12 T) : list (p12 T) := let l0 := fp12_sqr a in l0 :: lut12_from 13 a l0.
  (** 934, 943, 949, 962, 971: [(index == 1) ? a : lut_table[index - 2]] *)
  Definition pick12 (a : p12 T) (lut : list (p12 T)) (index : Z) : res (p12 T) :=
    if index =? 1 then Ok a
    else if index <? 2 then UB
    else match nth_error lut (Z.to_nat (index - 2)) with Some x => Ok x | None => UB end.
  Definition sqr12_4 (t : p12 T) : p12 T := fp12_sqr (fp12_sqr (fp12_sqr (fp12_sqr t))).
  (** 940-944, 959-963 and 968-972: multiply by the table entry of a nibble that is not 0 *)
  Definition nibble12 (a : p12 T) (lut : list (p12 T)) (t : p12 T) (index : Z) : res (p12 T) :=
    if index =? 0 then Ok t else do x <- pick12 a lut index; Ok (fp12_mul t x).
  (** 952-973 *)
  Fixpoint pow12_loop (a : p12 T) (lut : list (p12 T)) (t : p12 T) (bs : list Z) : res (p12 T) :=
    match bs with
    | [] => Ok t
    | b :: bs' =>
        let t := sqr12_4 t in
        do t <- nibble12 a lut t (Z.land (Z.shiftr b 4) 15);
        let t := sqr12_4 t in
        do t <- nibble12 a lut t (Z.land b 15);
        pow12_loop a lut t bs'
    end.
  (** 930: while (e_u8[i] == 0) i++; over the memory readable from e_u8 on.  The result is i and
      the memory from there. *)
  Fixpoint skip0 (mem : list Z) (i : nat) : res (nat * list Z) :=
    match mem with
    | [] => UB
    | b :: m => if b =? 0 then skip0 m (S i) else Ok (i, mem)
    end.
  (** [mem]: the readable memory from e_u8 on (at least the 32 bytes of the exponent) *)
  (** 910-974 *)
  Definition fp12_pow (a : p12 T) (mem : list Z) : res (p12 T) :=
    if fp12_equal_zero a then Ok fp12_zero
    else
      let lut := lut12 a in
      do (i, m) <- skip0 mem 0;
      let b := nz m 0 in
      do t <- (if 15 <? b then
                 do t <- pick12 a lut (Z.land (Z.shiftr b 4) 15);
                 nibble12 a lut (sqr12_4 t) (Z.land b 15)
               else pick12 a lut (Z.land b 15));
      let i := S i in
      do bs <- (if (i <? 32)%nat then read mem i (32 - i) else Ok []);
      pow12_loop a lut t bs.

  (** *** Frobenius maps (1821-1825, 2108-2212), over the stored constants alpha1 .. alpha5, beta *)
  (** 1821-1825 *)
  Definition fp2_conjugate (a : p2 T) : p2 T := (fst a, neg (snd a)).
  (** 2140-2144 *)
  Definition fp4_conjugate (a : p4 T) : p4 T := (fst a, fp2_neg (snd a)).
  (** 2108-2138 *)
  Definition fp12_frobenius (alpha1 alpha2 alpha3 alpha4 alpha5 : T) (x : p12 T) : p12 T :=
    let '(x0, x1, x2) := x in
    let r1 := (fp2_conjugate (fst x0), fp2_mul_fp (fp2_conjugate (snd x0)) alpha3) in
    let r2 := (fp2_mul_fp (fp2_conjugate (fst x1)) alpha1, fp2_mul_fp (fp2_conjugate (snd x1)) alpha4) in
    let r3 := (fp2_mul_fp (fp2_conjugate (fst x2)) alpha2, fp2_mul_fp (fp2_conjugate (snd x2)) alpha5) in
    (r1, r2, r3).
  (** 2146-2164 *)
  Definition fp12_frobenius2 (alpha2 alpha4 : T) (x : p12 T) : p12 T :=
    let '(x0, x1, x2) := x in
    (fp4_conjugate x0, fp4_mul_fp (fp4_conjugate x1) alpha2, fp4_mul_fp (fp4_conjugate x2) alpha4).
  (** 2166-2192 *)
  Definition fp12_frobenius3 (beta : T) (x : p12 T) : p12 T :=
    let '(xa, xb, xc) := x in
    let ra := (fp2_conjugate (fst xa), fp2_neg (fp2_mul_fp (fp2_conjugate (snd xa)) beta)) in
    let rb := (fp2_mul_fp (fp2_conjugate (fst xb)) beta, fp2_conjugate (snd xb)) in
    let rc := (fp2_neg (fp2_conjugate (fst xc)), fp2_mul_fp (fp2_conjugate (snd xc)) beta) in
    (ra, rb, rc).
  (** 2194-2212 *)
  Definition fp12_frobenius6 (x : p12 T) : p12 T :=
    let '(a, b, c) := x in
    (fp4_conjugate a, fp4_neg (fp4_conjugate b), fp4_conjugate c).

  (** *** Line functions (1861-2069): f as an F_p^12 value; the denominators d are computed by the
      code and never used afterwards *)
  (** 1861-1927 *)
  Definition g_tangent_ja (Tj : jac (p2 T)) (P : aff T) : p12 T :=
    let '(XT, YT, ZT) := Tj in
    let '(xP, yP) := P in
    let t0 := fp2_sqr ZT in
    let t1 := fp2_mul t0 ZT in
    let b1 := fp2_mul t1 YT in
    let b1 := fp2_dbl b1 in
    let t2 := fp2_mul_fp b1 yP in
    let a1 := fp2_neg t2 in
    let t1 := fp2_sqr XT in
    let t0 := fp2_mul t0 t1 in
    let t0 := fp2_mul_fp t0 xP in
    let a4 := fp2_tpl t0 in
    let t1 := fp2_mul t1 XT in
    let t1 := fp2_tpl t1 in
    let t0 := fp2_sqr YT in
    let t0 := fp2_dbl t0 in
    let a0 := fp2_sub t0 t1 in
    ((a0, a1), (fp2_zero, fp2_zero), (a4, fp2_zero)).
  (** 1930-2002 *)
  Definition g_line_jja (Tj Q : jac (p2 T)) (P : aff T) : p12 T :=
    let '(XT, YT, ZT) := Tj in
    let '(XQ, YQ, ZQ) := Q in
    let '(xP, yP) := P in
    let t0 := fp2_sqr ZQ in
    let t1 := fp2_mul t0 XT in
    let t0 := fp2_mul t0 ZQ in
    let t2 := fp2_sqr ZT in
    let t3 := fp2_mul t2 XQ in
    let t2 := fp2_mul t2 ZT in
    let t2 := fp2_mul t2 YQ in
    let t1 := fp2_sub t1 t3 in
    let t1 := fp2_mul t1 ZT in
    let t1 := fp2_mul t1 ZQ in
    let b1 := fp2_mul t1 t0 in
    let t1 := fp2_mul t1 YQ in
    let t3 := fp2_mul t0 YT in
    let t3 := fp2_sub t3 t2 in
    let t0 := fp2_mul t0 t3 in
    let t0 := fp2_mul_fp t0 xP in
    let a4 := t0 in
    let t3 := fp2_mul t3 XQ in
    let t3 := fp2_mul t3 ZQ in
    let t1 := fp2_sub t1 t3 in
    let a0 := t1 in
    let t2 := fp2_mul_fp b1 yP in
    let t2 := fp2_neg t2 in
    let a1 := t2 in
    ((a0, a1), (fp2_zero, fp2_zero), (a4, fp2_zero)).
  (** 2005-2069 *)
  Definition g_line_jaa (Tj : jac (p2 T)) (Q : aff (p2 T)) (P : aff T) : p12 T :=
    let '(XT, YT, ZT) := Tj in
    let '(XQ, YQ) := Q in
    let '(xP, yP) := P in
    let t2 := fp2_sqr ZT in
    let t3 := fp2_mul t2 XQ in
    let t2 := fp2_mul t2 ZT in
    let t2 := fp2_mul t2 YQ in
    let t1 := fp2_sub XT t3 in
    let t1 := fp2_mul t1 ZT in
    let b1 := t1 in
    let t1 := fp2_mul t1 YQ in
    let t3 := YT in
    let t3 := fp2_sub t3 t2 in
    let t0 := fp2_mul_fp t3 xP in
    let a4 := t0 in
    let t3 := fp2_mul t3 XQ in
    let t1 := fp2_sub t1 t3 in
    let a0 := t1 in
    let t2 := fp2_mul_fp b1 yP in
    let t2 := fp2_neg t2 in
    let a1 := t2 in
    ((a0, a1), (fp2_zero, fp2_zero), (a4, fp2_zero)).
End Tower.

Section SM9.
  Variable L9 : numlib9.
  Notation L := (l9 L9).

  (** ** Numbers modulo p and n *)
  (** 123-125 *)
  Definition FP9_CTX : mont_ctx :=
    MkCtx (nl_epi8 L P9_DATA) (nl_epi8 L P9_SUB2_DATA) (nl_epi8 L FP9_R_DATA)
          (nl_epi8 L FP9_R_POW2_DATA) (nl_N L (nz (nl_epi8 L P9_DATA) 0)).
  (** 127-129 *)
  Definition FN9_CTX : mont_ctx :=
    MkCtx (nl_epi8 L N9_DATA) (nl_epi8 L N9_SUB2_DATA) (nl_epi8 L FN9_R_DATA)
          (nl_epi8 L FN9_R_POW2_DATA) (nl_N L (nz (nl_epi8 L N9_DATA) 0)).

  (** 148-151 *)
  Definition sm9_bn_add_uint32 (a : list Z) (b : Z) : list Z := fst (nl_add32 L a b).
  (** 155-156, 167-168: n_sub1 *)
  Definition sm9_n_sub1 : list Z := fst (l9_sub32 L9 (nl_epi8 L N9_DATA) 1).
  (** 153-161 *)
  Definition sm9_bn_mod_n_sub1 (a : list Z) : list Z :=
    if 0 <=? nl_cmp L a sm9_n_sub1 then fst (nl_sub L a sm9_n_sub1) else a.
  (** 163-170; the library loop always ends because n - 1 is not 0 *)
  Definition sm9_bn_mod_n_sub1_ex (data : list Z) : res (list Z) :=
    match l9_mod L9 data sm9_n_sub1 with Some a => Ok a | None => UB end.

  (** 288-316, 362-400 *)
  Definition sm9_fp_ops : fops (list Z) :=
    MkOps (list Z) (m_add L FP9_CTX) (m_sub L FP9_CTX) (m_mul L FP9_CTX) (m_sqr L FP9_CTX)
      (m_dbl L FP9_CTX) (m_tpl L FP9_CTX) (m_neg L FP9_CTX) (m_inv L FP9_CTX)
      (m_equal L FP9_CTX) (m_equal_zero L FP9_CTX) (m_zero L) (m_one L FP9_CTX).
  (** 402-405 *)
  Definition sm9_fp_from_bytes : list Z -> list Z := m_from_bytes L FP9_CTX.
  (** 407-410 *)
  Definition sm9_fp_to_bytes : list Z -> list Z := m_to_bytes L FP9_CTX.
  (** 262-265 *)
  Definition sm9_fn_from_bytes : list Z -> list Z := m_from_bytes L FN9_CTX.
  (** 274-277 *)
  Definition sm9_fn_to_bytes : list Z -> list Z := m_to_bytes L FN9_CTX.
  (** 437-442 sm9_fn_from_bn *)
  Definition sm9_fn_from_bn (a : list Z) : list Z := sm9_fn_from_bytes (nl_to_bytes L a).
  (** 318-360: [None] is the return value -1 *)
  Definition sm9_fp_sqrt (a : list Z) : res (option (list Z)) :=
    let neg1 := m_neg L FP9_CTX (m_one L FP9_CTX) in
    do z <- m_pow L FP9_CTX a (nl_epi8 L U_MUL2_ADD1);
    if negb (m_equal_one L FP9_CTX z) && negb (m_equal L FP9_CTX z neg1) then Ok None
    else
      do r <- m_pow L FP9_CTX a (nl_epi8 L U_ADD1);
      if m_equal L FP9_CTX z neg1
      then Ok (Some (m_mul L FP9_CTX r (sm9_fp_from_bytes TWO_POW_2U1_DATA)))
      else Ok (Some r).

  Definition fp9 : Type := list Z.
  Definition sm9_fp2_ops : fops (p2 fp9) := fp2_ops sm9_fp_ops.

  (** ** Byte encodings of field elements *)
  (** 462-466 *)
  Definition sm9_fp2_to_bytes (a : p2 fp9) : list Z := sm9_fp_to_bytes (snd a) ++ sm9_fp_to_bytes (fst a).
  (** 468-472; [src] is the readable memory from the pointer on *)
  Definition sm9_fp2_from_bytes (src : list Z) (off : nat) : res (p2 fp9) :=
    do b1 <- read src off 32;
    do b0 <- read src (off + 32) 32;
    Ok (sm9_fp_from_bytes b0, sm9_fp_from_bytes b1).
  (** 606-610 *)
  Definition sm9_fp4_to_bytes (a : p4 fp9) : list Z := sm9_fp2_to_bytes (snd a) ++ sm9_fp2_to_bytes (fst a).
  (** 746-751 *)
  Definition sm9_fp12_to_bytes (a : p12 fp9) : list Z :=
    let '(a0, a1, a2) := a in sm9_fp4_to_bytes a2 ++ sm9_fp4_to_bytes a1 ++ sm9_fp4_to_bytes a0.

  (** ** G1, affine points (980-1088) *)
  (** 991-994, 1042-1045 *)
  Definition sm9_rhs (x : fp9) : fp9 :=
    let right := sm9_fp_from_bytes SM9_CURVE_B in
    let t := m_sqr L FP9_CTX x in
    let t := m_mul L FP9_CTX t x in
    m_add L FP9_CTX right t.
  (** 986-996 *)
  Definition sm9_ec_a_check (P : aff fp9) : bool :=
    let '(x, y) := P in
    let left := m_sqr L FP9_CTX y in
    m_equal L FP9_CTX left (sm9_rhs x).
  (** 1004-1008 *)
  Definition sm9_ec_a_to_bytes04 (P : aff fp9) : list Z :=
    let '(x, y) := P in sm9_fp_to_bytes x ++ sm9_fp_to_bytes y.
  (** 1010-1014 *)
  Definition sm9_ec_a_from_bytes04 (inb : list Z) (off : nat) : res (aff fp9) :=
    do x <- read inb off 32;
    do y <- read inb (off + 32) 32;
    Ok (sm9_fp_from_bytes x, sm9_fp_from_bytes y).
  (** 1016-1021 *)
  Definition sm9_ec_a_to_bytes_uncompressed (P : aff fp9) : list Z := 4 :: sm9_ec_a_to_bytes04 P.
  (** 1023-1029 *)
  Definition sm9_ec_a_to_bytes_compressed (P : aff fp9) : list Z :=
    let '(x, y) := P in
    let by_ := sm9_fp_to_bytes y in
    (if Z.land (nz by_ 31) 1 =? 0 then 2 else 3) :: sm9_fp_to_bytes x.
  (** 1031-1035 *)
  Definition sm9_ec_a_to_bytes_mix (P : aff fp9) : list Z :=
    let b := sm9_ec_a_to_bytes04 P in
    (if Z.land (nz b 63) 1 =? 0 then 6 else 7) :: b.
  (** 1037-1057 *)
  Definition sm9_ec_recover_y (x : fp9) (y_hat : Z) : res (option fp9) :=
    do s <- sm9_fp_sqrt (sm9_rhs x);
    match s with
    | None => Ok None
    | Some y =>
        let lsb_y := Z.land (nz (sm9_fp_to_bytes y) 31) 1 in
        if negb (lsb_y =? y_hat) then Ok (Some (m_neg L FP9_CTX y)) else Ok (Some y)
    end.
  (** 1059-1088: [inb] is the readable memory from [in] on, [inl] the argument *)
  Definition sm9_ec_a_from_bytes (inb : list Z) (inl : Z) : res (option (aff fp9 * Z)) :=
    if inl =? 0 then Ok None
    else
      do b <- read inb 0 1;
      let b0 := nz b 0 in
      if (b0 =? 4) || (b0 =? 6) || (b0 =? 7) then
        do R <- sm9_ec_a_from_bytes04 inb 1;
        if sm9_ec_a_check R then Ok (Some (R, 65)) else Ok None
      else if (b0 =? 2) || (b0 =? 3) then
        do xb <- read inb 1 32;
        let x := sm9_fp_from_bytes xb in
        let y_hat := if b0 =? 2 then 0 else 1 in
        do y <- sm9_ec_recover_y x y_hat;
        match y with
        | None => Ok None
        | Some y => if sm9_ec_a_check (x, y) then Ok (Some ((x, y), 33)) else Ok None
        end
      else Ok None.

  (** ** G1 and G2, Jacobian points: the functions of ModelEC *)
  (** 1243-1287 *)
  Definition sm9_ec_j_dbl : jac fp9 -> jac fp9 := j_dbl_2009l sm9_fp_ops.
  (** 1117-1188 *)
  Definition sm9_ec_j_add : jac fp9 -> jac fp9 -> jac fp9 := j_add sm9_fp_ops sm9_ec_j_dbl.
  (** 1190-1241 *)
  Definition sm9_ec_j_add_a : jac fp9 -> aff fp9 -> jac fp9 := j_add_a sm9_fp_ops.
  (** 1289-1341 *)
  Definition sm9_ec_j_mul_a (k : list Z) (P : aff fp9) : res (jac fp9) :=
    j_mul_a sm9_fp_ops sm9_ec_j_dbl L (nl_epi8 L N9_DATA) k P.
  (** 1358-1367 *)
  Definition sm9_ec_j_to_a : jac fp9 -> aff fp9 := j_to_a sm9_fp_ops.
  (** 1345-1347, 2337-2339 *)
  Definition sm9_P1 : aff fp9 := (sm9_fp_from_bytes SM9_CURVE_GX, sm9_fp_from_bytes SM9_CURVE_GY).
  (** 1343-1349 *)
  Definition sm9_ec_j_mul_g (k : list Z) : res (jac fp9) := sm9_ec_j_mul_a k sm9_P1.

  (** 1650-1694 *)
  Definition sm9_ec2_j_dbl : jac (p2 fp9) -> jac (p2 fp9) := j_dbl_2009l sm9_fp2_ops.
  (** 1524-1595 *)
  Definition sm9_ec2_j_add : jac (p2 fp9) -> jac (p2 fp9) -> jac (p2 fp9) := j_add sm9_fp2_ops sm9_ec2_j_dbl.
  (** 1597-1648 *)
  Definition sm9_ec2_j_add_a : jac (p2 fp9) -> aff (p2 fp9) -> jac (p2 fp9) := j_add_a sm9_fp2_ops.
  (** 1696-1748 *)
  Definition sm9_ec2_j_mul_a (k : list Z) (P : aff (p2 fp9)) : res (jac (p2 fp9)) :=
    j_mul_a sm9_fp2_ops sm9_ec2_j_dbl L (nl_epi8 L N9_DATA) k P.
  (** 1765-1774 *)
  Definition sm9_ec2_j_to_a : jac (p2 fp9) -> aff (p2 fp9) := j_to_a sm9_fp2_ops.
  (** 1752-1754; the constants are 64 bytes, so reading them always succeeds *)
  Definition sm9_P2 : res (aff (p2 fp9)) :=
    do x <- sm9_fp2_from_bytes SM9_CURVE2_GX 0;
    do y <- sm9_fp2_from_bytes SM9_CURVE2_GY 0;
    Ok (x, y).
  (** 1750-1756 *)
  Definition sm9_ec2_j_mul_g (k : list Z) : res (jac (p2 fp9)) :=
    do G <- sm9_P2; sm9_ec2_j_mul_a k G.
  (** 1420-1431: y^2 = x^3 + 5u *)
  Definition sm9_ec2_a_check (P : aff (p2 fp9)) : bool :=
    let '(x, y) := P in
    let left := fp2_sqr sm9_fp_ops y in
    let right := (m_zero L, sm9_fp_from_bytes SM9_CURVE_B) in
    let t := fp2_sqr sm9_fp_ops x in
    let t := fp2_mul sm9_fp_ops t x in
    let right := fp2_add sm9_fp_ops right t in
    fp2_equal sm9_fp_ops left right.
  (** 1439-1443: what is left in out[0 .. 127], given its contents before the call: the y
      coordinate is written at offset 32 *)
  Definition sm9_ec2_a_to_bytes04 (out : list Z) (P : aff (p2 fp9)) : res (list Z) :=
    let '(x, y) := P in
    do out <- write out 0 (sm9_fp2_to_bytes x);
    write out 32 (sm9_fp2_to_bytes y).
  (** 1445-1449: both coordinates are read 32 bytes apart *)
  Definition sm9_ec2_a_from_bytes04 (inb : list Z) (off : nat) : res (aff (p2 fp9)) :=
    do x <- sm9_fp2_from_bytes inb off;
    do y <- sm9_fp2_from_bytes inb (off + 32);
    Ok (x, y).
  (** 1451-1456: out[0 .. 128] *)
  Definition sm9_ec2_a_to_bytes_uncompressed (out : list Z) (P : aff (p2 fp9)) : res (list Z) :=
    do r <- sm9_ec2_a_to_bytes04 (skipn 1 out) P; Ok (4 :: r).
  (** 1458-1464: out[0 .. 64]; the tested byte is the last one of y[1] *)
  Definition sm9_ec2_a_to_bytes_compressed (P : aff (p2 fp9)) : list Z :=
    let '(x, y) := P in
    let by_ := sm9_fp2_to_bytes y in
    (if Z.land (nz by_ 31) 1 =? 0 then 2 else 3) :: sm9_fp2_to_bytes x.
  (** 1466-1470: out[0 .. 128] *)
  Definition sm9_ec2_a_to_bytes_mix (out : list Z) (P : aff (p2 fp9)) : res (list Z) :=
    do r <- sm9_ec2_a_to_bytes04 (skipn 1 out) P;
    Ok ((if Z.land (nz r 63) 1 =? 0 then 6 else 7) :: r).
  (** 1472-1495: no curve check; the compressed forms are refused *)
  Definition sm9_ec2_a_from_bytes (inb : list Z) (inl : Z) : res (option (aff (p2 fp9) * Z)) :=
    if inl =? 0 then Ok None
    else
      do b <- read inb 0 1;
      let b0 := nz b 0 in
      if (b0 =? 4) || (b0 =? 6) || (b0 =? 7) then
        do R <- sm9_ec2_a_from_bytes04 inb 1; Ok (Some (R, 129))
      else Ok None.

  (** ** Pairing (1821-2349) *)
  (** 1827-1844 *)
  Definition ec2_frobenius_a (Q : aff (p2 fp9)) : jac (p2 fp9) :=
    let '(x, y) := Q in
    (fp2_conjugate sm9_fp_ops x, fp2_conjugate sm9_fp_ops y, (sm9_fp_from_bytes FROB_C, m_zero L)).
  (** 1846-1859 *)
  Definition ec2_frobenius2_a (Q : aff (p2 fp9)) : jac (p2 fp9) :=
    let '(x, y) := Q in (x, y, (sm9_fp_from_bytes FROB2_C, m_zero L)).
  (** 2108-2138 *)
  Definition sm9_fp12_frobenius : p12 fp9 -> p12 fp9 :=
    fp12_frobenius sm9_fp_ops (sm9_fp_from_bytes SM9_ALPHA1_DATA) (sm9_fp_from_bytes SM9_ALPHA2_DATA)
      (sm9_fp_from_bytes SM9_ALPHA3_DATA) (sm9_fp_from_bytes SM9_ALPHA4_DATA) (sm9_fp_from_bytes SM9_ALPHA5_DATA).
  (** 2146-2164 *)
  Definition sm9_fp12_frobenius2 : p12 fp9 -> p12 fp9 :=
    fp12_frobenius2 sm9_fp_ops (sm9_fp_from_bytes SM9_ALPHA2_DATA) (sm9_fp_from_bytes SM9_ALPHA4_DATA).
  (** 2166-2192 *)
  Definition sm9_fp12_frobenius3 : p12 fp9 -> p12 fp9 :=
    fp12_frobenius3 sm9_fp_ops (sm9_fp_from_bytes SM9_BETA_DATA).
  (** 2194-2212 *)
  Definition sm9_fp12_frobenius6 : p12 fp9 -> p12 fp9 := fp12_frobenius6 sm9_fp_ops.
  Notation mul12 := (fp12_mul sm9_fp_ops).
  Notation sqr12 := (fp12_sqr sm9_fp_ops).
  Notation inv12 := (fp12_inv sm9_fp_ops).
  (** 910-974 *)
  Definition sm9_fp12_pow (a : p12 fp9) (mem : list Z) : res (p12 fp9) := fp12_pow sm9_fp_ops a mem.
  (** 2214-2262 *)
  Definition final_exp_hard_part (f : p12 fp9) : res (p12 fp9) :=
    do t0 <- sm9_fp12_pow f FE_A3;
    let t0 := inv12 t0 in
    let t1 := sm9_fp12_frobenius t0 in
    let t1 := mul12 t0 t1 in
    let t0 := mul12 t0 t1 in
    let t2 := sm9_fp12_frobenius f in
    let t3 := mul12 t2 f in
    let t4 := sqr12 t3 in
    let t4 := sqr12 t4 in
    let t4 := sqr12 t4 in
    let t3 := mul12 t4 t3 in
    let t0 := mul12 t0 t3 in
    let t3 := sqr12 f in
    let t3 := sqr12 t3 in
    let t0 := mul12 t0 t3 in
    let t2 := sqr12 t2 in
    let t2 := mul12 t2 t1 in
    let t1 := sm9_fp12_frobenius2 f in
    let t1 := mul12 t1 t2 in
    do t2 <- sm9_fp12_pow t1 FE_A2;
    let t0 := mul12 t2 t0 in
    let t1 := sm9_fp12_frobenius3 f in
    Ok (mul12 t1 t0).
  (** 2267-2279 *)
  Definition final_exp (f : p12 fp9) : res (p12 fp9) :=
    let t0 := sm9_fp12_frobenius6 f in
    let t1 := inv12 f in
    let t0 := mul12 t0 t1 in
    let t1 := sm9_fp12_frobenius2 t0 in
    let t0 := mul12 t0 t1 in
    final_exp_hard_part t0.
  (** 2296-2319: one iteration of the Miller loop on (f, T), for digit c of naf_a *)
  Definition miller_step (P : aff fp9) (Q Qn : aff (p2 fp9)) (c : Z) (s : p12 fp9 * jac (p2 fp9))
    : p12 fp9 * jac (p2 fp9) :=
    let '(f, Tj) := s in
    let f := sqr12 f in
    let f := mul12 f (g_tangent_ja sm9_fp_ops Tj P) in
    let Tj := sm9_ec2_j_dbl Tj in
    if c =? 1 then (mul12 f (g_line_jaa sm9_fp_ops Tj Q P), sm9_ec2_j_add_a Tj Q)
    else if c =? 2 then (mul12 f (g_line_jaa sm9_fp_ops Tj Qn P), sm9_ec2_j_add_a Tj Qn)
    else (f, Tj).
  (** 2292-2330, before the final exponentiation *)
  Definition sm9_miller (P : aff fp9) (Q : aff (p2 fp9)) : p12 fp9 :=
    let '(f, Tj) := fold_left (fun s c => miller_step P Q (a_neg sm9_fp2_ops Q) c s) (tl NAF_A)
                      (fp12_one sm9_fp_ops, j_from_a sm9_fp2_ops Q) in
    let Qj := ec2_frobenius_a Q in
    let f := mul12 f (g_line_jja sm9_fp_ops Tj Qj P) in
    let Tj := sm9_ec2_j_add Tj Qj in
    let Qj := j_neg sm9_fp2_ops (ec2_frobenius2_a Q) in
    mul12 f (g_line_jja sm9_fp_ops Tj Qj P).
  (** 2281-2333 *)
  Definition sm9_pairing (P : aff fp9) (Q : aff (p2 fp9)) : res (p12 fp9) := final_exp (sm9_miller P Q).

  (** ** sm9_alg.h *)
  Variable H : hashlib.
  Notation DS := (hl_ds H).
  (** sm9_alg.h 29-39: the copies [hash_tmp = hash] of the object that absorbed tag, Z1, Z2, finished with the
      counter *)
  Fixpoint hn_loop (k : nat) (tag : Z) (Z1 Z2 : list Z) (cnt : Z) : res (list Z) :=
    match k with
    | O => Ok []
    | S k' =>
        do d <- hl_run H [[tag]; Z1; Z2] (store32_be cnt);
        do rest <- hn_loop k' tag Z1 Z2 (w32 (cnt + 1));
        Ok (d ++ rest)
    end.
  (** sm9_alg.h 9-44 *)
  Definition sm9_Hn (Z1 Z2 : list Z) (tag : Z) : res (list Z) :=
    do Ha <- hn_loop ((40 + DS - 1) / DS) tag Z1 Z2 1;
    do Ha <- read Ha 0 40;
    do h1 <- sm9_bn_mod_n_sub1_ex Ha;
    Ok (nl_to_bytes L (sm9_bn_add_uint32 h1 1)).

  (** ** sm9.h; [pr] is the pairing, sm9_pairing in the code *)
  Variable pr : aff fp9 -> aff (p2 fp9) -> res (p12 fp9).
  (** sm9.h 117-121 *)
  Record sm9_pub := MkPub9 { pub9_P : aff (p2 fp9); pub9_e : p12 fp9 }.
  (** sm9.h 42-46 *)
  Record sm9_master := MkMaster { ms_ks : list Z; ms_pub : sm9_pub }.
  (** sm9.h 175-179 *)
  Record sm9_priv := MkPriv9 { sp_priv : aff fp9; sp_pub : sm9_pub }.

  (** sm9.h 285-288, 310-313: T = [ks]P2, e(P1, Ppubs) *)
  Definition sm9_make_pub (ks : list Z) : res sm9_pub :=
    do Tj <- sm9_ec2_j_mul_g ks;
    let P := sm9_ec2_j_to_a Tj in
    do e <- pr sm9_P1 P;
    Ok (MkPub9 P e).
  (** sm9.h 271-289 *)
  Definition sm9_set_master (priv_key : list Z) : res sm9_master :=
    let ks := nl_from_bytes L priv_key in
    let N := nl_from_bytes L SM9_CURVE_N in
    if nl_is0 L ks || (0 <=? nl_cmp L ks N) then Throw
    else do pub <- sm9_make_pub priv_key; Ok (MkMaster priv_key pub).
  (** sm9.h 303-308, 486-491: 32 random bytes to a number in [1, N-1] *)
  Definition sm9_draw (rnd : list Z) : list Z :=
    nl_to_bytes L (sm9_bn_add_uint32 (sm9_bn_mod_n_sub1 (nl_from_bytes L rnd)) 1).
  (** sm9.h 298-314 *)
  Definition sm9_gen_master (rnd : list Z) : res sm9_master :=
    let ks := sm9_draw rnd in
    do pub <- sm9_make_pub ks; Ok (MkMaster ks pub).
  (** sm9.h 316-349; the rng argument is not used *)
  Definition sm9_gen_sign_key (ms : sm9_master) (id : list Z) (hid : Z) : res sm9_priv :=
    let ks := sm9_fn_from_bytes (ms_ks ms) in
    do t1_buf <- sm9_Hn id [hid] 1;
    let t1 := sm9_fn_from_bytes t1_buf in
    let t1 := m_add L FN9_CTX t1 ks in
    if m_equal_zero L FN9_CTX t1 then Throw
    else
      let t1 := m_inv L FN9_CTX t1 in
      let t1 := m_mul L FN9_CTX ks t1 in
      do t2P1 <- sm9_ec_j_mul_g (sm9_fn_to_bytes t1);
      Ok (MkPriv9 (sm9_ec_j_to_a t2P1) (ms_pub ms)).
  (** sm9.h 358-371 *)
  Definition sm9_set_pub (x y : list Z) : res sm9_pub :=
    do X <- sm9_fp2_from_bytes x 0;
    do Y <- sm9_fp2_from_bytes y 0;
    if negb (sm9_ec2_a_check (X, Y)) then Throw
    else do e <- pr sm9_P1 (X, Y); Ok (MkPub9 (X, Y) e).
  (** sm9.h 373-380 *)
  Definition sm9_get_pub (pk : sm9_pub) : list Z * list Z :=
    let '(x, y) := pub9_P pk in (sm9_fp2_to_bytes x, sm9_fp2_to_bytes y).
  (** sm9.h 432-448 *)
  Definition sm9_set_priv (priv_x priv_y pub_x pub_y : list Z) : res sm9_priv :=
    let P := (sm9_fp_from_bytes priv_x, sm9_fp_from_bytes priv_y) in
    if negb (sm9_ec_a_check P) then Throw
    else do pub <- sm9_set_pub pub_x pub_y; Ok (MkPriv9 P pub).
  (** sm9.h 450-460 *)
  Definition sm9_get_priv (sk : sm9_priv) : list Z * list Z * (list Z * list Z) :=
    let '(x, y) := sp_priv sk in (sm9_fp_to_bytes x, sm9_fp_to_bytes y, sm9_get_pub (sp_pub sk)).

  (** sm9.h 382-430; noexcept: outcome [Throw] means std::terminate.  [sig] is the whole signature
      buffer; sm9_ec_a_from_bytes reads from sig + 32 whatever the length. *)
  Definition sm9_verify (pk : sm9_pub) (sig msg id : list Z) (hid : Z) : res bool :=
    let sig_len := Z.of_nat (length sig) in
    if sig_len <? 32 then Ok false
    else
      do o <- sm9_ec_a_from_bytes (skipn 32 sig) (sig_len - 32);
      match o with
      | None => Ok false
      | Some (Sp, size) =>
          if negb (size + 32 =? sig_len) then Ok false
          else
            do t <- sm9_fp12_pow (pub9_e pk) sig;
            do h1 <- sm9_Hn id [hid] 1;
            do Tj <- sm9_ec2_j_mul_g h1;
            let Tj := sm9_ec2_j_add_a Tj (pub9_P pk) in
            let Ta := sm9_ec2_j_to_a Tj in
            do w <- pr Sp Ta;
            let w := mul12 w t in
            do h2 <- sm9_Hn msg (sm9_fp12_to_bytes w) 2;
            Ok (mem_eq h2 (firstn 32 sig))
      end.

  (** sm9.h 511-525 *)
  Definition sm9_encode (PC : ec_pc) (P : aff fp9) : list Z :=
    match PC with
    | UNCOMPRESSED => sm9_ec_a_to_bytes_uncompressed P
    | COMPRESSED => sm9_ec_a_to_bytes_compressed P
    | MIX => sm9_ec_a_to_bytes_mix P
    end.
  (** sm9.h 485-525: one pass of the retry loop; [None] is goto retry *)
  Definition sm9_sign_try (sk : sm9_priv) (msg : list Z) (PC : ec_pc) (rnd : list Z) : res (option (list Z)) :=
    let r_bn := sm9_bn_add_uint32 (sm9_bn_mod_n_sub1 (nl_from_bytes L rnd)) 1 in
    do w <- sm9_fp12_pow (pub9_e (sp_pub sk)) (nl_to_bytes L r_bn);
    do h_buf <- sm9_Hn msg (sm9_fp12_to_bytes w) 2;
    let r := sm9_fn_from_bn r_bn in
    let h := sm9_fn_from_bytes h_buf in
    let r := m_sub L FN9_CTX r h in
    if m_equal_zero L FN9_CTX r then Ok None
    else
      do Sj <- sm9_ec_j_mul_a (sm9_fn_to_bytes r) (sp_priv sk);
      Ok (Some (h_buf ++ sm9_encode PC (sm9_ec_j_to_a Sj))).
  (** sm9.h 469-526: [draws] are the 32-byte answers of the random generator, [Ok None] means more
      are needed *)
  Fixpoint sm9_sign (sk : sm9_priv) (msg : list Z) (PC : ec_pc) (draws : list (list Z)) : res (option (list Z)) :=
    match draws with
    | [] => Ok None
    | rnd :: draws' =>
        do o <- sm9_sign_try sk msg PC rnd;
        match o with Some s => Ok (Some s) | None => sm9_sign sk msg PC draws' end
    end.
End SM9.

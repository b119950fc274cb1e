(** SM9 and SM2 field elements: decoding of F_p^4 and F_p^12 elements, the comparisons, the
    conversions between the two fields and plain numbers, and the reductions modulo n - 2 and n - 3.
    (src/sm9/sm9_field.cpp, src/sm2/sm2p256v1.cpp) *)
From Verif Require Import Base ModelNumber ModelMont ModelEC ModelSM2 ModelSM9.

Section SM9Elem.
  Variable L9 : numlib9.
  Notation L := (l9 L9).

  (** sm9_field.cpp 612-616; [off] is the position of src in the caller's bytes *)
  Definition sm9_fp4_from_bytes (src : list Z) (off : nat) : res (p4 fp9) :=
    do r1 <- sm9_fp2_from_bytes L9 src off;
    do r0 <- sm9_fp2_from_bytes L9 src (off + 64);
    Ok (r0, r1).
  (** sm9_field.cpp 753-758 *)
  Definition sm9_fp12_from_bytes (src : list Z) (off : nat) : res (p12 fp9) :=
    do r2 <- sm9_fp4_from_bytes src off;
    do r1 <- sm9_fp4_from_bytes src (off + 128);
    do r0 <- sm9_fp4_from_bytes src (off + 256);
    Ok (r0, r1, r2).

  (** sm9_field.cpp 490-493 *)
  Definition sm9_fp2_equal_one (a : p2 fp9) : bool :=
    m_equal_one L (FP9_CTX L9) (fst a) && o_is0 (sm9_fp_ops L9) (snd a).
  (** sm9_field.cpp 624-627 *)
  Definition sm9_fp4_equal (a b : p4 fp9) : bool :=
    fp2_equal (sm9_fp_ops L9) (fst a) (fst b) && fp2_equal (sm9_fp_ops L9) (snd a) (snd b).
  (** sm9_field.cpp 634-637 *)
  Definition sm9_fp4_equal_one (a : p4 fp9) : bool :=
    sm9_fp2_equal_one (fst a) && fp2_equal_zero (sm9_fp_ops L9) (snd a).
  (** sm9_field.cpp 767-771 *)
  Definition sm9_fp12_equal (a b : p12 fp9) : bool :=
    let '(a0, a1, a2) := a in let '(b0, b1, b2) := b in
    sm9_fp4_equal a0 b0 && sm9_fp4_equal a1 b1 && sm9_fp4_equal a2 b2.
  (** sm9_field.cpp 779-783 *)
  Definition sm9_fp12_equal_one (a : p12 fp9) : bool :=
    let '(a0, a1, a2) := a in
    sm9_fp4_equal_one a0 && fp4_equal_zero (sm9_fp_ops L9) a1 && fp4_equal_zero (sm9_fp_ops L9) a2.

  (** sm9_field.cpp 416-421, 423-428, 430-435 *)
  Definition sm9_fp_to_bn (a : list Z) : list Z := nl_from_bytes L (sm9_fp_to_bytes L9 a).
  Definition sm9_fp_from_bn (a : list Z) : list Z := sm9_fp_from_bytes L9 (nl_to_bytes L a).
  Definition sm9_fn_to_bn (a : list Z) : list Z := nl_from_bytes L (sm9_fn_to_bytes L9 a).
  (** sm9_field.cpp 444-449, 451-456 *)
  Definition sm9_fn_from_fp (a : list Z) : list Z := sm9_fn_from_bytes L9 (sm9_fp_to_bytes L9 a).
  Definition sm9_fn_to_fp (a : list Z) : list Z := sm9_fp_from_bytes L9 (sm9_fn_to_bytes L9 a).

  (** sm9_field.cpp 101-104 *)
  Definition N9_SUB3_DATA : list Z :=
    [0xb6; 0x40; 0x00; 0x00; 0x02; 0xa3; 0xa6; 0xf1; 0xd6; 0x03; 0xab; 0x4f; 0xf5; 0x8e; 0xc7; 0x44;
     0x49; 0xf2; 0x93; 0x4b; 0x18; 0xea; 0x8b; 0xee; 0xe5; 0x6e; 0xe1; 0x9c; 0xd6; 0x9e; 0xcf; 0x22].
  (** sm9_field.cpp 172-178 *)
  Definition sm9_bn_mod_n_sub2 (a : list Z) : list Z :=
    if 0 <=? nl_cmp L a (nl_epi8 L N9_SUB2_DATA) then fst (nl_sub L a (nl_epi8 L N9_SUB2_DATA)) else a.
  (** sm9_field.cpp 180-186 *)
  Definition sm9_bn_mod_n_sub3 (a : list Z) : list Z :=
    if 0 <=? nl_cmp L a (nl_epi8 L N9_SUB3_DATA) then fst (nl_sub L a (nl_epi8 L N9_SUB3_DATA)) else a.
End SM9Elem.

Section SM2Elem.
  Variable L : numlib.
  (** sm2p256v1.cpp 135-141 *)
  Definition sm2_bn_mod_n_sub2 (a : list Z) : list Z :=
    if 0 <=? nl_cmp L a (nl_epi8 L N_SUB2_DATA) then fst (nl_sub L a (nl_epi8 L N_SUB2_DATA)) else a.
  (** sm2p256v1.cpp 327-332, 334-339, 341-346, 348-353 *)
  Definition sm2_fp_to_bn (a : list Z) : list Z := nl_from_bytes L (sm2_fp_to_bytes L a).
  Definition sm2_fp_from_bn (a : list Z) : list Z := sm2_fp_from_bytes L (nl_to_bytes L a).
  Definition sm2_fn_to_bn (a : list Z) : list Z := nl_from_bytes L (sm2_fn_to_bytes L a).
  Definition sm2_fn_from_bn (a : list Z) : list Z := sm2_fn_from_bytes L (nl_to_bytes L a).
  (** sm2p256v1.cpp 362-367 *)
  Definition sm2_fn_to_fp (a : list Z) : list Z := sm2_fp_from_bytes L (sm2_fn_to_bytes L a).
End SM2Elem.

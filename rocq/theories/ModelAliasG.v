(** Scalar multiplication, exponentiation in F_p^12, the final exponentiation and the pairing on
    memory, with pointers: the loops over the functions of ModelAliasF.v.

    Simplifications, besides those of ModelAliasF.v: the scalar bytes, the exponent bytes and the
    local numbers e and e3 of the scalar multiplication are values (only the number library touches
    e and e3, see C71); the local [d] of the pairing, which is set and never read, is left out. *)
From Verif Require Import Base ModelNumber ModelNumberX64 ModelMont ModelAlias ModelEC ModelSM2 ModelSM9 ModelAliasF.

(** ** Scalar multiplication: sm2p256v1.cpp 690-768, sm9_field.cpp 1289-1341 and 1696-1748 *)
Section MulMem.
  Variables (k : nat) (P : op -> proc) (dbl : proc) (L : numlib).
  (** the locals T and P_neg; the callees' locals *)
  Definition mulT (sp : nat) : nat := sp.
  Definition mulPn (sp : nat) : nat := (sp + k * 3)%nat.
  Definition mulSp (sp : nat) : nat := (sp + k * 5)%nat.
  (** sm2p256v1.cpp 753-766: one iteration *)
  Definition mul_step_m (sp p : nat) (e e3 : list Z) (i : Z) (m : mem) : res mem :=
    let m := dbl (mulSp sp) (mulT sp) [mulT sp] m in
    do ei <- nl_bit L e i;
    do e3i <- nl_bit L e3 i;
    if e3i && negb ei then Ok (j_add_a_m k P (mulSp sp) (mulT sp) [mulT sp; p] m)
    else if negb e3i && ei then Ok (j_add_a_m k P (mulSp sp) (mulT sp) [mulT sp; mulPn sp] m)
    else Ok m.
  (** sm2p256v1.cpp 753-766: for (; i >= 1; i--) *)
  Fixpoint mul_loop_m (sp p : nat) (e e3 : list Z) (i : nat) (m : mem) : res mem :=
    match i with
    | O => Ok m
    | S i' => do m <- mul_step_m sp p e e3 (Z.of_nat i) m; mul_loop_m sp p e e3 i' m
    end.
  (** sm2p256v1.cpp 720-768; [N] is the group order, [kb] the scalar, [r] and [p] the addresses of R
      and P *)
  Definition j_mul_a_m (N kb : list Z) (sp r p : nat) (m : mem) : res mem :=
    let e := nl_from_bytes L kb in
    let e := if 0 <=? nl_cmp L e N then fst (nl_sub L e N) else e in
    if nl_is0 L e then Ok (j_set_inf_m k P sp r [] m)
    else
      let '(e3, c) := nl_tpl L e in
      let m := j_from_a_m k P (mulSp sp) (mulT sp) [p] m in
      let m := a_neg_m k P (mulSp sp) (mulPn sp) [p] m in
      do m <- (if c =? 1 then mul_loop_m sp p e e3 255 m
               else if c =? 2 then mul_loop_m sp p e e3 255 (dbl (mulSp sp) (mulT sp) [mulT sp] m)
               else do i <- top_bit L e3 255; mul_loop_m sp p e e3 (pred i) m);
      Ok (j_cpy_m k P (mulSp sp) r [mulT sp] m).
End MulMem.

(** ** Exponentiation in F_p^12: sm9_field.cpp 910-974; an element has [k] limbs *)
Section PowMem.
  Variables (k : nat) (P : op -> proc) (is0 : mem -> nat -> bool).
  (** the locals t and lut_table; the callees' locals *)
  Definition powT (sp : nat) : nat := sp.
  Definition powLut (sp j : nat) : nat := (sp + k * S j)%nat.
  Definition powSp (sp : nat) : nat := (sp + k * 15)%nat.
  (** 924-928, [n] iterations from j on *)
  Fixpoint lut12_m (sp a j n : nat) (m : mem) : mem :=
    match n with
    | O => m
    | S n' => lut12_m sp a (S j) n' (P Mul (powSp sp) (powLut sp j) [powLut sp (pred j); a] m)
    end.
  (** 934, 943, 949, 962, 971: the address of [(index == 1) ? a : lut_table[index - 2]] *)
  Definition pick12_m (sp a : nat) (index : Z) : res nat :=
    if index =? 1 then Ok a
    else if index <? 2 then UB
    else if index - 2 <? 14 then Ok (powLut sp (Z.to_nat (index - 2))) else UB.
  Definition sqr12_m (sp : nat) (m : mem) : mem := P Sqr (powSp sp) (powT sp) [powT sp] m.
  Definition sqr12_4_m (sp : nat) (m : mem) : mem := sqr12_m sp (sqr12_m sp (sqr12_m sp (sqr12_m sp m))).
  (** 940-944, 959-963, 968-972 *)
  Definition nibble12_m (sp a : nat) (index : Z) (m : mem) : res mem :=
    if index =? 0 then Ok m
    else do x <- pick12_m sp a index; Ok (P Mul (powSp sp) (powT sp) [powT sp; x] m).
  (** 952-973 *)
  Fixpoint pow12_loop_m (sp a : nat) (bs : list Z) (m : mem) : res mem :=
    match bs with
    | [] => Ok m
    | b :: bs' =>
        let m := sqr12_4_m sp m in
        do m <- nibble12_m sp a (Z.land (Z.shiftr b 4) 15) m;
        let m := sqr12_4_m sp m in
        do m <- nibble12_m sp a (Z.land b 15) m;
        pow12_loop_m sp a bs' m
    end.
  (** 910-974; [eb]: the bytes readable from e_u8 on *)
  Definition fp12_pow_m (eb : list Z) (sp r a : nat) (m : mem) : res mem :=
    if is0 m a then Ok (P Zero sp r [] m)
    else
      let m := P Sqr (powSp sp) (powLut sp 0) [a] m in
      let m := lut12_m sp a 1 13 m in
      do (i, rest) <- skip0 eb 0;
      let b := nz rest 0 in
      do m <- (if 15 <? b then
                 do x <- pick12_m sp a (Z.land (Z.shiftr b 4) 15);
                 nibble12_m sp a (Z.land b 15) (sqr12_4_m sp (P Cpy (powSp sp) (powT sp) [x] m))
               else do x <- pick12_m sp a (Z.land b 15); Ok (P Cpy (powSp sp) (powT sp) [x] m));
      let i := S i in
      do bs <- (if (i <? 32)%nat then read eb i (32 - i) else Ok []);
      do m <- pow12_loop_m sp a bs m;
      Ok (P Cpy (powSp sp) r [powT sp] m).
End PowMem.

(** ** Final exponentiation; over F_p^12, [Ext 10] and [Ext 11] are the powers A3 and A2, [Ext 12] is
    the hard part *)
(** sm9_field.cpp 2214-2262, locals t0 .. t4 *)
Definition b_hard_part : list ins :=
  [i1 (Ext 10) (L_ 0) (a_ 0); i1 Inv (L_ 0) (L_ 0); i1 (Ext 1) (L_ 1) (L_ 0); i2 Mul (L_ 1) (L_ 0) (L_ 1);
   i2 Mul (L_ 0) (L_ 0) (L_ 1); i1 (Ext 1) (L_ 2) (a_ 0); i2 Mul (L_ 3) (L_ 2) (a_ 0);
   i1 Sqr (L_ 4) (L_ 3); i1 Sqr (L_ 4) (L_ 4); i1 Sqr (L_ 4) (L_ 4); i2 Mul (L_ 3) (L_ 4) (L_ 3);
   i2 Mul (L_ 0) (L_ 0) (L_ 3); i1 Sqr (L_ 3) (a_ 0); i1 Sqr (L_ 3) (L_ 3); i2 Mul (L_ 0) (L_ 0) (L_ 3);
   i1 Sqr (L_ 2) (L_ 2); i2 Mul (L_ 2) (L_ 2) (L_ 1); i1 (Ext 2) (L_ 1) (a_ 0); i2 Mul (L_ 1) (L_ 1) (L_ 2);
   i1 (Ext 11) (L_ 2) (L_ 1); i2 Mul (L_ 0) (L_ 2) (L_ 0); i1 (Ext 3) (L_ 1) (a_ 0); i2 Mul (L_ 1) (L_ 1) (L_ 0);
   i1 Cpy (R_ 0) (L_ 1)].
(** sm9_field.cpp 2267-2279, locals t0, t1 *)
Definition b_final_exp : list ins :=
  [i1 (Ext 6) (L_ 0) (a_ 0); i1 Inv (L_ 1) (a_ 0); i2 Mul (L_ 0) (L_ 0) (L_ 1); i1 (Ext 2) (L_ 1) (L_ 0);
   i2 Mul (L_ 0) (L_ 0) (L_ 1); i1 (Ext 12) (L_ 0) (L_ 0); i1 Cpy (R_ 0) (L_ 0)].
(** sm9_field.cpp 1827-1844 and 1846-1859, over F_p^2 *)
Definition b_frob_a : list ins := [i1 (Ext 1) (R_ 0) (a_ 0); i1 (Ext 1) (R_ 1) (a_ 1); i0 (Con 0) (R_ 2)].
Definition b_frob2_a : list ins := [i1 Cpy (R_ 0) (a_ 0); i1 Cpy (R_ 1) (a_ 1); i0 (Con 1) (R_ 2)].

Section PairingMem.
  Variable b : build.
  Notation k := (lims b).
  Notation P1 := (sm9_fp_m b).
  Notation P2 := (sm9_fp2_m b).
  Notation P12 := (sm9_fp12_m b).
  Definition sm9_fp12_pow_m (eb : list Z) (sp r a : nat) (m : mem) : res mem :=
    fp12_pow_m (k12 k) P12 (is012 k (sm9_is0_m b)) eb sp r a m.
  (** a power in straight-line code.  Simplification: the two exponents used are constants other than
      0, for which the exponentiation does not fail (C73_pow); its failure is not passed on. *)
  Definition pow_const (eb : list Z) : proc := fun sp r l m =>
    match sm9_fp12_pow_m eb sp r (arg l 0) m with Ok m' => m' | _ => m end.
  Definition P12p (o : op) : proc :=
    match o with Ext 10 => pow_const FE_A3 | Ext 11 => pow_const FE_A2 | _ => P12 o end.
  Definition hard_part_m : proc := code (k12 k) P12p 5 b_hard_part.
  Definition P12f (o : op) : proc := match o with Ext 12 => hard_part_m | _ => P12 o end.
  Definition final_exp_m : proc := code (k12 k) P12f 2 b_final_exp.
  Definition frob_a_m : proc := code (k2 k) P2 0 b_frob_a.
  Definition frob2_a_m : proc := code (k2 k) P2 0 b_frob2_a.

  (** *** sm9_field.cpp 2281-2333: locals T, _Q (a union: its affine form is the first two thirds),
      f, f0; then d0 and the callees' locals *)
  Definition prT (sp : nat) : nat := sp.
  Definition prQ (sp : nat) : nat := (sp + 6 * k)%nat.
  Definition prF (sp : nat) : nat := (sp + 12 * k)%nat.
  Definition prF0 (sp : nat) : nat := (sp + 24 * k)%nat.
  Definition prSp (sp : nat) : nat := (sp + 36 * k)%nat.
  Definition g2_dbl_m : proc := j_dbl_2009l_m (2 * k) P2.
  Definition g2_add_m : proc := j_add_m (2 * k) P2 (sm9_eq2_m b) g2_dbl_m.
  (** 2298, 2306, 2315, 2324, 2330: sm9_fp12_mul(f, f, f0) *)
  Definition mul_f (sp : nat) (m : mem) : mem := P12 Mul (prSp sp) (prF sp) [prF sp; prF0 sp] m.
  (** 2303-2309 and 2312-2318: the line through T and the affine point at q, then T = T + that point *)
  Definition line_step (sp p q : nat) (m : mem) : mem :=
    let m := line_jaa_m k P1 (prSp sp) (prF0 sp) (prT sp) q p m in
    let m := mul_f sp m in
    j_add_a_m (2 * k) P2 (prSp sp) (prT sp) [prT sp; q] m.
  (** 2293-2319 *)
  Definition miller_step_m (sp p q : nat) (c : Z) (m : mem) : mem :=
    let m := P12 Sqr (prSp sp) (prF sp) [prF sp] m in
    let m := tangent_m k P1 (prSp sp) (prF0 sp) (prT sp) p m in
    let m := mul_f sp m in
    let m := g2_dbl_m (prSp sp) (prT sp) [prT sp] m in
    if c =? 1 then line_step sp p q m
    else if c =? 2 then line_step sp p (prQ sp) m
    else m.
  Definition sm9_pairing_m (sp r p q : nat) (m : mem) : mem :=
    let m := P12 One (prSp sp) (prF sp) [] m in
    let m := j_from_a_m (2 * k) P2 (prSp sp) (prT sp) [q] m in
    let m := a_neg_m (2 * k) P2 (prSp sp) (prQ sp) [q] m in
    let m := fold_left (fun m c => miller_step_m sp p q c m) (tl NAF_A) m in
    let m := frob_a_m (prSp sp) (prQ sp) [q] m in
    let m := line_jja_m k P1 (prSp sp) (prF0 sp) (prT sp) (prQ sp) p m in
    let m := mul_f sp m in
    let m := g2_add_m (prSp sp) (prT sp) [prT sp; prQ sp] m in
    let m := frob2_a_m (prSp sp) (prQ sp) [q] m in
    let m := j_neg_m (2 * k) P2 (prSp sp) (prQ sp) [prQ sp] m in
    let m := line_jja_m k P1 (prSp sp) (prF0 sp) (prT sp) (prQ sp) p m in
    let m := mul_f sp m in
    final_exp_m (prSp sp) r [prF sp] m.
End PairingMem.

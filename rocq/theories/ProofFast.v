(** Arithmetic modulo N arranged to be cheap for the kernel's reduction machine: multiplication by
    4-bit windows, reduction without division, exponentiation.  Only congruences are needed, so no
    range reasoning. *)
From Verif Require Import Base BaseFacts.

Fixpoint mulw (t1 t2 t3 t4 t5 t6 t7 t8 t9 t10 t11 t12 t13 t14 t15 x : positive) : positive :=
  match x with
  | xH => t1
  | xO xH => t2
  | xI xH => t3
  | xO (xO xH) => t4
  | xI (xO xH) => t5
  | xO (xI xH) => t6
  | xI (xI xH) => t7
  | xO (xO (xO xH)) => t8
  | xI (xO (xO xH)) => t9
  | xO (xI (xO xH)) => t10
  | xI (xI (xO xH)) => t11
  | xO (xO (xI xH)) => t12
  | xI (xO (xI xH)) => t13
  | xO (xI (xI xH)) => t14
  | xI (xI (xI xH)) => t15
  | xO (xO (xO (xO r))) => xO (xO (xO (xO (mulw t1 t2 t3 t4 t5 t6 t7 t8 t9 t10 t11 t12 t13 t14 t15 r))))
  | xI (xO (xO (xO r))) => Pos.add t1 (xO (xO (xO (xO (mulw t1 t2 t3 t4 t5 t6 t7 t8 t9 t10 t11 t12 t13 t14 t15 r)))))
  | xO (xI (xO (xO r))) => Pos.add t2 (xO (xO (xO (xO (mulw t1 t2 t3 t4 t5 t6 t7 t8 t9 t10 t11 t12 t13 t14 t15 r)))))
  | xI (xI (xO (xO r))) => Pos.add t3 (xO (xO (xO (xO (mulw t1 t2 t3 t4 t5 t6 t7 t8 t9 t10 t11 t12 t13 t14 t15 r)))))
  | xO (xO (xI (xO r))) => Pos.add t4 (xO (xO (xO (xO (mulw t1 t2 t3 t4 t5 t6 t7 t8 t9 t10 t11 t12 t13 t14 t15 r)))))
  | xI (xO (xI (xO r))) => Pos.add t5 (xO (xO (xO (xO (mulw t1 t2 t3 t4 t5 t6 t7 t8 t9 t10 t11 t12 t13 t14 t15 r)))))
  | xO (xI (xI (xO r))) => Pos.add t6 (xO (xO (xO (xO (mulw t1 t2 t3 t4 t5 t6 t7 t8 t9 t10 t11 t12 t13 t14 t15 r)))))
  | xI (xI (xI (xO r))) => Pos.add t7 (xO (xO (xO (xO (mulw t1 t2 t3 t4 t5 t6 t7 t8 t9 t10 t11 t12 t13 t14 t15 r)))))
  | xO (xO (xO (xI r))) => Pos.add t8 (xO (xO (xO (xO (mulw t1 t2 t3 t4 t5 t6 t7 t8 t9 t10 t11 t12 t13 t14 t15 r)))))
  | xI (xO (xO (xI r))) => Pos.add t9 (xO (xO (xO (xO (mulw t1 t2 t3 t4 t5 t6 t7 t8 t9 t10 t11 t12 t13 t14 t15 r)))))
  | xO (xI (xO (xI r))) => Pos.add t10 (xO (xO (xO (xO (mulw t1 t2 t3 t4 t5 t6 t7 t8 t9 t10 t11 t12 t13 t14 t15 r)))))
  | xI (xI (xO (xI r))) => Pos.add t11 (xO (xO (xO (xO (mulw t1 t2 t3 t4 t5 t6 t7 t8 t9 t10 t11 t12 t13 t14 t15 r)))))
  | xO (xO (xI (xI r))) => Pos.add t12 (xO (xO (xO (xO (mulw t1 t2 t3 t4 t5 t6 t7 t8 t9 t10 t11 t12 t13 t14 t15 r)))))
  | xI (xO (xI (xI r))) => Pos.add t13 (xO (xO (xO (xO (mulw t1 t2 t3 t4 t5 t6 t7 t8 t9 t10 t11 t12 t13 t14 t15 r)))))
  | xO (xI (xI (xI r))) => Pos.add t14 (xO (xO (xO (xO (mulw t1 t2 t3 t4 t5 t6 t7 t8 t9 t10 t11 t12 t13 t14 t15 r)))))
  | xI (xI (xI (xI r))) => Pos.add t15 (xO (xO (xO (xO (mulw t1 t2 t3 t4 t5 t6 t7 t8 t9 t10 t11 t12 t13 t14 t15 r)))))
  end.

(** windowed multiplication *)
Definition pmul (x y : positive) : positive :=
  let y2 := xO y in let y3 := Pos.add y2 y in let y4 := xO y2 in let y5 := Pos.add y4 y in
  let y6 := xO y3 in let y7 := Pos.add y6 y in let y8 := xO y4 in let y9 := Pos.add y8 y in
  let y10 := xO y5 in let y11 := Pos.add y10 y in let y12 := xO y6 in let y13 := Pos.add y12 y in
  let y14 := xO y7 in let y15 := Pos.add y14 y in
  mulw y y2 y3 y4 y5 y6 y7 y8 y9 y10 y11 y12 y13 y14 y15 x.

Lemma pmul_spec x y : pmul x y = Pos.mul x y.
Proof.
  unfold pmul. revert x. fix IH 1.
  destruct x as [[[[r|r|]|[r|r|]|]|[[r|r|]|[r|r|]|]|]|[[[r|r|]|[r|r|]|]|[[r|r|]|[r|r|]|]|]|];
    cbn [mulw]; cbv zeta; first [specialize (IH r); cbv zeta in IH; rewrite IH|idtac]; clear IH; lia.
Qed.

Definition fmulz (x y : Z) : Z :=
  match x with
  | Z0 => Z0
  | Zpos a => match y with Z0 => Z0 | Zpos b => Zpos (pmul a b) | Zneg b => Zneg (pmul a b) end
  | Zneg a => match y with Z0 => Z0 | Zpos b => Zneg (pmul a b) | Zneg b => Zpos (pmul a b) end
  end.
Lemma fmulz_spec x y : fmulz x y = x * y.
Proof. destruct x, y; cbn [fmulz]; rewrite ?pmul_spec; reflexivity. Qed.

(** Barrett reduction; any [mu] and [k] give a congruent result *)
Definition barrett (N mu k : Z) (x : Z) : Z :=
  x - fmulz (Z.shiftr (fmulz (Z.shiftr x (k - 1)) mu) (k + 9)) N.
Lemma barrett_spec N mu k x : barrett N mu k x mod N = x mod N.
Proof.
  unfold barrett. rewrite !fmulz_spec. set (q := Z.shiftr _ _). clearbody q.
  replace (x - q * N) with (x + (- q) * N) by lia. apply Z_mod_plus_full.
Qed.

(** folding: x = h 2^k + l is congruent to h c + l when N = 2^k - c *)
Definition fold_red (k : Z) (mulc : Z -> Z) (x : Z) : Z :=
  let h := Z.shiftr x k in mulc h + (x - Z.shiftl h k).
Lemma fold_red_spec N k c mulc x : 0 <= k -> N = 2 ^ k - c -> (forall h, mulc h = h * c) ->
  fold_red k mulc x mod N = x mod N.
Proof.
  intros Hk HN Hm. unfold fold_red. cbv zeta. rewrite Hm, Z.shiftl_mul_pow2 by assumption.
  generalize (Z.shiftr x k) as h. intros h.
  replace (h * c + (x - h * 2 ^ k)) with (x + (- h) * N) by (subst N; ring).
  apply Z_mod_plus_full.
Qed.

Section Pow.
  Variables (N : Z) (red : Z -> Z).
  Hypothesis red_ok : forall x, red x mod N = x mod N.

  Fixpoint fpow (b : Z) (e : positive) : Z :=
    match e with
    | xH => b
    | xO e' => let r := fpow b e' in red (fmulz r r)
    | xI e' => let r := fpow b e' in red (fmulz b (red (fmulz r r)))
    end.
  Lemma fpow_spec b e : fpow b e mod N = b ^ Z.pos e mod N.
  Proof.
    induction e as [e IH|e IH|]; cbn [fpow]; cbv zeta.
    - rewrite red_ok, fmulz_spec, <- Zmult_mod_idemp_r, red_ok, fmulz_spec, Zmult_mod_idemp_r.
      rewrite Zmult_mod, (Zmult_mod (fpow b e)), IH, <- (Zmult_mod (b ^ _)), <- Zmult_mod.
      f_equal. rewrite Pos2Z.inj_xI, Z.pow_add_r, Z.pow_twice_r by lia. lia.
    - rewrite red_ok, fmulz_spec, Zmult_mod, IH, <- Zmult_mod. f_equal.
      rewrite Pos2Z.inj_xO, Z.pow_twice_r. reflexivity.
    - now rewrite Z.pow_1_r.
  Qed.
End Pow.

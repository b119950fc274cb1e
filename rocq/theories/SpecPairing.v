(** The R-ate pairing of GB/T 38635.1 (GM/T 0044.1) Annex A, written over the curve y^2 = x^3 + 5 over
    F_p^12 with the textbook group law, and the map from the twist y^2 = x^3 + 5u over F_p^2 into it. *)
From Verif Require Import Base SpecField SpecEC SpecSM9.

(** ** The parameter t: p, n and the length of the Miller loop are polynomials in it *)
Definition SM9_t : Z := 0x600000000058F98A.
(** signed binary digits of 6t + 2, most significant first *)
Definition SM9_digits : list Z :=
  [1; 0; 0; 1; 0; 0; 0; 0; 0; 0; 0; 0; 0; 0; 0; 0; 0; 0; 0; 0; 0; 0; 0; 0; 0; 0; 0; 0; 0; 0; 0; 0;
   0; 0; 0; 0; 0; 0; 0; 0; 1; 0; 0; 0; 0; 1; 0; 1; 1; 0; 0; 0; -1; 0; -1; 0; 0; 1; 0; 1; 0; 0; 0; 0;
   -1; 0].
Definition digits_value (ds : list Z) : Z := fold_left (fun k d => 2 * k + d) ds 0.

(** ** Points over F_p^12 *)
Definition emb1 (x : F1) : F12 := (((x, f0 K1), f0 K2), f0 K4, f0 K4).
Definition emb2 (x : F2) : F12 := ((x, f0 K2), f0 K4, f0 K4).
Notation "a +' b" := (fadd K12 a b) (at level 50, left associativity).
Notation "a *' b" := (fmul K12 a b) (at level 40, left associativity).
Notation "a -' b" := (fsub K12 a b) (at level 50, left associativity).
Notation "a /' b" := (fdiv K12 a b) (at level 40, left associativity).
Definition E12_add (P Q : point F12) : point F12 := ec_add K12 (f0 K12) P Q.
Definition E12_neg (P : point F12) : point F12 := ec_neg K12 P.
Definition lift1 (P : point F1) : point F12 :=
  match P with Inf => Inf | Aff x y => Aff (emb1 x) (emb1 y) end.
Definition untwist (Q : point F2) : point F12 :=
  match Q with Inf => Inf | Aff x y => Aff (emb2 x /' (w12 *' w12)) (emb2 y /' (w12 *' w12 *' w12)) end.
(** the p-power Frobenius map *)
Definition frob (Q : point F12) : point F12 :=
  match Q with Inf => Inf | Aff x y => Aff (fpow K12 x SM9_p) (fpow K12 y SM9_p) end.

(** ** Lines: g_{U,V}(S) is the equation of the line through U and V (the tangent if U = V) at S *)
Definition line_at {F : Type} (K : field F) (U V S : point F) : F :=
  match U, V, S with
  | Aff xU yU, Aff xV yV, Aff xS yS =>
      if feq_dec K xU xV then
        if feq_dec K yU (fopp K yV) then fsub K xS xV
        else
          let l := fdiv K (fadd K (fadd K (fmul K xV xV) (fmul K xV xV)) (fmul K xV xV)) (fadd K yV yV) in
          fadd K (fsub K (fmul K l (fsub K xS xV)) yS) yV
      else
        let l := fdiv K (fsub K yU yV) (fsub K xU xV) in
        fadd K (fsub K (fmul K l (fsub K xS xV)) yS) yV
  | _, _, _ => f1 K
  end.
Definition g_line (U V S : point F12) : F12 := line_at K12 U V S.

(** ** Miller's loop and the pairing *)
Definition rate_step (P Q : point F12) (s : F12 * point F12) (d : Z) : F12 * point F12 :=
  let '(f, T) := s in
  let f := f *' f *' g_line T T P in
  let T := E12_add T T in
  if d =? 1 then (f *' g_line T Q P, E12_add T Q)
  else if d =? -1 then (f *' g_line T (E12_neg Q) P, E12_add T (E12_neg Q))
  else (f, T).
Definition rate_miller (P Q : point F12) : F12 :=
  let '(f, T) := fold_left (rate_step P Q) (tl SM9_digits) (f1 K12, Q) in
  let Q1 := frob Q in
  let Q2 := frob (frob Q) in
  let f := f *' g_line T Q1 P in
  let T := E12_add T Q1 in
  f *' g_line T (E12_neg Q2) P.
Definition SM9_rate (P Q : point F12) : F12 := fpow K12 (rate_miller P Q) ((SM9_p ^ 12 - 1) / SM9_n).
(** e(P, Q) for P in G1 and Q in G2 (on the twist) *)
Definition SM9_e (P : point F1) (Q : point F2) : F12 := SM9_rate (lift1 P) (untwist Q).

(** GB/T 32907-2016 (SM4), from the standard.  The S-box is given in its algebraic form
    (composition of an affine map of GF(2)^8, the inversion of GF(2^8) modulo
    x^8+x^7+x^6+x^5+x^4+x^2+1 and the same affine map); the constants CK by their formula. *)
From Verif Require Import Base SpecSM3.

(** Product in GF(2)[x] of two polynomials of degree < 8, reduced modulo [poly] (degree 8). *)
Definition gf8_xtime (poly a : Z) : Z :=
  if a <? 128 then 2 * a else Z.lxor (2 * a) poly.
Fixpoint gf8_mul_aux (poly : Z) (n : nat) (a b : Z) : Z :=
  match n with
  | O => 0
  | S n' => Z.lxor (if Z.odd b then a else 0) (gf8_mul_aux poly n' (gf8_xtime poly a) (Z.div2 b))
  end.
Definition gf8_mul (poly a b : Z) : Z := gf8_mul_aux poly 8 a b.
(** the product of the first [n] iterated squares a^2, a^4, a^8, ... *)
Fixpoint gf8_squares (poly a : Z) (n : nat) : Z :=
  match n with
  | O => 1
  | S n' => let s := gf8_mul poly a a in gf8_mul poly s (gf8_squares poly s n')
  end.
(** a^254 = a^2 a^4 a^8 ... a^128, the inverse of a (and 0 for 0) *)
Definition gf8_inv (poly a : Z) : Z := gf8_squares poly a 7.

(** Parity of the bits of a byte. *)
Definition parity8 (x : Z) : Z :=
  fold_left (fun s i => (s + x / 2 ^ i) mod 2) [0; 1; 2; 3; 4; 5; 6; 7] 0.
(** Rotation of a byte by i positions to the left. *)
Definition rol8 (x i : Z) : Z := (x * 2 ^ i) mod 256 + x / 2 ^ (8 - i).
(** The affine map with circulant matrix 0xA7 and constant 0xD3. *)
Definition sm4_affine (x : Z) : Z :=
  Z.lxor 0xD3 (fold_left (fun y i => y + parity8 (Z.land x (rol8 0xA7 i)) * 2 ^ i)
                         [0; 1; 2; 3; 4; 5; 6; 7] 0).
Definition Sbox (x : Z) : Z := sm4_affine (gf8_inv 0x1F5 (sm4_affine x)).

(** 6.2.1 tau: the S-box on each of the four bytes (most significant first) of a word. *)
Definition tau (x : Z) : Z := be_val (map Sbox (be_bytes 4 x)).
(** 6.2.2 *)
Definition L_enc (b : Z) : Z :=
  Z.lxor (Z.lxor (Z.lxor (Z.lxor b (rol b 2)) (rol b 10)) (rol b 18)) (rol b 24).
(** 7.3 *)
Definition L_key (b : Z) : Z := Z.lxor (Z.lxor b (rol b 13)) (rol b 23).

Definition quad := (Z * Z * Z * Z)%type.
(** 6.1: X_{i+4} = X_i + L(tau(X_{i+1} + X_{i+2} + X_{i+3} + rk_i)); the window moves by one. *)
Definition gstep (L : Z -> Z) (x : quad) (rk : Z) : quad :=
  let '(x0, x1, x2, x3) := x in
  (x1, x2, x3, Z.lxor x0 (L (tau (Z.lxor (Z.lxor (Z.lxor x1 x2) x3) rk)))).

Definition quad_of (b : list Z) : quad :=
  (be_val (slice b 0 4), be_val (slice b 4 4), be_val (slice b 8 4), be_val (slice b 12 4)).
(** 7.1: (Y0, Y1, Y2, Y3) = (X35, X34, X33, X32) *)
Definition rev_bytes (x : quad) : list Z :=
  let '(x0, x1, x2, x3) := x in be_bytes 4 x3 ++ be_bytes 4 x2 ++ be_bytes 4 x1 ++ be_bytes 4 x0.

(** 7.3 key expansion *)
Definition FKs : quad := (0xA3B1BAC6, 0x56AA3350, 0x677D9197, 0xB27022DC).
Definition CKs (i : nat) : Z :=
  be_val (map (fun j => (4 * Z.of_nat i + j) * 7 mod 256) [0; 1; 2; 3]).
Definition key0 (mk : list Z) : quad :=
  let '(a0, a1, a2, a3) := quad_of mk in let '(f0, f1, f2, f3) := FKs in
  (Z.lxor a0 f0, Z.lxor a1 f1, Z.lxor a2 f2, Z.lxor a3 f3).
(** the window (K_i .. K_{i+3}) after i steps *)
Definition key_window (mk : list Z) (i : nat) : quad :=
  fold_left (gstep L_key) (map CKs (seq 0 i)) (key0 mk).
(** rk_i = K_{i+4} *)
Definition rk (mk : list Z) (i : nat) : Z := snd (key_window mk (S i)).

(** 7.1 encryption, 7.2 decryption (round keys in reverse order) *)
Definition SM4_enc (mk b : list Z) : list Z :=
  rev_bytes (fold_left (gstep L_enc) (map (rk mk) (seq 0 32)) (quad_of b)).
Definition SM4_dec (mk b : list Z) : list Z :=
  rev_bytes (fold_left (gstep L_enc) (rev (map (rk mk) (seq 0 32))) (quad_of b)).

(** FIPS 197 (AES), from the standard.  The state is the 16 input bytes in order: byte r + 4c is row
    r of column c (3.4).  The S-box is given in its algebraic form. *)
From Verif Require Import Base SpecSM4.

(** 4.2 multiplication modulo m(x) = x^8 + x^4 + x^3 + x + 1 *)
Definition gmulA (a b : Z) : Z := gf8_mul 0x11B a b.

(** 5.1.1: the inverse, then b'_i = b_i + b_{i+4} + b_{i+5} + b_{i+6} + b_{i+7} + c_i, c = 0x63 *)
Definition AES_Sbox (x : Z) : Z :=
  let b := gf8_inv 0x11B x in
  Z.lxor (Z.lxor (Z.lxor (Z.lxor (Z.lxor b (rol8 b 1)) (rol8 b 2)) (rol8 b 3)) (rol8 b 4)) 0x63.
(** 5.3.2: the inverse of the affine map, then the inverse *)
Definition AES_InvSbox (x : Z) : Z :=
  gf8_inv 0x11B (Z.lxor (Z.lxor (Z.lxor (rol8 x 1) (rol8 x 3)) (rol8 x 6)) 0x05).

Definition SubBytes (s : list Z) : list Z := map AES_Sbox s.
Definition InvSubBytes (s : list Z) : list Z := map AES_InvSbox s.
(** 5.1.2: s'_{r,c} = s_{r,(c+r) mod 4}; 5.3.1: s'_{r,(c+r) mod 4} = s_{r,c} *)
Definition ShiftRows (s : list Z) : list Z :=
  map (fun i => let r := (i mod 4)%nat in let c := (i / 4)%nat in nz s (r + 4 * ((c + r) mod 4))) (seq 0 16).
Definition InvShiftRows (s : list Z) : list Z :=
  map (fun i => let r := (i mod 4)%nat in let c := (i / 4)%nat in nz s (r + 4 * ((c + 4 - r) mod 4))) (seq 0 16).
(** 5.1.3, 5.3.3: a column times a circulant matrix with first row [m] *)
Definition circ (m0 m1 m2 m3 : Z) (col : list Z) : list Z :=
  let a := nz col 0 in let b := nz col 1 in let c := nz col 2 in let d := nz col 3 in
  [Z.lxor (Z.lxor (Z.lxor (gmulA m0 a) (gmulA m1 b)) (gmulA m2 c)) (gmulA m3 d);
   Z.lxor (Z.lxor (Z.lxor (gmulA m3 a) (gmulA m0 b)) (gmulA m1 c)) (gmulA m2 d);
   Z.lxor (Z.lxor (Z.lxor (gmulA m2 a) (gmulA m3 b)) (gmulA m0 c)) (gmulA m1 d);
   Z.lxor (Z.lxor (Z.lxor (gmulA m1 a) (gmulA m2 b)) (gmulA m3 c)) (gmulA m0 d)].
Definition MixColumns (s : list Z) : list Z := concat (map (circ 2 3 1 1) (cut 4 4 s)).
Definition InvMixColumns (s : list Z) : list Z := concat (map (circ 14 11 13 9) (cut 4 4 s)).

(** 5.2 key expansion; words are lists of four bytes *)
Definition SubWord (w : list Z) : list Z := map AES_Sbox w.
Definition RotWord (w : list Z) : list Z := skipn 1 w ++ firstn 1 w.
(** Rcon[i] = [x^(i-1), 0, 0, 0] *)
Fixpoint xpow (n : nat) : Z := match n with O => 1 | S n' => gmulA 2 (xpow n') end.
Definition Rcon (i : nat) : list Z := [xpow (i - 1); 0; 0; 0].
Definition ktemp (Nk i : nat) (temp : list Z) : list Z :=
  if (i mod Nk =? 0)%nat then xorl (SubWord (RotWord temp)) (Rcon (i / Nk))
  else if (6 <? Nk)%nat && (i mod Nk =? 4)%nat then SubWord temp
  else temp.
(** w[i] = w[i-Nk] xor temp, [n] times; [ws] holds w[0..i-1] *)
Fixpoint key_more (Nk n : nat) (ws : list (list Z)) : list (list Z) :=
  match n with
  | O => ws
  | S n' =>
      let i := length ws in
      key_more Nk n' (ws ++ [xorl (nth (i - Nk) ws []) (ktemp Nk i (nth (i - 1) ws []))])
  end.
Definition KeyExpansion (Nk Nr : nat) (key : list Z) : list (list Z) :=
  key_more Nk (4 * (Nr + 1) - Nk) (cut 4 Nk key).
(** the four words of round r *)
Definition round_key (w : list (list Z)) (r : nat) : list Z := concat (slice w (4 * r) 4).

(** 5.1 Cipher, 5.3 InvCipher *)
Definition Cipher (Nr : nat) (w : list (list Z)) (b : list Z) : list Z :=
  let s := xorl b (round_key w 0) in
  let s := fold_left (fun s r => xorl (MixColumns (ShiftRows (SubBytes s))) (round_key w r)) (seq 1 (Nr - 1)) s in
  xorl (ShiftRows (SubBytes s)) (round_key w Nr).
Definition InvCipher (Nr : nat) (w : list (list Z)) (b : list Z) : list Z :=
  let s := xorl b (round_key w Nr) in
  let s := fold_left (fun s r => InvMixColumns (xorl (InvSubBytes (InvShiftRows s)) (round_key w r))) (rev (seq 1 (Nr - 1))) s in
  xorl (InvSubBytes (InvShiftRows s)) (round_key w 0).

(** Figure 4: Nk = 4, 6, 8 and Nr = 10, 12, 14 for keys of 16, 24, 32 bytes *)
Definition AES_enc (key b : list Z) : list Z :=
  let Nk := (length key / 4)%nat in Cipher (Nk + 6) (KeyExpansion Nk (Nk + 6) key) b.
Definition AES_dec (key b : list Z) : list Z :=
  let Nk := (length key / 4)%nat in InvCipher (Nk + 6) (KeyExpansion Nk (Nk + 6) key) b.

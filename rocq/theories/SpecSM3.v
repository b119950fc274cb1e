(** GB/T 32905-2016 (SM3) and RFC 2104 (HMAC), transcribed from the standards. *)
From Verif Require Import Base.

(** Cyclic left rotation of a 32-bit word by k (mod 32) positions. *)
Definition rol (x : Z) (k : Z) : Z :=
  let k := k mod 32 in (x * 2 ^ k) mod 2 ^ 32 + x / 2 ^ (32 - k).

Definition Tj (j : nat) : Z := if (j <=? 15)%nat then 0x79cc4519 else 0x7a879d8a.
Definition FFj (j : nat) (x y z : Z) : Z :=
  if (j <=? 15)%nat then Z.lxor (Z.lxor x y) z
  else Z.lor (Z.lor (Z.land x y) (Z.land x z)) (Z.land y z).
(** bitwise complement of a 32-bit word *)
Definition neg32 (x : Z) : Z := 2 ^ 32 - 1 - x.
Definition GGj (j : nat) (x y z : Z) : Z :=
  if (j <=? 15)%nat then Z.lxor (Z.lxor x y) z
  else Z.lor (Z.land x y) (Z.land (neg32 x) z).
Definition SP0 (x : Z) : Z := Z.lxor (Z.lxor x (rol x 9)) (rol x 17).
Definition SP1 (x : Z) : Z := Z.lxor (Z.lxor x (rol x 15)) (rol x 23).

(** 5.2 Padding: append bit 1, then the least number of zero bits, then the 64-bit length. *)
Definition pad (m : list Z) : list Z :=
  let zeros := Z.to_nat ((55 - Z.of_nat (length m)) mod 64) in
  m ++ [128] ++ repeat 0 zeros ++ be_bytes 8 (8 * Z.of_nat (length m)).

(** 5.3.2 Message expansion of a 64-byte block: the words W_0 .. W_67. *)
Definition word (B : list Z) (i : nat) : Z := be_val (slice B (4 * i) 4).
Fixpoint Wlist (B : list Z) (n : nat) : list Z :=   (* W_0 .. W_{n-1} *)
  match n with
  | O => []
  | S j =>
      let W := Wlist B j in
      W ++ [if (j <? 16)%nat then word B j
            else Z.lxor (Z.lxor (SP1 (Z.lxor (Z.lxor (nth (j - 16) W 0) (nth (j - 9) W 0))
                                             (rol (nth (j - 3) W 0) 15)))
                                (rol (nth (j - 13) W 0) 7))
                        (nth (j - 6) W 0)]
  end.

Definition st8 := (Z * Z * Z * Z * Z * Z * Z * Z)%type.

(** 5.3.3 one step of the compression function *)
Definition step (W : list Z) (V : st8) (j : nat) : st8 :=
  let '(A, B, C, D, E, F, G, H) := V in
  let SS1 := rol ((rol A 12 + E + rol (Tj j) (Z.of_nat j)) mod 2 ^ 32) 7 in
  let SS2 := Z.lxor SS1 (rol A 12) in
  let TT1 := (FFj j A B C + D + SS2 + Z.lxor (nth j W 0) (nth (j + 4) W 0)) mod 2 ^ 32 in
  let TT2 := (GGj j E F G + H + SS1 + nth j W 0) mod 2 ^ 32 in
  (TT1, A, rol B 9, C, SP0 TT2, E, rol F 19, G).

Definition CF (V : st8) (B : list Z) : st8 :=
  let W := Wlist B 68 in
  let '(a, b, c, d, e, f, g, h) := fold_left (step W) (seq 0 64) V in
  let '(a0, b0, c0, d0, e0, f0, g0, h0) := V in
  (Z.lxor a a0, Z.lxor b b0, Z.lxor c c0, Z.lxor d d0,
   Z.lxor e e0, Z.lxor f f0, Z.lxor g g0, Z.lxor h h0).

Definition IV : st8 :=
  (0x7380166f, 0x4914b2b9, 0x172442d7, 0xda8a0600, 0xa96f30bc, 0x163138aa, 0xe38dee4d, 0xb0fb0e4e).

Definition out8 (V : st8) : list Z :=
  let '(a, b, c, d, e, f, g, h) := V in
  concat (map (be_bytes 4) [a; b; c; d; e; f; g; h]).

(** The SM3 function. *)
Definition SM3 (m : list Z) : list Z :=
  let p := pad m in
  out8 (fold_left CF (cut 64 (length p / 64) p) IV).

(** SM3 is defined for messages shorter than 2^64 bits. *)
Definition sm3_domain (m : list Z) : Prop := 8 * Z.of_nat (length m) < 2 ^ 64.

(** RFC 2104 over a hash [H] with block size [B]. *)
Definition hmac_key0 (H : list Z -> list Z) (B : nat) (key : list Z) : list Z :=
  let k := if (B <? length key)%nat then H key else key in
  k ++ repeat 0 (B - length k).
Definition HMAC (H : list Z -> list Z) (B : nat) (key m : list Z) : list Z :=
  let k0 := hmac_key0 H B key in
  H (xorl k0 (repeat 0x5c B) ++ H (xorl k0 (repeat 0x36 B) ++ m)).

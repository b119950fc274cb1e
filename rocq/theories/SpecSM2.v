(** Specification: the SM2 algorithms of GB/T 32918.1-4 over the curve of SpecSM2Curve, for a hash
    function [Hd] given as a function on byte strings.  Nothing here refers to the model. *)
From Verif Require Import Base SpecField SpecEC SpecSM2Curve.

(** GB/T 32918.1 4.2.5-4.2.6: a field element as 32 bytes, most significant first *)
Definition SM2_fb (x : SM2_F) : list Z := be_bytes 32 (fval x).

(** GB/T 32918.1 4.2.8: the three encodings of a finite point *)
Definition SM2_uncompressed (x y : SM2_F) : list Z := 4 :: SM2_fb x ++ SM2_fb y.
Definition SM2_compressed (x y : SM2_F) : list Z := (2 + fval y mod 2) :: SM2_fb x.
Definition SM2_mixed (x y : SM2_F) : list Z := (6 + fval y mod 2) :: SM2_fb x ++ SM2_fb y.

Section Hash.
  Variable Hd : list Z -> list Z.

  (** GB/T 32918.2 5.5: Z_A = H(ENTL || ID || a || b || x_G || y_G || x_A || y_A), ENTL the length of
      ID in bits as two bytes *)
  Definition SM2_Z (id : list Z) (x y : SM2_F) : list Z :=
    Hd (be_bytes 2 (8 * Z.of_nat (length id)) ++ id ++ be_bytes 32 SM2_a ++ be_bytes 32 SM2_b
        ++ be_bytes 32 SM2_Gx ++ be_bytes 32 SM2_Gy ++ SM2_fb x ++ SM2_fb y).
  (** e = H(Z_A || M) as an integer *)
  Definition SM2_e (id msg : list Z) (x y : SM2_F) : Z := be_val (Hd (SM2_Z id x y ++ msg)).

  (** GB/T 32918.2 clause 7, steps B1-B7: (r, s) is a valid signature of the message under the public
      key (x, y).  The point [s]G + [t]P has to have coordinates. *)
  Definition SM2_valid (x y : SM2_F) (id msg : list Z) (r s : Z) : Prop :=
    1 <= r <= SM2_n - 1 /\ 1 <= s <= SM2_n - 1 /\
    let t := (r + s) mod SM2_n in
    t <> 0 /\
    exists x1 y1, SM2_add (SM2_mul s SM2_G) (SM2_mul t (Aff x y)) = Aff x1 y1 /\
                  (SM2_e id msg x y + fval x1) mod SM2_n = r.

  (** GB/T 32918.2 clause 6, steps A4-A6 with the random number [k]: (r, s) is what they compute and
      none of the three conditions for another k holds.  s is (1 + d)^-1 (k - r d) mod n, written
      without the inverse. *)
  Definition SM2_signature (d e k r s : Z) : Prop :=
    exists x1 y1, SM2_mul k SM2_G = Aff x1 y1 /\
    r = (e + fval x1) mod SM2_n /\ r <> 0 /\ r + k <> SM2_n /\
    0 < s < SM2_n /\ ((1 + d) * s) mod SM2_n = (k - r * d) mod SM2_n.

  (** GB/T 32918.4 5.4.3: KDF(Z, klen), klen in bytes: H(Z || 1) || H(Z || 2) || ... cut to klen *)
  Definition SM2_kdf_block (Zb : list Z) (ct : Z) : list Z := Hd (Zb ++ be_bytes 4 ct).
  Definition SM2_kdf (Zb : list Z) (klen : nat) : list Z :=
    firstn klen (concat (map (fun i => SM2_kdf_block Zb (Z.of_nat i)) (seq 1 klen))).

  (** GB/T 32918.4 clause 6: what the ciphertext of [m] for the public key (x, y) and the random k
      consists of: C1 as a point, C2 and C3.  The condition of step A5 (KDF output all zero: choose
      another k) is separate. *)
  Definition SM2_C2 (x2 y2 : SM2_F) (m : list Z) : list Z :=
    xorl m (SM2_kdf (SM2_fb x2 ++ SM2_fb y2) (length m)).
  Definition SM2_C3 (x2 y2 : SM2_F) (m : list Z) : list Z := Hd (SM2_fb x2 ++ m ++ SM2_fb y2).
  Definition SM2_kdf_zero (x2 y2 : SM2_F) (klen : nat) : Prop :=
    (0 < klen)%nat /\ SM2_kdf (SM2_fb x2 ++ SM2_fb y2) klen = repeat 0 klen.
End Hash.

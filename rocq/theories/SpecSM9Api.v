(** How the objects of the SM9 model stand for the mathematical ones, and the functions of
    GB/T 38635.2 (GM/T 0044.2) that the SM9 properties speak about. *)
From Coq Require Import Znumtheory.
From Verif Require Import Base ModelNumber SpecNumber SpecField SpecEC SpecJac ModelEC ModelSM2 ModelSM9 SpecSM9 SpecSM2 SpecSM2Api.

(** the two builds of the number library: 8 limbs of 32 bits, 4 limbs of 64 bits *)
Inductive build9 : Z -> nat -> numlib9 -> Prop :=
| build9_common : build9 32 8 lib9_common
| build9_x64 : build9 64 4 lib9_x64.

(** the array [a] holds the element [x] of F_p (Montgomery form, reduced); pairs and triples of such
    arrays hold elements of F_p^2, F_p^4, F_p^12 *)
Definition holds1 (w : Z) (nn : nat) (a : list Z) (x : F1) : Prop := mont_repr w nn SM9_p a (fval x).
Definition holds2 (w : Z) (nn : nat) (a : list Z * list Z) (x : F2) : Prop :=
  holds1 w nn (fst a) (fst x) /\ holds1 w nn (snd a) (snd x).
Definition holds4 (w : Z) (nn : nat) (a : p4 (list Z)) (x : F4) : Prop :=
  holds2 w nn (fst a) (fst x) /\ holds2 w nn (snd a) (snd x).
Definition holds12 (w : Z) (nn : nat) (a : p12 (list Z)) (x : F12) : Prop :=
  let '(a0, a1, a2) := a in let '(x0, x1, x2) := x in
  holds4 w nn a0 x0 /\ holds4 w nn a1 x1 /\ holds4 w nn a2 x2.
(** as above, but an array of the portable build may also hold 0 as the modulus itself, which is what
    its mont256_neg makes of 0 *)
Definition stored1 (w : Z) (nn : nat) (a : list Z) (x : F1) : Prop :=
  holds1 w nn a x \/ (w = 32 /\ limbs w nn a /\ val w a = SM9_p /\ x = num 0).
Definition stored2 (w : Z) (nn : nat) (a : list Z * list Z) (x : F2) : Prop :=
  stored1 w nn (fst a) (fst x) /\ stored1 w nn (snd a) (snd x).
Definition stored4 (w : Z) (nn : nat) (a : p4 (list Z)) (x : F4) : Prop :=
  stored2 w nn (fst a) (fst x) /\ stored2 w nn (snd a) (snd x).
Definition stored12 (w : Z) (nn : nat) (a : p12 (list Z)) (x : F12) : Prop :=
  let '(a0, a1, a2) := a in let '(x0, x1, x2) := x in
  stored4 w nn a0 x0 /\ stored4 w nn a1 x1 /\ stored4 w nn a2 x2.
(** a stored affine point, a stored Jacobian point (of either group) *)
Definition holds_a {T F : Type} (R : T -> F -> Prop) (Q : aff T) (x y : F) : Prop :=
  let '(X, Y) := Q in R X x /\ R Y y.
Definition holds_j {T F : Type} (K : field F) (R : T -> F -> Prop) (J : jac T) (P : point F) : Prop :=
  exists j, (let '(X, Y, Z) := J in let '(x, y, z) := j in R X x /\ R Y y /\ R Z z) /\ jrel K j P.

(** ** Bytes *)
(** 32 bytes of a field element; the elements of the extensions are written from the highest
    coefficient down *)
Definition F1_bytes (x : F1) : list Z := be_bytes 32 (fval x).
Definition F2_bytes (x : F2) : list Z := F1_bytes (snd x) ++ F1_bytes (fst x).
Definition F4_bytes (x : F4) : list Z := F2_bytes (snd x) ++ F2_bytes (fst x).
Definition F12_bytes (x : F12) : list Z :=
  let '(x0, x1, x2) := x in F4_bytes x2 ++ F4_bytes x1 ++ F4_bytes x0.
(** points of G1: the three forms of 4.2.8 *)
Definition SM9_uncompressed (x y : F1) : list Z := 4 :: F1_bytes x ++ F1_bytes y.
Definition SM9_compressed (x y : F1) : list Z := (2 + fval y mod 2) :: F1_bytes x.
Definition SM9_mixed (x y : F1) : list Z := (6 + fval y mod 2) :: F1_bytes x ++ F1_bytes y.
Definition SM9_encode_pt (PC : ec_pc) (x y : F1) : list Z :=
  match PC with
  | UNCOMPRESSED => SM9_uncompressed x y | COMPRESSED => SM9_compressed x y | MIX => SM9_mixed x y
  end.

(** ** H1 and H2 (5.3.2.2, 5.3.2.3): [tag] is 1 or 2 *)
Section Hash.
  Variables (H : hashlib) (Hd : list Z -> list Z).
  (** Ha_i = H_v(tag || Z || ct) for ct = 1, ..., k *)
  Definition SM9_Ha (tag : Z) (z : list Z) (k : nat) : list Z :=
    concat (map (fun i => Hd (tag :: z ++ be_bytes 4 (Z.of_nat i))) (seq 1 k)).
  (** hlen = 8 * ceil(5 * 256 / 32) = 320 bits; the result is in [1, N-1] *)
  Definition SM9_H (tag : Z) (z : list Z) : Z :=
    be_val (firstn 40 (SM9_Ha tag z ((40 + hl_ds H - 1) / hl_ds H))) mod (SM9_n - 1) + 1.
End Hash.
(** the scalar made from 32 random bytes *)
Definition draw9 (rnd : list Z) : Z := be_val rnd mod (SM9_n - 1) + 1.

(** ** The pairing *)
(** [pr] computes the map [e] on the stored points for which [good] holds; [e] is bilinear on the
    groups generated by P1 and P2, with values of order n *)
Record pairing_ok (w : Z) (nn : nat) (pr : aff (list Z) -> aff (p2 (list Z)) -> res (p12 (list Z)))
    (good : point F1 -> point F2 -> Prop) (e : point F1 -> point F2 -> F12) : Prop := MkPairingOk {
  po_run : forall P Q x1 y1 x2 y2, holds_a (holds1 w nn) P x1 y1 -> holds_a (holds2 w nn) Q x2 y2 ->
    E1_on (Aff x1 y1) -> E2_on (Aff x2 y2) -> E2_mul SM9_n (Aff x2 y2) = Inf -> good (Aff x1 y1) (Aff x2 y2) ->
    exists r, pr P Q = Ok r /\ holds12 w nn r (e (Aff x1 y1) (Aff x2 y2));
  po_bil : forall a b, 0 < a < SM9_n -> 0 < b < SM9_n ->
    e (E1_mul a P1) (E2_mul b P2) = fpow K12 (e P1 P2) (a * b);
  po_ord : fpow K12 (e P1 P2) SM9_n = f1 K12
}.

(** ** Keys and signatures (GB/T 38635.2 clauses 5 to 7) *)
(** [t2] is ks / (h1 + ks) modulo n; the signing key of the identity with hash h1 is [t2]P1 *)
Definition SM9_t2 (ks h1 t2 : Z) : Prop := 0 < t2 < SM9_n /\ (t2 * (h1 + ks)) mod SM9_n = ks mod SM9_n.
Section Sig.
  Variables (H : hashlib) (Hd : list Z -> list Z) (e : point F1 -> point F2 -> F12).
  Definition SM9_H1 (id : list Z) (hid : Z) : Z := SM9_H H Hd 1 (id ++ [hid]).
  Definition SM9_H2 (msg : list Z) (v : F12) : Z := SM9_H H Hd 2 (msg ++ F12_bytes v).
  (** 6.2: the signature (h, [l]ds) made with the random number r *)
  Definition SM9_sig_h (Ppub : point F2) (msg : list Z) (r : Z) : Z := SM9_H2 msg (fpow K12 (e P1 Ppub) r).
  Definition SM9_sig_l (Ppub : point F2) (msg : list Z) (r : Z) : Z := (r - SM9_sig_h Ppub msg r) mod SM9_n.
  (** 7.1: (h, S) verifies *)
  Definition SM9_verifies (Ppub : point F2) (id : list Z) (hid : Z) (msg : list Z) (h : Z) (Sg : point F1) : Prop :=
    1 <= h <= SM9_n - 1 /\ E1_on Sg /\ Sg <> Inf /\
    SM9_H2 msg (fmul K12 (e Sg (E2_add (E2_mul (SM9_H1 id hid) P2) Ppub)) (fpow K12 (e P1 Ppub) h)) = h.
End Sig.
(** the curve point (x, y) is what the bytes [C1] stand for, with coordinates taken modulo p and
    without comparing the first byte of the mixed form with y *)
Definition SM9_parses (C1 : list Z) (x y : F1) : Prop :=
  E1_on (Aff x y) /\
  ((exists b0 X Y, C1 = b0 :: X ++ Y /\ (b0 = 4 \/ b0 = 6 \/ b0 = 7) /\ length X = 32%nat /\ length Y = 32%nat /\
      x = num (be_val X) /\ y = num (be_val Y)) \/
   (exists b0 X, C1 = b0 :: X /\ (b0 = 2 \/ b0 = 3) /\ length X = 32%nat /\
      x = num (be_val X) /\ fval y mod 2 = b0 - 2)).
(** the buffer of a signature is long enough for what its 33rd byte announces *)
Definition sig_readable (sig : list Z) : Prop :=
  (length sig <= 32)%nat \/
  let b0 := nz sig 32 in
  ((b0 = 4 \/ b0 = 6 \/ b0 = 7) -> (97 <= length sig)%nat) /\ ((b0 = 2 \/ b0 = 3) -> (65 <= length sig)%nat).
(** inputs whose hash input has fewer than 2^64 bits *)
Definition id9_ok (id : list Z) : Prop := bytes id /\ 8 * (Z.of_nat (length id) + 6) < 2 ^ 64.
Definition msg9_ok (msg : list Z) : Prop := bytes msg /\ 8 * (Z.of_nat (length msg) + 389) < 2 ^ 64.

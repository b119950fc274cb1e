(** How the objects of the SM2 model stand for the mathematical ones, and the ranges of arguments the
    SM2 properties speak about. *)
From Verif Require Import Base ModelNumber SpecNumber SpecField SpecEC SpecJac ModelEC ModelSM2
  SpecSM2Curve SpecSM2.

(** the two builds of the number library: 8 limbs of 32 bits, 4 limbs of 64 bits *)
Inductive build : Z -> nat -> numlib -> Prop :=
| build_common : build 32 8 lib_common
| build_x64 : build 64 4 lib_x64.

(** the array [a] holds the field element [x] (Montgomery form), the integer [x] modulo n *)
Definition Rp (w : Z) (nn : nat) (a : list Z) (x : SM2_F) : Prop := mont_repr w nn SM2_p a (fval x).
Definition Rn (w : Z) (nn : nat) (a : list Z) (x : Z) : Prop := mont_repr w nn SM2_n a x.
(** a stored affine point, a stored Jacobian point *)
Definition stored_a (w : Z) (nn : nat) (Q : aff (list Z)) (x y : SM2_F) : Prop :=
  let '(X, Y) := Q in Rp w nn X x /\ Rp w nn Y y.
Definition stored_j (w : Z) (nn : nat) (J : jac (list Z)) (P : point SM2_F) : Prop :=
  exists j, (let '(X, Y, Z) := J in let '(x, y, z) := j in Rp w nn X x /\ Rp w nn Y y /\ Rp w nn Z z) /\
            jrel SM2_K j P.
(** what to_a gives for infinity: both coordinates 0 *)
Definition pt_x (P : point SM2_F) : SM2_F := match P with Inf => fof SM2_p 0 | Aff x _ => x end.
Definition pt_y (P : point SM2_F) : SM2_F := match P with Inf => fof SM2_p 0 | Aff _ y => y end.

(** What is assumed of the Hash template argument: every sequence of update and do_final calls on a
    fresh object computes the function [Hd] of the concatenated input as long as the input has fewer
    than 2^64 bits, and throws otherwise (for class SM3 this is property C08). *)
Record hash_ok (H : hashlib) (Hd : list Z -> list Z) : Prop := MkHashOk {
  ho_pos : (0 < hl_ds H)%nat;
  ho_small : Z.of_nat (hl_ds H) < 2 ^ 31;
  ho_len : forall m, bytes m -> length (Hd m) = hl_ds H;
  ho_bytes : forall m, bytes m -> bytes (Hd m);
  ho_run : forall chunks last, bytes (concat chunks ++ last) ->
    hl_run H chunks last =
    if 8 * Z.of_nat (length (concat chunks ++ last)) <? 2 ^ 64
    then Ok (Hd (concat chunks ++ last)) else Throw
}.

(** identifiers whose bit length fits in 16 bits; messages whose hash input has fewer than 2^64 bits *)
Definition id_ok (id : list Z) : Prop := bytes id /\ 8 * Z.of_nat (length id) <= 65535.
Definition msg_ok (H : hashlib) (msg : list Z) : Prop :=
  bytes msg /\ 8 * (Z.of_nat (hl_ds H) + Z.of_nat (length msg)) < 2 ^ 64.
(** the KDF gives at most (2^32 - 1) blocks *)
Definition kdf_max (H : hashlib) : Z := Z.of_nat (hl_ds H) * 4294967295.
Definition plain_ok (H : hashlib) (m : list Z) : Prop :=
  bytes m /\ Z.of_nat (length m) < kdf_max H /\ 8 * (64 + Z.of_nat (length m)) < 2 ^ 64.
(** what successive calls of the random generator return *)
Definition draws_ok (draws : list (list Z)) : Prop := Forall (fun r => bytes r /\ length r = 32%nat) draws.
(** the scalar made from 32 random bytes *)
Definition draw_k (rnd : list Z) : Z := be_val rnd mod (SM2_n - 1) + 1.

(** ** Ciphertexts *)
Definition SM2_encode_pt (PC : ec_pc) (x y : SM2_F) : list Z :=
  match PC with
  | UNCOMPRESSED => SM2_uncompressed x y | COMPRESSED => SM2_compressed x y | MIX => SM2_mixed x y
  end.
Section Cipher.
  Variables (H : hashlib) (Hd : list Z -> list Z).
  (** C1 || C3 || C2, with (x1,y1) = [k]G and (x2,y2) = [k]P *)
  Definition SM2_cipher (PC : ec_pc) (x1 y1 x2 y2 : SM2_F) (m : list Z) : list Z :=
    SM2_encode_pt PC x1 y1 ++ SM2_C3 Hd x2 y2 m ++ SM2_C2 Hd x2 y2 m.
  (** [c] is the ciphertext of [m] for the public key (x, y) made with the random number k *)
  Definition enc_with (x y : SM2_F) (k : Z) (m : list Z) (PC : ec_pc) (c : list Z) : Prop :=
    exists x1 y1 x2 y2, SM2_mul k SM2_G = Aff x1 y1 /\ SM2_mul k (Aff x y) = Aff x2 y2 /\
      ~ SM2_kdf_zero Hd x2 y2 (length m) /\ c = SM2_cipher PC x1 y1 x2 y2 m.
  (** the curve point (x, y) is what the bytes [C1] stand for, with coordinates taken modulo p and
      without comparing the first byte of the mixed form with y *)
  Definition SM2_parses (C1 : list Z) (x y : SM2_F) : Prop :=
    SM2_on (Aff x y) /\
    ((exists b0 X Y, C1 = b0 :: X ++ Y /\ (b0 = 4 \/ b0 = 6 \/ b0 = 7) /\ length X = 32%nat /\ length Y = 32%nat /\
        x = fof SM2_p (be_val X) /\ y = fof SM2_p (be_val Y)) \/
     (exists b0 X, C1 = b0 :: X /\ (b0 = 2 \/ b0 = 3) /\ length X = 32%nat /\
        x = fof SM2_p (be_val X) /\ fval y mod 2 = b0 - 2)).
  (** GB/T 32918.4 clause 7: [c] = C1 || C3 || C2 decrypts to [M] under the private key d *)
  Definition decrypts (d : Z) (c M : list Z) : Prop :=
    exists C1 C3 C2 x1 y1 x2 y2, c = C1 ++ C3 ++ C2 /\ length C3 = hl_ds H /\ SM2_parses C1 x1 y1 /\
      SM2_mul d (Aff x1 y1) = Aff x2 y2 /\ M = SM2_C2 Hd x2 y2 C2 /\
      ~ SM2_kdf_zero Hd x2 y2 (length C2) /\ C3 = SM2_C3 Hd x2 y2 M.
  (** the number of bytes after C1 and C3, and ciphertexts for which it is within the KDF's limit *)
  Definition c2_len (c : list Z) : nat :=
    (length c - (match c with b0 :: _ => if ((b0 =? 2) || (b0 =? 3))%Z then 33 else 65 | [] => 65 end) - hl_ds H)%nat.
  Definition cipher_ok (c : list Z) : Prop :=
    bytes c /\ Z.of_nat (c2_len c) < kdf_max H /\ 8 * (64 + Z.of_nat (c2_len c)) < 2 ^ 64.
End Cipher.

(** ** Key objects *)
(** [sk] was set to the private key d by set_priv, or generated with it by gen_priv *)
Inductive key_of (L : numlib) : sm2_priv -> Z -> Prop :=
| key_set d sk : bytes d -> length d = 32%nat -> sm2_set_priv L d = Ok sk -> key_of L sk (be_val d)
| key_gen rnd sk : bytes rnd -> length rnd = 32%nat -> sm2_gen_priv L rnd = Ok sk -> key_of L sk (draw_k rnd).
(** [pk] is the public key (x, y), set by set_pub *)
Definition pub_set (L : numlib) (pk : sm2_pub) (x y : SM2_F) : Prop :=
  sm2_set_pub L (SM2_fb x) (SM2_fb y) = Ok pk.
(** [pk] belongs to [sk]: it is its public part, or was set with the coordinates get_pub returns *)
Definition pub_of (L : numlib) (sk : sm2_priv) (pk : sm2_pub) : Prop :=
  pk = priv_pub sk \/
  sm2_set_pub L (fst (sm2_get_pub (priv_pub sk))) (snd (sm2_get_pub (priv_pub sk))) = Ok pk.

(** NIST SP 800-38D: GCM over a block cipher with 16-byte blocks, 128-bit tags. *)
From Verif Require Import Base SpecModes SpecGHASH.

Section GCM.
  (** The forward cipher function under a fixed key. *)
  Variable CIPH : list Z -> list Z.

  (** 6.2 inc_32: the last 4 bytes as an integer, plus one modulo 2^32 *)
  Definition inc32 (b : list Z) : list Z := firstn 12 b ++ be_bytes 4 (be_val (skipn 12 b) + 1).
  (** 6.5 GCTR *)
  Fixpoint gctr_blocks (CB : list Z) (xs : list (list Z)) : list (list Z) :=
    match xs with [] => [] | x :: r => xorl x (CIPH CB) :: gctr_blocks (inc32 CB) r end.
  Definition GCTR (ICB x : list Z) : list Z := concat (gctr_blocks ICB (blocks_of 16 x)).

  (** the least number of zero bytes completing a block *)
  Definition padlen (x : list Z) : nat := ((16 - length x mod 16) mod 16)%nat.
  Definition pad16 (x : list Z) : list Z := x ++ repeat 0 (padlen x).
  (** the 64-bit representation of the length in bits *)
  Definition len64 (x : list Z) : list Z := be_bytes 8 (8 * Z.of_nat (length x)).

  (** 7.1 steps 1-2 *)
  Definition hash_subkey : list Z := CIPH (repeat 0 16).
  Definition J0 (iv : list Z) : list Z :=
    if (length iv =? 12)%nat then iv ++ [0; 0; 0; 1]
    else GHASH hash_subkey (pad16 iv ++ repeat 0 8 ++ len64 iv).
  (** 7.1 step 3, 7.2 step 4 *)
  Definition GCM_cipher (iv x : list Z) : list Z := GCTR (inc32 (J0 iv)) x.
  (** 7.1 steps 4-6 with ciphertext [c]; [cp] is [c] padded to whole blocks *)
  Definition tag_with (iv aad c cp : list Z) : list Z :=
    xorl (GHASH hash_subkey (pad16 aad ++ cp ++ len64 aad ++ len64 c)) (CIPH (J0 iv)).
  Definition GCM_tag (iv aad c : list Z) : list Z := tag_with iv aad c (pad16 c).

  (** 7.1 GCM-AE *)
  Definition GCM_enc (iv aad p : list Z) : list Z * list Z :=
    let c := GCM_cipher iv p in (c, GCM_tag iv aad c).
  (** 7.2 GCM-AD; [None] is FAIL *)
  Definition GCM_dec (iv aad c tag : list Z) : option (list Z) :=
    if list_eq_dec Z.eq_dec tag (GCM_tag iv aad c) then Some (GCM_cipher iv c) else None.
End GCM.

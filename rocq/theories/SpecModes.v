(** SP 800-38A modes of operation over an arbitrary block permutation; messages are byte strings,
    cut into consecutive blocks of BS bytes of which the last may be shorter. *)
From Verif Require Import Base.

Definition blocks_of (BS : nat) (m : list Z) : list (list Z) :=
  cut BS ((length m + BS - 1) / BS) m.

Section SPEC.
  Variable BS : nat.
  Variable E D : list Z -> list Z.

  (** 6.1 ECB *)
  Definition ECB_enc (m : list Z) : list Z := concat (map E (blocks_of BS m)).
  Definition ECB_dec (m : list Z) : list Z := concat (map D (blocks_of BS m)).

  (** 6.2 CBC *)
  Fixpoint cbc_e (iv : list Z) (ps : list (list Z)) : list (list Z) :=
    match ps with [] => [] | p :: r => let c := E (xorl p iv) in c :: cbc_e c r end.
  Fixpoint cbc_d (iv : list Z) (cs : list (list Z)) : list (list Z) :=
    match cs with [] => [] | c :: r => xorl (D c) iv :: cbc_d c r end.
  Definition CBC_enc iv m := concat (cbc_e iv (blocks_of BS m)).
  Definition CBC_dec iv m := concat (cbc_d iv (blocks_of BS m)).

  (** 6.3 CFB with s = block size (xorl truncates the cipher output for a short last block) *)
  Fixpoint cfb_e (iv : list Z) (ps : list (list Z)) : list (list Z) :=
    match ps with [] => [] | p :: r => let c := xorl p (E iv) in c :: cfb_e c r end.
  Fixpoint cfb_d (iv : list Z) (cs : list (list Z)) : list (list Z) :=
    match cs with [] => [] | c :: r => xorl c (E iv) :: cfb_d c r end.
  Definition CFB_enc iv m := concat (cfb_e iv (blocks_of BS m)).
  Definition CFB_dec iv m := concat (cfb_d iv (blocks_of BS m)).

  (** 6.4 OFB *)
  Fixpoint ofb (iv : list Z) (ps : list (list Z)) : list (list Z) :=
    match ps with [] => [] | p :: r => let o := E iv in xorl p o :: ofb o r end.
  Definition OFB iv m := concat (ofb iv (blocks_of BS m)).

  (** 6.5 CTR with the standard incrementing function over all BS bytes (B.1): the j-th counter
      block is T1 + j mod 2^(8 BS). *)
  Fixpoint ctr (T1 : list Z) (j : Z) (ps : list (list Z)) : list (list Z) :=
    match ps with
    | [] => []
    | p :: r => xorl p (E (be_bytes BS (be_val T1 + j))) :: ctr T1 (j + 1) r
    end.
  Definition CTR T1 m := concat (ctr T1 0 (blocks_of BS m)).
End SPEC.

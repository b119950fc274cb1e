(** Model of src/memory_utils/memxor.cpp and include/gmlib/memory_utils/memxor.h over a flat
    byte-addressed memory, so that overlapping operands can be expressed. *)
From Verif Require Import Base.

Definition mem := Z -> Z.

(** memxor.h 25-303, internal memxor512 .. memxor1: every one of them first loads its w bytes of
    in1 and in2 (or loads and combines one register at a time before any store for w <= 16) and
    then stores the w XORed bytes.  Simplification: alignment and strict-aliasing of the
    reinterpret casts (lines 272-295) are not modelled. *)
Definition memxor_fixed (w : nat) (out in1 in2 : Z) (m : mem) : mem :=
  fun a => if (out <=? a) && (a <? out + Z.of_nat w)
           then Z.lxor (m (in1 + (a - out))) (m (in2 + (a - out)))
           else m a.

(** memxor.cpp 14-101: one loop [while (size >= w) { memxor_w; pointers += w; size -= w; }].
    Returns the remaining size and the new pointers.  [fuel] bounds the iterations; [size] is
    always enough because w >= 1. *)
Fixpoint memxor_loop (fuel w : nat) (out in1 in2 : Z) (size : nat) (m : mem)
  : Z * Z * Z * nat * mem :=
  match fuel with
  | O => (out, in1, in2, size, m)
  | S f => if (w <=? size)%nat
           then memxor_loop f w (out + Z.of_nat w) (in1 + Z.of_nat w) (in2 + Z.of_nat w)
                            (size - w) (memxor_fixed w out in1 in2 m)
           else (out, in1, in2, size, m)
  end.

(** memxor.cpp 5-102 memxor_n: the loops in sequence.  The template memxor<SIZE> of
    memxor.h 307-437 unrolls to the same sequence of strides. *)
Fixpoint memxor_strides (ws : list nat) (out in1 in2 : Z) (size : nat) (m : mem) : mem :=
  match ws with
  | [] => m
  | w :: ws' =>
      let '(o, a, b, s, m') := memxor_loop size w out in1 in2 size m in
      memxor_strides ws' o a b s m'
  end.

(** memxor.cpp 13-101: which loops are compiled in, per CPU flags. *)
Definition strides_portable : list nat := [8; 4; 2; 1]%nat.
Definition strides_sse2 : list nat := [128; 64; 32; 16; 8; 4; 2; 1]%nat.
Definition strides_avx2 : list nat := [512; 256; 128; 64; 32; 8; 4; 2; 1]%nat.
Definition strides_avx2_sse2 : list nat := [512; 256; 128; 64; 32; 16; 8; 4; 2; 1]%nat.

Definition memxor_n (out in1 in2 : Z) (size : nat) (m : mem) : mem :=
  memxor_strides strides_portable out in1 in2 size m.

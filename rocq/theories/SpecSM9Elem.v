(** The element of F_p, F_p^2, F_p^4, F_p^12 whose coefficients are the 32-byte big-endian groups of
    [b] from position [o] on, the highest coefficient first, each taken modulo p. *)
From Verif Require Import Base SpecField SpecSM9.
Definition F1_at (b : list Z) (o : nat) : F1 := num (be_val (slice b o 32)).
Definition F2_at (b : list Z) (o : nat) : F2 := (F1_at b (o + 32), F1_at b o).
Definition F4_at (b : list Z) (o : nat) : F4 := (F2_at b (o + 64), F2_at b o).
Definition F12_at (b : list Z) (o : nat) : F12 := (F4_at b (o + 256), F4_at b (o + 128), F4_at b o).

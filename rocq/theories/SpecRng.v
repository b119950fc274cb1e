(** Specification vocabulary for the random generators and memdump. *)
From Verif Require Import Base.

(** [m] with the [length d] bytes from [off] replaced by [d]. *)
Definition put (m : list Z) (off : nat) (d : list Z) : list Z :=
  firstn off m ++ d ++ skipn (off + length d) m.

(** From attempt [i] on, the attempts at [ps] are the ones that deliver a word, each after at most
    [r] failures since the previous one; [k] is the first attempt not made yet. *)
Inductive takes (a : nat -> bool * Z) (r : nat) : nat -> list nat -> nat -> Prop :=
| takes_nil : forall i, takes a r i [] i
| takes_cons : forall i j ps k,
    (i <= j <= i + r)%nat -> fst (a j) = true ->
    (forall q, (i <= q < j)%nat -> fst (a q) = false) ->
    takes a r (S j) ps k -> takes a r i (j :: ps) k.

(** The bytes delivered at attempts [ps], each word little-endian in [w] bytes. *)
Definition delivered (a : nat -> bool * Z) (w : nat) (ps : list nat) : list Z :=
  concat (map (fun p => le_bytes w (snd (a p))) ps).

(** Requests that tile [off, off + len): each starts where the previous one ended, has a positive
    size that a 32-bit argument can hold. *)
Fixpoint tiles (off len : Z) (l : list (Z * Z)) : Prop :=
  match l with
  | [] => len = 0
  | (o, n) :: l' => o = off /\ 0 < n < 2 ^ 32 /\ tiles (off + n) (len - n) l'
  end.

(** Lines joined by a line feed. *)
Fixpoint join_lines (l : list (list Z)) : list Z :=
  match l with
  | [] => []
  | [x] => x
  | x :: l' => x ++ 10 :: join_lines l'
  end.
(** The consecutive pieces of [n] elements of a list, the last one possibly shorter. *)
Definition pieces (n : nat) (l : list Z) : list (list Z) :=
  cut n ((length l + (n - 1)) / n) l.
(** One line of a dump: the items, each followed by the separator, blanks up to column [col], and,
    when wanted, three blanks and the characters, a dot for what is not printable ASCII. *)
Definition dump_line (fmt : Z -> list Z) (sep : list Z) (ascii : bool) (col : nat) (l : list Z)
  : list Z :=
  let hex := concat (map (fun b => fmt b ++ sep) l) in
  hex ++ repeat 32 (col - length hex) ++
  (if ascii
   then [32; 32; 32] ++ map (fun b => if (32 <=? b) && (b <? 127) then b else 46) l
   else []).

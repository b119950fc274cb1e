(** Model of src/memory_utils/memdump.cpp.  The output is the sequence of characters printed.
    [fmt b] is what printf(item_fmt, b) prints; printf is taken to succeed and to return the number
    of characters it printed. *)
From Verif Require Import Base.

(** isprint in the "C" locale *)
Definition isprint (b : Z) : bool := (32 <=? b) && (b <=? 126).
(** lines 47-54, 75-85 *)
Definition ascii_char (b : Z) : Z := if isprint b then b else 46.

Section Dump.
  Variable fmt : Z -> list Z.
  Variable sep : list Z.
  Variable decode_ascii : bool.

  (** lines 37-41 and 64-68: printed characters; the counter is their number *)
  Fixpoint items (l : list Z) : list Z :=
    match l with [] => [] | b :: l' => fmt b ++ sep ++ items l' end.
  (** lines 42-55 and 73-86 *)
  Definition ascii_part (l : list Z) : list Z :=
    if decode_ascii then [32; 32; 32] ++ map ascii_char l else [].

  (** lines 32-61: the loop over full lines; returns the printed characters, line_char_num and the
      bytes left.  [fuel] bounds the iterations. *)
  Fixpoint full_lines (fuel maxline : nat) (data : list Z) (line_char_num : nat)
    : res (list Z * nat * list Z) :=
    match fuel with
    | O => Throw
    | S fuel' =>
        if (maxline <=? length data)%nat then
          let l := firstn maxline data in
          let rest := skipn maxline data in
          do (o, n, r) <- full_lines fuel' maxline rest (length (items l));
          Ok (items l ++ ascii_part l ++ (if (length rest =? 0)%nat then [] else [10]) ++ o, n, r)
        else Ok ([], line_char_num, data)
    end.
  (** lines 62-87 *)
  Definition last_line (data : list Z) (line_char_num : nat) : list Z :=
    match data with
    | [] => []
    | _ => items data ++ repeat 32 (line_char_num - length (items data)) ++ ascii_part data
    end.
  (** lines 10-89; exit(-1) for maxline = 0 is [Throw] *)
  Definition memdump (prefix end_ : list Z) (maxline : nat) (data : list Z) : res (list Z) :=
    if (maxline =? 0)%nat then Throw
    else
      do (o, n, r) <- full_lines (S (length data)) maxline data 0;
      Ok (prefix ++ o ++ last_line r n ++ end_).
End Dump.

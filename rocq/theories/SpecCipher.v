(** What it means for a cipher class to implement a keyed permutation, and the message of a session. *)
From Verif Require Import Base ModelCipher.

(** [C] implements the keyed permutation (E, D) with keys of [klen] bytes and blocks of [cBS C]:
    single-block functions conform on byte blocks, multi-block functions are the single-block
    function on every block, D key inverts E key. *)
Record implements (C : cipher) (klen : nat) (E D : list Z -> list Z -> list Z) : Prop := {
  im_bs : (0 < cBS C)%nat;
  im_pn : (0 < cPN C)%nat;
  im_enc : forall key b, bytes key -> length key = klen -> bytes b -> length b = cBS C ->
           c_eb C (c_set_key C key true) b = E key b;
  im_dec : forall key b, bytes key -> length key = klen -> bytes b -> length b = cBS C ->
           c_db C (c_set_key C key false) b = D key b;
  im_elen : forall k b, length b = cBS C -> length (c_eb C k b) = cBS C;
  im_dlen : forall k b, length b = cBS C -> length (c_db C k b) = cBS C;
  im_ebs : forall k d n, length d = (n * cBS C)%nat ->
           c_ebs C k d n = concat (map (c_eb C k) (cut (cBS C) n d));
  im_dbs : forall k d n, length d = (n * cBS C)%nat ->
           c_dbs C k d n = concat (map (c_db C k) (cut (cBS C) n d));
  im_Ebytes : forall key b, bytes key -> length key = klen -> bytes b -> length b = cBS C -> bytes (E key b);
  im_Dbytes : forall key b, bytes key -> length key = klen -> bytes b -> length b = cBS C -> bytes (D key b);
  im_inv : forall key b, bytes key -> length key = klen -> bytes b -> length b = cBS C -> D key (E key b) = b;
}.


(** The message of a session: the inputs of all update() calls and of do_final(). *)
Definition msg (calls : list (list Z * list Z)) (lastc : list Z * list Z) : list Z :=
  concat (map snd calls) ++ snd lastc.

(** The caller's output buffers are large enough: input length + BLOCK_SIZE - 1 bytes per call. *)
Definition room (BS : nat) (c : list Z * list Z) : Prop :=
  (length (snd c) + BS - 1 <= length (fst c))%nat.

(** Well-formed session arguments: [junk] is the indeterminate initial content of the buffer. *)
Definition session_ok (C : cipher) (klen : nat) (key iv junk : list Z) calls lastc : Prop :=
  bytes key /\ length key = klen /\ bytes iv /\ length iv = cBS C /\ length junk = cBS C /\
  bytes (msg calls lastc) /\ Forall (room (cBS C)) (calls ++ [lastc]).

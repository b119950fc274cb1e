(** One hash or HMac object used for several messages (hash_lib/hash.h, hash_lib/hmac.h, sm3/sm3.h 40-58). *)
From Verif Require Import Base ModelHash ModelSM3.

Section USE.
  Variable compress : regs -> list Z -> regs.
  Notation ub := (sm3_update_blocks compress).
  Notation fb := (sm3_final_block compress).

  (** A message: the pieces passed to update() and the piece passed to do_final(). *)
  Definition pieces := (list (list Z) * list Z)%type.

  (** SM3 object: for every message update() calls and do_final(), then reset() (sm3.h 52-56). *)
  Fixpoint sm3_messages (s : hstate sm3ctx) (msgs : list pieces) : res (list (list Z)) :=
    match msgs with
    | [] => Ok []
    | (chunks, last) :: r =>
        do s1 <- h_updates _ 64 ub s chunks;
        do (s2, d) <- h_final _ 64 ub fb s1 last;
        do ds <- sm3_messages (h_reset _ s2 sm3_init) r;
        Ok (d :: ds)
    end.

  (** HMac<SM3> object: for every message set_key(), update() calls and do_final(). *)
  Fixpoint hmac_messages (h : hstate sm3ctx) (msgs : list (list Z * pieces)) : res (list (list Z)) :=
    match msgs with
    | [] => Ok []
    | (key, (chunks, last)) :: r =>
        do s <- hm_set_key _ 64 ub fb 32 sm3_init h key;
        do s <- hm_updates _ 64 ub s chunks;
        do (s, d) <- hm_final _ 64 ub fb 32 sm3_init s last;
        do ds <- hmac_messages (mh s) r;
        Ok (d :: ds)
    end.

  (** The same without set_key() between the messages: one key, many do_final() calls. *)
  Fixpoint hmac_again (s : hmstate sm3ctx) (msgs : list pieces) : res (list (list Z)) :=
    match msgs with
    | [] => Ok []
    | (chunks, last) :: r =>
        do s <- hm_updates _ 64 ub s chunks;
        do (s, d) <- hm_final _ 64 ub fb 32 sm3_init s last;
        do ds <- hmac_again s r;
        Ok (d :: ds)
    end.
End USE.

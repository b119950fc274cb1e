(** Model of include/gmlib/hash_lib/hash.h (class template Hash<BLOCK_SIZE>) and
    include/gmlib/hash_lib/hmac.h (class template HMac<Hash>).
    The virtual functions update_blocks / final_block and the derived context are parameters. *)
From Verif Require Import Base.

Section HASH.
  (** Context of the derived class (e.g. Sm3CTX). *)
  Variable C : Type.
  (** Template parameter BLOCK_SIZE. *)
  Variable BS : nat.
  (** hash.h 95-96: [update_blocks ctx in block_num]; may throw. *)
  Variable update_blocks : C -> list Z -> nat -> res C.
  (** hash.h 98-100: [final_block ctx in] with inl = length in; returns the context left behind and
      the digest. *)
  Variable final_block : C -> list Z -> res (C * list Z).

  (** hash.h 14-15 *)
  Record hstate := mkH { hbuf : list Z; hsize : nat; hctx : C }.

  (** hash.h 18-20 constructor: buf_ has indeterminate content [junk]. *)
  Definition h_new (junk : list Z) (c0 : C) : hstate := mkH junk 0 c0.

  (** hash.h 25-28 reset(), together with the derived reset of the context. *)
  Definition h_reset (s : hstate) (c0 : C) : hstate := mkH (hbuf s) 0 c0.

  (** Blocks handed to update_blocks: reads [n * BS] bytes of [inp]. *)
  Definition feed (c : C) (inp : list Z) (n : nat) : res C :=
    do d <- read inp 0 (n * BS); update_blocks c d n.

  (** hash.h 42-46, 70-74: store what is left in buf_ (memcpy into a BS-byte array). *)
  Definition keep_rest (s : hstate) (c : C) (rest : list Z) : res hstate :=
    if (0 <? length rest)%nat
    then do b <- write (hbuf s) 0 rest; Ok (mkH b (length rest) c)
    else Ok (mkH (hbuf s) (hsize s) c).

  (** hash.h 31-78 update.  Line 67 divides by the literal 64, not by BLOCK_SIZE. *)
  Definition h_update (s : hstate) (inp : list Z) : res hstate :=
    if (length inp =? 0)%nat then Ok s                                   (* 33-36 *)
    else if (hsize s =? 0)%nat then                                       (* 37 *)
      let n := (length inp / BS)%nat in                                  (* 39 *)
      do c <- feed (hctx s) inp n;                                        (* 40 *)
      keep_rest s c (skipn (n * BS) inp)                                  (* 41-47 *)
    else
      let size := Nat.min (BS - hsize s) (length inp) in                  (* 51-55 *)
      do b <- write (hbuf s) (hsize s) (firstn size inp);                 (* 56 *)
      let inp1 := skipn size inp in                                       (* 57 *)
      let s1 := mkH b (hsize s + size) (hctx s) in
      do s2 <- (if (hsize s1 =? BS)%nat                                   (* 59-63 *)
                then do c <- feed (hctx s1) (hbuf s1) 1; Ok (mkH (hbuf s1) 0 c)
                else Ok s1);
      if ((0 <? length inp1) && (hsize s2 =? 0))%nat then                 (* 65 *)
        let n := (length inp1 / 64)%nat in                               (* 67 *)
        do c <- feed (hctx s2) inp1 n;                                    (* 68 *)
        keep_rest s2 c (skipn (n * BS) inp1)                              (* 69-75 *)
      else Ok s2.

  (** hash.h 80-86 do_final *)
  Definition h_final (s : hstate) (inp : list Z) : res (hstate * list Z) :=
    do s1 <- h_update s inp;
    do (c, d) <- final_block (hctx s1) (firstn (hsize s1) (hbuf s1));
    Ok (mkH (hbuf s1) (hsize s1) c, d).

  (** A whole use of the object: a sequence of update calls, then do_final. *)
  Fixpoint h_updates (s : hstate) (chunks : list (list Z)) : res hstate :=
    match chunks with
    | [] => Ok s
    | x :: r => do s' <- h_update s x; h_updates s' r
    end.
  Definition h_digest (s : hstate) (chunks : list (list Z)) (last : list Z) : res (list Z) :=
    do s' <- h_updates s chunks; do (_, d) <- h_final s' last; Ok d.

  (** ** HMac (hmac.h) *)
  (** Hash::DIGEST_SIZE and the context set by the derived class' reset(). *)
  Variable DS : nat.
  Variable c0 : C.

  (** hmac.h 17-18 *)
  Record hmstate := mkM { mK : list Z; mh : hstate }.

  (** hmac.h 29-54 set_key *)
  Definition hm_set_key (h : hstate) (key : list Z) : res hmstate :=
    let h := h_reset h c0 in                                              (* 31 *)
    let K := repeat 0 BS in                                               (* 32 *)
    do (h, K) <-
      (if (BS <? length key)%nat then                                     (* 33 *)
         do (h1, digest) <- h_final h key;                                (* 36 *)
         let h1 := h_reset h1 c0 in                                       (* 37 *)
         let cpy := if (BS <? DS)%nat then BS else DS in                  (* 38-40 *)
         do d <- read digest 0 cpy;
         do K <- write K 0 d;                                             (* 41 *)
         Ok (h1, K)
       else do K <- write K 0 key; Ok (h, K));                            (* 45 *)
    let i_pad := map (fun b => Z.lxor b 54) K in                          (* 48-52 *)
    do h <- h_update h i_pad;                                             (* 53 *)
    Ok (mkM K h).

  (** hmac.h 56-59 update *)
  Definition hm_update (s : hmstate) (msg : list Z) : res hmstate :=
    do h <- h_update (mh s) msg; Ok (mkM (mK s) h).

  (** hmac.h 61-79 do_final *)
  Definition hm_final (s : hmstate) (msg : list Z) : res (hmstate * list Z) :=
    do s <- hm_update s msg;                                              (* 65 *)
    do (h, i_digest) <- h_final (mh s) [];                                (* 70 *)
    let h := h_reset h c0 in                                              (* 71 *)
    let o_pad := map (fun b => Z.lxor b 92) (mK s) in                     (* 72-75 *)
    do h <- h_update h o_pad;                                             (* 76 *)
    do dd <- read i_digest 0 DS;
    do h <- h_update h dd;                                                (* 77 *)
    do (h, d) <- h_final h [];                                            (* 78 *)
    Ok (mkM (mK s) h, d).

  Fixpoint hm_updates (s : hmstate) (chunks : list (list Z)) : res hmstate :=
    match chunks with
    | [] => Ok s
    | x :: r => do s' <- hm_update s x; hm_updates s' r
    end.
  (** construct-with-key, updates, do_final *)
  Definition hm_mac (h : hstate) (key : list Z) (chunks : list (list Z)) (last : list Z)
    : res (list Z) :=
    do s <- hm_set_key h key;
    do s <- hm_updates s chunks;
    do (_, d) <- hm_final s last; Ok d.
End HASH.

Arguments mkH {C}. Arguments hbuf {C}. Arguments hsize {C}. Arguments hctx {C}.
Arguments mkM {C}. Arguments mK {C}. Arguments mh {C}.

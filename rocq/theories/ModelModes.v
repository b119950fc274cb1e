(** Model of include/gmlib/block_cipher_mode/*.h: the buffering template BlockCipherMode<BS> and
    the ECB, CBC, CFB, OFB and CTR modes over an arbitrary block cipher class.
    Output buffers are separate objects from input buffers and from the mode object (in-place use is
    modelled separately in ModelInplace.v). *)
From Verif Require Import Base ModelEndian.

(** ** BlockCipherMode<BLOCK_SIZE> (block_cipher_mode.h 11-99) *)
Section MODE.
  (** State of the derived class. *)
  Variable M : Type.
  Variable BS : nat.
  (** block_cipher_mode.h 92-94: update_blocks(out, in, block_num): new state and the bytes written
      at [out]; may throw. *)
  Variable update_blocks : M -> list Z -> nat -> res (M * list Z).
  (** block_cipher_mode.h 96-98: final_block(out, in, inl). *)
  Variable final_block : M -> list Z -> res (M * list Z).

  (** block_cipher_mode.h 14-15 *)
  Record mstate := mkB { mbuf : list Z; msize : nat; mctx : M }.

  (** 20-23 constructor: buf_ is indeterminate. *)
  Definition m_new (junk : list Z) (m : M) : mstate := mkB junk 0 m.
  (** 25-28 reset() together with the derived reset. *)
  Definition m_reset (s : mstate) (m : M) : mstate := mkB (mbuf s) 0 m.
  (** Derived init(): sets the derived state but does not touch buf_size_ (ecb_mode.h 29-32,
      cbc_mode.h 31-35, cfb_mode.h 31-35, ofb_mode.h 31-35, ctr_mode.h 31-35, gcm_mode.h 44-74). *)
  Definition m_init (s : mstate) (m : M) : mstate := mkB (mbuf s) (msize s) m.

  (** 43-50 and 69-79: process whole blocks of [inp] at [out + pos], keep the rest in buf_, set
      *outl. *)
  Definition m_tail (b : list Z) (m : M) (outb : list Z) (pos : nat) (inp : list Z)
    : res (mstate * list Z * nat) :=
    let n := (length inp / BS)%nat in
    do d <- read inp 0 (n * BS);
    do (m', o) <- update_blocks m d n;
    do outb <- write outb pos o;
    do b' <- write b 0 (skipn (n * BS) inp);
    Ok (mkB b' (length inp - n * BS) m', outb, (pos + n * BS)%nat).

  (** 31-79 update(out, outl, in, inl).  [outb] is the array at [out], [outl] the value of *outl
      before the call; the result has the new state, the array at [out] and *outl after the call. *)
  Definition m_update (s : mstate) (outb : list Z) (outl : nat) (inp : list Z)
    : res (mstate * list Z * nat) :=
    if (length inp =? 0)%nat then Ok (s, outb, 0%nat)                       (* 36-40 *)
    else if (msize s =? 0)%nat then m_tail (mbuf s) (mctx s) outb 0 inp     (* 42-53 *)
    else
      let size := Nat.min (BS - msize s) (length inp) in                    (* 55-59 *)
      do b <- write (mbuf s) (msize s) (firstn size inp);                   (* 60 *)
      let sz := (msize s + size)%nat in                                     (* 61 *)
      let inp1 := skipn size inp in
      do (sz1, m1, outb1, pos) <-
        (if (sz =? BS)%nat then                                             (* 63 *)
           do d <- read b 0 BS;
           do (m', o) <- update_blocks (mctx s) d 1;                        (* 65 *)
           do ob <- write outb 0 o;
           Ok (0%nat, m', ob, BS)                                           (* 66 *)
         else Ok (sz, mctx s, outb, 0%nat));
      if (sz1 =? 0)%nat then m_tail b m1 outb1 pos inp1                     (* 69-78 *)
      else Ok (mkB b sz1 m1, outb1, outl).                                  (* *outl not written *)

  (** 81-90 do_final(out, outl, in, inl) *)
  Definition m_final (s : mstate) (outb : list Z) (outl : nat) (inp : list Z)
    : res (mstate * list Z * nat) :=
    do (s1, ob1, outl1) <- m_update s outb outl inp;                        (* 86 *)
    do (m, o) <- final_block (mctx s1) (firstn (msize s1) (mbuf s1));       (* 88 *)
    do ob2 <- write ob1 outl1 o;                                            (* 87-88 *)
    Ok (mkB (mbuf s1) (msize s1) m, ob2, (outl1 + msize s1)%nat).           (* 89 *)

  (** A caller: one output buffer and input per call; *outl is set to 0 before every call and the
      first *outl bytes of the buffer are appended to the output after every call. *)
  Fixpoint m_updates (s : mstate) (calls : list (list Z * list Z)) : res (mstate * list Z) :=
    match calls with
    | [] => Ok (s, [])
    | (outb, inp) :: r =>
        do (s1, ob, outl) <- m_update s outb 0 inp;
        do (s2, o) <- m_updates s1 r;
        Ok (s2, firstn outl ob ++ o)
    end.
  Definition m_run (s : mstate) (calls : list (list Z * list Z)) (lastc : list Z * list Z)
    : res (mstate * list Z) :=
    do (s1, o1) <- m_updates s calls;
    do (s2, ob, outl) <- m_final s1 (fst lastc) 0 (snd lastc);
    Ok (s2, o1 ++ firstn outl ob).

  (** An arbitrary history of calls on one object: (is do_final, output buffer, *outl before, input).
      After an exception the object is not used any more. *)
  Fixpoint m_history (s : mstate) (h : list (bool * list Z * nat * list Z)) : res mstate :=
    match h with
    | [] => Ok s
    | (fin, outb, outl, inp) :: r =>
        do (s1, _, _) <- (if fin then m_final s outb outl inp else m_update s outb outl inp);
        m_history s1 r
    end.
End MODE.
Arguments mkB {M}. Arguments mbuf {M}. Arguments msize {M}. Arguments mctx {M}.

(** ** The five confidentiality modes *)
Section MODES.
  (** A cipher class (block_cipher.h 9-39): key schedule type, BLOCK_SIZE, PARALLEL_NUM and the
      four virtual functions. *)
  Variable K : Type.
  Variable BS PN : nat.
  Variable encrypt_block decrypt_block : K -> list Z -> list Z.
  Variable encrypt_blocks decrypt_blocks : K -> list Z -> nat -> list Z.

  (** *** ECB *)
  (** ecb_mode.h 40-45 (encryptor), 95-100 (decryptor) *)
  Definition ecb_enc_ub (k : K) (d : list Z) (n : nat) : res (K * list Z) :=
    Ok (k, encrypt_blocks k d n).
  Definition ecb_dec_ub (k : K) (d : list Z) (n : nat) : res (K * list Z) :=
    Ok (k, decrypt_blocks k d n).
  (** ecb_mode.h 47-62, 102-117 *)
  Definition ecb_enc_fb (k : K) (d : list Z) : res (K * list Z) :=
    if (length d =? 0)%nat then Ok (k, [])
    else if negb (length d =? BS)%nat then Throw else Ok (k, encrypt_block k d).
  Definition ecb_dec_fb (k : K) (d : list Z) : res (K * list Z) :=
    if (length d =? 0)%nat then Ok (k, [])
    else if negb (length d =? BS)%nat then Throw else Ok (k, decrypt_block k d).

  (** *** CBC: state = key schedule and iv_ *)
  (** cbc_mode.h 44-59: the value at [cur_iv] is iv_ or the previous output block. *)
  Fixpoint cbc_enc_loop (k : K) (iv d : list Z) (n : nat) : list Z * list Z :=
    match n with
    | O => (iv, [])
    | S n' =>
        let c := encrypt_block k (xorl (firstn BS d) iv) in
        let '(iv', o) := cbc_enc_loop k c (skipn BS d) n' in
        (iv', c ++ o)
    end.
  Definition cbc_enc_ub (s : K * list Z) (d : list Z) (n : nat) : res ((K * list Z) * list Z) :=
    let '(iv, o) := cbc_enc_loop (fst s) (snd s) d n in Ok ((fst s, iv), o).
  (** cbc_mode.h 61-76 *)
  Definition cbc_enc_fb (s : K * list Z) (d : list Z) : res ((K * list Z) * list Z) :=
    if (length d =? 0)%nat then Ok (s, [])
    else if negb (length d =? BS)%nat then Throw else cbc_enc_ub s d 1.

  (** cbc_mode.h 124-133 (with m = PARALLEL_NUM) and 137-145 (with the remaining m): decrypt m
      blocks into buffer, XOR the first with iv_ and the others with the preceding input blocks. *)
  Definition cbc_dec_batch (k : K) (iv d : list Z) (m : nat) : list Z * list Z :=
    let next_iv := slice d ((m - 1) * BS) BS in
    let buffer := decrypt_blocks k (firstn (m * BS) d) m in
    (next_iv,
     xorl (firstn BS buffer) iv ++
     xorl (firstn ((m - 1) * BS) (skipn BS buffer)) (firstn ((m - 1) * BS) d)).
  (** cbc_mode.h 122-146 update_blocks; [fuel] >= block_num / PARALLEL_NUM + 1. *)
  Fixpoint cbc_dec_loop (fuel : nat) (k : K) (iv d : list Z) (n : nat) : list Z * list Z :=
    match fuel with
    | O => (iv, [])
    | S f =>
        if (PN <=? n)%nat then
          let '(iv1, o1) := cbc_dec_batch k iv d PN in
          let '(iv2, o2) := cbc_dec_loop f k iv1 (skipn (PN * BS) d) (n - PN) in
          (iv2, o1 ++ o2)
        else if (0 <? n)%nat then cbc_dec_batch k iv d n
        else (iv, [])
    end.
  Definition cbc_dec_ub (s : K * list Z) (d : list Z) (n : nat) : res ((K * list Z) * list Z) :=
    let '(iv, o) := cbc_dec_loop (S n) (fst s) (snd s) d n in Ok ((fst s, iv), o).
  (** cbc_mode.h 149-164 *)
  Definition cbc_dec_fb (s : K * list Z) (d : list Z) : res ((K * list Z) * list Z) :=
    if (length d =? 0)%nat then Ok (s, [])
    else if negb (length d =? BS)%nat then Throw else cbc_dec_ub s d 1.

  (** *** CFB *)
  (** cfb_mode.h 44-59 *)
  Fixpoint cfb_enc_loop (k : K) (iv d : list Z) (n : nat) : list Z * list Z :=
    match n with
    | O => (iv, [])
    | S n' =>
        let c := xorl (firstn BS d) (encrypt_block k iv) in
        let '(iv', o) := cfb_enc_loop k c (skipn BS d) n' in
        (iv', c ++ o)
    end.
  Definition cfb_enc_ub (s : K * list Z) (d : list Z) (n : nat) : res ((K * list Z) * list Z) :=
    let '(iv, o) := cfb_enc_loop (fst s) (snd s) d n in Ok ((fst s, iv), o).
  (** cfb_mode.h 61-71 *)
  Definition cfb_enc_fb (s : K * list Z) (d : list Z) : res ((K * list Z) * list Z) :=
    if (length d =? 0)%nat then Ok (s, [])
    else let iv := encrypt_block (fst s) (snd s) in
         Ok ((fst s, iv), xorl (firstn (length d) iv) d).
  (** cfb_mode.h 117-126 (m = PARALLEL_NUM) and 129-135 *)
  Definition cfb_dec_batch (k : K) (iv d : list Z) (m : nat) : list Z * list Z :=
    let buffer := iv ++ firstn ((m - 1) * BS) d in
    let next_iv := slice d ((m - 1) * BS) BS in
    (next_iv, xorl (firstn (m * BS) d) (encrypt_blocks k buffer m)).
  (** cfb_mode.h 107-137 *)
  Fixpoint cfb_dec_loop (fuel : nat) (k : K) (iv d : list Z) (n : nat) : list Z * list Z :=
    match fuel with
    | O => (iv, [])
    | S f =>
        if (PN <=? n)%nat then
          let '(iv1, o1) := cfb_dec_batch k iv d PN in
          let '(iv2, o2) := cfb_dec_loop f k iv1 (skipn (PN * BS) d) (n - PN) in
          (iv2, o1 ++ o2)
        else if (0 <? n)%nat then cfb_dec_batch k iv d n
        else (iv, [])
    end.
  Definition cfb_dec_ub (s : K * list Z) (d : list Z) (n : nat) : res ((K * list Z) * list Z) :=
    let '(iv, o) := cfb_dec_loop (S n) (fst s) (snd s) d n in Ok ((fst s, iv), o).
  (** cfb_mode.h 139-149 *)
  Definition cfb_dec_fb (s : K * list Z) (d : list Z) : res ((K * list Z) * list Z) :=
    if (length d =? 0)%nat then Ok (s, [])
    else let iv := encrypt_block (fst s) (snd s) in
         Ok ((fst s, iv), xorl d (firstn (length d) iv)).

  (** *** OFB *)
  (** ofb_mode.h 44-56 gen_key_stream with block_num = 1 (the only value used): the key stream
      block, which is also the new iv_. *)
  Definition ofb_gen1 (k : K) (iv : list Z) : list Z := encrypt_block k iv.
  (** ofb_mode.h 59-72 *)
  Fixpoint ofb_loop (k : K) (iv d : list Z) (n : nat) : list Z * list Z :=
    match n with
    | O => (iv, [])
    | S n' =>
        let ks := ofb_gen1 k iv in
        let '(iv', o) := ofb_loop k ks (skipn BS d) n' in
        (iv', xorl (firstn BS d) ks ++ o)
    end.
  Definition ofb_ub (s : K * list Z) (d : list Z) (n : nat) : res ((K * list Z) * list Z) :=
    let '(iv, o) := ofb_loop (fst s) (snd s) d n in Ok ((fst s, iv), o).
  (** ofb_mode.h 74-87 *)
  Definition ofb_fb (s : K * list Z) (d : list Z) : res ((K * list Z) * list Z) :=
    if (length d =? 0)%nat then Ok (s, [])
    else let ks := ofb_gen1 (fst s) (snd s) in
         Ok ((fst s, ks), xorl d (firstn (length d) ks)).

  (** *** CTR *)
  (** Counter increment, a parameter shared with GCTR. *)
  Variable inc : list Z -> list Z.
  (** ctr_mode.h 51-59, gcm_mode.h 83-91: the counters c, inc c, ..., [n] of them, and the next. *)
  Fixpoint counters (c : list Z) (n : nat) : list Z * list Z :=
    match n with
    | O => ([], c)
    | S n' => let '(o, c') := counters (inc c) n' in (c ++ o, c')
    end.
  (** ctr_mode.h 44-63, gcm_mode.h 77-95 gen_block_key_stream: (counter_', key stream) *)
  Definition gen_ks (k : K) (c : list Z) (n : nat) : list Z * list Z :=
    let '(o, c') := counters c n in (c', encrypt_blocks k o n).
  (** ctr_mode.h 66-88, gcm_mode.h 98-126 *)
  Fixpoint ctr_loop (fuel : nat) (k : K) (c d : list Z) (n : nat) : list Z * list Z :=
    match fuel with
    | O => (c, [])
    | S f =>
        if (PN <=? n)%nat then
          let '(c1, ks) := gen_ks k c PN in
          let '(c2, o) := ctr_loop f k c1 (skipn (PN * BS) d) (n - PN) in
          (c2, xorl (firstn (PN * BS) d) ks ++ o)
        else if (0 <? n)%nat then
          let '(c1, ks) := gen_ks k c n in (c1, xorl (firstn (n * BS) d) ks)
        else (c, [])
    end.
  Definition ctr_ub (s : K * list Z) (d : list Z) (n : nat) : res ((K * list Z) * list Z) :=
    let '(c, o) := ctr_loop (S n) (fst s) (snd s) d n in Ok ((fst s, c), o).
  (** ctr_mode.h 90-103, gcm_mode.h 128-138 *)
  Definition ctr_fb (s : K * list Z) (d : list Z) : res ((K * list Z) * list Z) :=
    if (length d =? 0)%nat then Ok (s, [])
    else let '(c1, ks) := gen_ks (fst s) (snd s) 1 in
         Ok ((fst s, c1), xorl (firstn (length d) ks) d).
End MODES.

(** ** Counter increments *)
(** internal/ctr_inc.h 11-18 *)
Definition ctr_inc8 (i : list Z) : list Z :=
  let tmp := w64 (1 + load32_be (slice i 4 4)) in
  let o4 := store32_be (Z.land tmp (2 ^ 32 - 1)) in
  let tmp := w64 (load32_be (slice i 0 4) + Z.shiftr tmp 32) in
  store32_be (Z.land tmp (2 ^ 32 - 1)) ++ o4.
(** internal/ctr_inc.h 20-31 *)
Definition ctr_inc16 (i : list Z) : list Z :=
  let tmp := w64 (1 + load32_be (slice i 12 4)) in
  let o12 := store32_be (Z.land tmp (2 ^ 32 - 1)) in
  let tmp := w64 (load32_be (slice i 8 4) + Z.shiftr tmp 32) in
  let o8 := store32_be (Z.land tmp (2 ^ 32 - 1)) in
  let tmp := w64 (load32_be (slice i 4 4) + Z.shiftr tmp 32) in
  let o4 := store32_be (Z.land tmp (2 ^ 32 - 1)) in
  let tmp := w64 (load32_be (slice i 0 4) + Z.shiftr tmp 32) in
  store32_be (Z.land tmp (2 ^ 32 - 1)) ++ o4 ++ o8 ++ o12.
(** internal/ctr_inc.h 33-45: from the last byte to the first, [t] is the 16-bit accumulator. *)
Fixpoint ctr_inc_rev (t : Z) (r : list Z) : list Z :=
  match r with
  | [] => []
  | b :: r' => let t := w16 (t + b) in Z.land t 255 :: ctr_inc_rev (Z.shiftr t 8) r'
  end.
Definition ctr_inc_n (i : list Z) : list Z := rev (ctr_inc_rev 1 (rev i)).
(** internal/ctr_inc.h 47-61 *)
Definition ctr_inc (BS : nat) (i : list Z) : list Z :=
  if (BS =? 16)%nat then ctr_inc16 i
  else if (BS =? 8)%nat then ctr_inc8 i
  else ctr_inc_n i.
(** internal/gctr_inc.h 8-16: bytes 0-11 copied as three words, 32-bit wrapping increment. *)
Definition gctr_inc (i : list Z) : list Z :=
  firstn 12 i ++ store32_be (w32 (load32_be (slice i 12 4) + 1)).

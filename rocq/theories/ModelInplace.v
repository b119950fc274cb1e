(** In-place use of the block cipher modes (include/gmlib/block_cipher_mode/*.h): the output pointer
    and the input pointer of update() and do_final() point into the same array.  ModelModes.v has
    the same functions for an output buffer that is a separate object.

    The caller's array is a list [m]; [out] and [inp] are offsets into it.  The members of the mode
    object (buf_, iv_, counter_) and the local arrays (buffer, next_iv, key_stream) are separate
    objects. *)
From Verif Require Import Base ModelEndian ModelModes ModelCipher ModelHash ModelGHASH ModelGCM ModelMemxor.

(** ** memxor with one operand in the caller's array *)
(** memxor.cpp 14-101, one loop [while (size >= w)]: result at [out], operands at [inp] and in the
    separate object [l].  The w bytes are loaded before they are stored (memxor.h 25-303). *)
Fixpoint xor_loop (fuel w : nat) (m : list Z) (out inp : nat) (l : list Z) (size : nat)
  : res (list Z * nat * nat * list Z * nat) :=
  match fuel with
  | O => Ok (m, out, inp, l, size)
  | S f =>
      if (w <=? size)%nat then
        do x <- read m inp w;
        do y <- read l 0 w;
        do m <- write m out (xorl x y);
        xor_loop f w m (out + w) (inp + w) (skipn w l) (size - w)
      else Ok (m, out, inp, l, size)
  end.
(** memxor.cpp 5-102 memxor_n, memxor.h 307-437 memxor<SIZE>: the loops of the build, in sequence
    ([ws] is one of the stride lists of ModelMemxor.v). *)
Fixpoint xor_into (ws : list nat) (m : list Z) (out inp : nat) (l : list Z) (size : nat) : res (list Z) :=
  match ws with
  | [] => Ok m
  | w :: ws' =>
      do (m, out, inp, l, size) <- xor_loop size w m out inp l size;
      xor_into ws' m out inp l size
  end.

(** The builds of memxor (ModelMemxor.v): portable, SSE2, AVX2, both. *)
Definition memxor_build (ws : list nat) : Prop :=
  In ws [strides_portable; strides_sse2; strides_avx2; strides_avx2_sse2].

(** ** BlockCipherMode<BLOCK_SIZE> (block_cipher_mode.h 11-99) *)
Section MODE.
  Variable M : Type.
  Variable BS : nat.
  (** update_blocks(out, in, n) with [in] a separate object: ModelModes.v *)
  Variable ub : M -> list Z -> nat -> res (M * list Z).
  (** update_blocks(out, in, n) with both pointers into the array *)
  Variable ubm : M -> list Z -> nat -> nat -> nat -> res (M * list Z).
  Variable fb : M -> list Z -> res (M * list Z).

  (** block_cipher_mode.h 43-50 and 69-79; [pos] = out - out_base *)
  Definition im_tail (b : list Z) (s : M) (m : list Z) (pos out inp inl : nat)
    : res (mstate M * list Z * nat) :=
    let n := (inl / BS)%nat in
    do (s', m) <- ubm s m out inp n;
    do r <- read m (inp + n * BS) (inl - n * BS);
    do b' <- write b 0 r;
    Ok (mkB b' (inl - n * BS) s', m, (pos + n * BS)%nat).

  (** 31-79 update(out, outl, in, inl): new state, array and *outl *)
  Definition im_update (s : mstate M) (m : list Z) (outl out inp inl : nat)
    : res (mstate M * list Z * nat) :=
    if (inl =? 0)%nat then Ok (s, m, 0%nat)                                 (* 36-40 *)
    else if (msize s =? 0)%nat then im_tail (mbuf s) (mctx s) m 0 out inp inl   (* 42-53 *)
    else
      let size := Nat.min (BS - msize s) inl in                             (* 55-59 *)
      do x <- read m inp size;
      do b <- write (mbuf s) (msize s) x;                                   (* 60 *)
      let sz := (msize s + size)%nat in                                     (* 61 *)
      if (sz =? BS)%nat then                                                (* 63 *)
        do d <- read b 0 BS;
        do (c, o) <- ub (mctx s) d 1;                                       (* 65 *)
        do m <- write m out o;
        im_tail b c m BS (out + BS) (inp + size) (inl - size)               (* 66, 69-78 *)
      else if (sz =? 0)%nat then im_tail b (mctx s) m 0 out (inp + size) (inl - size)
      else Ok (mkB b sz (mctx s), m, outl).

  (** 81-90 do_final *)
  Definition im_final (s : mstate M) (m : list Z) (outl out inp inl : nat)
    : res (mstate M * list Z * nat) :=
    do (s1, m, l1) <- im_update s m outl out inp inl;                       (* 86 *)
    do (c, o) <- fb (mctx s1) (firstn (msize s1) (mbuf s1));                (* 88 *)
    do m <- write m (out + l1) o;                                           (* 87-88 *)
    Ok (mkB (mbuf s1) (msize s1) c, m, (l1 + msize s1)%nat).                (* 89 *)

  (** A caller that transforms an array in place: the input pointer moves on by the length passed to
      every update(), the output pointer by the *outl it got back ( *outl set to 0 before the call). *)
  Fixpoint ip_updates (s : mstate M) (m : list Z) (out inp : nat) (lens : list nat)
    : res (mstate M * list Z * nat * nat) :=
    match lens with
    | [] => Ok (s, m, out, inp)
    | n :: r =>
        do (s, m, l) <- im_update s m 0 out inp n;
        ip_updates s m (out + l) (inp + n) r
    end.
  (** The whole session from offset [p]: new state, array, end of the output. *)
  Definition ip_run (s : mstate M) (m : list Z) (p : nat) (lens : list nat) (lastl : nat)
    : res (mstate M * list Z * nat) :=
    do (s, m, out, inp) <- ip_updates s m p p lens;
    do (s, m, l) <- im_final s m 0 out inp lastl;
    Ok (s, m, (out + l)%nat).
End MODE.

(** ** update_blocks of the modes with both pointers into the caller's array *)
Section MODES.
  Variable ws : list nat.
  Variable K : Type.
  Variable BS PN : nat.
  Variable encrypt_block decrypt_block : K -> list Z -> list Z.
  Variable encrypt_blocks decrypt_blocks : K -> list Z -> nat -> list Z.

  (** ecb_mode.h 40-45, 95-100.  Simplification: encrypt_blocks / decrypt_blocks are modelled as
      loading all n blocks first.  The cipher functions (sm4_common.cpp 196-222, sm4_lang18.cpp
      731-788, the aes files) go batch by batch and load a batch before they store it, which is the
      same for [out] = [inp], the only overlap considered. *)
  Definition ecb_mem (f : K -> list Z -> nat -> list Z) (k : K) (m : list Z) (out inp n : nat)
    : res (K * list Z) :=
    do d <- read m inp (n * BS);
    do m <- write m out (f k d n);
    Ok (k, m).

  (** The block at cur_iv / pre_ct: iv_ (None) or a block of the array. *)
  Definition at_ptr (m iv : list Z) (p : option nat) : res (list Z) :=
    match p with None => Ok iv | Some a => read m a BS end.

  (** cbc_mode.h 44-59; iv_ is overwritten at 53 but after that only read as cur_iv at the first
      iteration. *)
  Fixpoint cbc_enc_mloop (k : K) (iv : list Z) (cur : option nat) (m : list Z) (out inp n : nat)
    : res (list Z * list Z) :=
    match n with
    | O => do iv <- at_ptr m iv cur; Ok (iv, m)                             (* 58 *)
    | S n' =>
        do c <- at_ptr m iv cur;
        do x <- read m inp BS;
        do m <- write m out (encrypt_block k (xorl x c));                   (* 53-54 *)
        cbc_enc_mloop k (xorl x c) (Some out) m (out + BS) (inp + BS) n'    (* 55-56 *)
    end.
  Definition cbc_enc_mem (s : K * list Z) (m : list Z) (out inp n : nat) : res ((K * list Z) * list Z) :=
    do (iv, m) <- cbc_enc_mloop (fst s) (snd s) None m out inp n; Ok ((fst s, iv), m).

  (** cbc_mode.h 124-133, 137-145: one batch of j blocks; new iv_ and array *)
  Definition cbc_dec_mbatch (k : K) (iv m : list Z) (out inp j : nat) : res (list Z * list Z) :=
    do next_iv <- read m (inp + (j - 1) * BS) BS;                           (* 124, 138 *)
    do x <- read m inp (j * BS);
    let buffer := decrypt_blocks k x j in                                   (* 126, 140 *)
    do m <- write m out (xorl (firstn BS buffer) iv);                       (* 127, 141 *)
    do m <- xor_into ws m (out + BS) inp (skipn BS buffer) ((j - 1) * BS);  (* 128-129, 142-143 *)
    Ok (next_iv, m).
  (** a loop over batches: cbc_mode.h 122-146, cfb_mode.h 117-136, ctr_mode.h 75-87, gcm_mode.h 113-125 *)
  Section BATCH.
    Variable batch : list Z -> list Z -> nat -> nat -> nat -> res (list Z * list Z).
    Fixpoint mloop (fuel : nat) (iv m : list Z) (out inp n : nat) : res (list Z * list Z) :=
      match fuel with
      | O => Ok (iv, m)
      | S f =>
          if (PN <=? n)%nat then
            do (iv, m) <- batch iv m out inp PN;
            mloop f iv m (out + PN * BS) (inp + PN * BS) (n - PN)
          else if (0 <? n)%nat then batch iv m out inp n
          else Ok (iv, m)
      end.
  End BATCH.
  Definition cbc_dec_mem (s : K * list Z) (m : list Z) (out inp n : nat) : res ((K * list Z) * list Z) :=
    do (iv, m) <- mloop (cbc_dec_mbatch (fst s)) (S n) (snd s) m out inp n; Ok ((fst s, iv), m).

  (** cfb_mode.h 44-59 *)
  Fixpoint cfb_enc_mloop (k : K) (iv : list Z) (pre : option nat) (m : list Z) (out inp n : nat)
    : res (list Z * list Z) :=
    match n with
    | O => do iv <- at_ptr m iv pre; Ok (iv, m)                             (* 58 *)
    | S n' =>
        do c <- at_ptr m iv pre;
        let iv := encrypt_block k c in                                      (* 53 *)
        do m <- xor_into ws m out inp iv BS;                                (* 54 *)
        cfb_enc_mloop k iv (Some out) m (out + BS) (inp + BS) n'            (* 55-56 *)
    end.
  Definition cfb_enc_mem (s : K * list Z) (m : list Z) (out inp n : nat) : res ((K * list Z) * list Z) :=
    do (iv, m) <- cfb_enc_mloop (fst s) (snd s) None m out inp n; Ok ((fst s, iv), m).

  (** cfb_mode.h 119-123, 129-135 *)
  Definition cfb_dec_mbatch (k : K) (iv m : list Z) (out inp j : nat) : res (list Z * list Z) :=
    do x <- read m inp ((j - 1) * BS);                                      (* 120, 132 *)
    do iv' <- read m (inp + (j - 1) * BS) BS;                               (* 121, 133 *)
    do m <- xor_into ws m out inp (encrypt_blocks k (iv ++ x) j) (j * BS);  (* 122-123, 134-135 *)
    Ok (iv', m).
  Definition cfb_dec_mem (s : K * list Z) (m : list Z) (out inp n : nat) : res ((K * list Z) * list Z) :=
    do (iv, m) <- mloop (cfb_dec_mbatch (fst s)) (S n) (snd s) m out inp n; Ok ((fst s, iv), m).

  (** ofb_mode.h 59-72 *)
  Fixpoint ofb_mloop (k : K) (iv m : list Z) (out inp n : nat) : res (list Z * list Z) :=
    match n with
    | O => Ok (iv, m)
    | S n' =>
        let ks := ofb_gen1 K encrypt_block k iv in                          (* 68 *)
        do m <- xor_into ws m out inp ks BS;                                (* 69 *)
        ofb_mloop k ks m (out + BS) (inp + BS) n'                           (* 70 *)
    end.
  Definition ofb_mem (s : K * list Z) (m : list Z) (out inp n : nat) : res ((K * list Z) * list Z) :=
    do (iv, m) <- ofb_mloop (fst s) (snd s) m out inp n; Ok ((fst s, iv), m).

  (** ctr_mode.h 77-79, 85-86, gcm_mode.h 115-117, 123-124 *)
  Variable inc : list Z -> list Z.
  Definition ctr_mbatch (k : K) (c m : list Z) (out inp j : nat) : res (list Z * list Z) :=
    let '(c1, ks) := gen_ks K encrypt_blocks inc k c j in
    do m <- xor_into ws m out inp ks (j * BS);
    Ok (c1, m).
  Definition ctr_mem (s : K * list Z) (m : list Z) (out inp n : nat) : res ((K * list Z) * list Z) :=
    do (c, m) <- mloop (ctr_mbatch (fst s)) (S n) (snd s) m out inp n; Ok ((fst s, c), m).
End MODES.

(** GCM: gcm_mode.h 98-126, 195-209, 293-311 *)
Section GCM.
  Variable ws : list nat.
  Variable C : cipher.
  Variable G : ghash_impl.
  Notation gcm := (gcm C G).
  (** gcm_mode.h 98-126; the test at 102-105 changes nothing (block_num = 0 does no work anyway) *)
  Definition gctr_mem (k : cK C) (c m : list Z) (out inp n : nat) : res (list Z * list Z) :=
    mloop 16 (cPN C) (ctr_mbatch ws (cK C) 16 (c_ebs C) gctr_inc k) (S n) c m out inp n.
  (** gcm_mode.h 195-209: the ciphertext is hashed from [out] after it has been written *)
  Definition gcm_enc_mem (s : gcm) (m : list Z) (out inp n : nat) : res (gcm * list Z) :=
    do (c, m) <- gctr_mem (gmk s) (gmc s) m out inp n;                      (* 199 *)
    let nxt := gmct s + Z.of_nat (n * 16) in                                (* 201-202 *)
    if (2 ^ 64 <=? nxt) || ((2 ^ 64 - 1) / 8 <? nxt) then Throw             (* 203-206 *)
    else
      do o <- read m out (n * 16);
      do h <- gh_update G (gmh s) o;                                        (* 208 *)
      Ok (mkGCM (gmk s) (gmc0 s) c h (gmtag s) nxt (gmaad s) (gmt s) (gmok s), m).
  (** gcm_mode.h 293-311: the ciphertext is hashed from [inp] before it is overwritten *)
  Definition gcm_dec_mem (s : gcm) (m : list Z) (out inp n : nat) : res (gcm * list Z) :=
    if (n =? 0)%nat then Ok (s, m)                                          (* 297-300 *)
    else
      let nxt := gmct s + Z.of_nat (n * 16) in                              (* 302 *)
      if 2 ^ 64 <=? nxt then Throw                                          (* 303-306 *)
      else
        do d <- read m inp (n * 16);
        do h <- gh_update G (gmh s) d;                                      (* 307-308 *)
        do (c, m) <- gctr_mem (gmk s) (gmc s) m out inp n;                  (* 310 *)
        Ok (mkGCM (gmk s) (gmc0 s) c h (gmtag s) nxt (gmaad s) (gmt s) (gmok s), m).
End GCM.

(** ** Whole in-place sessions *)
(** The array after the session and where the output ends. *)
Definition ip_outcome {M} (r : res (mstate M * list Z * nat)) : res (list Z * nat) :=
  do (_, m, e) <- r; Ok (m, e).

Section SESSIONS.
  Variable ws : list nat.
  Variable C : cipher.
  Variable key iv junk : list Z.
  (** The array, where the message starts, the lengths passed to the update() calls and to do_final(). *)
  Variable m : list Z.
  Variable p : nat.
  Variable lens : list nat.
  Variable lastl : nat.
  Let ek := c_set_key C key true.
  Let dk := c_set_key C key false.

  (** constructor, update() calls, do_final(): ecb_mode.h, cbc_mode.h, cfb_mode.h, ofb_mode.h, ctr_mode.h *)
  Definition ip_ecb_encryptor : res (list Z * nat) :=
    ip_outcome (ip_run _ (cBS C) (ecb_enc_ub _ (c_ebs C)) (ecb_mem _ (cBS C) (c_ebs C))
      (ecb_enc_fb _ (cBS C) (c_eb C)) (m_new _ junk ek) m p lens lastl).
  Definition ip_ecb_decryptor : res (list Z * nat) :=
    ip_outcome (ip_run _ (cBS C) (ecb_dec_ub _ (c_dbs C)) (ecb_mem _ (cBS C) (c_dbs C))
      (ecb_dec_fb _ (cBS C) (c_db C)) (m_new _ junk dk) m p lens lastl).
  Definition ip_cbc_encryptor : res (list Z * nat) :=
    ip_outcome (ip_run _ (cBS C) (cbc_enc_ub _ (cBS C) (c_eb C)) (cbc_enc_mem _ (cBS C) (c_eb C))
      (cbc_enc_fb _ (cBS C) (c_eb C)) (m_new _ junk (ek, iv)) m p lens lastl).
  Definition ip_cbc_decryptor : res (list Z * nat) :=
    ip_outcome (ip_run _ (cBS C) (cbc_dec_ub _ (cBS C) (cPN C) (c_dbs C))
      (cbc_dec_mem ws _ (cBS C) (cPN C) (c_dbs C))
      (cbc_dec_fb _ (cBS C) (cPN C) (c_dbs C)) (m_new _ junk (dk, iv)) m p lens lastl).
  Definition ip_cfb_encryptor : res (list Z * nat) :=
    ip_outcome (ip_run _ (cBS C) (cfb_enc_ub _ (cBS C) (c_eb C)) (cfb_enc_mem ws _ (cBS C) (c_eb C))
      (cfb_enc_fb _ (c_eb C)) (m_new _ junk (ek, iv)) m p lens lastl).
  Definition ip_cfb_decryptor : res (list Z * nat) :=
    ip_outcome (ip_run _ (cBS C) (cfb_dec_ub _ (cBS C) (cPN C) (c_ebs C))
      (cfb_dec_mem ws _ (cBS C) (cPN C) (c_ebs C))
      (cfb_dec_fb _ (c_eb C)) (m_new _ junk (ek, iv)) m p lens lastl).
  Definition ip_ofb_cryptor : res (list Z * nat) :=
    ip_outcome (ip_run _ (cBS C) (ofb_ub _ (cBS C) (c_eb C)) (ofb_mem ws _ (cBS C) (c_eb C))
      (ofb_fb _ (c_eb C)) (m_new _ junk (ek, iv)) m p lens lastl).
  Definition ip_ctr_cryptor : res (list Z * nat) :=
    ip_outcome (ip_run _ (cBS C) (ctr_ub _ (cBS C) (cPN C) (c_ebs C) (ctr_inc (cBS C)))
      (ctr_mem ws _ (cBS C) (cPN C) (c_ebs C) (ctr_inc (cBS C)))
      (ctr_fb _ (c_ebs C) (ctr_inc (cBS C))) (m_new _ junk (ek, iv)) m p lens lastl).

  (** gcm_mode.h: construct with (key, iv, aad), update() calls, do_final(), get_tag() *)
  Variable G : ghash_impl.
  Definition ip_gcm_encryptor (hjunk : list Z) (c0 : gi_ctx G) (aad : list Z) : res (list Z * nat * list Z) :=
    do g <- gcm_init C G (h_new _ hjunk c0) key iv aad (repeat 0 16) [];
    do (s, m, e) <- ip_run (gcm C G) 16 (gcm_enc_ub C G) (gcm_enc_mem ws C G) (gcm_enc_fb C G)
                      (m_new _ junk g) m p lens lastl;
    Ok (m, e, gmtag (mctx s)).
  (** construct, set_tag, update() calls, do_final(); [t] is the static array before *)
  Definition ip_gcm_decryptor (t hjunk : list Z) (c0 : gi_ctx G) (aad tag : list Z) : res (list Z * nat) :=
    do g <- gcm_init C G (h_new _ hjunk c0) key iv aad tag t;
    do (s, m, e) <- ip_run (gcm C G) 16 (gcm_dec_ub C G) (gcm_dec_mem ws C G) (gcm_dec_fb C G)
                      (m_new _ junk g) m p lens lastl;
    if gmok (mctx s) then Ok (m, e) else Throw.                             (* 339-342 *)
End SESSIONS.

(** Model of include/gmlib/block_cipher_mode/gcm_mode.h: GctrCryptor, GcmEncryptor, GcmDecryptor.
    The static array t of GcmDecryptor::final_block is an explicit piece of process state. *)
From Verif Require Import Base ModelEndian ModelModes ModelHash ModelGHASH ModelCipher.

Section GCM.
  Variable C : cipher.
  Variable G : ghash_impl.

  (** Members: cipher_ (21), counter0_ (24), counter_ (23), hash_ (151, 250), tag_ (152, 251),
      ct_len_, aad_len_ (153, 252).  [gmt] and [gmok] only matter for the decryptor: the static
      array t (317) and whether the comparison at 339 succeeded. *)
  Record gcm := mkGCM {
    gmk : cK C; gmc0 : list Z; gmc : list Z; gmh : hstate (gi_ctx G);
    gmtag : list Z; gmct : Z; gmaad : Z; gmt : list Z; gmok : bool }.

  (** zero padding of [n] bytes to the block boundary: 66, 183, 220, 282 *)
  Definition zpad (n : nat) : list Z := repeat 0 ((16 - n mod 16) mod 16).

  (** 44-74 GctrCryptor::init: key schedule, counter0_, hash *)
  Definition gctr_init (h : hstate (gi_ctx G)) (key iv : list Z) : res (cK C * list Z * hstate (gi_ctx G)) :=
    let k := c_set_key C key true in                                     (* 52 *)
    let t := c_eb C k (repeat 0 16) in                                    (* 53 *)
    let h := gh_set_key G h t in                                          (* 54 *)
    if (length iv =? 12)%nat then                                         (* 56 *)
      Ok (k, iv ++ [0; 0; 0; 1], h)                                       (* 58-60 *)
    else
      do h <- gh_update G h iv;                                           (* 65 *)
      do h <- gh_update G h (zpad (length iv));                           (* 66 *)
      let t := store64_be 0 ++ store64_be (w64 (Z.of_nat (length iv) * 8)) in  (* 67-68 *)
      do h <- gh_update G h t;                                            (* 69 *)
      do (h, c0) <- gh_final G h [];                                      (* 70 *)
      Ok (k, c0, gh_reset G h).                                           (* 71 *)

  (** 168-187 GcmEncryptor::init and 267-285 GcmDecryptor::init; [tag] is tag_ after init (all zero
      for the encryptor; for the decryptor what set_tag, 287-290, stores). *)
  Definition gcm_init (h : hstate (gi_ctx G)) (key iv aad tag t : list Z) : res gcm :=
    if (2 ^ 64 - 1) / 8 <? Z.of_nat (length aad) then Throw               (* 174-178, 273-277 *)
    else
      do (k, c0, h) <- gctr_init h key iv;                                (* 179, 278 *)
      do h <- gh_update G h aad;                                          (* 182, 281 *)
      do h <- gh_update G h (zpad (length aad));                          (* 183, 282 *)
      Ok (mkGCM k c0 (gctr_inc c0) h tag 0 (Z.of_nat (length aad)) t false). (* 73, 184-186, 283-284 *)

  (** 98-126 GctrCryptor::update_blocks on counter [c]: new counter_ and output *)
  Definition gctr_ub (k : cK C) (c d : list Z) (n : nat) : list Z * list Z :=
    ctr_loop (cK C) 16 (cPN C) (c_ebs C) gctr_inc (S n) k c d n.
  (** 128-138 GctrCryptor::final_block, inl != 0 *)
  Definition gctr_fb (k : cK C) (c d : list Z) : list Z * list Z :=
    let '(c1, ks) := gen_ks (cK C) (c_ebs C) gctr_inc k c 1 in (c1, xorl (firstn (length d) ks) d).

  (** 195-209 GcmEncryptor::update_blocks.  The test nxt_ct_len < ct_len_ on 64-bit sums is written
      2^64 <= ct_len_ + outl (the same for outl < 2^64, lemma wrap_test in ProofGCM.v). *)
  Definition gcm_enc_ub (m : gcm) (d : list Z) (n : nat) : res (gcm * list Z) :=
    let '(c, o) := gctr_ub (gmk m) (gmc m) d n in                         (* 199 *)
    let nxt := gmct m + Z.of_nat (n * 16) in                              (* 201-202 *)
    if (2 ^ 64 <=? nxt) || ((2 ^ 64 - 1) / 8 <? nxt) then Throw           (* 203-206 *)
    else
      do h <- gh_update G (gmh m) o;                                      (* 208 *)
      Ok (mkGCM (gmk m) (gmc0 m) c h (gmtag m) nxt (gmaad m) (gmt m) (gmok m), o).

  (** 229-236, 332-338: length block, hash, encrypted counter0_: (hash, E(counter0_), tag) *)
  Definition gcm_tag (k : cK C) (c0 : list Z) (h : hstate (gi_ctx G)) (aad ct : Z)
    : res (hstate (gi_ctx G) * list Z * list Z) :=
    let t := store64_be (w64 (aad * 8)) ++ store64_be (w64 (ct * 8)) in
    do h <- gh_update G h t;
    do (h, tag) <- gh_final G h [];
    let t := c_eb C k c0 in
    Ok (h, t, xorl tag t).

  (** 211-237 GcmEncryptor::final_block *)
  Definition gcm_enc_fb (m : gcm) (d : list Z) : res (gcm * list Z) :=
    do (c, h, ct, o) <-
      (if (length d =? 0)%nat then Ok (gmc m, gmh m, gmct m, [])          (* 216 *)
       else
         let '(c, o) := gctr_fb (gmk m) (gmc m) d in                      (* 218 *)
         do h <- gh_update G (gmh m) o;                                   (* 219 *)
         do h <- gh_update G h (zpad (length d));                         (* 220 *)
         let nxt := gmct m + Z.of_nat (length d) in                       (* 222 *)
         if (2 ^ 64 <=? nxt) || ((2 ^ 64 - 1) / 8 <? nxt) then Throw      (* 223-226 *)
         else Ok (c, h, nxt, o));                                         (* 227 *)
    do (h, t, tag) <- gcm_tag (gmk m) (gmc0 m) h (gmaad m) ct;            (* 229-236 *)
    Ok (mkGCM (gmk m) (gmc0 m) c h tag ct (gmaad m) (gmt m) (gmok m), o).

  (** 293-311 GcmDecryptor::update_blocks *)
  Definition gcm_dec_ub (m : gcm) (d : list Z) (n : nat) : res (gcm * list Z) :=
    if (n =? 0)%nat then Ok (m, [])                                       (* 297-300 *)
    else
      let nxt := gmct m + Z.of_nat (n * 16) in                            (* 302 *)
      if 2 ^ 64 <=? nxt then Throw                                        (* 303-306 *)
      else
        do h <- gh_update G (gmh m) d;                                    (* 307-308 *)
        let '(c, o) := gctr_ub (gmk m) (gmc m) d n in                     (* 310 *)
        Ok (mkGCM (gmk m) (gmc0 m) c h (gmtag m) nxt (gmaad m) (gmt m) (gmok m), o).

  (** 313-339 GcmDecryptor::final_block up to the comparison: its result goes to [gmok], the static
      array t ends up as E(counter0_).  The static array tag (317) is always overwritten before it is
      read and is not modelled as state. *)
  Definition gcm_dec_fb (m : gcm) (d : list Z) : res (gcm * list Z) :=
    do (c, h, ct, o) <-
      (if (length d =? 0)%nat then Ok (gmc m, gmh m, gmct m, [])          (* 318 *)
       else
         let nxt := gmct m + Z.of_nat (length d) in                       (* 320 *)
         if 2 ^ 64 <=? nxt then Throw                                     (* 321-324 *)
         else
           do h <- gh_update G (gmh m) d;                                 (* 327 *)
           do p <- read (gmt m) 0 ((16 - length d mod 16) mod 16);
           do h <- gh_update G h p;                                       (* 328: pads with t, not zero *)
           let '(c, o) := gctr_fb (gmk m) (gmc m) d in                    (* 330 *)
           Ok (c, h, nxt, o));
    do (h, t, tag) <- gcm_tag (gmk m) (gmc0 m) h (gmaad m) ct;            (* 332-338 *)
    let ok := if list_eq_dec Z.eq_dec tag (gmtag m) then true else false in
    Ok (mkGCM (gmk m) (gmc0 m) c h (gmtag m) ct (gmaad m) t ok, o).

  (** A whole encryption: construct with (key, iv, aad), update() calls, do_final(), get_tag()
      (189-192).  [junk], [hjunk]: indeterminate buffers of the mode and of the hash object. *)
  Definition gcm_encryptor (junk hjunk : list Z) (c0 : gi_ctx G) (key iv aad : list Z)
             (calls : list (list Z * list Z)) (lastc : list Z * list Z) : res (list Z * list Z) :=
    do m <- gcm_init (h_new _ hjunk c0) key iv aad (repeat 0 16) [];
    do (s, o) <- m_run gcm 16 gcm_enc_ub gcm_enc_fb (m_new gcm junk m) calls lastc;
    Ok (o, gmtag (mctx s)).

  (** A whole decryption: construct, set_tag, update() calls, do_final().  [t] is the static array
      before; the second component is its value after. *)
  Definition gcm_decryptor (t junk hjunk : list Z) (c0 : gi_ctx G) (key iv aad tag : list Z)
             (calls : list (list Z * list Z)) (lastc : list Z * list Z) : res (list Z) * list Z :=
    match gcm_init (h_new _ hjunk c0) key iv aad tag t with
    | Ok m =>
        match m_run gcm 16 gcm_dec_ub gcm_dec_fb (m_new gcm junk m) calls lastc with
        | Ok (s, o) => (if gmok (mctx s) then Ok o else Throw, gmt (mctx s))   (* 339-342 *)
        | Throw => (Throw, t)
        | UB => (UB, t)
        end
    | Throw => (Throw, t)
    | UB => (UB, t)
    end.
End GCM.
Arguments mkGCM {C G}. Arguments gmk {C G}. Arguments gmc0 {C G}. Arguments gmc {C G}.
Arguments gmh {C G}. Arguments gmtag {C G}. Arguments gmct {C G}. Arguments gmaad {C G}.
Arguments gmt {C G}. Arguments gmok {C G}.

(** One decryption request of a process, and the decryptions of a process one after the other: the
    static array starts zeroed (317). *)
Record request := mkReq {
  rq_junk : list Z; rq_key : list Z; rq_iv : list Z; rq_aad : list Z; rq_tag : list Z;
  rq_calls : list (list Z * list Z); rq_last : list Z * list Z }.
Definition rq_dec (C : cipher) (G : ghash_impl) (c0 : gi_ctx G) (t : list Z) (r : request) : res (list Z) * list Z :=
  gcm_decryptor C G t (rq_junk r) (rq_junk r) c0 (rq_key r) (rq_iv r) (rq_aad r) (rq_tag r) (rq_calls r) (rq_last r).
Fixpoint process (C : cipher) (G : ghash_impl) (c0 : gi_ctx G) (t : list Z) (rs : list request) : list (res (list Z)) :=
  match rs with
  | [] => []
  | r :: rest => let '(o, t') := rq_dec C G c0 t r in o :: process C G c0 t' rest
  end.

(** src/ghash: one of the three variants is linked (CMake); the table of lut256 is indeterminate
    before the first set_key. *)
Definition ghash_variant (G : ghash_impl) : Prop :=
  G = G_common \/ (exists T0, length T0 = 256%nat /\ G = G_lut256 T0) \/ G = G_pclmul.

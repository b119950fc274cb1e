(** GcmDecryptor objects used by several threads at the same time
    (include/gmlib/block_cipher_mode/gcm_mode.h 241-344).  Construction, set_tag and update touch only
    the object; final_block (313-343) works on the two arrays [static std::uint8_t t[16], tag[16]] of
    line 317, which all objects of the program share.  A thread's do_final is a sequence of steps, one
    per statement that reads or writes a shared array; a schedule says which thread makes the next
    step.  Simplified: a step is indivisible (in C++ overlapping accesses are a data race, so what is
    shown here is one of the permitted outcomes); the caller's output buffer is not shared, what is put
    in it at line 330 is kept with the thread. *)
From Verif Require Import Base ModelEndian ModelModes ModelHash ModelGHASH ModelCipher ModelGCM.

Section Conc.
  Variable C : cipher.
  Variable G : ghash_impl.
  Variable g0 : gi_ctx G.

  (** the object inside final_block: the members, the hash, the length hashed, the bytes delivered *)
  Record fin := mkFin { f_m : gcm C G; f_h : hstate (gi_ctx G); f_ct : Z; f_out : res (list Z) }.
  Inductive thread :=
  | TReq (r : request)                                          (* nothing done yet *)
  | TFin0 (s : mstate (gcm C G)) (pre ob : list Z) (outl : nat) (* final_block called, line 317 *)
  | TFin (pc : nat) (f : fin)                                   (* inside final_block *)
  | TEnd (o : res (list Z)).                                    (* returned or thrown *)

  (** 258-265, 287-290 construct and set_tag; block_cipher_mode.h 31-79 the update() calls and 86 the
      update inside do_final: (object, bytes delivered before, last buffer, position in it) *)
  Definition prelude (r : request) : res (mstate (gcm C G) * list Z * list Z * nat) :=
    do m <- gcm_init C G (h_new _ (rq_junk r) g0) (rq_key r) (rq_iv r) (rq_aad r) (rq_tag r) [];
    do (s1, o1) <- m_updates (gcm C G) 16 (gcm_dec_ub C G) (m_new (gcm C G) (rq_junk r) m) (rq_calls r);
    do (s2, ob, outl) <- m_update (gcm C G) 16 (gcm_dec_ub C G) s1 (fst (rq_last r)) 0 (snd (rq_last r));
    Ok (s2, o1, ob, outl).

  (** 318-331: hash the remaining bytes, pad with the shared array [t] (328), decrypt them *)
  Definition fin_data (m : gcm C G) (t d : list Z) : res (list Z * hstate (gi_ctx G) * Z * list Z) :=
    if (length d =? 0)%nat then Ok (gmc m, gmh m, gmct m, [])
    else
      let nxt := gmct m + Z.of_nat (length d) in
      if 2 ^ 64 <=? nxt then Throw
      else
        do h <- gh_update G (gmh m) d;
        do p <- read t 0 ((16 - length d mod 16) mod 16);
        do h <- gh_update G h p;
        let '(c, o) := gctr_fb C (gmk m) (gmc m) d in
        Ok (c, h, nxt, o).

  (** one step of a thread on the shared arrays (t, tag) *)
  Definition step (t tag : list Z) (th : thread) : list Z * list Z * thread :=
    match th with
    | TReq r =>
        match prelude r with
        | Ok (s, o1, ob, outl) => (t, tag, TFin0 s o1 ob outl)
        | Throw => (t, tag, TEnd Throw) | UB => (t, tag, TEnd UB)
        end
    | TFin0 s o1 ob outl =>                                              (* 318-331 *)
        match fin_data (mctx s) t (firstn (msize s) (mbuf s)) with
        | Ok (c, h, ct, o) =>
            (t, tag, TFin 1 (mkFin (mctx s) h ct
               (do ob2 <- write ob outl o; Ok (o1 ++ firstn (outl + msize s) ob2))))
        | Throw => (t, tag, TEnd Throw) | UB => (t, tag, TEnd UB)
        end
    | TFin 1 f => (store64_be (w64 (gmaad (f_m f) * 8)) ++ skipn 8 t, tag, TFin 2 f)        (* 332 *)
    | TFin 2 f => (firstn 8 t ++ store64_be (w64 (f_ct f * 8)), tag, TFin 3 f)              (* 333 *)
    | TFin 3 f =>                                                                           (* 334 *)
        match gh_update G (f_h f) t with
        | Ok h => (t, tag, TFin 4 (mkFin (f_m f) h (f_ct f) (f_out f)))
        | Throw => (t, tag, TEnd Throw) | UB => (t, tag, TEnd UB)
        end
    | TFin 4 f =>                                                                           (* 335 *)
        match gh_final G (f_h f) [] with
        | Ok (h, tg) => (t, tg, TFin 5 (mkFin (f_m f) h (f_ct f) (f_out f)))
        | Throw => (t, tag, TEnd Throw) | UB => (t, tag, TEnd UB)
        end
    | TFin 5 f => (c_eb C (gmk (f_m f)) (gmc0 (f_m f)), tag, TFin 6 f)                      (* 336-337 *)
    | TFin 6 f => (t, xorl tag t, TFin 7 f)                                                 (* 338 *)
    | TFin _ f =>                                                                           (* 339-342 *)
        (t, tag, TEnd (do o <- f_out f; if list_eq_dec Z.eq_dec tag (gmtag (f_m f)) then Ok o else Throw))
    | TEnd o => (t, tag, TEnd o)
    end.

  (** the program: the shared arrays and its threads; [sched] lists who moves next *)
  Definition world : Type := (list Z * list Z * list thread)%type.
  Definition upd (l : list thread) (i : nat) (x : thread) : list thread := firstn i l ++ x :: skipn (S i) l.
  Definition wstep (w : world) (i : nat) : world :=
    let '(t, tag, ths) := w in
    match nth_error ths i with
    | Some th => let '(t', tag', th') := step t tag th in (t', tag', upd ths i th')
    | None => w
    end.
  Definition wrun (w : world) (sched : list nat) : world := fold_left wstep sched w.
  (** the arrays start zeroed, as static storage does *)
  Definition start (rs : list request) : world := (repeat 0 16, repeat 0 16, map TReq rs).
  Definition outcome (w : world) (i : nat) : option (res (list Z)) :=
    match nth_error (snd w) i with Some (TEnd o) => Some o | _ => None end.

  (** no thread enters final_block while another one is inside it *)
  Definition inside (th : thread) : bool := match th with TFin _ _ => true | _ => false end.
  Fixpoint exclusive (w : world) (sched : list nat) : Prop :=
    match sched with
    | [] => True
    | i :: r =>
        (match nth_error (snd w) i with
         | Some (TFin0 _ _ _ _) => existsb inside (snd w) = false
         | _ => True
         end) /\ exclusive (wstep w i) r
    end.
End Conc.
Arguments TReq {C G}. Arguments TFin0 {C G}. Arguments TFin {C G}. Arguments TEnd {C G}. Arguments mkFin {C G}.
Arguments f_m {C G}. Arguments f_h {C G}. Arguments f_ct {C G}. Arguments f_out {C G}.

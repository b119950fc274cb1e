(** Properties C18-C23 and C53-C55: the ECB, CBC, CFB, OFB and CTR mode objects.

    Statements are for every cipher class [C] that implements some keyed permutation (E, D)
    ([implements], SpecCipher.v; met by the three SM4 builds and, in PropAES.v, by AES), every key,
    IV and message, every way to cut the message into update() calls and a do_final() call ([msg]
    is the concatenation), and every adequate output buffer ([room]).  [*_encryptor] etc. are whole
    sessions with a mode object (ModelCipher.v); the upper-case names are NIST SP 800-38A
    (SpecModes.v). *)
From Verif Require Import Base BaseFacts ModelModes SpecModes ModelCipher SpecCipher ModelSM4 SpecSM4
  ProofModeStream ProofModeHist ProofCipher ProofModesProp.

(** C18 + C23 for ECB. *)
Theorem C18_ecb_conforms : forall C klen E D, implements C klen E D -> forall key iv junk calls lastc, session_ok C klen key iv junk calls lastc ->
  let x := msg calls lastc in
  ecb_encryptor C key junk calls lastc =
    (if (length x mod (cBS C) =? 0)%nat then Ok (ECB_enc (cBS C) (E key) x) else Throw) /\
  ecb_decryptor C key junk calls lastc =
    (if (length x mod (cBS C) =? 0)%nat then Ok (ECB_dec (cBS C) (D key) x) else Throw).
Proof. exact p_ecb. Qed.

Theorem C18_ecb_roundtrip : forall C klen E D, implements C klen E D -> forall key iv junk calls lastc junk' calls' lastc' ct,
  session_ok C klen key iv junk calls lastc ->
  ecb_encryptor C key junk calls lastc = Ok ct ->
  length junk' = (cBS C) -> Forall (room (cBS C)) (calls' ++ [lastc']) -> msg calls' lastc' = ct ->
  ecb_decryptor C key junk' calls' lastc' = Ok (msg calls lastc) /\
  length ct = length (msg calls lastc).
Proof. exact p_ecb_rt. Qed.

(** C19 + C23 for CBC. *)
Theorem C19_cbc_conforms : forall C klen E D, implements C klen E D -> forall key iv junk calls lastc, session_ok C klen key iv junk calls lastc ->
  let x := msg calls lastc in
  cbc_encryptor C key iv junk calls lastc =
    (if (length x mod (cBS C) =? 0)%nat then Ok (CBC_enc (cBS C) (E key) iv x) else Throw) /\
  cbc_decryptor C key iv junk calls lastc =
    (if (length x mod (cBS C) =? 0)%nat then Ok (CBC_dec (cBS C) (D key) iv x) else Throw).
Proof. exact p_cbc. Qed.

Theorem C19_cbc_roundtrip : forall C klen E D, implements C klen E D -> forall key iv junk calls lastc junk' calls' lastc' ct,
  session_ok C klen key iv junk calls lastc ->
  cbc_encryptor C key iv junk calls lastc = Ok ct ->
  length junk' = (cBS C) -> Forall (room (cBS C)) (calls' ++ [lastc']) -> msg calls' lastc' = ct ->
  cbc_decryptor C key iv junk' calls' lastc' = Ok (msg calls lastc) /\
  length ct = length (msg calls lastc).
Proof. exact p_cbc_rt. Qed.

(** C20: CFB, any length. *)
Theorem C20_cfb_conforms : forall C klen E D, implements C klen E D -> forall key iv junk calls lastc, session_ok C klen key iv junk calls lastc ->
  let x := msg calls lastc in
  cfb_encryptor C key iv junk calls lastc = Ok (CFB_enc (cBS C) (E key) iv x) /\
  cfb_decryptor C key iv junk calls lastc = Ok (CFB_dec (cBS C) (E key) iv x).
Proof. exact p_cfb. Qed.

Theorem C20_cfb_roundtrip : forall C klen E D, implements C klen E D -> forall key iv junk calls lastc junk' calls' lastc' ct,
  session_ok C klen key iv junk calls lastc ->
  cfb_encryptor C key iv junk calls lastc = Ok ct ->
  length junk' = (cBS C) -> Forall (room (cBS C)) (calls' ++ [lastc']) -> msg calls' lastc' = ct ->
  cfb_decryptor C key iv junk' calls' lastc' = Ok (msg calls lastc) /\
  length ct = length (msg calls lastc).
Proof. exact p_cfb_rt. Qed.

(** C21: OFB, any length. *)
Theorem C21_ofb_conforms : forall C klen E D, implements C klen E D -> forall key iv junk calls lastc, session_ok C klen key iv junk calls lastc ->
  ofb_cryptor C key iv junk calls lastc = Ok (OFB (cBS C) (E key) iv (msg calls lastc)).
Proof. exact p_ofb. Qed.

Theorem C21_ofb_roundtrip : forall C klen E D, implements C klen E D -> forall key iv junk calls lastc junk' calls' lastc' ct,
  session_ok C klen key iv junk calls lastc ->
  ofb_cryptor C key iv junk calls lastc = Ok ct ->
  length junk' = (cBS C) -> Forall (room (cBS C)) (calls' ++ [lastc']) -> msg calls' lastc' = ct ->
  ofb_cryptor C key iv junk' calls' lastc' = Ok (msg calls lastc) /\
  length ct = length (msg calls lastc).
Proof. exact p_ofb_rt. Qed.

(** C22: CTR, any length, any initial counter (block j uses the counter iv + j mod 256^BLOCK_SIZE). *)
Theorem C22_ctr_conforms : forall C klen E D, implements C klen E D -> forall key iv junk calls lastc, session_ok C klen key iv junk calls lastc ->
  ctr_cryptor C key iv junk calls lastc = Ok (CTR (cBS C) (E key) iv (msg calls lastc)).
Proof. exact p_ctr. Qed.

Theorem C22_ctr_roundtrip : forall C klen E D, implements C klen E D -> forall key iv junk calls lastc junk' calls' lastc' ct,
  session_ok C klen key iv junk calls lastc ->
  ctr_cryptor C key iv junk calls lastc = Ok ct ->
  length junk' = (cBS C) -> Forall (room (cBS C)) (calls' ++ [lastc']) -> msg calls' lastc' = ct ->
  ctr_cryptor C key iv junk' calls' lastc' = Ok (msg calls lastc) /\
  length ct = length (msg calls lastc).
Proof. exact p_ctr_rt. Qed.

(** C23: ECB and CBC complete exactly on whole numbers of blocks, and then output exactly as many
    bytes as were input. *)
Theorem C23_incomplete_rejected : forall C klen E D, implements C klen E D -> forall key iv junk calls lastc r,
  session_ok C klen key iv junk calls lastc ->
  In r [ecb_encryptor C key junk calls lastc; ecb_decryptor C key junk calls lastc;
        cbc_encryptor C key iv junk calls lastc; cbc_decryptor C key iv junk calls lastc] ->
  ((exists o, r = Ok o /\ length o = length (msg calls lastc)) /\
     (length (msg calls lastc) mod (cBS C) = 0)%nat) \/
  (r = Throw /\ (length (msg calls lastc) mod (cBS C) <> 0)%nat).
Proof. exact p_incomplete. Qed.

(** C54 (what holds): reset(iv) after any history of update()/do_final() calls, with any *outl
    values, gives an object whose sessions are those of a new one. *)
Theorem C54_cbc_reset_fresh : forall C klen E D, implements C klen E D -> forall key iv iv0 junk h s calls lastc,
  session_ok C klen key iv junk calls lastc ->
  (m_history _ (cBS C) (cbc_enc_ub _ (cBS C) (c_eb C)) (cbc_enc_fb _ (cBS C) (c_eb C))
     (m_new _ junk (c_set_key C key true, iv0)) h = Ok s ->
   outcome (m_run _ (cBS C) (cbc_enc_ub _ (cBS C) (c_eb C)) (cbc_enc_fb _ (cBS C) (c_eb C))
     (m_reset_iv s iv) calls lastc) = cbc_encryptor C key iv junk calls lastc) /\
  (m_history _ (cBS C) (cbc_dec_ub _ (cBS C) (cPN C) (c_dbs C)) (cbc_dec_fb _ (cBS C) (cPN C) (c_dbs C))
     (m_new _ junk (c_set_key C key false, iv0)) h = Ok s ->
   outcome (m_run _ (cBS C) (cbc_dec_ub _ (cBS C) (cPN C) (c_dbs C)) (cbc_dec_fb _ (cBS C) (cPN C) (c_dbs C))
     (m_reset_iv s iv) calls lastc) = cbc_decryptor C key iv junk calls lastc).
Proof. exact p_reset_cbc. Qed.

Theorem C54_cfb_reset_fresh : forall C klen E D, implements C klen E D -> forall key iv iv0 junk h s calls lastc,
  session_ok C klen key iv junk calls lastc ->
  (m_history _ (cBS C) (cfb_enc_ub _ (cBS C) (c_eb C)) (cfb_enc_fb _ (c_eb C))
     (m_new _ junk (c_set_key C key true, iv0)) h = Ok s ->
   outcome (m_run _ (cBS C) (cfb_enc_ub _ (cBS C) (c_eb C)) (cfb_enc_fb _ (c_eb C))
     (m_reset_iv s iv) calls lastc) = cfb_encryptor C key iv junk calls lastc) /\
  (m_history _ (cBS C) (cfb_dec_ub _ (cBS C) (cPN C) (c_ebs C)) (cfb_dec_fb _ (c_eb C))
     (m_new _ junk (c_set_key C key true, iv0)) h = Ok s ->
   outcome (m_run _ (cBS C) (cfb_dec_ub _ (cBS C) (cPN C) (c_ebs C)) (cfb_dec_fb _ (c_eb C))
     (m_reset_iv s iv) calls lastc) = cfb_decryptor C key iv junk calls lastc).
Proof. exact p_reset_cfb. Qed.

Theorem C54_ofb_ctr_reset_fresh : forall C klen E D, implements C klen E D -> forall key iv iv0 junk h s calls lastc,
  session_ok C klen key iv junk calls lastc ->
  (m_history _ (cBS C) (ofb_ub _ (cBS C) (c_eb C)) (ofb_fb _ (c_eb C))
     (m_new _ junk (c_set_key C key true, iv0)) h = Ok s ->
   outcome (m_run _ (cBS C) (ofb_ub _ (cBS C) (c_eb C)) (ofb_fb _ (c_eb C))
     (m_reset_iv s iv) calls lastc) = ofb_cryptor C key iv junk calls lastc) /\
  (m_history _ (cBS C) (ctr_ub _ (cBS C) (cPN C) (c_ebs C) (ctr_inc (cBS C))) (ctr_fb _ (c_ebs C) (ctr_inc (cBS C)))
     (m_new _ junk (c_set_key C key true, iv0)) h = Ok s ->
   outcome (m_run _ (cBS C) (ctr_ub _ (cBS C) (cPN C) (c_ebs C) (ctr_inc (cBS C))) (ctr_fb _ (c_ebs C) (ctr_inc (cBS C)))
     (m_reset_iv s iv) calls lastc) = ctr_cryptor C key iv junk calls lastc).
Proof. exact p_reset_ofb_ctr. Qed.
Print Assumptions C18_ecb_conforms.
Print Assumptions C18_ecb_roundtrip.
Print Assumptions C19_cbc_conforms.
Print Assumptions C19_cbc_roundtrip.
Print Assumptions C20_cfb_conforms.
Print Assumptions C20_cfb_roundtrip.
Print Assumptions C21_ofb_conforms.
Print Assumptions C21_ofb_roundtrip.
Print Assumptions C22_ctr_conforms.
Print Assumptions C22_ctr_roundtrip.
Print Assumptions C23_incomplete_rejected.
Print Assumptions C54_cbc_reset_fresh.
Print Assumptions C54_cfb_reset_fresh.
Print Assumptions C54_ofb_ctr_reset_fresh.

(** ** A concrete key, IV, message and split *)
Definition ex_key : list Z := be_bytes 16 0x0123456789abcdeffedcba9876543210.
Definition ex_iv : list Z := be_bytes 16 0xffffffffffffffffffffffffffffffff.
Definition ex_calls : list (list Z * list Z) :=
  [(repeat 0 40, repeat 1 5); (repeat 0 20, repeat 2 3); (repeat 9 200, map Z.of_nat (seq 0 100))].
Definition ex_last (n : nat) : list Z * list Z := (repeat 0 40, repeat 3 n).

(** Non-vacuity: the hypotheses are met, with 112 bytes (all modes complete) and 113 bytes. *)
Example C18_session_met : implements SM4_lang18 16 SM4_enc SM4_dec /\
  session_ok SM4_lang18 16 ex_key ex_iv (repeat 0 16) ex_calls (ex_last 4) /\
  length (msg ex_calls (ex_last 4)) = 112%nat /\ length (msg ex_calls (ex_last 5)) = 113%nat.
Proof.
  split; [exact impl_SM4_lang18|]. split; [|split; reflexivity].
  unfold session_ok. split; [apply be_bytes_bytes|]. split; [reflexivity|].
  split; [apply be_bytes_bytes|]. split; [reflexivity|]. split; [reflexivity|].
  split; [apply all_bytes_spec; vm_compute; reflexivity|].
  repeat constructor; unfold room; cbn; lia.
Qed.
Example C19_example : exists ct,
  cbc_encryptor SM4_lang18 ex_key ex_iv (repeat 0 16) ex_calls (ex_last 4) = Ok ct /\
  length ct = 112%nat /\
  cbc_decryptor SM4_lang18 ex_key ex_iv (repeat 5 16) [(repeat 0 200, firstn 63 ct)] (repeat 0 200, skipn 63 ct)
    = Ok (msg ex_calls (ex_last 4)) /\
  cbc_encryptor SM4_lang18 ex_key ex_iv (repeat 0 16) ex_calls (ex_last 5) = Throw.
Proof.
  eexists. split; [vm_compute; reflexivity|]. split; [reflexivity|].
  split; vm_compute; reflexivity.
Qed.
Example C22_example : exists ct,
  ctr_cryptor SM4_lang18 ex_key ex_iv (repeat 0 16) ex_calls (ex_last 5) = Ok ct /\ length ct = 113%nat /\
  ctr_cryptor SM4_common ex_key ex_iv (repeat 0 16) [] (repeat 0 200, ct) = Ok (msg ex_calls (ex_last 5)).
Proof.
  eexists. split; [vm_compute; reflexivity|]. split; [reflexivity|]. vm_compute; reflexivity.
Qed.

(** ** C53 / C55: *outl, for any derived mode class *)

(** C53 in full is false: after a 5-byte update, a 3-byte update writes nothing to out and leaves
    *outl (here 7) as it was. *)
Theorem C53_outl_refuted :
  exists s ob s',
    m_update _ 16 (cbc_enc_ub _ 16 (c_eb SM4_lang18))
      (m_new _ (repeat 0 16) (c_set_key SM4_lang18 ex_key true, ex_iv)) (repeat 0 40) 7 (repeat 1 5)
      = Ok (s, ob, 0%nat) /\
    m_update _ 16 (cbc_enc_ub _ 16 (c_eb SM4_lang18)) s ob 7 (repeat 2 3) = Ok (s', ob, 7%nat).
Proof. eexists _, _, _. split; [vm_compute; reflexivity|]. vm_compute; reflexivity. Qed.
Print Assumptions C53_outl_refuted.

(** ... and do_final() then reports 7 bytes too many and puts the output at the wrong place. *)
Theorem C53_final_stale_outl_refuted :
  exists s ob s' ob',
    m_update _ 16 (cfb_enc_ub _ 16 (c_eb SM4_lang18))
      (m_new _ (repeat 0 16) (c_set_key SM4_lang18 ex_key true, ex_iv)) (repeat 0 40) 7 (repeat 1 5)
      = Ok (s, ob, 0%nat) /\
    m_final _ 16 (cfb_enc_ub _ 16 (c_eb SM4_lang18)) (cfb_enc_fb _ (c_eb SM4_lang18)) s ob 7 (repeat 2 3)
      = Ok (s', ob', 15%nat) /\ firstn 7 ob' = repeat 0 7.
Proof. eexists _, _, _, _. split; [vm_compute; reflexivity|]. split; [vm_compute; reflexivity|]. vm_compute; reflexivity. Qed.
Print Assumptions C53_final_stale_outl_refuted.

(** What holds: the only call that does not write *outl is one whose input is buffered behind
    earlier buffered bytes without completing a block; every other call sets it to the number of
    bytes of completed blocks.  Callers that set *outl = 0 first always read the right value. *)
Theorem C53_outl_partial : forall M BS ub (s s' : mstate M) outb outl inp ob outl',
  (0 < BS)%nat -> length (mbuf s) = BS -> (msize s < BS)%nat ->
  m_update M BS ub s outb outl inp = Ok (s', ob, outl') ->
  msize s' = ((msize s + length inp) mod BS)%nat /\ length ob = length outb /\
  (outl' = ((msize s + length inp) / BS * BS)%nat \/
   ((0 < msize s /\ 0 < length inp /\ msize s + length inp < BS)%nat /\ outl' = outl)) /\
  (outl = 0%nat -> outl' = ((msize s + length inp) / BS * BS)%nat).
Proof. exact p_outl. Qed.
Print Assumptions C53_outl_partial.

(** C55: after any sequence of updates (with *outl = 0 before each) the bytes delivered are the
    whole blocks of the input so far: never more than was input. *)
Theorem C55_output_bounded : forall M BS ub junk (m0 : M) calls s o,
  (0 < BS)%nat -> length junk = BS -> Forall (room BS) calls ->
  m_updates M BS ub (m_new M junk m0) calls = Ok (s, o) ->
  let total := length (concat (map snd calls)) in
  length o = (total / BS * BS)%nat /\ (length o <= total)%nat /\ (total < length o + BS)%nat.
Proof. exact p_total. Qed.
Print Assumptions C55_output_bounded.

(** ... and after do_final the output has exactly the length of the input, in every mode. *)
Theorem C55_final_exact : forall C klen E D, implements C klen E D ->
  forall key iv junk calls lastc r, session_ok C klen key iv junk calls lastc ->
  In r [ecb_encryptor C key junk calls lastc; ecb_decryptor C key junk calls lastc;
        cbc_encryptor C key iv junk calls lastc; cbc_decryptor C key iv junk calls lastc;
        cfb_encryptor C key iv junk calls lastc; cfb_decryptor C key iv junk calls lastc;
        ofb_cryptor C key iv junk calls lastc; ctr_cryptor C key iv junk calls lastc] ->
  forall o, r = Ok o -> length o = length (msg calls lastc).
Proof. exact p_len_all. Qed.
Print Assumptions C55_final_exact.

(** ** C54 in full is false: init() does not drop buffered input.  A CTR object that was given one
    byte and then re-initialised with the same key and IV produces another output than a new one. *)
Theorem C54_init_fresh_refuted :
  let ub := ctr_ub _ 16 4 (c_ebs SM4_lang18) (ctr_inc 16) in
  let fb := ctr_fb _ (c_ebs SM4_lang18) (ctr_inc 16) in
  let k := c_set_key SM4_lang18 ex_key true in
  exists s, m_history _ 16 ub fb (m_new _ (repeat 0 16) (k, ex_iv)) [(false, repeat 0 16, 0%nat, [65])] = Ok s /\
  outcome (m_run _ 16 ub fb (m_init_key_iv k ex_iv s) [] (repeat 0 40, repeat 1 16)) <>
  ctr_cryptor SM4_lang18 ex_key ex_iv (repeat 0 16) [] (repeat 0 40, repeat 1 16).
Proof. eexists. split; [vm_compute; reflexivity|]. vm_compute. discriminate. Qed.
Print Assumptions C54_init_fresh_refuted.

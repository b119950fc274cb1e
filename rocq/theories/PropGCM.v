(** Properties C24-C26: GCM.  They hold of every cipher class with 16-byte blocks that [implements] a
    block cipher (SM4 in PropSM4.v, AES in PropAES.v) and of each of the three GHASH variants. *)
From Verif Require Import Base BaseFacts ModelModes ModelHash ModelGHASH ModelCipher SpecCipher SpecSM4 ProofCipher
  SpecGCM ModelGCM SpecGCMUse ProofGCM.

(** C24: encryption.  However the plaintext is split over update() calls, whatever the IV length, the
    delivered bytes and get_tag() are GCM-AE of SP 800-38D, as long as the bit lengths of the
    additional data and of the plaintext fit 64 bits; otherwise an exception is thrown.
    [junk], [hjunk] and [g0] are the indeterminate initial contents of the mode buffer, the GHASH
    buffer and the GHASH context. *)
Theorem C24_gcm_encrypt_conforms : forall C klen E D, implements C klen E D -> cBS C = 16%nat ->
  forall G g0, ghash_variant G ->
  forall junk hjunk key iv aad calls lastc, length hjunk = 16%nat -> gargs klen junk key iv aad calls lastc ->
  gcm_encryptor C G junk hjunk g0 key iv aad calls lastc =
  if fits aad && fits (msg calls lastc) then Ok (GCM_enc (E key) iv aad (msg calls lastc)) else Throw.
Proof. exact p_gcm_enc. Qed.
Print Assumptions C24_gcm_encrypt_conforms.

(** C25: the first decryption of a process (the static array is still zero) delivers GCM-AD of
    SP 800-38D: it accepts exactly the standard's tag, and then delivers the plaintext. *)
Theorem C25_gcm_decrypt_conforms : forall C klen E D, implements C klen E D -> cBS C = 16%nat ->
  forall G g0, ghash_variant G ->
  forall junk hjunk key iv aad tag calls lastc, length hjunk = 16%nat -> gargs klen junk key iv aad calls lastc ->
  let x := msg calls lastc in
  fits aad = true -> Z.of_nat (length x) < 2 ^ 64 ->
  fst (gcm_decryptor C G (repeat 0 16) junk hjunk g0 key iv aad tag calls lastc) =
  match GCM_dec (E key) iv aad x tag with Some p => Ok p | None => Throw end.
Proof. exact p_gcm_dec_first. Qed.
Print Assumptions C25_gcm_decrypt_conforms.

(** The same for any later decryption whose ciphertext is a whole number of blocks. *)
Theorem C25_gcm_decrypt_aligned : forall C klen E D, implements C klen E D -> cBS C = 16%nat ->
  forall G g0, ghash_variant G ->
  forall t junk hjunk key iv aad tag calls lastc,
  bytes t -> length t = 16%nat -> length hjunk = 16%nat -> gargs klen junk key iv aad calls lastc ->
  let x := msg calls lastc in
  fits aad = true -> Z.of_nat (length x) < 2 ^ 64 -> (length x mod 16 = 0)%nat ->
  fst (gcm_decryptor C G t junk hjunk g0 key iv aad tag calls lastc) =
  match GCM_dec (E key) iv aad x tag with Some p => Ok p | None => Throw end.
Proof. exact p_gcm_dec_aligned. Qed.
Print Assumptions C25_gcm_decrypt_aligned.

(** What GcmEncryptor produced, GcmDecryptor accepts and turns back, under any two splits. *)
Theorem C25_gcm_roundtrip : forall C klen E D, implements C klen E D -> cBS C = 16%nat ->
  forall G g0 G' g0', ghash_variant G -> ghash_variant G' ->
  forall junk hjunk junk' hjunk' key iv aad calls lastc calls' lastc' c tag,
  length hjunk = 16%nat -> length hjunk' = 16%nat -> length junk' = 16%nat ->
  gargs klen junk key iv aad calls lastc -> Forall (room 16) (calls' ++ [lastc']) ->
  gcm_encryptor C G junk hjunk g0 key iv aad calls lastc = Ok (c, tag) ->
  msg calls' lastc' = c ->
  fst (gcm_decryptor C G' (repeat 0 16) junk' hjunk' g0' key iv aad tag calls' lastc') = Ok (msg calls lastc).
Proof. exact p_gcm_rt. Qed.
Print Assumptions C25_gcm_roundtrip.

(** C26, the part that holds: in any sequence of decryptions of one process, the first one and every
    one whose ciphertext is a whole number of blocks have the standard's outcome, whatever keys, IVs,
    data and failures went before. *)
Theorem C26_gcm_independent_partial : forall C klen E D, implements C klen E D -> cBS C = 16%nat ->
  forall G g0, ghash_variant G -> forall rs, Forall (rq_ok klen) rs ->
  forall i r, nth_error rs i = Some r ->
  i = 0%nat \/ (length (msg (rq_calls r) (rq_last r)) mod 16 = 0)%nat ->
  nth_error (process C G g0 (repeat 0 16) rs) i = Some (rq_std E r).
Proof. exact p_process0. Qed.
Print Assumptions C26_gcm_independent_partial.

(** What happens otherwise: the partial last block is hashed with the previous decryption's
    [E(J0)] where the standard has zeros. *)
Theorem C26_gcm_stale_padding : forall C klen E D, implements C klen E D -> cBS C = 16%nat ->
  forall G g0, ghash_variant G ->
  forall t junk hjunk key iv aad tag calls lastc,
  bytes t -> length t = 16%nat -> length hjunk = 16%nat -> gargs klen junk key iv aad calls lastc ->
  let x := msg calls lastc in
  fits aad = true -> Z.of_nat (length x) < 2 ^ 64 ->
  gcm_decryptor C G t junk hjunk g0 key iv aad tag calls lastc =
  (if list_eq_dec Z.eq_dec tag (tag_with (E key) iv aad x (x ++ firstn (padlen x) t))
   then Ok (GCM_cipher (E key) iv x) else Throw,
   E key (J0 (E key) iv)).
Proof. exact p_gcm_dec. Qed.
Print Assumptions C26_gcm_stale_padding.

(** RFC 8998 A.1 (SM4-GCM), as a check of the specification and of the model. *)
Definition rfc_key := [0x01;0x23;0x45;0x67;0x89;0xab;0xcd;0xef;0xfe;0xdc;0xba;0x98;0x76;0x54;0x32;0x10].
Definition rfc_iv := [0x00;0x00;0x12;0x34;0x56;0x78;0x00;0x00;0x00;0x00;0xab;0xcd].
Definition rfc_aad := [0xfe;0xed;0xfa;0xce;0xde;0xad;0xbe;0xef;0xfe;0xed;0xfa;0xce;0xde;0xad;0xbe;0xef;0xab;0xad;0xda;0xd2].
Definition rfc_p := concat (map (fun b => repeat b 8) [0xaa;0xbb;0xcc;0xdd;0xee;0xff;0xee;0xaa]).
Definition rfc_c :=
  [0x17;0xf3;0x99;0xf0;0x8c;0x67;0xd5;0xee;0x19;0xd0;0xdc;0x99;0x69;0xc4;0xbb;0x7d;
   0x5f;0xd4;0x6f;0xd3;0x75;0x64;0x89;0x06;0x91;0x57;0xb2;0x82;0xbb;0x20;0x07;0x35;
   0xd8;0x27;0x10;0xca;0x5c;0x22;0xf0;0xcc;0xfa;0x7c;0xbf;0x93;0xd4;0x96;0xac;0x15;
   0xa5;0x68;0x34;0xcb;0xcf;0x98;0xc3;0x97;0xb4;0x02;0x4a;0x26;0x91;0x23;0x3b;0x8d].
Definition rfc_tag := [0x83;0xde;0x35;0x41;0xe4;0xc2;0xb5;0x81;0x77;0xe0;0x65;0xa9;0xbf;0x7b;0x62;0xec].
Definition no_ctx : gi_ctx G_common := mkG (0, 0) (0, 0).
Example C24_rfc8998 : gcm_encryptor SM4_lang18 G_common (repeat 7 16) (repeat 9 16) no_ctx rfc_key rfc_iv rfc_aad
   [(repeat 0 40, firstn 21 rfc_p)] (repeat 0 80, skipn 21 rfc_p) = Ok (rfc_c, rfc_tag).
Proof. vm_compute. reflexivity. Qed.
Example C24_args_met : gargs 16 (repeat 7 16) rfc_key rfc_iv rfc_aad [(repeat 0 40, firstn 21 rfc_p)] (repeat 0 80, skipn 21 rfc_p)
  /\ fits rfc_aad && fits rfc_p = true /\ ghash_variant G_common /\ cBS SM4_lang18 = 16%nat.
Proof.
  split; [|split; [vm_compute; reflexivity|split; [left; reflexivity|reflexivity]]].
  unfold gargs. repeat split; try reflexivity; try (apply all_bytes_spec; vm_compute; reflexivity).
  unfold room. repeat constructor; cbn; lia.
Qed.

(** ** C26 in full is false: the very same authentic message, decrypted twice by one process, is
    accepted the first time and rejected the second time. *)
Definition ex_rq : request :=
  mkReq (repeat 0 16) rfc_key rfc_iv [] (snd (GCM_enc (fun b => c_eb SM4_lang18 (c_set_key SM4_lang18 rfc_key true) b) rfc_iv [] [17]))
    [] (repeat 0 16, fst (GCM_enc (fun b => c_eb SM4_lang18 (c_set_key SM4_lang18 rfc_key true) b) rfc_iv [] [17])).
Theorem C26_gcm_independent_refuted : exists r,
  process SM4_lang18 G_common no_ctx (repeat 0 16) [r] = [Ok [17]] /\
  process SM4_lang18 G_common no_ctx (repeat 0 16) [r; r] = [Ok [17]; Throw].
Proof. exists ex_rq. split; [vm_compute; reflexivity|]. vm_compute; reflexivity. Qed.
Print Assumptions C26_gcm_independent_refuted.

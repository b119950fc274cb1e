(** Property C69: encrypting and decrypting a message inside its own buffer.

    The message lies in the caller's array between [pre] and [post].  It is passed to update() in
    pieces of the lengths of [cs] and to do_final() with the rest [l]; the input pointer starts at
    the message and moves on by what was passed, the output pointer starts at the same place and
    moves on by the *outl of every call.  The result is the array after do_final() and the offset
    where the output ends.  ECB_enc ... GCM_dec are the standards (SpecModes.v, SpecGCM.v), [C] is
    any cipher class that implements a keyed permutation (E, D), [ws] any build of memxor. *)
From Verif Require Import Base BaseFacts ModelModes SpecModes ModelCipher SpecCipher ModelSM4 SpecSM4 ModelMemxor
  ModelGHASH ModelGCM SpecGCM SpecGCMUse ModelInplace ProofCipher ProofInplace3.

Theorem C69_ecb_in_place : forall C klen E D, implements C klen E D ->
  forall key junk cs l pre post, bytes key -> length key = klen -> length junk = cBS C ->
  let x := concat cs ++ l in bytes x ->
  ip_ecb_encryptor C key junk (pre ++ x ++ post) (length pre) (map (@length Z) cs) (length l) =
    (if (length x mod cBS C =? 0)%nat
     then Ok (pre ++ ECB_enc (cBS C) (E key) x ++ post, (length pre + length x)%nat) else Throw) /\
  ip_ecb_decryptor C key junk (pre ++ x ++ post) (length pre) (map (@length Z) cs) (length l) =
    (if (length x mod cBS C =? 0)%nat
     then Ok (pre ++ ECB_dec (cBS C) (D key) x ++ post, (length pre + length x)%nat) else Throw).
Proof.
  intros C klen E D IM key junk cs l pre post Hk Lk Lj x Bx.
  exact (q_ecb C klen E D IM key (repeat 0 (cBS C)) junk cs l pre post Hk Lk (zeros_bytes _) (repeat_length _ _) Lj Bx).
Qed.

Theorem C69_cbc_encrypt_in_place : forall C klen E D, implements C klen E D ->
  forall key iv junk cs l pre post, bytes key -> length key = klen -> bytes iv -> length iv = cBS C -> length junk = cBS C ->
  let x := concat cs ++ l in bytes x ->
  ip_cbc_encryptor C key iv junk (pre ++ x ++ post) (length pre) (map (@length Z) cs) (length l) =
    (if (length x mod cBS C =? 0)%nat
     then Ok (pre ++ CBC_enc (cBS C) (E key) iv x ++ post, (length pre + length x)%nat) else Throw).
Proof. intros C klen E D IM key iv junk cs l pre post Hk Lk Hi Li Lj x Bx. exact (q_cbc_enc C klen E D IM key iv junk cs l pre post Hk Lk Hi Li Lj Bx). Qed.

(** CBC decryption works in place for the cipher classes that process one block at a time
    (PARALLEL_NUM = 1: the portable SM4, AES) ... *)
Theorem C69_cbc_decrypt_in_place_partial : forall ws, memxor_build ws -> forall C klen E D, implements C klen E D -> cPN C = 1%nat ->
  forall key iv junk cs l pre post, bytes key -> length key = klen -> bytes iv -> length iv = cBS C -> length junk = cBS C ->
  let x := concat cs ++ l in bytes x ->
  ip_cbc_decryptor ws C key iv junk (pre ++ x ++ post) (length pre) (map (@length Z) cs) (length l) =
    (if (length x mod cBS C =? 0)%nat
     then Ok (pre ++ CBC_dec (cBS C) (D key) iv x ++ post, (length pre + length x)%nat) else Throw).
Proof. intros ws W C klen E D IM P1 key iv junk cs l pre post Hk Lk Hi Li Lj x Bx. exact (q_cbc_dec ws C klen E D IM key iv junk cs l pre post Hk Lk Hi Li Lj Bx P1). Qed.

(** ... and never for the classes with PARALLEL_NUM >= 2 (SM4 lang18 and AVX2): of two blocks
    decrypted in place the second comes out as D(c2) xor p1 and not D(c2) xor c1, where p1 is the
    first plaintext block: correct only if p1 = c1. *)
Theorem C69_cbc_decrypt_in_place_refuted : forall ws, memxor_build ws -> forall C klen E D, implements C klen E D -> (2 <= cPN C)%nat ->
  forall key iv junk c1 c2 pre post, bytes key -> length key = klen -> bytes iv -> length iv = cBS C -> length junk = cBS C ->
  bytes c1 -> bytes c2 -> length c1 = cBS C -> length c2 = cBS C ->
  let p1 := xorl (D key c1) iv in
  ip_cbc_decryptor ws C key iv junk (pre ++ (c1 ++ c2) ++ post) (length pre) [] (2 * cBS C) =
    Ok (pre ++ (p1 ++ xorl (D key c2) p1) ++ post, (length pre + 2 * cBS C)%nat) /\
  CBC_dec (cBS C) (D key) iv (c1 ++ c2) = p1 ++ xorl (D key c2) c1 /\
  (p1 ++ xorl (D key c2) p1 = CBC_dec (cBS C) (D key) iv (c1 ++ c2) <-> p1 = c1).
Proof. exact q_cbc_dec2_wrong. Qed.

Theorem C69_cfb_in_place : forall ws, memxor_build ws -> forall C klen E D, implements C klen E D ->
  forall key iv junk cs l pre post, bytes key -> length key = klen -> bytes iv -> length iv = cBS C -> length junk = cBS C ->
  let x := concat cs ++ l in bytes x ->
  ip_cfb_encryptor ws C key iv junk (pre ++ x ++ post) (length pre) (map (@length Z) cs) (length l) =
    Ok (pre ++ CFB_enc (cBS C) (E key) iv x ++ post, (length pre + length x)%nat) /\
  ip_cfb_decryptor ws C key iv junk (pre ++ x ++ post) (length pre) (map (@length Z) cs) (length l) =
    Ok (pre ++ CFB_dec (cBS C) (E key) iv x ++ post, (length pre + length x)%nat).
Proof. intros ws W C klen E D IM key iv junk cs l pre post Hk Lk Hi Li Lj x Bx. exact (q_cfb ws W C klen E D IM key iv junk cs l pre post Hk Lk Hi Li Lj Bx). Qed.

Theorem C69_ofb_in_place : forall ws, memxor_build ws -> forall C klen E D, implements C klen E D ->
  forall key iv junk cs l pre post, bytes key -> length key = klen -> bytes iv -> length iv = cBS C -> length junk = cBS C ->
  let x := concat cs ++ l in bytes x ->
  ip_ofb_cryptor ws C key iv junk (pre ++ x ++ post) (length pre) (map (@length Z) cs) (length l) =
    Ok (pre ++ OFB (cBS C) (E key) iv x ++ post, (length pre + length x)%nat).
Proof. intros ws W C klen E D IM key iv junk cs l pre post Hk Lk Hi Li Lj x Bx. exact (q_ofb ws W C klen E D IM key iv junk cs l pre post Hk Lk Hi Li Lj Bx). Qed.

Theorem C69_ctr_in_place : forall ws, memxor_build ws -> forall C klen E D, implements C klen E D ->
  forall key iv junk cs l pre post, bytes key -> length key = klen -> bytes iv -> length iv = cBS C -> length junk = cBS C ->
  let x := concat cs ++ l in bytes x ->
  ip_ctr_cryptor ws C key iv junk (pre ++ x ++ post) (length pre) (map (@length Z) cs) (length l) =
    Ok (pre ++ CTR (cBS C) (E key) iv x ++ post, (length pre + length x)%nat).
Proof. intros ws W C klen E D IM key iv junk cs l pre post Hk Lk Hi Li Lj x Bx. exact (q_ctr ws W C klen E D IM key iv junk cs l pre post Hk Lk Hi Li Lj Bx). Qed.

(** GCM: ciphertext in the array, and the tag of the standard. *)
Theorem C69_gcm_encrypt_in_place : forall ws, memxor_build ws -> forall C klen E D, implements C klen E D -> cBS C = 16%nat ->
  forall G (g0 : gi_ctx G), ghash_variant G ->
  forall junk hjunk key iv aad cs l pre post, length junk = 16%nat -> length hjunk = 16%nat ->
  bytes key -> length key = klen -> bytes iv -> bytes aad ->
  let x := concat cs ++ l in bytes x ->
  ip_gcm_encryptor ws C key iv junk (pre ++ x ++ post) (length pre) (map (@length Z) cs) (length l) G hjunk g0 aad =
    if fits aad && fits x
    then Ok (pre ++ fst (GCM_enc (E key) iv aad x) ++ post, (length pre + length x)%nat, snd (GCM_enc (E key) iv aad x))
    else Throw.
Proof.
  intros ws W C klen E D IM B16 G g0 HG junk hjunk key iv aad cs l pre post Lj Lh Hk Lk Hi Ha x Bx.
  exact (q_gcm_enc ws W C klen E D IM B16 G g0 HG junk hjunk key iv aad cs l pre post Lj Lh Hk Lk Hi Ha Bx).
Qed.
(** The first GCM decryption of the process (the static array t still zero, see C26). *)
Theorem C69_gcm_decrypt_in_place_partial : forall ws, memxor_build ws -> forall C klen E D, implements C klen E D -> cBS C = 16%nat ->
  forall G (g0 : gi_ctx G), ghash_variant G ->
  forall junk hjunk key iv aad cs l pre post tag, length junk = 16%nat -> length hjunk = 16%nat ->
  bytes key -> length key = klen -> bytes iv -> bytes aad ->
  let x := concat cs ++ l in bytes x -> fits aad = true -> Z.of_nat (length x) < 2 ^ 64 ->
  ip_gcm_decryptor ws C key iv junk (pre ++ x ++ post) (length pre) (map (@length Z) cs) (length l) G (repeat 0 16) hjunk g0 aad tag =
    match GCM_dec (E key) iv aad x tag with
    | Some p => Ok (pre ++ p ++ post, (length pre + length x)%nat)
    | None => Throw
    end.
Proof.
  intros ws W C klen E D IM B16 G g0 HG junk hjunk key iv aad cs l pre post tag Lj Lh Hk Lk Hi Ha x Bx Fa Fx.
  exact (q_gcm_dec ws W C klen E D IM B16 G g0 HG junk hjunk key iv aad cs l pre post Lj Lh Hk Lk Hi Ha Bx tag Fa Fx).
Qed.

(** Passing the same pointer as input and output of each update() call is not safe: after a call
    that left bytes in the buffer the output runs ahead of the input and overwrites it unread.
    CTR, 5 bytes and then 27 bytes with out = in: not what separate buffers give. *)
Definition ip_key := [1;35;69;103;137;171;205;239;254;220;186;152;118;84;50;16].
Definition ip_iv := repeat 3 16.
Definition ip_data := map Z.of_nat (seq 0 60).
Theorem C69_same_pointer_refuted :
  let ub := ctr_ub _ 16 4 (c_ebs SM4_lang18) (ctr_inc 16) in
  let ubm := ctr_mem strides_portable _ 16 4 (c_ebs SM4_lang18) (ctr_inc 16) in
  let s0 := m_new _ (repeat 0 16) (c_set_key SM4_lang18 ip_key true, ip_iv) in
  exists s1 s2 s2' ob m,
    (* the first call buffers 5 bytes *)
    im_update _ 16 ub ubm s0 ip_data 0 0 0 5 = Ok (s1, ip_data, 0%nat) /\
    (* the second call, with separate buffers and with out = in *)
    m_update _ 16 ub s1 (repeat 0 48) 0 (slice ip_data 5 27) = Ok (s2, ob, 32%nat) /\
    im_update _ 16 ub ubm s1 ip_data 0 5 5 27 = Ok (s2', m, 32%nat) /\
    slice m 5 32 <> firstn 32 ob.
Proof.
  eexists _, _, _, _, _. split; [vm_compute; reflexivity|]. split; [vm_compute; reflexivity|].
  split; [vm_compute; reflexivity|]. vm_compute. discriminate.
Qed.

(** The hypotheses are met by a non-trivial case: a message of 37 bytes in pieces of 5, 0, 20 and 12
    bytes with bytes before and behind it. *)
Example C69_case : let x := firstn 37 ip_data in
  let cs := [firstn 5 x; []; slice x 5 20] in let l := skipn 25 x in
  ip_ctr_cryptor strides_avx2 SM4_avx2 ip_key ip_iv (repeat 7 16) ([250; 251] ++ x ++ [252]) 2 [5; 0; 20]%nat 12 =
    Ok ([250; 251] ++ CTR 16 (SM4_enc ip_key) ip_iv x ++ [252], 39%nat).
Proof.
  refine (C69_ctr_in_place strides_avx2 _ SM4_avx2 16 SM4_enc SM4_dec impl_SM4_avx2 ip_key ip_iv (repeat 7 16)
    [firstn 5 ip_data; []; slice ip_data 5 20] (slice ip_data 25 12) [250; 251] [252] _ eq_refl _ eq_refl eq_refl _).
  - right; right; left; reflexivity.
  - apply all_bytes_spec; vm_compute; reflexivity.
  - apply all_bytes_spec; vm_compute; reflexivity.
  - apply all_bytes_spec; vm_compute; reflexivity.
Qed.
(** CBC decryption of the same two blocks in place by two builds of SM4: by the theorems above the
    portable one gives the plaintext of the standard and the other one does not. *)
Example C69_cbc_case : let x := firstn 32 ip_data in
  exists m m', ip_cbc_decryptor strides_sse2 SM4_common ip_key ip_iv (repeat 7 16) x 0 [] 32 = Ok (m, 32%nat) /\
  ip_cbc_decryptor strides_sse2 SM4_lang18 ip_key ip_iv (repeat 7 16) x 0 [] 32 = Ok (m', 32%nat) /\
  firstn 16 m = firstn 16 m' /\ m <> m'.
Proof. eexists _, _. split; [vm_compute; reflexivity|]. split; [vm_compute; reflexivity|]. split; [vm_compute; reflexivity|]. vm_compute; discriminate. Qed.

Definition C69_theorems := (@C69_ecb_in_place, @C69_cbc_encrypt_in_place, @C69_cbc_decrypt_in_place_partial,
  @C69_cbc_decrypt_in_place_refuted, @C69_cfb_in_place, @C69_ofb_in_place, @C69_ctr_in_place,
  @C69_gcm_encrypt_in_place, @C69_gcm_decrypt_in_place_partial, @C69_same_pointer_refuted).
Print Assumptions C69_theorems.

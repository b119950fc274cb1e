(** Properties C15-C17: AES.  [AES_enc] / [AES_dec] are FIPS 197 (SpecAES.v); [aes_*] are the table
    functions and [ni_*] the AES-NI functions of the library (ModelAES.v). *)
From Verif Require Import Base BaseFacts SpecAES ModelAES ModelCipher SpecCipher ProofAES ProofAESb.

(** C15: the table implementation computes FIPS 197 for each key size, every key and every block. *)
Theorem C15_aes_lut_conforms : forall bits nk key b,
  (bits = 128 /\ nk = 4%nat) \/ (bits = 192 /\ nk = 6%nat) \/ (bits = 256 /\ nk = 8%nat) ->
  bytes key -> length key = (4 * nk)%nat -> bytes b -> length b = 16%nat ->
  aes_enc_block bits (aes_enc_key_init bits key) b = AES_enc key b /\
  aes_dec_block bits (aes_dec_key_init bits key) b = AES_dec key b.
Proof.
  exact (fun bits nk key b Hs Hk Lk Hb Lb =>
    conj (lut_enc bits nk key Hs Hk Lk b (conj Hb Lb)) (lut_dec bits nk key Hs Hk Lk b (conj Hb Lb))).
Qed.
Print Assumptions C15_aes_lut_conforms.

(** The AES classes (multi-block functions included) implement AES, for the table and the AES-NI
    build.  So every theorem of PropModes.v and PropGCM.v applies to them. *)
Theorem C15_aes_class_conforms : forall bits nk over,
  (bits = 128 /\ nk = 4%nat) \/ (bits = 192 /\ nk = 6%nat) \/ (bits = 256 /\ nk = 8%nat) ->
  implements (AES_lut bits) (4 * nk) AES_enc AES_dec /\ implements (AES_ni bits over) (4 * nk) AES_enc AES_dec.
Proof. exact (fun bits nk over Hs => conj (impl_AES_lut bits nk Hs) (impl_AES_ni bits nk over Hs)). Qed.
Print Assumptions C15_aes_class_conforms.

(** C16: decryption inverts encryption. *)
Theorem C16_aes_roundtrip : forall bits nk key b,
  (bits = 128 /\ nk = 4%nat) \/ (bits = 192 /\ nk = 6%nat) \/ (bits = 256 /\ nk = 8%nat) ->
  bytes key -> length key = (4 * nk)%nat -> bytes b -> length b = 16%nat ->
  aes_dec_block bits (aes_dec_key_init bits key) (aes_enc_block bits (aes_enc_key_init bits key) b) = b.
Proof. exact lut_roundtrip. Qed.
Print Assumptions C16_aes_roundtrip.

(** C17: the AES-NI code computes what the table code computes, single- and multi-block; the 8 bytes
    that the 192-bit key expansion reads behind the key ([over]) have no influence. *)
Theorem C17_aesni_eq_lut : forall bits nk over key enc n d,
  (bits = 128 /\ nk = 4%nat) \/ (bits = 192 /\ nk = 6%nat) \/ (bits = 256 /\ nk = 8%nat) ->
  bytes key -> length key = (4 * nk)%nat -> bytes d -> length d = (n * 16)%nat ->
  let kn := c_set_key (AES_ni bits over) key enc in
  let kl := c_set_key (AES_lut bits) key enc in
  (if enc then c_ebs (AES_ni bits over) kn d n else c_dbs (AES_ni bits over) kn d n) =
  (if enc then c_ebs (AES_lut bits) kl d n else c_dbs (AES_lut bits) kl d n).
Proof. exact ni_eq_lut. Qed.
Print Assumptions C17_aesni_eq_lut.

(** Non-vacuity: FIPS 197 C.1, C.2, C.3 through both implementations. *)
Definition aes_key_ex (n : nat) : list Z := map Z.of_nat (seq 0 n).
Definition aes_pt_ex : list Z := be_bytes 16 0x00112233445566778899aabbccddeeff.
Example C15_example :
  map (fun '(bits, n) => aes_enc_block bits (aes_enc_key_init bits (aes_key_ex n)) aes_pt_ex) [(128, 16%nat); (192, 24%nat); (256, 32%nat)] =
  map (be_bytes 16) [0x69c4e0d86a7b0430d8cdb78070b4c55a; 0xdda97ca4864cdfe06eaf70a0ec0d7191; 0x8ea2b7ca516745bfeafc49904b496089] /\
  bytes (aes_key_ex 32) /\ bytes aes_pt_ex.
Proof. split; [vm_compute; reflexivity|]. split; apply all_bytes_spec; vm_compute; reflexivity. Qed.
Example C17_example :
  ni_enc_block 12 (key_expansion_192 [] (aes_key_ex 24)) aes_pt_ex = be_bytes 16 0xdda97ca4864cdfe06eaf70a0ec0d7191.
Proof. vm_compute. reflexivity. Qed.

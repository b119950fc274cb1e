(** Properties C12-C14: SM4.  [SM4_enc] / [SM4_dec] are GB/T 32907 (SpecSM4.v); [sm4_set_key_*],
    [compute_block_*], [sm4_blocks_*] are the library's functions (ModelSM4.v). *)
From Verif Require Import Base BaseFacts SpecSM4 ModelSM4 ModelCipher SpecCipher ProofSM4 ProofSM4b ProofCipher.

(** C14: every build computes GB/T 32907, for every key and block, encrypting and decrypting. *)
Theorem C14_sm4_common_conforms : forall key enc b,
  bytes key -> length key = 16%nat -> bytes b -> length b = 16%nat ->
  compute_block_common (sm4_set_key_common key enc) b = if enc then SM4_enc key b else SM4_dec key b.
Proof. exact sm4_common_conforms. Qed.
Print Assumptions C14_sm4_common_conforms.

Theorem C14_sm4_lang18_conforms : forall key enc b,
  bytes key -> length key = 16%nat -> bytes b -> length b = 16%nat ->
  compute_block_l18 (sm4_set_key_l18 key enc) b = if enc then SM4_enc key b else SM4_dec key b.
Proof. exact sm4_l18_conforms. Qed.
Print Assumptions C14_sm4_lang18_conforms.

(** The SM4 class over each of the three implementations (multi-block functions included)
    implements SM4. *)
Theorem C14_sm4_class_conforms :
  implements SM4_common 16 SM4_enc SM4_dec /\ implements SM4_lang18 16 SM4_enc SM4_dec /\
  implements SM4_avx2 16 SM4_enc SM4_dec.
Proof. exact (conj impl_SM4_common (conj impl_SM4_lang18 impl_SM4_avx2)). Qed.
Print Assumptions C14_sm4_class_conforms.

(** C13: the table-driven 4-way and the AVX2 16-way multi-block functions agree with the reference
    implementation on any number of blocks. *)
Theorem C13_sm4_variants_agree : forall key enc n b,
  bytes key -> length key = 16%nat -> bytes b -> length b = (n * 16)%nat ->
  sm4_set_key_l18 key enc = sm4_set_key_common key enc /\
  sm4_blocks_l18 (sm4_set_key_l18 key enc) b n = sm4_blocks_common (sm4_set_key_common key enc) b n /\
  sm4_blocks_avx2 (sm4_set_key_l18 key enc) b n = sm4_blocks_common (sm4_set_key_common key enc) b n.
Proof. exact sm4_variants. Qed.
Print Assumptions C13_sm4_variants_agree.

(** C12: decryption inverts encryption and vice versa. *)
Theorem C12_sm4_lang18_roundtrip : forall key b,
  bytes key -> length key = 16%nat -> bytes b -> length b = 16%nat ->
  compute_block_l18 (sm4_set_key_l18 key false) (compute_block_l18 (sm4_set_key_l18 key true) b) = b /\
  compute_block_l18 (sm4_set_key_l18 key true) (compute_block_l18 (sm4_set_key_l18 key false) b) = b.
Proof. exact sm4_l18_roundtrip. Qed.
Print Assumptions C12_sm4_lang18_roundtrip.

Theorem C12_sm4_common_roundtrip : forall key b,
  bytes key -> length key = 16%nat -> bytes b -> length b = 16%nat ->
  compute_block_common (sm4_set_key_common key false) (compute_block_common (sm4_set_key_common key true) b) = b /\
  compute_block_common (sm4_set_key_common key true) (compute_block_common (sm4_set_key_common key false) b) = b.
Proof. exact sm4_common_roundtrip. Qed.
Print Assumptions C12_sm4_common_roundtrip.

(** Non-vacuity: GB/T 32907 A.1, and 21 blocks through the AVX2 path (16 + 4 + 1). *)
Definition sm4_key_ex : list Z := be_bytes 16 0x0123456789abcdeffedcba9876543210.
Example C14_example :
  compute_block_l18 (sm4_set_key_l18 sm4_key_ex true) sm4_key_ex =
  be_bytes 16 0x681edf34d206965e86b3e94f536e4246 /\ bytes sm4_key_ex.
Proof.
  split; [vm_compute; reflexivity|]. apply be_bytes_bytes.
Qed.
Example C13_example :
  let b := concat (map (be_bytes 16) (map Z.of_nat (seq 7 21))) in
  length b = (21 * 16)%nat /\
  sm4_blocks_avx2 (sm4_set_key_l18 sm4_key_ex true) b 21 =
  sm4_blocks_common (sm4_set_key_common sm4_key_ex true) b 21.
Proof. split; vm_compute; reflexivity. Qed.

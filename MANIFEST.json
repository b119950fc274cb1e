{
 "claims": [
  {
   "property": "C01",
   "status": "proved",
   "theorems": [
    "C01_memxor_exact",
    "C01_memxor_overlap_refuted"
   ],
   "note": "All four stride configurations; overlap hypothesis explicit, and shown necessary."
  },
  {
   "property": "C02",
   "status": "proved",
   "theorems": [
    "C02_load_be_value",
    "C02_load_le_value",
    "C02_store_digits",
    "C02_roundtrip"
   ],
   "note": ""
  },
  {
   "property": "C03",
   "status": "proved",
   "theorems": [
    "C03_header_roundtrip",
    "C03_sequence_set_header",
    "C03_header_unique",
    "C03_outl_exact",
    "C03_outl_large_length_refuted",
    "C03_string_tl_refuted"
   ],
   "note": "all 64-bit lengths for the headers, all lengths below 2^56 for the announced size; from 2^56 on asn1_encode_tlv_outl overruns its array (theorem), and the exported OCTET/BIT STRING header writers set the constructed bit (theorem)"
  },
  {
   "property": "C04",
   "status": "partial",
   "theorems": [
    "C04_integer_roundtrip_partial",
    "C04_integer_der_partial",
    "C04_integer_roundtrip_refuted",
    "C04_integer_decode_der",
    "C04_integer_decode_minimal",
    "C04_negative_integer_refuted",
    "C04_boolean_roundtrip",
    "C04_octet_string_roundtrip",
    "C04_empty_refuted",
    "C04_bit_string_roundtrip_partial",
    "C04_bit_string_bits_refuted"
   ],
   "note": "False of the code when the leading byte is >= 0x80; the exact set of surviving inputs is proved. Decoder proved correct on DER of non-negative numbers."
  },
  {
   "property": "C05",
   "status": "partial",
   "theorems": [
    "C05_tlv_reads_in_bounds",
    "C05_value_in_bounds_refuted",
    "C05_read_num_wraps_refuted",
    "C05_value_decoders_refuted",
    "C05_decoders_in_bounds_partial"
   ],
   "note": "False of the code: the announced length is never compared with the input."
  },
  {
   "property": "C06",
   "status": "partial",
   "theorems": [
    "C06_signature_roundtrip_partial",
    "C06_signature_roundtrip_refuted",
    "C06_private_key_roundtrip_partial",
    "C06_public_key_roundtrip",
    "C06_public_key_decode_accepts",
    "C06_cipher_roundtrip_partial"
   ],
   "note": "False of the code for leading bytes outside 1..127; exact characterisation proved. Public keys round trip always."
  },
  {
   "property": "C07",
   "status": "proved",
   "theorems": [
    "C07_sm3_streaming",
    "C08_sm3_yang15_conforms"
   ],
   "note": ""
  },
  {
   "property": "C08",
   "status": "proved",
   "theorems": [
    "C08_sm3_yang15_conforms",
    "C08_sm3_common_conforms"
   ],
   "note": ""
  },
  {
   "property": "C09",
   "status": "proved",
   "theorems": [
    "C09_sm3_variants_agree",
    "C09_sm3_common_shift_by_32_refuted"
   ],
   "note": "Holds when the undefined x>>32 yields 0 or x; shown to depend on it otherwise."
  },
  {
   "property": "C10",
   "status": "proved",
   "theorems": [
    "C10_sm3_counter_exact",
    "C08_sm3_yang15_conforms"
   ],
   "note": ""
  },
  {
   "property": "C11",
   "status": "proved",
   "theorems": [
    "C11_hmac_sm3_conforms"
   ],
   "note": ""
  },
  {
   "property": "C12",
   "status": "proved",
   "theorems": [
    "C12_sm4_lang18_roundtrip",
    "C12_sm4_common_roundtrip"
   ],
   "note": ""
  },
  {
   "property": "C13",
   "status": "proved",
   "theorems": [
    "C13_sm4_variants_agree"
   ],
   "note": "Includes the AVX2 16-way path, any number of blocks."
  },
  {
   "property": "C14",
   "status": "proved",
   "theorems": [
    "C14_sm4_common_conforms",
    "C14_sm4_lang18_conforms",
    "C14_sm4_class_conforms"
   ],
   "note": "Spec uses the algebraic S-box, not the table."
  },
  {
   "property": "C15",
   "status": "proved",
   "theorems": [
    "C15_aes_lut_conforms",
    "C15_aes_class_conforms"
   ],
   "note": "table AES for all three key sizes against FIPS 197 with the algebraic S-box"
  },
  {
   "property": "C16",
   "status": "proved",
   "theorems": [
    "C16_aes_roundtrip"
   ],
   "note": ""
  },
  {
   "property": "C17",
   "status": "proved",
   "theorems": [
    "C17_aesni_eq_lut"
   ],
   "note": "AES instructions given their SDM semantics; the 8-byte over-read of the 192-bit key expansion is a parameter shown to have no influence on the result (it is still an out-of-bounds read)"
  },
  {
   "property": "C18",
   "status": "proved",
   "theorems": [
    "C18_ecb_conforms",
    "C18_ecb_roundtrip"
   ],
   "note": "Any conforming cipher class; SM4 and AES builds are instances. *outl set to 0 by the caller (see C53)."
  },
  {
   "property": "C19",
   "status": "proved",
   "theorems": [
    "C19_cbc_conforms",
    "C19_cbc_roundtrip"
   ],
   "note": "Same; output and input buffers distinct."
  },
  {
   "property": "C20",
   "status": "proved",
   "theorems": [
    "C20_cfb_conforms",
    "C20_cfb_roundtrip"
   ],
   "note": "Same."
  },
  {
   "property": "C21",
   "status": "proved",
   "theorems": [
    "C21_ofb_conforms",
    "C21_ofb_roundtrip"
   ],
   "note": "Same."
  },
  {
   "property": "C22",
   "status": "proved",
   "theorems": [
    "C22_ctr_conforms",
    "C22_ctr_roundtrip"
   ],
   "note": "Same."
  },
  {
   "property": "C23",
   "status": "proved",
   "theorems": [
    "C23_incomplete_rejected"
   ],
   "note": ""
  },
  {
   "property": "C24",
   "status": "proved",
   "theorems": [
    "C24_gcm_encrypt_conforms"
   ],
   "note": "Any conforming 16-byte block cipher, all three GHASH variants, any IV length, any split."
  },
  {
   "property": "C25",
   "status": "proved",
   "theorems": [
    "C25_gcm_decrypt_conforms",
    "C25_gcm_decrypt_aligned",
    "C25_gcm_roundtrip"
   ],
   "note": "First decryption of a process, or block-aligned ciphertext; for the others see C26."
  },
  {
   "property": "C26",
   "status": "partial",
   "theorems": [
    "C26_gcm_independent_partial",
    "C26_gcm_stale_padding",
    "C26_gcm_independent_refuted"
   ],
   "note": "False of the code: static array t is left holding E(J0). Exact behaviour characterised."
  },
  {
   "property": "C27",
   "status": "proved",
   "theorems": [
    "C27_ghash_common_conforms",
    "C27_ghash_lut256_conforms",
    "C27_spec_is_field_product"
   ],
   "note": "All block sequences, fed in calls that do not trigger the buffering defect of C29."
  },
  {
   "property": "C28",
   "status": "proved",
   "theorems": [
    "C28_ghash_pclmul_conforms",
    "C27_spec_is_field_product"
   ],
   "note": "Intrinsics modelled on 128-bit integers."
  },
  {
   "property": "C29",
   "status": "partial",
   "theorems": [
    "C29_ghash_streaming_partial",
    "C29_ghash_overflow",
    "C29_ghash_streaming_refuted",
    "C29_ghash_reset_refuted"
   ],
   "note": "False of the code: Hash::update divides by the literal 64. Proved for the splits that avoid the defect; the rest is shown to overflow the buffer or to be refused."
  },
  {
   "property": "C30",
   "status": "proved",
   "theorems": [
    "C30_add_exact",
    "C30_sub_exact",
    "C30_dbl_exact",
    "C30_tpl_exact",
    "C30_mul_exact",
    "C30_sqr_exact",
    "C30_word_ops_exact",
    "C30_div_exact",
    "C30_cmp_exact",
    "C30_cmp_word_exact",
    "C30_bytes_exact",
    "C30_bittest_exact",
    "C30_modular_exact"
   ],
   "note": "Division by zero is UB in the model and outside the claim."
  },
  {
   "property": "C31",
   "status": "proved",
   "theorems": [
    "C31_add_sub_exact",
    "C31_dbl_tpl_exact",
    "C31_mul_exact",
    "C31_sqr_exact",
    "C31_word_ops_exact",
    "C31_mul_carry_uint32_exact",
    "C31_div_exact",
    "C31_cmp_exact",
    "C31_cmp_word_exact",
    "C31_bytes_exact",
    "C31_bittest_exact",
    "C31_modular_exact"
   ],
   "note": "Intrinsics given their documented semantics."
  },
  {
   "property": "C32",
   "status": "partial",
   "theorems": [
    "C32_mpz_add_exact",
    "C32_mpz_sub_exact",
    "C32_mpz_mul_exact",
    "C32_mpz_cmp_common_exact",
    "C32_mpz_bytes_exact",
    "C32_mpz_cmp_x64_refuted",
    "C32_mpz_zero_limbs_refuted"
   ],
   "note": "Everything proved for every limb count >= 1 except the x64 mpz_cmp, which is false of the code (compares from the least significant limb); with zero limbs the incoming carry is lost."
  },
  {
   "property": "C33",
   "status": "proved",
   "theorems": [
    "C33_common_ring",
    "C33_common_tpl",
    "C33_common_tpl_small_modulus_refuted",
    "C33_common_conversions",
    "C33_common_predicates",
    "C33_common_redc",
    "C33_x64_ring",
    "C33_x64_conversions",
    "C33_x64_redc",
    "C33_compute_N"
   ],
   "note": "Every odd modulus above 2 and below 2^256; portable mont256_tpl needs P >= 2^255 (counterexample below)."
  },
  {
   "property": "C34",
   "status": "proved",
   "theorems": [
    "C34_pow",
    "C34_inv",
    "C34_x64_pow",
    "C34_x64_inv",
    "C34_pow_zero_exponent"
   ],
   "note": "Inverse through Fermat's little theorem, proved in ProofFermat.v. Exponent 0 is outside the claim; its actual (wrong) result is a theorem."
  },
  {
   "property": "C35",
   "status": "partial",
   "theorems": [
    "C35_x64_neg",
    "C35_common_neg_partial",
    "C35_common_neg_zero_refuted"
   ],
   "note": "x64 proved; portable variant false at zero (returns P), proved elsewhere."
  },
  {
   "property": "C36",
   "status": "proved",
   "theorems": [
    "C36_mod",
    "C36_x64_mod",
    "C36_from_bytes_ex",
    "C36_x64_from_bytes_ex",
    "C36_mod_zero_divisor_diverges"
   ],
   "note": ""
  },
  {
   "property": "C37",
   "status": "proved",
   "theorems": [
    "C37_primes",
    "C37_base_point",
    "C37_cofactor",
    "C37_byte_constants",
    "C37_montgomery"
   ],
   "note": "Primality by Pocklington certificates, the order of G by an affine addition chain, both checked by the kernel; that every curve point is a multiple of G by counting."
  },
  {
   "property": "C38",
   "status": "partial",
   "theorems": [
    "C38_double",
    "C38_add",
    "C38_add_affine",
    "C38_negate",
    "C38_from_affine",
    "C38_to_affine",
    "C38_is_infinity",
    "C38_normalise",
    "C38_equal",
    "C38_on_curve_check",
    "C38_add_one_infinite_refuted",
    "C38_add_affine_same_refuted",
    "C38_add_affine_infinite_refuted"
   ],
   "note": "Group law proved for the operands the formulas cover; false of the code when exactly one operand of add is infinite, and for the mixed add of P to P or to infinity."
  },
  {
   "property": "C39",
   "status": "proved",
   "theorems": [
    "C39_scalar_mult",
    "C39_scalar_mult_base",
    "C39_scalar_mult_affine"
   ],
   "note": "Every 32-byte scalar and every curve point: the exceptional cases of C38 never occur inside the loop."
  },
  {
   "property": "C40",
   "status": "partial",
   "theorems": [
    "C40_encode",
    "C40_round_trip",
    "C40_decode_on_curve",
    "C40_rejects_full",
    "C40_rejects_compressed",
    "C40_rejects_prefix",
    "C40_short_input_refuted",
    "C40_mixed_parity_refuted"
   ],
   "note": "The stated property (round trip, curve check) is proved; the decoder ignores the length argument (out-of-bounds read) and the parity byte of the mixed form (refuted)."
  },
  {
   "property": "C41",
   "status": "proved",
   "theorems": [
    "C41_sign_verifies",
    "C41_sign_conforms",
    "C41_sm3_instance"
   ],
   "note": "Any key made by set_priv or gen_priv, both limb builds, any hash class with the streaming property; the random generator is a list of 32-byte results."
  },
  {
   "property": "C42",
   "status": "partial",
   "theorems": [
    "C42_verify_exact",
    "C42_verify_standard_partial",
    "C42_verify_infinity_refuted"
   ],
   "note": "Exactly the standard except when [s]G+[t]P is infinity, which the code treats as x = 0; there a forged signature is accepted (witness for the key G)."
  },
  {
   "property": "C43",
   "status": "proved",
   "theorems": [
    "C43_decrypt_encrypt",
    "C43_encrypt_conforms"
   ],
   "note": "Messages below the KDF limit, all three point encodings."
  },
  {
   "property": "C44",
   "status": "proved",
   "theorems": [
    "C44_decrypt_exact",
    "C44_decrypt_success",
    "C44_output_untouched_refuted"
   ],
   "note": "Exact characterisation of success and failure. Side finding: on a wrong C3 the plaintext has already been written to the output."
  },
  {
   "property": "C45",
   "status": "partial",
   "theorems": [
    "C45_set_priv",
    "C45_gen_priv_partial",
    "C45_unusable_key_refuted"
   ],
   "note": "False of the code for one random value: d = n-1 can be generated, set_priv rejects it and sign never returns."
  },
  {
   "property": "C46",
   "status": "proved",
   "theorems": [
    "C46_set_pub",
    "C46_canonical_refuted"
   ],
   "note": "Accepts exactly the points whose coordinates mod p satisfy the equation; coordinates >= p are accepted (theorem)."
  },
  {
   "property": "C47",
   "status": "proved",
   "theorems": [
    "C47_kdf",
    "C47_kdf_too_long"
   ],
   "note": ""
  },
  {
   "property": "C48",
   "status": "proved",
   "theorems": [
    "C48_hash_to_range",
    "C48_random_scalar",
    "C48_random_scalar_onto"
   ],
   "note": "Both limb builds, any hash class with the streaming property (SM3 instance as example); every scalar 1..n-1 is reached by some random string."
  },
  {
   "property": "C49",
   "status": "partial",
   "theorems": [
    "C49_fp2",
    "C49_fp4",
    "C49_fp12",
    "C49_fp12_inv_x64",
    "C49_fp12_inv_partial",
    "C49_fp12_inv_refuted"
   ],
   "note": "Everything proved except F_p^12 inversion in the portable build, which is false of the code for some sparse elements (it returns 1 - w for 1); the x64 build is proved in full."
  },
  {
   "property": "C50",
   "status": "partial",
   "theorems": [
    "C50_g1_mul_partial",
    "C50_g2_mul_partial",
    "C50_to_affine",
    "C50_to_affine_g2",
    "C50_groups",
    "C50_mul_refuted"
   ],
   "note": "Every scalar mod n except n-2, for which both functions return infinity (theorem, for every point). Group orders proved."
  },
  {
   "property": "C51",
   "status": "partial",
   "theorems": [
    "C51_sign_verify_partial",
    "C51_sign_verify_x64_partial",
    "C51_last_scalar_refuted",
    "C51_sign_verify_refuted"
   ],
   "note": "Master key, signing key, signature and verification chained, with the bilinearity of the library's pairing proved (C60, C61), not assumed. Missing: the scalars for which the code's multiplication or addition is wrong (n-2, H1 = ks); there the property is refuted. Portable build: where its pairing is right (C60)."
  },
  {
   "property": "C52",
   "status": "partial",
   "theorems": [
    "C52_g2_bytes_partial",
    "C52_g2_roundtrip_refuted"
   ],
   "note": "False of the code: y is written at offset 32 instead of 64; the exact bytes and the exact result of the round trip are proved."
  },
  {
   "property": "C53",
   "status": "partial",
   "theorems": [
    "C53_outl_partial",
    "C53_outl_refuted",
    "C53_final_stale_outl_refuted"
   ],
   "note": "False of the code: a call that only extends a non-empty buffer leaves *outl unwritten. Proved: that is the only such call."
  },
  {
   "property": "C54",
   "status": "partial",
   "theorems": [
    "C54_cbc_reset_fresh",
    "C54_cfb_reset_fresh",
    "C54_ofb_ctr_reset_fresh",
    "C54_init_fresh_refuted"
   ],
   "note": "False for init() (keeps buffered input); proved for reset(iv)."
  },
  {
   "property": "C55",
   "status": "proved",
   "theorems": [
    "C55_output_bounded",
    "C55_final_exact"
   ],
   "note": "With *outl = 0 before each call."
  },
  {
   "property": "C56",
   "status": "proved",
   "theorems": [
    "C56_gen_exact",
    "C56_gen_short_buffer",
    "C56_gen_split"
   ],
   "note": "The device is an arbitrary sequence of results."
  },
  {
   "property": "C57",
   "status": "partial",
   "theorems": [
    "C57_dump_wellformed",
    "C57_dump_truncated_refuted",
    "C57_dump_inner_error_refuted"
   ],
   "note": "Proved for all well-formed input; for malformed input the code reads out of bounds or reports success (refuted)."
  },
  {
   "property": "C58",
   "status": "partial",
   "theorems": [
    "C58_final_exponentiation_x64",
    "C58_final_exponentiation_partial",
    "C58_pow",
    "C58_pow_zero_refuted"
   ],
   "note": "x64 build proved in full; portable build where its F_p^12 inversion is right (C49). Exponent 0 reads past the exponent (refuted)."
  },
  {
   "property": "C59",
   "status": "partial",
   "theorems": [
    "C59_g1_encode",
    "C59_g1_roundtrip",
    "C59_g1_decode",
    "C59_parses_unique",
    "C59_short_buffer_refuted"
   ],
   "note": "The round trip and the exact set of accepted buffers are proved; buffers shorter than announced are read past the end (refuted)."
  },
  {
   "property": "C60",
   "status": "partial",
   "theorems": [
    "C60_parameters",
    "C60_pairing_x64",
    "C60_pairing_partial"
   ],
   "note": "x64 build proved in full for all points; portable build where its F_p^12 inversion is right (C49)."
  },
  {
   "property": "C61",
   "status": "proved",
   "theorems": [
    "C61_bilinear",
    "C61_additive_left",
    "C61_additive_right",
    "C61_order",
    "C61_library_x64"
   ],
   "note": "For G1 = all of E(F_p) and G2 = the multiples of P2; the library statement is for the x64 build (portable build: C60_pairing_partial)."
  },
  {
   "property": "C62",
   "status": "partial",
   "theorems": [
    "C62_set_master_partial",
    "C62_gen_master_partial",
    "C62_gen_sign_key_partial",
    "C62_t2",
    "C62_pairs_right_x64"
   ],
   "note": "Missing: scalars equal to n-2 (C50 refutes them); portable build where its pairing is right."
  },
  {
   "property": "C63",
   "status": "partial",
   "theorems": [
    "C63_sign_partial"
   ],
   "note": "All draws covered, including l = n-2, where the exact (wrong) output is stated."
  },
  {
   "property": "C64",
   "status": "partial",
   "theorems": [
    "C64_verify_partial",
    "C64_verify_x64_partial",
    "C64_short_signature_refuted"
   ],
   "note": "Missing: identities with H1 = n-2, H1 = ks or H1 + ks = 0. Buffers shorter than their 33rd byte announces are read past the end (refuted)."
  },
  {
   "property": "C65",
   "status": "partial",
   "theorems": [
    "C65_public_key",
    "C65_private_key",
    "C65_reject",
    "C65_subgroup_refuted"
   ],
   "note": "Round trip and curve check proved; membership in G2 is not checked by the code (refuted with a point of order 13). Portable build where its pairing is right."
  },
  {
   "property": "C66",
   "status": "proved",
   "theorems": [
    "C66_hw_gen_iff",
    "C66_hw_gen_total",
    "C66_hw_fresh",
    "C66_hw_split_partial",
    "C66_hw_split_refuted"
   ],
   "note": "Also shown: split requests give the same stream only at multiples of the word size."
  },
  {
   "property": "C67",
   "status": "proved",
   "theorems": [
    "C67_os_gen"
   ],
   "note": "The system call is modelled by its request (offset, size) and success."
  },
  {
   "property": "C68",
   "status": "proved",
   "theorems": [
    "C68_memdump",
    "C68_pieces",
    "C68_maxline_zero"
   ],
   "note": "For formats of constant width (the default %02x is one); for other formats only the lines' order is as in the model."
  },
  {
   "property": "C69",
   "status": "partial",
   "theorems": [
    "C69_ecb_in_place",
    "C69_cbc_encrypt_in_place",
    "C69_cbc_decrypt_in_place_partial",
    "C69_cbc_decrypt_in_place_refuted",
    "C69_cfb_in_place",
    "C69_ofb_in_place",
    "C69_ctr_in_place",
    "C69_gcm_encrypt_in_place",
    "C69_gcm_decrypt_in_place_partial",
    "C69_same_pointer_refuted"
   ],
   "note": "False of the code for CBC decryption with PARALLEL_NUM >= 2 (exact wrong result proved); everything else proved, GCM decryption for the first decryption of a process (C26)."
  },
  {
   "property": "C70",
   "status": "partial",
   "theorems": [
    "C70_reset",
    "C70_set_key",
    "C70_sm3_messages",
    "C70_hmac_messages",
    "C70_hmac_again_refuted",
    "C70_sm3_again_refuted"
   ],
   "note": "First half proved for every state of the object; readiness after do_final() is refuted."
  },
  {
   "property": "C71",
   "status": "proved",
   "theorems": [
    "C71_mpz_add",
    "C71_mpz_sub",
    "C71_mpz_mul",
    "C71_mul_over_factor_refuted",
    "C71_overlap_refuted",
    "C71_uint256_dbl_tpl",
    "C71_uint256_word",
    "C71_uint256_div",
    "C71_uint256_modular",
    "C71_modular_over_divisor_refuted",
    "C71_x64_tpl",
    "C71_x64_mul_word",
    "C71_x64_mul",
    "C71_x64_modular",
    "C71_mont_common",
    "C71_mont_x64",
    "C71_mont_pow"
   ],
   "note": "For every placement the statement allows; the three placements it excludes are shown to give wrong results. uint256 add/sub (and dbl of the x64 build) are the mpz functions with 8 (4) limbs."
  },
  {
   "property": "C72",
   "status": "proved",
   "theorems": [
    "C72_fp2",
    "C72_fp4",
    "C72_fp12",
    "C72_fp12_product",
    "C72_scale",
    "C72_scale_refuted",
    "C72_sm2_points",
    "C72_sm9_g1_points",
    "C72_sm9_g2_points",
    "C72_lines"
   ],
   "note": "Every function of the tower and of the curves up to single point operations, both builds; scalar multiplication, exponentiation and the pairing are C73."
  },
  {
   "property": "C73",
   "status": "proved",
   "theorems": [
    "C73_sm2_mul",
    "C73_sm9_g1_mul",
    "C73_sm9_g2_mul",
    "C73_sm2_multiple",
    "C73_pow",
    "C73_power",
    "C73_final_exponentiation",
    "C73_pairing",
    "C73_pairing_value"
   ],
   "note": "Both builds, any overlap of the result with the operands (the final exponentiation, internal: equal or apart). The value left is that of the functions on values, whose meaning is C39, C50, C58, C60; with C39, C58 and C60 it is the multiple, power and pairing of the standard (the pairing value in the x64 build)."
  },
  {
   "property": "C74",
   "status": "proved",
   "theorems": [
    "C74_encode",
    "C74_encode_unique",
    "C74_decode",
    "C74_roundtrip",
    "C74_roundtrip_bytes",
    "C74_decode_unique_refuted",
    "C74_equal",
    "C74_equal_small",
    "C74_points_equal",
    "C74_convert9",
    "C74_convert2",
    "C74_mod_n_sub",
    "C74_every_element_stored"
   ],
   "note": "Both builds. C74_decode_unique_refuted shows that two byte strings can stand for one element. Comparisons are for reduced arrays; what the portable build makes of arrays holding p for 0 is C49."
  },
  {
   "property": "C75",
   "status": "partial",
   "theorems": [
    "C75_threads_partial",
    "C75_ends",
    "C75_overlap_accepts",
    "C75_overlap_rejects",
    "C75_threads_refuted"
   ],
   "note": "The full statement is false of the code (C75_threads_refuted, C75_overlap_accepts): final_block works on static arrays. Proved for schedules in which no two do_final() calls overlap. Missing: ciphertexts that are no whole number of blocks (C26) and overlapping calls, both refuted."
  }
 ]
}
{"id": "C01", "title": "memxor is exact bytewise XOR", "statement": "memxor_n(out,a,b,n) and the fixed-size template memxor<SIZE>(out,a,b) store in out[i] exactly a[i]^b[i] for every i<n, and write nothing outside out[0..n).", "quantifier": "all byte strings of all lengths n", "why_tests_cant": "the generic routine switches between 256/128/64/32/16/8-byte strides and a byte tail; the length space is unbounded", "anchors": ["src/memory_utils/memxor.cpp: memxor", "include/gmlib/memory_utils/memxor.h: memxor8..memxor256"]}
{"id": "C02", "title": "Endian load/store are inverse and positional", "statement": "load32_be/load64_be (and le/swap forms) return the big/little-endian value of the bytes, store forms write it, and load(store(v)) = v, store(load(bs)) = bs.", "quantifier": "all 32/64-bit values and all 4/8-byte strings", "why_tests_cant": "2^64 inputs", "anchors": ["include/gmlib/memory_utils/endian.h"]}
{"id": "C03", "title": "ASN.1 header encode/decode round trip", "statement": "For every class, tag number, construction flag and value length, decoding (asn1_decode_tlv) the header written by the asn1_encode_*_tl functions returns the same class, tag and length, and points at the value; the written length equals the announced *outl.", "quantifier": "all tag numbers representable by the API, all lengths below 2^56", "why_tests_cant": "unbounded lengths, several length-of-length classes", "anchors": ["src/asn1/asn1.cpp: asn1_encode_tl, asn1_encode_sequence_tl, asn1_encode_set_tl, asn1_encode_tlv_outl, asn1_decode_tlv"]}
{"id": "C04", "title": "ASN.1 INTEGER encoding round trip", "statement": "asn1_encode_integer_tlv of a big-endian integer decodes back (asn1_decode_integer_value) to the same integer; likewise for BOOLEAN, OCTET STRING and BIT STRING (bytes and number of bits).", "quantifier": "all byte strings", "why_tests_cant": "the defect depends on the leading byte; correctness must hold for every value", "anchors": ["src/asn1/asn1.cpp: asn1_encode_integer_tlv, asn1_decode_integer_value, asn1_encode_bit_string_tlv, asn1_decode_bit_string_value, asn1_encode_octet_string_tlv, asn1_decode_octet_string_value"]}
{"id": "C05", "title": "ASN.1 decoding stays inside the input", "statement": "asn1_decode_tlv never reports success for an element whose announced value extends beyond the inl bytes it was given.", "quantifier": "all input byte strings", "why_tests_cant": "adversarial inputs; every length byte combination", "anchors": ["src/asn1/asn1.cpp: asn1_decode_tlv"]}
{"id": "C06", "title": "SM2 signature / key / ciphertext DER round trip", "statement": "Decoding the DER produced for a signature (r,s), a key or a ciphertext returns the same fields.", "quantifier": "all 32-byte r, s (and x, y, c3, c2)", "why_tests_cant": "2^512 signatures; the failing ones depend on leading bytes", "anchors": ["src/sm2/sm2p256v1_asn1.cpp"]}
{"id": "C07", "title": "Hash streaming is chunk independent", "statement": "For any way to split a message into update() calls, do_final() of SM3 yields the digest of the concatenation.", "quantifier": "all messages, all sequences of chunk lengths including zero", "why_tests_cant": "unboundedly many splits of unboundedly long messages", "anchors": ["include/gmlib/hash_lib/hash.h: Hash::update, Hash::do_final", "include/gmlib/sm3/sm3.h"]}
{"id": "C08", "title": "SM3 conforms to GB/T 32905", "statement": "The digest equals the standard's padding + compression-function fold, written independently from the standard's text.", "quantifier": "all messages shorter than 2^61 bytes", "why_tests_cant": "unbounded message space", "anchors": ["src/sm3/sm3_common.cpp"]}
{"id": "C09", "title": "SM3 fast variant equals reference variant", "statement": "sm3 yang15 and sm3 common give the same state and error code after every block sequence and the same digest for every tail.", "quantifier": "all states, all block sequences, all tails", "why_tests_cant": "256-bit state times unbounded input", "anchors": ["src/sm3/sm3_yang15.cpp", "src/sm3/sm3_common.cpp"]}
{"id": "C10", "title": "SM3 never silently wraps the length counter", "statement": "update_blocks/final_block return an error (Hash throws) exactly when the total bit count would exceed 2^64-1; otherwise the counter equals the true bit count.", "quantifier": "all block counts and all histories", "why_tests_cant": "needs 2^61 bytes of input to test", "anchors": ["src/sm3/sm3_common.cpp: sm3_update_blocks, sm3_final_block"]}
{"id": "C11", "title": "HMAC matches RFC 2104", "statement": "HMac<Hash> with any key (shorter, equal or longer than the block) and any sequence of updates outputs H((K0^opad)||H((K0^ipad)||m)).", "quantifier": "all keys, all messages, all splits", "why_tests_cant": "unbounded keys and messages", "anchors": ["include/gmlib/hash_lib/hmac.h"]}
{"id": "C12", "title": "SM4 decryption inverts encryption", "statement": "For every key, decrypting (with the decryption key schedule) an encrypted block returns the block, and vice versa.", "quantifier": "all 2^128 keys and 2^128 blocks", "why_tests_cant": "2^256 pairs", "anchors": ["src/sm4/sm4_common.cpp", "include/gmlib/sm4/sm4.h"]}
{"id": "C13", "title": "SM4 table/parallel variant equals reference", "statement": "sm4 lang18 (T-table, 4-way) equals sm4 common on every block of any number of blocks.", "quantifier": "all keys, all block sequences of any length", "why_tests_cant": "2^128 keys x unbounded inputs", "anchors": ["src/sm4/sm4_lang18.cpp", "src/sm4/sm4_common.cpp"]}
{"id": "C14", "title": "SM4 conforms to GB/T 32907", "statement": "Key schedule and block function equal an independent transcription of the standard.", "quantifier": "all keys and blocks", "why_tests_cant": "2^256 pairs", "anchors": ["src/sm4/sm4_common.cpp"]}
{"id": "C15", "title": "AES conforms to FIPS 197", "statement": "Table-driven AES-128/192/256 encryption equals SubBytes/ShiftRows/MixColumns/AddRoundKey of FIPS 197 for every key and block.", "quantifier": "all keys of each size, all blocks", "why_tests_cant": "2^384 pairs", "anchors": ["src/aes/aes_lut.cpp"]}
{"id": "C16", "title": "AES decryption inverts encryption", "statement": "aes decrypt of aes encrypt is the identity for all three key sizes (table-driven equivalent inverse cipher).", "quantifier": "all keys of each size, all blocks", "why_tests_cant": "2^384 pairs", "anchors": ["src/aes/aes_lut.cpp"]}
{"id": "C17", "title": "AES-NI variant equals table variant", "statement": "The AES-NI key expansion and rounds (with the documented instruction semantics) give the same output as the table variant.", "quantifier": "all keys and blocks", "why_tests_cant": "2^384 pairs; hardware dependent", "anchors": ["src/aes/aes_aesni.cpp"]}
{"id": "C18", "title": "ECB streaming and round trip", "statement": "For any split into updates, ECB output is the blockwise cipher of the concatenation; decryption returns the plaintext.", "quantifier": "all messages, splits, PARALLEL_NUM values and ciphers", "why_tests_cant": "unbounded splits", "anchors": ["include/gmlib/block_cipher_mode/ecb_mode.h", "include/gmlib/block_cipher_mode/block_cipher_mode.h"]}
{"id": "C19", "title": "CBC streaming and round trip", "statement": "For any split, CBC encrypt equals SP 800-38A CBC of the concatenation; CBC decrypt inverts it for any (other) split.", "quantifier": "all messages, IVs, splits, PARALLEL_NUM values and ciphers", "why_tests_cant": "unbounded splits; chaining state across calls", "anchors": ["include/gmlib/block_cipher_mode/cbc_mode.h"]}
{"id": "C20", "title": "CFB streaming and round trip", "statement": "Same for CFB-128, including a partial final block.", "quantifier": "all messages, IVs, splits, PARALLEL_NUM values and ciphers", "why_tests_cant": "unbounded splits", "anchors": ["include/gmlib/block_cipher_mode/cfb_mode.h"]}
{"id": "C21", "title": "OFB streaming and round trip", "statement": "Same for OFB, including a partial final block.", "quantifier": "all messages, IVs, splits and ciphers", "why_tests_cant": "unbounded splits", "anchors": ["include/gmlib/block_cipher_mode/ofb_mode.h"]}
{"id": "C22", "title": "CTR streaming, round trip and counter carry", "statement": "CTR output equals XOR with E(iv + i mod 2^128); the counter increment carries over all 16 bytes and wraps; decryption inverts.", "quantifier": "all messages, initial counters, splits, PARALLEL_NUM values and ciphers", "why_tests_cant": "carry chains up to 2^128", "anchors": ["include/gmlib/block_cipher_mode/ctr_mode.h", "include/gmlib/block_cipher_mode/internal/ctr_inc.h"]}
{"id": "C23", "title": "ECB/CBC reject incomplete input", "statement": "ECB and CBC do_final throw exactly when the total input length is not a multiple of the block size; otherwise they output exactly the input length.", "quantifier": "all splits of all inputs", "why_tests_cant": "unbounded", "anchors": ["include/gmlib/block_cipher_mode/ecb_mode.h", "include/gmlib/block_cipher_mode/cbc_mode.h"]}
{"id": "C24", "title": "GCM encryption conforms to SP 800-38D", "statement": "Ciphertext and tag equal the SP 800-38D definition for every key, iv length (12 or other), aad, plaintext and split into updates.", "quantifier": "all keys (any 128-bit cipher), ivs, aads, plaintexts, splits", "why_tests_cant": "unbounded", "anchors": ["include/gmlib/block_cipher_mode/gcm_mode.h"]}
{"id": "C25", "title": "GCM decryption accepts exactly authentic ciphertexts", "statement": "do_final of the decryptor fails iff the supplied tag differs from the SP 800-38D tag of the received ciphertext, and on acceptance the plaintext decrypts back to the encrypted one.", "quantifier": "all keys, ivs, aads, ciphertexts, tags, splits", "why_tests_cant": "2^128 tags", "anchors": ["include/gmlib/block_cipher_mode/gcm_mode.h: GcmDecryptor"]}
{"id": "C26", "title": "GCM decryptions are independent of each other", "statement": "The outcome of a decryption depends only on its own key, iv, aad, ciphertext and tag, not on decryptions done before in the same process.", "quantifier": "all histories of decryptions", "why_tests_cant": "depends on the history of the whole process", "anchors": ["include/gmlib/block_cipher_mode/gcm_mode.h: GcmDecryptor::final_block"]}
{"id": "C27", "title": "GHASH table variant equals the GF(2^128) definition", "statement": "ghash common and ghash lut256 both compute the SP 800-38D multiplication-and-add fold.", "quantifier": "all H, all block sequences", "why_tests_cant": "2^128 H x unbounded data", "anchors": ["src/ghash/ghash_common.cpp", "src/ghash/ghash_lut256.cpp"]}
{"id": "C28", "title": "GHASH carry-less-multiply variant equals the definition", "statement": "ghash pclmul (with PCLMULQDQ semantics) computes the same function.", "quantifier": "all H, all block sequences", "why_tests_cant": "2^128 H", "anchors": ["src/ghash/ghash_pclmul.cpp"]}
{"id": "C29", "title": "GHash streaming is chunk independent", "statement": "For any split of the data into GHash::update calls the digest is that of the concatenation.", "quantifier": "all data and all splits", "why_tests_cant": "the defect needs a particular split shape", "anchors": ["include/gmlib/hash_lib/hash.h: Hash::update", "include/gmlib/ghash/ghash.h"]}
{"id": "C30", "title": "256-bit arithmetic is exact (portable)", "statement": "uint256 add/sub/dbl/tpl/mul/sqr/div/cmp/bittest/bytes (8x32-bit) return the exact mathematical result together with the exact carry/borrow.", "quantifier": "all pairs of 256-bit integers", "why_tests_cant": "2^512 pairs; rare carries", "anchors": ["src/number/uint256_common.cpp"]}
{"id": "C31", "title": "256-bit arithmetic is exact (x64)", "statement": "The 4x64-bit variant returns the same exact results.", "quantifier": "all pairs of 256-bit integers", "why_tests_cant": "2^512 pairs; rare carries", "anchors": ["src/number/uint256_x64.cpp"]}
{"id": "C32", "title": "Multi-precision helpers are exact for every size", "statement": "mpz add/sub/mul/cmp are exact for every limb count.", "quantifier": "all operands of all sizes", "why_tests_cant": "unbounded sizes", "anchors": ["src/number/mpz_common.cpp", "src/number/mpz_x64.cpp"]}
{"id": "C33", "title": "Montgomery ring operations are modular arithmetic", "statement": "For every odd modulus P with 2^255<=P<2^256 (or as each function requires), mont256 add/sub/dbl/tpl/mul/sqr/div2/redc/from/to bytes return the canonical representative (<P) of the exact modular result.", "quantifier": "all moduli, all operands below P", "why_tests_cant": "2^768 triples; final-subtraction boundaries", "anchors": ["src/number/mont256_common.cpp", "src/number/mont256_x64.cpp"]}
{"id": "C34", "title": "Montgomery exponentiation and inversion", "statement": "mont256_pow(a,e) = a^e mod P for every e>0 and mont256_inv(a)*a = 1 for a<>0 when P is prime.", "quantifier": "all bases, exponents", "why_tests_cant": "2^512 pairs", "anchors": ["src/number/mont256_common.cpp: mont256_pow, mont256_inv", "src/number/mont256_x64.cpp"]}
{"id": "C35", "title": "Montgomery negation is canonical", "statement": "mont256_neg(a) returns the canonical representative of -a for every a<P, in both variants.", "quantifier": "all a", "why_tests_cant": "the failing value is a single one in 2^256", "anchors": ["src/number/mont256_common.cpp: mont256_neg", "src/number/mont256_x64.cpp: mont256_neg"]}
{"id": "C36", "title": "Reduction of long byte strings", "statement": "uint256_mod / from_bytes_ex of a byte string of any length equals the big-endian integer modulo the divisor.", "quantifier": "all byte strings of any length, all nonzero divisors", "why_tests_cant": "unbounded lengths", "anchors": ["src/number/uint256_common.cpp: uint256_mod"]}
{"id": "C37", "title": "SM2 domain parameters are sound", "statement": "p and n are prime, G lies on the curve and has order n, and the Montgomery constants in the code are the right ones for p and n.", "quantifier": "the constants in the source", "why_tests_cant": "primality of 256-bit numbers is not decided by examples", "anchors": ["src/sm2/sm2p256v1.cpp"]}
{"id": "C38", "title": "SM2 point operations implement the group law", "statement": "Jacobian add / mixed add / double / negate / to-affine represent the chord-and-tangent result whenever their documented operands apply.", "quantifier": "all curve points and all Jacobian representatives", "why_tests_cant": "2^512 pairs and exceptional cases", "anchors": ["src/sm2/sm2p256v1.cpp: sm2_ec_j_add, sm2_ec_j_add_a, sm2_ec_j_dbl"]}
{"id": "C39", "title": "SM2 scalar multiplication", "statement": "sm2_ec_j_mul_a(P,k) equals k.P for every k in [1,n-1] and every point P of order n; sm2_ec_j_mul_g(k) equals k.G.", "quantifier": "all scalars and points", "why_tests_cant": "2^512 pairs; exceptional additions occur at single scalars", "anchors": ["src/sm2/sm2p256v1.cpp: sm2_ec_j_mul_a, sm2_ec_j_mul_g"]}
{"id": "C40", "title": "SM2 point encoding round trip and validation", "statement": "Each encoding (04, 02/03, 06/07) of a curve point decodes to the same point; decoding rejects non-curve points.", "quantifier": "all curve points, all byte strings", "why_tests_cant": "2^256 points", "anchors": ["src/sm2/sm2p256v1.cpp: sm2_ec_a_to_bytes, sm2_ec_a_from_bytes"]}
{"id": "C41", "title": "SM2 signatures verify", "statement": "Every signature produced by sign() for any key, message and random stream is accepted by verify() with the matching public key and id.", "quantifier": "all private keys, messages, ids, random streams", "why_tests_cant": "2^256 keys, unbounded messages", "anchors": ["include/gmlib/sm2/sm2.h: sign, verify"]}
{"id": "C42", "title": "SM2 verify accepts exactly the standard's signatures", "statement": "verify() returns true iff r,s in [1,n-1], t=r+s mod n <> 0 and r = e + x([s]G+[t]P) mod n.", "quantifier": "all signatures, keys and messages", "why_tests_cant": "2^512 forged signatures", "anchors": ["include/gmlib/sm2/sm2.h: verify_"]}
{"id": "C43", "title": "SM2 decryption inverts encryption", "statement": "decrypt(encrypt(m)) = m for every message, key and random stream.", "quantifier": "all keys, messages, random streams", "why_tests_cant": "unbounded messages", "anchors": ["include/gmlib/sm2/sm2.h: encrypt_, decrypt_"]}
{"id": "C44", "title": "SM2 decryption rejects bad ciphertexts", "statement": "decrypt succeeds only if C1 is on the curve and C3 = H(x2||m||y2) for the returned m.", "quantifier": "all ciphertexts", "why_tests_cant": "adversarial inputs", "anchors": ["include/gmlib/sm2/sm2.h: decrypt_"]}
{"id": "C45", "title": "SM2 generated private keys are usable", "statement": "gen_priv only produces keys that set_priv accepts and that can sign (d in [1,n-2]).", "quantifier": "all random streams", "why_tests_cant": "the failing value is one in 2^256", "anchors": ["include/gmlib/sm2/sm2.h: gen_priv, set_priv"]}
{"id": "C46", "title": "SM2 public key validation", "statement": "set_pub accepts only points that satisfy the curve equation.", "quantifier": "all coordinate pairs / encodings", "why_tests_cant": "2^512 pairs", "anchors": ["include/gmlib/sm2/sm2.h: set_pub"]}
{"id": "C47", "title": "SM2 KDF conforms", "statement": "sm2_kdf_xor XORs exactly the GB/T 32918.4 KDF stream H(z||1)||H(z||2)||... and reports all-zero streams.", "quantifier": "all z and all lengths", "why_tests_cant": "unbounded lengths, 32-bit counter", "anchors": ["include/gmlib/sm2/internal/sm2_alg.h: sm2_kdf_xor"]}
{"id": "C48", "title": "SM9 hash-to-range", "statement": "sm9 H1/H2 always return a value in [1,N-1] equal to (Ha mod (N-1)) + 1.", "quantifier": "all ids / messages", "why_tests_cant": "unbounded inputs", "anchors": ["include/gmlib/sm9/internal/sm9_alg.h"]}
{"id": "C49", "title": "SM9 extension-field arithmetic", "statement": "fp2/fp4/fp12 add/sub/mul/sqr/inv are the operations of F_p[u,v,w]/(u^2+2, v^2-u, w^3-v); inverses are correct for non-zero elements.", "quantifier": "all field elements", "why_tests_cant": "p^12 elements", "anchors": ["src/sm9/sm9_field.cpp"]}
{"id": "C50", "title": "SM9 scalar multiplication", "statement": "sm9_ec_j_mul_a / sm9_ec2_j_mul_a return k.P for every k in [1,N-1].", "quantifier": "all scalars and points", "why_tests_cant": "the failing scalar is one in 2^256", "anchors": ["src/sm9/sm9_field.cpp: sm9_ec_j_mul_a, sm9_ec2_j_mul_a"]}
{"id": "C51", "title": "SM9 signatures verify", "statement": "Every signature produced by sign() for any master key, id, message and random stream is accepted by verify().", "quantifier": "all master keys, ids, messages, random streams", "why_tests_cant": "unbounded", "anchors": ["include/gmlib/sm9/sm9.h: sign, verify"]}
{"id": "C52", "title": "SM9 G2 encoding is faithful", "statement": "Encoding a G2 point and decoding it returns the point; distinct points have distinct encodings.", "quantifier": "all G2 points", "why_tests_cant": "p^2 points", "anchors": ["src/sm9/sm9_field.cpp: sm9_ec2_a_to_bytes04, sm9_ec2_a_from_bytes04"]}
{"id": "C53", "title": "Mode update reports its output length", "statement": "Every update() call writes *outl, equal to the number of bytes it wrote to out.", "quantifier": "all call histories", "why_tests_cant": "depends on buffered state across calls", "anchors": ["include/gmlib/block_cipher_mode/block_cipher_mode.h: update"]}
{"id": "C54", "title": "Re-initialisation gives a fresh mode object", "statement": "After init() a mode object behaves as a newly created one, whatever was done before.", "quantifier": "all histories before init", "why_tests_cant": "unbounded histories", "anchors": ["include/gmlib/block_cipher_mode/block_cipher_mode.h", "include/gmlib/block_cipher_mode/cbc_mode.h"]}
{"id": "C55", "title": "Output never exceeds what was input", "statement": "At any point of any history the number of bytes a cipher mode wrote in total is at most the number it was given, and after do_final equal to it.", "quantifier": "all histories", "why_tests_cant": "unbounded histories", "anchors": ["include/gmlib/block_cipher_mode/block_cipher_mode.h"]}
{"id": "C56", "title": "RNG fills exactly the requested bytes", "statement": "gen(out,n) of the software generators writes exactly n bytes, and requests split in two calls give the same stream.", "quantifier": "all n, all splits, all generator states", "why_tests_cant": "unbounded", "anchors": ["include/gmlib/rng/std_rng.h", "include/gmlib/rng/cstd_rng.h"]}
{"id": "C57", "title": "asn1_dump prints exactly the elements of a DER string", "statement": "For every well-formed sequence of DER elements asn1_dump terminates, reads only the input, prints every element once (parents before children) with its depth, class, flag, tag and length, and returns 0; for malformed input it reports an error.", "quantifier": "all element trees of any depth and size", "why_tests_cant": "unbounded nesting; malformed inputs are adversarial", "anchors": ["src/asn1/asn1_dump.cpp: asn1_dump, r_asn1_dump"]}
{"id": "C58", "title": "Pairing values are n-th roots of unity", "statement": "The final exponentiation raises every non-zero element of F_p^12 to the power (p^12-1)/n, so that every pairing value has order dividing n; sm9_fp12_pow computes the power for every 256-bit exponent.", "quantifier": "all non-zero field elements, all exponents", "why_tests_cant": "p^12 elements, exponents of 3000 bits", "anchors": ["src/sm9/sm9_field.cpp: sm9_pairing_final_exp, sm9_pairing_final_exp_hard_part, sm9_fp12_pow, sm9_fp12_frobenius"]}
{"id": "C59", "title": "SM9 G1 encoding is faithful", "statement": "Encoding a G1 point in any of the three forms and decoding it returns the point; the decoder accepts exactly the buffers that stand for a point of the curve and never reads past the buffer.", "quantifier": "all points, all forms, all buffers", "why_tests_cant": "2^256 points", "anchors": ["src/sm9/sm9_field.cpp: sm9_ec_a_to_bytes_uncompressed, sm9_ec_a_to_bytes_compressed, sm9_ec_a_to_bytes_mix, sm9_ec_a_from_bytes"]}
{"id": "C60", "title": "The SM9 pairing is the R-ate pairing of the standard", "statement": "For every point P of G1 and every point Q of G2 (neither infinity) sm9_pairing returns the R-ate pairing e(P,Q) of GB/T 38635 Annex A, defined over F_p^12 with the textbook group law; no exceptional case of the projective formulas is ever met.", "quantifier": "all points of G1 and of G2", "why_tests_cant": "about 2^512 pairs of points; a missing exceptional case would show on a negligible fraction of them", "anchors": ["src/sm9/sm9_field.cpp: sm9_pairing, sm9_pairing_g_tangent_ja, sm9_pairing_g_line_jja, sm9_pairing_g_line_jaa, sm9_pairing_final_exp"]}
{"id": "C61", "title": "The SM9 pairing is bilinear", "statement": "e([a]P, [b]Q) = e(P, Q)^(ab): the values returned by sm9_pairing on multiples of points are the powers that signing and verifying rely on.", "quantifier": "all points of G1 and G2, all scalars", "why_tests_cant": "the group is too large to enumerate; bilinearity is what every SM9 protocol rests on", "anchors": ["src/sm9/sm9_field.cpp: sm9_pairing"]}
{"id": "C62", "title": "SM9 key generation follows the standard", "statement": "Setting or generating a master key ks stores Ppub = [ks]P2 and e(P1, Ppub), and refuses ks outside [1, n-1]; the signing key of an identity is [ks/(H1(id||hid)+ks)]P1, refused exactly when H1(id||hid)+ks = 0 mod n.", "quantifier": "all master keys, random streams, identities, hid values", "why_tests_cant": "about 2^256 keys and unboundedly many identities; the refused case has negligible probability", "anchors": ["include/gmlib/sm9/sm9.h: set_sign_master_privkey, generate master key, gen_sign_user_privkey"]}
{"id": "C63", "title": "SM9 signatures are the values of the standard", "statement": "sign() returns h || S with h = H2(M || e(P1,Ppub)^r) and S = [(r-h) mod n]ds for the first random r with r != h, in the requested point format.", "quantifier": "all keys, messages, random streams, point formats", "why_tests_cant": "the retry branch has negligible probability; all keys and messages", "anchors": ["include/gmlib/sm9/sm9.h: sign"]}
{"id": "C64", "title": "SM9 verify accepts exactly the valid signatures", "statement": "verify() returns true exactly when the bytes after the first 32 stand for a point S of the curve and (h, S) satisfies the verification equation of the standard; no byte string makes it read outside its input.", "quantifier": "all byte strings as signatures, all public keys, messages, identities", "why_tests_cant": "acceptance of a wrong signature is a statement about all byte strings", "anchors": ["include/gmlib/sm9/sm9.h: verify"]}
{"id": "C65", "title": "SM9 keys survive export and import", "statement": "Keys written by the export functions are read back as the same keys; importing coordinates that are not a point of G1 (private key) or G2 (public key) is refused.", "quantifier": "all keys, all coordinate strings", "why_tests_cant": "all points; the rejected set includes points of small order on the twist", "anchors": ["include/gmlib/sm9/sm9.h: set_pubkey, get_pubkey, set_sign_privkey, get_privkey"]}
{"id": "C66", "title": "Hardware generators use only delivered words", "statement": "gen(out,n) of the RDRAND/RDSEED generators returns normally exactly when the instruction delivers ceil(n/w) words with at most RETRIES failures before each; the n bytes are then those words and no other byte is written; otherwise it throws. Values of failed attempts are never used and no outcome is used twice.", "quantifier": "all sequences of instruction outcomes, all retry counts, word sizes and lengths", "why_tests_cant": "the failure patterns cannot be provoked in a test", "anchors": ["include/gmlib/rng/hardware_rng/rdrand32_rng.h", "include/gmlib/rng/hardware_rng/rdrand64_rng.h", "include/gmlib/rng/hardware_rng/rdseed32_rng.h", "include/gmlib/rng/hardware_rng/rdseed64_rng.h"]}
{"id": "C67", "title": "System generators fill the whole buffer", "statement": "gen(out,n) of the Windows generators requests the whole buffer from the system in consecutive pieces whose sizes fit the 32-bit argument, and throws exactly when a request fails.", "quantifier": "all n up to 2^64, all failure patterns", "why_tests_cant": "buffers beyond 4 GiB and failing system calls", "anchors": ["include/gmlib/rng/os_rng/bcrypt_rng.h", "include/gmlib/rng/os_rng/wincrypt_rng.h"]}
{"id": "C68", "title": "memdump shows every byte once, in aligned lines", "statement": "memdump prints every byte of the buffer once and in order, maxline items per line, and the character column of all lines (the last, shorter one included) starts at the same place.", "quantifier": "all buffers, line lengths, separators, constant-width item formats", "why_tests_cant": "unbounded sizes", "anchors": ["src/memory_utils/memdump.cpp: memdump"]}
{"id": "C69", "title": "Messages can be processed inside their own buffer", "statement": "Encrypting or decrypting a message inside the array that holds it (output pointer starting at the message and moving on by *outl, input pointer moving on by what was passed) leaves in the array exactly what the standard mode prescribes, with the bytes before and behind the message unchanged, for ECB, CBC, CFB, OFB, CTR and GCM.", "quantifier": "all ciphers, keys, IVs, messages, cuts into calls, positions in the array, memxor builds", "why_tests_cant": "which bytes are overwritten before they are read depends on the cut, the batch size of the cipher and the stride of memxor", "anchors": ["include/gmlib/block_cipher_mode/block_cipher_mode.h: update, do_final", "include/gmlib/block_cipher_mode/cbc_mode.h", "include/gmlib/block_cipher_mode/cfb_mode.h", "include/gmlib/block_cipher_mode/ofb_mode.h", "include/gmlib/block_cipher_mode/ctr_mode.h", "include/gmlib/block_cipher_mode/gcm_mode.h", "include/gmlib/memory_utils/memxor.h"]}
{"id": "C70", "title": "Hash and HMAC objects can be reused", "statement": "An SM3 object after reset(), and an HMac object after set_key(), behaves like a new one whatever was done with it before, so any number of messages processed by one object get the right digests and tags; after do_final() the HMac object is ready for the next message under the same key.", "quantifier": "all histories of an object, all keys, messages and splits", "why_tests_cant": "unbounded histories", "anchors": ["include/gmlib/hash_lib/hash.h: Hash::reset, Hash::do_final", "include/gmlib/hash_lib/hmac.h: HMac::set_key, HMac::do_final", "include/gmlib/sm3/sm3.h: SM3::reset"]}
{"id": "C71", "title": "Numbers may be computed in place", "statement": "The big-number and Montgomery functions give the exact result when the result array is the same array as one or several operands, as the library calls them everywhere, and they change nothing but the result array.  (Products need a result apart from the factors, modular operations one apart from the modulus; partly overlapping arrays are not supported.)", "quantifier": "all addresses of result and operands (equal or apart), all memory contents, all operand values, any number of limbs for the mpz functions", "why_tests_cant": "all values and all placements of the arrays", "anchors": ["src/number/uint256_common.cpp", "src/number/uint256_x64.cpp", "src/number/mpz_common.cpp", "src/number/mpz_x64.cpp", "src/number/mont256_common.cpp", "src/number/mont256_x64.cpp"]}
{"id": "C72", "title": "Field elements and points may be computed in place", "statement": "The functions on elements of F_p^2, F_p^4, F_p^12 and on affine and Jacobian points of the SM2 curve and of both SM9 groups give the same result when the result object is one or several of the operands as when it is a separate object, and change nothing but the result object.  The line functions of the pairing leave their operands unchanged.  (The small operand of a product with a subfield element must not lie in the result.)", "quantifier": "all addresses of result and operands (equal or apart), all memory contents, both builds", "why_tests_cant": "all values and all alias patterns at every level of the tower", "anchors": ["src/sm9/sm9_field.cpp: sm9_fp2_*, sm9_fp4_*, sm9_fp12_*, sm9_ec_j_*, sm9_ec2_j_*, sm9_ec2_g_*", "src/sm2/sm2p256v1.cpp: sm2_ec_a_neg, sm2_ec_j_*"]}
{"id": "C73", "title": "Multiples, powers and pairings may overwrite their operands", "statement": "Multiplying a point of the SM2 curve or of either SM9 group by a scalar, raising an element of F_p^12 to a power and pairing two points leave the multiple, the power and the pairing value of what the operands held before the call in the result object, wherever the result object lies among the operands (it may be an operand or overlap it in part), and change nothing else of the caller's memory.", "quantifier": "all addresses of result and operands, all memory contents, scalars and exponents, both builds", "why_tests_cant": "all overlaps of result and operands and all loop lengths", "anchors": ["src/sm2/sm2p256v1.cpp: sm2_ec_j_mul_a", "src/sm9/sm9_field.cpp: sm9_ec_j_mul_a, sm9_ec2_j_mul_a, sm9_fp12_pow, sm9_pairing_final_exp, sm9_pairing"]}
{"id": "C74", "title": "Field elements survive encoding, comparison and conversion", "statement": "Writing an element of F_p^2, F_p^4 or F_p^12 gives its coefficients as 32-byte big-endian groups, the highest first; different elements have different bytes and reading the bytes back gives the element.  Reading any 128 or 384 bytes at any position gives an element and writes the same bytes back when every group is below p (larger groups are reduced, not refused).  The comparisons (equal, zero, one; points of both groups in any Jacobian coordinates) say true exactly for equal values.  Conversions between the two fields and plain numbers keep the number modulo the target, and the reductions modulo n-2 and n-3 give the full remainder.", "quantifier": "all elements, all byte strings and positions, all 256-bit numbers, both builds", "why_tests_cant": "a wrong order of coefficients or a wrong comparison shows only on elements with particular coefficients; 2^3072 elements", "anchors": ["src/sm9/sm9_field.cpp: sm9_fp4_from_bytes, sm9_fp12_from_bytes, sm9_fp12_to_bytes, sm9_fp12_equal, sm9_fp12_equal_one, sm9_fn_from_fp, sm9_fn_to_fp, sm9_bn_mod_n_sub2, sm9_bn_mod_n_sub3", "src/sm2/sm2p256v1.cpp: sm2_fp_to_bn, sm2_fp_from_bn, sm2_fn_to_bn, sm2_fn_from_bn, sm2_fn_to_fp, sm2_bn_mod_n_sub2"]}
{"id": "C75", "title": "GCM decryptions in different threads do not influence each other", "statement": "When several threads each decrypt with a GcmDecryptor object of their own, every decryption that ends delivers the plaintext or throws exactly as SP 800-38D prescribes for its own key, IV, additional data, ciphertext and tag, whatever the other threads do at the same time.", "quantifier": "all numbers of threads, all requests, all schedules", "why_tests_cant": "races show only in particular schedules; there are unboundedly many", "anchors": ["include/gmlib/block_cipher_mode/gcm_mode.h: GcmDecryptor::final_block, GcmDecryptor::do_final"]}

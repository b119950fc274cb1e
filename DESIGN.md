# Formal model of oldprincess/gmlib in Rocq (Coq 8.16.1)

This file was written before the proofs and is kept current.

## 1. Shape of the development

* `rocq/theories/Model*.v` – executable Gallina functions, one per C++ function, each with a
  comment citing file and lines of `/repo`. No proofs.
* `rocq/theories/Spec*.v` – small specifications written from the public standards
  (GB/T 32905, 32907, 32918, 38635; FIPS 197; SP 800-38A/D; RFC 2104; X.690), without using the
  model's helpers.
* `rocq/theories/Proof*.v` – lemmas.
* `rocq/theories/Prop*.v` – only the property theorems, each closed by `exact <lemma>` followed by
  `Print Assumptions`, and `Example`s that show the hypotheses are met by a concrete case.

Representation: a byte is a `Z` in `[0,256)`, a machine word a `Z` in `[0,2^w)` with the wrap-around
written explicitly in the model; byte strings are `list Z`. A C++ function that writes through
pointers returns the written values. `throw`, error returns and undefined behaviour (reading or
writing outside an object, uninitialised reads) are distinct outcomes.

The block-cipher modes are modelled over an arbitrary cipher (a pair of functions on 16-byte
blocks), because the C++ classes are templates over the cipher. Random generators are modelled by
the byte stream they return.

## 2. Plan per property

| id | what is modelled | how it is proved |
|----|------------------|------------------|
| C01 | memxor strides | induction over the stride loop |
| C02 | endian loads/stores | arithmetic on digits |
| C03-C05 | asn1 TLV encoder/decoder | round trip; refutations by witness where the code deviates |
| C06 | sm2 DER codec | round trip on the domain where it holds, refuted in full |
| C07,C10 | Hash<BS> template over an abstract compression function, SM3 context with 64-bit counter | invariant over the list of update calls |
| C08,C09 | SM3 common and yang15 | refinement to an independent spec; loop unrolling equalities |
| C11 | HMac template over abstract hash | composition of the streaming invariant |
| C12-C14 | SM4 key schedule and rounds, T-tables | Feistel inversion by induction on rounds; tables by exhaustive 256-case check + linearity |
| C15-C17 | AES tables, key schedules, AES-NI instruction semantics | tables by exhaustive 256-case check; equivalent inverse cipher by linearity |
| C18-C23, C53-C55 | BlockCipherMode<BS> + the six modes | invariant over the list of update calls; refinement to SP 800-38A |
| C24-C26 | GCM over an abstract cipher and GHASH | same, plus process-wide `static` buffer in the decryptor |
| C27-C29 | the three GHASH variants | GF(2)-linearity + table check; carry-less product algebra |
| C30-C32 | uint256 8x32 / 4x64, mpz | refinement to Z |
| C33-C36 | mont256 | refinement to arithmetic mod P |
| C37 | SM2 constants | Pocklington certificates checked by the kernel, vm_compute |
| C38 | Jacobian formulas | `field` against the affine chord-tangent law |
| C39 | add-sub scalar multiplication with 3e | invariant on the partial scalar, exceptional cases excluded by integer reasoning |
| C40,C46 | point codec | round trip, square roots for p = 3 mod 4 |
| C41-C45 | SM2 sign/verify/encrypt/decrypt/key generation | algebra in the group of order n |
| C47 | kdf | induction over counter |
| C48 | sm9 Hn | arithmetic |
| C49 | tower fields | `ring`/`field` over F_p |
| C50 | sm9 scalar multiplication | same invariant as C39; refuted at k = N-2 |
| C51, C62-C64 | sm9 keys, sign, verify | algebra in the groups of order n; the pairing's correctness and bilinearity are C60, C61 |
| C65 | sm9 key export/import | round trip; subgroup membership refuted with a point of order 13 |
| C52 | sm9 G2 codec | refuted |
| C56 | software generators | induction |
| C66 | hardware generators over an arbitrary sequence of outcomes | induction on the word loop |
| C67 | Windows generators: the requests they make | induction on the chunk loop |
| C68 | memdump | induction on the lines |
| C69 | modes with input and output in one array | each update_blocks in place simulates the one with separate buffers; induction on the calls; refuted for CBC decryption with PARALLEL_NUM >= 2 and for same-pointer calls |
| C70 | SM3 and HMac objects used for several messages | reset() and set_key() applied to an arbitrary state; induction on the messages; reuse without them refuted |
| C71 | number library and Montgomery operations on memory with pointers | a limb loop (`chain`) reads index i before it writes it: induction over the limbs gives the value function of C30-C36 when each operand is the result array or apart from it; frame: only the result changes; refuted for product over factor, partial overlap, divisor equal to the result |
| C72 | tower fields, curve formulas and line functions on memory with pointers | each body is a list of instructions on cells of the result, the locals and the operands; a simulation between memory and values (valid for any alias pattern of the result with the operands) reduces each body to a computation on symbolic values, done for every alias pattern; composed up the tower F_p, F_p^2, F_p^4, F_p^12 and to the curves over F_p and F_p^2; refuted when the scalar of a product with a subfield element lies in the result |
| C73 | scalar multiplication on the three curves, exponentiation in F_p^12 with its table, the final exponentiation and the pairing on memory with pointers | loop invariants on memory (what the locals hold, the callers' memory unchanged) over the calls of C72, for any overlap of the result with the operands; composed with C39, C58 and C60 to multiples, powers and the pairing of the standard |
| C74 | decoding of F_p^4 and F_p^12 elements, all comparisons, conversions between fields and numbers, reductions modulo n-2 and n-3 | decoding reduced to reads of 32-byte groups; injectivity of the byte form by lengths; comparisons coefficient by coefficient; one conditional subtraction suffices since 2(n-3) > 2^256 |
| C75 | several threads, each with its own GCM decryptor, interleaved between the statements of final_block that touch the shared static arrays | invariant on the shared arrays while at most one thread is inside final_block (partial); overlapping calls: any message with the tag of an authentic one is accepted in some schedule (refuted) |
| C58 | final exponentiation | exponents tracked modulo p^12-1; Frobenius maps proved to be the p-th power maps |
| C60 | pairing | Miller loop followed up to factors of F_p^4, killed by the final exponentiation; exceptional additions excluded by Fr^4 - Fr^2 + 1 = 0 on the twist |
| C61 | bilinearity | line values form a symmetric cocycle; exponent 6t+2+p-p^2+p^3 is 0 mod n |
| C59 | sm9 G1 codec | round trip, square roots for p = 5 mod 8 |
| C57 | asn1_dump over its element stack | induction on the element tree; refuted on malformed input |

Properties that turn out false of the code are stated in full and refuted with a witness
(`..._refuted`), together with the strongest part that holds (`..._partial`).

## 3. Trusted base

* Coq 8.16.1's kernel, including its `vm_compute` machine (the gate also re-checks every module with
  `coqchk`, which does not use it).
* `Print Assumptions`, run in every `Prop*.v` for each property theorem (some together, as one tuple), prints `Closed under the
  global context` for each of them: no axiom of any library is used, and none is declared here.
* The reading of the C++ code into Gallina. Nothing is extracted or run against the code; each
  definition cites the lines it was read from. Intrinsics (AES-NI, PCLMULQDQ, ADX/BMI2, MOVBE, SSE/AVX
  shifts and shuffles) are given the semantics of their vendor manuals.
* The specifications in `Spec*.v`, written from the standards.

### Modelled

| part of /repo | model |
|---------------|-------|
| memory utils (memxor), endian | ModelMemxor, ModelEndian |
| hash.h (streaming template), sm3 common and yang15, hmac | ModelHash, ModelSM3, ModelReuse |
| sm4 common and lang18 | ModelSM4 |
| aes common/lut and AES-NI | ModelAES |
| block_cipher.h, block_cipher_mode.h: ECB CBC CFB OFB CTR, encryptors and decryptors | ModelCipher, ModelModes |
| the same modes and GCM with input and output in one array | ModelInplace |
| ghash common, lut256, pclmul; gcm_mode.h | ModelGHASH, ModelGCM |
| GcmDecryptor in several threads (steps between accesses to the shared arrays, indivisible; in C++ such overlaps are data races, so the model shows one permitted outcome) | ModelGCMConc |
| asn1 codec, asn1 dump, sm2 DER objects | ModelASN1 |
| number: uint256, mpz, mont256, 32-bit and 64-bit builds | ModelNumber, ModelNumberX64, ModelMont |
| the same functions on one memory with pointers (result equal to an operand) | ModelAlias |
| extension fields, Frobenius maps, point formulas (SM2, SM9 G1 and G2), line functions on one memory with pointers | ModelAliasF |
| scalar multiplication, exponentiation in F_p^12, final exponentiation, pairing on one memory with pointers (scalars and exponents as values; the variants with a generator only load a constant and are not repeated) | ModelAliasG |
| curve code shared by SM2 and SM9 G1/G2 | ModelEC |
| sm9: F_p, F_p^2, F_p^4, F_p^12, G1, G2, Miller loop, final exponentiation, hash-to-range, keys, sign, verify | ModelSM9 |
| rng: software, hardware and Windows generators | ModelRng |
| memdump | ModelMemdump |
| sm2: field, points, encodings, Z value, KDF, keys, sign, verify, encrypt, decrypt | ModelSM2 |

### Not modelled

CPU dispatch macros, timing and other side channels, allocation failures, the test and demo programs,
what the random devices return (a parameter). Output buffers overlapping
the input are modelled for the mode objects (ModelInplace.v), for the number library (ModelAlias.v), for the fields, curves, scalar multiplication, exponentiation and the pairing (ModelAliasF.v, ModelAliasG.v) and otherwise only where a definition says so. Exceptions thrown inside `noexcept` functions
are the outcome `Throw` of the model.

## 4. Deviations of the code from what a user relies on

Each is a theorem (`..._refuted`, or the characterisation named).

1. ASN.1 INTEGER of a number whose leading byte is >= 0x80 does not round trip (C04); the announced
   length is never compared with the input, so decoders read out of bounds (C05); DER of SM2 signatures,
   private keys and ciphertexts inherits this (C06); empty and bit strings (C04); asn1_dump reports
   success on, or reads past, truncated input (C57); lengths from 2^56 overrun an array (C03).
2. Mode update leaves `*outl` unwritten when a call only extends a non-empty buffer (C53); `init()` keeps
   buffered input of the previous message (C54).
3. GCM decryption keeps E(J0) in a `static` array: a second unaligned decryption pads GHASH with it (C26).
4. Hash::update divides by the literal 64 instead of the block size: GHASH's class overflows its buffer
   (C29); GHASH reset/set_key keep buffered bytes (C29).
5. sm3_common rotates by 0 with an undefined shift (C09 file).
6. mont256_neg(0) = P in the portable build (C35); mont256_tpl wrong for moduli below 2^255 (C33);
   mont256_pow with exponent 0 (C34); x64 mpz_cmp compares from the wrong end (C32); mod by zero (C36).
7. Jacobian add with exactly one infinite operand, mixed add of P to P or to infinity (C38).
8. SM2 point decoding ignores the length given, the parity byte of the mixed form, and accepts coordinates
   >= p (C40, C46).
9. SM2 verify accepts r = e when [s]G + [t]P is infinity (C42).
10. SM2 decrypt leaves the plaintext of a forged ciphertext in the caller's buffer (C44).
11. SM2 gen_priv can return d = n - 1, with which sign never terminates (C45).
12. AES-NI 192-bit key expansion loads 8 bytes past the key (C17, noted).
13. SM9 scalar multiplication returns infinity for the scalar n - 2, in both groups (C50); as a consequence a
    signature with l = n - 2 is output as the encoding of (0, 0) and rejected by verify.
14. SM9 G2 points: y is written at offset 32 instead of 64, so decoding returns another x (C52).
15. Portable build: sm9_fp12_inv is wrong for some sparse elements (its zero tests compare with 0 but
    mont256_neg makes P out of 0); the inverse of 1 is 1 - w (C49).
16. sm9_fp12_pow with exponent 0 runs past its 32 bytes (C58); sm9_ec_a_from_bytes reads before any size
    check (C59).
17. SM9 verify reads past the signature buffer when it is shorter than its 33rd byte announces (C64).
18. SM9 public key import accepts points of the twist outside G2, such as a point of order 13 (C65).
19. The RDRAND/RDSEED generators drop the unused bytes of a word, so splitting a request changes the stream
    (C66; harmless for random data).
20. CBC decryption inside the message's own buffer is wrong from the second block on for the SM4 classes with
    PARALLEL_NUM > 1; passing the same pointer as input and output of every update() loses data whenever an
    earlier call left bytes in the buffer (C69).
21. do_final() of an HMac (or SM3) object does not prepare it for the next message: without another set_key()
    (reset()) the next tag is wrong, without an error (C70).
22. sm9_fp12_from_bytes (and the smaller ones) accept groups of p or more and reduce them, so an element has more
    than one encoding that is read (C74).
23. The static arrays of GcmDecryptor::final_block are shared by all threads: when two do_final() calls overlap, a
    forged message that carries the tag of another thread's authentic message (under any other key) can be accepted (C75).

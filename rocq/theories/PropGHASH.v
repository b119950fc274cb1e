(** Properties C27-C29: GHASH. *)
From Verif Require Import Base BaseFacts ModelHash TablesGHASH SpecGHASH ModelGHASH ProofPclmul ProofGHClass.

(** The multiplication of the specification (SP 800-38D algorithm 1) is the product of polynomials
    over GF(2) reduced modulo x^128 + x^7 + x^2 + x + 1. *)
Theorem C27_spec_is_field_product : forall X Y, 0 <= X < 2 ^ 128 -> 0 <= Y < 2 ^ 128 ->
  rev128 (gmul X Y) = polymod 128 (clmul 128 (rev128 X) (rev128 Y)).
Proof. exact gmul_poly. Qed.
Print Assumptions C27_spec_is_field_product.

(** C27: GHash over the reference and over the table variant (whatever the table held before
    initialisation) is GHASH_H of everything fed in; data that is not a whole number of blocks is
    refused with an exception. [calls_ok] excludes the update calls of C29_overflow. *)
Theorem C27_ghash_common_conforms : forall junk H chunks last,
  length junk = 16%nat -> bytes H -> length H = 16%nat -> bytes (concat chunks ++ last) ->
  calls_ok 0 (chunks ++ [last]) ->
  let m := concat chunks ++ last in
  ghash G_common junk H chunks last = if (length m mod 16 =? 0)%nat then Ok (GHASH H m) else Throw.
Proof. exact (ghash_session G_common ok_common). Qed.
Print Assumptions C27_ghash_common_conforms.

Theorem C27_ghash_lut256_conforms : forall T0 junk H chunks last, length T0 = 256%nat ->
  length junk = 16%nat -> bytes H -> length H = 16%nat -> bytes (concat chunks ++ last) ->
  calls_ok 0 (chunks ++ [last]) ->
  let m := concat chunks ++ last in
  ghash (G_lut256 T0) junk H chunks last = if (length m mod 16 =? 0)%nat then Ok (GHASH H m) else Throw.
Proof. exact (fun T0 junk H chunks last HT => ghash_session (G_lut256 T0) (ok_lut256 T0 HT) junk H chunks last). Qed.
Print Assumptions C27_ghash_lut256_conforms.

(** C28: the PCLMULQDQ variant. *)
Theorem C28_ghash_pclmul_conforms : forall junk H chunks last,
  length junk = 16%nat -> bytes H -> length H = 16%nat -> bytes (concat chunks ++ last) ->
  calls_ok 0 (chunks ++ [last]) ->
  let m := concat chunks ++ last in
  ghash G_pclmul junk H chunks last = if (length m mod 16 =? 0)%nat then Ok (GHASH H m) else Throw.
Proof. exact (ghash_session G_pclmul ok_pclmul). Qed.
Print Assumptions C28_ghash_pclmul_conforms.

(** C29, what holds: two splits, both made of calls that start on a block boundary or stop before the
    end of the next block, have the same outcome.  Missing: all other splits, for which it is false
    (next two theorems). *)
Theorem C29_ghash_streaming_partial : forall T0 junk1 junk2 H chunks1 last1 chunks2 last2,
  length T0 = 256%nat -> length junk1 = 16%nat -> length junk2 = 16%nat ->
  bytes H -> length H = 16%nat -> bytes (concat chunks1 ++ last1) ->
  calls_ok 0 (chunks1 ++ [last1]) -> calls_ok 0 (chunks2 ++ [last2]) ->
  concat chunks1 ++ last1 = concat chunks2 ++ last2 ->
  ghash (G_lut256 T0) junk1 H chunks1 last1 = ghash (G_lut256 T0) junk2 H chunks2 last2.
Proof.
  exact (fun T0 j1 j2 H c1 l1 c2 l2 HT J1 J2 B L BM K1 K2 E =>
    eq_trans (ghash_session _ (ok_lut256 T0 HT) j1 H c1 l1 J1 B L BM K1)
      (eq_trans (f_equal (fun m => if (length m mod 16 =? 0)%nat then Ok (GHASH H m) else Throw) E)
        (eq_sym (ghash_session _ (ok_lut256 T0 HT) j2 H c2 l2 J2 B L (eq_ind _ bytes BM _ E) K2)))).
Qed.
Print Assumptions C29_ghash_streaming_partial.

(** C29 is false: a call made with r > 0 bytes buffered and reaching past the end of the next block
    (r + length > 32) writes beyond the 16-byte buffer of the object. *)
Theorem C29_ghash_overflow : forall T0 junk H chunks x rest last, length T0 = 256%nat ->
  length junk = 16%nat -> bytes H -> length H = 16%nat ->
  calls_ok 0 chunks -> (0 < length (concat chunks) mod 16)%nat ->
  (32 < length (concat chunks) mod 16 + length x)%nat ->
  ghash (G_lut256 T0) junk H (chunks ++ x :: rest) last = UB.
Proof. exact (fun T0 j H c x r l HT => ghash_overflow (G_lut256 T0) (ok_lut256 T0 HT) j H c x r l). Qed.
Print Assumptions C29_ghash_overflow.

(** In the remaining case (exactly one further block) nothing is overwritten, but two blocks fed as
    1 + 31 bytes are refused as incomplete while the same 32 bytes in one call are accepted. *)
Theorem C29_ghash_streaming_refuted : exists H m1 m2,
  length H = 16%nat /\ bytes H /\ bytes (m1 ++ m2) /\
  ghash G_common (repeat 0 16) H [] (m1 ++ m2) = Ok (GHASH H (m1 ++ m2)) /\
  ghash G_common (repeat 0 16) H [m1] m2 = Throw.
Proof.
  exists (repeat 1 16), [2], (repeat 3 31). split; [reflexivity|]. split; [apply all_bytes_spec; reflexivity|].
  split; [apply all_bytes_spec; reflexivity|]. split; vm_compute; reflexivity.
Qed.
Print Assumptions C29_ghash_streaming_refuted.

(** Restarting the object: reset() and set_key() do not discard buffered bytes, so after an
    incomplete block the next digest is not that of a fresh object. *)
Theorem C29_ghash_reset_refuted : exists H m s1 s2,
  gh_update G_common (h_new _ (repeat 0 16) (gi_init G_common H)) m = Ok s1 /\
  s2 = gh_reset G_common s1 /\
  bind (gh_final G_common s2 (repeat 0 16)) (fun '(_, d) => Ok d) <> ghash G_common (repeat 0 16) H [] (repeat 0 16).
Proof.
  exists (repeat 1 16), [2]. eexists. eexists. split; [vm_compute; reflexivity|]. split; [reflexivity|].
  vm_compute. discriminate.
Qed.
Print Assumptions C29_ghash_reset_refuted.

(** Non-vacuity: two pieces of uneven size meet [calls_ok]; GCM test case 2 of the original GCM
    submission: H = AES_0(0), GHASH of one ciphertext block and the length block. *)
Example C27_calls_ok : calls_ok 0 ([repeat 1 7; repeat 2 9; repeat 3 35] ++ [repeat 4 13]).
Proof. cbn. lia. Qed.
Example C27_example :
  ghash G_common (repeat 9 16) (be_bytes 16 0x66e94bd4ef8a2c3b884cfa59ca342b2e)
    [be_bytes 7 0x0388dace60b6a3; be_bytes 9 0x92f328c2b971b2fe78] (be_bytes 16 0x80)
  = Ok (be_bytes 16 0xf38cbb1ad69223dcc3457ae5b6b0f885).
Proof. vm_compute. reflexivity. Qed.
Example C28_example :
  ghash G_pclmul (repeat 9 16) (be_bytes 16 0x66e94bd4ef8a2c3b884cfa59ca342b2e)
    [be_bytes 7 0x0388dace60b6a3; be_bytes 9 0x92f328c2b971b2fe78] (be_bytes 16 0x80)
  = Ok (be_bytes 16 0xf38cbb1ad69223dcc3457ae5b6b0f885).
Proof. vm_compute. reflexivity. Qed.
Example C29_overflow_example : calls_ok 0 [[1]] /\ (32 < length (concat [[1]]) mod 16 + length (repeat 5 32))%nat.
Proof. cbn. lia. Qed.

(** Properties C07-C11: SM3 and HMAC-SM3. *)
From Verif Require Import Base BaseFacts ModelEndian ModelHash ModelSM3 SpecSM3 ProofSM3.

(** The object under the default build (yang15) and the reference build (common).  [junk] is the
    indeterminate initial content of the 64-byte buffer. *)

(** C07 + C08 + C10 for the default build: for every message, every split into update() calls and
    every last piece given to do_final, the outcome is the GB/T 32905 digest when the message has
    less than 2^64 bits, and an exception otherwise. *)
Theorem C08_sm3_yang15_conforms : forall junk chunks last,
  length junk = 64%nat -> bytes (concat chunks ++ last) ->
  let m := concat chunks ++ last in
  sm3_hash compress_yang junk chunks last =
  if 8 * Z.of_nat (length m) <? 2 ^ 64 then Ok (SM3 m) else Throw.
Proof. exact (sm3_hash_spec compress_yang compress_yang_spec). Qed.
Print Assumptions C08_sm3_yang15_conforms.

(** The same for the reference build, provided the machine's result of the (undefined) shift
    [x >> 32] executed in rounds 0 and 32 is 0 or x, as on x86 and ARM. *)
Theorem C08_sm3_common_conforms : forall shr32 junk chunks last,
  (forall x, shr32 x = 0 \/ shr32 x = x) ->
  length junk = 64%nat -> bytes (concat chunks ++ last) ->
  let m := concat chunks ++ last in
  sm3_hash (compress_common shr32) junk chunks last =
  if 8 * Z.of_nat (length m) <? 2 ^ 64 then Ok (SM3 m) else Throw.
Proof. exact (fun shr32 junk chunks last G => sm3_hash_spec _ (compress_common_spec shr32 G) junk chunks last). Qed.
Print Assumptions C08_sm3_common_conforms.

(** C07: any two splits of the same message give the same outcome. *)
Theorem C07_sm3_streaming : forall junk1 junk2 chunks1 chunks2 last1 last2,
  length junk1 = 64%nat -> length junk2 = 64%nat ->
  bytes (concat chunks1 ++ last1) ->
  concat chunks1 ++ last1 = concat chunks2 ++ last2 ->
  sm3_hash compress_yang junk1 chunks1 last1 = sm3_hash compress_yang junk2 chunks2 last2.
Proof. exact sm3_streaming. Qed.
Print Assumptions C07_sm3_streaming.

(** C09: the two compression functions agree on every state and every block; hence every outcome
    of update / final agrees. *)
Theorem C09_sm3_variants_agree : forall shr32,
  (forall x, shr32 x = 0 \/ shr32 x = x) ->
  (forall s data, compress_yang s data = compress_common shr32 s data) /\
  (forall c data n, sm3_update_blocks compress_yang c data n =
                    sm3_update_blocks (compress_common shr32) c data n) /\
  (forall c tail, sm3_final_block compress_yang c tail =
                  sm3_final_block (compress_common shr32) c tail).
Proof. exact sm3_variants. Qed.
Print Assumptions C09_sm3_variants_agree.

(** The reference variant's result does depend on the undefined shift: with another result of
    [x >> 32] it is not SM3 (so sm3_common.cpp line 54 relies on undefined behaviour). *)
Theorem C09_sm3_common_shift_by_32_refuted : exists shr32 m,
  sm3_hash (compress_common shr32) (repeat 0 64) [] m <> Ok (SM3 m).
Proof. exists (fun _ => 1), [97; 98; 99]. vm_compute. discriminate. Qed.
Print Assumptions C09_sm3_common_shift_by_32_refuted.

(** C10: the bit counter is exact: an update of n blocks fails iff the total would reach 2^64 bits,
    and otherwise the counter is the true total. *)
Theorem C10_sm3_counter_exact : forall c data n,
  0 <= cbits c < 2 ^ 64 ->
  match sm3_update_blocks compress_yang c data n with
  | Ok c' => cbits c' = cbits c + 512 * Z.of_nat n /\ cbits c' < 2 ^ 64
  | Throw => 2 ^ 64 <= cbits c + 512 * Z.of_nat n
  | UB => False
  end.
Proof. exact sm3_counter_exact. Qed.
Print Assumptions C10_sm3_counter_exact.

(** C11: HMAC-SM3 equals RFC 2104 for every key, message and split. *)
Theorem C11_hmac_sm3_conforms : forall junk key chunks last,
  length junk = 64%nat -> bytes key -> bytes (concat chunks ++ last) ->
  let m := concat chunks ++ last in
  sm3_hmac compress_yang junk key chunks last =
  if (8 * Z.of_nat (length key) <? 2 ^ 64) && (8 * (64 + Z.of_nat (length m)) <? 2 ^ 64)
  then Ok (HMAC SM3 64 key m) else Throw.
Proof. exact (sm3_hmac_spec compress_yang compress_yang_spec). Qed.
Print Assumptions C11_hmac_sm3_conforms.

(** Non-vacuity: GB/T 32905 A.1, "abc" in three pieces, and an HMAC with a 65-byte key. *)
Example C08_example :
  sm3_hash compress_yang (repeat 7 64) [[97]; []; [98]] [99] =
  Ok (be_bytes 32 0x66c7f0f462eeedd9d1f2d46bdc10e4e24167c4875cf2f7a2297da02b8f4ba8e0).
Proof. vm_compute. reflexivity. Qed.
Example C11_example :
  exists d, sm3_hmac compress_yang (repeat 7 64) (repeat 1 65) [[97]; [98]] [99] = Ok d /\
            length d = 32%nat.
Proof. eexists; split; vm_compute; reflexivity. Qed.

(** Properties C01, C02: memxor and endian conversions. *)
From Verif Require Import Base BaseFacts ModelMemxor ModelEndian ProofMemxor ProofEndian.

(** C01.  In every build configuration, for every memory, addresses and size such that each operand
    starts at or after [out] or ends before it (this covers disjoint operands and out == in1 or
    out == in2), memxor_n stores in1[k]^in2[k] at out[k] for all k < size and changes no other
    byte. *)
Theorem C01_memxor_exact : forall ws out in1 in2 size m,
  In ws [strides_portable; strides_sse2; strides_avx2; strides_avx2_sse2] ->
  (out <= in1 \/ in1 + Z.of_nat size <= out) ->
  (out <= in2 \/ in2 + Z.of_nat size <= out) ->
  let m' := memxor_strides ws out in1 in2 size m in
  (forall k, 0 <= k < Z.of_nat size -> m' (out + k) = Z.lxor (m (in1 + k)) (m (in2 + k))) /\
  (forall a, a < out \/ out + Z.of_nat size <= a -> m' a = m a).
Proof.
  intros ws out in1 in2 size m Hws H1 H2.
  refine (memxor_strides_spec ws out in1 in2 size m _ _ H1 H2);
  cbn in Hws; intuition (subst; repeat constructor).
Qed.
Print Assumptions C01_memxor_exact.

(** Non-vacuity: 19 bytes, in-place on the first operand. *)
Example C01_example :
  let m := fun a => a mod 256 in
  (100 <= 100 \/ 100 + Z.of_nat 19 <= 100) /\ (100 <= 300 \/ 300 + Z.of_nat 19 <= 100) /\
  memxor_n 100 100 300 19 m 117 = Z.lxor 117 (317 mod 256) /\
  memxor_n 100 100 300 19 m 119 = 119.
Proof. repeat split; auto with zarith; vm_compute; reflexivity. Qed.

(** The hypothesis is needed: a forward overlapping operand is corrupted (the strides then differ
    from a bytewise XOR of the original contents). *)
Theorem C01_memxor_overlap_refuted : exists m out in1 in2 size k,
  0 <= k < Z.of_nat size /\
  memxor_n out in1 in2 size m (out + k) <> Z.lxor (m (in1 + k)) (m (in2 + k)).
Proof.
  exists (fun a => if a =? 7 then 1 else 0), 1, 0, 100, 16%nat, 8.
  split; [cbn; lia|]. vm_compute. discriminate.
Qed.
Print Assumptions C01_memxor_overlap_refuted.

(** C02.  Loads are the positional value of the bytes. *)
Theorem C02_load_be_value : forall s, bytes s ->
  (length s = 2%nat -> load16_be s = be_val s) /\
  (length s = 4%nat -> load32_be s = be_val s) /\
  (length s = 8%nat -> load64_be s = be_val s).
Proof. intros s H; repeat split; intros; [apply load16_be_val|apply load32_be_val|apply load64_be_val]; assumption. Qed.
Print Assumptions C02_load_be_value.

Theorem C02_load_le_value : forall s, bytes s ->
  (length s = 2%nat -> load16_le s = le_val s) /\
  (length s = 4%nat -> load32_le s = le_val s) /\
  (length s = 8%nat -> load64_le s = le_val s).
Proof. intros s H; repeat split; intros; [apply load16_le_val|apply load32_le_val|apply load64_le_val]; assumption. Qed.
Print Assumptions C02_load_le_value.

(** Stores write the positional digits. *)
Theorem C02_store_digits : forall n,
  store16_be n = be_bytes 2 n /\ store32_be n = be_bytes 4 n /\ store64_be n = be_bytes 8 n /\
  store16_le n = le_bytes 2 n /\ store32_le n = le_bytes 4 n /\ store64_le n = le_bytes 8 n.
Proof.
  intros n; auto 10 using store16_be_eq, store32_be_eq, store64_be_eq, store16_le_eq, store32_le_eq, store64_le_eq.
Qed.
Print Assumptions C02_store_digits.

(** Round trips. *)
Theorem C02_roundtrip : 
  (forall n, 0 <= n < 2 ^ 16 -> load16_be (store16_be n) = n /\ load16_le (store16_le n) = n) /\
  (forall n, 0 <= n < 2 ^ 32 -> load32_be (store32_be n) = n /\ load32_le (store32_le n) = n) /\
  (forall n, 0 <= n < 2 ^ 64 -> load64_be (store64_be n) = n /\ load64_le (store64_le n) = n) /\
  (forall s, bytes s -> length s = 2%nat -> store16_be (load16_be s) = s /\ store16_le (load16_le s) = s) /\
  (forall s, bytes s -> length s = 4%nat -> store32_be (load32_be s) = s /\ store32_le (load32_le s) = s) /\
  (forall s, bytes s -> length s = 8%nat -> store64_be (load64_be s) = s /\ store64_le (load64_le s) = s).
Proof. exact endian_roundtrip. Qed.
Print Assumptions C02_roundtrip.

Example C02_example : load32_be [0x12; 0x34; 0x56; 0x78] = 0x12345678 /\
  store64_le 0x0102030405060708 = [8; 7; 6; 5; 4; 3; 2; 1] /\ bytes [0x12; 0x34; 0x56; 0x78].
Proof. repeat split; try (vm_compute; reflexivity). repeat constructor; unfold is_byte; lia. Qed.

(** Loads and stores of ModelEndian.v are positional. *)
From Verif Require Import Base BaseFacts ModelEndian.

Lemma byte_at_eq n k : 0 <= k -> byte_at n k = (n / 2 ^ k) mod 256.
Proof. intros; unfold byte_at; rewrite land_255, Z.shiftr_div_pow2 by lia; reflexivity. Qed.

Ltac destruct_list :=
  repeat match goal with
  | H : length ?l = S _ |- _ => destruct l as [|?b l]; [discriminate H|]; injection H as H
  | H : length ?l = O |- _ => destruct l; [clear H|discriminate H]
  end.

Ltac bytes_inv :=
  repeat match goal with
  | H : bytes (_ :: _) |- _ => inversion_clear H
  | H : Forall is_byte (_ :: _) |- _ => inversion_clear H
  | H : is_byte _ |- _ => unfold is_byte in H
  end.

Lemma shl_byte k b w : 0 <= k -> 0 <= b < 256 -> k + 8 <= w -> (Z.shiftl b k) mod 2 ^ w = b * 2 ^ k.
Proof.
  intros Hk Hb Hw. rewrite Z.shiftl_mul_pow2 by lia. apply Z.mod_small.
  assert (H : 2 ^ w = 2 ^ (w - k - 8) * (2 ^ 8 * 2 ^ k)).
  { rewrite <- !Z.pow_add_r by lia. f_equal; lia. }
  assert (1 <= 2 ^ (w - k - 8)) by (apply Z.pow_le_mono_r with (b := 0); lia).
  assert (0 < 2 ^ k) by (apply Z.pow_pos_nonneg; lia). change (2 ^ 8) with 256 in H. nia.
Qed.

(** Combining digits: [lor (hi * 2^k) (lo)] with [lo < 2^k]. *)
Lemma lor_digits hi j b k :
  0 <= k -> 0 <= j -> 0 <= b < 2 ^ j ->
  Z.lor (hi * 2 ^ (k + j)) (b * 2 ^ k) = (hi * 2 ^ j + b) * 2 ^ k.
Proof.
  intros Hk Hj Hb.
  rewrite <- (lor_add_disjoint hi b j) by lia.
  rewrite Z.pow_add_r by lia.
  rewrite <- !Z.shiftl_mul_pow2 by lia.
  rewrite Z.shiftl_lor. f_equal.
  rewrite !Z.shiftl_mul_pow2 by lia. ring.
Qed.

Lemma lor8 hi b k : 0 <= k -> 0 <= b < 256 ->
  Z.lor (hi * 2 ^ (k + 8)) (b * 2 ^ k) = (hi * 256 + b) * 2 ^ k.
Proof. intros; change 256 with (2 ^ 8); apply lor_digits; auto; lia. Qed.

Lemma load16_be_val s : bytes s -> length s = 2%nat -> load16_be s = be_val s.
Proof.
  intros Hb Hl. destruct_list. bytes_inv. unfold load16_be, nz, w16; cbn [nth].
  rewrite !shl_byte by lia.
  rewrite <- (Z.mul_1_r b0) at 1. change 1 with (2 ^ 0). change 8 with (0 + 8).
  rewrite !lor8 by lia. unfold be_val; cbn [fold_left]. lia.
Qed.

Lemma load32_be_val s : bytes s -> length s = 4%nat -> load32_be s = be_val s.
Proof.
  intros Hb Hl. destruct_list. bytes_inv. unfold load32_be, nz, w32; cbn [nth].
  rewrite !shl_byte by lia.
  rewrite <- (Z.mul_1_r b2) at 1. change 1 with (2 ^ 0).
  change 24 with (16 + 8). rewrite lor8 by lia.
  change 16 with (8 + 8). rewrite lor8 by lia.
  replace (2 ^ 8) with (2 ^ (0 + 8)) by reflexivity. rewrite lor8 by lia.
  unfold be_val; cbn [fold_left]. lia.
Qed.

Lemma load64_be_val s : bytes s -> length s = 8%nat -> load64_be s = be_val s.
Proof.
  intros Hb Hl. destruct_list. bytes_inv. unfold load64_be, nz, w64; cbn [nth].
  rewrite !shl_byte by lia.
  rewrite <- (Z.mul_1_r b6) at 1. change 1 with (2 ^ 0).
  change 56 with (48 + 8). rewrite lor8 by lia.
  change 48 with (40 + 8). rewrite lor8 by lia.
  change 40 with (32 + 8). rewrite lor8 by lia.
  change 32 with (24 + 8). rewrite lor8 by lia.
  change 24 with (16 + 8). rewrite lor8 by lia.
  change 16 with (8 + 8). rewrite lor8 by lia.
  replace (2 ^ 8) with (2 ^ (0 + 8)) by reflexivity. rewrite lor8 by lia.
  unfold be_val; cbn [fold_left]. lia.
Qed.

Lemma load16_le_val s : bytes s -> length s = 2%nat -> load16_le s = le_val s.
Proof.
  intros Hb Hl.
  replace (load16_le s) with (load16_be (rev s)) by (destruct_list; reflexivity).
  rewrite load16_be_val by (try apply Forall_rev; rewrite ?rev_length; assumption).
  rewrite <- le_val_rev, rev_involutive. reflexivity.
Qed.
Lemma load32_le_val s : bytes s -> length s = 4%nat -> load32_le s = le_val s.
Proof.
  intros Hb Hl.
  replace (load32_le s) with (load32_be (rev s)) by (destruct_list; reflexivity).
  rewrite load32_be_val by (try apply Forall_rev; rewrite ?rev_length; assumption).
  rewrite <- le_val_rev, rev_involutive. reflexivity.
Qed.
Lemma load64_le_val s : bytes s -> length s = 8%nat -> load64_le s = le_val s.
Proof.
  intros Hb Hl.
  replace (load64_le s) with (load64_be (rev s)) by (destruct_list; reflexivity).
  rewrite load64_be_val by (try apply Forall_rev; rewrite ?rev_length; assumption).
  rewrite <- le_val_rev, rev_involutive. reflexivity.
Qed.

Lemma store16_le_eq n : store16_le n = le_bytes 2 n.
Proof.
  unfold store16_le. rewrite !byte_at_eq, land_255 by lia. cbn [le_bytes].
  rewrite ?Z.div_div by lia. reflexivity.
Qed.
Lemma store32_le_eq n : store32_le n = le_bytes 4 n.
Proof.
  unfold store32_le. rewrite !byte_at_eq, land_255 by lia. cbn [le_bytes].
  rewrite ?Z.div_div by lia. reflexivity.
Qed.
Lemma store64_le_eq n : store64_le n = le_bytes 8 n.
Proof.
  unfold store64_le. rewrite !byte_at_eq, land_255 by lia. cbn [le_bytes].
  rewrite ?Z.div_div by lia. reflexivity.
Qed.

Lemma byte_at_0 n : byte_at n 0 = Z.land n 255.
Proof. unfold byte_at. rewrite Z.shiftr_0_r. reflexivity. Qed.

Lemma store16_be_eq n : store16_be n = be_bytes 2 n.
Proof. unfold be_bytes. rewrite <- store16_le_eq. unfold store16_be. rewrite byte_at_0. reflexivity. Qed.
Lemma store32_be_eq n : store32_be n = be_bytes 4 n.
Proof. unfold be_bytes. rewrite <- store32_le_eq. unfold store32_be. rewrite byte_at_0. reflexivity. Qed.
Lemma store64_be_eq n : store64_be n = be_bytes 8 n.
Proof. unfold be_bytes. rewrite <- store64_le_eq. unfold store64_be. rewrite byte_at_0. reflexivity. Qed.

Lemma store32_be_load32_be s :
  bytes s -> length s = 4%nat -> store32_be (load32_be s) = s.
Proof.
  intros Hb Hl. rewrite load32_be_val, store32_be_eq by assumption.
  rewrite <- Hl. apply be_bytes_be_val; assumption.
Qed.
Lemma load32_be_store32_be n : is_u32 n -> load32_be (store32_be n) = n.
Proof.
  intros Hn. rewrite store32_be_eq, load32_be_val by (auto using be_bytes_bytes, be_bytes_length).
  rewrite be_val_be_bytes. apply Z.mod_small; exact Hn.
Qed.
Lemma load64_be_store64_be n : is_u64 n -> load64_be (store64_be n) = n.
Proof.
  intros Hn. rewrite store64_be_eq, load64_be_val by (auto using be_bytes_bytes, be_bytes_length).
  rewrite be_val_be_bytes. apply Z.mod_small; exact Hn.
Qed.
Lemma store64_be_load64_be s :
  bytes s -> length s = 8%nat -> store64_be (load64_be s) = s.
Proof.
  intros Hb Hl. rewrite load64_be_val, store64_be_eq by assumption.
  rewrite <- Hl. apply be_bytes_be_val; assumption.
Qed.

Lemma endian_roundtrip :
  (forall n, 0 <= n < 2 ^ 16 -> load16_be (store16_be n) = n /\ load16_le (store16_le n) = n) /\
  (forall n, 0 <= n < 2 ^ 32 -> load32_be (store32_be n) = n /\ load32_le (store32_le n) = n) /\
  (forall n, 0 <= n < 2 ^ 64 -> load64_be (store64_be n) = n /\ load64_le (store64_le n) = n) /\
  (forall s, bytes s -> length s = 2%nat -> store16_be (load16_be s) = s /\ store16_le (load16_le s) = s) /\
  (forall s, bytes s -> length s = 4%nat -> store32_be (load32_be s) = s /\ store32_le (load32_le s) = s) /\
  (forall s, bytes s -> length s = 8%nat -> store64_be (load64_be s) = s /\ store64_le (load64_le s) = s).
Proof.
  repeat split.
  - rewrite store16_be_eq, load16_be_val by (auto using be_bytes_bytes, be_bytes_length).
    rewrite be_val_be_bytes. apply Z.mod_small; assumption.
  - rewrite store16_le_eq, load16_le_val by (auto using le_bytes_bytes, le_bytes_length).
    rewrite le_val_le_bytes. apply Z.mod_small; assumption.
  - apply load32_be_store32_be; assumption.
  - rewrite store32_le_eq, load32_le_val by (auto using le_bytes_bytes, le_bytes_length).
    rewrite le_val_le_bytes. apply Z.mod_small; assumption.
  - apply load64_be_store64_be; assumption.
  - rewrite store64_le_eq, load64_le_val by (auto using le_bytes_bytes, le_bytes_length).
    rewrite le_val_le_bytes. apply Z.mod_small; assumption.
  - rewrite store16_be_eq, load16_be_val, <- H0 by assumption. apply be_bytes_be_val; assumption.
  - rewrite store16_le_eq, load16_le_val, <- H0 by assumption. apply le_bytes_le_val; assumption.
  - apply store32_be_load32_be; assumption.
  - rewrite store32_le_eq, load32_le_val, <- H0 by assumption. apply le_bytes_le_val; assumption.
  - apply store64_be_load64_be; assumption.
  - rewrite store64_le_eq, load64_le_val, <- H0 by assumption. apply le_bytes_le_val; assumption.
Qed.

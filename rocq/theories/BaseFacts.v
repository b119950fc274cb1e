(** Lemmas about the vocabulary of Base.v. *)
From Coq Require Export Lia ZifyBool ZifyNat.
From Coq Require Import Zquot.
From Verif Require Import Base.

Ltac Zify.zify_post_hook ::= Z.div_mod_to_equations.

(** ** Lists *)
Lemma skipn_skipn' {A} (a b : nat) (l : list A) : skipn a (skipn b l) = skipn (b + a) l.
Proof.
  revert l; induction b as [|b IH]; intros l; simpl; [reflexivity|].
  destruct l as [|x l]; simpl; [destruct a; reflexivity|apply IH].
Qed.

Lemma firstn_skipn_comm' {A} (m n : nat) (l : list A) :
  firstn m (skipn n l) = skipn n (firstn (n + m) l).
Proof. apply firstn_skipn_comm. Qed.

Lemma slice_length {A} (l : list A) off n :
  (off + n <= length l)%nat -> length (slice l off n) = n.
Proof. intros H; unfold slice; rewrite firstn_length, skipn_length; lia. Qed.

Lemma slice_app_l {A} (l r : list A) off n :
  (off + n <= length l)%nat -> slice (l ++ r) off n = slice l off n.
Proof.
  intros H; unfold slice.
  rewrite skipn_app, firstn_app, skipn_length.
  replace (n - (length l - off))%nat with 0%nat by lia.
  rewrite firstn_O, app_nil_r; reflexivity.
Qed.

Lemma slice_0 {A} (l : list A) n : slice l 0 n = firstn n l.
Proof. reflexivity. Qed.

Lemma cut_app {A} n a b (l : list A) :
  cut n (a + b) l = cut n a l ++ cut n b (skipn (a * n) l).
Proof.
  revert l; induction a as [|a IH]; intros l; simpl; [reflexivity|].
  rewrite IH, skipn_skipn'; do 4 f_equal.
Qed.

Lemma cut_firstn {A} n k (l r : list A) :
  (k * n <= length l)%nat -> cut n k (l ++ r) = cut n k l.
Proof.
  revert l; induction k as [|k IH]; intros l H; simpl; [reflexivity|].
  rewrite firstn_app, skipn_app.
  replace (n - length l)%nat with 0%nat by (simpl in H; lia).
  rewrite firstn_O, app_nil_r; simpl; f_equal.
  apply IH; rewrite skipn_length; simpl in H; lia.
Qed.

Lemma cut_length {A} n k (l : list A) : length (cut n k l) = k.
Proof. revert l; induction k; intros; simpl; auto. Qed.

Lemma cut_concat {A} n k (l : list A) :
  length l = (k * n)%nat -> concat (cut n k l) = l.
Proof.
  revert l; induction k as [|k IH]; intros l H; simpl.
  - destruct l; [reflexivity|discriminate].
  - rewrite IH; [apply firstn_skipn|]. rewrite skipn_length; simpl in H; lia.
Qed.

Lemma cut_Forall_length {A} n k (l : list A) :
  (k * n <= length l)%nat -> Forall (fun b => length b = n) (cut n k l).
Proof.
  revert l; induction k as [|k IH]; intros l H; simpl; constructor.
  - rewrite firstn_length; simpl in H; lia.
  - apply IH; rewrite skipn_length; simpl in H; lia.
Qed.

Lemma cut_bytes n k l : bytes l -> Forall bytes (cut n k l).
Proof.
  revert l; induction k as [|k IH]; intros l H; simpl; constructor.
  - unfold bytes in *. apply Forall_forall; intros x Hx.
    rewrite Forall_forall in H; apply H.
    rewrite <- (firstn_skipn n l); apply in_or_app; auto.
  - apply IH. apply Forall_forall; intros x Hx.
    unfold bytes in H; rewrite Forall_forall in H; apply H.
    rewrite <- (firstn_skipn n l); apply in_or_app; auto.
Qed.

Lemma bytes_app a b : bytes (a ++ b) <-> bytes a /\ bytes b.
Proof. apply Forall_app. Qed.
Lemma bytes_firstn n l : bytes l -> bytes (firstn n l).
Proof. intros H; rewrite <- (firstn_skipn n l) in H; apply bytes_app in H; tauto. Qed.
Lemma bytes_skipn n l : bytes l -> bytes (skipn n l).
Proof. intros H; rewrite <- (firstn_skipn n l) in H; apply bytes_app in H; tauto. Qed.
Lemma bytes_slice l o n : bytes l -> bytes (slice l o n).
Proof. intros; apply bytes_firstn, bytes_skipn; assumption. Qed.
Lemma bytes_nz l i : bytes l -> is_byte (nz l i).
Proof.
  intros H; unfold nz. destruct (nth_in_or_default i l 0) as [Hi|Hi].
  - unfold bytes in H; rewrite Forall_forall in H; auto.
  - rewrite Hi; unfold is_byte; lia.
Qed.
Lemma bytes_nil : bytes [].
Proof. constructor. Qed.
Lemma bytes_repeat x n : is_byte x -> bytes (repeat x n).
Proof. intros H; induction n; simpl; constructor; auto. Qed.

(** ** XOR of byte strings *)
Lemma xorl_length a b : length (xorl a b) = Nat.min (length a) (length b).
Proof. revert b; induction a; intros [|y b]; simpl; auto. Qed.

Lemma lxor_byte x y : is_byte x -> is_byte y -> is_byte (Z.lxor x y).
Proof.
  unfold is_byte; intros Hx Hy.
  assert (0 <= Z.lxor x y) by (apply Z.lxor_nonneg; lia).
  split; [assumption|].
  destruct (Z.eq_dec (Z.lxor x y) 0) as [->|Hn]; [lia|].
  change 256 with (2 ^ 8).
  apply Z.log2_lt_pow2; [lia|].
  eapply Z.le_lt_trans; [apply Z.log2_lxor; lia|].
  apply Z.max_lub_lt.
  - destruct (Z.eq_dec x 0) as [->|]; [reflexivity|apply Z.log2_lt_pow2; lia].
  - destruct (Z.eq_dec y 0) as [->|]; [reflexivity|apply Z.log2_lt_pow2; lia].
Qed.

Lemma xorl_bytes a b : bytes a -> bytes b -> bytes (xorl a b).
Proof.
  intros Ha; revert b; induction Ha as [|x a Hx Ha IH]; intros b Hb; simpl; [constructor|].
  destruct Hb as [|y b Hy Hb]; constructor; [apply lxor_byte; assumption|apply IH; assumption].
Qed.

Lemma xorl_comm a b : xorl a b = xorl b a.
Proof. revert b; induction a; intros [|y b]; simpl; auto. rewrite Z.lxor_comm; f_equal; auto. Qed.

Lemma xorl_assoc a b c : xorl (xorl a b) c = xorl a (xorl b c).
Proof.
  revert b c; induction a as [|x a IH]; intros [|y b] [|z c]; simpl; auto.
  rewrite Z.lxor_assoc; f_equal; auto.
Qed.

Lemma xorl_cancel_r a b : (length a <= length b)%nat -> xorl (xorl a b) b = a.
Proof.
  revert b; induction a as [|x a IH]; intros [|y b]; simpl; intros H; auto; [lia|].
  rewrite Z.lxor_assoc, Z.lxor_nilpotent, Z.lxor_0_r; f_equal; apply IH; lia.
Qed.

Lemma xorl_cancel_l a b : (length a <= length b)%nat -> xorl b (xorl b a) = a.
Proof.
  intros H; rewrite (xorl_comm b a), xorl_comm; apply xorl_cancel_r; assumption.
Qed.

Lemma xorl_app a1 a2 b1 b2 :
  length a1 = length b1 -> xorl (a1 ++ a2) (b1 ++ b2) = xorl a1 b1 ++ xorl a2 b2.
Proof.
  revert b1; induction a1 as [|x a1 IH]; intros [|y b1]; simpl; intros H; try lia; auto.
  f_equal; apply IH; lia.
Qed.

Lemma xorl_firstn n a b : firstn n (xorl a b) = xorl (firstn n a) (firstn n b).
Proof.
  revert a b; induction n as [|n IH]; intros [|x a] [|y b]; simpl; auto; try (f_equal; auto).
Qed.

Lemma xorl_nil_r a : xorl a [] = [].
Proof. destruct a; reflexivity. Qed.

Lemma xorl_skipn n a b : skipn n (xorl a b) = xorl (skipn n a) (skipn n b).
Proof.
  revert a b; induction n as [|n IH]; intros [|x a] [|y b]; simpl; auto.
  rewrite xorl_nil_r; reflexivity.
Qed.

(** ** Bits *)
Lemma testbit_mod_pow2 x k i :
  0 <= k -> 0 <= i -> Z.testbit (x mod 2 ^ k) i = (i <? k) && Z.testbit x i.
Proof.
  intros Hk Hi. destruct (Z.ltb_spec i k).
  - rewrite Z.mod_pow2_bits_low by lia; reflexivity.
  - rewrite Z.mod_pow2_bits_high by lia; reflexivity.
Qed.

Lemma testbit_small x k i : 0 <= x < 2 ^ k -> k <= i -> 0 <= k -> Z.testbit x i = false.
Proof.
  intros Hx Hi Hk. rewrite <- (Z.mod_small x (2 ^ k)) by lia.
  apply Z.mod_pow2_bits_high; lia.
Qed.

Lemma bits_inj_small k a b :
  0 <= k -> 0 <= a < 2 ^ k -> 0 <= b < 2 ^ k ->
  (forall i, 0 <= i < k -> Z.testbit a i = Z.testbit b i) -> a = b.
Proof.
  intros Hk Ha Hb H. apply Z.bits_inj'; intros i Hi.
  destruct (Z.lt_ge_cases i k).
  - apply H; lia.
  - rewrite (testbit_small a k), (testbit_small b k) by lia; reflexivity.
Qed.

Lemma bits_lt_pow2 k a :
  0 <= k -> 0 <= a -> (forall i, k <= i -> Z.testbit a i = false) -> a < 2 ^ k.
Proof.
  intros Hk Ha H.
  destruct (Z.lt_ge_cases a (2 ^ k)) as [|Hge]; [assumption|exfalso].
  assert (0 < a) by (assert (0 < 2 ^ k) by (apply Z.pow_pos_nonneg; lia); lia).
  assert (Hl : k <= Z.log2 a) by (apply Z.log2_le_pow2; lia).
  specialize (H _ Hl). rewrite Z.bit_log2 in H by lia. discriminate.
Qed.

Lemma lxor_bound k a b :
  0 <= k -> 0 <= a < 2 ^ k -> 0 <= b < 2 ^ k -> 0 <= Z.lxor a b < 2 ^ k.
Proof.
  intros Hk Ha Hb. assert (0 <= Z.lxor a b) by (apply Z.lxor_nonneg; lia).
  split; [assumption|]. apply bits_lt_pow2; [assumption|assumption|].
  intros i Hi. rewrite Z.lxor_spec, (testbit_small a k), (testbit_small b k) by lia. reflexivity.
Qed.

Lemma lor_bound k a b :
  0 <= k -> 0 <= a < 2 ^ k -> 0 <= b < 2 ^ k -> 0 <= Z.lor a b < 2 ^ k.
Proof.
  intros Hk Ha Hb. assert (0 <= Z.lor a b) by (apply Z.lor_nonneg; lia).
  split; [assumption|]. apply bits_lt_pow2; [assumption|assumption|].
  intros i Hi. rewrite Z.lor_spec, (testbit_small a k), (testbit_small b k) by lia. reflexivity.
Qed.

Lemma land_bound_l k a b :
  0 <= k -> 0 <= a < 2 ^ k -> 0 <= Z.land a b < 2 ^ k.
Proof.
  intros Hk Ha. assert (0 <= Z.land a b) by (apply Z.land_nonneg; lia).
  split; [assumption|]. apply bits_lt_pow2; [assumption|assumption|].
  intros i Hi. rewrite Z.land_spec, (testbit_small a k) by lia. reflexivity.
Qed.

Lemma mod_pow2_bound x k : 0 <= k -> 0 <= x mod 2 ^ k < 2 ^ k.
Proof. intros; apply Z.mod_pos_bound, Z.pow_pos_nonneg; lia. Qed.

Lemma shiftr_bound k n a : 0 <= k -> 0 <= n -> 0 <= a < 2 ^ k -> 0 <= Z.shiftr a n < 2 ^ k.
Proof.
  intros Hk Hn Ha. rewrite Z.shiftr_div_pow2 by lia.
  assert (0 < 2 ^ n) by (apply Z.pow_pos_nonneg; lia).
  split; [apply Z.div_pos; lia|].
  apply Z.le_lt_trans with a; [|lia].
  apply Z.div_le_upper_bound; [lia|]. nia.
Qed.

(** Disjoint OR is addition. *)
Lemma lor_add_disjoint a b k :
  0 <= k -> 0 <= b < 2 ^ k -> Z.lor (a * 2 ^ k) b = a * 2 ^ k + b.
Proof.
  intros Hk Hb. symmetry. rewrite <- Z.shiftl_mul_pow2 by lia.
  rewrite Z.add_nocarry_lxor, Z.lxor_lor; try reflexivity.
  all: apply Z.bits_inj'; intros i Hi; rewrite Z.land_spec, Z.bits_0.
  all: destruct (Z.lt_ge_cases i k).
  all: try (rewrite Z.shiftl_spec_low by lia; reflexivity).
  all: rewrite (testbit_small b k) by lia; apply andb_false_r.
Qed.

(** [byte_at]-style extraction. *)
Lemma land_255 x : Z.land x 255 = x mod 256.
Proof. change 255 with (Z.ones 8). rewrite Z.land_ones by lia. reflexivity. Qed.

(** ** Big-endian values *)
Lemma be_val_app a b : be_val (a ++ b) = be_val a * 256 ^ Z.of_nat (length b) + be_val b.
Proof.
  unfold be_val. rewrite fold_left_app.
  generalize (fold_left (fun a b => 256 * a + b) a 0) as x.
  induction b as [|y b IH] using rev_ind; intros x.
  - simpl. lia.
  - rewrite !fold_left_app, app_length. simpl length. cbn [fold_left].
    rewrite IH. replace (Z.of_nat (length b + 1)) with (Z.of_nat (length b) + 1) by lia.
    rewrite Z.pow_add_r by lia. lia.
Qed.

Lemma be_val_nil : be_val [] = 0. Proof. reflexivity. Qed.
Lemma be_val_cons x l : be_val (x :: l) = x * 256 ^ Z.of_nat (length l) + be_val l.
Proof. change (x :: l) with ([x] ++ l). rewrite be_val_app. unfold be_val at 1. simpl. lia. Qed.

Lemma be_val_bound l : bytes l -> 0 <= be_val l < 256 ^ Z.of_nat (length l).
Proof.
  induction 1 as [|x l Hx Hl IH]; [simpl; unfold be_val; simpl; lia|].
  rewrite be_val_cons. simpl length. rewrite Nat2Z.inj_succ, Z.pow_succ_r by lia.
  unfold is_byte in Hx. nia.
Qed.

Lemma le_val_rev l : le_val (rev l) = be_val l.
Proof.
  assert (H : forall a b, le_val (a ++ b) = le_val a + 256 ^ Z.of_nat (length a) * le_val b).
  { induction a as [|x a IHa]; intros b.
    - cbn [app le_val length]. change (Z.of_nat 0) with 0. rewrite Z.pow_0_r. ring.
    - cbn [app le_val length]. rewrite IHa, Nat2Z.inj_succ, Z.pow_succ_r by lia. ring. }
  induction l as [|x l IH]; [reflexivity|].
  cbn [rev]. rewrite H, IH, rev_length, be_val_cons. cbn [le_val]. ring.
Qed.

Lemma le_bytes_length n v : length (le_bytes n v) = n.
Proof. revert v; induction n; intros; simpl; auto. Qed.
Lemma be_bytes_length n v : length (be_bytes n v) = n.
Proof. unfold be_bytes; rewrite rev_length; apply le_bytes_length. Qed.

Lemma le_bytes_bytes n v : bytes (le_bytes n v).
Proof.
  revert v; induction n as [|n IH]; intros v; simpl; constructor; [|apply IH].
  unfold is_byte; apply Z.mod_pos_bound; lia.
Qed.
Lemma be_bytes_bytes n v : bytes (be_bytes n v).
Proof. unfold be_bytes, bytes. apply Forall_rev, le_bytes_bytes. Qed.


Lemma mod_mul_split v b m : 0 < b -> 0 < m -> v mod (b * m) = v mod b + b * ((v / b) mod m).
Proof. intros Hb Hm. rewrite Z.rem_mul_r by lia. reflexivity. Qed.

Lemma le_val_le_bytes n v : le_val (le_bytes n v) = v mod 256 ^ Z.of_nat n.
Proof.
  revert v; induction n as [|n IH]; intros v; simpl le_bytes; simpl le_val.
  - simpl. rewrite Z.mod_1_r; reflexivity.
  - rewrite IH, Nat2Z.inj_succ, Z.pow_succ_r by lia.
    rewrite mod_mul_split; try (try apply Z.pow_pos_nonneg; lia).
Qed.

Lemma be_val_be_bytes n v : be_val (be_bytes n v) = v mod 256 ^ Z.of_nat n.
Proof. unfold be_bytes. rewrite <- le_val_rev, rev_involutive. apply le_val_le_bytes. Qed.

Lemma le_bytes_le_val l : bytes l -> le_bytes (length l) (le_val l) = l.
Proof.
  induction 1 as [|x l Hx Hl IH]; [reflexivity|]. simpl. unfold is_byte in Hx.
  f_equal.
  - rewrite Z.mul_comm, Z.mod_add by lia. apply Z.mod_small; lia.
  - rewrite Z.mul_comm, Z.div_add, Z.div_small by lia. exact IH.
Qed.

Lemma be_bytes_be_val l : bytes l -> be_bytes (length l) (be_val l) = l.
Proof.
  intros H. unfold be_bytes. rewrite <- le_val_rev, <- (rev_length l).
  rewrite le_bytes_le_val by (apply Forall_rev; exact H). apply rev_involutive.
Qed.

Lemma be_val_inj a b : bytes a -> bytes b -> length a = length b -> be_val a = be_val b -> a = b.
Proof.
  intros Ha Hb Hl Hv. rewrite <- (be_bytes_be_val a Ha), <- (be_bytes_be_val b Hb), Hl, Hv.
  reflexivity.
Qed.

Lemma be_bytes_mod n v : be_bytes n (v mod 256 ^ Z.of_nat n) = be_bytes n v.
Proof.
  apply be_val_inj; try apply be_bytes_bytes; try (rewrite !be_bytes_length; reflexivity).
  rewrite !be_val_be_bytes. apply Z.mod_mod. apply Z.pow_nonzero; lia.
Qed.

Lemma firstn_exact {A} n (a b : list A) : length a = n -> firstn n (a ++ b) = a.
Proof. intros <-. rewrite firstn_app, Nat.sub_diag, firstn_all. cbn [firstn]. apply app_nil_r. Qed.
Lemma skipn_exact {A} n (a b : list A) : length a = n -> skipn n (a ++ b) = b.
Proof. intros <-. rewrite skipn_app, Nat.sub_diag, skipn_all. reflexivity. Qed.
Lemma slice_exact {A} o n (a b c : list A) : length a = o -> length b = n -> slice (a ++ b ++ c) o n = b.
Proof. intros H1 H2. unfold slice. rewrite skipn_exact by assumption. apply firstn_exact; assumption. Qed.

(** A boolean check for concrete byte strings. *)
Definition all_bytes (l : list Z) : bool := forallb (fun x => (0 <=? x) && (x <? 256)) l.
Lemma all_bytes_spec l : all_bytes l = true -> bytes l.
Proof.
  unfold all_bytes, bytes. rewrite forallb_forall, Forall_forall. intros H x Hx.
  specialize (H x Hx). unfold is_byte. lia.
Qed.

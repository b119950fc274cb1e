(** SM4: the two implementations equal the standard; decryption inverts encryption. *)
From Verif Require Import Base BaseFacts ModelEndian ProofEndian ModelSM3 SpecSM3 ProofWord32 ProofSM3
  TablesSM4 SpecSM4 ModelSM4.

#[local] Hint Resolve w32_u32 lxor_u32 lor_u32 land_u32 rol_u32 rotl_u32 : u32.

(** ** Finite facts over all bytes *)
Lemma byte_forall (P : Z -> bool) :
  forallb P (map Z.of_nat (seq 0 256)) = true -> forall x, is_byte x -> P x = true.
Proof.
  intros H x Hx. rewrite forallb_forall in H. apply H. apply in_map_iff.
  exists (Z.to_nat x). unfold is_byte in Hx. split; [lia|]. apply in_seq. lia.
Qed.

Lemma byte_at_byte x k : is_byte (byte_at x k).
Proof. unfold is_byte, byte_at. rewrite land_255. apply Z.mod_pos_bound; lia. Qed.

Lemma byte_eq (f g : Z -> Z) :
  forallb (fun x => f x =? g x) (map Z.of_nat (seq 0 256)) = true -> forall x, is_byte x -> f x = g x.
Proof. intros H x Hx. apply Z.eqb_eq. exact (byte_forall (fun x => f x =? g x) H x Hx). Qed.

Lemma SBOX_eq x : is_byte x -> nz SM4_SBOX (Z.to_nat x) = Sbox x.
Proof. apply (byte_eq (fun x => nz SM4_SBOX (Z.to_nat x)) Sbox). vm_compute. reflexivity. Qed.
Lemma Sbox_byte x : is_byte x -> is_byte (Sbox x).
Proof.
  intros H. rewrite <- SBOX_eq by exact H. assert (E : Z.land (nz SM4_SBOX (Z.to_nat x)) 255 = nz SM4_SBOX (Z.to_nat x)).
  { apply (byte_eq (fun x => Z.land (nz SM4_SBOX (Z.to_nat x)) 255) (fun x => nz SM4_SBOX (Z.to_nat x))); [vm_compute; reflexivity|exact H]. }
  rewrite <- E, land_255. apply Z.mod_pos_bound. reflexivity.
Qed.
Lemma SBOX_l18_eq x : is_byte x -> nz SM4_SBOX_l18 (Z.to_nat x) = Sbox x.
Proof. intros H. rewrite <- SBOX_eq by exact H. revert x H. apply (byte_eq (fun x => nz SM4_SBOX_l18 (Z.to_nat x)) (fun x => nz SM4_SBOX (Z.to_nat x))). vm_compute. reflexivity. Qed.
Lemma T0_eq x : is_byte x -> nz T0 (Z.to_nat x) = L_enc (Sbox x * 2 ^ 24).
Proof. intros H. rewrite <- SBOX_eq by exact H. revert x H. apply (byte_eq (fun x => nz T0 (Z.to_nat x)) (fun x => L_enc (nz SM4_SBOX (Z.to_nat x) * 2 ^ 24))). vm_compute. reflexivity. Qed.
Lemma T1_eq x : is_byte x -> nz T1 (Z.to_nat x) = L_enc (Sbox x * 2 ^ 16).
Proof. intros H. rewrite <- SBOX_eq by exact H. revert x H. apply (byte_eq (fun x => nz T1 (Z.to_nat x)) (fun x => L_enc (nz SM4_SBOX (Z.to_nat x) * 2 ^ 16))). vm_compute. reflexivity. Qed.
Lemma T2_eq x : is_byte x -> nz T2 (Z.to_nat x) = L_enc (Sbox x * 2 ^ 8).
Proof. intros H. rewrite <- SBOX_eq by exact H. revert x H. apply (byte_eq (fun x => nz T2 (Z.to_nat x)) (fun x => L_enc (nz SM4_SBOX (Z.to_nat x) * 2 ^ 8))). vm_compute. reflexivity. Qed.
Lemma T3_eq x : is_byte x -> nz T3 (Z.to_nat x) = L_enc (Sbox x).
Proof. intros H. rewrite <- SBOX_eq by exact H. revert x H. apply (byte_eq (fun x => nz T3 (Z.to_nat x)) (fun x => L_enc (nz SM4_SBOX (Z.to_nat x)))). vm_compute. reflexivity. Qed.
Global Opaque Sbox SM4_SBOX SM4_SBOX_l18 T0 T1 T2 T3.

Definition chk_consts : bool :=
  (nz FK 0 =? 0xA3B1BAC6) && (nz FK 1 =? 0x56AA3350) && (nz FK 2 =? 0x677D9197) && (nz FK 3 =? 0xB27022DC) &&
  (nz FK_l18 0 =? 0xA3B1BAC6) && (nz FK_l18 1 =? 0x56AA3350) && (nz FK_l18 2 =? 0x677D9197) && (nz FK_l18 3 =? 0xB27022DC) &&
  forallb (fun i => (nz CK i =? CKs i) && (nz CK_l18 i =? CKs i) && (0 <=? CKs i) && (CKs i <? 2 ^ 32)) (seq 0 32).
Lemma chk_consts_ok : chk_consts = true.
Proof. vm_compute. reflexivity. Qed.
Lemma CK_ok i : (i < 32)%nat -> nz CK i = CKs i /\ nz CK_l18 i = CKs i /\ is_u32 (CKs i).
Proof.
  intros H. pose proof chk_consts_ok as C. unfold chk_consts in C. rewrite !andb_true_iff in C.
  destruct C as [_ C]. rewrite forallb_forall in C. specialize (C i ltac:(apply in_seq; lia)).
  rewrite !andb_true_iff, !Z.eqb_eq, Z.leb_le, Z.ltb_lt in C. unfold is_u32. tauto.
Qed.

(** ** tau and L *)
Lemma tau_eq x : tau x = be_val [Sbox (byte_at x 24); Sbox (byte_at x 16); Sbox (byte_at x 8); Sbox (byte_at x 0)].
Proof. unfold tau. rewrite <- store32_be_eq. reflexivity. Qed.

Lemma tau_bytes x : bytes [Sbox (byte_at x 24); Sbox (byte_at x 16); Sbox (byte_at x 8); Sbox (byte_at x 0)].
Proof. repeat constructor; apply Sbox_byte, byte_at_byte. Qed.

Lemma tau_u32 x : is_u32 (tau x).
Proof. rewrite tau_eq. apply be_val4_u32; [apply tau_bytes|reflexivity]. Qed.

Lemma sbox_word_tau t x :
  (forall b, is_byte b -> nz t (Z.to_nat b) = Sbox b) -> sbox_word t x = tau x.
Proof.
  intros Ht. rewrite tau_eq, <- load32_be_val by (try reflexivity; apply tau_bytes).
  unfold sbox_word, look. rewrite !Ht by apply byte_at_byte. unfold load32_be, nz; cbn [nth].
  rewrite Z.shiftl_0_r, (w32_small (Sbox (byte_at x 0))); [reflexivity|].
  pose proof (Sbox_byte _ (byte_at_byte x 0)) as B. unfold is_byte in B. unfold is_u32. lia.
Qed.

Lemma rotl4_rol x n : is_u32 x -> 0 < n < 32 -> rotl4 x n = rol x n.
Proof. apply rotl_rol. Qed.

Lemma L_enc_u32 b : is_u32 b -> is_u32 (L_enc b).
Proof. intros; unfold L_enc; auto 10 with u32. Qed.
Lemma L_key_u32 b : is_u32 b -> is_u32 (L_key b).
Proof. intros; unfold L_key; auto 10 with u32. Qed.
#[local] Hint Resolve L_enc_u32 L_key_u32 tau_u32 : u32.

Lemma rol_lxor a b n : is_u32 a -> is_u32 b -> 0 < n < 32 ->
  rol (Z.lxor a b) n = Z.lxor (rol a n) (rol b n).
Proof.
  intros Ha Hb Hn. rewrite <- !rotl_rol by (auto with u32). apply rotl32_lxor; assumption.
Qed.

Ltac xor_norm := apply Z.bits_inj'; intros; rewrite !Z.lxor_spec;
  repeat match goal with |- context [Z.testbit ?a ?i] =>
    let b := fresh "b" in set (b := Z.testbit a i) in *; clearbody b; destruct b end; reflexivity.

Lemma L_enc_lxor a b : is_u32 a -> is_u32 b -> L_enc (Z.lxor a b) = Z.lxor (L_enc a) (L_enc b).
Proof.
  intros Ha Hb. unfold L_enc. rewrite !rol_lxor by (auto; lia).
  generalize (rol a 2), (rol a 10), (rol a 18), (rol a 24), (rol b 2), (rol b 10), (rol b 18), (rol b 24).
  intros. apply Z.bits_inj'. intros i _. rewrite !Z.lxor_spec.
  generalize (Z.testbit a i), (Z.testbit b i), (Z.testbit z i), (Z.testbit z0 i), (Z.testbit z1 i),
    (Z.testbit z2 i), (Z.testbit z3 i), (Z.testbit z4 i), (Z.testbit z5 i), (Z.testbit z6 i).
  intros. repeat match goal with b : bool |- _ => destruct b end; reflexivity.
Qed.

(** Sum of disjoint digits as xor. *)
Lemma add_lxor hi b k : 0 <= k -> 0 <= b < 2 ^ k -> Z.lxor (hi * 2 ^ k) b = hi * 2 ^ k + b.
Proof.
  intros Hk Hb. symmetry. apply Z.add_nocarry_lxor. apply Z.bits_inj'. intros i Hi.
  rewrite Z.land_spec, Z.bits_0. destruct (Z.lt_ge_cases i k).
  - rewrite Z.mul_pow2_bits_low by lia. reflexivity.
  - rewrite (testbit_small b k) by lia. apply andb_false_r.
Qed.

Lemma be_val4_lxor a b c d : bytes [a; b; c; d] ->
  be_val [a; b; c; d] = Z.lxor (Z.lxor (Z.lxor (a * 2 ^ 24) (b * 2 ^ 16)) (c * 2 ^ 8)) d.
Proof.
  intros H. inversion_clear H as [|? ? Ha H1]. inversion_clear H1 as [|? ? Hb H2].
  inversion_clear H2 as [|? ? Hc H3]. inversion_clear H3 as [|? ? Hd _]. unfold is_byte in *.
  rewrite (Z.lxor_assoc (Z.lxor (a * 2 ^ 24) _)), (Z.lxor_assoc (a * 2 ^ 24)).
  rewrite (add_lxor c d 8) by lia.
  rewrite (add_lxor b (c * 2 ^ 8 + d) 16) by lia.
  rewrite (add_lxor a _ 24) by lia.
  unfold be_val; cbn [fold_left]. lia.
Qed.

Lemma T_lookup x :
  Z.lxor (Z.lxor (Z.lxor (look T0 x 24) (look T1 x 16)) (look T2 x 8)) (look T3 x 0) = L_enc (tau x).
Proof.
  rewrite tau_eq, be_val4_lxor by apply tau_bytes. unfold look.
  rewrite T0_eq, T1_eq, T2_eq, T3_eq by apply byte_at_byte.
  pose proof (Sbox_byte _ (byte_at_byte x 24)). pose proof (Sbox_byte _ (byte_at_byte x 16)).
  pose proof (Sbox_byte _ (byte_at_byte x 8)). pose proof (Sbox_byte _ (byte_at_byte x 0)).
  unfold is_byte in *.
  assert (U0 : is_u32 (Sbox (byte_at x 24) * 2 ^ 24)) by (unfold is_u32; lia).
  assert (U1 : is_u32 (Sbox (byte_at x 16) * 2 ^ 16)) by (unfold is_u32; lia).
  assert (U2 : is_u32 (Sbox (byte_at x 8) * 2 ^ 8)) by (unfold is_u32; lia).
  assert (U3 : is_u32 (Sbox (byte_at x 0))) by (unfold is_u32; lia).
  rewrite !L_enc_lxor by auto with u32. reflexivity.
Qed.

(** ** Rounds *)
Definition F (t : Z) : Z := L_enc (tau t).
Lemma F_u32 t : is_u32 (F t).
Proof. unfold F; auto with u32. Qed.
#[local] Hint Resolve F_u32 : u32.

Lemma round_common_F x0 x1 x2 x3 k :
  round_common x0 x1 x2 x3 k = Z.lxor x0 (F (Z.lxor (Z.lxor (Z.lxor x1 x2) x3) k)).
Proof.
  unfold round_common, F. rewrite sbox_word_tau by exact SBOX_eq.
  set (t := tau _). assert (U : is_u32 t) by apply tau_u32.
  rewrite !rotl4_rol by (auto; lia). unfold L_enc. rewrite !Z.lxor_assoc. reflexivity.
Qed.
Lemma round_l18_F x0 x1 x2 x3 k :
  round_l18 x0 x1 x2 x3 k = Z.lxor x0 (F (Z.lxor (Z.lxor (Z.lxor x1 x2) x3) k)).
Proof. unfold round_l18, F. rewrite <- T_lookup, !Z.lxor_assoc. reflexivity. Qed.

Definition uq (x : quad) : Prop :=
  let '(x0, x1, x2, x3) := x in is_u32 x0 /\ is_u32 x1 /\ is_u32 x2 /\ is_u32 x3.

Lemma gstep_F x k : gstep L_enc x k =
  (let '(x0, x1, x2, x3) := x in (x1, x2, x3, Z.lxor x0 (F (Z.lxor (Z.lxor (Z.lxor x1 x2) x3) k)))).
Proof. destruct x as [[[x0 x1] x2] x3]. reflexivity. Qed.
Lemma gstep_uq x k : uq x -> uq (gstep L_enc x k).
Proof.
  destruct x as [[[x0 x1] x2] x3]. rewrite gstep_F. intros (H0 & H1 & H2 & H3).
  repeat split; try assumption; try apply H1; try apply H2; try apply H3; apply lxor_u32; auto with u32.
Qed.
Lemma fold_uq ks x : uq x -> uq (fold_left (gstep L_enc) ks x).
Proof. revert x; induction ks; intros x H; cbn [fold_left]; auto using gstep_uq. Qed.

Section RND.
  Variable rnd : Z -> Z -> Z -> Z -> Z -> Z.
  Hypothesis rndF : forall x0 x1 x2 x3 k, rnd x0 x1 x2 x3 k = Z.lxor x0 (F (Z.lxor (Z.lxor (Z.lxor x1 x2) x3) k)).

  Lemma four_rounds_fold rk x i :
    four_rounds rnd rk x i = fold_left (gstep L_enc) (map (nz rk) [i; i + 1; i + 2; i + 3]%nat) x.
  Proof.
    destruct x as [[[x0 x1] x2] x3]. unfold four_rounds. rewrite !rndF.
    cbn [map fold_left]. rewrite !gstep_F. reflexivity.
  Qed.
  Lemma four_rounds_loop rk l : forall x,
    fold_left (four_rounds rnd rk) l x =
    fold_left (gstep L_enc) (map (nz rk) (flat_map (fun i => [i; i + 1; i + 2; i + 3]%nat) l)) x.
  Proof.
    induction l as [|i l IH]; intros x; [reflexivity|].
    cbn [fold_left flat_map]. rewrite map_app, fold_left_app, <- four_rounds_fold. apply IH.
  Qed.
  Lemma map_nz_seq (l : list Z) : map (nz l) (seq 0 (length l)) = l.
  Proof.
    induction l as [|x l IH]; [reflexivity|]. cbn [length seq map]. f_equal.
    rewrite <- seq_shift, map_map. exact IH.
  Qed.
  Lemma all_rounds rk x : fold_left (four_rounds rnd rk) loop_i x = fold_left (gstep L_enc) (map (nz rk) (seq 0 32)) x.
  Proof. rewrite four_rounds_loop. reflexivity. Qed.

  Lemma load_quad_of b : bytes b -> length b = 16%nat -> load_quad b = quad_of b.
  Proof.
    intros Hb Hl. do 17 (destruct b as [|? b]; try discriminate Hl). 
    unfold load_quad, quad_of, slice. cbn [skipn firstn].
    unfold bytes in *. rewrite !Forall_cons_iff in Hb.
    f_equal; [f_equal; [f_equal|]|]; rewrite <- load32_be_val; try reflexivity; unfold bytes; rewrite !Forall_cons_iff; tauto.
  Qed.
  Lemma store_quad x : store_quad_rev x = rev_bytes x.
  Proof. destruct x as [[[x0 x1] x2] x3]. cbn [store_quad_rev rev_bytes]. rewrite !store32_be_eq. reflexivity. Qed.

  Lemma compute_block_spec rk b : bytes b -> length b = 16%nat ->
    sm4_compute_block rnd rk b = rev_bytes (fold_left (gstep L_enc) (map (nz rk) (seq 0 32)) (quad_of b)).
  Proof. intros Hb Hl. unfold sm4_compute_block. rewrite all_rounds, load_quad_of, store_quad by assumption. reflexivity. Qed.
End RND.

Lemma load32_firstn s : load32_be s = load32_be (firstn 4 s).
Proof. do 4 (destruct s as [|? s]; [reflexivity|]). reflexivity. Qed.
Lemma load32_at mk o : bytes mk -> (o + 4 <= length mk)%nat -> load32_be (skipn o mk) = be_val (slice mk o 4).
Proof.
  intros Hb Hl. rewrite load32_firstn. apply load32_be_val; [apply bytes_slice; assumption|].
  apply (slice_length mk o 4). exact Hl.
Qed.

(** ** Key schedule *)
Section KS.
  Variable sbox fk ck : list Z.
  Hypothesis Hs : forall b, is_byte b -> nz sbox (Z.to_nat b) = Sbox b.
  Hypothesis Hc : forall i, (i < 32)%nat -> nz ck i = CKs i.
  Hypothesis Hf : (nz fk 0, nz fk 1, nz fk 2, nz fk 3) = FKs.

  Lemma key_round_step k i : (i < 32)%nat ->
    key_round sbox ck k i = (snd (gstep L_key k (CKs i)), gstep L_key k (CKs i)).
  Proof.
    intros Hi. destruct k as [[[k0 k1] k2] k3]. unfold key_round. rewrite sbox_word_tau by assumption.
    rewrite Hc by assumption. rewrite !rotl4_rol by (try apply tau_u32; lia).
    cbn [gstep snd]. unfold L_key. rewrite !Z.lxor_assoc. reflexivity.
  Qed.
  Lemma key_rounds_eq n : forall k i, (i + n <= 32)%nat ->
    key_rounds sbox ck k i n =
    map (fun j => snd (fold_left (gstep L_key) (map CKs (seq i (S j))) k)) (seq 0 n).
  Proof.
    induction n as [|n IH]; intros k i Hi; [reflexivity|]. cbn [key_rounds].
    rewrite key_round_step by lia. cbn [seq map]. f_equal. rewrite IH by lia.
    rewrite <- seq_shift, map_map. apply map_ext. intros j. reflexivity.
  Qed.
  Lemma key_init_spec mk enc : bytes mk -> length mk = 16%nat ->
    sm4_key_init sbox fk ck mk enc = (if enc then map (rk mk) (seq 0 32) else rev (map (rk mk) (seq 0 32))).
  Proof.
    intros Hb Hl. unfold sm4_key_init.
    change (load32_be mk) with (load32_be (skipn 0 mk)). rewrite !load32_at by (auto; lia).
    rewrite key_rounds_eq by lia.
    assert (E : forall f1 f2 : nat -> Z, f1 = f2 -> (if enc then map f1 (seq 0 32) else rev (map f1 (seq 0 32))) =
      (if enc then map f2 (seq 0 32) else rev (map f2 (seq 0 32)))) by (intros ? ? ->; reflexivity).
    apply E. unfold FKs in Hf. inversion Hf as [[H0 H1 H2 H3]]. rewrite H0, H1, H2, H3. reflexivity.
  Qed.
End KS.

Lemma set_key_common_spec mk enc : bytes mk -> length mk = 16%nat ->
  sm4_set_key_common mk enc = (if enc then map (rk mk) (seq 0 32) else rev (map (rk mk) (seq 0 32))).
Proof.
  apply key_init_spec; [exact SBOX_eq|intros; apply CK_ok; assumption|reflexivity].
Qed.
Lemma set_key_l18_spec mk enc : bytes mk -> length mk = 16%nat ->
  sm4_set_key_l18 mk enc = (if enc then map (rk mk) (seq 0 32) else rev (map (rk mk) (seq 0 32))).
Proof.
  apply key_init_spec; [exact SBOX_l18_eq|intros; apply CK_ok; assumption|reflexivity].
Qed.

Lemma map_nz_32 (l : list Z) : length l = 32%nat -> map (nz l) (seq 0 32) = l.
Proof. intros <-. apply map_nz_seq. Qed.

Lemma ks_len mk (enc : bool) : length (if enc then map (rk mk) (seq 0 32) else rev (map (rk mk) (seq 0 32))) = 32%nat.
Proof. destruct enc; rewrite ?rev_length, map_length, seq_length; reflexivity. Qed.

Global Opaque rk.
(** C14 for single blocks *)
Lemma block_conforms rnd (rndF : forall x0 x1 x2 x3 k, rnd x0 x1 x2 x3 k = Z.lxor x0 (F (Z.lxor (Z.lxor (Z.lxor x1 x2) x3) k)))
  mk (enc : bool) ks b : bytes b -> length b = 16%nat ->
  ks = (if enc then map (rk mk) (seq 0 32) else rev (map (rk mk) (seq 0 32))) ->
  sm4_compute_block rnd ks b = if enc then SM4_enc mk b else SM4_dec mk b.
Proof.
  intros Hb Hl ->. rewrite (compute_block_spec rnd rndF) by assumption. rewrite map_nz_32 by apply ks_len.
  destruct enc; [unfold SM4_enc|unfold SM4_dec]; reflexivity.
Qed.

Lemma sm4_common_conforms mk enc b : bytes mk -> length mk = 16%nat -> bytes b -> length b = 16%nat ->
  compute_block_common (sm4_set_key_common mk enc) b = if enc then SM4_enc mk b else SM4_dec mk b.
Proof. intros. apply block_conforms; auto using round_common_F, set_key_common_spec. Qed.
Lemma sm4_l18_conforms mk enc b : bytes mk -> length mk = 16%nat -> bytes b -> length b = 16%nat ->
  compute_block_l18 (sm4_set_key_l18 mk enc) b = if enc then SM4_enc mk b else SM4_dec mk b.
Proof. intros. apply block_conforms; auto using round_l18_F, set_key_l18_spec. Qed.

(** ** Inversion *)
Definition Rq (x : quad) : quad := let '(x0, x1, x2, x3) := x in (x3, x2, x1, x0).

Lemma step_inv x k : gstep L_enc (Rq (gstep L_enc x k)) k = Rq x.
Proof.
  destruct x as [[[x0 x1] x2] x3]. rewrite !gstep_F. cbn [Rq].
  assert (E : Z.lxor (Z.lxor x3 x2) x1 = Z.lxor (Z.lxor x1 x2) x3).
  { rewrite (Z.lxor_comm (Z.lxor x3 x2) x1), (Z.lxor_comm x3 x2), Z.lxor_assoc. reflexivity. }
  rewrite E. clear E.
  rewrite Z.lxor_assoc, Z.lxor_nilpotent, Z.lxor_0_r. reflexivity.
Qed.
Lemma rounds_inv ks : forall x, fold_left (gstep L_enc) (rev ks) (Rq (fold_left (gstep L_enc) ks x)) = Rq x.
Proof.
  induction ks as [|k ks IH]; intros x; [reflexivity|]. cbn [fold_left rev].
  rewrite fold_left_app, IH. cbn [fold_left]. apply step_inv.
Qed.

Lemma slice4 (a b c d : list Z) : length a = 4%nat -> length b = 4%nat -> length c = 4%nat -> length d = 4%nat ->
  slice (a ++ b ++ c ++ d) 0 4 = a /\ slice (a ++ b ++ c ++ d) 4 4 = b /\
  slice (a ++ b ++ c ++ d) 8 4 = c /\ slice (a ++ b ++ c ++ d) 12 4 = d.
Proof.
  intros. repeat split.
  - apply (slice_exact 0 4 []); auto.
  - apply slice_exact; auto.
  - rewrite app_assoc. apply slice_exact; rewrite ?app_length; auto; lia.
  - rewrite 2 app_assoc. rewrite <- (app_nil_r d) at 1. apply slice_exact; rewrite ?app_length; auto; lia.
Qed.

Lemma be_val_be_bytes4 x : is_u32 x -> be_val (be_bytes 4 x) = x.
Proof. intros H. rewrite be_val_be_bytes. apply Z.mod_small. exact H. Qed.

Lemma quad_of_rev_bytes x : uq x -> quad_of (rev_bytes x) = Rq x.
Proof.
  destruct x as [[[x0 x1] x2] x3]. intros (H0 & H1 & H2 & H3). unfold quad_of, rev_bytes.
  destruct (slice4 (be_bytes 4 x3) (be_bytes 4 x2) (be_bytes 4 x1) (be_bytes 4 x0)) as (-> & -> & -> & ->);
    try apply be_bytes_length.
  rewrite !be_val_be_bytes4 by assumption. reflexivity.
Qed.

Lemma quad_of_uq b : bytes b -> length b = 16%nat -> uq (quad_of b).
Proof.
  intros Hb Hl. unfold quad_of, uq.
  assert (E : forall o, (o + 4 <= 16)%nat -> is_u32 (be_val (slice b o 4))).
  { intros o Ho. apply be_val4_u32; [apply bytes_slice; assumption|]. apply slice_length. lia. }
  repeat split; apply E; lia.
Qed.

Lemma rev_bytes_Rq_quad_of b : bytes b -> length b = 16%nat -> rev_bytes (Rq (quad_of b)) = b.
Proof.
  intros Hb Hl. unfold quad_of, Rq, rev_bytes.
  assert (E : forall o, (o + 4 <= 16)%nat -> be_bytes 4 (be_val (slice b o 4)) = slice b o 4).
  { intros o Ho. rewrite <- (slice_length b o 4) at 1 by lia. apply be_bytes_be_val, bytes_slice, Hb. }
  rewrite !E by lia. do 17 (destruct b as [|? b]; try discriminate Hl). reflexivity.
Qed.

Lemma SM4_dec_enc mk b : bytes b -> length b = 16%nat -> SM4_dec mk (SM4_enc mk b) = b.
Proof.
  intros Hb Hl. unfold SM4_dec, SM4_enc.
  rewrite quad_of_rev_bytes by (apply fold_uq, quad_of_uq; assumption).
  rewrite rounds_inv. apply rev_bytes_Rq_quad_of; assumption.
Qed.
Lemma SM4_enc_dec mk b : bytes b -> length b = 16%nat -> SM4_enc mk (SM4_dec mk b) = b.
Proof.
  intros Hb Hl. unfold SM4_dec, SM4_enc.
  rewrite quad_of_rev_bytes by (apply fold_uq, quad_of_uq; assumption).
  rewrite <- (rev_involutive (map (rk mk) (seq 0 32))) at 1.
  rewrite rounds_inv. apply rev_bytes_Rq_quad_of; assumption.
Qed.

Lemma rev_bytes_ok x : length (rev_bytes x) = 16%nat /\ bytes (rev_bytes x).
Proof.
  destruct x as [[[x0 x1] x2] x3]. unfold rev_bytes. rewrite !app_length, !be_bytes_length. split; [reflexivity|].
  rewrite !bytes_app. auto using be_bytes_bytes.
Qed.

(** AES: both implementations equal FIPS 197; decryption inverts encryption. *)
From Verif Require Import Base BaseFacts ModelEndian ProofEndian ProofWord32 SpecSM4 ModelSM4 ProofSM4 TablesAES SpecAES
  ModelCipher SpecCipher ModelAES.

(** ** Facts over all bytes *)
Lemma AES_SBOX_eq x : is_byte x -> nz AES_SBOX (Z.to_nat x) = AES_Sbox x.
Proof. apply (byte_eq (fun x => nz AES_SBOX (Z.to_nat x)) AES_Sbox). vm_compute. reflexivity. Qed.
Lemma AES_INV_SBOX_eq x : is_byte x -> nz AES_INV_SBOX (Z.to_nat x) = AES_InvSbox x.
Proof. apply (byte_eq (fun x => nz AES_INV_SBOX (Z.to_nat x)) AES_InvSbox). vm_compute. reflexivity. Qed.
Global Opaque AES_Sbox AES_InvSbox.
Lemma tab_byte t x : forallb (fun x => Z.land (nz t (Z.to_nat x)) 255 =? nz t (Z.to_nat x)) (map Z.of_nat (seq 0 256)) = true ->
  is_byte x -> is_byte (nz t (Z.to_nat x)).
Proof.
  intros H Hx. assert (E : Z.land (nz t (Z.to_nat x)) 255 = nz t (Z.to_nat x)).
  { apply (byte_eq (fun x => Z.land (nz t (Z.to_nat x)) 255) (fun x => nz t (Z.to_nat x))); assumption. }
  rewrite <- E, land_255. apply Z.mod_pos_bound. reflexivity.
Qed.
Lemma Sb_byte x : is_byte x -> is_byte (AES_Sbox x).
Proof. intros H. rewrite <- AES_SBOX_eq by exact H. apply tab_byte; [vm_compute; reflexivity|exact H]. Qed.
Lemma ISb_byte x : is_byte x -> is_byte (AES_InvSbox x).
Proof. intros H. rewrite <- AES_INV_SBOX_eq by exact H. apply tab_byte; [vm_compute; reflexivity|exact H]. Qed.
Lemma ISb_Sb x : is_byte x -> AES_InvSbox (AES_Sbox x) = x.
Proof.
  intros H. rewrite <- AES_INV_SBOX_eq by (apply Sb_byte, H). rewrite <- AES_SBOX_eq by exact H. revert x H.
  apply (byte_eq (fun x => nz AES_INV_SBOX (Z.to_nat (nz AES_SBOX (Z.to_nat x)))) (fun x => x)). vm_compute. reflexivity.
Qed.

Ltac bits_solve := apply Z.bits_inj'; intros; rewrite ?Z.lxor_spec, ?Z.bits_0;
  repeat match goal with |- context [Z.testbit ?a ?i] =>
    let b := fresh "b" in generalize (Z.testbit a i); intro b end;
  repeat match goal with b : bool |- _ => destruct b end; reflexivity.

(** gmulA is linear and stays in bytes *)
Lemma mul_aux_lxor poly n : forall a x y,
  gf8_mul_aux poly n a (Z.lxor x y) = Z.lxor (gf8_mul_aux poly n a x) (gf8_mul_aux poly n a y).
Proof.
  induction n as [|n IH]; intros a x y; [reflexivity|]. cbn [gf8_mul_aux].
  assert (O : Z.odd (Z.lxor x y) = xorb (Z.odd x) (Z.odd y)).
  { rewrite <- !Z.bit0_odd, Z.lxor_spec. reflexivity. }
  assert (D : Z.div2 (Z.lxor x y) = Z.lxor (Z.div2 x) (Z.div2 y)).
  { rewrite !Z.div2_spec. apply Z.shiftr_lxor. }
  rewrite O, D, IH. set (p := gf8_mul_aux _ _ _ (Z.div2 x)). set (q := gf8_mul_aux _ _ _ (Z.div2 y)). clearbody p q.
  destruct (Z.odd x), (Z.odd y); cbn [xorb]; bits_solve.
Qed.
Lemma gmulA_lxor a x y : gmulA a (Z.lxor x y) = Z.lxor (gmulA a x) (gmulA a y).
Proof. apply mul_aux_lxor. Qed.
Lemma xtime_byte a : is_byte a -> is_byte (gf8_xtime 0x11B a).
Proof.
  intros H. assert (E : Z.land (gf8_xtime 0x11B a) 255 = gf8_xtime 0x11B a).
  { apply (byte_eq (fun a => Z.land (gf8_xtime 0x11B a) 255) (gf8_xtime 0x11B)); [vm_compute; reflexivity|exact H]. }
  rewrite <- E, land_255. apply Z.mod_pos_bound. reflexivity.
Qed.
Lemma mul_aux_byte n : forall a b, is_byte a -> is_byte (gf8_mul_aux 0x11B n a b).
Proof.
  induction n as [|n IH]; intros a b H; cbn [gf8_mul_aux]; [unfold is_byte; lia|].
  apply lxor_byte; [destruct (Z.odd b); [exact H|unfold is_byte; lia]|]. apply IH, xtime_byte, H.
Qed.
Lemma gmulA_byte a b : is_byte a -> is_byte (gmulA a b).
Proof. apply mul_aux_byte. Qed.
Lemma gmulA_1 x : is_byte x -> gmulA 1 x = x.
Proof. apply (byte_eq (gmulA 1) (fun x => x)). vm_compute. reflexivity. Qed.
(** the four entries of the product of the two circulant matrices *)
Definition inv_entry (k0 k1 k2 k3 : Z) (x : Z) : Z :=
  Z.lxor (Z.lxor (Z.lxor (gmulA k0 (gmulA 2 x)) (gmulA k1 x)) (gmulA k2 x)) (gmulA k3 (gmulA 3 x)).
Lemma entry0 x : is_byte x -> inv_entry 14 11 13 9 x = x.
Proof. apply (byte_eq (inv_entry 14 11 13 9) (fun x => x)). vm_compute. reflexivity. Qed.
Lemma entry1 x : is_byte x -> inv_entry 9 14 11 13 x = 0.
Proof. apply (byte_eq (inv_entry 9 14 11 13) (fun x => 0)). vm_compute. reflexivity. Qed.
Lemma entry2 x : is_byte x -> inv_entry 13 9 14 11 x = 0.
Proof. apply (byte_eq (inv_entry 13 9 14 11) (fun x => 0)). vm_compute. reflexivity. Qed.
Lemma entry3 x : is_byte x -> inv_entry 11 13 9 14 x = 0.
Proof. apply (byte_eq (inv_entry 11 13 9 14) (fun x => 0)). vm_compute. reflexivity. Qed.
Global Opaque gmulA.

Definition x4 (a b c d : Z) : Z := Z.lxor (Z.lxor (Z.lxor a b) c) d.
Lemma lxor_sw a b c d : Z.lxor (Z.lxor a b) (Z.lxor c d) = Z.lxor (Z.lxor a c) (Z.lxor b d).
Proof. bits_solve. Qed.
Lemma x4_add a b c d a' b' c' d' :
  Z.lxor (x4 a b c d) (x4 a' b' c' d') = x4 (Z.lxor a a') (Z.lxor b b') (Z.lxor c c') (Z.lxor d d').
Proof. unfold x4. rewrite lxor_sw. rewrite (lxor_sw (Z.lxor a b) c). rewrite (lxor_sw a b). reflexivity. Qed.
Lemma x4_swap a1 b1 c1 d1 a2 b2 c2 d2 a3 b3 c3 d3 a4 b4 c4 d4 :
  x4 (x4 a1 b1 c1 d1) (x4 a2 b2 c2 d2) (x4 a3 b3 c3 d3) (x4 a4 b4 c4 d4) =
  x4 (x4 a1 a2 a3 a4) (x4 b1 b2 b3 b4) (x4 c1 c2 c3 c4) (x4 d1 d2 d3 d4).
Proof. unfold x4 at 1. rewrite !x4_add. reflexivity. Qed.
Lemma x4_rot a b c d : x4 a b c d = x4 b c d a.
Proof. unfold x4. bits_solve. Qed.
Lemma x4_gmul k a b c d : gmulA k (x4 a b c d) = x4 (gmulA k a) (gmulA k b) (gmulA k c) (gmulA k d).
Proof. unfold x4. rewrite !gmulA_lxor. reflexivity. Qed.
Lemma circ_x4 m0 m1 m2 m3 a b c d : circ m0 m1 m2 m3 [a; b; c; d] =
  [x4 (gmulA m0 a) (gmulA m1 b) (gmulA m2 c) (gmulA m3 d); x4 (gmulA m3 a) (gmulA m0 b) (gmulA m1 c) (gmulA m2 d);
   x4 (gmulA m2 a) (gmulA m3 b) (gmulA m0 c) (gmulA m1 d); x4 (gmulA m1 a) (gmulA m2 b) (gmulA m3 c) (gmulA m0 d)].
Proof. reflexivity. Qed.

Lemma circ_inv a b c d : bytes [a; b; c; d] -> circ 14 11 13 9 (circ 2 3 1 1 [a; b; c; d]) = [a; b; c; d].
Proof.
  intros H. unfold bytes in H. rewrite !Forall_cons_iff in H. destruct H as (Ha & Hb & Hc & Hd & _).
  rewrite !circ_x4, !x4_gmul, !(gmulA_1 a), !(gmulA_1 b), !(gmulA_1 c), !(gmulA_1 d) by assumption.
  assert (E0 : forall x, is_byte x -> x4 (gmulA 14 (gmulA 2 x)) (gmulA 11 x) (gmulA 13 x) (gmulA 9 (gmulA 3 x)) = x) by exact entry0.
  assert (E1 : forall x, is_byte x -> x4 (gmulA 9 (gmulA 2 x)) (gmulA 14 x) (gmulA 11 x) (gmulA 13 (gmulA 3 x)) = 0) by exact entry1.
  assert (E2 : forall x, is_byte x -> x4 (gmulA 13 (gmulA 2 x)) (gmulA 9 x) (gmulA 14 x) (gmulA 11 (gmulA 3 x)) = 0) by exact entry2.
  assert (E3 : forall x, is_byte x -> x4 (gmulA 11 (gmulA 2 x)) (gmulA 13 x) (gmulA 9 x) (gmulA 14 (gmulA 3 x)) = 0) by exact entry3.
  assert (X : forall p q r s p' q' r' s' : Z, p = p' -> q = q' -> r = r' -> s = s' -> [p; q; r; s] = [p'; q'; r'; s']) by (intros; subst; reflexivity).
  assert (Y : forall p q r s p' q' r' s' : Z, p = p' -> q = q' -> r = r' -> s = s' -> x4 p q r s = x4 p' q' r' s') by (intros; subst; reflexivity).
  assert (Z0 : forall x, x4 x 0 0 0 = x /\ x4 0 x 0 0 = x /\ x4 0 0 x 0 = x /\ x4 0 0 0 x = x)
    by (intros x; unfold x4; rewrite !Z.lxor_0_r, !Z.lxor_0_l; auto).
  assert (rot : forall p q r s t, x4 p q r s = t -> x4 s p q r = t) by (intros p q r s t <-; apply x4_rot).
  apply X; rewrite x4_swap.
  - transitivity (x4 a 0 0 0); [apply Y|apply Z0]; auto 6.
  - transitivity (x4 0 b 0 0); [apply Y|apply Z0]; auto 6.
  - transitivity (x4 0 0 c 0); [apply Y|apply Z0]; auto 6.
  - transitivity (x4 0 0 0 d); [apply Y|apply Z0]; auto 6.
Qed.
Global Opaque circ.
Lemma circ_len m0 m1 m2 m3 col : length (circ m0 m1 m2 m3 col) = 4%nat. Proof. reflexivity. Qed.
Lemma circ_bytes m0 m1 m2 m3 col : is_byte m0 -> is_byte m1 -> is_byte m2 -> is_byte m3 -> bytes (circ m0 m1 m2 m3 col).
Proof. intros. Transparent circ. unfold circ. repeat constructor; repeat apply lxor_byte; apply gmulA_byte; assumption. Qed.
Lemma circ_lxor m0 m1 m2 m3 a b c d a' b' c' d' :
  circ m0 m1 m2 m3 [Z.lxor a a'; Z.lxor b b'; Z.lxor c c'; Z.lxor d d'] =
  xorl (circ m0 m1 m2 m3 [a; b; c; d]) (circ m0 m1 m2 m3 [a'; b'; c'; d']).
Proof.
  rewrite !circ_x4, !gmulA_lxor. cbn [xorl]. rewrite !x4_add. reflexivity.
Qed.
Global Opaque circ.

Definition blk (s : list Z) : Prop := bytes s /\ length s = 16%nat.
Ltac split4 s L := do 5 (destruct s as [|? s]; try discriminate L).
Ltac split16 s L := do 17 (destruct s as [|? s]; try discriminate L).

Lemma SubBytes_blk s : blk s -> blk (SubBytes s).
Proof.
  intros [B L]. split; [|unfold SubBytes; rewrite map_length; exact L]. unfold SubBytes, bytes. rewrite Forall_map.
  revert B. apply Forall_impl. exact Sb_byte.
Qed.
Lemma InvSubBytes_blk s : blk s -> blk (InvSubBytes s).
Proof.
  intros [B L]. split; [|unfold InvSubBytes; rewrite map_length; exact L]. unfold InvSubBytes, bytes. rewrite Forall_map.
  revert B. apply Forall_impl. exact ISb_byte.
Qed.
Lemma ShiftRows_blk s : blk s -> blk (ShiftRows s).
Proof. intros [B L]. split; [|reflexivity]. unfold ShiftRows, bytes. rewrite Forall_map. apply Forall_forall. intros. apply bytes_nz, B. Qed.
Lemma InvShiftRows_blk s : blk s -> blk (InvShiftRows s).
Proof. intros [B L]. split; [|reflexivity]. unfold InvShiftRows, bytes. rewrite Forall_map. apply Forall_forall. intros. apply bytes_nz, B. Qed.
Lemma concat4_blk (a b c d : list Z) : bytes a -> bytes b -> bytes c -> bytes d ->
  length a = 4%nat -> length b = 4%nat -> length c = 4%nat -> length d = 4%nat -> blk (concat [a; b; c; d]).
Proof. intros. cbn [concat]. split; [rewrite !bytes_app; auto using bytes_nil|rewrite !app_length; cbn [length]; lia]. Qed.
Lemma Mix_blk s : blk (MixColumns s).
Proof. apply concat4_blk; try reflexivity; apply circ_bytes; unfold is_byte; lia. Qed.
Lemma InvMix_blk s : blk (InvMixColumns s).
Proof. apply concat4_blk; try reflexivity; apply circ_bytes; unfold is_byte; lia. Qed.
Lemma xorl_blk a b : blk a -> blk b -> blk (xorl a b).
Proof. intros [] []. split; [apply xorl_bytes; assumption|rewrite xorl_length; lia]. Qed.

Lemma Mix16 (f : list Z -> list Z) a b c d e g h i j k l m n o p q : (forall col, length (f col) = 4%nat) ->
  concat (map f (cut 4 4 [a;b;c;d;e;g;h;i;j;k;l;m;n;o;p;q])) =
  f [a;b;c;d] ++ f [e;g;h;i] ++ f [j;k;l;m] ++ f [n;o;p;q].
Proof. intros _. cbn [cut firstn skipn map concat]. rewrite app_nil_r. reflexivity. Qed.
Lemma cut4_app (a b c d : list Z) : length a = 4%nat -> length b = 4%nat -> length c = 4%nat -> length d = 4%nat ->
  cut 4 4 (a ++ b ++ c ++ d) = [a; b; c; d].
Proof.
  intros La Lb Lc Ld. split4 a La. split4 b Lb. split4 c Lc. split4 d Ld. reflexivity.
Qed.
Lemma InvMix_Mix s : blk s -> InvMixColumns (MixColumns s) = s.
Proof.
  intros [B L]. split16 s L. unfold MixColumns, InvMixColumns. rewrite Mix16 by (intros; apply circ_len).
  rewrite cut4_app by apply circ_len. cbn [map concat].
  unfold bytes in B. rewrite !Forall_cons_iff in B.
  rewrite !circ_inv by (unfold bytes; rewrite !Forall_cons_iff; tauto). reflexivity.
Qed.
Lemma InvMix_xorl a b : length a = 16%nat -> length b = 16%nat -> InvMixColumns (xorl a b) = xorl (InvMixColumns a) (InvMixColumns b).
Proof.
  intros L L'. split16 a L. split16 b L'. cbn [xorl]. unfold InvMixColumns. rewrite !Mix16 by (intros; apply circ_len).
  rewrite !circ_lxor. rewrite <- !xorl_app by (rewrite ?app_length, ?circ_len; reflexivity). reflexivity.
Qed.
Lemma InvShift_Shift s : length s = 16%nat -> InvShiftRows (ShiftRows s) = s.
Proof. intros L. split16 s L. reflexivity. Qed.
Lemma InvSub_Sub s : bytes s -> InvSubBytes (SubBytes s) = s.
Proof.
  unfold InvSubBytes, SubBytes. rewrite map_map. induction 1 as [|x s Hx _ IH]; [reflexivity|]. cbn [map]. rewrite ISb_Sb by exact Hx. f_equal. exact IH.
Qed.
Lemma Sub_Shift s : length s = 16%nat -> SubBytes (ShiftRows s) = ShiftRows (SubBytes s).
Proof. intros L. split16 s L. reflexivity. Qed.
Lemma InvSub_InvShift s : length s = 16%nat -> InvSubBytes (InvShiftRows s) = InvShiftRows (InvSubBytes s).
Proof. intros L. split16 s L. reflexivity. Qed.

(** ** InvCipher inverts Cipher *)
Section INV.
  Variable Nr : nat.
  Variable w : list (list Z).
  Hypothesis Hw : forall r, (r <= Nr)%nat -> blk (round_key w r).
  Let f (s : list Z) (r : nat) := xorl (MixColumns (ShiftRows (SubBytes s))) (round_key w r).
  Let g (s : list Z) (r : nat) := InvMixColumns (xorl (InvSubBytes (InvShiftRows s)) (round_key w r)).
  Let h (s : list Z) := ShiftRows (SubBytes s).
  Lemma h_inv s : blk s -> InvSubBytes (InvShiftRows (h s)) = s.
  Proof. intros H. unfold h. rewrite InvShift_Shift by apply SubBytes_blk, H. apply InvSub_Sub, H. Qed.
  Lemma f_blk s r : (r <= Nr)%nat -> blk (f s r). Proof. intros; apply xorl_blk; [apply Mix_blk|apply Hw; assumption]. Qed.
  Lemma g_h_f s r : (r <= Nr)%nat -> blk s -> g (h (f s r)) r = h s.
  Proof.
    intros Hr H. unfold g. rewrite h_inv by (apply f_blk, Hr). unfold f.
    rewrite xorl_cancel_r by (rewrite (proj2 (Mix_blk _)), (proj2 (Hw r Hr)); lia).
    apply InvMix_Mix. apply ShiftRows_blk, SubBytes_blk, H.
  Qed.
  Definition small (rs : list nat) : Prop := Forall (fun r => (r <= Nr)%nat) rs.
  Lemma small_seq : small (seq 1 (Nr - 1)).
  Proof. apply Forall_forall. intros r Hr. apply in_seq in Hr. lia. Qed.
  Lemma fold_f_blk rs : small rs -> forall s, blk s -> blk (fold_left f rs s).
  Proof. induction 1; intros s H1; cbn [fold_left]; auto using f_blk. Qed.
  Lemma fold_inv rs : small rs -> forall s, blk s -> fold_left g (rev rs) (h (fold_left f rs s)) = h s.
  Proof.
    induction 1 as [|r rs Hr _ IH]; intros s H; [reflexivity|]. cbn [fold_left rev].
    rewrite fold_left_app, IH by apply f_blk, Hr. cbn [fold_left]. apply g_h_f; assumption.
  Qed.
  Lemma InvCipher_Cipher b : blk b -> InvCipher Nr w (Cipher Nr w b) = b.
  Proof.
    intros H. unfold Cipher, InvCipher. fold f g.
    assert (K0 : blk (round_key w 0)) by (apply Hw; lia). assert (KN : blk (round_key w Nr)) by (apply Hw; lia).
    assert (B0 : blk (xorl b (round_key w 0))) by (apply xorl_blk; auto).
    set (e := fold_left f _ _).
    assert (Be : blk e) by (apply fold_f_blk; [apply small_seq|assumption]).
    change (ShiftRows (SubBytes e)) with (h e).
    rewrite xorl_cancel_r by (rewrite (proj2 KN); unfold h; rewrite (proj2 (ShiftRows_blk _ (SubBytes_blk _ Be))); lia).
    unfold e. rewrite fold_inv by (try apply small_seq; assumption). rewrite h_inv by assumption.
    apply xorl_cancel_r. rewrite (proj2 K0), (proj2 H). lia.
  Qed.
  Lemma Cipher_blk b : blk b -> blk (Cipher Nr w b).
  Proof.
    intros H. unfold Cipher. apply xorl_blk; [|apply Hw; lia]. apply ShiftRows_blk, SubBytes_blk, fold_f_blk; [apply small_seq|].
    apply xorl_blk; [assumption|apply Hw; lia].
  Qed.
  Lemma InvCipher_blk b : blk b -> blk (InvCipher Nr w b).
  Proof.
    intros H. unfold InvCipher. apply xorl_blk; [|apply Hw; lia]. apply InvSubBytes_blk, InvShiftRows_blk.
    assert (G : forall rs s, blk s -> blk (fold_left g rs s)).
    { induction rs; intros s Hs; cbn [fold_left]; auto. apply IHrs, InvMix_blk. }
    apply G. apply xorl_blk; [assumption|apply Hw; lia].
  Qed.
  (** FIPS 197 5.3.5, the equivalent inverse cipher *)
  Lemma InvCipher_eq b : blk b -> InvCipher Nr w b =
    (let s := xorl b (round_key w Nr) in
     let s := fold_left (fun s i => xorl (InvMixColumns (InvSubBytes (InvShiftRows s))) (InvMixColumns (round_key w (Nr - i)))) (seq 1 (Nr - 1)) s in
     xorl (InvSubBytes (InvShiftRows s)) (round_key w 0)).
  Proof.
    intros H. unfold InvCipher. fold g. cbv zeta.
    assert (R : rev (seq 1 (Nr - 1)) = map (fun i => (Nr - i)%nat) (seq 1 (Nr - 1))).
    { destruct Nr as [|n]; [reflexivity|]. replace (S n - 1)%nat with n by lia.
      apply (nth_ext _ _ 0%nat 0%nat); rewrite rev_length, ?map_length, seq_length; [reflexivity|].
      intros k Hk. rewrite rev_nth, seq_length by (rewrite seq_length; exact Hk). rewrite seq_nth by lia.
      rewrite (nth_indep _ 0%nat ((fun i => (S n - i)%nat) 0%nat)) by (rewrite map_length, seq_length; exact Hk).
      rewrite map_nth, seq_nth by exact Hk. lia. }
    rewrite R.
    assert (E : forall l s, blk s -> fold_left g (map (fun i => (Nr - i)%nat) l) s =
      fold_left (fun s i => xorl (InvMixColumns (InvSubBytes (InvShiftRows s))) (InvMixColumns (round_key w (Nr - i)))) l s).
    { induction l as [|i l IH]; intros s Hs; [reflexivity|]. cbn [map fold_left].
      unfold g at 2. rewrite InvMix_xorl by (try (apply Hw; lia); apply InvSubBytes_blk, InvShiftRows_blk, Hs).
      apply IH. apply xorl_blk; apply InvMix_blk. }
    rewrite E by (apply xorl_blk; [assumption|apply Hw; lia]). reflexivity.
  Qed.
End INV.

(** ** Words as integers *)
Lemma bv_bytes a b c d : bytes [a; b; c; d] ->
  byte_at (be_val [a; b; c; d]) 24 = a /\ byte_at (be_val [a; b; c; d]) 16 = b /\
  byte_at (be_val [a; b; c; d]) 8 = c /\ byte_at (be_val [a; b; c; d]) 0 = d.
Proof.
  intros H. pose proof (be_bytes_be_val _ H) as E. cbn [length] in E. rewrite <- store32_be_eq in E.
  unfold store32_be in E. injection E as E0 E1 E2 E3. auto.
Qed.
Lemma mul_lxor a b k : 0 <= k -> Z.lxor a b * 2 ^ k = Z.lxor (a * 2 ^ k) (b * 2 ^ k).
Proof. intros. rewrite <- !Z.shiftl_mul_pow2 by assumption. apply Z.shiftl_lxor. Qed.
Lemma bv_lxor a b c d a' b' c' d' : bytes [a; b; c; d] -> bytes [a'; b'; c'; d'] ->
  Z.lxor (be_val [a; b; c; d]) (be_val [a'; b'; c'; d']) = be_val [Z.lxor a a'; Z.lxor b b'; Z.lxor c c'; Z.lxor d d'].
Proof.
  intros H H'. pose proof (xorl_bytes _ _ H H') as X. cbn [xorl] in X.
  rewrite !be_val4_lxor by assumption. rewrite !mul_lxor by lia. apply x4_add.
Qed.
Lemma bv_lor a b c d : bytes [a; b; c; d] ->
  Z.lor (Z.lor (Z.lor (w32 (Z.shiftl a 24)) (w32 (Z.shiftl b 16))) (w32 (Z.shiftl c 8))) d = be_val [a; b; c; d].
Proof. intros H. symmetry. rewrite <- load32_be_val by (auto). reflexivity. Qed.
Lemma shl0 a : is_byte a -> w32 (Z.shiftl a 0) = a.
Proof. unfold is_byte, w32. intros. rewrite Z.shiftl_0_r. apply Z.mod_small. lia. Qed.
Lemma cons_bytes x l : bytes (x :: l) <-> is_byte x /\ bytes l.
Proof. unfold bytes. apply Forall_cons_iff. Qed.
Ltac bys := unfold bytes in *; repeat match goal with H : Forall _ (_ :: _) |- _ => apply Forall_cons_iff in H; destruct H end;
  repeat (apply Forall_cons); auto using Forall_nil, Sb_byte, ISb_byte.

(** the table rows *)
Definition te_ok (T S : list Z) (m0 m1 m2 m3 : Z) : bool :=
  forallb (fun x => nz T (Z.to_nat x) =? be_val (map (fun m => gmulA m (nz S (Z.to_nat x))) [m0; m1; m2; m3])) (map Z.of_nat (seq 0 256)).
Lemma TE_ok : te_ok TE0 AES_SBOX 2 1 1 3 && te_ok TE1 AES_SBOX 3 2 1 1 && te_ok TE2 AES_SBOX 1 3 2 1 && te_ok TE3 AES_SBOX 1 1 3 2 = true.
Proof. vm_compute. reflexivity. Qed.
Lemma TD_ok : te_ok TD0 AES_INV_SBOX 14 9 13 11 && te_ok TD1 AES_INV_SBOX 11 14 9 13 &&
  te_ok TD2 AES_INV_SBOX 13 11 14 9 && te_ok TD3 AES_INV_SBOX 9 13 11 14 = true.
Proof. vm_compute. reflexivity. Qed.
Lemma te_use T S m0 m1 m2 m3 x : te_ok T S m0 m1 m2 m3 = true -> is_byte x ->
  nz T (Z.to_nat x) = be_val [gmulA m0 (nz S (Z.to_nat x)); gmulA m1 (nz S (Z.to_nat x)); gmulA m2 (nz S (Z.to_nat x)); gmulA m3 (nz S (Z.to_nat x))].
Proof.
  intros H Hx. apply (byte_eq (fun x => nz T (Z.to_nat x))
   (fun x => be_val [gmulA m0 (nz S (Z.to_nat x)); gmulA m1 (nz S (Z.to_nat x)); gmulA m2 (nz S (Z.to_nat x)); gmulA m3 (nz S (Z.to_nat x))])); [exact H|exact Hx].
Qed.
Global Opaque AES_SBOX AES_INV_SBOX TE0 TE1 TE2 TE3 TD0 TD1 TD2 TD3.

Lemma circ_col (T0 T1 T2 T3 S : list Z) (f : Z -> Z) m0 m1 m2 m3 :
  is_byte m0 -> is_byte m1 -> is_byte m2 -> is_byte m3 ->
  te_ok T0 S m0 m3 m2 m1 = true -> te_ok T1 S m1 m0 m3 m2 = true ->
  te_ok T2 S m2 m1 m0 m3 = true -> te_ok T3 S m3 m2 m1 m0 = true ->
  (forall x, is_byte x -> nz S (Z.to_nat x) = f x) ->
  forall a b c d, is_byte a -> is_byte b -> is_byte c -> is_byte d ->
  Z.lxor (Z.lxor (Z.lxor (nz T0 (Z.to_nat a)) (nz T1 (Z.to_nat b))) (nz T2 (Z.to_nat c))) (nz T3 (Z.to_nat d)) =
  be_val (circ m0 m1 m2 m3 [f a; f b; f c; f d]).
Proof.
  intros M0 M1 M2 M3 H0 H1 H2 H3 Hf a b c d Ha Hb Hc Hd.
  rewrite (te_use _ _ _ _ _ _ a H0 Ha), (te_use _ _ _ _ _ _ b H1 Hb), (te_use _ _ _ _ _ _ c H2 Hc), (te_use _ _ _ _ _ _ d H3 Hd).
  rewrite !Hf by assumption. rewrite circ_x4. unfold x4.
  repeat (rewrite bv_lxor by (repeat constructor; repeat apply lxor_byte; apply gmulA_byte; assumption)). reflexivity.
Qed.
Lemma TE_col a b c d : is_byte a -> is_byte b -> is_byte c -> is_byte d ->
  Z.lxor (Z.lxor (Z.lxor (nz TE0 (Z.to_nat a)) (nz TE1 (Z.to_nat b))) (nz TE2 (Z.to_nat c))) (nz TE3 (Z.to_nat d)) =
  be_val (circ 2 3 1 1 [AES_Sbox a; AES_Sbox b; AES_Sbox c; AES_Sbox d]).
Proof.
  pose proof TE_ok as T. rewrite !andb_true_iff in T. destruct T as [[[T0 T1] T2] T3].
  apply (circ_col _ _ _ _ AES_SBOX); try assumption; try (unfold is_byte; lia). exact AES_SBOX_eq.
Qed.
Lemma TD_col a b c d : is_byte a -> is_byte b -> is_byte c -> is_byte d ->
  Z.lxor (Z.lxor (Z.lxor (nz TD0 (Z.to_nat a)) (nz TD1 (Z.to_nat b))) (nz TD2 (Z.to_nat c))) (nz TD3 (Z.to_nat d)) =
  be_val (circ 14 11 13 9 [AES_InvSbox a; AES_InvSbox b; AES_InvSbox c; AES_InvSbox d]).
Proof.
  pose proof TD_ok as T. rewrite !andb_true_iff in T. destruct T as [[[T0 T1] T2] T3].
  apply (circ_col _ _ _ _ AES_INV_SBOX); try assumption; try (unfold is_byte; lia). exact AES_INV_SBOX_eq.
Qed.

(** ** Rounds of the table implementation *)
Definition qbytes (q : word4) : list Z := let '(a, b, c, d) := q in be_bytes 4 a ++ be_bytes 4 b ++ be_bytes 4 c ++ be_bytes 4 d.
Lemma quad16 a b c d e f g h i j k l m n o p :
  quad_of [a;b;c;d;e;f;g;h;i;j;k;l;m;n;o;p] = (be_val [a;b;c;d], be_val [e;f;g;h], be_val [i;j;k;l], be_val [m;n;o;p]).
Proof. reflexivity. Qed.
Lemma qbytes_quad s : blk s -> qbytes (quad_of s) = s.
Proof.
  intros [B L]. split16 s L. rewrite quad16. unfold qbytes.
  assert (E : forall k1 k2 k3 k4, bytes [k1;k2;k3;k4] -> be_bytes 4 (be_val [k1;k2;k3;k4]) = [k1;k2;k3;k4]).
  { intros k1 k2 k3 k4 Hu. apply (be_bytes_be_val [k1;k2;k3;k4] Hu). }
  rewrite !E by bys. reflexivity.
Qed.
Lemma xor4_quad s k : blk s -> blk k -> xor4 (quad_of s) (quad_of k) = quad_of (xorl s k).
Proof.
  intros [B L] [B' L']. split16 s L. split16 k L'. cbn [xorl]. rewrite !quad16. cbn [xor4].
  rewrite !bv_lxor by bys. reflexivity.
Qed.
Section LOOK.
Variables (t : list Z) (a b c d : Z) (H : bytes [a; b; c; d]).
Lemma look24 : look t (be_val [a; b; c; d]) 24 = nz t (Z.to_nat a).
Proof. unfold look. destruct (bv_bytes a b c d H) as (-> & _). reflexivity. Qed.
Lemma look16 : look t (be_val [a; b; c; d]) 16 = nz t (Z.to_nat b).
Proof. unfold look. destruct (bv_bytes a b c d H) as (_ & -> & _). reflexivity. Qed.
Lemma look8 : look t (be_val [a; b; c; d]) 8 = nz t (Z.to_nat c).
Proof. unfold look. destruct (bv_bytes a b c d H) as (_ & _ & -> & _). reflexivity. Qed.
Lemma look0 : look t (be_val [a; b; c; d]) 0 = nz t (Z.to_nat d).
Proof. unfold look. destruct (bv_bytes a b c d H) as (_ & _ & _ & ->). reflexivity. Qed.
End LOOK.
Lemma quad_Mix (f : list Z -> list Z) a b c d e g h i j k l m n o p q : (forall col, length (f col) = 4%nat) ->
  quad_of (concat (map f (cut 4 4 [a;b;c;d;e;g;h;i;j;k;l;m;n;o;p;q]))) =
  (be_val (f [a;b;c;d]), be_val (f [e;g;h;i]), be_val (f [j;k;l;m]), be_val (f [n;o;p;q])).
Proof.
  intros H. rewrite Mix16 by exact H. unfold quad_of.
  destruct (slice4 (f [a;b;c;d]) (f [e;g;h;i]) (f [j;k;l;m]) (f [n;o;p;q])) as (-> & -> & -> & ->); auto.
Qed.
Lemma enc_round_spec s k : blk s -> blk k ->
  aes_enc_round (quad_of s) (quad_of k) = quad_of (xorl (MixColumns (ShiftRows (SubBytes s))) k).
Proof.
  intros Hs Hk. rewrite <- xor4_quad by (auto using Mix_blk, ShiftRows_blk, SubBytes_blk). destruct Hs as [B L]. clear Hk. split16 s L.
  rewrite quad16. cbn [aes_enc_round]. apply (f_equal (fun q => xor4 q _)).
  unfold MixColumns. unfold ShiftRows, SubBytes. cbn [seq map Nat.modulo Nat.div Nat.add Nat.mul Nat.divmod fst snd Nat.sub].
  unfold nz; cbn [nth]. rewrite quad_Mix by (intros; apply circ_len).
  unfold tx.
  rewrite !look24, !look16, !look8, !look0 by bys.
  rewrite !TE_col by bys. reflexivity.
Qed.
Lemma dec_round_spec s k : blk s -> blk k ->
  aes_dec_round (quad_of s) (quad_of k) = quad_of (xorl (InvMixColumns (InvSubBytes (InvShiftRows s))) k).
Proof.
  intros Hs Hk. rewrite <- xor4_quad by (auto using InvMix_blk, InvShiftRows_blk, InvSubBytes_blk). destruct Hs as [B L]. clear Hk. split16 s L.
  rewrite quad16. cbn [aes_dec_round]. apply (f_equal (fun q => xor4 q _)).
  unfold InvMixColumns. unfold InvShiftRows, InvSubBytes. cbn [seq map Nat.modulo Nat.div Nat.add Nat.mul Nat.divmod fst snd Nat.sub].
  unfold nz; cbn [nth]. rewrite quad_Mix by (intros; apply circ_len).
  unfold tx.
  rewrite !look24, !look16, !look8, !look0 by bys.
  rewrite !TD_col by bys. reflexivity.
Qed.
Lemma sx_spec (S : list Z) (f : Z -> Z) (Hf : forall x, is_byte x -> nz S (Z.to_nat x) = f x) (Hb : forall x, is_byte x -> is_byte (f x)) :
  forall a b c d, is_byte a -> is_byte b -> is_byte c -> is_byte d ->
  Z.lor (Z.lor (Z.lor (w32 (Z.shiftl (nz S (Z.to_nat a)) 24)) (w32 (Z.shiftl (nz S (Z.to_nat b)) 16)))
     (w32 (Z.shiftl (nz S (Z.to_nat c)) 8))) (w32 (Z.shiftl (nz S (Z.to_nat d)) 0)) = be_val [f a; f b; f c; f d].
Proof.
  intros a b c d Ha Hb' Hc Hd. rewrite !Hf by assumption. rewrite (shl0 (f d)) by auto. apply bv_lor. bys.
Qed.
Lemma enc_last_spec s k : blk s -> blk k ->
  aes_enc_last (quad_of s) (quad_of k) = quad_of (xorl (ShiftRows (SubBytes s)) k).
Proof.
  intros Hs Hk. rewrite <- xor4_quad by (auto using ShiftRows_blk, SubBytes_blk). destruct Hs as [B L]. clear Hk. split16 s L.
  rewrite quad16. cbn [aes_enc_last]. apply (f_equal (fun q => xor4 q _)).
  unfold ShiftRows, SubBytes. cbn [seq map Nat.modulo Nat.div Nat.add Nat.mul Nat.divmod fst snd Nat.sub].
  unfold nz; cbn [nth]. rewrite quad16. unfold sx, sb_at.
  rewrite !look24, !look16, !look8, !look0 by bys.
  rewrite !(sx_spec AES_SBOX AES_Sbox AES_SBOX_eq Sb_byte) by bys. reflexivity.
Qed.
Lemma dec_last_spec s k : blk s -> blk k ->
  aes_dec_last (quad_of s) (quad_of k) = quad_of (xorl (InvSubBytes (InvShiftRows s)) k).
Proof.
  intros Hs Hk. rewrite <- xor4_quad by (auto using InvShiftRows_blk, InvSubBytes_blk). destruct Hs as [B L]. clear Hk. split16 s L.
  rewrite quad16. cbn [aes_dec_last]. apply (f_equal (fun q => xor4 q _)).
  unfold InvShiftRows, InvSubBytes. cbn [seq map Nat.modulo Nat.div Nat.add Nat.mul Nat.divmod fst snd Nat.sub].
  unfold nz; cbn [nth]. rewrite quad16. unfold sx, sb_at.
  rewrite !look24, !look16, !look8, !look0 by bys.
  rewrite !(sx_spec AES_INV_SBOX AES_InvSbox AES_INV_SBOX_eq ISb_byte) by bys. reflexivity.
Qed.

(** ** Key schedule *)
Definition wordb (w : list Z) : Prop := bytes w /\ length w = 4%nat.
Lemma xpow_byte n : is_byte (xpow n).
Proof. induction n as [|n IH]; [unfold is_byte; cbn; lia|]. cbn [xpow]. apply gmulA_byte. unfold is_byte; lia. Qed.
Lemma ktemp_ok Nk i t : wordb t -> wordb (ktemp Nk i t).
Proof.
  intros [B L]. unfold ktemp. split4 t L.
  destruct (i mod Nk =? 0)%nat; [|destruct ((6 <? Nk)%nat && (i mod Nk =? 4)%nat); [|split; auto]].
  - unfold RotWord, SubWord, Rcon. cbn [skipn firstn map app xorl]. split; [|reflexivity].
    assert (is_byte 0) by (unfold is_byte; lia). pose proof (xpow_byte (i / Nk - 1)).
    bys; apply lxor_byte; auto using Sb_byte.
  - unfold SubWord. cbn [map]. split; [bys|reflexivity].
Qed.
Lemma wordb_xorl a b : wordb a -> wordb b -> wordb (xorl a b).
Proof. intros [A LA] [B LB]. split; [apply xorl_bytes; assumption|rewrite xorl_length, LA, LB; reflexivity]. Qed.
Lemma nth_wordb ws i : Forall wordb ws -> (i < length ws)%nat -> wordb (nth i ws []).
Proof. intros H L. apply (proj1 (Forall_forall _ _) H). apply nth_In. exact L. Qed.
Lemma key_more_ok Nk n : forall ws, (0 < Nk <= length ws)%nat -> Forall wordb ws ->
  Forall wordb (key_more Nk n ws) /\ length (key_more Nk n ws) = (length ws + n)%nat.
Proof.
  induction n as [|n IH]; intros ws HN HW; [cbn [key_more]; split; [exact HW|lia]|].
  cbn [key_more]. destruct (IH (ws ++ [xorl (nth (length ws - Nk) ws []) (ktemp Nk (length ws) (nth (length ws - 1) ws []))])) as [A B].
  - rewrite app_length. lia.
  - apply Forall_app. split; [exact HW|]. constructor; [|constructor].
    apply wordb_xorl; [apply nth_wordb; [exact HW|lia]|apply ktemp_ok; apply nth_wordb; [exact HW|lia]].
  - split; [exact A|]. rewrite B, app_length. cbn [length]. lia.
Qed.
Lemma cut_wordb n : forall l, bytes l -> length l = (4 * n)%nat -> Forall wordb (cut 4 n l).
Proof.
  induction n as [|n IH]; intros l B L; [constructor|]. cbn [cut]. constructor.
  - split; [apply bytes_firstn; exact B|]. rewrite firstn_length. lia.
  - apply IH; [apply bytes_skipn; exact B|]. rewrite skipn_length. lia.
Qed.
Lemma concat_wordb ws : Forall wordb ws -> bytes (concat ws) /\ length (concat ws) = (4 * length ws)%nat.
Proof.
  induction 1 as [|w ws [B L] _ [IB IL]]; [split; [constructor|reflexivity]|]. cbn [concat length]. split; [apply bytes_app; auto|].
  rewrite app_length, IL, L. lia.
Qed.
Lemma Forall_slice {A} (P : A -> Prop) l o n : Forall P l -> Forall P (slice l o n).
Proof.
  intros H. rewrite <- (firstn_skipn o l) in H. apply Forall_app in H. destruct H as [_ H].
  rewrite <- (firstn_skipn n (skipn o l)) in H. apply Forall_app in H. apply H.
Qed.
Lemma round_key_blk w r n : Forall wordb w -> length w = (4 * (n + 1))%nat -> (r <= n)%nat -> blk (round_key w r).
Proof.
  intros H L Hr. unfold round_key. destruct (concat_wordb (slice w (4 * r) 4)) as [A B].
  - apply Forall_slice. exact H.
  - split; [exact A|]. rewrite B, slice_length; [reflexivity|]. lia.
Qed.
Lemma RCON_ok : forallb (fun i => nz AES_RCON i =? xpow i) (seq 0 10) = true.
Proof. vm_compute. reflexivity. Qed.
Lemma RCON_eq i : (i < 10)%nat -> nz AES_RCON i = xpow i.
Proof.
  intros H. pose proof (proj1 (forallb_forall _ _) RCON_ok i) as E. apply Z.eqb_eq, E, in_seq. lia.
Qed.
Lemma be_nth ws i : (i < length ws)%nat -> nz (map be_val ws) i = be_val (nth i ws []).
Proof.
  intros H. unfold nz. rewrite (nth_indep _ 0 (be_val [])) by (rewrite map_length; exact H). apply map_nth.
Qed.
Lemma lor_rot a b c d : Z.lor (Z.lor (Z.lor d c) b) a = Z.lor (Z.lor (Z.lor a b) c) d.
Proof. rewrite (Z.lor_comm _ a), (Z.lor_comm _ b), (Z.lor_comm d c), !Z.lor_assoc. reflexivity. Qed.
Lemma key_word_spec nk ws i : i = length ws -> (0 < nk <= length ws)%nat -> Forall wordb ws -> (i < 11 * nk)%nat ->
  key_word nk (map be_val ws) i = be_val (xorl (nth (i - nk) ws []) (ktemp nk i (nth (i - 1) ws []))).
Proof.
  intros Hi Hk HW H11. unfold key_word. rewrite !be_nth by lia.
  assert (HA : wordb (nth (i - nk) ws [])) by (apply nth_wordb; [exact HW|lia]).
  assert (HB : wordb (nth (i - 1) ws [])) by (apply nth_wordb; [exact HW|lia]).
  assert (HK := ktemp_ok nk i _ HB).
  revert HA HB HK. generalize (nth (i - nk) ws []) (nth (i - 1) ws []). intros u v [Bu Lu] [Bv Lv] [Bk Lk].
  assert (E : (if (i mod nk =? 0)%nat then
      Z.lor (Z.lor (Z.lor (look AES_SBOX (be_val v) 24) (sb_at AES_SBOX (be_val v) 0 8)) (sb_at AES_SBOX (be_val v) 8 16))
        (w32 (Z.shiftl (Z.lxor (look AES_SBOX (be_val v) 16) (nz AES_RCON (i / nk - 1))) 24))
    else if (6 <? nk)%nat && (i mod nk =? 4)%nat then
      Z.lor (Z.lor (Z.lor (look AES_SBOX (be_val v) 0) (sb_at AES_SBOX (be_val v) 8 8)) (sb_at AES_SBOX (be_val v) 16 16))
        (sb_at AES_SBOX (be_val v) 24 24)
    else be_val v) = be_val (ktemp nk i v)).
  { clear Bk Lk. unfold ktemp. split4 v Lv.
    destruct (i mod nk =? 0)%nat eqn:E0; [|destruct ((6 <? nk)%nat && (i mod nk =? 4)%nat); [|reflexivity]].
    - unfold RotWord, SubWord, Rcon, sb_at. cbn [skipn firstn map app xorl]. rewrite !Z.lxor_0_r.
      rewrite look24, look16, look8, look0 by assumption. rewrite lor_rot.
      rewrite !AES_SBOX_eq by (bys). rewrite RCON_eq.
      + pose proof (xpow_byte (i / nk - 1)). apply bv_lor. bys. apply lxor_byte; auto using Sb_byte.
      + assert (i / nk < 11)%nat by (apply Nat.div_lt_upper_bound; lia). lia.
    - unfold SubWord, sb_at. cbn [map]. rewrite look24, look16, look8, look0 by assumption. rewrite lor_rot.
      rewrite !AES_SBOX_eq by (bys). apply bv_lor. bys. }
  cbv zeta. rewrite E. revert Bk Lk. generalize (ktemp nk i v). intros t Bt Lt. split4 u Lu. split4 t Lt. cbn [xorl].
  apply bv_lxor; assumption.
Qed.
Lemma key_fill_spec nk n : forall ws, (0 < nk <= length ws)%nat -> Forall wordb ws -> (length ws + n <= 11 * nk)%nat ->
  key_fill nk n (map be_val ws) = map be_val (key_more nk n ws).
Proof.
  induction n as [|n IH]; intros ws Hk HW H11; [reflexivity|]. cbn [key_fill key_more].
  rewrite map_length, (key_word_spec nk ws _ eq_refl Hk HW) by lia.
  rewrite <- IH.
  - rewrite map_app. reflexivity.
  - rewrite app_length. lia.
  - apply Forall_app. split; [exact HW|]. constructor; [|constructor].
    apply wordb_xorl; [apply nth_wordb; [exact HW|lia]|apply ktemp_ok; apply nth_wordb; [exact HW|lia]].
  - rewrite app_length. cbn [length]. lia.
Qed.

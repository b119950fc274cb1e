(** AES key schedules and whole-block functions: refinement to FIPS 197. *)
From Verif Require Import Base BaseFacts ModelEndian ProofEndian TablesAES SpecSM4 SpecAES ModelSM4 ModelCipher ModelAES
  ProofWord32 ProofSM4 ProofAES SpecCipher.

(** ** Block functions over a key function *)
Lemma seq_small nr : Forall (fun i => (i <= nr)%nat) (seq 1 (nr - 1)).
Proof. apply Forall_forall. intros i Hi. apply in_seq in Hi. lia. Qed.
Section GEN.
  Variables (R L : list Z -> list Z -> list Z) (nr : nat) (kf : nat -> list Z).
  Definition gen (b : list Z) : list Z := L (fold_left (fun s i => R s (kf i)) (seq 1 (nr - 1)) (xorl b (kf 0%nat))) (kf nr).
  Hypothesis HR : forall s k, blk s -> blk k -> blk (R s k).
  Hypothesis HL : forall s k, blk s -> blk k -> blk (L s k).
  Hypothesis Hkf : forall i, (i <= nr)%nat -> blk (kf i).
  Lemma fold_R_blk is : Forall (fun i => (i <= nr)%nat) is -> forall s, blk s -> blk (fold_left (fun s i => R s (kf i)) is s).
  Proof. induction 1; intros s Hs; cbn [fold_left]; auto. Qed.
  Lemma gen_blk b : blk b -> blk (gen b).
  Proof. intros H. apply HL; [apply fold_R_blk; [apply seq_small|apply xorl_blk; [exact H|apply Hkf; lia]]|apply Hkf; lia]. Qed.

  Variables (rnd last : word4 -> word4 -> word4) (bits : Z) (w : list Z).
  Hypothesis Hnr : aes_nr bits = nr.
  Hypothesis Hrnd : forall s k, blk s -> blk k -> rnd (quad_of s) (quad_of k) = quad_of (R s k).
  Hypothesis Hlast : forall s k, blk s -> blk k -> last (quad_of s) (quad_of k) = quad_of (L s k).
  Hypothesis Hw : forall i, (i <= nr)%nat -> rk4 w (4 * i) = quad_of (kf i).
  Lemma fold_rnd is : Forall (fun i => (i <= nr)%nat) is -> forall s, blk s ->
    fold_left (fun s i => rnd s (rk4 w (4 * i))) is (quad_of s) = quad_of (fold_left (fun s i => R s (kf i)) is s).
  Proof.
    induction 1 as [|i is Hi His IH]; intros s Hs; cbn [fold_left]; [reflexivity|].
    rewrite Hw by exact Hi. rewrite Hrnd by auto. apply IH. auto.
  Qed.
  Lemma load4_quad b : blk b -> (load32_be b, load32_be (skipn 4 b), load32_be (skipn 8 b), load32_be (skipn 12 b)) = quad_of b.
  Proof.
    intros [B LL]. unfold quad_of. change (load32_be b) with (load32_be (skipn 0 b)). rewrite !load32_at by (auto; lia). reflexivity.
  Qed.
  Lemma aes_block_gen b : blk b -> aes_block rnd last bits w b = gen b.
  Proof.
    intros H. unfold aes_block. rewrite Hnr, load4_quad by exact H.
    change (rk4 w 0) with (rk4 w (4 * 0)). rewrite (Hw 0%nat), Hw by lia.
    assert (E : xor4 (quad_of (kf 0%nat)) (quad_of b) = quad_of (xorl b (kf 0%nat))).
    { rewrite xor4_quad by (try apply Hkf; try lia; exact H). rewrite xorl_comm. reflexivity. }
    cbv zeta. rewrite E. assert (B0 : blk (xorl b (kf 0%nat))) by (apply xorl_blk; [exact H|apply Hkf; lia]).
    rewrite fold_rnd by (try apply seq_small; exact B0).
    assert (BF := fold_R_blk _ (seq_small nr) _ B0).
    rewrite Hlast by (auto; apply Hkf; lia).
    assert (G := gen_blk b H). rewrite <- (qbytes_quad (gen b) G). change (L (fold_left _ _ _) _) with (gen b).
    destruct (quad_of (gen b)) as [[[q0 q1] q2] q3]. cbn [qbytes]. rewrite !store32_be_eq. reflexivity.
  Qed.
End GEN.
Lemma m128_id b : length b = 16%nat -> m128 b = b.
Proof. intros H. unfold m128. rewrite firstn_app, H, Nat.sub_diag. rewrite firstn_O, app_nil_r. apply firstn_all2. lia. Qed.
Lemma m128_len b : length (m128 b) = 16%nat.
Proof. unfold m128. rewrite firstn_length, app_length, repeat_length. lia. Qed.
Section GENNI.
  Variables (R L R' L' : list Z -> list Z -> list Z) (nr : nat) (kf : nat -> list Z).
  Hypothesis HR : forall s k, blk s -> blk k -> blk (R s k).
  Hypothesis Hkf : forall i, (i <= nr)%nat -> blk (kf i).
  Variable rk : list (list Z).
  Hypothesis Hrk : forall i, (i <= nr)%nat -> nth i rk [] = kf i.
  Hypothesis RR : forall s k, blk s -> blk k -> R' s k = R s k.
  Hypothesis LL : forall s k, blk s -> blk k -> L' s k = L s k.
  Lemma ni_block_gen b : blk b -> ni_block R' L' nr rk b = gen R L nr kf b.
  Proof.
    intros H. unfold ni_block. rewrite (m128_id b) by apply H.
    assert (K : forall i, (i <= nr)%nat -> m128 (nth i rk []) = kf i).
    { intros i Hi. rewrite Hrk by exact Hi. apply m128_id. apply Hkf, Hi. }
    rewrite (K 0%nat), (K nr) by lia. unfold gen.
    assert (F : forall is, Forall (fun i => (i <= nr)%nat) is -> forall s, blk s ->
       fold_left (fun s i => R' s (m128 (nth i rk []))) is s = fold_left (fun s i => R s (kf i)) is s).
    { induction 1 as [|i is Hi His IH]; intros s Hs; cbn [fold_left]; [reflexivity|]. rewrite K by exact Hi. rewrite RR by auto. apply IH. auto. }
    assert (B0 : blk (xorl b (kf 0%nat))) by (apply xorl_blk; [exact H|apply Hkf; lia]).
    cbv zeta. rewrite (F _ (seq_small nr) _ B0). apply LL; [|apply Hkf; lia].
    apply (fold_R_blk R nr kf HR Hkf); [apply seq_small|exact B0].
  Qed.
End GENNI.

Definition Renc (s k : list Z) : list Z := xorl (MixColumns (ShiftRows (SubBytes s))) k.
Definition Lenc (s k : list Z) : list Z := xorl (ShiftRows (SubBytes s)) k.
Definition Rdec (s k : list Z) : list Z := xorl (InvMixColumns (InvSubBytes (InvShiftRows s))) k.
Definition Ldec (s k : list Z) : list Z := xorl (InvSubBytes (InvShiftRows s)) k.
Definition dkf (nr : nat) (kf : nat -> list Z) (i : nat) : list Z :=
  if (i =? 0)%nat then kf nr else if (i =? nr)%nat then kf 0%nat else InvMixColumns (kf (nr - i)%nat).
Lemma Renc_blk s k : blk s -> blk k -> blk (Renc s k).
Proof. intros; unfold Renc; auto using xorl_blk, Mix_blk. Qed.
Lemma Lenc_blk s k : blk s -> blk k -> blk (Lenc s k).
Proof. intros; unfold Lenc; auto using xorl_blk, ShiftRows_blk, SubBytes_blk. Qed.
Lemma Rdec_blk s k : blk s -> blk k -> blk (Rdec s k).
Proof. intros; unfold Rdec; auto using xorl_blk, InvMix_blk. Qed.
Lemma Ldec_blk s k : blk s -> blk k -> blk (Ldec s k).
Proof. intros; unfold Ldec; auto using xorl_blk, InvShiftRows_blk, InvSubBytes_blk. Qed.

Section SCHED.
  Variables (nr : nat) (w : list (list Z)).
  Hypothesis Hnr : (0 < nr)%nat.
  Hypothesis HW : Forall wordb w.
  Hypothesis HL : length w = (4 * (nr + 1))%nat.
  Lemma rkb r : (r <= nr)%nat -> blk (round_key w r).
  Proof. apply round_key_blk; assumption. Qed.
  Lemma Cipher_gen b : Cipher nr w b = gen Renc Lenc nr (round_key w) b.
  Proof. reflexivity. Qed.
  Lemma dkf_blk i : (i <= nr)%nat -> blk (dkf nr (round_key w) i).
  Proof.
    intros H. unfold dkf. destruct (i =? 0)%nat; [apply rkb; lia|]. destruct (i =? nr)%nat; [apply rkb; lia|]. apply InvMix_blk.
  Qed.
  Lemma InvCipher_gen b : blk b -> InvCipher nr w b = gen Rdec Ldec nr (dkf nr (round_key w)) b.
  Proof.
    intros H. rewrite (InvCipher_eq nr w rkb b H). unfold gen. cbv zeta.
    assert (E0 : dkf nr (round_key w) 0 = round_key w nr) by reflexivity.
    assert (En : dkf nr (round_key w) nr = round_key w 0).
    { unfold dkf. rewrite Nat.eqb_refl. destruct (nr =? 0)%nat eqn:E; [apply Nat.eqb_eq in E; lia|reflexivity]. }
    rewrite E0, En. unfold Ldec. apply (f_equal (fun s => xorl (InvSubBytes (InvShiftRows s)) _)).
    assert (F : forall is, Forall (fun i => (0 < i < nr)%nat) is -> forall s,
      fold_left (fun s i => xorl (InvMixColumns (InvSubBytes (InvShiftRows s))) (InvMixColumns (round_key w (nr - i)))) is s =
      fold_left (fun s i => Rdec s (dkf nr (round_key w) i)) is s).
    { induction 1 as [|i is Hi His IH]; intros s; cbn [fold_left]; [reflexivity|]. rewrite IH. f_equal.
      unfold Rdec, dkf. destruct (Nat.eqb_spec i 0); [lia|]. destruct (Nat.eqb_spec i nr); [lia|]. reflexivity. }
    apply F. apply Forall_forall. intros i Hi. apply in_seq in Hi. lia.
  Qed.
  Lemma slice_nth4 {A} (l : list A) d o : (o + 4 <= length l)%nat -> slice l o 4 = [nth o l d; nth (o + 1) l d; nth (o + 2) l d; nth (o + 3) l d].
  Proof.
    intros H. unfold slice.
    assert (E : forall k, nth (o + k) l d = nth k (skipn o l) d).
    { intros k. rewrite <- (firstn_skipn o l) at 1. rewrite app_nth2 by (rewrite firstn_length; lia). f_equal. rewrite firstn_length. lia. }
    rewrite <- (Nat.add_0_r o) at 2. rewrite !E. assert (HS : (4 <= length (skipn o l))%nat) by (rewrite skipn_length; lia).
    revert HS. generalize (skipn o l). intros m HS. do 4 (destruct m as [|? m]; [cbn [length] in HS; lia|]). reflexivity.
  Qed.
  Lemma rk4_round i : (i <= nr)%nat -> rk4 (map be_val w) (4 * i) = quad_of (round_key w i).
  Proof.
    intros Hi. unfold rk4. rewrite !be_nth by lia. unfold round_key. rewrite (slice_nth4 w []) by lia.
    assert (N : forall k, (k < 4)%nat -> wordb (nth (4 * i + k) w [])) by (intros; apply nth_wordb; [exact HW|lia]).
    pose proof (N 0%nat ltac:(lia)) as N0. rewrite Nat.add_0_r in N0.
    unfold quad_of. cbn [concat]. rewrite app_nil_r.
    destruct (slice4 (nth (4 * i) w []) (nth (4 * i + 1) w []) (nth (4 * i + 2) w []) (nth (4 * i + 3) w [])) as (-> & -> & -> & ->);
      try (apply N; lia); try apply N0. reflexivity.
  Qed.
  Lemma inv_mix_word_spec a b c d : bytes [a; b; c; d] -> inv_mix_word (be_val [a; b; c; d]) = be_val (circ 14 11 13 9 [a; b; c; d]).
  Proof.
    intros H. unfold inv_mix_word. rewrite look24, look16, look8, look0 by exact H.
    assert (Q : forall t x, is_byte x -> look t (nz AES_SBOX (Z.to_nat x)) 0 = nz t (Z.to_nat (AES_Sbox x))).
    { intros t x Hx. rewrite AES_SBOX_eq by exact Hx. unfold look. f_equal. f_equal. rewrite byte_at_eq by lia. rewrite Z.pow_0_r, Z.div_1_r.
      pose proof (Sb_byte x Hx) as S. unfold is_byte in S. rewrite ?Z.mod_small by lia. reflexivity. }
    rewrite !Q by bys. rewrite TD_col by bys. rewrite !ISb_Sb by bys. reflexivity.
  Qed.
  Lemma inv_mixcol_spec k : blk k -> aes_inv_mixcol (quad_of k) = quad_of (InvMixColumns k).
  Proof.
    intros [B L]. split16 k L. unfold InvMixColumns. rewrite quad_Mix by (intros; apply circ_len). rewrite quad16. cbn [aes_inv_mixcol].
    rewrite !inv_mix_word_spec by bys. reflexivity.
  Qed.
  Lemma rk4_concat qs : forall i, (i < length qs)%nat -> rk4 (concat (map list4 qs)) (4 * i) = nth i qs (0, 0, 0, 0).
  Proof.
    induction qs as [|q qs IH]; intros i Hi; [cbn in Hi; lia|]. destruct i as [|i].
    - destruct q as [[[a b] c] d]. reflexivity.
    - cbn [nth]. rewrite <- IH by (cbn [length] in Hi; lia). destruct q as [[[a b] c] d]. unfold rk4, nz. cbn [map list4 concat app].
      replace (4 * S i)%nat with (S (S (S (S (4 * i))))) by lia. reflexivity.
  Qed.
  Definition dec_words (e : list Z) : list Z :=
    list4 (rk4 e (4 * nr)) ++ concat (map (fun i => list4 (aes_inv_mixcol (rk4 e (4 * (nr - i))))) (seq 1 (nr - 1))) ++ list4 (rk4 e 0).
  Lemma dec_words_rk4 i : (i <= nr)%nat -> rk4 (dec_words (map be_val w)) (4 * i) = quad_of (dkf nr (round_key w) i).
  Proof.
    intros Hi. unfold dec_words. set (e := map be_val w).
    assert (E : list4 (rk4 e (4 * nr)) ++ concat (map (fun i => list4 (aes_inv_mixcol (rk4 e (4 * (nr - i))))) (seq 1 (nr - 1))) ++ list4 (rk4 e 0)
      = concat (map list4 (rk4 e (4 * nr) :: map (fun i => aes_inv_mixcol (rk4 e (4 * (nr - i)))) (seq 1 (nr - 1)) ++ [rk4 e 0]))).
    { cbn [map concat]. rewrite map_app, concat_app, map_map. cbn [map concat]. rewrite app_nil_r. reflexivity. }
    rewrite E. rewrite rk4_concat by (cbn [length]; rewrite app_length, map_length, seq_length; cbn [length]; lia).
    unfold dkf. destruct i as [|i]; [cbn [nth]; change (0 =? 0)%nat with true; cbv iota|change (S i =? 0)%nat with false; cbn [nth]; cbv iota]; [apply rk4_round; lia|].
    destruct (Nat.eqb_spec (S i) nr) as [En|Nn].
    - rewrite app_nth2 by (rewrite map_length, seq_length; lia). rewrite map_length, seq_length.
      replace (i - (nr - 1))%nat with 0%nat by lia. cbn [nth]. change 0%nat with (4 * 0)%nat at 1. apply rk4_round. lia.
    - rewrite app_nth1 by (rewrite map_length, seq_length; lia).
      set (f := fun i => _). rewrite (nth_indep _ _ (f 0%nat)) by (rewrite map_length, seq_length; lia). rewrite map_nth, seq_nth by lia.
      unfold f. replace (1 + i)%nat with (S i) by lia. unfold e. rewrite rk4_round by lia. apply inv_mixcol_spec. apply rkb. lia.
  Qed.
  (** the reversed schedule of the AES-NI code *)
  Lemma dec_keys_nth i : (i <= nr)%nat -> nth i (dec_keys (map (round_key w) (seq 0 (nr + 1)))) [] = dkf nr (round_key w) i.
  Proof.
    intros Hi. unfold dec_keys. rewrite <- map_rev.
    assert (RV : rev (seq 0 (nr + 1)) = nr :: map (fun i => (nr - i)%nat) (seq 1 (nr - 1)) ++ [0%nat]).
    { apply (nth_ext _ _ 0%nat 0%nat).
      - rewrite rev_length. cbn [length]. rewrite app_length, map_length, !seq_length. cbn [length]. lia.
      - rewrite rev_length, seq_length. intros k Hk. rewrite rev_nth, seq_length, seq_nth by (try rewrite seq_length; lia).
        destruct k as [|k]; cbn [nth]; [lia|].
        destruct (Nat.eq_dec k (nr - 1)) as [->|N].
        + rewrite app_nth2, map_length, seq_length, Nat.sub_diag by (rewrite map_length, seq_length; lia). cbn [nth]. lia.
        + rewrite app_nth1 by (rewrite map_length, seq_length; lia).
          rewrite (nth_indep _ _ ((fun i => (nr - i)%nat) 0%nat)) by (rewrite map_length, seq_length; lia).
          rewrite map_nth, seq_nth by lia. lia. }
    rewrite RV. cbn [map]. rewrite map_app, map_map. cbn [map].
    rewrite app_length, map_length, seq_length. cbn [length].
    replace (nr - 1 + 1 - 1)%nat with (nr - 1)%nat by lia.
    rewrite firstn_app, skipn_app, map_length, seq_length, Nat.sub_diag. cbn [firstn skipn]. rewrite app_nil_r.
    rewrite firstn_all2, skipn_all2 by (rewrite map_length, seq_length; lia). cbn [app]. rewrite map_map.
    unfold dkf. destruct i as [|i]; [cbn [nth]; change (0 =? 0)%nat with true; cbv iota|change (S i =? 0)%nat with false; cbn [nth]; cbv iota]; [reflexivity|].
    destruct (Nat.eqb_spec (S i) nr) as [En|Nn].
    - rewrite app_nth2 by (rewrite map_length, seq_length; lia). rewrite map_length, seq_length.
      replace (i - (nr - 1))%nat with 0%nat by lia. reflexivity.
    - rewrite app_nth1 by (rewrite map_length, seq_length; lia).
      set (f := fun i => _). rewrite (nth_indep _ _ (f 0%nat)) by (rewrite map_length, seq_length; lia). rewrite map_nth, seq_nth by lia. reflexivity.
  Qed.
End SCHED.

(** ** The AES-NI key schedules, some words at a time *)
Lemma key_more_add Nk a : forall b ws, key_more Nk (a + b) ws = key_more Nk b (key_more Nk a ws).
Proof. induction a as [|a IH]; intros b ws; [reflexivity|]. cbn [Nat.add key_more]. apply IH. Qed.
Lemma key_more_prefix Nk n : forall ws, exists r, key_more Nk n ws = ws ++ r.
Proof.
  induction n as [|n IH]; intros ws; [exists []; rewrite app_nil_r; reflexivity|]. cbn [key_more].
  edestruct IH as [r ->]. eexists. rewrite <- app_assoc. reflexivity.
Qed.
Lemma round_key_prefix Nk n ws r : (4 * r + 4 <= length ws)%nat -> round_key (key_more Nk n ws) r = round_key ws r.
Proof.
  intros H. destruct (key_more_prefix Nk n ws) as [s ->]. unfold round_key, slice. rewrite skipn_app, firstn_app.
  rewrite skipn_length. replace (4 - (length ws - 4 * r))%nat with 0%nat by lia. rewrite firstn_O, app_nil_r. reflexivity.
Qed.
Lemma key_step Nk n pre l : (0 < Nk <= length l)%nat ->
  key_more Nk (S n) (pre ++ l) =
  key_more Nk n (pre ++ (l ++ [xorl (nth (length l - Nk) l []) (ktemp Nk (length pre + length l) (nth (length l - 1) l []))])).
Proof.
  intros H. cbn [key_more]. rewrite app_length, <- app_assoc.
  assert (E : forall m, (0 < m <= length l)%nat -> nth (length pre + length l - m) (pre ++ l) [] = nth (length l - m) l []).
  { intros m Hm. rewrite app_nth2 by lia. f_equal. lia. }
  rewrite !E by lia. reflexivity.
Qed.
Lemma ktemp_at Nk j k t : (0 < Nk)%nat -> ktemp Nk (Nk * j + k) t =
  if (k mod Nk =? 0)%nat then xorl (SubWord (RotWord t)) (Rcon (j + k / Nk))
  else if (6 <? Nk)%nat && (k mod Nk =? 4)%nat then SubWord t else t.
Proof.
  intros H. unfold ktemp. replace (Nk * j + k)%nat with (k + j * Nk)%nat by lia.
  rewrite Nat.mod_add, Nat.div_add by lia. rewrite (Nat.add_comm (k / Nk) j). reflexivity.
Qed.
Lemma round_key_app pre a b c d r i : length pre = (4 * i)%nat -> round_key (pre ++ a :: b :: c :: d :: r) i = a ++ b ++ c ++ d.
Proof.
  intros H. unfold round_key, slice. rewrite skipn_app, skipn_all2, H, Nat.sub_diag by lia. cbn [skipn app firstn concat].
  rewrite app_nil_r. reflexivity.
Qed.

(** four words of the 128-bit schedule *)
Definition e1 (a d : list Z) (rc : nat) : list Z := xorl a (xorl (SubWord (RotWord d)) (Rcon rc)).
Lemma key4 pre a b c d j : length pre = (4 * j)%nat ->
  key_more 4 4 (pre ++ [a; b; c; d]) =
  pre ++ [a; b; c; d; e1 a d (j + 1); xorl b (e1 a d (j + 1)); xorl c (xorl b (e1 a d (j + 1)));
          xorl d (xorl c (xorl b (e1 a d (j + 1))))].
Proof.
  intros H. do 4 (rewrite key_step by (cbn [length app]; lia); cbn [length app]; rewrite H, ktemp_at by lia;
    cbn [Nat.modulo Nat.div Nat.divmod fst snd Nat.sub Nat.eqb nth andb Nat.ltb Nat.leb app length]).
  reflexivity.
Qed.
Lemma assist_spec a b c d x rc : wordb a -> wordb b -> wordb c -> wordb d -> wordb x -> (0 < rc)%nat ->
  forall p q r, wordb p -> wordb q -> wordb r ->
  assist (a ++ b ++ c ++ d) (mm_aeskeygenassist (p ++ q ++ r ++ x) (xpow (rc - 1))) =
  let e := xorl a (xorl (SubWord (RotWord x)) (Rcon rc)) in
  e ++ xorl b e ++ xorl c (xorl b e) ++ xorl d (xorl c (xorl b e)).
Proof.
  intros [Ba La] [Bb Lb] [Bc Lc] [Bd Ld] [Bx Lx] Hrc p q r [Bp Lp] [Bq Lq] [Br Lr].
  split4 a La. split4 b Lb. split4 c Lc. split4 d Ld. split4 x Lx. split4 p Lp. split4 q Lq. split4 r Lr.
  unfold assist, mm_aeskeygenassist, mm_shuffle_epi32, mm_slli4, dw, slice, Rcon, RotWord, SubWord.
  cbn [Nat.modulo Nat.div Nat.divmod fst snd Nat.sub Nat.mul Nat.add skipn firstn app map xorl repeat].
  repeat (apply f_equal2; [bits_solve|]). reflexivity.
Qed.
Lemma e1_wordb a d rc : wordb a -> wordb d -> wordb (e1 a d rc).
Proof.
  intros Ha Hd. unfold e1. apply wordb_xorl; [exact Ha|]. pose proof (ktemp_ok 1 rc d Hd) as K. unfold ktemp in K.
  rewrite Nat.mod_1_r, Nat.div_1_r in K. exact K.
Qed.
Lemma SubWord_wordb a : wordb a -> wordb (SubWord a).
Proof. intros [B L]. split4 a L. split; [|reflexivity]. unfold SubWord. cbn [map]. bys. Qed.
Ltac wbs := repeat match goal with |- Forall _ (_ :: _) => constructor | |- Forall _ [] => constructor
   | |- wordb (xorl _ _) => apply wordb_xorl | |- wordb (SubWord _) => apply SubWord_wordb | |- wordb (e1 _ _ _) => apply e1_wordb | _ => assumption end.
Lemma exp128_spec m : forall pre a b c d j, length pre = (4 * j)%nat -> Forall wordb [a; b; c; d] ->
  exp128 (a ++ b ++ c ++ d) (map xpow (seq j m)) = map (round_key (key_more 4 (4 * m) (pre ++ [a; b; c; d]))) (seq (j + 1) m).
Proof.
  induction m as [|m IH]; intros pre a b c d j Hp HW; [reflexivity|].
  assert (W := HW). rewrite !Forall_cons_iff in W. destruct W as (Wa & Wb & Wc & Wd & _).
  cbn [seq map exp128]. replace (4 * S m)%nat with (4 + 4 * m)%nat by lia. rewrite key_more_add, (key4 pre a b c d j Hp).
  assert (A := assist_spec a b c d d (j + 1) Wa Wb Wc Wd Wd ltac:(lia) a b c Wa Wb Wc).
  replace (j + 1 - 1)%nat with j in A by lia. cbv zeta in A. fold (e1 a d (j + 1)) in A. rewrite A.
  assert (We := e1_wordb a d (j + 1) Wa Wd).
  assert (W4 : Forall wordb [e1 a d (j + 1); xorl b (e1 a d (j + 1)); xorl c (xorl b (e1 a d (j + 1))); xorl d (xorl c (xorl b (e1 a d (j + 1))))])
    by wbs.
  apply f_equal2.
  - rewrite round_key_prefix by (rewrite app_length, Hp; cbn [length]; lia).
    change (?p ++ a :: b :: c :: d :: ?r) with (p ++ [a; b; c; d] ++ r). rewrite (app_assoc pre [a; b; c; d]). symmetry. apply round_key_app.
    rewrite app_length, Hp. cbn [length]. lia.
  - rewrite (IH (pre ++ [a; b; c; d])); [|rewrite app_length, Hp; cbn [length]; lia|exact W4].
    rewrite <- app_assoc. cbn [app]. replace (S (j + 1)) with (S j + 1)%nat by lia. reflexivity.
Qed.

(** six words of the 192-bit schedule *)
Definition next6 (rc : nat) (l : list (list Z)) : list (list Z) :=
  match l with
  | [a; b; c; d; e; f] =>
      let a' := e1 a f rc in let b' := xorl b a' in let c' := xorl c b' in let d' := xorl d c' in
      let e' := xorl e d' in [a'; b'; c'; d'; e'; xorl f e']
  | _ => []
  end.
Lemma key6 pre a b c d e f j : length pre = (6 * j)%nat ->
  key_more 6 6 (pre ++ [a; b; c; d; e; f]) = (pre ++ [a; b; c; d; e; f]) ++ next6 (j + 1) [a; b; c; d; e; f].
Proof.
  intros H. do 6 (rewrite key_step by (cbn [length app]; lia); cbn [length app]; rewrite H, ktemp_at by lia;
    cbn [Nat.modulo Nat.div Nat.divmod fst snd Nat.sub Nat.eqb nth andb Nat.ltb Nat.leb app length]).
  rewrite <- app_assoc. reflexivity.
Qed.
Lemma next6_wordb rc l : length l = 6%nat -> Forall wordb l -> Forall wordb (next6 rc l) /\ length (next6 rc l) = 6%nat.
Proof.
  intros L W. do 7 (destruct l as [|? l]; try discriminate L). clear L. rewrite !Forall_cons_iff in W. destruct W as (Wa & Wb & Wc & Wd & We & Wf & _).
  unfold next6. split; [|reflexivity]. wbs.
Qed.
Lemma assist192_spec a b c d e f ov rc : wordb a -> wordb b -> wordb c -> wordb d -> wordb e -> wordb f -> (0 < rc)%nat ->
  exists a' b' c' d' e' f' ov', next6 rc [a; b; c; d; e; f] = [a'; b'; c'; d'; e'; f'] /\
  assist192 (a ++ b ++ c ++ d) (mm_aeskeygenassist (e ++ f ++ ov) (xpow (rc - 1))) (e ++ f ++ ov) = (a' ++ b' ++ c' ++ d', e' ++ f' ++ ov').
Proof.
  intros [Ba La] [Bb Lb] [Bc Lc] [Bd Ld] [Be Le] [Bf Lf] Hrc.
  split4 a La. split4 b Lb. split4 c Lc. split4 d Ld. split4 e Le. split4 f Lf.
  do 7 eexists. split; [unfold next6; reflexivity|]. unfold e1.
  unfold assist192, mm_aeskeygenassist, mm_shuffle_epi32, mm_slli4, dw, slice, Rcon, RotWord, SubWord.
  cbn [Nat.modulo Nat.div Nat.divmod fst snd Nat.sub Nat.mul Nat.add skipn firstn app map xorl repeat].
  apply f_equal2; repeat (apply f_equal2; [bits_solve|]); reflexivity.
Qed.
Fixpoint rcons2 (j m : nat) : list (Z * Z) :=
  match m with O => [] | S m' => (xpow j, xpow (j + 1)) :: rcons2 (j + 2) m' end.
Lemma exp192_spec m : forall pre l ov i, length pre = (12 * i)%nat -> length l = 6%nat -> Forall wordb l ->
  exp192 (concat (firstn 4 l)) (concat (skipn 4 l) ++ ov) (rcons2 (2 * i) m) =
  map (round_key (key_more 6 (12 * m) (pre ++ l))) (seq (3 * i + 1) (3 * m)).
Proof.
  induction m as [|m IH]; intros pre l ov i Hp HL HW; [reflexivity|].
  do 7 (destruct l as [|? l]; try discriminate HL). clear HL. rename l0 into a, l1 into b, l2 into c, l3 into d, l4 into e, l5 into f.
  assert (W := HW). rewrite !Forall_cons_iff in W. destruct W as (Wa & Wb & Wc & Wd & We & Wf & _).
  cbn [firstn skipn concat rcons2 exp192]. rewrite !app_nil_r. rewrite <- app_assoc.
  replace (12 * S m)%nat with (6 + (6 + 12 * m))%nat by lia. rewrite !key_more_add.
  rewrite (key6 pre a b c d e f (2 * i)) by lia.
  destruct (next6_wordb (2 * i + 1) [a; b; c; d; e; f] eq_refl HW) as [NW NL].
  destruct (assist192_spec a b c d e f ov (2 * i + 1) Wa Wb Wc Wd We Wf ltac:(lia)) as (a' & b' & c' & d' & e' & f' & ov' & EN & EA).
  rewrite EN in *. replace (2 * i + 1 - 1)%nat with (2 * i)%nat in EA by lia. rewrite EA.
  assert (W' := NW). rewrite !Forall_cons_iff in W'. destruct W' as (Wa' & Wb' & Wc' & Wd' & We' & Wf' & _).
  rewrite (key6 (pre ++ [a; b; c; d; e; f]) a' b' c' d' e' f' (2 * i + 1)) by (rewrite app_length; cbn [length]; lia).
  destruct (next6_wordb (2 * i + 1 + 1) [a'; b'; c'; d'; e'; f'] eq_refl NW) as [NW2 NL2].
  destruct (assist192_spec a' b' c' d' e' f' ov' (2 * i + 1 + 1) Wa' Wb' Wc' Wd' We' Wf' ltac:(lia)) as (a2 & b2 & c2 & d2 & e2 & f2 & ov2 & EN2 & EA2).
  rewrite EN2 in *. replace (2 * i + 1 + 1 - 1)%nat with (2 * i + 1)%nat in EA2 by lia. rewrite EA2.
  replace (3 * S m)%nat with (S (S (S (3 * m)))) by lia. cbn [seq map].
  assert (LL : length ((pre ++ [a; b; c; d; e; f]) ++ [a'; b'; c'; d'; e'; f']) = (12 * i + 12)%nat)
    by (rewrite !app_length; cbn [length]; lia).
  rewrite !round_key_prefix by (rewrite app_length, LL; cbn [length]; lia).
  apply f_equal2; [|apply f_equal2; [|apply f_equal2]].
  - rewrite <- !app_assoc. change (pre ++ [a; b; c; d; e; f] ++ [a'; b'; c'; d'; e'; f'] ++ ?r) with (pre ++ [a; b; c; d] ++ e :: f :: a' :: b' :: [c'; d'; e'; f'] ++ r).
    rewrite (app_assoc pre [a; b; c; d]). rewrite (round_key_app (pre ++ [a; b; c; d])) by (rewrite app_length; cbn [length]; lia).
    destruct We as [_ Le], Wf as [_ Lf], Wa' as [_ La'], Wb' as [_ Lb'].
    split4 e Le. split4 f Lf. split4 a' La'. split4 b' Lb'. reflexivity.
  - rewrite <- !app_assoc. change (pre ++ [a; b; c; d; e; f] ++ [a'; b'; c'; d'; e'; f'] ++ ?r) with (pre ++ [a; b; c; d; e; f; a'; b'] ++ c' :: d' :: e' :: f' :: r).
    rewrite (app_assoc pre [a; b; c; d; e; f; a'; b']). rewrite (round_key_app (pre ++ [a; b; c; d; e; f; a'; b'])) by (rewrite app_length; cbn [length]; lia).
    destruct Wa' as [_ La'], Wb' as [_ Lb'], Wc' as [_ Lc'], Wd' as [_ Ld'], We' as [_ Le'], Wf' as [_ Lf'].
    split4 a' La'. split4 b' Lb'. split4 c' Lc'. split4 d' Ld'. split4 e' Le'. split4 f' Lf'. reflexivity.
  - rewrite round_key_app by (rewrite LL; lia). reflexivity.
  - specialize (IH ((pre ++ [a; b; c; d; e; f]) ++ [a'; b'; c'; d'; e'; f']) [a2; b2; c2; d2; e2; f2] ov2 (i + 1)%nat).
    cbn [firstn skipn concat] in IH. rewrite !app_nil_r in IH. rewrite <- (app_assoc e2 f2 ov2) in IH.
    replace (2 * (i + 1))%nat with (2 * i + 2)%nat in IH by lia. replace (3 * (i + 1) + 1)%nat with (S (S (S (3 * i + 1)))) in IH by lia.
    apply IH; [rewrite LL; lia|reflexivity|exact NW2].
Qed.

(** eight words of the 256-bit schedule *)
Definition next8 (rc : nat) (l : list (list Z)) : list (list Z) :=
  match l with
  | [a; b; c; d; e; f; g; h] =>
      let a' := e1 a h rc in let b' := xorl b a' in let c' := xorl c b' in let d' := xorl d c' in
      let e' := xorl e (SubWord d') in let f' := xorl f e' in let g' := xorl g f' in
      [a'; b'; c'; d'; e'; f'; g'; xorl h g']
  | _ => []
  end.
Lemma key8 pre a b c d e f g h j : length pre = (8 * j)%nat ->
  key_more 8 8 (pre ++ [a; b; c; d; e; f; g; h]) = (pre ++ [a; b; c; d; e; f; g; h]) ++ next8 (j + 1) [a; b; c; d; e; f; g; h].
Proof.
  intros H. do 8 (rewrite key_step by (cbn [length app]; lia); cbn [length app]; rewrite H, ktemp_at by lia;
    cbn [Nat.modulo Nat.div Nat.divmod fst snd Nat.sub Nat.eqb nth andb Nat.ltb Nat.leb app length]).
  rewrite <- app_assoc. reflexivity.
Qed.
Lemma next8_wordb rc l : length l = 8%nat -> Forall wordb l -> Forall wordb (next8 rc l) /\ length (next8 rc l) = 8%nat.
Proof.
  intros L W. do 9 (destruct l as [|? l]; try discriminate L). clear L. rewrite !Forall_cons_iff in W.
  destruct W as (Wa & Wb & Wc & Wd & We & Wf & Wg & Wh & _). unfold next8. split; [|reflexivity].
  assert (We1 := e1_wordb _ _ rc Wa Wh).
  wbs.
Qed.
Lemma assist256_2_spec a b c d p q r x : wordb a -> wordb b -> wordb c -> wordb d -> wordb x -> wordb p -> wordb q -> wordb r ->
  assist256_2 (p ++ q ++ r ++ x) (a ++ b ++ c ++ d) =
  let e := xorl a (SubWord x) in
  e ++ xorl b e ++ xorl c (xorl b e) ++ xorl d (xorl c (xorl b e)).
Proof.
  intros [Ba La] [Bb Lb] [Bc Lc] [Bd Ld] [Bx Lx] [Bp Lp] [Bq Lq] [Br Lr].
  split4 a La. split4 b Lb. split4 c Lc. split4 d Ld. split4 x Lx. split4 p Lp. split4 q Lq. split4 r Lr.
  unfold assist256_2, mm_aeskeygenassist, mm_shuffle_epi32, mm_slli4, dw, slice, RotWord, SubWord.
  cbn [Nat.modulo Nat.div Nat.divmod fst snd Nat.sub Nat.mul Nat.add skipn firstn app map xorl repeat].
  repeat (apply f_equal2; [bits_solve|]). reflexivity.
Qed.
Lemma exp256_cons t1 t3 rc rc' r : exp256 t1 t3 (rc :: rc' :: r) =
  let t1 := assist t1 (mm_aeskeygenassist t3 rc) in let t3 := assist256_2 t1 t3 in t1 :: t3 :: exp256 t1 t3 (rc' :: r).
Proof. reflexivity. Qed.
Lemma exp256_spec m : forall pre l j, length pre = (8 * j)%nat -> length l = 8%nat -> Forall wordb l ->
  exp256 (concat (firstn 4 l)) (concat (skipn 4 l)) (map xpow (seq j (S m))) =
  map (round_key (key_more 8 (8 * S m) (pre ++ l))) (seq (2 * j + 2) (2 * m + 1)).
Proof.
  induction m as [|m IH]; intros pre l j Hp HL HW;
  do 9 (destruct l as [|? l]; try discriminate HL); clear HL;
  rename l0 into a, l1 into b, l2 into c, l3 into d, l4 into e, l5 into f, l6 into g, l7 into h;
  assert (W := HW); rewrite !Forall_cons_iff in W; destruct W as (Wa & Wb & Wc & Wd & We & Wf & Wg & Wh & _);
  cbn [firstn skipn concat]; rewrite !app_nil_r;
  assert (A := assist_spec a b c d h (j + 1) Wa Wb Wc Wd Wh ltac:(lia) e f g We Wf Wg);
  replace (j + 1 - 1)%nat with j in A by lia; cbv zeta in A; fold (e1 a h (j + 1)) in A;
  destruct (next8_wordb (j + 1) [a; b; c; d; e; f; g; h] eq_refl HW) as [NW NL].
  - cbn [seq map exp256]. rewrite A. replace (8 * 1)%nat with 8%nat by lia. rewrite (key8 _ _ _ _ _ _ _ _ _ j) by lia.
    replace (2 * 0 + 1)%nat with 1%nat by lia. cbn [seq map]. apply f_equal2; [|reflexivity].
    unfold next8. rewrite (round_key_app (pre ++ [a; b; c; d; e; f; g; h])) by (rewrite app_length; cbn [length]; lia). reflexivity.
  - replace (seq j (S (S m))) with (j :: S j :: seq (S (S j)) m) by reflexivity. cbn [map]. rewrite exp256_cons. cbv zeta. rewrite A.
    replace (8 * S (S m))%nat with (8 + 8 * S m)%nat by lia. rewrite key_more_add, (key8 _ _ _ _ _ _ _ _ _ j) by lia.
    specialize (IH (pre ++ [a; b; c; d; e; f; g; h]) (next8 (j + 1) [a; b; c; d; e; f; g; h]) (S j)).
    specialize (IH ltac:(rewrite app_length; cbn [length]; lia) NL NW).
    assert (N8 : next8 (j + 1) [a; b; c; d; e; f; g; h] =
      let a' := e1 a h (j + 1) in let b' := xorl b a' in let c' := xorl c b' in let d' := xorl d c' in
      let e' := xorl e (SubWord d') in let f' := xorl f e' in let g' := xorl g f' in
      [a'; b'; c'; d'; e'; f'; g'; xorl h g']) by reflexivity.
    rewrite N8 in *. cbv zeta in *.
    set (a' := e1 a h (j + 1)) in *. set (b' := xorl b a') in *. set (c' := xorl c b') in *. set (d' := xorl d c') in *.
    set (e' := xorl e (SubWord d')) in *. set (f' := xorl f e') in *. set (g' := xorl g f') in *. set (h' := xorl h g') in *.
    clearbody a'. assert (W' := NW). rewrite !Forall_cons_iff in W'. destruct W' as (Wa' & Wb' & Wc' & Wd' & We' & Wf' & Wg' & Wh' & _).
    rewrite (assist256_2_spec e f g h a' b' c' d') by assumption. cbv zeta. fold e' f' g' h'.
    cbn [firstn skipn concat] in IH. rewrite !app_nil_r in IH. cbn [seq map] in IH. rewrite IH.
    replace (2 * S m + 1)%nat with (S (S (2 * m + 1))) by lia. cbn [seq map].
    assert (LL : length (pre ++ [a; b; c; d; e; f; g; h]) = (8 * j + 8)%nat) by (rewrite app_length; cbn [length]; lia).
    rewrite !round_key_prefix by (rewrite app_length, LL; cbn [length]; lia).
    apply f_equal2; [|apply f_equal2].
    + rewrite round_key_app by (rewrite LL; lia). reflexivity.
    + change [a'; b'; c'; d'; e'; f'; g'; h'] with ([a'; b'; c'; d'] ++ [e'; f'; g'; h']). rewrite (app_assoc _ [a'; b'; c'; d']).
      rewrite (round_key_app ((pre ++ [a; b; c; d; e; f; g; h]) ++ [a'; b'; c'; d'])) by (rewrite app_length, LL; cbn [length]; lia). reflexivity.
    + replace (2 * S j + 2)%nat with (S (S (2 * j + 2))) by lia. reflexivity.
Qed.

(** ** Key sizes *)
Definition aes_size (bits : Z) (nk : nat) : Prop := (bits = 128 /\ nk = 4%nat) \/ (bits = 192 /\ nk = 6%nat) \/ (bits = 256 /\ nk = 8%nat).
Lemma size_nk bits nk : aes_size bits nk -> aes_nk bits = nk.
Proof. intros [[-> ->]|[[-> ->]|[-> ->]]]; reflexivity. Qed.
Lemma size_nr bits nk : aes_size bits nk -> aes_nr bits = (nk + 6)%nat.
Proof. intros [[-> ->]|[[-> ->]|[-> ->]]]; reflexivity. Qed.
Lemma size_lt bits nk : aes_size bits nk -> (4 <= nk <= 8 /\ 4 * (nk + 7) <= 11 * nk)%nat.
Proof. unfold aes_size. lia. Qed.

Section KE.
  Variables (bits : Z) (nk : nat) (key : list Z).
  Hypothesis Hs : aes_size bits nk.
  Hypothesis Hb : bytes key.
  Hypothesis Hl : length key = (4 * nk)%nat.
  Definition ws := KeyExpansion nk (nk + 6) key.
  Lemma ws_ok : Forall wordb ws /\ length ws = (4 * (nk + 6 + 1))%nat.
  Proof.
    destruct (size_lt _ _ Hs) as [Hn Hm]. unfold ws, KeyExpansion.
    destruct (key_more_ok nk (4 * (nk + 6 + 1) - nk) (cut 4 nk key)) as [A B].
    - rewrite cut_length. lia.
    - apply cut_wordb; assumption.
    - split; [exact A|]. rewrite B, cut_length. lia.
  Qed.
  Lemma cut_words n : forall o, (o + n <= nk)%nat -> map be_val (cut 4 n (skipn (4 * o) key)) = map (fun i => load32_be (skipn (4 * i) key)) (seq o n).
  Proof.
    induction n as [|n IH]; intros o Ho; [reflexivity|]. cbn [cut map seq]. rewrite load32_at by (auto; lia). apply f_equal2; [reflexivity|].
    rewrite skipn_skipn'. replace (4 * o + 4)%nat with (4 * S o)%nat by lia. apply IH. lia.
  Qed.
  Lemma enc_init_spec : aes_enc_key_init bits key = map be_val ws.
  Proof.
    destruct (size_lt _ _ Hs) as [Hn Hm]. unfold aes_enc_key_init. rewrite (size_nk _ _ Hs), (size_nr _ _ Hs).
    rewrite <- (cut_words nk 0) by lia. cbn [Nat.mul skipn]. unfold ws, KeyExpansion. apply key_fill_spec.
    - rewrite cut_length. lia.
    - apply cut_wordb; assumption.
    - rewrite cut_length. lia.
  Qed.
  Lemma dec_init_spec : aes_dec_key_init bits key = dec_words (nk + 6) (map be_val ws).
  Proof. unfold aes_dec_key_init, dec_words. rewrite enc_init_spec, (size_nr _ _ Hs). reflexivity. Qed.
  Lemma AES_enc_ws b : AES_enc key b = Cipher (nk + 6) ws b.
  Proof. unfold AES_enc. rewrite Hl. replace (4 * nk / 4)%nat with nk by (rewrite Nat.mul_comm, Nat.div_mul; lia). reflexivity. Qed.
  Lemma AES_dec_ws b : AES_dec key b = InvCipher (nk + 6) ws b.
  Proof. unfold AES_dec. rewrite Hl. replace (4 * nk / 4)%nat with nk by (rewrite Nat.mul_comm, Nat.div_mul; lia). reflexivity. Qed.
  Lemma Hrkb r : (r <= nk + 6)%nat -> blk (round_key ws r).
  Proof. apply rkb; apply ws_ok. Qed.
  Lemma lut_enc b : blk b -> aes_enc_block bits (aes_enc_key_init bits key) b = AES_enc key b.
  Proof.
    intros H. rewrite AES_enc_ws, Cipher_gen. unfold aes_enc_block.
    refine (aes_block_gen Renc Lenc (nk + 6) (round_key ws) Renc_blk Lenc_blk Hrkb _ _ bits _ (size_nr _ _ Hs) enc_round_spec enc_last_spec _ b H).
    intros i Hi. rewrite enc_init_spec. apply (rk4_round (nk + 6)); [lia|apply ws_ok|apply ws_ok|exact Hi].
  Qed.
  Lemma lut_dec b : blk b -> aes_dec_block bits (aes_dec_key_init bits key) b = AES_dec key b.
  Proof.
    intros H. rewrite AES_dec_ws. rewrite InvCipher_gen; [|lia|apply ws_ok|apply ws_ok|exact H]. unfold aes_dec_block.
    refine (aes_block_gen Rdec Ldec (nk + 6) (dkf (nk + 6) (round_key ws)) Rdec_blk Ldec_blk _ _ _ bits _ (size_nr _ _ Hs) dec_round_spec dec_last_spec _ b H).
    - intros i Hi. apply dkf_blk; [lia|apply ws_ok|apply ws_ok|exact Hi].
    - intros i Hi. rewrite dec_init_spec. apply dec_words_rk4; [lia|apply ws_ok|apply ws_ok|exact Hi].
  Qed.
  Lemma dec_enc b : blk b -> AES_dec key (AES_enc key b) = b.
  Proof. intros H. rewrite AES_enc_ws, AES_dec_ws. apply InvCipher_Cipher; [exact Hrkb|exact H]. Qed.
  Lemma enc_blk b : blk b -> blk (AES_enc key b).
  Proof. intros H. rewrite AES_enc_ws. apply Cipher_blk; [exact Hrkb|exact H]. Qed.
  Lemma dec_blk b : blk b -> blk (AES_dec key b).
  Proof. intros H. rewrite AES_dec_ws. apply InvCipher_blk; [exact Hrkb|exact H]. Qed.

  Definition ni_keys (over : list Z) : list (list Z) :=
    if bits =? 128 then key_expansion_128 key else if bits =? 192 then key_expansion_192 over key else key_expansion_256 key.
  Lemma rcon10 : [0x1; 0x2; 0x4; 0x8; 0x10; 0x20; 0x40; 0x80; 0x1b; 0x36] = map xpow (seq 0 10).
  Proof. vm_compute. reflexivity. Qed.
  Lemma rcon8 : [(0x1, 0x2); (0x4, 0x8); (0x10, 0x20); (0x40, 0x80)] = rcons2 0 4.
  Proof. vm_compute. reflexivity. Qed.
  Lemma rcon7 : [0x01; 0x02; 0x04; 0x08; 0x10; 0x20; 0x40] = map xpow (seq 0 7).
  Proof. vm_compute. reflexivity. Qed.
  Lemma rk_map n n' m : (n <= n')%nat -> (nk <= length (cut 4 nk key))%nat -> (4 * m <= nk + n)%nat ->
    map (round_key (key_more nk n' (cut 4 nk key))) (seq 0 m) = map (round_key (key_more nk n (cut 4 nk key))) (seq 0 m).
  Proof.
    intros Hn Hc Hm. destruct (size_lt _ _ Hs) as [Hk _]. apply map_ext_in. intros r Hr. apply in_seq in Hr. replace n' with (n + (n' - n))%nat by lia. rewrite key_more_add.
    apply round_key_prefix. destruct (key_more_ok nk n (cut 4 nk key)) as [_ ->]; [rewrite cut_length; lia|apply cut_wordb; assumption|].
    rewrite cut_length. lia.
  Qed.
  Lemma first_round n : round_key (key_more nk n (cut 4 nk key)) 0 = firstn 16 key.
  Proof.
    destruct (size_lt _ _ Hs) as [Hk _]. rewrite round_key_prefix by (rewrite cut_length; lia). unfold round_key, slice. rewrite Nat.mul_0_r, skipn_O.
    assert (E : cut 4 nk key = cut 4 4 (firstn 16 key) ++ cut 4 (nk - 4) (skipn 16 key)).
    { replace nk with (4 + (nk - 4))%nat at 1 by lia. rewrite cut_app. replace (4 * 4)%nat with 16%nat by reflexivity.
      rewrite <- (firstn_skipn 16 key) at 1. rewrite cut_firstn by (rewrite firstn_length; lia). reflexivity. }
    rewrite E, firstn_app, cut_length, Nat.sub_diag, firstn_O, app_nil_r, firstn_all2 by (rewrite cut_length; lia).
    apply cut_concat. rewrite firstn_length. lia.
  Qed.
  Lemma ni_keys_spec over : ni_keys over = map (round_key ws) (seq 0 (nk + 6 + 1)).
  Proof.
    unfold ni_keys, ws, KeyExpansion.
    assert (W : Forall wordb (cut 4 nk key)) by (apply cut_wordb; assumption).
    pose proof first_round as F. pose proof rk_map as M. pose proof (cut_concat 4 nk key ltac:(lia)) as CC.
    pose proof (cut_length 4 nk key) as CL.
    destruct Hs as [[-> ->]|[[-> ->]|[-> ->]]]; cbn [Z.eqb Pos.eqb].
    - change (seq 0 (4 + 6 + 1)) with (0%nat :: seq 1 10). cbn [map]. rewrite F, firstn_all2 by lia. unfold key_expansion_128.
      apply f_equal2; [reflexivity|]. rewrite rcon10. change (4 * (4 + 6 + 1) - 4)%nat with (4 * 10)%nat.
      revert W CC CL. generalize (cut 4 4 key). intros l W CC CL. do 5 (destruct l as [|? l]; try discriminate CL).
      rewrite <- CC. cbn [concat]. rewrite app_nil_r. apply (exp128_spec 10 []); [reflexivity|exact W].
    - rewrite <- (M (4 * (6 + 6 + 1) - 6)%nat (12 * 4)%nat) by (rewrite ?CL; cbn; lia).
      change (seq 0 (6 + 6 + 1)) with (0%nat :: seq 1 12). cbn [map]. rewrite F. unfold key_expansion_192.
      apply f_equal2; [reflexivity|]. rewrite rcon8.
      assert (E := exp192_spec 4 [] (cut 4 6 key) over 0 eq_refl CL W).
      assert (C1 : concat (firstn 4 (cut 4 6 key)) = firstn 16 key /\ concat (skipn 4 (cut 4 6 key)) = skipn 16 key).
      { revert Hl. generalize key. clear. intros k Hl. do 25 (destruct k as [|? k]; try discriminate Hl). split; reflexivity. }
      destruct C1 as [C1 C2]. rewrite C1, C2 in E. exact E.
    - rewrite <- (M (4 * (8 + 6 + 1) - 8)%nat (8 * 7)%nat) by (rewrite ?CL; cbn; lia).
      change (seq 0 (8 + 6 + 1)) with (0%nat :: 1%nat :: seq 2 13). cbn [map]. rewrite F. unfold key_expansion_256.
      assert (C1 : concat (firstn 4 (cut 4 8 key)) = firstn 16 key /\ concat (skipn 4 (cut 4 8 key)) = skipn 16 key /\ round_key (cut 4 8 key) 1 = skipn 16 key).
      { revert Hl. generalize key. clear. intros k Hl. do 33 (destruct k as [|? k]; try discriminate Hl). repeat split; reflexivity. }
      destruct C1 as (C1 & C2 & C3).
      apply f_equal2; [reflexivity|apply f_equal2].
      + rewrite round_key_prefix by (rewrite CL; lia). symmetry. exact C3.
      + rewrite rcon7. assert (E := exp256_spec 6 [] (cut 4 8 key) 0 eq_refl CL W). rewrite C1, C2 in E. exact E.
  Qed.
  Lemma seq_nth_map {A} (f : nat -> A) d n i : (i < n)%nat -> nth i (map f (seq 0 n)) d = f i.
  Proof. intros H. rewrite (nth_indep _ d (f 0%nat)) by (rewrite map_length, seq_length; exact H). rewrite map_nth, seq_nth by exact H. reflexivity. Qed.
  Lemma ni_enc over b : blk b -> ni_enc_block (aes_nr bits) (ni_keys over) b = AES_enc key b.
  Proof.
    intros H. rewrite AES_enc_ws, Cipher_gen, (size_nr _ _ Hs), ni_keys_spec. unfold ni_enc_block.
    apply ni_block_gen; auto using Renc_blk, Hrkb.
    - intros i Hi. apply seq_nth_map. lia.
    - intros s k Bs Bk. unfold mm_aesenc, Renc. rewrite Sub_Shift by apply Bs. reflexivity.
    - intros s k Bs Bk. unfold mm_aesenclast, Lenc. rewrite Sub_Shift by apply Bs. reflexivity.
  Qed.
  Lemma ni_dec over b : blk b -> ni_dec_block (aes_nr bits) (dec_keys (ni_keys over)) b = AES_dec key b.
  Proof.
    intros H. rewrite AES_dec_ws, (size_nr _ _ Hs), ni_keys_spec. rewrite InvCipher_gen; [|lia|apply ws_ok|apply ws_ok|exact H].
    unfold ni_dec_block. apply ni_block_gen; auto using Rdec_blk.
    - intros i Hi. apply dkf_blk; [lia|apply ws_ok|apply ws_ok|exact Hi].
    - intros i Hi. apply dec_keys_nth; [lia|apply ws_ok|exact Hi].
  Qed.
End KE.

Lemma each_block_eq f n : forall d, each_block f d n = concat (map f (cut 16 n d)).
Proof. induction n as [|n IH]; intros d; [reflexivity|]. cbn [each_block cut map concat]. rewrite IH. reflexivity. Qed.
Lemma store32_len n : length (store32_be n) = 4%nat. Proof. reflexivity. Qed.
Lemma aes_block_len rnd last bits w b : length (aes_block rnd last bits w b) = 16%nat.
Proof.
  unfold aes_block. cbv zeta. destruct (last _ _) as [[[q0 q1] q2] q3]. rewrite !app_length, !store32_len. reflexivity.
Qed.
Lemma ni_enc_len nr rk b : length (ni_enc_block nr rk b) = 16%nat.
Proof. unfold ni_enc_block, ni_block, mm_aesenclast, SubBytes. rewrite xorl_length, map_length. unfold ShiftRows. rewrite map_length, seq_length, m128_len. reflexivity. Qed.
Lemma ni_dec_len nr rk b : length (ni_dec_block nr rk b) = 16%nat.
Proof. unfold ni_dec_block, ni_block, mm_aesdeclast, InvSubBytes. rewrite xorl_length, map_length. unfold InvShiftRows. rewrite map_length, seq_length, m128_len. reflexivity. Qed.

Lemma impl_AES_lut bits nk : aes_size bits nk -> implements (AES_lut bits) (4 * nk) AES_enc AES_dec.
Proof.
  intros Hs. constructor; cbn [AES_lut cBS cPN c_set_key c_eb c_db c_ebs c_dbs]; try lia.
  - intros key b Hk Lk Hb Lb. apply (lut_enc bits nk); auto. split; assumption.
  - intros key b Hk Lk Hb Lb. apply (lut_dec bits nk); auto. split; assumption.
  - intros. apply aes_block_len.
  - intros. apply aes_block_len.
  - intros. apply each_block_eq.
  - intros. apply each_block_eq.
  - intros key b Hk Lk Hb Lb. apply (enc_blk bits nk); auto. split; assumption.
  - intros key b Hk Lk Hb Lb. apply (dec_blk bits nk); auto. split; assumption.
  - intros key b Hk Lk Hb Lb. apply (dec_enc bits nk); auto. split; assumption.
Qed.
Lemma impl_AES_ni bits nk over : aes_size bits nk -> implements (AES_ni bits over) (4 * nk) AES_enc AES_dec.
Proof.
  intros Hs. constructor; cbn [AES_ni cBS cPN c_set_key c_eb c_db c_ebs c_dbs]; try lia.
  - intros key b Hk Lk Hb Lb. apply (ni_enc bits nk); auto. split; assumption.
  - intros key b Hk Lk Hb Lb. apply (ni_dec bits nk); auto. split; assumption.
  - intros. apply ni_enc_len.
  - intros. apply ni_dec_len.
  - intros. apply each_block_eq.
  - intros. apply each_block_eq.
  - intros key b Hk Lk Hb Lb. apply (enc_blk bits nk); auto. split; assumption.
  - intros key b Hk Lk Hb Lb. apply (dec_blk bits nk); auto. split; assumption.
  - intros key b Hk Lk Hb Lb. apply (dec_enc bits nk); auto. split; assumption.
Qed.
Lemma lut_roundtrip bits nk key b : aes_size bits nk -> bytes key -> length key = (4 * nk)%nat -> bytes b -> length b = 16%nat ->
  aes_dec_block bits (aes_dec_key_init bits key) (aes_enc_block bits (aes_enc_key_init bits key) b) = b.
Proof.
  intros Hs Hk Lk Hb Lb. assert (B : blk b) by (split; assumption).
  rewrite (lut_enc bits nk) by assumption. rewrite (lut_dec bits nk); [apply (dec_enc bits nk)| | | |apply (enc_blk bits nk)]; assumption.
Qed.
Lemma ni_eq_lut bits nk over key (enc : bool) n d : aes_size bits nk -> bytes key -> length key = (4 * nk)%nat -> bytes d -> length d = (n * 16)%nat ->
  let kn := c_set_key (AES_ni bits over) key enc in
  let kl := c_set_key (AES_lut bits) key enc in
  (if enc then c_ebs (AES_ni bits over) kn d n else c_dbs (AES_ni bits over) kn d n) =
  (if enc then c_ebs (AES_lut bits) kl d n else c_dbs (AES_lut bits) kl d n).
Proof.
  intros Hs Hk Lk Hd Ld. cbv zeta.
  assert (F : Forall (fun x => bytes x /\ length x = 16%nat) (cut 16 n d)).
  { apply Forall_forall. intros x Hx. split; [exact (proj1 (Forall_forall _ _) (cut_bytes 16 n d Hd) x Hx)|].
    refine (proj1 (Forall_forall _ _) (cut_Forall_length 16 n d _) x Hx). lia. }
  pose proof (impl_AES_lut bits nk Hs) as A. pose proof (impl_AES_ni bits nk over Hs) as B.
  destruct enc.
  - rewrite (im_ebs _ _ _ _ A), (im_ebs _ _ _ _ B) by exact Ld. apply (f_equal (@concat Z)). apply map_ext_in. intros x Hx.
    pose proof (proj1 (Forall_forall _ _) F x Hx) as [X1 X2]. rewrite (im_enc _ _ _ _ A), (im_enc _ _ _ _ B) by assumption. reflexivity.
  - rewrite (im_dbs _ _ _ _ A), (im_dbs _ _ _ _ B) by exact Ld. apply (f_equal (@concat Z)). apply map_ext_in. intros x Hx.
    pose proof (proj1 (Forall_forall _ _) F x Hx) as [X1 X2]. rewrite (im_dec _ _ _ _ A), (im_dec _ _ _ _ B) by assumption. reflexivity.
Qed.

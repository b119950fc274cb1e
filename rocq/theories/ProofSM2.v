(** The SM2 algorithms: key derivation, digests, signatures, encryption, keys. *)
From Coq Require Import Znumtheory.
From Verif Require Import Base BaseFacts ModelEndian ProofEndian ModelNumber SpecNumber ProofNumber ModelMont SpecMont
  ProofMont SpecField SpecEC SpecJac ProofEC ProofECMul ProofFermat ModelEC ProofJac ProofJacRep
  ProofNumlib ProofZops SpecSM2Curve ProofSM2Curve ModelSM2 SpecSM2 SpecSM2Api ProofSM2Rep ProofSM2Enc.

Ltac byt := lazymatch goal with
  | |- bytes (_ ++ _) => apply bytes_app; split; [byt|byt]
  | |- bytes (be_bytes _ _) => apply be_bytes_bytes
  | |- bytes (SM2_fb _) => apply SM2_fb_bytes
  | |- _ => assumption
  end.
Lemma A_bytes : SM2_CURVE_A = be_bytes 32 SM2_a. Proof. reflexivity. Qed.
Lemma B_bytes : SM2_CURVE_B = be_bytes 32 SM2_b. Proof. reflexivity. Qed.
Lemma GX_bytes : SM2_CURVE_GX = be_bytes 32 SM2_Gx. Proof. reflexivity. Qed.
Lemma GY_bytes : SM2_CURVE_GY = be_bytes 32 SM2_Gy. Proof. reflexivity. Qed.

Lemma Zcmp_ge a b : (0 <=? Zcmp a b) = (b <=? a).
Proof. unfold Zcmp. destruct (Z.ltb_spec b a), (Z.ltb_spec a b); cbn; lia. Qed.
Lemma Zcmp_eq a b : (Zcmp a b =? 0) = (a =? b).
Proof. unfold Zcmp. destruct (Z.ltb_spec b a), (Z.ltb_spec a b); cbn; lia. Qed.

(** ** Scalars *)
Lemma zm_mod k P : SM2_on P -> 0 <= k -> zm (k mod SM2_n) P = zm k P.
Proof. intros HP Hk. exact (zmul_mod SM2_K SM2_A SM2_B sm2_curve_ok SM2_n P SM2_n_prime HP (sm2_order P HP) k Hk). Qed.
Lemma zm_on k P : SM2_on P -> SM2_on (zm k P).
Proof. apply (zmul_on _ _ _ sm2_curve_ok). Qed.
Lemma sm2_n_pos : 1 < SM2_n. Proof. reflexivity. Qed.
Lemma zm_fin k P : SM2_on P -> P <> Inf -> 0 < k < SM2_n -> zm k P <> Inf.
Proof.
  intros HP HI Hk E. apply sm2_mul_inf_iff in E; [|assumption|assumption|lia].
  rewrite Z.mod_small in E; lia.
Qed.
Lemma zm_mul j k P : SM2_on P -> 0 <= j -> 0 <= k -> zm (j * k) P = zm j (zm k P).
Proof. apply (zmul_mul _ _ _ sm2_curve_ok). Qed.
Lemma zm_add j k P : SM2_on P -> 0 <= j -> 0 <= k -> zm (j + k) P = SM2_add (zm j P) (zm k P).
Proof. apply (zmul_add _ _ _ sm2_curve_ok). Qed.
Lemma zm_inj j k : 0 <= j -> 0 <= k -> (zm j SM2_G = zm k SM2_G <-> j mod SM2_n = k mod SM2_n).
Proof. intros Hj Hk. exact (zmul_inj SM2_K SM2_A SM2_B sm2_curve_ok SM2_n SM2_G SM2_n_prime sm2_G_on sm2_G_order sm2_G_finite j k Hj Hk). Qed.

Section SM2.
  Variables (w : Z) (nn : nat) (L : numlib).
  Hypothesis LOK : numlib_ok w nn L.
  Variables (H : hashlib) (Hd : list Z -> list Z).
  Hypothesis HOK : hash_ok H Hd.
  Notation DS := (hl_ds H).
  Notation msg_ok := (SpecSM2Api.msg_ok H).
  Notation kdf_max := (SpecSM2Api.kdf_max H).
  Notation Rp := (SpecSM2Api.Rp w nn).
  Notation Rn := (SpecSM2Api.Rn w nn).
  Notation ar := (aR Rp).
  Notation jr := (jrep SM2_K Rp).

  Lemma run_ok chunks last m : concat chunks ++ last = m -> bytes m -> 8 * Z.of_nat (length m) < 2 ^ 64 ->
    hl_run H chunks last = Ok (Hd m).
  Proof.
    intros E Hb Hl. rewrite (ho_run _ _ HOK) by (rewrite E; exact Hb). rewrite E.
    destruct (Z.ltb_spec (8 * Z.of_nat (length m)) (2 ^ 64)); [reflexivity|lia].
  Qed.

  (** ** The key derivation function *)
  Definition blk (Zb : list Z) (i : nat) : list Z := SM2_kdf_block Hd Zb (Z.of_nat i).
  Definition kst (Zb : list Z) (c k : nat) : list Z := concat (map (blk Zb) (seq c k)).

  Lemma blk_bytes Zb i : bytes Zb -> bytes (Zb ++ be_bytes 4 (Z.of_nat i)).
  Proof. intros Hb. apply bytes_app. split; [exact Hb|apply be_bytes_bytes]. Qed.
  Lemma blk_length Zb i : bytes Zb -> length (blk Zb i) = DS.
  Proof. intros Hb. apply (ho_len _ _ HOK). now apply blk_bytes. Qed.
  Lemma kst_length Zb c k : bytes Zb -> length (kst Zb c k) = (k * DS)%nat.
  Proof.
    intros Hb. unfold kst. revert c. induction k as [|k IH]; intros c; [reflexivity|].
    cbn [seq map concat]. rewrite app_length, IH, blk_length by exact Hb. reflexivity.
  Qed.
  Lemma kst_prefix Zb c k1 k2 m : bytes Zb -> (m <= k1)%nat -> (m <= k2)%nat ->
    firstn m (kst Zb c k1) = firstn m (kst Zb c k2).
  Proof.
    intros Hb. assert (HL : forall a b, (m <= a)%nat -> (a <= b)%nat -> firstn m (kst Zb c a) = firstn m (kst Zb c b)).
    { intros a b Ha Hab. replace b with (a + (b - a))%nat by lia. unfold kst at 2. rewrite seq_app, map_app, concat_app.
      rewrite firstn_app. fold (kst Zb c a). pose proof (ho_pos _ _ HOK).
      replace (m - length (kst Zb c a))%nat with 0%nat by (rewrite kst_length by exact Hb; nia).
      cbn [firstn]. now rewrite app_nil_r. }
    intros H1 H2. destruct (Nat.le_ge_cases k1 k2); [now apply HL|symmetry; now apply HL].
  Qed.
  Lemma all0_app a b : all0 (a ++ b) = all0 a && all0 b.
  Proof. unfold all0. apply forallb_app. Qed.
  Lemma all0_repeat l : all0 l = true <-> l = repeat 0 (length l).
  Proof.
    induction l as [|x l IH]; [split; reflexivity|]. cbn. rewrite andb_true_iff, IH. split.
    - intros [E ->]. rewrite repeat_length. f_equal. lia.
    - intros E. injection E as -> E. auto.
  Qed.
  Lemma run_blk Zb c ct : bytes Zb -> 8 * (Z.of_nat (length Zb) + 4) < 2 ^ 64 -> ct = w32 (Z.of_nat c) ->
    hl_run H [Zb] (store32_be ct) = Ok (blk Zb c).
  Proof.
    intros Hb Hl ->. unfold blk, SM2_kdf_block. rewrite store32_be_eq.
    assert (E : be_bytes 4 (w32 (Z.of_nat c)) = be_bytes 4 (Z.of_nat c)).
    { exact (be_bytes_mod 4 (Z.of_nat c)). }
    rewrite E. apply run_ok; [cbn [concat]; now rewrite app_nil_r|now apply blk_bytes|].
    rewrite app_length, be_bytes_length. lia.
  Qed.
  Lemma kdf_loop_spec fuel Zb : bytes Zb -> 8 * (Z.of_nat (length Zb) + 4) < 2 ^ 64 -> forall inp c ct az,
    (length inp < fuel)%nat -> ct = w32 (Z.of_nat c) ->
    let ks := firstn (length inp) (kst Zb c (length inp)) in
    kdf_loop H fuel Zb inp ct az = Ok (xorl inp ks, az && all0 ks).
  Proof.
    intros Hb Hl. pose proof (ho_pos _ _ HOK) as DP.
    induction fuel as [|fuel IH]; intros inp c ct az Hf Hc; [lia|]. cbn [kdf_loop].
    destruct (Nat.leb_spec DS (length inp)) as [G|G].
    - rewrite (run_blk Zb c ct Hb Hl Hc). cbn [bind].
      assert (LB : length (blk Zb c) = DS) by now apply blk_length.
      rewrite (firstn_all2 (blk Zb c)) by lia.
      rewrite (IH (skipn DS inp) (S c)); [|rewrite skipn_length; lia|].
      2:{ subst ct. unfold w32. rewrite Nat2Z.inj_succ, Zplus_mod_idemp_l. reflexivity. }
      cbn [bind]. rewrite skipn_length.
      set (ks' := firstn (length inp - DS) (kst Zb (S c) (length inp - DS))).
      assert (KS : firstn (length inp) (kst Zb c (length inp)) = blk Zb c ++ ks').
      { destruct (length inp) as [|m] eqn:Em; [lia|]. unfold kst at 1. cbn [seq map concat].
        rewrite firstn_app, firstn_all2 by lia. f_equal. rewrite LB.
        fold (kst Zb (S c) m). apply kst_prefix; [exact Hb|lia|lia]. }
      cbv zeta. rewrite KS, all0_app, andb_assoc.
      f_equal. f_equal. rewrite <- (firstn_skipn DS inp) at 3. symmetry. apply xorl_app. rewrite firstn_length. lia.
    - cbv zeta. destruct inp as [|a inp]; [cbn; now rewrite andb_true_r|].
      set (l := a :: inp) in *. replace (length l =? 0)%nat with false by (symmetry; apply Nat.eqb_neq; cbn; lia). cbn [negb].
      rewrite (run_blk Zb c ct Hb Hl Hc). cbn [bind].
      assert (KS : firstn (length l) (kst Zb c (length l)) = firstn (length l) (blk Zb c)).
      { assert (P1 : (1 <= length l)%nat) by (cbn; lia). replace (length l) with (1 + (length l - 1))%nat at 2 by lia.
        unfold kst. rewrite seq_app, map_app, concat_app. cbn [seq map concat]. rewrite app_nil_r.
        rewrite firstn_app. rewrite blk_length by exact Hb.
        replace (length l - DS)%nat with 0%nat by lia. cbn [firstn]. now rewrite app_nil_r. }
      rewrite KS. f_equal. f_equal. apply xorl_comm.
  Qed.

  Lemma kdf_length Zb k : bytes Zb -> length (SM2_kdf Hd Zb k) = k.
  Proof.
    intros Hb. unfold SM2_kdf. fold (blk Zb). change (concat _) with (kst Zb 1 k). rewrite firstn_length, kst_length by exact Hb.
    pose proof (ho_pos _ _ HOK). nia.
  Qed.
  Lemma kst_bytes Zb c k : bytes Zb -> bytes (kst Zb c k).
  Proof.
    intros Hb. unfold kst. revert c; induction k as [|k IH]; intros c; [constructor|]. cbn [seq map concat].
    apply bytes_app. split; [|apply IH]. apply (ho_bytes _ _ HOK). now apply blk_bytes.
  Qed.
  Lemma kdf_bytes Zb k : bytes Zb -> bytes (SM2_kdf Hd Zb k).
  Proof. intros Hb. apply bytes_firstn. now apply kst_bytes. Qed.

  Theorem kdf_xor_spec inp Zb : bytes Zb -> 8 * (Z.of_nat (length Zb) + 4) < 2 ^ 64 ->
    sm2_kdf_xor H inp Zb =
    if kdf_max <=? Z.of_nat (length inp) then Throw
    else Ok (xorl inp (SM2_kdf Hd Zb (length inp)),
             if (0 <? length inp)%nat && all0 (SM2_kdf Hd Zb (length inp)) then -1 else 0).
  Proof.
    intros Hb Hl. unfold sm2_kdf_xor, SpecSM2Api.kdf_max.
    assert (WM : w64 (Z.of_nat DS * 4294967295) = Z.of_nat DS * 4294967295).
    { apply Z.mod_small. pose proof (ho_small _ _ HOK). lia. }
    rewrite WM. destruct (Z.of_nat DS * 4294967295 <=? Z.of_nat (length inp)); [reflexivity|].
    destruct inp as [|a inp]; [reflexivity|]. set (l := a :: inp).
    replace (Z.of_nat (length l) =? 0) with false by (symmetry; apply Z.eqb_neq; cbn; lia).
    rewrite (kdf_loop_spec (S (length l)) Zb Hb Hl l 1 1 true) by (lia || reflexivity). cbn [bind].
    replace (0 <? length l)%nat with true by (symmetry; apply Nat.ltb_lt; cbn; lia). reflexivity.
  Qed.

  (** ** Z_A and the digest *)
  Lemma entl_bytes e : 0 <= e < 65536 -> [Z.shiftr e 8; Z.land e 255] = be_bytes 2 e.
  Proof.
    intros He. change [Z.shiftr e 8; Z.land e 255] with (rev [Z.land e 255; Z.shiftr e 8]).
    unfold be_bytes. cbn [le_bytes]. f_equal. rewrite land_255, Z.shiftr_div_pow2 by lia. change (2 ^ 8) with 256.
    rewrite (Z.mod_small (e / 256)) by (split; [apply Z.div_pos; lia|apply Z.div_lt_upper_bound; lia]). reflexivity.
  Qed.
  Lemma z_input_bytes id x y : bytes id ->
    bytes (be_bytes 2 (8 * Z.of_nat (length id)) ++ id ++ be_bytes 32 SM2_a ++ be_bytes 32 SM2_b
        ++ be_bytes 32 SM2_Gx ++ be_bytes 32 SM2_Gy ++ SM2_fb x ++ SM2_fb y).
  Proof.
    intros Hi. byt.
  Qed.
  Lemma compute_z_ok id x y : id_ok id ->
    sm2_compute_z H id (SM2_fb x) (SM2_fb y) = Ok (SM2_Z Hd id x y).
  Proof.
    intros [Hi Hl]. unfold sm2_compute_z.
    assert (W : w64 (Z.of_nat (length id) * 8) = 8 * Z.of_nat (length id)).
    { rewrite Z.mul_comm. apply Z.mod_small. lia. }
    rewrite W. destruct (Z.ltb_spec 65535 (8 * Z.of_nat (length id))); [lia|].
    assert (W2 : w16 (8 * Z.of_nat (length id)) = 8 * Z.of_nat (length id)) by (apply Z.mod_small; lia).
    rewrite W2. rewrite entl_bytes by lia. unfold SM2_Z.
    apply run_ok.
    - rewrite A_bytes, B_bytes, GX_bytes, GY_bytes. cbn [concat]. rewrite !app_nil_r. reflexivity.
    - now apply z_input_bytes.
    - rewrite !app_length, !be_bytes_length, !SM2_fb_length. lia.
  Qed.
  Lemma compute_z_long id x y : 65535 < 8 * Z.of_nat (length id) < 2 ^ 64 ->
    sm2_compute_z H id x y = Throw.
  Proof.
    intros Hl. unfold sm2_compute_z.
    assert (W : w64 (Z.of_nat (length id) * 8) = 8 * Z.of_nat (length id)).
    { rewrite Z.mul_comm. apply Z.mod_small. lia. }
    rewrite W. destruct (Z.ltb_spec 65535 (8 * Z.of_nat (length id))); [reflexivity|lia].
  Qed.
  Lemma SM2_Z_bytes id x y : bytes id -> bytes (SM2_Z Hd id x y).
  Proof. intros Hi. apply (ho_bytes _ _ HOK). now apply z_input_bytes. Qed.
  Lemma SM2_Z_length id x y : bytes id -> length (SM2_Z Hd id x y) = DS.
  Proof. intros Hi. apply (ho_len _ _ HOK). now apply z_input_bytes. Qed.

  (** a key object that holds the finite curve point (x, y) *)
  Definition pub_rep (pk : sm2_pub) (x y : SM2_F) : Prop :=
    ar (pub_P pk) (x, y) /\ pub_x pk = SM2_fb x /\ pub_y pk = SM2_fb y /\ SM2_on (Aff x y).

  Definition SM2_dg (id msg : list Z) (x y : SM2_F) : list Z := Hd (SM2_Z Hd id x y ++ msg).
  Lemma digest_ok pk x y msg id : pub_rep pk x y -> id_ok id -> msg_ok msg ->
    sm2_digest H pk msg id = Ok (SM2_dg id msg x y) /\ bytes (SM2_dg id msg x y).
  Proof.
    intros (_ & Ex & Ey & _) Hi [Hm Hl]. unfold sm2_digest. rewrite Ex, Ey, compute_z_ok by exact Hi. cbn [bind].
    destruct Hi as [Hi Hi2].
    assert (B : bytes (SM2_Z Hd id x y ++ msg)) by (apply bytes_app; split; [now apply SM2_Z_bytes|exact Hm]).
    split; [|now apply (ho_bytes _ _ HOK)].
    apply run_ok; [cbn [concat]; now rewrite !app_nil_r|exact B|].
    rewrite app_length, SM2_Z_length by exact Hi. lia.
  Qed.

  (** ** Random scalars *)
  Lemma N_SUB1_val : be_val N_SUB1_DATA = SM2_n - 1. Proof. reflexivity. Qed.
  Lemma mod_n_sub1_spec a : limbs w nn a -> 
    limbs w nn (sm2_bn_mod_n_sub1 L a) /\
    val w (sm2_bn_mod_n_sub1 L a) = if SM2_n - 1 <=? val w a then val w a - (SM2_n - 1) else val w a.
  Proof.
    intros Ha. unfold sm2_bn_mod_n_sub1.
    destruct (ok_epi8 _ _ _ LOK N_SUB1_DATA ltac:(const_bytes) eq_refl) as [Le Ve]. rewrite N_SUB1_val in Ve.
    rewrite (ok_cmp _ _ _ LOK) by assumption. rewrite Ve, Zcmp_ge.
    destruct (Z.leb_spec (SM2_n - 1) (val w a)) as [G|G].
    - destruct (ok_sub _ _ _ LOK a _ Ha Le ltac:(rewrite Ve; exact G)) as [L1 V1]. split; [exact L1|]. now rewrite V1, Ve.
    - auto.
  Qed.
  Lemma draw_k_range rnd : 1 <= draw_k rnd <= SM2_n - 1.
  Proof. unfold draw_k. pose proof sm2_n_pos. pose proof (Z.mod_pos_bound (be_val rnd) (SM2_n - 1) ltac:(assert (SM2_n <> 2) by discriminate; lia)). lia. Qed.
  Lemma draw_spec rnd : bytes rnd -> length rnd = 32%nat -> sm2_draw L rnd = be_bytes 32 (draw_k rnd).
  Proof.
    intros Hb Hl. unfold sm2_draw.
    destruct (ok_from_bytes _ _ _ LOK rnd Hb Hl) as [L1 V1].
    destruct (mod_n_sub1_spec _ L1) as [L2 V2]. rewrite V1 in V2.
    pose proof (be_val_bound rnd Hb) as B. rewrite Hl in B. change (256 ^ Z.of_nat 32) with (2 ^ 256) in B.
    pose proof SM2_n_range as NR.
    assert (VD : val w (sm2_bn_mod_n_sub1 L (nl_from_bytes L rnd)) = be_val rnd mod (SM2_n - 1)).
    { rewrite V2. destruct (Z.leb_spec (SM2_n - 1) (be_val rnd)) as [G|G].
      - assert (N2 : 2 ^ 256 < 2 * SM2_n - 2) by reflexivity.
        apply Z.mod_unique with 1; [left|]; clear - B N2 G; lia.
      - symmetry. apply Z.mod_small. clear - B G. lia. }
    pose proof (ok_add32 _ _ _ LOK _ 1 L2 ltac:(lia)) as A.
    unfold sm2_bn_add_uint32. destruct (nl_add32 L (sm2_bn_mod_n_sub1 L (nl_from_bytes L rnd)) 1) as [r c]. destruct A as (A1 & A2 & A3).
    cbn [fst]. rewrite (ok_to_bytes _ _ _ LOK _ A1). f_equal. rewrite VD in A3. unfold draw_k.
    pose proof (Z.mod_pos_bound (be_val rnd) (SM2_n - 1) ltac:(clear - NR; lia)) as MB.
    pose proof (val_bound w nn r ltac:(pose proof (ok_w _ _ _ LOK); lia) A1) as VB.
    apply proj1 in VB. clear - A2 A3 MB NR VB. assert (c = 0) by lia. subst. lia.
  Qed.
  Lemma k_bytes k : 0 <= k < SM2_n -> be_val (be_bytes 32 k) = k.
  Proof.
    intros Hk. rewrite be_val_be_bytes. apply Z.mod_small. pose proof SM2_n_range.
    change (256 ^ Z.of_nat 32) with (2 ^ 256). lia.
  Qed.
  Lemma mulg_k k : 0 <= k < SM2_n -> exists J, sm2_ec_j_mul_g L (be_bytes 32 k) = Ok J /\ jr J (zm k SM2_G).
  Proof.
    intros Hk. destruct (sm2_jmulg w nn L LOK (be_bytes 32 k) (be_bytes_bytes _ _) (be_bytes_length _ _)) as (J & E & R).
    rewrite k_bytes, Z.mod_small in R by assumption. eauto.
  Qed.
  Lemma mula_k k Q x y : 0 <= k < SM2_n -> ar Q (x, y) -> SM2_on (Aff x y) ->
    exists J, sm2_ec_j_mul_a L (be_bytes 32 k) Q = Ok J /\ jr J (zm k (Aff x y)).
  Proof.
    intros Hk HQ On. destruct (sm2_jmul w nn L LOK (be_bytes 32 k) Q x y (be_bytes_bytes _ _) (be_bytes_length _ _) HQ On) as (J & E & R).
    rewrite k_bytes, Z.mod_small in R by assumption. eauto.
  Qed.

  (** ** Keys *)
  Lemma set_pub_spec x y : bytes x -> length x = 32%nat -> bytes y -> length y = 32%nat ->
    let P := Aff (fof SM2_p (be_val x)) (fof SM2_p (be_val y)) in
    (SM2_on P /\ exists pk, sm2_set_pub L x y = Ok pk /\ sm2_get_pub pk = (x, y) /\
       ar (pub_P pk) (fof SM2_p (be_val x), fof SM2_p (be_val y))) \/
    (~ SM2_on P /\ sm2_set_pub L x y = Throw).
  Proof.
    intros Bx Lx By Ly P. unfold sm2_set_pub.
    assert (AR : ar (sm2_fp_from_bytes L x, sm2_fp_from_bytes L y) (fof SM2_p (be_val x), fof SM2_p (be_val y))).
    { split; now apply (Rp_from_bytes w nn L LOK). }
    pose proof (sm2_check_spec w nn L LOK _ _ _ AR) as CK.
    destruct (sm2_ec_a_check L _); cbn [negb].
    - left. split; [now apply CK|]. eexists. split; [reflexivity|]. split; [reflexivity|exact AR].
    - right. split; [|reflexivity]. intros On. apply CK in On. discriminate.
  Qed.
  Lemma set_pub_rep x y : SM2_on (Aff x y) -> exists pk, sm2_set_pub L (SM2_fb x) (SM2_fb y) = Ok pk /\ pub_rep pk x y.
  Proof.
    intros On. destruct (set_pub_spec (SM2_fb x) (SM2_fb y) (SM2_fb_bytes _) (SM2_fb_length _) (SM2_fb_bytes _) (SM2_fb_length _))
      as [(_ & pk & E & G & AR)|(N & _)].
    - exists pk. split; [exact E|]. rewrite !fof_bytes_val in AR. unfold sm2_get_pub in G. injection G as Gx Gy.
      repeat split; try assumption; apply AR.
    - exfalso. apply N. now rewrite !fof_bytes_val.
  Qed.

  Definition priv_rep (sk : sm2_priv) (d : Z) (x y : SM2_F) : Prop :=
    priv_d sk = be_bytes 32 d /\ 1 <= d <= SM2_n - 1 /\ zm d SM2_G = Aff x y /\ pub_rep (priv_pub sk) x y.

  Lemma pub_of_j J k x y : 0 <= k -> jr J (zm k SM2_G) -> zm k SM2_G = Aff x y ->
    let a := sm2_ec_j_to_a L J in
    pub_rep (MkPub a (sm2_fp_to_bytes L (fst a)) (sm2_fp_to_bytes L (snd a))) x y.
  Proof.
    intros Hk R E a. pose proof (sm2_to_a w nn L LOK J _ R) as AR. rewrite E in AR. cbn [pt_x pt_y] in AR.
    fold a in AR. destruct a as [ax ay] eqn:Ea. destruct AR as [Ax Ay]. cbn [fst snd].
    split; [split; assumption|]. cbn [pub_x pub_y].
    rewrite (Rp_to_bytes w nn L LOK _ _ Ax), (Rp_to_bytes w nn L LOK _ _ Ay).
    split; [reflexivity|]. split; [reflexivity|]. rewrite <- E. apply zm_on. exact sm2_G_on.
  Qed.
  Lemma mul_G_aff k : 0 < k < SM2_n -> exists x y, zm k SM2_G = Aff x y.
  Proof.
    intros Hk. pose proof (zm_fin k SM2_G sm2_G_on sm2_G_finite Hk) as N.
    destruct (zm k SM2_G) as [|x y]; [contradiction|eauto].
  Qed.
  Lemma gen_priv_spec rnd : bytes rnd -> length rnd = 32%nat ->
    exists sk x y, sm2_gen_priv L rnd = Ok sk /\ priv_rep sk (draw_k rnd) x y.
  Proof.
    intros Hb Hl. unfold sm2_gen_priv. rewrite draw_spec by assumption. pose proof (draw_k_range rnd) as KR.
    destruct (mulg_k (draw_k rnd) ltac:(lia)) as (J & E & R). rewrite E. cbn [bind].
    destruct (mul_G_aff (draw_k rnd) ltac:(lia)) as (x & y & Exy).
    eexists _, x, y. split; [reflexivity|]. split; [reflexivity|]. split; [exact KR|]. split; [exact Exy|].
    apply (pub_of_j J (draw_k rnd)); [lia|exact R|exact Exy].
  Qed.
  Lemma set_priv_spec d : bytes d -> length d = 32%nat ->
    (1 <= be_val d <= SM2_n - 2 /\ exists sk x y, sm2_set_priv L d = Ok sk /\ priv_rep sk (be_val d) x y) \/
    (~ (1 <= be_val d <= SM2_n - 2) /\ sm2_set_priv L d = Throw).
  Proof.
    intros Hb Hl. unfold sm2_set_priv.
    destruct (ok_from_bytes _ _ _ LOK d Hb Hl) as [L1 V1].
    destruct (mod_n_sub1_spec _ L1) as [L2 V2]. rewrite V1 in V2.
    rewrite (ok_is0 _ _ _ LOK _ L1), (ok_cmp _ _ _ LOK _ _ L1 L2), V1, V2, Zcmp_eq.
    pose proof (be_val_bound d Hb) as B. pose proof sm2_n_pos as NP. assert (N3 : 5 < SM2_n) by exact SM2_n_gt5.
    destruct (Z.eqb_spec (be_val d) 0) as [Z0|Z0]; cbn [orb].
    - right. split; [lia|reflexivity].
    - destruct (Z.leb_spec (SM2_n - 1) (be_val d)) as [G|G].
      + replace (be_val d =? be_val d - (SM2_n - 1)) with false by (symmetry; apply Z.eqb_neq; lia). cbn [negb].
        right. split; [lia|reflexivity].
      + rewrite Z.eqb_refl. cbn [negb].
        destruct (mulg_k (be_val d) ltac:(lia)) as (J & E & R).
        assert (ED : be_bytes 32 (be_val d) = d) by (rewrite <- Hl; now apply be_bytes_be_val).
        rewrite ED in E. rewrite E. cbn [bind].
        destruct (mul_G_aff (be_val d) ltac:(lia)) as (x & y & Exy).
        left. split; [lia|]. eexists _, x, y. split; [reflexivity|].
        split; [now rewrite ED|]. split; [lia|]. split; [exact Exy|].
        apply (pub_of_j J (be_val d)); [lia|exact R|exact Exy].
  Qed.

  (** ** Verification *)
  Definition accepts (x y : SM2_F) (id msg : list Z) (r s : Z) : Prop :=
    1 <= r <= SM2_n - 1 /\ 1 <= s <= SM2_n - 1 /\
    let t := (r + s) mod SM2_n in t <> 0 /\
    (SM2_e Hd id msg x y + fval (pt_x (SM2_add (zm s SM2_G) (zm t (Aff x y))))) mod SM2_n = r.

  Lemma verify_spec pk x y rb sb msg id : pub_rep pk x y -> id_ok id -> msg_ok msg ->
    bytes rb -> length rb = 32%nat -> bytes sb -> length sb = 32%nat ->
    exists b, sm2_verify_ L H pk rb sb msg id = Ok b /\ (b = true <-> accepts x y id msg (be_val rb) (be_val sb)).
  Proof.
    intros PK Hid Hmsg Br Lr Bs Ls. unfold sm2_verify_.
    destruct (ok_from_bytes _ _ _ LOK rb Br Lr) as [R1 R2]. destruct (ok_from_bytes _ _ _ LOK sb Bs Ls) as [S1 S2].
    destruct (ok_from_bytes _ _ _ LOK SM2_CURVE_N ltac:(const_bytes) eq_refl) as [N1 N2]. rewrite SM2_n_val in N2.
    rewrite !(ok_is0 _ _ _ LOK), !(ok_cmp _ _ _ LOK) by assumption. rewrite R2, S2, N2.
    pose proof (be_val_bound rb Br) as BR. pose proof (be_val_bound sb Bs) as BS. pose proof sm2_n_pos as NP.
    rewrite !Zcmp_ge.
    destruct ((be_val rb =? 0) || (SM2_n <=? be_val rb) || (be_val sb =? 0) || (SM2_n <=? be_val sb)) eqn:EC.
    { exists false. split; [reflexivity|]. split; [discriminate|]. intros (A1 & A2 & _). exfalso. lia. }
    assert (Hr : 1 <= be_val rb <= SM2_n - 1) by lia. assert (Hs : 1 <= be_val sb <= SM2_n - 1) by lia. clear EC.
    destruct (digest_ok pk x y msg id PK Hid Hmsg) as [ED BD]. rewrite ED. cbn [bind].
    pose proof (Rn_from_bytes w nn L LOK rb Br Lr) as Rr. pose proof (Rn_from_bytes w nn L LOK sb Bs Ls) as Rs.
    rewrite Z.mod_small in Rr by lia. rewrite Z.mod_small in Rs by lia.
    pose proof (ok_add _ _ _ LOK _ _ _ _ _ _ (FN_CTX_ok w nn L LOK) Rr Rs) as Rt.
    set (t := (be_val rb + be_val sb) mod SM2_n) in *.
    assert (Bt : 0 <= t < SM2_n) by (apply Z.mod_pos_bound; lia).
    rewrite (ok_equal_zero _ _ _ LOK _ _ _ _ (FN_CTX_ok w nn L LOK) Rt).
    destruct (Z.eqb_spec t 0) as [T0|T0].
    { exists false. split; [reflexivity|]. split; [discriminate|]. intros (_ & _ & A & _). contradiction. }
    rewrite (Rn_to_bytes w nn L LOK _ _ Rt).
    destruct PK as (AR & Ex & Ey & On). rewrite Ex, Ey.
    assert (AR2 : ar (sm2_fp_from_bytes L (SM2_fb x), sm2_fp_from_bytes L (SM2_fb y)) (x, y)).
    { rewrite <- (fof_bytes_val x) at 2. rewrite <- (fof_bytes_val y) at 2.
      split; apply (Rp_from_bytes w nn L LOK); try apply SM2_fb_bytes; apply SM2_fb_length. }
    assert (ES : sb = be_bytes 32 (be_val sb)) by (rewrite <- Ls; symmetry; now apply be_bytes_be_val).
    destruct (mulg_k (be_val sb) ltac:(lia)) as (J1 & E1 & M1). rewrite <- ES in E1. rewrite E1. cbn [bind].
    destruct (mula_k t _ _ _ Bt AR2 On) as (J2 & E2 & M2). rewrite E2. cbn [bind].
    assert (F1 : zm (be_val sb) SM2_G <> Inf) by (apply zm_fin; [exact sm2_G_on|exact sm2_G_finite|lia]).
    assert (F2 : zm t (Aff x y) <> Inf) by (apply zm_fin; [exact On|discriminate|lia]).
    pose proof (sm2_jadd w nn L LOK _ _ _ _ M1 M2 (zm_on _ _ sm2_G_on) (zm_on _ _ On) ltac:(tauto)) as M3.
    pose proof (sm2_to_a w nn L LOK _ _ M3) as A3.
    set (S := SM2_add (zm (be_val sb) SM2_G) (zm t (Aff x y))) in *.
    destruct (sm2_ec_j_to_a L (sm2_ec_j_add L J1 J2)) as [ax ay]. destruct A3 as [Ax _]. cbn [fst].
    pose proof (Rn_from_fp w nn L LOK _ _ Ax) as Rx.
    destruct (Rn_from_bytes_ex w nn L LOK _ BD) as (e & Ee & Re). rewrite Ee. cbn [bind].
    pose proof (ok_add _ _ _ LOK _ _ _ _ _ _ (FN_CTX_ok w nn L LOK) Re Rx) as Rsum.
    rewrite <- Zplus_mod in Rsum.
    rewrite (ok_equal _ _ _ LOK _ _ _ _ _ _ (FN_CTX_ok w nn L LOK) Rsum Rr).
    eexists. split; [reflexivity|]. rewrite Z.eqb_eq. unfold accepts. fold t. fold S.
    change (be_val (SM2_dg id msg x y)) with (SM2_e Hd id msg x y). tauto.
  Qed.
End SM2.

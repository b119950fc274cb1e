(** GCM sessions conform to SP 800-38D. *)
From Verif Require Import Base BaseFacts ModelEndian ProofEndian ModelModes SpecModes ProofModeStream ProofModes ProofModes2
  ProofModes3 ModelHash ProofHash SpecGHASH ModelGHASH ProofGHASH ProofGHClass ModelCipher SpecCipher ProofCipher SpecGCM ModelGCM SpecGCMUse.

(** The 64-bit sum wraps exactly when it is smaller than its first operand. *)
Lemma wrap_test ct n : 0 <= ct < 2 ^ 64 -> 0 <= n < 2 ^ 64 -> (w64 (ct + n) <? ct) = (2 ^ 64 <=? ct + n).
Proof. intros. unfold w64. lia. Qed.

Definition blk (m : list Z) : list Z := map be_val (cut 16 (length m / 16) m).
Definition al16 (m : list Z) : Prop := (length m mod 16 = 0)%nat.
Lemma al16_div m : al16 m -> length m = (length m / 16 * 16)%nat.
Proof. unfold al16. intros. pose proof (Nat.div_mod (length m) 16). lia. Qed.
Lemma blk_app a b : al16 a -> blk (a ++ b) = blk a ++ blk b.
Proof.
  intros H. unfold blk. rewrite app_length.
  pose proof (al16_div a H) as D. rewrite D at 1. rewrite Nat.div_add_l by lia.
  rewrite cut_app2 by assumption. apply map_app.
Qed.
Lemma GHB_app h y a b : GHASH_blocks h y (a ++ b) = GHASH_blocks h (GHASH_blocks h y a) b.
Proof. apply fold_left_app. Qed.
Lemma GHASH_blk H m : GHASH H m = be_bytes 16 (GHASH_blocks (be_val H) 0 (blk m)).
Proof. reflexivity. Qed.
Lemma padlen_al d z : length z = padlen d -> al16 (d ++ z).
Proof.
  unfold padlen, al16. intros H. rewrite app_length, H.
  pose proof (Nat.mod_upper_bound (length d) 16). pose proof (Nat.div_mod (length d) 16). lia.
Qed.
Lemma pad16_al d : al16 (pad16 d).
Proof. apply padlen_al, repeat_length. Qed.
Lemma pad16_app a b : al16 a -> pad16 (a ++ b) = a ++ pad16 b.
Proof.
  unfold pad16, padlen, al16. intros H. rewrite app_length, <- app_assoc. do 3 f_equal.
  rewrite (Nat.add_mod (length a)), H by lia. rewrite Nat.add_0_l, Nat.mod_mod by lia. reflexivity.
Qed.
Lemma pad16_al_id a : al16 a -> pad16 a = a.
Proof. unfold pad16, padlen, al16. intros ->. apply app_nil_r. Qed.
Lemma al16_app a b : al16 a -> al16 b -> al16 (a ++ b).
Proof. unfold al16. rewrite app_length. intros. rewrite Nat.add_mod, H, H0 by lia. reflexivity. Qed.
Lemma zpad_bytes n : bytes (zpad n).
Proof. unfold zpad. apply Forall_forall. intros x Hx. apply repeat_spec in Hx. subst. unfold is_byte. lia. Qed.
Lemma pad16_zpad d : pad16 d = d ++ zpad (length d).
Proof. reflexivity. Qed.

(** ** The hash object inside GCM *)
Section HASH.
  Variable G : ghash_impl.
  Variable OK : ghash_ok G.
  Notation rel := (go_rel G OK).
  Definition al (s : hstate (gi_ctx G)) : Prop := hsize s = 0%nat /\ length (hbuf s) = 16%nat.

  Lemma hu_al s d n : al s -> length d = (n * 16)%nat ->
    gh_update G s d = Ok (mkH (hbuf s) 0 (gi_blocks G (hctx s) d n)).
  Proof.
    intros [Hs Hb] Hd. unfold gh_update, h_update.
    destruct (Nat.eqb_spec (length d) 0) as [E|E].
    - replace n with 0%nat by lia. rewrite (go_0 G OK). rewrite <- Hs. destruct s; reflexivity.
    - rewrite Hs. cbn [Nat.eqb]. rewrite Hd, Nat.div_mul by lia.
      unfold feed. rewrite ProofHash.read_ok by lia. cbn [bind]. unfold gh_ub. cbn [bind].
      unfold keep_rest. rewrite skipn_all2 by lia. cbn [length]. rewrite Nat.ltb_irrefl, Hs.
      rewrite slice_0, firstn_all2 by lia. reflexivity.
  Qed.
  Lemma hu_pad s h y d z : al s -> rel (hctx s) h y -> bytes d -> bytes z -> length z = padlen d ->
    exists s', bind (gh_update G s d) (fun s1 => gh_update G s1 z) = Ok s' /\ al s' /\
      rel (hctx s') h (GHASH_blocks h y (blk (d ++ z))).
  Proof.
    intros [Hs Hb] R Bd Bz Lz.
    pose proof (repr_reset (gi_ctx G) 16 (gh_ub G) (gh_fb G) ltac:(lia) (fun _ => True) (gub_V G) (gub_0 G OK) (gub_add G OK) (gub_loc G OK) s (hctx s) I Hb) as R0.
    assert (E : h_reset (gi_ctx G) s (hctx s) = s) by (unfold h_reset; rewrite <- Hs; destruct s; reflexivity).
    rewrite E in R0.
    destruct (gh_update_repr G OK (hctx s) [] s d R0 (or_introl eq_refl)) as (s1 & E1 & R1). cbn [app] in R1.
    assert (A : (length d mod 16 = 0 \/ length d mod 16 + length z < 32)%nat).
    { right. rewrite Lz. unfold padlen. pose proof (Nat.mod_upper_bound (length d) 16). pose proof (Nat.mod_upper_bound (16 - length d mod 16) 16). lia. }
    destruct (gh_update_repr G OK (hctx s) d s1 z R1 A) as (s2 & E2 & R2).
    exists s2. rewrite E1. cbn [bind]. split; [exact E2|].
    pose proof (padlen_al d z Lz) as AL.
    destruct R2 as [L2 S2 _ C2 _]. split.
    - split; [rewrite S2; exact AL|exact L2].
    - unfold gh_ub in C2. apply (f_equal (fun r => match r with Ok c => c | _ => hctx s end)) in C2. cbv beta iota in C2.
      rewrite <- C2. apply (go_blocks G OK).
      + exact R.
      + apply bytes_app. auto.
      + apply Nat.mul_div_le. lia.
  Qed.
  Lemma hfin s h y : al s -> rel (hctx s) h y ->
    gh_final G s [] = Ok (mkH (hbuf s) 0 (hctx s), be_bytes 16 y).
  Proof.
    intros [Hs Hb] R. unfold gh_final, h_final. cbn [h_update length Nat.eqb bind].
    change (h_update (gi_ctx G) 16 (gh_ub G) s []) with (Ok s). cbn [bind].
    rewrite Hs. unfold gh_fb. rewrite firstn_O, (go_final G OK _ _ _ R). reflexivity.
  Qed.
End HASH.

(** ** Streaming laws of update_blocks *)
Section GCM.
  Variable C : cipher.
  Variable klen : nat.
  Variable E D : list Z -> list Z -> list Z.
  Hypothesis IM : implements C klen E D.
  Hypothesis BS16 : cBS C = 16%nat.
  Variable G : ghash_impl.
  Variable OK : ghash_ok G.
  Notation rel := (go_rel G OK).
  Notation gcm := (gcm C G).

  Definition VI (c : list Z) : Prop := bytes c /\ length c = 16%nat.
  Lemma VI_len c : VI c -> length c = 16%nat. Proof. intros [_ H]; exact H. Qed.
  Lemma VI_inc c : VI c -> VI (gctr_inc c). Proof. apply gctr_inc_ok. Qed.
  Lemma CO : cipher_ok (cK C) 16 (cPN C) (c_eb C) (c_db C) (c_ebs C) (c_dbs C).
  Proof. rewrite <- BS16. exact (im_co C klen E D IM). Qed.

  Definition fc := f_ctr (cK C) (c_eb C) gctr_inc.
  Definition sc (k : cK C) (c d : list Z) (n : nat) := scan (fc k) c (cut 16 n d).
  Definition VG (m : gcm) : Prop := VI (gmc m) /\ al G (gmh m) /\ 0 <= gmct m.

  Lemma sc_ok k c d n : VI c -> length d = (n * 16)%nat ->
    VI (fst (sc k c d n)) /\ length (concat (snd (sc k c d n))) = (n * 16)%nat.
  Proof.
    intros Hc Hd.
    destruct (scan_ok _ (fc k) 16 VI (fun s b Hs Hb => f_ctr_ok _ _ _ _ _ _ _ CO gctr_inc VI VI_len VI_inc k s b I Hs Hb) (cut 16 n d)
                (blocksz_cut _ _ _ Hd) c Hc) as (A & B & Cc).
    split; [exact A|]. unfold sc. rewrite (concat_length_bs 16) by assumption. rewrite Cc, cut_length. reflexivity.
  Qed.
  Lemma gctr_ub_eq k c d n : VI c -> length d = (n * 16)%nat ->
    gctr_ub C k c d n = (fst (sc k c d n), concat (snd (sc k c d n))).
  Proof. intros Hc Hd. unfold gctr_ub. apply (ctr_loop_scan _ _ _ _ _ _ _ CO gctr_inc VI VI_len VI_inc); auto. Qed.
  Lemma sc_app k c d1 n1 d2 n2 : length d1 = (n1 * 16)%nat ->
    sc k c (d1 ++ d2) (n1 + n2) =
    (fst (sc k (fst (sc k c d1 n1)) d2 n2), snd (sc k c d1 n1) ++ snd (sc k (fst (sc k c d1 n1)) d2 n2)).
  Proof.
    intros H. unfold sc. rewrite cut_app2 by assumption. rewrite scan_app.
    destruct (scan (fc k) c (cut 16 n1 d1)) as [s1 o1]. cbn [fst snd].
    destruct (scan (fc k) s1 (cut 16 n2 d2)) as [s2 o2]. reflexivity.
  Qed.

  Definition lim : Z := (2 ^ 64 - 1) / 8.
  Lemma lim_test x : (2 ^ 64 <=? x) || ((2 ^ 64 - 1) / 8 <? x) = (lim <? x).
  Proof. unfold lim. change ((2 ^ 64 - 1) / 8) with (2 ^ 61 - 1). lia. Qed.

  Definition hset (h : hstate (gi_ctx G)) (d : list Z) (n : nat) : hstate (gi_ctx G) :=
    mkH (hbuf h) 0 (gi_blocks G (hctx h) d n).
  Lemma hset_al h d n : al G h -> al G (hset h d n).
  Proof. intros [A B]. split; [reflexivity|exact B]. Qed.
  Lemma hset_app h d1 n1 d2 n2 : length d1 = (n1 * 16)%nat ->
    hset (hset h d1 n1) d2 n2 = hset h (d1 ++ d2) (n1 + n2).
  Proof.
    intros H. unfold hset. cbn [hbuf hctx]. f_equal. rewrite (go_add G OK).
    rewrite skipn_exact by lia. rewrite (go_loc G OK) by lia. reflexivity.
  Qed.

  (** update_blocks of either direction as one function: [src] picks what is hashed. *)
  Definition step (L : Z) (src : list Z -> list Z -> list Z) (m : gcm) (d : list Z) (n : nat) : res (gcm * list Z) :=
    let o := concat (snd (sc (gmk m) (gmc m) d n)) in
    if L <? gmct m + Z.of_nat (n * 16) then Throw
    else Ok (mkGCM (gmk m) (gmc0 m) (fst (sc (gmk m) (gmc m) d n)) (hset (gmh m) (src d o) n) (gmtag m)
               (gmct m + Z.of_nat (n * 16)) (gmaad m) (gmt m) (gmok m), o).
  Definition src_out (d o : list Z) := o.
  Definition src_in (d o : list Z) := d.

  Lemma enc_ub_eq m d n : VG m -> length d = (n * 16)%nat -> gcm_enc_ub C G m d n = step lim src_out m d n.
  Proof.
    intros (V1 & V2 & V3) Hd. unfold gcm_enc_ub, step, src_out. rewrite gctr_ub_eq by assumption. cbv zeta.
    rewrite lim_test. destruct (lim <? gmct m + Z.of_nat (n * 16)); [reflexivity|].
    rewrite (hu_al G OK _ _ n) by (auto; apply sc_ok; assumption). reflexivity.
  Qed.
  Lemma dec_ub_eq m d n : VG m -> length d = (n * 16)%nat -> gmct m < 2 ^ 64 -> gcm_dec_ub C G m d n = step (2 ^ 64 - 1) src_in m d n.
  Proof.
    intros (V1 & V2 & V3) Hd Hlt. unfold gcm_dec_ub, step, src_in. destruct (Nat.eqb_spec n 0) as [->|Hn].
    - destruct (Z.ltb_spec (2 ^ 64 - 1) (gmct m + Z.of_nat (0 * 16))); [lia|].
      assert (Ed : d = []) by (apply length_zero_iff_nil; lia). subst d. unfold sc. cbn [cut scan fst snd concat].
      unfold hset. rewrite (go_0 G OK). rewrite Z.add_0_r. destruct V2 as [V2 _]. rewrite <- V2. destruct m as [? ? ? [] ? ? ? ? ?]; reflexivity.
    - rewrite gctr_ub_eq by assumption. cbv zeta.
      replace (2 ^ 64 - 1 <? gmct m + Z.of_nat (n * 16)) with (2 ^ 64 <=? gmct m + Z.of_nat (n * 16)) by lia.
      destruct (2 ^ 64 <=? gmct m + Z.of_nat (n * 16)); [reflexivity|].
      rewrite (hu_al G OK _ _ n) by auto. reflexivity.
  Qed.
  Definition VL (L : Z) (m : gcm) : Prop := VG m /\ gmct m <= L.

  Section LAWS.
    Variable L : Z.
    Variable src : list Z -> list Z -> list Z.
    Hypothesis srcE : src = src_out \/ src = src_in.
    Lemma src_len d o n : length d = (n * 16)%nat -> length o = (n * 16)%nat -> length (src d o) = (n * 16)%nat.
    Proof. destruct srcE as [->| ->]; auto. Qed.
    Lemma src_app d o d' o' : src (d ++ d') (o ++ o') = src d o ++ src d' o'.
    Proof. destruct srcE as [->| ->]; reflexivity. Qed.
    Lemma step_len m d n m' o : VL L m -> length d = (n * 16)%nat -> step L src m d n = Ok (m', o) ->
      VL L m' /\ length o = (n * 16)%nat.
    Proof.
      intros ((V1 & V2 & V3) & V4) Hd. unfold step. destruct (Z.ltb_spec L (gmct m + Z.of_nat (n * 16))); [discriminate|].
      intros H0. injection H0 as <- <-. destruct (sc_ok (gmk m) (gmc m) d n V1 Hd) as [S1 S2]. split; [|exact S2].
      split; [|exact H]. split; [exact S1|]. split; [apply hset_al; exact V2|cbn [gmct]; lia].
    Qed.
    Lemma step_app m d1 n1 d2 n2 : VL L m -> length d1 = (n1 * 16)%nat -> length d2 = (n2 * 16)%nat ->
      step L src m (d1 ++ d2) (n1 + n2) =
      bind (step L src m d1 n1) (fun '(m1, o1) => bind (step L src m1 d2 n2) (fun '(m2, o2) => Ok (m2, o1 ++ o2))).
    Proof.
      intros ((V1 & V2 & V3) & V4) H1 H2. unfold step.
      destruct (sc_ok (gmk m) (gmc m) d1 n1 V1 H1) as [S1 S2].
      destruct (Z.ltb_spec L (gmct m + Z.of_nat (n1 * 16))) as [A|A]; cbn [bind].
      { destruct (Z.ltb_spec L (gmct m + Z.of_nat ((n1 + n2) * 16))); [reflexivity|lia]. }
      cbn [gmk gmc gmc0 gmh gmtag gmct gmaad gmt gmok].
      replace (gmct m + Z.of_nat ((n1 + n2) * 16)) with (gmct m + Z.of_nat (n1 * 16) + Z.of_nat (n2 * 16)) by lia.
      destruct (Z.ltb_spec L (gmct m + Z.of_nat (n1 * 16) + Z.of_nat (n2 * 16))) as [B|B]; cbn [bind]; [reflexivity|].
      rewrite sc_app by assumption. cbn [fst snd]. rewrite concat_app, src_app.
      rewrite hset_app by (apply src_len; assumption). reflexivity.
    Qed.
    Lemma step_0 m : VL L m -> step L src m [] 0 = Ok (m, []).
    Proof.
      intros ((V1 & V2 & V3) & V4). unfold step. destruct (Z.ltb_spec L (gmct m + Z.of_nat (0 * 16))); [lia|].
      unfold sc. cbn [cut scan fst snd concat]. unfold hset.
      replace (src [] []) with (@nil Z) by (destruct srcE as [->| ->]; reflexivity).
      rewrite (go_0 G OK). rewrite Z.add_0_r. destruct V2 as [V2 _]. rewrite <- V2. destruct m as [? ? ? [] ? ? ? ? ?]; reflexivity.
    Qed.
    Lemma step_noUB m d n : step L src m d n <> UB.
    Proof. unfold step. destruct (_ <? _); discriminate. Qed.
  End LAWS.

  (** ** One key *)
  Variable key : list Z.
  Hypothesis Kb : bytes key.
  Hypothesis Kl : length key = klen.
  Let kk := c_set_key C key true.
  Let CI := E key.

  Lemma eb_E b : VI b -> c_eb C kk b = CI b.
  Proof. intros [B L]. apply (im_enc _ _ _ _ IM); auto. rewrite BS16. exact L. Qed.
  Lemma CI_VI b : VI b -> VI (CI b).
  Proof.
    intros [B L]. split.
    - apply (im_Ebytes _ _ _ _ IM); auto. rewrite BS16. exact L.
    - rewrite <- eb_E by (split; assumption). rewrite (im_elen _ _ _ _ IM), BS16 by (rewrite BS16; exact L). reflexivity.
  Qed.
  Lemma inc32_eq c : VI c -> inc32 c = gctr_inc c.
  Proof. intros [B L]. symmetry. apply gctr_inc_spec; assumption. Qed.
  Lemma scan_gctr xs : forall c, VI c -> snd (scan (fc kk) c xs) = gctr_blocks CI c xs.
  Proof.
    induction xs as [|x xs IH]; intros c Hc; [reflexivity|]. rewrite scan_cons. cbn [gctr_blocks snd fst fc f_ctr].
    rewrite IH by (apply VI_inc, Hc). rewrite eb_E, inc32_eq by assumption. reflexivity.
  Qed.
  Lemma gctr_blocks_app xs ys : forall c, VI c ->
    gctr_blocks CI c (xs ++ ys) = gctr_blocks CI c xs ++ gctr_blocks CI (fst (scan (fc kk) c xs)) ys.
  Proof.
    induction xs as [|x xs IH]; intros c Hc; [reflexivity|]. rewrite scan_cons. cbn [gctr_blocks app snd fst fc f_ctr].
    rewrite inc32_eq, IH by (try apply VI_inc; assumption). reflexivity.
  Qed.
  Lemma gctr_bytes xs : forall c, VI c -> Forall bytes xs -> bytes (concat (gctr_blocks CI c xs)).
  Proof.
    induction xs as [|x xs IH]; intros c Hc Hx; cbn [gctr_blocks concat]; [constructor|]. inversion_clear Hx.
    apply bytes_app. split.
    - apply xorl_bytes; [assumption|]. apply (proj1 (CI_VI c Hc)).
    - apply IH; [|assumption]. rewrite inc32_eq by assumption. apply VI_inc, Hc.
  Qed.
  Lemma sc_gctr c x n : VI c -> snd (sc kk c x n) = gctr_blocks CI c (cut 16 n x).
  Proof. intros. unfold sc. apply scan_gctr. assumption. Qed.

  Lemma gctr_fb_eq c d : VI c -> (length d <= 16)%nat ->
    gctr_fb C kk c d = (gctr_inc c, xorl d (CI c)).
  Proof.
    intros Hc Ld. unfold gctr_fb, gen_ks. cbn [counters]. rewrite app_nil_r.
    pose proof (VI_len _ Hc) as Lc.
    rewrite (co_ebs _ _ _ _ _ _ _ CO) by lia. cbn [cut map concat]. rewrite app_nil_r, (firstn_all2 c) by lia.
    rewrite eb_E by assumption. pose proof (VI_len _ (CI_VI _ Hc)) as Le.
    rewrite (xorl_comm (firstn _ _)). f_equal. rewrite <- (firstn_all d) at 1. rewrite <- xorl_firstn. apply firstn_all2.
    rewrite xorl_length. lia.
  Qed.

  Lemma store_len n : store64_be (w64 (n * 8)) = be_bytes 8 (8 * n).
  Proof.
    rewrite store64_be_eq. apply be_bytes_eqm. unfold w64. change (256 ^ Z.of_nat 8) with (2 ^ 64).
    rewrite Z.mod_mod by lia. f_equal. lia.
  Qed.
  Lemma gcm_tag_eq c0 h hh y aad ct : VI c0 -> al G h -> rel (hctx h) hh y ->
    exists h', gcm_tag C G kk c0 h aad ct =
      Ok (h', CI c0, xorl (be_bytes 16 (GHASH_blocks hh y (blk (be_bytes 8 (8 * aad) ++ be_bytes 8 (8 * ct))))) (CI c0)).
  Proof.
    intros Hc Hh R. unfold gcm_tag. rewrite !store_len.
    set (t := be_bytes 8 (8 * aad) ++ be_bytes 8 (8 * ct)).
    assert (Lt : length t = (1 * 16)%nat) by (unfold t; rewrite app_length, !be_bytes_length; reflexivity).
    assert (Bt : bytes t) by (apply bytes_app; split; apply be_bytes_bytes).
    rewrite (hu_al G OK h t 1 Hh Lt). cbn [bind].
    assert (A : al G (hset h t 1)) by (apply hset_al; exact Hh).
    assert (R' : rel (hctx (hset h t 1)) hh (GHASH_blocks hh y (blk t))).
    { unfold hset, blk. cbn [hctx]. rewrite Lt. change (1 * 16 / 16)%nat with 1%nat. apply (go_blocks G OK); auto. }
    change (mkH (hbuf h) 0 (gi_blocks G (hctx h) t 1)) with (hset h t 1).
    rewrite (hfin G OK _ _ _ A R'). cbn [bind]. rewrite eb_E by assumption. eexists. reflexivity.
  Qed.

  Lemma pad_final h hh y d z : al G h -> rel (hctx h) hh y -> bytes d -> bytes z -> length z = padlen d ->
    exists h', bind (gh_update G h d) (fun h => gh_update G h z) = Ok h' /\ al G h' /\
       rel (hctx h') hh (GHASH_blocks hh y (blk (d ++ z))).
  Proof. apply hu_pad. Qed.

  Definition lens (aad ct : Z) : list Z := be_bytes 8 (8 * aad) ++ be_bytes 8 (8 * ct).
  Lemma lens_len a c : length (lens a c) = 16%nat.
  Proof. unfold lens. rewrite app_length, !be_bytes_length. reflexivity. Qed.

  Lemma xorl_bytes_ci d c : VI c -> bytes d -> bytes (xorl d (CI c)).
  Proof. intros Hc Hd. apply xorl_bytes; [assumption|]. apply (proj1 (CI_VI c Hc)). Qed.
  Lemma xorl_len_ci d c : VI c -> (length d <= 16)%nat -> length (xorl d (CI c)) = length d.
  Proof. intros Hc Hd. rewrite xorl_length, (VI_len _ (CI_VI c Hc)). lia. Qed.

  Lemma enc_fb_eq m d hh y : VL lim m -> gmk m = kk -> VI (gmc0 m) -> rel (hctx (gmh m)) hh y -> bytes d -> (length d < 16)%nat ->
    let ct := gmct m + Z.of_nat (length d) in
    let o := xorl d (CI (gmc m)) in
    if lim <? ct then gcm_enc_fb C G m d = Throw
    else exists m', gcm_enc_fb C G m d = Ok (m', o) /\
           gmtag m' = xorl (be_bytes 16 (GHASH_blocks hh y (blk (pad16 o ++ lens (gmaad m) ct)))) (CI (gmc0 m)).
  Proof.
    intros ((V1 & V2 & V3) & V4) Hk V0 R Bd Ld ct o. unfold gcm_enc_fb. rewrite Hk.
    destruct (Nat.eqb_spec (length d) 0) as [E0|E0].
    - assert (Ed : d = []) by (apply length_zero_iff_nil; lia).
      assert (Ec : ct = gmct m) by (unfold ct; lia).
      destruct (Z.ltb_spec lim ct); [lia|]. cbn [bind].
      destruct (gcm_tag_eq (gmc0 m) (gmh m) hh y (gmaad m) (gmct m) V0 V2 R) as (h' & ->). cbn [bind].
      unfold o. rewrite Ed, Ec. cbn [xorl]. eexists. split; [reflexivity|]. reflexivity.
    - rewrite gctr_fb_eq by (auto; lia). fold o. cbv zeta.
      assert (Lo : length o = length d) by (apply xorl_len_ci; [exact V1|lia]).
      destruct (pad_final (gmh m) hh y o (zpad (length d)) V2 R) as (h' & Eh & A' & R').
      { apply xorl_bytes_ci; assumption. } { apply zpad_bytes. } { rewrite <- Lo. apply repeat_length. }
      destruct (gh_update G (gmh m) o) as [h1| |] eqn:E1; cbn [bind] in Eh; try discriminate. cbn [bind].
      rewrite Eh. cbn [bind]. fold ct. rewrite lim_test.
      destruct (lim <? ct); [reflexivity|]. cbn [bind].
      destruct (gcm_tag_eq (gmc0 m) h' hh _ (gmaad m) ct V0 A' R') as (h2 & ->). cbn [bind].
      eexists. split; [reflexivity|]. cbn [gmtag]. rewrite <- GHB_app, <- Lo.
      rewrite <- blk_app by (rewrite Lo; apply padlen_al; rewrite <- Lo; apply repeat_length). reflexivity.
  Qed.

  Lemma dec_fb_eq m d hh y : VL (2 ^ 64 - 1) m -> gmk m = kk -> VI (gmc0 m) -> rel (hctx (gmh m)) hh y -> bytes d -> (length d < 16)%nat ->
    VI (gmt m) ->
    let ct := gmct m + Z.of_nat (length d) in
    let o := xorl d (CI (gmc m)) in
    if 2 ^ 64 - 1 <? ct then gcm_dec_fb C G m d = Throw
    else exists m', gcm_dec_fb C G m d = Ok (m', o) /\ gmt m' = CI (gmc0 m) /\
           (gmok m' = true <-> gmtag m =
             xorl (be_bytes 16 (GHASH_blocks hh y (blk ((d ++ firstn (padlen d) (gmt m)) ++ lens (gmaad m) ct)))) (CI (gmc0 m))).
  Proof.
    intros ((V1 & V2 & V3) & V4) Hk V0 R Bd Ld Vt ct o. unfold gcm_dec_fb. rewrite Hk.
    destruct (Nat.eqb_spec (length d) 0) as [E0|E0].
    - assert (Ed : d = []) by (apply length_zero_iff_nil; lia).
      assert (Ec : ct = gmct m) by (unfold ct; lia).
      destruct (Z.ltb_spec (2 ^ 64 - 1) ct); [lia|]. cbn [bind].
      destruct (gcm_tag_eq (gmc0 m) (gmh m) hh y (gmaad m) (gmct m) V0 V2 R) as (h' & ->). cbn [bind].
      unfold o. rewrite Ed, Ec. cbn [xorl]. eexists. split; [reflexivity|]. split; [reflexivity|]. cbn [gmok].
      change (padlen []) with 0%nat. rewrite firstn_O, app_nil_r. cbn [app]. fold (lens (gmaad m) (gmct m)).
      destruct (list_eq_dec Z.eq_dec _ (gmtag m)) as [e|e]; split; intros Q; try discriminate; auto; congruence.
    - fold ct. replace (2 ^ 64 - 1 <? ct) with (2 ^ 64 <=? ct) by lia.
      destruct (2 ^ 64 <=? ct); [reflexivity|].
      set (p := firstn (padlen d) (gmt m)).
      assert (Hp : (padlen d <= 16)%nat) by (unfold padlen; pose proof (Nat.mod_upper_bound (16 - length d mod 16) 16); lia).
      destruct (pad_final (gmh m) hh y d p V2 R Bd) as (h' & Eh & A' & R').
      { apply bytes_firstn. apply Vt. } { unfold p. rewrite firstn_length, (VI_len _ Vt). lia. }
      destruct (gh_update G (gmh m) d) as [h1| |] eqn:E1; cbn [bind] in Eh; try discriminate. cbn [bind].
      fold (padlen d). rewrite ProofHash.read_ok by (rewrite (VI_len _ Vt); lia). cbn [bind]. rewrite slice_0. fold p.
      rewrite Eh. cbn [bind]. rewrite gctr_fb_eq by (auto; lia). fold o. cbn [bind].
      destruct (gcm_tag_eq (gmc0 m) h' hh _ (gmaad m) ct V0 A' R') as (h2 & ->). cbn [bind].
      eexists. split; [reflexivity|]. split; [reflexivity|]. cbn [gmok]. rewrite <- GHB_app.
      rewrite <- blk_app by (apply padlen_al; unfold p; rewrite firstn_length, (VI_len _ Vt); lia).
      fold (lens (gmaad m) ct).
      destruct (list_eq_dec Z.eq_dec _ (gmtag m)) as [e|e]; split; intros Q; try discriminate; auto; congruence.
  Qed.

  (** ** init *)
  Let HK := hash_subkey CI.
  Let hh := be_val HK.
  Lemma zero_VI : VI (repeat 0 16).
  Proof. split; [|reflexivity]. apply all_bytes_spec. reflexivity. Qed.
  Lemma J0_VI iv : bytes iv -> VI (J0 CI iv).
  Proof.
    intros Bi. unfold J0. destruct (Nat.eqb_spec (length iv) 12) as [e|e].
    - split; [apply bytes_app; split; [assumption|apply all_bytes_spec; reflexivity]|rewrite app_length, e; reflexivity].
    - rewrite GHASH_blk. split; [apply be_bytes_bytes|apply be_bytes_length].
  Qed.
  Lemma gctr_init_eq h iv : al G h -> bytes iv ->
    exists h', gctr_init C G h key iv = Ok (kk, J0 CI iv, h') /\ al G h' /\ rel (hctx h') hh 0.
  Proof.
    intros [A1 A2] Bi. unfold gctr_init. fold kk. rewrite eb_E by apply zero_VI. fold (hash_subkey CI). fold HK.
    set (h1 := gh_set_key G h HK).
    assert (Al1 : al G h1) by (split; [exact A1|exact A2]).
    assert (R1 : rel (hctx h1) hh 0).
    { apply (go_init G OK); apply (CI_VI _ zero_VI). }
    unfold J0. destruct (Nat.eqb_spec (length iv) 12) as [e|e].
    { exists h1. split; [reflexivity|]. split; assumption. }
    destruct (hu_pad G OK h1 hh 0 iv (zpad (length iv)) Al1 R1 Bi (zpad_bytes _) (repeat_length _ _)) as (h2 & E2 & Al2 & R2).
    destruct (gh_update G h1 iv) as [h1'| |] eqn:E1; cbn [bind] in E2; try discriminate. cbn [bind].
    rewrite E2. cbn [bind]. rewrite store_len.
    set (t := store64_be 0 ++ be_bytes 8 (8 * Z.of_nat (length iv))).
    assert (Lt : length t = (1 * 16)%nat) by (unfold t; rewrite app_length, store64_be_eq, !be_bytes_length; reflexivity).
    assert (Bt : bytes t) by (apply bytes_app; split; [rewrite store64_be_eq|]; apply be_bytes_bytes).
    rewrite (hu_al G OK h2 t 1 Al2 Lt). cbn [bind]. change (mkH (hbuf h2) 0 (gi_blocks G (hctx h2) t 1)) with (hset h2 t 1).
    assert (Al3 : al G (hset h2 t 1)) by (apply hset_al; exact Al2).
    assert (R3 : rel (hctx (hset h2 t 1)) hh (GHASH_blocks hh 0 (blk (pad16 iv ++ t)))).
    { rewrite blk_app by apply pad16_al. rewrite GHB_app.
      unfold hset. cbn [hctx]. replace (blk t) with (map be_val (cut 16 1 t)) by (unfold blk; rewrite Lt; reflexivity).
      apply (go_blocks G OK); auto. }
    rewrite (hfin G OK _ _ _ Al3 R3). cbn [bind].
    exists (gh_reset G (mkH (hbuf (hset h2 t 1)) 0 (hctx (hset h2 t 1)))). split.
    - rewrite GHASH_blk. reflexivity.
    - split; [split; [reflexivity|apply Al3]|]. unfold gh_reset. cbn [hctx]. exact (go_reset G OK _ _ _ R3).
  Qed.
  Lemma gcm_init_eq h iv aad tag t : al G h -> bytes iv -> bytes aad ->
    if lim <? Z.of_nat (length aad) then gcm_init C G h key iv aad tag t = Throw
    else exists m, gcm_init C G h key iv aad tag t = Ok m /\ gmk m = kk /\ gmc0 m = J0 CI iv /\
      gmc m = inc32 (J0 CI iv) /\ al G (gmh m) /\ rel (hctx (gmh m)) hh (GHASH_blocks hh 0 (blk (pad16 aad))) /\
      gmtag m = tag /\ gmct m = 0 /\ gmaad m = Z.of_nat (length aad) /\ gmt m = t.
  Proof.
    intros A Bi Ba. unfold gcm_init. fold lim. destruct (lim <? Z.of_nat (length aad)); [reflexivity|].
    destruct (gctr_init_eq h iv A Bi) as (h1 & -> & Al1 & R1). cbn [bind].
    destruct (hu_pad G OK h1 hh 0 aad (zpad (length aad)) Al1 R1 Ba (zpad_bytes _) (repeat_length _ _)) as (h2 & E2 & Al2 & R2).
    destruct (gh_update G h1 aad) as [h1'| |] eqn:E1; cbn [bind] in E2; try discriminate. cbn [bind].
    rewrite E2. cbn [bind]. eexists. split; [reflexivity|]. cbn [gmk gmc0 gmc gmh gmtag gmct gmaad gmt].
    rewrite inc32_eq by (apply J0_VI; assumption). repeat (split; [reflexivity || assumption|]). reflexivity.
  Qed.

  (** ** The two parts of a message *)
  Lemma split_x (x : list Z) : let n := (length x / 16)%nat in
    length (firstn (n * 16) x) = (n * 16)%nat /\ (length (skipn (n * 16) x) < 16)%nat /\
    Z.of_nat (n * 16) + Z.of_nat (length (skipn (n * 16) x)) = Z.of_nat (length x).
  Proof.
    intros n. pose proof (Nat.div_mod (length x) 16). pose proof (Nat.mod_upper_bound (length x) 16).
    fold n in H. rewrite firstn_length, skipn_length. lia.
  Qed.
  Lemma GCTR_split c x : VI c -> let n := (length x / 16)%nat in
    GCTR CI c x = concat (snd (sc kk c (firstn (n * 16) x) n)) ++
                  xorl (skipn (n * 16) x) (CI (fst (sc kk c (firstn (n * 16) x) n))).
  Proof.
    intros Hc n. destruct (split_x x) as (L1 & L2 & _). fold n in L1, L2. unfold GCTR.
    rewrite <- (firstn_skipn (n * 16) x) at 1. rewrite (blocks_of_decomp 16 _ n) by (auto; lia).
    rewrite gctr_blocks_app by assumption. rewrite concat_app, sc_gctr by assumption. f_equal.
    destruct (Nat.eqb_spec (length (skipn (n * 16) x)) 0) as [e|e].
    - apply length_zero_iff_nil in e. rewrite e. reflexivity.
    - cbn [gctr_blocks concat]. apply app_nil_r.
  Qed.
  Lemma GCTR_bytes c x : VI c -> bytes x -> bytes (GCTR CI c x).
  Proof. intros Hc Hx. apply gctr_bytes; [assumption|]. apply cut_bytes. exact Hx. Qed.

  Section RUN.
    Variable L : Z.
    Variable src : list Z -> list Z -> list Z.
    Hypothesis srcE : src = src_out \/ src = src_in.
    Variable ub : gcm -> list Z -> nat -> res (gcm * list Z).
    Variable fb : gcm -> list Z -> res (gcm * list Z).
    Hypothesis ub_step : forall m d n, VL L m -> length d = (n * 16)%nat -> ub m d n = step L src m d n.
    Hypothesis fb_len : forall m d m' o, VL L m -> (length d < 16)%nat -> fb m d = Ok (m', o) -> length o = length d.

    Lemma run_gcm m0 junk calls lastc : VL L m0 -> length junk = 16%nat -> Forall (roomy 16) (calls ++ [lastc]) ->
      let x := inputs (calls ++ [lastc]) in
      let n := (length x / 16)%nat in
      match m_run gcm 16 ub fb (m_new gcm junk m0) calls lastc with
      | Ok (s, o) => bind (step L src m0 (firstn (n * 16) x) n) (fun '(m1, o1) => bind (fb m1 (skipn (n * 16) x)) (fun '(m2, o2) => Ok (m2, o1 ++ o2))) = Ok (mctx s, o)
      | Throw => bind (step L src m0 (firstn (n * 16) x) n) (fun '(m1, o1) => bind (fb m1 (skipn (n * 16) x)) (fun '(m2, o2) => Ok (m2, o1 ++ o2))) = Throw
      | UB => bind (step L src m0 (firstn (n * 16) x) n) (fun '(m1, o1) => bind (fb m1 (skipn (n * 16) x)) (fun '(m2, o2) => Ok (m2, o1 ++ o2))) = UB
      end.
    Proof.
      intros V0 Lj Hr x n.
      pose proof (m_run_oneshot_st gcm 16 ub fb (VL L) ltac:(lia)
        (fun m d n m' o V Hd Eq => step_len L src m d n m' o V Hd (eq_trans (eq_sym (ub_step m d n V Hd)) Eq))) as Q.
      assert (Qapp : forall m d1 n1 d2 n2, VL L m -> length d1 = (n1 * 16)%nat -> length d2 = (n2 * 16)%nat ->
        ub m (d1 ++ d2) (n1 + n2) =
        bind (ub m d1 n1) (fun '(m1, o1) => bind (ub m1 d2 n2) (fun '(m2, o2) => Ok (m2, o1 ++ o2)))).
      { intros m d1 n1 d2 n2 V H1 H2. rewrite !ub_step by (auto; rewrite app_length; lia).
        rewrite step_app by assumption.
        destruct (step L src m d1 n1) as [[m1 o1]| |] eqn:E1; cbn [bind]; try reflexivity.
        destruct (step_len L src m d1 n1 m1 o1 V H1 E1) as [V1 _]. rewrite ub_step by assumption. reflexivity. }
      specialize (Q Qapp (fun m d n V Hd Eq => step_noUB L src m d n (eq_trans (eq_sym (ub_step m d n V Hd)) Eq))).
      specialize (Q (fun m V => eq_trans (ub_step m [] 0%nat V eq_refl) (step_0 L src srcE m V)) fb_len m0 junk calls lastc V0 Lj Hr).
      unfold oneshot_st in Q. fold x in Q. fold n in Q.
      destruct (split_x x) as (L1 & _). fold n in L1. rewrite ub_step in Q by assumption. exact Q.
    Qed.
  End RUN.

  Lemma enc_fb_len m d m' o : VL lim m -> (length d < 16)%nat -> gcm_enc_fb C G m d = Ok (m', o) -> length o = length d.
  Proof.
    intros ((V1 & _ & _) & _) Ld. unfold gcm_enc_fb. destruct (Nat.eqb_spec (length d) 0) as [e|e]; cbn [bind].
    - destruct (gcm_tag _ _ _ _ _ _ _) as [[[? ?] ?]| |]; cbn [bind]; try discriminate. intros Q. injection Q as <- <-. cbn. lia.
    - unfold gctr_fb. unfold gen_ks. cbn [counters]. rewrite app_nil_r.
      pose proof (VI_len _ V1) as Lc.
      rewrite (co_ebs _ _ _ _ _ _ _ CO) by lia. cbn [cut map concat]. rewrite app_nil_r, (firstn_all2 (gmc m)) by lia.
      set (ks := c_eb C (gmk m) (gmc m)).
      assert (Lk : length ks = 16%nat) by (apply (co_elen _ _ _ _ _ _ _ CO); exact Lc).
      destruct (gh_update G (gmh m) _) as [h1| |]; cbn [bind]; try discriminate.
      destruct (gh_update G h1 _) as [h2| |]; cbn [bind]; try discriminate.
      destruct (_ || _); cbn [bind]; [discriminate|].
      destruct (gcm_tag _ _ _ _ _ _ _) as [[[? ?] ?]| |]; cbn [bind]; try discriminate. intros Q. injection Q as <- <-.
      rewrite xorl_length, firstn_length. lia.
  Qed.
  Lemma dec_fb_len m d m' o : VL (2 ^ 64 - 1) m -> (length d < 16)%nat -> gcm_dec_fb C G m d = Ok (m', o) -> length o = length d.
  Proof.
    intros ((V1 & _ & _) & _) Ld. unfold gcm_dec_fb. destruct (Nat.eqb_spec (length d) 0) as [e|e]; cbn [bind].
    - destruct (gcm_tag _ _ _ _ _ _ _) as [[[? ?] ?]| |]; cbn [bind]; try discriminate. intros Q. injection Q as <- <-. cbn. lia.
    - cbv zeta. destruct (2 ^ 64 <=? _); cbn [bind]; [discriminate|].
      destruct (gh_update G (gmh m) _) as [h1| |]; cbn [bind]; try discriminate.
      destruct (read _ _ _) as [p| |]; cbn [bind]; try discriminate.
      destruct (gh_update G h1 _) as [h2| |]; cbn [bind]; try discriminate.
      unfold gctr_fb. unfold gen_ks. cbn [counters]. rewrite app_nil_r.
      pose proof (VI_len _ V1) as Lc.
      rewrite (co_ebs _ _ _ _ _ _ _ CO) by lia. cbn [cut map concat]. rewrite app_nil_r, (firstn_all2 (gmc m)) by lia.
      set (ks := c_eb C (gmk m) (gmc m)).
      assert (Lk : length ks = 16%nat) by (apply (co_elen _ _ _ _ _ _ _ CO); exact Lc). cbn [bind].
      destruct (gcm_tag _ _ _ _ _ _ _) as [[[? ?] ?]| |]; cbn [bind]; try discriminate. intros Q. injection Q as <- <-.
      rewrite xorl_length, firstn_length. lia.
  Qed.

  (** State reached before the final block. *)
  Lemma hset_rel h y d n : al G h -> rel (hctx h) hh y -> bytes d -> length d = (n * 16)%nat ->
    rel (hctx (hset h d n)) hh (GHASH_blocks hh y (blk d)).
  Proof.
    intros A R B Ld. unfold hset, blk. cbn [hctx]. rewrite Ld, Nat.div_mul by lia. apply (go_blocks G OK); auto. lia.
  Qed.

  Lemma gcm_enc_session junk hjunk g0 iv aad calls lastc : length junk = 16%nat -> length hjunk = 16%nat ->
    bytes iv -> bytes aad -> bytes (msg calls lastc) -> Forall (roomy 16) (calls ++ [lastc]) ->
    gcm_encryptor C G junk hjunk g0 key iv aad calls lastc =
    if (lim <? Z.of_nat (length aad)) || (lim <? Z.of_nat (length (msg calls lastc))) then Throw
    else Ok (GCM_enc CI iv aad (msg calls lastc)).
  Proof.
    intros Lj Lh Bi Ba Bm Room. unfold gcm_encryptor.
    pose proof (gcm_init_eq (h_new (gi_ctx G) hjunk g0) iv aad (repeat 0 16) [] (conj eq_refl Lh) Bi Ba) as I.
    destruct (lim <? Z.of_nat (length aad)); [rewrite I; reflexivity|].
    destruct I as (m & -> & Mk & Mc0 & Mc & Mal & Mrel & Mtag & Mct & Maad & Mt). cbn [bind orb].
    pose proof (J0_VI iv Bi) as VJ.
    assert (Vc : VI (gmc m)) by (rewrite Mc, inc32_eq by assumption; apply VI_inc; assumption).
    assert (V0 : VL lim m) by (split; [split; [exact Vc|split; [exact Mal|lia]]|rewrite Mct; unfold lim; lia]).
    pose proof (run_gcm lim src_out (or_introl eq_refl) (gcm_enc_ub C G) (gcm_enc_fb C G)
      (fun m d n V Hd => enc_ub_eq m d n (proj1 V) Hd) enc_fb_len m junk calls lastc V0 Lj Room) as Q.
    rewrite inputs_msg in Q. set (x := msg calls lastc) in *. cbv zeta in Q. set (n := (length x / 16)%nat) in *.
    destruct (split_x x) as (L1 & L2 & L3). fold n in L1, L2, L3.
    set (x0 := firstn (n * 16) x) in *. set (tl := skipn (n * 16) x) in *.
    set (RHS := if lim <? Z.of_nat (length x) then _ else _).
    assert (Main : forall r, bind (step lim src_out m x0 n) (fun '(m1, o1) => bind (gcm_enc_fb C G m1 tl) (fun '(m2, o2) => Ok (m2, o1 ++ o2))) = r ->
       bind r (fun '(m2, o) => Ok (o, gmtag m2)) = RHS).
    { intros r <-. unfold RHS. clear RHS Q. unfold step at 1. rewrite Mct, Z.add_0_l.
      destruct (Z.ltb_spec lim (Z.of_nat (n * 16))) as [B|B].
      { destruct (Z.ltb_spec lim (Z.of_nat (length x))); [reflexivity|lia]. }
      cbn [bind]. rewrite Mk. set (o1 := concat (snd (sc kk (gmc m) x0 n))).
      set (c1 := fst (sc kk (gmc m) x0 n)).
      destruct (sc_ok kk (gmc m) x0 n Vc L1) as [Vc1 Lo1]. fold c1 in Vc1. fold o1 in Lo1.
      assert (Bo1 : bytes o1).
      { unfold o1. rewrite sc_gctr by assumption. apply gctr_bytes; [assumption|]. apply cut_bytes, bytes_firstn. exact Bm. }
      set (m1 := mkGCM kk (gmc0 m) c1 (hset (gmh m) (src_out x0 o1) n) (gmtag m) (Z.of_nat (n * 16)) (gmaad m) (gmt m) (gmok m)).
      assert (V1 : VL lim m1).
      { split; [split; [exact Vc1|split; [apply hset_al, Mal|cbn [m1 gmct]; lia]]|exact B]. }
      pose proof (enc_fb_eq m1 tl hh (GHASH_blocks hh (GHASH_blocks hh 0 (blk (pad16 aad))) (blk o1)) V1 eq_refl) as F.
      cbn [m1 gmc0 gmh gmct gmc gmaad] in F. rewrite Mc0 in F. specialize (F VJ).
      specialize (F (hset_rel _ _ _ _ Mal Mrel Bo1 Lo1) (bytes_skipn _ _ Bm) L2). cbv zeta in F. rewrite L3 in F.
      fold m1 in F.
      destruct (lim <? Z.of_nat (length x)); [rewrite F; reflexivity|].
      destruct F as (m2 & F1 & F2).
      replace (mkGCM kk (gmc0 m) c1 (hset (gmh m) (src_out x0 o1) n) (gmtag m) (Z.of_nat (n * 16)) (gmaad m) (gmt m) (gmok m)) with m1 by reflexivity.
      assert (F1' : gcm_enc_fb C G m1 tl = Ok (m2, xorl tl (CI c1))) by exact F1.
      rewrite F1'. cbn [bind]. apply (f_equal Ok).
      assert (EC : GCM_cipher CI iv x = o1 ++ xorl tl (CI c1)).
      { unfold GCM_cipher. rewrite GCTR_split by (rewrite <- Mc; exact Vc). rewrite <- Mc. reflexivity. }
      unfold GCM_enc. cbv zeta. rewrite EC. f_equal. rewrite F2. unfold GCM_tag, tag_with. f_equal. rewrite GHASH_blk.
      fold HK. fold hh. f_equal. rewrite <- !GHB_app. f_equal.
      assert (Ao1 : al16 o1) by (unfold al16; rewrite Lo1; apply Nat.mod_mul; lia).
      rewrite <- (blk_app o1) by exact Ao1. rewrite <- blk_app by apply pad16_al. f_equal. f_equal.
      rewrite pad16_app by exact Ao1. rewrite <- app_assoc. do 2 f_equal.
      unfold lens, len64. rewrite Maad.
      assert (Lc : length (o1 ++ xorl tl (CI c1)) = length x).
      { rewrite app_length, Lo1, xorl_len_ci by (auto; lia). lia. }
      rewrite Lc. reflexivity. }
    destruct (m_run gcm 16 (gcm_enc_ub C G) (gcm_enc_fb C G) (m_new gcm junk m) calls lastc) as [[s o]| |]; cbn [bind];
      apply Main in Q; exact Q.
  Qed.

  Lemma gcm_dec_session t junk hjunk g0 iv aad tag calls lastc : VI t -> length junk = 16%nat -> length hjunk = 16%nat ->
    bytes iv -> bytes aad -> bytes (msg calls lastc) -> Forall (roomy 16) (calls ++ [lastc]) ->
    let x := msg calls lastc in
    gcm_decryptor C G t junk hjunk g0 key iv aad tag calls lastc =
    if (lim <? Z.of_nat (length aad)) || (2 ^ 64 - 1 <? Z.of_nat (length x)) then (Throw, t)
    else (if list_eq_dec Z.eq_dec tag (tag_with CI iv aad x (x ++ firstn (padlen x) t)) then Ok (GCM_cipher CI iv x) else Throw,
          CI (J0 CI iv)).
  Proof.
    intros Vt Lj Lh Bi Ba Bm Room. cbv zeta. unfold gcm_decryptor.
    pose proof (gcm_init_eq (h_new (gi_ctx G) hjunk g0) iv aad tag t (conj eq_refl Lh) Bi Ba) as I.
    destruct (lim <? Z.of_nat (length aad)); [rewrite I; reflexivity|].
    destruct I as (m & -> & Mk & Mc0 & Mc & Mal & Mrel & Mtag & Mct & Maad & Mt). cbn [bind orb].
    pose proof (J0_VI iv Bi) as VJ.
    assert (Vc : VI (gmc m)) by (rewrite Mc, inc32_eq by assumption; apply VI_inc; assumption).
    assert (V0 : VL (2 ^ 64 - 1) m) by (split; [split; [exact Vc|split; [exact Mal|lia]]|rewrite Mct; lia]).
    pose proof (run_gcm (2 ^ 64 - 1) src_in (or_intror eq_refl) (gcm_dec_ub C G) (gcm_dec_fb C G)
      (fun m d n V Hd => dec_ub_eq m d n (proj1 V) Hd ltac:(destruct V; lia)) dec_fb_len m junk calls lastc V0 Lj Room) as Q.
    rewrite inputs_msg in Q. set (x := msg calls lastc) in *. cbv zeta in Q. set (n := (length x / 16)%nat) in *.
    destruct (split_x x) as (L1 & L2 & L3). fold n in L1, L2, L3.
    set (x0 := firstn (n * 16) x) in *. set (tl := skipn (n * 16) x) in *.
    assert (Ex : x = x0 ++ tl) by (symmetry; apply firstn_skipn).
    assert (A0 : al16 x0) by (unfold al16; rewrite L1; apply Nat.mod_mul; lia).
    assert (Px : padlen x = padlen tl).
    { rewrite Ex. unfold padlen. rewrite app_length, (Nat.add_mod (length x0)) by lia. rewrite A0.
      rewrite Nat.add_0_l, Nat.mod_mod by lia. reflexivity. }
    set (RHS := if 2 ^ 64 - 1 <? Z.of_nat (length x) then _ else _).
    assert (Main : forall r, bind (step (2 ^ 64 - 1) src_in m x0 n) (fun '(m1, o1) => bind (gcm_dec_fb C G m1 tl) (fun '(m2, o2) => Ok (m2, o1 ++ o2))) = r ->
       match r with Ok (m2, o) => (if gmok m2 then Ok o else Throw, gmt m2) | Throw => (Throw, t) | UB => (UB, t) end = RHS).
    { intros r <-. unfold RHS. clear RHS Q. unfold step at 1. rewrite Mct, Z.add_0_l.
      destruct (Z.ltb_spec (2 ^ 64 - 1) (Z.of_nat (n * 16))) as [B|B].
      { destruct (Z.ltb_spec (2 ^ 64 - 1) (Z.of_nat (length x))); [reflexivity|lia]. }
      cbn [bind]. rewrite Mk. set (o1 := concat (snd (sc kk (gmc m) x0 n))).
      set (c1 := fst (sc kk (gmc m) x0 n)).
      destruct (sc_ok kk (gmc m) x0 n Vc L1) as [Vc1 Lo1]. fold c1 in Vc1. fold o1 in Lo1.
      set (m1 := mkGCM kk (gmc0 m) c1 (hset (gmh m) (src_in x0 o1) n) (gmtag m) (Z.of_nat (n * 16)) (gmaad m) (gmt m) (gmok m)).
      assert (V1 : VL (2 ^ 64 - 1) m1).
      { split; [split; [exact Vc1|split; [apply hset_al, Mal|cbn [m1 gmct]; lia]]|cbn [m1 gmct]; lia]. }
      pose proof (dec_fb_eq m1 tl hh (GHASH_blocks hh (GHASH_blocks hh 0 (blk (pad16 aad))) (blk x0)) V1 eq_refl) as F.
      cbn [m1 gmc0 gmh gmct gmc gmaad gmt gmtag] in F. rewrite Mc0, Mt, Mtag in F. specialize (F VJ).
      specialize (F (hset_rel _ _ _ _ Mal Mrel (bytes_firstn _ _ Bm) L1) (bytes_skipn _ _ Bm) L2 Vt). cbv zeta in F. rewrite L3 in F.
      destruct (2 ^ 64 - 1 <? Z.of_nat (length x)).
      { assert (F' : gcm_dec_fb C G m1 tl = Throw) by exact F. rewrite F'. reflexivity. }
      destruct F as (m2 & F1 & F2 & F3).
      assert (F1' : gcm_dec_fb C G m1 tl = Ok (m2, xorl tl (CI c1))) by exact F1.
      rewrite F1'. cbn [bind]. rewrite F2. f_equal.
      assert (EC : GCM_cipher CI iv x = o1 ++ xorl tl (CI c1)).
      { unfold GCM_cipher. rewrite GCTR_split by (rewrite <- Mc; exact Vc). rewrite <- Mc. reflexivity. }
      rewrite EC.
      assert (ET : tag_with CI iv aad x (x ++ firstn (padlen x) t) =
         xorl (be_bytes 16 (GHASH_blocks hh (GHASH_blocks hh (GHASH_blocks hh 0 (blk (pad16 aad))) (blk x0))
              (blk ((tl ++ firstn (padlen tl) t) ++ lens (gmaad m) (Z.of_nat (length x)))))) (CI (J0 CI iv))).
      { unfold tag_with. f_equal. rewrite GHASH_blk. fold HK. fold hh. f_equal. rewrite <- !GHB_app. f_equal.
        rewrite <- (blk_app x0) by exact A0. rewrite <- blk_app by apply pad16_al. f_equal. f_equal.
        rewrite Px. rewrite Ex at 1. rewrite <- !app_assoc. do 3 f_equal. unfold lens, len64. rewrite Maad. reflexivity. }
      rewrite <- ET in F3. destruct (list_eq_dec Z.eq_dec tag _) as [e|e].
      - rewrite (proj2 F3 e). reflexivity.
      - destruct (gmok m2); [|reflexivity]. destruct e. apply F3. reflexivity. }
    destruct (m_run gcm 16 (gcm_dec_ub C G) (gcm_dec_fb C G) (m_new gcm junk m) calls lastc) as [[s o]| |];
      apply Main in Q; exact Q.
  Qed.
End GCM.

(** Decryption inverts encryption. *)
Lemma gctr_blocks_len CI (HC : forall c, length c = 16%nat -> length (CI c) = 16%nat) xs : wellcut 16 xs -> forall c, length c = 16%nat ->
  Forall2 (fun a b => length a = length b) xs (gctr_blocks CI c xs) /\ gctr_blocks CI c (gctr_blocks CI c xs) = xs.
Proof.
  induction xs as [|x xs IH]; intros W c Hc; [split; constructor|]. apply wellcut_cons in W. destruct W as (_ & Hle & _ & W).
  cbn [gctr_blocks]. pose proof (HC c Hc) as Le.
  assert (Li : length (inc32 c) = 16%nat) by (unfold inc32; rewrite app_length, firstn_length, be_bytes_length; lia).
  destruct (IH W (inc32 c) Li) as [R1 R2]. split.
  - constructor; [rewrite xorl_length; lia|exact R1].
  - rewrite xorl_cancel_r by lia. rewrite R2. reflexivity.
Qed.
Lemma GCTR_inv CI (HC : forall c, length c = 16%nat -> length (CI c) = 16%nat) c x : length c = 16%nat ->
  GCTR CI c (GCTR CI c x) = x /\ length (GCTR CI c x) = length x.
Proof.
  intros Hc. unfold GCTR. destruct (blocks_of_wellcut 16 x ltac:(lia)) as [W Cc].
  destruct (gctr_blocks_len CI HC _ W c Hc) as [S R].
  rewrite blocks_of_concat by (try lia; eapply wellcut_same; eassumption).
  rewrite R, <- (concat_same_len _ _ S), Cc. auto.
Qed.

(** ** Statements used in PropGCM.v *)
Lemma variant_ok G : ghash_variant G -> exists OK : ghash_ok G, True.
Proof.
  intros [->|[(T0 & H & ->)| ->]].
  - exists ok_common. exact I.
  - exists (ok_lut256 T0 H). exact I.
  - exists ok_pclmul. exact I.
Qed.
Lemma fits_lim x : fits x = negb (lim <? Z.of_nat (length x)).
Proof. unfold fits, lim. change ((2 ^ 64 - 1) / 8) with (2 ^ 61 - 1). lia. Qed.

Lemma p_gcm_enc C klen E D : implements C klen E D -> cBS C = 16%nat -> forall G g0, ghash_variant G ->
  forall junk hjunk key iv aad calls lastc, length hjunk = 16%nat -> gargs klen junk key iv aad calls lastc ->
  gcm_encryptor C G junk hjunk g0 key iv aad calls lastc =
  if fits aad && fits (msg calls lastc) then Ok (GCM_enc (E key) iv aad (msg calls lastc)) else Throw.
Proof.
  intros IM B G g0 HG junk hjunk key iv aad calls lastc Lh (Lj & Kb & Kl & Bi & Ba & Bm & Rm).
  destruct (variant_ok G HG) as [OK _].
  rewrite (gcm_enc_session C klen E D IM B G OK key Kb Kl junk hjunk g0 iv aad calls lastc Lj Lh Bi Ba Bm Rm).
  rewrite !fits_lim. destruct (lim <? _), (lim <? _); reflexivity.
Qed.
Lemma p_gcm_dec C klen E D : implements C klen E D -> cBS C = 16%nat -> forall G g0, ghash_variant G ->
  forall t junk hjunk key iv aad tag calls lastc, bytes t -> length t = 16%nat -> length hjunk = 16%nat -> gargs klen junk key iv aad calls lastc ->
  let x := msg calls lastc in
  fits aad = true -> Z.of_nat (length x) < 2 ^ 64 ->
  gcm_decryptor C G t junk hjunk g0 key iv aad tag calls lastc =
  (if list_eq_dec Z.eq_dec tag (tag_with (E key) iv aad x (x ++ firstn (padlen x) t))
   then Ok (GCM_cipher (E key) iv x) else Throw, E key (J0 (E key) iv)).
Proof.
  intros IM B G g0 HG t junk hjunk key iv aad tag calls lastc Bt Lt Lh (Lj & Kb & Kl & Bi & Ba & Bm & Rm) x Fa Fx.
  destruct (variant_ok G HG) as [OK _].
  rewrite (gcm_dec_session C klen E D IM B G OK key Kb Kl t junk hjunk g0 iv aad tag calls lastc (conj Bt Lt) Lj Lh Bi Ba Bm Rm).
  fold x. rewrite fits_lim in Fa. destruct (lim <? Z.of_nat (length aad)); [discriminate|].
  destruct (Z.ltb_spec (2 ^ 64 - 1) (Z.of_nat (length x))); [lia|]. reflexivity.
Qed.
Lemma padlen_le x : (padlen x < 16)%nat.
Proof. unfold padlen. apply Nat.mod_upper_bound. lia. Qed.
Lemma firstn_rep (v : Z) k n : (k <= n)%nat -> firstn k (repeat v n) = repeat v k.
Proof. revert n. induction k as [|k IH]; intros [|n] H; cbn; try reflexivity; [lia|]. f_equal. apply IH. lia. Qed.
Lemma pad_zero x t : t = repeat 0 16 \/ (length x mod 16 = 0)%nat -> x ++ firstn (padlen x) t = pad16 x.
Proof.
  intros [->|H]; unfold pad16.
  - pose proof (padlen_le x). rewrite firstn_rep by lia. reflexivity.
  - unfold padlen. rewrite H. reflexivity.
Qed.
Lemma p_gcm_dec_std C klen E D : implements C klen E D -> cBS C = 16%nat -> forall G g0, ghash_variant G ->
  forall t junk hjunk key iv aad tag calls lastc, bytes t -> length t = 16%nat -> length hjunk = 16%nat -> gargs klen junk key iv aad calls lastc ->
  let x := msg calls lastc in
  fits aad = true -> Z.of_nat (length x) < 2 ^ 64 ->
  t = repeat 0 16 \/ (length x mod 16 = 0)%nat ->
  fst (gcm_decryptor C G t junk hjunk g0 key iv aad tag calls lastc) =
  match GCM_dec (E key) iv aad x tag with Some p => Ok p | None => Throw end.
Proof.
  intros IM B G g0 HG t junk hjunk key iv aad tag calls lastc Bt Lt Lh Ga x Fa Fx Hp.
  rewrite (p_gcm_dec C klen E D IM B G g0 HG t junk hjunk key iv aad tag calls lastc Bt Lt Lh Ga Fa Fx). cbn [fst]. fold x.
  unfold GCM_dec, GCM_tag. rewrite (pad_zero x t Hp). destruct (list_eq_dec _ _ _); reflexivity.
Qed.
Lemma p_gcm_static C klen E D : implements C klen E D -> cBS C = 16%nat -> forall G g0, ghash_variant G ->
  forall t junk hjunk key iv aad tag calls lastc, bytes t -> length t = 16%nat -> length hjunk = 16%nat -> gargs klen junk key iv aad calls lastc ->
  let t' := snd (gcm_decryptor C G t junk hjunk g0 key iv aad tag calls lastc) in bytes t' /\ length t' = 16%nat.
Proof.
  intros IM B G g0 HG t junk hjunk key iv aad tag calls lastc Bt Lt Lh (Lj & Kb & Kl & Bi & Ba & Bm & Rm).
  destruct (variant_ok G HG) as [OK _].
  rewrite (gcm_dec_session C klen E D IM B G OK key Kb Kl t junk hjunk g0 iv aad tag calls lastc (conj Bt Lt) Lj Lh Bi Ba Bm Rm).
  destruct (_ || _); cbn [snd]; [auto|].
  apply (CI_VI C klen E D IM B key Kb Kl). apply (J0_VI E key). exact Bi.
Qed.
Lemma p_gcm_roundtrip C klen E D : implements C klen E D -> cBS C = 16%nat ->
  forall key iv aad p, bytes key -> length key = klen -> bytes iv -> bytes p ->
  GCM_dec (E key) iv aad (fst (GCM_enc (E key) iv aad p)) (snd (GCM_enc (E key) iv aad p)) = Some p /\
  bytes (fst (GCM_enc (E key) iv aad p)) /\ length (fst (GCM_enc (E key) iv aad p)) = length p.
Proof.
  intros IM B key iv aad p Kb Kl Bi Bp. cbn [GCM_enc fst snd]. unfold GCM_dec.
  destruct (list_eq_dec Z.eq_dec _ _); [|congruence]. unfold GCM_cipher.
  pose proof (J0_VI E key iv Bi) as VJ.
  assert (Vi : VI (inc32 (J0 (E key) iv))) by (rewrite inc32_eq by assumption; apply VI_inc; assumption).
  assert (R : GCTR (E key) (inc32 (J0 (E key) iv)) (GCTR (E key) (inc32 (J0 (E key) iv)) p) = p /\
     length (GCTR (E key) (inc32 (J0 (E key) iv)) p) = length p).
  { (* lengths are only known on byte blocks: use the byte version *)
    set (c := inc32 (J0 (E key) iv)) in *. unfold GCTR. destruct (blocks_of_wellcut 16 p ltac:(lia)) as [W Cc].
    assert (H : forall xs, wellcut 16 xs -> forall c, VI c ->
      Forall2 (fun a b => length a = length b) xs (gctr_blocks (E key) c xs) /\ gctr_blocks (E key) c (gctr_blocks (E key) c xs) = xs).
    { induction xs as [|x xs IH]; intros W' c' Hc; [split; constructor|]. apply wellcut_cons in W'. destruct W' as (_ & Hle & _ & W').
      cbn [gctr_blocks]. pose proof (VI_len _ (CI_VI C klen E D IM B key Kb Kl c' Hc)) as Le.
      assert (Li : VI (inc32 c')) by (rewrite inc32_eq by assumption; apply VI_inc; assumption).
      destruct (IH W' (inc32 c') Li) as [R1 R2]. split.
      - constructor; [rewrite xorl_length; lia|exact R1].
      - rewrite xorl_cancel_r by lia. rewrite R2. reflexivity. }
    destruct (H _ W c Vi) as [S R].
    rewrite blocks_of_concat by (try lia; eapply wellcut_same; eassumption).
    rewrite R, <- (concat_same_len _ _ S), Cc. auto. }
  split; [rewrite (proj1 R); reflexivity|]. split; [|apply R].
  apply (GCTR_bytes C klen E D IM B key Kb Kl); assumption.
Qed.

Lemma p_process C klen E D : implements C klen E D -> cBS C = 16%nat -> forall G g0, ghash_variant G ->
  forall rs, Forall (rq_ok klen) rs -> forall t, bytes t -> length t = 16%nat ->
  forall i r, nth_error rs i = Some r -> (i = 0%nat /\ t = repeat 0 16) \/ (length (msg (rq_calls r) (rq_last r)) mod 16 = 0)%nat ->
  nth_error (process C G g0 t rs) i = Some (rq_std E r).
Proof.
  intros IM B G g0 HG. induction 1 as [|r rs (Ga & Fa & Fx) Hrs IH]; intros t Bt Lt i q; [destruct i; discriminate|].
  cbn [process]. pose proof (p_gcm_dec_std C klen E D IM B G g0 HG t (rq_junk r) (rq_junk r) (rq_key r) (rq_iv r) (rq_aad r) (rq_tag r) (rq_calls r) (rq_last r) Bt Lt (proj1 Ga) Ga Fa Fx) as P.
  pose proof (p_gcm_static C klen E D IM B G g0 HG t (rq_junk r) (rq_junk r) (rq_key r) (rq_iv r) (rq_aad r) (rq_tag r) (rq_calls r) (rq_last r) Bt Lt (proj1 Ga) Ga) as S.
  unfold rq_dec. destruct (gcm_decryptor _ _ _ _ _ _ _ _ _ _ _ _) as [o t']. cbn [fst snd] in P, S.
  destruct i as [|i]; cbn [nth_error].
  - intros Q Hi. injection Q as <-. unfold rq_std. rewrite P; [reflexivity|]. intuition.
  - intros Q Hi. apply (IH t'); try tauto. destruct Hi as [[? _]|Hi]; [discriminate|auto].
Qed.
Lemma zero16 : bytes (repeat 0 16) /\ length (repeat 0 16) = 16%nat.
Proof. split; [|reflexivity]. apply all_bytes_spec. reflexivity. Qed.
Lemma p_gcm_dec_first C klen E D : implements C klen E D -> cBS C = 16%nat -> forall G g0, ghash_variant G ->
  forall junk hjunk key iv aad tag calls lastc, length hjunk = 16%nat -> gargs klen junk key iv aad calls lastc ->
  let x := msg calls lastc in
  fits aad = true -> Z.of_nat (length x) < 2 ^ 64 ->
  fst (gcm_decryptor C G (repeat 0 16) junk hjunk g0 key iv aad tag calls lastc) =
  match GCM_dec (E key) iv aad x tag with Some p => Ok p | None => Throw end.
Proof.
  intros IM B G g0 HG junk hjunk key iv aad tag calls lastc Lh Ga x Fa Fx. destruct zero16.
  apply (p_gcm_dec_std C klen E D IM B G g0 HG); auto.
Qed.
Lemma p_gcm_dec_aligned C klen E D : implements C klen E D -> cBS C = 16%nat -> forall G g0, ghash_variant G ->
  forall t junk hjunk key iv aad tag calls lastc,
  bytes t -> length t = 16%nat -> length hjunk = 16%nat -> gargs klen junk key iv aad calls lastc ->
  let x := msg calls lastc in
  fits aad = true -> Z.of_nat (length x) < 2 ^ 64 -> (length x mod 16 = 0)%nat ->
  fst (gcm_decryptor C G t junk hjunk g0 key iv aad tag calls lastc) =
  match GCM_dec (E key) iv aad x tag with Some p => Ok p | None => Throw end.
Proof.
  intros IM B G g0 HG t junk hjunk key iv aad tag calls lastc Bt Lt Lh Ga x Fa Fx Al.
  apply (p_gcm_dec_std C klen E D IM B G g0 HG); auto.
Qed.
Lemma p_process0 C klen E D : implements C klen E D -> cBS C = 16%nat -> forall G g0, ghash_variant G ->
  forall rs, Forall (rq_ok klen) rs ->
  forall i r, nth_error rs i = Some r -> i = 0%nat \/ (length (msg (rq_calls r) (rq_last r)) mod 16 = 0)%nat ->
  nth_error (process C G g0 (repeat 0 16) rs) i = Some (rq_std E r).
Proof.
  intros IM B G g0 HG rs Hrs i r Hi Ho. destruct zero16.
  apply (p_process C klen E D IM B G g0 HG rs Hrs); auto. tauto.
Qed.
Lemma p_gcm_rt C klen E D : implements C klen E D -> cBS C = 16%nat ->
  forall G g0 G' g0', ghash_variant G -> ghash_variant G' ->
  forall junk hjunk junk' hjunk' key iv aad calls lastc calls' lastc' c tag,
  length hjunk = 16%nat -> length hjunk' = 16%nat -> length junk' = 16%nat ->
  gargs klen junk key iv aad calls lastc -> Forall (room 16) (calls' ++ [lastc']) ->
  gcm_encryptor C G junk hjunk g0 key iv aad calls lastc = Ok (c, tag) ->
  msg calls' lastc' = c ->
  fst (gcm_decryptor C G' (repeat 0 16) junk' hjunk' g0' key iv aad tag calls' lastc') = Ok (msg calls lastc).
Proof.
  intros IM B G g0 G' g0' HG HG' junk hjunk junk' hjunk' key iv aad calls lastc calls' lastc' c tag Lh Lh' Lj' Ga Rm Q Hc.
  pose proof Ga as (Lj & Kb & Kl & Bi & Ba & Bm & _).
  rewrite (p_gcm_enc C klen E D IM B G g0 HG junk hjunk key iv aad calls lastc Lh Ga) in Q.
  destruct (fits aad) eqn:Fa; [|discriminate]. destruct (fits (msg calls lastc)) eqn:Fx; [|discriminate]. cbn [andb] in Q.
  assert (Q' : GCM_enc (E key) iv aad (msg calls lastc) = (c, tag)) by (apply (f_equal (fun r => match r with Ok c => c | _ => ([], []) end)) in Q; exact Q).
  destruct (p_gcm_roundtrip C klen E D IM B key iv aad (msg calls lastc) Kb Kl Bi Bm) as (R & Bc & Lc).
  rewrite Q' in R, Bc, Lc. cbn [fst snd] in R, Bc, Lc. rewrite <- Hc in R, Bc, Lc.
  pose proof (p_gcm_dec_first C klen E D IM B G' g0' HG' junk' hjunk' key iv aad tag calls' lastc' Lh') as P. cbv zeta in P.
  rewrite P, R; auto; unfold gargs, fits in *; intuition; lia.
Qed.

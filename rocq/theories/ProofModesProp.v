(** Session-level statements of the mode properties. *)
From Verif Require Import Base BaseFacts ModelModes SpecModes ModelCipher SpecCipher ModelSM4 SpecSM4
  ProofModeStream ProofModes ProofModes2 ProofModes3 ProofModeHist ProofCipher.

Section P.
  Variable C : cipher.
  Variable klen : nat.
  Variable E D : list Z -> list Z -> list Z.
  Hypothesis IM : implements C klen E D.
  Notation BS := (cBS C).
  Notation session_ok := (session_ok C klen).
  Let PB := im_bs _ _ _ _ IM.

  Lemma p_ecb : forall key iv junk calls lastc, session_ok key iv junk calls lastc ->
    let x := msg calls lastc in
    ecb_encryptor C key junk calls lastc =
      (if (length x mod BS =? 0)%nat then Ok (ECB_enc BS (E key) x) else Throw) /\
    ecb_decryptor C key junk calls lastc =
      (if (length x mod BS =? 0)%nat then Ok (ECB_dec BS (D key) x) else Throw).
  Proof.
    intros key iv junk calls lastc (A & B & A1 & B1 & J & M & R) x.
    split; [eapply sess_ecb_enc|eapply sess_ecb_dec]; eassumption.
  Qed.
  Lemma p_cbc : forall key iv junk calls lastc, session_ok key iv junk calls lastc ->
    let x := msg calls lastc in
    cbc_encryptor C key iv junk calls lastc =
      (if (length x mod BS =? 0)%nat then Ok (CBC_enc BS (E key) iv x) else Throw) /\
    cbc_decryptor C key iv junk calls lastc =
      (if (length x mod BS =? 0)%nat then Ok (CBC_dec BS (D key) iv x) else Throw).
  Proof.
    intros key iv junk calls lastc (A & B & A1 & B1 & J & M & R) x.
    split; [eapply sess_cbc_enc|eapply sess_cbc_dec]; eassumption.
  Qed.
  Lemma p_cfb : forall key iv junk calls lastc, session_ok key iv junk calls lastc ->
    let x := msg calls lastc in
    cfb_encryptor C key iv junk calls lastc = Ok (CFB_enc BS (E key) iv x) /\
    cfb_decryptor C key iv junk calls lastc = Ok (CFB_dec BS (E key) iv x).
  Proof.
    intros key iv junk calls lastc (A & B & A1 & B1 & J & M & R) x.
    split; [eapply sess_cfb_enc|eapply sess_cfb_dec]; eassumption.
  Qed.
  Lemma p_ofb : forall key iv junk calls lastc, session_ok key iv junk calls lastc ->
    ofb_cryptor C key iv junk calls lastc = Ok (OFB BS (E key) iv (msg calls lastc)).
  Proof.
    intros key iv junk calls lastc (A & B & A1 & B1 & J & M & R). eapply sess_ofb; eassumption.
  Qed.
  Lemma p_ctr : forall key iv junk calls lastc, session_ok key iv junk calls lastc ->
    ctr_cryptor C key iv junk calls lastc = Ok (CTR BS (E key) iv (msg calls lastc)).
  Proof.
    intros key iv junk calls lastc (A & B & A1 & B1 & J & M & R). eapply sess_ctr; eassumption.
  Qed.

  (** The specification modes over E key, made total on all lists. *)
  Section KEY.
    Variable key : list Z.
    Hypothesis Kb : bytes key.
    Hypothesis Kl : length key = klen.
    Definition Ek (b : list Z) := c_eb C (c_set_key C key true) b.
    Definition Dk (b : list Z) := c_db C (c_set_key C key false) b.
    Lemma Ek_E b : bytes b -> length b = BS -> Ek b = E key b.
    Proof. intros; apply (im_enc _ _ _ _ IM); assumption. Qed.
    Lemma Dk_D b : bytes b -> length b = BS -> Dk b = D key b.
    Proof. intros; apply (im_dec _ _ _ _ IM); assumption. Qed.
    Lemma Ek_len b : length b = BS -> length (Ek b) = BS.
    Proof. apply (im_elen _ _ _ _ IM). Qed.
    Lemma Dk_len b : length b = BS -> length (Dk b) = BS.
    Proof. apply (im_dlen _ _ _ _ IM). Qed.
    Lemma Ekb b : bytes b -> length b = BS -> bytes (E key b).
    Proof. intros; apply (im_Ebytes _ _ _ _ IM); assumption. Qed.
    Lemma Dkb b : bytes b -> length b = BS -> bytes (D key b).
    Proof. intros; apply (im_Dbytes _ _ _ _ IM); assumption. Qed.
    Lemma Ek_bytes b : bytes b -> length b = BS -> bytes (Ek b).
    Proof. intros; rewrite Ek_E by assumption; apply Ekb; assumption. Qed.
    Lemma Dk_bytes b : bytes b -> length b = BS -> bytes (Dk b).
    Proof. intros; rewrite Dk_D by assumption; apply Dkb; assumption. Qed.
    Lemma Dk_Ek b : bytes b -> length b = BS -> Dk (Ek b) = b.
    Proof.
      intros. rewrite Dk_D, Ek_E; auto using Ek_bytes, Ek_len. apply (im_inv _ _ _ _ IM); assumption.
    Qed.
    Hint Resolve Ek_E Dk_D Ek_len Dk_len Ekb Dkb Ek_bytes Dk_bytes Dk_Ek : kk.

    Lemma k_ECB m : bytes m -> (length m mod BS = 0)%nat ->
      ECB_dec BS (D key) (ECB_enc BS (E key) m) = m /\ length (ECB_enc BS (E key) m) = length m /\
      bytes (ECB_enc BS (E key) m) /\ length (ECB_dec BS (D key) m) = length m.
    Proof.
      intros Hm Hl.
      assert (B : bytes (ECB_enc BS (E key) m)).
      { unfold ECB_enc, bytes. apply Forall_concat. rewrite Forall_map, Forall_forall. intros b Hin.
        pose proof (blocks_full BS m PB Hl) as Hz. pose proof (bytes_blocks BS m Hm) as Hbb.
        unfold blocksz in Hz. rewrite Forall_forall in Hz, Hbb. apply Ekb; auto. }
      assert (EQ : ECB_enc BS (E key) m = ECB_enc BS Ek m) by (symmetry; apply ECB_ext_e; auto with kk).
      assert (L : length (ECB_enc BS (E key) m) = length m) by (rewrite EQ; apply ECB_enc_length; auto with kk).
      repeat split; auto.
      - change ECB_dec with ECB_enc. rewrite <- (ECB_ext_e BS PB Dk (D key)); auto with kk.
        + change (ECB_enc BS Dk) with (ECB_dec BS Dk). rewrite EQ. apply (ECB_inv BS PB Ek Dk); auto with kk.
        + rewrite L. assumption.
      - change ECB_dec with ECB_enc. rewrite <- (ECB_ext_e BS PB Dk (D key)); auto with kk.
        apply ECB_enc_length; auto with kk.
    Qed.

    Lemma xorl_len_le (a b : list Z) : (length a <= length b)%nat -> length (xorl a b) = length a.
    Proof. intros. rewrite xorl_length. lia. Qed.

    Lemma cbc_e_bytes bs : blocksz BS bs -> Forall bytes bs -> forall iv, bytes iv -> length iv = BS ->
      Forall bytes (cbc_e Ek iv bs).
    Proof.
      induction 1 as [|b bs Hb H IH]; intros Hbb iv Hi Li; cbn [cbc_e]; [constructor|]. inversion_clear Hbb.
      assert (L : length (xorl b iv) = BS) by (rewrite xorl_length; lia).
      assert (B : bytes (xorl b iv)) by (apply xorl_bytes; assumption).
      constructor; auto with kk.
    Qed.
    Lemma k_CBC iv m : bytes m -> (length m mod BS = 0)%nat -> bytes iv -> length iv = BS ->
      CBC_dec BS (D key) iv (CBC_enc BS (E key) iv m) = m /\ length (CBC_enc BS (E key) iv m) = length m /\
      bytes (CBC_enc BS (E key) iv m) /\ length (CBC_dec BS (D key) iv m) = length m.
    Proof.
      intros Hm Hl Hi Li. pose proof (blocks_full BS m PB Hl) as Hz.
      assert (EQ : CBC_enc BS (E key) iv m = CBC_enc BS Ek iv m) by (symmetry; apply CBC_enc_ext; auto with kk).
      assert (B : bytes (CBC_enc BS (E key) iv m)).
      { rewrite EQ. unfold CBC_enc, bytes. apply Forall_concat. apply cbc_e_bytes; auto using bytes_blocks. }
      assert (L : length (CBC_enc BS (E key) iv m) = length m) by (rewrite EQ; apply (CBC_enc_length BS PB Ek Dk); auto with kk).
      repeat split; auto.
      - rewrite <- (CBC_dec_ext BS PB Dk (D key)); auto with kk; [|rewrite L; assumption].
        rewrite EQ. apply (CBC_inv BS PB Ek Dk); auto with kk.
      - rewrite <- (CBC_dec_ext BS PB Dk (D key)); auto with kk.
        unfold CBC_dec. rewrite <- (proj2 (blocks_of_wellcut BS m PB)) at 2.
        apply eq_sym, concat_same_len. clear Hm Hl B L EQ. revert iv Hi Li.
        induction Hz as [|b bs Hb H IH]; intros iv Hi Li; cbn [cbc_d]; constructor.
        + rewrite xorl_length, Dk_len by assumption. lia.
        + clear IH. revert b Hb. induction H as [|b' bs Hb' H IH]; intros b Hb; cbn [cbc_d]; constructor; auto.
          rewrite xorl_length, Dk_len by assumption. lia.
    Qed.

    Lemma cfb_e_bytes bs : wellcut BS bs -> Forall bytes bs -> forall iv, bytes iv -> length iv = BS ->
      Forall bytes (cfb_e Ek iv bs).
    Proof.
      induction bs as [|b bs IH]; intros W Hbb iv Hi Li; cbn [cfb_e]; [constructor|]. inversion_clear Hbb.
      apply wellcut_cons in W. destruct W as (_ & Hle & Hor & W).
      assert (B : bytes (xorl b (Ek iv))) by (apply xorl_bytes; auto with kk).
      constructor; [assumption|]. destruct Hor as [->|Lb]; [constructor|].
      apply IH; auto. rewrite xorl_length, Ek_len by assumption. lia.
    Qed.
    Lemma cfb_d_same bs : wellcut BS bs -> forall iv, length iv = BS ->
      Forall2 (fun a b => length a = length b) bs (cfb_d Ek iv bs).
    Proof.
      induction bs as [|b bs IH]; intros W iv Li; cbn [cfb_d]; [constructor|].
      apply wellcut_cons in W. destruct W as (_ & Hle & Hor & W). constructor.
      - rewrite xorl_length, Ek_len by assumption. lia.
      - destruct Hor as [->|Lb]; [constructor|]. auto.
    Qed.
    Lemma k_CFB iv m : bytes m -> bytes iv -> length iv = BS ->
      CFB_dec BS (E key) iv (CFB_enc BS (E key) iv m) = m /\ length (CFB_enc BS (E key) iv m) = length m /\
      bytes (CFB_enc BS (E key) iv m) /\ length (CFB_dec BS (E key) iv m) = length m.
    Proof.
      intros Hm Hi Li. destruct (blocks_of_wellcut BS m PB) as [W CC].
      assert (EQ : CFB_enc BS (E key) iv m = CFB_enc BS Ek iv m) by (symmetry; apply CFB_enc_ext; auto with kk).
      assert (B : bytes (CFB_enc BS (E key) iv m)).
      { rewrite EQ. unfold CFB_enc, bytes. apply Forall_concat. apply cfb_e_bytes; auto using bytes_blocks. }
      repeat split; auto.
      - rewrite <- (CFB_dec_ext BS PB Ek (E key)); auto with kk. rewrite EQ. apply (CFB_inv BS PB Ek Dk); auto with kk.
      - rewrite EQ. apply (CFB_enc_length BS PB Ek Dk); auto with kk.
      - rewrite <- (CFB_dec_ext BS PB Ek (E key)); auto with kk.
        unfold CFB_dec. rewrite <- CC at 2. apply eq_sym, concat_same_len. apply cfb_d_same; assumption.
    Qed.

    Lemma ofb_bytes bs : Forall bytes bs -> forall iv, bytes iv -> length iv = BS -> Forall bytes (ofb Ek iv bs).
    Proof.
      induction 1 as [|b bs Hb H IH]; intros iv Hi Li; cbn [ofb]; constructor; auto with kk.
      apply xorl_bytes; auto with kk.
    Qed.
    Lemma k_OFB iv m : bytes m -> bytes iv -> length iv = BS ->
      OFB BS (E key) iv (OFB BS (E key) iv m) = m /\ length (OFB BS (E key) iv m) = length m /\
      bytes (OFB BS (E key) iv m).
    Proof.
      intros Hm Hi Li.
      assert (EQ : forall m, OFB BS (E key) iv m = OFB BS Ek iv m) by (intros; symmetry; apply OFB_ext; auto with kk).
      rewrite !EQ. destruct (OFB_inv BS PB Ek Dk (Ek_len) ltac:(auto with kk) ltac:(auto with kk) iv m Li) as [R L]. repeat split; auto.
      unfold OFB, bytes. apply Forall_concat. apply ofb_bytes; auto using bytes_blocks.
    Qed.
    Lemma ctr_bytes T bs : Forall bytes bs -> forall j, Forall bytes (ctr BS Ek T j bs).
    Proof.
      induction 1 as [|b bs Hb H IH]; intros j; cbn [ctr]; constructor; auto.
      apply xorl_bytes; auto using Ek_bytes, be_bytes_bytes, be_bytes_length.
    Qed.
    Lemma k_CTR iv m : bytes m ->
      CTR BS (E key) iv (CTR BS (E key) iv m) = m /\ length (CTR BS (E key) iv m) = length m /\
      bytes (CTR BS (E key) iv m).
    Proof.
      intros Hm.
      assert (EQ : forall m, CTR BS (E key) iv m = CTR BS Ek iv m) by (intros; symmetry; apply CTR_ext; auto with kk).
      rewrite !EQ. destruct (CTR_inv BS PB Ek Dk (Ek_len) ltac:(auto with kk) ltac:(auto with kk) iv m) as [R L]. repeat split; auto.
      unfold CTR, bytes. apply Forall_concat. apply ctr_bytes; auto using bytes_blocks.
    Qed.
  End KEY.

  Lemma p_ecb_rt : forall key iv junk calls lastc junk' calls' lastc' ct,
    session_ok key iv junk calls lastc ->
    ecb_encryptor C key junk calls lastc = Ok ct ->
    length junk' = BS -> Forall (room BS) (calls' ++ [lastc']) -> msg calls' lastc' = ct ->
    ecb_decryptor C key junk' calls' lastc' = Ok (msg calls lastc) /\
    length ct = length (msg calls lastc).
  Proof.
    intros key iv junk calls lastc junk' calls' lastc' ct S Ec Lj R Ect.
    rewrite (proj1 (p_ecb _ _ _ _ _ S)) in Ec. destruct S as (A & B & A1 & B1 & J & M & R0).
    destruct (Nat.eqb_spec (length (msg calls lastc) mod BS) 0) as [Hm|]; [|discriminate].
    injection Ec as <-. destruct (k_ECB key A B _ M Hm) as (RT & L & Bc & _).
    assert (S' : session_ok key iv junk' calls' lastc') by (unfold SpecCipher.session_ok; rewrite Ect; auto 10).
    rewrite (proj2 (p_ecb _ _ _ _ _ S')), Ect, L, Hm. cbn [Nat.eqb]. rewrite RT. auto.
  Qed.
  Lemma p_cbc_rt : forall key iv junk calls lastc junk' calls' lastc' ct,
    session_ok key iv junk calls lastc ->
    cbc_encryptor C key iv junk calls lastc = Ok ct ->
    length junk' = BS -> Forall (room BS) (calls' ++ [lastc']) -> msg calls' lastc' = ct ->
    cbc_decryptor C key iv junk' calls' lastc' = Ok (msg calls lastc) /\
    length ct = length (msg calls lastc).
  Proof.
    intros key iv junk calls lastc junk' calls' lastc' ct S Ec Lj R Ect.
    rewrite (proj1 (p_cbc _ _ _ _ _ S)) in Ec. destruct S as (A & B & A1 & B1 & J & M & R0).
    destruct (Nat.eqb_spec (length (msg calls lastc) mod BS) 0) as [Hm|]; [|discriminate].
    injection Ec as <-. destruct (k_CBC key A B iv _ M Hm A1 B1) as (RT & L & Bc & _).
    assert (S' : session_ok key iv junk' calls' lastc') by (unfold SpecCipher.session_ok; rewrite Ect; auto 10).
    rewrite (proj2 (p_cbc _ _ _ _ _ S')), Ect, L, Hm. cbn [Nat.eqb]. rewrite RT. auto.
  Qed.
  Lemma p_cfb_rt : forall key iv junk calls lastc junk' calls' lastc' ct,
    session_ok key iv junk calls lastc ->
    cfb_encryptor C key iv junk calls lastc = Ok ct ->
    length junk' = BS -> Forall (room BS) (calls' ++ [lastc']) -> msg calls' lastc' = ct ->
    cfb_decryptor C key iv junk' calls' lastc' = Ok (msg calls lastc) /\
    length ct = length (msg calls lastc).
  Proof.
    intros key iv junk calls lastc junk' calls' lastc' ct S Ec Lj R Ect.
    rewrite (proj1 (p_cfb _ _ _ _ _ S)) in Ec. destruct S as (A & B & A1 & B1 & J & M & R0).
    injection Ec as <-. destruct (k_CFB key A B iv _ M A1 B1) as (RT & L & Bc & _).
    assert (S' : session_ok key iv junk' calls' lastc') by (unfold SpecCipher.session_ok; rewrite Ect; auto 10).
    rewrite (proj2 (p_cfb _ _ _ _ _ S')), Ect, RT. auto.
  Qed.
  Lemma p_ofb_rt : forall key iv junk calls lastc junk' calls' lastc' ct,
    session_ok key iv junk calls lastc ->
    ofb_cryptor C key iv junk calls lastc = Ok ct ->
    length junk' = BS -> Forall (room BS) (calls' ++ [lastc']) -> msg calls' lastc' = ct ->
    ofb_cryptor C key iv junk' calls' lastc' = Ok (msg calls lastc) /\
    length ct = length (msg calls lastc).
  Proof.
    intros key iv junk calls lastc junk' calls' lastc' ct S Ec Lj R Ect.
    rewrite (p_ofb _ _ _ _ _ S) in Ec. destruct S as (A & B & A1 & B1 & J & M & R0).
    injection Ec as <-. destruct (k_OFB key A B iv _ M A1 B1) as (RT & L & Bc).
    assert (S' : session_ok key iv junk' calls' lastc') by (unfold SpecCipher.session_ok; rewrite Ect; auto 10).
    rewrite (p_ofb _ _ _ _ _ S'), Ect, RT. auto.
  Qed.
  Lemma p_ctr_rt : forall key iv junk calls lastc junk' calls' lastc' ct,
    session_ok key iv junk calls lastc ->
    ctr_cryptor C key iv junk calls lastc = Ok ct ->
    length junk' = BS -> Forall (room BS) (calls' ++ [lastc']) -> msg calls' lastc' = ct ->
    ctr_cryptor C key iv junk' calls' lastc' = Ok (msg calls lastc) /\
    length ct = length (msg calls lastc).
  Proof.
    intros key iv junk calls lastc junk' calls' lastc' ct S Ec Lj R Ect.
    rewrite (p_ctr _ _ _ _ _ S) in Ec. destruct S as (A & B & A1 & B1 & J & M & R0).
    injection Ec as <-. destruct (k_CTR key A B iv _ M) as (RT & L & Bc).
    assert (S' : session_ok key iv junk' calls' lastc') by (unfold SpecCipher.session_ok; rewrite Ect; auto 10).
    rewrite (p_ctr _ _ _ _ _ S'), Ect, RT. auto.
  Qed.

  Lemma p_incomplete : forall key iv junk calls lastc r,
    session_ok key iv junk calls lastc ->
    In r [ecb_encryptor C key junk calls lastc; ecb_decryptor C key junk calls lastc;
          cbc_encryptor C key iv junk calls lastc; cbc_decryptor C key iv junk calls lastc] ->
    ((exists o, r = Ok o /\ length o = length (msg calls lastc)) /\
       (length (msg calls lastc) mod BS = 0)%nat) \/
    (r = Throw /\ (length (msg calls lastc) mod BS <> 0)%nat).
  Proof.
    intros key iv junk calls lastc r S Hin. cbn [In] in Hin.
    rewrite (proj1 (p_ecb _ _ _ _ _ S)), (proj2 (p_ecb _ _ _ _ _ S)),
      (proj1 (p_cbc _ _ _ _ _ S)), (proj2 (p_cbc _ _ _ _ _ S)) in Hin.
    destruct S as (A & B & A1 & B1 & J & M & R0).
    destruct (Nat.eqb_spec (length (msg calls lastc) mod BS) 0) as [Hm|Hm].
    - left. split; [|assumption].
      pose proof (k_ECB key A B _ M Hm) as (_ & L1 & _ & L2).
      pose proof (k_CBC key A B iv _ M Hm A1 B1) as (_ & L3 & _ & L4).
      destruct Hin as [<-|[<-|[<-|[<-|[]]]]]; eauto.
    - right. split; [|assumption]. intuition congruence.
  Qed.
  Lemma p_len_all : forall key iv junk calls lastc r, session_ok key iv junk calls lastc ->
    In r [ecb_encryptor C key junk calls lastc; ecb_decryptor C key junk calls lastc;
          cbc_encryptor C key iv junk calls lastc; cbc_decryptor C key iv junk calls lastc;
          cfb_encryptor C key iv junk calls lastc; cfb_decryptor C key iv junk calls lastc;
          ofb_cryptor C key iv junk calls lastc; ctr_cryptor C key iv junk calls lastc] ->
    forall o, r = Ok o -> length o = length (msg calls lastc).
  Proof.
    intros key iv junk calls lastc r S Hin o Er.
    pose proof (fun r => p_incomplete key iv junk calls lastc r S) as I4. cbn [In] in Hin, I4.
    rewrite (proj1 (p_cfb _ _ _ _ _ S)), (proj2 (p_cfb _ _ _ _ _ S)), (p_ofb _ _ _ _ _ S), (p_ctr _ _ _ _ _ S) in Hin.
    destruct S as (A & B & A1 & B1 & J & M & R0).
    pose proof (k_CFB key A B iv _ M A1 B1) as (_ & L1 & _ & L2).
    pose proof (k_OFB key A B iv _ M A1 B1) as (_ & L3 & _).
    pose proof (k_CTR key A B iv _ M) as (_ & L4 & _).
    assert (Q : forall q, (exists o, q = Ok o /\ length o = length (msg calls lastc)) /\
       (length (msg calls lastc) mod BS = 0)%nat \/ (q = Throw /\ (length (msg calls lastc) mod BS <> 0)%nat) ->
       q = Ok o -> length o = length (msg calls lastc)).
    { intros q [[(o' & E1 & L) _]|[E1 _]] E2; congruence. }
    destruct Hin as [H|[H|[H|[H|[H|[H|[H|[H|[]]]]]]]]]; subst r;
      try (eapply Q; [|eassumption]; apply I4; tauto); injection Er as <-; assumption.
  Qed.

  Definition keyis (k : cK C) (m : cK C * list Z) : Prop := fst m = k.
  Lemma same_session key iv junk calls lastc j : session_ok key iv junk calls lastc -> length j = BS ->
    session_ok key iv j calls lastc.
  Proof. unfold SpecCipher.session_ok. tauto. Qed.

  Lemma p_reset_cbc : forall key iv iv0 junk h s calls lastc,
    session_ok key iv junk calls lastc ->
    (m_history _ BS (cbc_enc_ub _ BS (c_eb C)) (cbc_enc_fb _ BS (c_eb C))
       (m_new _ junk (c_set_key C key true, iv0)) h = Ok s ->
     outcome (m_run _ BS (cbc_enc_ub _ BS (c_eb C)) (cbc_enc_fb _ BS (c_eb C))
       (m_reset_iv s iv) calls lastc) = cbc_encryptor C key iv junk calls lastc) /\
    (m_history _ BS (cbc_dec_ub _ BS (cPN C) (c_dbs C)) (cbc_dec_fb _ BS (cPN C) (c_dbs C))
       (m_new _ junk (c_set_key C key false, iv0)) h = Ok s ->
     outcome (m_run _ BS (cbc_dec_ub _ BS (cPN C) (c_dbs C)) (cbc_dec_fb _ BS (cPN C) (c_dbs C))
       (m_reset_iv s iv) calls lastc) = cbc_decryptor C key iv junk calls lastc).
  Proof.
    intros key iv iv0 junk h s calls lastc S. assert (J : length junk = BS) by apply S. split; intros H.
    - apply (m_history_inv _ _ PB _ _ (keyis (c_set_key C key true))) in H; cbn; try assumption; try reflexivity.
      + destruct H as (L & K & _). unfold m_reset_iv, m_reset. unfold keyis in K. rewrite K.
        rewrite (proj1 (p_cbc _ _ _ _ _ S)).
        exact (proj1 (p_cbc _ _ _ _ _ (same_session _ _ _ _ _ _ S L))).
      + intros m d n m' o Km. unfold cbc_enc_ub. destruct cbc_enc_loop. intros [= <- <-]. exact Km.
      + intros m d m' o Km. unfold cbc_enc_fb, cbc_enc_ub. destruct (length d =? 0)%nat; [intros [= <- <-]; exact Km|].
        destruct (negb _); [discriminate|]. destruct cbc_enc_loop. intros [= <- <-]. exact Km.
    - apply (m_history_inv _ _ PB _ _ (keyis (c_set_key C key false))) in H; cbn; try assumption; try reflexivity.
      + destruct H as (L & K & _). unfold m_reset_iv, m_reset. unfold keyis in K. rewrite K.
        rewrite (proj2 (p_cbc _ _ _ _ _ S)).
        exact (proj2 (p_cbc _ _ _ _ _ (same_session _ _ _ _ _ _ S L))).
      + intros m d n m' o Km. unfold cbc_dec_ub. destruct cbc_dec_loop. intros [= <- <-]. exact Km.
      + intros m d m' o Km. unfold cbc_dec_fb, cbc_dec_ub. destruct (length d =? 0)%nat; [intros [= <- <-]; exact Km|].
        destruct (negb _); [discriminate|]. destruct cbc_dec_loop. intros [= <- <-]. exact Km.
  Qed.
  Lemma p_reset_cfb : forall key iv iv0 junk h s calls lastc,
    session_ok key iv junk calls lastc ->
    (m_history _ BS (cfb_enc_ub _ BS (c_eb C)) (cfb_enc_fb _ (c_eb C))
       (m_new _ junk (c_set_key C key true, iv0)) h = Ok s ->
     outcome (m_run _ BS (cfb_enc_ub _ BS (c_eb C)) (cfb_enc_fb _ (c_eb C))
       (m_reset_iv s iv) calls lastc) = cfb_encryptor C key iv junk calls lastc) /\
    (m_history _ BS (cfb_dec_ub _ BS (cPN C) (c_ebs C)) (cfb_dec_fb _ (c_eb C))
       (m_new _ junk (c_set_key C key true, iv0)) h = Ok s ->
     outcome (m_run _ BS (cfb_dec_ub _ BS (cPN C) (c_ebs C)) (cfb_dec_fb _ (c_eb C))
       (m_reset_iv s iv) calls lastc) = cfb_decryptor C key iv junk calls lastc).
  Proof.
    intros key iv iv0 junk h s calls lastc S. assert (J : length junk = BS) by apply S. split; intros H.
    - apply (m_history_inv _ _ PB _ _ (keyis (c_set_key C key true))) in H; cbn; try assumption; try reflexivity.
      + destruct H as (L & K & _). unfold m_reset_iv, m_reset. unfold keyis in K. rewrite K.
        rewrite (proj1 (p_cfb _ _ _ _ _ S)).
        exact (proj1 (p_cfb _ _ _ _ _ (same_session _ _ _ _ _ _ S L))).
      + intros m d n m' o Km. unfold cfb_enc_ub. destruct cfb_enc_loop. intros [= <- <-]. exact Km.
      + intros m d m' o Km. unfold cfb_enc_fb. destruct (length d =? 0)%nat; intros [= <- <-]; exact Km.
    - apply (m_history_inv _ _ PB _ _ (keyis (c_set_key C key true))) in H; cbn; try assumption; try reflexivity.
      + destruct H as (L & K & _). unfold m_reset_iv, m_reset. unfold keyis in K. rewrite K.
        rewrite (proj2 (p_cfb _ _ _ _ _ S)).
        exact (proj2 (p_cfb _ _ _ _ _ (same_session _ _ _ _ _ _ S L))).
      + intros m d n m' o Km. unfold cfb_dec_ub. destruct cfb_dec_loop. intros [= <- <-]. exact Km.
      + intros m d m' o Km. unfold cfb_dec_fb. destruct (length d =? 0)%nat; intros [= <- <-]; exact Km.
  Qed.
  Lemma p_reset_ofb_ctr : forall key iv iv0 junk h s calls lastc,
    session_ok key iv junk calls lastc ->
    (m_history _ BS (ofb_ub _ BS (c_eb C)) (ofb_fb _ (c_eb C))
       (m_new _ junk (c_set_key C key true, iv0)) h = Ok s ->
     outcome (m_run _ BS (ofb_ub _ BS (c_eb C)) (ofb_fb _ (c_eb C))
       (m_reset_iv s iv) calls lastc) = ofb_cryptor C key iv junk calls lastc) /\
    (m_history _ BS (ctr_ub _ BS (cPN C) (c_ebs C) (ctr_inc BS)) (ctr_fb _ (c_ebs C) (ctr_inc BS))
       (m_new _ junk (c_set_key C key true, iv0)) h = Ok s ->
     outcome (m_run _ BS (ctr_ub _ BS (cPN C) (c_ebs C) (ctr_inc BS)) (ctr_fb _ (c_ebs C) (ctr_inc BS))
       (m_reset_iv s iv) calls lastc) = ctr_cryptor C key iv junk calls lastc).
  Proof.
    intros key iv iv0 junk h s calls lastc S. assert (J : length junk = BS) by apply S. split; intros H.
    - apply (m_history_inv _ _ PB _ _ (keyis (c_set_key C key true))) in H; cbn; try assumption; try reflexivity.
      + destruct H as (L & K & _). unfold m_reset_iv, m_reset. unfold keyis in K. rewrite K.
        rewrite (p_ofb _ _ _ _ _ S).
        exact (p_ofb _ _ _ _ _ (same_session _ _ _ _ _ _ S L)).
      + intros m d n m' o Km. unfold ofb_ub. destruct ofb_loop. intros [= <- <-]. exact Km.
      + intros m d m' o Km. unfold ofb_fb. destruct (length d =? 0)%nat; intros [= <- <-]; exact Km.
    - apply (m_history_inv _ _ PB _ _ (keyis (c_set_key C key true))) in H; cbn; try assumption; try reflexivity.
      + destruct H as (L & K & _). unfold m_reset_iv, m_reset. unfold keyis in K. rewrite K.
        rewrite (p_ctr _ _ _ _ _ S).
        exact (p_ctr _ _ _ _ _ (same_session _ _ _ _ _ _ S L)).
      + intros m d n m' o Km. unfold ctr_ub. destruct ctr_loop. intros [= <- <-]. exact Km.
      + intros m d m' o Km. unfold ctr_fb. destruct (length d =? 0)%nat; [intros [= <- <-]; exact Km|].
        destruct gen_ks. intros [= <- <-]; exact Km.
  Qed.
End P.

Lemma p_outl : forall M BS ub (s s' : mstate M) outb outl inp ob outl',
  (0 < BS)%nat -> length (mbuf s) = BS -> (msize s < BS)%nat ->
  m_update M BS ub s outb outl inp = Ok (s', ob, outl') ->
  msize s' = ((msize s + length inp) mod BS)%nat /\ length ob = length outb /\
  (outl' = ((msize s + length inp) / BS * BS)%nat \/
   ((0 < msize s /\ 0 < length inp /\ msize s + length inp < BS)%nat /\ outl' = outl)) /\
  (outl = 0%nat -> outl' = ((msize s + length inp) / BS * BS)%nat).
Proof.
  intros M BS ub s s' outb outl inp ob outl' PB L Hs H.
  apply (m_update_inv _ _ PB _ (fun _ _ => Throw) (fun _ => True)) in H; auto.
  destruct H as (_ & _ & A & B & F). repeat split; auto.
  - destruct F as [F|(F1 & F2 & F3 & F4)]; [left; exact F|right; auto].
  - intros ->. destruct F as [F|(F1 & F2 & F3 & F4)]; [exact F|]. rewrite Nat.div_small by assumption. exact F4.
Qed.
Lemma p_total : forall M BS ub junk (m0 : M) calls s o,
  (0 < BS)%nat -> length junk = BS -> Forall (room BS) calls ->
  m_updates M BS ub (m_new M junk m0) calls = Ok (s, o) ->
  let total := length (concat (map snd calls)) in
  length o = (total / BS * BS)%nat /\ (length o <= total)%nat /\ (total < length o + BS)%nat.
Proof.
  intros M BS ub junk m0 calls s o PB L R H total.
  apply (m_updates_len _ _ PB _ (fun _ _ => Throw) (fun _ => True)) in H; auto. destruct H as (_ & _ & A & _).
  cbn [msize m_new Nat.add] in A. fold total in A.
  pose proof (Nat.div_mod total BS ltac:(lia)). pose proof (Nat.mod_upper_bound total BS ltac:(lia)). lia.
Qed.

(** update_blocks of every mode in place (CBC decryption: only with PARALLEL_NUM = 1). *)
From Verif Require Import Base BaseFacts ModelEndian ModelModes ModelCipher ModelMemxor ModelInplace
  ProofModeStream ProofModes ProofInplace.

Section B.
  Variable BS PN : nat.
  Hypothesis BSpos : (0 < BS)%nat.
  Hypothesis PNpos : (0 < PN)%nat.
  Variable VI : list Z -> Prop.
  Variable vb : list Z -> list Z -> nat -> list Z * list Z.
  Variable mb : list Z -> list Z -> nat -> nat -> nat -> res (list Z * list Z).
  Fixpoint vloop (fuel : nat) (iv d : list Z) (n : nat) : list Z * list Z :=
    match fuel with
    | O => (iv, [])
    | S f =>
        if (PN <=? n)%nat then
          let '(iv1, o1) := vb iv d PN in
          let '(iv2, o2) := vloop f iv1 (skipn (PN * BS) d) (n - PN) in
          (iv2, o1 ++ o2)
        else if (0 <? n)%nat then vb iv d n
        else (iv, [])
    end.
  Definition batch_ok : Prop := forall iv d1 d2 j, VI iv -> (0 < j)%nat -> (j <= PN)%nat -> length d1 = (j * BS)%nat ->
    let '(iv', o) := vb iv (d1 ++ d2) j in
    VI iv' /\ length o = (j * BS)%nat /\
    forall pre post, mb iv (pre ++ d1 ++ post) (length pre) (length pre) j = Ok (iv', pre ++ o ++ post).
  Hypothesis BO : batch_ok.
  Lemma mloop_ok : forall f n iv d, VI iv -> (n < f)%nat -> length d = (n * BS)%nat ->
    let '(iv', o) := vloop f iv d n in
    VI iv' /\ length o = (n * BS)%nat /\
    forall pre post, mloop BS PN mb f iv (pre ++ d ++ post) (length pre) (length pre) n = Ok (iv', pre ++ o ++ post).
  Proof.
    induction f as [|f IH]; intros n iv d Vi Hf Ld; [lia|]. cbn [vloop mloop].
    destruct (Nat.leb_spec PN n) as [H|H].
    - assert (HPN : (PN * BS <= length d)%nat) by (rewrite Ld; apply Nat.mul_le_mono_r; lia).
      destruct (split_at _ d HPN) as (d1 & d2 & -> & L1 & L2). rewrite skipn_exact' by auto.
      assert (L2' : length d2 = ((n - PN) * BS)%nat) by (rewrite Nat.mul_sub_distr_r; lia).
      pose proof (BO iv d1 d2 PN Vi PNpos (le_n _) L1) as B. destruct (vb iv (d1 ++ d2) PN) as [iv1 o1].
      destruct B as (V1 & Lo1 & E1).
      specialize (IH (n - PN)%nat iv1 d2 V1 ltac:(lia) L2').
      destruct (vloop f iv1 d2 (n - PN)) as [iv2 o2]. destruct IH as (V2 & Lo2 & E2).
      split; [exact V2|]. split; [rewrite app_length, Lo1, Lo2, <- Nat.mul_add_distr_r; f_equal; lia|].
      intros pre post. rewrite <- (app_assoc d1 d2 post), E1. cbn [bind].
      rewrite (app_assoc pre o1). replace (length pre + PN * BS)%nat with (length (pre ++ o1)) by (rewrite app_length; lia).
      rewrite E2. rewrite <- !app_assoc. reflexivity.
    - destruct (Nat.ltb_spec 0 n) as [H0|H0].
      + pose proof (BO iv d [] n Vi H0 ltac:(lia) Ld) as B. rewrite app_nil_r in B. exact B.
      + assert (n = 0%nat) as -> by lia. destruct d; [|discriminate]. cbn. auto.
  Qed.
End B.

Section M.
  Variable ws : list nat.
  Hypothesis WS : strides_ok ws.
  Variable K : Type.
  Variable BS PN : nat.
  Variable eb db : K -> list Z -> list Z.
  Variable ebs dbs : K -> list Z -> nat -> list Z.
  Hypothesis CO : cipher_ok K BS PN eb db ebs dbs.
  Let BSpos := co_bs _ _ _ _ _ _ _ CO.
  Let PNpos := co_pn _ _ _ _ _ _ _ CO.
  Let elen := co_elen _ _ _ _ _ _ _ CO.

  Definition VLen (s : K * list Z) : Prop := length (snd s) = BS.

  Lemma blocks_len (g : K -> list Z -> list Z) gs k d n :
    (forall k x, length x = BS -> length (g k x) = BS) ->
    (forall k d n, length d = (n * BS)%nat -> gs k d n = concat (map (g k) (cut BS n d))) ->
    length d = (n * BS)%nat -> length (gs k d n) = (n * BS)%nat.
  Proof.
    intros Hg Hgs Ld. rewrite Hgs by assumption. rewrite (concat_length_bs BS).
    - rewrite map_length, cut_length. reflexivity.
    - apply blocksz_map; [intros; apply Hg; assumption|]. apply blocksz_cut. exact Ld.
  Qed.
  Let ebs_len k d n : length d = (n * BS)%nat -> length (ebs k d n) = (n * BS)%nat :=
    blocks_len eb ebs k d n elen (co_ebs _ _ _ _ _ _ _ CO).
  Let dbs_len k d n : length d = (n * BS)%nat -> length (dbs k d n) = (n * BS)%nat :=
    blocks_len db dbs k d n (co_dlen _ _ _ _ _ _ _ CO) (co_dbs _ _ _ _ _ _ _ CO).

  Lemma ip_ecb_gen (f : K -> list Z -> nat -> list Z) ub :
    (forall k d n, length d = (n * BS)%nat -> length (f k d n) = (n * BS)%nat) ->
    (forall k d n, ub k d n = Ok (k, f k d n)) ->
    inplace_ok K BS ub (ecb_mem K BS f) (fun _ => True).
  Proof.
    intros Hf Hu k d n _ Ld. rewrite Hu. split; [exact I|]. split; [apply Hf; exact Ld|].
    intros pre post. unfold ecb_mem. rewrite read_mid by auto. cbn [bind].
    rewrite write_mid by (rewrite ?Hf; auto). reflexivity.
  Qed.
  Lemma ip_ecb_enc : inplace_ok K BS (ecb_enc_ub K ebs) (ecb_mem K BS ebs) (fun _ => True).
  Proof. apply ip_ecb_gen; [exact ebs_len|reflexivity]. Qed.
  Lemma ip_ecb_dec : inplace_ok K BS (ecb_dec_ub K dbs) (ecb_mem K BS dbs) (fun _ => True).
  Proof. apply ip_ecb_gen; [exact dbs_len|reflexivity]. Qed.

  (** CBC encryption, CFB encryption: the chained block is read back from the array *)
  Lemma cbc_enc_mloop_ok k : forall n iv0 p cur d, length cur = BS -> length d = (n * BS)%nat ->
    let '(iv', o) := cbc_enc_loop K BS eb k cur d n in
    length iv' = BS /\ length o = (n * BS)%nat /\
    forall pre post, at_ptr BS (pre ++ d ++ post) iv0 p = Ok cur ->
      cbc_enc_mloop K BS eb k iv0 p (pre ++ d ++ post) (length pre) (length pre) n = Ok (iv', pre ++ o ++ post).
  Proof.
    induction n as [|n IH]; intros iv0 p cur d Lc Ld; cbn [cbc_enc_loop cbc_enc_mloop].
    - destruct d; [|discriminate]. split; [exact Lc|]. split; [reflexivity|]. intros pre post H. rewrite H. reflexivity.
    - cbn [Nat.mul] in Ld. destruct (split_at BS d) as (x & d2 & -> & Lx & L2); [lia|].
      rewrite app_length in *. rewrite firstn_exact, skipn_exact' by auto.
      set (c := eb k (xorl x cur)).
      assert (Lcc : length c = BS) by (apply elen; rewrite xorl_length; lia).
      assert (Ld2 : length d2 = (n * BS)%nat) by lia.
      pose proof (fun p' => IH (xorl x cur) p' c d2 Lcc Ld2) as H.
      destruct (cbc_enc_loop K BS eb k c d2 n) as [iv' o].
      destruct (H None) as (A & B & _). split; [exact A|]. split; [rewrite app_length, Lcc, B; reflexivity|].
      intros pre post Hp. rewrite Hp. cbn [bind]. rewrite <- (app_assoc x d2 post).
      rewrite read_mid by auto. cbn [bind]. fold c. rewrite write_mid by (auto; lia). cbn [bind].
      destruct (H (Some (length pre))) as (_ & _ & E).
      specialize (E (pre ++ c) post). rewrite app_length, Lcc in E. rewrite <- !app_assoc in E.
      rewrite E; [rewrite <- !app_assoc; reflexivity|].
      cbn [at_ptr]. apply read_mid; auto.
  Qed.
  Lemma ip_cbc_enc : inplace_ok (K * list Z) BS (cbc_enc_ub K BS eb) (cbc_enc_mem K BS eb) VLen.
  Proof.
    intros [k iv] d n Vs Ld. unfold cbc_enc_ub, cbc_enc_mem. cbn [fst snd VLen] in *.
    pose proof (cbc_enc_mloop_ok k n iv None iv d Vs Ld) as H.
    destruct (cbc_enc_loop K BS eb k iv d n) as [iv' o]. destruct H as (A & B & E).
    split; [exact A|]. split; [exact B|]. intros pre post. rewrite E; reflexivity.
  Qed.
  Lemma cfb_enc_mloop_ok k : forall n iv0 p cur d, length cur = BS -> length d = (n * BS)%nat ->
    let '(iv', o) := cfb_enc_loop K BS eb k cur d n in
    length iv' = BS /\ length o = (n * BS)%nat /\
    forall pre post, at_ptr BS (pre ++ d ++ post) iv0 p = Ok cur ->
      cfb_enc_mloop ws K BS eb k iv0 p (pre ++ d ++ post) (length pre) (length pre) n = Ok (iv', pre ++ o ++ post).
  Proof.
    induction n as [|n IH]; intros iv0 p cur d Lc Ld; cbn [cfb_enc_loop cfb_enc_mloop].
    - destruct d; [|discriminate]. split; [exact Lc|]. split; [reflexivity|]. intros pre post H. rewrite H. reflexivity.
    - cbn [Nat.mul] in Ld. destruct (split_at BS d) as (x & d2 & -> & Lx & L2); [lia|].
      rewrite app_length in *. rewrite firstn_exact, skipn_exact' by auto.
      set (c := xorl x (eb k cur)).
      assert (Lcc : length c = BS) by (unfold c; rewrite xorl_length, elen by assumption; lia).
      assert (Ld2 : length d2 = (n * BS)%nat) by lia.
      pose proof (fun p' => IH (eb k cur) p' c d2 Lcc Ld2) as H.
      destruct (cfb_enc_loop K BS eb k c d2 n) as [iv' o].
      destruct (H None) as (A & B & _). split; [exact A|]. split; [rewrite app_length, Lcc, B; reflexivity|].
      intros pre post Hp. rewrite Hp. cbn [bind]. rewrite <- (app_assoc x d2 post).
      rewrite (xor_into_ip ws WS) by (auto; apply elen; assumption). cbn [bind]. fold c.
      destruct (H (Some (length pre))) as (_ & _ & E).
      specialize (E (pre ++ c) post). rewrite app_length, Lcc in E. rewrite <- !app_assoc in E.
      rewrite E; [rewrite <- !app_assoc; reflexivity|].
      cbn [at_ptr]. apply read_mid; auto.
  Qed.
  Lemma ip_cfb_enc : inplace_ok (K * list Z) BS (cfb_enc_ub K BS eb) (cfb_enc_mem ws K BS eb) VLen.
  Proof.
    intros [k iv] d n Vs Ld. unfold cfb_enc_ub, cfb_enc_mem. cbn [fst snd VLen] in *.
    pose proof (cfb_enc_mloop_ok k n iv None iv d Vs Ld) as H.
    destruct (cfb_enc_loop K BS eb k iv d n) as [iv' o]. destruct H as (A & B & E).
    split; [exact A|]. split; [exact B|]. intros pre post. rewrite E; reflexivity.
  Qed.
  Lemma ofb_mloop_ok k : forall n iv d, length iv = BS -> length d = (n * BS)%nat ->
    let '(iv', o) := ofb_loop K BS eb k iv d n in
    length iv' = BS /\ length o = (n * BS)%nat /\
    forall pre post, ofb_mloop ws K BS eb k iv (pre ++ d ++ post) (length pre) (length pre) n = Ok (iv', pre ++ o ++ post).
  Proof.
    induction n as [|n IH]; intros iv d Lc Ld; cbn [ofb_loop ofb_mloop].
    - destruct d; [|discriminate]. split; [exact Lc|]. split; [reflexivity|]. reflexivity.
    - cbn [Nat.mul] in Ld. destruct (split_at BS d) as (x & d2 & -> & Lx & L2); [lia|].
      rewrite app_length in *. rewrite firstn_exact, skipn_exact' by auto. unfold ofb_gen1.
      assert (Le : length (eb k iv) = BS) by (apply elen; assumption).
      assert (Lcc : length (xorl x (eb k iv)) = BS) by (rewrite xorl_length; lia).
      specialize (IH (eb k iv) d2 Le ltac:(lia)).
      destruct (ofb_loop K BS eb k (eb k iv) d2 n) as [iv' o].
      destruct IH as (A & B & E). split; [exact A|]. split; [rewrite app_length, Lcc, B; reflexivity|].
      intros pre post. rewrite <- (app_assoc x d2 post).
      rewrite (xor_into_ip ws WS) by auto. cbn [bind].
      specialize (E (pre ++ xorl x (eb k iv)) post). rewrite app_length, Lcc in E. rewrite <- !app_assoc in E.
      rewrite E. rewrite <- !app_assoc. reflexivity.
  Qed.
  Lemma ip_ofb : inplace_ok (K * list Z) BS (ofb_ub K BS eb) (ofb_mem ws K BS eb) VLen.
  Proof.
    intros [k iv] d n Vs Ld. unfold ofb_ub, ofb_mem. cbn [fst snd VLen] in *.
    pose proof (ofb_mloop_ok k n iv d Vs Ld) as H.
    destruct (ofb_loop K BS eb k iv d n) as [iv' o]. destruct H as (A & B & E).
    split; [exact A|]. split; [exact B|]. intros pre post. rewrite E; reflexivity.
  Qed.

  Lemma cfb_dec_vloop k f : forall iv d n, cfb_dec_loop K BS PN ebs f k iv d n = vloop BS PN (cfb_dec_batch K BS ebs k) f iv d n.
  Proof.
    induction f as [|f IH]; intros iv d n; [reflexivity|]. cbn [cfb_dec_loop vloop].
    destruct (PN <=? n)%nat; [|reflexivity]. destruct (cfb_dec_batch K BS ebs k iv d PN). rewrite IH. reflexivity.
  Qed.
  Lemma cfb_dec_bok k : batch_ok BS PN (fun iv => length iv = BS) (cfb_dec_batch K BS ebs k) (cfb_dec_mbatch ws K BS ebs k).
  Proof.
    intros iv d1 d2 j Vi Hj _ L1. unfold cfb_dec_batch, cfb_dec_mbatch.
    assert (HL : ((j - 1) * BS <= length d1)%nat) by (rewrite L1; apply Nat.mul_le_mono_r; lia).
    destruct (split_at _ d1 HL) as (a & b & -> & La & Lb).
    assert (Lb' : length b = BS) by (rewrite Lb, L1, <- Nat.mul_sub_distr_r; replace (j - (j - 1))%nat with 1%nat by lia; lia).
    rewrite <- (app_assoc a b d2), (firstn_exact _ a (b ++ d2) ((j - 1) * BS)) by auto.
    assert (Lia : length (iv ++ a) = (j * BS)%nat).
    { rewrite app_length, Vi, La. replace j with (1 + (j - 1))%nat at 2 by lia. lia. }
    assert (Le : length (ebs k (iv ++ a) j) = (j * BS)%nat) by (apply ebs_len; exact Lia).
    rewrite (app_assoc a b d2), (firstn_exact _ (a ++ b) d2 (j * BS)) by auto. rewrite <- (app_assoc a b d2).
    assert (Es : slice (a ++ b ++ d2) ((j - 1) * BS) BS = b) by (rewrite <- La; apply slice_mid; auto).
    rewrite Es. split; [exact Lb'|]. split; [rewrite xorl_length, Le, L1; apply Nat.min_id|].
    intros pre post. rewrite <- (app_assoc a b post). rewrite read_mid by auto. cbn [bind].
    rewrite (app_assoc pre a). rewrite read_mid by (rewrite ?app_length; auto). cbn [bind].
    replace ((pre ++ a) ++ b ++ post) with (pre ++ (a ++ b) ++ post) by (rewrite <- !app_assoc; reflexivity).
    rewrite (xor_into_ip ws WS) by auto. reflexivity.
  Qed.
  Lemma ip_cfb_dec : inplace_ok (K * list Z) BS (cfb_dec_ub K BS PN ebs) (cfb_dec_mem ws K BS PN ebs) VLen.
  Proof.
    intros [k iv] d n Vs Ld. unfold cfb_dec_ub, cfb_dec_mem. cbn [fst snd VLen] in *. rewrite cfb_dec_vloop.
    pose proof (mloop_ok BS PN BSpos PNpos _ _ _ (cfb_dec_bok k) (S n) n iv d Vs ltac:(lia) Ld) as H.
    destruct (vloop BS PN (cfb_dec_batch K BS ebs k) (S n) iv d n) as [iv' o]. destruct H as (A & B & E).
    split; [exact A|]. split; [exact B|]. intros pre post. rewrite E. reflexivity.
  Qed.

  (** CBC decryption, PARALLEL_NUM = 1 *)
  Lemma cbc_dec_vloop k f : forall iv d n, cbc_dec_loop K BS PN dbs f k iv d n = vloop BS PN (cbc_dec_batch K BS dbs k) f iv d n.
  Proof.
    induction f as [|f IH]; intros iv d n; [reflexivity|]. cbn [cbc_dec_loop vloop].
    destruct (PN <=? n)%nat; [|reflexivity]. destruct (cbc_dec_batch K BS dbs k iv d PN). rewrite IH. reflexivity.
  Qed.
  Lemma xor_into_0 m out inp l : xor_into ws m out inp l 0 = Ok m.
  Proof. revert m out inp l. clear. induction ws as [|w r IH]; intros; [reflexivity|]. cbn [xor_into xor_loop bind]. apply IH. Qed.
  Lemma cbc_dec_bok k : PN = 1%nat ->
    batch_ok BS PN (fun iv => length iv = BS) (cbc_dec_batch K BS dbs k) (cbc_dec_mbatch ws K BS dbs k).
  Proof.
    intros P1 iv d1 d2 j Vi Hj Hle L1. assert (j = 1%nat) as -> by lia. clear Hj Hle.
    unfold cbc_dec_batch, cbc_dec_mbatch. cbn [Nat.sub Nat.mul firstn]. rewrite Nat.add_0_r.
    assert (L1' : length d1 = BS) by lia.
    assert (Es : slice (d1 ++ d2) 0 BS = d1) by (unfold slice; cbn [skipn]; apply firstn_exact; auto).
    rewrite Es, (firstn_exact _ d1) by auto.
    assert (Lb : length (dbs k d1 1) = BS) by (rewrite dbs_len by exact L1; lia).
    rewrite (firstn_all2 (dbs k d1 1)) by lia.
    assert (Lx : length (xorl (dbs k d1 1) iv) = BS) by (rewrite xorl_length; lia).
    rewrite app_nil_r.
    split; [exact L1'|]. split; [exact Lx|]. intros pre post.
    rewrite Nat.add_0_r. rewrite !read_mid by auto. cbn [bind]. rewrite (firstn_all2 (dbs k d1 1)) by lia.
    rewrite write_mid by (auto; lia). cbn [bind]. rewrite xor_into_0. reflexivity.
  Qed.
  Lemma ip_cbc_dec : PN = 1%nat ->
    inplace_ok (K * list Z) BS (cbc_dec_ub K BS PN dbs) (cbc_dec_mem ws K BS PN dbs) VLen.
  Proof.
    intros P1 [k iv] d n Vs Ld. unfold cbc_dec_ub, cbc_dec_mem. cbn [fst snd VLen] in *. rewrite cbc_dec_vloop.
    pose proof (mloop_ok BS PN BSpos PNpos _ _ _ (cbc_dec_bok k P1) (S n) n iv d Vs ltac:(lia) Ld) as H.
    destruct (vloop BS PN (cbc_dec_batch K BS dbs k) (S n) iv d n) as [iv' o]. destruct H as (A & B & E).
    split; [exact A|]. split; [exact B|]. intros pre post. rewrite E. reflexivity.
  Qed.

  (** CTR, for any counter function *)
  Section CTR.
    Variable inc : list Z -> list Z.
    Variable VI : list Z -> Prop.
    Hypothesis VI_len : forall c, VI c -> length c = BS.
    Hypothesis VI_inc : forall c, VI c -> VI (inc c).
    Definition ctr_vb (k : K) (c d : list Z) (j : nat) :=
      (fst (gen_ks K ebs inc k c j), xorl (firstn (j * BS) d) (snd (gen_ks K ebs inc k c j))).
    Lemma ctr_vloop k f : forall iv d n, ctr_loop K BS PN ebs inc f k iv d n = vloop BS PN (ctr_vb k) f iv d n.
    Proof.
      induction f as [|f IH]; intros iv d n; [reflexivity|]. cbn [ctr_loop vloop]. unfold ctr_vb at 1 3.
      destruct (PN <=? n)%nat.
      - destruct (gen_ks K ebs inc k iv PN) as [c1 ks]. cbn [fst snd]. rewrite IH. reflexivity.
      - destruct (0 <? n)%nat; [|reflexivity]. destruct (gen_ks K ebs inc k iv n); reflexivity.
    Qed.
    Lemma counters_ok : forall n c, VI c -> VI (snd (counters inc c n)) /\ length (fst (counters inc c n)) = (n * BS)%nat.
    Proof.
      induction n as [|n IH]; intros c Hc; cbn [counters]; [auto|].
      destruct (IH (inc c) (VI_inc _ Hc)) as [A B]. destruct (counters inc (inc c) n) as [o c']. cbn [fst snd] in *.
      split; [exact A|]. rewrite app_length, B, (VI_len _ Hc). reflexivity.
    Qed.
    Lemma ctr_bok k : batch_ok BS PN VI (ctr_vb k) (ctr_mbatch ws K BS ebs inc k).
    Proof.
      intros c d1 d2 j Vc Hj _ L1. unfold ctr_vb, ctr_mbatch, gen_ks.
      destruct (counters_ok j c Vc) as [A B]. destruct (counters inc c j) as [o c']. cbn [fst snd] in *.
      assert (Le : length (ebs k o j) = (j * BS)%nat) by (apply ebs_len; exact B).
      rewrite (firstn_exact _ d1) by auto.
      split; [exact A|]. split; [rewrite xorl_length, Le, L1; apply Nat.min_id|].
      intros pre post. rewrite (xor_into_ip ws WS) by auto. reflexivity.
    Qed.
    Lemma ctr_mloop_ok k n c d : VI c -> length d = (n * BS)%nat ->
      let '(c', o) := ctr_loop K BS PN ebs inc (S n) k c d n in
      VI c' /\ length o = (n * BS)%nat /\
      forall pre post, mloop BS PN (ctr_mbatch ws K BS ebs inc k) (S n) c (pre ++ d ++ post) (length pre) (length pre) n = Ok (c', pre ++ o ++ post).
    Proof.
      intros Vc Ld. rewrite ctr_vloop.
      exact (mloop_ok BS PN BSpos PNpos VI _ _ (ctr_bok k) (S n) n c d Vc (Nat.lt_succ_diag_r n) Ld).
    Qed.
    Lemma ip_ctr : inplace_ok (K * list Z) BS (ctr_ub K BS PN ebs inc) (ctr_mem ws K BS PN ebs inc) (fun s => VI (snd s)).
    Proof.
      intros [k iv] d n Vs Ld. unfold ctr_ub, ctr_mem. cbn [fst snd] in *.
      pose proof (ctr_mloop_ok k n iv d Vs Ld) as H.
      destruct (ctr_loop K BS PN ebs inc (S n) k iv d n) as [iv' o]. destruct H as (A & B & E).
      split; [exact A|]. split; [exact B|]. intros pre post. rewrite E. reflexivity.
    Qed.
  End CTR.
End M.

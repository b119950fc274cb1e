(** Decryption inverts encryption for the five modes (on the specifications), output lengths. *)
From Verif Require Import Base BaseFacts ModelModes SpecModes ProofModeStream ProofModes ProofModes2.

Fixpoint wellcut (BS : nat) (bs : list (list Z)) : Prop :=
  match bs with
  | [] => True
  | b :: r => match r with
              | [] => (0 < length b <= BS)%nat
              | _ => length b = BS /\ wellcut BS r
              end
  end.

Lemma wellcut_cons BS b r : wellcut BS (b :: r) ->
  (0 < length b \/ BS = 0)%nat /\ (length b <= BS)%nat /\ (r = [] \/ length b = BS) /\ wellcut BS r.
Proof. cbn. destruct r; cbn; intros H; intuition lia. Qed.

Lemma blocks_of_concat BS bs : (0 < BS)%nat -> wellcut BS bs -> blocks_of BS (concat bs) = bs.
Proof.
  intros P. induction bs as [|b r IH]; intros H.
  - unfold blocks_of. cbn [concat length Nat.add]. rewrite Nat.div_small by lia. reflexivity.
  - destruct r as [|b' r].
    + cbn in H. cbn [concat]. rewrite app_nil_r. unfold blocks_of.
      replace ((length b + BS - 1) / BS)%nat with 1%nat.
      * cbn. rewrite firstn_all2 by lia. reflexivity.
      * apply Nat.div_unique with (length b - 1)%nat; lia.
    + destruct H as [Hb H]. specialize (IH H). change (concat (b :: b' :: r)) with (b ++ concat (b' :: r)).
      unfold blocks_of in *. rewrite app_length, Hb.
      replace ((BS + length (concat (b' :: r)) + BS - 1) / BS)%nat
        with (S ((length (concat (b' :: r)) + BS - 1) / BS))%nat.
      * cbn [cut]. rewrite firstn_exact, skipn_exact by assumption. rewrite IH. reflexivity.
      * replace (BS + length (concat (b' :: r)) + BS - 1)%nat
          with (length (concat (b' :: r)) + BS - 1 + 1 * BS)%nat by lia.
        rewrite Nat.div_add by lia. lia.
Qed.

Lemma cut_wellcut BS n : (0 < BS)%nat -> forall m, ((n - 1) * BS < length m <= n * BS \/ (n = 0 /\ m = []))%nat ->
  wellcut BS (cut BS n m) /\ concat (cut BS n m) = m.
Proof.
  intros P. induction n as [|n IH]; intros m H.
  - cbn. destruct H as [H|[_ ->]]; [|auto]. destruct m; cbn in H; [auto|lia].
  - cbn [cut].
    destruct n as [|n].
    + cbn in *. assert (0 < length m <= BS)%nat by lia. rewrite firstn_length. split; [lia|].
      rewrite app_nil_r. apply firstn_all2. lia.
    + destruct (IH (skipn BS m)) as [I1 I2].
      { left. rewrite skipn_length. cbn in *. lia. }
      cbn [concat]. rewrite I2, firstn_skipn. split; [|reflexivity].
      cbn [wellcut]. destruct (cut BS (S n) (skipn BS m)) eqn:E; [cbn in E; discriminate|].
      split; [|exact I1]. rewrite firstn_length. cbn in H. lia.
Qed.

Lemma blocks_of_wellcut BS m : (0 < BS)%nat -> wellcut BS (blocks_of BS m) /\ concat (blocks_of BS m) = m.
Proof.
  intros P. unfold blocks_of. apply cut_wellcut; [assumption|].
  set (n := ((length m + BS - 1) / BS)%nat).
  pose proof (Nat.div_mod (length m + BS - 1) BS). pose proof (Nat.mod_upper_bound (length m + BS - 1) BS).
  fold n in H. rewrite Nat.mul_sub_distr_r.
  destruct m as [|x m]; [right|left; cbn [length] in *; lia].
  split; [|reflexivity]. unfold n. apply Nat.div_small. cbn. lia.
Qed.

Lemma wellcut_same BS bs bs' : Forall2 (fun a b => length a = length b) bs bs' ->
  wellcut BS bs -> wellcut BS bs'.
Proof.
  induction 1 as [|a b bs bs' Hab H IH]; intros W; [exact I|].
  inversion H as [|a' b' r r' H1 H2]; subst.
  - cbn in *. lia.
  - destruct W as [W1 W2]. split; [lia|]. apply IH. exact W2.
Qed.

Lemma concat_same_len (bs bs' : list (list Z)) : Forall2 (fun a b => length a = length b) bs bs' ->
  length (concat bs) = length (concat bs').
Proof. induction 1; cbn; rewrite ?app_length; lia. Qed.

Lemma blocks_full BS m : (0 < BS)%nat -> (length m mod BS = 0)%nat -> blocksz BS (blocks_of BS m).
Proof.
  intros P H. unfold blocks_of. apply cut_Forall_length.
  pose proof (Nat.div_mod (length m) BS). 
  replace ((length m + BS - 1) / BS)%nat with (length m / BS)%nat; [lia|].
  apply Nat.div_unique with (BS - 1)%nat; lia.
Qed.

Section INV.
  Variable BS : nat.
  Hypothesis P : (0 < BS)%nat.
  Variable E D : list Z -> list Z.
  Hypothesis Elen : forall x, length x = BS -> length (E x) = BS.
  Hypothesis Ebytes : forall x, length x = BS -> bytes x -> bytes (E x).
  Hypothesis inv : forall x, length x = BS -> bytes x -> D (E x) = x.

  Lemma blocksz_wellcut bs : blocksz BS bs -> wellcut BS bs.
  Proof.
    induction 1 as [|b bs Hb H IH]; [exact I|]. destruct bs; cbn in *; [lia|auto].
  Qed.

  Lemma bytes_blocks m : bytes m -> Forall bytes (blocks_of BS m).
  Proof. apply cut_bytes. Qed.

  Lemma ECB_inv m : bytes m -> (length m mod BS = 0)%nat -> ECB_dec BS D (ECB_enc BS E m) = m.
  Proof.
    intros Hb Hm. unfold ECB_dec, ECB_enc.
    pose proof (blocks_full BS m P Hm) as Hz. pose proof (bytes_blocks m Hb) as Hbb.
    rewrite blocks_of_concat; [|assumption|apply blocksz_wellcut, blocksz_map; auto].
    rewrite map_map. rewrite (map_ext_in _ (fun x => x)).
    - rewrite map_id. apply blocks_of_wellcut; assumption.
    - intros b Hin. unfold blocksz in Hz. rewrite Forall_forall in Hz, Hbb. apply inv; auto.
  Qed.

  Lemma cbc_e_len bs : blocksz BS bs -> forall iv, length iv = BS -> blocksz BS (cbc_e E iv bs).
  Proof.
    induction 1 as [|b bs Hb H IH]; intros iv Hi; cbn; constructor.
    - apply Elen. rewrite xorl_length. lia.
    - apply IH. apply Elen. rewrite xorl_length. lia.
  Qed.
  Lemma cbc_inv bs : blocksz BS bs -> Forall bytes bs -> forall iv, length iv = BS -> bytes iv ->
    cbc_d D iv (cbc_e E iv bs) = bs.
  Proof.
    induction 1 as [|b bs Hb H IH]; intros Hbb iv Hi Hib; [reflexivity|]. cbn [cbc_e cbc_d].
    inversion_clear Hbb. assert (L : length (xorl b iv) = BS) by (rewrite xorl_length; lia).
    assert (B : bytes (xorl b iv)) by (apply xorl_bytes; assumption).
    rewrite inv, xorl_cancel_r by (auto; lia). f_equal. apply IH; auto.
  Qed.
  Lemma CBC_inv iv m : bytes m -> (length m mod BS = 0)%nat -> bytes iv -> length iv = BS ->
    CBC_dec BS D iv (CBC_enc BS E iv m) = m.
  Proof.
    intros Hb Hm Hib Hi. unfold CBC_dec, CBC_enc.
    pose proof (blocks_full BS m P Hm) as Hz.
    rewrite blocks_of_concat; [|assumption|apply blocksz_wellcut, cbc_e_len; auto].
    rewrite cbc_inv by (auto using bytes_blocks). apply blocks_of_wellcut; assumption.
  Qed.
  Lemma CBC_enc_length iv m : (length m mod BS = 0)%nat -> length iv = BS ->
    length (CBC_enc BS E iv m) = length m.
  Proof.
    intros Hm Hi. unfold CBC_enc. pose proof (blocks_full BS m P Hm) as Hz.
    rewrite (concat_length_bs BS) by (apply cbc_e_len; auto).
    rewrite <- (proj2 (blocks_of_wellcut BS m P)) at 2.
    rewrite (concat_length_bs BS) by assumption. f_equal.
    generalize (blocks_of BS m), iv. clear. induction l; intros; cbn; auto.
  Qed.
  Lemma ECB_enc_length m : (length m mod BS = 0)%nat -> length (ECB_enc BS E m) = length m.
  Proof.
    intros Hm. unfold ECB_enc. pose proof (blocks_full BS m P Hm) as Hz.
    rewrite (concat_length_bs BS) by (apply blocksz_map; auto).
    rewrite <- (proj2 (blocks_of_wellcut BS m P)) at 2.
    rewrite (concat_length_bs BS) by assumption. rewrite map_length. reflexivity.
  Qed.

  Lemma cfb_e_same bs : wellcut BS bs -> forall iv, length iv = BS ->
    Forall2 (fun a b => length a = length b) bs (cfb_e E iv bs) /\ cfb_d E iv (cfb_e E iv bs) = bs.
  Proof.
    induction bs as [|b bs IH]; intros W iv Hi; [split; constructor|].
    apply wellcut_cons in W. destruct W as (_ & Hle & Hor & W). cbn [cfb_e cfb_d].
    assert (Le := Elen iv Hi).
    assert (R : Forall2 (fun a b => length a = length b) bs (cfb_e E (xorl b (E iv)) bs) /\
                cfb_d E (xorl b (E iv)) (cfb_e E (xorl b (E iv)) bs) = bs).
    { destruct Hor as [->|Hb]; [split; constructor|]. apply IH; auto. rewrite xorl_length. lia. }
    destruct R as [R1 R2]. split.
    - constructor; [rewrite xorl_length; lia|exact R1].
    - rewrite xorl_cancel_r by lia. rewrite R2. reflexivity.
  Qed.
  Lemma CFB_inv iv m : length iv = BS -> CFB_dec BS E iv (CFB_enc BS E iv m) = m.
  Proof.
    intros Hi. unfold CFB_dec, CFB_enc. destruct (blocks_of_wellcut BS m P) as [W C].
    destruct (cfb_e_same _ W iv Hi) as [S R].
    rewrite blocks_of_concat by (auto; eapply wellcut_same; eassumption). rewrite R. exact C.
  Qed.
  Lemma CFB_enc_length iv m : length iv = BS -> length (CFB_enc BS E iv m) = length m.
  Proof.
    intros Hi. unfold CFB_enc. destruct (blocks_of_wellcut BS m P) as [W C].
    destruct (cfb_e_same _ W iv Hi) as [S R]. rewrite <- (concat_same_len _ _ S), C. reflexivity.
  Qed.

  Lemma ofb_same bs : wellcut BS bs -> forall iv, length iv = BS ->
    Forall2 (fun a b => length a = length b) bs (ofb E iv bs) /\ ofb E iv (ofb E iv bs) = bs.
  Proof.
    induction bs as [|b bs IH]; intros W iv Hi; [split; constructor|].
    apply wellcut_cons in W. destruct W as (_ & Hle & Hor & W). cbn [ofb].
    assert (Le := Elen iv Hi). destruct (IH W (E iv) Le) as [R1 R2]. split.
    - constructor; [rewrite xorl_length; lia|exact R1].
    - rewrite xorl_cancel_r by lia. rewrite R2. reflexivity.
  Qed.
  Lemma OFB_inv iv m : length iv = BS -> OFB BS E iv (OFB BS E iv m) = m /\ length (OFB BS E iv m) = length m.
  Proof.
    intros Hi. unfold OFB. destruct (blocks_of_wellcut BS m P) as [W C].
    destruct (ofb_same _ W iv Hi) as [S R].
    rewrite blocks_of_concat by (auto; eapply wellcut_same; eassumption).
    rewrite R, <- (concat_same_len _ _ S), C. auto.
  Qed.

  Lemma ctr_same T bs : wellcut BS bs -> forall j,
    Forall2 (fun a b => length a = length b) bs (ctr BS E T j bs) /\ ctr BS E T j (ctr BS E T j bs) = bs.
  Proof.
    induction bs as [|b bs IH]; intros W j; [split; constructor|].
    apply wellcut_cons in W. destruct W as (_ & Hle & Hor & W). cbn [ctr].
    assert (Le := Elen _ (be_bytes_length BS (be_val T + j))). destruct (IH W (j + 1)) as [R1 R2]. split.
    - constructor; [rewrite xorl_length; lia|exact R1].
    - rewrite xorl_cancel_r by lia. rewrite R2. reflexivity.
  Qed.
  Lemma CTR_inv iv m : CTR BS E iv (CTR BS E iv m) = m /\ length (CTR BS E iv m) = length m.
  Proof.
    unfold CTR. destruct (blocks_of_wellcut BS m P) as [W C].
    destruct (ctr_same iv _ W 0) as [S R].
    rewrite blocks_of_concat by (auto; eapply wellcut_same; eassumption).
    rewrite R, <- (concat_same_len _ _ S), C. auto.
  Qed.
End INV.

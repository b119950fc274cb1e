(** Conforming ciphers and the mode sessions over them. *)
From Verif Require Import Base BaseFacts ModelEndian ModelModes SpecModes ProofModeStream ProofModes
  ProofModes2 ProofModes3 SpecSM4 ModelSM4 ModelCipher SpecCipher ProofWord32 ProofSM4 ProofSM4b.

(** ** The SM4 class *)
Lemma u8s_id l : bytes l -> u8s l = l.
Proof.
  unfold u8s. induction 1 as [|x l Hx _ IH]; [reflexivity|]. cbn [map]. rewrite IH. f_equal.
  apply Z.mod_small. exact Hx.
Qed.
Lemma u8s_bytes l : bytes (u8s l).
Proof. unfold u8s, bytes. rewrite Forall_map. apply Forall_forall. intros. apply mod_pow2_bound. lia. Qed.
Lemma u8s_length l : length (u8s l) = length l. Proof. apply map_length. Qed.
Lemma u32s_id l : Forall is_u32 l -> u32s l = l.
Proof.
  unfold u32s. induction 1 as [|x l Hx _ IH]; [reflexivity|]. cbn [map]. rewrite IH. f_equal.
  apply Z.mod_small. exact Hx.
Qed.
Lemma nz_u32s k i : is_u32 (nz (u32s k) i).
Proof.
  unfold nz, u32s. change 0 with (w32 0) at 1. rewrite map_nth. apply w32_u32.
Qed.
Lemma u32s_ok k : Forall is_u32 (map (nz (u32s k)) (seq 0 32)).
Proof. rewrite Forall_map. apply Forall_forall. intros. apply nz_u32s. Qed.
Lemma cut_u8s n k l : cut n k (u8s l) = map u8s (cut n k l).
Proof.
  unfold u8s. revert l. induction k as [|k IH]; intros l; [reflexivity|]. cbn [cut map].
  rewrite firstn_map, skipn_map, IH. reflexivity.
Qed.
Lemma compute_len rnd k b : length (sm4_compute_block rnd k b) = 16%nat.
Proof. unfold sm4_compute_block. rewrite store_quad. apply rev_bytes_ok. Qed.
Lemma SM4_enc_bytes k b : bytes (SM4_enc k b). Proof. apply rev_bytes_ok. Qed.
Lemma SM4_dec_bytes k b : bytes (SM4_dec k b). Proof. apply rev_bytes_ok. Qed.

Lemma impl_SM4_common : implements SM4_common 16 SM4_enc SM4_dec.
Proof.
  split; cbn [SM4_common cK cBS cPN c_set_key c_eb c_db c_ebs c_dbs]; try lia.
  - intros key b Hk Lk Hb Lb. rewrite u8s_id, u32s_id by (auto; rewrite set_key_common_spec by assumption; apply (ks_u32 _ true); assumption).
    apply (sm4_common_conforms key true); assumption.
  - intros key b Hk Lk Hb Lb. rewrite u8s_id, u32s_id by (auto; rewrite set_key_common_spec by assumption; apply (ks_u32 _ false); assumption).
    apply (sm4_common_conforms key false); assumption.
  - intros; apply compute_len.
  - intros; apply compute_len.
  - intros k d n H. rewrite blocks_common_spec by (try apply u8s_bytes; rewrite u8s_length; lia).
    rewrite cut_u8s, map_map. reflexivity.
  - intros k d n H. rewrite blocks_common_spec by (try apply u8s_bytes; rewrite u8s_length; lia).
    rewrite cut_u8s, map_map. reflexivity.
  - intros; apply SM4_enc_bytes.
  - intros; apply SM4_dec_bytes.
  - intros; apply SM4_dec_enc; assumption.
Qed.
Lemma impl_SM4_l18_gen PN bls : (0 < PN)%nat ->
  (forall k d n, Forall is_u32 (map (nz k) (seq 0 32)) -> bytes d -> length d = (n * 16)%nat ->
     bls k d n = concat (map (compute_block_l18 k) (cut 16 n d))) ->
  implements {| cK := list Z; cBS := 16; cPN := PN; c_set_key := sm4_set_key_l18;
     c_eb := fun k b => compute_block_l18 (u32s k) (u8s b);
     c_db := fun k b => compute_block_l18 (u32s k) (u8s b);
     c_ebs := fun k b n => bls (u32s k) (u8s b) n;
     c_dbs := fun k b n => bls (u32s k) (u8s b) n |} 16 SM4_enc SM4_dec.
Proof.
  intros HP Hbl. split; cbn [cK cBS cPN c_set_key c_eb c_db c_ebs c_dbs]; try lia.
  - intros key b Hk Lk Hb Lb. rewrite u8s_id, u32s_id by (auto; rewrite set_key_l18_spec by assumption; apply (ks_u32 _ true); assumption).
    apply (sm4_l18_conforms key true); assumption.
  - intros key b Hk Lk Hb Lb. rewrite u8s_id, u32s_id by (auto; rewrite set_key_l18_spec by assumption; apply (ks_u32 _ false); assumption).
    apply (sm4_l18_conforms key false); assumption.
  - intros; apply compute_len.
  - intros; apply compute_len.
  - intros k d n H. rewrite Hbl by (try apply u8s_bytes; try apply u32s_ok; rewrite u8s_length; lia).
    rewrite cut_u8s, map_map. reflexivity.
  - intros k d n H. rewrite Hbl by (try apply u8s_bytes; try apply u32s_ok; rewrite u8s_length; lia).
    rewrite cut_u8s, map_map. reflexivity.
  - intros; apply SM4_enc_bytes.
  - intros; apply SM4_dec_bytes.
  - intros; apply SM4_dec_enc; assumption.
Qed.
Lemma impl_SM4_lang18 : implements SM4_lang18 16 SM4_enc SM4_dec.
Proof. apply impl_SM4_l18_gen; [lia|]. intros; apply blocks_l18_spec; assumption. Qed.
Lemma impl_SM4_avx2 : implements SM4_avx2 16 SM4_enc SM4_dec.
Proof. apply impl_SM4_l18_gen; [lia|]. intros; apply blocks_avx2_spec; assumption. Qed.

(** ** Extensionality of the mode specifications *)
Section EXT.
  Variable BS : nat.
  Hypothesis P : (0 < BS)%nat.
  Variable E E' : list Z -> list Z.
  Hypothesis EE : forall b, bytes b -> length b = BS -> E b = E' b.
  Hypothesis Eb : forall b, bytes b -> length b = BS -> bytes (E' b).
  Hypothesis El : forall b, length b = BS -> length (E b) = BS.

  Lemma El' b : bytes b -> length b = BS -> length (E' b) = BS.
  Proof. intros H L. rewrite <- EE by assumption. auto. Qed.

  Lemma ECB_ext_e m : bytes m -> (length m mod BS = 0)%nat -> ECB_enc BS E m = ECB_enc BS E' m.
  Proof.
    intros Hb Hm. unfold ECB_enc. f_equal. apply map_ext_in. intros b Hin.
    pose proof (blocks_full BS m P Hm) as Hz. pose proof (bytes_blocks BS m Hb) as Hbb.
    unfold blocksz in Hz. rewrite Forall_forall in Hz, Hbb. apply EE; auto.
  Qed.
  Lemma cbc_e_ext bs : blocksz BS bs -> Forall bytes bs -> forall iv, bytes iv -> length iv = BS ->
    cbc_e E iv bs = cbc_e E' iv bs.
  Proof.
    induction 1 as [|b bs Hb H IH]; intros Hbb iv Hi Li; [reflexivity|]. inversion_clear Hbb. cbn [cbc_e].
    assert (L : length (xorl b iv) = BS) by (rewrite xorl_length; lia).
    assert (B : bytes (xorl b iv)) by (apply xorl_bytes; assumption).
    rewrite EE by assumption. f_equal. apply IH; auto using El'.
  Qed.
  Lemma CBC_enc_ext iv m : bytes m -> (length m mod BS = 0)%nat -> bytes iv -> length iv = BS ->
    CBC_enc BS E iv m = CBC_enc BS E' iv m.
  Proof.
    intros. unfold CBC_enc. f_equal. apply cbc_e_ext; auto using blocks_full, bytes_blocks.
  Qed.
  Lemma cbc_d_ext bs : blocksz BS bs -> Forall bytes bs -> forall iv, cbc_d E iv bs = cbc_d E' iv bs.
  Proof.
    induction 1 as [|b bs Hb H IH]; intros Hbb iv; [reflexivity|]. inversion_clear Hbb. cbn [cbc_d].
    rewrite EE, IH by assumption. reflexivity.
  Qed.
  Lemma CBC_dec_ext iv m : bytes m -> (length m mod BS = 0)%nat ->
    CBC_dec BS E iv m = CBC_dec BS E' iv m.
  Proof. intros. unfold CBC_dec. f_equal. apply cbc_d_ext; auto using blocks_full, bytes_blocks. Qed.
  Lemma cfb_e_ext bs : wellcut BS bs -> Forall bytes bs -> forall iv, bytes iv -> length iv = BS ->
    cfb_e E iv bs = cfb_e E' iv bs.
  Proof.
    induction bs as [|b bs IH]; intros W Hbb iv Hi Li; [reflexivity|]. inversion_clear Hbb.
    apply wellcut_cons in W. destruct W as (_ & Hle & Hor & W). cbn [cfb_e].
    rewrite EE by assumption. f_equal. destruct Hor as [->|Lb]; [reflexivity|].
    apply IH; auto using xorl_bytes. rewrite xorl_length, El' by assumption. lia.
  Qed.
  Lemma CFB_enc_ext iv m : bytes m -> bytes iv -> length iv = BS -> CFB_enc BS E iv m = CFB_enc BS E' iv m.
  Proof.
    intros. unfold CFB_enc. f_equal. apply cfb_e_ext; auto using bytes_blocks. apply blocks_of_wellcut; assumption.
  Qed.
  Lemma cfb_d_ext bs : wellcut BS bs -> Forall bytes bs -> forall iv, bytes iv -> length iv = BS ->
    cfb_d E iv bs = cfb_d E' iv bs.
  Proof.
    induction bs as [|b bs IH]; intros W Hbb iv Hi Li; [reflexivity|]. inversion_clear Hbb.
    apply wellcut_cons in W. destruct W as (_ & Hle & Hor & W). cbn [cfb_d].
    rewrite EE by assumption. f_equal. destruct Hor as [->|Lb]; [reflexivity|]. apply IH; auto.
  Qed.
  Lemma CFB_dec_ext iv m : bytes m -> bytes iv -> length iv = BS -> CFB_dec BS E iv m = CFB_dec BS E' iv m.
  Proof.
    intros. unfold CFB_dec. f_equal. apply cfb_d_ext; auto using bytes_blocks. apply blocks_of_wellcut; assumption.
  Qed.
  Lemma ofb_ext bs : forall iv, bytes iv -> length iv = BS -> ofb E iv bs = ofb E' iv bs.
  Proof.
    induction bs as [|b bs IH]; intros iv Hi Li; [reflexivity|]. cbn [ofb]. rewrite EE by assumption.
    f_equal. apply IH; auto using El'.
  Qed.
  Lemma OFB_ext iv m : bytes iv -> length iv = BS -> OFB BS E iv m = OFB BS E' iv m.
  Proof. intros. unfold OFB. f_equal. apply ofb_ext; assumption. Qed.
  Lemma CTR_ext T m : CTR BS E T m = CTR BS E' T m.
  Proof.
    unfold CTR. f_equal. generalize 0. induction (blocks_of BS m) as [|b bs IH]; intros j; [reflexivity|].
    cbn [ctr]. rewrite EE, IH by (auto using be_bytes_bytes, be_bytes_length). reflexivity.
  Qed.
End EXT.

(** ** Sessions *)
Lemma inputs_msg calls lastc : inputs (calls ++ [lastc]) = msg calls lastc.
Proof. unfold inputs, msg. rewrite map_app, concat_app. cbn. rewrite app_nil_r. reflexivity. Qed.

Section SESS.
  Variable C : cipher.
  Variable klen : nat.
  Variable E D : list Z -> list Z -> list Z.
  Hypothesis IM : implements C klen E D.
  Notation BS := (cBS C).

  Lemma im_co : cipher_ok (cK C) BS (cPN C) (c_eb C) (c_db C) (c_ebs C) (c_dbs C).
  Proof. destruct IM. split; assumption. Qed.

  Variable key iv junk : list Z.
  Variable calls : list (list Z * list Z).
  Variable lastc : list Z * list Z.
  Hypothesis Kb : bytes key.
  Hypothesis Kl : length key = klen.
  Hypothesis Ib : bytes iv.
  Hypothesis Il : length iv = BS.
  Hypothesis Jl : length junk = BS.
  Hypothesis Mb : bytes (msg calls lastc).
  Hypothesis Room : Forall (roomy BS) (calls ++ [lastc]).
  Let x := msg calls lastc.
  Let PB := im_bs _ _ _ _ IM.

  Lemma S_ee : forall b, bytes b -> length b = BS -> c_eb C (c_set_key C key true) b = E key b.
  Proof. intros; apply (im_enc _ _ _ _ IM); assumption. Qed.
  Lemma S_dd : forall b, bytes b -> length b = BS -> c_db C (c_set_key C key false) b = D key b.
  Proof. intros; apply (im_dec _ _ _ _ IM); assumption. Qed.
  Lemma S_eb : forall b, bytes b -> length b = BS -> bytes (E key b).
  Proof. intros; apply (im_Ebytes _ _ _ _ IM); assumption. Qed.
  Lemma S_db : forall b, bytes b -> length b = BS -> bytes (D key b).
  Proof. intros; apply (im_Dbytes _ _ _ _ IM); assumption. Qed.

  Lemma run_outcome {M} (r : res (mstate M * list Z)) : outcome r = run_out r.
  Proof. destruct r as [[s o]| |]; reflexivity. Qed.

  Lemma sess_ecb_enc : ecb_encryptor C key junk calls lastc =
    if (length x mod BS =? 0)%nat then Ok (ECB_enc BS (E key) x) else Throw.
  Proof.
    unfold ecb_encryptor. rewrite run_outcome.
    rewrite (ecb_enc_run _ _ _ _ _ _ _ im_co) by assumption. rewrite inputs_msg. fold x.
    destruct (Nat.eqb_spec (length x mod BS) 0); [|reflexivity]. apply (f_equal Ok).
    apply ECB_ext_e; auto using S_ee.
  Qed.
  Lemma sess_ecb_dec : ecb_decryptor C key junk calls lastc =
    if (length x mod BS =? 0)%nat then Ok (ECB_dec BS (D key) x) else Throw.
  Proof.
    unfold ecb_decryptor. rewrite run_outcome.
    rewrite (ecb_dec_run _ _ _ _ _ _ _ im_co) by assumption. rewrite inputs_msg. fold x.
    destruct (Nat.eqb_spec (length x mod BS) 0); [|reflexivity]. apply (f_equal Ok).
    apply ECB_ext_e; auto using S_dd.
  Qed.
  Lemma sess_cbc_enc : cbc_encryptor C key iv junk calls lastc =
    if (length x mod BS =? 0)%nat then Ok (CBC_enc BS (E key) iv x) else Throw.
  Proof.
    unfold cbc_encryptor. rewrite run_outcome.
    rewrite (cbc_enc_run _ _ _ _ _ _ _ im_co) by assumption. rewrite inputs_msg. fold x.
    destruct (Nat.eqb_spec (length x mod BS) 0); [|reflexivity]. apply (f_equal Ok).
    apply CBC_enc_ext; auto using S_ee, S_eb. apply (im_elen _ _ _ _ IM).
  Qed.
  Lemma sess_cbc_dec : cbc_decryptor C key iv junk calls lastc =
    if (length x mod BS =? 0)%nat then Ok (CBC_dec BS (D key) iv x) else Throw.
  Proof.
    unfold cbc_decryptor. rewrite run_outcome.
    rewrite (cbc_dec_run _ _ _ _ _ _ _ im_co) by assumption. rewrite inputs_msg. fold x.
    destruct (Nat.eqb_spec (length x mod BS) 0); [|reflexivity]. apply (f_equal Ok).
    apply CBC_dec_ext; auto using S_dd.
  Qed.
  Lemma sess_cfb_enc : cfb_encryptor C key iv junk calls lastc = Ok (CFB_enc BS (E key) iv x).
  Proof.
    unfold cfb_encryptor. rewrite run_outcome.
    rewrite (cfb_enc_run _ _ _ _ _ _ _ im_co) by assumption. rewrite inputs_msg. fold x.
    apply (f_equal Ok). apply CFB_enc_ext; auto using S_ee, S_eb. apply (im_elen _ _ _ _ IM).
  Qed.
  Lemma sess_cfb_dec : cfb_decryptor C key iv junk calls lastc = Ok (CFB_dec BS (E key) iv x).
  Proof.
    unfold cfb_decryptor. rewrite run_outcome.
    rewrite (cfb_dec_run _ _ _ _ _ _ _ im_co) by assumption. rewrite inputs_msg. fold x.
    apply (f_equal Ok). apply CFB_dec_ext; auto using S_ee, S_eb.
  Qed.
  Lemma sess_ofb : ofb_cryptor C key iv junk calls lastc = Ok (OFB BS (E key) iv x).
  Proof.
    unfold ofb_cryptor. rewrite run_outcome.
    rewrite (ofb_run _ _ _ _ _ _ _ im_co) by assumption. rewrite inputs_msg. fold x.
    apply (f_equal Ok). apply OFB_ext; auto using S_ee, S_eb. apply (im_elen _ _ _ _ IM).
  Qed.
  Lemma sess_ctr : ctr_cryptor C key iv junk calls lastc = Ok (CTR BS (E key) iv x).
  Proof.
    unfold ctr_cryptor. rewrite run_outcome.
    rewrite (ctr_run _ _ _ _ _ _ _ im_co) by assumption. rewrite inputs_msg. fold x.
    apply (f_equal Ok). apply CTR_ext; auto using S_ee.
  Qed.
End SESS.

(** ** Corollaries for SM4 *)
Lemma sm4_variants key enc n b : bytes key -> length key = 16%nat -> bytes b -> length b = (n * 16)%nat ->
  sm4_set_key_l18 key enc = sm4_set_key_common key enc /\
  sm4_blocks_l18 (sm4_set_key_l18 key enc) b n = sm4_blocks_common (sm4_set_key_common key enc) b n /\
  sm4_blocks_avx2 (sm4_set_key_l18 key enc) b n = sm4_blocks_common (sm4_set_key_common key enc) b n.
Proof.
  intros Hk Lk Hb Lb.
  assert (EQ : concat (map (compute_block_l18 (sm4_set_key_l18 key enc)) (cut 16 n b)) =
          concat (map (compute_block_common (sm4_set_key_common key enc)) (cut 16 n b))).
  { f_equal. apply map_ext_in. intros x Hx.
    pose proof (cut_bytes 16 n b Hb) as F1. rewrite Forall_forall in F1.
    pose proof (blocksz_cut 16 n b Lb) as F2. unfold blocksz in F2. rewrite Forall_forall in F2.
    rewrite (sm4_l18_conforms key enc) by auto. rewrite (sm4_common_conforms key enc) by auto. reflexivity. }
  split; [|split].
  - rewrite set_key_l18_spec, set_key_common_spec by assumption. reflexivity.
  - rewrite blocks_l18_spec, blocks_common_spec by assumption. exact EQ.
  - rewrite blocks_avx2_spec, blocks_common_spec; try assumption.
    apply l18_key_u32. rewrite set_key_l18_spec by assumption. apply ks_u32; assumption.
Qed.
Lemma sm4_l18_roundtrip key b : bytes key -> length key = 16%nat -> bytes b -> length b = 16%nat ->
  compute_block_l18 (sm4_set_key_l18 key false) (compute_block_l18 (sm4_set_key_l18 key true) b) = b /\
  compute_block_l18 (sm4_set_key_l18 key true) (compute_block_l18 (sm4_set_key_l18 key false) b) = b.
Proof.
  intros. rewrite (sm4_l18_conforms key true b), (sm4_l18_conforms key false b) by assumption.
  rewrite (sm4_l18_conforms key false), (sm4_l18_conforms key true);
    auto using SM4_enc_bytes, SM4_dec_bytes; try apply rev_bytes_ok.
  split; [apply SM4_dec_enc|apply SM4_enc_dec]; assumption.
Qed.
Lemma sm4_common_roundtrip key b : bytes key -> length key = 16%nat -> bytes b -> length b = 16%nat ->
  compute_block_common (sm4_set_key_common key false) (compute_block_common (sm4_set_key_common key true) b) = b /\
  compute_block_common (sm4_set_key_common key true) (compute_block_common (sm4_set_key_common key false) b) = b.
Proof.
  intros. rewrite (sm4_common_conforms key true b), (sm4_common_conforms key false b) by assumption.
  rewrite (sm4_common_conforms key false), (sm4_common_conforms key true);
    auto using SM4_enc_bytes, SM4_dec_bytes; try apply rev_bytes_ok.
  split; [apply SM4_dec_enc|apply SM4_enc_dec]; assumption.
Qed.

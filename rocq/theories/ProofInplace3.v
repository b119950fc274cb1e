(** In-place sessions against the standards. *)
From Verif Require Import Base BaseFacts ModelEndian ModelModes SpecModes ModelCipher SpecCipher ModelMemxor
  ModelHash ModelGHASH ModelGCM SpecGCM SpecGCMUse ModelInplace
  ProofModeStream ProofModes ProofModes2 ProofModes3 ProofCipher ProofModesProp ProofGHClass ProofGCM ProofInplace ProofInplace2.

Definition mk_call (BS : nat) (x : list Z) : list Z * list Z := (repeat 0 (length x + BS), x).
Lemma mk_snd BS cs : map snd (map (mk_call BS) cs) = cs.
Proof. rewrite map_map. cbn. apply map_id. Qed.
Lemma mk_len BS cs : map (fun c => length (snd c)) (map (mk_call BS) cs) = map (@length Z) cs.
Proof. rewrite map_map. reflexivity. Qed.
Lemma mk_room BS cs l : Forall (room BS) (map (mk_call BS) cs ++ [mk_call BS l]).
Proof.
  assert (H : forall x, room BS (mk_call BS x)) by (intros x; unfold room, mk_call; cbn [fst snd]; rewrite repeat_length; lia).
  apply Forall_app. split; [|constructor; [apply H|constructor]]. rewrite Forall_map. apply Forall_forall. intros; apply H.
Qed.
Lemma mk_msg BS cs l : msg (map (mk_call BS) cs) (mk_call BS l) = concat cs ++ l.
Proof. unfold msg. rewrite mk_snd. reflexivity. Qed.

Lemma ip_session M BS ub ubm fb V (m0 : M) junk cs l pre post : (0 < BS)%nat ->
  inplace_ok M BS ub ubm V ->
  (forall m d m' o, V m -> (length d < BS)%nat -> fb m d = Ok (m', o) -> length o = length d) ->
  V m0 -> forall R, outcome (m_run M BS ub fb (m_new M junk m0) (map (mk_call BS) cs) (mk_call BS l)) = R -> R <> UB ->
  ip_outcome (ip_run M BS ub ubm fb (m_new M junk m0) (pre ++ (concat cs ++ l) ++ post) (length pre) (map (@length Z) cs) (length l)) =
  bind R (fun o => Ok (pre ++ o ++ post, (length pre + length (concat cs ++ l))%nat)).
Proof.
  intros HB IP FL V0 R HR HU.
  pose proof (run_sim M BS ub ubm fb V HB IP FL junk m0 (map (mk_call BS) cs) (mk_call BS l) pre post V0) as S.
  rewrite mk_snd, mk_len in S. change (snd (mk_call BS l)) with l in S.
  destruct (m_run M BS ub fb (m_new M junk m0) (map (mk_call BS) cs) (mk_call BS l)) as [[s' o]| |]; cbn in HR; subst R.
  - destruct S as [-> L]. cbn. rewrite L. reflexivity.
  - rewrite S. reflexivity.
  - contradiction.
Qed.

(** xor_into with the operand directly in front of, or further before, the result *)
Lemma xor_loop_dj w : (0 < w)%nat -> forall fuel A a B d l post size, length d = size -> length l = size -> length a = size ->
  exists A' a' B' d' l', xor_loop fuel w (A ++ a ++ B ++ d ++ post) (length A + length a + length B) (length A) l size =
      Ok (A' ++ a' ++ B' ++ d' ++ post, (length A' + length a' + length B')%nat, length A', l', length d') /\
    length l' = length d' /\ length a' = length d' /\
    A' ++ a' = A ++ a /\ B' ++ xorl a' l' = B ++ xorl a l /\
    (w = 1%nat -> (size <= fuel)%nat -> d' = []).
Proof.
  intros Hw. induction fuel as [|f IH]; intros A a B d l post size Ld Ll La; cbn [xor_loop].
  - exists A, a, B, d, l. rewrite Ld. repeat split; auto.
    intros _ H. destruct d; [reflexivity|cbn in Ld; lia].
  - destruct (Nat.leb_spec w size) as [H|H].
    + destruct (split_at w d) as (d1 & d2 & -> & Ld1 & Ld2); [lia|].
      destruct (split_at w l) as (l1 & l2 & -> & Ll1 & Ll2); [lia|].
      destruct (split_at w a) as (a1 & a2 & -> & La1 & La2); [lia|].
      rewrite !app_length in *.
      rewrite <- (app_assoc a1 a2). rewrite read_mid by auto. cbn [bind].
      assert (R : read (l1 ++ l2) 0 w = Ok l1).
      { rewrite read_ok by (rewrite app_length; lia). unfold slice. cbn [skipn].
        rewrite firstn_exact by auto. reflexivity. }
      rewrite R. cbn [bind]. assert (Lx : length (xorl a1 l1) = w) by (rewrite xorl_length; lia).
      replace (A ++ a1 ++ a2 ++ B ++ (d1 ++ d2) ++ post) with ((A ++ a1 ++ a2 ++ B) ++ d1 ++ (d2 ++ post)) by (rewrite <- !app_assoc; reflexivity).
      rewrite write_mid by (rewrite ?app_length; lia). cbn [bind].
      rewrite skipn_exact' by auto.
      destruct (IH (A ++ a1) a2 (B ++ xorl a1 l1) d2 l2 post (size - w)%nat) as (A' & a' & B' & d' & l' & E & L1 & L2 & X1 & X2 & N); try lia.
      exists A', a', B', d', l'. split; [|split; [|split; [|split; [|split]]]]; auto.
      * rewrite <- E. rewrite !app_length, Lx, La1, <- !app_assoc. f_equal; lia.
      * rewrite X1, <- app_assoc. reflexivity.
      * rewrite X2, xorl_app by lia. rewrite <- app_assoc. reflexivity.
      * intros W F. apply N; auto. lia.
    + exists A, a, B, d, l. rewrite Ld. repeat split; auto.
      intros -> _. destruct d; [reflexivity|cbn in Ld; lia].
Qed.
Lemma xor_into_dj ws : strides_ok ws -> forall A a B d l post size, length d = size -> length l = size -> length a = size ->
  xor_into ws (A ++ a ++ B ++ d ++ post) (length A + length a + length B) (length A) l size = Ok (A ++ a ++ B ++ xorl a l ++ post).
Proof.
  intros (ws0 & -> & F). induction F as [|w ws0 Hw _ IH]; intros A a B d l post size Ld Ll La; cbn [app xor_into].
  - destruct (xor_loop_dj 1 ltac:(lia) size A a B d l post size Ld Ll La) as (A' & a' & B' & d' & l' & E & L1 & L2 & X1 & X2 & N).
    rewrite E. cbn [bind]. rewrite (N eq_refl (le_n _)) in *. cbn [length] in *.
    destruct l'; [|discriminate]. destruct a'; [|discriminate]. cbn in X1, X2. rewrite app_nil_r in X1, X2. cbn [app].
    rewrite X1, X2, <- !app_assoc. reflexivity.
  - destruct (xor_loop_dj w Hw size A a B d l post size Ld Ll La) as (A' & a' & B' & d' & l' & E & L1 & L2 & X1 & X2 & N).
    rewrite E. cbn [bind]. rewrite (IH A' a' B' d' l' post (length d')) by auto.
    f_equal. rewrite (app_assoc A' a'), X1, (app_assoc B'), X2, <- !app_assoc. reflexivity.
Qed.

Section P.
  Variable ws : list nat.
  Hypothesis WS : memxor_build ws.
  Variable C : cipher.
  Variable klen : nat.
  Variable E D : list Z -> list Z -> list Z.
  Hypothesis IM : implements C klen E D.
  Notation BS := (cBS C).
  Let PB : (0 < BS)%nat := im_bs _ _ _ _ IM.
  Let CO := im_co C klen E D IM.
  Let WO := build_strides ws WS.
  Variable key iv junk : list Z.
  Variable cs : list (list Z).
  Variable l pre post : list Z.
  Hypothesis Kb : bytes key.
  Hypothesis Kl : length key = klen.
  Hypothesis Ib : bytes iv.
  Hypothesis Il : length iv = BS.
  Hypothesis Jl : length junk = BS.
  Let x := concat cs ++ l.
  Hypothesis Xb : bytes x.
  Notation done o := (Ok (pre ++ o ++ post, (length pre + length x)%nat)).

  Let SO : session_ok C klen key iv junk (map (mk_call BS) cs) (mk_call BS l).
  Proof. repeat (split; [assumption|]). rewrite mk_msg. split; [exact Xb|]. apply mk_room. Qed.

  Let Ile : VLen (cK C) BS (c_set_key C key true, iv) := Il.
  Let Ild : VLen (cK C) BS (c_set_key C key false, iv) := Il.
  Lemma fb_len_block (K : Type) (f : K -> list Z -> res (K * list Z)) :
    (forall m t, (length t < BS)%nat -> f m t = if (length t =? 0)%nat then Ok (m, []) else Throw) ->
    forall (V : K -> Prop) m d m' o, V m -> (length d < BS)%nat -> f m d = Ok (m', o) -> length o = length d.
  Proof.
    intros H V m d m' o _ L. rewrite H by exact L. destruct (Nat.eqb_spec (length d) 0) as [->|]; [|discriminate].
    intros Q. injection Q as _ <-. reflexivity.
  Qed.
  Lemma xorl_pre (d k : list Z) : (length d <= length k)%nat -> length (xorl (firstn (length d) k) d) = length d.
  Proof. intros. rewrite xorl_length, firstn_length. lia. Qed.

  Lemma fb_ecb_e : forall m d m' o, True -> (length d < BS)%nat -> ecb_enc_fb (cK C) BS (c_eb C) m d = Ok (m', o) -> length o = length d.
  Proof.
    apply (fb_len_block (cK C)) with (V := fun _ => True). intros m t H. unfold ecb_enc_fb.
    destruct (length t =? 0)%nat; [reflexivity|]. destruct (Nat.eqb_spec (length t) BS); [lia|reflexivity].
  Qed.
  Lemma fb_ecb_d : forall m d m' o, True -> (length d < BS)%nat -> ecb_dec_fb (cK C) BS (c_db C) m d = Ok (m', o) -> length o = length d.
  Proof.
    apply (fb_len_block (cK C)) with (V := fun _ => True). intros m t H. unfold ecb_dec_fb.
    destruct (length t =? 0)%nat; [reflexivity|]. destruct (Nat.eqb_spec (length t) BS); [lia|reflexivity].
  Qed.
  Lemma fb_cbc_e : forall m d m' o, VLen (cK C) BS m -> (length d < BS)%nat -> cbc_enc_fb (cK C) BS (c_eb C) m d = Ok (m', o) -> length o = length d.
  Proof.
    apply (fb_len_block (cK C * list Z)). intros m t H. unfold cbc_enc_fb.
    destruct (length t =? 0)%nat; [reflexivity|]. destruct (Nat.eqb_spec (length t) BS); [lia|reflexivity].
  Qed.
  Lemma fb_cbc_d : forall m d m' o, VLen (cK C) BS m -> (length d < BS)%nat -> cbc_dec_fb (cK C) BS (cPN C) (c_dbs C) m d = Ok (m', o) -> length o = length d.
  Proof.
    apply (fb_len_block (cK C * list Z)). intros m t H. unfold cbc_dec_fb.
    destruct (length t =? 0)%nat; [reflexivity|]. destruct (Nat.eqb_spec (length t) BS); [lia|reflexivity].
  Qed.
  Lemma fb_cfb_e : forall m d m' o, VLen (cK C) BS m -> (length d < BS)%nat -> cfb_enc_fb (cK C) (c_eb C) m d = Ok (m', o) -> length o = length d.
  Proof.
    intros m d m' o V H. unfold cfb_enc_fb. destruct (Nat.eqb_spec (length d) 0); intros Q; injection Q as _ <-; [auto|].
    apply xorl_pre. rewrite (im_elen _ _ _ _ IM) by exact V. lia.
  Qed.
  Lemma fb_cfb_d : forall m d m' o, VLen (cK C) BS m -> (length d < BS)%nat -> cfb_dec_fb (cK C) (c_eb C) m d = Ok (m', o) -> length o = length d.
  Proof.
    intros m d m' o V H. unfold cfb_dec_fb. destruct (Nat.eqb_spec (length d) 0); intros Q; injection Q as _ <-; [auto|].
    rewrite xorl_comm. apply xorl_pre. rewrite (im_elen _ _ _ _ IM) by exact V. lia.
  Qed.
  Lemma fb_ofb : forall m d m' o, VLen (cK C) BS m -> (length d < BS)%nat -> ofb_fb (cK C) (c_eb C) m d = Ok (m', o) -> length o = length d.
  Proof.
    intros m d m' o V H. unfold ofb_fb, ofb_gen1. destruct (Nat.eqb_spec (length d) 0); intros Q; injection Q as _ <-; [auto|].
    rewrite xorl_comm. apply xorl_pre. rewrite (im_elen _ _ _ _ IM) by exact V. lia.
  Qed.
  Lemma fb_ctr (VI : list Z -> Prop) : (forall c, VI c -> length c = BS) ->
    forall m d m' o, VI (snd m) -> (length d < BS)%nat -> ctr_fb (cK C) (c_ebs C) (ctr_inc BS) m d = Ok (m', o) -> length o = length d.
  Proof.
    intros H1 m d m' o V H. unfold ctr_fb, gen_ks. destruct (Nat.eqb_spec (length d) 0); cbn [counters]; intros Q; injection Q as _ <-; [auto|].
    apply xorl_pre. rewrite app_nil_r, (im_ebs _ _ _ _ IM) by (rewrite (H1 _ V); lia). cbn [cut map concat].
    rewrite app_nil_r, (im_elen _ _ _ _ IM) by (rewrite firstn_length, (H1 _ V); lia). lia.
  Qed.

  Lemma q_ecb :
    ip_ecb_encryptor C key junk (pre ++ x ++ post) (length pre) (map (@length Z) cs) (length l) =
      (if (length x mod BS =? 0)%nat then done (ECB_enc BS (E key) x) else Throw) /\
    ip_ecb_decryptor C key junk (pre ++ x ++ post) (length pre) (map (@length Z) cs) (length l) =
      (if (length x mod BS =? 0)%nat then done (ECB_dec BS (D key) x) else Throw).
  Proof.
    destruct (p_ecb C klen E D IM key iv junk _ _ SO) as [A B]. rewrite mk_msg in A, B. fold x in A, B.
    split.
    - unfold ip_ecb_encryptor. unfold x at 1.
      rewrite (ip_session _ _ _ _ _ _ _ _ cs l pre post PB (ip_ecb_enc _ _ _ _ _ _ _ CO) fb_ecb_e I _ A).
      + destruct (_ =? 0)%nat; reflexivity.
      + destruct (_ =? 0)%nat; discriminate.
    - unfold ip_ecb_decryptor. unfold x at 1.
      rewrite (ip_session _ _ _ _ _ _ _ _ cs l pre post PB (ip_ecb_dec _ _ _ _ _ _ _ CO) fb_ecb_d I _ B).
      + destruct (_ =? 0)%nat; reflexivity.
      + destruct (_ =? 0)%nat; discriminate.
  Qed.
  Lemma q_cbc_enc :
    ip_cbc_encryptor C key iv junk (pre ++ x ++ post) (length pre) (map (@length Z) cs) (length l) =
      (if (length x mod BS =? 0)%nat then done (CBC_enc BS (E key) iv x) else Throw).
  Proof.
    destruct (p_cbc C klen E D IM key iv junk _ _ SO) as [A _]. rewrite mk_msg in A. fold x in A.
    unfold ip_cbc_encryptor. unfold x at 1.
    rewrite (ip_session _ _ _ _ _ _ _ _ cs l pre post PB (ip_cbc_enc _ _ _ _ _ _ _ CO) fb_cbc_e Ile _ A).
    + destruct (_ =? 0)%nat; reflexivity.
    + destruct (_ =? 0)%nat; discriminate.
  Qed.
  Lemma q_cbc_dec : cPN C = 1%nat ->
    ip_cbc_decryptor ws C key iv junk (pre ++ x ++ post) (length pre) (map (@length Z) cs) (length l) =
      (if (length x mod BS =? 0)%nat then done (CBC_dec BS (D key) iv x) else Throw).
  Proof.
    intros P1. destruct (p_cbc C klen E D IM key iv junk _ _ SO) as [_ A]. rewrite mk_msg in A. fold x in A.
    unfold ip_cbc_decryptor. unfold x at 1.
    rewrite (ip_session _ _ _ _ _ _ _ _ cs l pre post PB (ip_cbc_dec ws _ _ _ _ _ _ _ CO P1) fb_cbc_d Ild _ A).
    + destruct (_ =? 0)%nat; reflexivity.
    + destruct (_ =? 0)%nat; discriminate.
  Qed.
  Lemma q_cfb :
    ip_cfb_encryptor ws C key iv junk (pre ++ x ++ post) (length pre) (map (@length Z) cs) (length l) = done (CFB_enc BS (E key) iv x) /\
    ip_cfb_decryptor ws C key iv junk (pre ++ x ++ post) (length pre) (map (@length Z) cs) (length l) = done (CFB_dec BS (E key) iv x).
  Proof.
    destruct (p_cfb C klen E D IM key iv junk _ _ SO) as [A B]. rewrite mk_msg in A, B. fold x in A, B.
    split.
    - unfold ip_cfb_encryptor. unfold x at 1.
      rewrite (ip_session _ _ _ _ _ _ _ _ cs l pre post PB (ip_cfb_enc ws WO _ _ _ _ _ _ _ CO) fb_cfb_e Ile _ A); [reflexivity|discriminate].
    - unfold ip_cfb_decryptor. unfold x at 1.
      rewrite (ip_session _ _ _ _ _ _ _ _ cs l pre post PB (ip_cfb_dec ws WO _ _ _ _ _ _ _ CO) fb_cfb_d Ile _ B); [reflexivity|discriminate].
  Qed.
  Lemma q_ofb :
    ip_ofb_cryptor ws C key iv junk (pre ++ x ++ post) (length pre) (map (@length Z) cs) (length l) = done (OFB BS (E key) iv x).
  Proof.
    pose proof (p_ofb C klen E D IM key iv junk _ _ SO) as A. rewrite mk_msg in A. fold x in A.
    unfold ip_ofb_cryptor. unfold x at 1.
    rewrite (ip_session _ _ _ _ _ _ _ _ cs l pre post PB (ip_ofb ws WO _ _ _ _ _ _ _ CO) fb_ofb Ile _ A); [reflexivity|discriminate].
  Qed.
  Lemma q_ctr :
    ip_ctr_cryptor ws C key iv junk (pre ++ x ++ post) (length pre) (map (@length Z) cs) (length l) = done (CTR BS (E key) iv x).
  Proof.
    pose proof (p_ctr C klen E D IM key iv junk _ _ SO) as A. rewrite mk_msg in A. fold x in A.
    set (VI := fun c => bytes c /\ length c = BS).
    assert (H1 : forall c, VI c -> length c = BS) by (intros c [_ H]; exact H).
    assert (H2 : forall c, VI c -> VI (ctr_inc BS c)).
    { intros c [G1 G2]. rewrite ctr_inc_spec by assumption. split; [apply be_bytes_bytes|apply be_bytes_length]. }
    unfold ip_ctr_cryptor. unfold x at 1.
    rewrite (ip_session _ _ _ _ _ _ _ _ cs l pre post PB (ip_ctr ws WO _ _ _ _ _ _ _ CO _ VI H1 H2) (fb_ctr VI H1) (conj Ib Il : VI (snd (c_set_key C key true, iv))) _ A); [reflexivity|discriminate].
  Qed.

  (** CBC decryption of two blocks by one update() with PARALLEL_NUM > 1 *)
  Lemma q_cbc_dec2 c1 c2 : (2 <= cPN C)%nat -> length c1 = BS -> length c2 = BS -> bytes c1 -> bytes c2 ->
    ip_cbc_decryptor ws C key iv junk (pre ++ (c1 ++ c2) ++ post) (length pre) [] (2 * BS) =
    Ok (pre ++ (xorl (D key c1) iv ++ xorl (D key c2) (xorl (D key c1) iv)) ++ post, (length pre + 2 * BS)%nat).
  Proof.
    intros HP L1 L2 B1 B2. unfold ip_cbc_decryptor, ip_run, im_final, im_update. cbn [ip_updates bind m_new mbuf msize mctx].
    destruct (Nat.eqb_spec (2 * BS) 0) as [Z|_]; [lia|]. cbn [Nat.eqb]. unfold im_tail.
    rewrite Nat.div_mul by lia.
    set (k := c_set_key C key false).
    assert (X : cbc_dec_mem ws (cK C) BS (cPN C) (c_dbs C) (k, iv) (pre ++ (c1 ++ c2) ++ post) (length pre) (length pre) 2 =
      Ok ((k, c2), pre ++ (xorl (D key c1) iv ++ xorl (D key c2) (xorl (D key c1) iv)) ++ post)).
    { unfold cbc_dec_mem. cbn [fst snd].
      assert (Y : cbc_dec_mbatch ws (cK C) BS (c_dbs C) k iv (pre ++ (c1 ++ c2) ++ post) (length pre) (length pre) 2 =
        Ok (c2, pre ++ (xorl (D key c1) iv ++ xorl (D key c2) (xorl (D key c1) iv)) ++ post)).
      { unfold cbc_dec_mbatch. cbn [Nat.sub]. replace (1 * BS)%nat with BS by lia.
        replace (pre ++ (c1 ++ c2) ++ post) with ((pre ++ c1) ++ c2 ++ post) by (rewrite <- !app_assoc; reflexivity).
        rewrite read_mid by (rewrite ?app_length; lia). cbn [bind].
        replace ((pre ++ c1) ++ c2 ++ post) with (pre ++ (c1 ++ c2) ++ post) by (rewrite <- !app_assoc; reflexivity).
        rewrite read_mid by (rewrite ?app_length; lia). cbn [bind].
        rewrite (im_dbs _ _ _ _ IM) by (rewrite app_length; lia). cbn [cut map concat].
        rewrite (firstn_exact _ c1 c2 BS), (skipn_exact' _ c1 c2 BS) by auto.
        rewrite (firstn_all2 c2) by lia. rewrite app_nil_r.
        unfold k. rewrite (im_dec _ _ _ _ IM key c1), (im_dec _ _ _ _ IM key c2) by assumption.
        assert (Ld1 : length (D key c1) = BS) by (rewrite <- (im_dec _ _ _ _ IM) by assumption; apply (im_dlen _ _ _ _ IM); exact L1).
        assert (Ld2 : length (D key c2) = BS) by (rewrite <- (im_dec _ _ _ _ IM) by assumption; apply (im_dlen _ _ _ _ IM); exact L2).
        rewrite (firstn_exact _ (D key c1)), (skipn_exact' _ (D key c1)) by auto.
        set (p1 := xorl (D key c1) iv). assert (Lp : length p1 = BS) by (unfold p1; rewrite xorl_length; lia).
        rewrite <- (app_assoc c1 c2 post). rewrite write_mid by (auto; lia). cbn [bind].
        pose proof (xor_into_dj ws WO pre p1 [] c2 (D key c2) post BS L2 Ld2 Lp) as XX.
        cbn [app length] in XX. rewrite Nat.add_0_r, Lp in XX. rewrite XX. cbn [bind].
        rewrite (xorl_comm p1). rewrite <- !app_assoc. reflexivity. }
      cbn [mloop]. destruct (Nat.leb_spec (cPN C) 2) as [H|H].
      - assert (HP2 : cPN C = 2%nat) by lia. rewrite HP2, Y. cbn [bind Nat.sub].
        cbn [Nat.leb Nat.ltb]. reflexivity.
      - cbn [Nat.ltb Nat.leb]. rewrite Y. reflexivity. }
    rewrite X. cbn [bind].
    assert (LD : forall c, bytes c -> length c = BS -> length (D key c) = BS).
    { intros c Hb Hl. rewrite <- (im_dec _ _ _ _ IM) by assumption. apply (im_dlen _ _ _ _ IM). exact Hl. }
    set (p1 := xorl (D key c1) iv). assert (Lp : length p1 = BS) by (unfold p1; rewrite xorl_length, LD by assumption; lia).
    set (p2 := xorl (D key c2) p1). assert (Lp2 : length p2 = BS) by (unfold p2; rewrite xorl_length, LD by assumption; lia).
    rewrite Nat.sub_diag. rewrite read_ok by (rewrite !app_length; lia). cbn [bind].
    change (slice (pre ++ (p1 ++ p2) ++ post) (length pre + 2 * BS) 0) with (@nil Z).
    rewrite write_ok by (cbn [length]; lia). cbn [bind mbuf msize mctx firstn app length skipn Nat.add].
    unfold cbc_dec_fb. cbn [length Nat.eqb bind]. rewrite write_ok by (rewrite !app_length; cbn [length]; lia).
    cbn [length bind ip_outcome]. rewrite Nat.add_0_r. cbn [app].
    rewrite firstn_skipn, Nat.add_0_r. reflexivity.
  Qed.
End P.

(** ** GCM *)
Section GCMP.
  Variable ws : list nat.
  Hypothesis WS : memxor_build ws.
  Variable C : cipher.
  Variable klen : nat.
  Variable E D : list Z -> list Z -> list Z.
  Hypothesis IM : implements C klen E D.
  Hypothesis BS16 : cBS C = 16%nat.
  Variable G : ghash_impl.
  Variable OK : ghash_ok G.
  Let WO := build_strides ws WS.
  Let CO16 := CO C klen E D IM BS16.

  Lemma ip_gcm_enc : inplace_ok (gcm C G) 16 (gcm_enc_ub C G) (gcm_enc_mem ws C G) (VL C G lim).
  Proof.
    intros s d n V Ld.
    pose proof (step_len C klen E D IM BS16 G lim src_out s d n) as SL.
    pose proof (enc_ub_eq C klen E D IM BS16 G OK s d n (proj1 V) Ld) as EQ.
    assert (VL' : forall s' o, gcm_enc_ub C G s d n = Ok (s', o) -> VL C G lim s' /\ length o = (n * 16)%nat).
    { intros s' o Q. rewrite EQ in Q. exact (SL s' o V Ld Q). }
    clear SL EQ. revert VL'. unfold gcm_enc_ub, gcm_enc_mem, gctr_ub, gctr_mem.
    pose proof (ctr_mloop_ok ws WO _ _ _ _ _ _ _ CO16 gctr_inc VI VI_len VI_inc (gmk s) n (gmc s) d (proj1 (proj1 V)) Ld) as H.
    destruct (ctr_loop (cK C) 16 (cPN C) (c_ebs C) gctr_inc (S n) (gmk s) (gmc s) d n) as [c o].
    destruct H as (_ & Lo & H). cbv zeta.
    destruct (_ || _); [intros _ pre post; rewrite H; reflexivity|].
    destruct (gh_update G (gmh s) o) as [h| |] eqn:Eh; cbn [bind]; intros VL'.
    - destruct (VL' _ _ eq_refl) as [V1 V2]. split; [exact V1|]. split; [exact V2|].
      intros pre post. rewrite H. cbn [bind]. rewrite read_mid by auto. cbn [bind]. rewrite Eh. reflexivity.
    - intros pre post. rewrite H. cbn [bind]. rewrite read_mid by auto. cbn [bind]. rewrite Eh. reflexivity.
    - exact I.
  Qed.
  Lemma ip_gcm_dec : inplace_ok (gcm C G) 16 (gcm_dec_ub C G) (gcm_dec_mem ws C G) (VL C G (2 ^ 64 - 1)).
  Proof.
    intros s d n V Ld.
    pose proof (step_len C klen E D IM BS16 G (2 ^ 64 - 1) src_in s d n) as SL.
    assert (Hc : gmct s < 2 ^ 64) by (destruct V; lia).
    pose proof (dec_ub_eq C klen E D IM BS16 G OK s d n (proj1 V) Ld Hc) as EQ.
    assert (VL' : forall s' o, gcm_dec_ub C G s d n = Ok (s', o) -> VL C G (2 ^ 64 - 1) s' /\ length o = (n * 16)%nat).
    { intros s' o Q. rewrite EQ in Q. exact (SL s' o V Ld Q). }
    clear SL EQ. revert VL'. unfold gcm_dec_ub, gcm_dec_mem, gctr_ub, gctr_mem.
    destruct (Nat.eqb_spec n 0) as [->|Hn].
    { intros VL'. destruct (VL' _ _ eq_refl) as [V1 V2]. split; [exact V1|]. split; [exact V2|].
      intros pre post. destruct d; [reflexivity|discriminate]. }
    pose proof (ctr_mloop_ok ws WO _ _ _ _ _ _ _ CO16 gctr_inc VI VI_len VI_inc (gmk s) n (gmc s) d (proj1 (proj1 V)) Ld) as H.
    cbv zeta. destruct (2 ^ 64 <=? _); [reflexivity|].
    destruct (ctr_loop (cK C) 16 (cPN C) (c_ebs C) gctr_inc (S n) (gmk s) (gmc s) d n) as [c o].
    destruct H as (_ & Lo & H).
    destruct (gh_update G (gmh s) d) as [h| |] eqn:Eh; cbn [bind]; intros VL'.
    - destruct (VL' _ _ eq_refl) as [V1 V2]. split; [exact V1|]. split; [exact V2|].
      intros pre post. rewrite read_mid by auto. cbn [bind]. rewrite Eh. cbn [bind]. rewrite H. reflexivity.
    - intros pre post. rewrite read_mid by auto. cbn [bind]. rewrite Eh. reflexivity.
    - exact I.
  Qed.
End GCMP.

Lemma ok_inj {A} (a b : A) : Ok a = Ok b -> a = b.
Proof. congruence. Qed.

Section GCMS.
  Variable ws : list nat.
  Hypothesis WS : memxor_build ws.
  Variable C : cipher.
  Variable klen : nat.
  Variable E D : list Z -> list Z -> list Z.
  Hypothesis IM : implements C klen E D.
  Hypothesis BS16 : cBS C = 16%nat.
  Variable G : ghash_impl.
  Variable g0 : gi_ctx G.
  Hypothesis HG : ghash_variant G.
  Variable junk hjunk key iv aad : list Z.
  Variable cs : list (list Z).
  Variable l pre post : list Z.
  Let x := concat cs ++ l.
  Hypothesis Lj : length junk = 16%nat.
  Hypothesis Lh : length hjunk = 16%nat.
  Hypothesis Kb : bytes key.
  Hypothesis Kl : length key = klen.
  Hypothesis Bi : bytes iv.
  Hypothesis Ba : bytes aad.
  Hypothesis Bx : bytes x.
  Let GA : gargs klen junk key iv aad (map (mk_call 16) cs) (mk_call 16 l).
  Proof. repeat (split; [assumption|]). rewrite mk_msg. split; [exact Bx|]. apply mk_room. Qed.

  Lemma q_gcm_enc :
    ip_gcm_encryptor ws C key iv junk (pre ++ x ++ post) (length pre) (map (@length Z) cs) (length l) G hjunk g0 aad =
    if fits aad && fits x
    then Ok (pre ++ fst (GCM_enc (E key) iv aad x) ++ post, (length pre + length x)%nat, snd (GCM_enc (E key) iv aad x))
    else Throw.
  Proof.
    destruct (variant_ok G HG) as [OK _].
    pose proof (p_gcm_enc C klen E D IM BS16 G g0 HG junk hjunk key iv aad _ _ Lh GA) as P. rewrite mk_msg in P. fold x in P.
    revert P. unfold gcm_encryptor, ip_gcm_encryptor.
    pose proof (gcm_init_eq C klen E D IM BS16 G OK key Kb Kl (h_new (gi_ctx G) hjunk g0) iv aad (repeat 0 16) [] (conj eq_refl Lh) Bi Ba) as Q.
    destruct (lim <? Z.of_nat (length aad)).
    - rewrite Q. cbn [bind]. intros P. destruct (fits aad && fits x); [discriminate|reflexivity].
    - destruct Q as (m & -> & Mk & Mc0 & Mc & Mal & Mrel & Mtag & Mct & Maad & Mt). cbn [bind].
      pose proof (J0_VI E key iv Bi) as VJ.
      assert (Vc : VI (gmc m)) by (rewrite Mc, (inc32_eq) by assumption; apply VI_inc; assumption).
      assert (V0 : VL C G lim m) by (split; [split; [exact Vc|split; [exact Mal|lia]]|rewrite Mct; unfold lim; lia]).
      pose proof (run_sim (gcm C G) 16 (gcm_enc_ub C G) (gcm_enc_mem ws C G) (gcm_enc_fb C G) (VL C G lim) ltac:(lia)
        (ip_gcm_enc ws WS C klen E D IM BS16 G OK) (enc_fb_len C klen E D IM BS16 G key Kl) junk m (map (mk_call 16) cs) (mk_call 16 l) pre post V0) as S.
      rewrite mk_snd, mk_len in S. change (snd (mk_call 16 l)) with l in S. fold x in S.
      destruct (m_run _ _ _ _ _ _ _) as [[s' o]| |]; cbn [bind] in *.
      + destruct S as [-> L]. cbn [bind]. intros P. rewrite L. destruct (fits aad && fits x); [|discriminate].
        apply ok_inj in P. rewrite <- P. reflexivity.
      + rewrite S. cbn [bind]. intros P. destruct (fits aad && fits x); [discriminate|reflexivity].
      + intros P. destruct (fits aad && fits x); discriminate P.
  Qed.
  Lemma q_gcm_dec tag : fits aad = true -> Z.of_nat (length x) < 2 ^ 64 ->
    ip_gcm_decryptor ws C key iv junk (pre ++ x ++ post) (length pre) (map (@length Z) cs) (length l) G (repeat 0 16) hjunk g0 aad tag =
    match GCM_dec (E key) iv aad x tag with
    | Some p => Ok (pre ++ p ++ post, (length pre + length x)%nat)
    | None => Throw
    end.
  Proof.
    intros Fa Fx. destruct (variant_ok G HG) as [OK _].
    assert (Bt : bytes (repeat 0 16) /\ length (repeat 0 16) = 16%nat) by (apply zero_VI).
    pose proof (p_gcm_dec_std C klen E D IM BS16 G g0 HG (repeat 0 16) junk hjunk key iv aad tag _ _ (proj1 Bt) (proj2 Bt) Lh GA) as P.
    rewrite mk_msg in P. fold x in P. specialize (P Fa Fx (or_introl eq_refl)).
    revert P. unfold gcm_decryptor, ip_gcm_decryptor.
    pose proof (gcm_init_eq C klen E D IM BS16 G OK key Kb Kl (h_new (gi_ctx G) hjunk g0) iv aad tag (repeat 0 16) (conj eq_refl Lh) Bi Ba) as Q.
    rewrite fits_lim in Fa. destruct (lim <? Z.of_nat (length aad)); [discriminate|].
    destruct Q as (m & -> & Mk & Mc0 & Mc & Mal & Mrel & Mtag & Mct & Maad & Mt). cbn [bind].
    pose proof (J0_VI E key iv Bi) as VJ.
    assert (Vc : VI (gmc m)) by (rewrite Mc, (inc32_eq) by assumption; apply VI_inc; assumption).
    assert (V0 : VL C G (2 ^ 64 - 1) m) by (split; [split; [exact Vc|split; [exact Mal|lia]]|rewrite Mct; lia]).
    pose proof (run_sim (gcm C G) 16 (gcm_dec_ub C G) (gcm_dec_mem ws C G) (gcm_dec_fb C G) (VL C G (2 ^ 64 - 1)) ltac:(lia)
        (ip_gcm_dec ws WS C klen E D IM BS16 G OK) (dec_fb_len C klen E D IM BS16 G key Kl) junk m (map (mk_call 16) cs) (mk_call 16 l) pre post V0) as S.
    rewrite mk_snd, mk_len in S. change (snd (mk_call 16 l)) with l in S. fold x in S.
    destruct (m_run _ _ _ _ _ _ _) as [[s' o]| |]; cbn [bind fst] in *.
    + destruct S as [-> L]. cbn [bind]. intros P. rewrite L.
      destruct (gmok (mctx s')); destruct (GCM_dec (E key) iv aad x tag); try discriminate; [|reflexivity].
      injection P as ->. reflexivity.
    + rewrite S. cbn [bind]. intros P. destruct (GCM_dec _ _ _ _ _); [discriminate|reflexivity].
    + destruct (GCM_dec _ _ _ _ _); discriminate.
  Qed.
End GCMS.


Lemma zeros_bytes n : bytes (repeat 0 n).
Proof. apply Forall_forall. intros z H. apply repeat_spec in H. subst. unfold is_byte. lia. Qed.

Lemma xorl_cancel a : forall b c, length b = length a -> length c = length a -> bytes a -> bytes b -> bytes c -> xorl a b = xorl a c -> b = c.
Proof.
  induction a as [|u a IH]; intros [|v b] [|w c]; cbn [length]; try discriminate; try reflexivity.
  intros Lb Lc Ba Bb Bc H. cbn [xorl] in H. apply (f_equal (@hd Z 0)) in H as H1. apply (f_equal (@tl Z)) in H as H2.
  cbn in H1, H2. inversion_clear Ba. inversion_clear Bb. inversion_clear Bc.
  f_equal; [|apply IH; auto].
  apply (f_equal (Z.lxor u)) in H1. rewrite <- !Z.lxor_assoc, Z.lxor_nilpotent, !Z.lxor_0_l in H1. exact H1.
Qed.

Lemma q_cbc_dec2_wrong : forall ws, memxor_build ws -> forall C klen E D, implements C klen E D -> (2 <= cPN C)%nat ->
  forall key iv junk c1 c2 pre post, bytes key -> length key = klen -> bytes iv -> length iv = cBS C -> length junk = cBS C ->
  bytes c1 -> bytes c2 -> length c1 = cBS C -> length c2 = cBS C ->
  let p1 := xorl (D key c1) iv in
  ip_cbc_decryptor ws C key iv junk (pre ++ (c1 ++ c2) ++ post) (length pre) [] (2 * cBS C) =
    Ok (pre ++ (p1 ++ xorl (D key c2) p1) ++ post, (length pre + 2 * cBS C)%nat) /\
  CBC_dec (cBS C) (D key) iv (c1 ++ c2) = p1 ++ xorl (D key c2) c1 /\
  (p1 ++ xorl (D key c2) p1 = CBC_dec (cBS C) (D key) iv (c1 ++ c2) <-> p1 = c1).
Proof.
  intros ws W C klen E D IM HP key iv junk c1 c2 pre post Hk Lk Hi Li Lj B1 B2 L1 L2 p1.
  assert (CD : CBC_dec (cBS C) (D key) iv (c1 ++ c2) = p1 ++ xorl (D key c2) c1).
  { unfold CBC_dec. rewrite <- (app_nil_r (c1 ++ c2)).
    rewrite (blocks_of_decomp (cBS C) (c1 ++ c2) 2 [] (im_bs _ _ _ _ IM)) by (rewrite ?app_length; cbn [length]; pose proof (im_bs _ _ _ _ IM); lia).
    cbn [length Nat.eqb]. rewrite app_nil_r. cbn [cut]. rewrite (firstn_exact _ c1 c2 (cBS C)), (skipn_exact' _ c1 c2 (cBS C)), (firstn_all2 c2) by (auto; lia).
    cbn [cbc_d concat]. rewrite app_nil_r. reflexivity. }
  split; [|split].
  - eapply q_cbc_dec2; eassumption.
  - exact CD.
  - rewrite CD. split; [|intros ->; reflexivity]. intros H. apply app_inv_head in H.
    pose proof (im_Dbytes _ _ _ _ IM key) as DB.
    assert (LD : forall c, bytes c -> length c = cBS C -> length (D key c) = cBS C).
    { intros c Hb Hl. rewrite <- (im_dec _ _ _ _ IM) by assumption. apply (im_dlen _ _ _ _ IM). exact Hl. }
    apply (xorl_cancel (D key c2)) in H; auto.
    + unfold p1. rewrite xorl_length, !LD by assumption. lia.
    + rewrite LD by assumption. exact L1.
    + unfold p1. apply xorl_bytes; auto.
Qed.

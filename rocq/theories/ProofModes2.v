(** Every sequence of calls on a mode object gives the SP 800-38A output; inversion of the modes. *)
From Verif Require Import Base BaseFacts ModelEndian ModelModes SpecModes ProofEndian ProofModeStream ProofModes.

(** ** Counter increments *)
Lemma be_bytes_split a b v : be_bytes (a + b) v = be_bytes a (v / 256 ^ Z.of_nat b) ++ be_bytes b v.
Proof.
  unfold be_bytes. rewrite <- rev_app_distr. f_equal.
  revert v. induction b as [|b IH]; intros v.
  - rewrite Nat.add_0_r. cbn [app le_bytes]. change (256 ^ Z.of_nat 0) with 1. rewrite Z.div_1_r. reflexivity.
  - rewrite Nat.add_succ_r. cbn [le_bytes app]. f_equal. rewrite IH. do 2 f_equal.
    rewrite Nat2Z.inj_succ, Z.pow_succ_r by lia. rewrite Z.div_div by lia. reflexivity.
Qed.

Lemma be_bytes_eqm n u v : u mod 256 ^ Z.of_nat n = v mod 256 ^ Z.of_nat n -> be_bytes n u = be_bytes n v.
Proof. intros H. rewrite <- (be_bytes_mod n u), <- (be_bytes_mod n v), H. reflexivity. Qed.

Lemma land_ones32 x : Z.land x (2 ^ 32 - 1) = x mod 2 ^ 32.
Proof. change (2 ^ 32 - 1) with (Z.ones 32). apply Z.land_ones. lia. Qed.

Lemma ctr_inc_rev_spec r : bytes r -> forall t, 0 <= t < 256 ->
  ctr_inc_rev t r = le_bytes (length r) (le_val r + t).
Proof.
  induction 1 as [|b r Hb _ IH]; intros t Ht; [reflexivity|].
  cbn [ctr_inc_rev length le_bytes le_val]. unfold is_byte in Hb.
  assert (E : w16 (t + b) = t + b) by (unfold w16; apply Z.mod_small; lia).
  rewrite E, land_255, Z.shiftr_div_pow2 by lia. change (2 ^ 8) with 256.
  f_equal.
  - lia.
  - rewrite IH by lia. f_equal. lia.
Qed.

Lemma ctr_inc_n_spec c : bytes c -> ctr_inc_n c = be_bytes (length c) (be_val c + 1).
Proof.
  intros H. unfold ctr_inc_n. rewrite ctr_inc_rev_spec; [|apply Forall_rev; exact H|lia].
  rewrite le_val_rev, rev_length. reflexivity.
Qed.

Lemma be_val_split4 c : bytes c -> (4 <= length c)%nat ->
  exists a r, c = a ++ r /\ length a = 4%nat /\ bytes a /\ bytes r /\ length r = (length c - 4)%nat.
Proof.
  intros Hb Hl. exists (firstn 4 c), (skipn 4 c). rewrite firstn_skipn, firstn_length, skipn_length.
  repeat split; auto using bytes_firstn, bytes_skipn. lia.
Qed.

Lemma ctr_inc8_spec c : bytes c -> length c = 8%nat -> ctr_inc8 c = be_bytes 8 (be_val c + 1).
Proof.
  intros Hb Hl.
  destruct (be_val_split4 c Hb ltac:(lia)) as (a & r & -> & La & Ba & Br & Lr).
  rewrite Hl in Lr. cbn in Lr. unfold ctr_inc8.
  assert (S4 : slice (a ++ r) 4 4 = r).
  { unfold slice. rewrite skipn_exact by assumption. apply firstn_all2. lia. }
  assert (S0 : slice (a ++ r) 0 4 = a) by (apply firstn_exact; assumption).
  rewrite S4, S0, !load32_be_val by assumption.
  rewrite !store32_be_eq, !land_ones32, Z.shiftr_div_pow2 by lia.
  rewrite be_val_app, Lr.
  pose proof (be_val_bound a Ba). pose proof (be_val_bound r Br). rewrite La in *. rewrite Lr in *.
  change (256 ^ Z.of_nat 4) with (2 ^ 32) in *.
  change 8%nat with (4 + 4)%nat. rewrite be_bytes_split. change (256 ^ Z.of_nat 4) with (2 ^ 32).
  unfold w64. f_equal; apply be_bytes_eqm; change (256 ^ Z.of_nat 4) with (2 ^ 32); lia.
Qed.

Lemma ctr_inc16_spec c : bytes c -> length c = 16%nat -> ctr_inc16 c = be_bytes 16 (be_val c + 1).
Proof.
  intros Hb Hl.
  destruct (be_val_split4 c Hb ltac:(lia)) as (a & r & -> & La & Ba & Br & Lr).
  rewrite Hl in Lr. cbn in Lr.
  destruct (be_val_split4 r Br ltac:(lia)) as (b & r2 & -> & Lb & Bb & Br2 & Lr2).
  rewrite Lr in Lr2. cbn in Lr2.
  destruct (be_val_split4 r2 Br2 ltac:(lia)) as (e & f & -> & Le & Be & Bf & Lf).
  rewrite Lr2 in Lf. cbn in Lf. clear Br Br2 Hb Hl. unfold ctr_inc16.
  assert (S0 : slice (a ++ b ++ e ++ f) 0 4 = a) by (apply firstn_exact; assumption).
  assert (S4 : slice (a ++ b ++ e ++ f) 4 4 = b) by (apply slice_exact; assumption).
  assert (S8 : slice (a ++ b ++ e ++ f) 8 4 = e).
  { rewrite app_assoc. apply slice_exact; [rewrite app_length; lia|assumption]. }
  assert (S12 : slice (a ++ b ++ e ++ f) 12 4 = f).
  { rewrite !app_assoc. unfold slice. rewrite skipn_exact by (rewrite !app_length; lia).
    apply firstn_all2. lia. }
  rewrite S0, S4, S8, S12, !load32_be_val by assumption.
  rewrite !store32_be_eq, !land_ones32, !Z.shiftr_div_pow2 by lia.
  rewrite !be_val_app, !app_length, Lb, Le, Lf.
  pose proof (be_val_bound a Ba). pose proof (be_val_bound b Bb).
  pose proof (be_val_bound e Be). pose proof (be_val_bound f Bf). rewrite La, Lb, Le, Lf in *.
  change (256 ^ Z.of_nat (4 + (4 + 4))) with (2 ^ 32 * (2 ^ 32 * 2 ^ 32)) in *.
  change (256 ^ Z.of_nat (4 + 4)) with (2 ^ 32 * 2 ^ 32) in *.
  change 16%nat with (4 + (4 + (4 + 4)))%nat. rewrite !be_bytes_split.
  change (256 ^ Z.of_nat (4 + (4 + 4))) with (2 ^ 32 * (2 ^ 32 * 2 ^ 32)) in *.
  change (256 ^ Z.of_nat (4 + 4)) with (2 ^ 32 * 2 ^ 32) in *.
  change (256 ^ Z.of_nat 4) with (2 ^ 32) in *.
  set (A := be_val a) in *. set (B := be_val b) in *. set (Cc := be_val e) in *. set (Dd := be_val f) in *.
  clearbody A B Cc Dd. unfold w64.
  rewrite (Z.mod_small (1 + Dd)) by lia.
  set (q1 := (1 + Dd) / 2 ^ 32). assert (0 <= q1 <= 1) by (unfold q1; lia).
  rewrite (Z.mod_small (Cc + q1)) by lia.
  set (q2 := (Cc + q1) / 2 ^ 32). assert (0 <= q2 <= 1) by (unfold q2; lia).
  rewrite (Z.mod_small (B + q2)) by lia.
  set (q3 := (B + q2) / 2 ^ 32). assert (0 <= q3 <= 1) by (unfold q3; lia).
  rewrite (Z.mod_small (A + q3)) by lia.
  set (V := A * (2 ^ 32 * (2 ^ 32 * 2 ^ 32)) + (B * (2 ^ 32 * 2 ^ 32) + (Cc * 2 ^ 32 + Dd)) + 1).
  assert (V1 : V / 2 ^ 32 = A * (2 ^ 32 * 2 ^ 32) + B * 2 ^ 32 + Cc + q1) by (unfold V, q1; lia).
  assert (V2 : V / (2 ^ 32 * 2 ^ 32) = A * 2 ^ 32 + B + q2).
  { rewrite <- Z.div_div by lia. rewrite V1. unfold q2. lia. }
  assert (V3 : V / (2 ^ 32 * (2 ^ 32 * 2 ^ 32)) = A + q3).
  { rewrite (Z.mul_comm (2 ^ 32)), <- Z.div_div by lia. rewrite V2. unfold q3. lia. }
  rewrite V1, V2, V3.
  assert (app4 : forall p q r t p' q' r' t' : list Z, p = p' -> q = q' -> r = r' -> t = t' ->
    p ++ q ++ r ++ t = p' ++ q' ++ r' ++ t') by (intros; subst; reflexivity).
  apply app4; apply be_bytes_eqm; change (256 ^ Z.of_nat 4) with (2 ^ 32).
  - lia.
  - lia.
  - lia.
  - unfold V. lia.
Qed.

Lemma ctr_inc_spec BS c : bytes c -> length c = BS -> ctr_inc BS c = be_bytes BS (be_val c + 1).
Proof.
  intros Hb Hl. unfold ctr_inc.
  destruct (Nat.eqb_spec BS 16) as [->|]; [apply ctr_inc16_spec; assumption|].
  destruct (Nat.eqb_spec BS 8) as [->|]; [apply ctr_inc8_spec; assumption|].
  rewrite ctr_inc_n_spec by assumption. rewrite Hl. reflexivity.
Qed.

Lemma gctr_inc_spec c : bytes c -> length c = 16%nat ->
  gctr_inc c = firstn 12 c ++ be_bytes 4 (be_val (skipn 12 c) + 1).
Proof.
  intros Hb Hl. unfold gctr_inc. f_equal.
  assert (slice c 12 4 = skipn 12 c) as ->.
  { unfold slice. apply firstn_all2. rewrite skipn_length. lia. }
  rewrite load32_be_val by (auto using bytes_skipn; rewrite skipn_length; lia).
  rewrite store32_be_eq. apply be_bytes_eqm. unfold w32. change (256 ^ Z.of_nat 4) with (2 ^ 32).
  apply Z.mod_mod. lia.
Qed.
Lemma gctr_inc_ok c : bytes c /\ length c = 16%nat -> bytes (gctr_inc c) /\ length (gctr_inc c) = 16%nat.
Proof.
  intros [Hb Hl]. rewrite gctr_inc_spec by assumption.
  rewrite app_length, firstn_length, be_bytes_length. split; [|lia].
  apply bytes_app. split; [apply bytes_firstn; assumption|apply be_bytes_bytes].
Qed.

(** ** Runs *)
Section RUN.
  Variable K : Type.
  Variable BS PN : nat.
  Variable eb db : K -> list Z -> list Z.
  Variable ebs dbs : K -> list Z -> nat -> list Z.
  Hypothesis CO : cipher_ok K BS PN eb db ebs dbs.

  Notation run ub fb m junk calls lastc :=
    (run_out (m_run _ BS ub fb (m_new _ junk m) calls lastc)).
  Let BSpos := co_bs _ _ _ _ _ _ _ CO.

  Lemma decomp (x : list Z) : let n := (length x / BS)%nat in
    length (firstn (n * BS) x) = (n * BS)%nat /\ (length (skipn (n * BS) x) < BS)%nat /\
    ((length x mod BS = 0)%nat <-> skipn (n * BS) x = []).
  Proof.
    intros n. pose proof (Nat.div_mod (length x) BS). pose proof (Nat.mod_upper_bound (length x) BS).
    rewrite firstn_length, skipn_length. unfold n. repeat split; try lia.
    - intros. apply length_zero_iff_nil. rewrite skipn_length. lia.
    - intros E. apply (f_equal (@length Z)) in E. rewrite skipn_length in E. cbn in E. lia.
  Qed.

  Lemma blocks_of_x (x : list Z) : let n := (length x / BS)%nat in
    blocks_of BS x = cut BS n (firstn (n * BS) x) ++
      (if (length (skipn (n * BS) x) =? 0)%nat then [] else [skipn (n * BS) x]).
  Proof.
    intros n. destruct (decomp x) as (H1 & H2 & _). fold n in H1, H2.
    rewrite <- (firstn_skipn (n * BS) x) at 1. apply blocks_of_decomp; auto.
  Qed.

  Section STREAM.
    Variable f : K -> list Z -> list Z -> list Z * list Z.
    Variable VI : list Z -> Prop.
    Variable ub : K * list Z -> list Z -> nat -> res ((K * list Z) * list Z).
    Variable fb : K * list Z -> list Z -> res ((K * list Z) * list Z).
    Hypothesis f_ok : forall k iv b, anyk K k -> VI iv -> length b = BS ->
      VI (fst (f k iv b)) /\ length (snd (f k iv b)) = BS.
    Hypothesis ub_noUB : forall m d n, ub m d n <> UB.
    Hypothesis ub_scan : forall k iv d n, anyk K k -> VI iv -> length d = (n * BS)%nat ->
      ub (k, iv) d n = Ok ((k, fst (scan (f k) iv (cut BS n d))), concat (snd (scan (f k) iv (cut BS n d)))).

    (** stream modes *)
    Lemma stream_run k iv junk calls lastc :
      (forall k iv t, VI iv -> (length t < BS)%nat -> exists m,
         fb (k, iv) t = Ok (m, if (length t =? 0)%nat then [] else snd (f k iv t))) ->
      (forall k iv t, VI iv -> (length t < BS)%nat -> length (snd (f k iv t)) = length t) ->
      VI iv -> length junk = BS -> Forall (roomy BS) (calls ++ [lastc]) ->
      run ub fb (k, iv) junk calls lastc =
      Ok (concat (snd (scan (f k) iv (blocks_of BS (inputs (calls ++ [lastc])))))).
    Proof.
      intros Hfb Hfl Hi Lj Hr.
      assert (fb_len : forall m d m' o, anyk K (fst m) /\ VI (snd m) -> (length d < BS)%nat ->
                fb m d = Ok (m', o) -> length o = length d).
      { intros [k' iv'] d m' o [_ Hv] Hd E. cbn in Hv. destruct (Hfb k' iv' d Hv Hd) as [m Em].
        rewrite Em in E. injection E as _ <-.
        destruct (Nat.eqb_spec (length d) 0) as [E0|E0]; [symmetry; exact E0|]. apply Hfl; assumption. }
      rewrite (sm_run K BS BSpos (anyk K) VI f f_ok ub fb ub_noUB ub_scan fb_len k iv junk calls lastc I Hi Lj Hr).
      set (x := inputs (calls ++ [lastc])). set (n := (length x / BS)%nat).
      destruct (decomp x) as (H1 & H2 & _). fold n in H1, H2.
      destruct (sm_scan K BS (anyk K) VI f f_ok k iv (firstn (n * BS) x) n I Hi H1) as (A & _ & _).
      rewrite blocks_of_x. fold n. rewrite scan_app.
      destruct (scan (f k) iv (cut BS n (firstn (n * BS) x))) as [s1 o1]. cbn [fst snd] in *.
      destruct (Hfb k s1 (skipn (n * BS) x) A H2) as [m ->]. cbn [bind].
      destruct (length (skipn (n * BS) x) =? 0)%nat.
      - cbn [scan snd]. rewrite !app_nil_r. reflexivity.
      - rewrite scan_cons. cbn [scan snd]. rewrite concat_app. cbn [concat]. rewrite app_nil_r. reflexivity.
    Qed.

    (** block modes *)
    Lemma block_run k iv junk calls lastc :
      (forall m t, (length t < BS)%nat -> fb m t = if (length t =? 0)%nat then Ok (m, []) else Throw) ->
      VI iv -> length junk = BS -> Forall (roomy BS) (calls ++ [lastc]) ->
      let x := inputs (calls ++ [lastc]) in
      run ub fb (k, iv) junk calls lastc =
      if (length x mod BS =? 0)%nat then Ok (concat (snd (scan (f k) iv (blocks_of BS x)))) else Throw.
    Proof.
      intros Hfb Hi Lj Hr x.
      assert (fb_len : forall m d m' o, anyk K (fst m) /\ VI (snd m) -> (length d < BS)%nat ->
                fb m d = Ok (m', o) -> length o = length d).
      { intros m d m' o _ Hd E. rewrite Hfb in E by assumption.
        destruct (Nat.eqb_spec (length d) 0) as [E0|E0]; [|discriminate].
        injection E as _ <-. symmetry; exact E0. }
      rewrite (sm_run K BS BSpos (anyk K) VI f f_ok ub fb ub_noUB ub_scan fb_len k iv junk calls lastc I Hi Lj Hr).
      fold x. set (n := (length x / BS)%nat).
      destruct (decomp x) as (H1 & H2 & H3). fold n in H1, H2, H3.
      rewrite blocks_of_x. fold n. rewrite Hfb by assumption.
      destruct (Nat.eqb_spec (length (skipn (n * BS) x)) 0) as [E|E].
      - apply length_zero_iff_nil in E. rewrite (proj2 (Nat.eqb_eq _ _) (proj2 H3 E)). cbn [bind].
        rewrite !app_nil_r. reflexivity.
      - destruct (Nat.eqb_spec (length x mod BS) 0) as [E'|E']; [|reflexivity].
        apply H3 in E'. rewrite E' in E. cbn in E. congruence.
    Qed.
  End STREAM.

  (** spec functions are scans *)
  Lemma cbc_e_scan k bs : forall iv, cbc_e (eb k) iv bs = snd (scan (f_cbc_e K eb k) iv bs).
  Proof. induction bs as [|b bs IH]; intros iv; [reflexivity|]. rewrite scan_cons. cbn. rewrite IH. reflexivity. Qed.
  Lemma cbc_d_scan k bs : forall iv, cbc_d (db k) iv bs = snd (scan (f_cbc_d K db k) iv bs).
  Proof. induction bs as [|b bs IH]; intros iv; [reflexivity|]. rewrite scan_cons. cbn. rewrite IH. reflexivity. Qed.
  Lemma cfb_e_scan k bs : forall iv, cfb_e (eb k) iv bs = snd (scan (f_cfb_e K eb k) iv bs).
  Proof. induction bs as [|b bs IH]; intros iv; [reflexivity|]. rewrite scan_cons. cbn. rewrite IH. reflexivity. Qed.
  Lemma cfb_d_scan k bs : forall iv, cfb_d (eb k) iv bs = snd (scan (f_cfb_d K eb k) iv bs).
  Proof. induction bs as [|b bs IH]; intros iv; [reflexivity|]. rewrite scan_cons. cbn. rewrite IH. reflexivity. Qed.
  Lemma ofb_scan k bs : forall iv, ofb (eb k) iv bs = snd (scan (f_ofb K eb k) iv bs).
  Proof. induction bs as [|b bs IH]; intros iv; [reflexivity|]. rewrite scan_cons. cbn. rewrite IH. reflexivity. Qed.

  Lemma cbc_enc_run k iv junk calls lastc : length iv = BS -> length junk = BS ->
    Forall (roomy BS) (calls ++ [lastc]) -> let x := inputs (calls ++ [lastc]) in
    run (cbc_enc_ub K BS eb) (cbc_enc_fb K BS eb) (k, iv) junk calls lastc =
    if (length x mod BS =? 0)%nat then Ok (CBC_enc BS (eb k) iv x) else Throw.
  Proof.
    intros Hi Lj Hr. unfold CBC_enc. cbv zeta. rewrite cbc_e_scan.
    apply (block_run (f_cbc_e K eb) (liv BS)); auto.
    - apply (f_cbc_e_ok _ _ _ _ _ _ _ CO).
    - intros m d n. unfold cbc_enc_ub. destruct cbc_enc_loop; discriminate.
    - intros k' iv' d n _ H1 H2. unfold cbc_enc_ub. cbn [fst snd]. rewrite cbc_enc_loop_scan. reflexivity.
    - intros m t Ht. unfold cbc_enc_fb. destruct (length t =? 0)%nat; [reflexivity|].
      destruct (Nat.eqb_spec (length t) BS); [lia|]. reflexivity.
  Qed.
  Lemma cbc_dec_run k iv junk calls lastc : length iv = BS -> length junk = BS ->
    Forall (roomy BS) (calls ++ [lastc]) -> let x := inputs (calls ++ [lastc]) in
    run (cbc_dec_ub K BS PN dbs) (cbc_dec_fb K BS PN dbs) (k, iv) junk calls lastc =
    if (length x mod BS =? 0)%nat then Ok (CBC_dec BS (db k) iv x) else Throw.
  Proof.
    intros Hi Lj Hr. unfold CBC_dec. cbv zeta. rewrite cbc_d_scan.
    apply (block_run (f_cbc_d K db) (liv BS)); auto.
    - apply (f_cbc_d_ok _ _ _ _ _ _ _ CO).
    - intros m d n. unfold cbc_dec_ub. destruct cbc_dec_loop; discriminate.
    - intros k' iv' d n _ H1 H2. unfold cbc_dec_ub. cbn [fst snd].
      rewrite (cbc_dec_loop_scan _ _ _ _ _ _ _ CO) by (auto; lia). reflexivity.
    - intros m t Ht. unfold cbc_dec_fb. destruct (length t =? 0)%nat; [reflexivity|].
      destruct (Nat.eqb_spec (length t) BS); [lia|]. reflexivity.
  Qed.

  Lemma cfb_enc_run k iv junk calls lastc : length iv = BS -> length junk = BS ->
    Forall (roomy BS) (calls ++ [lastc]) -> let x := inputs (calls ++ [lastc]) in
    run (cfb_enc_ub K BS eb) (cfb_enc_fb K eb) (k, iv) junk calls lastc =
    Ok (CFB_enc BS (eb k) iv x).
  Proof.
    intros Hi Lj Hr. unfold CFB_enc. cbv zeta. rewrite cfb_e_scan.
    apply (stream_run (f_cfb_e K eb) (liv BS)); auto.
    - apply (f_cfb_e_ok _ _ _ _ _ _ _ CO).
    - intros m d n. unfold cfb_enc_ub. destruct cfb_enc_loop; discriminate.
    - intros k' iv' d n _ H1 H2. unfold cfb_enc_ub. cbn [fst snd]. rewrite cfb_enc_loop_scan. reflexivity.
    - intros k' iv' t Hv Ht. unfold cfb_enc_fb. cbn [fst snd f_cfb_e].
      destruct (Nat.eqb_spec (length t) 0); eexists; [reflexivity|].
      rewrite (xorl_comm (firstn _ _)). do 2 f_equal.
      rewrite <- (firstn_all t) at 1. rewrite <- xorl_firstn. apply firstn_all2.
      rewrite xorl_length. lia.
    - intros k' iv' t Hv Ht. cbn. rewrite xorl_length, (co_elen _ _ _ _ _ _ _ CO) by exact Hv. lia.
  Qed.
  Lemma cfb_dec_run k iv junk calls lastc : length iv = BS -> length junk = BS ->
    Forall (roomy BS) (calls ++ [lastc]) -> let x := inputs (calls ++ [lastc]) in
    run (cfb_dec_ub K BS PN ebs) (cfb_dec_fb K eb) (k, iv) junk calls lastc =
    Ok (CFB_dec BS (eb k) iv x).
  Proof.
    intros Hi Lj Hr. unfold CFB_dec. cbv zeta. rewrite cfb_d_scan.
    apply (stream_run (f_cfb_d K eb) (liv BS)); auto.
    - apply (f_cfb_d_ok _ _ _ _ _ _ _ CO).
    - intros m d n. unfold cfb_dec_ub. destruct cfb_dec_loop; discriminate.
    - intros k' iv' d n _ H1 H2. unfold cfb_dec_ub. cbn [fst snd].
      rewrite (cfb_dec_loop_scan _ _ _ _ _ _ _ CO) by (auto; lia). reflexivity.
    - intros k' iv' t Hv Ht. unfold cfb_dec_fb. cbn [fst snd f_cfb_d].
      destruct (Nat.eqb_spec (length t) 0); eexists; [reflexivity|].
      do 2 f_equal.
      rewrite <- (firstn_all t) at 1. rewrite <- xorl_firstn. apply firstn_all2.
      rewrite xorl_length. lia.
    - intros k' iv' t Hv Ht. cbn. rewrite xorl_length, (co_elen _ _ _ _ _ _ _ CO) by exact Hv. lia.
  Qed.
  Lemma ofb_run k iv junk calls lastc : length iv = BS -> length junk = BS ->
    Forall (roomy BS) (calls ++ [lastc]) -> let x := inputs (calls ++ [lastc]) in
    run (ofb_ub K BS eb) (ofb_fb K eb) (k, iv) junk calls lastc =
    Ok (OFB BS (eb k) iv x).
  Proof.
    intros Hi Lj Hr. unfold OFB. cbv zeta. rewrite ofb_scan.
    apply (stream_run (f_ofb K eb) (liv BS)); auto.
    - apply (f_ofb_ok _ _ _ _ _ _ _ CO).
    - intros m d n. unfold ofb_ub. destruct ofb_loop; discriminate.
    - intros k' iv' d n _ H1 H2. unfold ofb_ub. cbn [fst snd]. rewrite ofb_loop_scan. reflexivity.
    - intros k' iv' t Hv Ht. unfold ofb_fb, ofb_gen1. cbn [fst snd f_ofb].
      destruct (Nat.eqb_spec (length t) 0); eexists; [reflexivity|].
      do 2 f_equal.
      rewrite <- (firstn_all t) at 1. rewrite <- xorl_firstn. apply firstn_all2.
      rewrite xorl_length. lia.
    - intros k' iv' t Hv Ht. cbn. rewrite xorl_length, (co_elen _ _ _ _ _ _ _ CO) by exact Hv. lia.
  Qed.

  (** CTR with any counter function *)
  Lemma ctr_run_gen inc (VI : list Z -> Prop) k iv junk calls lastc :
    (forall c, VI c -> length c = BS) -> (forall c, VI c -> VI (inc c)) ->
    VI iv -> length junk = BS ->
    Forall (roomy BS) (calls ++ [lastc]) -> let x := inputs (calls ++ [lastc]) in
    run (ctr_ub K BS PN ebs inc) (ctr_fb K ebs inc) (k, iv) junk calls lastc =
    Ok (concat (snd (scan (f_ctr K eb inc k) iv (blocks_of BS x)))).
  Proof.
    intros VL VI_inc Hi Lj Hr. cbv zeta.
    apply (stream_run (f_ctr K eb inc) VI); auto.
    - apply (f_ctr_ok _ _ _ _ _ _ _ CO); auto.
    - intros m d n. unfold ctr_ub. destruct ctr_loop; discriminate.
    - intros k' iv' d n _ H1 H2. unfold ctr_ub. cbn [fst snd].
      rewrite (ctr_loop_scan _ _ _ _ _ _ _ CO inc VI) by (auto; lia). reflexivity.
    - intros k' iv' t Hv Ht. unfold ctr_fb. cbn [fst snd f_ctr].
      destruct (Nat.eqb_spec (length t) 0); [eexists; reflexivity|].
      unfold gen_ks. cbn [counters]. rewrite app_nil_r. eexists.
      rewrite (co_ebs _ _ _ _ _ _ _ CO) by (rewrite VL by assumption; lia).
      cbn [cut map concat]. rewrite app_nil_r, (firstn_all2 iv') by (rewrite VL by assumption; lia).
      rewrite (xorl_comm (firstn _ _)). do 2 f_equal.
      rewrite <- (firstn_all t) at 1. rewrite <- xorl_firstn. apply firstn_all2.
      rewrite xorl_length. lia.
    - intros k' iv' t Hv Ht. cbn. rewrite xorl_length, (co_elen _ _ _ _ _ _ _ CO) by auto. lia.
  Qed.

  Lemma ctr_scan k T1 bs : forall j, bytes T1 -> length T1 = BS ->
    ctr BS (eb k) T1 j bs = snd (scan (f_ctr K eb (ctr_inc BS) k) (be_bytes BS (be_val T1 + j)) bs).
  Proof.
    induction bs as [|b bs IH]; intros j Hb Hl; [reflexivity|].
    rewrite scan_cons. cbn [ctr snd fst f_ctr]. rewrite IH by assumption.
    rewrite ctr_inc_spec by (auto using be_bytes_bytes, be_bytes_length).
    do 3 f_equal. apply be_bytes_eqm. rewrite be_val_be_bytes.
    rewrite Z.add_mod_idemp_l by lia. f_equal. lia.
  Qed.

  Lemma ctr_run k iv junk calls lastc : bytes iv -> length iv = BS -> length junk = BS ->
    Forall (roomy BS) (calls ++ [lastc]) -> let x := inputs (calls ++ [lastc]) in
    run (ctr_ub K BS PN ebs (ctr_inc BS)) (ctr_fb K ebs (ctr_inc BS)) (k, iv) junk calls lastc =
    Ok (CTR BS (eb k) iv x).
  Proof.
    intros Hb Hi Lj Hr. cbv zeta. unfold CTR. rewrite ctr_scan, Z.add_0_r by assumption.
    rewrite <- Hi at 6. rewrite be_bytes_be_val by assumption.
    apply (ctr_run_gen (ctr_inc BS) (fun c => bytes c /\ length c = BS)); auto.
    - intros c [_ H]; exact H.
    - intros c [H1 H2]. rewrite ctr_inc_spec by assumption.
      split; [apply be_bytes_bytes|apply be_bytes_length].
  Qed.

  (** ECB *)
  Lemma ecb_run_gen (bl : K -> list Z -> list Z) (bls : K -> list Z -> nat -> list Z)
      ub fb k junk calls lastc :
    (forall k x, length x = BS -> length (bl k x) = BS) ->
    (forall k d n, length d = (n * BS)%nat -> bls k d n = concat (map (bl k) (cut BS n d))) ->
    (forall k d n, ub k d n = Ok (k, bls k d n)) ->
    (forall k t, (length t < BS)%nat -> fb k t = if (length t =? 0)%nat then Ok (k, []) else Throw) ->
    length junk = BS -> Forall (roomy BS) (calls ++ [lastc]) ->
    let x := inputs (calls ++ [lastc]) in
    run ub fb k junk calls lastc =
    if (length x mod BS =? 0)%nat then Ok (concat (map (bl k) (blocks_of BS x))) else Throw.
  Proof.
    intros Hbl Hbls Hub Hfb Lj Hr x.
    assert (G := m_run_oneshot K BS ub fb (fun _ => True) BSpos).
    assert (A1 : forall m d n m' o, True -> length d = (n * BS)%nat -> ub m d n = Ok (m', o) ->
                 True /\ length o = (n * BS)%nat).
    { intros m d n m' o _ Hd E. rewrite Hub in E. injection E as _ <-. split; auto.
      rewrite Hbls by assumption. rewrite (concat_length_bs BS).
      - rewrite map_length, cut_length. reflexivity.
      - apply blocksz_map; auto. apply blocksz_cut; assumption. }
    assert (A2 : forall m d1 n1 d2 n2, True -> length d1 = (n1 * BS)%nat -> length d2 = (n2 * BS)%nat ->
      ub m (d1 ++ d2) (n1 + n2)%nat =
      bind (ub m d1 n1) (fun '(m1, o1) => bind (ub m1 d2 n2) (fun '(m2, o2) => Ok (m2, o1 ++ o2)))).
    { intros m d1 n1 d2 n2 _ H1 H2. rewrite !Hub. cbn [bind]. rewrite Hub. cbn [bind].
      rewrite !Hbls by (rewrite ?app_length; lia). rewrite cut_app2 by assumption.
      rewrite map_app, concat_app. reflexivity. }
    assert (A3 : forall m d n, ub m d n <> UB) by (intros; rewrite Hub; discriminate).
    assert (A4 : forall m, True -> ub m [] 0%nat = Ok (m, [])).
    { intros. rewrite Hub, Hbls by reflexivity. reflexivity. }
    assert (A5 : forall m d m' o, True -> (length d < BS)%nat -> fb m d = Ok (m', o) -> length o = length d).
    { intros m d m' o _ Hd E. rewrite Hfb in E by assumption.
      destruct (Nat.eqb_spec (length d) 0) as [E0|E0]; [|discriminate].
      injection E as _ <-. symmetry; exact E0. }
    specialize (G A1 A2 (fun m d n _ _ => A3 m d n) A4 A5 k junk calls lastc I Lj Hr). fold x in G.
    assert (R : run ub fb k junk calls lastc = oneshot K BS ub fb k x).
    { unfold run_out. destruct (m_run K BS ub fb (m_new K junk k) calls lastc) as [[s o]| |]; symmetry; exact G. }
    rewrite R. unfold oneshot. set (n := (length x / BS)%nat).
    destruct (decomp x) as (H1 & H2 & H3). fold n in H1, H2, H3.
    rewrite blocks_of_x. fold n. rewrite Hub. cbn [bind]. rewrite Hfb by assumption.
    rewrite Hbls by assumption.
    destruct (Nat.eqb_spec (length (skipn (n * BS) x)) 0) as [E|E].
    - apply length_zero_iff_nil in E. rewrite (proj2 (Nat.eqb_eq _ _) (proj2 H3 E)). cbn [bind].
      rewrite !app_nil_r. reflexivity.
    - destruct (Nat.eqb_spec (length x mod BS) 0) as [E'|E']; [|reflexivity].
      apply H3 in E'. rewrite E' in E. cbn in E. congruence.
  Qed.

  Lemma ecb_enc_run k junk calls lastc : length junk = BS -> Forall (roomy BS) (calls ++ [lastc]) ->
    let x := inputs (calls ++ [lastc]) in
    run (ecb_enc_ub K ebs) (ecb_enc_fb K BS eb) k junk calls lastc =
    if (length x mod BS =? 0)%nat then Ok (ECB_enc BS (eb k) x) else Throw.
  Proof.
    intros Lj Hr. unfold ECB_enc.
    apply (ecb_run_gen eb ebs (ecb_enc_ub K ebs) (ecb_enc_fb K BS eb)); auto.
    - apply (co_elen _ _ _ _ _ _ _ CO).
    - apply (co_ebs _ _ _ _ _ _ _ CO).
    - intros k' t Ht. unfold ecb_enc_fb. destruct (length t =? 0)%nat; [reflexivity|].
      destruct (Nat.eqb_spec (length t) BS); [lia|]. reflexivity.
  Qed.
  Lemma ecb_dec_run k junk calls lastc : length junk = BS -> Forall (roomy BS) (calls ++ [lastc]) ->
    let x := inputs (calls ++ [lastc]) in
    run (ecb_dec_ub K dbs) (ecb_dec_fb K BS db) k junk calls lastc =
    if (length x mod BS =? 0)%nat then Ok (ECB_dec BS (db k) x) else Throw.
  Proof.
    intros Lj Hr. unfold ECB_dec.
    apply (ecb_run_gen db dbs (ecb_dec_ub K dbs) (ecb_dec_fb K BS db)); auto.
    - apply (co_dlen _ _ _ _ _ _ _ CO).
    - apply (co_dbs _ _ _ _ _ _ _ CO).
    - intros k' t Ht. unfold ecb_dec_fb. destruct (length t =? 0)%nat; [reflexivity|].
      destruct (Nat.eqb_spec (length t) BS); [lia|]. reflexivity.
  Qed.
End RUN.

(** Streaming invariant of the Hash<BLOCK_SIZE> template, for any derived context whose
    update_blocks is a left-to-right fold. *)
From Verif Require Import Base BaseFacts ModelHash.

Lemma read_ok l off n : (off + n <= length l)%nat -> read l off n = Ok (slice l off n).
Proof. intros H; unfold read. rewrite (proj2 (Nat.leb_le _ _) H). reflexivity. Qed.

Lemma write_ok a off d :
  (off + length d <= length a)%nat ->
  write a off d = Ok (firstn off a ++ d ++ skipn (off + length d) a).
Proof. intros H; unfold write. rewrite (proj2 (Nat.leb_le _ _) H). reflexivity. Qed.

Section S.
  Variable C : Type.
  Variable BS : nat.
  Variable ub : C -> list Z -> nat -> res C.
  Variable fb : C -> list Z -> res (C * list Z).
  Hypothesis BSpos : (0 < BS)%nat.
  (** Contexts that can occur (e.g. 64-bit counter in range). *)
  Variable V : C -> Prop.
  Hypothesis ub_V : forall c d n c', V c -> ub c d n = Ok c' -> V c'.
  Hypothesis ub_0 : forall c d, V c -> ub c d 0 = Ok c.
  Hypothesis ub_add : forall c d n m, V c ->
    ub c d (n + m) = bind (ub c d n) (fun c' => ub c' (skipn (n * BS) d) m).
  Hypothesis ub_loc : forall c d e n, (n * BS <= length d)%nat -> ub c (d ++ e) n = ub c d n.

  Notation hstate := (hstate C).

  (** The object has consumed exactly the message [m] since its context was [c0]. *)
  Record repr (c0 : C) (m : list Z) (s : hstate) : Prop := {
    r_len : length (hbuf s) = BS;
    r_size : hsize s = (length m mod BS)%nat;
    r_buf : firstn (hsize s) (hbuf s) = skipn (BS * (length m / BS)) m;
    r_ctx : ub c0 m (length m / BS) = Ok (hctx s);
    r_V : V c0 }.

  Lemma repr_new junk c0 : V c0 -> length junk = BS -> repr c0 [] (h_new C junk c0).
  Proof.
    intros HV H. constructor; cbn; [| | | |exact HV].
    - assumption.
    - rewrite Nat.mod_0_l by lia. reflexivity.
    - rewrite Nat.div_0_l, Nat.mul_0_r by lia. reflexivity.
    - rewrite Nat.div_0_l by lia. apply ub_0; exact HV.
  Qed.

  Lemma repr_reset s c0 : V c0 -> length (hbuf s) = BS -> repr c0 [] (h_reset C s c0).
  Proof. intros HV H. apply (repr_new (hbuf s) c0 HV H). Qed.

  Lemma feed_eq c inp n : (n * BS <= length inp)%nat -> feed C BS ub c inp n = ub c inp n.
  Proof.
    intros H. unfold feed. rewrite read_ok by lia. cbn [bind]. rewrite slice_0.
    rewrite <- (firstn_skipn (n * BS) inp) at 2. symmetry. apply ub_loc.
    rewrite firstn_length; lia.
  Qed.

  (** keep_rest after consuming all full blocks *)
  Lemma keep_rest_ok s c rest :
    length (hbuf s) = BS -> (length rest < BS)%nat -> hsize s = 0%nat ->
    exists s', keep_rest C s c rest = Ok s' /\ length (hbuf s') = BS /\
      hsize s' = length rest /\ firstn (hsize s') (hbuf s') = rest /\ hctx s' = c.
  Proof.
    intros Hl Hr Hz. unfold keep_rest. destruct (Nat.ltb_spec 0 (length rest)).
    - rewrite write_ok by lia. cbn [bind firstn app].
      eexists; split; [reflexivity|]. cbn [hbuf hsize hctx].
      rewrite app_length, skipn_length.
      repeat split; try lia. rewrite firstn_app, firstn_all.
      replace (length rest - length rest)%nat with 0%nat by lia.
      rewrite firstn_O, app_nil_r. reflexivity.
    - destruct rest; [|cbn in *; lia]. eexists; split; [reflexivity|].
      cbn [hbuf hsize hctx length]. rewrite Hz. repeat split; auto.
  Qed.

  Definition step_ok (s : hstate) (inp : list Z) : Prop :=
    BS = 64%nat \/ hsize s = 0%nat \/ (BS <= 64 /\ hsize s + length inp < 2 * BS)%nat.

  (** One update call. *)
  Lemma h_update_repr c0 m s inp :
    repr c0 m s -> step_ok s inp ->
    match ub c0 (m ++ inp) (length (m ++ inp) / BS) with
    | Ok _ => exists s', h_update C BS ub s inp = Ok s' /\ repr c0 (m ++ inp) s'
    | Throw => h_update C BS ub s inp = Throw
    | UB => h_update C BS ub s inp = UB
    end.
  Proof.
    intros [Rl Rs Rb Rc RV] Hok. unfold h_update.
    assert (HVs : V (hctx s)) by (eapply ub_V; [exact RV|exact Rc]).
    destruct (Nat.eqb_spec (length inp) 0) as [Hi0|Hi0].
    { destruct inp; [|cbn in Hi0; lia]. rewrite app_nil_r, Rc.
      exists s; split; [reflexivity|]. constructor; assumption. }
    set (q := (length m / BS)%nat) in *.
    assert (Hm : (length m = BS * q + hsize s)%nat).
    { rewrite Rs. unfold q. apply Nat.div_mod; lia. }
    assert (Hs : (hsize s < BS)%nat) by (rewrite Rs; apply Nat.mod_upper_bound; lia).
    (* decomposition of the total *)
    assert (Hpre : forall k, ub c0 (m ++ inp) (q + k) =
              ub (hctx s) (firstn (hsize s) (hbuf s) ++ inp) k).
    { intros k. rewrite ub_add by exact RV.
      rewrite ub_loc by lia. rewrite Rc. cbn [bind]. f_equal.
      rewrite skipn_app. rewrite Rb. f_equal; [f_equal; lia|].
      replace (q * BS - length m)%nat with 0%nat by lia. reflexivity. }
    destruct (Nat.eqb_spec (hsize s) 0) as [Hz|Hz].
    - (* empty buffer *)
      rewrite Hz in *. cbn [firstn app] in Hpre.
      set (n := (length inp / BS)%nat).
      assert (Htot : (length (m ++ inp) / BS = q + n)%nat).
      { rewrite app_length, Hm. unfold n.
        replace (BS * q + 0 + length inp)%nat with (length inp + q * BS)%nat by lia.
        rewrite Nat.div_add by lia. lia. }
      rewrite Htot, Hpre.
      assert (Hn : (n * BS <= length inp)%nat).
      { unfold n. pose proof (Nat.mul_div_le (length inp) BS). lia. }
      rewrite feed_eq by assumption.
      destruct (ub (hctx s) inp n) as [c| |] eqn:E; cbn [bind]; try reflexivity.
      assert (Hr : (length (skipn (n * BS) inp) < BS)%nat).
      { rewrite skipn_length. unfold n.
        pose proof (Nat.div_mod (length inp) BS). pose proof (Nat.mod_upper_bound (length inp) BS). lia. }
      destruct (keep_rest_ok s c (skipn (n * BS) inp) Rl Hr Hz) as (s' & K1 & K2 & K3 & K4 & K5).
      exists s'; split; [exact K1|].
      constructor; rewrite ?Htot; [| | | |exact RV].
      + assumption.
      + rewrite K3, skipn_length, app_length, Hm.
        replace (BS * q + 0 + length inp)%nat with (length inp + q * BS)%nat by lia.
        rewrite Nat.mod_add by lia. unfold n.
        pose proof (Nat.div_mod (length inp) BS). lia.
      + rewrite K4. rewrite skipn_app.
        rewrite (skipn_all2 m) by nia. cbn [app]. f_equal. nia.
      + rewrite Hpre, E, K5. reflexivity.
    - (* partially filled buffer *)
      set (size := Nat.min (BS - hsize s) (length inp)).
      rewrite write_ok by (rewrite firstn_length; unfold size; lia).
      cbn [bind hsize hbuf hctx].
      assert (Hfl : length (firstn size inp) = size) by (rewrite firstn_length; unfold size; lia).
      rewrite Hfl.
      set (b := firstn (hsize s) (hbuf s) ++ firstn size inp ++ skipn (hsize s + size) (hbuf s)).
      assert (Hbl : length b = BS).
      { unfold b. rewrite !app_length, Hfl, firstn_length, skipn_length. unfold size. lia. }
      destruct (Nat.eqb_spec (hsize s + size) BS) as [Hfull|Hnf].
      + (* the buffer becomes full *)
        assert (Hbe : b = firstn (hsize s) (hbuf s) ++ firstn size inp).
        { unfold b. rewrite skipn_all2 by lia. rewrite app_nil_r. reflexivity. }
        rewrite feed_eq by lia.
        set (inp1 := skipn size inp).
        assert (Hone : forall k, ub c0 (m ++ inp) (q + (1 + k)) =
                  bind (ub (hctx s) b 1) (fun c => ub c inp1 k)).
        { assert (Hcat : firstn (hsize s) (hbuf s) ++ inp = b ++ inp1).
          { rewrite Hbe, <- app_assoc. unfold inp1. rewrite firstn_skipn. reflexivity. }
          intros k. rewrite Hpre, Hcat, ub_add by exact HVs. rewrite Nat.mul_1_l.
          rewrite ub_loc by lia.
          replace (skipn BS (b ++ inp1)) with inp1; [reflexivity|].
          rewrite skipn_app, skipn_all2 by lia.
          rewrite Hbl, Nat.sub_diag. reflexivity. }
        set (n := (length inp1 / BS)%nat).
        assert (Hil : (length inp = size + length inp1)%nat).
        { unfold inp1. rewrite skipn_length. unfold size. lia. }
        assert (Htot : (length (m ++ inp) / BS = q + (1 + n))%nat).
        { rewrite app_length, Hm, Hil. unfold n.
          replace (BS * q + hsize s + (size + length inp1))%nat
            with (length inp1 + (q + 1) * BS)%nat by lia.
          rewrite Nat.div_add by lia. lia. }
        assert (Hn : (n * BS <= length inp1)%nat).
        { unfold n. pose proof (Nat.mul_div_le (length inp1) BS). lia. }
        assert (Hmod : (length (m ++ inp) mod BS = length inp1 - n * BS)%nat).
        { rewrite app_length, Hm, Hil.
          replace (BS * q + hsize s + (size + length inp1))%nat
            with (length inp1 + (q + 1) * BS)%nat by lia.
          rewrite Nat.mod_add by lia. unfold n.
          pose proof (Nat.div_mod (length inp1) BS). lia. }
        assert (Hskip : skipn (BS * (q + (1 + n))) (m ++ inp) = skipn (n * BS) inp1).
        { rewrite skipn_app, skipn_all2 by nia. cbn [app]. unfold inp1.
          rewrite skipn_skipn'. f_equal. nia. }
        rewrite Htot, Hone.
        destruct (ub (hctx s) b 1) as [c| |] eqn:E1; cbn [bind hsize hbuf hctx]; try reflexivity.
        assert (HVc : V c) by (eapply ub_V; [exact HVs|exact E1]).
        rewrite Nat.eqb_refl, andb_true_r.
        assert (H64 : (length inp1 / 64 = n)%nat).
        { destruct Hok as [H|[H|[H H']]]; [rewrite <- H; reflexivity|lia|].
          unfold n. rewrite !Nat.div_small by lia. reflexivity. }
        destruct (Nat.ltb_spec 0 (length inp1)) as [Hp|Hp].
        * rewrite H64, feed_eq by assumption.
          destruct (ub c inp1 n) as [c2| |] eqn:E2; cbn [bind]; try reflexivity.
          assert (Hr : (length (skipn (n * BS) inp1) < BS)%nat).
          { rewrite skipn_length. unfold n.
            pose proof (Nat.div_mod (length inp1) BS).
            pose proof (Nat.mod_upper_bound (length inp1) BS). lia. }
          destruct (keep_rest_ok (mkH b 0%nat c) c2 (skipn (n * BS) inp1) Hbl Hr eq_refl)
            as (s' & K1 & K2 & K3 & K4 & K5).
          exists s'; split; [exact K1|].
          constructor; rewrite ?Htot; [| | | |exact RV].
          -- assumption.
          -- rewrite K3, skipn_length, Hmod. reflexivity.
          -- rewrite K4, Hskip. reflexivity.
          -- rewrite Hone. cbn [bind]. rewrite E2, K5. reflexivity.
        * assert (Hn0 : n = 0%nat) by (unfold n; apply Nat.div_small; lia).
          rewrite Hn0, ub_0 by exact HVc.
          eexists; split; [reflexivity|].
          constructor; cbn [hbuf hsize hctx]; rewrite ?Htot; [| | | |exact RV].
          -- assumption.
          -- rewrite Hmod; lia.
          -- rewrite Hskip. rewrite skipn_all2 by lia. reflexivity.
          -- rewrite Hone. cbn [bind]. rewrite Hn0, ub_0 by exact HVc. reflexivity.
      + (* still not full: all input buffered *)
        assert (Hsz : size = length inp) by (unfold size in *; lia).
        assert (Htot : (length (m ++ inp) / BS = q + 0)%nat).
        { rewrite app_length, Hm.
          replace (BS * q + hsize s + length inp)%nat
            with ((hsize s + length inp) + q * BS)%nat by lia.
          rewrite Nat.div_add, Nat.div_small by lia. lia. }
        cbn [bind hsize hbuf hctx].
        rewrite Htot, Hpre, ub_0 by exact HVs.
        assert (Hi1 : skipn size inp = []) by (apply skipn_all2; lia).
        rewrite Hi1. cbn [length]. replace (0 <? 0)%nat with false by reflexivity. cbn [andb].
        eexists; split; [reflexivity|].
        constructor; cbn [hbuf hsize hctx]; rewrite ?Htot; [| | | |exact RV].
        * assumption.
        * rewrite app_length, Hm.
          replace (BS * q + hsize s + length inp)%nat
            with ((hsize s + length inp) + q * BS)%nat by lia.
          rewrite Nat.mod_add, Nat.mod_small by lia. lia.
        * unfold b. rewrite app_assoc, firstn_app.
          assert (Hlen2 : length (firstn (hsize s) (hbuf s) ++ firstn size inp) = (hsize s + size)%nat)
            by (rewrite app_length, Hfl, firstn_length; lia).
          rewrite Hlen2, Nat.sub_diag, firstn_O, app_nil_r.
          rewrite firstn_all2 by lia.
          rewrite skipn_app, Nat.add_0_r. rewrite Rb. f_equal.
          replace (BS * q - length m)%nat with 0%nat by lia.
          rewrite firstn_all2 by lia. reflexivity.
        * rewrite Hpre, ub_0 by exact HVs. reflexivity.
  Qed.

  (** Digest of a whole message as the fold over its blocks plus final block. *)
  Definition digest_of (c0 : C) (m : list Z) : res (list Z) :=
    bind (ub c0 m (length m / BS)) (fun c =>
    bind (fb c (skipn (BS * (length m / BS)) m)) (fun '(_, d) => Ok d)).

  Lemma h_final_repr c0 m s inp :
    repr c0 m s -> step_ok s inp ->
    bind (h_final C BS ub fb s inp) (fun '(_, d) => Ok d) = digest_of c0 (m ++ inp) /\
    (forall s' d, h_final C BS ub fb s inp = Ok (s', d) -> length (hbuf s') = BS).
  Proof.
    intros Hr Hok. pose proof (h_update_repr c0 m s inp Hr Hok) as H.
    unfold h_final, digest_of.
    destruct (ub c0 (m ++ inp) (length (m ++ inp) / BS)) as [c| |] eqn:E.
    - destruct H as (s' & -> & R). cbn [bind].
      rewrite (r_buf _ _ _ R).
      assert (hctx s' = c).
      { pose proof (r_ctx _ _ _ R) as Q. rewrite E in Q. injection Q; auto. }
      subst c.
      destruct (fb (hctx s') _) as [[c' d]| |]; cbn [bind]; (split; [reflexivity|]).
      + intros s'' d' [= <- <-]. exact (r_len _ _ _ R).
      + discriminate.
      + discriminate.
    - rewrite H. split; [reflexivity|discriminate].
    - rewrite H. split; [reflexivity|discriminate].
  Qed.

  (** Any failing prefix makes the whole fail the same way. *)
  Hypothesis ub_not_UB : forall c d n, ub c d n <> UB.

  Lemma ub_throw_mono c0 m inp : V c0 ->
    ub c0 m (length m / BS) = Throw ->
    ub c0 (m ++ inp) (length (m ++ inp) / BS) = Throw.
  Proof.
    intros HV H.
    assert (Hle : (length m / BS <= length (m ++ inp) / BS)%nat).
    { apply Nat.div_le_mono; [lia|rewrite app_length; lia]. }
    replace (length (m ++ inp) / BS)%nat
      with (length m / BS + (length (m ++ inp) / BS - length m / BS))%nat by lia.
    rewrite ub_add, ub_loc, H; [reflexivity| |exact HV].
    pose proof (Nat.mul_div_le (length m) BS). lia.
  Qed.

  Hypothesis BS64 : BS = 64%nat.

  Lemma h_updates_repr c0 chunks : forall m s,
    repr c0 m s ->
    match ub c0 (m ++ concat chunks) (length (m ++ concat chunks) / BS) with
    | Ok _ => exists s', h_updates C BS ub s chunks = Ok s' /\ repr c0 (m ++ concat chunks) s'
    | Throw => h_updates C BS ub s chunks = Throw
    | UB => False
    end.
  Proof.
    induction chunks as [|x chunks IH]; intros m s Hr; cbn [concat h_updates].
    - rewrite app_nil_r. rewrite (r_ctx _ _ _ Hr). exists s; auto.
    - pose proof (h_update_repr c0 m s x Hr (or_introl BS64)) as H.
      destruct (ub c0 (m ++ x) (length (m ++ x) / BS)) as [c| |] eqn:E.
      + destruct H as (s' & -> & R). cbn [bind].
        rewrite app_assoc. apply IH; assumption.
      + rewrite H. rewrite app_assoc.
        rewrite (ub_throw_mono c0 (m ++ x) (concat chunks) (r_V _ _ _ Hr) E). reflexivity.
      + destruct (ub_not_UB _ _ _ E).
  Qed.

  (** The digest does not depend on how the message was split. *)
  Lemma h_digest_streaming c0 junk chunks last :
    V c0 -> length junk = BS ->
    h_digest C BS ub fb (h_new C junk c0) chunks last = digest_of c0 (concat chunks ++ last).
  Proof.
    intros HV Hj. unfold h_digest.
    pose proof (h_updates_repr c0 chunks [] (h_new C junk c0) (repr_new junk c0 HV Hj)) as H.
    cbn [app] in H.
    destruct (ub c0 (concat chunks) _) as [c| |] eqn:E.
    - destruct H as (s' & -> & R). cbn [bind].
      apply (h_final_repr c0 (concat chunks) s' last R (or_introl BS64)).
    - rewrite H. unfold digest_of. rewrite (ub_throw_mono _ _ _ HV E). reflexivity.
    - destruct H.
  Qed.

  (** ** HMac *)
  Variable DS : nat.
  Variable c0 : C.
  Hypothesis Vc0 : V c0.
  Hypothesis fb_len : forall c d c' o, fb c d = Ok (c', o) -> length o = DS.
  Hypothesis DS_le : (DS <= BS)%nat.

  (** RFC 2104 in terms of [digest_of], with errors propagated. *)
  Definition hmac_of (key m : list Z) : res (list Z) :=
    bind (if (BS <? length key)%nat then digest_of c0 key else Ok key) (fun k =>
    let K := k ++ repeat 0 (BS - length k) in
    bind (digest_of c0 (map (fun b => Z.lxor b 54) K ++ m)) (fun i =>
    digest_of c0 (map (fun b => Z.lxor b 92) K ++ i))).

  Lemma digest_of_len m d : digest_of c0 m = Ok d -> length d = DS.
  Proof.
    unfold digest_of. destruct (ub _ _ _) as [c| |]; cbn [bind]; try discriminate.
    destruct (fb c _) as [[c' o]| |] eqn:E; cbn [bind]; try discriminate.
    intros [= <-]. eapply fb_len; eauto.
  Qed.

  Lemma digest_of_throw m inp :
    ub c0 m (length m / BS) = Throw -> digest_of c0 (m ++ inp) = Throw.
  Proof. intros E. unfold digest_of. rewrite (ub_throw_mono _ _ _ Vc0 E). reflexivity. Qed.

  Lemma write_prefix_zero k :
    (length k <= BS)%nat -> write (repeat 0 BS) 0 k = Ok (k ++ repeat 0 (BS - length k)).
  Proof.
    intros H. rewrite write_ok by (rewrite repeat_length; lia). cbn [firstn app].
    do 2 f_equal.
    assert (Hs : forall n m, skipn n (repeat 0 m) = repeat 0 (m - n)).
    { clear. induction n; intros m; [rewrite Nat.sub_0_r; reflexivity|].
      destruct m; [reflexivity|]. simpl. apply IHn. }
    apply Hs.
  Qed.

  Lemma hmac_streaming junk key chunks last :
    length junk = BS ->
    hm_mac C BS ub fb DS c0 (h_new C junk c0) key chunks last =
    hmac_of key (concat chunks ++ last).
  Proof.
    intros Hj. unfold hm_mac, hm_set_key, hmac_of.
    set (h0 := h_reset C (h_new C junk c0) c0).
    assert (R0 : repr c0 [] h0) by (apply repr_reset; [exact Vc0|exact Hj]).
    (* part after the key has been prepared *)
    assert (MAIN : forall h K, repr c0 [] h -> length K = BS ->
      bind (bind (h_update C BS ub h (map (fun b => Z.lxor b 54) K)) (fun h1 => Ok (mkM K h1)))
        (fun s => bind (hm_updates C BS ub s chunks)
           (fun s => bind (hm_final C BS ub fb DS c0 s last) (fun '(_, d) => Ok d))) =
      bind (digest_of c0 (map (fun b => Z.lxor b 54) K ++ concat chunks ++ last))
        (fun i => digest_of c0 (map (fun b => Z.lxor b 92) K ++ i))).
    { clear R0 h0. intros h K R0 HK.
      set (ip := map (fun b => Z.lxor b 54) K).
      pose proof (h_update_repr c0 [] h ip R0 (or_introl BS64)) as H1. cbn [app] in H1.
      destruct (ub c0 ip (length ip / BS)) as [c1| |] eqn:E1.
      2:{ rewrite H1. cbn [bind]. rewrite (digest_of_throw ip _ E1). reflexivity. }
      2:{ destruct (ub_not_UB _ _ _ E1). }
      destruct H1 as (h1 & -> & R1). cbn [bind].
      (* updates *)
      assert (HU : forall ch s m, repr c0 m (mh s) ->
         match ub c0 (m ++ concat ch) (length (m ++ concat ch) / BS) with
         | Ok _ => exists s', hm_updates C BS ub s ch = Ok s' /\ mK s' = mK s /\
                     repr c0 (m ++ concat ch) (mh s')
         | Throw => hm_updates C BS ub s ch = Throw
         | UB => False
         end).
      { induction ch as [|x ch IH]; intros s m Hr; cbn [concat hm_updates].
        - rewrite app_nil_r, (r_ctx _ _ _ Hr). exists s; auto.
        - pose proof (h_update_repr c0 m (mh s) x Hr (or_introl BS64)) as H. unfold hm_update.
          destruct (ub c0 (m ++ x) (length (m ++ x) / BS)) as [c| |] eqn:E.
          + destruct H as (s' & -> & R). cbn [bind]. rewrite app_assoc.
            specialize (IH (mkM (mK s) s') (m ++ x) R). cbn [mK mh] in IH. exact IH.
          + rewrite H. cbn [bind]. rewrite app_assoc, (ub_throw_mono _ _ _ Vc0 E). reflexivity.
          + destruct (ub_not_UB _ _ _ E). }
      specialize (HU chunks (mkM K h1) ip R1).
      destruct (ub c0 (ip ++ concat chunks) _) as [c2| |] eqn:E2; [| |destruct HU].
      2:{ rewrite HU. cbn [bind]. rewrite app_assoc, (digest_of_throw _ last E2). reflexivity. }
      destruct HU as (s2 & -> & HK2 & R2). cbn [bind mK] in *.
      (* final *)
      unfold hm_final, hm_update.
      pose proof (h_update_repr c0 _ (mh s2) last R2 (or_introl BS64)) as H3.
      rewrite <- app_assoc in H3.
      destruct (ub c0 (ip ++ concat chunks ++ last) _) as [c3| |] eqn:E3.
      2:{ rewrite H3. cbn [bind]. unfold digest_of. rewrite E3. reflexivity. }
      2:{ destruct (ub_not_UB _ _ _ E3). }
      destruct H3 as (h3 & -> & R3). cbn [bind mK mh].
      destruct (h_final_repr c0 _ h3 [] R3 (or_introl BS64)) as [F1 F2].
      rewrite app_nil_r in F1. rewrite <- F1.
      destruct (h_final C BS ub fb h3 []) as [[h4 i]| |] eqn:E4; cbn [bind]; try reflexivity.
      specialize (F2 _ _ eq_refl). cbn [bind] in F1.
      symmetry in F1. pose proof (digest_of_len _ _ F1) as Hi.
      set (op := map (fun b => Z.lxor b 92) K). rewrite HK2. fold op.
      pose proof (h_update_repr c0 [] (h_reset C h4 c0) op (repr_reset h4 c0 Vc0 F2) (or_introl BS64)) as H5.
      cbn [app] in H5.
      destruct (ub c0 op (length op / BS)) as [c5| |] eqn:E5.
      2:{ rewrite H5. cbn [bind]. rewrite (digest_of_throw op _ E5). reflexivity. }
      2:{ destruct (ub_not_UB _ _ _ E5). }
      destruct H5 as (h5 & -> & R5). cbn [bind].
      rewrite read_ok by lia. cbn [bind]. rewrite slice_0, firstn_all2 by lia.
      pose proof (h_update_repr c0 op h5 i R5 (or_introl BS64)) as H6.
      destruct (ub c0 (op ++ i) _) as [c6| |] eqn:E6.
      2:{ rewrite H6. cbn [bind]. unfold digest_of. rewrite E6. reflexivity. }
      2:{ destruct (ub_not_UB _ _ _ E6). }
      destruct H6 as (h6 & -> & R6). cbn [bind].
      destruct (h_final_repr c0 _ h6 [] R6 (or_introl BS64)) as [G1 G2].
      rewrite app_nil_r in G1. rewrite <- G1.
      destruct (h_final C BS ub fb h6 []) as [[h7 d]| |]; cbn [bind]; reflexivity. }
    destruct (Nat.ltb_spec BS (length key)) as [Hk|Hk].
    - destruct (h_final_repr c0 [] h0 key R0 (or_introl BS64)) as [F1 F2]. cbn [app] in F1.
      rewrite <- F1.
      destruct (h_final C BS ub fb h0 key) as [[h1 dg]| |] eqn:E; cbn [bind]; try reflexivity.
      specialize (F2 _ _ eq_refl). cbn [bind] in F1. symmetry in F1.
      pose proof (digest_of_len _ _ F1) as Hd.
      replace (if (BS <? DS)%nat then BS else DS) with DS by (destruct (Nat.ltb_spec BS DS); lia).
      rewrite read_ok by lia. cbn [bind]. rewrite slice_0, firstn_all2 by lia.
      rewrite write_prefix_zero by lia. cbn [bind].
      apply MAIN; [apply repr_reset; [exact Vc0|exact F2]|].
      rewrite app_length, repeat_length; lia.
    - rewrite write_prefix_zero by lia. cbn [bind].
      apply MAIN; [exact R0|]. rewrite app_length, repeat_length; lia.
  Qed.
End S.

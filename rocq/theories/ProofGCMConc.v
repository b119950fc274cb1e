(** GCM decryptions in several threads. *)
From Verif Require Import Base BaseFacts ModelEndian ProofEndian ModelModes SpecModes ModelHash ProofHash SpecGHASH ModelGHASH ModelCipher SpecCipher ProofCipher
  SpecGCM ModelGCM SpecGCMUse ProofGCM ModelGCMConc.

(** ** The value of the static array and the expected tag do not matter before final_block *)
Section Param.
  Context {M : Type} (BS : nat) (ub : M -> list Z -> nat -> res (M * list Z)) (f : M -> M).
  Definition fres (r : res (M * list Z)) : res (M * list Z) := do (m, o) <- r; Ok (f m, o).
  Hypothesis Hub : forall m d n, ub (f m) d n = fres (ub m d n).
  Definition fs (s : mstate M) : mstate M := mkB (mbuf s) (msize s) (f (mctx s)).
  Definition fr3 (r : res (mstate M * list Z * nat)) := do (s, ob, l) <- r; Ok (fs s, ob, l).
  Lemma tail_f b m ob pos inp : m_tail M BS ub b (f m) ob pos inp = fr3 (m_tail M BS ub b m ob pos inp).
  Proof.
    unfold m_tail. destruct (read inp 0 _); cbn [bind fr3]; try reflexivity. rewrite Hub. unfold fres.
    destruct (ub m _ _) as [[m1 o1]| |]; cbn [bind]; try reflexivity.
    destruct (write ob pos o1); cbn [bind]; try reflexivity. destruct (write b 0 _); cbn [bind]; reflexivity.
  Qed.
  Lemma update_f s ob l inp : m_update M BS ub (fs s) ob l inp = fr3 (m_update M BS ub s ob l inp).
  Proof.
    destruct s as [b sz m]. unfold m_update, fs. cbn [mbuf msize mctx].
    destruct (length inp =? 0)%nat; [reflexivity|]. destruct (sz =? 0)%nat; [apply tail_f|]. cbv zeta.
    destruct (write b sz _) as [b1| |]; cbn [bind]; try reflexivity.
    destruct (_ =? BS)%nat.
    - destruct (read b1 0 BS) as [d| |]; cbn [bind]; try reflexivity. rewrite Hub. unfold fres.
      destruct (ub m d 1) as [[m1 o1]| |]; cbn [bind]; try reflexivity.
      destruct (write ob 0 o1); cbn [bind]; try reflexivity. cbn [Nat.eqb]. apply tail_f.
    - cbn [bind]. destruct (_ =? 0)%nat; [apply tail_f|reflexivity].
  Qed.
  Lemma updates_f calls : forall s, m_updates M BS ub (fs s) calls = do (s1, o) <- m_updates M BS ub s calls; Ok (fs s1, o).
  Proof.
    induction calls as [|[ob inp] r IH]; intros s; cbn [m_updates]; [reflexivity|].
    rewrite update_f. destruct (m_update M BS ub s ob 0 inp) as [[[s1 ob1] l1]| |]; cbn [bind fr3]; try reflexivity.
    rewrite IH. destruct (m_updates M BS ub s1 r) as [[s2 o]| |]; reflexivity.
  Qed.
End Param.

Section Thr.
  Variables (C : cipher) (G : ghash_impl) (g0 : gi_ctx G).
  Notation gcm := (gcm C G).
  Definition retag (tag t : list Z) (m : gcm) : gcm :=
    mkGCM (gmk m) (gmc0 m) (gmc m) (gmh m) tag (gmct m) (gmaad m) t (gmok m).
  Lemma ub_retag tag t m d n : gcm_dec_ub C G (retag tag t m) d n = fres (retag tag t) (gcm_dec_ub C G m d n).
  Proof.
    unfold gcm_dec_ub, fres. cbn [retag gmk gmc0 gmc gmh gmtag gmct gmaad gmt gmok].
    destruct (n =? 0)%nat; [reflexivity|]. destruct (2 ^ 64 <=? _); [reflexivity|].
    destruct (gh_update G (gmh m) d); cbn [bind]; try reflexivity. destruct (gctr_ub C _ _ _ _). reflexivity.
  Qed.
  Lemma init_retag h key iv aad tag t tag' t' : gcm_init C G h key iv aad tag' t' =
    do m <- gcm_init C G h key iv aad tag t; Ok (retag tag' t' m).
  Proof.
    unfold gcm_init. destruct (_ <? _); [reflexivity|]. destruct (gctr_init C G h key iv) as [[[k c0] h1]| |]; cbn [bind]; try reflexivity.
    destruct (gh_update G h1 aad) as [h2| |]; cbn [bind]; try reflexivity. destruct (gh_update G h2 _); reflexivity.
  Qed.
  Lemma dec_split (r : request) tag t :
    gcm_decryptor C G t (rq_junk r) (rq_junk r) g0 (rq_key r) (rq_iv r) (rq_aad r) tag (rq_calls r) (rq_last r) =
    match prelude C G g0 r with
    | Ok (s, o1, ob, outl) =>
        match fin_data C G (mctx s) t (firstn (msize s) (mbuf s)) with
        | Ok (c, h, ct, o) =>
            match gcm_tag C G (gmk (mctx s)) (gmc0 (mctx s)) h (gmaad (mctx s)) ct with
            | Ok (h2, t2, tg) =>
                match write ob outl o with
                | Ok ob2 => (if list_eq_dec Z.eq_dec tg tag then Ok (o1 ++ firstn (outl + msize s) ob2) else Throw, t2)
                | Throw => (Throw, t) | UB => (UB, t)
                end
            | Throw => (Throw, t) | UB => (UB, t)
            end
        | Throw => (Throw, t) | UB => (UB, t)
        end
    | Throw => (Throw, t) | UB => (UB, t)
    end.
  Proof.
    unfold gcm_decryptor, prelude. rewrite (init_retag _ _ _ _ (rq_tag r) [] tag t).
    destruct (gcm_init C G _ _ _ _ (rq_tag r) []) as [m| |]; cbn [bind]; try reflexivity.
    unfold m_run. change (m_new gcm (rq_junk r) (retag tag t m)) with (fs (retag tag t) (m_new gcm (rq_junk r) m)).
    rewrite (updates_f 16 _ _ (ub_retag tag t)).
    destruct (m_updates gcm 16 _ _ (rq_calls r)) as [[s1 o1]| |]; cbn [bind]; try reflexivity.
    unfold m_final. rewrite (update_f 16 _ _ (ub_retag tag t)). unfold fr3.
    destruct (m_update gcm 16 _ s1 _ _ _) as [[[s2 ob] outl]| |]; cbn [bind]; try reflexivity.
    destruct s2 as [b sz m2]. unfold fs. cbn [mbuf msize mctx].
    unfold gcm_dec_fb, fin_data. cbn [retag gmk gmc0 gmc gmh gmtag gmct gmaad gmt gmok].
    set (d := firstn sz b). destruct (length d =? 0)%nat.
    - cbn [bind]. destruct (gcm_tag C G _ _ _ _ _) as [[[h2 t2] tg]| |]; cbn [bind]; try reflexivity.
      destruct (write ob outl []) as [ob2| |]; cbn [bind mctx gmok gmt]; try reflexivity.
      destruct (list_eq_dec Z.eq_dec tg tag); reflexivity.
    - destruct (2 ^ 64 <=? _); [reflexivity|].
      destruct (gh_update G (gmh m2) d) as [h1| |]; cbn [bind]; try reflexivity.
      destruct (read t 0 _) as [p| |]; cbn [bind]; try reflexivity.
      destruct (gh_update G h1 p) as [h3| |]; cbn [bind]; try reflexivity.
      destruct (gctr_fb C _ _ _) as [c o]. cbn [bind].
      destruct (gcm_tag C G _ _ _ _ _) as [[[h2 t2] tg]| |]; cbn [bind]; try reflexivity.
      destruct (write ob outl o) as [ob2| |]; cbn [bind mctx gmok gmt]; try reflexivity.
      destruct (list_eq_dec Z.eq_dec tg tag); reflexivity.
  Qed.

  Variables (klen : nat) (E D : list Z -> list Z -> list Z).
  Hypotheses (IM : implements C klen E D) (B16 : cBS C = 16%nat) (HG : ghash_variant G).
  Definition rmsg (r : request) := msg (rq_calls r) (rq_last r).
  Definition rtag (r : request) (t : list Z) : list Z :=
    tag_with (E (rq_key r)) (rq_iv r) (rq_aad r) (rmsg r) (rmsg r ++ firstn (padlen (rmsg r)) t).
  Definition rout (r : request) : list Z := GCM_cipher (E (rq_key r)) (rq_iv r) (rmsg r).
  Definition rj0 (r : request) : list Z := E (rq_key r) (J0 (E (rq_key r)) (rq_iv r)).
  Definition lens16 (a c : Z) := store64_be (w64 (a * 8)) ++ store64_be (w64 (c * 8)).
  Lemma rj0_ok r : rq_ok klen r -> bytes (rj0 r) /\ length (rj0 r) = 16%nat.
  Proof.
    intros (Ga & Fa & Fx). destruct zero16 as [Z1 Z2].
    pose proof (p_gcm_static C klen E D IM B16 G g0 HG (repeat 0 16) (rq_junk r) (rq_junk r) (rq_key r) (rq_iv r) (rq_aad r) (rq_tag r) (rq_calls r) (rq_last r) Z1 Z2 (proj1 Ga) Ga) as S.
    cbv zeta in S. rewrite (p_gcm_dec C klen E D IM B16 G g0 HG (repeat 0 16) (rq_junk r) (rq_junk r) (rq_key r) (rq_iv r) (rq_aad r) (rq_tag r) (rq_calls r) (rq_last r) Z1 Z2 (proj1 Ga) Ga Fa Fx) in S.
    exact S.
  Qed.
  (** what the prelude and final_block compute, for any contents of the static array *)
  Lemma thr_ok r : rq_ok klen r -> exists s o1 ob outl,
    prelude C G g0 r = Ok (s, o1, ob, outl) /\ c_eb C (gmk (mctx s)) (gmc0 (mctx s)) = rj0 r /\ gmtag (mctx s) = rq_tag r /\
    forall t, bytes t -> length t = 16%nat -> exists c h ct o h2 h3 tg,
      fin_data C G (mctx s) t (firstn (msize s) (mbuf s)) = Ok (c, h, ct, o) /\
      gh_update G h (lens16 (gmaad (mctx s)) ct) = Ok h2 /\ gh_final G h2 [] = Ok (h3, tg) /\
      (do ob2 <- write ob outl o; Ok (o1 ++ firstn (outl + msize s) ob2)) = Ok (rout r) /\
      xorl tg (rj0 r) = rtag r t.
  Proof.
    intros (Ga & Fa & Fx). destruct zero16 as [Z1 Z2].
    assert (KEY : forall t, bytes t -> length t = 16%nat -> exists s o1 ob outl c h ct o h2 h3 tg ob2,
      prelude C G g0 r = Ok (s, o1, ob, outl) /\ fin_data C G (mctx s) t (firstn (msize s) (mbuf s)) = Ok (c, h, ct, o) /\
      gh_update G h (lens16 (gmaad (mctx s)) ct) = Ok h2 /\ gh_final G h2 [] = Ok (h3, tg) /\
      write ob outl o = Ok ob2 /\ o1 ++ firstn (outl + msize s) ob2 = rout r /\
      c_eb C (gmk (mctx s)) (gmc0 (mctx s)) = rj0 r /\ xorl tg (rj0 r) = rtag r t).
    { intros t Bt Lt.
      pose proof (p_gcm_dec C klen E D IM B16 G g0 HG t (rq_junk r) (rq_junk r) (rq_key r) (rq_iv r) (rq_aad r) (rtag r t) (rq_calls r) (rq_last r) Bt Lt (proj1 Ga) Ga Fa Fx) as P.
      rewrite dec_split in P. fold (rmsg r) in P. fold (rtag r t) in P. fold (rout r) in P. fold (rj0 r) in P.
      destruct (list_eq_dec Z.eq_dec (rtag r t) (rtag r t)) as [_|N]; [|destruct N; reflexivity].
      destruct (prelude C G g0 r) as [[[[s o1] ob] outl]| |]; try (exfalso; discriminate P).
      destruct (fin_data C G (mctx s) t _) as [[[[c h] ct] o]| |] eqn:E2; try (exfalso; discriminate P).
      unfold gcm_tag in P. fold (lens16 (gmaad (mctx s)) ct) in P. cbv zeta in P.
      destruct (gh_update G h (lens16 (gmaad (mctx s)) ct)) as [h2| |] eqn:E3; cbn [bind] in P; try (exfalso; discriminate P).
      destruct (gh_final G h2 []) as [[h3 tg]| |] eqn:E4; cbn [bind] in P; try (exfalso; discriminate P).
      destruct (write ob outl o) as [ob2| |] eqn:E5; try (exfalso; discriminate P).
      destruct (list_eq_dec Z.eq_dec _ (rtag r t)) as [e|e]; try (exfalso; discriminate P).
      apply pair_equal_spec in P. destruct P as [P1 P2].
      apply (f_equal (fun q => match q with Ok v => v | _ => [] end)) in P1.
      rewrite P2 in e.
      exists s, o1, ob, outl, c, h, ct, o, h2, h3, tg, ob2. repeat (split; [assumption || reflexivity|]). exact e. }
    destruct (KEY _ Z1 Z2) as (s & o1 & ob & outl & c & h & ct & o & h2 & h3 & tg & ob2 & Ep & _ & _ & _ & _ & _ & Ej & _).
    exists s, o1, ob, outl. split; [exact Ep|]. split; [exact Ej|]. split.
    - clear KEY. revert Ep. unfold prelude.
      assert (PT : forall m d n m' o', gcm_dec_ub C G m d n = Ok (m', o') -> gmtag m' = gmtag m).
      { clear. intros m d n m' o'. unfold gcm_dec_ub. destruct (n =? 0)%nat.
        - intros Q. apply (f_equal (fun q => match q with Ok (v, _) => gmtag v | _ => gmtag m' end)) in Q. symmetry. exact Q.
        - destruct (2 ^ 64 <=? _); [discriminate|]. destruct (gh_update G (gmh m) d); cbn [bind]; try discriminate.
          destruct (gctr_ub C _ _ _ _). intros Q. apply (f_equal (fun q => match q with Ok (v, _) => gmtag v | _ => gmtag m' end)) in Q. symmetry. exact Q. }
      pose proof (init_retag (h_new _ (rq_junk r) g0) (rq_key r) (rq_iv r) (rq_aad r) (rq_tag r) [] (rq_tag r) []) as RT.
      destruct (gcm_init C G _ _ _ _ _ _) as [m| |]; cbn [bind] in *; try discriminate.
      assert (E0 : m = retag (rq_tag r) [] m) by (apply (f_equal (fun q => match q with Ok v => v | _ => m end)) in RT; exact RT).
      pose proof (updates_f 16 _ _ (ub_retag (rq_tag r) []) (rq_calls r) (m_new gcm (rq_junk r) m)) as U1.
      assert (F0 : fs (retag (rq_tag r) []) (m_new gcm (rq_junk r) m) = m_new gcm (rq_junk r) m) by (unfold fs, m_new; cbn [mbuf msize mctx]; rewrite <- E0; reflexivity).
      rewrite F0 in U1. destruct (m_updates gcm 16 _ _ (rq_calls r)) as [[s1 q1]| |]; cbn [bind] in *; try discriminate.
      assert (F1 : fs (retag (rq_tag r) []) s1 = s1) by (apply (f_equal (fun q => match q with Ok (v, _) => v | _ => s1 end)) in U1; symmetry; exact U1).
      pose proof (update_f 16 _ _ (ub_retag (rq_tag r) []) s1 (fst (rq_last r)) 0 (snd (rq_last r))) as U2.
      rewrite F1 in U2. destruct (m_update gcm 16 _ s1 _ _ _) as [[[s2 q2] q3]| |]; cbn [bind fr3] in *; try discriminate.
      assert (F2 : fs (retag (rq_tag r) []) s2 = s2) by (apply (f_equal (fun q => match q with Ok (v, _, _) => v | _ => s2 end)) in U2; symmetry; exact U2).
      intros Q. apply (f_equal (fun q => match q with Ok (v, _, _, _) => v | _ => s2 end)) in Q. cbv beta iota in Q. rewrite <- Q.
      rewrite <- F2. reflexivity.
    - intros t Bt Lt.
      destruct (KEY t Bt Lt) as (s' & o1' & ob' & outl' & c' & h' & ct' & o' & h2' & h3' & tg' & ob2' & Ep' & E2 & E3 & E4 & E5 & E6 & _ & E8).
      rewrite Ep in Ep'. pose proof (f_equal (fun q => match q with Ok v => v | _ => (s, o1, ob, outl) end) Ep') as V. cbv beta iota in V.
      apply pair_equal_spec in V. destruct V as [V Vl]. apply pair_equal_spec in V. destruct V as [V Vb]. apply pair_equal_spec in V. destruct V as [Vs Vo].
      subst s' o1' ob' outl'. exists c', h', ct', o', h2', h3', tg'.
      split; [exact E2|]. split; [exact E3|]. split; [exact E4|]. split; [|exact E8]. rewrite E5. cbn [bind]. rewrite E6. reflexivity.
  Qed.

  (** ** One thread inside final_block *)
  Definition sh_ok (pc : nat) (r : request) (t0 : list Z) (aad ct : Z) (tg t tag : list Z) : Prop :=
    match pc with
    | 1 => length t = 16%nat
    | 2 => length t = 16%nat /\ firstn 8 t = store64_be (w64 (aad * 8))
    | 3 => t = lens16 aad ct
    | 4 => length t = 16%nat
    | 5 => tag = tg
    | 6 => tag = tg /\ t = rj0 r
    | 7 => tag = rtag r t0 /\ t = rj0 r
    | _ => False
    end%nat.
  Definition inv (r : request) (t0 : list Z) (pc : nat) (t tag : list Z) (th : thread C G) : Prop :=
    exists m h ct h2 h3 tg,
      c_eb C (gmk m) (gmc0 m) = rj0 r /\ gmtag m = rq_tag r /\
      gh_update G h (lens16 (gmaad m) ct) = Ok h2 /\ gh_final G h2 [] = Ok (h3, tg) /\ xorl tg (rj0 r) = rtag r t0 /\
      th = TFin pc (mkFin m (if (pc <? 4)%nat then h else if (pc <? 5)%nat then h2 else h3) ct (Ok (rout r))) /\
      sh_ok pc r t0 (gmaad m) ct tg t tag.
  Lemma store64_len x : length (store64_be x) = 8%nat.
  Proof. reflexivity. Qed.
  Lemma inv_step r t0 pc t tag th : inv r t0 pc t tag th -> (pc <= 6)%nat ->
    exists t' tag' th', step C G g0 t tag th = (t', tag', th') /\ inv r t0 (S pc) t' tag' th'.
  Proof.
    intros (m & h & ct & h2 & h3 & tg & A1 & A2 & A3 & A4 & A5 & -> & S) Hp.
    destruct pc as [|[|[|[|[|[|[|pc]]]]]]]; cbn [sh_ok] in S; try lia; cbn [Nat.ltb Nat.leb] in *.
    - eexists _, _, _. split; [reflexivity|]. exists m, h, ct, h2, h3, tg. repeat (split; [assumption || reflexivity|]).
      cbn [sh_ok f_m]. rewrite app_length, store64_len, skipn_length, S. split; [reflexivity|].
      rewrite firstn_app, store64_len, Nat.sub_diag, firstn_O, app_nil_r. apply firstn_all2. rewrite store64_len. apply le_n.
    - destruct S as [S1 S2]. eexists _, _, _. split; [reflexivity|]. exists m, h, ct, h2, h3, tg. repeat (split; [assumption || reflexivity|]).
      cbn [sh_ok f_m f_ct]. rewrite S2. reflexivity.
    - subst t. cbn [step f_h]. rewrite A3. eexists _, _, _. split; [reflexivity|]. exists m, h, ct, h2, h3, tg. repeat (split; [assumption || reflexivity|]).
      cbn [sh_ok]. reflexivity.
    - cbn [step f_h]. rewrite A4. eexists _, _, _. split; [reflexivity|]. exists m, h, ct, h2, h3, tg. repeat (split; [assumption || reflexivity|]).
      cbn [sh_ok]. reflexivity.
    - cbn [step]. eexists _, _, _. split; [reflexivity|]. exists m, h, ct, h2, h3, tg. repeat (split; [assumption || reflexivity|]).
      cbn [sh_ok f_m]. exact A1.
    - destruct S as [S1 S2]. cbn [step]. eexists _, _, _. split; [reflexivity|]. exists m, h, ct, h2, h3, tg. repeat (split; [assumption || reflexivity|]).
      cbn [sh_ok]. subst tag t. split; [exact A5|reflexivity].
  Qed.
  (** the last step compares whatever the shared array holds then *)
  Lemma inv_last r t0 t tag th : inv r t0 7 t tag th -> forall t' tag',
    step C G g0 t' tag' th = (t', tag', TEnd (if list_eq_dec Z.eq_dec tag' (rq_tag r) then Ok (rout r) else Throw)).
  Proof.
    intros (m & h & ct & h2 & h3 & tg & A1 & A2 & A3 & A4 & A5 & -> & S) t' tag'. cbn [step f_out f_m bind]. rewrite A2. reflexivity.
  Qed.
  Lemma inv_shared r t0 pc t tag th : inv r t0 pc t tag th -> (pc = 1)%nat -> forall t' tag', length t' = 16%nat -> inv r t0 pc t' tag' th.
  Proof.
    intros (m & h & ct & h2 & h3 & tg & A1 & A2 & A3 & A4 & A5 & A6 & S) -> t' tag' Ht. 
    exists m, h, ct, h2, h3, tg. repeat (split; [assumption|]). exact Ht.
  Qed.
  Lemma inv_start r t tag : rq_ok klen r -> bytes t -> length t = 16%nat ->
    forall s o1 ob outl, prelude C G g0 r = Ok (s, o1, ob, outl) ->
    exists th, step C G g0 t tag (TFin0 s o1 ob outl) = (t, tag, th) /\ inv r t 1 t tag th.
  Proof.
    intros Hr Bt Lt s o1 ob outl Ep. destruct (thr_ok r Hr) as (s' & o1' & ob' & outl' & Ep' & Ej & Eg & K).
    rewrite Ep in Ep'. pose proof (f_equal (fun q => match q with Ok v => v | _ => (s, o1, ob, outl) end) Ep') as V. cbv beta iota in V.
    apply pair_equal_spec in V. destruct V as [V Vl]. apply pair_equal_spec in V. destruct V as [V Vb]. apply pair_equal_spec in V. destruct V as [Vs Vo].
    subst s' o1' ob' outl'. destruct (K t Bt Lt) as (c & h & ct & o & h2 & h3 & tg & E2 & E3 & E4 & E5 & E6).
    cbn [step]. rewrite E2, E5. eexists. split; [reflexivity|].
    exists (mctx s), h, ct, h2, h3, tg. repeat (split; [assumption || reflexivity|]). exact Lt.
  Qed.
  Lemma req_step r t tag : rq_ok klen r -> exists s o1 ob outl, prelude C G g0 r = Ok (s, o1, ob, outl) /\
      step C G g0 t tag (TReq r) = (t, tag, TFin0 s o1 ob outl).
  Proof.
    intros Hr. destruct (thr_ok r Hr) as (s & o1 & ob & outl & Ep & _). exists s, o1, ob, outl. split; [exact Ep|].
    cbn [step]. rewrite Ep. reflexivity.
  Qed.

  (** ** Schedules without overlapping final_block calls *)
  Lemma nth_upd (l : list (thread C G)) i x k : (i < length l)%nat ->
    nth_error (upd C G l i x) k = if (k =? i)%nat then Some x else nth_error l k.
  Proof.
    unfold upd. revert l k. induction i as [|i IH]; intros [|y l] k Hl; cbn [length] in Hl; try lia.
    - destruct k; reflexivity.
    - destruct k as [|k]; [reflexivity|]. cbn [firstn app nth_error Nat.eqb]. change (skipn (S (S i)) (y :: l)) with (skipn (S i) l).
      apply IH. lia.
  Qed.
  Lemma len_upd (l : list (thread C G)) i x : (i < length l)%nat -> length (upd C G l i x) = length l.
  Proof. intros H. unfold upd. rewrite app_length. cbn [length]. rewrite firstn_length, skipn_length. lia. Qed.
  Definition fate (r : request) (o : res (list Z)) : Prop := exists t0, bytes t0 /\ length t0 = 16%nat /\
      o = if list_eq_dec Z.eq_dec (rq_tag r) (rtag r t0) then Ok (rout r) else Throw.
  Definition th_ok (r : request) (th : thread C G) : Prop :=
    match th with
    | TReq r' => r' = r
    | TFin0 s o1 ob outl => prelude C G g0 r = Ok (s, o1, ob, outl)
    | TFin _ _ => True
    | TEnd o => fate r o
    end.
  Definition all_ok (rs : list request) (ths : list (thread C G)) : Prop :=
    length ths = length rs /\ forall i th r, nth_error ths i = Some th -> nth_error rs i = Some r -> th_ok r th.
  Definition quiet (t tag : list Z) (ths : list (thread C G)) : Prop :=
    bytes t /\ length t = 16%nat /\ forall i th, nth_error ths i = Some th -> inside C G th = false.
  Definition busy (rs : list request) (t tag : list Z) (ths : list (thread C G)) : Prop :=
    exists j th r t0 pc, nth_error ths j = Some th /\ nth_error rs j = Some r /\ bytes t0 /\ length t0 = 16%nat /\
      inv r t0 pc t tag th /\ (1 <= pc <= 7)%nat /\
      forall i x, nth_error ths i = Some x -> i <> j -> inside C G x = false.
  Definition good (rs : list request) (w : world C G) : Prop :=
    let '(t, tag, ths) := w in all_ok rs ths /\ (quiet t tag ths \/ busy rs t tag ths).
  Lemma all_ok_upd rs ths i x r : all_ok rs ths -> nth_error rs i = Some r -> th_ok r x -> all_ok rs (upd C G ths i x).
  Proof.
    intros [Hl Ha] Hr Hx.
    assert (Hi : (i < length ths)%nat) by (rewrite Hl; apply nth_error_Some; rewrite Hr; discriminate).
    split; [rewrite len_upd by exact Hi; exact Hl|]. intros k th q. rewrite nth_upd by exact Hi.
    destruct (Nat.eqb_spec k i) as [->|N].
    - intros Q1 Q2. injection Q1 as <-. rewrite Hr in Q2. injection Q2 as <-. exact Hx.
    - apply Ha.
  Qed.
  Lemma existsb_inside ths : existsb (inside C G) ths = false -> forall i th, nth_error ths i = Some th -> inside C G th = false.
  Proof.
    intros H i th Hn. apply nth_error_In in Hn. destruct (inside C G th) eqn:Q; [|reflexivity].
    assert (existsb (inside C G) ths = true) by (apply existsb_exists; exists th; auto). congruence.
  Qed.
  Lemma inv_inside r t0 pc t tag th : inv r t0 pc t tag th -> inside C G th = true.
  Proof. intros (m & h & ct & h2 & h3 & tg & _ & _ & _ & _ & _ & -> & _). reflexivity. Qed.
  Lemma good_step rs w i : Forall (rq_ok klen) rs -> good rs w ->
    (match nth_error (snd w) i with Some (TFin0 _ _ _ _) => existsb (inside C G) (snd w) = false | _ => True end) ->
    good rs (wstep C G g0 w i).
  Proof.
    intros Hrs. destruct w as [[t tag] ths]. cbn [snd]. intros [Ha Hq] Hx. unfold wstep.
    destruct (nth_error ths i) as [th|] eqn:Ei; [|split; assumption].
    assert (Li : (i < length ths)%nat) by (apply nth_error_Some; rewrite Ei; discriminate).
    destruct (nth_error rs i) as [r|] eqn:Er; [|exfalso; apply nth_error_None in Er; rewrite <- (proj1 Ha) in Er; lia].
    assert (Rr : rq_ok klen r) by (rewrite Forall_forall in Hrs; apply Hrs; apply (nth_error_In _ _ Er)).
    pose proof (proj2 Ha i th r Ei Er) as Ht.
    (* a thread outside final_block changes to a thread outside it *)
    assert (OUT : forall x, inside C G th = false -> inside C G x = false -> th_ok r x -> good rs (t, tag, upd C G ths i x)).
    { intros x I0 I1 Hox. split; [apply (all_ok_upd rs ths i x r Ha Er Hox)|].
      destruct Hq as [(Q1 & Q2 & Q3)|(j & thj & rj & t0 & pc & J1 & J2 & J3 & J4 & J5 & J6 & J7)].
      - left. split; [exact Q1|]. split; [exact Q2|]. intros k y. rewrite nth_upd by exact Li. destruct (k =? i)%nat; [|apply Q3].
        intros Q. injection Q as <-. exact I1.
      - right. exists j, thj, rj, t0, pc. rewrite nth_upd by exact Li.
        destruct (Nat.eqb_spec j i) as [->|N].
        { exfalso. rewrite Ei in J1. injection J1 as <-. rewrite (inv_inside _ _ _ _ _ _ J5) in I0. discriminate. }
        repeat (split; [assumption|]). intros k y. rewrite nth_upd by exact Li. destruct (k =? i)%nat; [|apply J7].
        intros Q _. injection Q as <-. exact I1. }
    destruct th as [r'|s o1 ob outl|pc f|o].
    - cbn [th_ok] in Ht. subst r'. destruct (req_step r t tag Rr) as (s & o1 & ob & outl & Ep & ->). apply OUT; try reflexivity. exact Ep.
    - cbn [th_ok] in Ht.
      destruct Hq as [(Q1 & Q2 & Q3)|(j & thj & rj & t0 & pc & J1 & J2 & J3 & J4 & J5 & J6 & J7)].
      + destruct (inv_start r t tag Rr Q1 Q2 s o1 ob outl Ht) as (x & -> & Hi).
        split. { apply (all_ok_upd rs ths i x r Ha Er). destruct Hi as (m & h & ct & h2 & h3 & tg & _ & _ & _ & _ & _ & -> & _). exact I. }
        right. exists i, x, r, t, 1%nat. rewrite nth_upd, Nat.eqb_refl by exact Li. repeat (split; [assumption || reflexivity|]).
        split; [lia|]. intros k y. rewrite nth_upd by exact Li. destruct (Nat.eqb_spec k i) as [->|N]; [intros _ W; destruct W; reflexivity|].
        intros Q _. apply (Q3 k y Q).
      + exfalso. pose proof (existsb_inside ths Hx j thj J1) as W. rewrite (inv_inside _ _ _ _ _ _ J5) in W. discriminate.
    - destruct Hq as [(Q1 & Q2 & Q3)|(j & thj & rj & t0 & pcj & J1 & J2 & J3 & J4 & J5 & J6 & J7)].
      { specialize (Q3 i _ Ei). discriminate Q3. }
      assert (Eij : i = j). { destruct (Nat.eq_dec i j) as [e|e]; [exact e|]. specialize (J7 i _ Ei e). discriminate J7. }
      subst j. rewrite Ei in J1. injection J1 as <-. rewrite Er in J2. injection J2 as <-.
      assert (CASE : (pcj <= 6)%nat \/ pcj = 7%nat) by lia. destruct CASE as [Hp|Hp].
      + destruct (inv_step r t0 pcj t tag _ J5 Hp) as (t' & tag' & x & -> & Hi).
        split. { apply (all_ok_upd rs ths i x r Ha Er). destruct Hi as (m & h & ct & h2 & h3 & tg & _ & _ & _ & _ & _ & -> & _). exact I. }
        right. exists i, x, r, t0, (S pcj). rewrite nth_upd, Nat.eqb_refl by exact Li. repeat (split; [assumption || reflexivity|]).
        split; [lia|]. intros k y. rewrite nth_upd by exact Li. destruct (Nat.eqb_spec k i) as [->|N]; [intros _ W; destruct W; reflexivity|].
        apply J7.
      + subst pcj. rewrite (inv_last r t0 t tag _ J5 t tag).
        assert (SH : tag = rtag r t0 /\ t = rj0 r) by (destruct J5 as (m & h & ct & h2 & h3 & tg & _ & _ & _ & _ & _ & _ & S); exact S).
        destruct SH as [S1 S2].
        split.
        { apply (all_ok_upd rs ths i _ r Ha Er). exists t0. split; [exact J3|]. split; [exact J4|]. rewrite S1.
          destruct (list_eq_dec Z.eq_dec (rtag r t0) (rq_tag r)), (list_eq_dec Z.eq_dec (rq_tag r) (rtag r t0)); congruence. }
        left. rewrite S2. destruct (rj0_ok r Rr) as [W1 W2]. split; [exact W1|]. split; [exact W2|].
        intros k y. rewrite nth_upd by exact Li. destruct (Nat.eqb_spec k i) as [->|N].
        * intros Q. injection Q as <-. reflexivity.
        * intros Q. apply (J7 k y Q N).
    - cbn [step]. apply OUT; try reflexivity. exact Ht.
  Qed.
  Lemma good_run rs sched : Forall (rq_ok klen) rs -> forall w, good rs w -> exclusive C G g0 w sched -> good rs (wrun C G g0 w sched).
  Proof.
    intros Hrs. induction sched as [|i r IH]; intros w Hw Hx; [exact Hw|]. destruct Hx as [H1 H2].
    change (wrun C G g0 w (i :: r)) with (wrun C G g0 (wstep C G g0 w i) r). apply IH; [|exact H2]. apply good_step; assumption.
  Qed.
  Lemma good_start rs : good rs (start C G rs).
  Proof.
    destruct zero16 as [Z1 Z2]. split.
    - split; [apply map_length|]. intros i th r Q1 Q2. rewrite nth_error_map, Q2 in Q1. cbn in Q1. injection Q1 as <-. reflexivity.
    - left. split; [exact Z1|]. split; [exact Z2|]. intros i th Q. rewrite nth_error_map in Q. destruct (nth_error rs i); cbn in Q; [|discriminate].
      injection Q as <-. reflexivity.
  Qed.
  Lemma fate_dec r o : rq_ok klen r -> fate r o -> exists t, bytes t /\ length t = 16%nat /\ o = fst (rq_dec C G g0 t r).
  Proof.
    intros (Ga & Fa & Fx) (t & Bt & Lt & ->). exists t. split; [exact Bt|]. split; [exact Lt|]. unfold rq_dec.
    rewrite (p_gcm_dec C klen E D IM B16 G g0 HG t (rq_junk r) (rq_junk r) (rq_key r) (rq_iv r) (rq_aad r) (rq_tag r) (rq_calls r) (rq_last r) Bt Lt (proj1 Ga) Ga Fa Fx).
    reflexivity.
  Qed.
  Lemma p_exclusive rs sched i r o : Forall (rq_ok klen) rs -> exclusive C G g0 (start C G rs) sched ->
    nth_error rs i = Some r -> outcome C G (wrun C G g0 (start C G rs) sched) i = Some o ->
    (exists t, bytes t /\ length t = 16%nat /\ o = fst (rq_dec C G g0 t r)) /\
      ((length (rmsg r) mod 16 = 0)%nat -> o = rq_std E r).
  Proof.
    intros Hrs Hx Hi Ho. pose proof (good_run rs sched Hrs _ (good_start rs) Hx) as Hg.
    assert (Rr : rq_ok klen r) by (rewrite Forall_forall in Hrs; apply Hrs; apply (nth_error_In _ _ Hi)).
    unfold outcome in Ho. destruct (wrun C G g0 (start C G rs) sched) as [[t tag] ths]. cbn [snd] in Ho.
    destruct Hg as [Ha _]. destruct (nth_error ths i) as [th|] eqn:Et; [|discriminate].
    pose proof (proj2 Ha i th r Et Hi) as K. destruct th as [| | |o']; try discriminate. injection Ho as ->. cbn [th_ok] in K.
    destruct (fate_dec r o Rr K) as (t1 & B1 & L1 & E1). split; [exists t1; auto|]. intros Al. rewrite E1.
    destruct Rr as (Ga & Fa & Fx).
    unfold rq_dec, rq_std. apply (p_gcm_dec_std C klen E D IM B16 G g0 HG t1); auto. exact (proj1 Ga).
  Qed.

  (** ** Overlapping calls: a forgery is accepted *)
  Lemma inv_run r t0 n : forall pc t tag th, inv r t0 pc t tag th -> (pc + n <= 7)%nat ->
    exists t' tag' th', Nat.iter n (fun '(t, tag, th) => step C G g0 t tag th) (t, tag, th) = (t', tag', th') /\ inv r t0 (pc + n) t' tag' th'.
  Proof.
    induction n as [|n IH]; intros pc t tag th H Hp.
    - exists t, tag, th. rewrite Nat.add_0_r. split; [reflexivity|exact H].
    - destruct (IH pc t tag th H ltac:(lia)) as (t1 & tag1 & th1 & E1 & H1).
      destruct (inv_step r t0 (pc + n) t1 tag1 th1 H1 ltac:(lia)) as (t2 & tag2 & th2 & E2 & H2).
      exists t2, tag2, th2. cbn [Nat.iter nat_rect] in *. unfold Nat.iter in E1. rewrite E1. split; [exact E2|].
      replace (pc + S n)%nat with (S (pc + n)) by lia. exact H2.
  Qed.
  Lemma two0 t tag a b : wstep C G g0 (t, tag, [a; b]) 0 = let '(t', tag', a') := step C G g0 t tag a in (t', tag', [a'; b]).
  Proof. unfold wstep. cbn [nth_error]. destruct (step C G g0 t tag a) as [[t' tag'] a']. reflexivity. Qed.
  Lemma two1 t tag a b : wstep C G g0 (t, tag, [a; b]) 1 = let '(t', tag', b') := step C G g0 t tag b in (t', tag', [a; b']).
  Proof. unfold wstep. cbn [nth_error]. destruct (step C G g0 t tag b) as [[t' tag'] b']. reflexivity. Qed.
  Definition forge_sched : list nat := [0; 1; 0; 1; 0; 0; 0; 0; 0; 0; 1; 1; 1; 1; 1; 1; 0; 1]%nat.
  Lemma p_overlap a b : rq_ok klen a -> rq_ok klen b ->
    rq_tag b = GCM_tag (E (rq_key b)) (rq_iv b) (rq_aad b) (rmsg b) ->
    outcome C G (wrun C G g0 (start C G [a; b]) forge_sched) 0 =
      Some (if list_eq_dec Z.eq_dec (rq_tag b) (rq_tag a) then Ok (rout a) else Throw) /\
    outcome C G (wrun C G g0 (start C G [a; b]) forge_sched) 1 = Some (Ok (rout b)).
  Proof.
    intros Ra Rb Tb. destruct zero16 as [Z1 Z2]. unfold start. cbn [map]. set (z := repeat 0 16) in *.
    destruct (req_step a z z Ra) as (sa & oa & oba & la & Pa & Sa). destruct (req_step b z z Rb) as (sb & ob & obb & lb & Pb & Sb).
    destruct (inv_start a z z Ra Z1 Z2 _ _ _ _ Pa) as (xa & Sa1 & Ia). destruct (inv_start b z z Rb Z1 Z2 _ _ _ _ Pb) as (xb & Sb1 & Ib).
    destruct (inv_step _ _ _ _ _ _ Ia ltac:(lia)) as (t2 & g2 & a2 & Q2 & I2).
    destruct (inv_step _ _ _ _ _ _ I2 ltac:(lia)) as (t3 & g3 & a3 & Q3 & I3).
    destruct (inv_step _ _ _ _ _ _ I3 ltac:(lia)) as (t4 & g4 & a4 & Q4 & I4).
    destruct (inv_step _ _ _ _ _ _ I4 ltac:(lia)) as (t5 & g5 & a5 & Q5 & I5).
    destruct (inv_step _ _ _ _ _ _ I5 ltac:(lia)) as (t6 & g6 & a6 & Q6 & I6).
    destruct (inv_step _ _ _ _ _ _ I6 ltac:(lia)) as (t7 & g7 & a7 & Q7 & I7).
    assert (T7 : t7 = rj0 a) by (destruct I7 as (m & h & ct & h2 & h3 & tg & _ & _ & _ & _ & _ & _ & [_ S]); exact S).
    assert (L7 : length t7 = 16%nat) by (rewrite T7; apply (rj0_ok a Ra)).
    pose proof (inv_shared b z 1 z z xb Ib eq_refl t7 g7 L7) as J1.
    destruct (inv_step _ _ _ _ _ _ J1 ltac:(lia)) as (u2 & k2 & b2 & W2 & J2).
    destruct (inv_step _ _ _ _ _ _ J2 ltac:(lia)) as (u3 & k3 & b3 & W3 & J3).
    destruct (inv_step _ _ _ _ _ _ J3 ltac:(lia)) as (u4 & k4 & b4 & W4 & J4).
    destruct (inv_step _ _ _ _ _ _ J4 ltac:(lia)) as (u5 & k5 & b5 & W5 & J5).
    destruct (inv_step _ _ _ _ _ _ J5 ltac:(lia)) as (u6 & k6 & b6 & W6 & J6).
    destruct (inv_step _ _ _ _ _ _ J6 ltac:(lia)) as (u7 & k7 & b7 & W7 & J7).
    assert (K7 : k7 = rq_tag b).
    { assert (S : k7 = rtag b z) by (destruct J7 as (m & h & ct & h2 & h3 & tg & _ & _ & _ & _ & _ & _ & [S _]); exact S).
      rewrite S, Tb. unfold rtag, GCM_tag. f_equal. apply pad_zero. left. reflexivity. }
    unfold forge_sched, wrun. cbn [fold_left].
    rewrite two0, Sa, two1, Sb, two0, Sa1, two1, Sb1.
    rewrite two0, Q2, two0, Q3, two0, Q4, two0, Q5, two0, Q6, two0, Q7.
    rewrite two1, W2, two1, W3, two1, W4, two1, W5, two1, W6, two1, W7.
    rewrite two0, (inv_last _ _ _ _ _ I7 u7 k7), two1, (inv_last _ _ _ _ _ J7 u7 k7).
    unfold outcome. cbn [snd nth_error]. rewrite K7. split; [reflexivity|].
    destruct (list_eq_dec Z.eq_dec (rq_tag b) (rq_tag b)) as [_|N]; [reflexivity|destruct N; reflexivity].
  Qed.

  (** ** Every call ends *)
  Definition rank (th : thread C G) : nat :=
    match th with
    | TReq _ => 9 | TFin0 _ _ _ _ => 8
    | TFin 1 _ => 7 | TFin 2 _ => 6 | TFin 3 _ => 5 | TFin 4 _ => 4 | TFin 5 _ => 3 | TFin 6 _ => 2 | TFin _ _ => 1
    | TEnd _ => 0
    end%nat.
  Lemma rank_step t tag th : (rank (snd (step C G g0 t tag th)) <= pred (rank th))%nat.
  Proof.
    destruct th as [r|s o1 ob outl|pc f|o].
    - cbn [step]. destruct (prelude C G g0 r) as [[[[s o1] ob] outl]| |]; cbn [snd rank]; lia.
    - cbn [step]. destruct (fin_data C G (mctx s) t _) as [[[[c h] ct] o]| |]; cbn [snd rank]; lia.
    - destruct pc as [|[|[|[|[|[|[|[|pc]]]]]]]]; cbn [step].
      4: destruct (gh_update G (f_h f) t). 7: destruct (gh_final G (f_h f) []) as [[h tg]| |]. all: cbn [snd rank]; lia.
    - cbn [step snd rank]. lia.
  Qed.
  Lemma rank_run sched i : forall w th, nth_error (snd w) i = Some th ->
    exists th', nth_error (snd (wrun C G g0 w sched)) i = Some th' /\ (rank th' <= rank th - count_occ Nat.eq_dec sched i)%nat.
  Proof.
    induction sched as [|k l IH]; intros w th Hw.
    - exists th. split; [exact Hw|]. cbn [count_occ]. lia.
    - change (wrun C G g0 w (k :: l)) with (wrun C G g0 (wstep C G g0 w k) l).
      assert (ST : exists x, nth_error (snd (wstep C G g0 w k)) i = Some x /\ (rank x <= rank th - if Nat.eq_dec k i then 1 else 0)%nat).
      { destruct w as [[t tag] ths]. cbn [snd] in Hw. unfold wstep. destruct (nth_error ths k) as [y|] eqn:Ek.
        - pose proof (rank_step t tag y) as R. destruct (step C G g0 t tag y) as [[t' tag'] y']. cbn [snd] in *.
          assert (Lk : (k < length ths)%nat) by (apply nth_error_Some; rewrite Ek; discriminate).
          rewrite nth_upd by exact Lk. destruct (Nat.eqb_spec i k) as [->|N].
          + exists y'. split; [reflexivity|]. rewrite Hw in Ek. injection Ek as ->. destruct (Nat.eq_dec k k); lia.
          + exists th. split; [exact Hw|]. destruct (Nat.eq_dec k i); [congruence|lia].
        - exists th. split; [exact Hw|]. destruct (Nat.eq_dec k i) as [->|]; [congruence|lia]. }
      destruct ST as (x & X1 & X2). destruct (IH _ _ X1) as (y & Y1 & Y2). exists y. split; [exact Y1|].
      cbn [count_occ]. destruct (Nat.eq_dec k i); lia.
  Qed.
  Lemma p_ends rs sched i : (i < length rs)%nat -> (9 <= count_occ Nat.eq_dec sched i)%nat ->
    outcome C G (wrun C G g0 (start C G rs) sched) i <> None.
  Proof.
    intros Hi Hc. destruct (nth_error rs i) as [r|] eqn:Er; [|apply nth_error_None in Er; lia].
    assert (Hw : nth_error (snd (start C G rs)) i = Some (TReq r)) by (unfold start; cbn [snd]; rewrite nth_error_map, Er; reflexivity).
    destruct (rank_run sched i _ _ Hw) as (x & X1 & X2). unfold outcome. rewrite X1. cbn [rank] in X2.
    destruct x as [r'|s o1 ob outl|pc f|o]; [cbn [rank] in X2; lia|cbn [rank] in X2; lia| |discriminate].
    destruct pc as [|[|[|[|[|[|[|[|pc]]]]]]]]; cbn [rank] in X2; lia.
  Qed.
End Thr.

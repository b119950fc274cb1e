(** The five modes refine SP 800-38A, for every cipher class satisfying [cipher_ok]. *)
From Verif Require Import Base BaseFacts ModelModes SpecModes ProofModeStream.

(** ** Lists of equal-length blocks *)
Definition blocksz (BS : nat) (bs : list (list Z)) : Prop := Forall (fun b => length b = BS) bs.

Lemma blocksz_cut BS n d : length d = (n * BS)%nat -> blocksz BS (cut BS n d).
Proof. intros H. apply cut_Forall_length. lia. Qed.
Lemma concat_cut BS n (d : list Z) : length d = (n * BS)%nat -> concat (cut BS n d) = d.
Proof. apply cut_concat. Qed.
Lemma concat_cut_le BS n (d : list Z) : (n * BS <= length d)%nat -> concat (cut BS n d) = firstn (n * BS) d.
Proof.
  intros H. rewrite <- (firstn_skipn (n * BS) d) at 1. rewrite cut_firstn by (rewrite firstn_length; lia).
  apply cut_concat. rewrite firstn_length. lia.
Qed.
Lemma cut_of_concat BS bs : blocksz BS bs -> cut BS (length bs) (concat bs) = bs.
Proof.
  induction 1 as [|b bs Hb _ IH]; [reflexivity|]. cbn [length concat cut].
  rewrite firstn_app, Hb, Nat.sub_diag, <- Hb, firstn_all, app_nil_r.
  rewrite skipn_app, Nat.sub_diag, skipn_all. cbn [skipn app]. rewrite Hb, IH. reflexivity.
Qed.
Lemma concat_length_bs BS bs : blocksz BS bs -> length (concat bs) = (length bs * BS)%nat.
Proof. induction 1 as [|b bs Hb _ IH]; [reflexivity|]. cbn. rewrite app_length, IH, Hb. reflexivity. Qed.
Lemma cut_app2 BS n1 n2 (d1 d2 : list Z) : length d1 = (n1 * BS)%nat ->
  cut BS (n1 + n2) (d1 ++ d2) = cut BS n1 d1 ++ cut BS n2 d2.
Proof.
  revert d1. induction n1 as [|n1 IH]; intros d1 H.
  - destruct d1; [reflexivity|discriminate].
  - cbn [cut Nat.add app]. rewrite firstn_app, skipn_app.
    replace (BS - length d1)%nat with 0%nat by lia. cbn [firstn skipn]. rewrite app_nil_r.
    f_equal. apply IH. rewrite skipn_length. lia.
Qed.
Lemma blocksz_map BS (f : list Z -> list Z) bs :
  (forall x, length x = BS -> length (f x) = BS) -> blocksz BS bs -> blocksz BS (map f bs).
Proof. intros H. induction 1; constructor; auto. Qed.

Lemma blocks_of_decomp BS x0 n t : (0 < BS)%nat -> length x0 = (n * BS)%nat -> (length t < BS)%nat ->
  blocks_of BS (x0 ++ t) = cut BS n x0 ++ (if (length t =? 0)%nat then [] else [t]).
Proof.
  intros P L Lt. unfold blocks_of. rewrite app_length, L.
  destruct (Nat.eqb_spec (length t) 0) as [E|E].
  - destruct t; [|discriminate]. cbn [length]. rewrite !app_nil_r.
    replace ((n * BS + 0 + BS - 1) / BS)%nat with n; [reflexivity|].
    apply Nat.div_unique with (BS - 1)%nat; lia.
  - replace ((n * BS + length t + BS - 1) / BS)%nat with (n + 1)%nat.
    + rewrite cut_app2 by assumption. f_equal. cbn [cut]. rewrite firstn_all2 by lia. reflexivity.
    + apply Nat.div_unique with (length t - 1)%nat; lia.
Qed.

(** ** Scans *)
Section SCAN.
  Variable St : Type.
  Variable f : St -> list Z -> St * list Z.
  Fixpoint scan (s : St) (bs : list (list Z)) : St * list (list Z) :=
    match bs with
    | [] => (s, [])
    | b :: r => let '(s1, o) := f s b in let '(s2, os) := scan s1 r in (s2, o :: os)
    end.
  Lemma scan_cons s b r : scan s (b :: r) =
    (fst (scan (fst (f s b)) r), snd (f s b) :: snd (scan (fst (f s b)) r)).
  Proof. cbn. destruct (f s b) as [s1 o]. cbn. destruct (scan s1 r); reflexivity. Qed.
  Lemma scan_app a b s :
    scan s (a ++ b) = let '(s1, o1) := scan s a in let '(s2, o2) := scan s1 b in (s2, o1 ++ o2).
  Proof.
    revert s. induction a as [|x a IH]; intros s; cbn.
    - destruct (scan s b); reflexivity.
    - destruct (f s x) as [s1 o]. rewrite IH. destruct (scan s1 a) as [s2 o1].
      destruct (scan s2 b); reflexivity.
  Qed.
  Variable BS : nat.
  Variable V : St -> Prop.
  Hypothesis f_ok : forall s b, V s -> length b = BS -> V (fst (f s b)) /\ length (snd (f s b)) = BS.
  Lemma scan_ok bs : blocksz BS bs -> forall s, V s ->
    V (fst (scan s bs)) /\ blocksz BS (snd (scan s bs)) /\ length (snd (scan s bs)) = length bs.
  Proof.
    induction 1 as [|b bs Hb _ IH]; intros s Hs; cbn.
    - repeat split; auto. constructor.
    - destruct (f_ok s b Hs Hb) as [H1 H2]. destruct (f s b) as [s1 o]. cbn in H1, H2.
      destruct (IH _ H1) as (A & B & C). destruct (scan s1 bs) as [s2 os]. cbn in *.
      repeat split; auto. constructor; assumption.
  Qed.

End SCAN.

Arguments scan {St}.

Definition run_out {M} (r : res (mstate M * list Z)) : res (list Z) :=
  match r with Ok (_, o) => Ok o | Throw => Throw | UB => UB end.

(** Padding-free modes: any sequence of calls yields [spec]. *)
Section SCANMODE.
  Variable K : Type.
  Variable BS : nat.
  Hypothesis BSpos : (0 < BS)%nat.
  Variable VK : K -> Prop.
  Variable VI : list Z -> Prop.
  Variable f : K -> list Z -> list Z -> list Z * list Z.
  Hypothesis f_ok : forall k iv b, VK k -> VI iv -> length b = BS ->
    VI (fst (f k iv b)) /\ length (snd (f k iv b)) = BS.
  Variable ub : K * list Z -> list Z -> nat -> res ((K * list Z) * list Z).
  Variable fb : K * list Z -> list Z -> res ((K * list Z) * list Z).
  Hypothesis ub_noUB : forall m d n, ub m d n <> UB.
  Hypothesis ub_scan : forall k iv d n, VK k -> VI iv -> length d = (n * BS)%nat ->
    ub (k, iv) d n = Ok ((k, fst (scan (f k) iv (cut BS n d))), concat (snd (scan (f k) iv (cut BS n d)))).
  Hypothesis fb_len : forall m d m' o, VK (fst m) /\ VI (snd m) -> (length d < BS)%nat ->
    fb m d = Ok (m', o) -> length o = length d.

  Let W (m : K * list Z) := VK (fst m) /\ VI (snd m).

  Lemma sm_scan k iv d n : VK k -> VI iv -> length d = (n * BS)%nat ->
    VI (fst (scan (f k) iv (cut BS n d))) /\ blocksz BS (snd (scan (f k) iv (cut BS n d))) /\
    length (snd (scan (f k) iv (cut BS n d))) = n.
  Proof.
    intros Hk Hi Hd.
    destruct (scan_ok _ (f k) BS VI (fun s b Hs Hb => f_ok k s b Hk Hs Hb) (cut BS n d)
                (blocksz_cut _ _ _ Hd) iv Hi) as (A & B & C).
    rewrite cut_length in C. auto.
  Qed.

  Lemma sm_ub_len m d n m' o : W m -> length d = (n * BS)%nat ->
    ub m d n = Ok (m', o) -> W m' /\ length o = (n * BS)%nat.
  Proof.
    destruct m as [k iv]. intros [Hk Hi] Hd E. cbn in Hk, Hi.
    rewrite ub_scan in E by auto. injection E as <- <-.
    destruct (sm_scan k iv d n Hk Hi Hd) as (A & B & C).
    split; [split; assumption|]. rewrite (concat_length_bs BS) by assumption. congruence.
  Qed.
  Lemma sm_ub_app m d1 n1 d2 n2 : W m -> length d1 = (n1 * BS)%nat -> length d2 = (n2 * BS)%nat ->
    ub m (d1 ++ d2) (n1 + n2) =
    bind (ub m d1 n1) (fun '(m1, o1) => bind (ub m1 d2 n2) (fun '(m2, o2) => Ok (m2, o1 ++ o2))).
  Proof.
    destruct m as [k iv]. intros [Hk Hi] H1 H2. cbn in Hk, Hi.
    destruct (sm_scan k iv d1 n1 Hk Hi H1) as (A & _ & _).
    rewrite (ub_scan k iv d1 n1) by assumption. cbn [bind].
    rewrite (ub_scan k _ d2 n2) by assumption. cbn [bind].
    rewrite ub_scan by (auto; rewrite app_length; lia).
    rewrite cut_app2 by assumption. rewrite scan_app.
    destruct (scan (f k) iv (cut BS n1 d1)) as [s1 o1]. cbn [fst snd].
    destruct (scan (f k) s1 (cut BS n2 d2)) as [s2 o2]. cbn [fst snd].
    rewrite concat_app. reflexivity.
  Qed.
  Lemma sm_ub_0 m : W m -> ub m [] 0 = Ok (m, []).
  Proof. destruct m as [k iv]. intros [Hk Hi]. rewrite ub_scan by auto. reflexivity. Qed.

  (** spec as a function of the blocks; [fin] describes the last partial block. *)
  Lemma sm_run k iv junk calls lastc : VK k -> VI iv -> length junk = BS ->
    Forall (roomy BS) (calls ++ [lastc]) ->
    let x := inputs (calls ++ [lastc]) in
    let n := (length x / BS)%nat in
    run_out (m_run (K * list Z) BS ub fb (m_new _ junk (k, iv)) calls lastc) =
    bind (fb (k, fst (scan (f k) iv (cut BS n (firstn (n * BS) x)))) (skipn (n * BS) x))
         (fun '(_, o2) => Ok (concat (snd (scan (f k) iv (cut BS n (firstn (n * BS) x)))) ++ o2)).
  Proof.
    intros Hk Hi Lj Hr x n.
    pose proof (m_run_oneshot (K * list Z) BS ub fb W BSpos sm_ub_len sm_ub_app (fun m d n _ _ => ub_noUB m d n) sm_ub_0
                  fb_len (k, iv) junk calls lastc (conj Hk Hi) Lj Hr) as G.
    fold x in G. unfold oneshot in G. fold n in G.
    assert (Ln : length (firstn (n * BS) x) = (n * BS)%nat).
    { rewrite firstn_length. unfold n. pose proof (Nat.mul_div_le (length x) BS). lia. }
    rewrite ub_scan in G by assumption. cbn [bind] in G.
    unfold run_out.
    destruct (m_run (K * list Z) BS ub fb (m_new _ junk (k, iv)) calls lastc) as [[s o]| |];
      symmetry; exact G.
  Qed.
End SCANMODE.

(** ** Cipher contract *)
Section CIPHER.
  Variable K : Type.
  Variable BS PN : nat.
  Variable eb db : K -> list Z -> list Z.
  Variable ebs dbs : K -> list Z -> nat -> list Z.
  Record cipher_ok : Prop := {
    co_bs : (0 < BS)%nat;
    co_pn : (0 < PN)%nat;
    co_elen : forall k x, length x = BS -> length (eb k x) = BS;
    co_dlen : forall k x, length x = BS -> length (db k x) = BS;
    co_ebs : forall k d n, length d = (n * BS)%nat -> ebs k d n = concat (map (eb k) (cut BS n d));
    co_dbs : forall k d n, length d = (n * BS)%nat -> dbs k d n = concat (map (db k) (cut BS n d));
  }.
  Hypothesis CO : cipher_ok.
  Let BSpos := co_bs CO.
  Let PNpos := co_pn CO.
  Let elen := co_elen CO.
  Let dlen := co_dlen CO.

  Definition liv (iv : list Z) : Prop := length iv = BS.
  Definition anyk (k : K) : Prop := True.

  (** *** CBC *)
  Definition f_cbc_e (k : K) (iv p : list Z) := let c := eb k (xorl p iv) in (c, c).
  Definition f_cbc_d (k : K) (iv c : list Z) := (c, xorl (db k c) iv).
  Definition f_cfb_e (k : K) (iv p : list Z) := let c := xorl p (eb k iv) in (c, c).
  Definition f_cfb_d (k : K) (iv c : list Z) := (c, xorl c (eb k iv)).
  Definition f_ofb (k : K) (iv p : list Z) := let o := eb k iv in (o, xorl p o).

  Lemma xorl_len2 a b : length a = BS -> length b = BS -> length (xorl a b) = BS.
  Proof. intros. rewrite xorl_length. lia. Qed.

  Lemma f_cbc_e_ok k iv b : anyk k -> liv iv -> length b = BS ->
    liv (fst (f_cbc_e k iv b)) /\ length (snd (f_cbc_e k iv b)) = BS.
  Proof. unfold liv; intros _ H1 H2; cbn; split; apply elen; apply xorl_len2; auto. Qed.
  Lemma f_cbc_d_ok k iv b : anyk k -> liv iv -> length b = BS ->
    liv (fst (f_cbc_d k iv b)) /\ length (snd (f_cbc_d k iv b)) = BS.
  Proof. unfold liv; intros _ H1 H2; cbn; split; auto. apply xorl_len2; auto. Qed.
  Lemma f_cfb_e_ok k iv b : anyk k -> liv iv -> length b = BS ->
    liv (fst (f_cfb_e k iv b)) /\ length (snd (f_cfb_e k iv b)) = BS.
  Proof. unfold liv; intros _ H1 H2; cbn; split; apply xorl_len2; auto. Qed.
  Lemma f_cfb_d_ok k iv b : anyk k -> liv iv -> length b = BS ->
    liv (fst (f_cfb_d k iv b)) /\ length (snd (f_cfb_d k iv b)) = BS.
  Proof. unfold liv; intros _ H1 H2; cbn; split; auto. apply xorl_len2; auto. Qed.
  Lemma f_ofb_ok k iv b : anyk k -> liv iv -> length b = BS ->
    liv (fst (f_ofb k iv b)) /\ length (snd (f_ofb k iv b)) = BS.
  Proof. unfold liv; intros _ H1 H2; cbn; split; auto. apply xorl_len2; auto. Qed.

  Lemma cbc_enc_loop_scan k n : forall iv d,
    cbc_enc_loop K BS eb k iv d n =
    (fst (scan (f_cbc_e k) iv (cut BS n d)), concat (snd (scan (f_cbc_e k) iv (cut BS n d)))).
  Proof.
    induction n as [|n IH]; intros iv d; [reflexivity|]. cbn [cbc_enc_loop cut scan].
    rewrite IH. change (f_cbc_e k iv (firstn BS d)) with (eb k (xorl (firstn BS d) iv), eb k (xorl (firstn BS d) iv)). cbv beta iota.
    destruct (scan (f_cbc_e k) (eb k (xorl (firstn BS d) iv)) (cut BS n (skipn BS d))); reflexivity.
  Qed.
  Lemma cfb_enc_loop_scan k n : forall iv d,
    cfb_enc_loop K BS eb k iv d n =
    (fst (scan (f_cfb_e k) iv (cut BS n d)), concat (snd (scan (f_cfb_e k) iv (cut BS n d)))).
  Proof.
    induction n as [|n IH]; intros iv d; [reflexivity|]. cbn [cfb_enc_loop cut scan].
    rewrite IH. change (f_cfb_e k iv (firstn BS d)) with (xorl (firstn BS d) (eb k iv), xorl (firstn BS d) (eb k iv)). cbv beta iota.
    destruct (scan (f_cfb_e k) (xorl (firstn BS d) (eb k iv)) (cut BS n (skipn BS d))); reflexivity.
  Qed.
  Lemma ofb_loop_scan k n : forall iv d,
    ofb_loop K BS eb k iv d n =
    (fst (scan (f_ofb k) iv (cut BS n d)), concat (snd (scan (f_ofb k) iv (cut BS n d)))).
  Proof.
    induction n as [|n IH]; intros iv d; [reflexivity|]. cbn [ofb_loop cut scan].
    rewrite IH. unfold ofb_gen1. change (f_ofb k iv (firstn BS d)) with (eb k iv, xorl (firstn BS d) (eb k iv)). cbv beta iota.
    destruct (scan (f_ofb k) (eb k iv) (cut BS n (skipn BS d))); reflexivity.
  Qed.

  (** Batches *)
  Lemma batch_generic (g : list Z -> list Z -> list Z * list Z)
        (batch : list Z -> list Z -> nat -> list Z * list Z)
        (loop : nat -> list Z -> list Z -> nat -> list Z * list Z) :
    (forall iv b, liv iv -> length b = BS -> liv (fst (g iv b))) ->
    (forall iv d m, (0 < m)%nat -> liv iv -> (m * BS <= length d)%nat ->
       batch iv d m = (fst (scan g iv (cut BS m d)), concat (snd (scan g iv (cut BS m d))))) ->
    (forall f iv d n, loop (S f) iv d n =
       if (PN <=? n)%nat then
         let '(iv1, o1) := batch iv d PN in
         let '(iv2, o2) := loop f iv1 (skipn (PN * BS) d) (n - PN)%nat in (iv2, o1 ++ o2)
       else if (0 <? n)%nat then batch iv d n else (iv, [])) ->
    forall f n iv d, (n < f)%nat -> liv iv -> length d = (n * BS)%nat ->
      loop f iv d n = (fst (scan g iv (cut BS n d)), concat (snd (scan g iv (cut BS n d)))).
  Proof.
    intros Hg Hb Hl. induction f as [|f IH]; intros n iv d Hf Hi Hd; [lia|].
    rewrite Hl. destruct (Nat.leb_spec PN n) as [H|H].
    - assert (HPN : (PN * BS <= length d)%nat) by (rewrite Hd; apply Nat.mul_le_mono_r; lia).
      rewrite Hb by auto.
      replace n with (PN + (n - PN))%nat at 2 3 by lia. rewrite cut_app. rewrite scan_app.
      assert (Hi' : liv (fst (scan g iv (cut BS PN d)))).
      { assert (Hbs : blocksz BS (cut BS PN d)) by (apply cut_Forall_length; lia).
        clear - Hbs Hi Hg. revert iv Hi. induction Hbs as [|b bs Hb _ IHb]; intros iv Hi; [exact Hi|].
        cbn. specialize (Hg iv b Hi Hb). destruct (g iv b) as [s1 o]. specialize (IHb s1 Hg).
        destruct (scan g s1 bs). exact IHb. }
      destruct (scan g iv (cut BS PN d)) as [s1 o1]. cbn [fst snd] in *.
      rewrite IH by (auto; try lia; rewrite skipn_length, Hd, Nat.mul_sub_distr_r; lia).
      destruct (scan g s1 (cut BS (n - PN) (skipn (PN * BS) d))) as [s2 o2]. cbn [fst snd].
      rewrite concat_app. reflexivity.
    - destruct (Nat.ltb_spec 0 n) as [H0|H0].
      + apply Hb; auto. lia.
      + replace n with 0%nat by lia. reflexivity.
  Qed.

  Lemma cut_removelast m (d : list Z) : (0 < m)%nat -> (m * BS <= length d)%nat ->
    concat (removelast (cut BS m d)) = firstn ((m - 1) * BS) d /\
    last (cut BS m d) [] = slice d ((m - 1) * BS) BS.
  Proof.
    intros H0 H. replace m with ((m - 1) + 1)%nat at 1 3 by lia.
    rewrite cut_app. cbn [cut]. rewrite removelast_last, last_last.
    rewrite concat_cut_le by nia. split; reflexivity.
  Qed.

  Lemma scan_cbc_d_last k bs iv : bs <> [] -> fst (scan (f_cbc_d k) iv bs) = last bs [].
  Proof.
    revert iv. induction bs as [|b bs IH]; intros iv H; [congruence|].
    rewrite scan_cons. destruct bs as [|b' bs]; [reflexivity|].
    specialize (IH b ltac:(discriminate)). cbn [fst f_cbc_d]. rewrite IH. reflexivity.
  Qed.
  Lemma scan_cfb_d_last k bs iv : bs <> [] -> fst (scan (f_cfb_d k) iv bs) = last bs [].
  Proof.
    revert iv. induction bs as [|b bs IH]; intros iv H; [congruence|].
    rewrite scan_cons. destruct bs as [|b' bs]; [reflexivity|].
    specialize (IH b ltac:(discriminate)). cbn [fst f_cfb_d]. rewrite IH. reflexivity.
  Qed.

  Lemma scan_cbc_d_out k bs : blocksz BS bs -> bs <> [] -> forall iv, liv iv ->
    concat (snd (scan (f_cbc_d k) iv bs)) =
    xorl (concat (map (db k) bs)) (iv ++ concat (removelast bs)).
  Proof.
    induction 1 as [|b bs Hb Hbs IH]; intros Hne iv Hi; [congruence|].
    destruct bs as [|b' bs].
    - cbn. rewrite !app_nil_r. reflexivity.
    - rewrite scan_cons. specialize (IH ltac:(discriminate) b Hb).
      cbn [snd fst f_cbc_d]. 
      change (removelast (b :: b' :: bs)) with (b :: removelast (b' :: bs)).
      change (concat (b :: removelast (b' :: bs))) with (b ++ concat (removelast (b' :: bs))).
      change (concat (map (db k) (b :: b' :: bs))) with (db k b ++ concat (map (db k) (b' :: bs))).
      rewrite xorl_app by (rewrite dlen by assumption; symmetry; exact Hi).
      rewrite <- IH. reflexivity.
  Qed.
  Lemma scan_cfb_d_out k bs : blocksz BS bs -> bs <> [] -> forall iv, liv iv ->
    concat (snd (scan (f_cfb_d k) iv bs)) =
    xorl (concat bs) (concat (map (eb k) (iv :: removelast bs))).
  Proof.
    induction 1 as [|b bs Hb Hbs IH]; intros Hne iv Hi; [congruence|].
    destruct bs as [|b' bs].
    - cbn. rewrite !app_nil_r. reflexivity.
    - rewrite scan_cons. specialize (IH ltac:(discriminate) b Hb).
      cbn [snd fst f_cfb_d].
      change (removelast (b :: b' :: bs)) with (b :: removelast (b' :: bs)).
      change (concat (b :: b' :: bs)) with (b ++ concat (b' :: bs)).
      change (concat (map (eb k) (iv :: b :: removelast (b' :: bs)))) with
        (eb k iv ++ concat (map (eb k) (b :: removelast (b' :: bs)))).
      rewrite xorl_app by (rewrite elen by assumption; exact Hb).
      rewrite <- IH. reflexivity.
  Qed.

  Lemma cut_blocksz_le m d : (m * BS <= length d)%nat -> blocksz BS (cut BS m d).
  Proof. intros. apply cut_Forall_length. lia. Qed.

  Lemma cut_firstn_self m (d : list Z) : (m * BS <= length d)%nat -> cut BS m (firstn (m * BS) d) = cut BS m d.
  Proof.
    intros H. rewrite <- (firstn_skipn (m * BS) d) at 2. symmetry. apply cut_firstn.
    rewrite firstn_length. lia.
  Qed.

  Lemma cbc_dec_batch_scan k iv d m : (0 < m)%nat -> liv iv -> (m * BS <= length d)%nat ->
    cbc_dec_batch K BS dbs k iv d m =
    (fst (scan (f_cbc_d k) iv (cut BS m d)), concat (snd (scan (f_cbc_d k) iv (cut BS m d)))).
  Proof.
    intros H0 Hi Hd. unfold cbc_dec_batch.
    destruct (cut_removelast m d H0 Hd) as [E1 E2].
    assert (Hne : cut BS m d <> []) by (destruct m; [lia|discriminate]).
    rewrite scan_cbc_d_last by assumption. rewrite E2.
    rewrite scan_cbc_d_out by (auto; apply cut_blocksz_le; assumption). rewrite E1.
    f_equal.
    rewrite (co_dbs CO) by (rewrite firstn_length; lia).
    rewrite cut_firstn_self by assumption.
    set (buf := concat (map (db k) (cut BS m d))).
    assert (Lbuf : length buf = (m * BS)%nat).
    { unfold buf. rewrite (concat_length_bs BS).
      - rewrite map_length, cut_length. reflexivity.
      - apply blocksz_map; [apply dlen|apply cut_blocksz_le; assumption]. }
    rewrite <- (firstn_skipn BS buf) at 3.
    assert (HmB : (BS <= m * BS)%nat) by (rewrite <- (Nat.mul_1_l BS) at 1; apply Nat.mul_le_mono_r; lia).
    assert (Hm1 : ((m - 1) * BS = m * BS - BS)%nat) by (rewrite Nat.mul_sub_distr_r; lia).
    rewrite xorl_app by (rewrite firstn_length; unfold liv in Hi; lia).
    f_equal. f_equal. apply firstn_all2. rewrite skipn_length. lia.
  Qed.

  Lemma cfb_dec_batch_scan k iv d m : (0 < m)%nat -> liv iv -> (m * BS <= length d)%nat ->
    cfb_dec_batch K BS ebs k iv d m =
    (fst (scan (f_cfb_d k) iv (cut BS m d)), concat (snd (scan (f_cfb_d k) iv (cut BS m d)))).
  Proof.
    intros H0 Hi Hd. unfold cfb_dec_batch.
    destruct (cut_removelast m d H0 Hd) as [E1 E2].
    assert (Hne : cut BS m d <> []) by (destruct m; [lia|discriminate]).
    rewrite scan_cfb_d_last by assumption. rewrite E2.
    assert (Hbz : blocksz BS (cut BS m d)) by (apply cut_blocksz_le; assumption).
    rewrite scan_cfb_d_out by auto. f_equal.
    assert (HmB : (BS <= m * BS)%nat) by (rewrite <- (Nat.mul_1_l BS) at 1; apply Nat.mul_le_mono_r; lia).
    assert (Hm1 : ((m - 1) * BS = m * BS - BS)%nat) by (rewrite Nat.mul_sub_distr_r; lia).
    rewrite (co_ebs CO) by (rewrite app_length, firstn_length; unfold liv in Hi; lia).
    rewrite concat_cut_le by assumption. f_equal.
    rewrite <- E1.
    assert (Hbz' : blocksz BS (iv :: removelast (cut BS m d))).
    { constructor; [exact Hi|]. clear - Hbz. induction Hbz as [|b bs Hb Hbs IH]; [constructor|].
      destruct bs; [constructor|]. constructor; assumption. }
    assert (Lm : length (iv :: removelast (cut BS m d)) = m).
    { cbn [length]. replace (cut BS m d) with (cut BS ((m - 1) + 1) d) by (f_equal; lia).
      rewrite cut_app. cbn [cut]. rewrite removelast_last, cut_length. lia. }
    pose proof (cut_of_concat BS _ Hbz') as C. rewrite Lm in C. cbn [concat] in C. rewrite C. reflexivity.
  Qed.

  Lemma cbc_dec_loop_scan k f n iv d : (n < f)%nat -> liv iv -> length d = (n * BS)%nat ->
    cbc_dec_loop K BS PN dbs f k iv d n =
    (fst (scan (f_cbc_d k) iv (cut BS n d)), concat (snd (scan (f_cbc_d k) iv (cut BS n d)))).
  Proof.
    apply (batch_generic (f_cbc_d k) (cbc_dec_batch K BS dbs k)
             (fun f iv d n => cbc_dec_loop K BS PN dbs f k iv d n)).
    - intros iv' b Hi Hb. exact Hb.
    - intros. apply cbc_dec_batch_scan; assumption.
    - reflexivity.
  Qed.
  Lemma cfb_dec_loop_scan k f n iv d : (n < f)%nat -> liv iv -> length d = (n * BS)%nat ->
    cfb_dec_loop K BS PN ebs f k iv d n =
    (fst (scan (f_cfb_d k) iv (cut BS n d)), concat (snd (scan (f_cfb_d k) iv (cut BS n d)))).
  Proof.
    apply (batch_generic (f_cfb_d k) (cfb_dec_batch K BS ebs k)
             (fun f iv d n => cfb_dec_loop K BS PN ebs f k iv d n)).
    - intros iv' b Hi Hb. exact Hb.
    - intros. apply cfb_dec_batch_scan; assumption.
    - reflexivity.
  Qed.

  (** *** CTR (for any length-preserving counter function) *)
  Section CTR.
    Variable inc : list Z -> list Z.
    Variable VI : list Z -> Prop.
    Hypothesis VI_len : forall c, VI c -> length c = BS.
    Hypothesis VI_inc : forall c, VI c -> VI (inc c).
    Definition f_ctr (k : K) (c p : list Z) := (inc c, xorl p (eb k c)).

    Lemma f_ctr_ok k iv b : anyk k -> VI iv -> length b = BS ->
      VI (fst (f_ctr k iv b)) /\ length (snd (f_ctr k iv b)) = BS.
    Proof. intros _ H1 H2; cbn; split; auto. apply xorl_len2; auto. Qed.

    Lemma gen_ks_scan k n : forall c d, VI c -> (n * BS <= length d)%nat ->
      VI (fst (gen_ks K ebs inc k c n)) /\
      fst (scan (f_ctr k) c (cut BS n d)) = fst (gen_ks K ebs inc k c n) /\
      concat (snd (scan (f_ctr k) c (cut BS n d))) = xorl (firstn (n * BS) d) (snd (gen_ks K ebs inc k c n)).
    Proof.
      assert (Hc : forall n c, VI c -> VI (snd (counters inc c n)) /\
                 exists cs, fst (counters inc c n) = concat cs /\ blocksz BS cs /\ length cs = n).
      { clear n. induction n as [|n IH]; intros c Hv.
        - cbn. split; auto. exists []. repeat constructor.
        - cbn. destruct (IH (inc c) (VI_inc _ Hv)) as [H1 (cs & H2 & H3 & H4)].
          destruct (counters inc (inc c) n) as [o c']. cbn in *. split; auto.
          exists (c :: cs). cbn. rewrite H2, H4. repeat split; auto. constructor; auto. }
      assert (Hs : forall n c d, VI c -> (n * BS <= length d)%nat ->
        fst (scan (f_ctr k) c (cut BS n d)) = snd (counters inc c n) /\
        forall cs, fst (counters inc c n) = concat cs -> blocksz BS cs -> length cs = n ->
        concat (snd (scan (f_ctr k) c (cut BS n d))) = xorl (firstn (n * BS) d) (concat (map (eb k) cs))).
      { clear n. induction n as [|n IH]; intros c d Hv Hd.
        - cbn. split; auto. 
        - cbn [cut scan]. unfold f_ctr at 1 3.
          destruct (IH (inc c) (skipn BS d) (VI_inc _ Hv)) as [H1 H2].
          { rewrite skipn_length. cbn in Hd. lia. }
          destruct (scan (f_ctr k) (inc c) (cut BS n (skipn BS d))) as [s o]. cbn [fst snd counters] in *.
          destruct (counters inc (inc c) n) as [o' c'] eqn:Ec. cbn [fst snd] in *. split; auto.
          intros cs E Hcs Lcs. destruct cs as [|c0 cs]; [discriminate|].
          inversion Hcs as [|? ? Hc0 Hcs']; subst.
          cbn [concat] in E.
          assert (E1 : c = c0 /\ o' = concat cs).
          { pose proof (VI_len _ Hv) as Lc.
            assert (Q : firstn BS (c ++ o') = firstn BS (c0 ++ concat cs)) by (rewrite E; reflexivity).
            rewrite !firstn_app, Lc, Hc0, Nat.sub_diag in Q. cbn [firstn] in Q.
            rewrite !app_nil_r, !firstn_all2 in Q by lia. split; auto.
            subst c0. apply app_inv_head in E. exact E. }
          destruct E1 as [<- E1]. cbn [map concat].
          rewrite (H2 cs E1 Hcs' ltac:(cbn in Lcs; lia)).
          cbn [Nat.mul]. rewrite <- (firstn_skipn BS (firstn (BS + n * BS) d)).
          rewrite firstn_firstn, Nat.min_l by lia.
          rewrite xorl_app by (rewrite firstn_length, elen by auto; lia).
          do 2 f_equal. rewrite skipn_firstn_comm. f_equal. lia. }
      intros c d Hv Hd. destruct (Hc n c Hv) as [H1 (cs & H2 & H3 & H4)].
      destruct (Hs n c d Hv Hd) as [H5 H6]. unfold gen_ks.
      specialize (H6 cs H2 H3 H4).
      destruct (counters inc c n) as [o c']. cbn [fst snd] in *.
      repeat split; auto. rewrite H6. f_equal.
      assert (Lo : length o = (n * BS)%nat) by (rewrite H2, (concat_length_bs BS) by assumption; congruence).
      rewrite (co_ebs CO) by assumption. rewrite H2, <- H4, cut_of_concat by assumption. reflexivity.
    Qed.

    Lemma ctr_loop_scan k : forall f n iv d, (n < f)%nat -> VI iv -> length d = (n * BS)%nat ->
      ctr_loop K BS PN ebs inc f k iv d n =
      (fst (scan (f_ctr k) iv (cut BS n d)), concat (snd (scan (f_ctr k) iv (cut BS n d)))).
    Proof.
      induction f as [|f IH]; intros n iv d Hf Hi Hd; [lia|]. cbn [ctr_loop].
      destruct (Nat.leb_spec PN n) as [H|H].
      - assert (HPN : (PN * BS <= length d)%nat) by (rewrite Hd; apply Nat.mul_le_mono_r; lia).
        destruct (gen_ks_scan k PN iv d Hi HPN) as (G1 & G2 & G3).
        destruct (gen_ks K ebs inc k iv PN) as [c1 ks]. cbn [fst snd] in *.
        replace n with (PN + (n - PN))%nat at 2 3 by lia. rewrite cut_app, scan_app.
        destruct (scan (f_ctr k) iv (cut BS PN d)) as [s1 o1]. cbn [fst snd] in *. subst s1.
        rewrite IH by (auto; try lia; rewrite skipn_length, Hd, Nat.mul_sub_distr_r; lia).
        destruct (scan (f_ctr k) c1 (cut BS (n - PN) (skipn (PN * BS) d))) as [s2 o2]. cbn [fst snd].
        rewrite concat_app, G3. reflexivity.
      - destruct (Nat.ltb_spec 0 n) as [H0|H0].
        + destruct (gen_ks_scan k n iv d Hi ltac:(lia)) as (G1 & G2 & G3).
          destruct (gen_ks K ebs inc k iv n) as [c1 ks]. cbn [fst snd] in *.
          rewrite G2, G3. reflexivity.
        + replace n with 0%nat by lia. reflexivity.
    Qed.
  End CTR.
End CIPHER.

(** Streaming invariant of BlockCipherMode<BS>: whatever the sequence of update calls, the output is
    the one-shot output of the derived class. *)
From Verif Require Import Base BaseFacts ModelModes.

Lemma read_ok (l : list Z) off n : (off + n <= length l)%nat -> read l off n = Ok (slice l off n).
Proof. intros H. unfold read. destruct (Nat.leb_spec (off + n) (length l)); [reflexivity|lia]. Qed.
Lemma write_ok (a : list Z) off d : (off + length d <= length a)%nat ->
  write a off d = Ok (firstn off a ++ d ++ skipn (off + length d) a).
Proof. intros H. unfold write. destruct (Nat.leb_spec (off + length d) (length a)); [reflexivity|lia]. Qed.

Section S.
  Variable M : Type.
  Variable BS : nat.
  Variable ub : M -> list Z -> nat -> res (M * list Z).
  Variable fb : M -> list Z -> res (M * list Z).
  Variable V : M -> Prop.
  Hypothesis BSpos : (0 < BS)%nat.
  Hypothesis ub_len : forall m d n m' o, V m -> length d = (n * BS)%nat ->
    ub m d n = Ok (m', o) -> V m' /\ length o = (n * BS)%nat.
  Hypothesis ub_app : forall m d1 n1 d2 n2, V m ->
    length d1 = (n1 * BS)%nat -> length d2 = (n2 * BS)%nat ->
    ub m (d1 ++ d2) (n1 + n2) =
    bind (ub m d1 n1) (fun '(m1, o1) => bind (ub m1 d2 n2) (fun '(m2, o2) => Ok (m2, o1 ++ o2))).
  Hypothesis ub_noUB : forall m d n, V m -> length d = (n * BS)%nat -> ub m d n <> UB.
  Hypothesis ub_0 : forall m, V m -> ub m [] 0 = Ok (m, []).
  Hypothesis fb_len : forall m d m' o, V m -> (length d < BS)%nat ->
    fb m d = Ok (m', o) -> length o = length d.

  (** One-shot result on a whole message. *)
  Definition oneshot (m0 : M) (x : list Z) : res (list Z) :=
    let n := (length x / BS)%nat in
    do (m1, o1) <- ub m0 (firstn (n * BS) x) n;
    do (_, o2) <- fb m1 (skipn (n * BS) x);
    Ok (o1 ++ o2).

  (** The same with the state the object is left in. *)
  Definition oneshot_st (m0 : M) (x : list Z) : res (M * list Z) :=
    let n := (length x / BS)%nat in
    do (m1, o1) <- ub m0 (firstn (n * BS) x) n;
    do (m2, o2) <- fb m1 (skipn (n * BS) x);
    Ok (m2, o1 ++ o2).
  Lemma oneshot_of_st m0 x : oneshot m0 x = bind (oneshot_st m0 x) (fun '(_, o) => Ok o).
  Proof.
    unfold oneshot, oneshot_st. destruct (ub m0 _ _) as [[m1 o1]| |]; cbn [bind]; try reflexivity.
    destruct (fb m1 _) as [[m2 o2]| |]; reflexivity.
  Qed.

  Definition repr (m0 : M) (s : mstate M) (x o : list Z) : Prop :=
    exists x0 n0 t, x = x0 ++ t /\ length x0 = (n0 * BS)%nat /\ (length t < BS)%nat /\
      ub m0 x0 n0 = Ok (mctx s, o) /\ msize s = length t /\ firstn (length t) (mbuf s) = t /\
      length (mbuf s) = BS.

  Definition fails (m0 : M) (x : list Z) : Prop :=
    exists x0 n0 t, x = x0 ++ t /\ length x0 = (n0 * BS)%nat /\ ub m0 x0 n0 = Throw.

  Lemma m_tail_char b m outb pos inp :
    let n := (length inp / BS)%nat in
    V m -> length b = BS -> (pos + n * BS <= length outb)%nat ->
    m_tail M BS ub b m outb pos inp =
    bind (ub m (firstn (n * BS) inp) n) (fun '(m', o) =>
      Ok (mkB (skipn (n * BS) inp ++ skipn (length inp - n * BS) b) (length inp - n * BS) m',
          firstn pos outb ++ o ++ skipn (pos + n * BS) outb, (pos + n * BS)%nat)).
  Proof.
    intros n Vm Lb Lo. unfold m_tail. fold n.
    assert (Hn : (n * BS <= length inp)%nat) by (unfold n; pose proof (Nat.mul_div_le (length inp) BS); lia).
    assert (Hr : (length inp - n * BS < BS)%nat)
      by (unfold n; pose proof (Nat.div_mod (length inp) BS); pose proof (Nat.mod_upper_bound (length inp) BS); lia).
    rewrite read_ok by lia. cbn [bind]. unfold slice. cbn [skipn].
    destruct (ub m (firstn (n * BS) inp) n) as [[m' o]| |] eqn:E; cbn [bind]; try reflexivity.
    assert (Ld : length (firstn (n * BS) inp) = (n * BS)%nat) by (rewrite firstn_length; lia).
    destruct (ub_len _ _ _ _ _ Vm Ld E) as [_ Lo'].
    rewrite write_ok by lia. cbn [bind].
    rewrite write_ok by (rewrite skipn_length; lia). cbn [bind].
    rewrite Lo', skipn_length. reflexivity.
  Qed.

  Lemma ub_V m0 x0 n0 m o : V m0 -> length x0 = (n0 * BS)%nat -> ub m0 x0 n0 = Ok (m, o) -> V m.
  Proof. intros H1 H2 H3. exact (proj1 (ub_len _ _ _ _ _ H1 H2 H3)). Qed.

  Lemma div_rest (inp : list Z) : let n := (length inp / BS)%nat in
    (n * BS <= length inp)%nat /\ (length inp - n * BS < BS)%nat.
  Proof.
    intros n; unfold n. pose proof (Nat.div_mod (length inp) BS).
    pose proof (Nat.mod_upper_bound (length inp) BS). lia.
  Qed.

  Lemma firstn_pre (A : Type) (p o r : list A) k : (length p + length o)%nat = k ->
    firstn k (p ++ o ++ r) = p ++ o.
  Proof.
    intros <-. rewrite app_assoc, firstn_app, <- app_length, Nat.sub_diag, firstn_all. cbn.
    apply app_nil_r.
  Qed.

  Lemma m_tail_repr m0 x0 n0 o0 b m outb pos inp x1 n1 o1 :
    V m0 -> length x0 = (n0 * BS)%nat -> ub m0 x0 n0 = Ok (m, o0) -> length b = BS ->
    (pos + length inp <= length outb)%nat -> firstn pos outb = o1 -> length o1 = pos ->
    (* o1 already part of o0 *)
    o0 = x1 ++ o1 -> n1 = n0 ->
    match m_tail M BS ub b m outb pos inp with
    | Ok (s', ob, outl) => exists o2, repr m0 s' (x0 ++ inp) (x1 ++ o2) /\ firstn outl ob = o2 /\
        length ob = length outb /\ length o2 = outl
    | Throw => fails m0 (x0 ++ inp)
    | UB => False
    end.
  Proof.
    intros V0 L0 E0 Lb Lc Ho1 Lo1 Eo _.
    destruct (div_rest inp) as [Hn Hr]. set (n := (length inp / BS)%nat) in *.
    assert (Vm := ub_V _ _ _ _ _ V0 L0 E0).
    rewrite m_tail_char by (fold n; auto; lia). fold n.
    assert (Happ : ub m0 (x0 ++ firstn (n * BS) inp) (n0 + n) =
       bind (ub m (firstn (n * BS) inp) n) (fun '(m2, o2) => Ok (m2, o0 ++ o2))).
    { rewrite ub_app by (auto; rewrite firstn_length; lia). rewrite E0. reflexivity. }
    destruct (ub m (firstn (n * BS) inp) n) as [[m' o]| |] eqn:E; cbn [bind] in *.
    - assert (Ld : length (firstn (n * BS) inp) = (n * BS)%nat) by (rewrite firstn_length; lia).
      destruct (ub_len _ _ _ _ _ Vm Ld E) as [Vm' Lo].
      exists (o1 ++ o). split; [|split; [|split]].
      + exists (x0 ++ firstn (n * BS) inp), (n0 + n)%nat, (skipn (n * BS) inp).
        rewrite skipn_length, app_length, firstn_length. cbn [mctx msize mbuf].
        repeat split; try lia.
        * rewrite <- app_assoc, firstn_skipn. reflexivity.
        * rewrite Happ, Eo, app_assoc. reflexivity.
        * rewrite firstn_app, skipn_length, Nat.sub_diag. cbn [firstn]. rewrite app_nil_r.
          apply firstn_all2. rewrite skipn_length. lia.
        * rewrite app_length, !skipn_length. lia.
      + rewrite Ho1. apply firstn_pre. rewrite Lo1, Lo. reflexivity.
      + rewrite Ho1, !app_length, skipn_length. lia.
      + rewrite app_length. lia.
    - exists (x0 ++ firstn (n * BS) inp), (n0 + n)%nat, (skipn (n * BS) inp).
      repeat split.
      + rewrite <- app_assoc, firstn_skipn. reflexivity.
      + rewrite app_length, firstn_length. lia.
      + exact Happ.
    - assert (Ld : length (firstn (n * BS) inp) = (n * BS)%nat) by (rewrite firstn_length; lia).
      exact (ub_noUB _ _ _ Vm Ld E).
  Qed.

  Lemma m_update_repr m0 s x o outb inp : V m0 -> repr m0 s x o ->
    (length inp + BS - 1 <= length outb)%nat ->
    match m_update M BS ub s outb 0 inp with
    | Ok (s', ob, outl) => exists o2, repr m0 s' (x ++ inp) (o ++ o2) /\ firstn outl ob = o2 /\
        length ob = length outb /\ length o2 = outl
    | Throw => fails m0 (x ++ inp)
    | UB => False
    end.
  Proof.
    intros V0 R Lc. unfold m_update.
    destruct (Nat.eqb_spec (length inp) 0) as [Z0|NZ].
    { exists []. destruct inp; [|discriminate]. rewrite !app_nil_r. repeat split; auto. }
    destruct R as (x0 & n0 & t & -> & L0 & Lt & E0 & Hs & Ht & Lb).
    destruct (Nat.eqb_spec (msize s) 0) as [S0|S1].
    - destruct t; [|cbn in Hs; lia]. rewrite app_nil_r.
      generalize (m_tail_repr m0 x0 n0 o (mbuf s) (mctx s) outb 0 inp o n0 [] V0 L0 E0 Lb
                    ltac:(lia) eq_refl eq_refl (eq_sym (app_nil_r o)) eq_refl).
      auto.
    - set (size := Nat.min (BS - msize s) (length inp)).
      rewrite write_ok by (rewrite firstn_length; unfold size; lia). cbn [bind].
      set (b := firstn (msize s) (mbuf s) ++ firstn size inp ++
                skipn (msize s + length (firstn size inp)) (mbuf s)).
      assert (Lsz : length (firstn size inp) = size) by (rewrite firstn_length; unfold size; lia).
      assert (Lb' : length b = BS).
      { unfold b. rewrite !app_length, firstn_length, skipn_length, Lsz. unfold size; lia. }
      assert (Fb : firstn (msize s + size) b = t ++ firstn size inp).
      { unfold b. rewrite Hs, Ht. apply firstn_pre. lia. }
      destruct (Nat.eqb_spec (msize s + size) BS) as [F|F].
      + rewrite read_ok by lia. unfold slice. cbn [skipn bind].
        assert (Fb' : firstn BS b = t ++ firstn size inp) by (rewrite <- Fb, F; reflexivity).
        rewrite Fb'.
        assert (Lt1 : length (t ++ firstn size inp) = (1 * BS)%nat) by (rewrite app_length; lia).
        assert (Vm := ub_V _ _ _ _ _ V0 L0 E0).
        assert (Happ : ub m0 (x0 ++ t ++ firstn size inp) (n0 + 1) =
          bind (ub (mctx s) (t ++ firstn size inp) 1) (fun '(m2, o2) => Ok (m2, o ++ o2))).
        { rewrite ub_app by auto. rewrite E0. reflexivity. }
        assert (Ex : (x0 ++ t) ++ inp = (x0 ++ t ++ firstn size inp) ++ skipn size inp).
        { rewrite <- !app_assoc, firstn_skipn. reflexivity. }
        destruct (ub (mctx s) (t ++ firstn size inp) 1) as [[m' o']| |] eqn:E; cbn [bind] in *.
        * destruct (ub_len _ _ _ _ _ Vm Lt1 E) as [Vm' Lo'].
          rewrite write_ok by lia. cbn [bind firstn app Nat.eqb].
          rewrite Nat.add_0_l.
          generalize (m_tail_repr m0 (x0 ++ t ++ firstn size inp) (n0 + 1) (o ++ o') b m'
                        (o' ++ skipn (length o') outb) BS (skipn size inp) o (n0 + 1) o' V0
                        ltac:(rewrite app_length; lia) Happ Lb').
          rewrite <- Ex. intros G.
          assert (length (o' ++ skipn (length o') outb) = length outb) as Lob
            by (rewrite app_length, skipn_length; lia).
          rewrite Lob in G. apply G; auto; try lia.
          -- rewrite skipn_length. lia.
          -- rewrite firstn_app, firstn_all2 by lia.
             replace (BS - length o')%nat with 0%nat by lia. apply app_nil_r.
        * exists (x0 ++ t ++ firstn size inp), (n0 + 1)%nat, (skipn size inp).
          repeat split; auto. rewrite app_length; lia.
        * exact (ub_noUB _ _ _ Vm Lt1 E).
      + cbn [bind].
        destruct (Nat.eqb_spec (msize s + size) 0); [lia|].
        assert (Hsz : size = length inp) by (unfold size in *; lia).
        exists []. rewrite app_nil_r. repeat split; auto.
        exists x0, n0, (t ++ inp). rewrite app_length. cbn [mctx msize mbuf].
        rewrite <- app_assoc. repeat split; auto; try lia.
        rewrite Hsz, firstn_all in Fb. rewrite Hs in Fb. exact Fb.
  Qed.

  Lemma fails_app m0 x y : V m0 -> fails m0 x -> fails m0 (x ++ y).
  Proof.
    intros _ (x0 & n0 & t & -> & L & E). exists x0, n0, (t ++ y). rewrite app_assoc. auto.
  Qed.

  Definition inputs (calls : list (list Z * list Z)) : list Z := concat (map snd calls).
  Definition roomy (c : list Z * list Z) : Prop := (length (snd c) + BS - 1 <= length (fst c))%nat.

  Lemma m_updates_repr m0 calls : V m0 -> Forall roomy calls -> forall s x o, repr m0 s x o ->
    match m_updates M BS ub s calls with
    | Ok (s', o2) => repr m0 s' (x ++ inputs calls) (o ++ o2)
    | Throw => fails m0 (x ++ inputs calls)
    | UB => False
    end.
  Proof.
    intros V0. induction 1 as [|[outb inp] r Hc Hr IH]; intros s x o R.
    - cbn. rewrite !app_nil_r. exact R.
    - cbn [m_updates]. pose proof (m_update_repr m0 s x o outb inp V0 R Hc) as U.
      change (inputs ((outb, inp) :: r)) with (inp ++ inputs r).
      destruct (m_update M BS ub s outb 0 inp) as [[[s' ob] outl]| |]; cbn [bind].
      + destruct U as (o2 & R' & E & _ & _). specialize (IH _ _ _ R').
        destruct (m_updates M BS ub s' r) as [[s2 o3]| |]; cbn [bind].
        * rewrite <- !app_assoc in IH. rewrite E. exact IH.
        * rewrite <- app_assoc in IH. exact IH.
        * exact IH.
      + rewrite app_assoc. apply fails_app; auto.
      + exact U.
  Qed.

  Lemma repr_decomp (x0 : list Z) n0 (t : list Z) : length x0 = (n0 * BS)%nat -> (length t < BS)%nat ->
    (length (x0 ++ t) / BS = n0)%nat /\ firstn (n0 * BS) (x0 ++ t) = x0 /\
    skipn (n0 * BS) (x0 ++ t) = t.
  Proof.
    intros L Lt. repeat split.
    - rewrite app_length, L, Nat.add_comm, Nat.div_add by lia. rewrite Nat.div_small by lia. lia.
    - rewrite firstn_app, L, Nat.sub_diag, <- L, firstn_all. apply app_nil_r.
    - rewrite skipn_app, L, Nat.sub_diag, <- L, skipn_all. reflexivity.
  Qed.

  Lemma fails_oneshot m0 x : V m0 -> fails m0 x -> oneshot_st m0 x = Throw.
  Proof.
    intros V0 (x0 & n0 & t & -> & L & E). unfold oneshot_st.
    destruct (div_rest t) as [Hn Hr]. set (k := (length t / BS)%nat) in *.
    assert (Ex : x0 ++ t = (x0 ++ firstn (k * BS) t) ++ skipn (k * BS) t)
      by (rewrite <- app_assoc, firstn_skipn; reflexivity).
    assert (L1 : length (x0 ++ firstn (k * BS) t) = ((n0 + k) * BS)%nat)
      by (rewrite app_length, firstn_length; lia).
    assert (L2 : (length (skipn (k * BS) t) < BS)%nat) by (rewrite skipn_length; lia).
    destruct (repr_decomp _ _ _ L1 L2) as (D1 & D2 & D3). rewrite Ex, D1, D2.
    rewrite ub_app by (auto; rewrite firstn_length; lia). rewrite E. reflexivity.
  Qed.

  (** The theorem: any well-provisioned sequence of calls yields the one-shot result. *)
  Lemma m_run_oneshot_st m0 junk calls lastc : V m0 -> length junk = BS ->
    Forall roomy (calls ++ [lastc]) ->
    match m_run M BS ub fb (m_new M junk m0) calls lastc with
    | Ok (s, o) => oneshot_st m0 (inputs (calls ++ [lastc])) = Ok (mctx s, o)
    | Throw => oneshot_st m0 (inputs (calls ++ [lastc])) = Throw
    | UB => oneshot_st m0 (inputs (calls ++ [lastc])) = UB
    end.
  Proof.
    intros V0 Lj Hr. apply Forall_app in Hr. destruct Hr as [Hr Hl]. inversion_clear Hl.
    assert (Ei : inputs (calls ++ [lastc]) = inputs calls ++ snd lastc).
    { unfold inputs. rewrite map_app, concat_app. cbn. rewrite app_nil_r. reflexivity. }
    rewrite Ei.
    assert (R0 : repr m0 (m_new M junk m0) [] []).
    { exists [], 0%nat, []. cbn. repeat split; auto. }
    unfold m_run. pose proof (m_updates_repr m0 calls V0 Hr _ _ _ R0) as U.
    destruct (m_updates M BS ub (m_new M junk m0) calls) as [[s o1]| |]; cbn [bind app] in *.
    2: { apply fails_oneshot; [assumption|]. apply fails_app; assumption. }
    2: { contradiction. }
    unfold m_final.
    pose proof (m_update_repr m0 s (inputs calls) o1 (fst lastc) (snd lastc) V0 U H) as W.
    destruct (m_update M BS ub s (fst lastc) 0 (snd lastc)) as [[[s' ob] outl]| |]; cbn [bind].
    2: { apply fails_oneshot; assumption. }
    2: { contradiction. }
    destruct W as (o2 & (x0 & n0 & t & Ex & L0 & Lt & E0 & Hs & Ht & Lb) & Eo & Lob & Lo2).
    rewrite Ex. unfold oneshot_st.
    destruct (repr_decomp _ _ _ L0 Lt) as (D1 & D2 & D3). rewrite D1, D2, D3, E0. cbn [bind].
    rewrite Hs, Ht.
    destruct (fb (mctx s') t) as [[m3 o3]| |] eqn:E; cbn [bind]; try reflexivity.
    assert (Vm := ub_V _ _ _ _ _ V0 L0 E0).
    assert (Lo3 := fb_len _ _ _ _ Vm Lt E).
    (* room for the final bytes *)
    assert (Lin : (length o2 + length t <= length (snd lastc) + BS - 1)%nat).
    { destruct U as (y0 & k0 & u & Ey & Ly & Lu & Ey0 & _).
      destruct (ub_len _ _ _ _ _ V0 Ly Ey0) as [_ Lo1].
      destruct (ub_len _ _ _ _ _ V0 L0 E0) as [_ Lo12]. rewrite app_length in Lo12.
      assert (length (inputs calls ++ snd lastc) = length (x0 ++ t)) by (rewrite Ex; reflexivity).
      rewrite Ey, !app_length in H1. lia. }
    unfold roomy in H.
    rewrite write_ok by lia. cbn [bind mctx]. apply (f_equal Ok). apply f_equal. rewrite Eo.
    rewrite <- app_assoc. f_equal. symmetry. apply firstn_pre. lia.
  Qed.
  Lemma m_run_oneshot m0 junk calls lastc : V m0 -> length junk = BS ->
    Forall roomy (calls ++ [lastc]) ->
    match m_run M BS ub fb (m_new M junk m0) calls lastc with
    | Ok (_, o) => oneshot m0 (inputs (calls ++ [lastc])) = Ok o
    | Throw => oneshot m0 (inputs (calls ++ [lastc])) = Throw
    | UB => oneshot m0 (inputs (calls ++ [lastc])) = UB
    end.
  Proof.
    intros V0 Lj Hr. pose proof (m_run_oneshot_st m0 junk calls lastc V0 Lj Hr) as H.
    rewrite oneshot_of_st. destruct (m_run M BS ub fb (m_new M junk m0) calls lastc) as [[s o]| |]; rewrite H; reflexivity.
  Qed.

  (** Output size: *outl never exceeds what was fed so far, and one call never writes past
      inl + BS - 1 bytes (no UB above). *)
  Lemma m_update_outl m0 s x o outb inp s' ob outl : V m0 -> repr m0 s x o ->
    (length inp + BS - 1 <= length outb)%nat ->
    m_update M BS ub s outb 0 inp = Ok (s', ob, outl) ->
    outl = ((length x + length inp) / BS * BS - length x / BS * BS)%nat /\ length ob = length outb.
  Proof.
    intros V0 R Lc E. pose proof (m_update_repr m0 s x o outb inp V0 R Lc) as U. rewrite E in U.
    destruct U as (o2 & (x0 & n0 & t & Ex & L0 & Lt & E0 & _) & Eo & Lob & Lo2).
    destruct R as (y0 & k0 & u & Ey & Ly & Lu & Ey0 & _).
    destruct (ub_len _ _ _ _ _ V0 Ly Ey0) as [_ Lo1].
    destruct (ub_len _ _ _ _ _ V0 L0 E0) as [_ Lo12]. rewrite app_length in Lo12.
    split; [|assumption].
    destruct (repr_decomp _ _ _ Ly Lu) as (D1 & _ & _).
    destruct (repr_decomp _ _ _ L0 Lt) as (D1' & _ & _).
    rewrite <- Ex, app_length in D1'. rewrite D1', Ey, D1. lia.
  Qed.
End S.

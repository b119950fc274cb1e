(** In-place sessions compute the same as sessions with separate buffers. *)
From Verif Require Import Base BaseFacts ModelEndian ModelModes ModelCipher ModelMemxor ModelInplace
  ProofModeStream ProofModes.

Lemma slice_mid (a b c : list Z) n : n = length b -> slice (a ++ b ++ c) (length a) n = b.
Proof.
  intros ->. unfold slice. rewrite skipn_app, skipn_all, Nat.sub_diag. cbn [skipn app].
  rewrite firstn_app, firstn_all, Nat.sub_diag. cbn [firstn]. apply app_nil_r.
Qed.
Lemma read_mid (a b c : list Z) off n : off = length a -> n = length b -> read (a ++ b ++ c) off n = Ok b.
Proof. intros -> ->. rewrite read_ok by (rewrite !app_length; lia). rewrite slice_mid; reflexivity. Qed.
Lemma write_mid (a b c d : list Z) off : off = length a -> length d = length b ->
  write (a ++ b ++ c) off d = Ok (a ++ d ++ c).
Proof.
  intros -> L. rewrite write_ok by (rewrite !app_length; lia). f_equal. f_equal; [|f_equal].
  - rewrite firstn_app, firstn_all, Nat.sub_diag. cbn [firstn]. apply app_nil_r.
  - rewrite L. rewrite app_assoc, skipn_app, skipn_all2 by (rewrite app_length; lia).
    rewrite app_length, Nat.sub_diag. reflexivity.
Qed.
Lemma split_at (n : nat) (d : list Z) : (n <= length d)%nat -> exists a b, d = a ++ b /\ length a = n /\ length b = (length d - n)%nat.
Proof.
  intros H. exists (firstn n d), (skipn n d). rewrite firstn_skipn, firstn_length, skipn_length. repeat split; lia.
Qed.
Lemma firstn_exact (A : Type) (a b : list A) n : n = length a -> firstn n (a ++ b) = a.
Proof. intros ->. rewrite firstn_app, firstn_all, Nat.sub_diag. cbn. apply app_nil_r. Qed.
Lemma skipn_exact' (A : Type) (a b : list A) n : n = length a -> skipn n (a ++ b) = b.
Proof. intros ->. rewrite skipn_app, skipn_all, Nat.sub_diag. reflexivity. Qed.

(** ** xor_into in place *)
Lemma xor_loop_ip w : (0 < w)%nat -> forall fuel pre d l post size, length d = size -> length l = size ->
  exists pre' d' l', xor_loop fuel w (pre ++ d ++ post) (length pre) (length pre) l size =
      Ok (pre' ++ d' ++ post, length pre', length pre', l', length d') /\
    length l' = length d' /\ pre' ++ xorl d' l' = pre ++ xorl d l /\
    (w = 1%nat -> (size <= fuel)%nat -> d' = []).
Proof.
  intros Hw. induction fuel as [|f IH]; intros pre d l post size Ld Ll; cbn [xor_loop].
  - exists pre, d, l. rewrite Ld. repeat split; auto.
    intros _ H. destruct d; [reflexivity|cbn in Ld; lia].
  - destruct (Nat.leb_spec w size) as [H|H].
    + destruct (split_at w d) as (a & b & -> & La & Lb); [lia|].
      destruct (split_at w l) as (la & lb & -> & Lla & Llb); [lia|].
      rewrite app_length in *.
      rewrite <- (app_assoc a b post).
      rewrite read_mid by auto. cbn [bind].
      assert (R : read (la ++ lb) 0 w = Ok la).
      { rewrite read_ok by (rewrite app_length; lia). unfold slice. cbn [skipn].
        rewrite firstn_exact by auto. reflexivity. }
      rewrite R. cbn [bind]. assert (Lx : length (xorl a la) = length a) by (rewrite xorl_length; lia).
      rewrite write_mid by auto. cbn [bind].
      rewrite skipn_exact' by auto.
      destruct (IH (pre ++ xorl a la) b lb post (size - w)%nat) as (p' & d' & l' & E & L' & X & N); try lia.
      exists p', d', l'. split; [|split; [|split]]; auto.
      * rewrite <- E. rewrite app_length, Lx, La, <- app_assoc. reflexivity.
      * rewrite X, xorl_app by lia. rewrite <- app_assoc. reflexivity.
      * intros W F. apply N; auto. lia.
    + exists pre, d, l. rewrite Ld. repeat split; auto.
      intros -> _. destruct d; [reflexivity|cbn in Ld; lia].
Qed.

(** The builds of memxor: strides positive, the last one 1. *)
Definition strides_ok (ws : list nat) : Prop := exists ws0, ws = ws0 ++ [1%nat] /\ Forall (fun w => (0 < w)%nat) ws0.
Lemma build_strides ws : memxor_build ws -> strides_ok ws.
Proof.
  intros H. cbn [memxor_build In] in H.
  destruct H as [<-|[<-|[<-|[<-|[]]]]];
   [exists [8;4;2]%nat | exists [128;64;32;16;8;4;2]%nat | exists [512;256;128;64;32;8;4;2]%nat
   | exists [512;256;128;64;32;16;8;4;2]%nat];
   (split; [reflexivity|]); repeat constructor.
Qed.

Lemma xor_into_ip ws : strides_ok ws -> forall pre d l post size, length d = size -> length l = size ->
  xor_into ws (pre ++ d ++ post) (length pre) (length pre) l size = Ok (pre ++ xorl d l ++ post).
Proof.
  intros (ws0 & -> & F). induction F as [|w ws0 Hw _ IH]; intros pre d l post size Ld Ll; cbn [app xor_into].
  - destruct (xor_loop_ip 1 ltac:(lia) size pre d l post size Ld Ll) as (p & d' & l' & E & L' & X & N).
    rewrite E. cbn [bind]. rewrite (N eq_refl (le_n _)) in *. cbn [length] in L'.
    destruct l'; [|discriminate]. cbn in X. rewrite app_nil_r in X. cbn [app]. rewrite X, app_assoc. reflexivity.
  - destruct (xor_loop_ip w Hw size pre d l post size Ld Ll) as (p & d' & l' & E & L' & X & N).
    rewrite E. cbn [bind]. rewrite (IH p d' l' post (length d')) by auto.
    rewrite app_assoc, X, app_assoc. reflexivity.
Qed.

(** ** Sessions *)
Section S.
  Variable M : Type.
  Variable BS : nat.
  Variable ub : M -> list Z -> nat -> res (M * list Z).
  Variable ubm : M -> list Z -> nat -> nat -> nat -> res (M * list Z).
  Variable fb : M -> list Z -> res (M * list Z).
  Variable V : M -> Prop.
  Hypothesis BSpos : (0 < BS)%nat.
  (** update_blocks in place does the same as with separate buffers *)
  Definition inplace_ok : Prop := forall s d n, V s -> length d = (n * BS)%nat ->
    match ub s d n with
    | Ok (s', o) => V s' /\ length o = (n * BS)%nat /\
        forall pre post, ubm s (pre ++ d ++ post) (length pre) (length pre) n = Ok (s', pre ++ o ++ post)
    | Throw => forall pre post, ubm s (pre ++ d ++ post) (length pre) (length pre) n = Throw
    | UB => True
    end.
  Hypothesis IP : inplace_ok.
  Hypothesis fb_len : forall m d m' o, V m -> (length d < BS)%nat -> fb m d = Ok (m', o) -> length o = length d.

  Definition simul (v : res (mstate M * list Z * nat)) (outb : list Z) (pos : nat)
    (i : res (mstate M * list Z * nat)) (pre post : list Z) (tot : nat) : Prop :=
    match v with
    | Ok (s', ob, l) => exists o g, V (mctx s') /\ (msize s' < BS)%nat /\ (msize s' <= length (mbuf s'))%nat /\ length g = msize s' /\
        l = (pos + length o)%nat /\ (length o + length g = tot)%nat /\ firstn l ob = firstn pos outb ++ o /\ i = Ok (s', pre ++ o ++ g ++ post, l)
    | Throw => i = Throw
    | UB => True
    end.

  Lemma write_inv (a : list Z) off d a' : write a off d = Ok a' ->
    (off + length d <= length a)%nat /\ a' = firstn off a ++ d ++ skipn (off + length d) a.
  Proof.
    unfold write. destruct (Nat.leb_spec (off + length d) (length a)); intros E; [|discriminate].
    injection E as <-. auto.
  Qed.

  Lemma tail_sim b c outb pos x pre post : V c -> (pos <= length outb)%nat ->
    simul (m_tail M BS ub b c outb pos x) outb pos
      (im_tail M BS ubm b c (pre ++ x ++ post) pos (length pre) (length pre) (length x)) pre post (length x).
  Proof.
    intros Vc Lp. unfold m_tail, im_tail. set (n := (length x / BS)%nat).
    assert (Hn : (n * BS <= length x)%nat) by (unfold n; pose proof (Nat.mul_div_le (length x) BS); lia).
    assert (Hr : (length x - n * BS < BS)%nat).
    { unfold n. pose proof (Nat.div_mod (length x) BS). pose proof (Nat.mod_upper_bound (length x) BS). lia. }
    rewrite read_ok by lia. unfold slice. cbn [skipn bind].
    destruct (split_at (n * BS) x Hn) as (d & r & -> & Ld & Lr). clearbody n.
    rewrite firstn_exact, skipn_exact' by auto. rewrite <- (app_assoc d r post).
    pose proof (IP c d n Vc Ld) as H.
    destruct (ub c d n) as [[s' o]| |]; cbn [bind simul].
    - destruct H as (Vs & Lo & E). rewrite E. cbn [bind].
      replace (pre ++ o ++ r ++ post) with ((pre ++ o) ++ r ++ post) by (rewrite <- app_assoc; reflexivity).
      rewrite read_mid by (rewrite ?app_length in *; lia). cbn [bind].
      destruct (write outb pos o) as [ob| |] eqn:W1; cbn [bind]; [|unfold write in W1; destruct (_ <=? _)%nat in W1; discriminate|exact I].
      destruct (write b 0 r) as [b'| |] eqn:W2; cbn [bind]; [|unfold write in W2; destruct (_ <=? _)%nat in W2; discriminate|exact I].
      destruct (write_inv _ _ _ _ W1) as [_ ->]. destruct (write_inv _ _ _ _ W2) as [Lb ->].
      cbn [simul]. exists o, r. cbn [mctx msize]. split; [exact Vs|]. split; [exact Hr|].
      split; [cbn [mbuf msize firstn app]; rewrite ?app_length, ?skipn_length in *; lia|].
      split; [lia|]. split; [lia|]. split; [rewrite app_length; lia|]. split; [|rewrite <- app_assoc; reflexivity].
      rewrite app_assoc. apply firstn_exact. rewrite app_length, firstn_length. lia.
    - rewrite H. reflexivity.
    - exact I.
  Qed.

  Lemma update_sim s outb x g pre post : V (mctx s) -> (msize s < BS)%nat -> (msize s <= length (mbuf s))%nat -> length g = msize s ->
    simul (m_update M BS ub s outb 0 x) outb 0
      (im_update M BS ub ubm s (pre ++ g ++ x ++ post) 0 (length pre) (length pre + length g) (length x)) pre post (length g + length x).
  Proof.
    intros Vs Ls Lm Lg. unfold m_update, im_update.
    destruct (Nat.eqb_spec (length x) 0) as [E0|E0].
    - destruct x; [|discriminate]. cbn [simul]. exists [], g. cbn [length firstn app]. repeat split; auto; lia.
    - destruct (Nat.eqb_spec (msize s) 0) as [E1|E1].
      + destruct g; [|cbn in Lg; lia]. cbn [app length]. rewrite Nat.add_0_r.
        apply (tail_sim (mbuf s) (mctx s) outb 0 x pre post Vs). lia.
      + set (size := Nat.min (BS - msize s) (length x)).
        assert (Hs : (size <= length x)%nat) by (unfold size; lia).
        destruct (split_at size x Hs) as (x1 & x2 & Ex & L1 & L2).
        assert (HsBS : size = Nat.min (BS - msize s) (length x)) by reflexivity. clearbody size.
        subst x. rewrite firstn_exact, skipn_exact' by auto. rewrite app_length in *.
        replace (pre ++ g ++ (x1 ++ x2) ++ post) with ((pre ++ g) ++ x1 ++ (x2 ++ post)) by (rewrite <- !app_assoc; reflexivity).
        rewrite read_mid by (rewrite ?app_length; auto). cbn [bind].
        destruct (write (mbuf s) (msize s) x1) as [b| |] eqn:W; cbn [bind simul];
          [|unfold write in W; destruct (_ <=? _)%nat in W; discriminate|exact I].
        destruct (Nat.eqb_spec (msize s + size) BS) as [E2|E2].
        * destruct (read b 0 BS) as [d| |] eqn:R; cbn [bind simul];
            [|unfold read in R; destruct (_ <=? _)%nat in R; discriminate|exact I].
          assert (Ld : length d = (1 * BS)%nat).
          { unfold read in R. destruct (Nat.leb_spec (0 + BS) (length b)) as [Hb|]; [|discriminate].
            injection R as <-. unfold slice. rewrite firstn_length. cbn [skipn]. lia. }
          pose proof (IP (mctx s) d 1%nat Vs Ld) as H.
          destruct (ub (mctx s) d 1%nat) as [[s' o]| |]; cbn [bind simul]; [|reflexivity|exact I].
          destruct H as (Vs' & Lo & _).
          destruct (write outb 0 o) as [ob| |] eqn:W1; cbn [bind simul];
            [|unfold write in W1; destruct (_ <=? _)%nat in W1; discriminate|exact I].
          destruct (write_inv _ _ _ _ W1) as [Lob Eob].
          replace ((pre ++ g) ++ x1 ++ x2 ++ post) with (pre ++ (g ++ x1) ++ (x2 ++ post)) by (rewrite <- !app_assoc; reflexivity).
          rewrite write_mid by (rewrite ?app_length; lia). cbn [bind].
          replace (pre ++ o ++ x2 ++ post) with ((pre ++ o) ++ x2 ++ post) by (rewrite <- app_assoc; reflexivity).
          replace (length pre + BS)%nat with (length (pre ++ o)) by (rewrite app_length; lia).
          replace (length pre + length g + size)%nat with (length (pre ++ o)) by (rewrite app_length; lia).
          replace (size + length x2 - size)%nat with (length x2) by lia.
          cbn [Nat.eqb]. rewrite L1. replace (size + length x2 - size)%nat with (length x2) by lia.
          pose proof (tail_sim b s' ob BS x2 (pre ++ o) post Vs') as T.
          assert (Lob2 : (BS <= length ob)%nat) by (rewrite Eob; rewrite !app_length; lia).
          specialize (T Lob2). clear W1 Lob2.
          destruct (m_tail M BS ub b s' ob BS x2) as [[[s2 ob2] l]| |]; cbn [simul] in *; auto.
          destruct T as (o2 & g2 & T1 & T2 & T8 & T3 & T4 & T7 & T5 & T6).
          exists (o ++ o2), g2. split; [exact T1|]. split; [exact T2|]. split; [exact T8|]. split; [exact T3|].
          split; [rewrite app_length; lia|]. split; [rewrite app_length; lia|]. split.
          -- rewrite T5, Eob. cbn [firstn app]. rewrite firstn_exact by lia. reflexivity.
          -- rewrite T6. rewrite <- !app_assoc. reflexivity.
        * cbn [bind].
          destruct (Nat.eqb_spec (msize s + size) 0) as [E3|E3]; [exfalso; lia|].
          cbn [simul]. exists [], (g ++ x1).
          assert (x2 = []) as -> by (destruct x2; [reflexivity|cbn in *; lia]).
          cbn [mctx msize app length firstn]. rewrite app_length.
          destruct (write_inv _ _ _ _ W) as [Lb ->].
          split; [exact Vs|]. split; [lia|]. split; [cbn [mbuf]; rewrite !app_length, firstn_length, skipn_length; lia|].
          split; [lia|]. split; [reflexivity|]. split; [lia|]. split; [reflexivity|].
          rewrite <- !app_assoc. reflexivity.
  Qed.

  Lemma updates_sim calls : forall s g pre post, V (mctx s) -> (msize s < BS)%nat -> (msize s <= length (mbuf s))%nat -> length g = msize s ->
    match m_updates M BS ub s calls with
    | Ok (s', o) => exists g', V (mctx s') /\ (msize s' < BS)%nat /\ (msize s' <= length (mbuf s'))%nat /\ length g' = msize s' /\
        (length o + length g' = length g + length (concat (map snd calls)))%nat /\
        ip_updates M BS ub ubm s (pre ++ g ++ concat (map snd calls) ++ post) (length pre) (length pre + length g)
          (map (fun c => length (snd c)) calls) =
        Ok (s', pre ++ o ++ g' ++ post, (length pre + length o)%nat, (length pre + length o + length g')%nat)
    | Throw => ip_updates M BS ub ubm s (pre ++ g ++ concat (map snd calls) ++ post) (length pre) (length pre + length g)
          (map (fun c => length (snd c)) calls) = Throw
    | UB => True
    end.
  Proof.
    induction calls as [|[outb x] r IH]; intros s g pre post Vs Ls Lm Lg; cbn [m_updates].
    - exists g. cbn. rewrite !Nat.add_0_r. repeat (split; [assumption || lia|]). reflexivity.
    - cbn [map concat snd ip_updates]. rewrite <- (app_assoc x).
      pose proof (update_sim s outb x g pre (concat (map snd r) ++ post) Vs Ls Lm Lg) as U.
      destruct (m_update M BS ub s outb 0 x) as [[[s1 ob] l]| |]; cbn [bind simul] in *; [|rewrite U; reflexivity|exact I].
      destruct U as (o & g1 & V1 & L1 & Lm1 & Lg1 & El & Et & Eo & EU). cbn [firstn app] in Eo. rewrite Eo, EU.
      cbn [bind Nat.add] in *.
      specialize (IH s1 g1 (pre ++ o) post V1 L1 Lm1 Lg1). rewrite !app_length in IH.
      replace (pre ++ o ++ g1 ++ concat (map snd r) ++ post) with ((pre ++ o) ++ g1 ++ concat (map snd r) ++ post)
        by (rewrite <- !app_assoc; reflexivity).
      replace (length pre + length g + length x)%nat with (length pre + length o + length g1)%nat by lia.
      subst l.
      destruct (m_updates M BS ub s1 r) as [[s2 o2]| |]; cbn [bind]; [|exact IH|exact I].
      destruct IH as (g2 & V2 & L2 & Lm2 & Lg2 & Lt2 & EI). exists g2. split; [exact V2|]. split; [exact L2|].
      split; [exact Lm2|]. split; [exact Lg2|]. split; [rewrite !app_length; lia|].
      rewrite EI. rewrite <- !app_assoc, app_length.
      replace (length pre + length o + length o2)%nat with (length pre + (length o + length o2))%nat by lia. reflexivity.
  Qed.

  (** Whole sessions. *)
  Lemma run_sim junk m0 calls lastc pre post : V m0 ->
    match m_run M BS ub fb (m_new M junk m0) calls lastc with
    | Ok (s', o) =>
        ip_run M BS ub ubm fb (m_new M junk m0) (pre ++ (concat (map snd calls) ++ snd lastc) ++ post) (length pre)
          (map (fun c => length (snd c)) calls) (length (snd lastc)) =
        Ok (s', pre ++ o ++ post, (length pre + length o)%nat) /\
        length o = length (concat (map snd calls) ++ snd lastc)
    | Throw =>
        ip_run M BS ub ubm fb (m_new M junk m0) (pre ++ (concat (map snd calls) ++ snd lastc) ++ post) (length pre)
          (map (fun c => length (snd c)) calls) (length (snd lastc)) = Throw
    | UB => True
    end.
  Proof.
    intros V0. unfold m_run, ip_run. destruct lastc as [outb x]. cbn [fst snd].
    pose proof (updates_sim calls (m_new M junk m0) [] pre (x ++ post) V0 BSpos (Nat.le_0_l _) eq_refl) as U.
    cbn [app length Nat.add] in U. rewrite Nat.add_0_r in U.
    rewrite <- (app_assoc (concat (map snd calls)) x post).
    destruct (m_updates M BS ub (m_new M junk m0) calls) as [[s1 o1]| |]; cbn [bind]; [|rewrite U; reflexivity|exact I].
    destruct U as (g & V1 & L1 & Lm1 & Lg & Lt & EU). rewrite EU. cbn [bind].
    unfold m_final, im_final.
    replace (pre ++ o1 ++ g ++ x ++ post) with ((pre ++ o1) ++ g ++ x ++ post) by (rewrite <- !app_assoc; reflexivity).
    rewrite <- (app_length pre o1).
    pose proof (update_sim s1 outb x g (pre ++ o1) post V1 L1 Lm1 Lg) as U2.
    destruct (m_update M BS ub s1 outb 0 x) as [[[s2 ob] l]| |]; cbn [bind simul] in *; [|rewrite U2; reflexivity|exact I].
    destruct U2 as (o2 & g2 & V2 & L2 & Lm2 & Lg2 & El & Et & Eo & E2). rewrite E2. cbn [bind firstn app Nat.add] in *.
    assert (L3 : length (firstn (msize s2) (mbuf s2)) = msize s2) by (rewrite firstn_length; lia).
    destruct (fb (mctx s2) (firstn (msize s2) (mbuf s2))) as [[c o3]| |] eqn:F; cbn [bind]; [|reflexivity|exact I].
    assert (Lo3 : length o3 = msize s2) by (rewrite (fb_len _ _ _ _ V2 (eq_ind_r (fun n => (n < BS)%nat) L2 L3) F); exact L3).
    destruct (write ob l o3) as [ob2| |] eqn:W; cbn [bind]; [|unfold write in W; destruct (_ <=? _)%nat in W; discriminate|exact I].
    destruct (write_inv _ _ _ _ W) as [Lob ->].
    replace ((pre ++ o1) ++ o2 ++ g2 ++ post) with ((pre ++ o1 ++ o2) ++ g2 ++ post) by (rewrite <- !app_assoc; reflexivity).
    rewrite write_mid by (rewrite ?app_length; lia). cbn [bind].
    assert (Ef : firstn (l + msize s2) (firstn l ob ++ o3 ++ skipn (l + length o3) ob) = o2 ++ o3).
    { rewrite Eo, app_assoc. apply firstn_exact. rewrite app_length. lia. }
    rewrite Ef. split.
    - f_equal. f_equal; [f_equal|].
      + rewrite <- !app_assoc. reflexivity.
      + rewrite !app_length. lia.
    - rewrite !app_length. lia.
  Qed.
End S.

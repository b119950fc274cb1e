(** Facts about BlockCipherMode that hold for any derived class: *outl, histories, reset. *)
From Verif Require Import Base BaseFacts ModelModes ProofModeStream.

Lemma write_len a off d b : write a off d = Ok b -> length b = length a.
Proof.
  unfold write. destruct (Nat.leb_spec (off + length d) (length a)) as [H|H]; [|discriminate].
  intros [= <-]. rewrite !app_length, firstn_length, skipn_length. lia.
Qed.
Lemma bind_ok {A B} (x : res A) (f : A -> res B) b : bind x f = Ok b -> exists a, x = Ok a /\ f a = Ok b.
Proof. destruct x; cbn; try discriminate. eauto. Qed.

Section H.
  Variable M : Type.
  Variable BS : nat.
  Hypothesis PB : (0 < BS)%nat.
  Variable ub : M -> list Z -> nat -> res (M * list Z).
  Variable fb : M -> list Z -> res (M * list Z).
  Variable P : M -> Prop.
  Hypothesis ubP : forall m d n m' o, P m -> ub m d n = Ok (m', o) -> P m'.
  Hypothesis fbP : forall m d m' o, P m -> fb m d = Ok (m', o) -> P m'.

  Lemma m_tail_inv b m outb pos inp s ob outl : length b = BS -> P m ->
    m_tail M BS ub b m outb pos inp = Ok (s, ob, outl) ->
    length (mbuf s) = BS /\ P (mctx s) /\ length ob = length outb /\
    outl = (pos + length inp / BS * BS)%nat /\ msize s = (length inp mod BS)%nat.
  Proof.
    intros Lb Pm E. unfold m_tail in E.
    apply bind_ok in E. destruct E as (d & E1 & E). apply bind_ok in E. destruct E as ([m' o] & E2 & E).
    apply bind_ok in E. destruct E as (ob' & E3 & E). apply bind_ok in E. destruct E as (b' & E4 & E).
    injection E as <- <- <-. cbn [mbuf mctx msize].
    repeat split.
    - rewrite (write_len _ _ _ _ E4). assumption.
    - eapply ubP; eassumption.
    - eapply write_len; eassumption.
    - pose proof (Nat.div_mod (length inp) BS ltac:(lia)). lia.
  Qed.
  Lemma m_update_inv s outb outl inp s' ob outl' : length (mbuf s) = BS -> P (mctx s) -> (msize s < BS)%nat ->
    m_update M BS ub s outb outl inp = Ok (s', ob, outl') ->
    length (mbuf s') = BS /\ P (mctx s') /\ length ob = length outb /\
    msize s' = ((msize s + length inp) mod BS)%nat /\
    ((outl' = (msize s + length inp) / BS * BS)%nat \/
     (0 < msize s /\ 0 < length inp /\ msize s + length inp < BS /\ outl' = outl)%nat).
  Proof.
    intros Lb Pm Hs E. unfold m_update in E.
    destruct (Nat.eqb_spec (length inp) 0) as [Z0|NZ].
    { injection E as <- <- <-. rewrite Z0, Nat.add_0_r, Nat.mod_small, Nat.div_small by assumption.
      repeat split; auto. }
    destruct (Nat.eqb_spec (msize s) 0) as [S0|NS].
    { apply m_tail_inv in E; try assumption. destruct E as (A & B & C & D & F).
      rewrite S0. repeat split; auto. }
    apply bind_ok in E. destruct E as (b & E1 & E). apply bind_ok in E. destruct E as ([[[sz1 m1] ob1] pos] & E2 & E).
    pose proof (write_len _ _ _ _ E1) as Lb'.
    set (size := Nat.min (BS - msize s) (length inp)) in *.
    destruct (Nat.eqb_spec (msize s + size) BS) as [EB|NB].
    - apply bind_ok in E2. destruct E2 as (d & E3 & E2). apply bind_ok in E2. destruct E2 as ([m' o] & E4 & E2).
      apply bind_ok in E2. destruct E2 as (ob' & E5 & E2). injection E2 as <- <- <- <-.
      cbn [Nat.eqb] in E. apply m_tail_inv in E; [|lia|eapply ubP; eassumption].
      destruct E as (A & B & C & D & F). rewrite skipn_length in D, F.
      assert (K : (msize s + length inp = 1 * BS + (length inp - size))%nat) by lia.
      rewrite K, Nat.div_add_l by lia. rewrite (Nat.add_comm (1 * BS)), Nat.mod_add by lia.
      split; [auto|]. split; [auto|]. split; [|split; [auto|left; lia]].
      rewrite C. eapply write_len; eassumption.
    - injection E2 as <- <- <- <-. destruct (Nat.eqb_spec (msize s + size) 0) as [|_]; [lia|].
      injection E as <- <- <-. cbn [mbuf mctx msize].
      assert (size = length inp) by lia.
      rewrite Nat.mod_small by lia. repeat split; auto; try lia.
  Qed.
  Lemma m_final_inv s outb outl inp s' ob outl' : length (mbuf s) = BS -> P (mctx s) -> (msize s < BS)%nat ->
    m_final M BS ub fb s outb outl inp = Ok (s', ob, outl') ->
    length (mbuf s') = BS /\ P (mctx s') /\ (msize s' < BS)%nat.
  Proof.
    intros Lb Pm Hs E. unfold m_final in E.
    apply bind_ok in E. destruct E as ([[s1 ob1] o1] & E1 & E). apply bind_ok in E. destruct E as ([m o] & E2 & E).
    apply bind_ok in E. destruct E as (ob2 & E3 & E). injection E as <- <- <-. cbn [mbuf mctx msize].
    apply m_update_inv in E1; try assumption. destruct E1 as (A & B & _ & D & _).
    repeat split; auto. eapply fbP; eassumption. rewrite D. apply Nat.mod_upper_bound. lia.
  Qed.
  Lemma m_history_inv h : forall s s', length (mbuf s) = BS -> P (mctx s) -> (msize s < BS)%nat ->
    m_history M BS ub fb s h = Ok s' -> length (mbuf s') = BS /\ P (mctx s') /\ (msize s' < BS)%nat.
  Proof.
    induction h as [|[[[fin outb] outl] inp] h IH]; intros s s' Lb Pm Hs E; cbn [m_history] in E.
    { injection E as <-. auto. }
    apply bind_ok in E. destruct E as ([[s1 ob1] o1] & E1 & E).
    destruct fin.
    - apply m_final_inv in E1; try assumption. destruct E1 as (A & B & C). eapply IH; eassumption.
    - apply m_update_inv in E1; try assumption. destruct E1 as (A & B & _ & D & _).
      eapply IH; [| | |exact E]; auto. rewrite D. apply Nat.mod_upper_bound. lia.
  Qed.

  (** Total output of updates. *)
  Lemma m_updates_len calls : forall s s' o, length (mbuf s) = BS -> P (mctx s) -> (msize s < BS)%nat ->
    Forall (fun c => length (snd c) + BS - 1 <= length (fst c))%nat calls ->
    m_updates M BS ub s calls = Ok (s', o) ->
    length (mbuf s') = BS /\ P (mctx s') /\
    (length o = (msize s + length (concat (map snd calls))) / BS * BS)%nat /\
    (msize s' = (msize s + length (concat (map snd calls))) mod BS)%nat.
  Proof.
    induction calls as [|[outb inp] calls IH]; intros s s' o Lb Pm Hs HR E; cbn [m_updates] in E.
    { injection E as <- <-. cbn. rewrite Nat.add_0_r, Nat.div_small, Nat.mod_small by assumption. auto. }
    inversion_clear HR. cbn [fst snd] in *.
    apply bind_ok in E. destruct E as ([[s1 ob1] o1] & E1 & E). apply bind_ok in E.
    destruct E as ([s2 o2] & E2 & E). injection E as <- <-.
    apply m_update_inv in E1; try assumption. destruct E1 as (A & B & C & D & F).
    assert (msize s1 < BS)%nat by (rewrite D; apply Nat.mod_upper_bound; lia).
    apply IH in E2; try assumption. destruct E2 as (A2 & B2 & C2 & D2).
    cbn [map concat snd]. rewrite !app_length, firstn_length.
    set (a := (msize s + length inp)%nat) in *. set (r := length (concat (map snd calls))) in *.
    replace (msize s + (length inp + r))%nat with (a + r)%nat by (unfold a; lia).
    pose proof (Nat.div_mod a BS ltac:(lia)).
    assert (K : (a + r = a / BS * BS + (msize s1 + r))%nat) by lia.
    rewrite K, Nat.div_add_l by lia. rewrite (Nat.add_comm (a / BS * BS)), Nat.mod_add by lia.
    repeat split; auto.
    assert (o1 = (a / BS * BS)%nat).
    { destruct F as [F|(F1 & F2 & F3 & F4)]; [assumption|]. rewrite (Nat.div_small a) by assumption. lia. }
    assert (o1 <= length ob1)%nat by (rewrite C; unfold a in *; lia).
    lia.
  Qed.
End H.

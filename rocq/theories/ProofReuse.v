From Verif Require Import Base BaseFacts ModelHash ModelSM3 ModelReuse SpecSM3 ProofSM3.

Section L.
  Variable C : Type.
  Variable BS : nat.
  Variable ub : C -> list Z -> nat -> res C.
  Variable fb : C -> list Z -> res (C * list Z).
  Lemma write_len l off d l' : write l off d = Ok l' -> length l' = length l.
  Proof.
    unfold write. destruct (Nat.leb_spec (off + length d) (length l)) as [H|H]; [|discriminate]. intros [= <-].
    rewrite !app_length, firstn_length, skipn_length. lia.
  Qed.
  Lemma keep_len s c r s' : keep_rest C s c r = Ok s' -> length (hbuf s') = length (hbuf s).
  Proof.
    unfold keep_rest. destruct (_ <? _)%nat; [|intros [= <-]; reflexivity].
    destruct (write _ _ _) eqn:W; cbn [bind]; try discriminate. intros [= <-]. exact (write_len _ _ _ _ W).
  Qed.
  Lemma h_update_len s x s' : h_update C BS ub s x = Ok s' -> length (hbuf s') = length (hbuf s).
  Proof.
    unfold h_update. destruct (_ =? 0)%nat; [intros [= <-]; reflexivity|].
    destruct (hsize s =? 0)%nat.
    { destruct (feed _ _ _ _ _ _); cbn [bind]; try discriminate. apply keep_len. }
    destruct (write _ _ _) as [b| |] eqn:W; cbn [bind]; try discriminate. apply write_len in W.
    cbn [hbuf hsize hctx]. set (s2 := if (_ =? BS)%nat then _ else _).
    assert (H : forall t, s2 = Ok t -> length (hbuf t) = length b).
    { unfold s2. intros t. destruct (_ =? BS)%nat; [|intros [= <-]; reflexivity].
      destruct (feed _ _ _ _ _ _); cbn [bind]; try discriminate. intros [= <-]. reflexivity. }
    destruct s2 as [t| |]; cbn [bind]; try discriminate. specialize (H t eq_refl).
    destruct (_ && _)%bool; [|intros [= <-]; lia].
    destruct (feed _ _ _ _ _ _); cbn [bind]; try discriminate. intros K. apply keep_len in K. lia.
  Qed.
  Lemma h_updates_len cs : forall s s', h_updates C BS ub s cs = Ok s' -> length (hbuf s') = length (hbuf s).
  Proof.
    induction cs as [|x cs IH]; cbn [h_updates]; intros s s'; [intros [= <-]; reflexivity|].
    destruct (h_update _ _ _ s x) eqn:E; cbn [bind]; try discriminate. intros H. apply IH in H. apply h_update_len in E. lia.
  Qed.
  Lemma h_final_len s x s' d : h_final C BS ub fb s x = Ok (s', d) -> length (hbuf s') = length (hbuf s).
  Proof.
    unfold h_final. destruct (h_update _ _ _ s x) eqn:E; cbn [bind]; try discriminate. apply h_update_len in E.
    destruct (fb _ _) as [[c0 d0]| |]; cbn [bind]; try discriminate. intros [= <- <-]. exact E.
  Qed.
  Variable DS : nat.
  Variable c0 : C.
  Lemma hm_set_key_len h key s : hm_set_key C BS ub fb DS c0 h key = Ok s -> length (hbuf (mh s)) = length (hbuf h).
  Proof.
    unfold hm_set_key. set (a := if (_ <? _)%nat then _ else _).
    assert (H : forall h1 K, a = Ok (h1, K) -> length (hbuf h1) = length (hbuf h)).
    { unfold a. intros h1 K. destruct (_ <? _)%nat.
      - destruct (h_final _ _ _ _ _ _) as [[h2 d]| |] eqn:F; cbn [bind]; try discriminate. apply h_final_len in F.
        destruct (read _ _ _); cbn [bind]; try discriminate. destruct (write _ _ _); cbn [bind]; try discriminate.
        intros [= <- _]. exact F.
      - destruct (write _ _ _); cbn [bind]; try discriminate. intros [= <- _]. reflexivity. }
    destruct a as [[h1 K]| |]; cbn [bind]; try discriminate. specialize (H h1 K eq_refl).
    destruct (h_update _ _ _ _ _) eqn:U; cbn [bind]; try discriminate. apply h_update_len in U. intros [= <-]. cbn [mh]. lia.
  Qed.
  Lemma hm_updates_len cs : forall s s', hm_updates C BS ub s cs = Ok s' -> length (hbuf (mh s')) = length (hbuf (mh s)).
  Proof.
    induction cs as [|x cs IH]; cbn [hm_updates]; intros s s'; [intros [= <-]; reflexivity|].
    unfold hm_update. destruct (h_update _ _ _ _ x) eqn:E; cbn [bind]; try discriminate. intros H. apply IH in H. apply h_update_len in E. cbn [mh] in H. lia.
  Qed.
  Lemma hm_final_len s x s' d : hm_final C BS ub fb DS c0 s x = Ok (s', d) -> length (hbuf (mh s')) = length (hbuf (mh s)).
  Proof.
    unfold hm_final, hm_update. destruct (h_update _ _ _ _ x) eqn:E; cbn [bind mh]; try discriminate. apply h_update_len in E.
    destruct (h_final _ _ _ _ _ _) as [[h2 i]| |] eqn:F; cbn [bind]; try discriminate. apply h_final_len in F.
    destruct (h_update _ _ _ _ _) eqn:E2; cbn [bind]; try discriminate. apply h_update_len in E2.
    destruct (read _ _ _); cbn [bind]; try discriminate.
    destruct (h_update _ _ _ _ _) eqn:E3; cbn [bind]; try discriminate. apply h_update_len in E3.
    destruct (h_final _ _ _ _ _ _) as [[h3 j]| |] eqn:F2; cbn [bind]; try discriminate. apply h_final_len in F2.
    intros [= <- <-]. cbn [mh] in *. cbn [h_reset hbuf] in *. lia.
  Qed.
End L.

Notation ubY := (sm3_update_blocks compress_yang).
Notation fbY := (sm3_final_block compress_yang).
Lemma r_reset s chunks last : length (hbuf s) = 64%nat -> bytes (concat chunks ++ last) ->
  let m := concat chunks ++ last in
  h_digest sm3ctx 64 ubY fbY (h_reset sm3ctx s sm3_init) chunks last =
  if 8 * Z.of_nat (length m) <? 2 ^ 64 then Ok (SM3 m) else Throw.
Proof. intros L B. exact (sm3_hash_spec compress_yang compress_yang_spec (hbuf s) chunks last L B). Qed.

Lemma r_set_key h key chunks last : length (hbuf h) = 64%nat -> bytes key -> bytes (concat chunks ++ last) ->
  let m := concat chunks ++ last in
  hm_mac sm3ctx 64 ubY fbY 32 sm3_init h key chunks last =
  if (8 * Z.of_nat (length key) <? 2 ^ 64) && (8 * (64 + Z.of_nat (length m)) <? 2 ^ 64)
  then Ok (HMAC SM3 64 key m) else Throw.
Proof. intros L Bk B. exact (sm3_hmac_spec compress_yang compress_yang_spec (hbuf h) key chunks last L Bk B). Qed.

Lemma r_sm3_messages msgs : forall s, length (hbuf s) = 64%nat ->
  (forall chunks last, In (chunks, last) msgs -> bytes (concat chunks ++ last) /\ 8 * Z.of_nat (length (concat chunks ++ last)) < 2 ^ 64) ->
  sm3_messages compress_yang (h_reset _ s sm3_init) msgs = Ok (map (fun m => SM3 (concat (fst m) ++ snd m)) msgs).
Proof.
  induction msgs as [|[cs l] r IH]; intros s L H; [reflexivity|]. cbn [sm3_messages map fst snd].
  destruct (H cs l (or_introl eq_refl)) as [B S].
  pose proof (r_reset s cs l L B) as R. cbv zeta in R. apply Z.ltb_lt in S. rewrite S in R. unfold h_digest in R.
  destruct (h_updates _ _ _ _ cs) as [s1| |] eqn:E1; cbn [bind] in *; try discriminate. apply (h_updates_len _ _ _ fbY) in E1.
  destruct (h_final _ _ _ _ s1 l) as [[s2 d]| |] eqn:E2; cbn [bind] in *; try discriminate. apply h_final_len in E2.
  injection R as R. rewrite IH.
  - cbn [bind]. rewrite R. reflexivity.
  - cbn [h_reset hbuf] in E1. lia.
  - intros c x I. apply H. right. exact I.
Qed.

Lemma r_hmac_messages msgs : forall h, length (hbuf h) = 64%nat ->
  (forall key chunks last, In (key, (chunks, last)) msgs -> bytes key /\ bytes (concat chunks ++ last) /\
     8 * Z.of_nat (length key) < 2 ^ 64 /\ 8 * (64 + Z.of_nat (length (concat chunks ++ last))) < 2 ^ 64) ->
  hmac_messages compress_yang h msgs = Ok (map (fun m => HMAC SM3 64 (fst m) (concat (fst (snd m)) ++ snd (snd m))) msgs).
Proof.
  induction msgs as [|[key [cs l]] r IH]; intros h L H; [reflexivity|]. cbn [hmac_messages map fst snd].
  destruct (H key cs l (or_introl eq_refl)) as (Bk & B & S1 & S2).
  pose proof (r_set_key h key cs l L Bk B) as R. cbv zeta in R. apply Z.ltb_lt in S1, S2. rewrite S1, S2 in R. unfold hm_mac in R.
  cbn [andb] in R.
  destruct (hm_set_key _ _ _ _ _ _ h key) as [s0| |] eqn:E0; cbn [bind] in *; try discriminate. apply hm_set_key_len in E0.
  destruct (hm_updates _ _ _ _ cs) as [s1| |] eqn:E1; cbn [bind] in *; try discriminate. apply (hm_updates_len _ _ _ fbY sm3_init) in E1.
  destruct (hm_final _ _ _ _ _ _ s1 l) as [[s2 d]| |] eqn:E2; cbn [bind] in *; try discriminate. apply hm_final_len in E2.
  injection R as R. rewrite IH.
  - cbn [bind]. rewrite R. reflexivity.
  - lia.
  - intros k c x I. apply H. right. exact I.
Qed.

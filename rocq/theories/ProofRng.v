(** Proofs about the random generators and memdump. *)
From Coq Require Import Lia.
From Verif Require Import Base BaseFacts ModelRng ModelMemdump SpecRng.

Lemma put_length : forall m off d, (off + length d <= length m)%nat ->
  length (put m off d) = length m.
Proof.
  intros m off d H. unfold put. rewrite !app_length, firstn_length, skipn_length. lia.
Qed.

Lemma put_put : forall m off d e, (off + length d + length e <= length m)%nat ->
  put (put m off d) (off + length d) e = put m off (d ++ e).
Proof.
  intros m off d e H. unfold put.
  assert (L : length (firstn off m ++ d) = (off + length d)%nat)
    by (rewrite app_length, firstn_length; lia).
  rewrite (app_assoc (firstn off m) d (skipn (off + length d) m)).
  set (u := firstn off m ++ d) in *. rewrite <- L at 1 2.
  rewrite firstn_app, Nat.sub_diag, firstn_O, app_nil_r, firstn_all.
  rewrite skipn_app, (skipn_all2 u) by lia.
  rewrite app_nil_l, skipn_skipn', app_length.
  match goal with |- context [skipn ?k m] =>
    replace k with (off + (length d + length e))%nat by lia end.
  unfold u. rewrite <- !app_assoc. reflexivity.
Qed.

Lemma put_nil : forall m off, put m off [] = m.
Proof. intros. unfold put. cbn. rewrite Nat.add_0_r. apply firstn_skipn. Qed.

Lemma write_put : forall m off d, (off + length d <= length m)%nat ->
  write m off d = Ok (put m off d).
Proof.
  intros m off d H. unfold write. destruct (Nat.leb_spec (off + length d) (length m)); [reflexivity|lia].
Qed.

Lemma write_UB : forall m off d, (length m < off + length d)%nat -> write m off d = UB.
Proof.
  intros m off d H. unfold write. destruct (Nat.leb_spec (off + length d) (length m)); [lia|reflexivity].
Qed.

Lemma byte_gen_ok : forall d len i m off, (off + len <= length m)%nat ->
  byte_gen d len i m off
  = Ok (put m off (map (fun k => d (i + k)%nat mod 256) (seq 0 len)), (i + len)%nat).
Proof.
  intros d len. induction len as [|len IH]; intros i m off H; cbn [byte_gen seq map].
  - rewrite put_nil, Nat.add_0_r. reflexivity.
  - rewrite write_put by (cbn; lia). cbn [bind].
    rewrite IH by (rewrite put_length; cbn; lia).
    rewrite (put_put m off [w8 (d i)]) by (rewrite map_length, seq_length; cbn; lia).
    rewrite Nat.add_0_r. replace (S i + len)%nat with (i + S len)%nat by lia.
    rewrite <- seq_shift, map_map. cbn [app].
    rewrite (map_ext (fun k => d (S i + k)%nat mod 256) (fun k => d (i + S k)%nat mod 256)).
    + reflexivity.
    + intros k. replace (S i + k)%nat with (i + S k)%nat by lia. reflexivity.
Qed.

Lemma byte_gen_UB : forall d len i m off, (length m < off + len)%nat -> (off <= length m)%nat ->
  byte_gen d len i m off = UB.
Proof.
  intros d len. induction len as [|len IH]; intros i m off H H0; [lia|]. cbn [byte_gen].
  destruct (Nat.eq_dec off (length m)) as [->|N].
  - rewrite write_UB by (cbn; lia). reflexivity.
  - rewrite write_put by (cbn; lia). cbn [bind].
    apply IH; rewrite put_length; cbn; lia.
Qed.

Lemma byte_gen_split : forall d n1 n2 i m off,
  byte_gen d (n1 + n2) i m off =
  (do (m1, i1) <- byte_gen d n1 i m off; byte_gen d n2 i1 m1 (off + n1)).
Proof.
  intros d n1 n2. induction n1 as [|n1 IH]; intros i m off; cbn [byte_gen Nat.add].
  - cbn [bind]. rewrite Nat.add_0_r. reflexivity.
  - destruct (write m off [w8 (d i)]) as [m1| |]; cbn [bind]; try reflexivity.
    rewrite IH. replace (off + 1 + n1)%nat with (off + S n1)%nat by lia. reflexivity.
Qed.

(** ** Hardware generators *)

Lemma retry_loop_spec : forall a r v i,
  (exists j, (i <= j < i + r)%nat /\ fst (a j) = true /\
     (forall q, (i <= q < j)%nat -> fst (a q) = false) /\
     retry_loop a r v i = (true, snd (a j), S j)) \/
  ((forall q, (i <= q < i + r)%nat -> fst (a q) = false) /\
   exists v', retry_loop a r v i = (false, v', (i + r)%nat)).
Proof.
  intros a r. induction r as [|r IH]; intros v i; cbn [retry_loop].
  - right. split; [intros; lia|]. exists v. rewrite Nat.add_0_r. reflexivity.
  - destruct (fst (a i)) eqn:E.
    + left. exists i. repeat split; [lia|lia|exact E|intros; lia].
    + destruct (IH (snd (a i)) (S i)) as [(j & B & T & N & R)|(N & v' & R)].
      * left. exists j. repeat split; [lia|lia|exact T| |exact R].
        intros q Q. destruct (Nat.eq_dec q i) as [->|]; [exact E|apply N; lia].
      * right. split.
        -- intros q Q. destruct (Nat.eq_dec q i) as [->|]; [exact E|apply N; lia].
        -- exists v'. rewrite R. f_equal. lia.
Qed.

Lemma retry_spec : forall a r i,
  (exists j, (i <= j <= i + r)%nat /\ fst (a j) = true /\
     (forall q, (i <= q < j)%nat -> fst (a q) = false) /\
     retry a r i = (true, snd (a j), S j)) \/
  ((forall q, (i <= q <= i + r)%nat -> fst (a q) = false) /\
   exists v', retry a r i = (false, v', (i + r + 1)%nat)).
Proof.
  intros a r i. unfold retry. destruct (fst (a i)) eqn:E.
  - left. exists i. repeat split; [lia|lia|exact E|intros; lia].
  - destruct (retry_loop_spec a r (snd (a i)) (S i)) as [(j & B & T & N & R)|(N & v' & R)].
    + left. exists j. repeat split; [lia|lia|exact T| |exact R].
      intros q Q. destruct (Nat.eq_dec q i) as [->|]; [exact E|apply N; lia].
    + right. split.
      * intros q Q. destruct (Nat.eq_dec q i) as [->|]; [exact E|apply N; lia].
      * exists v'. rewrite R. f_equal. lia.
Qed.

Lemma le_bytes_len : forall n v, length (le_bytes n v) = n.
Proof. induction n; intros; cbn; [reflexivity|rewrite IHn; reflexivity]. Qed.

Lemma tail_bytes_le : forall len v, tail_bytes len v = le_bytes len v.
Proof.
  induction len as [|len IH]; intros v; cbn [tail_bytes le_bytes]; [reflexivity|].
  rewrite IH, Z.shiftr_div_pow2 by lia. change 255 with (Z.ones 8).
  rewrite Z.land_ones by lia. reflexivity.
Qed.

Lemma le_bytes_firstn : forall n w v, (n <= w)%nat -> firstn n (le_bytes w v) = le_bytes n v.
Proof.
  induction n as [|n IH]; intros w v H; [reflexivity|].
  destruct w as [|w]; [lia|]. cbn. rewrite IH by lia. reflexivity.
Qed.

Definition words (w len : nat) : nat := ((len + (w - 1)) / w)%nat.

Lemma words_0 : forall w, (0 < w)%nat -> words w 0 = 0%nat.
Proof. intros. unfold words. apply Nat.div_small. lia. Qed.
Lemma words_small : forall w len, (0 < len < w)%nat -> words w len = 1%nat.
Proof.
  intros w len H. unfold words. replace (len + (w - 1))%nat with ((len - 1) + 1 * w)%nat by lia.
  rewrite Nat.div_add by lia. rewrite Nat.div_small by lia. reflexivity.
Qed.
Lemma words_step : forall w len, (0 < w)%nat -> (w <= len)%nat -> words w len = S (words w (len - w)).
Proof.
  intros w len H0 H. unfold words.
  replace (len + (w - 1))%nat with ((len - w + (w - 1)) + 1 * w)%nat by lia.
  rewrite Nat.div_add by lia. lia.
Qed.

Lemma delivered_length : forall a w ps, length (delivered a w ps) = (length ps * w)%nat.
Proof.
  intros a w ps. unfold delivered. induction ps as [|p ps IH]; [reflexivity|].
  cbn [map concat length]. rewrite app_length, le_bytes_len, IH. reflexivity.
Qed.

Lemma hw_loop_spec : forall fuel a w r len i m off, (0 < w)%nat -> (len < fuel)%nat ->
  (off + len <= length m)%nat ->
  (exists ps k, takes a r i ps k /\ length ps = words w len /\
     hw_loop fuel a w r len i m off = Ok (true, put m off (firstn len (delivered a w ps)), k)) \/
  (exists ps k d, takes a r i ps k /\ (length ps < words w len)%nat /\
     (forall q, (k <= q <= k + r)%nat -> fst (a q) = false) /\
     (length d <= len)%nat /\ firstn (length ps * w) d = delivered a w ps /\
     hw_loop fuel a w r len i m off = Ok (false, put m off d, (k + r + 1)%nat)).
Proof.
  induction fuel as [|fuel IH]; intros a w r len i m off W F H; [lia|]. cbn [hw_loop].
  destruct (Nat.leb_spec w len) as [L|L].
  - rewrite (words_step w len W L).
    destruct (retry_spec a r i) as [(j & B & T & N & R)|(N & v' & R)]; rewrite R.
    + rewrite write_put by (rewrite le_bytes_len; lia). cbn [bind].
      destruct (IH a w r (len - w)%nat (S j) (put m off (le_bytes w (snd (a j)))) (off + w)%nat)
        as [(ps & k & TK & LP & E)|(ps & k & d & TK & LP & FN & LD & FD & E)];
        [exact W|lia|rewrite put_length; rewrite ?le_bytes_len; lia| |].
      * left. exists (j :: ps), k. split; [exact (takes_cons a r i j ps k B T N TK)|].
        split; [cbn; rewrite LP; reflexivity|]. rewrite E. do 2 f_equal. f_equal.
        pose proof (put_put m off (le_bytes w (snd (a j)))
                      (firstn (len - w) (delivered a w ps))) as PP.
        rewrite le_bytes_len in PP. rewrite PP by (rewrite firstn_length; lia).
        f_equal. unfold delivered. cbn [map concat].
        rewrite firstn_app, le_bytes_len, (firstn_all2 (le_bytes w (snd (a j))))
          by (rewrite le_bytes_len; lia). reflexivity.
      * right. exists (j :: ps), k, (le_bytes w (snd (a j)) ++ d).
        split; [exact (takes_cons a r i j ps k B T N TK)|].
        split; [cbn; lia|]. split; [exact FN|].
        split; [rewrite app_length, le_bytes_len; lia|]. split.
        -- cbn [length]. unfold delivered. cbn [map concat].
           rewrite firstn_app, le_bytes_len, (firstn_all2 (le_bytes w (snd (a j))))
             by (rewrite le_bytes_len; lia). f_equal.
           replace (S (length ps) * w - w)%nat with (length ps * w)%nat by lia. exact FD.
        -- rewrite E. do 2 f_equal. f_equal.
           pose proof (put_put m off (le_bytes w (snd (a j))) d) as PP.
           rewrite le_bytes_len in PP. apply PP. lia.
    + rewrite write_put by (rewrite le_bytes_len; lia). cbn [bind].
      right. exists [], i, (le_bytes w v'). split; [constructor|]. split; [cbn; lia|].
      split; [exact N|]. split; [rewrite le_bytes_len; lia|]. split; reflexivity.
  - destruct (Nat.eqb_spec len 0) as [E0|E0].
    + subst len. left. exists [], i. split; [constructor|].
      split; [rewrite words_0 by exact W; reflexivity|]. cbn [firstn]. rewrite put_nil. reflexivity.
    + rewrite (words_small w len) by lia.
      destruct (retry_spec a r i) as [(j & B & T & N & R)|(N & v' & R)]; rewrite R.
      * rewrite tail_bytes_le, write_put by (rewrite le_bytes_len; lia). cbn [bind].
        left. exists [j], (S j). split; [exact (takes_cons a r i j [] (S j) B T N (takes_nil a r (S j)))|].
        split; [reflexivity|]. do 2 f_equal. unfold delivered. cbn [map concat].
        rewrite app_nil_r, le_bytes_firstn by lia. reflexivity.
      * right. exists [], i, []. split; [constructor|]. split; [cbn; lia|]. split; [exact N|].
        split; [cbn; lia|]. split; [reflexivity|]. rewrite put_nil. reflexivity.
Qed.

Lemma takes_det : forall a r i ps k, takes a r i ps k ->
  forall ps' k', takes a r i ps' k' -> length ps = length ps' -> ps = ps' /\ k = k'.
Proof.
  intros a r i ps k H. induction H as [i|i j ps k B T N H IH]; intros ps' k' H' L.
  - inversion H'; subst; [split; reflexivity|discriminate].
  - inversion H' as [|i0 j' ps0 k0 B' T' N' H0]; subst; [discriminate|].
    assert (j = j').
    { destruct (Nat.lt_trichotomy j j') as [C|[C|C]]; [|exact C|].
      - rewrite (N' j) in T by lia. discriminate.
      - rewrite (N j') in T' by lia. discriminate. }
    subst j'. destruct (IH ps0 k' H0) as [-> ->]; [cbn in L; lia|]. split; reflexivity.
Qed.

Lemma takes_prefix_stuck : forall a r i ps k, takes a r i ps k ->
  (forall q, (k <= q <= k + r)%nat -> fst (a q) = false) ->
  forall ps' k', takes a r i ps' k' -> (length ps' <= length ps)%nat.
Proof.
  intros a r i ps k H S. induction H as [i|i j ps k B T N H IH]; intros ps' k' H'.
  - inversion H' as [|i0 j' ps0 k0 B' T' N' H0]; subst; [cbn; lia|].
    rewrite S in T' by lia. discriminate.
  - inversion H' as [|i0 j' ps0 k0 B' T' N' H0]; subst; [cbn; lia|].
    assert (j = j').
    { destruct (Nat.lt_trichotomy j j') as [C|[C|C]]; [|exact C|].
      - rewrite (N' j) in T by lia. discriminate.
      - rewrite (N j') in T' by lia. discriminate. }
    subst j'. cbn. specialize (IH S ps0 k' H0). lia.
Qed.

Lemma hw_gen_iff : forall a w r len i m off m' k, (0 < w)%nat -> (off + len <= length m)%nat ->
  (hw_gen a w r len i m off = Ok (true, m', k) <->
   exists ps, takes a r i ps k /\ length ps = words w len /\
              m' = put m off (firstn len (delivered a w ps))).
Proof.
  intros a w r len i m off m' k W H.
  destruct (hw_loop_spec (S len) a w r len i m off W (Nat.lt_succ_diag_r len) H)
    as [(ps & k0 & TK & LP & E)|(ps & k0 & d & TK & LP & FN & LD & FD & E)].
  - unfold hw_gen. rewrite E. split.
    + intros Q. injection Q as <- <-. exists ps. repeat split; assumption.
    + intros (ps' & TK' & LP' & ->).
      destruct (takes_det _ _ _ _ _ TK _ _ TK') as [-> ->]; [congruence|]. reflexivity.
  - unfold hw_gen. rewrite E. split; [discriminate|].
    intros (ps' & TK' & LP' & _). exfalso.
    pose proof (takes_prefix_stuck _ _ _ _ _ TK FN _ _ TK'). lia.
Qed.

Lemma takes_bounds : forall a r i ps k, takes a r i ps k ->
  (i + length ps <= k <= i + length ps * (r + 1))%nat /\ Forall (fun p => i <= p < k)%nat ps /\
  NoDup ps.
Proof.
  intros a r i ps k H. induction H as [i|i j ps k B T N H (IH1 & IH2 & IH3)].
  - cbn. repeat split; try lia; constructor.
  - cbn [length]. repeat split; try lia.
    + constructor; [lia|]. apply (Forall_impl _ (P := fun p => (S j <= p < k)%nat)); [|exact IH2].
      intros; lia.
    + constructor; [|exact IH3]. intros I. rewrite Forall_forall in IH2. specialize (IH2 j I). lia.
Qed.

Lemma takes_app : forall a r i ps k, takes a r i ps k ->
  forall ps' k', takes a r k ps' k' -> takes a r i (ps ++ ps') k'.
Proof.
  intros a r i ps k H. induction H as [i|i j ps k B T N H IH]; intros ps' k' H'; [exact H'|].
  exact (takes_cons a r i j (ps ++ ps') k' B T N (IH ps' k' H')).
Qed.

Lemma words_add : forall w n1 n2, (0 < w)%nat -> words w (n1 * w + n2) = (n1 + words w n2)%nat.
Proof.
  intros w n1 n2 W. unfold words. replace (n1 * w + n2 + (w - 1))%nat with (n2 + (w - 1) + n1 * w)%nat by lia.
  rewrite Nat.div_add by lia. lia.
Qed.

Lemma delivered_app : forall a w ps ps', delivered a w (ps ++ ps') = delivered a w ps ++ delivered a w ps'.
Proof. intros. unfold delivered. rewrite map_app, concat_app. reflexivity. Qed.

Lemma hw_gen_split : forall a w r n1 n2 i m off m1 k1 m2 k2, (0 < w)%nat ->
  (off + (n1 * w + n2) <= length m)%nat ->
  hw_gen a w r (n1 * w) i m off = Ok (true, m1, k1) ->
  hw_gen a w r n2 k1 m1 (off + n1 * w) = Ok (true, m2, k2) ->
  hw_gen a w r (n1 * w + n2) i m off = Ok (true, m2, k2).
Proof.
  intros a w r n1 n2 i m off m1 k1 m2 k2 W H E1 E2.
  apply (hw_gen_iff a w r (n1 * w) i m off m1 k1 W ltac:(lia)) in E1.
  destruct E1 as (ps1 & T1 & L1 & ->).
  pose proof (words_add w n1 0 W) as WA. rewrite Nat.add_0_r, (words_0 w W), Nat.add_0_r in WA.
  rewrite WA in L1.
  assert (D1 : firstn (n1 * w) (delivered a w ps1) = delivered a w ps1)
    by (apply firstn_all2; rewrite delivered_length, L1; lia).
  rewrite D1 in E2.
  assert (LD : length (delivered a w ps1) = (n1 * w)%nat) by (rewrite delivered_length, L1; reflexivity).
  apply (hw_gen_iff a w r n2 k1 _ (off + n1 * w) m2 k2 W) in E2;
    [|rewrite put_length; rewrite ?LD; lia].
  destruct E2 as (ps2 & T2 & L2 & ->).
  apply (hw_gen_iff a w r _ i m off _ k2 W H). exists (ps1 ++ ps2).
  split; [exact (takes_app _ _ _ _ _ T1 _ _ T2)|].
  split; [rewrite app_length, L1, L2, words_add by exact W; reflexivity|].
  rewrite <- LD at 1. rewrite put_put by (rewrite LD, firstn_length; lia). f_equal.
  rewrite delivered_app, firstn_app, LD.
  rewrite (firstn_all2 (delivered a w ps1)) by (rewrite LD; lia).
  replace (n1 * w + n2 - n1 * w)%nat with n2 by lia. reflexivity.
Qed.

(** ** Operating system generators *)

Lemma os_loop_spec : forall fuel ok k len off, 0 <= len -> len / MAXDWORD < Z.of_nat fuel ->
  exists l r, os_loop fuel ok k len off = Ok (l, r) /\
    (r = true -> tiles off len l /\ forall q, (q < length l)%nat -> ok (k + q)%nat = true) /\
    (r = false -> exists l0 o n, l = l0 ++ [(o, n)] /\ ok (k + length l0)%nat = false /\
       exists rest, tiles off len (l ++ rest)) /\
    ((forall q, (q < length l)%nat -> ok (k + q)%nat = true) -> r = true).
Proof.
  induction fuel as [|fuel IH]; intros ok k len off H F.
  - exfalso. assert (0 <= len / MAXDWORD) by (apply Z.div_pos; [lia|reflexivity]). lia.
  - cbn [os_loop]. destruct (Z.leb_spec MAXDWORD len) as [L|L].
    + destruct (ok k) eqn:OK.
      * assert (F' : (len - MAXDWORD) / MAXDWORD < Z.of_nat fuel).
        { replace (len - MAXDWORD) with (len + (-1) * MAXDWORD) by lia.
          rewrite Z.div_add by discriminate. lia. }
        destruct (IH ok (S k) (len - MAXDWORD) (off + MAXDWORD) ltac:(lia) F')
          as (l & r & E & HT & HF & HR).
        rewrite E. cbn [bind]. exists ((off, MAXDWORD) :: l), r. split; [reflexivity|].
        split; [|split].
        -- intros R. destruct (HT R) as [TT Q].
           split; [split; [reflexivity|split; [split; reflexivity|exact TT]]|].
           intros q Hq. destruct q as [|q]; [rewrite Nat.add_0_r; exact OK|].
           replace (k + S q)%nat with (S k + q)%nat by lia. apply Q. cbn in Hq. lia.
        -- intros R. destruct (HF R) as (l0 & o & n & -> & O & rest & TR).
           exists ((off, MAXDWORD) :: l0), o, n. split; [reflexivity|]. split.
           ++ cbn [length]. replace (k + S (length l0))%nat with (S k + length l0)%nat by lia. exact O.
           ++ exists rest. cbn [app]. split; [reflexivity|]. split; [split; reflexivity|exact TR].
        -- intros Q. apply HR. intros q Hq. replace (S k + q)%nat with (k + S q)%nat by lia.
           apply Q. cbn. lia.
      * exists [(off, MAXDWORD)], false. split; [reflexivity|]. split; [discriminate|]. split.
        -- intros _. exists [], off, MAXDWORD. split; [reflexivity|]. split.
           ++ rewrite Nat.add_0_r. exact OK.
           ++ clear F IH.
              assert (TI : forall n len off, 0 <= len -> len < Z.of_nat n * MAXDWORD ->
                        exists rest, tiles off len rest).
              { induction n as [|n IH]; intros len0 off0 P Q; [lia|].
                destruct (Z.eq_dec len0 0) as [->|NZ]; [exists []; reflexivity|].
                destruct (Z.ltb_spec len0 MAXDWORD) as [C|C].
                - exists [(off0, len0)]. split; [reflexivity|]. split; [unfold MAXDWORD in C; lia|].
                  cbn. lia.
                - destruct (IH (len0 - MAXDWORD) (off0 + MAXDWORD) ltac:(lia) ltac:(lia)) as [rest T].
                  exists ((off0, MAXDWORD) :: rest). split; [reflexivity|].
                  split; [split; reflexivity|exact T]. }
              destruct (TI (Z.to_nat (len + 1)) (len - MAXDWORD) (off + MAXDWORD)) as [rest T];
                [lia|unfold MAXDWORD in *; lia|].
              exists rest. cbn [app]. split; [reflexivity|]. split; [split; reflexivity|exact T].
        -- intros Q. specialize (Q 0%nat). rewrite Nat.add_0_r, OK in Q. apply Q. cbn. lia.
    + destruct (Z.eqb_spec len 0) as [E0|E0].
      * exists [], true. split; [reflexivity|]. subst len.
        split; [intros _; split; [reflexivity|cbn; intros; lia]|]. split; [discriminate|reflexivity].
      * assert (W : w32 len = len) by (unfold w32; apply Z.mod_small; unfold MAXDWORD in L; lia).
        assert (TL : tiles off len [(off, len)]).
        { cbn. unfold MAXDWORD in L. repeat split; lia. }
        exists [(off, w32 len)], (ok k). split; [reflexivity|]. rewrite W. split; [|split].
        -- intros R. split; [exact TL|].
           intros q Q. cbn in Q. replace (k + q)%nat with k by lia. exact R.
        -- intros R. exists [], off, len. split; [reflexivity|].
           split; [rewrite Nat.add_0_r; exact R|]. exists []. exact TL.
        -- intros Q. specialize (Q 0%nat). rewrite Nat.add_0_r in Q. apply Q. cbn. lia.
Qed.

Lemma os_gen_spec : forall ok len, 0 <= len ->
  exists l r, os_gen ok len = Ok (l, r) /\
    (r = true -> tiles 0 len l /\ forall q, (q < length l)%nat -> ok q = true) /\
    (r = false -> exists l0 o n, l = l0 ++ [(o, n)] /\ ok (length l0) = false /\
       exists rest, tiles 0 len (l ++ rest)) /\
    ((forall q, (q < length l)%nat -> ok q = true) -> r = true).
Proof.
  intros ok len H. apply (os_loop_spec _ ok 0 len 0 H).
  assert (0 <= len / MAXDWORD) by (apply Z.div_pos; [lia|reflexivity]). lia.
Qed.

(** ** memdump *)

Lemma items_concat : forall fmt sep l, items fmt sep l = concat (map (fun b => fmt b ++ sep) l).
Proof.
  induction l as [|b l IH]; [reflexivity|]. cbn [items map concat]. rewrite IH, app_assoc. reflexivity.
Qed.

Lemma items_length : forall fmt sep fw l, (forall b, length (fmt b) = fw) ->
  length (items fmt sep l) = (length l * (fw + length sep))%nat.
Proof.
  intros fmt sep fw l H. induction l as [|b l IH]; [reflexivity|].
  cbn [items]. rewrite !app_length, H, IH. cbn [length]. lia.
Qed.

Lemma ascii_char_eq : forall b, ascii_char b = if (32 <=? b) && (b <? 127) then b else 46.
Proof.
  intros b. unfold ascii_char, isprint. replace (b <=? 126) with (b <? 127); [reflexivity|].
  destruct (Z.ltb_spec b 127), (Z.leb_spec b 126); try reflexivity; lia.
Qed.

Lemma ascii_part_eq : forall ascii l, ascii_part ascii l =
  if ascii then [32; 32; 32] ++ map (fun b => if (32 <=? b) && (b <? 127) then b else 46) l else [].
Proof.
  intros ascii l. unfold ascii_part. destruct ascii; [|reflexivity].
  f_equal. apply map_ext. exact ascii_char_eq.
Qed.

Lemma dump_line_eq : forall fmt sep ascii col l,
  dump_line fmt sep ascii col l =
  items fmt sep l ++ repeat 32 (col - length (items fmt sep l)) ++ ascii_part ascii l.
Proof.
  intros. unfold dump_line. rewrite <- items_concat, <- ascii_part_eq. reflexivity.
Qed.

Lemma pieces_small : forall n l, (0 < length l < n)%nat -> pieces n l = [l].
Proof.
  intros n l H. unfold pieces. fold (words n (length l)). rewrite words_small by exact H.
  cbn [cut]. rewrite firstn_all2 by lia. reflexivity.
Qed.
Lemma pieces_nil : forall n, (0 < n)%nat -> pieces n [] = [].
Proof. intros n H. unfold pieces. cbn [length]. fold (words n 0). rewrite words_0 by exact H. reflexivity. Qed.
Lemma pieces_step : forall n l, (0 < n)%nat -> (n <= length l)%nat ->
  pieces n l = firstn n l :: pieces n (skipn n l).
Proof.
  intros n l H0 H. unfold pieces. fold (words n (length l)). rewrite words_step by assumption.
  cbn [cut]. rewrite skipn_length. reflexivity.
Qed.
Lemma pieces_nonempty : forall n l, (0 < n)%nat -> l <> [] -> pieces n l <> [].
Proof.
  intros n l H N E. destruct (Nat.leb_spec n (length l)) as [C|C].
  - rewrite pieces_step in E by assumption. discriminate.
  - rewrite pieces_small in E; [discriminate|]. destruct l; [contradiction|cbn in *; lia].
Qed.

Section DumpProof.
  Variable fmt : Z -> list Z.
  Variable sep : list Z.
  Variable ascii : bool.
  Variable fw : nat.
  Hypothesis Hfw : forall b, length (fmt b) = fw.
  Variable maxline : nat.
  Hypothesis Hmax : (0 < maxline)%nat.
  Let col : nat := (maxline * (fw + length sep))%nat.

  Lemma full_line_eq : forall l, length l = maxline ->
    dump_line fmt sep ascii col l = items fmt sep l ++ ascii_part ascii l.
  Proof.
    intros l L. rewrite dump_line_eq, (items_length fmt sep fw l Hfw), L. unfold col.
    rewrite Nat.sub_diag. reflexivity.
  Qed.

  Lemma last_line_eq : forall l, l <> [] -> (length l < maxline)%nat ->
    forall c, last_line fmt sep ascii l c = dump_line fmt sep ascii c l.
  Proof. intros l N L c. unfold last_line. destruct l; [contradiction|]. rewrite dump_line_eq. reflexivity. Qed.

  Lemma full_lines_spec : forall fuel data c, (length data < fuel)%nat ->
    exists o n r, full_lines fmt sep ascii fuel maxline data c = Ok (o, n, r) /\
      o ++ last_line fmt sep ascii r n =
      (if (maxline <=? length data)%nat
       then join_lines (map (dump_line fmt sep ascii col) (pieces maxline data))
       else last_line fmt sep ascii data c).
  Proof.
    induction fuel as [|fuel IH]; intros data c F; [lia|]. cbn [full_lines].
    destruct (Nat.leb_spec maxline (length data)) as [L|L].
    - destruct (IH (skipn maxline data) (length (items fmt sep (firstn maxline data))))
        as (o & n & r & E & Q); [rewrite skipn_length; lia|].
      rewrite E. cbn [bind]. do 3 eexists. split; [reflexivity|].
      rewrite <- !app_assoc, Q, (pieces_step maxline data Hmax L). cbn [map].
      assert (LF : length (firstn maxline data) = maxline) by (rewrite firstn_length; lia).
      rewrite (full_line_eq _ LF).
      rewrite (items_length fmt sep fw _ Hfw), LF. fold col.
      destruct (Nat.eqb_spec (length (skipn maxline data)) 0) as [Z0|Z0].
      + apply length_zero_iff_nil in Z0. rewrite Z0 in *. cbn [length app].
        destruct (Nat.leb_spec maxline 0) as [C|C]; [lia|].
        rewrite pieces_nil by exact Hmax. cbn [map last_line join_lines]. rewrite app_nil_r. reflexivity.
      + assert (NE : skipn maxline data <> []) by (intros C; rewrite C in Z0; apply Z0; reflexivity).
        assert (J : forall x y, x <> [] -> join_lines (y :: map (dump_line fmt sep ascii col) x)
                    = y ++ 10 :: join_lines (map (dump_line fmt sep ascii col) x)).
        { intros x y N. destruct x; [contradiction|]. reflexivity. }
        rewrite J by (apply pieces_nonempty; assumption). rewrite <- !app_assoc. cbn [app].
        do 3 f_equal.
        destruct (Nat.leb_spec maxline (length (skipn maxline data))) as [C|C]; [reflexivity|].
        rewrite pieces_small by lia. cbn [map join_lines]. apply last_line_eq; assumption.
    - exists [], c, data. split; [reflexivity|]. reflexivity.
  Qed.

  Lemma memdump_spec : forall prefix end_ data,
    memdump fmt sep ascii prefix end_ maxline data =
    Ok (prefix ++
        join_lines (map (dump_line fmt sep ascii
                           (if (maxline <=? length data)%nat then col else 0%nat))
                        (pieces maxline data)) ++ end_).
  Proof.
    intros prefix end_ data. unfold memdump.
    destruct (Nat.eqb_spec maxline 0) as [C|_]; [lia|].
    destruct (full_lines_spec (S (length data)) data 0) as (o & n & r & E & Q); [lia|].
    rewrite E. cbn [bind]. rewrite (app_assoc o), Q. do 3 f_equal.
    destruct (Nat.leb_spec maxline (length data)) as [L|L]; [reflexivity|].
    destruct data as [|b data]; [rewrite pieces_nil by exact Hmax; reflexivity|].
    rewrite pieces_small by (cbn in *; lia). cbn [map join_lines].
    apply last_line_eq; [discriminate|exact L].
  Qed.
End DumpProof.

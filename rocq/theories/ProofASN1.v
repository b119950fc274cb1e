(** Proofs about the ASN.1 model. *)
From Verif Require Import Base BaseFacts ModelASN1 SpecASN1.

Lemma len_app a b : len (a ++ b) = len a + len b.
Proof. unfold len. rewrite app_length. lia. Qed.
Lemma len_cons a b : len (a :: b) = 1 + len b.
Proof. unfold len. cbn [length]. lia. Qed.
Lemma len_nil : len [] = 0. Proof. reflexivity. Qed.
Lemma len_nonneg l : 0 <= len l. Proof. unfold len. lia. Qed.

Lemma rd_app p b r : rd (p ++ b :: r) (len p) = Ok b.
Proof.
  unfold rd, len. destruct (Z.of_nat (length p) <? 0) eqn:E; [lia|].
  rewrite Nat2Z.id, nth_error_app2 by lia.
  replace (length p - length p)%nat with 0%nat by lia. reflexivity.
Qed.

Lemma rd_at m p b r off : m = p ++ b :: r -> off = len p -> rd m off = Ok b.
Proof. intros -> ->. apply rd_app. Qed.

Lemma rd_nth m off : 0 <= off < len m -> rd m off = Ok (nz m (Z.to_nat off)).
Proof.
  intros H. unfold rd, len in *. destruct (off <? 0) eqn:E; [lia|].
  destruct (nth_error m (Z.to_nat off)) as [b|] eqn:En.
  - f_equal. symmetry. unfold nz. apply nth_error_nth. exact En.
  - apply nth_error_None in En. lia.
Qed.

Lemma rd_nth_pos m off b : rd m off = Ok b -> 0 <= off < len m.
Proof.
  unfold rd, len. destruct (off <? 0) eqn:E; [discriminate|].
  destruct (nth_error m (Z.to_nat off)) as [x|] eqn:En; [|discriminate].
  intros _. assert (Z.to_nat off < length m)%nat by (apply nth_error_Some; congruence). lia.
Qed.

Lemma wr_app p old z d : len old = len d -> wr (p ++ old ++ z) (len p) d = Ok (p ++ d ++ z).
Proof.
  unfold len. intros H. unfold wr. destruct (Z.of_nat (length p) <? 0) eqn:E; [lia|].
  unfold write. rewrite Nat2Z.id.
  destruct (length p + length d <=? length (p ++ old ++ z))%nat eqn:E2.
  2:{ rewrite !app_length in E2. lia. }
  rewrite firstn_exact by reflexivity.
  replace (length p + length d)%nat with (length p + length old)%nat by lia.
  rewrite <- skipn_skipn', skipn_exact by reflexivity.
  rewrite skipn_exact by reflexivity. reflexivity.
Qed.

Lemma wr_at buf off p old z d :
  buf = p ++ old ++ z -> off = len p -> len old = len d -> wr buf off d = Ok (p ++ d ++ z).
Proof. intros -> ->. apply wr_app. Qed.

Lemma wr_ub buf off d : 0 <= off -> len buf < off + len d -> wr buf off d = UB.
Proof.
  unfold len, wr. intros H0 H. destruct (off <? 0) eqn:E; [lia|].
  unfold write. destruct (Z.to_nat off + length d <=? length buf)%nat eqn:E2; [lia|reflexivity].
Qed.

(** ** Length octets *)

Lemma lor128 k : 1 <= k <= 8 -> w8 (Z.lor 128 k) = 128 + k.
Proof.
  intros H. assert (k = 1 \/ k = 2 \/ k = 3 \/ k = 4 \/ k = 5 \/ k = 6 \/ k = 7 \/ k = 8) as D by lia.
  destruct D as [->|[->|[->|[->|[->|[->|[->| ->]]]]]]]; reflexivity.
Qed.

Lemma length_tmp_spec room n :
  0 <= n < 256 ^ Z.of_nat room ->
  exists ds, length_tmp room n = Ok ds /\ bytes ds /\ le_val ds = n /\ (length ds <= room)%nat /\
             (0 < n -> 0 < hd 0 (rev ds)).
Proof.
  revert n. induction room as [|room IH]; intros n H.
  - cbn in H. assert (n = 0) by (change (256 ^ Z.of_nat 0) with 1 in H; lia). subst.
    exists []. cbn. repeat apply conj; try reflexivity; try lia. constructor.
  - cbn [length_tmp]. destruct (n =? 0) eqn:E.
    + exists []. cbn. repeat apply conj; try reflexivity; try lia. constructor.
    + rewrite Nat2Z.inj_succ, Z.pow_succ_r in H by lia.
      rewrite Z.shiftr_div_pow2 by lia. change (2 ^ 8) with 256.
      destruct (IH (n / 256)) as (ds & E1 & Hb & Hv & Hl & Hh).
      { split; [apply Z.div_pos; lia|]. apply Z.div_lt_upper_bound; lia. }
      rewrite E1. cbn [bind]. rewrite land_255.
      exists (n mod 256 :: ds). split; [reflexivity|].
      assert (0 <= n mod 256 < 256) by (apply Z.mod_pos_bound; lia).
      repeat apply conj.
      * constructor; [assumption|exact Hb].
      * cbn [le_val]. rewrite Hv. pose proof (Z.div_mod n 256). lia.
      * cbn [length]. lia.
      * intros _. cbn [rev]. destruct (Z.eq_dec (n / 256) 0) as [Hz|Hz].
        -- assert (ds = []) as ->.
           { rewrite Hz in E1. destruct room; cbn in E1; congruence. }
           cbn. pose proof (Z.div_mod n 256). lia.
        -- assert (0 < n / 256) by (pose proof (Z.div_pos n 256); lia).
           specialize (Hh H1). destruct (rev ds); [cbn in Hh; lia|exact Hh].
Qed.

Lemma rev_bytes l : bytes l -> bytes (rev l).
Proof. unfold bytes. intros H. apply Forall_rev. exact H. Qed.

(** Length octets written for [n], independent of the buffer. *)
Lemma encode_length_spec n :
  0 <= n < 2 ^ 64 ->
  exists lo, der_length n lo /\ 1 <= len lo <= 9 /\ (n < 2 ^ 56 -> len lo <= 8) /\
    (2 ^ 56 <= n -> len lo = 9) /\
    (forall p old z, len old = len lo ->
       encode_length (p ++ old ++ z) (len p) n = Ok (p ++ lo ++ z, len lo)) /\
    (forall buf off, 0 <= off -> len buf < off + len lo -> encode_length buf off n = UB).
Proof.
  intros H. unfold encode_length. destruct (n <? 128) eqn:E.
  - exists [n]. repeat apply conj; try (rewrite ?len_cons, ?len_nil; lia).
    + left. split; [lia|reflexivity].
    + intros p old z Ho. rewrite (wr_app p old z) by exact Ho. cbn [bind].
      unfold w8. rewrite Z.mod_small by lia. reflexivity.
    + intros buf off H0 Hl. rewrite wr_ub; [reflexivity|lia|].
      rewrite len_cons, len_nil in *. lia.
  - destruct (length_tmp_spec 8 n) as (ds & E1 & Hb & Hv & Hl & Hh).
    { change (256 ^ Z.of_nat 8) with (2 ^ 64). lia. }
    rewrite E1. cbn [bind].
    assert (Hlen : Z.of_nat (length ds) = len (rev ds)) by (unfold len; rewrite rev_length; reflexivity).
    rewrite Hlen.
    assert (Hbe : be_val (rev ds) = n).
    { rewrite <- le_val_rev, rev_involutive. exact Hv. }
    assert (Hbr : bytes (rev ds)) by (apply rev_bytes; exact Hb).
    assert (Hl8 : len (rev ds) <= 8) by lia.
    assert (Hh' : 0 < hd 0 (rev ds)) by (apply Hh; lia).
    assert (Hnb : 256 ^ (len (rev ds) - 1) <= n).
    { destruct (rev ds) as [|x r]; [cbn in Hh'; lia|]. cbn [hd] in Hh'. rewrite <- Hbe, be_val_cons.
      rewrite len_cons. unfold len. replace (1 + Z.of_nat (length r) - 1) with (Z.of_nat (length r)) by lia.
      apply bytes_nz with (i := 0%nat) in Hbr as Hx. unfold nz, is_byte in Hx. cbn [nth] in Hx.
      inversion Hbr; subst. pose proof (be_val_bound r H3).
      pose proof (Z.pow_pos_nonneg 256 (Z.of_nat (length r))). nia. }
    assert (Hub : n < 256 ^ len (rev ds)).
    { rewrite <- Hbe. apply be_val_bound. exact Hbr. }
    assert (Hl1 : 1 <= len (rev ds)).
    { destruct (rev ds) as [|x r]; [cbn in Hh'; lia|]. rewrite len_cons. pose proof (len_nonneg r). lia. }
    exists ((128 + len (rev ds)) :: rev ds). repeat apply conj.
    + right. split; [lia|]. exists (rev ds). repeat apply conj; try assumption; try reflexivity; lia.
    + rewrite len_cons. lia.
    + rewrite len_cons. lia.
    + rewrite len_cons. intros Hs.
      destruct (Z.eq_dec (len (rev ds)) 8) as [E8|]; [|lia]. exfalso.
      rewrite E8 in Hnb. change (256 ^ (8 - 1)) with (2 ^ 56) in Hnb. lia.
    + rewrite len_cons. intros Hs.
      destruct (Z.eq_dec (len (rev ds)) 8) as [E8|]; [lia|]. exfalso.
      assert (256 ^ len (rev ds) <= 256 ^ 7) by (apply Z.pow_le_mono_r; lia).
      change (256 ^ 7) with (2 ^ 56) in H0. lia.
    + assert (Hor : w8 (Z.lor 128 (len (rev ds))) = 128 + len (rev ds)).
      { apply lor128. lia. }
      rewrite Hor. intros p old z Ho.
      destruct old as [|o old]; [rewrite len_nil, len_cons in Ho; lia|].
      rewrite !len_cons in Ho.
      rewrite (wr_at _ _ p [o] (old ++ z) [128 + len (rev ds)]) by reflexivity. cbn [bind].
      rewrite (wr_at _ _ (p ++ [128 + len (rev ds)]) old z (rev ds)); cbn [bind].
      * rewrite <- app_assoc. cbn [app]. rewrite len_cons. reflexivity.
      * rewrite <- app_assoc. reflexivity.
      * rewrite len_app, len_cons, len_nil. lia.
      * lia.
    + intros buf off H0 Hs. rewrite len_cons in Hs.
      destruct (Z.le_gt_cases (off + 1) (len buf)) as [Hok|Hok].
      * assert (Hsz : exists p o z, buf = p ++ [o] ++ z /\ off = len p).
        { exists (firstn (Z.to_nat off) buf). unfold len in *.
          destruct (skipn (Z.to_nat off) buf) as [|o z] eqn:Es.
          { pose proof (skipn_length (Z.to_nat off) buf) as Hk. rewrite Es in Hk. cbn in Hk. lia. }
          exists o, z. split.
          - cbn [app]. rewrite <- Es. symmetry. apply firstn_skipn.
          - rewrite firstn_length. lia. }
        destruct Hsz as (p & o & z & -> & ->).
        rewrite (wr_app p [o] z) by reflexivity. cbn [bind].
        rewrite wr_ub; [reflexivity|pose proof (len_nonneg p); lia|].
        rewrite !len_app in *. rewrite len_cons, len_nil in *. lia.
      * rewrite wr_ub; [reflexivity|lia|]. rewrite len_cons, len_nil. lia.
Qed.

Lemma der_length_unique n a b : der_length n a -> der_length n b -> a = b.
Proof.
  intros [[H ->]|(H & ds & Hb & Hh & Hv & Hl & ->)] [[H' ->]|(H' & ds' & Hb' & Hh' & Hv' & Hl' & ->)];
    try lia; try reflexivity.
  assert (Heq : length ds = length ds').
  { assert (D : forall d, bytes d -> 0 < hd 0 d -> 256 ^ (len d - 1) <= be_val d < 256 ^ len d).
    { intros d Hd H0. split; [|apply be_val_bound; exact Hd].
      destruct d as [|x r]; [cbn in H0; lia|]. cbn [hd] in H0. rewrite be_val_cons, len_cons.
      unfold len. replace (1 + Z.of_nat (length r) - 1) with (Z.of_nat (length r)) by lia.
      inversion Hd; subst. pose proof (be_val_bound r H4).
      pose proof (Z.pow_pos_nonneg 256 (Z.of_nat (length r))). nia. }
    pose proof (D ds Hb Hh) as D1. pose proof (D ds' Hb' Hh') as D2.
    rewrite Hv in D1. rewrite Hv' in D2.
    destruct (Z.lt_trichotomy (len ds) (len ds')) as [L|[L|L]].
    - assert (256 ^ len ds <= 256 ^ (len ds' - 1)) by (apply Z.pow_le_mono_r; lia). lia.
    - unfold len in L. lia.
    - assert (256 ^ len ds' <= 256 ^ (len ds - 1)) by (apply Z.pow_le_mono_r; lia). lia. }
  assert (ds = ds') as -> by (apply be_val_inj; congruence). reflexivity.
Qed.

(** ** Tag and length *)

Definition all_tags : list (Z * Z * Z) :=
  list_prod (list_prod [0; 64; 128; 192] [0; 32])
            (map Z.of_nat (seq 0 31)).

Lemma in_all_tags c p t : a_class c -> a_pc p -> low_tag t -> In (c, p, t) all_tags.
Proof.
  intros Hc Hp Ht. apply in_prod.
  - apply in_prod.
    + destruct Hc as [->|[->|[->| ->]]]; cbn; auto.
    + destruct Hp as [->| ->]; cbn; auto.
  - apply in_map_iff. exists (Z.to_nat t). unfold low_tag in Ht. split; [lia|].
    apply in_seq. lia.
Qed.

Definition tag_ok (x : Z * Z * Z) : bool :=
  let '(c, p, t) := x in
  let b := c + p + t in
  (w8 (Z.lor (Z.lor c p) t) =? b) && (Z.land b 192 =? c) && (Z.land b 32 =? p)
  && (Z.land b 31 =? t) && negb (t =? 31) && (0 <=? b) && (b <? 256).

Lemma all_tags_ok : forallb tag_ok all_tags = true.
Proof. vm_compute. reflexivity. Qed.

Lemma tag_facts c p t : a_class c -> a_pc p -> low_tag t ->
  let b := c + p + t in
  w8 (Z.lor (Z.lor c p) t) = b /\ Z.land b 192 = c /\ Z.land b 32 = p /\ Z.land b 31 = t /\
  is_byte b.
Proof.
  intros Hc Hp Ht. pose proof all_tags_ok as H. rewrite forallb_forall in H.
  specialize (H _ (in_all_tags c p t Hc Hp Ht)). unfold tag_ok in H. cbn zeta.
  unfold is_byte. rewrite !andb_true_iff in H.
  destruct H as [[[[[[H1 H2] H3] H4] H5] H6] H7]. lia.
Qed.

Lemma encode_tl_spec cls pc num n :
  a_class cls -> a_pc pc -> low_tag num -> 0 <= n < 2 ^ 64 ->
  exists h, der_header cls pc num n h /\ 2 <= len h <= 10 /\ (n < 2 ^ 56 -> len h <= 9) /\
    (forall p old z, len old = len h ->
       encode_tl (p ++ old ++ z) (len p) cls pc num n = Ok (p ++ h ++ z, len h)).
Proof.
  intros Hc Hp Ht Hn.
  destruct (encode_length_spec n Hn) as (lo & Hd & Hl & Hs & _ & He & _).
  exists ((cls + pc + num) :: lo).
  destruct (tag_facts cls pc num Hc Hp Ht) as (Hw & _).
  repeat apply conj; try (rewrite len_cons; lia).
  - exists lo. split; [exact Hd|reflexivity].
  - intros p old z Ho. destruct old as [|o old]; [rewrite len_nil, len_cons in Ho; lia|].
    rewrite !len_cons in Ho. unfold encode_tl, encode_identifier. rewrite Hw.
    rewrite (wr_at _ _ p [o] (old ++ z)) by reflexivity. cbn [bind].
    replace (p ++ [cls + pc + num] ++ old ++ z) with ((p ++ [cls + pc + num]) ++ old ++ z)
      by (rewrite <- app_assoc; reflexivity).
    replace (len p + 1) with (len (p ++ [cls + pc + num]))
      by (rewrite len_app, len_cons, len_nil; lia).
    rewrite He by lia. cbn [bind]. unfold w64. rewrite Z.mod_small by lia.
    rewrite len_cons, <- app_assoc. reflexivity.
Qed.

Lemma der_header_unique cls pc num n a b :
  der_header cls pc num n a -> der_header cls pc num n b -> a = b.
Proof.
  intros (la & Ha & ->) (lb & Hb & ->). rewrite (der_length_unique _ _ _ Ha Hb). reflexivity.
Qed.

Lemma encode_tl_at cls pc num n h p old z :
  a_class cls -> a_pc pc -> low_tag num -> 0 <= n < 2 ^ 64 ->
  der_header cls pc num n h -> len old = len h ->
  encode_tl (p ++ old ++ z) (len p) cls pc num n = Ok (p ++ h ++ z, len h).
Proof.
  intros Hc Hp Ht Hn Hh Ho.
  destruct (encode_tl_spec cls pc num n Hc Hp Ht Hn) as (h' & Hh' & _ & _ & He).
  rewrite (der_header_unique _ _ _ _ _ _ Hh Hh') in *. apply He. exact Ho.
Qed.

Lemma der_header_exists cls pc num n : 0 <= n < 2 ^ 64 -> exists h, der_header cls pc num n h.
Proof.
  intros Hn. destruct (encode_length_spec n Hn) as (lo & Hd & _).
  exists ((cls + pc + num) :: lo). exists lo. auto.
Qed.

Lemma der_header_len cls pc num n h : 0 <= n < 2 ^ 64 -> der_header cls pc num n h ->
  2 <= len h <= 10 /\ (n < 2 ^ 56 -> len h <= 9).
Proof.
  intros Hn (lo & Hd & ->). destruct (encode_length_spec n Hn) as (lo' & Hd' & Hl & Hs & _).
  rewrite (der_length_unique _ _ _ Hd Hd'). rewrite len_cons. lia.
Qed.

Lemma tlv_outl_small n cls pc num h :
  0 <= n < 2 ^ 56 -> der_header cls pc num n h -> encode_tlv_outl n = Ok (len h + n).
Proof.
  intros Hn (lo & Hd & ->). assert (Hn' : 0 <= n < 2 ^ 64) by lia.
  destruct (encode_length_spec n Hn') as (lo' & Hd' & Hl & Hs & _ & He & _).
  rewrite <- (der_length_unique _ _ _ Hd Hd') in *. specialize (Hs (proj2 Hn)).
  unfold encode_tlv_outl.
  set (k := Z.to_nat (len lo)).
  replace (repeat 0 8) with ([] ++ repeat 0 k ++ repeat 0 (8 - k)).
  2:{ cbn [app]. rewrite <- repeat_app. f_equal. unfold k. lia. }
  change 0 with (len []) at 3. rewrite He.
  - cbn [bind]. unfold w64. rewrite len_cons, Z.mod_small by lia. reflexivity.
  - unfold len. rewrite repeat_length. unfold k, len. lia.
Qed.

Lemma tlv_outl_large n : 2 ^ 56 <= n < 2 ^ 64 -> encode_tlv_outl n = UB.
Proof.
  intros Hn. assert (Hn' : 0 <= n < 2 ^ 64) by lia.
  destruct (encode_length_spec n Hn') as (lo' & Hd' & Hl & _ & Hb & _ & Hu).
  unfold encode_tlv_outl. rewrite Hu; [reflexivity|lia|].
  rewrite (Hb (proj1 Hn)). reflexivity.
Qed.

(** ** Decoding a header *)

Lemma length_octets_spec ds : forall p r acc,
  bytes ds -> 0 <= acc -> acc * 256 ^ len ds + be_val ds < 2 ^ 64 ->
  length_octets (p ++ ds ++ r) (len p) (length ds) acc = Ok (acc * 256 ^ len ds + be_val ds).
Proof.
  induction ds as [|d ds IH]; intros p r acc Hb H0 Hlt.
  - cbn [length length_octets]. rewrite len_nil, be_val_nil. f_equal. lia.
  - cbn [length length_octets app]. rewrite rd_app. cbn [bind].
    inversion Hb as [|? ? Hd Hds]; subst.
    pose proof (be_val_bound ds Hds) as Hbd.
    assert (Hpow : 0 < 256 ^ len ds) by (apply Z.pow_pos_nonneg; [lia|apply len_nonneg]).
    rewrite len_cons, Z.pow_add_r, Z.pow_1_r in Hlt |- * by (try apply len_nonneg; lia).
    rewrite be_val_cons in Hlt |- *. fold (len ds) in *. unfold is_byte in Hd.
    assert (Hacc : acc * 256 + d < 2 ^ 64) by nia.
    rewrite Z.shiftl_mul_pow2 by lia. change (2 ^ 8) with 256.
    unfold w64. rewrite (Z.mod_small (acc * 256)) by lia.
    change (acc * 256) with (acc * 2 ^ 8) at 1.
    rewrite (lor_add_disjoint acc d 8) by (change (2 ^ 8) with 256; lia). change (2 ^ 8) with 256.
    replace (p ++ d :: ds ++ r) with ((p ++ [d]) ++ ds ++ r) by (rewrite <- app_assoc; reflexivity).
    replace (len p + 1) with (len (p ++ [d])) by (rewrite len_app, len_cons, len_nil; lia).
    rewrite IH; [f_equal; ring|exact Hds|lia|]. nia.
Qed.

Lemma land127 k : 1 <= k <= 8 -> Z.land (128 + k) 127 = k /\ Z.land (128 + k) 128 = 128.
Proof.
  intros H. assert (k = 1 \/ k = 2 \/ k = 3 \/ k = 4 \/ k = 5 \/ k = 6 \/ k = 7 \/ k = 8) as D by lia.
  destruct D as [->|[->|[->|[->|[->|[->|[->| ->]]]]]]]; split; reflexivity.
Qed.

Lemma land128_small b : 0 <= b < 128 -> Z.land b 128 = 0.
Proof.
  intros H. apply Z.bits_inj'. intros i Hi. rewrite Z.land_spec, Z.bits_0.
  change 128 with (2 ^ 7). rewrite Z.pow2_bits_eqb by lia.
  destruct (7 =? i) eqn:E; [|apply andb_false_r].
  rewrite (testbit_small b 7) by lia. reflexivity.
Qed.

Lemma land128_big b : 128 <= b < 256 -> Z.land b 128 = 128.
Proof.
  intros H. replace b with (1 * 2 ^ 7 + (b - 128)) by lia.
  rewrite <- lor_add_disjoint by lia. rewrite Z.land_lor_distr_l.
  rewrite (land128_small (b - 128)) by lia. reflexivity.
Qed.

Lemma decode_length_spec n lo p r inl_ :
  0 <= n < 2 ^ 64 -> der_length n lo -> len lo <= inl_ ->
  decode_length (p ++ lo ++ r) (len p) inl_ = Ok (inl (n, len lo)).
Proof.
  intros Hn Hd Hi. unfold decode_length.
  pose proof (encode_length_spec n Hn) as (lo' & Hd' & Hl & _).
  rewrite <- (der_length_unique _ _ _ Hd Hd') in Hl.
  destruct (inl_ =? 0) eqn:E0; [lia|].
  destruct Hd as [[H ->]|(H & ds & Hb & Hh & Hv & Hl' & ->)].
  - cbn [app]. rewrite rd_app. cbn [bind]. destruct (n =? 128) eqn:E; [lia|].
    rewrite land128_small by lia. reflexivity.
  - cbn [app]. rewrite rd_app. cbn [bind]. rewrite len_cons in Hl, Hi.
    assert (Hk : 1 <= len ds <= 8).
    { destruct ds; [cbn in Hh; lia|]. rewrite len_cons in *. pose proof (len_nonneg ds). lia. }
    destruct (128 + len ds =? 128) eqn:E; [lia|].
    destruct (land127 _ Hk) as [E1 E2]. rewrite E2, E1. cbn [Z.eqb].
    change (128 =? 0) with false. cbv iota.
    destruct (8 <? len ds) eqn:E8; [lia|].
    destruct (inl_ <? 1 + len ds) eqn:E9; [lia|].
    replace (p ++ (128 + len ds) :: ds ++ r) with ((p ++ [128 + len ds]) ++ ds ++ r)
      by (rewrite <- app_assoc; reflexivity).
    replace (len p + 1) with (len (p ++ [128 + len ds])) by (rewrite len_app, len_cons, len_nil; lia).
    replace (Z.to_nat (len ds)) with (length ds) by (unfold len; lia).
    rewrite length_octets_spec; [|exact Hb|lia|lia].
    cbn [bind]. rewrite len_cons, Hv. f_equal.
Qed.

Lemma decode_tlv_spec cls pc num n h p r inl_ :
  a_class cls -> a_pc pc -> low_tag num -> 0 <= n < 2 ^ 64 ->
  der_header cls pc num n h -> len h <= inl_ < 2 ^ 64 ->
  decode_tlv (p ++ h ++ r) (len p) inl_ =
  Ok (inl (mk_tlv cls pc num n (len p + len h), w64 (len h + n))).
Proof.
  intros Hc Hp Ht Hn (lo & Hd & ->) Hi. rewrite len_cons in *.
  destruct (tag_facts cls pc num Hc Hp Ht) as (_ & H1 & H2 & H3 & _).
  unfold decode_tlv, decode_identifier. pose proof (len_nonneg lo).
  destruct (inl_ =? 0) eqn:E; [lia|]. cbn [app]. rewrite rd_app. cbn [bind].
  rewrite H1, H2, H3. unfold low_tag in Ht. destruct (num =? 31) eqn:E31; [lia|]. cbn [bindr].
  replace (p ++ (cls + pc + num) :: lo ++ r) with ((p ++ [cls + pc + num]) ++ lo ++ r)
    by (rewrite <- app_assoc; reflexivity).
  replace (len p + 1) with (len (p ++ [cls + pc + num])) by (rewrite len_app, len_cons, len_nil; lia).
  unfold w64 at 1. rewrite Z.mod_small by lia.
  rewrite (decode_length_spec n) by (try assumption; lia).
  cbn [bindr]. rewrite len_app, len_cons, len_nil. f_equal. f_equal. f_equal. f_equal. lia.
Qed.

(** ** INTEGER *)

(** Contents octets that asn1_encode_integer_tlv leaves in the buffer; [x] is what the buffer held
    in the last place. *)
Definition int_contents (data : list Z) (x : Z) : list Z :=
  match data with [] => [] | b :: _ => if b <? 128 then data else data ++ [x] end.

Lemma integer_value_length_spec data x :
  len (int_contents data x) < 2 ^ 64 -> integer_value_length data = len (int_contents data x).
Proof.
  unfold integer_value_length, int_contents. destruct data as [|b data]; [reflexivity|].
  destruct (b <? 128); [reflexivity|]. rewrite len_app. change (len [x]) with 1. unfold len. intros H.
  unfold w64. rewrite Z.mod_small by lia. lia.
Qed.

Lemma split_len old k : 0 <= k <= len old -> exists a b, old = a ++ b /\ len a = k /\ len b = len old - k.
Proof.
  intros H. exists (firstn (Z.to_nat k) old), (skipn (Z.to_nat k) old).
  rewrite firstn_skipn. unfold len in *. rewrite firstn_length, skipn_length.
  repeat apply conj; [reflexivity|lia|lia].
Qed.

Lemma class0 : a_class 0. Proof. left; reflexivity. Qed.
Lemma pc0 : a_pc 0. Proof. left; reflexivity. Qed.
Lemma pc32 : a_pc 32. Proof. right; reflexivity. Qed.

Lemma last_app_ne (a b : list Z) : b <> [] -> last (a ++ b) 0 = last b 0.
Proof.
  intros Hb. induction a as [|x a IH]; [reflexivity|]. cbn [app last].
  rewrite IH. destruct (a ++ b) eqn:E; [|reflexivity].
  apply app_eq_nil in E. destruct E. contradiction.
Qed.

Lemma encode_integer_spec data p old z c h :
  c = int_contents data (last old 0) -> der_header 0 0 2 (len c) h ->
  len old = len h + len c -> len old < 2 ^ 64 ->
  encode_integer_tlv (p ++ old ++ z) (len p) data = Ok (p ++ (h ++ c) ++ z, len h + len c).
Proof.
  intros Hc Hh Ho Hlt. pose proof (len_nonneg h). pose proof (len_nonneg c).
  destruct (split_len old (len h)) as (oh & oc & E & Hoh & Hoc); [lia|].
  unfold encode_integer_tlv. rewrite (integer_value_length_spec data (last old 0)) by (rewrite <- Hc; lia).
  rewrite <- Hc. rewrite E. rewrite <- app_assoc.
  unfold CLASS_UNIVERSAL, PC_PRIMITIVE, TAG_INTEGER.
  rewrite (encode_tl_at 0 0 2 (len c) h);
    [|exact class0|exact pc0|unfold low_tag; lia|lia|exact Hh|exact Hoh].
  cbn [bind]. destruct data as [|b data].
  - cbn in Hc. subst c. rewrite len_nil in *. destruct oc; [|rewrite len_cons in Hoc; pose proof (len_nonneg oc); lia].
    rewrite Z.add_0_r, app_nil_r. reflexivity.
  - destruct (b <? 128) eqn:Eb; cbn [int_contents] in Hc; rewrite Eb in Hc.
    + destruct (128 <=? b) eqn:Eb2; [lia|]. cbn [bind].
      rewrite (wr_at _ _ (p ++ h) oc z (b :: data)); cbn [bind].
      * unfold w64. fold (len (b :: data)). rewrite <- Hc, Z.mod_small by lia.
        rewrite <- !app_assoc. reflexivity.
      * rewrite <- app_assoc. reflexivity.
      * rewrite len_app. reflexivity.
      * rewrite <- Hc. lia.
    + destruct (128 <=? b) eqn:Eb2; [|lia].
      assert (Hlc : len c = len (b :: data) + 1) by (rewrite Hc, len_app; reflexivity).
      rewrite len_cons in Hlc. pose proof (len_nonneg data).
      destruct (split_len oc (1 + len data)) as (o1 & o2 & E2 & Ho1 & Ho2); [lia|].
      assert (Ho2' : exists x, o2 = [x]).
      { destruct o2 as [|x [|y o2]]; [|exists x; reflexivity|].
        - rewrite len_nil in Ho2. lia.
        - rewrite !len_cons in Ho2. pose proof (len_nonneg o2). lia. }
      destruct Ho2' as (x & ->).
      assert (Hx : last old 0 = x).
      { rewrite E, E2, app_assoc. apply last_last. }
      rewrite Hx in Hc.
      destruct o1 as [|y o1]; [rewrite len_nil in Ho1; lia|]. rewrite len_cons in Ho1.
      rewrite (wr_at _ _ (p ++ h) [y] (o1 ++ [x] ++ z) [0]); cbn [bind].
      * rewrite (wr_at _ _ (p ++ h) (0 :: o1) ([x] ++ z) (b :: data)); cbn [bind].
        -- unfold w64. rewrite (Z.mod_small (len h + 1)) by lia.
           change (Z.of_nat (length (b :: data))) with (len (b :: data)). rewrite len_cons.
           rewrite Z.mod_small by lia. rewrite Hc. rewrite <- !app_assoc. cbn [app].
           apply (f_equal Ok). apply f_equal2; [reflexivity|].
           change (b :: data ++ [x]) with ((b :: data) ++ [x]).
           rewrite len_app, len_cons. change (len [x]) with 1. lia.
        -- reflexivity.
        -- rewrite len_app. reflexivity.
        -- rewrite !len_cons. lia.
      * rewrite E2, <- !app_assoc. reflexivity.
      * rewrite len_app. reflexivity.
      * reflexivity.
Qed.

Lemma integer_outl_spec data c x h :
  c = int_contents data x -> der_header 0 0 2 (len c) h -> len c < 2 ^ 56 ->
  encode_integer_outl data = Ok (len h + len c).
Proof.
  intros Hc Hh Hl. unfold encode_integer_outl.
  rewrite (integer_value_length_spec data x) by (rewrite <- Hc; lia). rewrite <- Hc.
  apply (tlv_outl_small _ 0 0 2); [|exact Hh]. pose proof (len_nonneg c). lia.
Qed.

(** What asn1_decode_integer_value does with contents [c]. *)
Definition int_magnitude (c : list Z) : list Z :=
  match c with b0 :: b1 :: r => if b0 =? 0 then b1 :: r else c | _ => c end.

Lemma decode_integer_spec cls c h p r inl_ :
  a_class cls -> bytes c -> der_header cls 0 2 (len c) h -> len h <= inl_ < 2 ^ 64 ->
  len h + len c < 2 ^ 64 ->
  decode_integer_value (p ++ (h ++ c) ++ r) (len p) inl_ =
  Ok (if int_minimal c
      then inl (len p + len h + len c - len (int_magnitude c), len (int_magnitude c), len h + len c)
      else inr (-1)).
Proof.
  intros Hcl Hb Hh Hi Hl. pose proof (len_nonneg h). pose proof (len_nonneg c).
  unfold decode_integer_value. rewrite <- app_assoc.
  rewrite (decode_tlv_spec cls 0 2 (len c) h);
    [|exact Hcl|exact pc0|unfold low_tag; lia|lia|exact Hh|exact Hi].
  cbn [bindr tag_pc tag_number tlv_length tlv_value].
  unfold PC_PRIMITIVE, TAG_INTEGER. rewrite !Z.eqb_refl. cbn [negb orb].
  unfold w64. rewrite (Z.mod_small (len h + len c)) by lia.
  destruct c as [|b0 [|b1 c]].
  - reflexivity.
  - rewrite len_cons, len_nil. cbn [int_minimal int_magnitude]. rewrite len_cons, len_nil.
    change (1 + 0 =? 0) with false. change (1 <? 1 + 0) with false. cbv iota.
    replace (len p + len h + (1 + 0) - (1 + 0)) with (len p + len h) by lia. reflexivity.
  - inversion Hb as [|? ? Hb0 Hb']; subst. inversion Hb' as [|? ? Hb1 Hb'']; subst.
    unfold is_byte in *. rewrite !len_cons in *. pose proof (len_nonneg c).
    destruct (1 + (1 + len c) =? 0) eqn:E; [lia|].
    destruct (1 <? 1 + (1 + len c)) eqn:E1; [|lia].
    rewrite (rd_at _ (p ++ h) b0 ((b1 :: c) ++ r));
      [|rewrite <- app_assoc; reflexivity|rewrite len_app; reflexivity]. cbn [bind].
    cbn [int_minimal int_magnitude].
    assert (R1 : rd (p ++ h ++ (b0 :: b1 :: c) ++ r) (len p + len h + 1) = Ok b1).
    { apply (rd_at _ (p ++ h ++ [b0]) b1 (c ++ r));
        [rewrite <- !app_assoc; reflexivity|rewrite !len_app, len_cons, len_nil; lia]. }
    destruct (b0 =? 0) eqn:Eb0.
    + rewrite R1. cbn [bind]. destruct (b1 <? 128) eqn:Eb1.
      * rewrite land128_small by lia. reflexivity.
      * rewrite land128_big by lia. change (128 =? 0) with false. cbv iota.
        replace (b0 =? 255) with false by lia. cbn [negb andb]. rewrite len_cons.
        apply (f_equal Ok), (f_equal inl). apply f_equal2; [|reflexivity]. apply f_equal2; lia.
    + destruct (b0 =? 255) eqn:Eb255.
      * rewrite R1. cbn [bind]. destruct (128 <=? b1) eqn:Eb1.
        -- rewrite land128_big by lia. reflexivity.
        -- rewrite land128_small by lia. change (0 =? 128) with false. cbn [negb andb]. cbv iota.
           rewrite !len_cons. apply (f_equal Ok), (f_equal inl).
           apply f_equal2; [|reflexivity]. apply f_equal2; lia.
      * cbn [negb andb]. rewrite !len_cons. apply (f_equal Ok), (f_equal inl).
        apply f_equal2; [|reflexivity]. apply f_equal2; lia.
Qed.

(** The returned bytes are the last [len (int_magnitude c)] ones of the contents. *)
Lemma int_magnitude_suffix c : exists a, c = a ++ int_magnitude c.
Proof.
  destruct c as [|b0 [|b1 c]]; try (exists []; reflexivity).
  cbn [int_magnitude]. destruct (b0 =? 0); [exists [b0]|exists []]; reflexivity.
Qed.

Lemma zslice_app p d r off n : off = len p -> n = len d -> zslice (p ++ d ++ r) off n = d.
Proof.
  intros -> ->. unfold zslice, len. rewrite !Nat2Z.id. apply slice_exact; reflexivity.
Qed.

Lemma int_magnitude_slice p h c r :
  zslice (p ++ (h ++ c) ++ r) (len p + len h + len c - len (int_magnitude c)) (len (int_magnitude c))
  = int_magnitude c.
Proof.
  destruct (int_magnitude_suffix c) as (a & E).
  remember (int_magnitude c) as d. rewrite E. rewrite <- !app_assoc.
  replace (p ++ h ++ a ++ d ++ r) with ((p ++ h ++ a) ++ d ++ r) by (rewrite <- !app_assoc; reflexivity).
  apply zslice_app; [|reflexivity]. rewrite !len_app. lia.
Qed.

Lemma int_magnitude_val c : bytes c -> c <> [] -> hd 0 c < 128 -> be_val (int_magnitude c) = int_val c.
Proof.
  intros Hb Hne Hh. unfold int_val. destruct (hd 0 c <? 128) eqn:E; [|lia].
  destruct c as [|b0 [|b1 c]]; try reflexivity. cbn [int_magnitude].
  destruct (b0 =? 0) eqn:E0; [|reflexivity]. assert (b0 = 0) by lia. subst b0.
  rewrite (be_val_cons 0). lia.
Qed.

(** ** OCTET STRING, BOOLEAN, NULL, SEQUENCE, SET, BIT STRING *)

Lemma encode_octet_string_spec data p old z h :
  der_header 0 0 4 (len data) h -> len old = len h + len data -> len old < 2 ^ 64 ->
  encode_octet_string_tlv (p ++ old ++ z) (len p) data
  = Ok (p ++ (h ++ data) ++ z, len h + len data).
Proof.
  intros Hh Ho Hlt. pose proof (len_nonneg h). pose proof (len_nonneg data).
  destruct (split_len old (len h)) as (oh & oc & E & Hoh & Hoc); [lia|].
  unfold encode_octet_string_tlv. fold (len data). rewrite E. rewrite <- app_assoc.
  unfold CLASS_UNIVERSAL, PC_PRIMITIVE, TAG_OCTET_STRING.
  rewrite (encode_tl_at 0 0 4 (len data) h);
    [|exact class0|exact pc0|unfold low_tag; lia|lia|exact Hh|exact Hoh].
  cbn [bind].
  rewrite (wr_at _ _ (p ++ h) oc z data); cbn [bind].
  - unfold w64. rewrite Z.mod_small by lia. rewrite <- !app_assoc. reflexivity.
  - rewrite <- app_assoc. reflexivity.
  - rewrite len_app. reflexivity.
  - lia.
Qed.

Lemma decode_octet_string_spec cls pc v h p r inl_ :
  a_class cls -> a_pc pc -> der_header cls pc 4 (len v) h -> len h <= inl_ < 2 ^ 64 ->
  len h + len v < 2 ^ 64 ->
  decode_octet_string_value (p ++ h ++ r) (len p) inl_ =
  Ok (if len v =? 0 then inr (-1) else inl (len p + len h, len v, len h + len v)).
Proof.
  intros Hcl Hpc Hh Hi Hl. pose proof (len_nonneg h). pose proof (len_nonneg v).
  unfold decode_octet_string_value.
  rewrite (decode_tlv_spec cls pc 4 (len v) h);
    [|exact Hcl|exact Hpc|unfold low_tag; lia|lia|exact Hh|exact Hi].
  cbn [bindr tag_pc tag_number tlv_length tlv_value].
  unfold TAG_OCTET_STRING. rewrite !Z.eqb_refl. cbn [negb orb].
  unfold w64. rewrite (Z.mod_small (len h + len v)) by lia. destruct (len v =? 0); reflexivity.
Qed.

Lemma decode_sequence_spec cls n h p r inl_ :
  a_class cls -> 0 <= n -> der_header cls 32 16 n h -> len h <= inl_ < 2 ^ 64 ->
  len h + n < 2 ^ 64 ->
  decode_sequence_value (p ++ h ++ r) (len p) inl_ =
  Ok (if n =? 0 then inr (-1) else inl (len p + len h, n, len h + n)).
Proof.
  intros Hcl Hn Hh Hi Hl. pose proof (len_nonneg h).
  unfold decode_sequence_value.
  rewrite (decode_tlv_spec cls 32 16 n h);
    [|exact Hcl|exact pc32|unfold low_tag; lia|lia|exact Hh|exact Hi].
  cbn [bindr tag_pc tag_number tlv_length tlv_value].
  unfold TAG_SEQUENCE, PC_CONSTRUCTED. rewrite !Z.eqb_refl. cbn [negb orb].
  unfold w64. rewrite (Z.mod_small (len h + n)) by lia. destruct (n =? 0); reflexivity.
Qed.

Lemma decode_set_spec cls n h p r inl_ :
  a_class cls -> 0 <= n -> der_header cls 32 17 n h -> len h <= inl_ < 2 ^ 64 ->
  len h + n < 2 ^ 64 ->
  decode_set_value (p ++ h ++ r) (len p) inl_ =
  Ok (if n =? 0 then inr (-1) else inl (len p + len h, n, len h + n)).
Proof.
  intros Hcl Hn Hh Hi Hl. pose proof (len_nonneg h).
  unfold decode_set_value.
  rewrite (decode_tlv_spec cls 32 17 n h);
    [|exact Hcl|exact pc32|unfold low_tag; lia|lia|exact Hh|exact Hi].
  cbn [bindr tag_pc tag_number tlv_length tlv_value].
  unfold TAG_SET, PC_CONSTRUCTED. rewrite !Z.eqb_refl. cbn [negb orb].
  unfold w64. rewrite (Z.mod_small (len h + n)) by lia. destruct (n =? 0); reflexivity.
Qed.

Lemma decode_boolean_spec cls x h p r inl_ :
  a_class cls -> der_header cls 0 1 1 h -> len h <= inl_ < 2 ^ 64 ->
  decode_boolean_value (p ++ (h ++ [x]) ++ r) (len p) inl_ = Ok (inl (negb (x =? 0), len h + 1)).
Proof.
  intros Hcl Hh Hi. pose proof (der_header_len cls 0 1 1 h ltac:(lia) Hh) as [Hl _].
  unfold decode_boolean_value. rewrite <- app_assoc.
  rewrite (decode_tlv_spec cls 0 1 1 h);
    [|exact Hcl|exact pc0|unfold low_tag; lia|lia|exact Hh|exact Hi].
  cbn [bindr tag_pc tag_number tlv_length tlv_value].
  unfold PC_PRIMITIVE, TAG_BOOLEAN. rewrite !Z.eqb_refl. cbn [negb orb].
  rewrite (rd_at _ (p ++ h) x r);
      [|rewrite <- app_assoc; reflexivity|rewrite len_app; reflexivity]. cbn [bind].
  unfold w64. rewrite Z.mod_small by lia. reflexivity.
Qed.

Lemma decode_null_spec cls h p r inl_ :
  a_class cls -> der_header cls 0 5 0 h -> len h <= inl_ < 2 ^ 64 ->
  decode_null_value (p ++ h ++ r) (len p) inl_ = Ok (inl (len h)).
Proof.
  intros Hcl Hh Hi. pose proof (der_header_len cls 0 5 0 h ltac:(lia) Hh) as [Hl _].
  unfold decode_null_value.
  rewrite (decode_tlv_spec cls 0 5 0 h);
    [|exact Hcl|exact pc0|unfold low_tag; lia|lia|exact Hh|exact Hi].
  cbn [bindr tag_pc tag_number tlv_length tlv_value].
  unfold PC_PRIMITIVE, TAG_NULL. rewrite !Z.eqb_refl. cbn [negb orb].
  unfold w64. rewrite Z.mod_small by lia. rewrite Z.add_0_r. reflexivity.
Qed.

Lemma encode_boolean_spec b p x y w z :
  encode_boolean_tlv (p ++ [x; y; w] ++ z) (len p) b
  = Ok (p ++ [1; 1; if b then 255 else 0] ++ z, 3).
Proof.
  unfold encode_boolean_tlv.
  rewrite (wr_at _ _ p [x] ([y; w] ++ z)) by reflexivity. cbn [bind].
  change (w8 (Z.lor (Z.lor (Z.shiftl CLASS_UNIVERSAL 6) (Z.shiftl PC_PRIMITIVE 5)) TAG_BOOLEAN)) with 1.
  rewrite (wr_at _ _ (p ++ [1]) [y] ([w] ++ z));
    [|rewrite <- app_assoc; reflexivity|rewrite len_app, len_cons, len_nil; lia|reflexivity]. cbn [bind].
  rewrite (wr_at _ _ (p ++ [1; 1]) [w] z);
    [|rewrite <- !app_assoc; reflexivity|rewrite len_app, !len_cons, len_nil; lia|reflexivity]. cbn [bind].
  rewrite <- !app_assoc. reflexivity.
Qed.

Lemma bit_string_value_length_spec bits n :
  0 <= bits < 2 ^ 64 - 7 -> 8 * n - 7 <= bits <= 8 * n -> bit_string_value_length bits = n + 1.
Proof.
  intros Hb Hn. unfold bit_string_value_length, w64. rewrite (Z.mod_small (bits + 7)) by lia.
  assert ((bits + 7) / 8 = n) as ->.
  { symmetry. apply (Z.div_unique (bits + 7) 8 n (bits + 7 - 8 * n)); lia. }
  rewrite Z.mod_small by lia. reflexivity.
Qed.

Lemma unused_bits bits n : 8 * n - 7 <= bits <= 8 * n -> (8 - bits mod 8) mod 8 = 8 * n - bits.
Proof.
  intros H. replace bits with ((bits - 8 * (n - 1)) + (n - 1) * 8) at 1 by lia.
  rewrite Z.mod_add by lia.
  assert (1 <= bits - 8 * (n - 1) <= 8) by lia.
  destruct (Z.eq_dec (bits - 8 * (n - 1)) 8) as [E|Hd].
  - rewrite E. change ((8 - 8 mod 8) mod 8) with 0. lia.
  - rewrite (Z.mod_small (bits - 8 * (n - 1))) by lia. rewrite Z.mod_small by lia. lia.
Qed.

Lemma encode_bit_string_spec data bits p old z h :
  0 <= bits < 2 ^ 64 - 7 -> 8 * len data - 7 <= bits <= 8 * len data ->
  der_header 0 0 3 (1 + len data) h -> len old = len h + (1 + len data) -> len old < 2 ^ 64 ->
  encode_bit_string_tlv (p ++ old ++ z) (len p) data bits
  = Ok (p ++ (h ++ (8 * len data - bits) :: data) ++ z, len h + (1 + len data)).
Proof.
  intros Hbits Hb Hh Ho Hlt. pose proof (len_nonneg h). pose proof (len_nonneg data).
  destruct (split_len old (len h)) as (oh & oc & E & Hoh & Hoc); [lia|].
  destruct oc as [|o oc]; [rewrite len_nil in Hoc; lia|]. rewrite len_cons in Hoc.
  unfold encode_bit_string_tlv. rewrite (bit_string_value_length_spec bits (len data)) by lia.
  rewrite (Z.add_comm (len data) 1). rewrite E. rewrite <- app_assoc.
  unfold CLASS_UNIVERSAL, PC_PRIMITIVE, TAG_BIT_STRING.
  rewrite (encode_tl_at 0 0 3 (1 + len data) h);
    [|exact class0|exact pc0|unfold low_tag; lia|lia|exact Hh|exact Hoh].
  cbn [bind]. rewrite (unused_bits bits (len data)) by lia.
  rewrite (wr_at _ _ (p ++ h) [o] (oc ++ z));
    [|rewrite <- app_assoc; reflexivity|rewrite len_app; reflexivity|reflexivity]. cbn [bind].
  rewrite (wr_at _ _ (p ++ h ++ [8 * len data - bits]) oc z data);
    [|rewrite <- !app_assoc; reflexivity|rewrite !len_app, len_cons, len_nil; lia|lia]. cbn [bind].
  fold (len data). unfold w64. rewrite (Z.mod_small (len h + 1)) by lia. rewrite Z.mod_small by lia.
  rewrite <- !app_assoc. cbn [app]. apply (f_equal Ok). apply f_equal2; [reflexivity|lia].
Qed.

Lemma decode_bit_string_spec cls pc u data h p r inl_ :
  a_class cls -> a_pc pc -> 0 <= u <= 7 -> (data = [] -> u = 0) ->
  der_header cls pc 3 (1 + len data) h -> len h <= inl_ < 2 ^ 64 ->
  len h + (1 + len data) < 2 ^ 64 ->
  decode_bit_string_value (p ++ (h ++ u :: data) ++ r) (len p) inl_ =
  Ok (inl (len p + len h + 1, len data, w64 (8 * len data - (cls + pc + 3)),
           len h + (1 + len data))).
Proof.
  intros Hcl Hpc Hu Hu0 Hh Hi Hl. pose proof (len_nonneg h). pose proof (len_nonneg data).
  unfold decode_bit_string_value. rewrite <- app_assoc.
  rewrite (decode_tlv_spec cls pc 3 (1 + len data) h);
    [|exact Hcl|exact Hpc|unfold low_tag; lia|lia|exact Hh|exact Hi].
  cbn [bindr tag_pc tag_number tlv_length tlv_value].
  unfold TAG_BIT_STRING. rewrite !Z.eqb_refl. cbn [negb orb].
  unfold w64 at 2. rewrite (Z.mod_small (len h + (1 + len data))) by lia.
  destruct (1 + len data =? 0) eqn:E0; [lia|].
  rewrite (rd_at _ (p ++ h) u (data ++ r));
      [|rewrite <- app_assoc; reflexivity|rewrite len_app; reflexivity]. cbn [bind].
  replace ((1 + len data =? 1) && negb (u =? 0)) with false.
  2:{ destruct (1 + len data =? 1) eqn:E1; [|reflexivity].
      assert (data = []) as Hd by (destruct data as [|? data]; [reflexivity|rewrite len_cons in E1; pose proof (len_nonneg data); lia]).
      rewrite (Hu0 Hd). reflexivity. }
  replace ((0 <=? u) && (u <=? 7)) with true by lia. cbn [negb].
  destruct Hh as (lo & Hd & ->). cbn [app]. rewrite rd_app. cbn [bind].
  replace (1 + len data - 1) with (len data) by lia. reflexivity.
Qed.

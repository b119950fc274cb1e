(** Proofs about the ASN.1 model: INTEGER round trip, DER of SM2 keys, signatures, ciphertexts. *)
From Verif Require Import Base BaseFacts ModelASN1 SpecASN1 ProofASN1.

Lemma w64_small x : 0 <= x < 2 ^ 64 -> w64 x = x.
Proof. apply Z.mod_small. Qed.

Lemma zfirst_app n a z : n = len a -> zfirst n (a ++ z) = a.
Proof. intros ->. unfold zfirst, len. rewrite Nat2Z.id. apply firstn_exact. reflexivity. Qed.

Lemma bytes_split a b : bytes (a ++ b) -> bytes a /\ bytes b.
Proof. apply bytes_app. Qed.

Lemma last_byte l : bytes l -> is_byte (last l 0).
Proof.
  intros H. destruct l as [|x l] using rev_ind; [unfold is_byte; cbn; lia|].
  rewrite last_last. apply bytes_split in H. destruct H as [_ H]. inversion H; subst. assumption.
Qed.

Lemma int_contents_bytes data x : bytes data -> is_byte x -> bytes (int_contents data x).
Proof.
  intros Hd Hx. destruct data as [|b data]; [exact Hd|]. cbn [int_contents].
  destruct (b <? 128); [exact Hd|]. apply bytes_app. split; [exact Hd|]. constructor; [exact Hx|constructor].
Qed.

Lemma int_contents_len data x y : len (int_contents data x) = len (int_contents data y).
Proof.
  destruct data as [|b data]; [reflexivity|]. cbn [int_contents]. destruct (b <? 128); [reflexivity|].
  rewrite !len_app. reflexivity.
Qed.

Lemma int_contents_bound data x : len data <= len (int_contents data x) <= len data + 1.
Proof.
  destruct data as [|b data]; [cbn; lia|]. cbn [int_contents]. destruct (b <? 128); [lia|].
  rewrite len_app. change (len [x]) with 1. lia.
Qed.

Lemma der_header_len2 cls pc num n h : der_header cls pc num n h -> 0 <= n < 2 ^ 64 ->
  2 <= len h <= 10 /\ (n < 2 ^ 56 -> len h <= 9).
Proof. intros H Hn. exact (der_header_len _ _ _ _ _ Hn H). Qed.

Lemma tlv_outl_small2 n cls pc num h :
  der_header cls pc num n h -> 0 <= n < 2 ^ 56 -> encode_tlv_outl n = Ok (len h + n).
Proof. intros H Hn. exact (tlv_outl_small n cls pc num h Hn H). Qed.

(** The leading bytes for which the encoded integer decodes to the same number. *)
Definition survives (data : list Z) : bool :=
  match data with
  | [] => false
  | [b] => b <? 128
  | b0 :: b1 :: _ => ((1 <=? b0) && (b0 <? 128)) || ((b0 =? 0) && (128 <=? b1))
  end.

Lemma survives_iff data x : bytes data -> is_byte x -> data <> [] ->
  let c := int_contents data x in
  (int_minimal c = true /\ be_val (int_magnitude c) = be_val data) <-> survives data = true.
Proof.
  intros Hd Hx Hne c. subst c. unfold is_byte in Hx.
  destruct data as [|b0 data]; [congruence|]. inversion Hd as [|? ? Hb0 Hd']; subst.
  unfold is_byte in Hb0. destruct data as [|b1 data].
  - cbn [int_contents survives]. destruct (b0 <? 128) eqn:E.
    + cbn [int_minimal int_magnitude]. tauto.
    + cbn [app int_magnitude int_minimal]. split; [|discriminate].
      intros [_ H]. destruct (b0 =? 0) eqn:E0; [lia|].
      change [b0; x] with ([b0] ++ [x]) in H. rewrite be_val_app in H.
      change (be_val [b0]) with (256 * 0 + b0) in H.
      change (be_val [x]) with (256 * 0 + x) in H.
      change (256 ^ Z.of_nat (length [x])) with 256 in H. lia.
  - inversion Hd' as [|? ? Hb1 Hd'']; subst. unfold is_byte in Hb1.
    cbn [int_contents survives]. destruct (b0 <? 128) eqn:E.
    + cbn [int_minimal int_magnitude]. destruct (b0 =? 0) eqn:E0.
      * assert (b0 = 0) by lia. subst b0. rewrite (be_val_cons 0). rewrite Z.mul_0_l, Z.add_0_l.
        cbn [andb orb negb]. change (1 <=? 0) with false. change (0 =? 255) with false.
        destruct (b1 <? 128) eqn:E1; destruct (128 <=? b1) eqn:E2; cbn [negb andb orb]; try lia; split;
          try (intros [H _]; discriminate); try discriminate; intros _; split; reflexivity.
      * replace (b0 =? 255) with false by lia. cbn [andb negb].
        replace (1 <=? b0) with true by lia. cbn [andb orb]. tauto.
    + replace (b0 =? 0) with false by lia. rewrite andb_false_r. cbn [andb orb].
      split; [|discriminate]. intros [_ H]. exfalso.
      set (d := b0 :: b1 :: data) in *.
      assert (Hm : int_magnitude (d ++ [x]) = d ++ [x]).
      { unfold d. cbn [app int_magnitude]. replace (b0 =? 0) with false by lia. reflexivity. }
      rewrite Hm in H. rewrite be_val_app in H. change (256 ^ Z.of_nat (length [x])) with 256 in H.
      change (be_val [x]) with (256 * 0 + x) in H.
      assert (0 < be_val d).
      { unfold d. rewrite be_val_cons. pose proof (be_val_bound _ Hd').
        pose proof (Z.pow_pos_nonneg 256 (Z.of_nat (length (b1 :: data)))). nia. }
      lia.
Qed.

Lemma take_buf buf n : 0 <= n <= len buf -> exists old z, buf = old ++ z /\ len old = n.
Proof.
  intros H. destruct (split_len buf n H) as (a & b & E & Ha & _). exists a, b. auto.
Qed.

Lemma integer_roundtrip_iff data buf n :
  bytes data -> data <> [] -> len data < 2 ^ 56 - 1 -> bytes buf ->
  encode_integer_outl data = Ok n -> n <= len buf ->
  exists buf', encode_integer_tlv buf 0 data = Ok (buf', n) /\ len buf' = len buf /\
    ((exists p k, decode_integer_value (zfirst n buf') 0 n = Ok (inl (p, k, n)) /\
                  be_val (zslice (zfirst n buf') p k) = be_val data)
     <-> survives data = true).
Proof.
  intros Hd Hne Hl Hbuf Hn Hnb.
  pose proof (len_nonneg data) as Hl0. pose proof (int_contents_bound data 0) as Hcb.
  destruct (der_header_exists 0 0 2 (len (int_contents data 0)) ltac:(lia)) as (h & Hh).
  pose proof (integer_outl_spec data _ 0 h eq_refl Hh ltac:(lia)) as Ho.
  rewrite Hn in Ho. injection Ho as Ho.
  destruct (der_header_len2 _ _ _ _ _ Hh) as [Hhl _]; [lia|].
  destruct (take_buf buf n) as (old & z & E & Hold); [lia|]. subst buf.
  apply bytes_split in Hbuf. destruct Hbuf as [Hbo _].
  set (c := int_contents data (last old 0)).
  assert (Hc : len c = len (int_contents data 0)) by apply int_contents_len.
  exists (([] ++ (h ++ c) ++ z)). rewrite <- Hc in Hh, Ho, Hcb.
  split; [|split].
  - rewrite Ho. apply (encode_integer_spec data [] old z c h); [reflexivity|exact Hh|lia|lia].
  - cbn [app]. rewrite !len_app. lia.
  - cbn [app]. rewrite (zfirst_app n (h ++ c)) by (rewrite len_app; lia).
    assert (Hdec : decode_integer_value (h ++ c) 0 n = Ok
       (if int_minimal c
        then inl (0 + len h + len c - len (int_magnitude c), len (int_magnitude c), len h + len c)
        else inr (-1))).
    { pose proof (decode_integer_spec 0 c h [] [] n) as D. cbn [app] in D. rewrite app_nil_r in D.
      change (len []) with 0 in D. apply D; [exact class0| |exact Hh|lia|lia].
      apply int_contents_bytes; [exact Hd|]. apply last_byte. exact Hbo. }
    rewrite Hdec. rewrite <- (survives_iff data (last old 0) Hd (last_byte _ Hbo) Hne).
    fold c. cbv zeta. split.
    + intros (p & k & H1 & H2). destruct (int_minimal c); [|discriminate].
      injection H1 as <- <- _. split; [reflexivity|]. rewrite <- H2.
      pose proof (int_magnitude_slice [] h c []) as Hsl. cbn [app] in Hsl. rewrite app_nil_r in Hsl.
      change (len []) with 0 in Hsl. rewrite Hsl. reflexivity.
    + intros [H1 H2]. rewrite H1. rewrite <- Ho. eexists _, _. split; [reflexivity|].
      pose proof (int_magnitude_slice [] h c []) as Hsl. cbn [app] in Hsl. rewrite app_nil_r in Hsl.
      change (len []) with 0 in Hsl. rewrite Hsl. exact H2.
Qed.

(** When the leading byte needs no sign octet the output is the DER of the number. *)
Lemma integer_der data buf n :
  bytes data -> len data < 2 ^ 56 - 1 ->
  (exists b, data = [b] /\ b < 128) \/ 1 <= hd 0 data < 128 ->
  encode_integer_outl data = Ok n -> n <= len buf ->
  exists l z, encode_integer_tlv buf 0 data = Ok (l ++ z, n) /\ len l = n /\
              der_integer (be_val data) l.
Proof.
  intros Hd Hl Hh0 Hn Hnb.
  assert (Hc : forall x, int_contents data x = data /\ int_minimal data = true /\
                         int_val data = be_val data /\ data <> []).
  { intros x. destruct Hh0 as [(b & -> & Hb)|Hh0].
    - cbn [int_contents int_minimal]. unfold int_val. cbn [hd].
      replace (b <? 128) with true by lia. repeat apply conj; try reflexivity. discriminate.
    - destruct data as [|b0 data]; [cbn in Hh0; lia|]. cbn [hd] in Hh0.
      cbn [int_contents]. unfold int_val. cbn [hd]. replace (b0 <? 128) with true by lia.
      repeat apply conj; try reflexivity; try discriminate.
      destruct data as [|b1 data]; [reflexivity|]. cbn [int_minimal].
      replace (b0 =? 0) with false by lia. replace (b0 =? 255) with false by lia. reflexivity. }
  pose proof (len_nonneg data) as Hl0.
  destruct (der_header_exists 0 0 2 (len data) ltac:(lia)) as (h & Hh).
  destruct (Hc 0) as (Hc0 & Hmin & Hv & Hne).
  pose proof (integer_outl_spec data data 0 h (eq_sym Hc0) Hh ltac:(lia)) as Ho.
  rewrite Hn in Ho. injection Ho as Ho.
  destruct (der_header_len2 _ _ _ _ _ Hh) as [Hhl _]; [lia|].
  destruct (take_buf buf n) as (old & z & E & Hold); [lia|]. subst buf.
  exists (h ++ data), z. split; [|split].
  - rewrite Ho. apply (encode_integer_spec data [] old z data h);
      [symmetry; apply (Hc (last old 0))|exact Hh|lia|lia].
  - rewrite len_app. lia.
  - exists data. repeat apply conj; try assumption. exists h. auto.
Qed.

Lemma integer_decode_der v l p r inl_ :
  0 <= v -> der_integer v l -> len l <= inl_ < 2 ^ 64 ->
  exists off k, decode_integer_value (p ++ l ++ r) (len p) inl_ = Ok (inl (off, k, len l)) /\
                be_val (zslice (p ++ l ++ r) off k) = v /\
                len p <= off /\ off + k = len p + len l /\
                (v = 0 \/ nz (p ++ l ++ r) (Z.to_nat off) <> 0).
Proof.
  intros Hv (c & Hb & Hmin & Hval & h & Hh & ->) Hi. rewrite len_app in *.
  pose proof (len_nonneg h). pose proof (len_nonneg c). pose proof (len_nonneg p).
  rewrite (decode_integer_spec 0 c h p r inl_ class0 Hb Hh) by lia. rewrite Hmin.
  eexists _, _. split; [reflexivity|]. rewrite int_magnitude_slice.
  assert (Hne : c <> []) by (intros ->; discriminate).
  assert (Hh0 : hd 0 c < 128).
  { unfold int_val in Hval. destruct (hd 0 c <? 128) eqn:E; [lia|].
    pose proof (be_val_bound c Hb). fold (len c) in *. lia. }
  assert (Hm : len (int_magnitude c) <= len c).
  { destruct (int_magnitude_suffix c) as (a & E). rewrite E at 2. rewrite len_app.
    pose proof (len_nonneg a). lia. }
  split; [rewrite int_magnitude_val by assumption; exact Hval|]. split; [lia|]. split; [lia|].
  destruct (Z.eq_dec v 0) as [|Hv0]; [left; assumption|right].
  assert (Hz : nz (p ++ (h ++ c) ++ r) (Z.to_nat (len p + len h + len c - len (int_magnitude c)))
               = hd 0 (int_magnitude c)).
  { destruct (int_magnitude_suffix c) as (a & E).
    destruct (int_magnitude c) as [|d0 d] eqn:Ed.
    { exfalso. destruct c as [|? [|? ?]]; cbn in Ed; try congruence. destruct (_ =? 0) in Ed; congruence. }
    rewrite E. rewrite (len_app a). rewrite <- !app_assoc.
    replace (p ++ h ++ a ++ (d0 :: d) ++ r) with ((p ++ h ++ a) ++ (d0 :: d) ++ r)
      by (rewrite <- !app_assoc; reflexivity).
    unfold nz. rewrite app_nth2; [|unfold len; rewrite !app_length; lia].
    replace (Z.to_nat _ - length (p ++ h ++ a))%nat with 0%nat; [reflexivity|].
    unfold len. rewrite !app_length. lia. }
  rewrite Hz. destruct c as [|b0 [|b1 c]]; [congruence| |].
  - cbn [int_magnitude hd]. intros ->. apply Hv0. rewrite <- Hval. reflexivity.
  - cbn [int_magnitude]. cbn [int_minimal] in Hmin. destruct (b0 =? 0) eqn:E0; [|cbn [hd]; lia].
    cbn [hd]. intros ->. cbn in Hmin. discriminate.
Qed.

(** ** 32-byte integers *)

Lemma short_header cls pc num n : 0 <= n < 128 -> der_header cls pc num n [cls + pc + num; n].
Proof. intros H. exists [n]. split; [left; split; [lia|reflexivity]|reflexivity]. Qed.

Definition plain (data : list Z) : bool := (1 <=? hd 0 data) && (hd 0 data <? 128).

Lemma decode_int32_spec data x p r inl_ :
  bytes data -> len data = 32 -> is_byte x -> 2 <= inl_ < 2 ^ 64 ->
  let c := int_contents data x in
  decode_int32 (p ++ ([2; len c] ++ c) ++ r) (len p) inl_ =
  Ok (if plain data then inl (len p + 2, 34) else inr (-1)).
Proof.
  intros Hd Hl Hx Hi c. unfold decode_int32.
  pose proof (int_contents_bound data x) as Hcb. fold c in Hcb.
  rewrite (decode_integer_spec 0 c [2; len c] p r inl_);
    [|exact class0|apply int_contents_bytes; assumption|apply (short_header 0 0 2); lia|
      change (len [2; len c]) with 2; lia|change (len [2; len c]) with 2; lia].
  change (len [2; len c]) with 2. unfold plain.
  destruct data as [|b0 [|b1 data]]; [rewrite len_nil in Hl; lia|rewrite len_cons, len_nil in Hl; lia|].
  cbn [hd]. inversion Hd as [|? ? Hb0 _]; subst. unfold is_byte in Hb0.
  subst c. cbn [int_contents] in *. destruct (b0 <? 128) eqn:E.
  - rewrite andb_true_r. cbn [int_minimal int_magnitude]. replace (b0 =? 255) with false by lia.
    cbn [andb negb]. rewrite andb_true_r.
    destruct (b0 =? 0) eqn:E0.
    + replace (1 <=? b0) with false by lia. cbn [andb].
      destruct (b1 <? 128); cbn [negb]; cbn [or_m1 bindr]; [reflexivity|].
      replace (len (b1 :: data) =? 32) with false by (rewrite len_cons in Hl; lia). reflexivity.
    + replace (1 <=? b0) with true by lia. cbn [andb negb or_m1 bindr]. rewrite Hl.
      change (32 =? 32) with true. cbn [negb]. do 2 f_equal. apply f_equal2; lia.
  - rewrite andb_false_r. rewrite len_app in *. cbn [app int_minimal int_magnitude].
    replace (b0 =? 0) with false by lia. cbn [andb negb].
    destruct (negb _); cbn [or_m1 bindr]; [|reflexivity].
    change (b0 :: b1 :: data ++ [x]) with ((b0 :: b1 :: data) ++ [x]). rewrite len_app, Hl. reflexivity.
Qed.

Lemma int_outl32 data x : len data = 32 ->
  encode_integer_outl data = Ok (2 + len (int_contents data x)).
Proof.
  intros H. pose proof (int_contents_bound data x).
  rewrite (integer_outl_spec data _ x [2; len (int_contents data x)] eq_refl);
    [reflexivity|apply (short_header 0 0 2); lia|lia].
Qed.

(** ** Signature *)

Lemma signature_encode_spec R S old oR oS z :
  len R = 32 -> len S = 32 ->
  let cR := int_contents R (last oR 0) in
  let cS := int_contents S (last oS 0) in
  len old = 2 -> len oR = 2 + len cR -> len oS = 2 + len cS ->
  signature_encode (old ++ oR ++ oS ++ z) R S =
  Ok ([48; 4 + len cR + len cS] ++ ([2; len cR] ++ cR) ++ ([2; len cS] ++ cS) ++ z,
      6 + len cR + len cS) /\
  signature_encode_outl R S = Ok (6 + len cR + len cS).
Proof.
  intros HR HS cR cS Ho HoR HoS.
  pose proof (int_contents_bound R (last oR 0)) as BR. fold cR in BR.
  pose proof (int_contents_bound S (last oS 0)) as BS. fold cS in BS.
  unfold signature_encode, signature_encode_outl, signature_value_length.
  rewrite (int_outl32 R (last oR 0) HR), (int_outl32 S (last oS 0) HS). fold cR cS. cbn [bind].
  unfold w64 at 1 3. rewrite Z.mod_small by lia.
  replace (2 + len cR + (2 + len cS)) with (4 + len cR + len cS) by lia.
  split.
  - unfold encode_sequence_tl, CLASS_UNIVERSAL, PC_CONSTRUCTED, TAG_SEQUENCE.
    pose proof (encode_tl_at 0 32 16 (4 + len cR + len cS) [48; 4 + len cR + len cS] []
                  old (oR ++ oS ++ z) class0 pc32 ltac:(unfold low_tag; lia) ltac:(lia)
                  (short_header 0 32 16 (4 + len cR + len cS) ltac:(lia)) Ho) as E0.
    cbn [app] in E0. change (len []) with 0 in E0. rewrite E0. cbn [bind]. clear E0.
    change (len [48; 4 + len cR + len cS]) with (len [48; 4 + len cR + len cS]).
    set (h := [48; 4 + len cR + len cS]).
    change (48 :: 4 + len cR + len cS :: oR ++ oS ++ z) with (h ++ oR ++ oS ++ z).
    rewrite (encode_integer_spec R h oR (oS ++ z) cR [2; len cR]);
      [|reflexivity|apply (short_header 0 0 2); lia|exact HoR|lia]. cbn [bind].
    change (len [2; len cR]) with 2.
    replace (h ++ ([2; len cR] ++ cR) ++ oS ++ z) with ((h ++ [2; len cR] ++ cR) ++ oS ++ z)
      by (rewrite <- !app_assoc; reflexivity).
    replace (len h + (2 + len cR)) with (len (h ++ [2; len cR] ++ cR))
      by (rewrite !len_app; reflexivity).
    rewrite (encode_integer_spec S _ oS z cS [2; len cS]);
      [|reflexivity|apply (short_header 0 0 2); lia|exact HoS|lia]. cbn [bind].
    apply (f_equal Ok). apply f_equal2.
    + rewrite <- !app_assoc. reflexivity.
    + rewrite !len_app. change (len h) with 2. change (len [2; len cR]) with 2.
      change (len [2; len cS]) with 2. unfold w64. rewrite Z.mod_small by lia. lia.
  - unfold encode_sequence_outl.
    rewrite (tlv_outl_small2 _ 0 32 16 _ (short_header 0 32 16 (4 + len cR + len cS) ltac:(lia))) by lia.
    change (len [0 + 32 + 16; 4 + len cR + len cS]) with 2. f_equal. lia.
Qed.

Lemma signature_decode_spec R S x y :
  bytes R -> bytes S -> len R = 32 -> len S = 32 -> is_byte x -> is_byte y ->
  let cR := int_contents R x in
  let cS := int_contents S y in
  signature_decode ([48; 4 + len cR + len cS] ++ ([2; len cR] ++ cR) ++ ([2; len cS] ++ cS)) =
  Ok (if plain R && plain S then inl (4, 38, 70) else inr (-1)).
Proof.
  intros HbR HbS HR HS Hx Hy cR cS.
  pose proof (int_contents_bound R x) as BR. fold cR in BR.
  pose proof (int_contents_bound S y) as BS. fold cS in BS.
  unfold signature_decode.
  set (h := [48; 4 + len cR + len cS]).
  set (m := h ++ ([2; len cR] ++ cR) ++ ([2; len cS] ++ cS)).
  assert (Hm : len m = 6 + len cR + len cS).
  { unfold m. rewrite !len_app. change (len h) with 2. change (len [2; len cR]) with 2.
    change (len [2; len cS]) with 2. lia. }
  fold (len m).
  assert (E0 : decode_sequence_value m 0 (len m) =
               Ok (inl (2, 4 + len cR + len cS, 6 + len cR + len cS))).
  { pose proof (decode_sequence_spec 0 (4 + len cR + len cS) h []
      (([2; len cR] ++ cR) ++ ([2; len cS] ++ cS)) (len m) class0 ltac:(lia)
      (short_header 0 32 16 (4 + len cR + len cS) ltac:(lia))) as D.
    change (len h) with 2 in D. specialize (D ltac:(lia) ltac:(lia)).
    etransitivity; [exact D|]. change (len []) with 0.
    destruct (4 + len cR + len cS =? 0) eqn:E; [lia|]. do 2 f_equal. apply f_equal2; [apply f_equal2|]; lia. }
  rewrite E0. cbn [or_m1 bindr].
  assert (E1 : decode_int32 m 2 (4 + len cR + len cS) =
               Ok (if plain R then inl (4, 34) else inr (-1))).
  { exact (decode_int32_spec R x h ([2; len cS] ++ cS) (4 + len cR + len cS) HbR HR Hx ltac:(lia)). }
  rewrite E1. destruct (plain R) eqn:EpR; cbn [bindr andb]; [|reflexivity].
  assert (HcR : len cR = 32).
  { unfold cR. unfold plain in EpR. destruct R as [|b R]; [discriminate|]. cbn [hd] in EpR.
    cbn [int_contents]. replace (b <? 128) with true by lia. exact HR. }
  cbv zeta. unfold w64 at 1. rewrite Z.mod_small by lia.
  assert (E2 : decode_int32 m (2 + 34) (4 + len cR + len cS - 34) =
               Ok (if plain S then inl (38, 34) else inr (-1))).
  { unfold m.
    replace (h ++ ([2; len cR] ++ cR) ++ [2; len cS] ++ cS)
       with ((h ++ [2; len cR] ++ cR) ++ ([2; len cS] ++ cS) ++ [])
       by (rewrite app_nil_r, <- !app_assoc; reflexivity).
    pose proof (decode_int32_spec S y (h ++ [2; len cR] ++ cR) []
                 (4 + len cR + len cS - 34) HbS HS Hy ltac:(lia)) as D.
    cbv zeta in D. fold cS in D.
    replace (len (h ++ [2; len cR] ++ cR)) with 36 in D
      by (rewrite !len_app; change (len h) with 2; change (len [2; len cR]) with 2; lia).
    exact D. }
  rewrite E2. destruct (plain S) eqn:EpS; cbn [bindr]; [|reflexivity].
  assert (HcS : len cS = 32).
  { unfold cS. unfold plain in EpS. destruct S as [|b S]; [discriminate|]. cbn [hd] in EpS.
    cbn [int_contents]. replace (b <? 128) with true by lia. exact HS. }
  rewrite Hm, HcR, HcS. reflexivity.
Qed.

Lemma plain_contents d x : plain d = true -> int_contents d x = d.
Proof.
  unfold plain. destruct d as [|b d]; [discriminate|]. cbn [hd int_contents]. intros H.
  replace (b <? 128) with true by lia. reflexivity.
Qed.

Lemma signature_roundtrip R S buf n :
  bytes R -> bytes S -> len R = 32 -> len S = 32 -> bytes buf ->
  signature_encode_outl R S = Ok n -> n <= len buf ->
  exists buf', signature_encode buf R S = Ok (buf', n) /\ len buf' = len buf /\
    ((plain R && plain S = true ->
      signature_decode (zfirst n buf') = Ok (inl (4, 38, n)) /\
      zslice (zfirst n buf') 4 32 = R /\ zslice (zfirst n buf') 38 32 = S /\
      exists eR eS, der_integer (be_val R) eR /\ der_integer (be_val S) eS /\
                    der_element 0 32 16 (eR ++ eS) (zfirst n buf')) /\
     (plain R && plain S = false -> signature_decode (zfirst n buf') = Ok (inr (-1)))).
Proof.
  intros HbR HbS HR HS Hbuf Hn Hnb.
  pose proof (int_contents_bound R 0) as BR. pose proof (int_contents_bound S 0) as BS.
  assert (HnE : n = 6 + len (int_contents R 0) + len (int_contents S 0)).
  { unfold signature_encode_outl, signature_value_length in Hn.
    rewrite (int_outl32 R 0 HR), (int_outl32 S 0 HS) in Hn. cbn [bind] in Hn.
    unfold w64 in Hn. rewrite Z.mod_small in Hn by lia. unfold encode_sequence_outl in Hn.
    rewrite (tlv_outl_small2 _ 0 32 16 _ (short_header 0 32 16 (2 + len (int_contents R 0) + (2 + len (int_contents S 0))) ltac:(lia))) in Hn by lia.
    injection Hn as Hn. rewrite <- Hn.
    change (len [0 + 32 + 16; 2 + len (int_contents R 0) + (2 + len (int_contents S 0))]) with 2. lia. }
  destruct (take_buf buf n) as (b1 & z & E & Hb1); [lia|]. subst buf.
  destruct (split_len b1 2) as (old & b2 & E & Hold & Hb2); [lia|]. subst b1.
  destruct (split_len b2 (2 + len (int_contents R 0))) as (oR & oS & E & HoR & HoS); [lia|]. subst b2.
  apply bytes_split in Hbuf. destruct Hbuf as [Hbuf _].
  apply bytes_split in Hbuf. destruct Hbuf as [_ Hbuf]. apply bytes_split in Hbuf.
  destruct Hbuf as [HboR HboS].
  pose proof (int_contents_len R 0 (last oR 0)) as LR.
  pose proof (int_contents_len S 0 (last oS 0)) as LS.
  destruct (signature_encode_spec R S old oR oS z HR HS Hold ltac:(lia) ltac:(lia)) as [HE HEn].
  pose proof (signature_decode_spec R S (last oR 0) (last oS 0) HbR HbS HR HS
                (last_byte _ HboR) (last_byte _ HboS)) as HD.
  cbv zeta in HD, HE, HEn.
  set (cR := int_contents R (last oR 0)) in *. set (cS := int_contents S (last oS 0)) in *.
  set (m := [48; 4 + len cR + len cS] ++ ([2; len cR] ++ cR) ++ ([2; len cS] ++ cS)) in *.
  assert (Hm : len m = n).
  { unfold m. rewrite !len_app. change (len [48; 4 + len cR + len cS]) with 2.
    change (len [2; len cR]) with 2. change (len [2; len cS]) with 2. lia. }
  exists (m ++ z). split; [|split].
  - rewrite <- !app_assoc. rewrite HE. apply (f_equal Ok). apply f_equal2; [|lia].
    unfold m. rewrite <- !app_assoc. reflexivity.
  - rewrite !len_app. rewrite !len_app in Hb1. lia.
  - rewrite zfirst_app by (symmetry; exact Hm). rewrite HD. split; intros Hp; rewrite Hp; [|reflexivity].
    apply andb_true_iff in Hp. destruct Hp as [PR PS].
    assert (HcR : cR = R) by (apply plain_contents; exact PR).
    assert (HcS : cS = S) by (apply plain_contents; exact PS).
    split; [|split; [|split]].
    + rewrite <- Hm. unfold m. rewrite !len_app. rewrite HcR, HcS, HR, HS. reflexivity.
    + unfold m. rewrite HcR. rewrite <- !app_assoc.
      apply (zslice_app ([48; 4 + len R + len cS] ++ [2; len R])); [reflexivity|lia].
    + unfold m. rewrite HcS. rewrite <- (app_nil_r S) at 3. rewrite HcR.
      replace ([48; 4 + len R + len S] ++ ([2; len R] ++ R) ++ [2; len S] ++ S ++ [])
        with (([48; 4 + len R + len S] ++ [2; len R] ++ R ++ [2; len S]) ++ S ++ [])
        by (rewrite <- !app_assoc; reflexivity).
      apply zslice_app; [|lia]. rewrite !len_app. rewrite HR. reflexivity.
    + exists ([2; len R] ++ R), ([2; len S] ++ S).
      assert (DI : forall d, bytes d -> len d = 32 -> plain d = true ->
                   der_integer (be_val d) ([2; len d] ++ d)).
      { intros d Hd Hl Hpl. exists d. unfold plain in Hpl.
        destruct d as [|b0 [|b1 d]]; [discriminate|rewrite len_cons, len_nil in Hl; lia|]. cbn [hd] in Hpl.
        repeat apply conj; [exact Hd| | |].
        - cbn [int_minimal]. replace (b0 =? 0) with false by lia. replace (b0 =? 255) with false by lia. reflexivity.
        - unfold int_val. cbn [hd]. replace (b0 <? 128) with true by lia. reflexivity.
        - exists [2; len (b0 :: b1 :: d)]. split; [apply (short_header 0 0 2); lia|reflexivity]. }
      split; [apply DI; assumption|]. split; [apply DI; assumption|].
      exists [48; 4 + len R + len S]. split.
      * replace (len (([2; len R] ++ R) ++ [2; len S] ++ S)) with (4 + len R + len S)
          by (rewrite !len_app; change (len [2; len R]) with 2; change (len [2; len S]) with 2; lia).
        apply (short_header 0 32 16). lia.
      * unfold m. rewrite HcR, HcS. reflexivity.
Qed.

(** ** Keys *)

Lemma private_key_roundtrip v buf n :
  bytes v -> len v = 32 -> bytes buf ->
  private_key_encode_outl v = Ok n -> n <= len buf ->
  exists buf', private_key_encode buf v = Ok (buf', n) /\ len buf' = len buf /\
    ((plain v = true ->
      private_key_decode (zfirst n buf') = Ok (inl (2, n)) /\ zslice (zfirst n buf') 2 32 = v) /\
     (plain v = false -> private_key_decode (zfirst n buf') = Ok (inr (-1)))).
Proof.
  intros Hbv Hv Hbuf Hn Hnb. unfold private_key_encode_outl in Hn.
  rewrite (int_outl32 v 0 Hv) in Hn. injection Hn as Hn.
  pose proof (int_contents_bound v 0) as B.
  destruct (take_buf buf n) as (old & z & E & Hold); [lia|]. subst buf.
  apply bytes_split in Hbuf. destruct Hbuf as [Hbo _].
  pose proof (int_contents_len v 0 (last old 0)) as L.
  set (c := int_contents v (last old 0)) in *.
  exists (([2; len c] ++ c) ++ z). split; [|split].
  - unfold private_key_encode.
    pose proof (encode_integer_spec v [] old z c [2; len c] eq_refl
                  (short_header 0 0 2 (len c) ltac:(lia))) as D.
    change (len [2; len c]) with 2 in D. specialize (D ltac:(lia) ltac:(lia)).
    change (len []) with 0 in D. cbn [app] in D. cbn [app]. rewrite D.
    apply (f_equal Ok). apply f_equal2; [reflexivity|lia].
  - rewrite !len_app. change (len [2; len c]) with 2. lia.
  - rewrite zfirst_app by (rewrite len_app; change (len [2; len c]) with 2; lia).
    set (m := [2; len c] ++ c).
    assert (Hm : len m = n) by (unfold m; rewrite len_app; change (len [2; len c]) with 2; lia).
    assert (HD : decode_int32 m 0 (len m) = Ok (if plain v then inl (2, 34) else inr (-1))).
    { pose proof (decode_int32_spec v (last old 0) [] [] (len m) Hbv Hv (last_byte _ Hbo) ltac:(lia)) as D.
      cbv zeta in D. fold c in D. rewrite app_nil_r in D. exact D. }
    assert (HP : private_key_decode m = decode_int32 m 0 (len m)).
    { unfold private_key_decode, decode_int32. fold (len m).
      destruct (decode_integer_value m 0 (len m)) as [[[[p k] rn]|e]| |]; cbn [or_m1 bindr]; reflexivity. }
    rewrite HP, HD. split; intros Hp; rewrite Hp; [|reflexivity].
    assert (Hc : c = v) by (apply plain_contents; exact Hp). split.
    + rewrite <- Hm. unfold m. rewrite len_app, Hc, Hv. reflexivity.
    + unfold m. rewrite Hc. rewrite <- (app_nil_r v) at 2.
      apply (zslice_app [2; len v]); [reflexivity|lia].
Qed.

Lemma public_key_roundtrip v buf n :
  len v = 65 -> public_key_encode_outl = Ok n -> n <= len buf ->
  exists buf', public_key_encode buf v = Ok (buf', n) /\ len buf' = len buf /\
      der_bit_string 520 v (zfirst n buf') /\
      public_key_decode (zfirst n buf') = Ok (inl (3, n)) /\ zslice (zfirst n buf') 3 65 = v.
Proof.
  intros Hv Hn Hnb. change public_key_encode_outl with (@Ok Z 68) in Hn. injection Hn as Hn. subst n.
  destruct (take_buf buf 68) as (old & z & E & Hold); [lia|]. subst buf.
  exists (([3; 66] ++ (0 :: v)) ++ z).
  assert (Hh : der_header 0 0 3 (1 + len v) [3; 66]).
  { rewrite Hv. apply (short_header 0 0 3). lia. }
  assert (Hm : len ([3; 66] ++ 0 :: v) = 68) by (unfold len in *; rewrite app_length; cbn [length]; lia).
  split; [|split; [|split; [|split]]].
  - unfold public_key_encode. change (65 * 8) with 520.
    pose proof (encode_bit_string_spec v 520 [] old z [3; 66] ltac:(lia) ltac:(lia) Hh) as D.
    change (len [3; 66]) with 2 in D. rewrite Hv in D. specialize (D ltac:(lia) ltac:(lia)).
    change (len []) with 0 in D. cbn [app] in D. cbn [app]. rewrite D. reflexivity.
  - rewrite !len_app in *. lia.
  - rewrite zfirst_app by lia. split; [lia|]. exists [3; 66]. rewrite len_cons.
    split; [exact Hh|]. rewrite Hv. reflexivity.
  - rewrite zfirst_app by lia. unfold public_key_decode.
    set (m := [3; 66] ++ 0 :: v). fold (len m). fold m in Hm. rewrite Hm.
    pose proof (decode_bit_string_spec 0 0 0 v [3; 66] [] [] 68 class0 pc0 ltac:(lia)
                  ltac:(reflexivity) Hh) as D.
    change (len [3; 66]) with 2 in D. rewrite Hv in D. specialize (D ltac:(lia) ltac:(lia)).
    rewrite app_nil_r in D. change (len []) with 0 in D. cbn [app] in D.
    unfold m. cbn [app]. rewrite D. reflexivity.
  - rewrite zfirst_app by lia. rewrite <- (app_nil_r v) at 1.
    apply (zslice_app [3; 66; 0] v []); [reflexivity|lia].
Qed.

(** ** Ciphertext *)

(** Decoding the four fields one after the other. *)
Lemma cipher_decode_spec X Y x y C3 C2 h h3 h2 :
  bytes X -> bytes Y -> len X = 32 -> len Y = 32 -> is_byte x -> is_byte y ->
  let cX := int_contents X x in
  let cY := int_contents Y y in
  let body := ([2; len cX] ++ cX) ++ ([2; len cY] ++ cY) ++ (h3 ++ C3) ++ (h2 ++ C2) in
  der_header 0 0 4 (len C3) h3 -> der_header 0 0 4 (len C2) h2 ->
  der_header 0 32 16 (len body) h -> len (h ++ body) < 2 ^ 64 ->
  cipher_decode (h ++ body) =
  Ok (if plain X && plain Y && negb (len C3 =? 0) && negb (len C2 =? 0)
      then inl (len h + 2, len h + 36, (len h + 68 + len h3, len C3),
                (len h + 68 + len h3 + len C3 + len h2, len C2), len (h ++ body))
      else inr (-1)).
Proof.
  intros HbX HbY HX HY Hx Hy cX cY body Hh3 Hh2 Hh Hlt.
  pose proof (int_contents_bound X x) as BX. fold cX in BX.
  pose proof (int_contents_bound Y y) as BY. fold cY in BY.
  pose proof (len_nonneg h3). pose proof (len_nonneg h2). pose proof (len_nonneg h).
  pose proof (len_nonneg C3). pose proof (len_nonneg C2).
  assert (Hbody : len body = 4 + len cX + len cY + len h3 + len C3 + len h2 + len C2).
  { unfold body. rewrite !len_app. change (len [2; len cX]) with 2. change (len [2; len cY]) with 2. lia. }
  assert (Hm : len (h ++ body) = len h + len body) by apply len_app.
  destruct (der_header_len2 _ _ _ _ _ Hh) as [Lh _]; [lia|].
  destruct (der_header_len2 _ _ _ _ _ Hh3) as [Lh3 _]; [lia|].
  destruct (der_header_len2 _ _ _ _ _ Hh2) as [Lh2 _]; [lia|].
  unfold cipher_decode. set (m := h ++ body) in *. fold (len m).
  assert (E0 : decode_sequence_value m 0 (len m) = Ok (inl (len h, len body, len h + len body))).
  { pose proof (decode_sequence_spec 0 (len body) h [] body (len m) class0 ltac:(lia) Hh
                  ltac:(lia) ltac:(lia)) as D.
    etransitivity; [exact D|]. change (len []) with 0.
    destruct (len body =? 0) eqn:E; [lia|]. do 2 f_equal. }
  rewrite E0. cbn [or_m1 bindr].
  assert (E1 : decode_int32 m (len h) (len body) =
               Ok (if plain X then inl (len h + 2, 34) else inr (-1))).
  { exact (decode_int32_spec X x h (([2; len cY] ++ cY) ++ (h3 ++ C3) ++ (h2 ++ C2))
             (len body) HbX HX Hx ltac:(lia)). }
  rewrite E1. destruct (plain X) eqn:EpX; cbn [bindr andb]; [|reflexivity].
  assert (HcX : cX = X) by (apply plain_contents; exact EpX).
  cbv zeta.
  assert (E2 : decode_int32 m (len h + 34) (len body - 34) =
               Ok (if plain Y then inl (len h + 36, 34) else inr (-1))).
  { assert (Em : m = (h ++ [2; len cX] ++ cX) ++ ([2; len cY] ++ cY) ++ (h3 ++ C3) ++ h2 ++ C2)
       by (unfold m, body; rewrite <- !app_assoc; reflexivity).
    rewrite Em.
    pose proof (decode_int32_spec Y y (h ++ [2; len cX] ++ cX) ((h3 ++ C3) ++ h2 ++ C2)
                 (len body - 34) HbY HY Hy ltac:(rewrite HcX in *; lia)) as D.
    cbv zeta in D. fold cY in D.
    replace (len (h ++ [2; len cX] ++ cX)) with (len h + 34) in D
      by (rewrite !len_app; change (len [2; len cX]) with 2; rewrite HcX; lia).
    rewrite D. destruct (plain Y); [|reflexivity]. do 2 f_equal. apply f_equal2; lia. }
  rewrite !(w64_small (len body - 34)) by (rewrite HcX in *; lia).
  rewrite E2. destruct (plain Y) eqn:EpY; cbn [bindr andb]; [|reflexivity].
  assert (HcY : cY = Y) by (apply plain_contents; exact EpY).
  assert (Hbl : len body = 68 + len h3 + len C3 + len h2 + len C2) by (rewrite HcX, HcY in *; lia).
  replace (len body - 34 - 34) with (len body - 68) by lia.
  rewrite !(w64_small (len body - 68)) by lia.
  replace (len h + 34 + 34) with (len h + 68) by lia.
  assert (E3 : decode_octet_string_value m (len h + 68) (len body - 68) =
     Ok (if len C3 =? 0 then inr (-1) else inl (len h + 68 + len h3, len C3, len h3 + len C3))).
  { pose proof (decode_octet_string_spec 0 0 C3 h3 (h ++ ([2; len cX] ++ cX) ++ ([2; len cY] ++ cY))
      (C3 ++ h2 ++ C2) (len body - 68) class0 pc0 Hh3 ltac:(lia) ltac:(lia)) as D.
    replace (len (h ++ ([2; len cX] ++ cX) ++ [2; len cY] ++ cY)) with (len h + 68) in D
      by (rewrite !len_app; change (len [2; len cX]) with 2; change (len [2; len cY]) with 2;
          rewrite HcX, HcY; lia).
    assert (Em : m = (h ++ ([2; len cX] ++ cX) ++ [2; len cY] ++ cY) ++ h3 ++ C3 ++ h2 ++ C2)
       by (unfold m, body; rewrite <- !app_assoc; reflexivity).
    rewrite Em. exact D. }
  rewrite E3. destruct (len C3 =? 0) eqn:EC3; cbn [or_m1 bindr andb negb]; [reflexivity|].
  replace (len body - 68 - (len h3 + len C3)) with (len h2 + len C2) by lia.
  rewrite !(w64_small (len h2 + len C2)) by lia.
  replace (len h + 68 + (len h3 + len C3)) with (len h + 68 + len h3 + len C3) by lia.
  assert (E4 : decode_octet_string_value m (len h + 68 + len h3 + len C3) (len h2 + len C2) =
     Ok (if len C2 =? 0 then inr (-1)
         else inl (len h + 68 + len h3 + len C3 + len h2, len C2, len h2 + len C2))).
  { pose proof (decode_octet_string_spec 0 0 C2 h2
      (h ++ ([2; len cX] ++ cX) ++ ([2; len cY] ++ cY) ++ (h3 ++ C3))
      C2 (len h2 + len C2) class0 pc0 Hh2 ltac:(lia) ltac:(lia)) as D.
    replace (len (h ++ ([2; len cX] ++ cX) ++ ([2; len cY] ++ cY) ++ (h3 ++ C3)))
      with (len h + 68 + len h3 + len C3) in D
      by (rewrite !len_app; change (len [2; len cX]) with 2; change (len [2; len cY]) with 2;
          rewrite HcX, HcY; lia).
    assert (Em : m = (h ++ ([2; len cX] ++ cX) ++ ([2; len cY] ++ cY) ++ h3 ++ C3) ++ h2 ++ C2)
       by (unfold m, body; rewrite <- !app_assoc; reflexivity).
    rewrite Em. exact D. }
  rewrite E4. destruct (len C2 =? 0) eqn:EC2; cbn [or_m1 bindr andb negb]; [reflexivity|].
  do 2 f_equal. apply f_equal2; [reflexivity|]. unfold w64.
  rewrite Hm. replace (len h + len body - (len h + len body)) with 0 by lia.
  rewrite Zmod_0_l, Z.sub_0_r. apply Z.mod_small. lia.
Qed.

Lemma cipher_outl_spec X Y x y C3 C2 h h3 h2 :
  len X = 32 -> len Y = 32 ->
  let cX := int_contents X x in
  let cY := int_contents Y y in
  let body := 4 + len cX + len cY + len h3 + len C3 + len h2 + len C2 in
  der_header 0 0 4 (len C3) h3 -> der_header 0 0 4 (len C2) h2 ->
  der_header 0 32 16 body h -> body < 2 ^ 56 ->
  cipher_value_length X Y C3 C2 = Ok body /\ cipher_encode_outl X Y C3 C2 = Ok (len h + body).
Proof.
  intros HX HY cX cY body Hh3 Hh2 Hh Hlt.
  pose proof (int_contents_bound X x) as BX. fold cX in BX.
  pose proof (int_contents_bound Y y) as BY. fold cY in BY.
  pose proof (len_nonneg h3). pose proof (len_nonneg h2). pose proof (len_nonneg h).
  pose proof (len_nonneg C3). pose proof (len_nonneg C2).
  assert (EV : cipher_value_length X Y C3 C2 = Ok body).
  { unfold cipher_value_length. rewrite (int_outl32 X x HX), (int_outl32 Y y HY). cbn [bind].
    unfold encode_octet_string_outl. fold (len C3) (len C2).
    rewrite (tlv_outl_small2 _ _ _ _ _ Hh3) by lia. cbn [bind].
    rewrite (tlv_outl_small2 _ _ _ _ _ Hh2) by lia. cbn [bind]. fold cX cY.
    unfold w64. rewrite Z.mod_small by lia. f_equal. unfold body. lia. }
  split; [exact EV|]. unfold cipher_encode_outl. rewrite EV. cbn [bind]. unfold encode_sequence_outl.
  rewrite (tlv_outl_small2 _ _ _ _ _ Hh) by lia. reflexivity.
Qed.

Lemma cipher_encode_spec X Y C3 C2 h h3 h2 o0 oX oY o3 o2 z :
  len X = 32 -> len Y = 32 ->
  let cX := int_contents X (last oX 0) in
  let cY := int_contents Y (last oY 0) in
  let body := ([2; len cX] ++ cX) ++ ([2; len cY] ++ cY) ++ (h3 ++ C3) ++ (h2 ++ C2) in
  der_header 0 0 4 (len C3) h3 -> der_header 0 0 4 (len C2) h2 ->
  der_header 0 32 16 (len body) h -> len body < 2 ^ 56 ->
  len o0 = len h -> len oX = 2 + len cX -> len oY = 2 + len cY ->
  len o3 = len h3 + len C3 -> len o2 = len h2 + len C2 ->
  cipher_encode (o0 ++ oX ++ oY ++ o3 ++ o2 ++ z) X Y C3 C2 =
  Ok (h ++ body ++ z, len h + len body).
Proof.
  intros HX HY cX cY body Hh3 Hh2 Hh Hlt L0 LX LY L3 L2.
  pose proof (int_contents_bound X (last oX 0)) as BX. fold cX in BX.
  pose proof (int_contents_bound Y (last oY 0)) as BY. fold cY in BY.
  pose proof (len_nonneg h3). pose proof (len_nonneg h2). pose proof (len_nonneg h).
  pose proof (len_nonneg C3). pose proof (len_nonneg C2).
  assert (Hbody : len body = 4 + len cX + len cY + len h3 + len C3 + len h2 + len C2).
  { unfold body. rewrite !len_app. change (len [2; len cX]) with 2. change (len [2; len cY]) with 2. lia. }
  destruct (der_header_len2 _ _ _ _ _ Hh) as [Lh _]; [lia|].
  unfold cipher_encode.
  destruct (cipher_outl_spec X Y (last oX 0) (last oY 0) C3 C2 h h3 h2 HX HY Hh3 Hh2) as [EV _].
  { fold cX cY. rewrite <- Hbody. exact Hh. }
  { fold cX cY. rewrite <- Hbody. exact Hlt. }
  fold cX cY in EV. rewrite <- Hbody in EV. rewrite EV. cbn [bind].
  unfold encode_sequence_tl, CLASS_UNIVERSAL, PC_CONSTRUCTED, TAG_SEQUENCE.
  pose proof (encode_tl_at 0 32 16 (len body) h [] o0 (oX ++ oY ++ o3 ++ o2 ++ z) class0 pc32
                ltac:(unfold low_tag; lia) ltac:(lia) Hh L0) as E0.
  cbn [app] in E0. change (len []) with 0 in E0. rewrite E0. cbn [bind]. clear E0.
  rewrite (encode_integer_spec X h oX (oY ++ o3 ++ o2 ++ z) cX [2; len cX]);
      [|reflexivity|apply (short_header 0 0 2); lia|exact LX|lia]. cbn [bind].
  change (len [2; len cX]) with 2.
  set (p1 := h ++ [2; len cX] ++ cX).
  assert (P1 : len p1 = len h + (2 + len cX)) by (unfold p1; rewrite !len_app; reflexivity).
  replace (h ++ ([2; len cX] ++ cX) ++ oY ++ o3 ++ o2 ++ z) with (p1 ++ oY ++ o3 ++ o2 ++ z)
    by (unfold p1; rewrite <- !app_assoc; reflexivity).
  rewrite <- P1.
  rewrite (encode_integer_spec Y p1 oY (o3 ++ o2 ++ z) cY [2; len cY]);
      [|reflexivity|apply (short_header 0 0 2); lia|exact LY|lia]. cbn [bind].
  change (len [2; len cY]) with 2.
  set (p2 := p1 ++ [2; len cY] ++ cY).
  assert (P2 : len p2 = len p1 + (2 + len cY)) by (unfold p2; rewrite !len_app; reflexivity).
  replace (p1 ++ ([2; len cY] ++ cY) ++ o3 ++ o2 ++ z) with (p2 ++ o3 ++ o2 ++ z)
    by (unfold p2; rewrite <- !app_assoc; reflexivity).
  rewrite <- P2.
  rewrite (encode_octet_string_spec C3 p2 o3 (o2 ++ z) h3 Hh3 L3) by lia. cbn [bind].
  set (p3 := p2 ++ h3 ++ C3).
  assert (P3 : len p3 = len p2 + (len h3 + len C3)) by (unfold p3; rewrite !len_app; reflexivity).
  replace (p2 ++ (h3 ++ C3) ++ o2 ++ z) with (p3 ++ o2 ++ z)
    by (unfold p3; rewrite <- !app_assoc; reflexivity).
  rewrite <- P3.
  rewrite (encode_octet_string_spec C2 p3 o2 z h2 Hh2 L2) by lia. cbn [bind].
  apply (f_equal Ok). apply f_equal2.
  - unfold p3, p2, p1, body. rewrite <- !app_assoc. reflexivity.
  - unfold w64. rewrite Z.mod_small by lia. lia.
Qed.

Lemma DI32 d : bytes d -> len d = 32 -> plain d = true -> der_integer (be_val d) ([2; len d] ++ d).
Proof.
  intros Hd Hl Hpl. exists d. unfold plain in Hpl.
  destruct d as [|b0 [|b1 d]]; [discriminate|rewrite len_cons, len_nil in Hl; lia|]. cbn [hd] in Hpl.
  repeat apply conj; [exact Hd| | |].
  - cbn [int_minimal]. replace (b0 =? 0) with false by lia. replace (b0 =? 255) with false by lia. reflexivity.
  - unfold int_val. cbn [hd]. replace (b0 <? 128) with true by lia. reflexivity.
  - exists [2; len (b0 :: b1 :: d)]. split; [apply (short_header 0 0 2); lia|reflexivity].
Qed.

Definition cipher_ok (X Y C3 C2 : list Z) : bool :=
  plain X && plain Y && negb (len C3 =? 0) && negb (len C2 =? 0).

Lemma cipher_roundtrip X Y C3 C2 buf n :
  bytes X -> bytes Y -> len X = 32 -> len Y = 32 -> bytes buf ->
  len C3 + len C2 < 2 ^ 56 - 100 ->
  cipher_encode_outl X Y C3 C2 = Ok n -> n <= len buf ->
  exists buf', cipher_encode buf X Y C3 C2 = Ok (buf', n) /\ len buf' = len buf /\
    let m := zfirst n buf' in
    ((cipher_ok X Y C3 C2 = true ->
      exists px py p3 p2,
        cipher_decode m = Ok (inl (px, py, (p3, len C3), (p2, len C2), n)) /\
        zslice m px 32 = X /\ zslice m py 32 = Y /\
        zslice m p3 (len C3) = C3 /\ zslice m p2 (len C2) = C2) /\
     (plain X = true -> plain Y = true ->
      exists eX eY e3 e2, der_integer (be_val X) eX /\ der_integer (be_val Y) eY /\
        der_octet_string C3 e3 /\ der_octet_string C2 e2 /\
        der_element 0 32 16 (eX ++ eY ++ e3 ++ e2) m) /\
     (cipher_ok X Y C3 C2 = false -> cipher_decode m = Ok (inr (-1)))).
Proof.
  intros HbX HbY HX HY Hbuf HC Hn Hnb.
  pose proof (int_contents_bound X 0) as BX. pose proof (int_contents_bound Y 0) as BY.
  pose proof (len_nonneg C3). pose proof (len_nonneg C2).
  destruct (der_header_exists 0 0 4 (len C3) ltac:(lia)) as (h3 & Hh3).
  destruct (der_header_exists 0 0 4 (len C2) ltac:(lia)) as (h2 & Hh2).
  destruct (der_header_len2 _ _ _ _ _ Hh3) as [Lh3 _]; [lia|].
  destruct (der_header_len2 _ _ _ _ _ Hh2) as [Lh2 _]; [lia|].
  set (N := 4 + len (int_contents X 0) + len (int_contents Y 0) + len h3 + len C3 + len h2 + len C2).
  destruct (der_header_exists 0 32 16 N ltac:(lia)) as (h & Hh).
  destruct (der_header_len2 _ _ _ _ _ Hh) as [Lh _]; [lia|].
  destruct (cipher_outl_spec X Y 0 0 C3 C2 h h3 h2 HX HY Hh3 Hh2 Hh ltac:(lia)) as [_ EN].
  rewrite Hn in EN. injection EN as EN. fold N in EN.
  destruct (take_buf buf n) as (b1 & z & E & Hb1); [lia|]. subst buf.
  destruct (split_len b1 (len h)) as (o0 & b2 & E & Ho0 & Hb2); [lia|]. subst b1.
  destruct (split_len b2 (2 + len (int_contents X 0))) as (oX & b3 & E & HoX & Hb3); [lia|]. subst b2.
  destruct (split_len b3 (2 + len (int_contents Y 0))) as (oY & b4 & E & HoY & Hb4); [lia|]. subst b3.
  destruct (split_len b4 (len h3 + len C3)) as (o3 & o2 & E & Ho3 & Ho2); [lia|]. subst b4.
  apply bytes_split in Hbuf. destruct Hbuf as [Hbuf _].
  apply bytes_split in Hbuf. destruct Hbuf as [_ Hbuf].
  apply bytes_split in Hbuf. destruct Hbuf as [HboX Hbuf].
  apply bytes_split in Hbuf. destruct Hbuf as [HboY _].
  pose proof (int_contents_len X 0 (last oX 0)) as LX.
  pose proof (int_contents_len Y 0 (last oY 0)) as LY.
  set (cX := int_contents X (last oX 0)) in *. set (cY := int_contents Y (last oY 0)) in *.
  set (body := ([2; len cX] ++ cX) ++ ([2; len cY] ++ cY) ++ (h3 ++ C3) ++ (h2 ++ C2)).
  assert (Hbody : len body = N).
  { unfold body, N. rewrite !len_app. change (len [2; len cX]) with 2. change (len [2; len cY]) with 2. lia. }
  assert (Hh' : der_header 0 32 16 (len body) h) by (rewrite Hbody; exact Hh).
  pose proof (cipher_encode_spec X Y C3 C2 h h3 h2 o0 oX oY o3 o2 z HX HY Hh3 Hh2 Hh') as HE.
  specialize (HE ltac:(fold cX cY body; lia) Ho0 ltac:(fold cX; lia) ltac:(fold cY; lia) Ho3 ltac:(lia)).
  cbv zeta in HE. fold cX cY in HE. fold body in HE.
  pose proof (cipher_decode_spec X Y (last oX 0) (last oY 0) C3 C2 h h3 h2 HbX HbY HX HY
                (last_byte _ HboX) (last_byte _ HboY) Hh3 Hh2 Hh') as HD.
  cbv zeta in HD. fold cX cY in HD. fold body in HD. rewrite len_app in HD.
  specialize (HD ltac:(lia)). fold (cipher_ok X Y C3 C2) in HD.
  exists ((h ++ body) ++ z). split; [|split].
  - rewrite <- !app_assoc. rewrite HE. apply (f_equal Ok). apply f_equal2; [reflexivity|lia].
  - rewrite !len_app. rewrite !len_app in Hb1. lia.
  - rewrite zfirst_app by (rewrite len_app; lia). cbv zeta. rewrite HD. repeat apply conj.
    + intros Hp. rewrite Hp. unfold cipher_ok in Hp. rewrite !andb_true_iff in Hp.
      destruct Hp as [[[PX PY] _] _].
      assert (HcX : cX = X) by (apply plain_contents; exact PX).
      assert (HcY : cY = Y) by (apply plain_contents; exact PY).
      eexists _, _, _, _. split; [rewrite EN, Hbody; reflexivity|].
      unfold body. rewrite HcX, HcY. repeat apply conj.
      * replace (h ++ ([2; len X] ++ X) ++ ([2; len Y] ++ Y) ++ (h3 ++ C3) ++ h2 ++ C2)
          with ((h ++ [2; len X]) ++ X ++ ([2; len Y] ++ Y) ++ (h3 ++ C3) ++ h2 ++ C2)
          by (rewrite <- !app_assoc; reflexivity).
        apply zslice_app; [rewrite len_app; reflexivity|lia].
      * replace (h ++ ([2; len X] ++ X) ++ ([2; len Y] ++ Y) ++ (h3 ++ C3) ++ h2 ++ C2)
          with ((h ++ [2; len X] ++ X ++ [2; len Y]) ++ Y ++ (h3 ++ C3) ++ h2 ++ C2)
          by (rewrite <- !app_assoc; reflexivity).
        apply zslice_app; [|lia]. rewrite !len_app, HX. change (len [2; 32]) with 2.
        change (len [2; len Y]) with 2. lia.
      * replace (h ++ ([2; len X] ++ X) ++ ([2; len Y] ++ Y) ++ (h3 ++ C3) ++ h2 ++ C2)
          with ((h ++ [2; len X] ++ X ++ [2; len Y] ++ Y ++ h3) ++ C3 ++ h2 ++ C2)
          by (rewrite <- !app_assoc; reflexivity).
        apply zslice_app; [|reflexivity]. rewrite !len_app, HX, HY. change (len [2; 32]) with 2. lia.
      * replace (h ++ ([2; len X] ++ X) ++ ([2; len Y] ++ Y) ++ (h3 ++ C3) ++ h2 ++ C2)
          with ((h ++ [2; len X] ++ X ++ [2; len Y] ++ Y ++ h3 ++ C3 ++ h2) ++ C2 ++ [])
          by (rewrite app_nil_r, <- !app_assoc; reflexivity).
        apply zslice_app; [|reflexivity]. rewrite !len_app, HX, HY. change (len [2; 32]) with 2. lia.
    + intros PX PY.
      assert (HcX : cX = X) by (apply plain_contents; exact PX).
      assert (HcY : cY = Y) by (apply plain_contents; exact PY).
      exists ([2; len X] ++ X), ([2; len Y] ++ Y), (h3 ++ C3), (h2 ++ C2).
      repeat apply conj; [apply DI32; assumption|apply DI32; assumption|exists h3; auto|exists h2; auto|].
      exists h. rewrite <- HcX, <- HcY. fold body. split; [exact Hh'|reflexivity].
    + intros Hp. rewrite Hp. reflexivity.
Qed.

(** ** Statements in the form used by PropASN1.v *)

Lemma survives_spec data : data <> [] -> bytes data ->
  survives data = true <->
  (length data = 1%nat /\ nz data 0 < 128) \/ 1 <= nz data 0 < 128 \/
  (nz data 0 = 0 /\ 128 <= nz data 1).
Proof.
  intros Hne Hb. destruct data as [|b0 [|b1 data]]; [congruence| |].
  - inversion Hb as [|? ? Hb0 _]; subst. unfold is_byte in Hb0.
    cbn [survives length]. unfold nz. cbn [nth]. rewrite Z.ltb_lt. lia.
  - cbn [survives length]. unfold nz. cbn [nth].
    rewrite orb_true_iff, !andb_true_iff. lia.
Qed.

Lemma plain_spec d : plain d = true <-> 1 <= nz d 0 < 128.
Proof. unfold plain. destruct d; unfold nz; cbn [hd nth]; rewrite andb_true_iff; lia. Qed.

Lemma plain_false d : plain d = false <-> ~ (1 <= nz d 0 < 128).
Proof. rewrite <- plain_spec. destruct (plain d); split; congruence. Qed.

Lemma public_key_decode_any cls pc u data h r :
  a_class cls -> a_pc pc -> 0 <= u <= 7 -> (data = [] -> u = 0) ->
  der_header cls pc 3 (1 + len data) h -> len ((h ++ u :: data) ++ r) < 2 ^ 64 ->
  public_key_decode ((h ++ u :: data) ++ r) =
  Ok (if len data =? 65 then inl (len h + 1, len h + 66) else inr (-1)).
Proof.
  intros Hc Hp Hu Hu0 Hh Hl. unfold public_key_decode.
  pose proof (len_nonneg h). pose proof (len_nonneg data). pose proof (len_nonneg r).
  rewrite !len_app, len_cons in Hl.
  set (m := (h ++ u :: data) ++ r). fold (len m).
  assert (Hm : len m = len h + (1 + len data) + len r) by (unfold m; rewrite !len_app, len_cons; reflexivity).
  pose proof (decode_bit_string_spec cls pc u data h [] r (len m) Hc Hp Hu Hu0 Hh ltac:(lia) ltac:(lia)) as D.
  change (len []) with 0 in D. cbn [app] in D. fold m in D. rewrite D.
  assert (Hne : w64 (8 * len data - (cls + pc + 3)) =? 65 * 8 = false).
  { unfold w64. destruct (_ =? _) eqn:E; [|reflexivity]. exfalso. apply Z.eqb_eq in E.
    pose proof (Z.div_mod (8 * len data - (cls + pc + 3)) (2 ^ 64) ltac:(lia)) as Dm. rewrite E in Dm.
    assert (Hc8 : exists k, cls + pc = 8 * k).
    { destruct Hc as [->|[->|[->| ->]]]; destruct Hp as [->| ->];
        [exists 0|exists 4|exists 8|exists 12|exists 16|exists 20|exists 24|exists 28]; reflexivity. }
    destruct Hc8 as (k & Hk). set (q := _ / 2 ^ 64) in *. clearbody q. lia. }
  rewrite Hne. destruct (len data =? 65) eqn:E65; cbn [andb negb]; [|reflexivity].
  do 2 f_equal. apply f_equal2; lia.
Qed.

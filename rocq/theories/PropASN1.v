(** Properties C03-C06 and C57: ASN.1 encoding and decoding, and the DER forms of SM2 objects. *)
From Verif Require Import Base BaseFacts ModelASN1 SpecASN1 ProofASN1 ProofASN1b ProofASN1c.

(** * C03: headers *)

(** For every class, construction flag, tag number 0..30 and every 64-bit length: the header written
    is the DER header, it is written exactly at [out] and nothing else is, *outl is its size, and
    decoding it gives back class, flag, number, length and the address of the value. *)
Theorem C03_header_roundtrip : forall cls pc num n,
  a_class cls -> a_pc pc -> low_tag num -> 0 <= n < 2 ^ 64 ->
  exists h, der_header cls pc num n h /\
    (forall p old z, len old = len h ->
       encode_tl (p ++ old ++ z) (len p) cls pc num n = Ok (p ++ h ++ z, len h)) /\
    (forall p r inl_, len h <= inl_ < 2 ^ 64 ->
       decode_tlv (p ++ h ++ r) (len p) inl_ =
       Ok (inl (mk_tlv cls pc num n (len p + len h), (len h + n) mod 2 ^ 64))).
Proof.
  intros cls pc num n Hc Hp Ht Hn.
  destruct (encode_tl_spec cls pc num n Hc Hp Ht Hn) as (h & Hh & _ & _ & He).
  exists h. split; [exact Hh|]. split; [exact He|]. intros p r inl_ Hi.
  exact (decode_tlv_spec cls pc num n h p r inl_ Hc Hp Ht Hn Hh Hi).
Qed.

(** The exported header writers: SEQUENCE and SET give the universal constructed header. *)
Theorem C03_sequence_set_header : forall n p old z h,
  0 <= n < 2 ^ 64 -> len old = len h ->
  (der_header 0 32 16 n h -> encode_sequence_tl (p ++ old ++ z) (len p) n = Ok (p ++ h ++ z, len h)) /\
  (der_header 0 32 17 n h -> encode_set_tl (p ++ old ++ z) (len p) n = Ok (p ++ h ++ z, len h)).
Proof.
  intros n p old z h Hn Ho. split; intros Hh.
  - exact (encode_tl_at 0 32 16 n h p old z class0 pc32 ltac:(unfold low_tag; lia) Hn Hh Ho).
  - exact (encode_tl_at 0 32 17 n h p old z class0 pc32 ltac:(unfold low_tag; lia) Hn Hh Ho).
Qed.

(** The header has one DER form only, so "the" header is meaningful. *)
Theorem C03_header_unique : forall cls pc num n a b,
  der_header cls pc num n a -> der_header cls pc num n b -> a = b.
Proof. exact der_header_unique. Qed.

(** asn1_encode_tlv_outl (and the sequence, set and octet string variants, which are the same
    function) announces header plus value for every length below 2^56. *)
Theorem C03_outl_exact : forall n cls pc num h,
  0 <= n < 2 ^ 56 -> der_header cls pc num n h ->
  encode_tlv_outl n = Ok (len h + n) /\ encode_sequence_outl n = Ok (len h + n) /\
  encode_set_outl n = Ok (len h + n) /\ encode_octet_string_outl n = Ok (len h + n).
Proof.
  intros n cls pc num h Hn Hh. pose proof (tlv_outl_small n cls pc num h Hn Hh) as E.
  exact (conj E (conj E (conj E E))).
Qed.

(** For larger lengths it writes nine bytes into an eight byte array. *)
Theorem C03_outl_large_length_refuted : forall n, 2 ^ 56 <= n < 2 ^ 64 -> encode_tlv_outl n = UB.
Proof. exact tlv_outl_large. Qed.

(** The exported OCTET STRING and BIT STRING header writers set the constructed bit, so what they
    write is not the DER (primitive) header of such a string. *)
Theorem C03_string_tl_refuted : exists buf n,
  encode_octet_string_tl [0; 0] 0 3 = Ok (buf, n) /\ ~ der_header 0 0 4 3 buf.
Proof.
  exists [36; 3], 2. split; [reflexivity|]. intros (lo & _ & E). discriminate.
Qed.

Example C03_example_short :
  der_header 0 32 16 68 [48; 68] /\ encode_sequence_tl [9; 9; 9] 0 68 = Ok ([48; 68; 9], 2).
Proof. split; [exists [68]; split; [left; split; reflexivity|reflexivity]|reflexivity]. Qed.

Example C03_example_long :
  der_header 64 0 30 300 [94; 130; 1; 44] /\
  encode_tl [9; 9; 9; 9; 9] 0 64 0 30 300 = Ok ([94; 130; 1; 44; 9], 4).
Proof.
  split; [|reflexivity]. exists [130; 1; 44]. split; [right|reflexivity]. split; [lia|].
  exists [1; 44]. split; [apply all_bytes_spec; reflexivity|]. repeat apply conj; reflexivity.
Qed.

(** * C04: INTEGER *)

(** Exactly which inputs survive encoding followed by decoding, for every non-empty big-endian
    string [data], every previous contents of the output buffer: the encoder returns the announced
    size, and the decoded number is the encoded one iff the leading byte needs no sign octet
    (1..127, or a single byte below 128) or a zero octet is already there and is needed. *)
Theorem C04_integer_roundtrip_partial : forall data buf n,
  bytes data -> data <> [] -> len data < 2 ^ 56 - 1 -> bytes buf ->
  encode_integer_outl data = Ok n -> n <= len buf ->
  exists buf', encode_integer_tlv buf 0 data = Ok (buf', n) /\ len buf' = len buf /\
    ((exists p k, decode_integer_value (zfirst n buf') 0 n = Ok (inl (p, k, n)) /\
                  be_val (zslice (zfirst n buf') p k) = be_val data)
     <-> (length data = 1%nat /\ nz data 0 < 128) \/ 1 <= nz data 0 < 128 \/
         (nz data 0 = 0 /\ 128 <= nz data 1)).
Proof.
  intros data buf n Hd Hne Hl Hb Hn Hnb.
  destruct (integer_roundtrip_iff data buf n Hd Hne Hl Hb Hn Hnb) as (buf' & E & L & H).
  exists buf'. split; [exact E|]. split; [exact L|].
  exact (iff_trans H (survives_spec data Hne Hd)).
Qed.

(** In the surviving cases without a leading zero the bytes written are the DER of the number. *)
Theorem C04_integer_der_partial : forall data buf n,
  bytes data -> len data < 2 ^ 56 - 1 ->
  (exists b, data = [b] /\ b < 128) \/ 1 <= hd 0 data < 128 ->
  encode_integer_outl data = Ok n -> n <= len buf ->
  exists l z, encode_integer_tlv buf 0 data = Ok (l ++ z, n) /\ len l = n /\
              der_integer (be_val data) l.
Proof. exact integer_der. Qed.

(** The round trip fails: 0x80 (128) is written as 02 02 80 xx. *)
Theorem C04_integer_roundtrip_refuted : exists data buf buf' n p k,
  encode_integer_outl data = Ok n /\ encode_integer_tlv buf 0 data = Ok (buf', n) /\
  decode_integer_value (zfirst n buf') 0 n = Ok (inl (p, k, n)) /\
  be_val (zslice (zfirst n buf') p k) <> be_val data.
Proof.
  exists [128], [0; 0; 0; 7], [2; 2; 128; 7], 4, 2, 2.
  split; [reflexivity|]. split; [reflexivity|]. split; [reflexivity|]. vm_compute. discriminate.
Qed.

(** The decoder: every DER INTEGER with value v >= 0, anywhere in memory, is accepted and the bytes
    returned are v in big-endian without superfluous zeros; *read_num is the size of the element. *)
Theorem C04_integer_decode_der : forall v l p r inl_,
  0 <= v -> der_integer v l -> len l <= inl_ < 2 ^ 64 ->
  exists off k, decode_integer_value (p ++ l ++ r) (len p) inl_ = Ok (inl (off, k, len l)) /\
                be_val (zslice (p ++ l ++ r) off k) = v /\
                len p <= off /\ off + k = len p + len l /\
                (v = 0 \/ nz (p ++ l ++ r) (Z.to_nat off) <> 0).
Proof. exact integer_decode_der. Qed.

(** Contents that are not minimal are refused, whatever they are. *)
Theorem C04_integer_decode_minimal : forall c h p r inl_,
  bytes c -> der_header 0 0 2 (len c) h -> len h <= inl_ < 2 ^ 64 -> len h + len c < 2 ^ 64 ->
  (decode_integer_value (p ++ (h ++ c) ++ r) (len p) inl_ = Ok (inr (-1)) <->
   int_minimal c = false).
Proof.
  intros c h p r inl_ Hb Hh Hi Hl.
  rewrite (decode_integer_spec 0 c h p r inl_ class0 Hb Hh Hi Hl).
  destruct (int_minimal c); split; intros H; try reflexivity; discriminate.
Qed.

(** Negative integers: -1 and 255 are different DER integers and decode to the same bytes, so the
    decoded string does not determine the number. *)
Theorem C04_negative_integer_refuted : exists l1 l2 p1 p2 k1 k2 n1 n2,
  der_integer (-1) l1 /\ der_integer 255 l2 /\
  decode_integer_value l1 0 (len l1) = Ok (inl (p1, k1, n1)) /\
  decode_integer_value l2 0 (len l2) = Ok (inl (p2, k2, n2)) /\
  zslice l1 p1 k1 = zslice l2 p2 k2.
Proof.
  exists [2; 1; 255], [2; 2; 0; 255], 2, 3, 1, 1, 3, 4.
  split; [|split; [|split; [reflexivity|split; reflexivity]]].
  - exists [255]. split; [apply all_bytes_spec; reflexivity|]. split; [reflexivity|].
    split; [reflexivity|]. exists [2; 1]. split; [|reflexivity].
    exists [1]. split; [left; split; reflexivity|reflexivity].
  - exists [0; 255]. split; [apply all_bytes_spec; reflexivity|]. split; [reflexivity|].
    split; [reflexivity|]. exists [2; 2]. split; [|reflexivity].
    exists [2]. split; [left; split; reflexivity|reflexivity].
Qed.

Example C04_example :
  encode_integer_tlv [0; 0; 0; 0; 0] 0 [127; 200; 3] = Ok ([2; 3; 127; 200; 3], 5) /\
  decode_integer_value [2; 3; 127; 200; 3] 0 5 = Ok (inl (2, 3, 5)).
Proof. split; reflexivity. Qed.

(** BOOLEAN and OCTET STRING and BIT STRING: what is written, and that it is read back. *)
Theorem C04_boolean_roundtrip : forall b p x y w z inl_,
  3 <= inl_ < 2 ^ 64 ->
  exists l, der_boolean b l /\
    encode_boolean_tlv (p ++ [x; y; w] ++ z) (len p) b = Ok (p ++ l ++ z, encode_boolean_outl) /\
    decode_boolean_value (p ++ l ++ z) (len p) inl_ = Ok (inl (b, 3)).
Proof.
  intros b p x y w z inl_ Hi. exists [1; 1; if b then 255 else 0].
  assert (Hh : der_header 0 0 1 1 [1; 1]).
  { exists [1]. split; [left; split; reflexivity|reflexivity]. }
  split; [exists [1; 1]; split; [exact Hh|reflexivity]|]. split; [apply encode_boolean_spec|].
  change [1; 1; if b then 255 else 0] with ([1; 1] ++ [if b then 255 else 0]).
  rewrite (decode_boolean_spec 0 _ [1; 1] p z inl_ class0 Hh ltac:(change (len [1; 1]) with 2; lia)).
  destruct b; reflexivity.
Qed.

Theorem C04_octet_string_roundtrip : forall data h p old z inl_,
  der_header 0 0 4 (len data) h -> data <> [] -> len data < 2 ^ 56 ->
  len old = len h + len data -> len old <= inl_ < 2 ^ 64 ->
  let l := h ++ data in
  der_octet_string data l /\
  encode_octet_string_outl (len data) = Ok (len l) /\
  encode_octet_string_tlv (p ++ old ++ z) (len p) data = Ok (p ++ l ++ z, len l) /\
  exists off, decode_octet_string_value (p ++ l ++ z) (len p) inl_ = Ok (inl (off, len data, len l)) /\
              zslice (p ++ l ++ z) off (len data) = data.
Proof.
  intros data h p old z inl_ Hh Hne Hl Ho Hi l. pose proof (len_nonneg data). pose proof (len_nonneg h).
  assert (Hll : len l = len h + len data) by (apply len_app).
  split; [exists h; split; [exact Hh|reflexivity]|]. split.
  { rewrite Hll. apply (tlv_outl_small _ 0 0 4); [lia|exact Hh]. }
  split; [rewrite Hll; exact (encode_octet_string_spec data p old z h Hh Ho ltac:(lia))|].
  exists (len p + len h). unfold l. rewrite <- app_assoc. split.
  - rewrite (decode_octet_string_spec 0 0 data h p (data ++ z) inl_ class0 pc0 Hh ltac:(lia) ltac:(lia)).
    destruct (len data =? 0) eqn:E; [|rewrite len_app; reflexivity].
    destruct data as [|d data]; [congruence|]. rewrite len_cons in E. pose proof (len_nonneg data). lia.
  - replace (p ++ h ++ data ++ z) with ((p ++ h) ++ data ++ z) by (rewrite <- app_assoc; reflexivity).
    apply zslice_app; [rewrite len_app; reflexivity|reflexivity].
Qed.

(** The empty OCTET STRING, SEQUENCE and SET are valid DER and are refused. *)
Theorem C04_empty_refuted :
  der_octet_string [] [4; 0] /\ decode_octet_string_value [4; 0] 0 2 = Ok (inr (-1)) /\
  der_element 0 32 16 [] [48; 0] /\ decode_sequence_value [48; 0] 0 2 = Ok (inr (-1)) /\
  der_element 0 32 17 [] [49; 0] /\ decode_set_value [49; 0] 0 2 = Ok (inr (-1)).
Proof.
  split; [|split; [reflexivity|split; [|split; [reflexivity|split; [|reflexivity]]]]].
  - exists [4; 0]. split; [|reflexivity]. exists [0]. split; [left; split; [reflexivity|reflexivity]|reflexivity].
  - exists [48; 0]. split; [|reflexivity]. exists [0]. split; [left; split; [reflexivity|reflexivity]|reflexivity].
  - exists [49; 0]. split; [|reflexivity]. exists [0]. split; [left; split; [reflexivity|reflexivity]|reflexivity].
Qed.

(** BIT STRING: the bytes come back; the number of bits does not, because the identifier octet (3)
    is subtracted instead of the unused-bits octet. *)
Theorem C04_bit_string_roundtrip_partial : forall data bits h p old z inl_,
  0 <= bits < 2 ^ 64 - 7 -> 8 * len data - 7 <= bits <= 8 * len data -> data <> [] ->
  der_header 0 0 3 (1 + len data) h -> len old = len h + (1 + len data) -> len old <= inl_ < 2 ^ 64 ->
  let l := h ++ (8 * len data - bits) :: data in
  der_bit_string bits data l /\
  encode_bit_string_tlv (p ++ old ++ z) (len p) data bits = Ok (p ++ l ++ z, len l) /\
  exists off, decode_bit_string_value (p ++ l ++ z) (len p) inl_ =
              Ok (inl (off, len data, (8 * len data - 3) mod 2 ^ 64, len l)) /\
              zslice (p ++ l ++ z) off (len data) = data.
Proof.
  intros data bits h p old z inl_ Hb Hb2 Hne Hh Ho Hi l. pose proof (len_nonneg data). pose proof (len_nonneg h).
  assert (Hll : len l = len h + (1 + len data)) by (unfold l; rewrite len_app, len_cons; reflexivity).
  split.
  { split; [exact Hb2|]. exists h. rewrite len_cons. split; [exact Hh|reflexivity]. }
  split; [rewrite Hll; exact (encode_bit_string_spec data bits p old z h Hb Hb2 Hh Ho ltac:(lia))|].
  exists (len p + len h + 1). split.
  - rewrite Hll.
    refine (decode_bit_string_spec 0 0 (8 * len data - bits) data h p z inl_ class0 pc0 _ _ Hh _ _);
      try lia. intros E. congruence.
  - unfold l. replace (p ++ (h ++ (8 * len data - bits) :: data) ++ z)
      with ((p ++ h ++ [8 * len data - bits]) ++ data ++ z) by (rewrite <- !app_assoc; reflexivity).
    apply zslice_app; [rewrite !len_app; change (len [8 * len data - bits]) with 1; lia|reflexivity].
Qed.

Theorem C04_bit_string_bits_refuted : exists l p k b n,
  der_bit_string 16 [170; 187] l /\
  decode_bit_string_value l 0 (len l) = Ok (inl (p, k, b, n)) /\ b <> 16.
Proof.
  exists [3; 3; 0; 170; 187], 3, 2, 13, 5. split; [|split; [reflexivity|lia]].
  split; [split; vm_compute; discriminate|]. exists [3; 3]. split; [|reflexivity].
  exists [3]. split; [left; split; reflexivity|reflexivity].
Qed.

(** * C05: bounds *)

(** asn1_decode_tlv itself reads only the inl bytes it is given, for every input; on success the
    header is inside them. *)
Theorem C05_tlv_reads_in_bounds : forall m,
  bytes m -> len m < 2 ^ 64 ->
  exists r, decode_tlv m 0 (len m) = Ok r /\
    forall t rn, r = inl (t, rn) ->
      2 <= tlv_value t <= len m /\ 0 <= tlv_length t < 2 ^ 64 /\
      rn = (tlv_value t + tlv_length t) mod 2 ^ 64.
Proof.
  intros m Hm Hl. pose proof (len_nonneg m).
  destruct (decode_tlv_total m 0 (len m) Hm ltac:(lia) ltac:(lia) ltac:(lia)) as (r & E & H1).
  exists r. split; [exact E|]. intros t rn Hr. specialize (H1 t rn Hr). rewrite Z.sub_0_r in H1. exact H1.
Qed.

(** But success does not mean the value is there: 04 05 is accepted with five bytes announced and
    none present. *)
Theorem C05_value_in_bounds_refuted : exists m t rn,
  bytes m /\ decode_tlv m 0 (len m) = Ok (inl (t, rn)) /\ len m < tlv_value t + tlv_length t.
Proof.
  exists [4; 5], (mk_tlv 0 0 4 5 2), 7. split; [apply all_bytes_spec; reflexivity|].
  split; [reflexivity|]. vm_compute. reflexivity.
Qed.

(** The announced size may even wrap around, so that read_num looks plausible. *)
Theorem C05_read_num_wraps_refuted : exists m t rn,
  bytes m /\ decode_tlv m 0 (len m) = Ok (inl (t, rn)) /\
  rn <= len m /\ len m < tlv_value t + tlv_length t.
Proof.
  exists [4; 136; 255; 255; 255; 255; 255; 255; 255; 255], (mk_tlv 0 0 4 (2 ^ 64 - 1) 10), 9.
  split; [apply all_bytes_spec; reflexivity|]. split; [reflexivity|].
  split; vm_compute; [discriminate|reflexivity].
Qed.

(** and the value decoders then read outside the input. *)
Theorem C05_value_decoders_refuted :
  decode_boolean_value [1; 1] 0 2 = UB /\ decode_integer_value [2; 2] 0 2 = UB /\
  decode_bit_string_value [3; 1] 0 2 = UB /\
  decode_octet_string_value [4; 9] 0 2 = Ok (inl (2, 9, 11)).
Proof. repeat apply conj; reflexivity. Qed.

(** What does hold: if the announced value lies inside the input, no decoder reads outside it and
    the range returned is inside the value. *)
Theorem C05_decoders_in_bounds_partial : forall m t rn,
  bytes m -> len m < 2 ^ 64 -> decode_tlv m 0 (len m) = Ok (inl (t, rn)) ->
  tlv_value t + tlv_length t <= len m ->
  (exists r, decode_boolean_value m 0 (len m) = Ok r) /\
  (exists r, decode_integer_value m 0 (len m) = Ok r /\
     forall p n k, r = inl (p, n, k) -> tlv_value t <= p /\ 0 <= n /\ p + n <= len m) /\
  (exists r, decode_bit_string_value m 0 (len m) = Ok r /\
     forall p n b k, r = inl (p, n, b, k) -> tlv_value t <= p /\ 0 <= n /\ p + n <= len m) /\
  (exists r, decode_octet_string_value m 0 (len m) = Ok r /\
     forall p n k, r = inl (p, n, k) -> tlv_value t <= p /\ 0 <= n /\ p + n <= len m) /\
  (exists r, decode_sequence_value m 0 (len m) = Ok r /\
     forall p n k, r = inl (p, n, k) -> tlv_value t <= p /\ 0 <= n /\ p + n <= len m) /\
  (exists r, decode_set_value m 0 (len m) = Ok r /\
     forall p n k, r = inl (p, n, k) -> tlv_value t <= p /\ 0 <= n /\ p + n <= len m).
Proof.
  intros m t rn Hm Hs Hd Hin.
  pose proof (tlv_facts m t rn Hm Hs Hd) as F.
  split; [exact (boolean_in_bounds m t rn Hm Hs Hd Hin)|].
  split.
  { destruct (integer_in_bounds m t rn Hm Hs Hd Hin) as (r & E & H). exists r. split; [exact E|].
    intros p n k Hr. specialize (H p n k Hr). lia. }
  split.
  { destruct (bit_string_in_bounds m t rn Hm Hs Hd Hin) as (r & E & H). exists r. split; [exact E|].
    intros p n b k Hr. specialize (H p n b k Hr). lia. }
  split.
  { destruct (octet_string_in_bounds m t rn Hd) as (r & E & H). exists r. split; [exact E|].
    intros p n k Hr. specialize (H p n k Hr). lia. }
  split.
  { destruct (sequence_in_bounds m t rn Hd) as (r & E & H). exists r. split; [exact E|].
    intros p n k Hr. specialize (H p n k Hr). lia. }
  { destruct (set_in_bounds m t rn Hd) as (r & E & H). exists r. split; [exact E|].
    intros p n k Hr. specialize (H p n k Hr). lia. }
Qed.

Example C05_example : exists t rn,
  decode_tlv [2; 2; 0; 200] 0 4 = Ok (inl (t, rn)) /\ tlv_value t + tlv_length t <= 4 /\
  decode_integer_value [2; 2; 0; 200] 0 4 = Ok (inl (3, 1, 4)).
Proof.
  exists (mk_tlv 0 0 2 2 2), 4. split; [reflexivity|]. split; [vm_compute; discriminate|reflexivity].
Qed.

(** * C06: SM2 objects *)

(** Signatures: for all 32-byte r and s and every buffer of the announced size.  If both leading
    bytes are in 1..127 the output is the DER SEQUENCE of the two numbers and decodes to r and s;
    in every other case the decoder refuses what the encoder wrote. *)
Theorem C06_signature_roundtrip_partial : forall R S buf n,
  bytes R -> bytes S -> len R = 32 -> len S = 32 -> bytes buf ->
  signature_encode_outl R S = Ok n -> n <= len buf ->
  exists buf', signature_encode buf R S = Ok (buf', n) /\ len buf' = len buf /\
    (1 <= nz R 0 < 128 /\ 1 <= nz S 0 < 128 ->
      exists pr ps, signature_decode (zfirst n buf') = Ok (inl (pr, ps, n)) /\
      zslice (zfirst n buf') pr 32 = R /\ zslice (zfirst n buf') ps 32 = S /\
      exists eR eS, der_integer (be_val R) eR /\ der_integer (be_val S) eS /\
                    der_element 0 32 16 (eR ++ eS) (zfirst n buf')) /\
    (~ (1 <= nz R 0 < 128 /\ 1 <= nz S 0 < 128) ->
      signature_decode (zfirst n buf') = Ok (inr (-1))).
Proof.
  intros R S buf n HbR HbS HR HS Hb Hn Hnb.
  destruct (signature_roundtrip R S buf n HbR HbS HR HS Hb Hn Hnb) as (buf' & E & L & H1 & H2).
  exists buf'. split; [exact E|]. split; [exact L|]. split.
  - intros [PR PS]. apply plain_spec in PR. apply plain_spec in PS.
    destruct H1 as (D & S1 & S2 & X); [rewrite PR, PS; reflexivity|].
    exists 4, 38. exact (conj D (conj S1 (conj S2 X))).
  - intros Hn'. apply H2. apply not_true_is_false. intros E'. apply andb_true_iff in E'.
    destruct E' as [E1 E2]. apply Hn'. split; apply plain_spec; assumption.
Qed.

(** So the property fails, for half of all r (and for leading zeros): a 32-byte r beginning with
    0x80 does not come back. *)
Theorem C06_signature_roundtrip_refuted : exists R S buf buf' n,
  bytes R /\ bytes S /\ len R = 32 /\ len S = 32 /\
  signature_encode_outl R S = Ok n /\ n <= len buf /\
  signature_encode buf R S = Ok (buf', n) /\ signature_decode (zfirst n buf') = Ok (inr (-1)).
Proof.
  exists (128 :: repeat 0 31), (repeat 1 32), (repeat 0 71).
  exists ([48; 69; 2; 33; 128] ++ repeat 0 32 ++ [2; 32] ++ repeat 1 32), 71.
  split; [apply all_bytes_spec; reflexivity|]. split; [apply all_bytes_spec; reflexivity|].
  repeat apply conj; reflexivity.
Qed.

Theorem C06_private_key_roundtrip_partial : forall v buf n,
  bytes v -> len v = 32 -> bytes buf ->
  private_key_encode_outl v = Ok n -> n <= len buf ->
  exists buf', private_key_encode buf v = Ok (buf', n) /\ len buf' = len buf /\
    (1 <= nz v 0 < 128 ->
      exists p, private_key_decode (zfirst n buf') = Ok (inl (p, n)) /\
                zslice (zfirst n buf') p 32 = v) /\
    (~ (1 <= nz v 0 < 128) -> private_key_decode (zfirst n buf') = Ok (inr (-1))).
Proof.
  intros v buf n Hb Hv Hbuf Hn Hnb.
  destruct (private_key_roundtrip v buf n Hb Hv Hbuf Hn Hnb) as (buf' & E & L & H1 & H2).
  exists buf'. split; [exact E|]. split; [exact L|]. split.
  - intros P. apply plain_spec in P. exists 2. exact (H1 P).
  - intros P. apply plain_false in P. exact (H2 P).
Qed.

(** Public keys round trip for every 65-byte key. *)
Theorem C06_public_key_roundtrip : forall v buf n,
  len v = 65 -> public_key_encode_outl = Ok n -> n <= len buf ->
  exists buf', public_key_encode buf v = Ok (buf', n) /\ len buf' = len buf /\
      der_bit_string 520 v (zfirst n buf') /\
      exists p, public_key_decode (zfirst n buf') = Ok (inl (p, n)) /\
                zslice (zfirst n buf') p 65 = v.
Proof.
  intros v buf n Hv Hn Hnb.
  destruct (public_key_roundtrip v buf n Hv Hn Hnb) as (buf' & E & L & B & D & S).
  exists buf'. split; [exact E|]. split; [exact L|]. split; [exact B|]. exists 3. exact (conj D S).
Qed.

(** Decoding a public key accepts a BIT STRING exactly when it has 65 bytes (whatever its class,
    construction bit and number of unused bits). *)
Theorem C06_public_key_decode_accepts : forall cls pc u data h r,
  a_class cls -> a_pc pc -> 0 <= u <= 7 -> (data = [] -> u = 0) ->
  der_header cls pc 3 (1 + len data) h -> len ((h ++ u :: data) ++ r) < 2 ^ 64 ->
  public_key_decode ((h ++ u :: data) ++ r) =
  Ok (if len data =? 65 then inl (len h + 1, len h + 66) else inr (-1)).
Proof. exact public_key_decode_any. Qed.

(** Ciphertexts: x, y of 32 bytes, any C3 and C2. *)
Theorem C06_cipher_roundtrip_partial : forall X Y C3 C2 buf n,
  bytes X -> bytes Y -> len X = 32 -> len Y = 32 -> bytes buf ->
  len C3 + len C2 < 2 ^ 56 - 100 ->
  cipher_encode_outl X Y C3 C2 = Ok n -> n <= len buf ->
  exists buf', cipher_encode buf X Y C3 C2 = Ok (buf', n) /\ len buf' = len buf /\
    let m := zfirst n buf' in
    let good := (1 <= nz X 0 < 128 /\ 1 <= nz Y 0 < 128) /\ C3 <> [] /\ C2 <> [] in
    (good ->
      exists px py p3 p2,
        cipher_decode m = Ok (inl (px, py, (p3, len C3), (p2, len C2), n)) /\
        zslice m px 32 = X /\ zslice m py 32 = Y /\
        zslice m p3 (len C3) = C3 /\ zslice m p2 (len C2) = C2 /\
        exists eX eY e3 e2, der_integer (be_val X) eX /\ der_integer (be_val Y) eY /\
          der_octet_string C3 e3 /\ der_octet_string C2 e2 /\
          der_element 0 32 16 (eX ++ eY ++ e3 ++ e2) m) /\
    (~ good -> cipher_decode m = Ok (inr (-1))).
Proof.
  intros X Y C3 C2 buf n HbX HbY HX HY Hb HC Hn Hnb.
  destruct (cipher_roundtrip X Y C3 C2 buf n HbX HbY HX HY Hb HC Hn Hnb) as (buf' & E & L & H1 & H2 & H3).
  exists buf'. split; [exact E|]. split; [exact L|]. cbv zeta in *.
  assert (Hlen : forall l, negb (len l =? 0) = true <-> l <> []).
  { intros l. destruct l as [|a l]; [split; [discriminate|congruence]|].
    rewrite len_cons. pose proof (len_nonneg l). split; [discriminate|]. intros _. lia. }
  split.
  - intros [[PX PY] [N3 N2]]. apply plain_spec in PX. apply plain_spec in PY.
    apply Hlen in N3. apply Hlen in N2.
    destruct H1 as (px & py & p3 & p2 & D & S1 & S2 & S3 & S4);
      [unfold cipher_ok; rewrite PX, PY, N3, N2; reflexivity|].
    exists px, py, p3, p2.
    exact (conj D (conj S1 (conj S2 (conj S3 (conj S4 (H2 PX PY)))))).
  - intros Hn'. apply H3. apply not_true_is_false. intros E'. unfold cipher_ok in E'.
    rewrite !andb_true_iff in E'. destruct E' as [[[E1 E2] E3] E4]. apply Hn'.
    split; [split; apply plain_spec; assumption|]. split; apply Hlen; assumption.
Qed.

Example C06_example :
  let R := 1 :: repeat 200 31 in let S := 127 :: repeat 0 31 in
  signature_encode_outl R S = Ok 70 /\
  match signature_encode (repeat 0 80) R S with
  | Ok (b, n) => n = 70 /\ signature_decode (zfirst n b) = Ok (inl (4, 38, 70)) /\
                 zslice (zfirst n b) 4 32 = R
  | _ => False
  end.
Proof. vm_compute. repeat apply conj; reflexivity. Qed.

(** * C57: asn1_dump *)

(** For every sequence of DER elements, nested to any depth, of fewer than 2^64 bytes: asn1_dump
    terminates, reads nothing outside the input, prints each element once, parents before children,
    with its depth, class, flag, tag and length, and returns 0. *)
Theorem C57_dump_wellformed : forall ts m, encs ts m -> len m < 2 ^ 64 ->
  exists F out, listing 0 ts (map erase out) /\
    forall fuel, (F <= fuel)%nat -> dump fuel m = Ok (out, 0).
Proof. exact dump_ok. Qed.

(** On a truncated element it reads outside the input; *)
Theorem C57_dump_truncated_refuted : forall fuel, (2 <= fuel)%nat -> dump fuel [4; 5; 1] = UB.
Proof.
  intros fuel H. destruct fuel as [|[|fuel]]; [lia|lia|]. reflexivity.
Qed.

(** and it reports success although an inner element is malformed. *)
Theorem C57_dump_inner_error_refuted : forall fuel, (3 <= fuel)%nat ->
  exists out, dump fuel [48; 1; 31] = Ok (out, 0) /\ decode_tlv [31] 0 1 = Ok (inr (-2)).
Proof.
  intros fuel H. destruct fuel as [|[|[|fuel]]]; [lia|lia|lia|]. eexists. split; reflexivity.
Qed.

Example C57_example :
  encs [Cons 0 16 [Prim 0 2 [5]; Prim 0 4 [7; 8]]] [48; 7; 2; 1; 5; 4; 2; 7; 8] /\
  exists out, dump 10 [48; 7; 2; 1; 5; 4; 2; 7; 8] = Ok (out, 0) /\
    map erase out = [(0%nat, (0, 32, 16, 7)); (1%nat, (0, 0, 2, 1)); (1%nat, (0, 0, 4, 2))].
Proof.
  split.
  - change [48; 7; 2; 1; 5; 4; 2; 7; 8] with ([48; 7; 2; 1; 5; 4; 2; 7; 8] ++ []).
    constructor; [|constructor].
    apply (enc_cons 0 16 _ [2; 1; 5; 4; 2; 7; 8]); [left; reflexivity|split; vm_compute; discriminate| |].
    + change [2; 1; 5; 4; 2; 7; 8] with ([2; 1; 5] ++ [4; 2; 7; 8] ++ []).
      constructor; [|constructor; [|constructor]].
      * apply enc_prim; [left; reflexivity|split; vm_compute; discriminate|apply all_bytes_spec; reflexivity|].
        exists [2; 1]. split; [|reflexivity]. exists [1]. split; [left; split; [reflexivity|reflexivity]|reflexivity].
      * apply enc_prim; [left; reflexivity|split; vm_compute; discriminate|apply all_bytes_spec; reflexivity|].
        exists [4; 2]. split; [|reflexivity]. exists [2]. split; [left; split; [reflexivity|reflexivity]|reflexivity].
    + exists [48; 7]. split; [|reflexivity]. exists [7]. split; [left; split; [reflexivity|reflexivity]|reflexivity].
  - eexists. split; reflexivity.
Qed.

Print Assumptions C03_header_roundtrip.
Print Assumptions C04_integer_roundtrip_partial.
Print Assumptions C04_integer_decode_der.
Print Assumptions C05_decoders_in_bounds_partial.
Print Assumptions C06_signature_roundtrip_partial.
Print Assumptions C06_cipher_roundtrip_partial.
Print Assumptions C57_dump_wellformed.

(** The assumptions of the remaining theorems, printed together. *)
Definition other_theorems_ASN1 :=
  (@C03_sequence_set_header, @C03_header_unique, @C03_outl_exact, @C03_outl_large_length_refuted,
   @C03_string_tl_refuted, @C04_integer_der_partial, @C04_integer_roundtrip_refuted,
   @C04_integer_decode_minimal, @C04_negative_integer_refuted, @C04_boolean_roundtrip,
   @C04_octet_string_roundtrip, @C04_empty_refuted, @C04_bit_string_roundtrip_partial,
   @C04_bit_string_bits_refuted, @C05_tlv_reads_in_bounds, @C05_value_in_bounds_refuted,
   @C05_read_num_wraps_refuted, @C05_value_decoders_refuted, @C06_signature_roundtrip_refuted,
   @C06_private_key_roundtrip_partial, @C06_public_key_roundtrip, @C06_public_key_decode_accepts,
   @C57_dump_truncated_refuted, @C57_dump_inner_error_refuted).
Print Assumptions other_theorems_ASN1.

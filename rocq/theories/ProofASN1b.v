(** Proofs about the ASN.1 model: reads stay in bounds, asn1_dump, DER of SM2 objects. *)
From Verif Require Import Base BaseFacts ModelASN1 SpecASN1 ProofASN1.

(** ** Reads of the decoders *)

Lemma length_octets_ok m k : forall off acc,
  bytes m -> 0 <= off -> off + Z.of_nat k <= len m -> 0 <= acc < 2 ^ 64 ->
  exists v, length_octets m off k acc = Ok v /\ 0 <= v < 2 ^ 64.
Proof.
  induction k as [|k IH]; intros off acc Hm H0 Hl Ha.
  - exists acc. split; [reflexivity|lia].
  - cbn [length_octets]. rewrite rd_nth by lia. cbn [bind].
    apply IH; [exact Hm|lia|lia|].
    apply lor_bound; [lia| |].
    + unfold w64. apply Z.mod_pos_bound. lia.
    + pose proof (bytes_nz m (Z.to_nat off) Hm) as Hb. unfold is_byte in Hb. lia.
Qed.

Lemma land_le_7 b : is_byte b -> 0 <= Z.land b 127.
Proof. intros Hb. apply Z.land_nonneg. right. lia. Qed.

Lemma decode_length_total m off inl_ :
  bytes m -> 0 <= off -> 0 <= inl_ < 2 ^ 64 -> off + inl_ <= len m ->
  exists r, decode_length m off inl_ = Ok r /\
    forall v n, r = inl (v, n) -> 1 <= n <= inl_ /\ n <= 9 /\ 0 <= v < 2 ^ 64.
Proof.
  intros Hm H0 Hi Hl. unfold decode_length. destruct (inl_ =? 0) eqn:E.
  { eexists. split; [reflexivity|]. discriminate. }
  rewrite rd_nth by lia. cbn [bind]. set (b := nz m (Z.to_nat off)).
  assert (Hb : is_byte b) by (apply bytes_nz; exact Hm). unfold is_byte in Hb.
  destruct (b =? 128). { eexists. split; [reflexivity|]. discriminate. }
  destruct (Z.land b 128 =? 0).
  { eexists. split; [reflexivity|]. intros v n Hr. injection Hr as <- <-. lia. }
  pose proof (land_le_7 b Hb). cbv zeta.
  destruct (8 <? Z.land b 127) eqn:E8. { eexists. split; [reflexivity|]. discriminate. }
  destruct (inl_ <? 1 + Z.land b 127) eqn:E9. { eexists. split; [reflexivity|]. discriminate. }
  destruct (length_octets_ok m (Z.to_nat (Z.land b 127)) (off + 1) 0) as (v & Ev & Hv);
    [exact Hm|lia|lia|lia|].
  rewrite Ev. cbn [bind]. eexists. split; [reflexivity|].
  intros v' n Hr. injection Hr as <- <-. lia.
Qed.

Lemma decode_tlv_total m off inl_ :
  bytes m -> 0 <= off -> 0 <= inl_ < 2 ^ 64 -> off + inl_ <= len m ->
  exists r, decode_tlv m off inl_ = Ok r /\
    forall t rn, r = inl (t, rn) ->
      2 <= tlv_value t - off <= inl_ /\ 0 <= tlv_length t < 2 ^ 64 /\
      rn = (tlv_value t - off + tlv_length t) mod 2 ^ 64.
Proof.
  intros Hm H0 Hi Hl. unfold decode_tlv, decode_identifier.
  destruct (inl_ =? 0) eqn:E. { eexists. split; [reflexivity|]. discriminate. }
  rewrite rd_nth by lia. cbn [bind].
  destruct (Z.land (nz m (Z.to_nat off)) 31 =? 31). { eexists. split; [reflexivity|]. discriminate. }
  cbn [bindr]. unfold w64 at 1. rewrite Z.mod_small by lia.
  destruct (decode_length_total m (off + 1) (inl_ - 1)) as (r & Er & Hr); [exact Hm|lia|lia|lia|].
  rewrite Er. destruct r as [[v n]|e]; cbn [bindr].
  - specialize (Hr v n eq_refl). eexists. split; [reflexivity|].
    intros t rn Ht. injection Ht as <- <-. cbn [tlv_value tlv_length].
    repeat apply conj; try lia. unfold w64. f_equal. lia.
  - eexists. split; [reflexivity|]. discriminate.
Qed.

(** With the announced value inside the object, no decoder reads outside it, and what it returns
    lies inside the value. *)
Ltac ifd := match goal with |- context [if ?b then _ else _] => destruct b eqn:? end.

Section InBounds.
  Variables (m : list Z) (t : tlv) (rn : Z).
  Hypothesis Hm : bytes m.
  Hypothesis Hs : len m < 2 ^ 64.
  Hypothesis Hd : decode_tlv m 0 (len m) = Ok (inl (t, rn)).
  Hypothesis Hin : tlv_value t + tlv_length t <= len m.

  Lemma tlv_facts : 2 <= tlv_value t /\ 0 <= tlv_length t.
  Proof.
    pose proof (len_nonneg m).
    destruct (decode_tlv_total m 0 (len m)) as (r & Er & Hr); [exact Hm|lia|lia|lia|].
    rewrite Hd in Er. injection Er as <-. specialize (Hr t rn eq_refl). lia.
  Qed.

  Lemma boolean_in_bounds : exists r, decode_boolean_value m 0 (len m) = Ok r.
  Proof.
    pose proof tlv_facts. unfold decode_boolean_value. rewrite Hd. cbn [bindr].
    destruct (_ || _) eqn:E; [eexists; reflexivity|].
    rewrite rd_nth; [eexists; reflexivity|]. lia.
  Qed.

  Lemma integer_in_bounds : exists r, decode_integer_value m 0 (len m) = Ok r /\
    forall p n k, r = inl (p, n, k) -> tlv_value t <= p /\ 0 <= n /\ p + n = tlv_value t + tlv_length t.
  Proof.
    pose proof tlv_facts. unfold decode_integer_value. rewrite Hd. cbn [bindr].
    destruct (_ || _) eqn:E; [eexists; split; [reflexivity|discriminate]|].
    destruct (1 <? tlv_length t) eqn:E1.
    2:{ eexists; split; [reflexivity|]. intros p n k Hr. injection Hr as <- <- <-. lia. }
    rewrite rd_nth by lia. cbn [bind].
    ifd; [|ifd].
    - rewrite rd_nth by lia. cbn [bind]. ifd; eexists; (split; [reflexivity|]).
      + discriminate.
      + intros p n k Hr. injection Hr as <- <- <-. lia.
    - rewrite rd_nth by lia. cbn [bind]. ifd; eexists; (split; [reflexivity|]).
      + discriminate.
      + intros p n k Hr. injection Hr as <- <- <-. lia.
    - eexists. split; [reflexivity|]. intros p n k Hr. injection Hr as <- <- <-. lia.
  Qed.

  Lemma bit_string_in_bounds : exists r, decode_bit_string_value m 0 (len m) = Ok r /\
    forall p n b k, r = inl (p, n, b, k) ->
      tlv_value t <= p /\ 0 <= n /\ p + n = tlv_value t + tlv_length t.
  Proof.
    pose proof tlv_facts. unfold decode_bit_string_value. rewrite Hd. cbn [bindr].
    destruct (_ || _) eqn:E; [eexists; split; [reflexivity|discriminate]|].
    rewrite rd_nth by lia. cbn [bind].
    ifd; [eexists; split; [reflexivity|discriminate]|].
    ifd; [eexists; split; [reflexivity|discriminate]|].
    rewrite rd_nth by lia. cbn [bind]. eexists. split; [reflexivity|].
    intros p n b k Hr. injection Hr as <- <- <- <-. lia.
  Qed.

  Lemma octet_string_in_bounds : exists r, decode_octet_string_value m 0 (len m) = Ok r /\
    forall p n k, r = inl (p, n, k) -> p = tlv_value t /\ n = tlv_length t.
  Proof.
    unfold decode_octet_string_value. rewrite Hd. cbn [bindr].
    destruct (_ || _) eqn:E; (eexists; split; [reflexivity|]); [discriminate|].
    intros p n k Hr. injection Hr as <- <- <-. lia.
  Qed.

  Lemma sequence_in_bounds : exists r, decode_sequence_value m 0 (len m) = Ok r /\
    forall p n k, r = inl (p, n, k) -> p = tlv_value t /\ n = tlv_length t.
  Proof.
    unfold decode_sequence_value. rewrite Hd. cbn [bindr].
    destruct (_ || _) eqn:E; (eexists; split; [reflexivity|]); [discriminate|].
    intros p n k Hr. injection Hr as <- <- <-. lia.
  Qed.

  Lemma set_in_bounds : exists r, decode_set_value m 0 (len m) = Ok r /\
    forall p n k, r = inl (p, n, k) -> p = tlv_value t /\ n = tlv_length t.
  Proof.
    unfold decode_set_value. rewrite Hd. cbn [bindr].
    destruct (_ || _) eqn:E; (eexists; split; [reflexivity|]); [discriminate|].
    intros p n k Hr. injection Hr as <- <- <-. lia.
  Qed.
End InBounds.

(** ** asn1_dump on well-formed input *)

Definition erase (x : nat * tlv) : nat * (Z * Z * Z * Z) :=
  let '(d, t) := x in (d, (tag_class t, tag_pc t, tag_number t, tlv_length t)).

Lemma rd_all_ok m n : forall off, 0 <= off -> off + Z.of_nat n <= len m -> rd_all m off n = Ok tt.
Proof.
  induction n as [|n IH]; intros off H0 Hl; [reflexivity|].
  cbn [rd_all]. rewrite rd_nth by lia. cbn [bind]. apply IH; lia.
Qed.

Scheme enc_min := Minimality for enc Sort Prop
  with encs_min := Minimality for encs Sort Prop.
Combined Scheme enc_encs_min from enc_min, encs_min.

Definition dumps (ts : list node) (v : list Z) : Prop :=
  forall p r depth, len v < 2 ^ 64 ->
  exists F out, listing depth ts (map erase out) /\
    forall fuel, (F <= fuel)%nat -> r_dump fuel (p ++ v ++ r) (len p) (len v) depth = Ok (out, 0).

Definition dumps1 (t : node) (l : list Z) : Prop :=
  match t with
  | Prim cls num v => a_class cls /\ low_tag num /\ der_element cls 0 num v l
  | Cons cls num ts =>
      a_class cls /\ low_tag num /\
      exists v, encs ts v /\ der_element cls 32 num v l /\ dumps ts v
  end.

Lemma r_dump_unfold fuel m off inl_ depth :
  r_dump (S fuel) m off inl_ depth =
  if inl_ =? 0 then Ok ([], 0)
  else
    match decode_tlv m off inl_ with
    | Ok (inr e) => Ok ([], e)
    | Ok (inl (t, read_num)) =>
        do _ <- rd_all m off (Z.to_nat (tlv_value t - off));
        do sub <- (if tag_pc t =? PC_CONSTRUCTED
                   then do (l, _) <- r_dump fuel m (tlv_value t) (tlv_length t) (S depth); Ok l
                   else do _ <- rd_all m (tlv_value t) (Z.to_nat (tlv_length t)); Ok []);
        do (rest, e) <- r_dump fuel m (off + read_num) (w64 (inl_ - read_num)) depth;
        Ok ((depth, t) :: sub ++ rest, e)
    | Throw => Throw
    | UB => UB
    end.
Proof. reflexivity. Qed.

Lemma dump_spec :
  (forall t l, enc t l -> dumps1 t l) /\ (forall ts v, encs ts v -> dumps ts v).
Proof.
  apply enc_encs_min.
  - intros cls num v l Hc Hn Hb He. exact (conj Hc (conj Hn He)).
  - intros cls num ts v l Hc Hn Hts IH He.
    exact (conj Hc (conj Hn (ex_intro _ v (conj Hts (conj He IH))))).
  - intros p r depth _. exists 1%nat, []. split; [constructor|].
    intros fuel Hf. destruct fuel as [|fuel]; [lia|]. reflexivity.
  - intros t ts l rest Ht IHt Hts IHts p r depth Hlen.
    rewrite len_app in Hlen. pose proof (len_nonneg rest). pose proof (len_nonneg l).
    destruct t as [cls num v|cls num ch]; cbn [dumps1] in IHt.
    + destruct IHt as (Hc & Hn & h & Hh & E). subst l. rewrite !len_app in *.
      pose proof (len_nonneg h). pose proof (len_nonneg v).
      assert (Hv : 0 <= len v < 2 ^ 64) by lia.
      pose proof (der_header_len _ _ _ _ _ Hv Hh) as [Hhl _].
      destruct (IHts (p ++ h ++ v) r depth ltac:(lia)) as (F & out & Hls & HF).
      exists (S F), ((depth, mk_tlv cls 0 num (len v) (len p + len h)) :: out). split.
      * cbn [map erase tag_class tag_pc tag_number tlv_length]. constructor. exact Hls.
      * intros fuel Hf. destruct fuel as [|fuel]; [lia|]. rewrite r_dump_unfold.
        destruct (len h + len v + len rest =? 0) eqn:E0; [lia|].
        rewrite <- !app_assoc.
        rewrite (decode_tlv_spec cls 0 num (len v) h);
          [|exact Hc|exact pc0|exact Hn|lia|exact Hh|lia].
        cbn [tlv_value tlv_length tag_pc].
        rewrite rd_all_ok by (pose proof (len_nonneg p); rewrite ?len_app; pose proof (len_nonneg r); lia).
        cbn [bind]. unfold PC_CONSTRUCTED. change (0 =? 32) with false. cbv iota.
        rewrite rd_all_ok by (pose proof (len_nonneg p); rewrite ?len_app; pose proof (len_nonneg r); lia).
        cbn [bind]. unfold w64. rewrite (Z.mod_small (len h + len v)) by lia.
        replace (len h + len v + len rest - (len h + len v)) with (len rest) by lia.
        rewrite Z.mod_small by lia.
        replace (len p + (len h + len v)) with (len (p ++ h ++ v)) by (rewrite !len_app; lia).
        replace (p ++ h ++ v ++ rest ++ r) with ((p ++ h ++ v) ++ rest ++ r)
          by (rewrite <- !app_assoc; reflexivity).
        rewrite HF by lia. reflexivity.
    + destruct IHt as (Hc & Hn & v & Hv & (h & Hh & E) & Hch). subst l. rewrite !len_app in *.
      pose proof (len_nonneg h). pose proof (len_nonneg v).
      assert (Hv' : 0 <= len v < 2 ^ 64) by lia.
      pose proof (der_header_len _ _ _ _ _ Hv' Hh) as [Hhl _].
      destruct (IHts (p ++ h ++ v) r depth ltac:(lia)) as (F & out & Hls & HF).
      destruct (Hch (p ++ h) (rest ++ r) (S depth) ltac:(lia)) as (F1 & sub & Hls1 & HF1).
      exists (S (F + F1)), ((depth, mk_tlv cls 32 num (len v) (len p + len h)) :: sub ++ out). split.
      * cbn [map erase tag_class tag_pc tag_number tlv_length]. rewrite map_app.
        constructor; assumption.
      * intros fuel Hf. destruct fuel as [|fuel]; [lia|]. rewrite r_dump_unfold.
        destruct (len h + len v + len rest =? 0) eqn:E0; [lia|].
        rewrite <- !app_assoc.
        rewrite (decode_tlv_spec cls 32 num (len v) h);
          [|exact Hc|exact pc32|exact Hn|lia|exact Hh|lia].
        cbn [tlv_value tlv_length tag_pc].
        rewrite rd_all_ok by (pose proof (len_nonneg p); rewrite ?len_app; pose proof (len_nonneg r); lia).
        cbn [bind]. unfold PC_CONSTRUCTED. change (32 =? 32) with true. cbv iota.
        replace (len p + len h) with (len (p ++ h)) by (rewrite len_app; lia).
        replace (p ++ h ++ v ++ rest ++ r) with ((p ++ h) ++ v ++ rest ++ r)
          by (rewrite <- !app_assoc; reflexivity).
        rewrite HF1 by lia. cbn [bind]. unfold w64. rewrite (Z.mod_small (len h + len v)) by lia.
        replace (len h + len v + len rest - (len h + len v)) with (len rest) by lia.
        rewrite Z.mod_small by lia.
        replace (len p + (len h + len v)) with (len (p ++ h ++ v)) by (rewrite !len_app; lia).
        replace ((p ++ h) ++ v ++ rest ++ r) with ((p ++ h ++ v) ++ rest ++ r)
          by (rewrite <- !app_assoc; reflexivity).
        rewrite HF by lia. reflexivity.
Qed.

Lemma dump_ok ts m : encs ts m -> len m < 2 ^ 64 ->
  exists F out, listing 0 ts (map erase out) /\
    forall fuel, (F <= fuel)%nat -> dump fuel m = Ok (out, 0).
Proof.
  intros H Hl. destruct (proj2 dump_spec ts m H [] [] 0%nat Hl) as (F & out & Hls & HF).
  exists F, out. split; [exact Hls|]. intros fuel Hf. specialize (HF fuel Hf).
  rewrite app_nil_r in HF. exact HF.
Qed.

(** Property C75: GCM decryptions that run in several threads of one program.  As for C24-C26 the
    theorems hold of every cipher class with 16-byte blocks that [implements] a block cipher and of
    each of the three GHASH variants.  [rq_std E r] is the outcome SP 800-38D prescribes for the
    request [r] (SpecGCMUse.v); a schedule lists which thread moves next (ModelGCMConc.v). *)
From Verif Require Import Base BaseFacts ModelModes ModelHash ModelGHASH ModelCipher SpecCipher SpecSM4 ProofCipher
  SpecGCM ModelGCM SpecGCMUse ProofGCM ModelGCMConc ProofGCMConc.

(** C75 in full, for every program of decrypting threads and every schedule: a decryption that has
    ended has the standard's outcome,
      [outcome (wrun (start rs) sched) i = Some o -> o = rq_std E r].
    The part that holds: no two do_final() calls overlap (an object of one thread may be built and fed
    while another thread is in do_final()).  Then a decryption whose ciphertext is a whole number of
    blocks has the standard's outcome, and any other has the outcome of a decryption on its own that
    finds some 16 bytes in the static array, which C26_gcm_stale_padding describes. *)
Theorem C75_threads_partial : forall C klen E D, implements C klen E D -> cBS C = 16%nat ->
  forall G g0, ghash_variant G -> forall rs sched, Forall (rq_ok klen) rs ->
  exclusive C G g0 (start C G rs) sched ->
  forall i r o, nth_error rs i = Some r ->
  outcome C G (wrun C G g0 (start C G rs) sched) i = Some o ->
  ((length (msg (rq_calls r) (rq_last r)) mod 16 = 0)%nat -> o = rq_std E r) /\
  exists t, bytes t /\ length t = 16%nat /\ o = fst (rq_dec C G g0 t r).
Proof.
  intros C klen E D IM B16 G g0 HG rs sched Hrs Hx i r o Hi Ho.
  destruct (p_exclusive C G g0 klen E D IM B16 HG rs sched i r o Hrs Hx Hi Ho) as [H1 H2]. split; [exact H2|exact H1].
Qed.
Print Assumptions C75_threads_partial.

(** Every call ends: in any schedule, overlapping or not, a thread that has moved nine times has
    returned or thrown, so the theorem above speaks of every decryption of a schedule long enough. *)
Theorem C75_ends : forall C G g0, cBS C = 16%nat -> forall rs sched i, (i < length rs)%nat ->
  (9 <= count_occ Nat.eq_dec sched i)%nat ->
  outcome C G (wrun C G g0 (start C G rs) sched) i <> None.
Proof. exact p_ends. Qed.
Print Assumptions C75_ends.

(** What overlapping calls do.  [b] is any authentic message, under any key; [a] is any message at all
    that carries the same tag, under any other key.  There is a schedule of two threads, one decrypting
    [a] and one decrypting [b], in which both are accepted: whoever can have a message of their own
    decrypted at the same time can have any forgery accepted. *)
Theorem C75_overlap_accepts : forall C klen E D, implements C klen E D -> cBS C = 16%nat ->
  forall G g0, ghash_variant G -> forall a b, rq_ok klen a -> rq_ok klen b ->
  rq_std E b <> Throw -> rq_tag a = rq_tag b ->
  exists sched, 
    outcome C G (wrun C G g0 (start C G [a; b]) sched) 0 =
      Some (Ok (GCM_cipher (E (rq_key a)) (rq_iv a) (msg (rq_calls a) (rq_last a)))) /\
    outcome C G (wrun C G g0 (start C G [a; b]) sched) 1 = Some (rq_std E b).
Proof.
  intros C klen E D IM B16 G g0 HG a b Ra Rb Hb Tab. exists forge_sched.
  unfold rq_std, GCM_dec in *.
  destruct (list_eq_dec Z.eq_dec (rq_tag b) _) as [e|e]; [|destruct Hb; reflexivity].
  destruct (p_overlap C G g0 klen E D IM B16 HG a b Ra Rb e) as [O1 O2]. split; [|exact O2].
  rewrite O1. destruct (list_eq_dec Z.eq_dec (rq_tag b) (rq_tag a)) as [_|N]; [reflexivity|]. destruct N. symmetry. exact Tab.
Qed.
Print Assumptions C75_overlap_accepts.

(** The opposite harm: of any two authentic messages with different tags the first is rejected in some
    schedule. *)
Theorem C75_overlap_rejects : forall C klen E D, implements C klen E D -> cBS C = 16%nat ->
  forall G g0, ghash_variant G -> forall a b, rq_ok klen a -> rq_ok klen b ->
  rq_std E b <> Throw -> rq_tag a <> rq_tag b ->
  exists sched, outcome C G (wrun C G g0 (start C G [a; b]) sched) 0 = Some Throw.
Proof.
  intros C klen E D IM B16 G g0 HG a b Ra Rb Hb Tab. exists forge_sched.
  unfold rq_std, GCM_dec in *.
  destruct (list_eq_dec Z.eq_dec (rq_tag b) _) as [e|e]; [|destruct Hb; reflexivity].
  destruct (p_overlap C G g0 klen E D IM B16 HG a b Ra Rb e) as [O1 _].
  rewrite O1. destruct (list_eq_dec Z.eq_dec (rq_tag b) (rq_tag a)) as [N|_]; [|reflexivity]. destruct Tab. symmetry. exact N.
Qed.
Print Assumptions C75_overlap_rejects.

(** Two messages under two keys; the second is authentic, the first carries the second one's tag. *)
Definition key_a := [0x01;0x23;0x45;0x67;0x89;0xab;0xcd;0xef;0xfe;0xdc;0xba;0x98;0x76;0x54;0x32;0x10].
Definition key_b := repeat 1 16.
Definition iv_ab := [0x00;0x00;0x12;0x34;0x56;0x78;0x00;0x00;0x00;0x00;0xab;0xcd].
Definition tag_b := [195; 134; 225; 33; 3; 160; 170; 193; 88; 202; 149; 155; 168; 91; 196; 160].
Definition rq_b : request := mkReq (repeat 0 16) key_b iv_ab [9] tag_b [] (repeat 0 16, [92]).
Definition rq_a : request := mkReq (repeat 0 16) key_a iv_ab [] tag_b [(repeat 0 40, repeat 5 20)] (repeat 0 32, repeat 6 12).
Definition ctx0 : gi_ctx G_common := mkG (0, 0) (0, 0).
Lemma rq_ab_ok : rq_ok 16 rq_a /\ rq_ok 16 rq_b.
Proof.
  split; (split; [|split; vm_compute; reflexivity]);
    (split; [vm_compute; reflexivity|]); (split; [apply all_bytes_spec; vm_compute; reflexivity|]); (split; [vm_compute; reflexivity|]);
    (split; [apply all_bytes_spec; vm_compute; reflexivity|]); (split; [apply all_bytes_spec; vm_compute; reflexivity|]);
    (split; [apply all_bytes_spec; vm_compute; reflexivity|]); vm_compute; repeat constructor.
Qed.
(** the outcomes the standard prescribes: the first is a forgery *)
Example C75_forgery_met : rq_std SM4_enc rq_a = Throw /\ rq_std SM4_enc rq_b = Ok [17] /\ rq_tag rq_a = rq_tag rq_b.
Proof.
  assert (K : forall r, rq_ok 16 r -> rq_std SM4_enc r = fst (rq_dec SM4_lang18 G_common ctx0 (repeat 0 16) r)).
  { intros r (Ga & Fa & Fx). symmetry. unfold rq_dec, rq_std.
    apply (p_gcm_dec_first SM4_lang18 16 SM4_enc SM4_dec impl_SM4_lang18 eq_refl G_common ctx0 (or_introl eq_refl)); [exact (proj1 Ga)|assumption..]. }
  destruct rq_ab_ok as [Ra Rb]. rewrite (K rq_a Ra), (K rq_b Rb).
  split; [vm_compute; reflexivity|]. split; [vm_compute; reflexivity|reflexivity].
Qed.
Theorem C75_threads_refuted : exists rs sched r o, Forall (rq_ok 16) rs /\ nth_error rs 0 = Some r /\
  outcome SM4_lang18 G_common (wrun SM4_lang18 G_common ctx0 (start SM4_lang18 G_common rs) sched) 0 = Some (Ok o) /\
  rq_std SM4_enc r = Throw.
Proof.
  destruct rq_ab_ok as [Ra Rb]. destruct C75_forgery_met as (H1 & H2 & H3).
  destruct (C75_overlap_accepts SM4_lang18 16 SM4_enc SM4_dec impl_SM4_lang18 eq_refl G_common ctx0 (or_introl eq_refl) rq_a rq_b Ra Rb) as (sched & O1 & _).
  - rewrite H2. discriminate.
  - exact H3.
  - exists [rq_a; rq_b], sched, rq_a. eexists. split; [repeat (constructor; try assumption)|]. split; [reflexivity|]. split; [exact O1|exact H1].
Qed.
Print Assumptions C75_threads_refuted.

(** The hypotheses of C75_threads_partial are met: the threads' preparations interleave, their
    do_final() calls do not, both end, the forgery is rejected and the authentic message accepted. *)
Definition apart_sched : list nat := [0; 1; 1; 1; 1; 1; 1; 1; 1; 1; 0; 0; 0; 0; 0; 0; 0; 0]%nat.
Example C75_apart_met :
  exclusive SM4_lang18 G_common ctx0 (start SM4_lang18 G_common [rq_a; rq_b]) apart_sched /\
  (let w := wrun SM4_lang18 G_common ctx0 (start SM4_lang18 G_common [rq_a; rq_b]) apart_sched in
   outcome SM4_lang18 G_common w 0 = Some Throw /\ outcome SM4_lang18 G_common w 1 = Some (Ok [17])).
Proof. split; [vm_compute; repeat split|vm_compute; split; reflexivity]. Qed.

(** Property C74: SM9 field elements as bytes, the comparisons of field elements and points, and the
    conversions between field elements, residues modulo n and plain numbers.  [build9] and [build]
    range over the two builds of the number library. *)
From Coq Require Import Znumtheory.
From Verif Require Import Base BaseFacts ModelNumber SpecNumber SpecField SpecEC SpecJac ModelEC ModelSM2 ModelSM9
  SpecSM9 SpecSM2Curve SpecSM2 SpecSM2Api SpecSM9Api ProofTowerRep ProofJacRep ProofNumlib9 ProofSM2d ProofSM9Rep ProofSM9Enc ProofSM9Sign ProofSM9Pub PropSM9
  ModelSM9Elem SpecSM9Elem ProofSM9Elem.

(** the bytes written for an element: all coefficients, the highest first *)
Theorem C74_encode : forall w nn L9, build9 w nn L9 ->
  (forall a x, holds2 w nn a x -> sm9_fp2_to_bytes L9 a = F2_bytes x) /\
  (forall a x, holds4 w nn a x -> sm9_fp4_to_bytes L9 a = F4_bytes x) /\
  (forall a x, holds12 w nn a x -> sm9_fp12_to_bytes L9 a = F12_bytes x /\ length (F12_bytes x) = 384%nat).
Proof.
  intros w nn L9 B. pose proof (build9_ok _ _ _ B) as OK. split; [|split].
  - exact (r2_bytes w nn L9 OK).
  - exact (r4_bytes w nn L9 OK).
  - intros a x Ha. apply holds12_R in Ha. split; [exact (r12_bytes w nn L9 OK a x Ha)|apply F12_bytes_bytes].
Qed.
(** different elements have different bytes *)
Theorem C74_encode_unique : forall x y : F12, F12_bytes x = F12_bytes y -> x = y.
Proof. exact F12_bytes_inj. Qed.
(** any bytes, read at any position with enough bytes behind it, give an element *)
Theorem C74_decode : forall w nn L9 b off, build9 w nn L9 -> bytes b ->
  ((off + 128 <= length b)%nat -> exists a, sm9_fp4_from_bytes L9 b off = Ok a /\ holds4 w nn a (F4_at b off)) /\
  ((off + 384 <= length b)%nat -> exists a, sm9_fp12_from_bytes L9 b off = Ok a /\ holds12 w nn a (F12_at b off)).
Proof.
  intros w nn L9 b off B Hb. pose proof (build9_ok _ _ _ B) as OK. split; intros Hl.
  - exact (fp4_read w nn L9 OK b off Hb Hl).
  - destruct (fp12_read w nn L9 OK b off Hb Hl) as (a & E & R). exists a. split; [exact E|]. apply holds12_R. exact R.
Qed.
(** writing and reading back gives the element that was written, wherever the bytes stand *)
Theorem C74_roundtrip : forall w nn L9 a x pre post, build9 w nn L9 -> holds12 w nn a x -> bytes pre -> bytes post ->
  exists a', sm9_fp12_from_bytes L9 (pre ++ sm9_fp12_to_bytes L9 a ++ post) (length pre) = Ok a' /\ holds12 w nn a' x.
Proof.
  intros w nn L9 a x pre post B Ha Hp Hq. destruct (C74_encode w nn L9 B) as (_ & _ & E). destruct (E a x Ha) as [E1 E2].
  rewrite E1.
  assert (Hb : bytes (pre ++ F12_bytes x ++ post)).
  { apply bytes_app. split; [exact Hp|]. apply bytes_app. split; [apply F12_bytes_bytes|exact Hq]. }
  destruct (proj2 (C74_decode w nn L9 _ (length pre) B Hb)) as (a' & E' & H').
  - rewrite !app_length, E2. lia.
  - exists a'. split; [exact E'|]. rewrite g12_at in H'. exact H'.
Qed.
(** reading and writing back gives the bytes that were read when each group is below p *)
Theorem C74_roundtrip_bytes : forall w nn L9 b, build9 w nn L9 -> bytes b -> length b = 384%nat ->
  (forall i, (i < 12)%nat -> be_val (slice b (32 * i) 32) < SM9_p) ->
  exists a, sm9_fp12_from_bytes L9 b 0 = Ok a /\ sm9_fp12_to_bytes L9 a = b.
Proof.
  intros w nn L9 b B Hb Hl Hp. destruct (proj2 (C74_decode w nn L9 b 0 B Hb)) as (a & E & H); [lia|].
  exists a. split; [exact E|]. destruct (C74_encode w nn L9 B) as (_ & _ & W). rewrite (proj1 (W _ _ H)).
  rewrite (F12_g12 b 0 Hb) by (try (rewrite Hl; apply le_n); exact Hp). unfold slice. cbn [skipn]. rewrite <- Hl. apply firstn_all.
Qed.
(** and only then: the read does not refuse a group of p or more, it reduces it, so two byte strings
    stand for the same element *)
Theorem C74_decode_unique_refuted : forall w nn L9, build9 w nn L9 ->
  exists b b' a a' x, bytes b /\ length b = 384%nat /\ bytes b' /\ length b' = 384%nat /\ b <> b' /\
    sm9_fp12_from_bytes L9 b 0 = Ok a /\ sm9_fp12_from_bytes L9 b' 0 = Ok a' /\ holds12 w nn a x /\ holds12 w nn a' x.
Proof.
  intros w nn L9 B.
  set (b := be_bytes 32 SM9_p ++ repeat 0 352). set (b' := repeat 0 384).
  assert (Z0 : forall n, bytes (repeat 0 n)).
  { intros n. apply Forall_forall. intros y Hy. apply repeat_spec in Hy. subst y. unfold is_byte. lia. }
  assert (Hb : bytes b) by (apply bytes_app; split; [apply be_bytes_bytes|apply Z0]).
  assert (Lb : length b = 384%nat) by reflexivity.
  assert (Hb' : bytes b') by apply Z0. assert (Lb' : length b' = 384%nat) by reflexivity.
  destruct (proj2 (C74_decode w nn L9 b 0 B Hb)) as (a & E & H); [rewrite Lb; apply le_n|].
  destruct (proj2 (C74_decode w nn L9 b' 0 B Hb')) as (a' & E' & H'); [rewrite Lb'; apply le_n|].
  exists b, b', a, a', (F12_at b 0).
  assert (N : b <> b').
  { assert (V : nth 0 b 0 = 182) by (vm_compute; reflexivity). intros C. rewrite C in V.
    assert (V' : nth 0 b' 0 = 0) by reflexivity. rewrite V' in V. discriminate V. }
  assert (X : F12_at b' 0 = F12_at b 0).
  { unfold F12_at, F4_at, F2_at. f_equal; f_equal; f_equal. apply fof_eq. vm_compute. reflexivity. }
  rewrite X in H'. repeat (split; [assumption|]). exact H'.
Qed.

(** the comparisons *)
Theorem C74_equal : forall w nn L9 a b x y, build9 w nn L9 -> holds12 w nn a x -> holds12 w nn b y ->
  (sm9_fp12_equal L9 a b = true <-> x = y) /\
  (fp12_equal_zero (sm9_fp_ops L9) a = true <-> x = f0 K12) /\
  (sm9_fp12_equal_one L9 a = true <-> x = f1 K12).
Proof.
  intros w nn L9 a b x y B Ha Hb. pose proof (build9_ok _ _ _ B) as OK. apply holds12_R in Ha, Hb.
  split; [exact (e12 w nn L9 OK a b x y Ha Hb)|]. split; [exact (z12 w nn L9 OK a x Ha)|exact (o12 w nn L9 OK a x Ha)].
Qed.
Theorem C74_equal_small : forall w nn L9, build9 w nn L9 ->
  (forall a x, holds2 w nn a x -> (sm9_fp2_equal_one L9 a = true <-> x = f1 K2)) /\
  (forall a b x y, holds4 w nn a x -> holds4 w nn b y -> (sm9_fp4_equal L9 a b = true <-> x = y)) /\
  (forall a x, holds4 w nn a x -> (sm9_fp4_equal_one L9 a = true <-> x = f1 K4)).
Proof.
  intros w nn L9 B. pose proof (build9_ok _ _ _ B) as OK. 
  split; [exact (o2 w nn L9 OK)|]. split; [exact (e4 w nn L9 OK)|exact (o4 w nn L9 OK)].
Qed.
(** points of either group, in any Jacobian coordinates *)
Theorem C74_points_equal : forall w nn L9, build9 w nn L9 ->
  (forall J1 J2 x1 y1 x2 y2, holds_j K1 (holds1 w nn) J1 (Aff x1 y1) -> holds_j K1 (holds1 w nn) J2 (Aff x2 y2) ->
    (j_equal (sm9_fp_ops L9) J1 J2 = true <-> x1 = x2 /\ y1 = y2)) /\
  (forall J1 J2 x1 y1 x2 y2, holds_j K2 (holds2 w nn) J1 (Aff x1 y1) -> holds_j K2 (holds2 w nn) J2 (Aff x2 y2) ->
    (j_equal (sm9_fp2_ops L9) J1 J2 = true <-> x1 = x2 /\ y1 = y2)).
Proof.
  intros w nn L9 B. pose proof (build9_ok _ _ _ B) as OK. split; [exact (je1 w nn L9 OK)|exact (je2 w nn L9 OK)].
Qed.

(** conversions: the number is kept, taken modulo the target's modulus *)
Theorem C74_convert9 : forall w nn L9 a, build9 w nn L9 ->
  (forall x, holds1 w nn a x -> limbs w nn (sm9_fp_to_bn L9 a) /\ val w (sm9_fp_to_bn L9 a) = fval x) /\
  (limbs w nn a -> holds1 w nn (sm9_fp_from_bn L9 a) (num (val w a))) /\
  (forall x, mont_repr w nn SM9_n a x -> limbs w nn (sm9_fn_to_bn L9 a) /\ val w (sm9_fn_to_bn L9 a) = x) /\
  (limbs w nn a -> mont_repr w nn SM9_n (sm9_fn_from_bn L9 a) (val w a mod SM9_n)) /\
  (forall x, holds1 w nn a x -> mont_repr w nn SM9_n (sm9_fn_from_fp L9 a) (fval x mod SM9_n)) /\
  (forall x, mont_repr w nn SM9_n a x -> holds1 w nn (sm9_fn_to_fp L9 a) (num x) /\ fval (num x) = x).
Proof.
  intros w nn L9 a B. pose proof (build9_ok _ _ _ B) as OK.
  split; [exact (fp_bn w nn L9 OK a)|]. split; [exact (bn_fp w nn L9 OK a)|]. split; [exact (fn_bn w nn L9 OK a)|].
  split; [exact (bn_fn w nn L9 OK a)|]. split; [exact (fp_fn w nn L9 OK a)|].
  intros x Hx. split; [exact (fn_fp w nn L9 OK a x Hx)|].
  rewrite fval_num. apply Z.mod_small. pose proof (proj1 (proj2 (proj2 Hx))) as R. pose proof n_lt_p as N.
  revert R N. generalize SM9_n SM9_p. clear. intros. lia.
Qed.
Theorem C74_convert2 : forall w nn L a, build w nn L ->
  (forall x, mont_repr w nn SM2_p a x -> limbs w nn (sm2_fp_to_bn L a) /\ val w (sm2_fp_to_bn L a) = x) /\
  (limbs w nn a -> mont_repr w nn SM2_p (sm2_fp_from_bn L a) (val w a mod SM2_p)) /\
  (forall x, mont_repr w nn SM2_n a x -> limbs w nn (sm2_fn_to_bn L a) /\ val w (sm2_fn_to_bn L a) = x) /\
  (limbs w nn a -> mont_repr w nn SM2_n (sm2_fn_from_bn L a) (val w a mod SM2_n)) /\
  (forall x, mont_repr w nn SM2_n a x -> mont_repr w nn SM2_p (sm2_fn_to_fp L a) x).
Proof.
  intros w nn L a B. pose proof (build_ok _ _ _ B) as OK.
  assert (FV : forall x, 0 <= x < SM2_p -> fval (fof SM2_p x) = x) by (intros x Hx; exact (Z.mod_small x _ Hx)).
  split; [|split; [exact (s_bn_fp w nn L OK a)|split; [exact (s_fn_bn w nn L OK a)|split; [exact (s_bn_fn w nn L OK a)|]]]].
  - intros x Hx. assert (E : fval (fof SM2_p x) = x) by (apply FV; exact (proj1 (proj2 (proj2 Hx)))).
    destruct (s_fp_bn w nn L OK a (fof SM2_p x)) as [A V].
    + unfold Rp. rewrite E. exact Hx.
    + split; [exact A|]. rewrite V. exact E.
  - intros x Hx. pose proof (s_fn_fp w nn L OK a x Hx) as R. unfold Rp in R. rewrite FV in R; [exact R|].
    pose proof (proj1 (proj2 (proj2 Hx))) as V. assert (N : SM2_n < SM2_p) by reflexivity.
    revert V N. generalize SM2_n SM2_p. clear. intros. lia.
Qed.
(** one conditional subtraction is the full reduction of any 256-bit number *)
Theorem C74_mod_n_sub : forall w nn a,
  (forall L9, build9 w nn L9 -> limbs w nn a ->
    (limbs w nn (sm9_bn_mod_n_sub2 L9 a) /\ val w (sm9_bn_mod_n_sub2 L9 a) = val w a mod (SM9_n - 2)) /\
    (limbs w nn (sm9_bn_mod_n_sub3 L9 a) /\ val w (sm9_bn_mod_n_sub3 L9 a) = val w a mod (SM9_n - 3))) /\
  (forall L, build w nn L -> limbs w nn a ->
    limbs w nn (sm2_bn_mod_n_sub2 L a) /\ val w (sm2_bn_mod_n_sub2 L a) = val w a mod (SM2_n - 2)).
Proof.
  intros w nn a. split.
  - intros L9 B Ha. split; [exact (mod_sub2 w nn L9 (build9_ok _ _ _ B) a Ha)|exact (mod_sub3 w nn L9 (build9_ok _ _ _ B) a Ha)].
  - intros L B Ha. exact (s_mod_sub2 w nn L (build_ok _ _ _ B) a Ha).
Qed.

(** every element is stored in some arrays, in both builds, so the hypotheses above can be met *)
Theorem C74_every_element_stored : forall w nn L9 x, build9 w nn L9 -> exists a, holds12 w nn a x.
Proof.
  intros w nn L9 x B. destruct (F12_bytes_bytes x) as [Hb Hl].
  destruct (proj2 (C74_decode w nn L9 (F12_bytes x) 0 B Hb)) as (a & _ & H); [rewrite Hl; apply le_n|].
  exists a. pose proof (g12_at nil x nil) as E. cbn [app length] in E. rewrite app_nil_r in E. rewrite E in H. exact H.
Qed.
Example C74_example : exists a b, holds12 64 4 a (f1 K12) /\ holds12 64 4 b w12 /\
  sm9_fp12_equal lib9_x64 a b = false /\ sm9_fp12_equal_one lib9_x64 a = true.
Proof.
  destruct (C74_every_element_stored 64 4 lib9_x64 (f1 K12) build9_x64) as [a Ha].
  destruct (C74_every_element_stored 64 4 lib9_x64 w12 build9_x64) as [b Hb].
  exists a, b. split; [exact Ha|]. split; [exact Hb|].
  destruct (C74_equal _ _ _ _ _ _ _ build9_x64 Ha Hb) as (E & _ & O). split; [|apply O; reflexivity].
  destruct (sm9_fp12_equal lib9_x64 a b); [|reflexivity]. exfalso.
  pose proof (proj1 E eq_refl) as C. apply (f_equal (fun x : F12 => fval (fst (fst (fst (fst x)))))) in C.
  vm_compute in C. discriminate C.
Qed.
Example C74_example_sub : exists a, limbs 64 4 a /\ val 64 a = SM9_n + 5 /\ val 64 (sm9_bn_mod_n_sub3 lib9_x64 a) = 8.
Proof.
  assert (L : limbs 64 4 (nl_from_bytes lib_x64 (be_bytes 32 (SM9_n + 5))) /\
              val 64 (nl_from_bytes lib_x64 (be_bytes 32 (SM9_n + 5))) = SM9_n + 5).
  { destruct (ProofNumlib.ok_from_bytes _ _ _ (k_lib _ _ _ lib9_x64_ok) (be_bytes 32 (SM9_n + 5)) (be_bytes_bytes _ _) (be_bytes_length _ _)) as [A V].
    split; [exact A|]. exact (eq_trans V eq_refl). }
  exists (nl_from_bytes lib_x64 (be_bytes 32 (SM9_n + 5))). split; [exact (proj1 L)|]. split; [exact (proj2 L)|].
  destruct (proj1 (C74_mod_n_sub 64 4 _) lib9_x64 build9_x64 (proj1 L)) as [_ [_ V]].
  refine (eq_trans V _). refine (eq_trans (f_equal (fun v => v mod (SM9_n - 3)) (proj2 L)) _). reflexivity.
Qed.

Definition C74_theorems := (C74_encode, C74_encode_unique, C74_decode, C74_roundtrip, C74_roundtrip_bytes,
  C74_decode_unique_refuted, C74_equal, C74_equal_small, C74_points_equal, C74_convert9, C74_convert2,
  C74_mod_n_sub, C74_every_element_stored).
Print Assumptions C74_theorems.

(** SM2 lemmas in the terms of SpecSM2Api: keys made through the API, the SM3 instance, and the
    remaining point operations. *)
From Coq Require Import Znumtheory Field.
From Verif Require Import Base BaseFacts ModelEndian ModelNumber SpecNumber ProofNumber ModelMont SpecMont
  SpecField SpecEC SpecJac ProofEC ProofECMul ModelEC ProofJac ProofNumlib ProofJacRep
  SpecSM2Curve ProofSM2Curve ModelSM2 SpecSM2 SpecSM2Api ProofSM2Rep ProofSM2Enc ProofSM2 ProofSM2b ProofSM2c
  ModelSM3 SpecSM3 ProofSM3.

Lemma build_ok w nn L : build w nn L -> numlib_ok w nn L.
Proof. intros []; [exact lib_common_ok|exact lib_x64_ok]. Qed.

Definition sm3_lib (junk : list Z) : hashlib := MkHash 32 (sm3_hash compress_yang junk).
Lemma sm3_hash_ok junk : length junk = 64%nat -> hash_ok (sm3_lib junk) SM3.
Proof.
  intros Hj. split.
  - cbn. lia.
  - reflexivity.
  - intros m _. apply SM3_length.
  - intros m _. apply SM3_bytes.
  - intros chunks last Hb. exact (sm3_hash_spec compress_yang compress_yang_spec junk chunks last Hj Hb).
Qed.

(** what j_add leaves when exactly the first operand is infinity (as set_inf writes it), and j_add_a
    when the first operand is infinity *)
Section Inf.
  Variable F : Type.
  Variables (z o : F) (pl mu mi : F -> F -> F) (op : F -> F) (di : F -> F -> F) (iv : F -> F).
  Variable dec : forall x y : F, {x = y} + {x <> y}.
  Hypothesis FT : field_theory z o pl mu mi op di iv eq.
  Let K := MkField F z o pl mu mi op di iv dec FT.
  Add Field KI : FT.
  Lemma add_inf_l dbl x y : jrel K (j_add (Fops K) dbl (o, o, z) (x, y, o)) Inf.
  Proof.
    unfold j_add. cbn. destruct (dec (mu o (mu o o)) (mu x (mu z z))) as [E|_].
    - exfalso. apply (F_1_neq_0 FT). transitivity (mu o (mu o o)); [ring|]. rewrite E. ring.
    - cbn. ring.
  Qed.
  Lemma add_a_inf X Y x y : jrel K (j_add_a (Fops K) (X, Y, z) (x, y)) Inf.
  Proof. cbn. ring. Qed.
  Lemma add_a_eq J x y : jrel K J (Aff x y) -> jrel K (j_add_a (Fops K) J (x, y)) Inf.
  Proof. destruct J as [[X Y] Z]. intros H. unfold K in *. rewrite (add_a_same F z o pl mu mi op di iv dec FT X Y Z x y H). reflexivity. Qed.
  Lemma fmul_nz u v : u <> z -> v <> z -> mu u v <> z.
  Proof.
    intros Hu Hv E. apply Hv. transitivity (mu (mu (iv u) u) v); [rewrite (Finv_l FT u Hu); ring|].
    transitivity (mu (iv u) (mu u v)); [ring|]. rewrite E. ring.
  Qed.
End Inf.

Lemma kdf_zero_gen H Hd (HOK : hash_ok H Hd) Zb k : bytes Zb ->
  ((0 <? k)%nat && all0 (SM2_kdf Hd Zb k) = true <-> (0 < k)%nat /\ SM2_kdf Hd Zb k = repeat 0 k).
Proof. intros HZ. rewrite andb_true_iff, Nat.ltb_lt, all0_repeat, (kdf_length H Hd HOK) by exact HZ. tauto. Qed.

Section SM2d.
  Variables (w : Z) (nn : nat) (L : numlib).
  Hypothesis LOK : numlib_ok w nn L.
  Notation Rp := (SpecSM2Api.Rp w nn).
  Notation jr := (jrep SM2_K Rp).
  Notation ar := (aR Rp).
  Let OR := sm2_ops_rel w nn L LOK.

  Lemma key_rep sk d : key_of L sk d -> exists x y, priv_rep w nn sk d x y.
  Proof.
    intros [db sk' Hb Hl E|rnd sk' Hb Hl E].
    - destruct (set_priv_spec w nn L LOK db Hb Hl) as [(R & sk2 & x & y & E2 & PR)|[_ E2]]; [|congruence].
      exists x, y. assert (sk' = sk2) by congruence. subst. exact PR.
    - destruct (gen_priv_spec w nn L LOK rnd Hb Hl) as (sk2 & x & y & E2 & PR).
      exists x, y. assert (sk' = sk2) by congruence. subst. exact PR.
  Qed.
  Lemma pub_set_rep pk x y : pub_set L pk x y -> pub_rep w nn pk x y.
  Proof.
    intros E. unfold pub_set in E.
    assert (Ex : fof SM2_p (be_val (SM2_fb x)) = x) by apply fof_bytes_val.
    assert (Ey : fof SM2_p (be_val (SM2_fb y)) = y) by apply fof_bytes_val.
    pose proof (set_pub_spec w nn L LOK (SM2_fb x) (SM2_fb y) (SM2_fb_bytes x) (SM2_fb_length x) (SM2_fb_bytes y) (SM2_fb_length y)) as S.
    cbv zeta in S. rewrite Ex, Ey in S.
    destruct S as [(HO & _)|[_ S]]; [|congruence].
    destruct (set_pub_rep w nn L LOK x y HO) as (pk2 & E2 & PR). assert (pk = pk2) by congruence. now subst.
  Qed.
  Lemma pub_of_rep sk d x y pk : priv_rep w nn sk d x y -> pub_of L sk pk -> pub_rep w nn pk x y.
  Proof.
    intros (_ & _ & _ & PR) [->|E]; [exact PR|].
    unfold sm2_get_pub in E. cbn [fst snd] in E. destruct PR as (_ & Ex & Ey & _). rewrite Ex, Ey in E.
    now apply pub_set_rep.
  Qed.
  Lemma key_gen_set rnd sk : bytes rnd -> length rnd = 32%nat -> sm2_gen_priv L rnd = Ok sk ->
    draw_k rnd <= SM2_n - 2 -> sm2_set_priv L (priv_d sk) = Ok sk.
  Proof.
    intros Hb Hl E Hk. pose proof (draw_k_range rnd) as KR.
    destruct (gen_priv_spec w nn L LOK rnd Hb Hl) as (sk2 & x & y & E2 & PR).
    assert (sk = sk2) by congruence. subst sk2. destruct PR as (Ed & _).
    unfold sm2_gen_priv in E. rewrite (draw_spec w nn L LOK rnd Hb Hl) in E.
    assert (V : be_val (be_bytes 32 (draw_k rnd)) = draw_k rnd).
    { rewrite be_val_be_bytes. apply Z.mod_small. pose proof SM2_n_range. change (256 ^ Z.of_nat 32) with (2 ^ 256). lia. }
    destruct (set_priv_spec w nn L LOK (be_bytes 32 (draw_k rnd)) (be_bytes_bytes _ _) (be_bytes_length _ _))
      as [(_ & sk3 & x3 & y3 & E3 & _)|[B _]]; [|rewrite V in B; lia].
    rewrite Ed. rewrite E3. unfold sm2_set_priv in E3.
    destruct (nl_is0 L _ || _); [discriminate|]. congruence.
  Qed.

  (** ** Point operations *)
  Lemma p_add_a J Q P x y : jr J P -> ar Q (x, y) -> SM2_on P -> SM2_on (Aff x y) -> P <> Inf -> P <> Aff x y ->
    jr (sm2_ec_j_add_a L J Q) (SM2_add P (Aff x y)).
  Proof.
    intros HJ HQ. apply (jrep_add_a _ _ _ _ OR SM2_A SM2_B sm2_curve_ok); [exact HJ|].
    apply (aR_aW _ _ _ _ OR). exact HQ.
  Qed.
  Lemma p_neg J x y : jr J (Aff x y) -> SM2_on (Aff x y) -> jr (j_neg (sm2_fp_ops L) J) (ec_neg SM2_K (Aff x y)).
  Proof.
    intros (j & HR & HJ) HO. exists (j_neg (Fops SM2_K) j).
    assert (N : jrel SM2_K (j_neg (Fops SM2_K) j) (ec_neg SM2_K (Aff x y))).
    { clear - HJ. destruct SM2_K. exact (j_neg_ok _ _ _ _ _ _ _ _ _ _ f_theory j (Aff x y) HJ). }
    split; [|exact N].
    destruct J as [[X Y] Z], j as [[jx jy] jz]. 
    assert (HY : jy <> f0 SM2_K).
    { destruct HJ as (HZ & _ & ->).
      pose proof (ec_y_nz SM2_K SM2_A SM2_B sm2_curve_ok x y HO) as Hy.
      clear - HZ Hy. intros E. 
      assert (M : forall u v, u <> f0 SM2_K -> v <> f0 SM2_K -> fmul SM2_K u v <> f0 SM2_K).
      { destruct SM2_K. exact (fmul_nz _ _ _ _ _ _ _ _ _ f_theory). }
      exact (M _ _ Hy (M _ _ HZ (M _ _ HZ HZ)) E). }
    exact (j_neg_rep _ _ _ _ OR X Y Z jx jy jz HR HY).
  Qed.
  Lemma p_equal J1 J2 x1 y1 x2 y2 : jr J1 (Aff x1 y1) -> jr J2 (Aff x2 y2) ->
    (j_equal (sm2_fp_ops L) J1 J2 = true <-> Aff x1 y1 = Aff x2 y2).
  Proof.
    intros (j1 & H1 & R1) (j2 & H2 & R2). rewrite (equal_rep _ _ _ _ OR _ _ _ _ H1 H2).
    clear - R1 R2. destruct SM2_K. 
    apply (j_equal_ok _ _ _ _ _ _ _ _ _ _ f_theory j1 j2 _ _ R1 R2); discriminate.
  Qed.
  (** the cases the formulas do not cover *)
  Lemma p_add_inf Q x y : ar Q (x, y) -> 
    jr (sm2_ec_j_add L (j_set_inf (sm2_fp_ops L)) (j_from_a (sm2_fp_ops L) Q)) Inf.
  Proof.
    intros HQ.
    assert (HJ : jR Rp (j_from_a (sm2_fp_ops L) Q) (x, y, f1 SM2_K)) by (apply (from_a_rep _ _ _ _ OR _ (x, y)); exact HQ).
    pose proof (j_add_rep _ _ _ _ OR (sm2_ec_j_dbl L) (j_dbl_2001b (Fops SM2_K)) _ _ _ _
      (dbl_2001b_rep _ _ _ _ OR) (set_inf_rep _ _ _ _ OR) HJ) as AR.
    eexists. split; [exact AR|]. clear. destruct SM2_K.
    exact (add_inf_l _ _ _ _ _ _ _ _ _ _ f_theory _ x y).
  Qed.
  Lemma p_add_a_inf J Q x y : jr J Inf -> ar Q (x, y) -> jr (sm2_ec_j_add_a L J Q) Inf.
  Proof.
    intros (j & HR & HJ) HQ. apply (aR_aW _ _ _ _ OR) in HQ.
    exists (j_add_a (Fops SM2_K) j (x, y)). split; [exact (add_a_rep _ _ _ _ OR _ _ _ _ HR HQ)|].
    destruct j as [[X Y] Z]. assert (EZ : Z = f0 SM2_K) by exact HJ. subst Z. clear. destruct SM2_K.
    exact (add_a_inf _ _ _ _ _ _ _ _ _ _ f_theory X Y x y).
  Qed.
  Lemma p_add_a_eq J Q x y : jr J (Aff x y) -> ar Q (x, y) -> jr (sm2_ec_j_add_a L J Q) Inf.
  Proof.
    intros (j & HR & HJ) HQ. apply (aR_aW _ _ _ _ OR) in HQ.
    exists (j_add_a (Fops SM2_K) j (x, y)). split; [exact (add_a_rep _ _ _ _ OR _ _ _ _ HR HQ)|].
    clear - HJ. destruct SM2_K. exact (add_a_eq _ _ _ _ _ _ _ _ _ _ f_theory j x y HJ).
  Qed.
  Lemma jr_unique_inf J P : jr J Inf -> jr J P -> P = Inf.
  Proof. intros H1 H2. apply (jrep_is_inf _ _ _ _ OR J P H2). now apply (jrep_is_inf _ _ _ _ OR J Inf H1). Qed.
End SM2d.

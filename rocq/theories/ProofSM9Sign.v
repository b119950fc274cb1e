(** SM9 keys and signatures, for a pairing function that computes a bilinear map. *)
From Coq Require Import Znumtheory Field_theory Ring Field.
From Verif Require Import Base BaseFacts ModelEndian ProofEndian ModelNumber SpecNumber ProofNumber ModelMont SpecMont
  ProofMont SpecField SpecTower SpecEC SpecJac ProofEC ProofECMul ProofFermat ModelEC ProofJac ProofJacRep
  ProofNumlib ProofZops ModelSM2 ProofSM2Enc ProofSM2b ProofSM2c ModelSM9 ProofNumlib9 SpecSM9 ProofTower ProofTowerRep ProofSM2Rep
  ProofFrob ProofSM9Frob ProofSM9Pow ProofSM9Fin ProofSM9Rep ProofSM9Curve SpecSM2 SpecSM2Api SpecSM9Api ProofSM9Point
  ProofSM9Enc ProofSM9.

(** ** Groups *)
Lemma zm1_mul j k P : E1_on P -> 0 <= j -> 0 <= k -> zm1 (j * k) P = zm1 j (zm1 k P).
Proof. apply (zmul_mul _ _ _ E1_ok). Qed.
Lemma zm1_on k P : E1_on P -> E1_on (zm1 k P). Proof. apply (zmul_on _ _ _ E1_ok). Qed.
Lemma zm2_on k P : E2_on P -> E2_on (zm2 k P). Proof. apply (zmul_on _ _ _ E2_ok). Qed.
Lemma P1_fin : P1 <> Inf. Proof. discriminate. Qed.
Lemma P2_fin : P2 <> Inf. Proof. discriminate. Qed.
Lemma zm1_fin k P : E1_on P -> P <> Inf -> 0 < k < SM9_n -> zm1 k P <> Inf.
Proof.
  intros HP HI Hk E. apply (ord1 P HP HI k (Z.lt_le_incl _ _ (proj1 Hk))) in E.
  rewrite Z.mod_small in E by (destruct Hk; split; [now apply Z.lt_le_incl|assumption]).
  destruct Hk as [Hk _]. rewrite E in Hk. now apply Z.lt_irrefl in Hk.
Qed.
Lemma zm2_fin k : 0 < k < SM9_n -> zm2 k P2 <> Inf.
Proof.
  intros Hk E. apply (ord2 P2 P2_on P2_fin P2_order k (Z.lt_le_incl _ _ (proj1 Hk))) in E.
  rewrite Z.mod_small in E by (destruct Hk; split; [now apply Z.lt_le_incl|assumption]).
  destruct Hk as [Hk _]. rewrite E in Hk. now apply Z.lt_irrefl in Hk.
Qed.
Lemma zm2_ord k : 0 <= k -> zm2 SM9_n (zm2 k P2) = Inf.
Proof.
  intros Hk. rewrite <- (zmul_mul _ _ _ E2_ok SM9_n k P2 P2_on (Z.lt_le_incl _ _ n9_pos) Hk), Z.mul_comm.
  exact (zmul_n_any K2 _ _ E2_ok SM9_n P2 SM9_n_prime P2_on P2_order k Hk).
Qed.
Lemma zm2_inj j k : 0 < j < SM9_n -> 0 < k < SM9_n -> zm2 j P2 = zm2 k P2 -> j = k.
Proof.
  intros Hj Hk E. apply (zmul_inj K2 _ _ E2_ok SM9_n P2 SM9_n_prime P2_on P2_order P2_fin j k) in E; [|clear - Hj; lia|clear - Hk; lia].
  rewrite !Z.mod_small in E by (clear - Hj Hk; lia). exact E.
Qed.
Lemma zm2_n_add P Q : E2_on P -> E2_on Q -> zm2 SM9_n P = Inf -> zm2 SM9_n Q = Inf -> zm2 SM9_n (E2_add P Q) = Inf.
Proof.
  intros HP HQ NP NQ. unfold zm2, zmul, E2_add in *. rewrite (ec_mul_distr _ _ _ E2_ok _ _ _ HP HQ), NP, NQ. reflexivity.
Qed.
Lemma zm1_mod k : 0 <= k -> zm1 (k mod SM9_n) P1 = zm1 k P1.
Proof. intros Hk. exact (zmul_mod K1 _ _ E1_ok SM9_n P1 SM9_n_prime P1_on P1_order k Hk). Qed.
Lemma zm2_mod k : 0 <= k -> zm2 (k mod SM9_n) P2 = zm2 k P2.
Proof. intros Hk. exact (zmul_mod K2 _ _ E2_ok SM9_n P2 SM9_n_prime P2_on P2_order k Hk). Qed.
Lemma zm2_add j k : 0 <= j -> 0 <= k -> zm2 (j + k) P2 = E2_add (zm2 j P2) (zm2 k P2).
Proof. apply (zmul_add _ _ _ E2_ok _ _ _ P2_on). Qed.

(** ** No point of E(F_p) has x = 0: it would have order 3 *)
Section X0.
  Context {F : Type} (K : field F).
  Add Field FKx0 : (f_theory K).
  Lemma dbl_x0 y : y <> fopp K y -> ec_add K (f0 K) (Aff (f0 K) y) (Aff (f0 K) y) = Aff (f0 K) (fopp K y).
  Proof.
    intros N. unfold ec_add. destruct (feq_dec K (f0 K) (f0 K)) as [_|C]; [|congruence].
    destruct (feq_dec K y (fopp K y)) as [|_]; [contradiction|].
    assert (N2 : fadd K y y <> f0 K). { intros E. apply N. transitivity (fsub K (fadd K y y) y); [ring|]. rewrite E. ring. }
    unfold ec_line. f_equal; field; exact N2.
  Qed.
End X0.
Lemma no_x0 y : ~ E1_on (Aff (num 0) y).
Proof.
  intros On. pose proof (ec_y_nz _ _ _ E1_ok _ _ On) as Ny.
  assert (N : y <> fopp K1 y).
  { intros E. pose proof (g1_opp_parity y Ny) as OP. rewrite <- E in OP. lia. }
  pose proof (dbl_x0 K1 y N) as D.
  assert (E : zm1 3 (Aff (num 0) y) = Inf).
  { transitivity (E1_add (zm1 1 (Aff (num 0) y)) (zm1 (2 * 1) (Aff (num 0) y))).
    { exact (zmul_add _ _ _ E1_ok 1 2 _ On ltac:(lia) ltac:(lia)). }
    rewrite (zmul_dbl _ _ _ E1_ok 1 _ On ltac:(lia)), !(zmul_1 K1).
    change (ec_add K1 (f0 K1) (Aff (f0 K1) y) (ec_add K1 (f0 K1) (Aff (f0 K1) y) (Aff (f0 K1) y)) = Inf).
    rewrite D. exact (ec_add_neg K1 (num 0) (num 5) E1_ok (Aff (f0 K1) y)). }
  apply (ord1 _ On ltac:(discriminate) 3 ltac:(lia)) in E. pose proof n9_b as NB. rewrite Z.mod_small in E by (clear - NB; lia). discriminate E.
Qed.

(** ** Powers modulo the order *)
Lemma fpow_modn (g : F12) n x : 0 < n -> 0 <= x -> fpow K12 g n = f1 K12 -> fpow K12 g x = fpow K12 g (x mod n).
Proof.
  intros Hn Hx Hg. rewrite (Z.div_mod x n) at 1 by lia. pose proof (Z.mod_pos_bound x n Hn). pose proof (Z.div_pos x n Hx Hn).
  rewrite fpow_add by nia. rewrite fpow_mul by lia. rewrite Hg, fpow_one.
  pose proof (Field_theory.F_R (f_theory K12)) as T. destruct T. apply Rmul_1_l.
Qed.

(** ** The scalar ks / (h1 + ks) *)
Lemma t2_calc n ks h1 : prime n -> 0 < ks < n -> (h1 + ks) mod n <> 0 -> forall t,
  t = (ks * (((h1 + ks) mod n) ^ (n - 2) mod n)) mod n ->
  0 < t < n /\ (t * (h1 + ks)) mod n = ks mod n.
Proof.
  intros Pn Hk N1 t Et. pose proof (prime_ge_2 n Pn) as H2.
  assert (ND : ~ (n | h1 + ks)). { intros D. apply N1. apply Z.mod_divide in D; lia. }
  assert (E : (t * (h1 + ks)) mod n = ks mod n).
  { rewrite Et, Zmult_mod_idemp_l, <- Z.mul_assoc. rewrite <- (Zmult_mod_idemp_r (_ * _) ks).
    rewrite Zmult_mod_idemp_l. rewrite <- (Zmult_mod_idemp_r (h1 + ks)). rewrite (Z.mul_comm (_ ^ _)), <- Z.pow_succ_r by lia.
    replace (Z.succ (n - 2)) with (n - 1) by lia.
    rewrite (fermat n ((h1 + ks) mod n) Pn).
    - now rewrite Z.mul_1_r.
    - intros D. apply N1. apply Z.mod_divide in D; [|lia]. now rewrite Z.mod_mod in D by lia. }
  split; [|exact E]. assert (B : 0 <= t < n) by (rewrite Et; apply Z.mod_pos_bound; lia).
  destruct (Z.eq_dec t 0) as [Z0|NZ]; [|lia]. rewrite Z0, Z.mul_0_l, Z.mod_0_l in E by lia.
  rewrite Z.mod_small in E by lia. lia.
Qed.
Lemma t2_unique n a t t' : prime n -> a mod n <> 0 -> 0 <= t < n -> 0 <= t' < n ->
  (t * a) mod n = (t' * a) mod n -> t = t'.
Proof.
  intros Pn Na Ht Ht' E. pose proof (prime_ge_2 n Pn) as H2.
  assert (D : (n | (t - t') * a)).
  { apply Z.mod_divide; [lia|]. rewrite Z.mul_sub_distr_r, Zminus_mod, E, Z.sub_diag. apply Z.mod_0_l. lia. }
  destruct (prime_mult _ Pn _ _ D) as [[q Q]|D2].
  { clear - Q Ht Ht' H2. assert (q < 1) by nia. assert (-1 < q) by nia. assert (q = 0) by lia. subst q. lia. }
  exfalso. apply Na. apply Z.mod_divide in D2; lia.
Qed.
Lemma sm9_t2_unique ks h1 t t' : (h1 + ks) mod SM9_n <> 0 -> SM9_t2 ks h1 t -> SM9_t2 ks h1 t' -> t = t'.
Proof.
  intros N [B E] [B' E']. apply (t2_unique SM9_n (h1 + ks)); [exact SM9_n_prime|exact N|clear - B; lia|clear - B'; lia|].
  rewrite E, E'. reflexivity.
Qed.

(** ** The signature equation: u t = g^r *)
Lemma sig_exp n ks h1 t2 l h r : prime n -> 0 < ks < n -> 0 < t2 < n -> (t2 * (h1 + ks)) mod n = ks mod n ->
  l = (r - h) mod n -> 0 <= h -> 0 <= r -> 0 <= h1 ->
  ((((l * t2) mod n) * ((h1 + ks) mod n) + ks * h) mod n = (ks * r) mod n).
Proof.
  intros Pn Hk Ht E El Hh Hr Hh1. pose proof (prime_ge_2 n Pn) as H2.
  rewrite Zplus_mod, <- Zmult_mod, <- Z.mul_assoc, (Zmult_mod l), E, <- Zmult_mod, <- Zplus_mod.
  rewrite El, Zplus_mod, Zmult_mod_idemp_l, <- Zplus_mod. f_equal. ring.
Qed.

(** ** Encoded points *)
Lemma parses9_len C1 x y : SM9_parses C1 x y -> exists b0 r, C1 = b0 :: r /\
  ((b0 = 2 \/ b0 = 3) /\ length C1 = 33%nat \/ (b0 = 4 \/ b0 = 6 \/ b0 = 7) /\ length C1 = 65%nat).
Proof.
  intros (_ & [(b & X & Y & -> & Hb & LX & LY & _)|(b & X & -> & Hb & LX & _)]); eexists _, _; split; try reflexivity.
  - right. split; [exact Hb|]. cbn [length]. rewrite app_length. lia.
  - left. split; [exact Hb|]. cbn [length]. lia.
Qed.
Lemma parses9_unique C1 x y x' y' : SM9_parses C1 x y -> SM9_parses C1 x' y' -> x = x' /\ y = y'.
Proof.
  intros (On & [(b & X & Y & E & Hb & LX & LY & -> & ->)|(b & X & E & Hb & LX & -> & Par)])
         (On' & [(b' & X' & Y' & E' & Hb' & LX' & LY' & -> & ->)|(b' & X' & E' & Hb' & LX' & -> & Par')]);
    rewrite E in E'; injection E' as <- E'.
  - destruct (app_inj_len _ _ _ _ (eq_trans LX (eq_sym LX')) E') as [-> ->]. auto.
  - lia.
  - lia.
  - subst X'. split; [reflexivity|].
    assert (S : fmul K1 y y = fmul K1 y' y') by (unfold E1_on, on_curve in On, On'; congruence).
    destruct (g1_square_eq_opp _ _ S) as [|Eo]; [assumption|]. exfalso.
    pose proof (g1_opp_parity y' (ec_y_nz _ _ _ E1_ok _ _ On')) as OP. rewrite <- Eo in OP. lia.
Qed.

Lemma encode9_parses PC x y : E1_on (Aff x y) -> SM9_parses (SM9_encode_pt PC x y) x y.
Proof.
  intros On. split; [exact On|]. pose proof (Z.mod_pos_bound (fval y) 2 ltac:(lia)) as PB.
  destruct PC; cbn [SM9_encode_pt].
  - left. exists 4, (F1_bytes x), (F1_bytes y). rewrite !g1_fof_bytes_val.
    repeat split; auto using F1_bytes_length.
  - right. exists (2 + fval y mod 2), (F1_bytes x). rewrite !g1_fof_bytes_val.
    split; [reflexivity|]. split; [lia|]. split; [apply F1_bytes_length|]. split; [reflexivity|lia].
  - left. exists (6 + fval y mod 2), (F1_bytes x), (F1_bytes y). rewrite !g1_fof_bytes_val.
    split; [reflexivity|]. split; [lia|]. repeat split; auto using F1_bytes_length.
Qed.
Lemma encode9_parses_inv PC x y ax ay : SM9_parses (SM9_encode_pt PC x y) ax ay -> ax = x /\ E1_on (Aff ax ay).
Proof.
  intros P. pose proof (Z.mod_pos_bound (fval y) 2 ltac:(lia)) as PB.
  destruct PC; cbn [SM9_encode_pt] in P; unfold SM9_uncompressed, SM9_compressed, SM9_mixed in P.
  all: destruct P as [On [(b & X & Y & E1 & Hb' & LX & LY & Ex & Ey)|(b & X & E1 & Hb' & LX & Ex & Ep)]]; split; try exact On.
  all: assert (EB := f_equal (fun l => nz l 0) E1); cbn [nz nth] in EB; apply (f_equal (@tl Z)) in E1; cbn [tl] in E1.
  all: try (clear - Hb' PB EB; exfalso; unfold nz in EB; cbn [nth] in EB; lia).
  - destruct (app_inj_len _ _ _ _ (eq_trans (F1_bytes_length _) (eq_sym LX)) E1) as [<- <-].
    rewrite g1_fof_bytes_val in Ex. exact Ex.
  - subst X. rewrite g1_fof_bytes_val in Ex. exact Ex.
  - destruct (app_inj_len _ _ _ _ (eq_trans (F1_bytes_length _) (eq_sym LX)) E1) as [<- <-].
    rewrite g1_fof_bytes_val in Ex. exact Ex.
Qed.
Lemma encode9_bytes PC x y : bytes (SM9_encode_pt PC x y).
Proof.
  pose proof (Z.mod_pos_bound (fval y) 2 ltac:(lia)) as PB.
  destruct PC; cbn [SM9_encode_pt]; (constructor; [unfold is_byte; clear - PB; lia|]).
  - apply bytes_app; split; apply F1_bytes_bytes.
  - apply F1_bytes_bytes.
  - apply bytes_app; split; apply F1_bytes_bytes.
Qed.
Lemma encode9_length PC x y : length (SM9_encode_pt PC x y) = match PC with COMPRESSED => 33%nat | _ => 65%nat end.
Proof.
  destruct PC; cbn [SM9_encode_pt SM9_uncompressed SM9_compressed SM9_mixed length]; rewrite ?app_length, ?F1_bytes_length; reflexivity.
Qed.

Section SM9.
  Variables (w : Z) (nn : nat) (L9 : numlib9).
  Hypothesis LOK : numlib9_ok w nn L9.
  Variables (H : hashlib) (Hd : list Z -> list Z).
  Hypothesis HOK : hash_ok H Hd.
  Variable pr : aff (list Z) -> aff (p2 (list Z)) -> res (p12 (list Z)).
  Variables (good : point F1 -> point F2 -> Prop) (e : point F1 -> point F2 -> F12).
  Hypothesis POK : pairing_ok w nn pr good e.
  Notation L := (l9 L9).
  Notation R1 := (R1 w nn). Notation W1 := (W1 w nn). Notation Rn9 := (Rn9 w nn).
  Notation R2 := (rel2 R1). Notation W2 := (rel2 W1).
  Notation R4 := (rel2 R2). Notation W4 := (rel2 W2).
  Notation R12 := (rel3 R4). Notation W12 := (rel3 W4).
  Notation Op := (sm9_fp_ops L9).
  Notation LK := (k_lib _ _ _ LOK).
  Notation jr1 := (jrep K1 R1). Notation jr2 := (jrep K2 R2).
  Notation ar1 := (aR R1). Notation ar2 := (aR R2).
  Notation gen := (e P1 P2).

  Lemma holds12_R r v : holds12 w nn r v -> R12 r v.
  Proof. destruct r as [[r0 r1] r2], v as [[v0 v1] v2]. exact (fun h => h). Qed.
  Lemma R_holds12 r v : R12 r v -> holds12 w nn r v.
  Proof. destruct r as [[r0 r1] r2], v as [[v0 v1] v2]. exact (fun h => h). Qed.
  Lemma pr_ok P Q x1 y1 x2 y2 : ar1 P (x1, y1) -> ar2 Q (x2, y2) -> E1_on (Aff x1 y1) -> E2_on (Aff x2 y2) ->
    zm2 SM9_n (Aff x2 y2) = Inf -> good (Aff x1 y1) (Aff x2 y2) ->
    exists r, pr P Q = Ok r /\ R12 r (e (Aff x1 y1) (Aff x2 y2)).
  Proof.
    intros A1 A2 O1 O2 Oo Gd.
    destruct P as [PX PY], Q as [QX QY].
    destruct (po_run _ _ _ _ _ POK (PX, PY) (QX, QY) x1 y1 x2 y2 A1 A2 O1 O2 Oo Gd) as (r & Er & Hr).
    exists r. split; [exact Er|]. exact (holds12_R _ _ Hr).
  Qed.
  Definition pub_rep9 (pk : sm9_pub) (x y : F2) : Prop :=
    ar2 (pub9_P pk) (x, y) /\ R12 (pub9_e pk) (e P1 (Aff x y)) /\ E2_on (Aff x y) /\ zm2 SM9_n (Aff x y) = Inf.
  Definition master_rep (ms : sm9_master) (ks : Z) (x y : F2) : Prop :=
    ms_ks ms = be_bytes 32 ks /\ zm2 ks P2 = Aff x y /\ pub_rep9 (ms_pub ms) x y.
  Definition priv_rep9 (sk : sm9_priv) (dx dy : F1) (x y : F2) : Prop :=
    ar1 (sp_priv sk) (dx, dy) /\ E1_on (Aff dx dy) /\ pub_rep9 (sp_pub sk) x y.

  (** *** Master keys *)
  Lemma make_pub_spec ks x y : 0 < ks < SM9_n -> ks <> SM9_n - 2 -> zm2 ks P2 = Aff x y -> good P1 (Aff x y) ->
    exists pk, sm9_make_pub L9 pr (be_bytes 32 ks) = Ok pk /\ pub_rep9 pk x y.
  Proof.
    intros Hk N2 Exy Gd. unfold sm9_make_pub.
    assert (BV : be_val (be_bytes 32 ks) = ks) by (apply be_val_32; clear - Hk; lia).
    assert (MS : be_val (be_bytes 32 ks) mod SM9_n = ks) by (rewrite BV; apply Z.mod_small; clear - Hk; lia).
    destruct (g2_mulg w nn L9 LOK (be_bytes 32 ks) (be_bytes_bytes _ _) (be_bytes_length _ _)) as (J & E & R).
    { rewrite MS. exact N2. }
    rewrite E. cbn [bind]. cbv zeta. rewrite MS, Exy in R.
    pose proof (g2_to_a w nn L9 LOK J _ R) as A. cbn [px py] in A.
    pose proof (zm2_on ks P2 P2_on) as On. rewrite Exy in On.
    pose proof (zm2_ord ks (Z.lt_le_incl _ _ (proj1 Hk))) as Oo. rewrite Exy in Oo.
    destruct (pr_ok _ _ _ _ _ _ (P1_ar w nn L9 LOK) A P1_on On Oo Gd) as (r & Er & Hr).
    unfold fp9. rewrite Er. cbn [bind]. eexists. split; [reflexivity|]. split; [exact A|]. split; [exact Hr|]. split; [exact On|exact Oo].
  Qed.
  Lemma zm2_aff k : 0 < k < SM9_n -> exists x y, zm2 k P2 = Aff x y.
  Proof. intros Hk. pose proof (zm2_fin k Hk) as N. destruct (zm2 k P2) as [|x y]; [congruence|]. now exists x, y. Qed.
  Lemma zm1_aff k P : E1_on P -> P <> Inf -> 0 < k < SM9_n -> exists x y, zm1 k P = Aff x y.
  Proof. intros H1 H2 Hk. pose proof (zm1_fin k P H1 H2 Hk) as N. destruct (zm1 k P) as [|x y]; [congruence|]. now exists x, y. Qed.
  Lemma set_master_spec d x y : bytes d -> length d = 32%nat -> 0 < be_val d < SM9_n -> be_val d <> SM9_n - 2 ->
    zm2 (be_val d) P2 = Aff x y -> good P1 (Aff x y) ->
    exists ms, sm9_set_master L9 pr d = Ok ms /\ master_rep ms (be_val d) x y.
  Proof.
    intros Hb Hl Hd0 N2 Exy Gd. unfold sm9_set_master. cbv zeta.
    destruct (ok_from_bytes _ _ _ LK d Hb Hl) as [L1 V1].
    destruct (ok_from_bytes _ _ _ LK SM9_CURVE_N ltac:(const_bytes) eq_refl) as [L2 V2].
    change (be_val SM9_CURVE_N) with SM9_n in V2.
    rewrite (ok_is0 _ _ _ LK _ L1), (ok_cmp _ _ _ LK _ _ L1 L2), V1, V2.
    assert (C1 : (be_val d =? 0) = false) by (clear - Hd0; lia).
    assert (C2 : (0 <=? Zcmp (be_val d) SM9_n) = false).
    { unfold Zcmp. destruct (Z.ltb_spec SM9_n (be_val d)); [clear - Hd0 H0; lia|].
      destruct (Z.ltb_spec (be_val d) SM9_n); [reflexivity|clear - Hd0 H1; lia]. }
    rewrite C1, C2. cbn [orb].
    assert (ED : be_bytes 32 (be_val d) = d) by (rewrite <- Hl; apply be_bytes_be_val; exact Hb).
    destruct (make_pub_spec _ _ _ Hd0 N2 Exy Gd) as (pk & E & R). rewrite ED in E.
    rewrite E. cbn [bind]. eexists. split; [reflexivity|]. split; [symmetry; exact ED|]. split; [exact Exy|exact R].
  Qed.
  Lemma set_master_reject d : bytes d -> length d = 32%nat -> ~ (0 < be_val d < SM9_n) -> sm9_set_master L9 pr d = Throw.
  Proof.
    intros Hb Hl Hd0. unfold sm9_set_master. cbv zeta.
    destruct (ok_from_bytes _ _ _ LK d Hb Hl) as [L1 V1].
    destruct (ok_from_bytes _ _ _ LK SM9_CURVE_N ltac:(const_bytes) eq_refl) as [L2 V2].
    change (be_val SM9_CURVE_N) with SM9_n in V2.
    rewrite (ok_is0 _ _ _ LK _ L1), (ok_cmp _ _ _ LK _ _ L1 L2), V1, V2.
    destruct (Z.eqb_spec (be_val d) 0) as [|N]; [reflexivity|].
    assert (C2 : (0 <=? Zcmp (be_val d) SM9_n) = true).
    { pose proof (be_val_bound d Hb). unfold Zcmp. destruct (Z.ltb_spec SM9_n (be_val d)); [reflexivity|].
      destruct (Z.ltb_spec (be_val d) SM9_n); [exfalso; apply Hd0; clear - H0 H2 N; lia|reflexivity]. }
    rewrite C2. reflexivity.
  Qed.
  Lemma gen_master_spec rnd x y : bytes rnd -> length rnd = 32%nat -> draw9 rnd <> SM9_n - 2 ->
    zm2 (draw9 rnd) P2 = Aff x y -> good P1 (Aff x y) ->
    exists ms, sm9_gen_master L9 pr rnd = Ok ms /\ master_rep ms (draw9 rnd) x y.
  Proof.
    intros Hb Hl N2 Exy Gd. unfold sm9_gen_master. cbv zeta. rewrite (draw9_spec w nn L9 LOK rnd Hb Hl).
    assert (DR : 0 < draw9 rnd < SM9_n) by (pose proof (draw9_range rnd) as D; clear - D; lia).
    destruct (make_pub_spec _ _ _ DR N2 Exy Gd) as (pk & E & R).
    rewrite E. cbn [bind]. eexists. split; [reflexivity|]. split; [reflexivity|]. split; [exact Exy|exact R].
  Qed.

  (** *** H1, H2 *)
  Lemma h1_ok id hid : id9_ok id -> is_byte hid -> sm9_Hn L9 H id [hid] 1 = Ok (be_bytes 32 (SM9_H1 H Hd id hid)).
  Proof.
    intros [Hb Hl] Hh. rewrite (Hn_spec w nn L9 LOK H Hd HOK 1 id [hid]); [|unfold is_byte; lia|exact Hb|constructor; [exact Hh|constructor]].
    rewrite app_length. cbn [length]. destruct (Z.ltb_spec (8 * (Z.of_nat (length id + 1) + 5)) (2 ^ 64)); [reflexivity|lia].
  Qed.
  Lemma r12_bytes a v : R12 a v -> sm9_fp12_to_bytes L9 a = F12_bytes v.
  Proof.
    assert (E2 : forall c z, R2 c z -> sm9_fp2_to_bytes L9 c = F2_bytes z).
    { intros [c0 c1] [z0 z1] [C0 C1]. unfold sm9_fp2_to_bytes, F2_bytes. cbn [fst snd] in *.
      rewrite (R1_to_bytes w nn L9 LOK _ _ C0), (R1_to_bytes w nn L9 LOK _ _ C1). reflexivity. }
    assert (E4 : forall c z, R4 c z -> sm9_fp4_to_bytes L9 c = F4_bytes z).
    { intros [c0 c1] [z0 z1] [C0 C1]. unfold sm9_fp4_to_bytes, F4_bytes. cbn [fst snd] in *. rewrite (E2 _ _ C0), (E2 _ _ C1). reflexivity. }
    destruct a as [[a0 a1] a2], v as [[v0 v1] v2]. intros (H0 & H1 & H2). unfold sm9_fp12_to_bytes, F12_bytes.
    rewrite (E4 _ _ H0), (E4 _ _ H1), (E4 _ _ H2). reflexivity.
  Qed.
  Lemma F12_bytes_bytes v : bytes (F12_bytes v) /\ length (F12_bytes v) = 384%nat.
  Proof.
    assert (B2 : forall z, bytes (F2_bytes z) /\ length (F2_bytes z) = 64%nat).
    { intros z. unfold F2_bytes. split; [apply bytes_app; split; apply F1_bytes_bytes|]. rewrite app_length, !F1_bytes_length. reflexivity. }
    assert (B4 : forall z, bytes (F4_bytes z) /\ length (F4_bytes z) = 128%nat).
    { intros z. unfold F4_bytes. destruct (B2 (snd z)), (B2 (fst z)). split; [apply bytes_app; split; assumption|]. rewrite app_length. lia. }
    destruct v as [[v0 v1] v2]. unfold F12_bytes. destruct (B4 v0) as [C0 D0], (B4 v1) as [C1 D1], (B4 v2) as [C2 D2].
    split; [apply bytes_app; split; [exact C2|apply bytes_app; split; [exact C1|exact C0]]|].
    rewrite app_length, app_length, D0, D1, D2. reflexivity.
  Qed.
  Lemma h2_ok msg a v : msg9_ok msg -> R12 a v -> sm9_Hn L9 H msg (sm9_fp12_to_bytes L9 a) 2 = Ok (be_bytes 32 (SM9_H2 H Hd msg v)).
  Proof.
    intros [Hb Hl] Hr. rewrite (r12_bytes a v Hr). destruct (F12_bytes_bytes v) as [B1 B2].
    rewrite (Hn_spec w nn L9 LOK H Hd HOK 2 msg _); [|unfold is_byte; lia|exact Hb|exact B1].
    rewrite app_length, B2. destruct (Z.ltb_spec (8 * (Z.of_nat (length msg + 384) + 5)) (2 ^ 64)); [reflexivity|lia].
  Qed.
  Lemma H1_range id hid : 1 <= SM9_H1 H Hd id hid <= SM9_n - 1. Proof. apply SM9_H_range. Qed.
  Lemma H2_range msg v : 1 <= SM9_H2 H Hd msg v <= SM9_n - 1. Proof. apply SM9_H_range. Qed.
  Lemma mod_small1 x : 1 <= x <= SM9_n - 1 -> x mod SM9_n = x.
  Proof. intros Hx. apply Z.mod_small. clear - Hx. lia. Qed.
  Lemma Rn9_const x : 1 <= x <= SM9_n - 1 -> Rn9 (sm9_fn_from_bytes L9 (be_bytes 32 x)) x.
  Proof.
    intros Hx. pose proof (Rn9_from_bytes w nn L9 LOK (be_bytes 32 x) (be_bytes_bytes _ _) (be_bytes_length _ _)) as R.
    rewrite (be_val_32 x Hx), (mod_small1 x Hx) in R. exact R.
  Qed.

  (** *** Signing keys *)
  Lemma gen_key_spec ms ks x y id hid t2 dx dy : master_rep ms ks x y -> 0 < ks < SM9_n -> id9_ok id -> is_byte hid ->
    (SM9_H1 H Hd id hid + ks) mod SM9_n <> 0 -> SM9_t2 ks (SM9_H1 H Hd id hid) t2 -> t2 <> SM9_n - 2 ->
    zm1 t2 P1 = Aff dx dy ->
    exists sk, sm9_gen_sign_key L9 H ms id hid = Ok sk /\ priv_rep9 sk dx dy x y.
  Proof.
    intros (Ek & _ & PR) Hk Hi Hh NZ T2 N2 Ed. unfold sm9_gen_sign_key. cbv zeta. rewrite (h1_ok id hid Hi Hh). cbn [bind].
    pose proof (H1_range id hid) as HR. set (h1 := SM9_H1 H Hd id hid) in *. clearbody h1.
    pose proof (Rn9_const h1 HR) as Rh. pose proof (Rn9_const ks ltac:(clear - Hk; lia)) as Rk. rewrite <- Ek in Rk.
    pose proof (FN9_CTX_ok w nn L9 LOK) as CX.
    pose proof (ok_add _ _ _ LK _ _ _ _ _ _ CX Rh Rk) as Ra.
    rewrite (ok_equal_zero _ _ _ LK _ _ _ _ CX Ra).
    destruct (Z.eqb_spec ((h1 + ks) mod SM9_n) 0) as [Z0|_]; [contradiction|].
    pose proof (ok_inv _ _ _ LK _ _ _ _ CX Ra) as Ri.
    pose proof (ok_mul _ _ _ LK _ _ _ _ _ _ CX Rk Ri) as Rm.
    assert (ET : (ks * (((h1 + ks) mod SM9_n) ^ (SM9_n - 2) mod SM9_n)) mod SM9_n = t2).
    { apply (sm9_t2_unique ks h1); [exact NZ| |exact T2]. exact (t2_calc SM9_n ks h1 SM9_n_prime Hk NZ _ eq_refl). }
    rewrite ET in Rm. rewrite (Rn9_to_bytes w nn L9 LOK _ _ Rm).
    destruct T2 as [T2 _].
    assert (BV : be_val (be_bytes 32 t2) mod SM9_n = t2).
    { rewrite be_val_32 by (clear - T2; lia). apply mod_small1. clear - T2. lia. }
    destruct (g1_mul w nn L9 LOK (be_bytes 32 t2) _ _ _ (be_bytes_bytes _ _) (be_bytes_length _ _) (P1_ar w nn L9 LOK) P1_on) as (J & E & R).
    { rewrite BV. exact N2. }
    unfold sm9_ec_j_mul_g. rewrite E. cbn [bind]. rewrite BV in R.
    assert (R' : jr1 J (Aff dx dy)) by (rewrite <- Ed; exact R).
    pose proof (g1_to_a w nn L9 LOK J _ R') as A. cbn [px py] in A.
    eexists. split; [reflexivity|]. split; [exact A|]. split; [|exact PR].
    pose proof (zm1_on t2 P1 P1_on) as On. rewrite Ed in On. exact On.
  Qed.
  Lemma gen_key_reject ms ks x y id hid : master_rep ms ks x y -> 0 < ks < SM9_n -> id9_ok id -> is_byte hid ->
    (SM9_H1 H Hd id hid + ks) mod SM9_n = 0 -> sm9_gen_sign_key L9 H ms id hid = Throw.
  Proof.
    intros (Ek & _ & PR) Hk Hi Hh NZ. unfold sm9_gen_sign_key. cbv zeta. rewrite (h1_ok id hid Hi Hh). cbn [bind].
    pose proof (H1_range id hid) as HR. set (h1 := SM9_H1 H Hd id hid) in *. clearbody h1.
    pose proof (Rn9_const h1 HR) as Rh. pose proof (Rn9_const ks ltac:(clear - Hk; lia)) as Rk. rewrite <- Ek in Rk.
    pose proof (FN9_CTX_ok w nn L9 LOK) as CX.
    pose proof (ok_add _ _ _ LK _ _ _ _ _ _ CX Rh Rk) as Ra.
    rewrite (ok_equal_zero _ _ _ LK _ _ _ _ CX Ra), NZ. reflexivity.
  Qed.

  (** *** Signing *)
  Lemma sign_try_spec sk dx dy x y msg PC rnd : priv_rep9 sk dx dy x y -> msg9_ok msg -> bytes rnd -> length rnd = 32%nat ->
    let r := draw9 rnd in
    let h := SM9_sig_h H Hd e (Aff x y) msg r in
    let l := SM9_sig_l H Hd e (Aff x y) msg r in
    (l = 0 -> sm9_sign_try L9 H sk msg PC rnd = Ok None) /\
    (forall sx sy, l <> 0 -> l <> SM9_n - 2 -> zm1 l (Aff dx dy) = Aff sx sy ->
       sm9_sign_try L9 H sk msg PC rnd = Ok (Some (be_bytes 32 h ++ SM9_encode_pt PC sx sy))) /\
    (l = SM9_n - 2 -> sm9_sign_try L9 H sk msg PC rnd = Ok (Some (be_bytes 32 h ++ SM9_encode_pt PC (num 0) (num 0)))).
  Proof.
    intros (SA & SO & (_ & SE & _)) Hm Hb Hl r h l. pose proof (draw9_range rnd) as DR. fold r in DR.
    unfold sm9_sign_try. cbv zeta.
    destruct (draw_bn w nn L9 LOK rnd Hb Hl) as [LB VB]. cbv zeta in LB, VB. fold r in VB.
    rewrite (ok_to_bytes _ _ _ LK _ LB), VB.
    assert (F32 : firstn 32 (be_bytes 32 r) = be_bytes 32 r) by (apply firstn_all2; rewrite be_bytes_length; constructor).
    destruct (s_pow w nn L9 LOK (pub9_e (sp_pub sk)) _ (be_bytes 32 r) SE) as (c & Ec & Rc).
    { rewrite be_bytes_length. constructor. }
    { rewrite F32. apply be_bytes_bytes. }
    { rewrite F32, (be_val_32 r DR). clear - DR. lia. }
    rewrite F32, (be_val_32 r DR) in Rc. unfold fp9. rewrite Ec. cbn [bind].
    rewrite (h2_ok msg c _ Hm Rc). cbn [bind]. fold (SM9_sig_h H Hd e (Aff x y) msg r). fold h.
    assert (HR : 1 <= h <= SM9_n - 1) by apply H2_range.
    pose proof (FN9_CTX_ok w nn L9 LOK) as CX.
    assert (Rr : Rn9 (sm9_fn_from_bn L9 (sm9_bn_add_uint32 L9 (sm9_bn_mod_n_sub1 L9 (nl_from_bytes L rnd)) 1)) r).
    { unfold sm9_fn_from_bn. rewrite (ok_to_bytes _ _ _ LK _ LB), VB. exact (Rn9_const r DR). }
    pose proof (ok_msub _ _ _ LK _ _ _ _ _ _ CX Rr (Rn9_const h HR)) as Rs. fold l in Rs.
    change ((r - h) mod SM9_n) with l in Rs.
    rewrite (ok_equal_zero _ _ _ LK _ _ _ _ CX Rs).
    assert (LR : 0 <= l < SM9_n) by (apply Z.mod_pos_bound; exact n9_pos).
    clearbody l. clear Rr.
    split; [|split].
    - intros Z0. rewrite Z0. reflexivity.
    - intros sx sy NZ N2 Es. destruct (Z.eqb_spec l 0) as [|_]; [contradiction|].
      rewrite (Rn9_to_bytes w nn L9 LOK _ _ Rs).
      assert (BV : be_val (be_bytes 32 l) mod SM9_n = l).
      { rewrite be_val_32 by (clear - LR NZ; lia). apply mod_small1. clear - LR NZ. lia. }
      destruct (g1_mul w nn L9 LOK (be_bytes 32 l) _ _ _ (be_bytes_bytes _ _) (be_bytes_length _ _) SA SO) as (J & E & R).
      { rewrite BV. exact N2. }
      rewrite E. cbn [bind]. rewrite BV, Es in R.
      pose proof (g1_to_a w nn L9 LOK J _ R) as A. cbn [px py] in A.
      do 3 f_equal. destruct PC; cbn [sm9_encode SM9_encode_pt].
      + exact (g1_to_uncompressed_spec w nn L9 LOK _ _ _ A).
      + exact (g1_to_compressed_spec w nn L9 LOK _ _ _ A).
      + exact (g1_to_mix_spec w nn L9 LOK _ _ _ A).
    - intros E2. destruct (Z.eqb_spec l 0) as [Z0|NZ]; [pose proof n9_1 as N1; clear - E2 Z0 N1; lia|].
      rewrite (Rn9_to_bytes w nn L9 LOK _ _ Rs).
      assert (BV : be_val (be_bytes 32 l) mod SM9_n = l).
      { rewrite be_val_32 by (clear - LR NZ; lia). apply mod_small1. clear - LR NZ. lia. }
      destruct (g1_mul_last w nn L9 LOK (be_bytes 32 l) _ _ _ (be_bytes_bytes _ _) (be_bytes_length _ _) SA SO) as (J & E & R).
      { rewrite BV. exact E2. }
      rewrite E. cbn [bind].
      pose proof (g1_to_a w nn L9 LOK J _ R) as A. cbn [px py] in A. rewrite <- n1_zero in A.
      do 3 f_equal. destruct PC; cbn [sm9_encode SM9_encode_pt].
      + exact (g1_to_uncompressed_spec w nn L9 LOK _ _ _ A).
      + exact (g1_to_compressed_spec w nn L9 LOK _ _ _ A).
      + exact (g1_to_mix_spec w nn L9 LOK _ _ _ A).
  Qed.

  (** *** Verification *)
  Lemma decode_sig C1 : bytes C1 -> C1 <> [] ->
    ((nz C1 0 = 4 \/ nz C1 0 = 6 \/ nz C1 0 = 7) -> (65 <= length C1)%nat) ->
    ((nz C1 0 = 2 \/ nz C1 0 = 3) -> (33 <= length C1)%nat) ->
    (exists R x y, sm9_ec_a_from_bytes L9 C1 (Z.of_nat (length C1)) = Ok (Some (R, Z.of_nat (length C1))) /\
       ar1 R (x, y) /\ SM9_parses C1 x y) \/
    ((forall x y, ~ SM9_parses C1 x y) /\
     (sm9_ec_a_from_bytes L9 C1 (Z.of_nat (length C1)) = Ok None \/
      exists R size, sm9_ec_a_from_bytes L9 C1 (Z.of_nat (length C1)) = Ok (Some (R, size)) /\ size <> Z.of_nat (length C1))).
  Proof.
    intros Hb Hne H4 H2. destruct C1 as [|b0 r]; [congruence|]. clear Hne. change (nz (b0 :: r) 0) with b0 in H4, H2.
    set (l := b0 :: r) in *. assert (Hi : Z.of_nat (length l) <> 0) by (unfold l; cbn [length]; lia).
    assert (C : (b0 = 4 \/ b0 = 6 \/ b0 = 7) \/ (b0 = 2 \/ b0 = 3) \/ ~ (b0 = 2 \/ b0 = 3 \/ b0 = 4 \/ b0 = 6 \/ b0 = 7)) by lia.
    destruct C as [C|[C|C]].
    - specialize (H4 C). destruct (g1_decode_full w nn L9 LOK l (Z.of_nat (length l)) b0 r eq_refl C Hb H4 Hi) as [(On & R & E & AR)|(N & E)].
      + destruct (Nat.eq_dec (length l) 65) as [EL|NL].
        * left. eexists R, _, _. rewrite E, EL. split; [reflexivity|]. split; [exact AR|]. split; [exact On|]. left.
          exists b0, (slice l 1 32), (slice l 33 32). split.
          { unfold l. f_equal. rewrite !slice_cons. unfold l in EL. cbn [length] in EL. unfold slice.
            rewrite <- (firstn_skipn 32 r) at 1. f_equal. symmetry. apply firstn_all2. rewrite skipn_length. lia. }
          split; [exact C|]. split; [apply slice_length; lia|]. split; [apply slice_length; lia|]. auto.
        * right. split.
          { intros x y P. destruct (parses9_len _ _ _ P) as (b & r' & E1 & LL). unfold l in E1. injection E1 as <- <-. clear - LL NL C. lia. }
          right. exists R, 65. split; [exact E|]. clear - NL. lia.
      + right. split; [|left; exact E]. intros x y [On [(b & X & Y & E1 & Hb' & LX & LY & -> & ->)|(b & X & E1 & Hb' & _)]].
        * apply N. unfold l in E1. injection E1 as <- Er. unfold l. rewrite !slice_cons, Er.
          rewrite slice_0, (firstn_exact 32 X Y LX).
          replace (slice (X ++ Y) 32 32) with Y; [exact On|]. unfold slice. rewrite (skipn_exact 32 X Y LX). symmetry. apply firstn_all2. lia.
        * unfold l in E1. injection E1 as <- _. clear - C Hb'. lia.
    - specialize (H2 C). destruct (g1_decode_compressed w nn L9 LOK l (Z.of_nat (length l)) b0 r eq_refl C Hb H2 Hi) as [(y & R & On & Par & E & AR)|(N & E)].
      + destruct (Nat.eq_dec (length l) 33) as [EL|NL].
        * left. eexists R, _, y. rewrite E, EL. split; [reflexivity|]. split; [exact AR|]. split; [exact On|]. right.
          exists b0, (slice l 1 32). split.
          { unfold l. f_equal. rewrite slice_cons. unfold l in EL. cbn [length] in EL. rewrite slice_0. symmetry. apply firstn_all2. lia. }
          split; [exact C|]. split; [apply slice_length; lia|]. auto.
        * right. split.
          { intros x y' P. destruct (parses9_len _ _ _ P) as (b & r' & E1 & LL). unfold l in E1. injection E1 as <- <-. clear - LL NL C. lia. }
          right. exists R, 33. split; [exact E|]. clear - NL. lia.
      + right. split; [|left; exact E]. intros x y [On [(b & X & Y & E1 & Hb' & _)|(b & X & E1 & Hb' & LX & -> & _)]].
        * unfold l in E1. injection E1 as <- _. clear - C Hb'. lia.
        * apply (N y). unfold l in E1. injection E1 as <- Er. unfold l. rewrite slice_cons, Er, slice_0, firstn_all2 by lia. exact On.
    - right. split; [|left; exact (g1_decode_other L9 l _ b0 r eq_refl C)].
      intros x y [On [(b & X & Y & E1 & Hb' & _)|(b & X & E1 & Hb' & _)]]; unfold l in E1; injection E1 as <- _; clear - C Hb'; lia.
  Qed.

  Lemma skip0_zeros k m b t : m = repeat 0 k ++ b :: t -> b <> 0 -> forall i, skip0 m i = Ok ((i + k)%nat, b :: t).
  Proof.
    intros Em Nb. revert m Em. induction k as [|k IH]; intros m Em i; rewrite Em.
    - cbn [repeat app skip0]. destruct (Z.eqb_spec b 0); [contradiction|]. now rewrite Nat.add_0_r.
    - cbn [repeat app skip0]. change (0 =? 0) with true. cbn iota. rewrite (IH _ eq_refl). do 2 f_equal. lia.
  Qed.
  Lemma pow_h0 a v mem b t : R12 a v -> mem = repeat 0 32 ++ b :: t -> 1 <= b <= 15 ->
    exists c z, sm9_fp12_pow L9 a mem = Ok c /\ R12 c z.
  Proof.
    intros Ha Em Hb. pose proof (r12_pow w nn L9 LOK a v mem Ha) as HR.
    assert (E : exists z, fp12_pow O1 v mem = Ok z).
    { unfold fp12_pow. destruct (fp12_equal_zero O1 v); [eexists; reflexivity|]. cbv zeta.
      rewrite (skip0_zeros 32 mem b t Em ltac:(lia)). cbn [bind]. change (nz (b :: t) 0) with b.
      destruct (Z.ltb_spec 15 b); [lia|]. rewrite nib_lo9, Z.mod_small by lia. rewrite (pick_pk v b Hb). cbn [bind].
      change (S (0 + 32) <? 32)%nat with false. cbn [bind pow12_loop]. eexists. reflexivity. }
    destruct E as [z Ez]. rewrite Ez in HR. unfold sm9_fp12_pow. destruct (fp12_pow Op a mem) as [c| |]; try contradiction. now exists c, z.
  Qed.

  Theorem verify_spec pk x y sig msg id hid qx qy : pub_rep9 pk x y -> bytes sig -> sig_readable sig -> msg9_ok msg -> id9_ok id ->
    is_byte hid -> SM9_H1 H Hd id hid <> SM9_n - 2 -> zm2 (SM9_H1 H Hd id hid) P2 <> Aff x y ->
    E2_add (zm2 (SM9_H1 H Hd id hid) P2) (Aff x y) = Aff qx qy ->
    (forall sx sy, SM9_parses (skipn 32 sig) sx sy -> good (Aff sx sy) (Aff qx qy)) ->
    exists b, sm9_verify L9 H pr pk sig msg id hid = Ok b /\
      (b = true <-> exists sx sy, SM9_parses (skipn 32 sig) sx sy /\
        SM9_verifies H Hd e (Aff x y) id hid msg (be_val (firstn 32 sig)) (Aff sx sy)).
  Proof.
    intros (PA & PE & PO & Po) Hb Hrd Hm Hi Hh N2 Ne Eq Gd. unfold sm9_verify. cbv zeta.
    destruct (Z.ltb_spec (Z.of_nat (length sig)) 32) as [G|G].
    { exists false. split; [reflexivity|]. split; [discriminate|]. intros (sx & sy & P & _).
      rewrite skipn_all2 in P by lia. destruct (parses9_len _ _ _ P) as (? & ? & E & _). discriminate. }
    assert (HF : length (firstn 32 sig) = 32%nat) by (rewrite firstn_length; lia).
    assert (HL : Z.of_nat (length sig) - 32 = Z.of_nat (length (skipn 32 sig))) by (rewrite skipn_length; lia). rewrite HL.
    assert (NZS : skipn 32 sig <> [] -> nz (skipn 32 sig) 0 = nz sig 32).
    { intros _. unfold nz. rewrite <- (firstn_skipn 32 sig) at 2. rewrite app_nth2 by lia. rewrite HF. reflexivity. }
    assert (DC : (skipn 32 sig = []) \/ skipn 32 sig <> []) by (destruct (skipn 32 sig); [now left|right; discriminate]).
    destruct DC as [E0|NE].
    { rewrite E0. change (sm9_ec_a_from_bytes L9 [] (Z.of_nat (length (@nil Z)))) with (Ok (@None (aff fp9 * Z))). cbn [bind].
      exists false. split; [reflexivity|]. split; [discriminate|]. intros (sx & sy & P & _).
      destruct (parses9_len _ _ _ P) as (? & ? & E & _). discriminate. }
    specialize (NZS NE).
    assert (Hrd' : ((nz (skipn 32 sig) 0 = 4 \/ nz (skipn 32 sig) 0 = 6 \/ nz (skipn 32 sig) 0 = 7) -> (65 <= length (skipn 32 sig))%nat) /\
                   ((nz (skipn 32 sig) 0 = 2 \/ nz (skipn 32 sig) 0 = 3) -> (33 <= length (skipn 32 sig))%nat)).
    { rewrite NZS. clear - Hrd NE. destruct Hrd as [Hs|[A B]].
      - exfalso. apply NE. apply skipn_all2. exact Hs.
      - rewrite skipn_length. split; intros C; [specialize (A C)|specialize (B C)]; lia. }
    destruct Hrd' as [H4 H2']. pose proof (bytes_skipn 32 sig Hb) as HbC.
    destruct (decode_sig (skipn 32 sig) HbC NE H4 H2') as [(R & sx & sy & E & AR & PS)|(NP & [E|(R & size & E & NS)])]; rewrite E; cbn [bind].
    2:{ exists false. split; [reflexivity|]. split; [discriminate|]. intros (sx & sy & P & _). now apply NP in P. }
    2:{ destruct (Z.eqb_spec (size + 32) (Z.of_nat (length sig))) as [E'|_]; [exfalso; clear - E' NS HL; lia|]. cbn [negb].
        exists false. split; [reflexivity|]. split; [discriminate|]. intros (sx & sy & P & _). now apply NP in P. }
    destruct (Z.eqb_spec (Z.of_nat (length (skipn 32 sig)) + 32) (Z.of_nat (length sig))) as [_|N']; [|exfalso; clear - N' HL; lia].
    cbn [negb].
    (* g^h *)
    pose proof (bytes_firstn 32 sig Hb) as HbF.
    assert (PW : exists t z, sm9_fp12_pow L9 (pub9_e pk) sig = Ok t /\ R12 t z /\
               (be_val (firstn 32 sig) <> 0 -> z = fpow K12 (e P1 (Aff x y)) (be_val (firstn 32 sig)))).
    { destruct (Z.eq_dec (be_val (firstn 32 sig)) 0) as [Z0|NZ].
      - destruct (parses9_len _ _ _ PS) as (b0 & r & E1 & LL).
        assert (EZ : firstn 32 sig = repeat 0 32).
        { rewrite <- (be_bytes_be_val _ HbF), HF, Z0. reflexivity. }
        destruct (pow_h0 (pub9_e pk) _ sig b0 r PE) as (c & z & Ec & Rc).
        { rewrite <- EZ, <- E1. symmetry. apply firstn_skipn. }
        { clear - LL. lia. }
        exists c, z. split; [exact Ec|]. split; [exact Rc|]. intros N. contradiction.
      - destruct (s_pow w nn L9 LOK (pub9_e pk) _ sig PE) as (c & Ec & Rc); [clear - G; lia|exact HbF|exact NZ|].
        exists c, (fpow K12 (e P1 (Aff x y)) (be_val (firstn 32 sig))). split; [exact Ec|]. split; [exact Rc|]. reflexivity. }
    destruct PW as (t & z & Et & Rt & Ez). unfold fp9 in *. rewrite Et. cbn [bind].
    rewrite (h1_ok id hid Hi Hh). cbn [bind].
    pose proof (H1_range id hid) as HR. unfold SM9_verifies. set (h1 := SM9_H1 H Hd id hid) in *. clearbody h1.
    assert (BV : be_val (be_bytes 32 h1) mod SM9_n = h1).
    { rewrite be_val_32 by (clear - HR; lia). apply mod_small1. clear - HR. lia. }
    destruct (g2_mulg w nn L9 LOK (be_bytes 32 h1) (be_bytes_bytes _ _) (be_bytes_length _ _)) as (J & EJ & RJ).
    { rewrite BV. exact N2. }
    rewrite EJ. cbn [bind]. rewrite BV in RJ.
    assert (F1' : zm2 h1 P2 <> Inf) by (apply zm2_fin; clear - HR; lia).
    assert (RS : jr2 (sm9_ec2_j_add_a L9 J (pub9_P pk)) (Aff qx qy)).
    { rewrite <- Eq. exact (g2_add_a w nn L9 LOK J (pub9_P pk) _ _ _ RJ PA (zm2_on h1 P2 P2_on) PO F1' Ne). }
    pose proof (g2_to_a w nn L9 LOK _ _ RS) as AS. cbn [px py] in AS.
    assert (QO : E2_on (Aff qx qy)). { rewrite <- Eq. exact (ec_add_on _ _ _ E2_ok _ _ (zm2_on h1 P2 P2_on) PO). }
    assert (Qo : zm2 SM9_n (Aff qx qy) = Inf).
    { rewrite <- Eq. exact (zm2_n_add _ _ (zm2_on h1 P2 P2_on) PO (zm2_ord h1 (Z.le_trans _ _ _ Z.le_0_1 (proj1 HR))) Po). }
    destruct (pr_ok _ _ _ _ _ _ AR AS (proj1 PS) QO Qo (Gd sx sy PS)) as (u & Eu & Ru).
    unfold fp9 in *. rewrite Eu. cbn [bind].
    pose proof (r12_mul w nn L9 LOK _ _ _ _ (r12_w w nn L9 LOK _ _ Ru) (r12_w w nn L9 LOK _ _ Rt)) as Rw.
    rewrite (h2_ok msg _ _ Hm Rw). cbn [bind]. eexists. split; [reflexivity|].
    rewrite mem_eq_iff.
    pose proof (H2_range msg (fmul K12 (e (Aff sx sy) (Aff qx qy)) z)) as H2R.
    assert (IFF : be_bytes 32 (SM9_H2 H Hd msg (fmul K12 (e (Aff sx sy) (Aff qx qy)) z)) = firstn 32 sig <->
                  SM9_H2 H Hd msg (fmul K12 (e (Aff sx sy) (Aff qx qy)) z) = be_val (firstn 32 sig)).
    { split; intros EE.
      - rewrite <- EE. symmetry. apply be_val_32. exact H2R.
      - rewrite EE. rewrite <- HF at 1. apply be_bytes_be_val. exact HbF. }
    rewrite IFF. clear IFF. split.
    - intros EE. exists sx, sy. split; [exact PS|]. rewrite <- EE at 1 2. split; [exact H2R|]. split; [exact (proj1 PS)|]. split; [discriminate|].
      change (E2_mul h1 P2) with (zm2 h1 P2). rewrite Eq. rewrite <- Ez; [exact EE|]. rewrite <- EE. clear - H2R. lia.
    - intros (sx' & sy' & PS' & HR' & _ & _ & EE). destruct (parses9_unique _ _ _ _ _ PS PS') as [<- <-].
      change (E2_mul h1 P2) with (zm2 h1 P2) in EE. rewrite Eq in EE. rewrite Ez; [exact EE|]. clear - HR'. lia.
  Qed.

  (** *** The retry loop *)
  Notation sl := (SM9_sig_l H Hd e).
  Notation sh := (SM9_sig_h H Hd e).
  Lemma sl_range Pp msg r : 0 <= sl Pp msg r < SM9_n.
  Proof. apply Z.mod_pos_bound. exact n9_pos. Qed.
  Lemma sign_spec9 sk dx dy x y msg PC draws : priv_rep9 sk dx dy x y -> msg9_ok msg -> draws_ok draws ->
    (Forall (fun q => sl (Aff x y) msg (draw9 q) = 0) draws /\ sm9_sign L9 H sk msg PC draws = Ok None) \/
    (exists pre rnd post sx sy, draws = pre ++ rnd :: post /\
       Forall (fun q => sl (Aff x y) msg (draw9 q) = 0) pre /\ sl (Aff x y) msg (draw9 rnd) <> 0 /\
       (if sl (Aff x y) msg (draw9 rnd) =? SM9_n - 2 then sx = num 0 /\ sy = num 0
        else zm1 (sl (Aff x y) msg (draw9 rnd)) (Aff dx dy) = Aff sx sy) /\
       sm9_sign L9 H sk msg PC draws = Ok (Some (be_bytes 32 (sh (Aff x y) msg (draw9 rnd)) ++ SM9_encode_pt PC sx sy))).
  Proof.
    intros SK Hm HD. induction draws as [|rnd draws IH].
    { left. split; [constructor|reflexivity]. }
    inversion HD as [|? ? [Hb Hl] HD']; subst. specialize (IH HD').
    pose proof (sign_try_spec sk dx dy x y msg PC rnd SK Hm Hb Hl) as T. cbv zeta in T. destruct T as (T0 & T1 & T2).
    cbn [sm9_sign]. pose proof (sl_range (Aff x y) msg (draw9 rnd)) as LR.
    set (l := sl (Aff x y) msg (draw9 rnd)) in *.
    destruct (Z.eq_dec l 0) as [Z0|NZ].
    - rewrite (T0 Z0). cbn [bind]. destruct IH as [[F E]|(pre & rd & post & sx & sy & E0 & F & N & C & E)].
      + left. split; [constructor; [exact Z0|exact F]|exact E].
      + right. exists (rnd :: pre), rd, post, sx, sy. split; [rewrite E0; reflexivity|]. split; [constructor; [exact Z0|exact F]|].
        split; [exact N|]. split; [exact C|exact E].
    - right. destruct (Z.eqb_spec l (SM9_n - 2)) as [E2|N2].
      + exists [], rnd, draws, (num 0), (num 0). rewrite (T2 E2). split; [reflexivity|]. split; [constructor|]. fold l.
        split; [exact NZ|]. rewrite E2 at 1. rewrite Z.eqb_refl. auto.
      + destruct SK as (_ & SO & _).
        destruct (zm1_aff l (Aff dx dy) SO ltac:(discriminate) ltac:(clear - LR NZ; lia)) as (sx & sy & Es).
        exists [], rnd, draws, sx, sy. rewrite (T1 sx sy NZ N2 Es). split; [reflexivity|]. split; [constructor|]. fold l.
        split; [exact NZ|]. apply Z.eqb_neq in N2. rewrite N2. auto.
  Qed.

  (** *** A signature verifies *)
  Lemma gpub ks : 0 < ks < SM9_n -> e P1 (zm2 ks P2) = fpow K12 gen ks.
  Proof.
    intros Hk. pose proof (po_bil _ _ _ _ _ POK 1 ks ltac:(pose proof n9_1 as N; clear - N; lia) Hk) as B.
    rewrite Z.mul_1_l in B. rewrite <- B. reflexivity.
  Qed.
  Theorem signature_verifies ks id hid t2 msg r : 0 < ks < SM9_n -> (SM9_H1 H Hd id hid + ks) mod SM9_n <> 0 ->
    SM9_t2 ks (SM9_H1 H Hd id hid) t2 -> 1 <= r <= SM9_n - 1 -> sl (zm2 ks P2) msg r <> 0 ->
    SM9_verifies H Hd e (zm2 ks P2) id hid msg (sh (zm2 ks P2) msg r) (zm1 (sl (zm2 ks P2) msg r) (zm1 t2 P1)).
  Proof.
    intros Hk NZ [T2 ET] Hr NL. pose proof (H1_range id hid) as H1R. unfold SM9_verifies.
    set (h1 := SM9_H1 H Hd id hid) in *. clearbody h1.
    assert (HR : 1 <= sh (zm2 ks P2) msg r <= SM9_n - 1) by apply H2_range.
    pose proof (sl_range (zm2 ks P2) msg r) as LR. pose proof SM9_n_prime as Pn.
    assert (OnS : E1_on (zm1 t2 P1)) by (apply zm1_on; exact P1_on).
    assert (FS : zm1 t2 P1 <> Inf) by (apply (zm1_fin t2 P1 P1_on P1_fin); exact T2).
    split; [exact HR|]. split; [apply zm1_on; exact OnS|]. split.
    { apply (zm1_fin _ _ OnS FS). clear - LR NL. lia. }
    unfold SM9_sig_h at 2. f_equal.
    assert (El : sl (zm2 ks P2) msg r = (r - sh (zm2 ks P2) msg r) mod SM9_n) by reflexivity.
    set (l := sl (zm2 ks P2) msg r) in *. set (h := sh (zm2 ks P2) msg r) in *. clearbody l h.
    pose proof n9_pos as Np.
    assert (LT : 0 <= l * t2) by (clear - LR T2; nia).
    assert (A : 0 < (l * t2) mod SM9_n < SM9_n).
    { pose proof (Z.mod_pos_bound (l * t2) SM9_n Np) as B. destruct (Z.eq_dec ((l * t2) mod SM9_n) 0) as [Z0|N0]; [|clear - B N0; lia].
      exfalso. apply Z.mod_divide in Z0; [|clear - Np; lia]. destruct (prime_mult _ Pn _ _ Z0) as [D|D];
        (apply Z.divide_pos_le in D; [clear - D LR T2; lia|clear - LR NL T2; lia]). }
    assert (B : 0 < (h1 + ks) mod SM9_n < SM9_n).
    { pose proof (Z.mod_pos_bound (h1 + ks) SM9_n Np) as B. clear - B NZ. lia. }
    assert (S1 : zm1 l (zm1 t2 P1) = zm1 ((l * t2) mod SM9_n) P1).
    { rewrite (zm1_mod _ LT). symmetry. apply zm1_mul; [exact P1_on|clear - LR; lia|clear - T2; lia]. }
    assert (S2 : E2_add (zm2 h1 P2) (zm2 ks P2) = zm2 ((h1 + ks) mod SM9_n) P2).
    { rewrite zm2_mod by (clear - H1R Hk; lia). symmetry. apply zm2_add; [clear - H1R; lia|clear - Hk; lia]. }
    change (E2_mul h1 P2) with (zm2 h1 P2). rewrite S1, S2.
    pose proof (po_bil _ _ _ _ _ POK _ _ A B) as BL.
    change (e (zm1 ((l * t2) mod SM9_n) P1) (zm2 ((h1 + ks) mod SM9_n) P2) =
      fpow K12 gen ((l * t2) mod SM9_n * ((h1 + ks) mod SM9_n))) in BL.
    rewrite BL, (gpub ks Hk).
    pose proof (sig_exp SM9_n ks h1 t2 l h r Pn Hk T2 ET El ltac:(clear - HR; lia) ltac:(clear - Hr; lia) ltac:(clear - H1R; lia)) as SE.
    rewrite <- !fpow_mul by (clear - HR Hk Hr; lia).
    rewrite <- fpow_add; [|clear - A B; nia|clear - HR Hk; nia].
    rewrite (fpow_modn gen SM9_n _ Np) by (try exact (po_ord _ _ _ _ _ POK); clear - A B HR Hk; nia).
    rewrite SE. symmetry. apply (fpow_modn gen SM9_n _ Np); [clear - Hr Hk; nia|exact (po_ord _ _ _ _ _ POK)].
  Qed.

  Theorem sign_verify9 sk pk ks dx dy x y id hid t2 msg PC draws sig : 0 < ks < SM9_n -> zm2 ks P2 = Aff x y ->
    (SM9_H1 H Hd id hid + ks) mod SM9_n <> 0 -> SM9_H1 H Hd id hid <> ks -> SM9_H1 H Hd id hid <> SM9_n - 2 ->
    SM9_t2 ks (SM9_H1 H Hd id hid) t2 -> zm1 t2 P1 = Aff dx dy ->
    priv_rep9 sk dx dy x y -> pub_rep9 pk x y -> id9_ok id -> is_byte hid -> msg9_ok msg -> draws_ok draws ->
    Forall (fun q => sl (Aff x y) msg (draw9 q) <> SM9_n - 2) draws ->
    (forall sx sy, E1_on (Aff sx sy) -> good (Aff sx sy) (E2_add (zm2 (SM9_H1 H Hd id hid) P2) (Aff x y))) ->
    sm9_sign L9 H sk msg PC draws = Ok (Some sig) ->
    sm9_verify L9 H pr pk sig msg id hid = Ok true.
  Proof.
    intros Hk Exy NZ Nk N2 T2 Ed SK PK Hi Hh Hm HD HL Gd ES.
    destruct (sign_spec9 sk dx dy x y msg PC draws SK Hm HD) as [[_ E]|(pre & rnd & post & sx & sy & E0 & _ & N0 & C & E)]; rewrite E in ES; [discriminate|].
    assert (Esig : sig = be_bytes 32 (sh (Aff x y) msg (draw9 rnd)) ++ SM9_encode_pt PC sx sy) by congruence. clear ES.
    assert (NL : sl (Aff x y) msg (draw9 rnd) <> SM9_n - 2).
    { rewrite E0 in HL. apply Forall_app in HL. destruct HL as [_ HL]. inversion HL. assumption. }
    pose proof NL as NLb. apply Z.eqb_neq in NLb. rewrite NLb in C.
    pose proof (signature_verifies ks id hid t2 msg (draw9 rnd) Hk NZ T2 (draw9_range rnd)) as V.
    rewrite Exy in V. specialize (V N0). rewrite Ed, C in V.
    pose proof (H1_range id hid) as H1R.
    assert (On : E1_on (Aff sx sy)). { destruct V as (_ & V & _). exact V. }
    pose proof (encode9_parses PC sx sy On) as PS.
    assert (SK32 : skipn 32 sig = SM9_encode_pt PC sx sy) by (rewrite Esig; apply skipn_exact; apply be_bytes_length).
    assert (FS32 : firstn 32 sig = be_bytes 32 (sh (Aff x y) msg (draw9 rnd))) by (rewrite Esig; apply firstn_exact; apply be_bytes_length).
    assert (Hb : bytes sig). { rewrite Esig. apply bytes_app. split; [apply be_bytes_bytes|apply encode9_bytes]. }
    assert (Rd : sig_readable sig).
    { right. cbv zeta. destruct (parses9_len _ _ _ PS) as (b0 & rr & E1 & LL). rewrite <- SK32 in E1, LL.
      assert (L32 : (32 < length sig)%nat). { rewrite skipn_length in LL. clear - LL. lia. }
      assert (EB : nz sig 32 = b0).
      { unfold nz. rewrite <- (firstn_skipn 32 sig), app_nth2 by (rewrite firstn_length; lia). rewrite firstn_length, Nat.min_l by lia.
        rewrite Nat.sub_diag, E1. reflexivity. }
      rewrite EB. rewrite skipn_length in LL. clear - LL. lia. }
    destruct (E2_add (zm2 (SM9_H1 H Hd id hid) P2) (Aff x y)) as [|qx qy] eqn:EQ.
    { exfalso. rewrite <- Exy, <- zm2_add in EQ by (clear - H1R Hk; lia).
      apply (ord2 P2 P2_on P2_fin P2_order) in EQ; [|clear - H1R Hk; lia]. contradiction. }
    assert (Ne : zm2 (SM9_H1 H Hd id hid) P2 <> Aff x y).
    { rewrite <- Exy. intros EE. apply Nk. apply (zm2_inj _ ks); [clear - H1R; lia|exact Hk|exact EE]. }
    destruct (verify_spec pk x y sig msg id hid qx qy PK Hb Rd Hm Hi Hh N2 Ne EQ) as (b & EV & IFF).
    { intros ax ay PA. apply Gd. exact (proj1 PA). }
    rewrite EV. f_equal. apply IFF. exists sx, sy. rewrite SK32. split; [exact PS|]. rewrite FS32.
    rewrite be_val_32 by apply H2_range. exact V.
  Qed.

  (** When r - h is n - 2 modulo n the code writes the encoding of (0, 0), which is not a point of
      the curve: the signature is refused. *)
  Lemma zero_not_on : ~ E1_on (Aff (num 0) (num 0)).
  Proof. intros On. apply (ec_y_nz _ _ _ E1_ok _ _ On). exact n1_zero. Qed.
  Theorem sign_last_rejected sk pk dx dy x y id hid msg PC rnd draws : priv_rep9 sk dx dy x y -> msg9_ok msg ->
    draws_ok (rnd :: draws) -> sl (Aff x y) msg (draw9 rnd) = SM9_n - 2 ->
    exists sig, sm9_sign L9 H sk msg PC (rnd :: draws) = Ok (Some sig) /\ sm9_verify L9 H pr pk sig msg id hid = Ok false.
  Proof.
    intros SK Hm HD EL. inversion HD as [|? ? [Hb Hl] _]; subst.
    pose proof (sign_try_spec sk dx dy x y msg PC rnd SK Hm Hb Hl) as T. cbv zeta in T. destruct T as (_ & _ & T2).
    specialize (T2 EL). cbn [sm9_sign]. rewrite T2. cbn [bind]. eexists. split; [reflexivity|].
    set (hb := be_bytes 32 _). assert (Lh : length hb = 32%nat) by apply be_bytes_length. clearbody hb.
    unfold sm9_verify. cbv zeta.
    assert (PP : exists b0 r, SM9_encode_pt PC (num 0) (num 0) = b0 :: r /\
       ((b0 = 2 \/ b0 = 3) /\ length (b0 :: r) = 33%nat \/ (b0 = 4 \/ b0 = 6 \/ b0 = 7) /\ length (b0 :: r) = 65%nat)).
    { destruct PC; cbn [SM9_encode_pt]; unfold SM9_uncompressed, SM9_compressed, SM9_mixed; eexists _, _; (split; [reflexivity|]).
      - right. split; [auto|]. cbn [length]. rewrite app_length, !F1_bytes_length. reflexivity.
      - left. pose proof (Z.mod_pos_bound (fval (num 0)) 2 ltac:(lia)) as PB. split; [clear - PB; lia|]. cbn [length]. rewrite F1_bytes_length. reflexivity.
      - right. pose proof (Z.mod_pos_bound (fval (num 0)) 2 ltac:(lia)) as PB. split; [clear - PB; lia|]. cbn [length]. rewrite app_length, !F1_bytes_length. reflexivity. }
    destruct PP as (b0 & rr & EE & LL).
    pose proof (encode9_bytes PC (num 0) (num 0)) as EB.
    rewrite (skipn_exact 32 hb _ Lh).
    set (C1 := SM9_encode_pt PC (num 0) (num 0)) in *.
    rewrite app_length, Lh. rewrite EE.
    assert (LC : (33 <= length (b0 :: rr))%nat) by (clear - LL; lia).
    destruct (Z.ltb_spec (Z.of_nat (32 + length (b0 :: rr))) 32) as [Hx|_]; [reflexivity|].
    replace (Z.of_nat (32 + length (b0 :: rr)) - 32) with (Z.of_nat (length (b0 :: rr))) by lia.
    assert (N0 : forall ax ay, ~ SM9_parses (b0 :: rr) ax ay).
    { rewrite <- EE. unfold C1. intros ax ay P. destruct (encode9_parses_inv _ _ _ _ _ P) as [-> On]. exact (no_x0 _ On). }
    rewrite EE in EB.
    destruct (decode_sig (b0 :: rr) EB ltac:(discriminate)) as [(R & ax & ay & _ & _ & PS)|(NP & [E|(R & size & E & NS)])].
    { intros HC. change (nz (b0 :: rr) 0) with b0 in HC. clear - LL HC. lia. }
    { intros _. clear - LC. lia. }
    - exfalso. exact (N0 _ _ PS).
    - rewrite E. reflexivity.
    - rewrite E. cbn [bind]. destruct (Z.eqb_spec (size + 32) (Z.of_nat (32 + length (b0 :: rr)))) as [E'|_]; [exfalso; clear - E' NS; lia|]. reflexivity.
  Qed.
End SM9.

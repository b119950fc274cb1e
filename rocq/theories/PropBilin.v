(** Properties C51 and C61 - C64: the pairing is bilinear; SM9 keys and signatures. *)
From Coq Require Import Znumtheory.
From Verif Require Import Base BaseFacts ModelNumber SpecNumber SpecField SpecEC SpecJac ModelEC ModelSM2 ModelSM9 SpecSM9 SpecSM2Api SpecSM9Api
  SpecPairing SpecSM9Keys ProofFrob ProofRate ProofJacRep ProofTowerRep ProofNumlib9 ProofSM9Rep ProofSM9Fin ProofECMul ProofSM9Curve ProofSM9Point ProofSM9
  ProofSM9Sign ProofSM9Pub ProofMiller ProofRate9 ProofSubgroup PropSM9 PropPairing.

(** ** C61: bilinearity *)
(** of the pairing of the standard; G1 is the whole curve, G2 the multiples of P2 *)
Theorem C61_bilinear : forall P a b, E1_on P -> 0 <= a -> 0 <= b ->
  SM9_e (E1_mul a P) (E2_mul b P2) = fpow K12 (SM9_e P P2) (a * b).
Proof. exact SM9_e_bilinear. Qed.
Theorem C61_additive_left : forall P P' b, E1_on P -> E1_on P' -> 0 <= b ->
  SM9_e (E1_add P P') (E2_mul b P2) = fmul K12 (SM9_e P (E2_mul b P2)) (SM9_e P' (E2_mul b P2)).
Proof. exact SM9_e_add_l. Qed.
Theorem C61_additive_right : forall P a b, E1_on P -> 0 <= a -> 0 <= b ->
  SM9_e P (E2_add (E2_mul a P2) (E2_mul b P2)) = fmul K12 (SM9_e P (E2_mul a P2)) (SM9_e P (E2_mul b P2)).
Proof. exact SM9_e_add_r. Qed.
(** the values are n-th roots of unity *)
Theorem C61_order : forall P b, E1_on P -> 0 <= b -> fpow K12 (SM9_e P (E2_mul b P2)) SM9_n = f1 K12.
Proof.
  intros P b OP Hb. pose proof n_nn as Hn. pose proof (SM9_e_bilinear P 1 b OP Z.le_0_1 Hb) as B1.
  pose proof (SM9_e_bilinear P 1 (b * SM9_n) OP Z.le_0_1 (Z.mul_nonneg_nonneg _ _ Hb Hn)) as Bn.
  pose proof (SM9_e_bilinear P 1 0 OP Z.le_0_1 (Z.le_refl 0)) as B0.
  rewrite (zmul_1 K1) in B1, Bn, B0. rewrite Z.mul_1_l in B1, Bn. rewrite Z.mul_0_r in B0.
  change (E2_mul b P2) with (zm2 b P2). rewrite B1, <- (fpow_mul K12 _ b SM9_n Hb Hn), <- Bn.
  rewrite (zmul_mul K2 _ _ E2_ok b SM9_n P2 P2_on Hb Hn), P2_order, (zm_inf K2 b). exact B0.
Qed.
(** of the values the x64 build returns *)
Theorem C61_library_x64 : forall a b P Q P' Q' xP yP xQ yQ xP' yP' xQ' yQ' c, 0 <= a -> 0 <= b -> 0 <= c ->
  holds_a (stored1 64 4) P xP yP -> E1_on (Aff xP yP) ->
  holds_a (holds2 64 4) Q xQ yQ -> Aff xQ yQ = E2_mul c P2 ->
  holds_a (stored1 64 4) P' xP' yP' -> Aff xP' yP' = E1_mul a (Aff xP yP) ->
  holds_a (holds2 64 4) Q' xQ' yQ' -> Aff xQ' yQ' = E2_mul b (Aff xQ yQ) ->
  exists g g' v, sm9_pairing lib9_x64 P Q = Ok g /\ sm9_pairing lib9_x64 P' Q' = Ok g' /\
    holds12 64 4 g v /\ holds12 64 4 g' (fpow K12 v (a * b)).
Proof.
  intros a b P Q P' Q' xP yP xQ yQ xP' yP' xQ' yQ' c Ha Hb Hc HP OP HQ EQ HP' EP' HQ' EQ'.
  pose proof (G2_mul c P2 Hc P2_G2) as [OQ NQ]. change (zm2 c P2) with (E2_mul c P2) in OQ, NQ.
  pose proof (G2_mul b _ Hb (conj OQ NQ)) as [OQ' NQ']. change (zm2 b (E2_mul c P2)) with (E2_mul b (E2_mul c P2)) in OQ', NQ'.
  pose proof (zmul_on K1 _ _ E1_ok a _ OP) as OP'. change (zm1 a (Aff xP yP)) with (E1_mul a (Aff xP yP)) in OP'.
  rewrite EQ in EQ'. rewrite <- EQ in OQ, NQ. rewrite <- EQ' in OQ', NQ'. rewrite <- EP' in OP'.
  destruct (C60_pairing_x64 P Q xP yP xQ yQ HP OP HQ OQ NQ) as (g & Eg & Hg).
  destruct (C60_pairing_x64 P' Q' xP' yP' xQ' yQ' HP' OP' HQ' OQ' NQ') as (g' & Eg' & Hg').
  exists g, g', (SM9_e (Aff xP yP) (Aff xQ yQ)). split; [exact Eg|]. split; [exact Eg'|]. split; [exact Hg|].
  rewrite EP', EQ' in Hg'. rewrite EQ.
  assert (EE : SM9_e (E1_mul a (Aff xP yP)) (E2_mul b (E2_mul c P2)) = fpow K12 (SM9_e (Aff xP yP) (E2_mul c P2)) (a * b)).
  { change (E2_mul b (E2_mul c P2)) with (zm2 b (zm2 c P2)). change (E2_mul c P2) with (zm2 c P2).
    rewrite <- (zmul_mul K2 _ _ E2_ok b c P2 P2_on Hb Hc).
    pose proof (SM9_e_bilinear (Aff xP yP) a (b * c) OP Ha (Z.mul_nonneg_nonneg _ _ Hb Hc)) as B.
    pose proof (SM9_e_bilinear (Aff xP yP) 1 c OP Z.le_0_1 Hc) as B1. rewrite (zmul_1 K1), Z.mul_1_l in B1.
    pose proof (fpow_mul K12 (SM9_e (Aff xP yP) P2) c (a * b) Hc (Z.mul_nonneg_nonneg _ _ Ha Hb)) as FM. rewrite <- B1 in FM.
    refine (eq_trans B (eq_trans _ FM)). apply f_equal. ring. }
  rewrite EE in Hg'. exact Hg'.
Qed.

(** ** Glue *)
Lemma POK9 w nn L9 : pairing_ok w nn (sm9_pairing L9) (pairs_right w nn L9) SM9_e.
Proof.
  split.
  - intros P Q x1 y1 x2 y2 HP HQ _ _ _ G. exact (G P Q x1 y1 x2 y2 eq_refl eq_refl HP HQ).
  - intros a b Ha Hb. exact (SM9_e_bilinear P1 a b P1_on (Z.lt_le_incl _ _ (proj1 Ha)) (Z.lt_le_incl _ _ (proj1 Hb))).
  - pose proof (C61_order P1 1 P1_on Z.le_0_1) as O. change (E2_mul 1 P2) with (zm2 1 P2) in O. rewrite (zmul_1 K2) in O. exact O.
Qed.
Lemma pub_is_rep w nn pk x y : pub_is w nn pk (Aff x y) <-> pub_rep9 w nn SM9_e pk x y.
Proof.
  split.
  - intros (x' & y' & E & [O N] & A & V). injection E as <- <-. split; [apply holds_a_R; exact A|]. split; [apply holds12_R; exact V|]. split; [exact O|exact N].
  - intros (A & V & O & N). exists x, y. split; [reflexivity|]. split; [split; [exact O|exact N]|]. split; [apply holds_a_R; exact A|apply holds12_R; exact V].
Qed.
Lemma pub_is_aff w nn pk Q : pub_is w nn pk Q -> exists x y, Q = Aff x y /\ pub_rep9 w nn SM9_e pk x y.
Proof. intros H. pose proof H as (x & y & E & _). exists x, y. split; [exact E|]. rewrite E in H. now apply pub_is_rep. Qed.
Lemma priv_is_rep w nn sk dx dy x y : priv_is w nn sk (Aff dx dy) (Aff x y) <-> priv_rep9 w nn SM9_e sk dx dy x y.
Proof.
  split.
  - intros (x' & y' & E & O & A & V). injection E as <- <-. split; [apply holds_a_R; exact A|]. split; [exact O|]. now apply pub_is_rep.
  - intros (A & O & V). exists dx, dy. split; [reflexivity|]. split; [exact O|]. split; [apply holds_a_R; exact A|]. now apply pub_is_rep.
Qed.
Lemma priv_is_aff w nn sk D Q : priv_is w nn sk D Q -> exists dx dy x y, D = Aff dx dy /\ Q = Aff x y /\ priv_rep9 w nn SM9_e sk dx dy x y.
Proof.
  intros H. pose proof H as (dx & dy & E & _ & _ & (x & y & E' & _)). exists dx, dy, x, y. split; [exact E|]. split; [exact E'|].
  rewrite E, E' in H. now apply priv_is_rep.
Qed.
Lemma master_is_rep w nn ms ks x y : zm2 ks P2 = Aff x y -> master_is w nn ms ks <-> master_rep w nn SM9_e ms ks x y.
Proof.
  intros E. unfold master_is, master_rep. change (E2_mul ks P2) with (zm2 ks P2). rewrite E. split.
  - intros (A & B). split; [exact A|]. split; [reflexivity|]. now apply pub_is_rep.
  - intros (A & _ & B). split; [exact A|]. now apply pub_is_rep.
Qed.
Lemma x64_right P Q : E1_on P -> in_G2 Q -> pairs_right 64 4 lib9_x64 P Q.
Proof.
  intros OP [OQ NQ] [px py] Q' x1 y1 x2 y2 EP EQ [H1 H2] HQ. rewrite EP, EQ in *.
  exact (C60_pairing_x64 (px, py) Q' x1 y1 x2 y2 (conj (or_introl H1) (or_introl H2)) OP HQ OQ NQ).
Qed.
Lemma P2_in_G2 k : 0 <= k -> in_G2 (E2_mul k P2). Proof. intros Hk. exact (G2_mul k P2 Hk P2_G2). Qed.

(** ** C62: key generation *)
(** the pairing is right for all points in the x64 build, and in the portable one under the condition of C60 *)
Theorem C62_pairs_right_x64 : forall P Q, E1_on P -> in_G2 Q -> pairs_right 64 4 lib9_x64 P Q.
Proof. exact x64_right. Qed.
(** setting a master key: refused outside [1, n-1], otherwise Ppub = [ks]P2 and e(P1, Ppub) are stored.
    Not covered: ks = n - 2, for which the scalar multiplication is wrong (C50). *)
Theorem C62_set_master_partial : forall w nn L9 d, build9 w nn L9 -> bytes d -> length d = 32%nat ->
  (~ (0 < be_val d < SM9_n) -> sm9_set_master L9 (sm9_pairing L9) d = Throw) /\
  (0 < be_val d < SM9_n -> be_val d <> SM9_n - 2 -> pairs_right w nn L9 P1 (E2_mul (be_val d) P2) ->
   exists ms, sm9_set_master L9 (sm9_pairing L9) d = Ok ms /\ master_is w nn ms (be_val d)).
Proof.
  intros w nn L9 d B Hb Hl. apply build9_ok in B. split.
  - exact (set_master_reject w nn L9 B (sm9_pairing L9) d Hb Hl).
  - intros Hd N2 G. destruct (zm2_aff (be_val d) Hd) as (x & y & E). change (E2_mul (be_val d) P2) with (zm2 (be_val d) P2) in G. rewrite E in G.
    destruct (set_master_spec w nn L9 B (sm9_pairing L9) _ SM9_e (POK9 w nn L9) d x y Hb Hl Hd N2 E G) as (ms & Em & Rm).
    exists ms. split; [exact Em|]. apply (master_is_rep _ _ _ _ x y E). exact Rm.
Qed.
(** a random master key: ks is made from 32 random bytes as in C48 *)
Theorem C62_gen_master_partial : forall w nn L9 rnd, build9 w nn L9 -> bytes rnd -> length rnd = 32%nat ->
  draw9 rnd <> SM9_n - 2 -> pairs_right w nn L9 P1 (E2_mul (draw9 rnd) P2) ->
  exists ms, sm9_gen_master L9 (sm9_pairing L9) rnd = Ok ms /\ master_is w nn ms (draw9 rnd).
Proof.
  intros w nn L9 rnd B Hb Hl N2 G. apply build9_ok in B. pose proof (draw9_range rnd) as DR.
  destruct (zm2_aff (draw9 rnd) ltac:(clear - DR; lia)) as (x & y & E). change (E2_mul (draw9 rnd) P2) with (zm2 (draw9 rnd) P2) in G. rewrite E in G.
  destruct (gen_master_spec w nn L9 B (sm9_pairing L9) _ SM9_e (POK9 w nn L9) rnd x y Hb Hl N2 E G) as (ms & Em & Rm).
  exists ms. split; [exact Em|]. apply (master_is_rep _ _ _ _ x y E). exact Rm.
Qed.
(** the signing key of an identity is [ks / (H1(id || hid) + ks)]P1; refused when H1 + ks is 0 modulo n *)
Theorem C62_gen_sign_key_partial : forall w nn L9 H Hd ms ks id hid, build9 w nn L9 -> hash_ok H Hd ->
  master_is w nn ms ks -> 0 < ks < SM9_n -> id9_ok id -> is_byte hid ->
  ((SM9_H1 H Hd id hid + ks) mod SM9_n = 0 -> sm9_gen_sign_key L9 H ms id hid = Throw) /\
  (forall t2, (SM9_H1 H Hd id hid + ks) mod SM9_n <> 0 -> SM9_t2 ks (SM9_H1 H Hd id hid) t2 -> t2 <> SM9_n - 2 ->
   exists sk, sm9_gen_sign_key L9 H ms id hid = Ok sk /\ priv_is w nn sk (E1_mul t2 P1) (E2_mul ks P2)).
Proof.
  intros w nn L9 H Hd ms ks id hid B HOK MS Hk Hi Hh. apply build9_ok in B. destruct (zm2_aff ks Hk) as (x & y & E).
  apply (master_is_rep _ _ _ _ x y E) in MS. split.
  - exact (gen_key_reject w nn L9 B H Hd HOK SM9_e ms ks x y id hid MS Hk Hi Hh).
  - intros t2 NZ T2 N2. destruct (zm1_aff t2 P1 P1_on P1_fin (proj1 T2)) as (dx & dy & Ed).
    destruct (gen_key_spec w nn L9 B H Hd HOK SM9_e ms ks x y id hid t2 dx dy MS Hk Hi Hh NZ T2 N2 Ed) as (sk & Es & Rs).
    exists sk. split; [exact Es|]. change (E1_mul t2 P1) with (zm1 t2 P1). change (E2_mul ks P2) with (zm2 ks P2). rewrite Ed, E. now apply priv_is_rep.
Qed.
(** the number t2 exists and is unique when H1 + ks is not 0 modulo n *)
Theorem C62_t2 : forall ks h1, 0 < ks < SM9_n -> (h1 + ks) mod SM9_n <> 0 -> exists! t2, SM9_t2 ks h1 t2.
Proof.
  intros ks h1 Hk NZ. pose proof SM9_n_prime as Pn. pose proof n9_pos as Np.
  assert (RP : rel_prime (h1 + ks) SM9_n).
  { apply rel_prime_sym. apply prime_rel_prime; [exact Pn|]. intros D. apply NZ. apply Zdivide_mod. exact D. }
  destruct (rel_prime_bezout _ _ RP) as [u v Euv].
  assert (M : forall z, (z * u * (h1 + ks)) mod SM9_n = z mod SM9_n).
  { intros z. replace (z * u * (h1 + ks)) with (z + (- (z * v)) * SM9_n) by (transitivity (z * (u * (h1 + ks) + v * SM9_n) - z * v * SM9_n); [rewrite Euv|]; ring).
    apply Z_mod_plus_full. }
  exists ((ks * u) mod SM9_n). split.
  - split.
    + pose proof (Z.mod_pos_bound (ks * u) SM9_n Np) as BB. assert ((ks * u) mod SM9_n <> 0); [|clear - BB H; lia].
      intros E0. pose proof (M ks) as E. rewrite <- Zmult_mod_idemp_l, E0, Z.mul_0_l, Zmod_0_l in E.
      rewrite (Z.mod_small ks SM9_n) in E; [clear - E Hk; lia|clear - Hk; lia].
    + rewrite Zmult_mod_idemp_l. exact (M ks).
  - intros t [Ht Et]. rewrite <- (Z.mod_small t SM9_n) by (clear - Ht; lia).
    replace (ks * u) with (u * ks) by ring. rewrite <- Zmult_mod_idemp_r, <- Et, Zmult_mod_idemp_r.
    replace (u * (t * (h1 + ks))) with (t * u * (h1 + ks)) by ring. exact (M t).
Qed.

(** ** C63: the value of a signature *)
(** the random draws for which r - h is 0 modulo n are passed over; with the first other one, r, the
    signature is h || [(r - h) mod n]ds where h = H2(M || e(P1, Ppub)^r).
    When (r - h) mod n is n - 2 the bytes of the pair (0, 0) stand in place of the point (C50). *)
Theorem C63_sign_partial : forall w nn L9 H Hd sk ds Ppub msg PC draws, build9 w nn L9 -> hash_ok H Hd ->
  priv_is w nn sk ds Ppub -> msg9_ok msg -> draws_ok draws ->
  let h rnd := SM9_sig_h H Hd SM9_e Ppub msg (draw9 rnd) in
  let l rnd := SM9_sig_l H Hd SM9_e Ppub msg (draw9 rnd) in
  (Forall (fun q => l q = 0) draws /\ sm9_sign L9 H sk msg PC draws = Ok None) \/
  (exists pre rnd post sx sy, draws = pre ++ rnd :: post /\ Forall (fun q => l q = 0) pre /\ l rnd <> 0 /\
     (if l rnd =? SM9_n - 2 then sx = num 0 /\ sy = num 0 else E1_mul (l rnd) ds = Aff sx sy) /\
     sm9_sign L9 H sk msg PC draws = Ok (Some (be_bytes 32 (h rnd) ++ SM9_encode_pt PC sx sy))).
Proof.
  intros w nn L9 H Hd sk ds Ppub msg PC draws B HOK SK Hm HD h l. apply build9_ok in B.
  destruct (priv_is_aff _ _ _ _ _ SK) as (dx & dy & x & y & Ed & Ep & SR). unfold h, l. rewrite Ed, Ep.
  exact (sign_spec9 w nn L9 B H Hd HOK SM9_e sk dx dy x y msg PC draws SR Hm HD).
Qed.

(** ** C64: verification accepts exactly what clause 7.1 of the standard accepts *)
(** for every buffer long enough for what its 33rd byte announces.  Not covered: H1 = n - 2 and H1 = ks,
    where the scalar multiplication and the mixed addition are wrong (C50), and H1 + ks = 0. *)
Theorem C64_verify_partial : forall w nn L9 H Hd pk Ppub sig msg id hid, build9 w nn L9 -> hash_ok H Hd ->
  pub_is w nn pk Ppub -> bytes sig -> sig_readable sig -> msg9_ok msg -> id9_ok id -> is_byte hid ->
  let h1 := SM9_H1 H Hd id hid in let Q := E2_add (E2_mul h1 P2) Ppub in
  h1 <> SM9_n - 2 -> E2_mul h1 P2 <> Ppub -> Q <> Inf ->
  (forall sx sy, SM9_parses (skipn 32 sig) sx sy -> pairs_right w nn L9 (Aff sx sy) Q) ->
  exists b, sm9_verify L9 H (sm9_pairing L9) pk sig msg id hid = Ok b /\
    (b = true <-> exists sx sy, SM9_parses (skipn 32 sig) sx sy /\
      SM9_verifies H Hd SM9_e Ppub id hid msg (be_val (firstn 32 sig)) (Aff sx sy)).
Proof.
  intros w nn L9 H Hd pk Ppub sig msg id hid B HOK PK Hb Hr Hm Hi Hh h1 Q N2 Ne NI G. apply build9_ok in B.
  destruct (pub_is_aff _ _ _ _ PK) as (x & y & Ep & PR). unfold Q, h1 in *. rewrite Ep in *.
  destruct (E2_add (E2_mul (SM9_H1 H Hd id hid) P2) (Aff x y)) as [|qx qy] eqn:EQ; [contradiction|].
  exact (verify_spec w nn L9 B H Hd HOK (sm9_pairing L9) _ SM9_e (POK9 w nn L9) pk x y sig msg id hid qx qy PR Hb Hr Hm Hi Hh N2 Ne EQ G).
Qed.
Theorem C64_verify_x64_partial : forall H Hd pk Ppub sig msg id hid, hash_ok H Hd ->
  pub_is 64 4 pk Ppub -> bytes sig -> sig_readable sig -> msg9_ok msg -> id9_ok id -> is_byte hid ->
  let h1 := SM9_H1 H Hd id hid in let Q := E2_add (E2_mul h1 P2) Ppub in
  h1 <> SM9_n - 2 -> E2_mul h1 P2 <> Ppub -> Q <> Inf ->
  exists b, sm9_verify lib9_x64 H (sm9_pairing lib9_x64) pk sig msg id hid = Ok b /\
    (b = true <-> exists sx sy, SM9_parses (skipn 32 sig) sx sy /\
      SM9_verifies H Hd SM9_e Ppub id hid msg (be_val (firstn 32 sig)) (Aff sx sy)).
Proof.
  intros H Hd pk Ppub sig msg id hid HOK PK Hb Hr Hm Hi Hh h1 Q N2 Ne NI.
  apply (C64_verify_partial 64 4%nat lib9_x64 H Hd pk Ppub sig msg id hid build9_x64 HOK PK Hb Hr Hm Hi Hh N2 Ne NI).
  intros sx sy [On _]. apply x64_right; [exact On|]. destruct PK as (x & y & _ & GP & _).
  assert (G0 : in_G2 (E2_mul h1 P2)). { apply P2_in_G2. pose proof (SM9_H_range H Hd 1 (id ++ [hid])) as R. unfold h1, SM9_H1. clear - R. lia. }
  exact (G2_add _ _ G0 GP).
Qed.
(** a shorter buffer is read past its end: verify is not safe on every byte string *)
Theorem C64_short_signature_refuted : forall L9 H pr pk sig msg id hid,
  (32 < length sig)%nat -> ~ sig_readable sig -> sm9_verify L9 H pr pk sig msg id hid = UB.
Proof.
  intros L9 H pr pk sig msg id hid L32 NR. unfold sm9_verify. cbv zeta.
  destruct (Z.ltb_spec (Z.of_nat (length sig)) 32) as [Hx|_]; [lia|].
  assert (SL : length (skipn 32 sig) = (length sig - 32)%nat) by apply skipn_length.
  destruct (skipn 32 sig) as [|b0 r] eqn:E; [cbn [length] in SL; lia|].
  assert (EB : nz sig 32 = b0).
  { unfold nz. rewrite <- (firstn_skipn 32 sig), app_nth2 by (rewrite firstn_length; lia). rewrite firstn_length, Nat.min_l by lia.
    rewrite Nat.sub_diag, E. reflexivity. }
  assert (C : ((b0 = 4 \/ b0 = 6 \/ b0 = 7) /\ (length (b0 :: r) < 65)%nat) \/ ((b0 = 2 \/ b0 = 3) /\ (length (b0 :: r) < 33)%nat)).
  { unfold sig_readable in NR. cbv zeta in NR. rewrite EB in NR. rewrite SL. clear - NR L32. lia. }
  replace (Z.of_nat (length sig) - 32) with (Z.of_nat (length (b0 :: r))) by lia.
  rewrite (C59_short_buffer_refuted L9 b0 r C). reflexivity.
Qed.
Example C64_short_example : ~ sig_readable (repeat 0 32 ++ [4]) /\ (32 < length (repeat 0 32 ++ [4]))%nat.
Proof.
  split; [|apply Nat.ltb_lt; reflexivity]. intros [C|[C _]]; [apply Nat.leb_le in C; discriminate C|].
  specialize (C (or_introl eq_refl)). apply Nat.leb_le in C. discriminate C.
Qed.

(** ** C51: signatures verify *)
(** The scalars for which the code's scalar multiplication or addition is wrong are excluded: ks, H1, t2 and
    r - h equal to n - 2, and H1 = ks. *)
Definition C51_scalars (H : hashlib) (Hd : list Z -> list Z) (ks : Z) (id : list Z) (hid : Z) (msg : list Z) (draws : list (list Z)) : Prop :=
  ks <> SM9_n - 2 /\ SM9_H1 H Hd id hid <> SM9_n - 2 /\ SM9_H1 H Hd id hid <> ks /\
  ~ SM9_t2 ks (SM9_H1 H Hd id hid) (SM9_n - 2) /\
  Forall (fun q => SM9_sig_l H Hd SM9_e (E2_mul ks P2) msg (draw9 q) <> SM9_n - 2) draws.
Theorem C51_sign_verify_partial : forall w nn L9 H Hd d id hid msg PC draws ms sk sig, build9 w nn L9 -> hash_ok H Hd ->
  bytes d -> length d = 32%nat -> id9_ok id -> is_byte hid -> msg9_ok msg -> draws_ok draws ->
  C51_scalars H Hd (be_val d) id hid msg draws ->
  pairs_right w nn L9 P1 (E2_mul (be_val d) P2) ->
  (forall S, E1_on S -> pairs_right w nn L9 S (E2_add (E2_mul (SM9_H1 H Hd id hid) P2) (E2_mul (be_val d) P2))) ->
  sm9_set_master L9 (sm9_pairing L9) d = Ok ms ->
  sm9_gen_sign_key L9 H ms id hid = Ok sk ->
  sm9_sign L9 H sk msg PC draws = Ok (Some sig) ->
  sm9_verify L9 H (sm9_pairing L9) (ms_pub ms) sig msg id hid = Ok true.
Proof.
  intros w nn L9 H Hd d id hid msg PC draws ms sk sig B HOK Hb Hl Hi Hh Hm HD (N1 & N2 & N3 & N4 & N5) G1 G2 Em Es Eg.
  destruct (C62_set_master_partial w nn L9 d B Hb Hl) as [R1 R2].
  assert (Hk : 0 < be_val d < SM9_n).
  { destruct (Z_lt_dec 0 (be_val d)) as [A1|A1]; [destruct (Z_lt_dec (be_val d) SM9_n) as [A2|A2]; [exact (conj A1 A2)|]|];
      (rewrite R1 in Em; [discriminate Em|intros [X1 X2]; contradiction]). }
  destruct (R2 Hk N1 G1) as (ms' & Em' & MI). rewrite Em in Em'. injection Em' as <-.
  destruct (C62_gen_sign_key_partial w nn L9 H Hd ms (be_val d) id hid B HOK MI Hk Hi Hh) as [S1 S2].
  destruct (Z.eq_dec ((SM9_H1 H Hd id hid + be_val d) mod SM9_n) 0) as [Z0|NZ]; [rewrite (S1 Z0) in Es; discriminate Es|].
  destruct (C62_t2 _ _ Hk NZ) as (t2 & T2 & _).
  destruct (S2 t2 NZ T2) as (sk' & Es' & SI). { intros E2. apply N4. rewrite <- E2. exact T2. }
  rewrite Es in Es'. injection Es' as <-.
  destruct (priv_is_aff _ _ _ _ _ SI) as (dx & dy & x & y & Ed & Ep & SR).
  destruct MI as [_ PI]. rewrite Ep in PI. apply pub_is_rep in PI. rewrite Ep in G2, N5.
  exact (sign_verify9 w nn L9 (build9_ok _ _ _ B) H Hd HOK (sm9_pairing L9) _ SM9_e (POK9 w nn L9) sk (ms_pub ms) (be_val d) dx dy x y id hid t2 msg PC draws sig
    Hk Ep NZ N3 N2 T2 Ed SR PI Hi Hh Hm HD N5 (fun sx sy On => G2 (Aff sx sy) On) Eg).
Qed.
(** in the x64 build nothing is assumed about the pairing *)
Theorem C51_sign_verify_x64_partial : forall H Hd d id hid msg PC draws ms sk sig, hash_ok H Hd ->
  bytes d -> length d = 32%nat -> id9_ok id -> is_byte hid -> msg9_ok msg -> draws_ok draws ->
  C51_scalars H Hd (be_val d) id hid msg draws ->
  sm9_set_master lib9_x64 (sm9_pairing lib9_x64) d = Ok ms ->
  sm9_gen_sign_key lib9_x64 H ms id hid = Ok sk ->
  sm9_sign lib9_x64 H sk msg PC draws = Ok (Some sig) ->
  sm9_verify lib9_x64 H (sm9_pairing lib9_x64) (ms_pub ms) sig msg id hid = Ok true.
Proof.
  intros H Hd d id hid msg PC draws ms sk sig HOK Hb Hl Hi Hh Hm HD NS.
  pose proof (proj1 (be_val_bound d Hb)) as D0. pose proof (SM9_H_range H Hd 1 (id ++ [hid])) as HR.
  apply (C51_sign_verify_partial 64 4%nat lib9_x64 H Hd d id hid msg PC draws ms sk sig build9_x64 HOK Hb Hl Hi Hh Hm HD NS).
  - apply x64_right; [exact P1_on|]. exact (P2_in_G2 _ D0).
  - intros S OS. apply x64_right; [exact OS|]. apply (G2_add _ _); apply P2_in_G2; [unfold SM9_H1; clear - HR; lia|exact D0].
Qed.
(** a signature with (r - h) mod n = n - 2 is refused, whatever the key *)
Theorem C51_last_scalar_refuted : forall w nn L9 H Hd sk pk ds Ppub id hid msg PC rnd draws, build9 w nn L9 -> hash_ok H Hd ->
  priv_is w nn sk ds Ppub -> msg9_ok msg -> draws_ok (rnd :: draws) ->
  SM9_sig_l H Hd SM9_e Ppub msg (draw9 rnd) = SM9_n - 2 ->
  exists sig, sm9_sign L9 H sk msg PC (rnd :: draws) = Ok (Some sig) /\
    sm9_verify L9 H (sm9_pairing L9) pk sig msg id hid = Ok false.
Proof.
  intros w nn L9 H Hd sk pk ds Ppub id hid msg PC rnd draws B HOK SK Hm HD EL. apply build9_ok in B.
  destruct (priv_is_aff _ _ _ _ _ SK) as (dx & dy & x & y & Ed & Ep & SR). rewrite Ep in EL.
  exact (sign_last_rejected w nn L9 B H Hd HOK (sm9_pairing L9) SM9_e sk pk dx dy x y id hid msg PC rnd draws SR Hm HD EL).
Qed.
(** A complete run, with a hash whose digests are 40 zero bytes: H1 = H2 = 1, ks = (n - 3)/2, t2 = 3 *)
Definition zero_hash : hashlib :=
  MkHash 40 (fun chunks last => if 8 * Z.of_nat (length (concat chunks ++ last)) <? 2 ^ 64 then Ok (repeat 0 40) else Throw).
Definition zero_digest (m : list Z) : list Z := repeat 0 40.
Lemma zero_hash_ok : hash_ok zero_hash zero_digest.
Proof.
  split.
  - apply Nat.ltb_lt. reflexivity.
  - reflexivity.
  - intros m _. reflexivity.
  - intros m _. apply Forall_forall. intros z Hz. apply repeat_spec in Hz. subst z. unfold is_byte. lia.
  - intros chunks last _. reflexivity.
Qed.
Lemma zero_H tag z : SM9_H zero_hash zero_digest tag z = 1.
Proof. unfold SM9_H, SM9_Ha. change ((40 + hl_ds zero_hash - 1) / hl_ds zero_hash)%nat with 1%nat. cbn [seq map concat]. unfold zero_digest. vm_compute. reflexivity. Qed.
Definition ks0 : Z := (SM9_n - 3) / 2.
Lemma ks0_facts : 0 < ks0 < SM9_n /\ ks0 <> SM9_n - 2 /\ 1 <> SM9_n - 2 /\ 1 <> ks0 /\ (1 + ks0) mod SM9_n <> 0 /\ SM9_t2 ks0 1 3 /\ 3 <> SM9_n - 2.
Proof. repeat split; vm_compute; congruence. Qed.
Lemma t2_0 : ~ SM9_t2 ks0 1 (SM9_n - 2).
Proof.
  intros T. destruct ks0_facts as (K1 & _ & _ & _ & K5 & K6 & K7). destruct (C62_t2 ks0 1 K1 K5) as (t & _ & U).
  apply K7. rewrite <- (U _ K6). exact (U _ T).
Qed.
Lemma run0 w nn L9 : build9 w nn L9 -> pairs_right w nn L9 P1 (E2_mul ks0 P2) -> forall id hid, id9_ok id -> is_byte hid ->
  exists ms sk, sm9_set_master L9 (sm9_pairing L9) (be_bytes 32 ks0) = Ok ms /\
    sm9_gen_sign_key L9 zero_hash ms id hid = Ok sk /\ priv_is w nn sk (E1_mul 3 P1) (E2_mul ks0 P2).
Proof.
  intros B G id hid Hi Hh. destruct ks0_facts as (K1 & K2 & K3 & K4 & K5 & K6 & K7).
  destruct (C62_set_master_partial w nn L9 (be_bytes 32 ks0) B (be_bytes_bytes _ _) (be_bytes_length _ _)) as [_ R].
  assert (V : be_val (be_bytes 32 ks0) = ks0) by (vm_compute; reflexivity). rewrite V in R.
  destruct (R K1 K2 G) as (ms & Em & MI). exists ms.
  destruct (C62_gen_sign_key_partial w nn L9 zero_hash zero_digest ms ks0 id hid B zero_hash_ok MI K1 Hi Hh) as [_ S].
  unfold SM9_H1 in S. rewrite zero_H in S. destruct (S 3 K5 K6 K7) as (sk & Es & SI). exists sk. split; [exact Em|]. split; [exact Es|exact SI].
Qed.
Lemma id0_ok : id9_ok [65; 108; 105; 99; 101]. Proof. split; [repeat constructor; unfold is_byte; lia|reflexivity]. Qed.
Lemma msg0_ok : msg9_ok [1; 2; 3]. Proof. split; [repeat constructor; unfold is_byte; lia|reflexivity]. Qed.
Lemma l0 Pp msg r : 1 < r <= SM9_n - 1 -> SM9_sig_l zero_hash zero_digest SM9_e Pp msg r = r - 1.
Proof. intros Hr. unfold SM9_sig_l, SM9_sig_h, SM9_H2. rewrite zero_H. apply Z.mod_small. clear - Hr. lia. Qed.
(** the hypotheses of C51 are met, the signature is made, and it verifies *)
Example C51_example : let d := be_bytes 32 ks0 in let id := [65; 108; 105; 99; 101] in let msg := [1; 2; 3] in
  let draws := [be_bytes 32 4] in
  C51_scalars zero_hash zero_digest (be_val d) id 1 msg draws /\
  exists ms sk sig, sm9_set_master lib9_x64 (sm9_pairing lib9_x64) d = Ok ms /\
    sm9_gen_sign_key lib9_x64 zero_hash ms id 1 = Ok sk /\
    sm9_sign lib9_x64 zero_hash sk msg COMPRESSED draws = Ok (Some sig) /\
    sm9_verify lib9_x64 zero_hash (sm9_pairing lib9_x64) (ms_pub ms) sig msg id 1 = Ok true.
Proof.
  intros d id msg draws. destruct ks0_facts as (K1 & K2 & K3 & K4 & K5 & K6 & K7).
  assert (V : be_val d = ks0) by (vm_compute; reflexivity).
  assert (D5 : draw9 (be_bytes 32 4) = 5) by (vm_compute; reflexivity).
  assert (R5 : 1 < 5 <= SM9_n - 1) by (split; [reflexivity|vm_compute; discriminate]).
  assert (L5 : forall Pp, SM9_sig_l zero_hash zero_digest SM9_e Pp msg (draw9 (be_bytes 32 4)) = 4). { intros Pp. rewrite D5. exact (l0 Pp msg 5 R5). }
  assert (HC : C51_scalars zero_hash zero_digest (be_val d) id 1 msg draws).
  { rewrite V. unfold C51_scalars, SM9_H1. rewrite zero_H. split; [exact K2|]. split; [exact K3|]. split; [exact K4|]. split; [exact t2_0|].
    constructor; [|constructor]. rewrite L5. vm_compute. discriminate. }
  split; [exact HC|].
  assert (HD : draws_ok draws). { constructor; [|constructor]. split; [apply be_bytes_bytes|apply be_bytes_length]. }
  assert (H1 : is_byte 1) by (unfold is_byte; lia).
  destruct (run0 64 4%nat lib9_x64 build9_x64 (x64_right _ _ P1_on (P2_in_G2 ks0 (Z.lt_le_incl _ _ (proj1 K1)))) id 1 id0_ok H1) as (ms & sk & Em & Es & SI).
  exists ms, sk. destruct (C63_sign_partial 64 4%nat lib9_x64 zero_hash zero_digest sk _ _ msg COMPRESSED draws build9_x64 zero_hash_ok SI msg0_ok HD)
    as [[F _]|(pre & rnd & post & sx & sy & _ & _ & _ & _ & Eg)].
  { exfalso. apply Forall_inv in F. rewrite L5 in F. discriminate F. }
  eexists. split; [exact Em|]. split; [exact Es|]. split; [exact Eg|].
  exact (C51_sign_verify_x64_partial zero_hash zero_digest d id 1 msg COMPRESSED draws ms sk _ zero_hash_ok (be_bytes_bytes _ _) (be_bytes_length _ _)
    id0_ok H1 msg0_ok HD HC Em Es Eg).
Qed.
(** with the draw r = n - 1 the same keys give a signature that is refused *)
Theorem C51_sign_verify_refuted : exists H Hd d id hid msg PC draws ms sk sig, hash_ok H Hd /\ bytes d /\ length d = 32%nat /\
  0 < be_val d < SM9_n /\ id9_ok id /\ is_byte hid /\ msg9_ok msg /\ draws_ok draws /\
  sm9_set_master lib9_x64 (sm9_pairing lib9_x64) d = Ok ms /\
  sm9_gen_sign_key lib9_x64 H ms id hid = Ok sk /\
  sm9_sign lib9_x64 H sk msg PC draws = Ok (Some sig) /\
  sm9_verify lib9_x64 H (sm9_pairing lib9_x64) (ms_pub ms) sig msg id hid = Ok false.
Proof.
  destruct ks0_facts as (K1 & _). assert (V : be_val (be_bytes 32 ks0) = ks0) by (vm_compute; reflexivity).
  assert (D5 : draw9 (be_bytes 32 (SM9_n - 2)) = SM9_n - 1) by (vm_compute; reflexivity).
  assert (HD : draws_ok [be_bytes 32 (SM9_n - 2)]). { constructor; [|constructor]. split; [apply be_bytes_bytes|apply be_bytes_length]. }
  assert (H1 : is_byte 1) by (unfold is_byte; lia).
  destruct (run0 64 4%nat lib9_x64 build9_x64 (x64_right _ _ P1_on (P2_in_G2 ks0 (Z.lt_le_incl _ _ (proj1 K1)))) _ 1 id0_ok H1) as (ms & sk & Em & Es & SI).
  destruct (C51_last_scalar_refuted 64 4%nat lib9_x64 zero_hash zero_digest sk (ms_pub ms) _ _ [65; 108; 105; 99; 101] 1 [1; 2; 3] COMPRESSED
    (be_bytes 32 (SM9_n - 2)) [] build9_x64 zero_hash_ok SI msg0_ok HD) as (sig & Eg & Ev).
  { rewrite D5, l0; [vm_compute; reflexivity|]. split; [vm_compute; reflexivity|apply Z.le_refl]. }
  exists zero_hash, zero_digest, (be_bytes 32 ks0), [65; 108; 105; 99; 101], 1, [1; 2; 3], COMPRESSED, [be_bytes 32 (SM9_n - 2)], ms, sk, sig.
  split; [exact zero_hash_ok|]. split; [apply be_bytes_bytes|]. split; [apply be_bytes_length|]. split; [rewrite V; exact K1|].
  split; [exact id0_ok|]. split; [exact H1|]. split; [exact msg0_ok|]. split; [exact HD|]. split; [exact Em|]. split; [exact Es|]. split; [exact Eg|exact Ev].
Qed.

(** ** C65: exported keys can be read back *)
Theorem C65_public_key : forall w nn L9 pk Ppub, build9 w nn L9 -> pub_is w nn pk Ppub -> pairs_right w nn L9 P1 Ppub ->
  exists x y pk', Ppub = Aff x y /\ sm9_get_pub L9 pk = (F2_bytes x, F2_bytes y) /\
    sm9_set_pub L9 (sm9_pairing L9) (F2_bytes x) (F2_bytes y) = Ok pk' /\ pub_is w nn pk' Ppub.
Proof.
  intros w nn L9 pk Ppub B PK G. apply build9_ok in B. destruct (pub_is_aff _ _ _ _ PK) as (x & y & Ep & PR). rewrite Ep in *.
  pose proof (get_pub_spec w nn L9 B SM9_e pk x y PR) as E.
  destruct (pub_roundtrip w nn L9 B (sm9_pairing L9) _ SM9_e (POK9 w nn L9) pk x y PR G) as (pk' & E' & PR'). rewrite E in E'.
  exists x, y, pk'. split; [reflexivity|]. split; [exact E|]. split; [exact E'|]. now apply pub_is_rep.
Qed.
Theorem C65_private_key : forall w nn L9 sk ds Ppub, build9 w nn L9 -> priv_is w nn sk ds Ppub -> pairs_right w nn L9 P1 Ppub ->
  exists dx dy x y sk', ds = Aff dx dy /\ Ppub = Aff x y /\
    sm9_get_priv L9 sk = (F1_bytes dx, F1_bytes dy, (F2_bytes x, F2_bytes y)) /\
    sm9_set_priv L9 (sm9_pairing L9) (F1_bytes dx) (F1_bytes dy) (F2_bytes x) (F2_bytes y) = Ok sk' /\ priv_is w nn sk' ds Ppub.
Proof.
  intros w nn L9 sk ds Ppub B SK G. apply build9_ok in B. destruct (priv_is_aff _ _ _ _ _ SK) as (dx & dy & x & y & Ed & Ep & SR). rewrite Ed, Ep in *.
  pose proof (get_priv_spec w nn L9 B SM9_e sk dx dy x y SR) as E.
  pose proof (priv_roundtrip w nn L9 B (sm9_pairing L9) _ SM9_e (POK9 w nn L9) sk dx dy x y SR G) as R. rewrite E in R. cbv zeta iota beta in R.
  destruct R as (sk' & E' & SR'). exists dx, dy, x, y, sk'. split; [reflexivity|]. split; [reflexivity|]. split; [exact E|]. split; [exact E'|]. now apply priv_is_rep.
Qed.
(** what is read in is on the curves *)
Theorem C65_reject : forall w nn L9 bx by_, build9 w nn L9 -> bytes bx -> length bx = 64%nat -> bytes by_ -> length by_ = 64%nat ->
  ~ E2_on (Aff (num (be_val (skipn 32 bx)), num (be_val (firstn 32 bx))) (num (be_val (skipn 32 by_)), num (be_val (firstn 32 by_)))) ->
  sm9_set_pub L9 (sm9_pairing L9) bx by_ = Throw.
Proof.
  intros w nn L9 bx by_ B Hb Hl Hb' Hl'. apply build9_ok in B.
  exact (proj1 (set_pub_spec w nn L9 B (sm9_pairing L9) _ SM9_e (POK9 w nn L9) bx by_ Hb Hl Hb' Hl')).
Qed.
(** but not in G2: the twist has a point of order 13, and it is accepted as a public key *)
Theorem C65_subgroup_refuted : exists x y, E2_on (Aff x y) /\ E2_mul SM9_n (Aff x y) <> Inf /\
  forall w nn L9 pr, build9 w nn L9 -> (forall Q, exists g, pr (sm9_P1 L9) Q = Ok g) ->
    exists pk, sm9_set_pub L9 pr (F2_bytes x) (F2_bytes y) = Ok pk /\ holds_a (holds2 w nn) (pub9_P pk) x y.
Proof.
  exists (ProofZops2.em2 T13x), (ProofZops2.em2 T13y). split; [exact T13_on|]. split; [exact T13_not_n|].
  intros w nn L9 pr B HP. destruct (set_pub_accepts w nn L9 (build9_ok _ _ _ B) pr _ _ T13_on HP) as (pk & E & A).
  exists pk. split; [exact E|]. apply holds_a_R. exact A.
Qed.

Print Assumptions C65_subgroup_refuted.
Print Assumptions C51_sign_verify_partial.
Print Assumptions C51_sign_verify_x64_partial.
Print Assumptions C51_last_scalar_refuted.
Print Assumptions C51_sign_verify_refuted.
Print Assumptions C61_bilinear.
Print Assumptions C61_additive_left.
Print Assumptions C61_additive_right.
Print Assumptions C61_order.
Print Assumptions C61_library_x64.
Print Assumptions C62_set_master_partial.
Print Assumptions C62_gen_master_partial.
Print Assumptions C62_gen_sign_key_partial.
Print Assumptions C62_t2.
Print Assumptions C63_sign_partial.
Print Assumptions C64_verify_partial.
Print Assumptions C64_verify_x64_partial.
Print Assumptions C64_short_signature_refuted.
Print Assumptions C65_public_key.
Print Assumptions C65_private_key.
Print Assumptions C65_reject.

(** The assumptions of the remaining theorems, printed together. *)
Definition other_theorems_Bilin :=
  (POK9, pub_is_rep, pub_is_aff, priv_is_rep, priv_is_aff, master_is_rep, x64_right, P2_in_G2,
   @C62_pairs_right_x64, zero_hash_ok, zero_H, ks0_facts, t2_0, run0, id0_ok, msg0_ok, l0).
Print Assumptions other_theorems_Bilin.

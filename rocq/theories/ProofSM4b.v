(** SM4 multi-block functions: the scalar x4 path and the AVX2 x8 / x16 paths equal the single-block
    function on every block. *)
From Verif Require Import Base BaseFacts ModelEndian ProofEndian ModelSM3 SpecSM3 ProofWord32 ProofSM3
  TablesSM4 SpecSM4 ModelSM4 ProofSM4.

(** ** x4 *)
Lemma load_quad_firstn b : load_quad b = load_quad (firstn 16 b).
Proof. do 16 (destruct b as [|? b]; [reflexivity|]). reflexivity. Qed.

Lemma x4_body_map rk qs i : x4_body rk qs i = map (fun q => four_rounds round_l18 rk q i) qs.
Proof.
  unfold x4_body. rewrite !map_map. apply map_ext. intros [[[x0 x1] x2] x3]. reflexivity.
Qed.
Lemma x4_fold rk l : forall qs,
  fold_left (x4_body rk) l qs = map (fun q => fold_left (four_rounds round_l18 rk) l q) qs.
Proof.
  induction l as [|i l IH]; intros qs; cbn [fold_left]; [symmetry; apply map_id|].
  rewrite x4_body_map, IH, map_map. reflexivity.
Qed.
Lemma blocks_x4 rk b : compute_blocks_x4 rk b = concat (map (compute_block_l18 rk) (cut 16 4 b)).
Proof.
  unfold compute_blocks_x4. rewrite x4_fold. cbn [cut map concat]. rewrite !skipn_skipn'. cbn [Nat.add].
  rewrite (load_quad_firstn b), (load_quad_firstn (skipn 16 b)), (load_quad_firstn (skipn 32 b)),
    (load_quad_firstn (skipn 48 b)).
  unfold compute_block_l18, sm4_compute_block. reflexivity.
Qed.

(** ** Loops over batches *)
Section WHILE.
  Variable m : nat.
  Hypothesis mpos : (0 < m)%nat.
  Variable f g : list Z -> list Z.
  Hypothesis fg : forall b, bytes b -> length b = (16 * m)%nat -> f b = concat (map g (cut 16 m b)).
  Lemma while_ge_spec fuel : forall b n, bytes b -> (16 * n <= length b)%nat -> (n <= fuel)%nat ->
    exists q r, n = (q + r)%nat /\ (r < m)%nat /\
      while_ge fuel m f b n = (concat (map g (cut 16 q b)), skipn (16 * q) b, r).
  Proof.
    induction fuel as [|fu IH]; intros b n Hb Hl Hn.
    - exists 0%nat, 0%nat. assert (n = 0%nat) by lia. subst. auto.
    - cbn [while_ge]. destruct (Nat.leb_spec m n).
      + destruct (IH (skipn (16 * m) b) (n - m)%nat) as (q & r & En & Hr & E).
        * apply bytes_skipn, Hb.
        * rewrite skipn_length. lia.
        * lia.
        * exists (m + q)%nat, r. split; [lia|split; [exact Hr|]]. rewrite E.
          rewrite fg by (auto using bytes_firstn; rewrite firstn_length; lia).
          rewrite cut_app, map_app, concat_app, (Nat.mul_comm m 16).
          rewrite skipn_skipn', Nat.mul_add_distr_l.
          rewrite <- (cut_firstn 16 m (firstn (16 * m) b) (skipn (16 * m) b)) by (rewrite firstn_length; lia).
          rewrite firstn_skipn. reflexivity.
      + exists 0%nat, n. auto.
  Qed.
End WHILE.

Lemma fuel_ok n : (n <= n)%nat. Proof. lia. Qed.

Lemma cut_concat_app (g : list Z -> list Z) q r b :
  concat (map g (cut 16 (q + r) b)) = concat (map g (cut 16 q b)) ++ concat (map g (cut 16 r (skipn (16 * q) b))).
Proof. rewrite cut_app, map_app, concat_app, (Nat.mul_comm q 16). reflexivity. Qed.

Lemma one_block (g : list Z -> list Z) b : length b = 16%nat -> g b = concat (map g (cut 16 1 b)).
Proof. intros H. cbn [cut map concat]. rewrite firstn_all2 by lia. symmetry. apply app_nil_r. Qed.

Lemma blocks_common_spec rk b n : bytes b -> length b = (n * 16)%nat ->
  sm4_blocks_common rk b n = concat (map (compute_block_common rk) (cut 16 n b)).
Proof.
  intros Hb Hl. unfold sm4_blocks_common.
  destruct (while_ge_spec 1 ltac:(lia) (compute_block_common rk) (compute_block_common rk)
    (fun b _ H => one_block _ b H) n b n Hb ltac:(lia) (fuel_ok n)) as (q & r & E & Hr & ->).
  assert (r = 0%nat) by lia. subst r. rewrite Nat.add_0_r in E. subst q. reflexivity.
Qed.
Lemma blocks_l18_spec rk b n : bytes b -> length b = (n * 16)%nat ->
  sm4_blocks_l18 rk b n = concat (map (compute_block_l18 rk) (cut 16 n b)).
Proof.
  intros Hb Hl. unfold sm4_blocks_l18.
  destruct (while_ge_spec 4 ltac:(lia) (compute_blocks_x4 rk) (compute_block_l18 rk)
    (fun b _ _ => blocks_x4 rk b) n b n Hb ltac:(lia) (fuel_ok n)) as (q & r & E & Hr & ->).
  destruct (while_ge_spec 1 ltac:(lia) (compute_block_l18 rk) (compute_block_l18 rk)
    (fun b _ H => one_block _ b H) r (skipn (16 * q) b) r (bytes_skipn _ _ Hb)
    ltac:(rewrite skipn_length; lia) (fuel_ok r)) as (q1 & r1 & E1 & Hr1 & ->).
  assert (r1 = 0%nat) by lia. subst r1. rewrite Nat.add_0_r in E1. subst q1 n.
  rewrite cut_concat_app. reflexivity.
Qed.

(** ** Vectors *)
Lemma lxor_mod256 a b : (Z.lxor a b) mod 256 = Z.lxor (a mod 256) (b mod 256).
Proof.
  change 256 with (2 ^ 8). apply Z.bits_inj'. intros i Hi.
  rewrite Z.lxor_spec, !testbit_mod_pow2, Z.lxor_spec by lia. destruct (i <? 8); reflexivity.
Qed.
Lemma lxor_div256 a b : Z.lxor a b / 256 = Z.lxor (a / 256) (b / 256).
Proof. change 256 with (2 ^ 8). rewrite <- !Z.shiftr_div_pow2 by lia. apply Z.shiftr_lxor. Qed.
Lemma land_mod256 a b : (Z.land a b) mod 256 = Z.land (a mod 256) (b mod 256).
Proof.
  change 256 with (2 ^ 8). apply Z.bits_inj'. intros i Hi.
  rewrite Z.land_spec, !testbit_mod_pow2, Z.land_spec by lia. destruct (i <? 8); reflexivity.
Qed.
Lemma land_div256 a b : Z.land a b / 256 = Z.land (a / 256) (b / 256).
Proof. change 256 with (2 ^ 8). rewrite <- !Z.shiftr_div_pow2 by lia. apply Z.shiftr_land. Qed.

Lemma xorl_le_bytes n : forall a b, xorl (le_bytes n a) (le_bytes n b) = le_bytes n (Z.lxor a b).
Proof.
  induction n as [|n IH]; intros a b; [reflexivity|]. cbn [le_bytes xorl].
  rewrite IH, <- lxor_mod256, <- lxor_div256. reflexivity.
Qed.
Lemma andl_app a1 a2 b1 b2 : length a1 = length b1 -> andl (a1 ++ a2) (b1 ++ b2) = andl a1 b1 ++ andl a2 b2.
Proof. revert b1. induction a1; intros [|? b1]; cbn; intros H; try lia; auto. f_equal. auto. Qed.
Lemma andl_le_bytes n : forall a b, andl (le_bytes n a) (le_bytes n b) = le_bytes n (Z.land a b).
Proof.
  induction n as [|n IH]; intros a b; [reflexivity|]. cbn [le_bytes andl].
  rewrite IH, <- land_mod256, <- land_div256. reflexivity.
Qed.

Section LANES.
  Variable A : Type.
  Variable qs : list A.
  Definition vmap (f : A -> Z) : list Z := of_dwords (map f qs).

  Lemma vmap_xor f g : xorl (vmap f) (vmap g) = vmap (fun q => Z.lxor (f q) (g q)).
  Proof.
    unfold vmap, of_dwords. induction qs as [|q r IH]; [reflexivity|]. cbn [map concat].
    rewrite xorl_app by (rewrite !le_bytes_length; reflexivity). rewrite xorl_le_bytes, IH. reflexivity.
  Qed.
  Lemma vmap_and f g : andl (vmap f) (vmap g) = vmap (fun q => Z.land (f q) (g q)).
  Proof.
    unfold vmap, of_dwords. induction qs as [|q r IH]; [reflexivity|]. cbn [map concat].
    rewrite andl_app by (rewrite !le_bytes_length; reflexivity). rewrite andl_le_bytes, IH. reflexivity.
  Qed.
  Lemma vmap_ext f g : (forall q, In q qs -> f q = g q) -> vmap f = vmap g.
  Proof. intros H. unfold vmap. f_equal. apply map_ext_in, H. Qed.

  Hypothesis L8 : length qs = 8%nat.
  Lemma set1_vmap x : set1_epi32 x = vmap (fun _ => x).
  Proof.
    unfold set1_epi32, vmap. f_equal.
    rewrite <- L8. clear L8. induction qs as [|q r IH]; [reflexivity|]. cbn [length repeat map]. f_equal. apply IH.
  Qed.
  Lemma dwords_vmap f : (forall q, In q qs -> is_u32 (f q)) -> dwords (vmap f) = map f qs.
  Proof.
    intros H. unfold dwords, vmap, of_dwords. rewrite <- L8. clear L8.
    induction qs as [|q r IH]; [reflexivity|]. cbn [map concat length cut].
    rewrite firstn_exact, skipn_exact by apply le_bytes_length. cbn [map]. f_equal.
    - rewrite le_val_le_bytes. apply Z.mod_small. apply H. left. reflexivity.
    - specialize (IH (fun q Hq => H q (or_intror Hq))). apply IH.
  Qed.
  Lemma srli_vmap f n : (forall q, In q qs -> is_u32 (f q)) ->
    srli_epi32 (vmap f) n = vmap (fun q => Z.shiftr (f q) n).
  Proof. intros H. unfold srli_epi32. rewrite dwords_vmap by assumption. rewrite map_map. reflexivity. Qed.
  Lemma gather_vmap t f : (forall q, In q qs -> is_u32 (f q)) ->
    gather t (vmap f) = vmap (fun q => nz t (Z.to_nat (f q))).
  Proof. intros H. unfold gather. rewrite dwords_vmap by assumption. rewrite map_map. reflexivity. Qed.
End LANES.

Definition p0 (q : quad) : Z := fst (fst (fst q)).
Definition p1 (q : quad) : Z := snd (fst (fst q)).
Definition p2 (q : quad) : Z := snd (fst q).
Definition p3 (q : quad) : Z := snd q.
Definition vec (qs : list quad) : vquad :=
  (vmap quad qs p0, vmap quad qs p1, vmap quad qs p2, vmap quad qs p3).

Lemma vmap_map qs f g : vmap quad (map g qs) f = vmap quad qs (fun q => f (g q)).
Proof. unfold vmap. rewrite map_map. reflexivity. Qed.

Lemma shr24 x : is_u32 x -> Z.shiftr x 24 = byte_at x 24.
Proof.
  intros H. unfold byte_at. rewrite land_255, Z.shiftr_div_pow2 by lia. symmetry. apply Z.mod_small.
  unfold is_u32 in H. lia.
Qed.

Lemma avx_round_vec qs k : length qs = 8%nat -> Forall uq qs -> is_u32 k ->
  avx_round (vec qs) k = vec (map (fun q => gstep L_enc q k) qs).
Proof.
  intros L8 U Hk. unfold avx_round, vec. rewrite (set1_vmap _ qs L8 255), (set1_vmap _ qs L8 k).
  rewrite !vmap_map, !vmap_xor.
  set (t := fun q : quad => Z.lxor (Z.lxor (Z.lxor k (p1 q)) (p2 q)) (p3 q)).
  assert (Ut : forall q, In q qs -> is_u32 (t q)).
  { intros q Hq. rewrite Forall_forall in U. specialize (U q Hq). destruct q as [[[x0 x1] x2] x3].
    destruct U as (? & ? & ? & ?). unfold t, p1, p2, p3; cbn [fst snd]. auto using lxor_u32. }
  rewrite !srli_vmap by assumption. rewrite !vmap_and.
  assert (B : forall x, is_u32 (Z.land x 255)).
  { intros x. rewrite land_255. pose proof (Z.mod_pos_bound x 256 ltac:(lia)). unfold is_u32. lia. }
  rewrite !gather_vmap by (first [exact L8 | intros; apply B | intros; apply shiftr_u32; [lia|auto]]). rewrite !vmap_xor.
  assert (E4 : forall (a b c d a' b' c' d' : list Z), a = a' -> b = b' -> c = c' -> d = d' -> (a, b, c, d) = (a', b', c', d'))
    by (intros; subst; reflexivity).
  apply E4; apply vmap_ext; intros [[[x0 x1] x2] x3] Hq; try reflexivity.
  rewrite gstep_F. unfold p0, p3; cbn [fst snd]. rewrite <- (round_l18_F x0 x1 x2 x3 k).
  unfold round_l18, look.
  assert (Et : t (x0, x1, x2, x3) = Z.lxor (Z.lxor (Z.lxor x1 x2) x3) k).
  { unfold t, p1, p2, p3; cbn [fst snd]. rewrite Z.lxor_assoc, (Z.lxor_comm _ (Z.lxor x2 x3)), <- (Z.lxor_assoc _ k x1).
    rewrite (Z.lxor_comm (Z.lxor (Z.lxor x2 x3) k) x1), <- !Z.lxor_assoc. reflexivity. }
  specialize (Ut _ Hq). rewrite Et in *. rewrite (shr24 _ Ut).
  fold (byte_at (Z.lxor (Z.lxor (Z.lxor x1 x2) x3) k) 8). fold (byte_at (Z.lxor (Z.lxor (Z.lxor x1 x2) x3) k) 16).
  rewrite <- byte_at_0.
  generalize (nz T3 (Z.to_nat (byte_at (Z.lxor (Z.lxor (Z.lxor x1 x2) x3) k) 0))),
    (nz T2 (Z.to_nat (byte_at (Z.lxor (Z.lxor (Z.lxor x1 x2) x3) k) 8))),
    (nz T1 (Z.to_nat (byte_at (Z.lxor (Z.lxor (Z.lxor x1 x2) x3) k) 16))),
    (nz T0 (Z.to_nat (byte_at (Z.lxor (Z.lxor (Z.lxor x1 x2) x3) k) 24))). intros a b c d.
  rewrite (Z.lxor_comm (Z.lxor x0 (Z.lxor a b)) _), (Z.lxor_comm c d), (Z.lxor_comm a b).
  rewrite (Z.lxor_comm (Z.lxor d c)), !Z.lxor_assoc. f_equal.
  rewrite (Z.lxor_comm b), (Z.lxor_comm a), !Z.lxor_assoc. f_equal. f_equal. apply Z.lxor_comm.
Qed.

Lemma avx_rounds_vec ks : forall qs, length qs = 8%nat -> Forall uq qs -> Forall is_u32 ks ->
  fold_left avx_round ks (vec qs) = vec (map (fun q => fold_left (gstep L_enc) ks q) qs).
Proof.
  induction ks as [|k ks IH]; intros qs L U Hk; cbn [fold_left]; [rewrite map_id; reflexivity|].
  inversion_clear Hk. rewrite avx_round_vec by assumption. rewrite IH.
  - rewrite map_map. reflexivity.
  - rewrite map_length. exact L.
  - apply Forall_map. apply (Forall_impl _ (fun q H => gstep_uq q k H) U).
  - assumption.
Qed.

(** *** Transposition on load and store *)
Lemma le_load4 a b c d : bytes [a; b; c; d] -> le_bytes 4 (load32_be [a; b; c; d]) = [d; c; b; a].
Proof.
  intros H. rewrite load32_be_val by (auto). rewrite <- le_val_rev.
  change 4%nat with (length (rev [a; b; c; d])). rewrite le_bytes_le_val; [reflexivity|].
  apply Forall_rev. exact H.
Qed.

Definition lane_order (b : list Z) : list quad :=
  map (fun j => load_quad (slice b (16 * j) 16)) [0; 2; 4; 6; 1; 3; 5; 7]%nat.


Lemma load_quad16 a0 a1 a2 a3 a4 a5 a6 a7 a8 a9 a10 a11 a12 a13 a14 a15 :
  load_quad [a0; a1; a2; a3; a4; a5; a6; a7; a8; a9; a10; a11; a12; a13; a14; a15] =
  (load32_be [a0; a1; a2; a3], load32_be [a4; a5; a6; a7], load32_be [a8; a9; a10; a11],
   load32_be [a12; a13; a14; a15]).
Proof. reflexivity. Qed.

Lemma slice_cons (x : Z) l o n : slice (x :: l) (S o) n = slice l o n.
Proof. reflexivity. Qed.

Lemma avx_load_vec b : bytes b -> length b = 128%nat -> avx_load b = vec (lane_order b).
Proof.
  intros Hb Hl. pose proof (cut_bytes 4 32 b Hb) as HB. clear Hb.
  do 128 (destruct b as [|? b]; [discriminate Hl|]). destruct b; [|discriminate Hl]. clear Hl.
  match goal with |- avx_load ?l = _ => let r := eval vm_compute in (avx_load l) in
    change (avx_load l) with r end.
  unfold lane_order, slice. cbn [map Nat.mul Nat.add skipn firstn]. rewrite !load_quad16.
  unfold vec, vmap, of_dwords, p0, p1, p2, p3. cbn [map fst snd].
  cbn [cut firstn skipn] in HB.
  repeat (apply Forall_cons_iff in HB; let H := fresh in destruct HB as [H HB]; rewrite (le_load4 _ _ _ _ H); clear H).
  reflexivity.
Qed.

Lemma list4 (l : list Z) : length l = 4%nat -> exists a b c d, l = [a; b; c; d].
Proof.
  intros H. do 4 (destruct l as [|? l]; [discriminate|]). destruct l; [|discriminate]. eauto.
Qed.

(** Output blocks in memory order from the lanes. *)
Lemma avx_store_vec q0 q1 q2 q3 q4 q5 q6 q7 :
  avx_store (vec [q0; q2; q4; q6; q1; q3; q5; q7]) =
  concat (map store_quad_rev [q0; q1; q2; q3; q4; q5; q6; q7]).
Proof.
  destruct q0 as [[[x00 x01] x02] x03], q1 as [[[x10 x11] x12] x13], q2 as [[[x20 x21] x22] x23],
    q3 as [[[x30 x31] x32] x33], q4 as [[[x40 x41] x42] x43], q5 as [[[x50 x51] x52] x53],
    q6 as [[[x60 x61] x62] x63], q7 as [[[x70 x71] x72] x73].
  cbn [map store_quad_rev]. rewrite !store32_be_eq. unfold be_bytes.
  unfold vec, vmap, of_dwords, p0, p1, p2, p3. cbn [map fst snd].
  repeat match goal with |- context [le_bytes 4 ?x] =>
    let H := fresh in destruct (list4 (le_bytes 4 x) (le_bytes_length 4 x)) as (? & ? & ? & ? & H);
    rewrite H; clear H end.
  vm_compute. reflexivity.
Qed.

Lemma cut8_slices (b : list Z) : cut 16 8 b = map (fun j => slice b (16 * j) 16) (seq 0 8).
Proof. unfold slice. cbn [cut seq map Nat.mul Nat.add]. rewrite !skipn_skipn'. reflexivity. Qed.

Lemma compute_l18_gstep rk b : compute_block_l18 rk b =
  store_quad_rev (fold_left (gstep L_enc) (map (nz rk) (seq 0 32)) (load_quad b)).
Proof. unfold compute_block_l18, sm4_compute_block. rewrite (all_rounds _ round_l18_F). reflexivity. Qed.

Lemma avx_x8 rk b : Forall is_u32 (map (nz rk) (seq 0 32)) -> bytes b -> length b = 128%nat ->
  avx_store (fold_left avx_round (map (nz rk) (seq 0 32)) (avx_load b)) =
  concat (map (compute_block_l18 rk) (cut 16 8 b)).
Proof.
  intros Hk Hb Hl. rewrite avx_load_vec by assumption.
  rewrite avx_rounds_vec; [| reflexivity | | assumption].
  - rewrite cut8_slices. rewrite (map_ext _ _ (compute_l18_gstep rk)).
    generalize (map (nz rk) (seq 0 32)). intros ks.
    unfold lane_order. cbn [map seq]. rewrite avx_store_vec. reflexivity.
  - unfold lane_order. rewrite Forall_map. apply Forall_forall. intros j Hj.
    assert (j < 8)%nat by (cbn in Hj; intuition lia).
    assert (L : length (slice b (16 * j) 16) = 16%nat) by (apply slice_length; lia).
    rewrite load_quad_of by (auto using bytes_slice). apply quad_of_uq; auto using bytes_slice.
Qed.
Lemma blocks_x8 rk b : Forall is_u32 (map (nz rk) (seq 0 32)) -> bytes b -> length b = (16 * 8)%nat ->
  avx2_compute_blocks_x8 rk b = concat (map (compute_block_l18 rk) (cut 16 8 b)).
Proof. intros. apply avx_x8; assumption. Qed.

Lemma fold_pair {A B C} (f : A -> C -> A) (g : B -> C -> B) l : forall a b,
  fold_left (fun xy r => (f (fst xy) r, g (snd xy) r)) l (a, b) = (fold_left f l a, fold_left g l b).
Proof. induction l; intros; cbn [fold_left fst snd]; auto. Qed.

Lemma blocks_x16 rk b : Forall is_u32 (map (nz rk) (seq 0 32)) -> bytes b -> length b = (16 * 16)%nat ->
  avx2_compute_blocks_x16 rk b = concat (map (compute_block_l18 rk) (cut 16 16 b)).
Proof.
  intros Hk Hb Hl. unfold avx2_compute_blocks_x16. rewrite fold_pair. cbn [fst snd].
  rewrite !avx_x8 by (auto using bytes_firstn, bytes_skipn; rewrite ?firstn_length, ?skipn_length; lia).
  change (cut 16 16 b) with (cut 16 (8 + 8) b). rewrite cut_app, map_app, concat_app.
  rewrite <- (cut_firstn 16 8 (firstn 128 b) (skipn 128 b)) by (rewrite firstn_length; lia).
  rewrite firstn_skipn. reflexivity.
Qed.

Lemma blocks_avx2_spec rk b n : Forall is_u32 (map (nz rk) (seq 0 32)) -> bytes b -> length b = (n * 16)%nat ->
  sm4_blocks_avx2 rk b n = concat (map (compute_block_l18 rk) (cut 16 n b)).
Proof.
  intros Hk Hb Hl. unfold sm4_blocks_avx2.
  destruct (while_ge_spec 16 ltac:(lia) (avx2_compute_blocks_x16 rk) (compute_block_l18 rk)
    (fun b => blocks_x16 rk b Hk) n b n Hb ltac:(lia) (fuel_ok n)) as (q & r & E & Hr & ->).
  destruct (while_ge_spec 8 ltac:(lia) (avx2_compute_blocks_x8 rk) (compute_block_l18 rk)
    (fun b => blocks_x8 rk b Hk) r (skipn (16 * q) b) r (bytes_skipn _ _ Hb)
    ltac:(rewrite skipn_length; lia) (fuel_ok r)) as (q1 & r1 & E1 & Hr1 & ->).
  destruct (while_ge_spec 4 ltac:(lia) (compute_blocks_x4 rk) (compute_block_l18 rk)
    (fun b _ _ => blocks_x4 rk b) r1 (skipn (16 * q1) (skipn (16 * q) b)) r1 (bytes_skipn _ _ (bytes_skipn _ _ Hb))
    ltac:(rewrite !skipn_length; lia) (fuel_ok r1)) as (q2 & r2 & E2 & Hr2 & ->).
  destruct (while_ge_spec 1 ltac:(lia) (compute_block_l18 rk) (compute_block_l18 rk)
    (fun b _ H => one_block _ b H) r2 (skipn (16 * q2) (skipn (16 * q1) (skipn (16 * q) b))) r2
    (bytes_skipn _ _ (bytes_skipn _ _ (bytes_skipn _ _ Hb)))
    ltac:(rewrite !skipn_length; lia) (fuel_ok r2)) as (q3 & r3 & E3 & Hr3 & ->).
  assert (r3 = 0%nat) by lia. subst r3. rewrite Nat.add_0_r in E3. subst q3 r1 r n.
  rewrite !cut_concat_app. reflexivity.
Qed.

Lemma l18_key_u32 mk enc : Forall is_u32 (map (nz (sm4_set_key_l18 mk enc)) (seq 0 32)) <->
  Forall is_u32 (sm4_set_key_l18 mk enc).
Proof.
  assert (L : length (sm4_set_key_l18 mk enc) = 32%nat).
  { unfold sm4_set_key_l18, sm4_key_init.
    assert (E : forall n k i, length (key_rounds SM4_SBOX_l18 CK_l18 k i n) = n).
    { induction n as [|n IH]; intros; cbn [key_rounds]; [reflexivity|].
      destruct (key_round _ _ _ _). cbn [length]. f_equal. apply IH. }
    destruct enc; rewrite ?rev_length; apply E. }
  rewrite map_nz_32 by exact L. reflexivity.
Qed.

Lemma window_uq mk i : bytes mk -> length mk = 16%nat -> (i <= 32)%nat -> uq (key_window mk i).
Proof.
  intros Hb Hl. induction i as [|i IH]; intros Hi.
  - unfold key_window. cbn [seq map fold_left]. pose proof (quad_of_uq mk Hb Hl) as Q.
    unfold key0. destruct (quad_of mk) as [[[a0 a1] a2] a3]. destruct Q as (Q0 & Q1 & Q2 & Q3).
    unfold FKs, uq. repeat apply conj; apply lxor_u32; auto; unfold is_u32; lia.
  - unfold key_window in *. rewrite seq_S, map_app, fold_left_app. cbn [map fold_left Nat.add].
    specialize (IH ltac:(lia)). destruct (fold_left _ _ _) as [[[a0 a1] a2] a3].
    destruct IH as (Q0 & Q1 & Q2 & Q3). unfold gstep, uq. repeat apply conj; try assumption; try apply Q1; try apply Q2; try apply Q3.
    all: apply (lxor_u32 a0); [assumption|]; apply L_key_u32, tau_u32.
Qed.
Transparent rk.
Lemma rk_u32 mk i : bytes mk -> length mk = 16%nat -> (i < 32)%nat -> is_u32 (rk mk i).
Proof.
  intros Hb Hl Hi. pose proof (window_uq mk (S i) Hb Hl ltac:(lia)) as U. unfold rk.
  destruct (key_window mk (S i)) as [[[a0 a1] a2] a3]. apply U.
Qed.
Opaque rk.
Lemma ks_u32 mk (enc : bool) : bytes mk -> length mk = 16%nat ->
  Forall is_u32 (if enc then map (rk mk) (seq 0 32) else rev (map (rk mk) (seq 0 32))).
Proof.
  intros Hb Hl. assert (H : Forall is_u32 (map (rk mk) (seq 0 32))).
  { rewrite Forall_map. apply Forall_forall. intros i Hi. apply in_seq in Hi. apply rk_u32; auto; lia. }
  destruct enc; [exact H|apply Forall_rev, H].
Qed.

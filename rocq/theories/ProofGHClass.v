(** The class GHash over the three variants: contexts, whole sessions, and the cases in which the
    buffering of Hash<16>::update goes wrong. *)
From Verif Require Import Base BaseFacts ModelEndian ModelHash ProofHash TablesGHASH SpecGHASH ModelGHASH
  ProofLinear ProofGHASH ProofPclmul.

Lemma w8s_id l : bytes l -> map w8 l = l.
Proof.
  induction 1 as [|x l Hx _ IH]; [reflexivity|]. cbn [map]. rewrite IH. f_equal. apply Z.mod_small. exact Hx.
Qed.
Lemma w8s_bytes l : bytes (map w8 l).
Proof. unfold bytes. rewrite Forall_map. apply Forall_forall. intros. apply mod_pow2_bound. lia. Qed.

(** [rel c h y]: context [c] holds key [h] and state [y]. *)
Record ghash_ok (G : ghash_impl) := {
  go_rel : gi_ctx G -> Z -> Z -> Prop;
  go_y : forall c h y, go_rel c h y -> is_blk y;
  go_init : forall H, bytes H -> length H = 16%nat -> go_rel (gi_init G H) (be_val H) 0;
  go_reset : forall c h y, go_rel c h y -> go_rel (gi_reset G c) h 0;
  go_blocks : forall c h y d n, go_rel c h y -> bytes d -> (16 * n <= length d)%nat ->
    go_rel (gi_blocks G c d n) h (GHASH_blocks h y (map be_val (cut 16 n d)));
  go_final : forall c h y, go_rel c h y -> gi_final G c [] = Ok (be_bytes 16 y);
  go_final_throw : forall c d, d <> [] -> gi_final G c d = Throw;
  go_0 : forall c d, gi_blocks G c d 0 = c;
  go_add : forall c d n m, gi_blocks G c d (n + m) = gi_blocks G (gi_blocks G c d n) (skipn (n * 16) d) m;
  go_loc : forall c d e n, (n * 16 <= length d)%nat -> gi_blocks G c (d ++ e) n = gi_blocks G c d n;
}.

Lemma g_blocks_add {K} (blk : K -> pair64 -> list Z -> pair64) n : forall c d m,
  g_blocks blk c d (n + m) = g_blocks blk (g_blocks blk c d n) (skipn (n * 16) d) m.
Proof.
  induction n as [|n IH]; intros c d m; [reflexivity|].
  cbn [g_blocks Nat.add]. rewrite IH, skipn_skipn'. f_equal.
Qed.
Lemma g_blocks_loc {K} (blk : K -> pair64 -> list Z -> pair64) n : forall c d e, (n * 16 <= length d)%nat ->
  g_blocks blk c (d ++ e) n = g_blocks blk c d n.
Proof.
  induction n as [|n IH]; intros c d e H; [reflexivity|]. cbn [g_blocks].
  rewrite firstn_app, skipn_app. replace (16 - length d)%nat with 0%nat by lia. rewrite firstn_O, skipn_O, app_nil_r.
  apply IH. rewrite skipn_length. lia.
Qed.
Lemma pc_blocks_add n : forall c d m, pc_blocks c d (n + m) = pc_blocks (pc_blocks c d n) (skipn (n * 16) d) m.
Proof.
  induction n as [|n IH]; intros c d m; [reflexivity|].
  cbn [pc_blocks Nat.add]. rewrite IH, skipn_skipn'. f_equal.
Qed.
Lemma pc_blocks_loc n : forall c d e, (n * 16 <= length d)%nat -> pc_blocks c (d ++ e) n = pc_blocks c d n.
Proof.
  induction n as [|n IH]; intros c d e H; [reflexivity|]. cbn [pc_blocks].
  unfold loadu. rewrite firstn_app, skipn_app. replace (16 - length d)%nat with 0%nat by lia. rewrite firstn_O, skipn_O, app_nil_r.
  apply IH. rewrite skipn_length. lia.
Qed.

Lemma u2_0 : u2 (0, 0). Proof. split; cbn; unfold is_u64; lia. Qed.
Lemma g_final_throw {K} (c : gctx K) d : d <> [] -> g_final c d = Throw.
Proof. destruct d; [congruence|reflexivity]. Qed.

Definition ok_common : ghash_ok G_common.
Proof.
  refine {| go_rel := fun (c : gi_ctx G_common) h y => u2 (gkey c) /\ val (gkey c) = h /\ u2 (gst c) /\ val (gst c) = y |};
    cbn [G_common gi_ctx gi_init gi_reset gi_blocks gi_final].
  - intros c h y (_ & _ & U & <-). apply val_blk, U.
  - intros H Hb Hl. destruct (load2_ok H Hb Hl) as [L1 L2]. cbn [gc_init gkey gst]. split; [exact L1|]. split; [exact L2|].
    split; [exact u2_0|reflexivity].
  - intros c h y (A & B & _ & _). cbn [gkey gst]. split; [exact A|]. split; [exact B|]. split; [exact u2_0|reflexivity].
  - intros [k s] h y d n (A & B & C & D) Hd Hn. cbn [gkey gst] in *. rewrite w8s_id by assumption.
    pose proof (g_blocks_ok gc_block k h) as Q. specialize (Q (fun s b Us Hb Hl => eq_ind _ (fun h => u2 (gc_block k s b) /\
       val (gc_block k s b) = gmul (Z.lxor (val s) (be_val b)) h) (gc_block_ok k s b A Us Hb Hl) _ B) n d s C Hd Hn).
    cbv zeta in Q. destruct Q as (Q1 & Q2 & Q3). rewrite Q1. split; [exact A|]. split; [exact B|]. split; [exact Q2|].
    rewrite Q3, D. reflexivity.
  - intros c h y (_ & _ & U & <-). unfold g_final. cbn [length Nat.eqb]. rewrite store2_ok by assumption. reflexivity.
  - intros c d H. apply g_final_throw, H.
  - reflexivity.
  - intros. rewrite g_blocks_add, skipn_map. reflexivity.
  - intros. rewrite map_app. apply g_blocks_loc. rewrite map_length. assumption.
Defined.
Definition ok_lut256 T0 (HT0 : length T0 = 256%nat) : ghash_ok (G_lut256 T0).
Proof.
  refine {| go_rel := fun (c : gi_ctx (G_lut256 T0)) h y =>
    (forall b, is_byte b -> u2 (tget (gkey c) b) /\ val (tget (gkey c) b) = Msum 8 (REV b) h) /\ u2 (gst c) /\ val (gst c) = y |};
    cbn [G_lut256 gi_ctx gi_init gi_reset gi_blocks gi_final].
  - intros c h y (_ & U & <-). apply val_blk, U.
  - intros H Hb Hl. cbn [lut_init gkey gst]. split; [apply lut_table_ok; assumption|]. split; [exact u2_0|reflexivity].
  - intros c h y (A & _ & _). cbn [gkey gst]. split; [exact A|]. split; [exact u2_0|reflexivity].
  - intros [k s] h y d n (A & C & D) Hd Hn. cbn [gkey gst] in *. rewrite w8s_id by assumption.
    pose proof (g_blocks_ok lut_block k h (fun s b Us Hb Hl => lut_block_ok k h s b A Us Hb Hl) n d s C Hd Hn) as Q.
    cbv zeta in Q. destruct Q as (Q1 & Q2 & Q3). rewrite Q1. split; [exact A|]. split; [exact Q2|].
    rewrite Q3, D. reflexivity.
  - intros c h y (_ & U & <-). unfold g_final. cbn [length Nat.eqb]. rewrite store2_ok by assumption. reflexivity.
  - intros c d H. apply g_final_throw, H.
  - reflexivity.
  - intros. rewrite g_blocks_add, skipn_map. reflexivity.
  - intros. rewrite map_app. apply g_blocks_loc. rewrite map_length. assumption.
Defined.
Lemma pc_blocks_ok h n : is_blk h -> forall d c y, pH c = rev128 h -> pst c = rev128 y -> is_blk y -> bytes d -> (16 * n <= length d)%nat ->
  pH (pc_blocks c d n) = rev128 h /\ pst (pc_blocks c d n) = rev128 (GHASH_blocks h y (map be_val (cut 16 n d))) /\
  is_blk (GHASH_blocks h y (map be_val (cut 16 n d))).
Proof.
  intros Hh. induction n as [|n IH]; intros d c y H1 H2 Hy Hd Hn; cbn [pc_blocks cut map]; [auto|].
  rewrite GHASH_blocks_cons.
  assert (Bf : bytes (firstn 16 d)) by (apply bytes_firstn; assumption).
  assert (Lf : length (firstn 16 d) = 16%nat) by (rewrite firstn_length; lia).
  assert (L : loadu d = loadu (firstn 16 d)) by (unfold loadu; rewrite firstn_firstn; reflexivity).
  pose proof (be_val_bound _ Bf) as Bv. rewrite Lf in Bv. change (256 ^ Z.of_nat 16) with (2 ^ 128) in Bv.
  apply IH; cbn [pH pst]; auto using bytes_skipn.
  - rewrite H1, H2, L, reflect_load by assumption. rewrite <- lin_rev128. apply gfmul_gmul; [|exact Hh].
    apply lxor_bound; [lia|exact Hy|exact Bv].
  - apply gmul_blk, Hh.
  - rewrite skipn_length. lia.
Qed.
Definition ok_pclmul : ghash_ok G_pclmul.
Proof.
  refine {| go_rel := fun (c : gi_ctx G_pclmul) h y => pH c = rev128 h /\ is_blk h /\ pst c = rev128 y /\ is_blk y |};
    cbn [G_pclmul gi_ctx gi_init gi_reset gi_blocks gi_final].
  - intros c h y (_ & _ & _ & U). exact U.
  - intros H Hb Hl. unfold pc_init. cbn [pH pst]. pose proof (be_val_bound _ Hb) as Bv. rewrite Hl in Bv. change (256 ^ Z.of_nat 16) with (2 ^ 128) in Bv.
    split; [apply reflect_load; assumption|]. split; [exact Bv|]. split; [symmetry; apply lin_0, lin_rev128|unfold is_blk; lia].
  - intros c h y (A & B & _). cbn [pH pst]. split; [exact A|]. split; [exact B|]. split; [symmetry; apply lin_0, lin_rev128|unfold is_blk; lia].
  - intros c h y d n (A & B & C & D) Hd Hn. rewrite w8s_id by assumption.
    destruct (pc_blocks_ok h n B d c y A C D Hd Hn) as (Q1 & Q2 & Q3). auto.
  - intros c h y (A & B & C & D). unfold pc_final. cbn [length Nat.eqb]. rewrite reflect_store by (rewrite C; apply rev128_blk).
    rewrite C, rev128_rev128 by assumption. reflexivity.
  - intros c d H. unfold pc_final. destruct d; [congruence|reflexivity].
  - reflexivity.
  - intros. rewrite pc_blocks_add, skipn_map. reflexivity.
  - intros. rewrite map_app. apply pc_blocks_loc. rewrite map_length. assumption.
Defined.

(** ** Sessions *)
Section G.
  Variable G : ghash_impl.
  Variable OK : ghash_ok G.
  Notation repr := (repr (gi_ctx G) 16 (gh_ub G) (fun _ => True)).
  Let gub := gh_ub G.

  Lemma gub_V : forall (c : gi_ctx G) d n c', True -> gub c d n = Ok c' -> True. Proof. auto. Qed.
  Lemma gub_0 : forall (c : gi_ctx G) d, True -> gub c d 0 = Ok c.
  Proof. intros. unfold gub, gh_ub. rewrite (go_0 G OK). reflexivity. Qed.
  Lemma gub_add : forall (c : gi_ctx G) d n m, True -> gub c d (n + m) = bind (gub c d n) (fun c' => gub c' (skipn (n * 16) d) m).
  Proof. intros. unfold gub, gh_ub. cbn [bind]. rewrite (go_add G OK). reflexivity. Qed.
  Lemma gub_loc : forall (c : gi_ctx G) d e n, (n * 16 <= length d)%nat -> gub c (d ++ e) n = gub c d n.
  Proof. intros. unfold gub, gh_ub. rewrite (go_loc G OK) by assumption. reflexivity. Qed.

  Lemma gh_update_repr c0 m s inp : repr c0 m s -> (length m mod 16 = 0 \/ length m mod 16 + length inp < 32)%nat ->
    exists s', gh_update G s inp = Ok s' /\ repr c0 (m ++ inp) s'.
  Proof.
    intros R H.
    pose proof (h_update_repr (gi_ctx G) 16 gub (gh_fb G) ltac:(lia) (fun _ => True) gub_V gub_0 gub_add gub_loc c0 m s inp R) as Q.
    unfold gub at 1, gh_ub in Q. apply Q. unfold step_ok. rewrite (r_size _ _ _ _ _ _ _ R). right. lia.
  Qed.
  Lemma gh_updates_repr c0 chunks : forall m s, repr c0 m s -> calls_ok (length m) chunks ->
    exists s', h_updates (gi_ctx G) 16 (gh_ub G) s chunks = Ok s' /\ repr c0 (m ++ concat chunks) s'.
  Proof.
    induction chunks as [|x chunks IH]; intros m s R H; cbn [h_updates concat].
    - rewrite app_nil_r. eauto.
    - destruct H as [H1 H2]. destruct (gh_update_repr c0 m s x R H1) as (s1 & E1 & R1).
      unfold gh_update in E1. rewrite E1. cbn [bind]. rewrite app_assoc. apply IH; [exact R1|]. rewrite app_length. exact H2.
  Qed.
  Lemma gh_final_repr c0 m s : repr c0 m s ->
    bind (gh_final G s []) (fun '(_, d) => Ok d) =
    gi_final G (gi_blocks G c0 m (length m / 16)) (skipn (16 * (length m / 16)) m).
  Proof.
    intros R. pose proof (h_final_repr (gi_ctx G) 16 gub (gh_fb G) ltac:(lia) (fun _ => True) gub_V gub_0 gub_add gub_loc c0 m s [] R) as Q.
    assert (S : step_ok (gi_ctx G) 16 s []).
    { unfold step_ok. rewrite (r_size _ _ _ _ _ _ _ R). cbn [length]. pose proof (Nat.mod_upper_bound (length m) 16). lia. }
    destruct (Q S) as [Q1 _]. unfold gh_final. unfold gub in Q1. rewrite Q1. unfold digest_of, gh_ub, gh_fb.
    rewrite app_nil_r. cbn [bind]. destruct (gi_final G _ _); reflexivity.
  Qed.

  Lemma GHASH_of_blocks H m : (length m mod 16 = 0)%nat ->
    be_bytes 16 (GHASH_blocks (be_val H) 0 (map be_val (cut 16 (length m / 16) m))) = GHASH H m.
  Proof. reflexivity. Qed.

  Lemma ghash_session junk H chunks last : length junk = 16%nat -> bytes H -> length H = 16%nat ->
    bytes (concat chunks ++ last) -> calls_ok 0 (chunks ++ [last]) ->
    let m := concat chunks ++ last in
    ghash G junk H chunks last = if (length m mod 16 =? 0)%nat then Ok (GHASH H m) else Throw.
  Proof.
    intros Hj HH HL Hb Hc m. unfold ghash, h_digest.
    pose proof (repr_new (gi_ctx G) 16 gub (gh_fb G) ltac:(lia) (fun _ => True) gub_V gub_0 gub_add gub_loc junk (gi_init G H) I Hj) as R0.
    assert (Hc' : calls_ok 0 chunks /\ ((length (concat chunks)) mod 16 = 0 \/ (length (concat chunks)) mod 16 + length last < 32)%nat).
    { revert Hc. change 0%nat with (length (@nil Z)) at 1. replace (length (concat chunks)) with (length (@nil Z) + length (concat chunks))%nat by reflexivity.
      change (calls_ok 0 chunks) with (calls_ok (length (@nil Z)) chunks).
      generalize (length (@nil Z)). clear. induction chunks as [|x r IH]; intros n; cbn [app calls_ok concat].
      - rewrite Nat.add_0_r. intros [A _]. auto.
      - intros [A B]. apply IH in B. rewrite app_length. rewrite Nat.add_assoc. tauto. }
    destruct Hc' as [Hc1 Hc2].
    destruct (gh_updates_repr (gi_init G H) chunks [] _ R0 Hc1) as (s1 & E1 & R1). cbn [app] in R1. rewrite E1. cbn [bind].
    pose proof (h_final_repr (gi_ctx G) 16 gub (gh_fb G) ltac:(lia) (fun _ => True) gub_V gub_0 gub_add gub_loc (gi_init G H) (concat chunks) s1 last R1) as Q.
    assert (S : step_ok (gi_ctx G) 16 s1 last).
    { unfold step_ok. rewrite (r_size _ _ _ _ _ _ _ R1). right. lia. }
    destruct (Q S) as [Q1 _]. unfold gub in Q1. rewrite Q1. unfold digest_of, gh_ub, gh_fb. cbn [bind]. fold m.
    pose proof (Nat.div_mod (length m) 16) as DM.
    destruct (Nat.eqb_spec (length m mod 16) 0) as [E|E].
    - rewrite skipn_all2 by lia.
      pose proof (go_blocks G OK _ _ _ m (length m / 16) (go_init G OK H HH HL) Hb ltac:(lia)) as Rl.
      rewrite (go_final G OK _ _ _ Rl). reflexivity.
    - rewrite (go_final_throw G OK); [reflexivity|]. intros N. apply (f_equal (@length Z)) in N. rewrite skipn_length in N. cbn [length] in N. lia.
  Qed.

  (** A call that leaves a partial block behind it and reaches past the next one overflows the
      16-byte buffer of the object (hash.h 65-75: the literal 64). *)
  Lemma gh_update_overflow s inp : length (hbuf s) = 16%nat -> (0 < hsize s < 16)%nat ->
    (32 < hsize s + length inp)%nat -> gh_update G s inp = UB.
  Proof.
    intros Hb Hs Hi. unfold gh_update, h_update.
    destruct (Nat.eqb_spec (length inp) 0); [lia|]. destruct (Nat.eqb_spec (hsize s) 0); [lia|].
    replace (Nat.min (16 - hsize s) (length inp)) with (16 - hsize s)%nat by lia.
    rewrite write_ok by (rewrite firstn_length; lia). cbn [bind].
    set (b := firstn (hsize s) _ ++ _).
    assert (Lb : length b = 16%nat).
    { unfold b. rewrite !app_length, !skipn_length, !firstn_length. lia. }
    cbn [hsize hbuf hctx]. replace (hsize s + (16 - hsize s))%nat with 16%nat by lia. cbn [Nat.eqb].
    unfold feed. rewrite read_ok by lia. cbn [bind hsize hbuf hctx]. unfold gh_ub. cbn [bind hsize hbuf hctx].
    set (inp1 := skipn (16 - hsize s) inp).
    assert (L1 : (16 < length inp1)%nat) by (unfold inp1; rewrite skipn_length; lia).
    destruct (Nat.ltb_spec 0 (length inp1)); [|lia]. cbn [andb].
    pose proof (Nat.div_mod (length inp1) 64). pose proof (Nat.mod_upper_bound (length inp1) 64).
    rewrite read_ok by lia. cbn [bind]. unfold keep_rest.
    rewrite skipn_length. destruct (Nat.ltb_spec 0 (length inp1 - length inp1 / 64 * 16)); [|lia].
    unfold write. cbn [hbuf]. rewrite skipn_length. destruct (Nat.leb_spec (0 + (length inp1 - length inp1 / 64 * 16)) (length b)); [lia|reflexivity].
  Qed.

  Lemma ghash_overflow junk H chunks x rest last : length junk = 16%nat -> bytes H -> length H = 16%nat ->
    calls_ok 0 chunks -> (0 < length (concat chunks) mod 16)%nat -> (32 < length (concat chunks) mod 16 + length x)%nat ->
    ghash G junk H (chunks ++ x :: rest) last = UB.
  Proof.
    intros Hj HH HL Hc Hr Hx. unfold ghash, h_digest.
    pose proof (repr_new (gi_ctx G) 16 gub (gh_fb G) ltac:(lia) (fun _ => True) gub_V gub_0 gub_add gub_loc junk (gi_init G H) I Hj) as R0.
    destruct (gh_updates_repr (gi_init G H) chunks [] _ R0 Hc) as (s1 & E1 & R1). cbn [app] in R1.
    assert (A : forall l1 l2 s, h_updates (gi_ctx G) 16 (gh_ub G) s (l1 ++ l2) =
       bind (h_updates (gi_ctx G) 16 (gh_ub G) s l1) (fun s' => h_updates (gi_ctx G) 16 (gh_ub G) s' l2)).
    { induction l1 as [|y l1 IH]; intros l2 s; cbn [app h_updates bind]; [reflexivity|].
      destruct (h_update _ _ _ s y); cbn [bind]; [apply IH|reflexivity|reflexivity]. }
    rewrite A, E1. cbn [bind h_updates].
    pose proof (gh_update_overflow s1 x (r_len _ _ _ _ _ _ _ R1)) as O.
    rewrite (r_size _ _ _ _ _ _ _ R1) in O. pose proof (Nat.mod_upper_bound (length (concat chunks)) 16).
    unfold gh_update in O. rewrite O by lia. reflexivity.
  Qed.
End G.

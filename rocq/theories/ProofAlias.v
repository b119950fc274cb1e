(** Proofs for ModelAlias: limb loops, Montgomery operations and powers on memory. *)
From Verif Require Import Base ModelEndian ModelNumber ModelNumberX64 ModelMont SpecNumber SpecMont
  ProofNumber ProofMont ModelAlias SpecAlias.
From Coq Require Import Lia.

Lemma upd_eq m p v : upd m p v p = v.
Proof. unfold upd. rewrite Nat.eqb_refl. reflexivity. Qed.
Lemma upd_ne m p v q : q <> p -> upd m p v q = m q.
Proof. intros H. unfold upd. rewrite (proj2 (Nat.eqb_neq q p) H). reflexivity. Qed.

Lemma rd_length m p n : length (rd m p n) = n.
Proof. revert p. induction n; intros p; cbn [rd length]; [reflexivity|]. rewrite IHn. reflexivity. Qed.
Lemma rd_ext m m' p n : (forall q, (p <= q < p + n)%nat -> m q = m' q) -> rd m p n = rd m' p n.
Proof.
  revert p. induction n as [|n IH]; intros p H; cbn [rd]; [reflexivity|].
  rewrite (H p) by lia. f_equal. apply IH. intros q Hq. apply H. lia.
Qed.
Lemma rd_upd_out m p v q n : (p < q \/ q + n <= p)%nat -> rd (upd m p v) q n = rd m q n.
Proof. intros H. apply rd_ext. intros x Hx. apply upd_ne. lia. Qed.
Lemma rd_app m p n k : rd m p (n + k) = rd m p n ++ rd m (p + n) k.
Proof.
  revert p. induction n as [|n IH]; intros p; cbn [rd Nat.add app].
  - rewrite Nat.add_0_r. reflexivity.
  - f_equal. rewrite IH. f_equal. f_equal. lia.
Qed.
Lemma rd_words w m p n : words w m -> Forall (fun x => 0 <= x < 2 ^ w) (rd m p n).
Proof. intros H. revert p. induction n; intros p; cbn [rd]; constructor; auto. Qed.
Lemma words_upd w m p v : words w m -> 0 <= v < 2 ^ w -> words w (upd m p v).
Proof. intros H Hv q. unfold upd. destruct (q =? p)%nat; auto. Qed.

Lemma wr_out l : forall m p q, (q < p \/ p + length l <= q)%nat -> wr m p l q = m q.
Proof.
  induction l as [|x l IH]; intros m p q H; cbn [wr]; [reflexivity|].
  cbn [length] in H. rewrite IH by lia. apply upd_ne. lia.
Qed.
Lemma wr_in l : forall m p, rd (wr m p l) p (length l) = l.
Proof.
  induction l as [|x l IH]; intros m p; cbn [wr length rd]; [reflexivity|].
  rewrite IH, wr_out, upd_eq by lia. reflexivity.
Qed.
Lemma wr_words w l : forall m p, words w m -> Forall (fun x => 0 <= x < 2 ^ w) l -> words w (wr m p l).
Proof.
  induction l as [|x l IH]; intros m p H Hl; cbn [wr]; [exact H|].
  inversion_clear Hl. apply IH; [|assumption]. apply words_upd; assumption.
Qed.

(** ** The limb loop *)
Fixpoint vch (f : Z -> Z -> Z -> Z -> Z * Z) (o a b : list Z) (c : Z) : list Z * Z :=
  match o, a, b with
  | x :: o', y :: a', z :: b' =>
      let (v, c1) := f x y z c in
      let (r, c2) := vch f o' a' b' c1 in (v :: r, c2)
  | _, _, _ => ([], c)
  end.

(** a source that the loop over r[0..n-1] does not spoil *)
Definition src_ok (r n : nat) (s : src) : Prop :=
  match s with
  | Ptr p => (r <= p \/ p + n <= r)%nat
  | At p => (p < r \/ r + n <= p)%nat
  | Cst _ => True
  | Imm l => length l = n
  end.

Lemma src_ok_nxt r n s : src_ok r (S n) s -> src_ok (S r) n (nxt s).
Proof.
  destruct s as [p|p|v|l]; cbn [src_ok nxt]; try lia; auto.
  intros H. rewrite skipn_length. lia.
Qed.
Lemma vals_S s r n m v : src_ok r (S n) s ->
  vals s (S n) m = ld s m :: vals (nxt s) n (upd m r v) /\ src_ok (S r) n (nxt s).
Proof.
  intros H. split; [|apply src_ok_nxt; exact H].
  destruct s as [p|p|x|l]; cbn [src_ok vals nxt ld rd repeat] in *.
  - f_equal. symmetry. apply rd_upd_out. lia.
  - rewrite upd_ne by lia. reflexivity.
  - reflexivity.
  - destruct l as [|x l]; [discriminate H|]. reflexivity.
Qed.

Lemma chain_spec f n : forall r a b c m, src_ok r n a -> src_ok r n b ->
  rd (fst (chain f n r a b c m)) r n = fst (vch f (rd m r n) (vals a n m) (vals b n m) c) /\
  snd (chain f n r a b c m) = snd (vch f (rd m r n) (vals a n m) (vals b n m) c) /\
  (forall q, (q < r \/ r + n <= q)%nat -> fst (chain f n r a b c m) q = m q).
Proof.
  induction n as [|n IH]; intros r a b c m Ha Hb.
  - cbn [chain rd vch fst snd]. repeat split; auto.
  - cbn [chain]. destruct (f (m r) (ld a m) (ld b m) c) as [v c1] eqn:E.
    destruct (vals_S a r n m v Ha) as [Va Ha']. destruct (vals_S b r n m v Hb) as [Vb Hb'].
    rewrite Va, Vb. cbn [rd vch]. rewrite E.
    destruct (IH (S r) (nxt a) (nxt b) c1 (upd m r v) Ha' Hb') as (I1 & I2 & I3).
    rewrite (rd_upd_out m r v (S r) n) in I1, I2 by lia.
    destruct (vch f (rd m (S r) n) (vals (nxt a) n (upd m r v)) (vals (nxt b) n (upd m r v)) c1) as [l c2].
    cbn [fst snd] in *. repeat split.
    + rewrite I3 by lia. rewrite upd_eq, I1. reflexivity.
    + exact I2.
    + intros q Hq. rewrite I3 by lia. apply upd_ne. lia.
Qed.

(** the value stored is a word *)
Definition fw (w : Z) (f : Z -> Z -> Z -> Z -> Z * Z) : Prop :=
  forall o x y c, 0 <= x < 2 ^ w -> 0 <= fst (f o x y c) < 2 ^ w.
Definition srcw (w : Z) (s : src) : Prop :=
  match s with Imm l => Forall (fun x => 0 <= x < 2 ^ w) l | Cst v => 0 <= v < 2 ^ w | _ => True end.
Lemma srcw_nxt w s : srcw w s -> srcw w (nxt s).
Proof.
  destruct s as [p|p|v|l]; cbn [srcw nxt]; auto. intros H. destruct l as [|x l]; [exact H|].
  inversion_clear H. assumption.
Qed.
Lemma ld_word w s m : 0 <= w -> words w m -> srcw w s -> 0 <= ld s m < 2 ^ w.
Proof.
  intros Hw H Hs. destruct s as [p|p|v|l]; cbn [ld srcw] in *; try apply H; try exact Hs.
  destruct l as [|x l]; [unfold nz; cbn [nth]; pose proof (Z.pow_pos_nonneg 2 w); lia|].
  inversion_clear Hs. exact H0.
Qed.
Lemma chain_words w f n : 0 <= w -> fw w f -> forall r a b c m, words w m -> srcw w a ->
  words w (fst (chain f n r a b c m)).
Proof.
  intros Hw Hf. induction n as [|n IH]; intros r a b c m Hm Ha; cbn [chain]; [exact Hm|].
  pose proof (Hf (m r) (ld a m) (ld b m) c (ld_word w a m Hw Hm Ha)) as H.
  destruct (f (m r) (ld a m) (ld b m) c) as [v c1]. cbn [fst] in H.
  apply IH; [|apply srcw_nxt; exact Ha]. apply words_upd; assumption.
Qed.

Lemma land32_word t : 0 <= Z.land t (2 ^ 32 - 1) < 2 ^ 32.
Proof. change (2 ^ 32 - 1) with (Z.ones 32). rewrite Z.land_ones by lia. apply Z.mod_pos_bound. lia. Qed.
Lemma fw_cpy w : fw w f_cpy. Proof. intros o x y c H. exact H. Qed.
Lemma fw_add32 : fw 32 f_add32. Proof. intros o x y c _. apply land32_word. Qed.
Lemma fw_sub32 : fw 32 f_sub32. Proof. intros o x y c _. apply land32_word. Qed.
Lemma fw_dbl32 : fw 32 f_dbl32. Proof. intros o x y c _. apply land32_word. Qed.
Lemma fw_tpl32 : fw 32 f_tpl32. Proof. intros o x y c _. apply land32_word. Qed.
Lemma fw_mul32 : fw 32 f_mul32. Proof. intros o x y c _. apply land32_word. Qed.
Lemma fw_addmul32 : fw 32 f_addmul32. Proof. intros o x y c _. apply land32_word. Qed.
Lemma mod64_word t : 0 <= t mod 2 ^ 64 < 2 ^ 64. Proof. apply Z.mod_pos_bound. lia. Qed.
Lemma fw_add64 : fw 64 f_add64. Proof. intros o x y c _. apply mod64_word. Qed.
Lemma fw_sub64 : fw 64 f_sub64. Proof. intros o x y c _. apply mod64_word. Qed.
Lemma fw_mul64 : fw 64 f_mul64. Proof. intros o x y c _. apply mod64_word. Qed.
Lemma fw_addmul64 : fw 64 f_addmul64. Proof. intros o x y c _. apply mod64_word. Qed.

(** ** The loops are those of the value model *)
Lemma vch_add32 a : forall o b c, length o = length a -> vch f_add32 o a b c = add_limbs a b c.
Proof.
  induction a as [|x a IH]; intros [|z o] b c H; try discriminate H; [reflexivity|].
  destruct b as [|y b]; [reflexivity|]. cbn [vch add_limbs]. unfold f_add32 at 1.
  destruct (add_carry x y c) as [v c1]. rewrite IH by (cbn in H; lia). reflexivity.
Qed.
Lemma vch_sub32 a : forall o b c, length o = length a -> vch f_sub32 o a b c = sub_limbs a b c.
Proof.
  induction a as [|x a IH]; intros [|z o] b c H; try discriminate H; [reflexivity|].
  destruct b as [|y b]; [reflexivity|]. cbn [vch sub_limbs]. unfold f_sub32 at 1.
  destruct (sub_borrow x y c) as [v c1]. rewrite IH by (cbn in H; lia). reflexivity.
Qed.
Lemma vch_add64 a : forall o b c, length o = length a -> vch f_add64 o a b c = addc c a b.
Proof.
  induction a as [|x a IH]; intros [|z o] b c H; try discriminate H; [reflexivity|].
  destruct b as [|y b]; [reflexivity|]. cbn [vch addc]. unfold f_add64 at 1.
  destruct (addcarry_u64 c x y) as [v c1]. rewrite IH by (cbn in H; lia). reflexivity.
Qed.
Lemma vch_sub64 a : forall o b c, length o = length a -> vch f_sub64 o a b c = subb c a b.
Proof.
  induction a as [|x a IH]; intros [|z o] b c H; try discriminate H; [reflexivity|].
  destruct b as [|y b]; [reflexivity|]. cbn [vch subb]. unfold f_sub64 at 1.
  destruct (subborrow_u64 c x y) as [v c1]. rewrite IH by (cbn in H; lia). reflexivity.
Qed.
Lemma vch_dbl32 a : forall o b c, length o = length a -> length b = length a ->
  vch f_dbl32 o a b c = dbl_limbs a c.
Proof.
  induction a as [|x a IH]; intros [|z o] [|y b] c H Hb; try discriminate H; try discriminate Hb; [reflexivity|].
  cbn [vch dbl_limbs]. unfold f_dbl32 at 1.
  destruct (dbl_carry x c) as [v c1]. rewrite IH by (cbn in *; lia). reflexivity.
Qed.
Lemma vch_tpl32 a : forall o b c, length o = length a -> length b = length a ->
  vch f_tpl32 o a b c = tpl_limbs a c.
Proof.
  induction a as [|x a IH]; intros [|z o] [|y b] c H Hb; try discriminate H; try discriminate Hb; [reflexivity|].
  cbn [vch tpl_limbs]. unfold f_tpl32 at 1.
  destruct (tpl_carry x c) as [v c1]. rewrite IH by (cbn in *; lia). reflexivity.
Qed.
Lemma vch_cpy a : forall o b c, length o = length a -> length b = length a ->
  vch f_cpy o a b c = (a, c).
Proof.
  induction a as [|x a IH]; intros [|z o] [|y b] c H Hb; try discriminate H; try discriminate Hb; [reflexivity|].
  cbn [vch]. unfold f_cpy at 1. rewrite IH by (cbn in *; lia). reflexivity.
Qed.
Lemma vch_mul32 a : forall o b c, length o = length a ->
  vch f_mul32 o a (repeat b (length a)) c = mul_row a b c.
Proof.
  induction a as [|x a IH]; intros [|z o] b c H; try discriminate H; [reflexivity|].
  cbn [vch mul_row length repeat]. unfold f_mul32 at 1.
  destruct (mul_carry x b c) as [v c1]. rewrite IH by (cbn in *; lia). reflexivity.
Qed.
Lemma vch_addmul32 a : forall o b c, length o = length a ->
  vch f_addmul32 o a (repeat b (length a)) c = addmul_row o a b c.
Proof.
  induction a as [|x a IH]; intros [|z o] b c H; try discriminate H; [reflexivity|].
  cbn [vch addmul_row length repeat]. unfold f_addmul32 at 1.
  destruct (add_mul_carry z x b c) as [v c1]. rewrite IH by (cbn in *; lia). reflexivity.
Qed.
Lemma vch_mul64 a : forall o b c, length o = length a ->
  vch f_mul64 o a (repeat b (length a)) c = x64_mpz_row0 a b c.
Proof.
  induction a as [|x a IH]; intros [|z o] b c H; try discriminate H; [reflexivity|].
  cbn [vch x64_mpz_row0 length repeat]. unfold f_mul64 at 1.
  destruct (addcarry_u64 0 (mulx_lo x b) c) as [p c1].
  destruct (addcarry_u64 c1 (mulx_hi x b) 0) as [hi c2].
  rewrite IH by (cbn in *; lia). reflexivity.
Qed.
Lemma vch_addmul64 a : forall o b c, length o = length a ->
  vch f_addmul64 o a (repeat b (length a)) c = x64_mpz_row o a b c.
Proof.
  induction a as [|x a IH]; intros [|z o] b c H; try discriminate H; [reflexivity|].
  cbn [vch x64_mpz_row length repeat]. unfold f_addmul64 at 1.
  destruct (addcarry_u64 0 z (mulx_lo x b)) as [p1 c1].
  destruct (addcarry_u64 c1 (mulx_hi x b) 0) as [h1 d1].
  destruct (addcarry_u64 0 p1 c) as [p2 c2].
  destruct (addcarry_u64 c2 h1 0) as [h2 d2].
  rewrite IH by (cbn in *; lia). reflexivity.
Qed.
Lemma vch_length f o : forall a b c, length a = length o -> length b = length o ->
  length (fst (vch f o a b c)) = length o.
Proof.
  induction o as [|x o IH]; intros [|y a] [|z b] c Ha Hb; try discriminate Ha; try discriminate Hb; [reflexivity|].
  cbn [vch]. destruct (f x y z c) as [v c1]. specialize (IH a b c1).
  destruct (vch f o a b c1) as [r c2]. cbn [fst length] in *. rewrite IH by lia. reflexivity.
Qed.
Lemma vals_length s r n m : src_ok r n s -> length (vals s n m) = n.
Proof. destruct s; cbn [src_ok vals]; intros H; rewrite ?rd_length, ?repeat_length; auto. Qed.

Lemma soa_src k r a : same_or_apart k r k a -> src_ok r k (Ptr a).
Proof. unfold same_or_apart. cbn [src_ok]. lia. Qed.

(** ** Modular addition and subtraction *)
Definition src_apart (r n : nat) (s : src) : Prop :=
  match s with
  | Ptr p => (p + n <= r \/ r + n <= p)%nat
  | At p => (p < r \/ r + n <= p)%nat
  | Cst _ => True
  | Imm l => length l = n
  end.
Lemma src_apart_ok r n s : src_apart r n s -> src_ok r n s.
Proof. destruct s; cbn [src_apart src_ok]; auto. lia. Qed.
Lemma vals_frame r n s k m m' : src_apart r n s -> (k <= n)%nat ->
  (forall q, (q < r \/ r + n <= q)%nat -> m' q = m q) -> vals s k m' = vals s k m.
Proof.
  intros Hs Hk H. destruct s as [p|p|v|l]; cbn [src_apart vals] in *; try reflexivity.
  - apply rd_ext. intros q Hq. apply H. lia.
  - rewrite H by lia. reflexivity.
Qed.

Lemma mod_op_spec cmp f g n r a b d m F G :
  src_ok r n a -> src_ok r n b -> src_apart r n d ->
  (forall o, length o = n -> vch f o (vals a n m) (vals b n m) 0 = F) ->
  (forall o, length o = n -> vch g o (fst F) (vals d n m) 0 = G) ->
  rd (mod_op_m cmp f g n r a b d m) r n =
    (if negb (snd F =? 0) || (0 <=? cmp (fst F) (vals d n m)) then fst G else fst F) /\
  (forall q, (q < r \/ r + n <= q)%nat -> mod_op_m cmp f g n r a b d m q = m q).
Proof.
  intros Ha Hb Hd HF HG. unfold mod_op_m.
  destruct (chain_spec f n r a b 0 m Ha Hb) as (C1 & C2 & C3).
  rewrite HF in C1, C2 by apply rd_length.
  destruct (chain f n r a b 0 m) as [m1 c]. cbn [fst snd] in C1, C2, C3. subst c.
  rewrite (vals_frame r n d n m m1 Hd (Nat.le_refl n) C3), C1.
  destruct (negb (snd F =? 0) || (0 <=? cmp (fst F) (vals d n m))).
  - assert (Hr : src_ok r n (Ptr r)) by (cbn [src_ok]; lia).
    destruct (chain_spec g n r (Ptr r) d 0 m1 Hr (src_apart_ok r n d Hd)) as (D1 & D2 & D3).
    cbn [vals] in D1. rewrite C1, (vals_frame r n d n m m1 Hd (Nat.le_refl n) C3) in D1.
    rewrite HG in D1.
    + split; [exact D1|]. intros q Hq. rewrite D3 by exact Hq. apply C3. exact Hq.
    + pose proof (rd_length m1 r n) as HL. rewrite C1 in HL. exact HL.
  - split; [exact C1|exact C3].
Qed.
Lemma mod_op_words w cmp f g n r a b d m : 0 <= w -> fw w f -> fw w g -> words w m -> srcw w a ->
  words w (mod_op_m cmp f g n r a b d m).
Proof.
  intros Hw Hf Hg Hm Ha. unfold mod_op_m.
  pose proof (chain_words w f n Hw Hf r a b 0 m Hm Ha) as H.
  destruct (chain f n r a b 0 m) as [m1 c]. cbn [fst] in H.
  destruct (negb (c =? 0) || _); [|exact H].
  apply chain_words; [exact Hw|exact Hg|exact H|exact I].
Qed.

Definition get32 (m : mem) (a : nat) : list Z := rd m a 8.
Definition get64 (m : mem) (a : nat) : list Z := rd m a 4.
Definition v1 (f : list Z -> list Z) (l : list (list Z)) : list Z := f (nth 0 l []).
Definition v2 (f : list Z -> list Z -> list Z) (l : list (list Z)) : list Z := f (nth 0 l []) (nth 1 l []).

Lemma args1 (P : nat -> Prop) l : length l = 1%nat -> Forall P l -> exists a, l = [a] /\ P a.
Proof.
  destruct l as [|a [|b l]]; intros H F; try discriminate H. exists a. inversion_clear F. auto.
Qed.
Lemma args2 (P : nat -> Prop) l : length l = 2%nat -> Forall P l -> exists a b, l = [a; b] /\ P a /\ P b.
Proof.
  destruct l as [|a [|b [|c l]]]; intros H F; try discriminate H. exists a, b.
  inversion_clear F. inversion_clear H1. auto.
Qed.


(** ** Multiplication, schoolbook rows *)
Section MulRows.
  Variables f0 f : Z -> Z -> Z -> Z -> Z * Z.
  Variable G0 : list Z -> Z -> list Z * Z.
  Variable G : list Z -> list Z -> Z -> list Z * Z.
  Hypothesis H0 : forall o x b, length o = length x -> vch f0 o x (repeat b (length x)) 0 = G0 x b.
  Hypothesis H1 : forall o x b, length o = length x -> vch f o x (repeat b (length x)) 0 = G o x b.

  Fixpoint vrows (r a bs : list Z) : list Z :=
    match bs with
    | [] => r
    | b :: bs' =>
        match G r a b with (h :: t, c) => h :: vrows (t ++ [c]) a bs' | ([], c) => [] end
    end.
  Definition vmul (a b : list Z) : list Z :=
    match b with
    | [] => []
    | b0 :: bs => match G0 a b0 with (h :: t, c) => h :: vrows (t ++ [c]) a bs | ([], c) => [] end
    end.

  (** the multiplicand: [k] limbs still to be read while r[0..] is written *)
  Definition bsrc (r e k : nat) (b : src) : Prop :=
    match b with
    | Ptr p => (p + k <= r \/ e <= p)%nat
    | Imm l => length l = k
    | _ => False
    end.
  Lemma bsrc_nxt r e k b : bsrc r e (S k) b -> bsrc (S r) e k (nxt b).
  Proof. destruct b; cbn [bsrc nxt]; try lia. rewrite skipn_length. lia. Qed.
  Lemma bsrc_vals r e k b m : bsrc r e (S k) b -> vals b (S k) m = ld b m :: vals (nxt b) k m.
  Proof.
    destruct b as [p|p|v|l]; cbn [bsrc vals nxt ld rd]; try contradiction; [reflexivity|].
    destruct l; [discriminate|reflexivity].
  Qed.
  Lemma bsrc_frame r e k b m m' : bsrc r e k b -> (forall q, (q < r \/ e <= q)%nat -> m' q = m q) ->
    vals b k m' = vals b k m.
  Proof.
    intros Hb H. destruct b as [p|p|v|l]; cbn [bsrc vals] in *; try contradiction; [|reflexivity].
    apply rd_ext. intros q Hq. apply H. lia.
  Qed.
  Lemma hd_src_ok r n e k b : (r + n <= e)%nat -> bsrc r e (S k) b -> src_ok r n (hd_src b).
  Proof. intros He. destruct b; cbn [bsrc hd_src src_ok]; try contradiction; [lia|auto]. Qed.
  Lemma hd_src_vals b r e k n m : bsrc r e (S k) b -> vals (hd_src b) n m = repeat (ld b m) n.
  Proof. destruct b; cbn [bsrc hd_src vals ld]; try contradiction; reflexivity. Qed.

  Lemma rows_spec n k : forall r a b m, (0 < n)%nat -> (a + n <= r \/ r + n + k <= a)%nat ->
    bsrc r (r + n + k) k b ->
    rd (rows_m f n k r a b m) r (n + k) = vrows (rd m r n) (rd m a n) (vals b k m) /\
    (forall q, (q < r \/ r + n + k <= q)%nat -> rows_m f n k r a b m q = m q).
  Proof.
    induction k as [|k IH]; intros r a b m Hn Ha Hb.
    - cbn [rows_m]. rewrite Nat.add_0_r. split; [|reflexivity].
      destruct b as [p|p|v|l]; cbn [bsrc vals rd vrows] in *; try contradiction; [reflexivity|].
      destruct l; [reflexivity|discriminate Hb].
    - cbn [rows_m].
      assert (Hs : src_ok r n (Ptr a)) by (cbn [src_ok]; lia).
      destruct (chain_spec f n r (Ptr a) (hd_src b) 0 m Hs (hd_src_ok r n (r + n + S k) k b ltac:(lia) Hb)) as (C1 & C2 & C3).
      rewrite (hd_src_vals b r _ k n m Hb) in C1, C2. cbn [vals] in C1, C2.
      assert (HG : vch f (rd m r n) (rd m a n) (repeat (ld b m) n) 0 = G (rd m r n) (rd m a n) (ld b m)).
      { rewrite <- (rd_length m a n) at 3. apply H1. rewrite !rd_length. reflexivity. }
      rewrite HG in C1, C2.
      destruct (chain f n r (Ptr a) (hd_src b) 0 m) as [m1 c] eqn:E. cbn [fst snd] in C1, C2, C3.
      rewrite (bsrc_vals r _ k b m Hb). cbn [vrows].
      destruct (G (rd m r n) (rd m a n) (ld b m)) as [u c'] eqn:EG. cbn [fst snd] in C1, C2. subst c'.
      destruct n as [|n]; [lia|]. cbn [rd] in C1. subst u.
      set (m2 := upd m1 (r + S n) c).
      assert (F2 : forall q, (q < r \/ r + S n + S k <= q)%nat -> m2 q = m q).
      { intros q Hq. subst m2. rewrite upd_ne by lia. apply C3. lia. }
      destruct (IH (S r) a (nxt b) m2 Hn) as (I1 & I2).
      { lia. }
      { replace (S r + S n + k)%nat with (r + S n + S k)%nat by lia. apply bsrc_nxt. exact Hb. }
      assert (T2 : rd m2 (S r) (S n) = rd m1 (S r) n ++ [c]).
      { rewrite <- (Nat.add_1_r n), rd_app. f_equal.
        - apply rd_upd_out. lia.
        - cbn [rd]. subst m2. replace (S r + n)%nat with (r + S n)%nat by lia. rewrite upd_eq. reflexivity. }
      rewrite T2 in I1.
      assert (A2 : rd m2 a (S n) = rd m a (S n)).
      { apply rd_ext. intros q Hq. apply F2. lia. }
      rewrite A2 in I1.
      rewrite (bsrc_frame r (r + S n + S k) k (nxt b) m m2) in I1.
      + replace (S n + S k)%nat with (S (S n + k))%nat by lia. cbn [rd]. split.
        * f_equal; [|exact I1]. rewrite I2 by lia. subst m2. apply upd_ne. lia.
        * intros q Hq. rewrite I2 by lia. apply F2. lia.
      + destruct b; cbn [bsrc nxt] in *; try contradiction; [lia|]. rewrite skipn_length. lia.
      + exact F2.
  Qed.

  Lemma mul_spec n r a b m : (0 < n)%nat -> (a + n <= r \/ r + n + n <= a)%nat ->
    bsrc r (r + n + n) n b ->
    rd (mul_m f0 f n r a b m) r (n + n) = vmul (rd m a n) (vals b n m) /\
    (forall q, (q < r \/ r + n + n <= q)%nat -> mul_m f0 f n r a b m q = m q).
  Proof.
    intros Hn Ha Hb. destruct n as [|n]; [lia|]. unfold mul_m.
    assert (Hs : src_ok r (S n) (Ptr a)) by (cbn [src_ok]; lia).
    destruct (chain_spec f0 (S n) r (Ptr a) (hd_src b) 0 m Hs (hd_src_ok r (S n) (r + S n + S n) n b ltac:(lia) Hb)) as (C1 & C2 & C3).
    rewrite (hd_src_vals b r _ n (S n) m Hb) in C1, C2. cbn [vals] in C1, C2.
    assert (HG : vch f0 (rd m r (S n)) (rd m a (S n)) (repeat (ld b m) (S n)) 0 = G0 (rd m a (S n)) (ld b m)).
    { rewrite <- (rd_length m a (S n)) at 3. apply H0. rewrite !rd_length. reflexivity. }
    rewrite HG in C1, C2.
    destruct (chain f0 (S n) r (Ptr a) (hd_src b) 0 m) as [m1 c] eqn:E. cbn [fst snd] in C1, C2, C3.
    rewrite (bsrc_vals r _ n b m Hb). cbn [vmul].
    destruct (G0 (rd m a (S n)) (ld b m)) as [u c'] eqn:EG. cbn [fst snd] in C1, C2. subst c'.
    cbn [rd] in C1. subst u.
    set (m2 := upd m1 (r + S n) c).
    assert (F2 : forall q, (q < r \/ r + S n + S n <= q)%nat -> m2 q = m q).
    { intros q Hq. subst m2. rewrite upd_ne by lia. apply C3. lia. }
    destruct (rows_spec (S n) n (S r) a (nxt b) m2 Hn) as (I1 & I2).
    { lia. }
    { replace (S r + S n + n)%nat with (r + S n + S n)%nat by lia. apply bsrc_nxt. exact Hb. }
    assert (T2 : rd m2 (S r) (S n) = rd m1 (S r) n ++ [c]).
    { rewrite <- (Nat.add_1_r n), rd_app. f_equal.
      - apply rd_upd_out. lia.
      - cbn [rd]. subst m2. replace (S r + n)%nat with (r + S n)%nat by lia. rewrite upd_eq. reflexivity. }
    rewrite T2 in I1.
    assert (A2 : rd m2 a (S n) = rd m a (S n)).
    { apply rd_ext. intros q Hq. apply F2. lia. }
    rewrite A2 in I1.
    rewrite (bsrc_frame r (r + S n + S n) n (nxt b) m m2) in I1.
    - replace (S n + S n)%nat with (S (S n + n))%nat by lia. cbn [rd]. split.
      + f_equal; [|exact I1]. rewrite I2 by lia. subst m2. apply upd_ne. lia.
      + intros q Hq. rewrite I2 by lia. apply F2. lia.
    - destruct b; cbn [bsrc nxt] in *; try contradiction; [lia|]. rewrite skipn_length. lia.
    - exact F2.
  Qed.

  Lemma mul_words w n r a b m : 0 <= w -> fw w f0 -> fw w f ->
    (forall o x y c, 0 <= snd (f0 o x y c) < 2 ^ w) -> (forall o x y c, 0 <= snd (f o x y c) < 2 ^ w) ->
    words w m -> words w (mul_m f0 f n r a b m).
  Proof.
    intros Hw W0 W1 K0 K1 Hm. unfold mul_m. destruct n as [|n]; [exact Hm|].
    assert (CK : forall g k rr aa bb cc mm, (forall o x y c, 0 <= snd (g o x y c) < 2 ^ w) ->
               0 <= cc < 2 ^ w -> 0 <= snd (chain g k rr aa bb cc mm) < 2 ^ w).
    { intros g k. induction k as [|k IHk]; intros rr aa bb cc mm Hg Hc; cbn [chain]; [exact Hc|].
      specialize (Hg (mm rr) (ld aa mm) (ld bb mm) cc) as Hg1.
      destruct (g (mm rr) (ld aa mm) (ld bb mm) cc) as [v c1]. apply IHk; assumption. }
    assert (P0 : 0 <= 0 < 2 ^ w) by (pose proof (Z.pow_pos_nonneg 2 w); lia).
    assert (RW : forall k rr bb mm, words w mm -> words w (rows_m f (S n) k rr a bb mm)).
    { induction k as [|k IHk]; intros rr bb mm Hmm; cbn [rows_m]; [exact Hmm|].
      pose proof (chain_words w f (S n) Hw W1 rr (Ptr a) (hd_src bb) 0 mm Hmm I) as Q1.
      pose proof (CK f (S n) rr (Ptr a) (hd_src bb) 0 mm K1 P0) as Q2.
      destruct (chain f (S n) rr (Ptr a) (hd_src bb) 0 mm) as [m1 c]. cbn [fst snd] in Q1, Q2.
      apply IHk. apply words_upd; assumption. }
    pose proof (chain_words w f0 (S n) Hw W0 r (Ptr a) (hd_src b) 0 m Hm I) as Q1.
    pose proof (CK f0 (S n) r (Ptr a) (hd_src b) 0 m K0 P0) as Q2.
    destruct (chain f0 (S n) r (Ptr a) (hd_src b) 0 m) as [m1 c]. cbn [fst snd] in Q1, Q2.
    apply RW. apply words_upd; assumption.
  Qed.
End MulRows.
Section C32.
  Variable ctx : mont_ctx.
  Variable P : Z.
  Hypothesis OK : mont_ctx_ok 32 8 P ctx.
  Let HPl : limbs 32 8 (m_P ctx) := co_P 32 8 P ctx OK.
  Let HP : length (m_P ctx) = 8%nat := proj1 HPl.

  Lemma m32_add_ok : call_ok 32 8 get32 2 (m32_add ctx) (v2 (mont256_add ctx)).
  Proof.
    intros sp r l m Hl Hr Ha Hm. destruct (args2 _ l Hl Ha) as (a & b & -> & (Ha1 & Ha2) & (Hb1 & Hb2)).
    unfold m32_add, v2, get32. cbn [arg nth map].
    destruct (mod_op_spec uint256_cmp f_add32 f_sub32 8 r (Ptr a) (Ptr b) (Imm (m_P ctx)) m
                (uint256_add_carry (rd m a 8) (rd m b 8))
                (uint256_sub_borrow (fst (uint256_add_carry (rd m a 8) (rd m b 8))) (m_P ctx)))
      as (S1 & S2); [exact (soa_src _ _ _ Ha2)|exact (soa_src _ _ _ Hb2)|exact HP| | |].
    - intros o Ho. apply vch_add32. cbn [vals]. rewrite rd_length. exact Ho.
    - intros o Ho. apply vch_sub32. unfold uint256_add_carry.
      rewrite <- (vch_add32 (rd m a 8) (rd m a 8)) by reflexivity.
      rewrite vch_length; rewrite ?rd_length; auto.
    - split; [|split].
      + rewrite S1. unfold mont256_add, uint256_mod_add.
        destruct (uint256_add_carry (rd m a 8) (rd m b 8)) as [s c]. reflexivity.
      + intros q _ Hq. apply S2. exact Hq.
      + apply mod_op_words; [lia|exact fw_add32|exact fw_sub32|exact Hm|exact I].
  Qed.
  Lemma m32_sub_ok : call_ok 32 8 get32 2 (m32_sub ctx) (v2 (mont256_sub ctx)).
  Proof.
    intros sp r l m Hl Hr Ha Hm. destruct (args2 _ l Hl Ha) as (a & b & -> & (Ha1 & Ha2) & (Hb1 & Hb2)).
    unfold m32_sub, v2, get32. cbn [arg nth map].
    destruct (mod_op_spec uint256_cmp f_sub32 f_add32 8 r (Ptr a) (Ptr b) (Imm (m_P ctx)) m
                (uint256_sub_borrow (rd m a 8) (rd m b 8))
                (uint256_add_carry (fst (uint256_sub_borrow (rd m a 8) (rd m b 8))) (m_P ctx)))
      as (S1 & S2); [exact (soa_src _ _ _ Ha2)|exact (soa_src _ _ _ Hb2)|exact HP| | |].
    - intros o Ho. apply vch_sub32. cbn [vals]. rewrite rd_length. exact Ho.
    - intros o Ho. apply vch_add32. unfold uint256_sub_borrow.
      rewrite <- (vch_sub32 (rd m a 8) (rd m a 8)) by reflexivity.
      rewrite vch_length; rewrite ?rd_length; auto.
    - split; [|split].
      + rewrite S1. unfold mont256_sub, uint256_mod_sub.
        destruct (uint256_sub_borrow (rd m a 8) (rd m b 8)) as [s c]. reflexivity.
      + intros q _ Hq. apply S2. exact Hq.
      + apply mod_op_words; [lia|exact fw_sub32|exact fw_add32|exact Hm|exact I].
  Qed.
  Lemma m32_dbl_ok : call_ok 32 8 get32 1 (m32_dbl ctx) (v1 (mont256_dbl ctx)).
  Proof.
    intros sp r l m Hl Hr Ha Hm. destruct (args1 _ l Hl Ha) as (a & -> & (Ha1 & Ha2)).
    unfold m32_dbl, v1, get32. cbn [arg nth map].
    destruct (mod_op_spec uint256_cmp f_dbl32 f_sub32 8 r (Ptr a) (Cst 0) (Imm (m_P ctx)) m
                (uint256_dbl_carry (rd m a 8))
                (uint256_sub_borrow (fst (uint256_dbl_carry (rd m a 8))) (m_P ctx)))
      as (S1 & S2); [exact (soa_src _ _ _ Ha2)|exact I|exact HP| | |].
    - intros o Ho. apply vch_dbl32; cbn [vals]; rewrite ?rd_length, ?repeat_length; auto.
    - intros o Ho. apply vch_sub32. unfold uint256_dbl_carry.
      rewrite <- (vch_dbl32 (rd m a 8) (rd m a 8) (rd m a 8)) by reflexivity.
      rewrite vch_length; rewrite ?rd_length; auto.
    - split; [|split].
      + rewrite S1. unfold mont256_dbl.
        destruct (uint256_dbl_carry (rd m a 8)) as [s c]. reflexivity.
      + intros q _ Hq. apply S2. exact Hq.
      + apply mod_op_words; [lia|exact fw_dbl32|exact fw_sub32|exact Hm|exact I].
  Qed.
  Lemma m32_neg_ok : call_ok 32 8 get32 1 (m32_neg ctx) (v1 (mont256_neg ctx)).
  Proof.
    intros sp r l m Hl Hr Ha Hm. destruct (args1 _ l Hl Ha) as (a & -> & (Ha1 & Ha2)).
    unfold m32_neg, v1, get32. cbn [arg nth map].
    set (m1 := if uint256_equal_zero (rd m a 8) then wr m r uint256_set_zero else m).
    assert (Hf : forall q, (q < r \/ r + 8 <= q)%nat -> m1 q = m q).
    { intros q Hq. subst m1. destruct (uint256_equal_zero (rd m a 8)); [|reflexivity].
      apply wr_out. exact Hq. }
    assert (Hm1 : words 32 m1).
    { subst m1. destruct (uint256_equal_zero (rd m a 8)); [|exact Hm].
      apply wr_words; [exact Hm|exact (proj2 (limbs_zeros 32 8 ltac:(lia)))]. }
    assert (Hv : rd m1 a 8 = rd m a 8).
    { destruct Ha2 as [->|Ha2]; [|apply rd_ext; intros q Hq; apply Hf; lia].
      subst m1. destruct (uint256_equal_zero (rd m r 8)) eqn:E; [|reflexivity].
      transitivity uint256_set_zero; [exact (wr_in uint256_set_zero m r)|].
      assert (HL : limbs 32 8 (rd m r 8)) by (split; [apply rd_length|apply rd_words; exact Hm]).
      unfold uint256_equal_zero in E. rewrite (equal_zero_spec 32 8 _ ltac:(lia) HL) in E.
      apply Z.eqb_eq in E. symmetry.
      exact (val_inj 32 8 (rd m r 8) uint256_set_zero ltac:(lia) HL (limbs_zeros 32 8 ltac:(lia)) E). }
    destruct (chain_spec f_sub32 8 r (Imm (m_P ctx)) (Ptr a) 0 m1 HP (soa_src _ _ _ Ha2)) as (C1 & C2 & C3).
    split; [|split].
    - rewrite C1. cbn [vals]. rewrite Hv, vch_sub32 by (rewrite rd_length; auto). reflexivity.
    - intros q _ Hq. rewrite C3 by exact Hq. apply Hf. exact Hq.
    - apply chain_words; [lia|exact fw_sub32|exact Hm1|exact (proj2 HPl)].
  Qed.
End C32.

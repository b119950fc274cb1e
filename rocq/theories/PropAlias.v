(** C71: the number library and the Montgomery operations, on memory: they may be called with the
    result array equal to an operand, and they write nothing but the result.  The calls are those of
    ModelAlias.v (pointers into one memory, limb by limb); the conclusions are about the integers
    the arrays stand for.  Both builds. *)
From Verif Require Import Base BaseFacts SpecNumber ModelNumber ModelNumberX64 ModelMont SpecMont.
From Verif Require Import ModelAlias SpecAlias ProofAlias ProofAlias2 ProofAlias3 ProofAlias4 ProofAlias5.
From Verif Require Import ProofMont ProofMont2 PropNumber.
From Coq Require Import Znumtheory.

Lemma rd_limbs w m p n : words w m -> limbs w n (rd m p n).
Proof. intros H. split; [apply rd_length|now apply rd_words]. Qed.
Lemma ok_pair {A B} (a a' : A) (b b' : B) : Ok (a, b) = Ok (a', b') -> a = a' /\ b = b'.
Proof. intros H. injection H as H1 H2. exact (conj H1 H2). Qed.
Lemma leaves_exact w r k m x v V lo hi : leaves w r k m x v ->
  (let (l, c) := v in limbs w k l /\ lo <= c <= hi /\ val w l + 2 ^ (w * Z.of_nat k) * c = V) ->
  exact_at w r k m x V lo hi.
Proof.
  intros (E & F & W) H. rewrite <- E in H. destruct H as (_ & H1 & H2).
  split; [exact H2|]. split; [exact H1|]. split; assumption.
Qed.

(** ** Arrays of any number of limbs (mpz), result equal to either operand or both *)
Theorem C71_mpz_add : forall n r a b c m, (0 < n)%nat -> 0 <= c <= 1 ->
  same_or_apart n r n a -> same_or_apart n r n b ->
  (words 32 m -> exact_at 32 r n m (mpz_add_carry_m n r a b c m)
     (val 32 (rd m a n) + val 32 (rd m b n) + c) 0 1) /\
  (words 64 m -> exact_at 64 r n m (x64_mpz_add_carry_m n r a b c m)
     (val 64 (rd m a n) + val 64 (rd m b n) + c) 0 1).
Proof.
  intros n r a b c m Hn Hc Ha Hb. split; intros Hm.
  - refine (leaves_exact _ _ _ _ _ _ _ _ _ (mpz_add_leaves n r a b c m Ha Hb Hm) _).
    exact (proj1 (C32_mpz_add_exact n (rd m a n) (rd m b n) c Hn Hc) (rd_limbs _ _ _ _ Hm) (rd_limbs _ _ _ _ Hm)).
  - refine (leaves_exact _ _ _ _ _ _ _ _ _ (x64_mpz_add_leaves n r a b c m Ha Hb Hm) _).
    exact (proj2 (C32_mpz_add_exact n (rd m a n) (rd m b n) c Hn Hc) (rd_limbs _ _ _ _ Hm) (rd_limbs _ _ _ _ Hm)).
Qed.

Theorem C71_mpz_sub : forall n r a b c m, (0 < n)%nat -> -1 <= c <= 0 ->
  same_or_apart n r n a -> same_or_apart n r n b ->
  (words 32 m -> exact_at 32 r n m (mpz_sub_borrow_m n r a b c m)
     (val 32 (rd m a n) - val 32 (rd m b n) + c) (-1) 0) /\
  (words 64 m -> exact_at 64 r n m (x64_mpz_sub_borrow_m n r a b c m)
     (val 64 (rd m a n) - val 64 (rd m b n) + c) (-1) 0).
Proof.
  intros n r a b c m Hn Hc Ha Hb. split; intros Hm.
  - refine (leaves_exact _ _ _ _ _ _ _ _ _ (mpz_sub_leaves n r a b c m Ha Hb Hm) _).
    exact (proj1 (C32_mpz_sub_exact n (rd m a n) (rd m b n) c Hn Hc) (rd_limbs _ _ _ _ Hm) (rd_limbs _ _ _ _ Hm)).
  - refine (leaves_exact _ _ _ _ _ _ _ _ _ (x64_mpz_sub_leaves n r a b c m Ha Hb Hm) _).
    exact (proj2 (C32_mpz_sub_exact n (rd m a n) (rd m b n) c Hn Hc) (rd_limbs _ _ _ _ Hm) (rd_limbs _ _ _ _ Hm)).
Qed.

(** The product of 2n limbs must be apart from both factors, which may coincide. *)
Theorem C71_mpz_mul : forall n r a b m, (0 < n)%nat ->
  (a + n <= r \/ r + n + n <= a)%nat -> (b + n <= r \/ r + n + n <= b)%nat ->
  (words 32 m ->
     val 32 (rd (mpz_mul_m n r a b m) r (n + n)) = val 32 (rd m a n) * val 32 (rd m b n) /\
     only_changes r (n + n) m (mpz_mul_m n r a b m) /\ words 32 (mpz_mul_m n r a b m)) /\
  (words 64 m ->
     val 64 (rd (x64_mpz_mul_m n r a b m) r (n + n)) = val 64 (rd m a n) * val 64 (rd m b n) /\
     only_changes r (n + n) m (x64_mpz_mul_m n r a b m) /\ words 64 (x64_mpz_mul_m n r a b m)).
Proof.
  intros n r a b m Hn Ha Hb. split; intros Hm.
  - destruct (mpz_mul_leaves n r a b m Hn Ha Hb Hm) as (E & F). split; [|exact F]. rewrite E.
    exact (proj2 (proj1 (C32_mpz_mul_exact n (rd m a n) (rd m b n)) (rd_limbs _ _ _ _ Hm) (rd_limbs _ _ _ _ Hm))).
  - destruct (x64_mpz_mul_leaves n r a b m Hn Ha Hb Hm) as (E & F). split; [|exact F]. rewrite E.
    exact (proj2 (proj2 (C32_mpz_mul_exact n (rd m a n) (rd m b n)) (rd_limbs _ _ _ _ Hm) (rd_limbs _ _ _ _ Hm))).
Qed.

(** With the product written over the first factor the result is wrong. *)
Definition ex_mem (p : nat) (l : list Z) : mem := wr (fun _ => 0) p l.
Theorem C71_mul_over_factor_refuted : exists m,
  words 32 m /\ words 64 m /\
  val 32 (rd (mpz_mul_m 2 0 0 8 m) 0 4) <> val 32 (rd m 0 2) * val 32 (rd m 8 2) /\
  val 64 (rd (x64_mpz_mul_m 2 0 0 8 m) 0 4) <> val 64 (rd m 0 2) * val 64 (rd m 8 2).
Proof.
  exists (ex_mem 0 [1; 1; 0; 0; 0; 0; 0; 0; 2; 3]).
  assert (W : forall w, 3 < w -> words w (ex_mem 0 [1; 1; 0; 0; 0; 0; 0; 0; 2; 3])).
  { intros w Hw q. assert (2 ^ 3 <= 2 ^ w) by (apply Z.pow_le_mono_r; lia). change (2 ^ 3) with 8 in H.
    assert (0 <= ex_mem 0 [1; 1; 0; 0; 0; 0; 0; 0; 2; 3] q < 8); [|lia].
    do 10 (destruct q as [|q]; [vm_compute; split; congruence|]).
    unfold ex_mem. cbn [wr]. unfold upd. cbn. lia. }
  split; [apply W; lia|]. split; [apply W; lia|].
  split; intros H; vm_compute in H; discriminate H.
Qed.

(** A result that overlaps an operand without being equal to it is wrong: here it starts one limb
    above the operand. *)
Theorem C71_overlap_refuted : exists m,
  words 32 m /\ words 64 m /\
  val 32 (rd (fst (mpz_add_carry_m 3 1 0 8 0 m)) 1 3) <> val 32 (rd m 0 3) + val 32 (rd m 8 3) /\
  val 64 (rd (fst (x64_mpz_add_carry_m 3 1 0 8 0 m)) 1 3) <> val 64 (rd m 0 3) + val 64 (rd m 8 3).
Proof.
  exists (ex_mem 0 [1; 2; 3]).
  assert (W : forall w, 3 < w -> words w (ex_mem 0 [1; 2; 3])).
  { intros w Hw q. assert (2 ^ 3 <= 2 ^ w) by (apply Z.pow_le_mono_r; lia). change (2 ^ 3) with 8 in H.
    assert (0 <= ex_mem 0 [1; 2; 3] q < 8); [|lia].
    do 3 (destruct q as [|q]; [vm_compute; split; congruence|]).
    unfold ex_mem. cbn [wr]. unfold upd. cbn. lia. }
  split; [apply W; lia|]. split; [apply W; lia|].
  split; intros H; vm_compute in H; discriminate H.
Qed.

(** ** uint256, portable build *)
Theorem C71_uint256_dbl_tpl : forall r a m, same_or_apart 8 r 8 a -> words 32 m ->
  exact_at 32 r 8 m (uint256_dbl_carry_m r a m) (2 * val 32 (rd m a 8)) 0 1 /\
  exact_at 32 r 8 m (uint256_tpl_carry_m r a m) (3 * val 32 (rd m a 8)) 0 2.
Proof.
  intros r a m Ha Hm. split.
  - refine (leaves_exact _ _ _ _ _ _ _ _ _ (u256_dbl_leaves r a m Ha Hm) _).
    exact (C30_dbl_exact _ (rd_limbs _ _ _ _ Hm)).
  - refine (leaves_exact _ _ _ _ _ _ _ _ _ (u256_tpl_leaves r a m Ha Hm) _).
    exact (C30_tpl_exact _ (rd_limbs _ _ _ _ Hm)).
Qed.

Theorem C71_uint256_word : forall r a x m, same_or_apart 8 r 8 a -> words 32 m -> 0 <= x < 2 ^ 32 ->
  exact_at 32 r 8 m (uint256_add_carry_uint32_m r a x m) (val 32 (rd m a 8) + x) 0 1 /\
  exact_at 32 r 8 m (uint256_sub_borrow_uint32_m r a x m) (val 32 (rd m a 8) - x) (-1) 0 /\
  exact_at 32 r 8 m (uint256_mul_carry_uint32_m r a x m) (val 32 (rd m a 8) * x) 0 (2 ^ 32 - 1).
Proof.
  intros r a x m Ha Hm Hx.
  destruct (u256_word_leaves r a x m Ha Hm) as (L1 & L2 & L3).
  destruct (C30_word_ops_exact (rd m a 8) x (rd_limbs _ _ _ _ Hm) Hx) as (E1 & E2 & E3).
  split; [exact (leaves_exact _ _ _ _ _ _ _ _ _ L1 E1)|].
  split; [exact (leaves_exact _ _ _ _ _ _ _ _ _ L2 E2)|].
  refine (leaves_exact _ _ _ _ _ _ _ _ _ L3 _).
  destruct (uint256_mul_carry_uint32 (rd m a 8) x) as [l c]. destruct E3 as (E3 & E4 & E5).
  split; [exact E3|]. split; [lia|exact E5].
Qed.

(** The quotient may overwrite the dividend; what is returned is the remainder as a 32-bit word. *)
Theorem C71_uint256_div : forall r a d m, same_or_apart 8 r 8 a -> words 32 m -> 0 < d < 2 ^ 32 ->
  val 32 (rd (fst (div_uint32_m 8 r a 0 d m)) r 8) = val 32 (rd m a 8) / d /\
  w32 (snd (div_uint32_m 8 r a 0 d m)) = val 32 (rd m a 8) mod d /\
  only_changes r 8 m (fst (div_uint32_m 8 r a 0 d m)).
Proof.
  intros r a d m Ha Hm Hd.
  destruct (div_m_spec 8 r a 0 d m) as (E & F); [destruct Ha as [H|[H|H]]; lia|].
  destruct (C30_div_exact (rd m a 8) d (rd_limbs _ _ _ _ Hm) Hd) as (q & x & D & _ & D1 & D2).
  unfold uint256_div_uint32 in D. destruct (d =? 0); [discriminate D|].
  rewrite <- E in D. rewrite rev_involutive in D. apply ok_pair in D.
  destruct D as [D3 D4]. rewrite D3, D4. split; [exact D1|]. split; [exact D2|].
  intros p Hp. exact (F p Hp).
Qed.

(** Modular addition and subtraction: the divisor must be apart from the result. *)
Theorem C71_uint256_modular : forall r a b d m, same_or_apart 8 r 8 a -> same_or_apart 8 r 8 b ->
  (d + 8 <= r \/ r + 8 <= d)%nat -> words 32 m ->
  val 32 (rd m a 8) < val 32 (rd m d 8) -> val 32 (rd m b 8) < val 32 (rd m d 8) ->
  (let m' := mod_op_m uint256_cmp f_add32 f_sub32 8 r (Ptr a) (Ptr b) (Ptr d) m in
   val 32 (rd m' r 8) = (val 32 (rd m a 8) + val 32 (rd m b 8)) mod val 32 (rd m d 8) /\
   only_changes r 8 m m') /\
  (let m' := mod_op_m uint256_cmp f_sub32 f_add32 8 r (Ptr a) (Ptr b) (Ptr d) m in
   val 32 (rd m' r 8) = (val 32 (rd m a 8) - val 32 (rd m b 8)) mod val 32 (rd m d 8) /\
   only_changes r 8 m m').
Proof.
  intros r a b d m Ha Hb Hd Hm V1 V2.
  destruct (mod_add_32 r a b d m Ha Hb Hd Hm) as (A1 & A2 & _).
  destruct (mod_sub_32 r a b d m Ha Hb Hd Hm) as (S1 & S2 & _).
  destruct (C30_modular_exact (rd m a 8) (rd m b 8) (rd m d 8) (rd_limbs _ _ _ _ Hm) (rd_limbs _ _ _ _ Hm)
              (rd_limbs _ _ _ _ Hm) V1 V2) as ((_ & E1) & (_ & E2) & _).
  split; [exact (conj (eq_trans (f_equal (val 32) A1) E1) A2)|exact (conj (eq_trans (f_equal (val 32) S1) E2) S2)].
Qed.

Theorem C71_modular_over_divisor_refuted : exists m,
  words 32 m /\ words 64 m /\
  val 32 (rd m 0 8) < val 32 (rd m 16 8) /\ val 32 (rd m 8 8) < val 32 (rd m 16 8) /\
  val 64 (rd m 0 4) < val 64 (rd m 16 4) /\ val 64 (rd m 8 4) < val 64 (rd m 16 4) /\
  val 32 (rd (mod_op_m uint256_cmp f_add32 f_sub32 8 16 (Ptr 0) (Ptr 8) (Ptr 16) m) 16 8)
    <> (val 32 (rd m 0 8) + val 32 (rd m 8 8)) mod val 32 (rd m 16 8) /\
  val 64 (rd (mod_op_m x64_cmp f_add64 f_sub64 4 16 (Ptr 0) (Ptr 8) (Ptr 16) m) 16 4)
    <> (val 64 (rd m 0 4) + val 64 (rd m 8 4)) mod val 64 (rd m 16 4).
Proof.
  exists (ex_mem 0 [1; 0; 0; 0; 0; 0; 0; 0; 2; 0; 0; 0; 0; 0; 0; 0; 5]).
  assert (W : forall w, 3 < w -> words w (ex_mem 0 [1; 0; 0; 0; 0; 0; 0; 0; 2; 0; 0; 0; 0; 0; 0; 0; 5])).
  { intros w Hw q. assert (2 ^ 3 <= 2 ^ w) by (apply Z.pow_le_mono_r; lia). change (2 ^ 3) with 8 in H.
    assert (0 <= ex_mem 0 [1; 0; 0; 0; 0; 0; 0; 0; 2; 0; 0; 0; 0; 0; 0; 0; 5] q < 8); [|lia].
    do 17 (destruct q as [|q]; [vm_compute; split; congruence|]).
    unfold ex_mem. cbn [wr]. unfold upd. cbn. lia. }
  split; [apply W; lia|]. split; [apply W; lia|].
  repeat (split; [vm_compute; reflexivity|]).
  split; intros H; vm_compute in H; discriminate H.
Qed.

(** ** uint256, x64 build *)
Theorem C71_x64_tpl : forall sp r a m, (r + 4 <= sp)%nat -> (a + 4 <= sp)%nat ->
  same_or_apart 4 r 4 a -> words 64 m ->
  let x := x64_tpl_carry_m sp r a m in
  val 64 (rd (fst x) r 4) + 2 ^ 256 * snd x = 3 * val 64 (rd m a 4) /\ 0 <= snd x <= 2 /\
  (forall q, (q < sp)%nat -> (q < r \/ r + 4 <= q)%nat -> fst x q = m q).
Proof.
  intros sp r a m Hr Has Ha Hm. destruct (x64_tpl_leaves sp r a m Hr Has Ha Hm) as (E & F & _).
  destruct (C31_dbl_tpl_exact (rd m a 4) (rd_limbs _ _ _ _ Hm)) as [_ D].
  rewrite <- E in D. destruct D as (_ & D1 & D2). cbv zeta. split; [exact D2|]. split; [exact D1|exact F].
Qed.

Theorem C71_x64_mul_word : forall r a x m, same_or_apart 4 r 4 a -> words 64 m -> 0 <= x < 2 ^ 64 ->
  exact_at 64 r 4 m (x64_mul_carry_uint64_m r a x m) (val 64 (rd m a 4) * x) 0 (2 ^ 64 - 1).
Proof.
  intros r a x m Ha Hm Hx.
  refine (leaves_exact _ _ _ _ _ _ _ _ _ (x64_mul_word_leaves r a x m Ha Hm) _).
  destruct (C31_word_ops_exact (rd m a 4) x (rd_limbs _ _ _ _ Hm) Hx) as (_ & _ & E3).
  destruct (x64_mul_carry_uint64 (rd m a 4) x) as [l c]. destruct E3 as (E3 & E4 & E5).
  split; [exact E3|]. split; [lia|exact E5].
Qed.

Theorem C71_x64_mul : forall r a b m,
  (a + 4 <= r \/ r + 8 <= a)%nat -> (b + 4 <= r \/ r + 8 <= b)%nat -> words 64 m ->
  val 64 (rd (x64_mul_m r a (Ptr b) m) r 8) = val 64 (rd m a 4) * val 64 (rd m b 4) /\
  only_changes r 8 m (x64_mul_m r a (Ptr b) m) /\ words 64 (x64_mul_m r a (Ptr b) m).
Proof.
  intros r a b m Ha Hb Hm. destruct (x64_u256_mul_leaves r a b m Ha Hb Hm) as (E & F).
  split; [|exact F]. rewrite E.
  exact (proj2 (C31_mul_exact (rd m a 4) (rd m b 4) (rd_limbs _ _ _ _ Hm) (rd_limbs _ _ _ _ Hm))).
Qed.

Theorem C71_x64_modular : forall r a b d m, same_or_apart 4 r 4 a -> same_or_apart 4 r 4 b ->
  (d + 4 <= r \/ r + 4 <= d)%nat -> words 64 m ->
  val 64 (rd m a 4) < val 64 (rd m d 4) -> val 64 (rd m b 4) < val 64 (rd m d 4) ->
  (let m' := mod_op_m x64_cmp f_add64 f_sub64 4 r (Ptr a) (Ptr b) (Ptr d) m in
   val 64 (rd m' r 4) = (val 64 (rd m a 4) + val 64 (rd m b 4)) mod val 64 (rd m d 4) /\
   only_changes r 4 m m') /\
  (let m' := mod_op_m x64_cmp f_sub64 f_add64 4 r (Ptr a) (Ptr b) (Ptr d) m in
   val 64 (rd m' r 4) = (val 64 (rd m a 4) - val 64 (rd m b 4)) mod val 64 (rd m d 4) /\
   only_changes r 4 m m').
Proof.
  intros r a b d m Ha Hb Hd Hm V1 V2.
  destruct (mod_add_64 r a b d m Ha Hb Hd Hm) as (A1 & A2 & _).
  destruct (mod_sub_64 r a b d m Ha Hb Hd Hm) as (S1 & S2 & _).
  destruct (C31_modular_exact (rd m a 4) (rd m b 4) (rd m d 4) (rd_limbs _ _ _ _ Hm) (rd_limbs _ _ _ _ Hm)
              (rd_limbs _ _ _ _ Hm) V1 V2) as ((_ & E1) & (_ & E2) & _).
  split; [exact (conj (eq_trans (f_equal (val 64) A1) E1) A2)|exact (conj (eq_trans (f_equal (val 64) S1) E2) S2)].
Qed.

(** ** Montgomery operations *)
Definition x_ (xs : list Z) (i : nat) : Z := nth i xs 0.
Definition any (_ : list Z) : Prop := True.
Lemma call_mont w k P n p f (pre : list Z -> Prop) post : call_ok w k (fun m a => rd m a k) n p f ->
  (forall ls xs, length ls = n -> Forall2 (fun l x => mont_repr w k P l x) ls xs -> pre xs ->
     exists y, mont_repr w k P (f ls) y /\ post xs y) ->
  mont_call w k P n p pre post.
Proof.
  intros C H sp r args m xs Hl Hr Ha Hm Hx Hp.
  destruct (C sp r args m Hl Hr Ha Hm) as (C1 & C2 & C3). split; [|split; assumption].
  rewrite C1. apply (H (map (fun a => rd m a k) args) xs); [now rewrite map_length| |exact Hp].
  clear - Hx. induction Hx; cbn [map]; constructor; assumption.
Qed.
Lemma one_arg w k P (pre : list Z -> Prop) (post : list Z -> Z -> Prop) f : (forall l x, mont_repr w k P l x -> pre [x] -> exists y, mont_repr w k P (f l) y /\ post [x] y) ->
  forall ls xs, length ls = 1%nat -> Forall2 (fun l x => mont_repr w k P l x) ls xs -> pre xs ->
     exists y, mont_repr w k P (v1 f ls) y /\ post xs y.
Proof.
  intros H ls xs Hl Hx Hp. destruct Hx as [|l x ls xs Hx Hxs]; [discriminate Hl|].
  destruct Hxs as [|? ? ? ? ? ?]; [|discriminate Hl]. exact (H l x Hx Hp).
Qed.
Lemma two_args w k P (pre : list Z -> Prop) (post : list Z -> Z -> Prop) f :
  (forall l x l' x', mont_repr w k P l x -> mont_repr w k P l' x' -> pre [x; x'] ->
     exists y, mont_repr w k P (f l l') y /\ post [x; x'] y) ->
  forall ls xs, length ls = 2%nat -> Forall2 (fun l x => mont_repr w k P l x) ls xs -> pre xs ->
     exists y, mont_repr w k P (v2 f ls) y /\ post xs y.
Proof.
  intros H ls xs Hl Hx Hp. destruct Hx as [|l x ls xs Hx Hxs]; [discriminate Hl|].
  destruct Hxs as [|l' x' ls xs Hx' Hxs]; [discriminate Hl|].
  destruct Hxs as [|? ? ? ? ? ?]; [|discriminate Hl]. exact (H l x l' x' Hx Hx' Hp).
Qed.

Theorem C71_mont_common : forall ctx P, mont_ctx_ok 32 8 P ctx ->
  mont_call 32 8 P 2 (m32_add ctx) any (fun xs y => y = (x_ xs 0 + x_ xs 1) mod P) /\
  mont_call 32 8 P 2 (m32_sub ctx) any (fun xs y => y = (x_ xs 0 - x_ xs 1) mod P) /\
  mont_call 32 8 P 2 (m32_mul ctx) any (fun xs y => y = (x_ xs 0 * x_ xs 1) mod P) /\
  mont_call 32 8 P 1 (m32_sqr ctx) any (fun xs y => y = (x_ xs 0 * x_ xs 0) mod P) /\
  mont_call 32 8 P 1 (m32_dbl ctx) any (fun xs y => y = (2 * x_ xs 0) mod P) /\
  (2 ^ 255 <= P -> mont_call 32 8 P 1 (m32_tpl ctx) any (fun xs y => y = (3 * x_ xs 0) mod P)) /\
  mont_call 32 8 P 1 (m32_neg ctx) (fun xs => x_ xs 0 <> 0) (fun xs y => y = (- x_ xs 0) mod P) /\
  mont_call 32 8 P 1 (div2_m 32 f_add32 8 ctx) any (fun xs y => (2 * y) mod P = x_ xs 0) /\
  (prime P -> mont_call 32 8 P 1 (m32_inv ctx) (fun xs => x_ xs 0 <> 0) (fun xs y => (x_ xs 0 * y) mod P = 1)) /\
  (forall b, bytes b -> length b = 32%nat ->
     mont_call 32 8 P 0 (m32_from_bytes ctx b) any (fun _ y => y = be_val b mod P)).
Proof.
  intros ctx P OK.
  split. { apply (call_mont _ _ _ _ _ _ _ _ (m32_add_ok ctx P OK)). apply two_args. intros l x l' x' H H' _.
    eexists; split; [exact (proj1 (C33_common_ring ctx P l l' x x' OK H H'))|reflexivity]. }
  split. { apply (call_mont _ _ _ _ _ _ _ _ (m32_sub_ok ctx P OK)). apply two_args. intros l x l' x' H H' _.
    eexists; split; [exact (proj1 (proj2 (C33_common_ring ctx P l l' x x' OK H H')))|reflexivity]. }
  split. { apply (call_mont _ _ _ _ _ _ _ _ (m32_mul_ok ctx P OK)). apply two_args. intros l x l' x' H H' _.
    eexists; split; [exact (proj1 (proj2 (proj2 (C33_common_ring ctx P l l' x x' OK H H'))))|reflexivity]. }
  split. { apply (call_mont _ _ _ _ _ _ _ _ (m32_sqr_ok ctx P OK)). apply one_arg. intros l x H _.
    eexists; split; [exact (proj1 (proj2 (proj2 (proj2 (C33_common_ring ctx P l l x x OK H H)))))|reflexivity]. }
  split. { apply (call_mont _ _ _ _ _ _ _ _ (m32_dbl_ok ctx P OK)). apply one_arg. intros l x H _.
    eexists; split; [exact (proj1 (proj2 (proj2 (proj2 (proj2 (C33_common_ring ctx P l l x x OK H H))))))|reflexivity]. }
  split. { intros HP. apply (call_mont _ _ _ _ _ _ _ _ (m32_tpl_ok ctx P OK)). apply one_arg. intros l x H _.
    eexists; split; [exact (C33_common_tpl ctx P l x OK HP H)|reflexivity]. }
  split. { apply (call_mont _ _ _ _ _ _ _ _ (m32_neg_ok ctx P OK)). apply one_arg. intros l x H Hx.
    eexists; split; [exact (C35_common_neg_partial ctx P l x OK H Hx)|reflexivity]. }
  split. { apply (call_mont _ _ _ _ _ _ _ _ (div2_m32_ok ctx P OK)). apply one_arg. intros l x H _.
    exact (proj2 (proj2 (proj2 (proj2 (proj2 (C33_common_ring ctx P l l x x OK H H)))))). }
  split. { intros Hp. apply (call_mont _ _ _ _ _ _ _ _ (m32_inv_ok ctx P OK)). apply one_arg. intros l x H Hx.
    exact (C34_inv ctx P l x OK Hp H Hx). }
  intros b Hb Hl. apply (call_mont _ _ _ _ _ _ _ _ (m32_from_bytes_ok ctx P OK b Hb Hl)). intros ls xs _ _ _.
  eexists; split; [exact (from_bytes_repr ctx P OK b Hb Hl)|reflexivity].
Qed.

Theorem C71_mont_x64 : forall ctx P, mont_ctx_ok 64 4 P ctx ->
  mont_call 64 4 P 2 (m64_add ctx) any (fun xs y => y = (x_ xs 0 + x_ xs 1) mod P) /\
  mont_call 64 4 P 2 (m64_sub ctx) any (fun xs y => y = (x_ xs 0 - x_ xs 1) mod P) /\
  mont_call 64 4 P 2 (m64_mul ctx) any (fun xs y => y = (x_ xs 0 * x_ xs 1) mod P) /\
  mont_call 64 4 P 1 (m64_sqr ctx) any (fun xs y => y = (x_ xs 0 * x_ xs 0) mod P) /\
  mont_call 64 4 P 1 (m64_dbl ctx) any (fun xs y => y = (2 * x_ xs 0) mod P) /\
  mont_call 64 4 P 1 (m64_tpl ctx) any (fun xs y => y = (3 * x_ xs 0) mod P) /\
  mont_call 64 4 P 1 (m64_neg ctx) any (fun xs y => y = (- x_ xs 0) mod P) /\
  mont_call 64 4 P 1 (div2_m 64 f_add64 4 ctx) any (fun xs y => (2 * y) mod P = x_ xs 0) /\
  (prime P -> mont_call 64 4 P 1 (m64_inv ctx) (fun xs => x_ xs 0 <> 0) (fun xs y => (x_ xs 0 * y) mod P = 1)) /\
  (forall b, bytes b -> length b = 32%nat ->
     mont_call 64 4 P 0 (m64_from_bytes ctx b) any (fun _ y => y = be_val b mod P)).
Proof.
  intros ctx P OK.
  split. { apply (call_mont _ _ _ _ _ _ _ _ (m64_add_ok ctx P OK)). apply two_args. intros l x l' x' H H' _.
    eexists; split; [exact (proj1 (C33_x64_ring ctx P l l' x x' OK H H'))|reflexivity]. }
  split. { apply (call_mont _ _ _ _ _ _ _ _ (m64_sub_ok ctx P OK)). apply two_args. intros l x l' x' H H' _.
    eexists; split; [exact (proj1 (proj2 (C33_x64_ring ctx P l l' x x' OK H H')))|reflexivity]. }
  split. { apply (call_mont _ _ _ _ _ _ _ _ (m64_mul_ok ctx P OK)). apply two_args. intros l x l' x' H H' _.
    eexists; split; [exact (proj1 (proj2 (proj2 (C33_x64_ring ctx P l l' x x' OK H H'))))|reflexivity]. }
  split. { apply (call_mont _ _ _ _ _ _ _ _ (m64_sqr_ok ctx P OK)). apply one_arg. intros l x H _.
    eexists; split; [exact (proj1 (proj2 (proj2 (proj2 (C33_x64_ring ctx P l l x x OK H H)))))|reflexivity]. }
  split. { apply (call_mont _ _ _ _ _ _ _ _ (m64_dbl_ok ctx P OK)). apply one_arg. intros l x H _.
    eexists; split; [exact (proj1 (proj2 (proj2 (proj2 (proj2 (C33_x64_ring ctx P l l x x OK H H))))))|reflexivity]. }
  split. { apply (call_mont _ _ _ _ _ _ _ _ (m64_tpl_ok ctx P OK)). apply one_arg. intros l x H _.
    eexists; split; [exact (proj1 (proj2 (proj2 (proj2 (proj2 (proj2 (C33_x64_ring ctx P l l x x OK H H)))))))|reflexivity]. }
  split. { apply (call_mont _ _ _ _ _ _ _ _ (m64_neg_ok ctx P OK)). apply one_arg. intros l x H _.
    eexists; split; [exact (C35_x64_neg ctx P l x OK H)|reflexivity]. }
  split. { apply (call_mont _ _ _ _ _ _ _ _ (div2_m64_ok ctx P OK)). apply one_arg. intros l x H _.
    exact (proj2 (proj2 (proj2 (proj2 (proj2 (proj2 (C33_x64_ring ctx P l l x x OK H H))))))). }
  split. { intros Hp. apply (call_mont _ _ _ _ _ _ _ _ (m64_inv_ok ctx P OK)). apply one_arg. intros l x H Hx.
    exact (C34_x64_inv ctx P l x OK Hp H Hx). }
  intros b Hb Hl. apply (call_mont _ _ _ _ _ _ _ _ (m64_from_bytes_ok ctx P OK b Hb Hl)). intros ls xs _ _ _.
  eexists; split; [exact (x64_from_bytes_repr ctx P OK b Hb Hl)|reflexivity].
Qed.

(** Exponentiation: the exponent array and the base may both be the result array. *)
Theorem C71_mont_pow : forall ctx P sp r base e m x,
  (mont_ctx_ok 32 8 P ctx -> (base + 8 <= sp)%nat -> (r + 8 <= sp)%nat -> (e + 8 <= sp)%nat -> words 32 m ->
   mont_repr 32 8 P (rd m base 8) x -> 0 < val 32 (rd m e 8) ->
   exists m', m32_pow ctx sp r base (Ptr e) m = Ok m' /\
     mont_repr 32 8 P (rd m' r 8) (x ^ val 32 (rd m e 8) mod P) /\
     (forall q, (q < sp)%nat -> (q < r \/ r + 8 <= q)%nat -> m' q = m q)) /\
  (mont_ctx_ok 64 4 P ctx -> (base + 4 <= sp)%nat -> (r + 4 <= sp)%nat -> (e + 4 <= sp)%nat -> words 64 m ->
   mont_repr 64 4 P (rd m base 4) x -> 0 < val 64 (rd m e 4) ->
   exists m', m64_pow ctx sp r base (Ptr e) m = Ok m' /\
     mont_repr 64 4 P (rd m' r 4) (x ^ val 64 (rd m e 4) mod P) /\
     (forall q, (q < sp)%nat -> (q < r \/ r + 4 <= q)%nat -> m' q = m q)).
Proof.
  intros ctx P sp r base e m x. split; intros OK Hb Hr He Hm Hx Hv.
  - destruct (C34_pow ctx P (rd m base 8) x (rd m e 8) OK Hx (rd_limbs _ _ _ _ Hm) Hv) as (v & E & R).
    pose proof (m32_pow_spec ctx P OK sp r base (Ptr e) m Hb Hr He Hm) as S.
    cbn [vals] in S. rewrite E in S. destruct S as (m' & S1 & S2 & _ & S4).
    exists m'. split; [exact S1|]. split; [rewrite S2; exact R|exact S4].
  - destruct (C34_x64_pow ctx P (rd m base 4) x (rd m e 4) OK Hx (rd_limbs _ _ _ _ Hm) Hv) as (v & E & R).
    pose proof (m64_pow_spec ctx P OK sp r base (Ptr e) m Hb Hr He Hm) as S.
    cbn [vals] in S. rewrite E in S. destruct S as (m' & S1 & S2 & _ & S4).
    exists m'. split; [exact S1|]. split; [rewrite S2; exact R|exact S4].
Qed.

(** ** Concrete calls *)
(** 2 (2^64 - 1) + 1 in place: result and both operands at one address. *)
Example C71_add_in_place_example :
  let m := ex_mem 5 [2 ^ 32 - 1; 2 ^ 32 - 1] in
  same_or_apart 2 5 2 5 /\
  rd (fst (mpz_add_carry_m 2 5 5 5 1 m)) 5 2 = [2 ^ 32 - 1; 2 ^ 32 - 1] /\
  snd (mpz_add_carry_m 2 5 5 5 1 m) = 1.
Proof. split; [left; reflexivity|]. split; vm_compute; reflexivity. Qed.

(** Squaring over the operand and multiplying a number by itself into itself, modulo the SM2 prime
    and the residue 3: the hypotheses of [C71_mont_common] and [C71_mont_x64] are met. *)
Example C71_mont_in_place_example :
  let m := ex_mem 8 (to_limbs 32 8 ((3 * 2 ^ 256) mod ex_P)) in
  mont_ctx_ok 32 8 ex_P (ctx_of 32 8 ex_P) /\ mont_repr 32 8 ex_P (rd m 8 8) 3 /\
  rd (m32_mul (ctx_of 32 8 ex_P) 16%nat 8%nat [8; 8]%nat m) 8 8 = to_limbs 32 8 ((9 * 2 ^ 256) mod ex_P) /\
  rd (m32_sqr (ctx_of 32 8 ex_P) 16%nat 8%nat [8]%nat m) 8 8 = to_limbs 32 8 ((9 * 2 ^ 256) mod ex_P).
Proof.
  split; [exact (proj1 C33_ctx_example)|].
  split; [split; [split; [reflexivity|repeat constructor; vm_compute; congruence]|]; split; [vm_compute; split; congruence|]; split; [vm_compute; split; congruence|vm_compute; reflexivity]|].
  split; vm_compute; reflexivity.
Qed.

Example C71_x64_in_place_example :
  let m := ex_mem 8 (to_limbs 64 4 ((3 * 2 ^ 256) mod ex_P)) in
  mont_ctx_ok 64 4 ex_P (ctx_of 64 4 ex_P) /\ mont_repr 64 4 ex_P (rd m 8 4) 3 /\
  rd (m64_mul (ctx_of 64 4 ex_P) 16%nat 8%nat [8; 8]%nat m) 8 4 = to_limbs 64 4 ((9 * 2 ^ 256) mod ex_P).
Proof.
  split; [exact (proj1 (proj2 C33_ctx_example))|].
  split; [split; [split; [reflexivity|repeat constructor; vm_compute; congruence]|]; split; [vm_compute; split; congruence|]; split; [vm_compute; split; congruence|vm_compute; reflexivity]|].
  vm_compute; reflexivity.
Qed.

Definition C71_theorems := (@C71_mpz_add, @C71_mpz_sub, @C71_mpz_mul, @C71_mul_over_factor_refuted,
  @C71_overlap_refuted, @C71_uint256_dbl_tpl, @C71_uint256_word, @C71_uint256_div, @C71_uint256_modular,
  @C71_modular_over_divisor_refuted, @C71_x64_tpl, @C71_x64_mul_word, @C71_x64_mul, @C71_x64_modular,
  @C71_mont_common, @C71_mont_x64, @C71_mont_pow).
Print Assumptions C71_theorems.

(** Proofs for ModelAlias: the uint256 and mpz functions on memory, as functions of the values the
    operands had before the call. *)
From Coq Require Import Lia.
From Verif Require Import Base BaseFacts ModelEndian ModelNumber ModelNumberX64 ModelMont SpecNumber SpecMont
  ProofNumber ProofNumberX64 ProofMont ProofMont2 ModelAlias SpecAlias ProofAlias ProofAlias2 ProofAlias3 ProofAlias4.

(** the value and the carry a call leaves, and what else it changes *)
Definition leaves (w : Z) (r k : nat) (m : mem) (x : mem * Z) (v : list Z * Z) : Prop :=
  (rd (fst x) r k, snd x) = v /\ only_changes r k m (fst x) /\ words w (fst x).

Lemma chain_leaves w f n r a b c m V : 0 <= w -> fw w f -> src_ok r n a -> src_ok r n b -> srcw w a ->
  words w m -> (forall o, length o = n -> vch f o (vals a n m) (vals b n m) c = V) ->
  leaves w r n m (chain f n r a b c m) V.
Proof.
  intros Hw Hf Ha Hb Ha2 Hm HV. destruct (chain_spec f n r a b c m Ha Hb) as (C1 & C2 & C3).
  rewrite HV in C1, C2 by apply rd_length. split; [|split].
  - rewrite C1, C2. symmetry. apply surjective_pairing.
  - exact C3.
  - apply chain_words; assumption.
Qed.

  Lemma mpz_add_leaves n r a b c m : same_or_apart n r n a -> same_or_apart n r n b -> words 32 m ->
    leaves 32 r n m (mpz_add_carry_m n r a b c m) (mpz_add_carry (rd m a n) (rd m b n) c).
  Proof.
    intros Ha Hb Hm. pose proof (soa_src _ _ _ Ha) as Ha'. pose proof (soa_src _ _ _ Hb) as Hb'. unfold mpz_add_carry_m, mpz_add_carry. destruct n as [|k].
    - split; [reflexivity|]. split; [intros q _; reflexivity|exact Hm].
    - change (match rd m a (S k) with [] => ([], 0) | _ :: _ => add_limbs (rd m a (S k)) (rd m b (S k)) c end)
        with (add_limbs (rd m a (S k)) (rd m b (S k)) c).
      apply chain_leaves; [lia|exact fw_add32|exact Ha'|exact Hb'|exact I|exact Hm|].
      intros o Ho. apply vch_add32. rewrite Ho. symmetry. apply rd_length.
  Qed.
  Lemma mpz_sub_leaves n r a b c m : same_or_apart n r n a -> same_or_apart n r n b -> words 32 m ->
    leaves 32 r n m (mpz_sub_borrow_m n r a b c m) (mpz_sub_borrow (rd m a n) (rd m b n) c).
  Proof.
    intros Ha Hb Hm. pose proof (soa_src _ _ _ Ha) as Ha'. pose proof (soa_src _ _ _ Hb) as Hb'. unfold mpz_sub_borrow_m, mpz_sub_borrow. destruct n as [|k].
    - split; [reflexivity|]. split; [intros q _; reflexivity|exact Hm].
    - change (match rd m a (S k) with [] => ([], 0) | _ :: _ => sub_limbs (rd m a (S k)) (rd m b (S k)) c end)
        with (sub_limbs (rd m a (S k)) (rd m b (S k)) c).
      apply chain_leaves; [lia|exact fw_sub32|exact Ha'|exact Hb'|exact I|exact Hm|].
      intros o Ho. apply vch_sub32. rewrite Ho. symmetry. apply rd_length.
  Qed.
  Lemma x64_mpz_add_leaves n r a b c m : same_or_apart n r n a -> same_or_apart n r n b -> words 64 m ->
    leaves 64 r n m (x64_mpz_add_carry_m n r a b c m) (x64_mpz_add_carry (rd m a n) (rd m b n) c).
  Proof.
    intros Ha Hb Hm. pose proof (soa_src _ _ _ Ha) as Ha'. pose proof (soa_src _ _ _ Hb) as Hb'. unfold x64_mpz_add_carry_m, x64_mpz_add_carry. destruct n as [|k].
    - split; [reflexivity|]. split; [intros q _; reflexivity|exact Hm].
    - change (match rd m a (S k) with [] => ([], 0) | _ :: _ => addc c (rd m a (S k)) (rd m b (S k)) end)
        with (addc c (rd m a (S k)) (rd m b (S k))).
      apply chain_leaves; [lia|exact fw_add64|exact Ha'|exact Hb'|exact I|exact Hm|].
      intros o Ho. apply vch_add64. rewrite Ho. symmetry. apply rd_length.
  Qed.
  Lemma x64_mpz_sub_leaves n r a b c m : same_or_apart n r n a -> same_or_apart n r n b -> words 64 m ->
    leaves 64 r n m (x64_mpz_sub_borrow_m n r a b c m) (x64_mpz_sub_borrow (rd m a n) (rd m b n) c).
  Proof.
    intros Ha Hb Hm. pose proof (soa_src _ _ _ Ha) as Ha'. pose proof (soa_src _ _ _ Hb) as Hb'. unfold x64_mpz_sub_borrow_m, x64_mpz_sub_borrow. destruct n as [|k].
    - split; [reflexivity|]. split; [intros q _; reflexivity|exact Hm].
    - change (match rd m a (S k) with [] => ([], 0)
              | _ :: _ => let (r0, c0) := subb (w8 (- c)) (rd m a (S k)) (rd m b (S k)) in (r0, - c0) end)
        with (let (r0, c0) := subb (w8 (- c)) (rd m a (S k)) (rd m b (S k)) in (r0, - c0)).
      assert (L : leaves 64 r (S k) m (chain f_sub64 (S k) r (Ptr a) (Ptr b) (w8 (- c)) m)
                    (subb (w8 (- c)) (rd m a (S k)) (rd m b (S k)))).
      { apply chain_leaves; [lia|exact fw_sub64|exact Ha'|exact Hb'|exact I|exact Hm|].
        intros o Ho. apply vch_sub64. rewrite Ho. symmetry. apply rd_length. }
      destruct (chain f_sub64 (S k) r (Ptr a) (Ptr b) (w8 (- c)) m) as [m1 d].
      destruct L as (L1 & L2 & L3). cbn [fst snd] in *.
      rewrite <- L1. split; [reflexivity|]. split; assumption.
  Qed.


Lemma u256_dbl_leaves r a m : same_or_apart 8 r 8 a -> words 32 m ->
  leaves 32 r 8 m (uint256_dbl_carry_m r a m) (uint256_dbl_carry (rd m a 8)).
Proof.
  intros Ha Hm. apply chain_leaves; [lia|exact fw_dbl32|exact (soa_src _ _ _ Ha)|exact I|exact I|exact Hm|].
  intros o Ho. apply vch_dbl32; [rewrite Ho; reflexivity|reflexivity].
Qed.
Lemma u256_tpl_leaves r a m : same_or_apart 8 r 8 a -> words 32 m ->
  leaves 32 r 8 m (uint256_tpl_carry_m r a m) (uint256_tpl_carry (rd m a 8)).
Proof.
  intros Ha Hm. apply chain_leaves; [lia|exact fw_tpl32|exact (soa_src _ _ _ Ha)|exact I|exact I|exact Hm|].
  intros o Ho. apply vch_tpl32; [rewrite Ho; reflexivity|reflexivity].
Qed.
Lemma u256_word_leaves r a x m : same_or_apart 8 r 8 a -> words 32 m ->
  leaves 32 r 8 m (uint256_add_carry_uint32_m r a x m) (uint256_add_carry_uint32 (rd m a 8) x) /\
  leaves 32 r 8 m (uint256_sub_borrow_uint32_m r a x m) (uint256_sub_borrow_uint32 (rd m a 8) x) /\
  leaves 32 r 8 m (uint256_mul_carry_uint32_m r a x m) (uint256_mul_carry_uint32 (rd m a 8) x).
Proof.
  intros Ha Hm. split; [|split].
  - apply chain_leaves; [lia|exact fw_add32|exact (soa_src _ _ _ Ha)|reflexivity|exact I|exact Hm|].
    intros o Ho. apply vch_add32. rewrite Ho. reflexivity.
  - apply chain_leaves; [lia|exact fw_sub32|exact (soa_src _ _ _ Ha)|reflexivity|exact I|exact Hm|].
    intros o Ho. apply vch_sub32. rewrite Ho. reflexivity.
  - apply chain_leaves; [lia|exact fw_mul32|exact (soa_src _ _ _ Ha)|exact I|exact I|exact Hm|].
    intros o Ho. cbn [vals]. exact (vch_mul32 (rd m a 8) o x 0 (eq_trans Ho (eq_sym (rd_length m a 8)))).
Qed.

Lemma x64_tpl_leaves sp r a m : (r + 4 <= sp)%nat -> (a + 4 <= sp)%nat -> same_or_apart 4 r 4 a -> words 64 m ->
  (rd (fst (x64_tpl_carry_m sp r a m)) r 4, snd (x64_tpl_carry_m sp r a m)) = x64_tpl_carry (rd m a 4) /\
  (forall q, (q < sp)%nat -> (q < r \/ r + 4 <= q)%nat -> fst (x64_tpl_carry_m sp r a m) q = m q) /\
  words 64 (fst (x64_tpl_carry_m sp r a m)).
Proof.
  intros Hr Hs Ha Hm. unfold x64_tpl_carry_m, x64_tpl_carry.
  assert (L : leaves 64 sp 4 m (chain f_add64 4 sp (Ptr a) (Ptr a) 0 m) (addc 0 (rd m a 4) (rd m a 4))).
  { apply chain_leaves; [lia|exact fw_add64|cbn [src_ok]; lia|cbn [src_ok]; lia|exact I|exact Hm|].
    intros o Ho. apply vch_add64. rewrite Ho. reflexivity. }
  destruct (chain f_add64 4 sp (Ptr a) (Ptr a) 0 m) as [m1 c1]. destruct L as (L1 & L2 & L3).
  cbn [fst snd] in *. destruct (addc 0 (rd m a 4) (rd m a 4)) as [t c]. apply pair_equal_spec in L1. destruct L1 as (L1 & <-).
  assert (K : leaves 64 r 4 m1 (chain f_add64 4 r (Ptr a) (Ptr sp) 0 m1) (addc 0 (rd m1 a 4) (rd m1 sp 4))).
  { apply chain_leaves; [lia|exact fw_add64|exact (soa_src _ _ _ Ha)|cbn [src_ok]; lia|exact I|exact L3|].
    intros o Ho. apply vch_add64. rewrite Ho. reflexivity. }
  destruct (chain f_add64 4 r (Ptr a) (Ptr sp) 0 m1) as [m2 c2]. destruct K as (K1 & K2 & K3). cbn [fst snd] in *.
  assert (E : rd m1 a 4 = rd m a 4) by (apply rd_ext; intros q Hq; apply L2; lia).
  rewrite E, L1 in K1. rewrite <- K1. split; [reflexivity|]. split; [|exact K3].
  intros q Hq1 Hq2. rewrite K2 by exact Hq2. apply L2. left. exact Hq1.
Qed.

Lemma x64_mul_word_leaves r a x m : same_or_apart 4 r 4 a -> words 64 m ->
  leaves 64 r 4 m (x64_mul_carry_uint64_m r a x m) (x64_mul_carry_uint64 (rd m a 4) x).
Proof.
  intros Ha Hm. unfold x64_mul_carry_uint64_m, x64_mul_carry_uint64.
  destruct (mulx_spec 4 r a (Cst x) m (soa_src _ _ _ Ha) I) as (M1 & M2 & M3).
  pose proof (mulx_words 4 r a (Cst x) m Hm) as W.
  destruct (x64_mulx_m 4 r a (Cst x) m) as [m1 hi]. cbn [fst snd ld] in *.
  assert (H3 : length (firstn 3 hi) = 3%nat) by (rewrite M2; reflexivity).
  destruct (chain_spec f_add64 3 (S r) (Ptr (S r)) (Imm (firstn 3 hi)) 0 m1 ltac:(cbn [src_ok]; lia) H3) as (C1 & C2 & C3).
  pose proof (chain_words 64 f_add64 3 ltac:(lia) fw_add64 (S r) (Ptr (S r)) (Imm (firstn 3 hi)) 0 m1 W I) as W2.
  cbn [vals] in C1, C2. rewrite vch_add64 in C1, C2 by reflexivity.
  destruct (chain f_add64 3 (S r) (Ptr (S r)) (Imm (firstn 3 hi)) 0 m1) as [m2 c]. cbn [fst snd] in *.
  split; [|split; [|exact W2]]; cbn [fst snd].
  - unfold x64_mul_step1. cbv zeta. rewrite <- M1, <- M2. change (rd m1 r 4) with (m1 r :: rd m1 (S r) 3).
    assert (Hh : hi = firstn 3 hi ++ [nz hi 3]) by (rewrite M2; reflexivity).
    cbv iota beta. rewrite Hh at 2 3. rewrite addc_snoc by (rewrite H3; reflexivity). cbn [fst].
    rewrite <- C1, <- C2. change (rd m2 r 4) with (m2 r :: rd m2 (S r) 3). rewrite (C3 r) by lia. reflexivity.
  - intros q Hq. rewrite C3 by lia. apply M3. lia.
Qed.

(** ** Modular addition and subtraction with the modulus in memory, apart from the result *)
Lemma mod_add_32 r a b d m : same_or_apart 8 r 8 a -> same_or_apart 8 r 8 b -> (d + 8 <= r \/ r + 8 <= d)%nat -> words 32 m ->
  let m' := mod_op_m uint256_cmp f_add32 f_sub32 8 r (Ptr a) (Ptr b) (Ptr d) m in
  rd m' r 8 = uint256_mod_add (rd m a 8) (rd m b 8) (rd m d 8) /\ only_changes r 8 m m' /\ words 32 m'.
Proof.
  intros Ha Hb Hd Hm. cbv zeta.
  destruct (mod_op_spec uint256_cmp f_add32 f_sub32 8 r (Ptr a) (Ptr b) (Ptr d) m
    (add_limbs (rd m a 8) (rd m b 8) 0) (sub_limbs (fst (add_limbs (rd m a 8) (rd m b 8) 0)) (rd m d 8) 0))
    as (S1 & S2); [exact (soa_src _ _ _ Ha)|exact (soa_src _ _ _ Hb)|exact Hd| | |].
  - intros o Ho. apply vch_add32. rewrite Ho. reflexivity.
  - intros o Ho. apply vch_sub32. rewrite <- (vch_add32 (rd m a 8) (rd m a 8)) by reflexivity.
    rewrite vch_length by reflexivity. rewrite Ho. reflexivity.
  - split; [|split; [exact S2|apply mod_op_words; [lia|exact fw_add32|exact fw_sub32|exact Hm|exact I]]].
    rewrite S1. unfold uint256_mod_add, uint256_add_carry, uint256_sub_borrow.
    cbn [vals]. destruct (add_limbs (rd m a 8) (rd m b 8) 0). reflexivity.
Qed.
Lemma mod_sub_32 r a b d m : same_or_apart 8 r 8 a -> same_or_apart 8 r 8 b -> (d + 8 <= r \/ r + 8 <= d)%nat -> words 32 m ->
  let m' := mod_op_m uint256_cmp f_sub32 f_add32 8 r (Ptr a) (Ptr b) (Ptr d) m in
  rd m' r 8 = uint256_mod_sub (rd m a 8) (rd m b 8) (rd m d 8) /\ only_changes r 8 m m' /\ words 32 m'.
Proof.
  intros Ha Hb Hd Hm. cbv zeta.
  destruct (mod_op_spec uint256_cmp f_sub32 f_add32 8 r (Ptr a) (Ptr b) (Ptr d) m
    (sub_limbs (rd m a 8) (rd m b 8) 0) (add_limbs (fst (sub_limbs (rd m a 8) (rd m b 8) 0)) (rd m d 8) 0))
    as (S1 & S2); [exact (soa_src _ _ _ Ha)|exact (soa_src _ _ _ Hb)|exact Hd| | |].
  - intros o Ho. apply vch_sub32. rewrite Ho. reflexivity.
  - intros o Ho. apply vch_add32. rewrite <- (vch_sub32 (rd m a 8) (rd m a 8)) by reflexivity.
    rewrite vch_length by reflexivity. rewrite Ho. reflexivity.
  - split; [|split; [exact S2|apply mod_op_words; [lia|exact fw_sub32|exact fw_add32|exact Hm|exact I]]].
    rewrite S1. unfold uint256_mod_sub, uint256_add_carry, uint256_sub_borrow.
    cbn [vals]. destruct (sub_limbs (rd m a 8) (rd m b 8) 0). reflexivity.
Qed.
Lemma mod_add_64 r a b d m : same_or_apart 4 r 4 a -> same_or_apart 4 r 4 b -> (d + 4 <= r \/ r + 4 <= d)%nat -> words 64 m ->
  let m' := mod_op_m x64_cmp f_add64 f_sub64 4 r (Ptr a) (Ptr b) (Ptr d) m in
  rd m' r 4 = x64_mod_add (rd m a 4) (rd m b 4) (rd m d 4) /\ only_changes r 4 m m' /\ words 64 m'.
Proof.
  intros Ha Hb Hd Hm. cbv zeta.
  destruct (mod_op_spec x64_cmp f_add64 f_sub64 4 r (Ptr a) (Ptr b) (Ptr d) m
    (addc 0 (rd m a 4) (rd m b 4)) (subb 0 (fst (addc 0 (rd m a 4) (rd m b 4))) (rd m d 4)))
    as (S1 & S2); [exact (soa_src _ _ _ Ha)|exact (soa_src _ _ _ Hb)|exact Hd| | |].
  - intros o Ho. apply vch_add64. rewrite Ho. reflexivity.
  - intros o Ho. apply vch_sub64. rewrite addc_length by reflexivity. rewrite Ho. reflexivity.
  - split; [|split; [exact S2|apply mod_op_words; [lia|exact fw_add64|exact fw_sub64|exact Hm|exact I]]].
    rewrite S1. unfold x64_mod_add. cbn [vals]. destruct (addc 0 (rd m a 4) (rd m b 4)). reflexivity.
Qed.
Lemma mod_sub_64 r a b d m : same_or_apart 4 r 4 a -> same_or_apart 4 r 4 b -> (d + 4 <= r \/ r + 4 <= d)%nat -> words 64 m ->
  let m' := mod_op_m x64_cmp f_sub64 f_add64 4 r (Ptr a) (Ptr b) (Ptr d) m in
  rd m' r 4 = x64_mod_sub (rd m a 4) (rd m b 4) (rd m d 4) /\ only_changes r 4 m m' /\ words 64 m'.
Proof.
  intros Ha Hb Hd Hm. cbv zeta.
  destruct (mod_op_spec x64_cmp f_sub64 f_add64 4 r (Ptr a) (Ptr b) (Ptr d) m
    (subb 0 (rd m a 4) (rd m b 4)) (addc 0 (fst (subb 0 (rd m a 4) (rd m b 4))) (rd m d 4)))
    as (S1 & S2); [exact (soa_src _ _ _ Ha)|exact (soa_src _ _ _ Hb)|exact Hd| | |].
  - intros o Ho. apply vch_sub64. rewrite Ho. reflexivity.
  - intros o Ho. apply vch_add64. rewrite subb_length by reflexivity. rewrite Ho. reflexivity.
  - split; [|split; [exact S2|apply mod_op_words; [lia|exact fw_sub64|exact fw_add64|exact Hm|exact I]]].
    rewrite S1. unfold x64_mod_sub. cbn [vals]. destruct (subb 0 (rd m a 4) (rd m b 4)). reflexivity.
Qed.

(** ** Products: the result array of 2n limbs apart from the operands, which may coincide *)
Lemma mpz_mul_leaves n r a b m : (0 < n)%nat -> (a + n <= r \/ r + n + n <= a)%nat ->
  (b + n <= r \/ r + n + n <= b)%nat -> words 32 m ->
  rd (mpz_mul_m n r a b m) r (n + n) = mpz_mul (rd m a n) (rd m b n) /\
  only_changes r (n + n) m (mpz_mul_m n r a b m) /\ words 32 (mpz_mul_m n r a b m).
Proof.
  intros Hn Ha Hb Hm. destruct (mul32_spec n r a (Ptr b) m Hn Ha Hb) as (M1 & M2).
  split; [exact M1|]. split; [intros q Hq; apply M2; lia|].
  apply mul_words; [lia|exact fw_mul32|exact fw_addmul32|exact snd_mul32|exact snd_addmul32|exact Hm].
Qed.
Lemma x64_rows_v bs : forall r a, x64_mpz_rows r a bs = vrows (fun o x b => x64_mpz_row o x b 0) r a bs.
Proof.
  induction bs as [|b bs IH]; intros r a; cbn [x64_mpz_rows vrows]; [reflexivity|].
  destruct (x64_mpz_row r a b 0) as [[|h t] c]; [reflexivity|]. rewrite IH. reflexivity.
Qed.
Lemma x64_mpz_mul_v a b : x64_mpz_mul a b = vmul (fun x y => x64_mpz_row0 x y 0) (fun o x y => x64_mpz_row o x y 0) a b.
Proof.
  unfold x64_mpz_mul, vmul. destruct b as [|b bs]; [reflexivity|].
  destruct (x64_mpz_row0 a b 0) as [[|h t] c]; [reflexivity|]. rewrite x64_rows_v. reflexivity.
Qed.
Lemma snd_mul64 o x y c : 0 <= snd (f_mul64 o x y c) < 2 ^ 64.
Proof.
  unfold f_mul64. destruct (addcarry_u64 0 (mulx_lo x y) c) as [p d].
  pose proof (addcarry_word d (mulx_hi x y) 0) as H. destruct (addcarry_u64 d (mulx_hi x y) 0). exact H.
Qed.
Lemma snd_addmul64 o x y c : 0 <= snd (f_addmul64 o x y c) < 2 ^ 64.
Proof.
  unfold f_addmul64. destruct (addcarry_u64 0 o (mulx_lo x y)) as [p d].
  destruct (addcarry_u64 d (mulx_hi x y) 0) as [h e]. destruct (addcarry_u64 0 p c) as [p2 d2].
  pose proof (addcarry_word d2 h 0) as H. destruct (addcarry_u64 d2 h 0). exact H.
Qed.
Lemma x64_mpz_mul_leaves n r a b m : (0 < n)%nat -> (a + n <= r \/ r + n + n <= a)%nat ->
  (b + n <= r \/ r + n + n <= b)%nat -> words 64 m ->
  rd (x64_mpz_mul_m n r a b m) r (n + n) = x64_mpz_mul (rd m a n) (rd m b n) /\
  only_changes r (n + n) m (x64_mpz_mul_m n r a b m) /\ words 64 (x64_mpz_mul_m n r a b m).
Proof.
  intros Hn Ha Hb Hm. rewrite x64_mpz_mul_v.
  destruct (mul_spec f_mul64 f_addmul64 (fun x y => x64_mpz_row0 x y 0) (fun o x y => x64_mpz_row o x y 0)) with (n := n) (r := r) (a := a) (b := Ptr b) (m := m) as (M1 & M2); try assumption.
  - intros o x y Ho. apply vch_mul64. exact Ho.
  - intros o x y Ho. apply vch_addmul64. exact Ho.
  - split; [exact M1|]. split; [intros q Hq; apply M2; lia|].
    apply mul_words; [lia|exact fw_mul64|exact fw_addmul64|exact snd_mul64|exact snd_addmul64|exact Hm].
Qed.
Lemma x64_u256_mul_leaves r a b m : (a + 4 <= r \/ r + 8 <= a)%nat -> (b + 4 <= r \/ r + 8 <= b)%nat -> words 64 m ->
  rd (x64_mul_m r a (Ptr b) m) r 8 = x64_mul (rd m a 4) (rd m b 4) /\
  only_changes r 8 m (x64_mul_m r a (Ptr b) m) /\ words 64 (x64_mul_m r a (Ptr b) m).
Proof.
  intros Ha Hb Hm. destruct (x64_mul_m_spec r a (Ptr b) m Ha Hb) as (M1 & M2).
  split; [exact M1|]. split; [exact M2|apply x64_mul_words; exact Hm].
Qed.

(** ** Halving *)
Lemma shr1_spec w n : forall r a c m, (r <= a \/ a + n <= r)%nat ->
  rd (shr1_m w n r a c m) r n = shr1_limbs w (rd m a n) c /\
  (forall q, (q < r \/ r + n <= q)%nat -> shr1_m w n r a c m q = m q).
Proof.
  induction n as [|n IH]; intros r a c m Ha; [split; [reflexivity|intros; reflexivity]|].
  cbn [shr1_m rd shr1_limbs].
  set (up := match n with O => c | _ => m (S a) end).
  assert (Eu : match rd m (S a) n with [] => c | y :: _ => y end = up) by (destruct n; reflexivity).
  rewrite Eu. set (v := Z.lor ((Z.shiftl up (w - 1)) mod 2 ^ w) (Z.shiftr (m a) 1)).
  destruct (IH (S r) (S a) c (upd m r v)) as (I1 & I2); [lia|].
  split.
  - rewrite I2 by lia. rewrite upd_eq, I1. f_equal. f_equal. apply rd_upd_out. lia.
  - intros q Hq. rewrite I2 by lia. apply upd_ne. lia.
Qed.
Lemma shr1_words w n : 0 < w -> forall r a c m, words w m -> words w (shr1_m w n r a c m).
Proof.
  intros Hw. induction n as [|n IH]; intros r a c m Hm; [exact Hm|]. cbn [shr1_m]. apply IH.
  apply words_upd; [exact Hm|].
  assert (P : 0 < 2 ^ w) by (apply Z.pow_pos_nonneg; lia).
  set (u := (Z.shiftl _ (w - 1)) mod 2 ^ w).
  assert (Hu : 0 <= u < 2 ^ w) by (apply Z.mod_pos_bound; exact P).
  assert (Hv : 0 <= Z.shiftr (m a) 1 < 2 ^ w).
  { rewrite Z.shiftr_div_pow2 by lia. pose proof (Hm a). change (2 ^ 1) with 2.
    split; [apply Z.div_pos; lia|]. apply Z.div_lt_upper_bound; lia. }
  split; [apply Z.lor_nonneg; lia|].
  destruct (Z.eq_dec (Z.lor u (Z.shiftr (m a) 1)) 0) as [->|N]; [lia|].
  apply Z.log2_lt_pow2; [pose proof (proj2 (Z.lor_nonneg u (Z.shiftr (m a) 1))); lia|].
  rewrite Z.log2_lor by lia.
  assert (L : forall x, 0 <= x < 2 ^ w -> Z.log2 x < w).
  { intros x Hx. destruct (Z.eq_dec x 0) as [->|]; [cbn; lia|]. apply Z.log2_lt_pow2; lia. }
  apply Z.max_lub_lt; apply L; assumption.
Qed.

Lemma div2_m32_ok ctx P : mont_ctx_ok 32 8 P ctx ->
  call_ok 32 8 get32 1 (div2_m 32 f_add32 8 ctx) (v1 (mont256_div2 ctx)).
Proof.
  intros OK sp r l m Hl Hr Ha Hm. destruct (args1 _ l Hl Ha) as (a & -> & (Ha1 & Ha2)).
  unfold div2_m, v1, get32, mont256_div2, uint256_add_carry. cbn [arg nth map]. cbv zeta.
  change (nz (rd m a 8) 0) with (m a).
  destruct (Z.land (m a) 1 =? 0).
  - destruct (shr1_spec 32 8 r a 0 m (soa_src _ _ _ Ha2)) as (S1 & S2).
    split; [exact S1|]. split; [intros q _ Hq; apply S2; exact Hq|apply shr1_words; [lia|exact Hm]].
  - assert (L : leaves 32 r 8 m (chain f_add32 8 r (Ptr a) (Imm (m_P ctx)) 0 m) (add_limbs (rd m a 8) (m_P ctx) 0)).
    { apply chain_leaves; [lia|exact fw_add32|exact (soa_src _ _ _ Ha2)|exact (proj1 (co_P 32 8 P ctx OK))|exact I|exact Hm|].
      intros o Ho. apply vch_add32. rewrite Ho. reflexivity. }
    destruct (chain f_add32 8 r (Ptr a) (Imm (m_P ctx)) 0 m) as [m1 c]. destruct L as (L1 & L2 & L3).
    cbn [fst snd] in *. rewrite <- L1.
    destruct (shr1_spec 32 8 r r c m1 ltac:(lia)) as (S1 & S2).
    split; [exact S1|]. split; [|apply shr1_words; [lia|exact L3]].
    intros q _ Hq. rewrite S2 by exact Hq. apply L2. exact Hq.
Qed.
Lemma div2_m64_ok ctx P : mont_ctx_ok 64 4 P ctx ->
  call_ok 64 4 get64 1 (div2_m 64 f_add64 4 ctx) (v1 (x64_mont_div2 ctx)).
Proof.
  intros OK sp r l m Hl Hr Ha Hm. destruct (args1 _ l Hl Ha) as (a & -> & (Ha1 & Ha2)).
  unfold div2_m, v1, get64, x64_mont_div2, x64_add_carry. cbn [arg nth map]. cbv zeta.
  change (nz (rd m a 4) 0) with (m a).
  destruct (Z.land (m a) 1 =? 0).
  - destruct (shr1_spec 64 4 r a 0 m (soa_src _ _ _ Ha2)) as (S1 & S2).
    split; [exact S1|]. split; [intros q _ Hq; apply S2; exact Hq|apply shr1_words; [lia|exact Hm]].
  - assert (L : leaves 64 r 4 m (chain f_add64 4 r (Ptr a) (Imm (m_P ctx)) 0 m) (addc 0 (rd m a 4) (m_P ctx))).
    { apply chain_leaves; [lia|exact fw_add64|exact (soa_src _ _ _ Ha2)|exact (proj1 (co_P 64 4 P ctx OK))|exact I|exact Hm|].
      intros o Ho. apply vch_add64. rewrite Ho. reflexivity. }
    destruct (chain f_add64 4 r (Ptr a) (Imm (m_P ctx)) 0 m) as [m1 c]. destruct L as (L1 & L2 & L3).
    cbn [fst snd] in *. rewrite <- L1.
    destruct (shr1_spec 64 4 r r c m1 ltac:(lia)) as (S1 & S2).
    split; [exact S1|]. split; [|apply shr1_words; [lia|exact L3]].
    intros q _ Hq. rewrite S2 by exact Hq. apply L2. exact Hq.
Qed.

(** ** Division by a limb *)
Lemma rd_snoc m p k : rd m p (S k) = rd m p k ++ [m (p + k)%nat].
Proof. replace (S k) with (k + 1)%nat by lia. rewrite rd_app. reflexivity. Qed.
Lemma div_m_spec k : forall r a rem d m, (a = r \/ a + k <= r \/ r + k <= a)%nat ->
  (rev (rd (fst (div_uint32_m k r a rem d m)) r k), snd (div_uint32_m k r a rem d m)) =
    div_from_top (rev (rd m a k)) rem d /\
  (forall q, (q < r \/ r + k <= q)%nat -> fst (div_uint32_m k r a rem d m) q = m q).
Proof.
  induction k as [|k IH]; intros r a rem d m Ha; [split; [reflexivity|intros; reflexivity]|].
  cbn [div_uint32_m]. rewrite rd_snoc, rd_snoc, !rev_app_distr. cbn [rev app div_from_top].
  set (cur := Z.lor (w64 (Z.shiftl rem 32)) (m (a + k)%nat)).
  set (m1 := upd m (r + k) (w32 (cur / d))).
  destruct (IH r a (cur mod d) d m1) as (I1 & I2); [lia|].
  assert (E : rd m1 a k = rd m a k) by (apply rd_upd_out; lia). rewrite E in I1.
  destruct (div_uint32_m k r a (cur mod d) d m1) as [m2 rr]. cbn [fst snd] in *.
  split.
  - rewrite <- I1. rewrite I2 by lia. subst m1. rewrite upd_eq. reflexivity.
  - intros q Hq. rewrite I2 by lia. apply upd_ne. lia.
Qed.

(** GF(2)-linear functions on integers seen as bit vectors: two linear functions that agree on the
    powers of two agree everywhere. *)
From Verif Require Import Base BaseFacts.

Definition lin (f : Z -> Z) : Prop := forall a b, f (Z.lxor a b) = Z.lxor (f a) (f b).

Lemma lxor_swap a b c d : Z.lxor (Z.lxor a b) (Z.lxor c d) = Z.lxor (Z.lxor a c) (Z.lxor b d).
Proof.
  rewrite !Z.lxor_assoc. f_equal. rewrite <- !Z.lxor_assoc. f_equal. apply Z.lxor_comm.
Qed.
Lemma lin_0 f : lin f -> f 0 = 0.
Proof. intros H. specialize (H 0 0). rewrite Z.lxor_0_r in H. rewrite H. apply Z.lxor_nilpotent. Qed.
Lemma lin_id : lin (fun x => x). Proof. intros a b; reflexivity. Qed.
Lemma lin_const0 : lin (fun _ => 0). Proof. intros a b; reflexivity. Qed.
Lemma lin_comp f g : lin f -> lin g -> lin (fun x => f (g x)).
Proof. intros F G a b. rewrite G, F. reflexivity. Qed.
Lemma lin_xor f g : lin f -> lin g -> lin (fun x => Z.lxor (f x) (g x)).
Proof. intros F G a b. rewrite F, G. apply lxor_swap. Qed.
Lemma lin_shiftr f k : lin f -> lin (fun x => Z.shiftr (f x) k).
Proof. intros F a b. rewrite F. apply Z.shiftr_lxor. Qed.
Lemma lin_shiftl f k : lin f -> lin (fun x => Z.shiftl (f x) k).
Proof. intros F a b. rewrite F. apply Z.shiftl_lxor. Qed.
Lemma land_lxor_l a b m : Z.land (Z.lxor a b) m = Z.lxor (Z.land a m) (Z.land b m).
Proof. Z.bitwise. destruct (Z.testbit a m0), (Z.testbit b m0), (Z.testbit m m0); reflexivity. Qed.
Lemma lin_land f m : lin f -> lin (fun x => Z.land (f x) m).
Proof. intros F a b. rewrite F. apply land_lxor_l. Qed.
Lemma lin_land_l f m : lin f -> lin (fun x => Z.land m (f x)).
Proof. intros F a b. rewrite F. rewrite !(Z.land_comm m). apply land_lxor_l. Qed.
Lemma lin_if (f : Z -> Z) (i : Z) c : lin f -> lin (fun x => if Z.testbit (f x) i then c else 0).
Proof.
  intros F a b. rewrite F, Z.lxor_spec. destruct (Z.testbit (f a) i), (Z.testbit (f b) i); cbn [xorb];
    rewrite ?Z.lxor_0_r, ?Z.lxor_0_l, ?Z.lxor_nilpotent; reflexivity.
Qed.
Lemma lin_ite (t : bool) f g : lin f -> lin g -> lin (fun x => if t then f x else g x).
Proof. intros; destruct t; assumption. Qed.

Lemma high_bit x n : 0 <= x < 2 ^ (Z.of_nat n + 1) ->
  x = Z.lxor (x mod 2 ^ Z.of_nat n) (if Z.testbit x (Z.of_nat n) then 2 ^ Z.of_nat n else 0).
Proof.
  intros H. apply Z.bits_inj'. intros i Hi. rewrite Z.lxor_spec, testbit_mod_pow2 by lia.
  assert (E : Z.testbit (if Z.testbit x (Z.of_nat n) then 2 ^ Z.of_nat n else 0) i =
          (Z.testbit x (Z.of_nat n) && (i =? Z.of_nat n))%bool).
  { destruct (Z.testbit x (Z.of_nat n)); rewrite ?Z.bits_0; [|reflexivity].
    rewrite Z.pow2_bits_eqb by lia. cbn. apply Z.eqb_sym. }
  rewrite E. destruct (Z.ltb_spec i (Z.of_nat n)).
  - destruct (Z.eqb_spec i (Z.of_nat n)); [lia|]. rewrite andb_false_r, xorb_false_r. reflexivity.
  - cbn [andb]. rewrite xorb_false_l. destruct (Z.eqb_spec i (Z.of_nat n)) as [->|]; [rewrite andb_true_r; reflexivity|].
    rewrite andb_false_r. apply testbit_small with (Z.of_nat n + 1); lia.
Qed.

Definition agree_pow2 (f g : Z -> Z) (n : nat) : bool :=
  forallb (fun i => f (2 ^ Z.of_nat i) =? g (2 ^ Z.of_nat i)) (seq 0 n).

Lemma lin_ext f g n : lin f -> lin g ->
  (forall i, (i < n)%nat -> f (2 ^ Z.of_nat i) = g (2 ^ Z.of_nat i)) ->
  forall x, 0 <= x < 2 ^ Z.of_nat n -> f x = g x.
Proof.
  intros F G. induction n as [|n IH]; intros H x Hx.
  - change (2 ^ Z.of_nat 0) with 1 in Hx. assert (x = 0) by lia. subst. rewrite !lin_0; auto.
  - rewrite Nat2Z.inj_succ, <- Z.add_1_r in Hx. rewrite (high_bit x n Hx), F, G.
    rewrite IH; [|intros; apply H; lia|apply mod_pow2_bound; lia].
    f_equal. destruct (Z.testbit x (Z.of_nat n)); [apply H; lia|]. rewrite !lin_0; auto.
Qed.
Lemma lin_ext_b f g n : lin f -> lin g -> agree_pow2 f g n = true ->
  forall x, 0 <= x < 2 ^ Z.of_nat n -> f x = g x.
Proof.
  intros F G H. apply lin_ext; auto. intros i Hi. unfold agree_pow2 in H. rewrite forallb_forall in H.
  apply Z.eqb_eq, H. apply in_seq. lia.
Qed.
(** bilinear *)
Lemma bilin_ext_b (f g : Z -> Z -> Z) n :
  (forall b, lin (fun a => f a b)) -> (forall a, lin (f a)) ->
  (forall b, lin (fun a => g a b)) -> (forall a, lin (g a)) ->
  forallb (fun i => agree_pow2 (f (2 ^ Z.of_nat i)) (g (2 ^ Z.of_nat i)) n) (seq 0 n) = true ->
  forall a b, 0 <= a < 2 ^ Z.of_nat n -> 0 <= b < 2 ^ Z.of_nat n -> f a b = g a b.
Proof.
  intros F1 F2 G1 G2 H a b Ha Hb.
  apply (lin_ext (fun a => f a b) (fun a => g a b) n); auto.
  intros i Hi. apply (lin_ext_b (f (2 ^ Z.of_nat i)) (g (2 ^ Z.of_nat i)) n); auto.
  rewrite forallb_forall in H. apply H. apply in_seq. lia.
Qed.

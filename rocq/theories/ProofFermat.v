(** Fermat's little theorem over Z, and Euler's consequence used for inverses. *)
From Coq Require Import ZArith Znumtheory List Permutation Lia.
Import ListNotations.
Open Scope Z_scope.

Definition zprod (l : list Z) : Z := fold_right Z.mul 1 l.

Lemma zprod_perm l l' : Permutation l l' -> zprod l = zprod l'.
Proof. induction 1; cbn [zprod fold_right] in *; unfold zprod in *; lia. Qed.

(** 1, ..., n *)
Definition zrange (n : nat) : list Z := map Z.of_nat (seq 1 n).

Lemma zrange_in n x : In x (zrange n) <-> 1 <= x <= Z.of_nat n.
Proof.
  unfold zrange. rewrite in_map_iff. split.
  - intros (y & <- & Hy). apply in_seq in Hy. lia.
  - intros Hx. exists (Z.to_nat x). split; [lia|]. apply in_seq. lia.
Qed.

Lemma zrange_nodup n : NoDup (zrange n).
Proof.
  unfold zrange. apply FinFun.Injective_map_NoDup; [|apply seq_NoDup]. intros a b. lia.
Qed.

Lemma zrange_length n : length (zrange n) = n.
Proof. unfold zrange. now rewrite map_length, seq_length. Qed.

Lemma map_nodup_on {A B} (f : A -> B) l :
  (forall x y, In x l -> In y l -> f x = f y -> x = y) -> NoDup l -> NoDup (map f l).
Proof.
  intros Hinj H. induction H as [|x l Hx Hl IH]; cbn [map]; [constructor|].
  constructor.
  - rewrite in_map_iff. intros (y & E & Hy).
    assert (y = x) by (apply Hinj; [now right|now left|assumption]). now subst.
  - apply IH. intros a b Ha Hb. apply Hinj; now right.
Qed.

Lemma prime_not_div_mul p a b : prime p -> ~ (p | a) -> ~ (p | b) -> ~ (p | a * b).
Proof. intros Hp Ha Hb H. apply prime_mult in H; [|assumption]. tauto. Qed.

Lemma zprod_map_mod p a l : 0 < p ->
  zprod (map (fun x => (a * x) mod p) l) mod p = (a ^ Z.of_nat (length l) * zprod l) mod p.
Proof.
  intros Hp. induction l as [|x l IH].
  - reflexivity.
  - cbn [map length]. rewrite Nat2Z.inj_succ, Z.pow_succ_r by lia.
    change (zprod (?y :: ?m)) with (y * zprod m).
    rewrite Z.mul_mod, IH, Z.mod_mod by lia. rewrite <- Z.mul_mod by lia. f_equal. ring.
Qed.

Theorem fermat p a : prime p -> ~ (p | a) -> a ^ (p - 1) mod p = 1.
Proof.
  intros Hp Ha. pose proof (prime_ge_2 p Hp) as Hp2.
  set (n := Z.to_nat (p - 1)). assert (Hn : Z.of_nat n = p - 1) by lia.
  set (L := zrange n).
  assert (Hnd : forall x, In x L -> ~ (p | x)).
  { intros x Hx. apply zrange_in in Hx. intros D. apply Z.divide_pos_le in D; lia. }
  assert (Perm : Permutation (map (fun x => (a * x) mod p) L) L).
  { apply NoDup_Permutation_bis.
    - apply map_nodup_on; [|apply zrange_nodup].
      intros x y Hx Hy E.
      pose proof (proj1 (zrange_in _ _) Hx). pose proof (proj1 (zrange_in _ _) Hy).
      assert (D : (p | a * (x - y))).
      { exists (a * x / p - a * y / p). pose proof (Z.div_mod (a * x) p ltac:(lia)).
        pose proof (Z.div_mod (a * y) p ltac:(lia)). lia. }
      apply prime_mult in D; [|assumption]. destruct D as [D|D]; [contradiction|].
      destruct D as [k Hk]. assert (k = 0) by nia. lia.
    - rewrite map_length. lia.
    - intros y Hy. apply in_map_iff in Hy. destruct Hy as (x & <- & Hx).
      apply zrange_in. pose proof (Z.mod_pos_bound (a * x) p ltac:(lia)).
      assert ((a * x) mod p <> 0); [|lia].
      intros E. apply Z.mod_divide in E; [|lia]. revert E. apply prime_not_div_mul; auto. }
  assert (HL : ~ (p | zprod L)).
  { clear Perm. induction L as [|x L IH].
    - cbn. intros D. apply Z.divide_1_r in D. lia.
    - cbn [zprod fold_right]. apply prime_not_div_mul; [assumption|apply Hnd; now left|].
      apply IH. intros y Hy. apply Hnd. now right. }
  pose proof (zprod_map_mod p a L ltac:(lia)) as E.
  rewrite (zprod_perm _ _ Perm) in E. unfold L at 2 in E. rewrite zrange_length, Hn in E.
  assert (D : (p | (a ^ (p - 1) - 1) * zprod L)).
  { exists (a ^ (p - 1) * zprod L / p - zprod L / p).
    pose proof (Z.div_mod (a ^ (p - 1) * zprod L) p ltac:(lia)).
    pose proof (Z.div_mod (zprod L) p ltac:(lia)). lia. }
  apply prime_mult in D; [|assumption]. destruct D as [[k Hk]|D]; [|contradiction].
  symmetry. apply (Z.mod_unique_pos _ _ k); lia.
Qed.

Lemma fermat_inv p a : prime p -> 2 < p -> a mod p <> 0 -> (a * a ^ (p - 2)) mod p = 1.
Proof.
  intros Hp H2 Ha. rewrite <- Z.pow_succ_r by lia. replace (Z.succ (p - 2)) with (p - 1) by lia.
  apply fermat; [assumption|]. intros D. apply Ha. apply Z.mod_divide; [lia|assumption].
Qed.

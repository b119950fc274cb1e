From Verif Require Import Base BaseFacts ModelMemxor.

(** Reads of operand [i] are never destroyed by earlier writes to [out] when the operand starts at
    or after [out], or ends before it. *)
Definition safe_operand (out i : Z) (size : nat) : Prop :=
  out <= i \/ i + Z.of_nat size <= out.

Definition xor_region (out in1 in2 : Z) (size : nat) (m m' : mem) : Prop :=
  (forall k, 0 <= k < Z.of_nat size ->
     m' (out + k) = Z.lxor (m (in1 + k)) (m (in2 + k))) /\
  (forall a, a < out \/ out + Z.of_nat size <= a -> m' a = m a).

Lemma memxor_loop_spec fuel w out in1 in2 size m o a b s m' :
  (1 <= w)%nat -> (size <= fuel)%nat ->
  safe_operand out in1 size -> safe_operand out in2 size ->
  memxor_loop fuel w out in1 in2 size m = (o, a, b, s, m') ->
  exists d : nat, (d + s = size)%nat /\ (s < w)%nat /\
    o = out + Z.of_nat d /\ a = in1 + Z.of_nat d /\ b = in2 + Z.of_nat d /\
    xor_region out in1 in2 d m m'.
Proof.
  intros Hw. revert out in1 in2 size m.
  induction fuel as [|f IH]; intros out in1 in2 size m Hf S1 S2 E; cbn [memxor_loop] in E.
  - injection E as <- <- <- <- <-. exists 0%nat. unfold xor_region. repeat split; try lia; intros.
  - destruct (w <=? size)%nat eqn:Hle.
    + apply IH in E; unfold safe_operand in *; try lia.
      destruct E as (d & Hd & Hs & Ho & Ha & Hb & Hx1 & Hx2).
      exists (w + d)%nat. repeat split; try lia.
      * intros k Hk. destruct (Z.lt_ge_cases k (Z.of_nat w)) as [Hkw|Hkw].
        -- rewrite Hx2 by lia. unfold memxor_fixed.
           replace ((out <=? out + k) && (out + k <? out + Z.of_nat w)) with true by lia.
           replace (out + k - out) with k by lia. reflexivity.
        -- specialize (Hx1 (k - Z.of_nat w) ltac:(lia)).
           replace (out + Z.of_nat w + (k - Z.of_nat w)) with (out + k) in Hx1 by lia.
           rewrite Hx1. unfold memxor_fixed.
           replace (in1 + Z.of_nat w + (k - Z.of_nat w)) with (in1 + k) by lia.
           replace (in2 + Z.of_nat w + (k - Z.of_nat w)) with (in2 + k) by lia.
           replace ((out <=? in1 + k) && (in1 + k <? out + Z.of_nat w)) with false by lia.
           replace ((out <=? in2 + k) && (in2 + k <? out + Z.of_nat w)) with false by lia.
           reflexivity.
      * intros x Hx. rewrite Hx2 by lia. unfold memxor_fixed.
        replace ((out <=? x) && (x <? out + Z.of_nat w)) with false by lia. reflexivity.
    + injection E as <- <- <- <- <-. exists 0%nat. unfold xor_region. repeat split; try lia; intros.
Qed.

Lemma memxor_strides_spec ws out in1 in2 size m :
  Forall (fun w => (1 <= w)%nat) ws -> last ws 0%nat = 1%nat ->
  safe_operand out in1 size -> safe_operand out in2 size ->
  xor_region out in1 in2 size m (memxor_strides ws out in1 in2 size m).
Proof.
  intros HF. revert out in1 in2 size m.
  induction HF as [|w ws Hw HF IH]; intros out in1 in2 size m HL S1 S2; [discriminate|].
  cbn [memxor_strides].
  destruct (memxor_loop size w out in1 in2 size m) as [[[[o a] b] s] m'] eqn:E.
  apply memxor_loop_spec in E; auto.
  destruct E as (d & Hd & Hs & -> & -> & -> & Hx1 & Hx2).
  destruct ws as [|w' ws].
  - cbn in HL. subst w. assert (s = 0)%nat by lia. subst s.
    replace size with d by lia. cbn [memxor_strides]. split; assumption.
  - assert (HL' : last (w' :: ws) 0%nat = 1%nat) by exact HL.
    specialize (IH (out + Z.of_nat d) (in1 + Z.of_nat d) (in2 + Z.of_nat d) s m' HL').
    unfold safe_operand in *.
    destruct IH as [I1 I2]; try lia.
    split.
    + intros k Hk. destruct (Z.lt_ge_cases k (Z.of_nat d)) as [Hkd|Hkd].
      * rewrite I2 by lia. apply Hx1; lia.
      * specialize (I1 (k - Z.of_nat d) ltac:(lia)).
        replace (out + Z.of_nat d + (k - Z.of_nat d)) with (out + k) in I1 by lia.
        replace (in1 + Z.of_nat d + (k - Z.of_nat d)) with (in1 + k) in I1 by lia.
        replace (in2 + Z.of_nat d + (k - Z.of_nat d)) with (in2 + k) in I1 by lia.
        rewrite I1. rewrite !Hx2 by lia. reflexivity.
    + intros x Hx. rewrite I2 by lia. apply Hx2; lia.
Qed.

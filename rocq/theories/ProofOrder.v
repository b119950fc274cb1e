(** When a point of prime order n is known on a curve over a field of N elements with 2N+1 < 3n,
    every point of the curve is a multiple of it (a counting argument). *)
From Coq Require Import Znumtheory.
From Verif Require Import Base BaseFacts SpecField SpecEC ProofEC ProofECMul.

Lemma point_eq_dec {F} (K : field F) (P Q : point F) : {P = Q} + {P <> Q}.
Proof.
  destruct P as [|x y], Q as [|x' y']; [now left|now right|now right|].
  destruct (feq_dec K x x') as [->|N]; [|right; congruence].
  destruct (feq_dec K y y') as [->|N]; [now left|right; congruence].
Qed.

Lemma map_nodup_in {A B} (f : A -> B) l :
  (forall x y, In x l -> In y l -> f x = f y -> x = y) -> NoDup l -> NoDup (map f l).
Proof.
  induction l as [|x l IH]; intros Hf N; [constructor|]. inversion N; subst. cbn. constructor.
  - intros I. apply in_map_iff in I. destruct I as (y & E & Hy).
    apply Hf in E; [subst; contradiction|now right|now left].
  - apply IH; [|assumption]. intros u v Hu Hv. apply Hf; now right.
Qed.

Section Order.
  Context {F : Type} (K : field F) (a b : F).
  Hypothesis OK : curve_ok K a b.
  Notation on := (on_curve K a b).
  Notation add := (ec_add K a).
  Notation neg := (ec_neg K).
  Notation zm := (zmul K a).
  Variables (all : list F) (n : Z) (G : point F).
  Hypothesis Hall : forall x, In x all.
  Hypotheses (Hn : prime n) (Hn2 : n <> 2) (HG : on G) (Gn : zm n G = Inf) (G0 : G <> Inf).
  Hypothesis Hbig : 2 * Z.of_nat (length all) + 1 < 3 * n.

  Definition rhs (x : F) : F := fadd K (fadd K (fmul K (fmul K x x) x) (fmul K a x)) b.
  Definition pts (x : F) : list (point F) :=
    match find (fun y => if feq_dec K (fmul K y y) (rhs x) then true else false) all with
    | Some y => [Aff x y; Aff x (fopp K y)]
    | None => []
    end.
  Definition all_points : list (point F) := Inf :: flat_map pts all.

  Lemma all_points_complete P : on P -> In P all_points.
  Proof.
    destruct P as [|x y]; intros H; [now left|right].
    apply in_flat_map. exists x. split; [apply Hall|]. unfold pts.
    destruct (find _ all) as [y0|] eqn:E.
    - apply find_some in E. destruct E as [_ E].
      destruct (feq_dec K (fmul K y0 y0) (rhs x)) as [E0|]; [|discriminate].
      assert (S : y = y0 \/ y = fopp K y0).
      { unfold rhs in E0. clear - H E0. destruct K.
        exact (same_x _ _ _ _ _ _ _ _ _ _ f_theory a b x y y0 H E0). }
      destruct S as [->| ->]; [now left|right; now left].
    - exfalso. pose proof (find_none _ _ E y (Hall y)) as N. cbn in N.
      destruct (feq_dec K (fmul K y y) (rhs x)) as [|N']; [discriminate|]. exact (N' H).
  Qed.
  Lemma all_points_length : (length all_points <= S (2 * length all))%nat.
  Proof.
    unfold all_points. cbn [length]. apply le_n_S.
    assert (H : forall l, (length (flat_map pts l) <= 2 * length l)%nat); [|apply H].
    induction l as [|x l IH]; [apply le_n|]. cbn [flat_map]. rewrite app_length. cbn [length].
    assert (length (pts x) <= 2)%nat; [|lia].
    unfold pts. destruct (find _ all); cbn; lia.
  Qed.

  (** the multiples of G shifted by a point *)
  Definition coset (P : point F) : list (point F) :=
    map (fun k => add P (zm (Z.of_nat k) G)) (seq 0 (Z.to_nat n)).

  Let Pn : 1 < n. Proof. destruct Hn. assumption. Qed.

  Lemma coset_length P : length (coset P) = Z.to_nat n.
  Proof. unfold coset. now rewrite map_length, seq_length. Qed.
  Lemma coset_in P Q : In Q (coset P) -> exists k, 0 <= k < n /\ Q = add P (zm k G).
  Proof.
    intros H. apply in_map_iff in H. destruct H as (k & <- & Hk). apply in_seq in Hk.
    exists (Z.of_nat k). split; [lia|reflexivity].
  Qed.
  Lemma coset_on P : on P -> forall Q, In Q (coset P) -> on Q.
  Proof.
    intros HP Q H. apply coset_in in H. destruct H as (k & _ & ->).
    apply (ec_add_on K a b OK); [exact HP|]. now apply (zmul_on K a b OK).
  Qed.
  Lemma coset_nodup P : on P -> NoDup (coset P).
  Proof.
    intros HP. unfold coset. apply map_nodup_in; [|apply seq_NoDup].
    intros i j Hi Hj E. apply in_seq in Hi, Hj.
    apply (ec_add_cancel K a b OK) in E; [|exact HP|now apply (zmul_on K a b OK)..].
    apply (zmul_inj K a b OK n G Hn HG Gn G0) in E; [|lia|lia].
    rewrite !Z.mod_small in E by lia. lia.
  Qed.

  (** if two cosets meet, the difference is a multiple of G *)
  Lemma coset_meet P D Q : on P -> on D -> In Q (coset P) -> In Q (coset (add P D)) ->
    exists k, 0 <= k < n /\ D = zm k G.
  Proof.
    intros HP HD H1 H2. apply coset_in in H1, H2.
    destruct H1 as (i & Hi & ->), H2 as (j & Hj & E).
    assert (OI : on (zm i G)) by now apply (zmul_on K a b OK).
    assert (OJ : on (zm j G)) by now apply (zmul_on K a b OK).
    rewrite (ec_add_assoc K a b OK) in E by assumption.
    apply (ec_add_cancel K a b OK) in E; [|assumption|assumption|now apply (ec_add_on K a b OK)].
    exists ((i + (n - j)) mod n). split; [apply Z.mod_pos_bound; lia|].
    rewrite (zmul_mod K a b OK n G Hn HG Gn) by lia.
    rewrite (zmul_add K a b OK) by (assumption || lia). rewrite E.
    rewrite (zmul_neg K a b OK n G HG Gn) by lia.
    rewrite (ec_add_assoc K a b OK) by (assumption || now apply (ec_neg_on K a b OK)).
    rewrite (ec_add_neg K a b OK). symmetry. apply (ec_add_inf_r K).
  Qed.

  Theorem order_all P : on P -> exists k, 0 <= k < n /\ P = zm k G.
  Proof.
    intros HP.
    destruct (in_dec (point_eq_dec K) P (coset Inf)) as [I|NI].
    { apply coset_in in I. destruct I as (k & Hk & E). exists k. split; [exact Hk|exact E]. }
    exfalso.
    assert (NG : forall k, 0 <= k < n -> P <> zm k G).
    { intros k Hk E. apply NI. unfold coset. apply in_map_iff. exists (Z.to_nat k).
      split; [|apply in_seq; lia]. rewrite Z2Nat.id by lia. now rewrite E. }
    assert (H2P : on (add P P)) by now apply (ec_add_on K a b OK).
    assert (NG2 : forall k, 0 <= k < n -> add P P <> zm k G).
    { intros k Hk E.
      assert (Odd : n mod 2 = 1).
      { pose proof (Z.mod_pos_bound n 2 ltac:(lia)). destruct (Z.eq_dec (n mod 2) 0) as [E0|]; [exfalso|lia].
        apply Zmod_divide in E0; [|lia]. apply (prime_divisors n Hn) in E0. lia. }
      assert (HK : exists m, 0 <= m /\ zm k G = zm (2 * m) G).
      { destruct (Z.eq_dec (k mod 2) 0) as [E0|N0].
        - exists (k / 2). split; [apply Z.div_pos; lia|]. f_equal. pose proof (Z.div_mod k 2 ltac:(lia)). lia.
        - exists ((k + n) / 2). split; [apply Z.div_pos; lia|].
          apply (zmul_inj K a b OK n G Hn HG Gn G0); [lia| |].
          + apply Z.mul_nonneg_nonneg; [lia|apply Z.div_pos; lia].
          + assert (E1 : 2 * ((k + n) / 2) = k + 1 * n) by (clear - Odd N0; lia).
            rewrite E1, Z_mod_plus_full. reflexivity. }
      destruct HK as (m & Hm & EK). rewrite EK, (zmul_dbl K a b OK) in E by assumption.
      (* P + P = M + M gives P = M, since there is no point of order two *)
      set (M := zm m G) in *. assert (OM : on M) by now apply (zmul_on K a b OK).
      assert (OM' : on (neg M)) by now apply (ec_neg_on K a b OK).
      set (D := add P (neg M)). assert (OD : on D) by now apply (ec_add_on K a b OK).
      assert (D2 : add D D = Inf).
      { unfold D. rewrite (ec_add_assoc K a b OK), <- (ec_add_assoc K a b OK (neg M)), (ec_add_comm K a b OK (neg M) P)
          by (assumption || now apply (ec_add_on K a b OK)).
        rewrite <- !(ec_add_assoc K a b OK) by (assumption || now repeat apply (ec_add_on K a b OK)).
        rewrite E. rewrite (ec_add_assoc K a b OK M M), (ec_add_neg K a b OK), (ec_add_inf_r K) by assumption.
        apply (ec_add_neg K a b OK). }
      assert (D0 : D = Inf).
      { destruct D as [|x y] eqn:ED; [reflexivity|exfalso].
        apply (ec_add_inf_neg K a b OK) in D2; [|assumption|assumption].
        cbn [ec_neg] in D2. injection D2 as D2.
        apply (ec_y_nz K a b OK x y OD).
        destruct OK as [O1 O2]. clear - O1 D2. destruct K.
        destruct (feq_dec y f0) as [|N]; [assumption|exfalso].
        apply (dbl_nz _ _ _ _ _ _ _ _ _ f_theory O1 y N).
        cbn in D2. rewrite D2 at 1. destruct f_theory. destruct F_R.
        rewrite Radd_comm. apply Ropp_def. }
      apply (NG (m mod n)); [apply Z.mod_pos_bound; lia|].
      rewrite (zmul_mod K a b OK n G Hn HG Gn) by assumption. fold M.
      assert (E1 : add D M = P).
      { unfold D. rewrite (ec_add_assoc K a b OK) by assumption.
        rewrite (ec_add_comm K a b OK (neg M) M), (ec_add_neg K a b OK) by assumption. apply (ec_add_inf_r K). }
      rewrite D0 in E1. symmetry. exact E1. }
    (* three disjoint cosets *)
    set (l := coset Inf ++ coset P ++ coset (add P P)).
    assert (ND : NoDup l).
    { assert (NDA : forall (l1 l2 : list (point F)), NoDup l1 -> NoDup l2 ->
                (forall Q, In Q l1 -> In Q l2 -> False) -> NoDup (l1 ++ l2)).
      { induction l1 as [|q l1 IH]; intros l2 N1 N2 Dj; [assumption|]. inversion N1; subst. cbn. constructor.
        - rewrite in_app_iff. intros [I|I]; [contradiction|]. apply (Dj q); [now left|assumption].
        - apply IH; [assumption|assumption|]. intros Q I1 I2. apply (Dj Q); [now right|assumption]. }
      unfold l. apply NDA; [apply coset_nodup; exact I|apply NDA|].
      - now apply coset_nodup.
      - now apply coset_nodup.
      - intros Q H1 H2. destruct (coset_meet P P Q HP HP H1 H2) as (k & Hk & E). exact (NG k Hk E).
      - intros Q H1 H2. apply in_app_iff in H2. destruct H2 as [H2|H2].
        + destruct (coset_meet Inf P Q I HP H1 H2) as (k & Hk & E). exact (NG k Hk E).
        + destruct (coset_meet Inf (add P P) Q I H2P H1 H2) as (k & Hk & E). exact (NG2 k Hk E). }
    assert (IN : incl l all_points).
    { intros Q HQ. apply all_points_complete. unfold l in HQ. rewrite !in_app_iff in HQ.
      destruct HQ as [HQ|[HQ|HQ]]; eapply coset_on; try exact HQ; [exact I|assumption|assumption]. }
    pose proof (NoDup_incl_length ND IN) as LE. pose proof all_points_length as AL.
    unfold l in LE. rewrite !app_length, !coset_length in LE. lia.
  Qed.

  Corollary order_all_n P : on P -> zm n P = Inf.
  Proof.
    intros HP. destruct (order_all P HP) as (k & Hk & ->).
    rewrite <- (zmul_mul K a b OK) by (assumption || lia).
    rewrite Z.mul_comm. now apply (zmul_n_any K a b OK n G).
  Qed.
End Order.

(** all elements of the prime field *)
Definition fp_all (p : Z) : list (fp p) := map (fun k => fof p (Z.of_nat k)) (seq 0 (Z.to_nat p)).
Lemma fp_all_length p : 0 < p -> Z.of_nat (length (fp_all p)) = p.
Proof. intros H. unfold fp_all. rewrite map_length, seq_length. lia. Qed.
Lemma fp_all_in p (x : fp p) : 0 < p -> In x (fp_all p).
Proof.
  intros H. pose proof (fval_range p x H) as B. apply in_map_iff. exists (Z.to_nat (fval x)).
  split; [|apply in_seq; lia]. rewrite Z2Nat.id by lia. apply fof_fval.
Qed.

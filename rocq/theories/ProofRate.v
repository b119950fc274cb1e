(** The R-ate pairing over abstract fields: its value is the element that the cocycle of line values
    attaches to the second point, hence it is additive in both arguments. *)
From Coq Require Import Field Lia.
From Verif Require Import Base SpecField SpecEC SpecSM9 SpecPairing ProofEC ProofECMul ProofFrob ProofIso ProofLines ProofBilin ProofCocycle.

(** ** Miller's loop over any field *)
Section Miller.
  Context {L : Type} (KL : field L) (h : L -> L).
  Notation add := (ec_add KL (f0 KL)). Infix "*" := (fmul KL).
  Definition gstep (P Q : point L) (s : L * point L) (d : Z) : L * point L :=
    let '(f, T) := s in
    let f := f * f * line_at KL T T P in
    let T := add T T in
    if d =? 1 then (f * line_at KL T Q P, add T Q)
    else if d =? -1 then (f * line_at KL T (ec_neg KL Q) P, add T (ec_neg KL Q))
    else (f, T).
  Definition gmiller (ds : list Z) (P Q : point L) : L :=
    let '(f, T) := fold_left (gstep P Q) ds (f1 KL, Q) in
    let Q1 := pmap h Q in
    let Q2 := pmap h (pmap h Q) in
    let f := f * line_at KL T Q1 P in
    let T := add T Q1 in
    f * line_at KL T (ec_neg KL Q2) P.
End Miller.

Section Rate.
  Context {F0 F L : Type} (K0 : field F0) (K : field F) (KL : field L) (e0 : F0 -> L) (em : F -> L).
  Hypothesis H0 : hom K0 KL e0. Hypothesis Hm : hom K KL em.
  Add Field FLr : (f_theory KL).
  Variable c : L. Hypothesis Hc : c <> f0 KL.
  Variables (b0 : F0) (b : F) (b' : L).
  Hypothesis OK0 : curve_ok K0 (f0 K0) b0. Hypothesis OK : curve_ok K (f0 K) b.
  Hypothesis Hb0 : e0 b0 = b'.
  Hypothesis Hb : fmul KL (em b) (fmul KL (fmul KL (fmul KL c c) c) (fmul KL (fmul KL c c) c)) = b'.
  Notation on := (on_curve K (f0 K) b). Notation on0 := (on_curve K0 (f0 K0) b0).
  Notation neg := (ec_neg K). Notation zm := (zmul K (f0 K)).
  Infix "[+]" := (ec_add K (f0 K)) (at level 50, left associativity).
  Infix "*:" := (fmul KL) (at level 40, left associativity). Infix "^." := (fpow KL) (at level 30, right associativity).
  Variable good : point F -> Prop.
  Hypothesis g_on : forall A, good A -> on A.
  Hypothesis g_inf : good Inf.
  Hypothesis g_add : forall A B, good A -> good B -> good (A [+] B).
  Hypothesis g_neg : forall A, good A -> good (neg A).
  Hypothesis no3 : forall x y x' y', good (Aff x y) -> Aff x y [+] Aff x y = Aff x' y' -> x' <> x.
  Variable f : point F -> point F.
  Hypothesis g_f : forall A, good A -> good (f A).
  Hypothesis f_add : forall A B, good A -> good B -> f (A [+] B) = f A [+] f B.
  Hypothesis f_neg : forall A, f (neg A) = neg (f A).
  Variables n p m Ex j : Z.
  Hypothesis p0 : 0 <= p. Hypothesis m0 : 0 <= m. Hypothesis n0 : 0 <= n. Hypothesis E0 : 0 < Ex. Hypothesis j0 : 0 <= j.
  Hypothesis dvd : m + p + p * (p * p) = p * p + n * j.
  Hypothesis Hh : hom KL KL (fun z => z ^. p).
  Hypothesis h_e0 : forall x, e0 x ^. p = e0 x.
  Hypothesis h_iso : forall A, iso KL em c (f A) = pmap (fun z => z ^. p) (iso KL em c A).
  Hypothesis ordE : forall z, z <> f0 KL -> (z ^. Ex) ^. n = f1 KL.
  Hypothesis m1E : fopp KL (f1 KL) ^. Ex = f1 KL.
  Hypothesis vk : forall x0 y0, on0 (Aff x0 y0) -> vert_ok KL em c good (fun z => z ^. Ex) (e0 x0).
  Notation pw := (fun z => z ^. Ex).
  Definition lift (P : point F0) : point L := match P with Inf => Inf | Aff x y => Aff (e0 x) (e0 y) end.
  Definition cP (P : point F0) (A B : point F) : L := line_at KL (iso KL em c A) (iso KL em c B) (lift P) ^. Ex.
  Lemma cP_aff x0 y0 A B : cP (Aff x0 y0) A B = cc KL em c pw (e0 x0) (e0 y0) A B. Proof. reflexivity. Qed.
  Lemma cP_inf A B : cP Inf A B = f1 KL.
  Proof. unfold cP. destruct A, B; apply fpow_one. Qed.
  Lemma pwmul u v : (u *: v) ^. Ex = u ^. Ex *: v ^. Ex. Proof. apply fpow_mulb. Qed.
  Lemma pw1 : f1 KL ^. Ex = f1 KL. Proof. apply fpow_one. Qed.
  Lemma pwh z : (z ^. p) ^. Ex = (z ^. Ex) ^. p.
  Proof. rewrite <- !fpow_mul by (assumption || lia). f_equal. apply Z.mul_comm. Qed.
  Lemma onL x0 y0 : on0 (Aff x0 y0) -> e0 y0 *: e0 y0 = fadd KL (e0 x0 *: e0 x0 *: e0 x0) b'.
  Proof.
    intros O. pose proof (on_eq K0 b0 _ _ O) as E. rewrite <- Hb0, <- !(h_mul _ _ _ H0), E, !(h_add _ _ _ H0). reflexivity.
  Qed.
  (** group laws *)
  Lemma gcomm A B : good A -> good B -> A [+] B = B [+] A.
  Proof. intros GA GB. exact (ec_add_comm K _ _ OK A B (g_on _ GA) (g_on _ GB)). Qed.
  Lemma gassoc A B C : good A -> good B -> good C -> A [+] B [+] C = A [+] (B [+] C).
  Proof. intros GA GB GC. exact (ec_add_assoc K _ _ OK A B C (g_on _ GA) (g_on _ GB) (g_on _ GC)). Qed.
  Lemma gzl A : Inf [+] A = A. Proof. reflexivity. Qed.
  Lemma gzr A : A [+] Inf = A. Proof. now destruct A. Qed.
  Lemma gan A : good A -> A [+] neg A = Inf. Proof. intros _. exact (ec_add_neg K _ _ OK A). Qed.
  Lemma gna A B : good A -> good B -> neg (A [+] B) = neg A [+] neg B.
  Proof.
    intros GA GB. symmetry. pose proof (g_neg _ GA) as NA. pose proof (g_neg _ GB) as NB.
    apply (ec_add_inf_neg K _ _ OK); [exact (g_on _ (g_add _ _ GA GB))|exact (g_on _ (g_add _ _ NA NB))|].
    rewrite (gcomm _ _ NA NB), (gassoc _ _ _ GA GB (g_add _ _ NB NA)), <- (gassoc _ _ _ GB NB NA), (gan _ GB). exact (gan _ GA).
  Qed.
  Lemma gm0 Q : zm 0 Q = Inf. Proof. reflexivity. Qed.
  Lemma gms k Q : good Q -> 0 <= k -> zm (k + 1) Q = zm k Q [+] Q.
  Proof.
    intros GQ Hk. rewrite (zmul_add K _ _ OK k 1 Q (g_on _ GQ) Hk ltac:(lia)). now rewrite zmul_1.
  Qed.
  (** cocycle laws *)
  Section P.
    Variable P : point F0. Hypothesis OP : on0 P.
    Lemma q_sym A B : good A -> good B -> cP P A B = cP P B A.
    Proof.
      intros GA GB. destruct P as [|x0 y0]; [now rewrite !cP_inf|].
      exact (cc_sym K KL em Hm c Hc b b' OK Hb good g_on pw (e0 x0) (e0 y0) A B GA GB).
    Qed.
    Lemma q_coc A B C : good A -> good B -> good C -> cP P A B *: cP P (A [+] B) C = cP P B C *: cP P A (B [+] C).
    Proof.
      intros GA GB GC. destruct P as [|x0 y0]; [now rewrite !cP_inf|].
      exact (cc_coc K KL em Hm c Hc b b' OK Hb good g_on g_add g_neg no3 pw pwmul pw1 (e0 x0) (e0 y0) (onL _ _ OP)
        (fun x y G => proj1 (vk _ _ OP x y G)) A B C GA GB GC).
    Qed.
    Lemma q_zer A : cP P Inf A = f1 KL. Proof. unfold cP. apply fpow_one. Qed.
    Lemma q_neg A : good A -> cP P A (neg A) = f1 KL.
    Proof.
      intros GA. destruct P as [|x0 y0]; [now rewrite !cP_inf|].
      exact (cc_neg K KL em Hm c good pw pw1 (e0 x0) (e0 y0) (fun x y G => proj1 (vk _ _ OP x y G)) A GA).
    Qed.
    Lemma ln_nz A B : good A -> good B -> line_at KL (iso KL em c A) (iso KL em c B) (lift P) <> f0 KL.
    Proof.
      intros GA GB. destruct P as [|x0 y0]; [destruct A, B; exact (F_1_neq_0 (f_theory KL))|].
      exact (ev_nz K KL em Hm c Hc b b' OK Hb good g_on g_add (e0 x0) (e0 y0) (onL _ _ OP)
        (fun x y G => proj2 (vk _ _ OP x y G)) A B GA GB).
    Qed.
    Lemma q_nz A B : good A -> good B -> cP P A B <> f0 KL.
    Proof. intros GA GB. apply fpow_nz. now apply ln_nz. Qed.
    Lemma q_n A B : good A -> good B -> cP P A B ^. n = f1 KL.
    Proof. intros GA GB. apply ordE. now apply ln_nz. Qed.
    Lemma q_nn A B : good A -> good B -> cP P (neg A) (neg B) *: cP P A B = f1 KL.
    Proof.
      intros GA GB. destruct P as [|x0 y0]; [rewrite !cP_inf; ring|].
      exact (cc_nn K KL em Hm c Hc b b' OK Hb good g_on g_add g_neg pw pwmul pw1 (e0 x0) (e0 y0) (onL _ _ OP)
        (fun x y G => proj1 (vk _ _ OP x y G)) A B GA GB).
    Qed.
    Lemma q_f A B : good A -> good B -> cP P (f A) (f B) = cP P A B ^. p.
    Proof.
      intros GA GB. destruct P as [|x0 y0]; [rewrite !cP_inf; symmetry; apply fpow_one|].
      exact (cc_f K KL em Hm c Hc b OK good g_on pw (fun z => z ^. p) f p Hh h_iso pwh (e0 x0) (e0 y0) A B (h_e0 x0) (h_e0 y0) GB).
    Qed.
  End P.
  Definition eP (P : point F0) (Q : point F) : L := er KL (point F) (ec_add K (f0 K)) neg f zm m (cP P) Q.
  Definition cl (Q : point F) : Prop := zm m Q [+] f Q [+] neg (f (f Q)) = neg (f (f (f Q))).
  Theorem eP_add_r P A B : on0 P -> good A -> good B -> cl A -> cl B -> eP P (A [+] B) = eP P A *: eP P B.
  Proof.
    intros OP GA GB CA CB.
    exact (er_add KL (point F) good (ec_add K (f0 K)) Inf neg f g_add g_inf g_neg g_f gcomm gassoc gzl gzr gan f_add f_neg gna
      zm gm0 gms n p m p0 m0 (cP P) (q_sym P OP) (q_coc P OP) (q_zer P) (q_neg P OP) (q_nz P OP) (q_n P OP) (q_nn P OP)
      (q_f P OP) j j0 n0 dvd A B GA GB CA CB).
  Qed.
  Lemma fz_one c1 k Q : (forall A B, c1 A B = f1 KL) -> fz KL (point F) zm c1 k Q = f1 KL.
  Proof.
    intros H. unfold fz. induction (Z.to_nat k) as [|i IH]; [reflexivity|]. cbn [fq]. rewrite IH, H. ring.
  Qed.
  Lemma eP_inf Q : eP Inf Q = f1 KL.
  Proof. unfold eP, er. rewrite fz_one by apply cP_inf. rewrite !cP_inf. ring. Qed.
  Lemma eP_opp x0 y0 Q : on0 (Aff x0 y0) -> good Q -> eP (Aff x0 (fopp K0 y0)) Q *: eP (Aff x0 y0) Q = f1 KL.
  Proof.
    intros O GQ.
    assert (E : forall A B, good A -> good B -> cP (Aff x0 (fopp K0 y0)) A B *: cP (Aff x0 y0) A B = f1 KL).
    { intros A B GA GB. rewrite !cP_aff, (em_opp _ _ _ H0).
      exact (cc_opp K KL em Hm c Hc b b' OK Hb good g_on g_add pw pwmul pw1 m1E (e0 x0) (e0 y0) A B (onL _ _ O) (vk _ _ O) GA GB). }
    assert (GM : forall k, good (zm (Z.of_nat k) Q)).
    { induction k as [|k IH]; [exact g_inf|]. replace (Z.of_nat (S k)) with (Z.of_nat k + 1)%Z by lia.
      rewrite gms by (assumption || lia). now apply g_add. }
    assert (EF : fz KL (point F) zm (cP (Aff x0 (fopp K0 y0))) m Q *: fz KL (point F) zm (cP (Aff x0 y0)) m Q = f1 KL).
    { unfold fz. induction (Z.to_nat m) as [|i IH]; [cbn [fq]; ring|]. cbn [fq].
      set (u := fq _ _ _ _ _ _) in IH |- *. set (v := fq _ _ _ (cP (Aff x0 y0)) _ _) in IH |- *.
      pose proof (E _ _ (GM i) GQ) as Ei. set (u' := cP _ _ _) in Ei |- *. set (v' := cP (Aff x0 y0) _ _) in Ei |- *.
      transitivity (u *: v *: (u' *: v')); [ring|]. rewrite IH, Ei. ring. }
    assert (Gm : good (zm m Q)) by (rewrite <- (Z2Nat.id m m0); apply GM).
    pose proof (E _ _ Gm (g_f _ GQ)) as E1. pose proof (E _ _ (g_add _ _ Gm (g_f _ GQ)) (g_neg _ (g_f _ (g_f _ GQ)))) as E2.
    unfold eP, er.
    set (u := fz _ _ _ _ _ _) in EF |- *. set (v := fz _ _ _ (cP (Aff x0 y0)) _ _) in EF |- *.
    set (u1 := cP _ _ _) in E1 |- *. set (v1 := cP (Aff x0 y0) _ _) in E1 |- *.
    set (u2 := cP _ _ _) in E2 |- *. set (v2 := cP (Aff x0 y0) _ _) in E2 |- *.
    transitivity (u *: v *: (u1 *: v1) *: (u2 *: v2)); [ring|]. rewrite EF, E1, E2. ring.
  Qed.
  Theorem eP_add_l P P' Q : on0 P -> on0 P' -> good Q -> cl Q -> eP (ec_add K0 (f0 K0) P P') Q = eP P Q *: eP P' Q.
  Proof.
    intros O O' GQ CQ. destruct P as [|sx sy]; [rewrite eP_inf; cbn [ec_add]; ring|].
    destruct P' as [|tx ty]; [rewrite eP_inf; cbn [ec_add]; ring|].
    destruct (ec_add K0 (f0 K0) (Aff sx sy) (Aff tx ty)) as [|rx ry] eqn:ER.
    - pose proof (ec_add_inf_neg K0 _ _ OK0 _ _ O O' ER) as N. cbn [ec_neg] in N. injection N as -> ->.
      rewrite eP_inf. symmetry. pose proof (eP_opp _ _ Q O GQ) as E. rewrite <- E. ring.
    - assert (OR : on0 (Aff rx ry)) by (rewrite <- ER; now apply (ec_add_on K0 _ _ OK0)).
      destruct (dat_add K0 b0 OK0 _ _ _ _ _ _ O O' ER) as (l & mm & D).
      pose proof (dat_hom K0 KL e0 H0 b0 _ _ _ _ _ _ _ _ D) as D'. rewrite Hb0 in D'.
      pose proof (hh_cob K KL em Hm c Hc b b' OK Hb good g_on g_add pw pwmul pw1 m1E _ _ _ _ _ _ _ _ D' (vk _ _ O) (vk _ _ O') (vk _ _ OR)) as CB.
      pose proof (hh_neg K KL em Hm c b b' Hb good g_on pw pwmul _ _ _ _ _ _ _ _ D' (vk _ _ O) (vk _ _ O') (vk _ _ OR)) as HN.
      pose proof (hh_nz K KL em Hm c b b' Hb good g_on pw pwmul _ _ _ _ _ _ _ _ D' (vk _ _ O) (vk _ _ O') (vk _ _ OR)) as NZ.
      pose proof (fun A (G : good A) => hh_f KL em c pw (fun z => z ^. p) f p Hh h_iso pwh (e0 l) (e0 mm) A (h_e0 l) (h_e0 mm)) as HF.
      refine (er_cob KL (point F) good (ec_add K (f0 K)) Inf neg f g_add g_inf g_neg g_f gcomm gassoc gzl gzr gan f_add f_neg gna
        zm gm0 gms n p m p0 m0 (cP (Aff sx sy)) (cP (Aff tx ty)) (cP (Aff rx ry)) (hh KL em c pw (e0 l) (e0 mm)) CB eq_refl NZ HN HF _ j j0 n0 dvd Q GQ CQ).
      intros A GA. pose proof (NZ A GA) as N. destruct A as [|x y]; [apply fpow_one|]. cbn [hh] in N |- *. apply ordE.
      intros Z0. apply N. rewrite Z0. now apply fpow_zero.
  Qed.

  (** ** The value of Miller's loop *)
  Section Value.
    Variables (P : point F0) (Q : point F).
    Hypothesis OP : on0 P. Hypothesis GQ : good Q.
    Notation ln A B := (line_at KL (iso KL em c A) (iso KL em c B) (lift P)).
    Lemma g_mul k : 0 <= k -> good (zm k Q).
    Proof.
      intros Hk. rewrite <- (Z2Nat.id k Hk). induction (Z.to_nat k) as [|i IH]; [exact g_inf|].
      replace (Z.of_nat (S i)) with (Z.of_nat i + 1)%Z by lia. rewrite gms by (assumption || lia). now apply g_add.
    Qed.
    Lemma iadd A B : good A -> good B -> ec_add KL (f0 KL) (iso KL em c A) (iso KL em c B) = iso KL em c (A [+] B).
    Proof. intros GA GB. symmetry. exact (iso_add K KL em Hm c Hc b OK A B (g_on _ GA) (g_on _ GB)). Qed.
    Lemma ineg A : ec_neg KL (iso KL em c A) = iso KL em c (neg A).
    Proof. symmetry. exact (iso_neg K KL em Hm c A). Qed.
    Notation fzP k := (fz KL (point F) zm (cP P) k Q).
    Lemma z_dbl k : 0 <= k -> fzP (2 * k) = fzP k *: fzP k *: cP P (zm k Q) (zm k Q).
    Proof.
      exact (fz_dbl KL (point F) good (ec_add K (f0 K)) Inf neg f g_add g_inf g_neg g_f gcomm gassoc gzl gzr gan f_add f_neg gna
        zm gm0 gms m m0 (cP P) (q_sym P OP) (q_coc P OP) (q_zer P) (q_neg P OP) k Q GQ).
    Qed.
    Lemma z_succ k : 0 <= k -> fzP (k + 1) = fzP k *: cP P (zm k Q) Q.
    Proof.
      exact (fz_succ KL (point F) good (ec_add K (f0 K)) Inf neg f g_add g_neg g_f gcomm gassoc gzl gzr gan f_add f_neg gna
        zm gm0 gms (cP P) (q_sym P OP) (q_coc P OP) (q_zer P) (q_neg P OP) k Q GQ).
    Qed.
    Lemma z_pred k : 1 <= k -> fzP (k - 1) = fzP k *: cP P (zm k Q) (neg Q).
    Proof.
      exact (fz_pred KL (point F) good (ec_add K (f0 K)) Inf neg f g_add g_inf g_neg g_f gcomm gassoc gzl gzr gan f_add f_neg gna
        zm gm0 gms m m0 (cP P) (q_sym P OP) (q_coc P OP) (q_zer P) (q_neg P OP) k Q GQ).
    Qed.
    Lemma loop_value ds : Forall (fun d => d = 0 \/ d = 1 \/ d = -1) ds -> forall k g, 1 <= k -> g ^. Ex = fzP k ->
      exists g', fold_left (gstep KL (lift P) (iso KL em c Q)) ds (g, iso KL em c (zm k Q)) =
        (g', iso KL em c (zm (fold_left (fun k d => 2 * k + d) ds k) Q)) /\
        g' ^. Ex = fzP (fold_left (fun k d => 2 * k + d) ds k).
    Proof.
      induction ds as [|d ds IH]; intros Hd k g Hk Hg; [exists g; split; [reflexivity|exact Hg]|].
      pose proof (Forall_inv Hd) as D. pose proof (Forall_inv_tail Hd) as Hd'. cbn [fold_left].
      assert (Gk : good (zm k Q)) by (apply g_mul; lia).
      set (g2 := g *: g *: ln (zm k Q) (zm k Q)).
      assert (Hg2 : g2 ^. Ex = fzP (2 * k)).
      { unfold g2. rewrite !pwmul, Hg, z_dbl by lia. reflexivity. }
      assert (E2 : ec_add KL (f0 KL) (iso KL em c (zm k Q)) (iso KL em c (zm k Q)) = iso KL em c (zm (2 * k) Q)).
      { rewrite iadd by assumption. rewrite (zmul_dbl K _ _ OK k Q (g_on _ GQ)) by lia. reflexivity. }
      assert (Gk2 : good (zm (2 * k) Q)) by (apply g_mul; lia).
      destruct D as [->|[->| ->]].
      - replace (gstep _ _ _ _ 0) with (g2, iso KL em c (zm (2 * k + 0) Q)) by (cbn [gstep Z.eqb]; rewrite E2, Z.add_0_r; reflexivity).
        apply IH; [exact Hd'|lia|now rewrite Z.add_0_r].
      - replace (gstep _ _ _ _ 1) with (g2 *: ln (zm (2 * k) Q) Q, iso KL em c (zm (2 * k + 1) Q)).
        2: { cbn [gstep]. rewrite E2. rewrite iadd by assumption. rewrite gms by (assumption || lia). reflexivity. }
        apply IH; [exact Hd'|lia|]. rewrite pwmul, Hg2, z_succ by lia. reflexivity.
      - replace (gstep _ _ _ _ (-1)) with (g2 *: ln (zm (2 * k) Q) (neg Q), iso KL em c (zm (2 * k + -1) Q)).
        2: { cbn [gstep]. change (-1 =? 1) with false. change (-1 =? -1) with true. cbv iota zeta. rewrite E2, ineg, iadd by (assumption || now apply g_neg).
             rewrite <- (zmul_pred K _ _ OK (2 * k) Q (g_on _ GQ)) by lia. reflexivity. }
        apply IH; [exact Hd'|lia|]. rewrite pwmul, Hg2. replace (2 * k + -1)%Z with (2 * k - 1)%Z by lia. rewrite z_pred by lia. reflexivity.
    Qed.
    Theorem miller_value ds : Forall (fun d => d = 0 \/ d = 1 \/ d = -1) ds -> fold_left (fun k d => 2 * k + d) ds 1 = m ->
      gmiller KL (fun z => z ^. p) ds (lift P) (iso KL em c Q) ^. Ex = eP P Q.
    Proof.
      intros Hd Em. destruct (loop_value ds Hd 1 (f1 KL) ltac:(lia)) as (g' & E & V).
      { rewrite pw1. change (fzP 1) with (f1 KL *: cP P (zm 0 Q) Q). rewrite gm0, q_zer. ring. }
      rewrite Em in E, V. rewrite zmul_1 in E. unfold gmiller. rewrite E. rewrite <- !h_iso, ineg.
      rewrite (iadd _ _ (g_mul m m0) (g_f _ GQ)), !pwmul, V. reflexivity.
    Qed.
  End Value.

  (** ** Multiples *)
  Lemma f_inf : f Inf = Inf.
  Proof. pose proof (h_iso Inf) as E. destruct (f Inf); [reflexivity|discriminate]. Qed.
  Lemma zm_inf k : zm k Inf = Inf.
  Proof. unfold zmul. induction (Z.to_nat k) as [|i IH]; [reflexivity|]. cbn [ec_mul]. now rewrite IH. Qed.
  Lemma cl_inf : cl Inf.
  Proof. unfold cl. rewrite !f_inf, zm_inf. reflexivity. Qed.
  Lemma cl_add A B : good A -> good B -> cl A -> cl B -> cl (A [+] B).
  Proof.
    intros GA GB CA CB. unfold cl in *.
    assert (EM : zm m (A [+] B) = zm m A [+] zm m B).
    { pose proof (mul_distr (point F) good (ec_add K (f0 K)) Inf neg f g_add g_inf g_neg g_f gcomm gassoc gzl gzr gan f_add f_neg gna zm gm0 gms (Z.to_nat m) A B GA GB) as E.
      rewrite Z2Nat.id in E by assumption. exact E. }
    pose proof (g_f _ GA) as F1. pose proof (g_f _ GB) as F2. pose proof (g_f _ F1) as FF1. pose proof (g_f _ F2) as FF2.
    rewrite EM, !f_add by (try apply g_add; try apply g_f; try apply g_f; assumption).
    rewrite !gna by (try apply g_f; assumption). rewrite <- CA, <- CB.
    pose proof (g_mul _ GA m m0) as MA. pose proof (g_mul _ GB m m0) as MB. pose proof (g_neg _ FF1) as N1. pose proof (g_neg _ FF2) as N2.
    set (a := zm m A) in *. set (a' := zm m B) in *. set (x := f A) in *. set (x' := f B) in *. set (u := neg (f x)) in *. set (u' := neg (f x')) in *.
    assert (S1 : forall p1 p2 q1 q2, good p1 -> good p2 -> good q1 -> good q2 -> p1 [+] p2 [+] (q1 [+] q2) = p1 [+] q1 [+] (p2 [+] q2)).
    { intros p1 p2 q1 q2 g1 g2 g3 g4. rewrite (gassoc p1 p2 _ g1 g2 (g_add _ _ g3 g4)), (gassoc p1 q1 _ g1 g3 (g_add _ _ g2 g4)). f_equal.
      rewrite <- (gassoc p2 q1 q2 g2 g3 g4), <- (gassoc q1 p2 q2 g3 g2 g4). f_equal. now apply gcomm. }
    rewrite (S1 a a' x x') by assumption. apply S1; try assumption; now apply g_add.
  Qed.
  Lemma cl_mul k Q : 0 <= k -> good Q -> cl Q -> cl (zm k Q).
  Proof.
    intros Hk GQ CQ. rewrite <- (Z2Nat.id k Hk). induction (Z.to_nat k) as [|i IH]; [rewrite gm0; exact cl_inf|].
    replace (Z.of_nat (S i)) with (Z.of_nat i + 1)%Z by lia. rewrite gms by (assumption || lia).
    apply cl_add; [apply g_mul; [assumption|lia]|assumption|exact IH|assumption].
  Qed.
  Lemma eP_zer P : eP P Inf = f1 KL.
  Proof.
    unfold eP, er. rewrite !f_inf, !zm_inf. cbn [ec_neg]. rewrite gzl, !q_zer.
    assert (E : fz KL (point F) zm (cP P) m Inf = f1 KL).
    { unfold fz. induction (Z.to_nat m) as [|i IH]; [reflexivity|]. cbn [fq]. rewrite IH, zm_inf, q_zer. ring. }
    rewrite E. ring.
  Qed.
  Lemma eP_mul_r P Q k : on0 P -> good Q -> cl Q -> 0 <= k -> eP P (zm k Q) = eP P Q ^. k.
  Proof.
    intros OP GQ CQ Hk. rewrite <- (Z2Nat.id k Hk). induction (Z.to_nat k) as [|i IH].
    - change (Z.of_nat 0) with 0. rewrite gm0, fpow_0. apply eP_zer.
    - replace (Z.of_nat (S i)) with (Z.of_nat i + 1)%Z by lia. rewrite gms by (assumption || lia).
      rewrite fpow_add, fpow_1 by lia. rewrite <- IH. apply eP_add_r; try assumption; [apply g_mul; [assumption|lia]|apply cl_mul; [lia|assumption|assumption]].
  Qed.
  Lemma eP_mul_l P Q k : on0 P -> good Q -> cl Q -> 0 <= k -> eP (zmul K0 (f0 K0) k P) Q = eP P Q ^. k.
  Proof.
    intros OP GQ CQ Hk. rewrite <- (Z2Nat.id k Hk). induction (Z.to_nat k) as [|i IH].
    - change (Z.of_nat 0) with 0. rewrite zmul_0, fpow_0. apply eP_inf.
    - replace (Z.of_nat (S i)) with (Z.of_nat i + 1)%Z by lia.
      rewrite (zmul_add K0 _ _ OK0 (Z.of_nat i) 1 P OP) by lia. rewrite zmul_1, fpow_add, fpow_1 by lia. rewrite <- IH.
      apply eP_add_l; try assumption. now apply (zmul_on K0 _ _ OK0).
  Qed.
  Theorem eP_bil P Q a k : on0 P -> good Q -> cl Q -> 0 <= a -> 0 <= k ->
    eP (zmul K0 (f0 K0) a P) (zm k Q) = eP P Q ^. (a * k).
  Proof.
    intros OP GQ CQ Ha Hk. rewrite eP_mul_r by (try assumption; now apply (zmul_on K0 _ _ OK0)).
    rewrite eP_mul_l by assumption. rewrite fpow_mul by assumption. reflexivity.
  Qed.
End Rate.

(** ** Elements fixed by a power of the Frobenius map disappear in the final exponentiation *)
Section Kill.
  Context {L : Type} (KL : field L). Add Field FLk : (f_theory KL).
  Infix "^." := (fpow KL) (at level 30, right associativity).
  Lemma kill z q e : 1 <= q -> 0 <= e -> z <> f0 KL -> z ^. q = z -> z ^. ((q - 1) * e) = f1 KL.
  Proof.
    intros Hq He Nz E. rewrite fpow_mul by lia.
    assert (E1 : z ^. (q - 1) = f1 KL).
    { apply (mul_cancel1 KL z); [exact Nz|]. replace q with ((q - 1) + 1)%Z in E by lia. rewrite fpow_add, fpow_1 in E by lia. exact E. }
    rewrite E1. apply fpow_one.
  Qed.
  Lemma six z p : 0 <= p -> (((((z ^. p) ^. p) ^. p) ^. p) ^. p) ^. p = z ^. (p ^ 6).
  Proof.
    intros Hp. rewrite <- !fpow_mul; try lia; [f_equal; ring|nia..].
  Qed.
End Kill.

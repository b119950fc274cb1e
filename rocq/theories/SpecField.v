(** Fields: a record of operations with the field laws, and the prime field of integers modulo p.
    Elements of [fp p] are the integers x with x mod p = x. *)
From Coq Require Import Field Eqdep_dec Znumtheory.
From Verif Require Import Base BaseFacts ProofFermat.

Record field (F : Type) := MkField {
  f0 : F; f1 : F;
  fadd : F -> F -> F; fmul : F -> F -> F; fsub : F -> F -> F; fopp : F -> F;
  fdiv : F -> F -> F; finv : F -> F;
  feq_dec : forall x y : F, {x = y} + {x <> y};
  f_theory : field_theory f0 f1 fadd fmul fsub fopp fdiv finv eq
}.
Arguments f0 {F}. Arguments f1 {F}. Arguments fadd {F}. Arguments fmul {F}. Arguments fsub {F}.
Arguments fopp {F}. Arguments fdiv {F}. Arguments finv {F}. Arguments feq_dec {F}.
Arguments f_theory {F}.

(** ** The integers modulo p *)
Definition fp (p : Z) : Type := {x : Z | (x mod p =? x) = true}.
Definition fval {p} (x : fp p) : Z := proj1_sig x.
Lemma fof_ok p x : ((x mod p) mod p =? x mod p) = true.
Proof. apply Z.eqb_eq. apply Zmod_mod. Qed.
Definition fof (p x : Z) : fp p := exist _ (x mod p) (fof_ok p x).

Lemma fval_inj p (x y : fp p) : fval x = fval y -> x = y.
Proof.
  destruct x as [x Hx], y as [y Hy]. cbn. intros ->. f_equal. apply UIP_dec. apply Bool.bool_dec.
Qed.
Lemma fval_fof p x : fval (fof p x) = x mod p. Proof. reflexivity. Qed.
Lemma fval_mod p (x : fp p) : fval x mod p = fval x.
Proof. destruct x as [x Hx]. cbn. now apply Z.eqb_eq. Qed.
Lemma fof_fval p (x : fp p) : fof p (fval x) = x.
Proof. apply fval_inj. rewrite fval_fof. apply fval_mod. Qed.
Lemma fval_range p (x : fp p) : 0 < p -> 0 <= fval x < p.
Proof. intros. rewrite <- fval_mod. apply Z.mod_pos_bound; lia. Qed.
Lemma fof_eq p x y : x mod p = y mod p <-> fof p x = fof p y.
Proof.
  split; intros H.
  - apply fval_inj. rewrite !fval_fof. exact H.
  - apply (f_equal fval) in H. exact H.
Qed.

(** modular exponentiation by squaring *)
Fixpoint pow_mod (p x : Z) (e : positive) : Z :=
  match e with
  | xH => x mod p
  | xO e' => let r := pow_mod p x e' in (r * r) mod p
  | xI e' => let r := pow_mod p x e' in (((r * r) mod p) * x) mod p
  end.

Definition fp_add {p} (x y : fp p) := fof p (fval x + fval y).
Definition fp_mul {p} (x y : fp p) := fof p (fval x * fval y).
Definition fp_sub {p} (x y : fp p) := fof p (fval x - fval y).
Definition fp_opp {p} (x : fp p) := fof p (- fval x).
Definition fp_inv {p} (x : fp p) := fof p (pow_mod p (fval x) (Z.to_pos (p - 2))).
Definition fp_div {p} (x y : fp p) := fp_mul x (fp_inv y).

Lemma pow_mod_spec p x e : pow_mod p x e = x ^ Z.pos e mod p.
Proof.
  induction e as [e IH|e IH|]; cbn [pow_mod].
  - rewrite IH, <- Zmult_mod, Zmult_mod_idemp_l. f_equal. rewrite Pos2Z.inj_xI. rewrite Z.pow_add_r, Z.pow_twice_r by lia. lia.
  - rewrite IH, <- Zmult_mod. f_equal. rewrite Pos2Z.inj_xO. rewrite Z.pow_twice_r. lia.
  - now rewrite Z.pow_1_r.
Qed.

Lemma fp_eq_dec p (x y : fp p) : {x = y} + {x <> y}.
Proof.
  destruct (Z.eq_dec (fval x) (fval y)) as [E|E]; [left; now apply fval_inj|right].
  intros H. apply E. now f_equal.
Defined.

Lemma fp_theory p : prime p -> 2 < p ->
  field_theory (fof p 0) (fof p 1) fp_add fp_mul fp_sub fp_opp fp_div fp_inv (@eq (fp p)).
Proof.
  intros Hp H2. constructor; [constructor|..].
  all: intros; try (apply fval_inj; unfold fp_add, fp_mul, fp_sub, fp_opp; rewrite ?fval_fof).
  - rewrite Zplus_mod_idemp_l. now rewrite Z.add_0_l, fval_mod.
  - f_equal; lia.
  - rewrite Zplus_mod_idemp_l, Zplus_mod_idemp_r. f_equal; lia.
  - rewrite Zmult_mod_idemp_l. now rewrite Z.mul_1_l, fval_mod.
  - f_equal; lia.
  - rewrite Zmult_mod_idemp_l, Zmult_mod_idemp_r. f_equal; lia.
  - rewrite Zmult_mod_idemp_l, <- Zplus_mod. f_equal; lia.
  - rewrite Zplus_mod_idemp_r. f_equal; lia.
  - rewrite Zplus_mod_idemp_r. f_equal; lia.
  - intros H. apply (f_equal fval) in H. rewrite !fval_fof in H.
    rewrite Z.mod_1_l, Z.mod_0_l in H by lia. discriminate.
  - reflexivity.
  - unfold fp_inv. rewrite fval_fof. rewrite pow_mod_spec.
    rewrite Z2Pos.id by lia. rewrite Zmod_mod, Zmult_mod_idemp_l, Z.mul_comm.
    rewrite (fermat_inv p _ Hp H2).
    + now rewrite Z.mod_1_l by lia.
    + intros E. apply H. apply fval_inj. rewrite fval_fof, Z.mod_0_l by lia. now rewrite <- fval_mod.
Qed.

(** The prime field, for a modulus proved prime. *)
Definition Fp (p : Z) (Hp : prime p) (H2 : 2 < p) : field (fp p) :=
  MkField (fp p) (fof p 0) (fof p 1) fp_add fp_mul fp_sub fp_opp fp_div fp_inv (@fp_eq_dec p)
    (fp_theory p Hp H2).

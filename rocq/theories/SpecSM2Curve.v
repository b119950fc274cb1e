(** Specification: the SM2 curve of GB/T 32918.5 (recommended parameters), as numbers, over the prime
    field F_p; and its base point.  Everything is written with the general definitions of SpecField
    and SpecEC. *)
From Coq Require Import Znumtheory.
From Verif Require Import Base SpecField SpecEC ProofPrimes.

(** GB/T 32918.5-2017, the parameters of the curve y^2 = x^3 + ax + b *)
Definition SM2_p : Z := 0xFFFFFFFEFFFFFFFFFFFFFFFFFFFFFFFFFFFFFFFF00000000FFFFFFFFFFFFFFFF.
Definition SM2_a : Z := 0xFFFFFFFEFFFFFFFFFFFFFFFFFFFFFFFFFFFFFFFF00000000FFFFFFFFFFFFFFFC.
Definition SM2_b : Z := 0x28E9FA9E9D9F5E344D5A9E4BCF6509A7F39789F515AB8F92DDBCBD414D940E93.
Definition SM2_n : Z := 0xFFFFFFFEFFFFFFFFFFFFFFFFFFFFFFFF7203DF6B21C6052B53BBF40939D54123.
Definition SM2_Gx : Z := 0x32C4AE2C1F1981195F9904466A39C9948FE30BBFF2660BE1715A4589334C74C7.
Definition SM2_Gy : Z := 0xBC3736A2F4F6779C59BDCEE36B692153D0A9877CC62A474002DF32E52139F0A0.

Lemma SM2_p_prime : prime SM2_p. Proof. exact prime_sm2_p. Qed.
Lemma SM2_n_prime : prime SM2_n. Proof. exact prime_sm2_n. Qed.
Lemma SM2_p_gt2 : 2 < SM2_p. Proof. reflexivity. Qed.

(** the field, the curve, the group and the base point *)
Definition SM2_F : Type := fp SM2_p.
Definition SM2_K : field SM2_F := Fp SM2_p SM2_p_prime SM2_p_gt2.
Definition SM2_A : SM2_F := fof SM2_p SM2_a.
Definition SM2_B : SM2_F := fof SM2_p SM2_b.
Definition SM2_on (P : point SM2_F) : Prop := on_curve SM2_K SM2_A SM2_B P.
Definition SM2_add (P Q : point SM2_F) : point SM2_F := ec_add SM2_K SM2_A P Q.
(** [k]P *)
Definition SM2_mul (k : Z) (P : point SM2_F) : point SM2_F := ec_mul SM2_K SM2_A (Z.to_nat k) P.
Definition SM2_G : point SM2_F := Aff (fof SM2_p SM2_Gx) (fof SM2_p SM2_Gy).

(** Worked values for the SM2 properties: the key d = 1 (public key G), the id "A", the message
    01 02 03 and the random scalar k = 1, with SM3. *)
From Coq Require Import Znumtheory.
From Verif Require Import Base BaseFacts SpecField SpecEC SpecSM2Curve ProofSM2Curve SpecSM2 SpecSM2Api
  ModelEC ModelSM2 ProofECMul ProofNumlib ProofSM2Rep ProofSM2Enc ProofSM2 ProofSM2b ProofSM2c ProofSM2d SpecSM3.

Definition ex_zin : list Z := Eval vm_compute in
  be_bytes 2 8 ++ [65] ++ be_bytes 32 SM2_a ++ be_bytes 32 SM2_b
  ++ be_bytes 32 SM2_Gx ++ be_bytes 32 SM2_Gy ++ be_bytes 32 SM2_Gx ++ be_bytes 32 SM2_Gy.
Definition ex_z : list Z := Eval vm_compute in SM3 ex_zin.
Definition ex_dg : list Z := Eval vm_compute in SM3 (ex_z ++ [1; 2; 3]).
Definition ex_kin : list Z := Eval vm_compute in be_bytes 32 SM2_Gx ++ be_bytes 32 SM2_Gy ++ be_bytes 4 1.
Definition ex_ks : list Z := Eval vm_compute in SM3 ex_kin.
Lemma ex_z_ok : SM3 ex_zin = ex_z. Proof. vm_compute. reflexivity. Qed.
Lemma ex_dg_ok : SM3 (ex_z ++ [1; 2; 3]) = ex_dg. Proof. vm_compute. reflexivity. Qed.
Lemma ex_ks_ok : SM3 ex_kin = ex_ks. Proof. vm_compute. reflexivity. Qed.

Notation Gx := (fof SM2_p SM2_Gx).
Notation Gy := (fof SM2_p SM2_Gy).
Lemma ex_fbx : SM2_fb Gx = be_bytes 32 SM2_Gx.
Proof. unfold SM2_fb. f_equal. Qed.
Lemma ex_fby : SM2_fb Gy = be_bytes 32 SM2_Gy.
Proof. unfold SM2_fb. f_equal. Qed.
Definition ex_e : Z := Eval vm_compute in be_val ex_dg.
Lemma ex_e_ok : SM2_e SM3 [65] [1; 2; 3] Gx Gy = ex_e.
Proof.
  unfold SM2_e, SM2_Z. rewrite ex_fbx, ex_fby.
  assert (E : be_bytes 2 (8 * Z.of_nat (length [65])) ++ [65] ++ be_bytes 32 SM2_a ++ be_bytes 32 SM2_b ++
    be_bytes 32 SM2_Gx ++ be_bytes 32 SM2_Gy ++ be_bytes 32 SM2_Gx ++ be_bytes 32 SM2_Gy = ex_zin) by (vm_compute; reflexivity).
  rewrite E, ex_z_ok, ex_dg_ok. vm_compute. reflexivity.
Qed.

Lemma ex_e_nz : ex_e mod SM2_n <> 0.
Proof. intros E. assert (X : (ex_e mod SM2_n =? 0) = false) by (vm_compute; reflexivity). rewrite E in X. discriminate. Qed.

(** the signature of the example with k = 1 *)
Definition ex_r : Z := Eval vm_compute in (ex_e + SM2_Gx) mod SM2_n.
Definition ex_s : Z := Eval vm_compute in ((SM2_n + 1) / 2 * (1 - ex_r)) mod SM2_n.
Lemma ex_sig : SM2_signature 1 ex_e 1 ex_r ex_s.
Proof.
  exists Gx, Gy. split; [exact (zmul_1 SM2_K SM2_A SM2_G)|].
  assert (X : ((ex_r =? (ex_e + SM2_Gx) mod SM2_n) && negb (ex_r =? 0) && negb (ex_r + 1 =? SM2_n) && (0 <? ex_s) && (ex_s <? SM2_n)
    && (((1 + 1) * ex_s) mod SM2_n =? (1 - ex_r * 1) mod SM2_n))%bool = true) by (vm_compute; reflexivity).
  rewrite !andb_true_iff in X. destruct X as [[[[[X1 X2] X3] X4] X5] X6].
  apply Z.eqb_eq in X1, X6. apply Z.ltb_lt in X4, X5. apply negb_true_iff in X2, X3. apply Z.eqb_neq in X2, X3.
  change (fval Gx) with (SM2_Gx mod SM2_p).
  assert (G0 : SM2_Gx mod SM2_p = SM2_Gx) by (vm_compute; reflexivity). rewrite G0.
  split; [exact X1|]. split; [exact X2|]. split; [exact X3|]. split; [split; assumption|exact X6].
Qed.
Lemma half_unique s t : 0 < s < SM2_n -> 0 < t < SM2_n -> ((1 + 1) * s) mod SM2_n = ((1 + 1) * t) mod SM2_n -> s = t.
Proof.
  assert (G : rel_prime SM2_n (1 + 1)) by (apply Zgcd_1_rel_prime; vm_compute; reflexivity).
  assert (P : 0 < SM2_n) by reflexivity. revert G P. generalize SM2_n. intros n G P Hs Ht E.
  assert (D : (n | (1 + 1) * (s - t))).
  { apply Z.mod_divide; [lia|]. rewrite Z.mul_sub_distr_l, Zminus_mod, E, Z.sub_diag. apply Z.mod_0_l. lia. }
  apply Gauss in D; [|exact G]. destruct D as [q Hq]. assert (q = 0) by nia. lia.
Qed.
Definition ex_rnd : list Z := repeat 0 32.
Lemma ex_draw : draw_k ex_rnd = 1. Proof. vm_compute. reflexivity. Qed.

Lemma kdf_hd Hd Zb b l : SM2_kdf_block Hd Zb (Z.of_nat 1) = b :: l -> b <> 0 -> SM2_kdf Hd Zb 3 <> repeat 0 3.
Proof. intros E Hb. unfold SM2_kdf. cbn [seq map concat]. rewrite E. cbn. congruence. Qed.
Lemma ex_block : SM2_kdf_block SM3 (SM2_fb Gx ++ SM2_fb Gy) (Z.of_nat 1) = ex_ks.
Proof.
  rewrite ex_fbx, ex_fby. unfold SM2_kdf_block.
  assert (E1 : (be_bytes 32 SM2_Gx ++ be_bytes 32 SM2_Gy) ++ be_bytes 4 (Z.of_nat 1) = ex_kin) by (vm_compute; reflexivity).
  rewrite E1. exact ex_ks_ok.
Qed.
Lemma ex_kdf : ~ SM2_kdf_zero SM3 Gx Gy 3.
Proof.
  intros [_ E]. revert E. apply (kdf_hd SM3 (SM2_fb Gx ++ SM2_fb Gy) 199 (tl ex_ks)); [exact ex_block|lia].
Qed.
Lemma ex_enc PC : enc_with SM3 Gx Gy 1 [1; 2; 3] PC (SM2_cipher SM3 PC Gx Gy Gx Gy [1; 2; 3]).
Proof.
  exists Gx, Gy, Gx, Gy. split; [exact (zmul_1 SM2_K SM2_A SM2_G)|]. split; [exact (zmul_1 SM2_K SM2_A SM2_G)|].
  split; [exact ex_kdf|reflexivity].
Qed.

Section Ex.
  Variables (w : Z) (nn : nat) (L : numlib).
  Hypothesis LOK : numlib_ok w nn L.
  Lemma ex_key : exists sk, key_of L sk 1 /\ priv_rep w nn sk 1 Gx Gy.
  Proof.
    assert (V : be_val (be_bytes 32 1) = 1) by (vm_compute; reflexivity).
    destruct (set_priv_spec w nn L LOK (be_bytes 32 1) (be_bytes_bytes _ _) (be_bytes_length _ _))
      as [(R & sk & x & y & E & PR)|[B _]].
    - exists sk. rewrite V in PR. split.
      + rewrite <- V. econstructor 1; [apply be_bytes_bytes|apply be_bytes_length|exact E].
      + destruct PR as (P1 & P2 & P3 & P4).
        assert (E1 : zm 1 SM2_G = SM2_G) by exact (zmul_1 SM2_K SM2_A SM2_G).
        assert (E2 : Aff x y = Aff Gx Gy) by (rewrite <- P3, E1; reflexivity).
        assert (x = Gx) by congruence. assert (y = Gy) by congruence. subst x y.
        split; [exact P1|]. split; [exact P2|]. split; [exact P3|exact P4].
    - exfalso. apply B. rewrite V. split; [lia|]. vm_compute. discriminate.
  Qed.
End Ex.

(** A point of order 13 on the SM9 twist: the public key import does not check membership in G2.
    The certificate (format of ProofZops2) is generated. *)
From Coq Require Import Znumtheory.
From Verif Require Import Base BaseFacts SpecField SpecEC ProofPocklington ProofPrimes ModelNumber SpecNumber ModelEC ModelSM2 ModelSM9 SpecSM9 SpecSM2Api SpecSM9Api
  ProofECMul ProofZops2 ProofJacRep ProofTowerRep ProofNumlib9 ProofSM9Rep ProofSM9Curve ProofSM9Enc  ProofSM9Sign ProofSM9Pub.

Definition T13x : zz := (0x12cf44fd8e0ffa96dfcef9f0172346edc8642811a10950a32004a0e82a2b1e49, 0x4e01d368f79d4a2a622b731a7768d6bfae834b701f938f1d321788fbf29bec3e).
Definition T13y : zz := (0x2207db33d6e5672855671cde6585d0590eac3704b8caf124df67e8cc6022eb22, 0x36e1580fc40b1d5deb1e9d39cf3aa22c644a5afcb28d946281cba885689f00ef).
Definition T13_steps : list step2 := [
  Step2 0x1 (0xb017f65492239937119d1d5bd881955b9d08264942b996a68bd61dc6a2d418, 0x8a6ae9ffcc8e53281e1380a457e42ae1da1be6f4d40329041797c0f6030ea033) (0xa3e83bd2b16cb918cf0b2a649027ce3f46f5ec628edb0d18c554f5a6a914785d, 0x79bb36adb803d88be606ff3b88d7c4036f95bae7931969f3f0f56e0c04f380ea) (0x76118a2a5b9d896c91a249bcb55eab12a3c01a2cc639259b9e3c01af8a740c26, 0x3b0bf4a7078cfeea982f53b34e608e3534c3e2938d670a248792c335b811f577) (0x1c0a8ba1559df603c5b93b690f30c9435f126391d66547eb523dd297cc4ffea5, 0x3ccfa02c8883f1d9f07f669cacb8e280f5454d73c75295993efc239795405e8) ((-0xd2407ca41ca95a6f54d06d29ccc0e663b4b47389b99a0f7b6841ddb3f2806ed5), 0x10b7bd925234dc3f3f74bab70f195dedcfdcb11836347795c693edded56d8f2) (0x41de6847182c116091c2dbf870ac19717c8e8f1c7515cee79d06e639bc172ee0, (-0x6e5d982703be8cd0dd3fc4acb6305539dba941a035350e0bf7ac058cce048a2a)) (0x3d381316a55549eb6512b0926703ac99c4ebf70d991dda174aea5222325a0d5f, 0x379273c95f927abe288c899d9baf125d6b0d437b315145d829f0693ed7c54a40) (0x1257c42d5136edd906f880eb6566f905dafca6e88b9fe1c3201aa5813a3ccd20, 0x79bb36adb803d88be606ff3b88d7c4036f95bae7931969f3f0f56e0c04f380ea) (0x2207db33d6e5672855671cde6585d0590eac3704b8caf124df67e8cc6022eb22, 0x36e1580fc40b1d5deb1e9d39cf3aa22c644a5afcb28d946281cba885689f00ef) ((-0x1613069347eca8fa9c9ee8da8443266bc9e09f7ec94a7fad5199d306afd02088), (-0x3aee433ad5ad46985ce93b6e687097c4a5f4dccb3ff4ecd6a699ebb05617833c)) ((-0xd5390985714ab74f6eb805aebd3347a11429ada66cb21d036cefddff65737a9), 0x255587413c9ce3b8d2f66f2fc3eff3bce43d92e9e584685e39857667842ce686) (0x30e564bc78a9efc068748fb27f95580907b98f1be1b797302c31c1a4a51cd5b7, 0x2c62c3dbb59ef499d217a963a77ed6cb2b341c1505b1d5a7051f024725c73562);
  Step2 0x0 (0x431347b74299240859671429cfef07e2425a8502f4eb048b9e60ed57067247d6, 0x2803ec78864f4bbf5a87b4a0b7713ff829de1435ee47d59f322332e1c2e07d65) (0x2527092adf46e86fe6c77adb7c8a3ff3a360cefa2ca93266401f46696467eb69, 0xa4c2f5e955a62b2d63d4e449eadcf3c725cc203e8248e4a6a7d23f47cf131dd2) (0x76118a2a5b9d896c91a249bcb55eab12a3c01a2cc639259b9e3c01af8a740c26, 0x3b0bf4a7078cfeea982f53b34e608e3534c3e2938d670a248792c335b811f577) (0x1cb2a1764ae65f92c38a2680eba8152090a07721dd43daa971ac5515c616df654, (-0x122bc7594e25779745f593a6781b0b74bb8fda5597fe200187a779e08e5bbcf8)) (0x71d59a78c4a0627d91ed0a973da45d6360f2a696a7f155cc31562603f99f5fd, 0x1d745996ddeafae914eec40354080afa7c8b172c94cd04be34923f55b6c585ee) (0xbf915bdf48aaf49a766f15d21d3b94519fdeb6b07c9f753833ab83cc8cbfa6a, (-0x13f77dbc05ac74e22a6233cb590d49e49f4cd2586502c27be915f1e5d89f1e1f)) (0x0, 0x0) (0x0, 0x0) (0x0, 0x0) (0x0, 0x0) (0x0, 0x0) (0x0, 0x0);
  Step2 0x0 (0x91f541201a5ce6ff80a2b7a12e74ba0257efd9f27f6461d5e4f7174dda5e4438, 0x426c4fea773628de44144a319c8e43912b5cd93baec6a437b758b2156e389fd0) (0x12cf44fd8e0ffa96dfcef9f0172346edc8642811a10950a32004a0e82a2b1e49, 0x4e01d368f79d4a2a622b731a7768d6bfae834b701f938f1d321788fbf29bec3e) (0x943824cc2bbe3fc9809c8e719008f6ec13465c4661affdb70607b25b832e5a5b, 0x7f5ea7f03e988993eae50e1626542518bda8384e67ed5a7963a3f2a27ab2448e) (0x3ce0521fc1dc10762f6dd97b0a0f9c49a72803d40a67731f0e76c704617ade869, (-0x14e265e1acfec9558321867d9aaca14ded82addfdfde5bffb8273c05301f3dac)) (0x4479c53dc978b266464b070c3b0e18887c4c79d69d115ccad16301f190b5eec9, 0x6a64633a42d1fb131cdea6048d954c337aac6ff3be3f2f8b25fd8940bb3c01f6) ((-0x308c0fa3dee1553a6fa2009bdba085fcd25fc6b00765b0eaa8ef182fbdc94bd5), 0x4c29fd94808fdbe19c2d7e703d4e579bc5a98a5c4fd5e791349aeb99a8abbcb7) (0x0, 0x0) (0x0, 0x0) (0x0, 0x0) (0x0, 0x0) (0x0, 0x0) (0x0, 0x0)].
Definition T13 : point F2 := Aff (em2 T13x) (em2 T13y).
Lemma T13_on : E2_on T13.
Proof. unfold E2_on, on_curve, T13. apply injective_projections; apply fval_inj; vm_compute; reflexivity. Qed.
Lemma T13_chain : chain_check2 T13x T13y T13_steps 12 = true.
Proof. checked. Qed.
Lemma T13_order : zm2 13 T13 = Inf.
Proof. exact (chain_inf2 T13x T13y (f0 K2) (num 0, num 5) eq_refl E2_ok T13_on eq_refl T13_steps 12 T13_chain). Qed.
Lemma prime_13 : prime 13.
Proof. apply (prime_trial _ 3); [lia|lia|checked]. Qed.
Theorem T13_not_n : zm2 SM9_n T13 <> Inf.
Proof.
  intros E. apply (zmul_inf_iff K2 (f0 K2) (num 0, num 5) E2_ok 13 T13 prime_13 T13_on T13_order) in E.
  - vm_compute in E. discriminate E.
  - discriminate.
  - vm_compute. discriminate.
Qed.
Section Accept.
  Variables (w : Z) (nn : nat) (L9 : numlib9).
  Hypothesis LOK : numlib9_ok w nn L9.
  Theorem set_pub_accepts pr x y : E2_on (Aff x y) -> (forall Q, exists g, pr (sm9_P1 L9) Q = Ok g) ->
    exists pk, sm9_set_pub L9 pr (F2_bytes x) (F2_bytes y) = Ok pk /\ aR (rel2 (R1 w nn)) (pub9_P pk) (x, y).
  Proof.
    intros On HP. unfold sm9_set_pub.
    assert (RD : forall z, exists Z, sm9_fp2_from_bytes L9 (F2_bytes z) 0 = Ok Z /\ rel2 (R1 w nn) Z z).
    { intros z. assert (Hl : (0 + 64 <= length (F2_bytes z))%nat) by (rewrite F2_bytes_length; apply le_n).
      destruct (fp2_read w nn L9 LOK (F2_bytes z) 0 (F2_bytes_bytes z) Hl) as (Z & E & R). exists Z. split; [exact E|].
      cbn [Nat.add] in R.
      assert (S1 : slice (F2_bytes z) 0 32 = F1_bytes (snd z)). { rewrite slice_0. unfold F2_bytes. apply firstn_exact. apply F1_bytes_length. }
      assert (S2 : slice (F2_bytes z) 32 32 = F1_bytes (fst z)).
      { unfold slice, F2_bytes. rewrite (skipn_exact 32 _ _ (F1_bytes_length _)). apply firstn_all2. rewrite F1_bytes_length. apply le_n. }
      rewrite S1, S2, !g1_fof_bytes_val in R. destruct z. exact R. }
    destruct (RD x) as (X & EX & RX), (RD y) as (Y & EY & RY). unfold fp9 in *. rewrite EX. cbn [bind]. rewrite EY. cbn [bind].
    assert (AR : aR (rel2 (R1 w nn)) (X, Y) (x, y)) by (split; assumption).
    apply (ec2_check w nn L9 LOK _ _ _ AR) in On. unfold fp9 in *. rewrite On. cbn [negb].
    destruct (HP (X, Y)) as (g & Eg). unfold fp9 in *. rewrite Eg. cbn [bind]. eexists. split; [reflexivity|exact AR].
  Qed.
End Accept.

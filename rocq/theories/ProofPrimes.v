(** The moduli of SM2 and SM9 are prime: Pocklington certificates, generated by a script and checked
    here by computation in the kernel. *)
From Coq Require Import Znumtheory.
From Verif Require Import Base BaseFacts ProofFast ProofPocklington.

Ltac checked := vm_cast_no_check (eq_refl true).

(* 13 bits *)
Lemma prime_q0 : prime 4547.
Proof. apply (prime_trial _ 66); [lia|lia|checked]. Qed.

(* 19 bits *)
Definition red_q1 (x : Z) : Z := barrett 0x58cf1 0xb87c73e 19 x.
Lemma red_q1_ok x : red_q1 x mod 0x58cf1 = x mod 0x58cf1.
Proof. apply barrett_spec. Qed.
Lemma prime_q1 : prime 0x58cf1.
Proof.
  apply (pock1 0x58cf1 0x11c3 0x50 red_q1 0x483fd red_q1_ok prime_q0 2); [reflexivity|vm_compute; discriminate|checked].
Qed.

(* 16 bits *)
Lemma prime_q2 : prime 34511.
Proof. apply (prime_trial _ 184); [lia|lia|checked]. Qed.

(* 53 bits *)
Definition red_q3 (x : Z) : Z := barrett 0x10f54237c7047f 0x3c626383d1b6452e 53 x.
Lemma red_q3_ok x : red_q3 x mod 0x10f54237c7047f = x mod 0x10f54237c7047f.
Proof. apply barrett_spec. Qed.
Lemma prime_q3 : prime 0x10f54237c7047f.
Proof.
  apply (pock2 0x10f54237c7047f 0x58cf1 0x86cf 0x5cd42 red_q3
    0xb70070285e20b 0x3c9c4c1f7dfc4 red_q3_ok prime_q1 prime_q2 2);
    [reflexivity|vm_compute; discriminate|checked].
Qed.

(* 10 bits *)
Lemma prime_q4 : prime 743.
Proof. apply (prime_trial _ 26); [lia|lia|checked]. Qed.

(* 16 bits *)
Definition red_q5 (x : Z) : Z := barrett 0xd6c7 0x1312275 16 x.
Lemma red_q5_ok x : red_q5 x mod 0xd6c7 = x mod 0xd6c7.
Proof. apply barrett_spec. Qed.
Lemma prime_q5 : prime 0xd6c7.
Proof.
  apply (pock1 0xd6c7 0x2e7 0x4a red_q5 0x7a7c red_q5_ok prime_q4 2); [reflexivity|vm_compute; discriminate|checked].
Qed.

(* 22 bits *)
Definition red_q6 (x : Z) : Z := barrett 0x2efb89 0x572e68db 22 x.
Lemma red_q6_ok x : red_q6 x mod 0x2efb89 = x mod 0x2efb89.
Proof. apply barrett_spec. Qed.
Lemma prime_q6 : prime 0x2efb89.
Proof.
  apply (pock1 0x2efb89 0xd6c7 0x38 red_q6 0x26b651 red_q6_ok prime_q5 2); [reflexivity|vm_compute; discriminate|checked].
Qed.

(* 23 bits *)
Definition red_q7 (x : Z) : Z := barrett 0x5df713 0xae5ccfdb 23 x.
Lemma red_q7_ok x : red_q7 x mod 0x5df713 = x mod 0x5df713.
Proof. apply barrett_spec. Qed.
Lemma prime_q7 : prime 0x5df713.
Proof.
  apply (pock1 0x5df713 0x2efb89 0x2 red_q7 0x1f525c red_q7_ok prime_q6 2); [reflexivity|vm_compute; discriminate|checked].
Qed.

(* 106 bits *)
Definition red_q8 (x : Z) : Z := barrett 0x341345a4620dcae4034153eb7db 0x4ea7c5aa5af26b7ea9aea9e992d64 106 x.
Lemma red_q8_ok x : red_q8 x mod 0x341345a4620dcae4034153eb7db = x mod 0x341345a4620dcae4034153eb7db.
Proof. apply barrett_spec. Qed.
Lemma prime_q8 : prime 0x341345a4620dcae4034153eb7db.
Proof.
  apply (pock2 0x341345a4620dcae4034153eb7db 0x10f54237c7047f 0x5df713 0x85dc0702 red_q8
    0x27ec29acda4db7765290245d618 0x1df1467e877bd5788f10751ee13 red_q8_ok prime_q3 prime_q7 2);
    [reflexivity|vm_compute; discriminate|checked].
Qed.

(* 7 bits *)
Lemma prime_q9 : prime 79.
Proof. apply (prime_trial _ 7); [lia|lia|checked]. Qed.

(* 7 bits *)
Lemma prime_q10 : prime 67.
Proof. apply (prime_trial _ 7); [lia|lia|checked]. Qed.

(* 23 bits *)
Definition red_q11 (x : Z) : Z := barrett 0x7d58d1 0x82b58f1b 23 x.
Lemma red_q11_ok x : red_q11 x mod 0x7d58d1 = x mod 0x7d58d1.
Proof. apply barrett_spec. Qed.
Lemma prime_q11 : prime 0x7d58d1.
Proof.
  apply (pock2 0x7d58d1 0x4f 0x43 0x610 red_q11
    0x7cf7e5 0x60858 red_q11_ok prime_q9 prime_q10 2);
    [reflexivity|vm_compute; discriminate|checked].
Qed.

(* 12 bits *)
Lemma prime_q12 : prime 2473.
Proof. apply (prime_trial _ 48); [lia|lia|checked]. Qed.

(* 49 bits *)
Definition red_q13 (x : Z) : Z := barrett 0x17bba3d246609 0x2b259025464f37d 49 x.
Lemma red_q13_ok x : red_q13 x mod 0x17bba3d246609 = x mod 0x17bba3d246609.
Proof. apply barrett_spec. Qed.
Lemma prime_q13 : prime 0x17bba3d246609.
Proof.
  apply (pock2 0x17bba3d246609 0x7d58d1 0x9a9 0x5048 red_q13
    0xb418898b465a 0x3aba25938542 red_q13_ok prime_q11 prime_q12 2);
    [reflexivity|vm_compute; discriminate|checked].
Qed.

(* 256 bits *)
Definition sm2_p : Z := 0xfffffffeffffffffffffffffffffffffffffffff00000000ffffffffffffffff.
Definition red_sm2_p (x : Z) : Z :=
  let m h := Z.shiftl h 224 + Z.shiftl h 96 - Z.shiftl h 64 + h in
  fold_red 256 m (fold_red 256 m (fold_red 256 m (fold_red 256 m (fold_red 256 m (fold_red 256 m
    (fold_red 256 m (fold_red 256 m (fold_red 256 m x)))))))).
Lemma red_sm2_p_ok x : red_sm2_p x mod sm2_p = x mod sm2_p.
Proof.
  unfold red_sm2_p. cbv zeta.
  rewrite !(fold_red_spec sm2_p 256 (2 ^ 224 + 2 ^ 96 - 2 ^ 64 + 1)); try reflexivity; try lia;
    intros h; rewrite !Z.shiftl_mul_pow2 by lia; ring.
Qed.
Lemma prime_sm2_p : prime sm2_p.
Proof.
  apply (pock2 sm2_p 0x341345a4620dcae4034153eb7db 0x17bba3d246609 0x3506e2f3d2b700794fda20930a red_sm2_p
    0x62093e7b71c85ff66fe7ea285b02bacb6332112a5a7a52a9cee30bed0187eb0a 0xd6bdaad728ce7886458398af4e2a8bb167fa2c0ef44b97d3e9d50c303e0c0a31 red_sm2_p_ok prime_q8 prime_q13 2);
    [reflexivity|vm_compute; discriminate|checked].
Qed.

(* 13 bits *)
Lemma prime_q15 : prime 5801.
Proof. apply (prime_trial _ 75); [lia|lia|checked]. Qed.

(* 24 bits *)
Definition red_q16 (x : Z) : Z := barrett 0x8a432b 0x1d9ff52a9 24 x.
Lemma red_q16_ok x : red_q16 x mod 0x8a432b = x mod 0x8a432b.
Proof. apply barrett_spec. Qed.
Lemma prime_q16 : prime 0x8a432b.
Proof.
  apply (pock1 0x8a432b 0x16a9 0x61a red_q16 0x174ccf red_q16_ok prime_q15 2); [reflexivity|vm_compute; discriminate|checked].
Qed.

(* 43 bits *)
Definition red_q17 (x : Z) : Z := barrett 0x52057353e4b 0xc7c0c573c81c3 43 x.
Lemma red_q17_ok x : red_q17 x mod 0x52057353e4b = x mod 0x52057353e4b.
Proof. apply barrett_spec. Qed.
Lemma prime_q17 : prime 0x52057353e4b.
Proof.
  apply (pock1 0x52057353e4b 0x8a432b 0x97dde red_q17 0x3c8b46dbd34 red_q17_ok prime_q16 2); [reflexivity|vm_compute; discriminate|checked].
Qed.

(* 47 bits *)
Definition red_q18 (x : Z) : Z := barrett 0x5c4621be6147 0xb18ee866eac1d8 47 x.
Lemma red_q18_ok x : red_q18 x mod 0x5c4621be6147 = x mod 0x5c4621be6147.
Proof. apply barrett_spec. Qed.
Lemma prime_q18 : prime 0x5c4621be6147.
Proof.
  apply (pock1 0x5c4621be6147 0x52057353e4b 0x12 red_q18 0x4d2ccb2c08ef red_q18_ok prime_q17 2); [reflexivity|vm_compute; discriminate|checked].
Qed.

(* 7 bits *)
Lemma prime_q19 : prime 83.
Proof. apply (prime_trial _ 8); [lia|lia|checked]. Qed.

(* 4 bits *)
Lemma prime_q20 : prime 13.
Proof. apply (prime_trial _ 2); [lia|lia|checked]. Qed.

(* 17 bits *)
Definition red_q21 (x : Z) : Z := barrett 0x148c3 0x31d5e26 17 x.
Lemma red_q21_ok x : red_q21 x mod 0x148c3 = x mod 0x148c3.
Proof. apply barrett_spec. Qed.
Lemma prime_q21 : prime 0x148c3.
Proof.
  apply (pock2 0x148c3 0x53 0xd 0x4e red_q21
    0x4182 0xa826 red_q21_ok prime_q19 prime_q20 2);
    [reflexivity|vm_compute; discriminate|checked].
Qed.

(* 32 bits *)
Definition red_q22 (x : Z) : Z := barrett 0x98f408cf 0x1ac788406a1 32 x.
Lemma red_q22_ok x : red_q22 x mod 0x98f408cf = x mod 0x98f408cf.
Proof. apply barrett_spec. Qed.
Lemma prime_q22 : prime 0x98f408cf.
Proof.
  apply (pock1 0x98f408cf 0x148c3 0x771a red_q22 0x16f0c5c3 red_q22_ok prime_q21 2); [reflexivity|vm_compute; discriminate|checked].
Qed.

(* 134 bits *)
Definition red_q23 (x : Z) : Z := barrett 0x3540ab9e1135684dd5108799c164af2765 0x4cea99894469660fc5a33cea16b8cdea4161 134 x.
Lemma red_q23_ok x : red_q23 x mod 0x3540ab9e1135684dd5108799c164af2765 = x mod 0x3540ab9e1135684dd5108799c164af2765.
Proof. apply barrett_spec. Qed.
Lemma prime_q23 : prime 0x3540ab9e1135684dd5108799c164af2765.
Proof.
  apply (pock2 0x3540ab9e1135684dd5108799c164af2765 0x5c4621be6147 0x98f408cf 0xf746cffbf5bfc4 red_q23
    0x2d7a586fd81e19b8a050ca9708e992ddab 0x2b2aa2d1983ebb7f06ec26fff80746d5cd red_q23_ok prime_q18 prime_q22 2);
    [reflexivity|vm_compute; discriminate|checked].
Qed.

(* 197 bits *)
Definition red_q24 (x : Z) : Z := barrett 0x13f1f3759051c182b92c3ad803bf3cb6b53f7b1c01a44ac369 0x335743ad8145faf58145faf58145faf59dbf9bab903885abb48f 197 x.
Lemma red_q24_ok x : red_q24 x mod 0x13f1f3759051c182b92c3ad803bf3cb6b53f7b1c01a44ac369 = x mod 0x13f1f3759051c182b92c3ad803bf3cb6b53f7b1c01a44ac369.
Proof. apply barrett_spec. Qed.
Lemma prime_q24 : prime 0x13f1f3759051c182b92c3ad803bf3cb6b53f7b1c01a44ac369.
Proof.
  apply (pock1 0x13f1f3759051c182b92c3ad803bf3cb6b53f7b1c01a44ac369 0x3540ab9e1135684dd5108799c164af2765 0x5fe1b65bc9f38348 red_q24 0x121b7168444bf811863758dd7602316e2a6170915c9aa00ff1 red_q24_ok prime_q23 2); [reflexivity|vm_compute; discriminate|checked].
Qed.

(* 256 bits *)
Definition sm2_n : Z := 0xfffffffeffffffffffffffffffffffff7203df6b21c6052b53bbf40939d54123.
Definition red_sm2_n (x : Z) : Z := barrett sm2_n 0x1000000010000000100000001000000018dfc2096fa323c0112ac6361f15149a01e 256 x.
Lemma red_sm2_n_ok x : red_sm2_n x mod sm2_n = x mod sm2_n.
Proof. apply barrett_spec. Qed.
Lemma prime_sm2_n : prime sm2_n.
Proof.
  apply (pock1 sm2_n 0x13f1f3759051c182b92c3ad803bf3cb6b53f7b1c01a44ac369 0xcd5d0eb537badd2 red_sm2_n 0x83443fd387975d2b7afebe3476b13948bd823a4c4e25d608b7fb92bea35dc7a7 red_sm2_n_ok prime_q24 2); [reflexivity|vm_compute; discriminate|checked].
Qed.

(* 10 bits *)
Lemma prime_q26 : prime 773.
Proof. apply (prime_trial _ 26); [lia|lia|checked]. Qed.

(* 18 bits *)
Definition red_q27 (x : Z) : Z := barrett 0x389dd 0x4858b17 18 x.
Lemma red_q27_ok x : red_q27 x mod 0x389dd = x mod 0x389dd.
Proof. apply barrett_spec. Qed.
Lemma prime_q27 : prime 0x389dd.
Proof.
  apply (pock1 0x389dd 0x305 0x12c red_q27 0x2511e red_q27_ok prime_q26 2); [reflexivity|vm_compute; discriminate|checked].
Qed.

(* 11 bits *)
Lemma prime_q28 : prime 1109.
Proof. apply (prime_trial _ 32); [lia|lia|checked]. Qed.

(* 17 bits *)
Definition red_q29 (x : Z) : Z := barrett 0x14093 0x331bb8d 17 x.
Lemma red_q29_ok x : red_q29 x mod 0x14093 = x mod 0x14093.
Proof. apply barrett_spec. Qed.
Lemma prime_q29 : prime 0x14093.
Proof.
  apply (pock1 0x14093 0x455 0x4a red_q29 0xe57c red_q29_ok prime_q28 2); [reflexivity|vm_compute; discriminate|checked].
Qed.

(* 45 bits *)
Definition red_q30 (x : Z) : Z := barrett 0x183b89632749 0x2a41d6e94305ab 45 x.
Lemma red_q30_ok x : red_q30 x mod 0x183b89632749 = x mod 0x183b89632749.
Proof. apply barrett_spec. Qed.
Lemma prime_q30 : prime 0x183b89632749.
Proof.
  apply (pock2 0x183b89632749 0x389dd 0x14093 0x578 red_q30
    0x1122e051ede 0x6d94f80d66d red_q30_ok prime_q27 prime_q29 2);
    [reflexivity|vm_compute; discriminate|checked].
Qed.

(* 46 bits *)
Definition red_q31 (x : Z) : Z := barrett 0x307712c64e93 0x5483add2860999 46 x.
Lemma red_q31_ok x : red_q31 x mod 0x307712c64e93 = x mod 0x307712c64e93.
Proof. apply barrett_spec. Qed.
Lemma prime_q31 : prime 0x307712c64e93.
Proof.
  apply (pock1 0x307712c64e93 0x183b89632749 0x2 red_q31 0x1027b0ecc4dc red_q31_ok prime_q30 2); [reflexivity|vm_compute; discriminate|checked].
Qed.

(* 50 bits *)
Definition red_q32 (x : Z) : Z := barrett 0x24594e14baee5 0x70af926e080c9a9 50 x.
Lemma red_q32_ok x : red_q32 x mod 0x24594e14baee5 = x mod 0x24594e14baee5.
Proof. apply barrett_spec. Qed.
Lemma prime_q32 : prime 0x24594e14baee5.
Proof.
  apply (pock1 0x24594e14baee5 0x307712c64e93 0xc red_q32 0xc4465fe9e7c1 red_q32_ok prime_q31 2); [reflexivity|vm_compute; discriminate|checked].
Qed.

(* 56 bits *)
Definition red_q33 (x : Z) : Z := barrett 0xe32e2801905175 0x12079c8c7c2af9eee 56 x.
Lemma red_q33_ok x : red_q33 x mod 0xe32e2801905175 = x mod 0xe32e2801905175.
Proof. apply barrett_spec. Qed.
Lemma prime_q33 : prime 0xe32e2801905175.
Proof.
  apply (pock1 0xe32e2801905175 0x24594e14baee5 0x64 red_q33 0x8d2d2ccd19e9f4 red_q33_ok prime_q32 2); [reflexivity|vm_compute; discriminate|checked].
Qed.

(* 97 bits *)
Definition red_q34 (x : Z) : Z := barrett 0x13107095c23494fe5ca6e6b79 0x35b693c2e7345bcc2598e571fa3 97 x.
Lemma red_q34_ok x : red_q34 x mod 0x13107095c23494fe5ca6e6b79 = x mod 0x13107095c23494fe5ca6e6b79.
Proof. apply barrett_spec. Qed.
Lemma prime_q34 : prime 0x13107095c23494fe5ca6e6b79.
Proof.
  apply (pock1 0x13107095c23494fe5ca6e6b79 0xe32e2801905175 0x157b9061698 red_q34 0x5e953877fe77454830311e06 red_q34_ok prime_q33 2); [reflexivity|vm_compute; discriminate|checked].
Qed.

(* 10 bits *)
Lemma prime_q35 : prime 673.
Proof. apply (prime_trial _ 24); [lia|lia|checked]. Qed.

(* 16 bits *)
Definition red_q36 (x : Z) : Z := barrett 0xb807 0x1641ef9 16 x.
Lemma red_q36_ok x : red_q36 x mod 0xb807 = x mod 0xb807.
Proof. apply barrett_spec. Qed.
Lemma prime_q36 : prime 0xb807.
Proof.
  apply (pock1 0xb807 0x2a1 0x46 red_q36 0x4fdc red_q36_ok prime_q35 2); [reflexivity|vm_compute; discriminate|checked].
Qed.

(* 19 bits *)
Definition red_q37 (x : Z) : Z := barrett 0x5c039 0xb20f5da 19 x.
Lemma red_q37_ok x : red_q37 x mod 0x5c039 = x mod 0x5c039.
Proof. apply barrett_spec. Qed.
Lemma prime_q37 : prime 0x5c039.
Proof.
  apply (pock1 0x5c039 0xb807 0x8 red_q37 0x5c6 red_q37_ok prime_q36 2); [reflexivity|vm_compute; discriminate|checked].
Qed.

(* 28 bits *)
Definition red_q38 (x : Z) : Z := barrett 0x9bfe0a3 0x1a41f89122 28 x.
Lemma red_q38_ok x : red_q38 x mod 0x9bfe0a3 = x mod 0x9bfe0a3.
Proof. apply barrett_spec. Qed.
Lemma prime_q38 : prime 0x9bfe0a3.
Proof.
  apply (pock1 0x9bfe0a3 0x5c039 0x1b2 red_q38 0x1408840 red_q38_ok prime_q37 2); [reflexivity|vm_compute; discriminate|checked].
Qed.

(* 32 bits *)
Definition red_q39 (x : Z) : Z := barrett 0x887e48eb 0x1e0240a5a60 32 x.
Lemma red_q39_ok x : red_q39 x mod 0x887e48eb = x mod 0x887e48eb.
Proof. apply barrett_spec. Qed.
Lemma prime_q39 : prime 0x887e48eb.
Proof.
  apply (pock1 0x887e48eb 0x9bfe0a3 0xe red_q39 0x42de2861 red_q39_ok prime_q38 2); [reflexivity|vm_compute; discriminate|checked].
Qed.

(* 44 bits *)
Definition red_q40 (x : Z) : Z := barrett 0xa18d784e251 0x195a9db1f9486b 44 x.
Lemma red_q40_ok x : red_q40 x mod 0xa18d784e251 = x mod 0xa18d784e251.
Proof. apply barrett_spec. Qed.
Lemma prime_q40 : prime 0xa18d784e251.
Proof.
  apply (pock1 0xa18d784e251 0x887e48eb 0x12f0 red_q40 0xffbf20c13e red_q40_ok prime_q39 2); [reflexivity|vm_compute; discriminate|checked].
Qed.

(* 59 bits *)
Definition red_q41 (x : Z) : Z := barrett 0x569443035118cd3 0xbd3cbc93bd3f00d42 59 x.
Lemma red_q41_ok x : red_q41 x mod 0x569443035118cd3 = x mod 0x569443035118cd3.
Proof. apply barrett_spec. Qed.
Lemma prime_q41 : prime 0x569443035118cd3.
Proof.
  apply (pock1 0x569443035118cd3 0xa18d784e251 0x8932 red_q41 0x11002e3189117c4 red_q41_ok prime_q40 2); [reflexivity|vm_compute; discriminate|checked].
Qed.

(* 256 bits *)
Definition sm9_p : Z := 0xb640000002a3a6f1d603ab4ff58ec74521f2934b1a7aeedbe56f9b27e351457d.
Definition red_sm9_p (x : Z) : Z := barrett sm9_p 0x167980e0beb5759a655f73aebdcd1312af2665f6d1e36081c71188f90d5c2214641 256 x.
Lemma red_sm9_p_ok x : red_sm9_p x mod sm9_p = x mod sm9_p.
Proof. apply barrett_spec. Qed.
Lemma prime_sm9_p : prime sm9_p.
Proof.
  apply (pock2 sm9_p 0x13107095c23494fe5ca6e6b79 0x569443035118cd3 0x1c4446d9d6da32baac450e26b4 red_sm9_p
    0x412b9534e2fe2a43885e49eabe183cb8f5edcf1b6827937d866ae4a7e0ec41af 0x3fc8b5442f2630411506cb910435c7da10f967a5d2717bc684b1fcb884de902a red_sm9_p_ok prime_q34 prime_q41 2);
    [reflexivity|vm_compute; discriminate|checked].
Qed.

(* 13 bits *)
Lemma prime_q43 : prime 5479.
Proof. apply (prime_trial _ 73); [lia|lia|checked]. Qed.

(* 21 bits *)
Definition red_q44 (x : Z) : Z := barrett 0x136559 0x34cb70ee 21 x.
Lemma red_q44_ok x : red_q44 x mod 0x136559 = x mod 0x136559.
Proof. apply barrett_spec. Qed.
Lemma prime_q44 : prime 0x136559.
Proof.
  apply (pock1 0x136559 0x1567 0xe8 red_q44 0xa3ee6 red_q44_ok prime_q43 2); [reflexivity|vm_compute; discriminate|checked].
Qed.

(* 35 bits *)
Definition red_q45 (x : Z) : Z := barrett 0x674972315 0x9ea04968b86 35 x.
Lemma red_q45_ok x : red_q45 x mod 0x674972315 = x mod 0x674972315.
Proof. apply barrett_spec. Qed.
Lemma prime_q45 : prime 0x674972315.
Proof.
  apply (pock1 0x674972315 0x136559 0x5534 red_q45 0x4efb29d08 red_q45_ok prime_q44 2); [reflexivity|vm_compute; discriminate|checked].
Qed.

(* 48 bits *)
Definition red_q46 (x : Z) : Z := barrett 0xf356e9286d9b 0x10d51b794fc9cf6 48 x.
Lemma red_q46_ok x : red_q46 x mod 0xf356e9286d9b = x mod 0xf356e9286d9b.
Proof. apply barrett_spec. Qed.
Lemma prime_q46 : prime 0xf356e9286d9b.
Proof.
  apply (pock1 0xf356e9286d9b 0x674972315 0x25b2 red_q46 0x73695efcab3e red_q46_ok prime_q45 2); [reflexivity|vm_compute; discriminate|checked].
Qed.

(* 82 bits *)
Definition red_q47 (x : Z) : Z := barrett 0x28c445463c7d0dc3c5945 0x6479658c939ea551ba18fef 82 x.
Lemma red_q47_ok x : red_q47 x mod 0x28c445463c7d0dc3c5945 = x mod 0x28c445463c7d0dc3c5945.
Proof. apply barrett_spec. Qed.
Lemma prime_q47 : prime 0x28c445463c7d0dc3c5945.
Proof.
  apply (pock1 0x28c445463c7d0dc3c5945 0xf356e9286d9b 0x2ae34020c red_q47 0x1d2d0825116b25a329f12 red_q47_ok prime_q46 2); [reflexivity|vm_compute; discriminate|checked].
Qed.

(* 13 bits *)
Lemma prime_q48 : prime 8179.
Proof. apply (prime_trial _ 89); [lia|lia|checked]. Qed.

(* 3 bits *)
Lemma prime_q49 : prime 5.
Proof. apply (prime_trial _ 1); [lia|lia|checked]. Qed.

(* 31 bits *)
Definition red_q50 (x : Z) : Z := barrett 0x5580f57b 0xbf9e09c02f 31 x.
Lemma red_q50_ok x : red_q50 x mod 0x5580f57b = x mod 0x5580f57b.
Proof. apply barrett_spec. Qed.
Lemma prime_q50 : prime 0x5580f57b.
Proof.
  apply (pock2 0x5580f57b 0x1ff3 0x5 0x8906 red_q50
    0x18332acd 0x33dbdfc3 red_q50_ok prime_q48 prime_q49 2);
    [reflexivity|vm_compute; discriminate|checked].
Qed.

(* 35 bits *)
Definition red_q51 (x : Z) : Z := barrett 0x4020b81c5 0xff7d6255546 35 x.
Lemma red_q51_ok x : red_q51 x mod 0x4020b81c5 = x mod 0x4020b81c5.
Proof. apply barrett_spec. Qed.
Lemma prime_q51 : prime 0x4020b81c5.
Proof.
  apply (pock1 0x4020b81c5 0x5580f57b 0xc red_q51 0x288734c73 red_q51_ok prime_q50 2); [reflexivity|vm_compute; discriminate|checked].
Qed.

(* 51 bits *)
Definition red_q52 (x : Z) : Z := barrett 0x580bec47ff66d 0xba15555554a8de1 51 x.
Lemma red_q52_ok x : red_q52 x mod 0x580bec47ff66d = x mod 0x580bec47ff66d.
Proof. apply barrett_spec. Qed.
Lemma prime_q52 : prime 0x580bec47ff66d.
Proof.
  apply (pock1 0x580bec47ff66d 0x4020b81c5 0x15f7c red_q52 0x18a4ab3581fed red_q52_ok prime_q51 2); [reflexivity|vm_compute; discriminate|checked].
Qed.

(* 191 bits *)
Definition red_q53 (x : Z) : Z := barrett 0x5100000000e137a62800d0bc6fd928519ca95b32294cc667 0xca4587e6b51c9a9beaf229ae22e7ab0f3111e8f56ee257de0e 191 x.
Lemma red_q53_ok x : red_q53 x mod 0x5100000000e137a62800d0bc6fd928519ca95b32294cc667 = x mod 0x5100000000e137a62800d0bc6fd928519ca95b32294cc667.
Proof. apply barrett_spec. Qed.
Lemma prime_q53 : prime 0x5100000000e137a62800d0bc6fd928519ca95b32294cc667.
Proof.
  apply (pock2 0x5100000000e137a62800d0bc6fd928519ca95b32294cc667 0x28c445463c7d0dc3c5945 0x580bec47ff66d 0x5c6eda57031d826 red_q53
    0x47f11db9e606e9c55cd845922c536c4c14c98b426ed35655 0x4ff70675dfb8de3090dd5ed4d831ff8e37cb4401dec33427 red_q53_ok prime_q47 prime_q52 2);
    [reflexivity|vm_compute; discriminate|checked].
Qed.

(* 256 bits *)
Definition sm9_n : Z := 0xb640000002a3a6f1d603ab4ff58ec74449f2934b18ea8beee56ee19cd69ecf25.
Definition red_sm9_n (x : Z) : Z := barrett sm9_n 0x167980e0beb5759a655f73aebdcd1312c9c95d85ec9c073b074df4fd4dfc97c2fbf 256 x.
Lemma red_sm9_n_ok x : red_sm9_n x mod sm9_n = x mod sm9_n.
Proof. apply barrett_spec. Qed.
Lemma prime_sm9_n : prime sm9_n.
Proof.
  apply (pock1 sm9_n 0x5100000000e137a62800d0bc6fd928519ca95b32294cc667 0x2400000000215d93c red_sm9_n 0xd08c9fe563aa683f61f5d62e2cb7cd97fc7eb9767d49a45e75fe95eed58b0c9 red_sm9_n_ok prime_q53 2); [reflexivity|vm_compute; discriminate|checked].
Qed.

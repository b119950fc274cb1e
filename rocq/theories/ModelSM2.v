(** Model of SM2: src/sm2/sm2p256v1.cpp, include/gmlib/sm2/internal/sm2_alg.h and
    include/gmlib/sm2/sm2.h (class templates over a Hash type).  Curve formulas are in ModelEC. *)
From Verif Require Import Base ModelEndian ModelNumber ModelMont ModelEC.

(** ** Constants *)
(** sm2p256v1.cpp 7-10 *)
Definition SM2_DEFAULT_ID : list Z :=
  [0x31; 0x32; 0x33; 0x34; 0x35; 0x36; 0x37; 0x38; 0x31; 0x32; 0x33; 0x34; 0x35; 0x36; 0x37; 0x38].
(** sm2p256v1.cpp 14-18, and P_DATA 50-53 (the same bytes) *)
Definition SM2_CURVE_P : list Z :=
  [0xff; 0xff; 0xff; 0xfe; 0xff; 0xff; 0xff; 0xff; 0xff; 0xff; 0xff; 0xff; 0xff; 0xff; 0xff; 0xff;
   0xff; 0xff; 0xff; 0xff; 0x00; 0x00; 0x00; 0x00; 0xff; 0xff; 0xff; 0xff; 0xff; 0xff; 0xff; 0xff].
(** 20-24 *)
Definition SM2_CURVE_A : list Z :=
  [0xff; 0xff; 0xff; 0xfe; 0xff; 0xff; 0xff; 0xff; 0xff; 0xff; 0xff; 0xff; 0xff; 0xff; 0xff; 0xff;
   0xff; 0xff; 0xff; 0xff; 0x00; 0x00; 0x00; 0x00; 0xff; 0xff; 0xff; 0xff; 0xff; 0xff; 0xff; 0xfc].
(** 26-30 *)
Definition SM2_CURVE_B : list Z :=
  [0x28; 0xe9; 0xfa; 0x9e; 0x9d; 0x9f; 0x5e; 0x34; 0x4d; 0x5a; 0x9e; 0x4b; 0xcf; 0x65; 0x09; 0xa7;
   0xf3; 0x97; 0x89; 0xf5; 0x15; 0xab; 0x8f; 0x92; 0xdd; 0xbc; 0xbd; 0x41; 0x4d; 0x94; 0x0e; 0x93].
(** 32-36, and N_DATA 68-71 *)
Definition SM2_CURVE_N : list Z :=
  [0xff; 0xff; 0xff; 0xfe; 0xff; 0xff; 0xff; 0xff; 0xff; 0xff; 0xff; 0xff; 0xff; 0xff; 0xff; 0xff;
   0x72; 0x03; 0xdf; 0x6b; 0x21; 0xc6; 0x05; 0x2b; 0x53; 0xbb; 0xf4; 0x09; 0x39; 0xd5; 0x41; 0x23].
(** 38-42 *)
Definition SM2_CURVE_GX : list Z :=
  [0x32; 0xc4; 0xae; 0x2c; 0x1f; 0x19; 0x81; 0x19; 0x5f; 0x99; 0x04; 0x46; 0x6a; 0x39; 0xc9; 0x94;
   0x8f; 0xe3; 0x0b; 0xbf; 0xf2; 0x66; 0x0b; 0xe1; 0x71; 0x5a; 0x45; 0x89; 0x33; 0x4c; 0x74; 0xc7].
(** 44-48 *)
Definition SM2_CURVE_GY : list Z :=
  [0xbc; 0x37; 0x36; 0xa2; 0xf4; 0xf6; 0x77; 0x9c; 0x59; 0xbd; 0xce; 0xe3; 0x6b; 0x69; 0x21; 0x53;
   0xd0; 0xa9; 0x87; 0x7c; 0xc6; 0x2a; 0x47; 0x40; 0x02; 0xdf; 0x32; 0xe5; 0x21; 0x39; 0xf0; 0xa0].
(** 54-57 *)
Definition P_SUB2_DATA : list Z :=
  [0xff; 0xff; 0xff; 0xfe; 0xff; 0xff; 0xff; 0xff; 0xff; 0xff; 0xff; 0xff; 0xff; 0xff; 0xff; 0xff;
   0xff; 0xff; 0xff; 0xff; 0x00; 0x00; 0x00; 0x00; 0xff; 0xff; 0xff; 0xff; 0xff; 0xff; 0xff; 0xfd].
(** 58-61 *)
Definition FP_R_DATA : list Z :=
  [0x00; 0x00; 0x00; 0x01; 0x00; 0x00; 0x00; 0x00; 0x00; 0x00; 0x00; 0x00; 0x00; 0x00; 0x00; 0x00;
   0x00; 0x00; 0x00; 0x00; 0xff; 0xff; 0xff; 0xff; 0x00; 0x00; 0x00; 0x00; 0x00; 0x00; 0x00; 0x01].
(** 62-65 *)
Definition FP_R_POW2_DATA : list Z :=
  [0x00; 0x00; 0x00; 0x04; 0x00; 0x00; 0x00; 0x02; 0x00; 0x00; 0x00; 0x01; 0x00; 0x00; 0x00; 0x01;
   0x00; 0x00; 0x00; 0x02; 0xff; 0xff; 0xff; 0xff; 0x00; 0x00; 0x00; 0x02; 0x00; 0x00; 0x00; 0x03].
(** 72-75 *)
Definition N_SUB1_DATA : list Z :=
  [0xff; 0xff; 0xff; 0xfe; 0xff; 0xff; 0xff; 0xff; 0xff; 0xff; 0xff; 0xff; 0xff; 0xff; 0xff; 0xff;
   0x72; 0x03; 0xdf; 0x6b; 0x21; 0xc6; 0x05; 0x2b; 0x53; 0xbb; 0xf4; 0x09; 0x39; 0xd5; 0x41; 0x22].
(** 76-79 *)
Definition N_SUB2_DATA : list Z :=
  [0xff; 0xff; 0xff; 0xfe; 0xff; 0xff; 0xff; 0xff; 0xff; 0xff; 0xff; 0xff; 0xff; 0xff; 0xff; 0xff;
   0x72; 0x03; 0xdf; 0x6b; 0x21; 0xc6; 0x05; 0x2b; 0x53; 0xbb; 0xf4; 0x09; 0x39; 0xd5; 0x41; 0x21].
(** 80-83 *)
Definition FN_R_DATA : list Z :=
  [0x00; 0x00; 0x00; 0x01; 0x00; 0x00; 0x00; 0x00; 0x00; 0x00; 0x00; 0x00; 0x00; 0x00; 0x00; 0x00;
   0x8d; 0xfc; 0x20; 0x94; 0xde; 0x39; 0xfa; 0xd4; 0xac; 0x44; 0x0b; 0xf6; 0xc6; 0x2a; 0xbe; 0xdd].
(** 84-87 *)
Definition FN_R_POW2_DATA : list Z :=
  [0x1e; 0xb5; 0xe4; 0x12; 0xa2; 0x2b; 0x3d; 0x3b; 0x62; 0x0f; 0xc8; 0x4c; 0x3a; 0xff; 0xe0; 0xd4;
   0x34; 0x64; 0x50; 0x4a; 0xde; 0x6f; 0xa2; 0xfa; 0x90; 0x11; 0x92; 0xaf; 0x7c; 0x11; 0x4f; 0x20].
(** 185-188 *)
Definition P_SUB3_DIV4_ADD1 : list Z :=
  [0x3f; 0xff; 0xff; 0xff; 0xbf; 0xff; 0xff; 0xff; 0xff; 0xff; 0xff; 0xff; 0xff; 0xff; 0xff; 0xff;
   0xff; 0xff; 0xff; 0xff; 0xc0; 0x00; 0x00; 0x00; 0x40; 0x00; 0x00; 0x00; 0x00; 0x00; 0x00; 0x00].

(** ** The Hash template parameter: a default-constructed object, one update per chunk, then
    do_final(out, last).  ModelHash/ModelSM3 give this function for class SM3. *)
Record hashlib := MkHash {
  hl_ds : nat;                                          (* Hash::DIGEST_SIZE *)
  hl_run : list (list Z) -> list Z -> res (list Z)
}.

Section SM2.
  Variable L : numlib.

  (** ** Numbers modulo p and n (sm2p256v1.cpp 90-367) *)
  (** 100-102 *)
  Definition FP_CTX : mont_ctx :=
    MkCtx (nl_epi8 L SM2_CURVE_P) (nl_epi8 L P_SUB2_DATA) (nl_epi8 L FP_R_DATA)
          (nl_epi8 L FP_R_POW2_DATA) (nl_N L (nz (nl_epi8 L SM2_CURVE_P) 0)).
  (** 103-105 *)
  Definition FN_CTX : mont_ctx :=
    MkCtx (nl_epi8 L SM2_CURVE_N) (nl_epi8 L N_SUB2_DATA) (nl_epi8 L FN_R_DATA)
          (nl_epi8 L FN_R_POW2_DATA) (nl_N L (nz (nl_epi8 L SM2_CURVE_N) 0)).

  (** 107-151: sm2_bn_cmp, equal_zero, from_bytes, to_bytes are the library functions *)
  (** 122-125; the carry is returned and not used by the callers *)
  Definition sm2_bn_add_uint32 (a : list Z) (b : Z) : list Z := fst (nl_add32 L a b).
  (** 127-133 *)
  Definition sm2_bn_mod_n_sub1 (a : list Z) : list Z :=
    if 0 <=? nl_cmp L a (nl_epi8 L N_SUB1_DATA) then fst (nl_sub L a (nl_epi8 L N_SUB1_DATA)) else a.

  (** 153-248 *)
  Definition sm2_fp_ops : fops (list Z) :=
    MkOps (list Z) (m_add L FP_CTX) (m_sub L FP_CTX) (m_mul L FP_CTX) (m_sqr L FP_CTX)
      (m_dbl L FP_CTX) (m_tpl L FP_CTX) (m_neg L FP_CTX) (m_inv L FP_CTX)
      (m_equal L FP_CTX) (m_equal_zero L FP_CTX) (m_zero L) (m_one L FP_CTX).
  Definition sm2_fp_from_bytes : list Z -> list Z := m_from_bytes L FP_CTX.
  Definition sm2_fp_to_bytes : list Z -> list Z := m_to_bytes L FP_CTX.
  (** 183-198: [None] is the return value -1 *)
  Definition sm2_fp_sqrt (a : list Z) : res (option (list Z)) :=
    do t <- m_pow L FP_CTX a (nl_epi8 L P_SUB3_DIV4_ADD1);
    let t2 := m_sqr L FP_CTX t in
    if negb (m_equal L FP_CTX a t2) then Ok None else Ok (Some t).
  (** 255-325 *)
  Definition sm2_fn_from_bytes : list Z -> list Z := m_from_bytes L FN_CTX.
  Definition sm2_fn_to_bytes : list Z -> list Z := m_to_bytes L FN_CTX.
  (** 315-320; the library loop always ends because n is not 0 *)
  Definition sm2_fn_from_bytes_ex (b : list Z) : res (list Z) :=
    match m_from_bytes_ex L FN_CTX b with Some a => Ok a | None => UB end.
  (** 355-360 *)
  Definition sm2_fn_from_fp (a : list Z) : list Z := sm2_fn_from_bytes (sm2_fp_to_bytes a).

  (** ** Affine points (369-483) *)
  Definition fpt : Type := list Z.
  (** 377-386: x^3 + ax + b as computed by sm2_ec_a_check and sm2_ec_recover_y *)
  Definition sm2_rhs (x : fpt) : fpt :=
    let right := sm2_fp_from_bytes SM2_CURVE_B in
    let t := sm2_fp_from_bytes SM2_CURVE_A in
    let t := m_mul L FP_CTX t x in
    let right := m_add L FP_CTX right t in
    let t := m_sqr L FP_CTX x in
    let t := m_mul L FP_CTX t x in
    m_add L FP_CTX right t.
  (** 375-388 *)
  Definition sm2_ec_a_check (P : aff fpt) : bool :=
    let '(x, y) := P in
    let left := m_sqr L FP_CTX y in
    m_equal L FP_CTX left (sm2_rhs x).
  (** 396-400 *)
  Definition sm2_ec_a_to_bytes04 (P : aff fpt) : list Z :=
    let '(x, y) := P in sm2_fp_to_bytes x ++ sm2_fp_to_bytes y.
  (** 402-406; [in] is a pointer into readable memory [inb] *)
  Definition sm2_ec_a_from_bytes04 (inb : list Z) (off : nat) : res (aff fpt) :=
    do x <- read inb off 32;
    do y <- read inb (off + 32) 32;
    Ok (sm2_fp_from_bytes x, sm2_fp_from_bytes y).
  (** 408-413 *)
  Definition sm2_ec_a_to_bytes_uncompressed (P : aff fpt) : list Z := 4 :: sm2_ec_a_to_bytes04 P.
  (** 415-421: out[32] is the last byte of y when the prefix is computed *)
  Definition sm2_ec_a_to_bytes_compressed (P : aff fpt) : list Z :=
    let '(x, y) := P in
    let by_ := sm2_fp_to_bytes y in
    (if Z.land (nz by_ 31) 1 =? 0 then 2 else 3) :: sm2_fp_to_bytes x.
  (** 423-427 *)
  Definition sm2_ec_a_to_bytes_mix (P : aff fpt) : list Z :=
    let b := sm2_ec_a_to_bytes04 P in
    (if Z.land (nz b 63) 1 =? 0 then 6 else 7) :: b.
  (** 429-452 *)
  Definition sm2_ec_recover_y (x : fpt) (y_hat : Z) : res (option fpt) :=
    do s <- sm2_fp_sqrt (sm2_rhs x);
    match s with
    | None => Ok None
    | Some y =>
        let lsb_y := Z.land (nz (sm2_fp_to_bytes y) 31) 1 in
        if negb (lsb_y =? y_hat) then Ok (Some (m_neg L FP_CTX y)) else Ok (Some y)
    end.
  (** 454-483.  [inb] is the readable memory from [in] on, [inl] the argument; reading past the
      memory is [UB].  [None] is the return value -1; [Some (R, read_n)] the return value 0. *)
  Definition sm2_ec_a_from_bytes (inb : list Z) (inl : Z) : res (option (aff fpt * Z)) :=
    if inl =? 0 then Ok None
    else
      do b <- read inb 0 1;
      let b0 := nz b 0 in
      if (b0 =? 4) || (b0 =? 6) || (b0 =? 7) then
        do R <- sm2_ec_a_from_bytes04 inb 1;
        if sm2_ec_a_check R then Ok (Some (R, 65)) else Ok None
      else if (b0 =? 2) || (b0 =? 3) then
        do xb <- read inb 1 32;
        let x := sm2_fp_from_bytes xb in
        let y_hat := if b0 =? 2 then 0 else 1 in
        do y <- sm2_ec_recover_y x y_hat;
        match y with
        | None => Ok None
        | Some y => if sm2_ec_a_check (x, y) then Ok (Some ((x, y), 33)) else Ok None
        end
      else Ok None.

  (** ** Jacobian points: the functions of ModelEC over the SM2 field *)
  Definition sm2_ec_j_dbl : jac fpt -> jac fpt := j_dbl_2001b sm2_fp_ops.
  Definition sm2_ec_j_add : jac fpt -> jac fpt -> jac fpt := j_add sm2_fp_ops sm2_ec_j_dbl.
  Definition sm2_ec_j_add_a : jac fpt -> aff fpt -> jac fpt := j_add_a sm2_fp_ops.
  Definition sm2_ec_j_mul_a (k : list Z) (P : aff fpt) : res (jac fpt) :=
    j_mul_a sm2_fp_ops sm2_ec_j_dbl L (nl_epi8 L SM2_CURVE_N) k P.
  (** 770-776 *)
  Definition sm2_ec_j_mul_g (k : list Z) : res (jac fpt) :=
    sm2_ec_j_mul_a k (sm2_fp_from_bytes SM2_CURVE_GX, sm2_fp_from_bytes SM2_CURVE_GY).
  Definition sm2_ec_j_to_a : jac fpt -> aff fpt := j_to_a sm2_fp_ops.

  (** ** sm2_alg.h *)
  Variable H : hashlib.
  Notation DS := (hl_ds H).

  (** sm2_alg.h 13-38; [id] has length id_len, the product id_len * 8 wraps at 2^64 *)
  Definition sm2_compute_z (id x y : list Z) : res (list Z) :=
    let bits := w64 (Z.of_nat (length id) * 8) in
    if 65535 <? bits then Throw
    else
      let entl_len := w16 bits in
      let ENTL := [Z.shiftr entl_len 8; Z.land entl_len 255] in
      hl_run H [ENTL; id; SM2_CURVE_A; SM2_CURVE_B; SM2_CURVE_GX; SM2_CURVE_GY; x; y] [].

  (** std::memcmp(a, b, n) == 0 for two arrays of n bytes *)
  Fixpoint mem_eq (a b : list Z) : bool :=
    match a, b with
    | [], [] => true
    | x :: a', y :: b' => (x =? y) && mem_eq a' b'
    | _, _ => false
    end.
  (** std::memcmp(ZERO, dk, n) == 0 *)
  Definition all0 (l : list Z) : bool := forallb (fun b => b =? 0) l.
  (** sm2_alg.h 62-79.  The copy [auto hash = hash_save] of the object that absorbed Z followed by
      do_final(dk, ct_buf, 4) is one run over [Z] with last chunk ct_buf.  [fuel] bounds the number
      of iterations ([UB] when exhausted; never for fuel > inl when DS > 0). *)
  Fixpoint kdf_loop (fuel : nat) (Zb inp : list Z) (ct : Z) (all_zero : bool) : res (list Z * bool) :=
    match fuel with
    | O => UB
    | S fuel' =>
        if (DS <=? length inp)%nat then
          do dk <- hl_run H [Zb] (store32_be ct);
          let all_zero := all_zero && all0 (firstn DS dk) in
          let out := xorl (firstn DS inp) dk in
          do (rest, z) <- kdf_loop fuel' Zb (skipn DS inp) (w32 (ct + 1)) all_zero;
          Ok (out ++ rest, z)
        else if negb (length inp =? 0)%nat then
          do dk <- hl_run H [Zb] (store32_be ct);
          let all_zero := all_zero && all0 (firstn (length inp) dk) in
          Ok (xorl (firstn (length inp) dk) inp, all_zero)
        else Ok ([], all_zero)
    end.
  (** sm2_alg.h 40-88: the bytes written to [out] and the return value *)
  Definition sm2_kdf_xor (inp Zb : list Z) : res (list Z * Z) :=
    let inl := Z.of_nat (length inp) in
    if w64 (Z.of_nat DS * 4294967295) <=? inl then Throw
    else if inl =? 0 then Ok ([], 0)
    else
      do (out, all_zero) <- kdf_loop (S (length inp)) Zb inp 1 true;
      Ok (out, if (all_zero : bool) then -1 else 0).

  (** ** sm2.h *)
  (** sm2.h 33-38 *)
  Record sm2_pub := MkPub { pub_P : aff fpt; pub_x : list Z; pub_y : list Z }.
  (** sm2.h 163-166 *)
  Record sm2_priv := MkPriv { priv_d : list Z; priv_pub : sm2_pub }.
  (** sm2.h 13-18 SM2EcPC *)
  Inductive ec_pc := UNCOMPRESSED | COMPRESSED | MIX.

  (** sm2.h 342-356 set_pub *)
  Definition sm2_set_pub (x y : list Z) : res sm2_pub :=
    let T := (sm2_fp_from_bytes x, sm2_fp_from_bytes y) in
    if negb (sm2_ec_a_check T) then Throw else Ok (MkPub T x y).

  (** sm2.h 358-364 get_pub *)
  Definition sm2_get_pub (pk : sm2_pub) : list Z * list Z := (pub_x pk, pub_y pk).

  (** sm2.h 442-447 and 706-711: Z_A and then H(Z_A || M) *)
  Definition sm2_digest (pk : sm2_pub) (msg id : list Z) : res (list Z) :=
    do z <- sm2_compute_z id (pub_x pk) (pub_y pk);
    hl_run H [z; msg] [].

  (** sm2.h 420-476 verify_.  The function is noexcept: outcome [Throw] means std::terminate. *)
  Definition sm2_verify_ (pk : sm2_pub) (sig_r sig_s msg id : list Z) : res bool :=
    let r_bn := nl_from_bytes L sig_r in
    let s_bn := nl_from_bytes L sig_s in
    let n_bn := nl_from_bytes L SM2_CURVE_N in
    if nl_is0 L r_bn || (0 <=? nl_cmp L r_bn n_bn) || nl_is0 L s_bn || (0 <=? nl_cmp L s_bn n_bn)
    then Ok false
    else
      do dg <- sm2_digest pk msg id;
      let r := sm2_fn_from_bytes sig_r in
      let s := sm2_fn_from_bytes sig_s in
      let tmp := m_add L FN_CTX r s in
      if m_equal_zero L FN_CTX tmp then Ok false
      else
        let t := sm2_fn_to_bytes tmp in
        let P := (sm2_fp_from_bytes (pub_x pk), sm2_fp_from_bytes (pub_y pk)) in
        do sG <- sm2_ec_j_mul_g sig_s;
        do tP <- sm2_ec_j_mul_a t P;
        let R := sm2_ec_j_to_a (sm2_ec_j_add sG tP) in
        let tmp := sm2_fn_from_fp (fst R) in
        do e <- sm2_fn_from_bytes_ex dg;
        let tmp := m_add L FN_CTX e tmp in
        Ok (m_equal L FN_CTX tmp r).
  (** sm2.h 366-374 verify: sig_rs is 64 bytes *)
  Definition sm2_verify (pk : sm2_pub) (sig msg id : list Z) : res bool :=
    do r <- read sig 0 32; do s <- read sig 32 32; sm2_verify_ pk r s msg id.

  (** sm2.h 376-389 *)
  Definition sm2_ciphertext_len (p_len : Z) (PC : ec_pc) : Z :=
    match PC with
    | COMPRESSED => w64 (33 + Z.of_nat DS + p_len)
    | _ => w64 (65 + Z.of_nat DS + p_len)
    end.

  (** sm2.h 497-501 and 716-720: k from 32 random bytes; the new _k *)
  Definition sm2_draw (rnd : list Z) : list Z :=
    nl_to_bytes L (sm2_bn_add_uint32 (sm2_bn_mod_n_sub1 (nl_from_bytes L rnd)) 1).

  (** sm2.h 524-537 *)
  Definition sm2_encode (PC : ec_pc) (P : aff fpt) : list Z :=
    match PC with
    | UNCOMPRESSED => sm2_ec_a_to_bytes_uncompressed P
    | MIX => sm2_ec_a_to_bytes_mix P
    | COMPRESSED => sm2_ec_a_to_bytes_compressed P
    end.

  (** sm2.h 478-538 encrypt_ with encrypt 391-406: the ciphertext C1 || C3 || C2.
      [draws] is what successive rng.gen(_k, 32) calls return; [Ok None] means that every draw
      supplied led to a retry. *)
  Fixpoint sm2_encrypt (pk : sm2_pub) (m : list Z) (PC : ec_pc) (draws : list (list Z))
    : res (option (list Z)) :=
    match draws with
    | [] => Ok None
    | rnd :: draws' =>
        let k := sm2_draw rnd in
        do kG <- sm2_ec_j_mul_g k;
        let kG := sm2_ec_j_to_a kG in
        do kP <- sm2_ec_j_mul_a k (pub_P pk);
        let x2y2 := sm2_ec_a_to_bytes04 (sm2_ec_j_to_a kP) in
        do (C2, bad) <- sm2_kdf_xor m x2y2;
        if negb (bad =? 0) then sm2_encrypt pk m PC draws'
        else
          do C3 <- hl_run H [firstn 32 x2y2; m; skipn 32 x2y2] [];
          Ok (Some (sm2_encode PC kG ++ C3 ++ C2))
    end.

  (** sm2.h 552-570 gen_priv from the 32 bytes rng.gen returns *)
  Definition sm2_gen_priv (rnd : list Z) : res sm2_priv :=
    let d := sm2_draw rnd in
    do dG <- sm2_ec_j_mul_g d;
    let a := sm2_ec_j_to_a dG in
    Ok (MkPriv d (MkPub a (sm2_fp_to_bytes (fst a)) (sm2_fp_to_bytes (snd a)))).

  (** sm2.h 572-591 set_priv *)
  Definition sm2_set_priv (priv_key : list Z) : res sm2_priv :=
    let d := nl_from_bytes L priv_key in
    let t := sm2_bn_mod_n_sub1 d in
    if nl_is0 L d || negb (nl_cmp L d t =? 0) then Throw
    else
      do dG <- sm2_ec_j_mul_g priv_key;
      let a := sm2_ec_j_to_a dG in
      Ok (MkPriv priv_key (MkPub a (sm2_fp_to_bytes (fst a)) (sm2_fp_to_bytes (snd a)))).

  (** sm2.h 712-750: one pass of the retry loop; [None] is goto retry *)
  Definition sm2_sign_try (sk : sm2_priv) (dg rnd : list Z) : res (option (list Z * list Z)) :=
    let _k := sm2_draw rnd in
    do kG <- sm2_ec_j_mul_g _k;
    let kG := sm2_ec_j_to_a kG in
    do e <- sm2_fn_from_bytes_ex dg;
    let r := sm2_fn_from_fp (fst kG) in
    let r := m_add L FN_CTX e r in
    let k := sm2_fn_from_bytes _k in
    let tmp := m_add L FN_CTX r k in
    if m_equal_zero L FN_CTX r || m_equal_zero L FN_CTX tmp then Ok None
    else
      let da := sm2_fn_from_bytes (priv_d sk) in
      let s := m_one L FN_CTX in
      let s := m_add L FN_CTX s da in
      let s := m_inv L FN_CTX s in
      let tmp := m_mul L FN_CTX r da in
      let k := m_sub L FN_CTX k tmp in
      let s := m_mul L FN_CTX s k in
      if m_equal_zero L FN_CTX s then Ok None
      else Ok (Some (sm2_fn_to_bytes r, sm2_fn_to_bytes s)).
  Fixpoint sm2_sign_loop (sk : sm2_priv) (dg : list Z) (draws : list (list Z))
    : res (option (list Z * list Z)) :=
    match draws with
    | [] => Ok None
    | rnd :: draws' =>
        do o <- sm2_sign_try sk dg rnd;
        match o with Some rs => Ok (Some rs) | None => sm2_sign_loop sk dg draws' end
    end.
  (** sm2.h 692-751 sign_ and 607-616 sign: the 64-byte signature *)
  Definition sm2_sign (sk : sm2_priv) (msg id : list Z) (draws : list (list Z)) : res (option (list Z)) :=
    do dg <- sm2_digest (priv_pub sk) msg id;
    do o <- sm2_sign_loop sk dg draws;
    match o with Some (r, s) => Ok (Some (r ++ s)) | None => Ok None end.

  (** sm2.h 647-675 plaintext_len *)
  Definition sm2_plaintext_len (c : list Z) : res Z :=
    let c_len := Z.of_nat (length c) in
    if c_len =? 0 then Throw
    else
      let b0 := nz c 0 in
      do h <- (if (b0 =? 2) || (b0 =? 3) then Ok (33 + Z.of_nat DS)
               else if (b0 =? 4) || (b0 =? 6) || (b0 =? 7) then Ok (65 + Z.of_nat DS)
               else Throw);
      if c_len <? h then Throw else Ok (c_len - h).

  (** sm2.h 677-690 decrypt and 753-795 decrypt_.  The result is what the caller's plaintext buffer
      receives, and how the call ends ([Ok p_len] or an exception): the buffer is written before
      the hash is checked.  The buffer does not overlap the ciphertext. *)
  Definition sm2_decrypt (sk : sm2_priv) (c : list Z) : list Z * res Z :=
    match sm2_plaintext_len c with
    | Throw => ([], Throw)
    | UB => ([], UB)
    | Ok C2_len =>
        let C3_len := Z.of_nat DS in
        let C1_len := Z.of_nat (length c) - C2_len - C3_len in
        match sm2_ec_a_from_bytes c C1_len with
        | Throw => ([], Throw)
        | UB => ([], UB)
        | Ok None => ([], Throw)
        | Ok (Some (C1, outl)) =>
            if negb (outl =? C1_len) || negb (C3_len =? Z.of_nat DS) then ([], Throw)
            else
              match (do C3 <- read c (Z.to_nat C1_len) DS;
                     do C2 <- read c (Z.to_nat C1_len + DS) (Z.to_nat C2_len);
                     do dC1 <- sm2_ec_j_mul_a (priv_d sk) C1;
                     let x2y2 := sm2_ec_a_to_bytes04 (sm2_ec_j_to_a dC1) in
                     do (M, bad) <- sm2_kdf_xor C2 x2y2;
                     Ok (C3, x2y2, M, bad))
              with
              | Throw => ([], Throw)
              | UB => ([], UB)
              | Ok (C3, x2y2, M, bad) =>
                  (M, if negb (bad =? 0) then Throw
                      else
                        do buf <- hl_run H [firstn 32 x2y2; M; skipn 32 x2y2] [];
                        if mem_eq (firstn DS buf) C3 then Ok (Z.of_nat (length M)) else Throw)
              end
        end
    end.
End SM2.

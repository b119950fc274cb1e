(** A block cipher class (include/gmlib/block_cipher_mode/block_cipher.h 9-39) as a record, the SM4
    class in its three builds, and whole sessions with a mode object: constructor (or init on a new
    object), any number of update() calls, do_final(). *)
From Verif Require Import Base ModelEndian ModelModes ModelSM4.

(** block_cipher.h 9-39 *)
Record cipher := {
  cK : Type;                                    (* key schedule context *)
  cBS : nat;                                    (* BLOCK_SIZE *)
  cPN : nat;                                    (* PARALLEL_NUM *)
  c_set_key : list Z -> bool -> cK;             (* set_key(user_key, enc) *)
  c_eb : cK -> list Z -> list Z;                (* encrypt_block *)
  c_db : cK -> list Z -> list Z;                (* decrypt_block *)
  c_ebs : cK -> list Z -> nat -> list Z;        (* encrypt_blocks *)
  c_dbs : cK -> list Z -> nat -> list Z;        (* decrypt_blocks *)
}.

(** include/gmlib/sm4/sm4.h 20-118 over src/sm4/sm4_common.cpp 172-222 *)
Definition SM4_common : cipher := {|
  cK := list Z; cBS := 16; cPN := 1;
  c_set_key := sm4_set_key_common;
  c_eb := fun k b => compute_block_common (u32s k) (u8s b);
  c_db := fun k b => compute_block_common (u32s k) (u8s b);
  c_ebs := fun k b n => sm4_blocks_common (u32s k) (u8s b) n;
  c_dbs := fun k b n => sm4_blocks_common (u32s k) (u8s b) n;
|}.
(** sm4.h over src/sm4/sm4_lang18.cpp 719-788, CPU_FLAG_AVX2 unset (the default build) *)
Definition SM4_lang18 : cipher := {|
  cK := list Z; cBS := 16; cPN := 4;
  c_set_key := sm4_set_key_l18;
  c_eb := fun k b => compute_block_l18 (u32s k) (u8s b);
  c_db := fun k b => compute_block_l18 (u32s k) (u8s b);
  c_ebs := fun k b n => sm4_blocks_l18 (u32s k) (u8s b) n;
  c_dbs := fun k b n => sm4_blocks_l18 (u32s k) (u8s b) n;
|}.
(** the same with CPU_FLAG_AVX2 *)
Definition SM4_avx2 : cipher := {|
  cK := list Z; cBS := 16; cPN := 16;
  c_set_key := sm4_set_key_l18;
  c_eb := fun k b => compute_block_l18 (u32s k) (u8s b);
  c_db := fun k b => compute_block_l18 (u32s k) (u8s b);
  c_ebs := fun k b n => sm4_blocks_avx2 (u32s k) (u8s b) n;
  c_dbs := fun k b n => sm4_blocks_avx2 (u32s k) (u8s b) n;
|}.

(** The bytes delivered to the caller by a whole session. *)
Definition outcome {M} (r : res (mstate M * list Z)) : res (list Z) := do (_, o) <- r; Ok o.

Section SESSIONS.
  Variable C : cipher.
  (** [junk]: indeterminate initial content of buf_; [calls]: (output buffer, input) of every
      update(); [lastc]: of do_final(). *)
  Variable key : list Z.
  Variable iv : list Z.
  Variable junk : list Z.
  Variable calls : list (list Z * list Z).
  Variable lastc : list Z * list Z.
  Let ek := c_set_key C key true.
  Let dk := c_set_key C key false.

  (** EcbEncryptor / EcbDecryptor, ecb_mode.h *)
  Definition ecb_encryptor : res (list Z) :=
    outcome (m_run _ (cBS C) (ecb_enc_ub _ (c_ebs C)) (ecb_enc_fb _ (cBS C) (c_eb C))
               (m_new _ junk ek) calls lastc).
  Definition ecb_decryptor : res (list Z) :=
    outcome (m_run _ (cBS C) (ecb_dec_ub _ (c_dbs C)) (ecb_dec_fb _ (cBS C) (c_db C))
               (m_new _ junk dk) calls lastc).
  (** CbcEncryptor / CbcDecryptor, cbc_mode.h *)
  Definition cbc_encryptor : res (list Z) :=
    outcome (m_run _ (cBS C) (cbc_enc_ub _ (cBS C) (c_eb C)) (cbc_enc_fb _ (cBS C) (c_eb C))
               (m_new _ junk (ek, iv)) calls lastc).
  Definition cbc_decryptor : res (list Z) :=
    outcome (m_run _ (cBS C) (cbc_dec_ub _ (cBS C) (cPN C) (c_dbs C))
               (cbc_dec_fb _ (cBS C) (cPN C) (c_dbs C)) (m_new _ junk (dk, iv)) calls lastc).
  (** CfbEncryptor / CfbDecryptor, cfb_mode.h *)
  Definition cfb_encryptor : res (list Z) :=
    outcome (m_run _ (cBS C) (cfb_enc_ub _ (cBS C) (c_eb C)) (cfb_enc_fb _ (c_eb C))
               (m_new _ junk (ek, iv)) calls lastc).
  Definition cfb_decryptor : res (list Z) :=
    outcome (m_run _ (cBS C) (cfb_dec_ub _ (cBS C) (cPN C) (c_ebs C)) (cfb_dec_fb _ (c_eb C))
               (m_new _ junk (ek, iv)) calls lastc).
  (** OfbCryptor, ofb_mode.h *)
  Definition ofb_cryptor : res (list Z) :=
    outcome (m_run _ (cBS C) (ofb_ub _ (cBS C) (c_eb C)) (ofb_fb _ (c_eb C))
               (m_new _ junk (ek, iv)) calls lastc).
  (** CtrCryptor, ctr_mode.h *)
  Definition ctr_cryptor : res (list Z) :=
    outcome (m_run _ (cBS C) (ctr_ub _ (cBS C) (cPN C) (c_ebs C) (ctr_inc (cBS C)))
               (ctr_fb _ (c_ebs C) (ctr_inc (cBS C))) (m_new _ junk (ek, iv)) calls lastc).
End SESSIONS.

(** A mode object that went through an arbitrary history [h] since construction with (key, iv0),
    then reset(iv) (cbc_mode.h 37-41, 105-109, cfb_mode.h 37-41, 100-104, ofb_mode.h 37-41,
    ctr_mode.h 37-41; ecb_mode.h 34-37, 89-92 without iv), then a session. *)
Definition m_reset_iv {K : Type} (s : mstate (K * list Z)) (iv : list Z) : mstate (K * list Z) :=
  m_reset _ s (fst (mctx s), iv).
(** init(key, iv): cbc_mode.h 31-35 etc. *)
Definition m_init_key_iv {K : Type} (k : K) (iv : list Z) (s : mstate (K * list Z)) : mstate (K * list Z) :=
  m_init _ s (k, iv).

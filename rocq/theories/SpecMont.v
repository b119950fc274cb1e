(** Specification of a Montgomery context: what the five fields of Mont256CTX must contain for an
    odd modulus P, with w-bit limbs, n of them (w * n = 256). *)
From Verif Require Import Base SpecNumber ModelMont.

Record mont_ctx_ok (w : Z) (n : nat) (P : Z) (ctx : mont_ctx) : Prop := MkCtxOk {
  co_odd : Z.odd P = true;
  co_pos : 2 < P;
  co_P : limbs w n (m_P ctx);
  co_Pv : val w (m_P ctx) = P;
  co_P2 : limbs w n (m_P_SUB2 ctx);
  co_P2v : val w (m_P_SUB2 ctx) = P - 2;
  co_R : limbs w n (m_R ctx);
  co_Rv : val w (m_R ctx) = 2 ^ 256 mod P;
  co_RR : limbs w n (m_R_POW2 ctx);
  co_RRv : val w (m_R_POW2 ctx) = 2 ^ 512 mod P;
  co_N : 0 <= m_N ctx < 2 ^ w;
  co_Nv : (m_N ctx * P) mod 2 ^ w = 2 ^ w - 1
}.

(** Model of src/sm3/sm3_common.cpp, src/sm3/sm3_yang15.cpp and include/gmlib/sm3/sm3.h. *)
From Verif Require Import Base ModelEndian ModelHash.

(** sm3_common.cpp 29-32 / sm3_yang15.cpp 30-33 rotl.  [x >> 32] (n = 0) is undefined behaviour in
    C++: the value the machine produces then is the parameter [shr32]. *)
Definition rotl_c (shr32 : Z -> Z) (x n : Z) : Z :=
  Z.lor (w32 (Z.shiftl x n)) (if n =? 0 then shr32 x else Z.shiftr x (32 - n)).
(** The same where the shift count is a constant 1..31. *)
Definition rotl (x n : Z) : Z := Z.lor (w32 (Z.shiftl x n)) (Z.shiftr x (32 - n)).

(** sm3_common.cpp 34-37, 39-42 (identical in sm3_yang15.cpp 35-43) *)
Definition P0 (x : Z) : Z := Z.lxor (Z.lxor x (rotl x 9)) (rotl x 17).
Definition P1 (x : Z) : Z := Z.lxor (Z.lxor x (rotl x 15)) (rotl x 23).

(** sm3_common.cpp 44-47 (identical in sm3_yang15.cpp 45-48) *)
Definition FF00 (x y z : Z) : Z := Z.lxor (Z.lxor x y) z.
Definition FF16 (x y z : Z) : Z := Z.lor (Z.lor (Z.land x y) (Z.land x z)) (Z.land y z).
Definition GG00 (x y z : Z) : Z := Z.lxor (Z.lxor x y) z.
Definition GG16 (x y z : Z) : Z := Z.lxor (Z.land (Z.lxor y z) x) z.

(** sm3_common.cpp 48-49 *)
Definition T00 : Z := 0x79cc4519.
Definition T16 : Z := 0x7a879d8a.

(** The eight working registers A..H, also ctx->state. *)
Record regs := mkR { rA : Z; rB : Z; rC : Z; rD : Z; rE : Z; rF : Z; rG : Z; rH : Z }.

(** sm3_common.cpp 74-81 / sm3_yang15.cpp 92-99 *)
Definition sm3_iv : regs :=
  mkR 0x7380166F 0x4914B2B9 0x172442D7 0xDA8A0600 0xA96F30BC 0x163138AA 0xE38DEE4D 0xB0FB0E4E.

(** sm3_common.h Sm3CTX *)
Record sm3ctx := mkCtx { cstate : regs; cbits : Z }.
(** sm3_init / sm3_reset: sm3_common.cpp 68-88, sm3_yang15.cpp 86-106 *)
Definition sm3_init : sm3ctx := mkCtx sm3_iv 0.

(** sm3_common.cpp 105-108: W[0..15] *)
Definition load_words (data : list Z) : list Z :=
  map (fun i => load32_be (skipn (4 * i) data)) (seq 0 16).
(** sm3_common.cpp 109-113: one more W[j]; [W] holds W[0..j-1]. *)
Definition w_next (W : list Z) : Z :=
  let j := length W in
  Z.lxor (Z.lxor
    (P1 (Z.lxor (Z.lxor (nz W (j - 16)) (nz W (j - 9))) (rotl (nz W (j - 3)) 15)))
    (rotl (nz W (j - 13)) 7)) (nz W (j - 6)).
Fixpoint w_extend (n : nat) (W : list Z) : list Z :=
  match n with O => W | S n' => w_extend n' (W ++ [w_next W]) end.
(** sm3_common.cpp 105-113 / sm3_yang15.cpp 123-131: the array W[68] *)
Definition expand_W (data : list Z) : list Z := w_extend 52 (load_words data).
(** sm3_common.cpp 114-117: the array W_[64] *)
Definition expand_W' (W : list Z) : list Z :=
  map (fun j => Z.lxor (nz W j) (nz W (j + 4))) (seq 0 64).

Section COMMON.
  Variable shr32 : Z -> Z.

  (** sm3_common.cpp 51-66: macro R with xx = 00 (j < 16) or 16. *)
  Definition R_common (W W' : list Z) (s : regs) (j : nat) : regs :=
    let lo := (j <? 16)%nat in
    let T := if lo then T00 else T16 in
    let FF := if lo then FF00 else FF16 in
    let GG := if lo then GG00 else GG16 in
    let SS1 := rotl (w32 (w32 (rotl (rA s) 12 + rE s) +
                          rotl_c shr32 T (Z.of_nat (j mod 32)))) 7 in
    let SS2 := Z.lxor SS1 (rotl (rA s) 12) in
    let TT1 := w32 (w32 (w32 (FF (rA s) (rB s) (rC s) + rD s) + SS2) + nz W' j) in
    let TT2 := w32 (w32 (w32 (GG (rE s) (rF s) (rG s) + rH s) + SS1) + nz W j) in
    mkR TT1 (rA s) (rotl (rB s) 9) (rC s) (P0 TT2) (rE s) (rotl (rF s) 19) (rG s).

  Definition xor_regs (s v : regs) : regs :=
    mkR (Z.lxor (rA s) (rA v)) (Z.lxor (rB s) (rB v)) (Z.lxor (rC s) (rC v)) (Z.lxor (rD s) (rD v))
        (Z.lxor (rE s) (rE v)) (Z.lxor (rF s) (rF v)) (Z.lxor (rG s) (rG v)) (Z.lxor (rH s) (rH v)).

  (** sm3_common.cpp 90-135 *)
  Definition compress_common (s : regs) (data : list Z) : regs :=
    let W := expand_W data in
    let W' := expand_W' W in
    let v := fold_left (R_common W W') (seq 0 16) s in          (* 119-122 *)
    let v := fold_left (R_common W W') (seq 16 48) v in         (* 123-126 *)
    xor_regs s v.                                               (* 127-134 *)
End COMMON.

(** sm3_yang15.cpp 70-84 *)
Definition T_yang15 : list Z :=
  [0x79cc4519; 0xf3988a32; 0xe7311465; 0xce6228cb; 0x9cc45197;
   0x3988a32f; 0x7311465e; 0xe6228cbc; 0xcc451979; 0x988a32f3;
   0x311465e7; 0x6228cbce; 0xc451979c; 0x88a32f39; 0x11465e73;
   0x228cbce6; 0x9d8a7a87; 0x3b14f50f; 0x7629ea1e; 0xec53d43c;
   0xd8a7a879; 0xb14f50f3; 0x629ea1e7; 0xc53d43ce; 0x8a7a879d;
   0x14f50f3b; 0x29ea1e76; 0x53d43cec; 0xa7a879d8; 0x4f50f3b1;
   0x9ea1e762; 0x3d43cec5; 0x7a879d8a; 0xf50f3b14; 0xea1e7629;
   0xd43cec53; 0xa879d8a7; 0x50f3b14f; 0xa1e7629e; 0x43cec53d;
   0x879d8a7a; 0x0f3b14f5; 0x1e7629ea; 0x3cec53d4; 0x79d8a7a8;
   0xf3b14f50; 0xe7629ea1; 0xcec53d43; 0x9d8a7a87; 0x3b14f50f;
   0x7629ea1e; 0xec53d43c; 0xd8a7a879; 0xb14f50f3; 0x629ea1e7;
   0xc53d43ce; 0x8a7a879d; 0x14f50f3b; 0x29ea1e76; 0x53d43cec;
   0xa7a879d8; 0x4f50f3b1; 0x9ea1e762; 0x3d43cec5].

(** sm3_yang15.cpp 50-62: macro R; returns the new values of the four registers it assigns, in the
    order of its parameters B, D, F, H.  [lo] selects the suffix 00 / 16. *)
Definition R_yang (lo : bool) (W : list Z) (j : nat) (A B C D E F G H : Z) : Z * Z * Z * Z :=
  let FF := if lo then FF00 else FF16 in
  let GG := if lo then GG00 else GG16 in
  let SS1 := rotl (w32 (w32 (rotl A 12 + E) + nz T_yang15 j)) 7 in
  let SS2 := Z.lxor SS1 (rotl A 12) in
  let TT1 := w32 (w32 (w32 (FF A B C + D) + SS2) + Z.lxor (nz W j) (nz W (j + 4))) in
  let TT2 := w32 (w32 (w32 (GG E F G + H) + SS1) + nz W j) in
  (rotl B 9, TT1, rotl F 19, P0 TT2).

(** sm3_yang15.cpp 64-68: macro R4; [j] is the value of the counter on entry. *)
Definition R4_yang (lo : bool) (W : list Z) (s : regs) (j : nat) : regs :=
  let '(mkR A B C D E F G H) := s in
  let '(B, D, F, H) := R_yang lo W j A B C D E F G H in
  let '(A, C, E, G) := R_yang lo W (j + 1) D A B C H E F G in
  let '(D, B, H, F) := R_yang lo W (j + 2) C D A B G H E F in
  let '(C, A, G, E) := R_yang lo W (j + 3) B C D A F G H E in
  mkR A B C D E F G H.

(** sm3_yang15.cpp 108-150 *)
Definition compress_yang (s : regs) (data : list Z) : regs :=
  let W := expand_W data in
  let v := fold_left (fun v t => R4_yang true W v (4 * t)) (seq 0 4) s in      (* 134-137 *)
  let v := fold_left (fun v t => R4_yang false W v (4 * t)) (seq 4 12) v in    (* 138-141 *)
  xor_regs s v.

Section API.
  Variable compress : regs -> list Z -> regs.

  Fixpoint compress_blocks (s : regs) (data : list Z) (n : nat) : regs :=
    match n with
    | O => s
    | S n' => compress_blocks (compress s (firstn 64 data)) (skipn 64 data) n'
    end.

  (** sm3_update_blocks: sm3_common.cpp 137-157, sm3_yang15.cpp 152-172.  -1 becomes [Throw]
      (sm3.h 73-79). *)
  Definition sm3_update_blocks (c : sm3ctx) (data : list Z) (n : nat) : res sm3ctx :=
    if (2 ^ 64 - 1) / 512 <? Z.of_nat n then Throw                        (* 141-144 *)
    else
      let nxt := w64 (Z.of_nat n * 512 + cbits c) in                      (* 145 *)
      if nxt <? cbits c then Throw                                        (* 146-149 *)
      else Ok (mkCtx (compress_blocks (cstate c) data n) nxt).            (* 150-156 *)

  Definition store_regs (s : regs) : list Z :=
    store32_be (rA s) ++ store32_be (rB s) ++ store32_be (rC s) ++ store32_be (rD s) ++
    store32_be (rE s) ++ store32_be (rF s) ++ store32_be (rG s) ++ store32_be (rH s).

  (** sm3_final_block: sm3_common.cpp 159-193, sm3_yang15.cpp 174-208; [inp] are the buffered
      bytes. (Simplification: the 128-byte scratch array is the list actually written; callers
      pass at most 63 bytes.) *)
  Definition sm3_final_block (c : sm3ctx) (inp : list Z) : res (sm3ctx * list Z) :=
    let inl := length inp in
    let nxt := w64 (w64 (Z.of_nat inl * 8) + cbits c) in                  (* 164 *)
    if nxt <? cbits c then Throw                                          (* 165-168 *)
    else
      let pad_num := Z.to_nat (w64 (64 + 56 - 1 - Z.of_nat inl) mod 64) in   (* 171 *)
      let buf := inp ++ [128] ++ repeat 0 pad_num ++ store64_be nxt in    (* 172-181 *)
      if (128 <? length buf)%nat then UB
      else
        let s := compress_blocks (cstate c) buf ((length buf + 63) / 64) in  (* 183-186 *)
        Ok (mkCtx s nxt, store_regs s).                                   (* 188-192 *)

  (** class SM3 : Hash<64> (sm3.h 26-96): construct, updates, do_final. *)
  Definition sm3_hash (junk : list Z) (chunks : list (list Z)) (last : list Z) : res (list Z) :=
    h_digest sm3ctx 64 sm3_update_blocks sm3_final_block
             (h_new sm3ctx junk sm3_init) chunks last.

  (** HMac<SM3> *)
  Definition sm3_hmac (junk : list Z) (key : list Z) (chunks : list (list Z)) (last : list Z)
    : res (list Z) :=
    hm_mac sm3ctx 64 sm3_update_blocks sm3_final_block 32 sm3_init
           (h_new sm3ctx junk sm3_init) key chunks last.
End API.

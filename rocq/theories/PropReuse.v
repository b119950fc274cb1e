(** Property C70: one SM3 or HMac<SM3> object used for several messages (default build). *)
From Verif Require Import Base BaseFacts ModelHash ModelSM3 ModelReuse SpecSM3 ProofReuse.

(** reset() makes any used object a fresh one, whatever state earlier calls (also calls that threw)
    left behind: the next message is hashed as GB/T 32905 prescribes. *)
Theorem C70_reset : forall s chunks last, length (hbuf s) = 64%nat -> bytes (concat chunks ++ last) ->
  let m := concat chunks ++ last in
  h_digest sm3ctx 64 (sm3_update_blocks compress_yang) (sm3_final_block compress_yang) (h_reset sm3ctx s sm3_init) chunks last =
  if 8 * Z.of_nat (length m) <? 2 ^ 64 then Ok (SM3 m) else Throw.
Proof. exact r_reset. Qed.

(** set_key() does the same for an HMac object. *)
Theorem C70_set_key : forall h key chunks last, length (hbuf h) = 64%nat -> bytes key -> bytes (concat chunks ++ last) ->
  let m := concat chunks ++ last in
  hm_mac sm3ctx 64 (sm3_update_blocks compress_yang) (sm3_final_block compress_yang) 32 sm3_init h key chunks last =
  if (8 * Z.of_nat (length key) <? 2 ^ 64) && (8 * (64 + Z.of_nat (length m)) <? 2 ^ 64)
  then Ok (HMAC SM3 64 key m) else Throw.
Proof. exact r_set_key. Qed.

(** Any number of messages with reset() in between: the digest of every one. *)
Theorem C70_sm3_messages : forall junk msgs, length junk = 64%nat ->
  (forall chunks last, In (chunks, last) msgs ->
     bytes (concat chunks ++ last) /\ 8 * Z.of_nat (length (concat chunks ++ last)) < 2 ^ 64) ->
  sm3_messages compress_yang (h_new sm3ctx junk sm3_init) msgs = Ok (map (fun m => SM3 (concat (fst m) ++ snd m)) msgs).
Proof. intros junk msgs L H. exact (r_sm3_messages msgs (h_new sm3ctx junk sm3_init) L H). Qed.

(** Any number of messages, each after a set_key(): the HMAC of every one under its key. *)
Theorem C70_hmac_messages : forall junk msgs, length junk = 64%nat ->
  (forall key chunks last, In (key, (chunks, last)) msgs -> bytes key /\ bytes (concat chunks ++ last) /\
     8 * Z.of_nat (length key) < 2 ^ 64 /\ 8 * (64 + Z.of_nat (length (concat chunks ++ last))) < 2 ^ 64) ->
  hmac_messages compress_yang (h_new sm3ctx junk sm3_init) msgs =
  Ok (map (fun m => HMAC SM3 64 (fst m) (concat (fst (snd m)) ++ snd (snd m))) msgs).
Proof. intros junk msgs L H. exact (r_hmac_messages msgs (h_new sm3ctx junk sm3_init) L H). Qed.

(** do_final() alone does not make an HMac object ready for the next message under the same key
    (there is no reset() either): the same message gets two different tags. *)
Theorem C70_hmac_again_refuted : exists s d1 d2,
  hm_set_key _ 64 (sm3_update_blocks compress_yang) (sm3_final_block compress_yang) 32 sm3_init
    (h_new sm3ctx (repeat 0 64) sm3_init) [1; 2; 3] = Ok s /\
  hmac_again compress_yang s [([], [97]); ([], [97])] = Ok [d1; d2] /\ d1 <> d2.
Proof. eexists _, _, _. split; [vm_compute; reflexivity|]. split; [vm_compute; reflexivity|]. vm_compute; discriminate. Qed.

(** Nor does do_final() of an SM3 object reset it. *)
Theorem C70_sm3_again_refuted : exists s d1 d2,
  h_final _ 64 (sm3_update_blocks compress_yang) (sm3_final_block compress_yang) (h_new sm3ctx (repeat 0 64) sm3_init) [97] = Ok (s, d1) /\
  h_digest _ 64 (sm3_update_blocks compress_yang) (sm3_final_block compress_yang) s [] [97] = Ok d2 /\ d1 <> d2.
Proof. eexists _, _, _. split; [vm_compute; reflexivity|]. split; [vm_compute; reflexivity|]. vm_compute; discriminate. Qed.

(** Two messages in pieces, the second shorter than the first. *)
Example C70_case :
  sm3_messages compress_yang (h_new sm3ctx (repeat 9 64) sm3_init) [([repeat 5 70; [1]], [2]); ([[97]; [98]], [99])] =
  Ok [SM3 (repeat 5 70 ++ [1; 2]); be_bytes 32 0x66c7f0f462eeedd9d1f2d46bdc10e4e24167c4875cf2f7a2297da02b8f4ba8e0].
Proof. vm_compute. reflexivity. Qed.

Definition C70_theorems := (@C70_reset, @C70_set_key, @C70_sm3_messages, @C70_hmac_messages, @C70_hmac_again_refuted, @C70_sm3_again_refuted).
Print Assumptions C70_theorems.

(** Vocabulary for the GCM properties: well-formed arguments of one encryption or decryption and the
    standard's outcome of a decryption request. *)
From Verif Require Import Base ModelModes ModelHash ModelGHASH ModelCipher SpecCipher SpecGCM ModelGCM.

(** [junk]: indeterminate initial content of the mode buffer; output buffers large enough. *)
Definition gargs (klen : nat) (junk key iv aad : list Z) calls lastc : Prop :=
  length junk = 16%nat /\ bytes key /\ length key = klen /\ bytes iv /\ bytes aad /\
  bytes (msg calls lastc) /\ Forall (room 16) (calls ++ [lastc]).
(** the length in bits is representable on 64 bits *)
Definition fits (x : list Z) : bool := 8 * Z.of_nat (length x) <? 2 ^ 64.
(** a well-formed request, and the outcome SP 800-38D prescribes for it *)
Definition rq_ok (klen : nat) (r : request) : Prop :=
  gargs klen (rq_junk r) (rq_key r) (rq_iv r) (rq_aad r) (rq_calls r) (rq_last r) /\
  fits (rq_aad r) = true /\ Z.of_nat (length (msg (rq_calls r) (rq_last r))) < 2 ^ 64.
Definition rq_std (E : list Z -> list Z -> list Z) (r : request) : res (list Z) :=
  match GCM_dec (E (rq_key r)) (rq_iv r) (rq_aad r) (msg (rq_calls r) (rq_last r)) (rq_tag r) with
  | Some p => Ok p | None => Throw end.

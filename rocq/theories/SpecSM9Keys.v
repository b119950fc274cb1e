(** What the key objects of sm9.h stand for. *)
From Verif Require Import Base ModelNumber SpecNumber SpecField SpecEC SpecJac ModelEC ModelSM2 ModelSM9 SpecSM9 SpecSM2Api SpecSM9Api SpecPairing.

(** the points of the twist whose order divides n *)
Definition in_G2 (Q : point F2) : Prop := E2_on Q /\ E2_mul SM9_n Q = Inf.

Section Keys.
  Variables (w : Z) (nn : nat).
  (** the public key Ppub with the stored value e(P1, Ppub) *)
  Definition pub_is (pk : sm9_pub) (Ppub : point F2) : Prop :=
    exists x y, Ppub = Aff x y /\ in_G2 Ppub /\
      holds_a (holds2 w nn) (pub9_P pk) x y /\ holds12 w nn (pub9_e pk) (SM9_e P1 Ppub).
  (** the master key ks with Ppub = [ks]P2 *)
  Definition master_is (ms : sm9_master) (ks : Z) : Prop :=
    ms_ks ms = be_bytes 32 ks /\ pub_is (ms_pub ms) (E2_mul ks P2).
  (** the signing key ds, a point of G1, under the public key Ppub *)
  Definition priv_is (sk : sm9_priv) (ds : point F1) (Ppub : point F2) : Prop :=
    exists x y, ds = Aff x y /\ E1_on ds /\ holds_a (holds1 w nn) (sp_priv sk) x y /\ pub_is (sp_pub sk) Ppub.
  (** the library computes e(P, Q) whatever the arrays that hold P and Q *)
  Definition pairs_right (L9 : numlib9) (P : point F1) (Q : point F2) : Prop :=
    forall P' Q' x1 y1 x2 y2, P = Aff x1 y1 -> Q = Aff x2 y2 ->
      holds_a (holds1 w nn) P' x1 y1 -> holds_a (holds2 w nn) Q' x2 y2 ->
      exists g, sm9_pairing L9 P' Q' = Ok g /\ holds12 w nn g (SM9_e P Q).
End Keys.

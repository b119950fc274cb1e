(** Specification of the ASN.1 encodings used by gmlib: ITU-T X.690 (BER 8.1, DER 10.1, 8.2 BOOLEAN,
    8.3 INTEGER, 8.6 BIT STRING, 8.7 OCTET STRING, 8.9 SEQUENCE).  Independent of the model. *)
From Verif Require Import Base.

Definition len (l : list Z) : Z := Z.of_nat (length l).

(** The [n] bytes of [m] from position [off]: what a returned (pointer, length) pair denotes. *)
Definition zslice (m : list Z) (off n : Z) : list Z := slice m (Z.to_nat off) (Z.to_nat n).
(** The first [n] bytes of a buffer. *)
Definition zfirst (n : Z) (m : list Z) : list Z := firstn (Z.to_nat n) m.

(** 8.1.2: the tag classes, the primitive/constructed bit and the tag numbers of the low-tag form. *)
Definition a_class (c : Z) : Prop := c = 0 \/ c = 64 \/ c = 128 \/ c = 192.
Definition a_pc (p : Z) : Prop := p = 0 \/ p = 32.
Definition low_tag (t : Z) : Prop := 0 <= t <= 30.

(** 8.1.3 and 10.1: [l] is the shortest definite form of the length [n]. *)
Definition der_length (n : Z) (l : list Z) : Prop :=
  (n < 128 /\ l = [n]) \/
  (128 <= n /\
   exists ds, bytes ds /\ 0 < hd 0 ds /\ be_val ds = n /\ len ds < 127 /\ l = (128 + len ds) :: ds).

(** Identifier octet and length octets of an element whose contents has [n] bytes. *)
Definition der_header (cls pc num n : Z) (h : list Z) : Prop :=
  exists lo, der_length n lo /\ h = (cls + pc + num) :: lo.

(** The element with contents [v]. *)
Definition der_element (cls pc num : Z) (v l : list Z) : Prop :=
  exists h, der_header cls pc num (len v) h /\ l = h ++ v.

(** 8.3: contents octets of an INTEGER are the two's complement value, not longer than needed: the
    first nine bits are not all equal. *)
Definition int_val (c : list Z) : Z :=
  if hd 0 c <? 128 then be_val c else be_val c - 256 ^ len c.
Definition int_minimal (c : list Z) : bool :=
  match c with
  | [] => false
  | [_] => true
  | b0 :: b1 :: _ => negb ((b0 =? 0) && (b1 <? 128)) && negb ((b0 =? 255) && (128 <=? b1))
  end.
Definition der_integer (v : Z) (l : list Z) : Prop :=
  exists c, bytes c /\ int_minimal c = true /\ int_val c = v /\ der_element 0 0 2 c l.

(** 8.2 with 11.1: TRUE is FF. *)
Definition der_boolean (b : bool) (l : list Z) : Prop :=
  der_element 0 0 1 [if b then 255 else 0] l.

(** 8.7 primitive form. *)
Definition der_octet_string (v l : list Z) : Prop := der_element 0 0 4 v l.

(** 8.6 primitive form: number of unused bits, then the bytes. *)
Definition der_bit_string (bits : Z) (data l : list Z) : Prop :=
  8 * len data - 7 <= bits <= 8 * len data /\ der_element 0 0 3 ((8 * len data - bits) :: data) l.

(** Trees of elements: what a DER byte string is made of. *)
Inductive node : Type :=
| Prim (cls num : Z) (contents : list Z)
| Cons (cls num : Z) (children : list node).

(** [enc t l]: [l] is the encoding of [t]; [encs] of a sequence of elements. *)
Inductive enc : node -> list Z -> Prop :=
| enc_prim cls num v l :
    a_class cls -> low_tag num -> bytes v -> der_element cls 0 num v l -> enc (Prim cls num v) l
| enc_cons cls num ts v l :
    a_class cls -> low_tag num -> encs ts v -> der_element cls 32 num v l -> enc (Cons cls num ts) l
with encs : list node -> list Z -> Prop :=
| encs_nil : encs [] []
| encs_cons t ts l r : enc t l -> encs ts r -> encs (t :: ts) (l ++ r).

(** The lines of a dump of a sequence of elements at depth [d]: depth, class, primitive/constructed,
    tag number and length of every element, each before its children. *)
Inductive listing : nat -> list node -> list (nat * (Z * Z * Z * Z)) -> Prop :=
| ls_nil d : listing d [] []
| ls_prim d cls num v ts rest :
    listing d ts rest -> listing d (Prim cls num v :: ts) ((d, (cls, 0, num, len v)) :: rest)
| ls_cons d cls num ch v ts sub rest :
    encs ch v -> listing (S d) ch sub -> listing d ts rest ->
    listing d (Cons cls num ch :: ts) ((d, (cls, 32, num, len v)) :: sub ++ rest).

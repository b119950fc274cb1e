(** Model of src/asn1/asn1.cpp (ASN.1 BER/DER encoding and decoding), src/asn1/asn1_dump.cpp (its
    reads and return value) and src/sm2/sm2p256v1_asn1.cpp (the DER forms of SM2 objects).

    Memory.  A [const uint8_t* in] argument is an offset into the object [m] that the caller owns;
    a read outside [m] is [UB].  [inl] and every other [size_t] is an integer reduced modulo 2^64
    where the C++ arithmetic reduces.  An output pointer is an offset into the caller's output
    buffer; a write outside it is [UB]; the buffer's previous contents are kept where nothing is
    written.  The C++ functions return an [int]; success carries the values stored through the
    result pointers, failure the error code ([inr]). *)
From Verif Require Import Base.

(** Success with the stored results, or an error code (-1 or -2). *)
Definition ret (A : Type) : Type := (A + Z)%type.

(** *(in + off) *)
Definition rd (m : list Z) (off : Z) : res Z :=
  if off <? 0 then UB
  else match nth_error m (Z.to_nat off) with Some b => Ok b | None => UB end.

(** memmove(out + off, d, |d|); out[off] = b *)
Definition wr (buf : list Z) (off : Z) (d : list Z) : res (list Z) :=
  if off <? 0 then UB else write buf (Z.to_nat off) d.

(** if (err) return err; *)
Definition bindr {A B} (x : res (ret A)) (f : A -> res (ret B)) : res (ret B) :=
  match x with
  | Ok (inl a) => f a
  | Ok (inr e) => Ok (inr e)
  | Throw => Throw
  | UB => UB
  end.
Notation "'try' x <- e ; f" := (bindr e (fun x => f))
  (at level 200, x pattern, e at level 100, f at level 200, right associativity).

(** include/gmlib/asn1/asn1.h:9-51 (the constants used below) *)
Definition CLASS_UNIVERSAL : Z := 0.
Definition PC_PRIMITIVE : Z := 0.
Definition PC_CONSTRUCTED : Z := 32.
Definition TAG_BOOLEAN : Z := 1.
Definition TAG_INTEGER : Z := 2.
Definition TAG_BIT_STRING : Z := 3.
Definition TAG_OCTET_STRING : Z := 4.
Definition TAG_NULL : Z := 5.
Definition TAG_SEQUENCE : Z := 16.
Definition TAG_SET : Z := 17.

(** include/gmlib/asn1/asn1.h:53-60, struct Asn1TLV; [value] is an offset into the input object *)
Record tlv := mk_tlv { tag_class : Z; tag_pc : Z; tag_number : Z; tlv_length : Z; tlv_value : Z }.

(** ** Header encoding *)

(** src/asn1/asn1.cpp:11-17 asn1_encode_identifier_octets *)
Definition encode_identifier (buf : list Z) (off cls pc num : Z) : res (list Z) :=
  wr buf off [w8 (Z.lor (Z.lor cls pc) num)].

(** src/asn1/asn1.cpp:31-36, the loop filling tmp[sizeof(size_t)] least significant byte first;
    [room] is the space left in tmp, and storing beyond it is [UB]. *)
Fixpoint length_tmp (room : nat) (length : Z) : res (list Z) :=
  if length =? 0 then Ok []
  else match room with
       | O => UB
       | S room' =>
           do r <- length_tmp room' (Z.shiftr length 8);
           Ok (Z.land length 255 :: r)
       end.

(** src/asn1/asn1.cpp:19-47 asn1_encode_length_octets; returns the buffer and *outl.
    Simplified: the bytes after the first are stored by one [wr] instead of one at a time. *)
Definition encode_length (buf : list Z) (off length : Z) : res (list Z * Z) :=
  if length <? 128 then
    do buf <- wr buf off [w8 length];
    Ok (buf, 1)
  else
    do tmp <- length_tmp 8 length;
    let tmp_size := Z.of_nat (List.length tmp) in
    do buf <- wr buf off [w8 (Z.lor 128 tmp_size)];
    do buf <- wr buf (off + 1) (rev tmp);
    Ok (buf, 1 + tmp_size).

(** src/asn1/asn1.cpp:311-325 asn1_encode_tl *)
Definition encode_tl (buf : list Z) (off cls pc num value_length : Z) : res (list Z * Z) :=
  do buf <- encode_identifier buf off cls pc num;
  do (buf, n) <- encode_length buf (off + 1) value_length;
  Ok (buf, w64 (1 + n)).

(** src/asn1/asn1.cpp:228-234 asn1_encode_tlv_outl; l_buf has sizeof(size_t) = 8 bytes *)
Definition encode_tlv_outl (value_length : Z) : res Z :=
  do (_, l_size) <- encode_length (repeat 0 8) 0 value_length;
  Ok (w64 (1 + l_size + value_length)).

(** src/asn1/asn1.cpp:236-239 asn1_encode_boolean_outl *)
Definition encode_boolean_outl : Z := 3.

(** src/asn1/asn1.cpp:247-261 asn1_encode_integer_value_length; [data] is the data_len bytes *)
Definition integer_value_length (data : list Z) : Z :=
  match data with
  | [] => 0
  | b :: _ => if b <? 128 then Z.of_nat (length data) else w64 (Z.of_nat (length data) + 1)
  end.

(** src/asn1/asn1.cpp:263-268 asn1_encode_integer_outl *)
Definition encode_integer_outl (data : list Z) : res Z :=
  encode_tlv_outl (integer_value_length data).

(** src/asn1/asn1.cpp:275-279 asn1_encode_bit_string_value_length *)
Definition bit_string_value_length (bits : Z) : Z := w64 (w64 (bits + 7) / 8 + 1).

(** src/asn1/asn1.cpp:281-285 asn1_encode_bit_string_outl *)
Definition encode_bit_string_outl (bits : Z) : res Z :=
  encode_tlv_outl (bit_string_value_length bits).

(** src/asn1/asn1.cpp:287-290, 292-295, 297-300: octet_string, sequence, set outl *)
Definition encode_octet_string_outl (data_len : Z) : res Z := encode_tlv_outl data_len.
Definition encode_sequence_outl (value_length : Z) : res Z := encode_tlv_outl value_length.
Definition encode_set_outl (value_length : Z) : res Z := encode_tlv_outl value_length.

(** include/gmlib/asn1/asn1.h:155-201, the MAX_OUTL constants; (bits + 7 / 8) as written *)
Definition TLV_MAX_OUTL (value_length : Z) : Z := w64 (1 + (1 + 8) + value_length).
Definition BOOLEAN_MAX_OUTL : Z := 3.
Definition INTEGER_MAX_OUTL (data_length : Z) : Z := TLV_MAX_OUTL (w64 (data_length + 1)).
Definition BIT_STRING_MAX_OUTL (bits : Z) : Z := TLV_MAX_OUTL (w64 (1 + (bits + 7 / 8))).
Definition OCTET_STRING_MAX_OUTL (value_length : Z) : Z := TLV_MAX_OUTL value_length.
Definition SEQUENCE_MAX_OUTL (value_length : Z) : Z := TLV_MAX_OUTL value_length.
Definition SET_MAX_OUTL (value_length : Z) : Z := TLV_MAX_OUTL value_length.

(** ** Value encoders: the buffer after the call and *outl *)

(** src/asn1/asn1.cpp:327-337 asn1_encode_boolean_tlv *)
Definition encode_boolean_tlv (buf : list Z) (off : Z) (value : bool) : res (list Z * Z) :=
  do buf <- wr buf off
       [w8 (Z.lor (Z.lor (Z.shiftl CLASS_UNIVERSAL 6) (Z.shiftl PC_PRIMITIVE 5)) TAG_BOOLEAN)];
  do buf <- wr buf (off + 1) [1];
  do buf <- wr buf (off + 2) [if value then 255 else 0];
  Ok (buf, 3).

(** src/asn1/asn1.cpp:339-360 asn1_encode_integer_tlv: for a leading byte >= 0x80 a zero byte is
    stored at out, out is not advanced, and the data is moved to the same place. *)
Definition encode_integer_tlv (buf : list Z) (off : Z) (data : list Z) : res (list Z * Z) :=
  do (buf, n) <- encode_tl buf off CLASS_UNIVERSAL PC_PRIMITIVE TAG_INTEGER
                    (integer_value_length data);
  let off := off + n in
  match data with
  | [] => Ok (buf, n)
  | b :: _ =>
      do (buf, outl) <- (if 128 <=? b
                          then do buf <- wr buf off [0]; Ok (buf, w64 (n + 1))
                          else Ok (buf, n));
      do buf <- wr buf off data;
      Ok (buf, w64 (outl + Z.of_nat (length data)))
  end.

(** src/asn1/asn1.cpp:362-371 asn1_encode_bit_string_tl *)
Definition encode_bit_string_tl (buf : list Z) (off value_length : Z) : res (list Z * Z) :=
  encode_tl buf off CLASS_UNIVERSAL PC_CONSTRUCTED TAG_BIT_STRING value_length.

(** src/asn1/asn1.cpp:373-391 asn1_encode_bit_string_tlv *)
Definition encode_bit_string_tlv (buf : list Z) (off : Z) (data : list Z) (data_bits : Z)
  : res (list Z * Z) :=
  do (buf, n) <- encode_tl buf off CLASS_UNIVERSAL PC_PRIMITIVE TAG_BIT_STRING
                    (bit_string_value_length data_bits);
  let off := off + n in
  do buf <- wr buf off [(8 - data_bits mod 8) mod 8];
  do buf <- wr buf (off + 1) data;
  Ok (buf, w64 (w64 (n + 1) + Z.of_nat (length data))).

(** src/asn1/asn1.cpp:393-402 asn1_encode_octet_string_tl *)
Definition encode_octet_string_tl (buf : list Z) (off value_length : Z) : res (list Z * Z) :=
  encode_tl buf off CLASS_UNIVERSAL PC_CONSTRUCTED TAG_OCTET_STRING value_length.

(** src/asn1/asn1.cpp:404-418 asn1_encode_octet_string_tlv *)
Definition encode_octet_string_tlv (buf : list Z) (off : Z) (data : list Z) : res (list Z * Z) :=
  do (buf, n) <- encode_tl buf off CLASS_UNIVERSAL PC_PRIMITIVE TAG_OCTET_STRING
                    (Z.of_nat (length data));
  do buf <- wr buf (off + n) data;
  Ok (buf, w64 (n + Z.of_nat (length data))).

(** src/asn1/asn1.cpp:420-429 asn1_encode_sequence_tl *)
Definition encode_sequence_tl (buf : list Z) (off value_length : Z) : res (list Z * Z) :=
  encode_tl buf off CLASS_UNIVERSAL PC_CONSTRUCTED TAG_SEQUENCE value_length.

(** src/asn1/asn1.cpp:431-440 asn1_encode_set_tl *)
Definition encode_set_tl (buf : list Z) (off value_length : Z) : res (list Z * Z) :=
  encode_tl buf off CLASS_UNIVERSAL PC_CONSTRUCTED TAG_SET value_length.

(** ** Decoding *)

(** src/asn1/asn1.cpp:60-84 asn1_decode_identifier_octets; class, p/c, number ( *read_num = 1) *)
Definition decode_identifier (m : list Z) (off inl_ : Z) : res (ret (Z * Z * Z)) :=
  if inl_ =? 0 then Ok (inr (-1))
  else
    do b <- rd m off;
    if Z.land b 31 =? 31 then Ok (inr (-2))
    else Ok (inl (Z.land b 192, Z.land b 32, Z.land b 31)).

(** src/asn1/asn1.cpp:119-122, *ret = ( *ret << 8) | in[i] for i = 1 .. k *)
Fixpoint length_octets (m : list Z) (off : Z) (k : nat) (acc : Z) : res Z :=
  match k with
  | O => Ok acc
  | S k' =>
      do b <- rd m off;
      length_octets m (off + 1) k' (Z.lor (w64 (Z.shiftl acc 8)) b)
  end.

(** src/asn1/asn1.cpp:86-131 asn1_decode_length_octets; length and *read_num *)
Definition decode_length (m : list Z) (off inl_ : Z) : res (ret (Z * Z)) :=
  if inl_ =? 0 then Ok (inr (-1))
  else
    do b <- rd m off;
    if b =? 128 then Ok (inr (-2))
    else if Z.land b 128 =? 0 then Ok (inl (b, 1))
    else
      let k := Z.land b 127 in
      if 8 <? k then Ok (inr (-2))
      else if inl_ <? 1 + k then Ok (inr (-1))
      else
        do v <- length_octets m (off + 1) (Z.to_nat k) 0;
        Ok (inl (v, 1 + k)).

(** src/asn1/asn1.cpp:133-160 asn1_decode_tlv; the element and *read_num.  The announced length is
    not compared with the bytes that are left. *)
Definition decode_tlv (m : list Z) (off inl_ : Z) : res (ret (tlv * Z)) :=
  try (cls, pc, num) <- decode_identifier m off inl_;
  try (len, n) <- decode_length m (off + 1) (w64 (inl_ - 1));
  Ok (inl (mk_tlv cls pc num len (off + 1 + n), w64 (1 + n + len))).

(** src/asn1/asn1.cpp:446-464 asn1_decode_boolean_value; the value and *read_num *)
Definition decode_boolean_value (m : list Z) (off inl_ : Z) : res (ret (bool * Z)) :=
  try (t, read_num) <- decode_tlv m off inl_;
  if negb (tag_pc t =? PC_PRIMITIVE) || negb (tag_number t =? TAG_BOOLEAN)
     || negb (tlv_length t =? 1)
  then Ok (inr (-1))
  else
    do b <- rd m (tlv_value t);
    Ok (inl (negb (b =? 0), read_num)).

(** src/asn1/asn1.cpp:466-506 asn1_decode_integer_value; data_ptr (offset), data_length, read_num.
    The short-circuit evaluation of && is kept: value[1] is read only when value[0] is 0 or 0xff. *)
Definition decode_integer_value (m : list Z) (off inl_ : Z) : res (ret (Z * Z * Z)) :=
  try (t, read_num) <- decode_tlv m off inl_;
  if negb (tag_pc t =? PC_PRIMITIVE) || negb (tag_number t =? TAG_INTEGER)
     || (tlv_length t =? 0)
  then Ok (inr (-1))
  else if 1 <? tlv_length t then
    do b0 <- rd m (tlv_value t);
    if b0 =? 0 then
      do b1 <- rd m (tlv_value t + 1);
      if Z.land b1 128 =? 0 then Ok (inr (-1))
      else Ok (inl (tlv_value t + 1, tlv_length t - 1, read_num))
    else if b0 =? 255 then
      do b1 <- rd m (tlv_value t + 1);
      if Z.land b1 128 =? 128 then Ok (inr (-1))
      else Ok (inl (tlv_value t, tlv_length t, read_num))
    else Ok (inl (tlv_value t, tlv_length t, read_num))
  else Ok (inl (tlv_value t, tlv_length t, read_num)).

(** src/asn1/asn1.cpp:508-538 asn1_decode_bit_string_value; data_ptr, data_length, bits_length,
    read_num.  Line 536 subtracts in[0], the identifier octet. *)
Definition decode_bit_string_value (m : list Z) (off inl_ : Z) : res (ret (Z * Z * Z * Z)) :=
  try (t, read_num) <- decode_tlv m off inl_;
  if negb (tag_number t =? TAG_BIT_STRING) || (tlv_length t =? 0) then Ok (inr (-1))
  else
    do b0 <- rd m (tlv_value t);
    if (tlv_length t =? 1) && negb (b0 =? 0) then Ok (inr (-1))
    else if negb ((0 <=? b0) && (b0 <=? 7)) then Ok (inr (-1))
    else
      do i0 <- rd m off;
      Ok (inl (tlv_value t + 1, tlv_length t - 1,
               w64 (8 * (tlv_length t - 1) - i0), read_num)).

(** src/asn1/asn1.cpp:540-560 asn1_decode_octet_string_value *)
Definition decode_octet_string_value (m : list Z) (off inl_ : Z) : res (ret (Z * Z * Z)) :=
  try (t, read_num) <- decode_tlv m off inl_;
  if negb (tag_number t =? TAG_OCTET_STRING) || (tlv_length t =? 0) then Ok (inr (-1))
  else Ok (inl (tlv_value t, tlv_length t, read_num)).

(** src/asn1/asn1.cpp:562-578 asn1_decode_null_value; read_num *)
Definition decode_null_value (m : list Z) (off inl_ : Z) : res (ret Z) :=
  try (t, read_num) <- decode_tlv m off inl_;
  if negb (tag_pc t =? PC_PRIMITIVE) || negb (tag_number t =? TAG_NULL)
     || negb (tlv_length t =? 0)
  then Ok (inr (-1))
  else Ok (inl read_num).

(** src/asn1/asn1.cpp:580-601 asn1_decode_sequence_value *)
Definition decode_sequence_value (m : list Z) (off inl_ : Z) : res (ret (Z * Z * Z)) :=
  try (t, read_num) <- decode_tlv m off inl_;
  if negb (tag_pc t =? PC_CONSTRUCTED) || negb (tag_number t =? TAG_SEQUENCE)
     || (tlv_length t =? 0)
  then Ok (inr (-1))
  else Ok (inl (tlv_value t, tlv_length t, read_num)).

(** src/asn1/asn1.cpp:603-624 asn1_decode_set_value *)
Definition decode_set_value (m : list Z) (off inl_ : Z) : res (ret (Z * Z * Z)) :=
  try (t, read_num) <- decode_tlv m off inl_;
  if negb (tag_pc t =? PC_CONSTRUCTED) || negb (tag_number t =? TAG_SET)
     || (tlv_length t =? 0)
  then Ok (inr (-1))
  else Ok (inl (tlv_value t, tlv_length t, read_num)).

(** ** asn1_dump *)

(** Read [n] bytes one after the other, src/asn1/asn1_dump.cpp:24-27 and 42-50 *)
Fixpoint rd_all (m : list Z) (off : Z) (n : nat) : res unit :=
  match n with
  | O => Ok tt
  | S n' => do _ <- rd m off; rd_all m (off + 1) n'
  end.

(** src/asn1/asn1_dump.cpp:8-58 r_asn1_dump: the sequence of elements printed (depth and element),
    in printing order, and the return code.  Simplified: the text that printf formats is not
    modelled, only which elements are printed and which bytes are read for it.  [fuel] bounds the
    number of loop iterations and calls; running out of it is [Throw]. *)
Fixpoint r_dump (fuel : nat) (m : list Z) (off inl_ : Z) (depth : nat)
  : res (list (nat * tlv) * Z) :=
  match fuel with
  | O => Throw
  | S fuel' =>
      if inl_ =? 0 then Ok ([], 0)
      else
        match decode_tlv m off inl_ with
        | Ok (inr e) => Ok ([], e)
        | Ok (inl (t, read_num)) =>
            do _ <- rd_all m off (Z.to_nat (tlv_value t - off));
            do sub <- (if tag_pc t =? PC_CONSTRUCTED
                       then do (l, _) <- r_dump fuel' m (tlv_value t) (tlv_length t) (S depth);
                            Ok l
                       else do _ <- rd_all m (tlv_value t) (Z.to_nat (tlv_length t)); Ok []);
            do (rest, e) <- r_dump fuel' m (off + read_num) (w64 (inl_ - read_num)) depth;
            Ok ((depth, t) :: sub ++ rest, e)
        | Throw => Throw
        | UB => UB
        end
  end.

(** src/asn1/asn1_dump.cpp:60-63 asn1_dump *)
Definition dump (fuel : nat) (m : list Z) : res (list (nat * tlv) * Z) :=
  r_dump fuel m 0 (Z.of_nat (length m)) 0.

(** ** DER forms of SM2 objects, src/sm2/sm2p256v1_asn1.cpp *)

(** :13-16 and :18-23 (the encoder is also called sm2_private_key_asn1_encode_outl) *)
Definition private_key_encode_outl (value : list Z) : res Z := encode_integer_outl value.
Definition private_key_encode (buf : list Z) (value : list Z) : res (list Z * Z) :=
  encode_integer_tlv buf 0 value.

(** :25-41 sm2_private_key_asn1_decode; offset of the 32 bytes and *read_num *)
Definition private_key_decode (m : list Z) : res (ret (Z * Z)) :=
  match decode_integer_value m 0 (Z.of_nat (length m)) with
  | Ok (inl (p, n, read_num)) => if negb (n =? 32) then Ok (inr (-1)) else Ok (inl (p, read_num))
  | Ok (inr _) => Ok (inr (-1))
  | Throw => Throw
  | UB => UB
  end.

(** :47-50 and :52-57 *)
Definition public_key_encode_outl : res Z := encode_bit_string_outl (65 * 8).
Definition public_key_encode (buf : list Z) (value : list Z) : res (list Z * Z) :=
  encode_bit_string_tlv buf 0 value (65 * 8).

(** :59-74 sm2_public_key_asn1_decode, with && as written on line 69 *)
Definition public_key_decode (m : list Z) : res (ret (Z * Z)) :=
  match decode_bit_string_value m 0 (Z.of_nat (length m)) with
  | Ok (inl (p, n, bits, read_num)) =>
      if negb (n =? 65) && negb (bits =? 65 * 8) then Ok (inr (-1)) else Ok (inl (p, read_num))
  | Ok (inr _) => Ok (inr (-1))
  | Throw => Throw
  | UB => UB
  end.

(** :80-85 sm2_signature_asn1_encode_outl *)
Definition signature_value_length (R S : list Z) : res Z :=
  do a <- encode_integer_outl R;
  do b <- encode_integer_outl S;
  Ok (w64 (a + b)).
Definition signature_encode_outl (R S : list Z) : res Z :=
  do n <- signature_value_length R S; encode_sequence_outl n.

(** :87-103 sm2_signature_asn1_encode *)
Definition signature_encode (buf : list Z) (R S : list Z) : res (list Z * Z) :=
  do seq_v_len <- signature_value_length R S;
  do (buf, n0) <- encode_sequence_tl buf 0 seq_v_len;
  do (buf, n1) <- encode_integer_tlv buf n0 R;
  do (buf, n2) <- encode_integer_tlv buf (n0 + n1) S;
  Ok (buf, w64 (n0 + n1 + n2)).

(** Any error code of a nested decoder becomes -1 (if (...) return -1). *)
Definition or_m1 {A} (x : res (ret A)) : res (ret A) :=
  match x with Ok (inr _) => Ok (inr (-1)) | y => y end.

(** An INTEGER of exactly 32 bytes: the pattern of :121-131, :132-141, :211-220 and :221-230;
    data offset and read_num *)
Definition decode_int32 (m : list Z) (off inl_ : Z) : res (ret (Z * Z)) :=
  try (p, len, n) <- or_m1 (decode_integer_value m off inl_);
  if negb (len =? 32) then Ok (inr (-1)) else Ok (inl (p, n)).

(** :105-144 sm2_signature_asn1_decode; offsets of R and S, and *read_num *)
Definition signature_decode (m : list Z) : res (ret (Z * Z * Z)) :=
  let inl_ := Z.of_nat (length m) in
  try (sv, sl, n) <- or_m1 (decode_sequence_value m 0 inl_);
  try (r, n1) <- decode_int32 m sv sl;
  let sv := sv + n1 in let sl := w64 (sl - n1) in
  try (s, n2) <- decode_int32 m sv sl;
  Ok (inl (r, s, w64 (inl_ - w64 (inl_ - n)))).

(** :150-158 sm2_cipher_asn1_encode_max_outl *)
Definition cipher_encode_max_outl (C3_length C2_length : Z) : Z :=
  SEQUENCE_MAX_OUTL (w64 (INTEGER_MAX_OUTL 32 + INTEGER_MAX_OUTL 32 +
                          OCTET_STRING_MAX_OUTL C3_length + OCTET_STRING_MAX_OUTL C2_length)).

(** :160-167 sm2_cipher_asn1_encode_outl *)
Definition cipher_value_length (X Y C3 C2 : list Z) : res Z :=
  do a <- encode_integer_outl X;
  do b <- encode_integer_outl Y;
  do c <- encode_octet_string_outl (Z.of_nat (length C3));
  do d <- encode_octet_string_outl (Z.of_nat (length C2));
  Ok (w64 (a + b + c + d)).
Definition cipher_encode_outl (X Y C3 C2 : list Z) : res Z :=
  do n <- cipher_value_length X Y C3 C2; encode_sequence_outl n.

(** :169-196 sm2_cipher_asn1_encode *)
Definition cipher_encode (buf : list Z) (X Y C3 C2 : list Z) : res (list Z * Z) :=
  do seq_v_len <- cipher_value_length X Y C3 C2;
  do (buf, n0) <- encode_sequence_tl buf 0 seq_v_len;
  do (buf, n1) <- encode_integer_tlv buf n0 X;
  do (buf, n2) <- encode_integer_tlv buf (n0 + n1) Y;
  do (buf, n3) <- encode_octet_string_tlv buf (n0 + n1 + n2) C3;
  do (buf, n4) <- encode_octet_string_tlv buf (n0 + n1 + n2 + n3) C2;
  Ok (buf, w64 (n0 + n1 + n2 + n3 + n4)).

(** :198-247 sm2_cipher_asn1_decode; X, Y, (C3, length), (C2, length), *read_num *)
Definition cipher_decode (m : list Z) : res (ret (Z * Z * (Z * Z) * (Z * Z) * Z)) :=
  let inl_ := Z.of_nat (length m) in
  try (sv, sl, n) <- or_m1 (decode_sequence_value m 0 inl_);
  try (x, n1) <- decode_int32 m sv sl;
  let sv := sv + n1 in let sl := w64 (sl - n1) in
  try (y, n2) <- decode_int32 m sv sl;
  let sv := sv + n2 in let sl := w64 (sl - n2) in
  try (h, hl, n3) <- or_m1 (decode_octet_string_value m sv sl);
  let sv := sv + n3 in let sl := w64 (sl - n3) in
  try (c, cl, n4) <- or_m1 (decode_octet_string_value m sv sl);
  Ok (inl (x, y, (h, hl), (c, cl), w64 (inl_ - w64 (inl_ - n)))).

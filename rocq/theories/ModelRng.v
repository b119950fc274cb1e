(** Model of the random generators of include/gmlib/rng.  The underlying device is an arbitrary
    sequence: the i-th value it returns in the life of the process is a function of i, and the
    state of a generator is the index of the next value. *)
From Verif Require Import Base.

(** std_rng.h 25-34 StdRng::gen and cstd_rng.h 26-34 CstdRng::gen: [d i] is the result of the i-th
    call of device_() / std::rand(); the loop stores its low byte and advances.  [m] is the caller's
    object, [off] the position of the next byte. *)
Fixpoint byte_gen (d : nat -> Z) (len : nat) (i : nat) (m : list Z) (off : nat)
  : res (list Z * nat) :=
  match len with
  | O => Ok (m, i)
  | S len' =>
      do m <- write m off [w8 (d i)];
      byte_gen d len' (S i) m (off + 1)
  end.

(** rdrand32_rng.h 29-44 rdrand32_retry, and the same text in rdrand64_rng.h 35-50, rdseed32_rng.h
    29-44, rdseed64_rng.h 33-48.  [a i] is the outcome of the i-th execution of the instruction: the
    carry flag and the value stored in the destination.  Returned: success, the value last stored,
    the next index.  The loop on [retries] of lines 36-43. *)
Fixpoint retry_loop (a : nat -> bool * Z) (retries : nat) (v : Z) (i : nat) : bool * Z * nat :=
  match retries with
  | O => (false, v, i)
  | S r => if fst (a i) then (true, snd (a i), S i) else retry_loop a r (snd (a i)) (S i)
  end.
Definition retry (a : nat -> bool * Z) (retries i : nat) : bool * Z * nat :=
  if fst (a i) then (true, snd (a i), S i) else retry_loop a retries (snd (a i)) (S i).

(** rdrand32_rng.h 62-66 (the inner [while (len)]): the low bytes of [val], least significant first *)
Fixpoint tail_bytes (len : nat) (val : Z) : list Z :=
  match len with
  | O => []
  | S l => Z.land val 255 :: tail_bytes l (Z.shiftr val 8)
  end.

(** rdrand32_rng.h 47-68 gen, with [w] = 4, and rdrand64_rng.h 53-74 with [w] = 8; the same for
    rdseed.  Result: whether the call returned normally (false: std::runtime_error was thrown), the
    caller's object as it is left, and the next index.  Storing a word in memory is little-endian
    (x86).  Simplified: of the values a failing instruction stores into the output on the way only
    the last one, which overwrites the others, is written.  [fuel] bounds the loop; it is proved
    sufficient. *)
Fixpoint hw_loop (fuel : nat) (a : nat -> bool * Z) (w retries len i : nat) (m : list Z) (off : nat)
  : res (bool * list Z * nat) :=
  match fuel with
  | O => Throw
  | S fuel' =>
      if (w <=? len)%nat then
        let '(ok, v, i) := retry a retries i in
        do m <- write m off (le_bytes w v);
        if ok then hw_loop fuel' a w retries (len - w) i m (off + w) else Ok (false, m, i)
      else if (len =? 0)%nat then Ok (true, m, i)
      else
        let '(ok, v, i) := retry a retries i in
        if ok then do m <- write m off (tail_bytes len v); Ok (true, m, i)
        else Ok (false, m, i)
  end.
Definition hw_gen (a : nat -> bool * Z) (w retries len i : nat) (m : list Z) (off : nat) :=
  hw_loop (S len) a w retries len i m off.

(** os_rng/bcrypt_rng.h 33-54 and os_rng/wincrypt_rng.h 77-96 gen.  MAXDWORD and ULONG_MAX (a 32-bit
    type on Windows) are 2^32 - 1.  Modelled: the requests (offset in the caller's buffer, size) made
    to the system in order, and whether gen returned normally.  [ok k] says whether the k-th request
    of this call succeeds. *)
Definition MAXDWORD : Z := 2 ^ 32 - 1.
Fixpoint os_loop (fuel : nat) (ok : nat -> bool) (k : nat) (len off : Z)
  : res (list (Z * Z) * bool) :=
  match fuel with
  | O => Throw
  | S fuel' =>
      if MAXDWORD <=? len then
        if ok k then
          do (l, r) <- os_loop fuel' ok (S k) (len - MAXDWORD) (off + MAXDWORD);
          Ok ((off, MAXDWORD) :: l, r)
        else Ok ([(off, MAXDWORD)], false)
      else if len =? 0 then Ok ([], true)
      else Ok ([(off, w32 len)], ok k)
  end.
Definition os_gen (ok : nat -> bool) (len : Z) : res (list (Z * Z) * bool) :=
  os_loop (Z.to_nat (len / MAXDWORD) + 1) ok 0 len 0.

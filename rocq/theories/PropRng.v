(** Properties C56, C66, C67, C68: random generators and memdump. *)
From Coq Require Import Lia.
From Verif Require Import Base BaseFacts ModelRng ModelMemdump SpecRng ProofRng.

(** C56.  gen(out, len) of StdRng and CstdRng: whatever the device returns, the [len] bytes at out
    become the low bytes of the device's next [len] results, in order, one result per byte, and no
    other byte changes; a buffer that is too short is an access outside it. *)
Theorem C56_gen_exact : forall d len i m off,
  (off + len <= length m)%nat ->
  byte_gen d len i m off
  = Ok (put m off (map (fun k => d (i + k)%nat mod 256) (seq 0 len)), (i + len)%nat).
Proof. exact byte_gen_ok. Qed.
Print Assumptions C56_gen_exact.

Theorem C56_gen_short_buffer : forall d len i m off,
  (off <= length m)%nat -> (length m < off + len)%nat -> byte_gen d len i m off = UB.
Proof. intros d len i m off H1 H2. exact (byte_gen_UB d len i m off H2 H1). Qed.
Print Assumptions C56_gen_short_buffer.

(** Requests split in any way give the same bytes and leave the device in the same state. *)
Theorem C56_gen_split : forall d n1 n2 i m off,
  byte_gen d (n1 + n2) i m off =
  (do (m1, i1) <- byte_gen d n1 i m off; byte_gen d n2 i1 m1 (off + n1)).
Proof. exact byte_gen_split. Qed.
Print Assumptions C56_gen_split.

Example C56_example :
  byte_gen (fun i => 300 * Z.of_nat i) 3 7 [1; 2; 3; 4; 5] 1
  = Ok ([1; 2100 mod 256; 2400 mod 256; 2700 mod 256; 5], 10%nat).
Proof. vm_compute. reflexivity. Qed.

(** C66.  The RDRAND and RDSEED generators with [w]-byte words (4, 8) and any retry count [r], for
    every sequence of outcomes of the instruction: gen returns normally exactly when enough attempts
    deliver a word, each at most [r] failures after the one before.  The caller's [len] bytes are then
    the delivered words, little-endian, in order, the last one cut; no other byte changes; no value of
    a failed attempt is ever used. *)
Theorem C66_hw_gen_iff : forall a w r len i m off m' k,
  (0 < w)%nat -> (off + len <= length m)%nat ->
  (hw_gen a w r len i m off = Ok (true, m', k) <->
   exists ps, takes a r i ps k /\ length ps = ((len + (w - 1)) / w)%nat /\
              m' = put m off (firstn len (delivered a w ps))).
Proof. exact hw_gen_iff. Qed.
Print Assumptions C66_hw_gen_iff.

(** Otherwise it throws after [r + 1] failures in a row; the bytes outside the caller's range are
    untouched and the words delivered before the failure are in place. *)
Theorem C66_hw_gen_total : forall a w r len i m off,
  (0 < w)%nat -> (off + len <= length m)%nat ->
  (exists ps k, takes a r i ps k /\ length ps = ((len + (w - 1)) / w)%nat /\
     hw_gen a w r len i m off = Ok (true, put m off (firstn len (delivered a w ps)), k)) \/
  (exists ps k d, takes a r i ps k /\ (length ps < (len + (w - 1)) / w)%nat /\
     (forall q, (k <= q <= k + r)%nat -> fst (a q) = false) /\
     (length d <= len)%nat /\ firstn (length ps * w) d = delivered a w ps /\
     hw_gen a w r len i m off = Ok (false, put m off d, (k + r + 1)%nat)).
Proof.
  intros a w r len i m off W H.
  exact (hw_loop_spec (S len) a w r len i m off W (Nat.lt_succ_diag_r len) H).
Qed.
Print Assumptions C66_hw_gen_total.

(** No outcome of the instruction is used twice, and the number of executions is bounded. *)
Theorem C66_hw_fresh : forall a r i ps k, takes a r i ps k ->
  (i + length ps <= k <= i + length ps * (r + 1))%nat /\
  Forall (fun p => i <= p < k)%nat ps /\ NoDup ps.
Proof. exact takes_bounds. Qed.
Print Assumptions C66_hw_fresh.

(** A request split at a multiple of the word size gives the same bytes ... *)
Theorem C66_hw_split_partial : forall a w r n1 n2 i m off m1 k1 m2 k2,
  (0 < w)%nat -> (off + (n1 * w + n2) <= length m)%nat ->
  hw_gen a w r (n1 * w) i m off = Ok (true, m1, k1) ->
  hw_gen a w r n2 k1 m1 (off + n1 * w) = Ok (true, m2, k2) ->
  hw_gen a w r (n1 * w + n2) i m off = Ok (true, m2, k2).
Proof. exact hw_gen_split. Qed.
Print Assumptions C66_hw_split_partial.

(** ... split elsewhere it does not: the unused bytes of a word are dropped. *)
Theorem C66_hw_split_refuted : exists a w r n1 n2 i m off m1 k1 m2 k2 m3 k3,
  hw_gen a w r n1 i m off = Ok (true, m1, k1) /\
  hw_gen a w r n2 k1 m1 (off + n1) = Ok (true, m2, k2) /\
  hw_gen a w r (n1 + n2) i m off = Ok (true, m3, k3) /\ m2 <> m3.
Proof.
  exists (fun i => (true, 1025 + Z.of_nat i)), 4%nat, 10%nat, 1%nat, 1%nat, 0%nat, [0; 0], 0%nat.
  do 6 eexists. split; [vm_compute; reflexivity|]. split; [vm_compute; reflexivity|].
  split; [vm_compute; reflexivity|]. discriminate.
Qed.
Print Assumptions C66_hw_split_refuted.

(** Two failures, then successes: six bytes from two 4-byte words. *)
Example C66_example :
  let a := fun i => ((2 <=? Z.of_nat i), 16909060 * Z.of_nat i) in
  hw_gen a 4 2 6 0 [9; 9; 9; 9; 9; 9; 9] 0
  = Ok (true, [8; 6; 4; 2; 12; 9; 9], 4%nat) /\
  hw_gen a 4 1 6 0 [9; 9; 9; 9; 9; 9; 9] 0
  = Ok (false, [4; 3; 2; 1; 9; 9; 9], 2%nat) /\
  takes a 2 0 [2; 3]%nat 4.
Proof.
  cbv zeta. split; [vm_compute; reflexivity|]. split; [vm_compute; reflexivity|].
  apply takes_cons; [lia|reflexivity| |apply takes_cons; [lia|reflexivity| |constructor]].
  - intros q Q. assert (q = 0 \/ q = 1)%nat as [-> | ->] by lia; reflexivity.
  - intros q Q. lia.
Qed.

(** C67.  gen of the two Windows generators, for every buffer size and every pattern of failures of
    the system call: when it returns normally the requests it made tile the buffer (consecutive,
    positive sizes that a 32-bit argument holds) and all succeeded; when it throws, the last request
    is the one that failed and those made tile a prefix of the buffer; it throws only for a failed
    request. *)
Theorem C67_os_gen : forall ok len, 0 <= len ->
  exists l r, os_gen ok len = Ok (l, r) /\
    (r = true -> tiles 0 len l /\ forall q, (q < length l)%nat -> ok q = true) /\
    (r = false -> exists l0 o n, l = l0 ++ [(o, n)] /\ ok (length l0) = false /\
       exists rest, tiles 0 len (l ++ rest)) /\
    ((forall q, (q < length l)%nat -> ok q = true) -> r = true).
Proof. exact os_gen_spec. Qed.
Print Assumptions C67_os_gen.

Example C67_example :
  os_gen (fun _ => true) (2 ^ 33) =
    Ok ([(0, 2 ^ 32 - 1); (2 ^ 32 - 1, 2 ^ 32 - 1); (2 ^ 33 - 2, 2)], true) /\
  os_gen (fun q => (q =? 0)%nat) (2 ^ 33) =
    Ok ([(0, 2 ^ 32 - 1); (2 ^ 32 - 1, 2 ^ 32 - 1)], false) /\
  os_gen (fun _ => true) (2 ^ 32 - 1) = Ok ([(0, 2 ^ 32 - 1)], true).
Proof. repeat split; vm_compute; reflexivity. Qed.

(** C68.  memdump with an item format of constant width prints the prefix, the data in lines of
    [maxline] items (each byte once, in order), joined by line feeds, and the end string; after the
    first full line the character column starts at the same place in every line, the last, shorter,
    one included. *)
Theorem C68_memdump : forall fmt sep ascii fw maxline prefix end_ data,
  (forall b, length (fmt b) = fw) -> (0 < maxline)%nat ->
  memdump fmt sep ascii prefix end_ maxline data =
  Ok (prefix ++
      join_lines (map (dump_line fmt sep ascii
                         (if (maxline <=? length data)%nat
                          then maxline * (fw + length sep) else 0)%nat)
                      (pieces maxline data)) ++ end_).
Proof.
  intros fmt sep ascii fw maxline prefix end_ data H1 H2.
  exact (memdump_spec fmt sep ascii fw H1 maxline H2 prefix end_ data).
Qed.
Print Assumptions C68_memdump.

(** The lines of [pieces] put together are the data. *)
Theorem C68_pieces : forall n l, (0 < n)%nat ->
  concat (pieces n l) = l /\ Forall (fun x => 0 < length x <= n)%nat (pieces n l).
Proof.
  intros n l Hn. remember (length l) as k eqn:E. revert l E.
  induction k as [k IH] using (well_founded_induction lt_wf). intros l E.
  destruct (Nat.leb_spec n (length l)) as [C|C].
  - rewrite (pieces_step n l Hn C). cbn [concat].
    assert (LS : (length (skipn n l) < k)%nat) by (rewrite skipn_length; lia).
    destruct (IH _ LS (skipn n l) eq_refl) as [A B]. split.
    + rewrite A. apply firstn_skipn.
    + constructor; [rewrite firstn_length; lia|exact B].
  - destruct l as [|b l]; [rewrite (pieces_nil n Hn); split; [reflexivity|constructor]|].
    rewrite pieces_small by (cbn in *; lia). cbn [concat]. rewrite app_nil_r.
    split; [reflexivity|]. constructor; [cbn in *; lia|constructor].
Qed.
Print Assumptions C68_pieces.

Theorem C68_maxline_zero : forall fmt sep ascii prefix end_ data,
  memdump fmt sep ascii prefix end_ 0 data = Throw.
Proof. reflexivity. Qed.
Print Assumptions C68_maxline_zero.

(** "AB" "C\n" in lines of two, with a two-character format: "xxAxxB   AB" etc. *)
Example C68_example :
  memdump (fun b => [120; b]) [32] true [] [10] 2 [65; 66; 7]
  = Ok ([120; 65; 32; 120; 66; 32; 32; 32; 32; 65; 66; 10] ++
        [120; 7; 32; 32; 32; 32; 32; 32; 32; 46; 10]).
Proof. vm_compute. reflexivity. Qed.

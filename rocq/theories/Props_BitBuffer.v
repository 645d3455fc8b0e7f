(** Property theorems for C01-C04 (bit buffer). *)
From Verif Require Import Base BitsLib BitBuffer BitBufferProofs BitBufferOps BitBufferFacts.
Open Scope N_scope.

(** C01: a write stores exactly the big-endian bits of the value at the cursor, changes
    nothing else, and reading back returns the value.  [bit_at l i] is bit [i] of the byte
    vector [l], counted from the most significant bit of byte 0. *)
Theorem C01_write_then_read :
  forall (b : bitbuf) (v : N) (n : nat),
    wf b -> (n <= 64)%nat -> v < 2 ^ N.of_nat n ->
    (autoexp b = true \/ (bpos b + n <= bend b)%nat) ->
    exists b', write_bits v n b = Ok b' /\
      bpos b' = (bpos b + n)%nat /\ bstart b' = bstart b /\ autoexp b' = autoexp b /\
      ((bpos b + n <= bend b)%nat -> bend b' = bend b /\ length (bytes b') = length (bytes b)) /\
      (forall i, (bpos b <= i < bpos b + n)%nat -> bit_at (bytes b') i = N.testbit v (N.of_nat (bpos b + n - 1 - i))) /\
      (forall i, (i < bpos b \/ bpos b + n <= i)%nat -> bit_at (bytes b') i = bit_at (bytes b) i) /\
      read_bits_opt (set_pos b' (bpos b)) n = Ok (Some v, b').
Proof. exact write_then_read. Qed.
Print Assumptions C01_write_then_read.

(** The hypotheses are met e.g. by a 13-bit write in the middle of a window that starts inside a byte. *)
Example C01_hypotheses_met :
  let b := mkbb [255; 0; 170; 85] 3 5 30 false in
  wf b /\ (13 <= 64)%nat /\ 4242 < 2 ^ N.of_nat 13 /\ (autoexp b = true \/ (bpos b + 13 <= bend b)%nat).
Proof. exact write_then_read_example. Qed.

(** C01, single bits and bulk writes. *)
Theorem C01_write_bulk :
  forall (b : bitbuf) (n : nat), wf b -> room b n ->
    (exists b', write_zeroes n b = Ok b' /\ wrote b b' (repeat false n)) /\
    (exists b', write_ones n b = Ok b' /\ wrote b b' (repeat true n)) /\
    (n = 1%nat -> forall x, exists b', write_bit (N.b2n x) b = Ok b' /\ wrote b b' [x]).
Proof. exact write_bulk. Qed.
Print Assumptions C01_write_bulk.

(** C02: every history of operations on a well-formed buffer gives exactly the results of the
    abstract tape [tstep] (reads beyond the window return [None] and change nothing, writes beyond
    it panic unless the buffer auto-expands); in particular no operation touches a byte outside
    the allocation, since the byte-level model panics on that and the tape does not. *)
Theorem C02_histories_refine_window_semantics :
  forall (os : list bop) (b : bitbuf),
    Forall op_ok os -> wf b -> same_outcome (brun b os) (trun (tape_of b) os).
Proof. exact histories_refine. Qed.
Print Assumptions C02_histories_refine_window_semantics.

(** Every constructor yields a well-formed buffer. *)
Theorem C02_constructors_well_formed :
  (forall n, wf (bb_new n)) /\ (forall n, wf (bb_new_autoexpand n)) /\
  (forall l, Forall isbyte l -> wf (bb_from_vec l)) /\
  (forall s, exists b, bb_from_bitstr s = Ok b /\ wf b) /\
  (forall s, exists b, bb_from_bitarr (map N.b2n s) = Ok b /\ wf b) /\
  (forall b, wf b -> exists b', bb_from_bitbuffer b = Ok b' /\ wf b') /\
  (forall b, wf b -> exists b', bb_from_bitbuffer_pos b = Ok b' /\ wf b').
Proof. exact constructors_wf. Qed.
Print Assumptions C02_constructors_well_formed.

Example C02_hypotheses_met :
  let b := bb_new 100 in
  let os := [OSeek 37; OWriteBits 12345 20; OSetStart 35; OSeek 0; ORead 33; ORead 33; OPeekPos 2 5; OGetRemaining] in
  Forall op_ok os /\ wf b /\ exists b' r, brun b os = Ok (b', r) /\
  r = [RUnit; RUnit; RUnit; RUnit; RVal (Some 25282560); RVal None; RVal (Some 0); RNat 32].
Proof. exact histories_example. Qed.

(** C02 fails for [xor_bit]: it flips a bit outside the window (and moves the cursor past its end). *)
Theorem C02_xor_bit_leaves_window_refuted :
  exists b b', wf b /\ xor_bit b 1 = Ok b' /\
    (bend b <= 4)%nat /\ bit_at (bytes b') 4 <> bit_at (bytes b) 4 /\ (bend b' < bpos b')%nat.
Proof. exact xor_bit_leaves_window. Qed.
Print Assumptions C02_xor_bit_leaves_window_refuted.

(** C03: conversions preserve the bits of the window. *)
Theorem C03_conversions_lossless :
  (forall s, exists b, bb_from_bitstr s = Ok b /\ window b = s /\ to_bitstr b = Ok s) /\
  (forall s, exists b b', bb_from_bitarr (map N.b2n s) = Ok b /\ window b = s /\ to_bitarr (length s) b = Ok (map N.b2n s, b')) /\
  (forall b, wf b -> to_bitstr b = Ok (window b)) /\
  (forall b n, wf b -> (n <= length (remaining b))%nat ->
     exists b', to_bitarr n b = Ok (map N.b2n (firstn n (remaining b)), b')) /\
  (forall b, wf b -> exists b', bb_from_bitbuffer b = Ok b' /\ window b' = window b) /\
  (forall b, wf b -> exists b', bb_from_bitbuffer_pos b = Ok b' /\ window b' = remaining b) /\
  (forall l, into_bytes (bb_from_vec l) = l /\ window (bb_from_vec l) = bits_rng l 0 (8 * length l)).
Proof. exact conversions_lossless. Qed.
Print Assumptions C03_conversions_lossless.

Theorem C03_copy_bits_lossless :
  forall src dst n,
    wf src -> wf dst -> (n <= length (remaining src))%nat -> room dst n ->
    exists dst' src', copy_bits n src dst = Ok (dst', src') /\
      written dst' = written dst ++ firstn n (remaining src) /\
      remaining src' = skipn n (remaining src) /\ window src' = window src.
Proof. exact copy_bits_lossless. Qed.
Print Assumptions C03_copy_bits_lossless.

Example C03_hypotheses_met :
  let src := mkbb [1; 2; 3; 4; 5; 6; 7; 8; 9; 10] 3 6 79 false in
  let dst := mkbb [255] 0 5 8 true in
  wf src /\ wf dst /\ (70 <= length (remaining src))%nat /\ room dst 70.
Proof. exact copy_bits_example. Qed.

(** C03 fails for [into_bitvec]: it returns the window only when the window starts at bit 0... *)
Theorem C03_into_bitvec_partial :
  forall b, wf b -> bstart b = 0%nat -> into_bitvec b = Ok (map N.b2n (window b)).
Proof. exact into_bitvec_start0. Qed.
Print Assumptions C03_into_bitvec_partial.
(** ... and other bits otherwise. *)
Theorem C03_into_bitvec_refuted :
  exists b r, wf b /\ into_bitvec b = Ok r /\ r <> map N.b2n (window b).
Proof. exact into_bitvec_wrong. Qed.
Print Assumptions C03_into_bitvec_refuted.

(** C04: a write on an auto-expanding buffer always succeeds and keeps all other bits; when the
    cursor is at the end of the window (append mode), the window grows by exactly the width. *)
Theorem C04_autoexpand_partial :
  forall b v n, wf b -> autoexp b = true -> (n <= 64)%nat -> v < 2 ^ N.of_nat n ->
    exists b', write_bits v n b = Ok b' /\ wf b' /\ bpos b' = (bpos b + n)%nat /\
      (forall i, (i < bpos b \/ bpos b + n <= i)%nat -> bit_at (bytes b') i = bit_at (bytes b) i) /\
      (bpos b' <= bend b')%nat /\
      ((bpos b = bend b \/ bpos b + n <= bend b)%nat -> bend b' = Nat.max (bend b) (bpos b')).
Proof. exact autoexpand_growth. Qed.
Print Assumptions C04_autoexpand_partial.
Example C04_hypotheses_met :
  let b := mkbb [7] 0 3 3 true in wf b /\ autoexp b = true /\ 77777 < 2 ^ N.of_nat 20 /\ (bpos b = bend b).
Proof. exact autoexpand_example. Qed.
(** The general claim "ends at max(old end, cursor)" is false: after seeking back, a write that
    straddles the end grows the window by the full width of the write. *)
Theorem C04_autoexpand_growth_refuted :
  exists b v n b', wf b /\ autoexp b = true /\ write_bits v n b = Ok b' /\
    bend b' <> Nat.max (bend b) (bpos b').
Proof. exact autoexpand_overshoots. Qed.
Print Assumptions C04_autoexpand_growth_refuted.

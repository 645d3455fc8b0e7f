(** Property theorems for C07-C12 (TDMA clock, timeslot allocator, receipts, SSI ranges, frequencies). *)
From Coq Require Import ZArith NArith Permutation.
From Verif Require Import Base TdmaTime TdmaTimeProofs TimeslotAlloc TimeslotAllocSpec TimeslotAllocProofs
  TxReceipt TxReceiptSpec TxReceiptProofs SsiRanges SsiRangesProofs Freqs FreqsProofs.

Local Open Scope Z_scope.

(** C07: conversion is a bijection between valid times and slot counts, addition is additive and
    adding one slot is the standard's successor [next_slot]. *)
Theorem C07_conversions_and_addition :
  (forall x, vtime x -> from_int (to_int x) = x /\ 0 <= to_int x < TIME_INT_WRAP) /\
  (forall n, 0 <= n < TIME_INT_WRAP -> vtime (from_int n) /\ to_int (from_int n) = n) /\
  (forall x a b, vtime x -> add_timeslots (add_timeslots x a) b = add_timeslots x (a + b)) /\
  (forall x, vtime x -> add_timeslots x 1 = next_slot x) /\
  (forall x n, vtime x -> vtime (add_timeslots x n)).
Proof. exact clock_conversions. Qed.
Print Assumptions C07_conversions_and_addition.

(** C07: the difference is the unique shortest signed distance. *)
Theorem C07_difference_is_shortest : forall x y, vtime x -> vtime y ->
  exists d, tdiff x y = Ok d /\ - (TIME_INT_WRAP / 2) <= d < TIME_INT_WRAP / 2 /\ add_timeslots y d = x /\
  forall d', - (TIME_INT_WRAP / 2) <= d' < TIME_INT_WRAP / 2 -> add_timeslots y d' = x -> d' = d.
Proof. exact clock_diff. Qed.
Print Assumptions C07_difference_is_shortest.

(** C07: forwarding reaches the first slot, at most three ahead, with the wanted number. *)
Theorem C07_forward_to_timeslot : forall x ts, vtime x -> 1 <= ts <= 4 ->
  exists k, (k < 4)%nat /\ forward_to_timeslot x ts = iter_next k x /\ tm_t (forward_to_timeslot x ts) = ts /\
  forall j, (j < k)%nat -> tm_t (iter_next j x) <> ts.
Proof. exact forward_spec. Qed.
Print Assumptions C07_forward_to_timeslot.

(** C07: a time stamp's age is the number of slots since it (up to half the counter range). *)
Theorem C07_age_and_validity :
  (forall y d, vtime y -> - (TIME_INT_WRAP / 2) <= d < TIME_INT_WRAP / 2 -> age y (add_timeslots y d) = Ok d) /\
  (forall x, 0 <= tm_h x < 65536 -> (is_valid x = true <-> 1 <= tm_t x <= 4 /\ 1 <= tm_f x <= 18 /\ 1 <= tm_m x <= 60)).
Proof. exact age_and_validity. Qed.
Print Assumptions C07_age_and_validity.

Example C07_wraparound : vtime (mk_time 4 18 60 65535) /\ next_slot (mk_time 4 18 60 65535) = mk_time 1 1 1 0 /\
  tdiff (mk_time 1 1 1 0) (mk_time 4 18 60 65535) = Ok 1 /\ forward_to_timeslot (mk_time 4 18 60 65535) 3 = mk_time 3 1 1 0.
Proof. vm_compute. intuition congruence. Qed.

(** C08 *)
Theorem C08_formulas : forall x, vtime x ->
  (is_mandatory_bsch x = true <-> tm_f x = 18 /\ (tm_m x + tm_t x) mod 4 = 3) /\
  (is_mandatory_bnch x = true <-> tm_f x = 18 /\ (tm_m x + tm_t x) mod 4 = 1) /\
  (is_mandatory_clch x = true <-> tm_f x = 18 /\ (tm_m x + tm_t x) mod 4 = 3).
Proof. exact mandatory_formulas. Qed.
Print Assumptions C08_formulas.

Theorem C08_one_per_multiframe : forall m h, 1 <= m <= 60 -> 0 <= h < 65536 ->
  (exists! t, 1 <= t <= 4 /\ is_mandatory_bsch (mk_time t 18 m h) = true) /\
  (exists! t, 1 <= t <= 4 /\ is_mandatory_bnch (mk_time t 18 m h) = true) /\
  (forall t, 1 <= t <= 4 -> is_mandatory_bsch (mk_time t 18 m h) = true -> is_mandatory_bnch (mk_time t 18 m h) = false) /\
  (forall t f, 1 <= t <= 4 -> 1 <= f <= 17 -> is_mandatory_bsch (mk_time t f m h) = false /\ is_mandatory_bnch (mk_time t f m h) = false).
Proof. exact one_per_multiframe. Qed.
Print Assumptions C08_one_per_multiframe.

(** Any four consecutive multiframes, counted from any origin; [mf_number n = n mod 60 + 1]. *)
Theorem C08_each_timeslot_once_in_four : forall n t, 1 <= t <= 4 ->
  (exists! i, 0 <= i < 4 /\ is_mandatory_bsch (mk_time t 18 (mf_number (n + i)) 0) = true) /\
  (exists! i, 0 <= i < 4 /\ is_mandatory_bnch (mk_time t 18 (mf_number (n + i)) 0) = true).
Proof. exact four_consecutive. Qed.
Print Assumptions C08_each_timeslot_once_in_four.

Example C08_occurs : is_mandatory_bsch (mk_time 3 18 4 7) = true /\ is_mandatory_bnch (mk_time 1 18 4 7) = true /\
  is_mandatory_bsch (mk_time 3 18 5 7) = false /\ mf_number 59 = 60 /\ mf_number 60 = 1.
Proof. vm_compute. intuition congruence. Qed.

Local Open Scope nat_scope.

(** C09: in every history of calls, every answer is the one the ledger of previous answers requires
    ([answer_ok]: success exactly when the slot is valid and free / held by the caller, and the right
    error otherwise), [owner]/[is_free] report the ledger, and a call that does not change the ledger
    leaves the allocator unchanged. *)
Theorem C09_every_history : forall ops,
  let (tr, s) := ts_run ts_default ops in
  trace_ok led_empty tr /\
  (forall ts, ts_owner_of s ts = led_of tr led_empty ts) /\
  (forall ts, ts_is_free s ts = true <-> led_of tr led_empty ts = None) /\
  (forall op, let (r, s') := ts_step s op in
     answer_ok (led_of tr led_empty) op r /\ (led_step (led_of tr led_empty) (op, r) = led_of tr led_empty -> s' = s)).
Proof. exact allocator_histories. Qed.
Print Assumptions C09_every_history.

Example C09_history : let ops := [OpAlloc OwnCmce; OpReserve OwnBrew 2; OpReserve OwnBrew 3; OpAlloc OwnCmce; OpAlloc OwnBrew;
                                  OpRelease OwnBrew 2; OpRelease OwnCmce 2; OpAlloc OwnBrew; OpRelease OwnBrew 1] in
  map snd (fst (ts_run ts_default ops)) =
  [RAlloc (Some 2); RRes (TsErr (TsInUse 2 OwnCmce)); RRes TsOk; RAlloc (Some 4); RAlloc None;
   RRes (TsErr (TsOwnerMismatch 2 OwnBrew OwnCmce)); RRes TsOk; RAlloc (Some 2); RRes (TsErr (TsInvalid 1))].
Proof. vm_compute. reflexivity. Qed.

(** C10: one operation, from any state of the shared byte: it succeeds exactly when the move is in
    the life cycle, performs that move, and otherwise fails leaving the receipt alone. *)
Theorem C10_only_allowed_moves : forall r op, byte_ok r ->
  match tx_apply op r with
  | Ok r' => byte_ok r' /\ tx_expects_ack r' = tx_expects_ack r /\ tx_move (tx_expects_ack r) op (tx_get_state r) (tx_get_state r')
  | Err _ => False
  | Panic => forall s', ~ tx_move (tx_expects_ack r) op (tx_get_state r) s'
  end.
Proof. exact apply_iff_move. Qed.
Print Assumptions C10_only_allowed_moves.

(** C10: any number of threads, any interleaving of their marks on a fresh receipt (no resets):
    exactly one of the competing first marks succeeds, at most one second mark does and only when an
    acknowledgement is expected, and once final the receipt never changes again. *)
Theorem C10_competing_marks : forall progs sched e,
  interleaving progs sched -> (forall p, In p progs -> existsb is_reset p = false) ->
  let '(tr, r) := tx_run (mk_tx e 0) sched in
  successes is_first tr = (if existsb is_first sched then 1 else 0) /\
  successes is_second tr <= 1 /\ (successes is_second tr = 1 -> e = true) /\
  (tx_is_final r = true -> forall more, existsb is_reset more = false -> snd (tx_run r more) = r).
Proof. exact competing_marks. Qed.
Print Assumptions C10_competing_marks.

(** C10: exactly one of competing acknowledge/lost marks wins after transmission. *)
Theorem C10_second_stage_winner : forall ops r, byte_ok r -> existsb is_reset ops = false ->
  let '(tr, r') := tx_run r ops in
  match tx_get_state r with
  | TxPending =>
      successes is_first tr = (if existsb is_first ops then 1 else 0) /\ successes is_second tr <= 1 /\
      (successes is_second tr = 1 -> tx_expects_ack r = true)
  | TxTransmitted =>
      successes is_first tr = 0 /\
      successes is_second tr = (if tx_expects_ack r && existsb is_second ops then 1 else 0)
  | _ => successes is_first tr = 0 /\ successes is_second tr = 0 /\ r' = r
  end.
Proof. exact run_counts. Qed.
Print Assumptions C10_second_stage_winner.

Theorem C10_unacked_never_acked_or_lost : forall ops,
  tx_get_state (snd (tx_run tx_new_unacked ops)) <> TxAcknowledged /\ tx_get_state (snd (tx_run tx_new_unacked ops)) <> TxLost.
Proof. exact unacked_never. Qed.
Print Assumptions C10_unacked_never_acked_or_lost.

(** C10: what the observers report in each state. *)
Theorem C10_observers : forall r, byte_ok r ->
  (tx_is_discarded r = true <-> tx_get_state r = TxDiscarded) /\
  (tx_is_transmitted r = true <-> tx_get_state r = TxTransmitted \/ tx_get_state r = TxLost \/ tx_get_state r = TxAcknowledged) /\
  (tx_is_acknowledged r = true <-> tx_get_state r = TxAcknowledged) /\
  (tx_is_final r = true <-> forall op s', op <> Reset -> ~ tx_move (tx_expects_ack r) op (tx_get_state r) s').
Proof. exact observers. Qed.
Print Assumptions C10_observers.

Example C10_three_threads :
  interleaving [[MarkTransmitted; MarkLost]; [MarkDiscarded]; [MarkTransmitted; MarkAcknowledged]]
               [MarkTransmitted; MarkTransmitted; MarkDiscarded; MarkAcknowledged; MarkLost] /\
  map snd (fst (tx_run tx_new [MarkTransmitted; MarkTransmitted; MarkDiscarded; MarkAcknowledged; MarkLost]))
    = [true; false; false; true; false].
Proof. exact (conj tx_interleaving_example eq_refl). Qed.

Local Open Scope N_scope.

(** C11 *)
Theorem C11_membership_exact : forall l s a, ranges_from_vec l = Ok s ->
  (ranges_contains s a = true <-> exists r, In r l /\ in_range a r).
Proof. exact contains_exact. Qed.
Print Assumptions C11_membership_exact.

Theorem C11_accepts_exactly_disjoint : forall l, (forall r, In r l -> nonempty r) ->
  ((exists s, ranges_from_vec l = Ok s) <-> ForallOrdPairs disjoint l).
Proof. exact from_vec_accepts. Qed.
Print Assumptions C11_accepts_exactly_disjoint.

Theorem C11_order_irrelevant : forall l l' s s' a,
  Permutation l l' -> ranges_from_vec l = Ok s -> ranges_from_vec l' = Ok s' ->
  ranges_contains s a = ranges_contains s' a.
Proof. exact order_irrelevant. Qed.
Print Assumptions C11_order_irrelevant.

Example C11_three_ranges :
  exists s, ranges_from_vec [mk_range 500 600; mk_range 0 91; mk_range 91 100] = Ok s /\
    ranges_contains s 90 = true /\ ranges_contains s 91 = true /\ ranges_contains s 100 = false /\
    ranges_contains s 599 = true /\ ranges_contains s 600 = false.
Proof. exists [mk_range 0 91; mk_range 91 100; mk_range 500 600]. vm_compute. intuition congruence. Qed.

(** With empty ranges acceptance depends on the order in which they are written. *)
Theorem C11_empty_range_order_matters :
  exists l l', Permutation l l' /\ ForallOrdPairs disjoint l /\
    (exists s, ranges_from_vec l = Ok s) /\ ranges_from_vec l' = Panic.
Proof. exact empty_range_refuted. Qed.
Print Assumptions C11_empty_range_order_matters.

Local Open Scope Z_scope.

(** C12, for nominal downlink frequencies that are not negative: downlink is the nominal frequency,
    uplink one duplex spacing away, unless the uplink is not representable, where the program stops.
    The full property has no such condition; the two refutations below show that it fails. *)
Theorem C12_frequencies_partial : forall band carrier offset rev dup custom f,
  0 <= band -> 0 <= carrier ->
  freq_from_components band carrier offset rev dup custom = Ok f ->
  0 <= nominal_dl band carrier offset ->
  let ul := nominal_dl band carrier offset + (if rev then fi_duplex_val f else - fi_duplex_val f) in
  get_freqs f = if u32_ok ul then Ok (nominal_dl band carrier offset, ul) else Panic.
Proof. exact freqs_formula. Qed.
Print Assumptions C12_frequencies_partial.

(** C12 without restriction from band 1 (100 MHz) upwards with the standard's duplex table. *)
Theorem C12_standard_table : forall band carrier offset rev dup f, 1 <= band -> 0 <= carrier -> 0 <= dup ->
  freq_from_components band carrier offset rev dup None = Ok f ->
  get_freqs f = Ok (nominal_dl band carrier offset, nominal_dl band carrier offset + (if rev then fi_duplex_val f else - fi_duplex_val f)).
Proof. exact standard_no_panic. Qed.
Print Assumptions C12_standard_table.

(** C12: which settings are accepted, and the spacing used: the custom one, or the standard's table
    (listed in [std_spacing]). *)
Theorem C12_spacing_used : forall band carrier offset rev dup custom,
  0 <= band <= 8 -> 0 <= carrier < 4000 -> valid_offset offset -> 0 <= dup < 8 ->
  freq_from_components band carrier offset rev dup custom =
  match custom, std_lookup dup band with
  | Some c, _ => Ok (mk_freq band carrier offset dup c rev)
  | None, Some s => Ok (mk_freq band carrier offset dup s rev)
  | None, None => Err EInvalidValue
  end.
Proof. exact spacing_used. Qed.
Print Assumptions C12_spacing_used.

Theorem C12_downlink_injective : forall b c o r d cu f b' c' o' r' d' cu' f' dl ul ul',
  0 <= b -> 0 <= c -> 0 <= b' -> 0 <= c' ->
  freq_from_components b c o r d cu = Ok f -> freq_from_components b' c' o' r' d' cu' = Ok f' ->
  get_freqs f = Ok (dl, ul) -> get_freqs f' = Ok (dl, ul') -> b = b' /\ c = c' /\ o = o'.
Proof. exact freqs_injective. Qed.
Print Assumptions C12_downlink_injective.

Theorem C12_offset_conversions :
  (forall i hz, freq_offset_id_to_hz i = Some hz <-> freq_offset_hz_to_id hz = Some i) /\
  (forall hz, (exists i, freq_offset_hz_to_id hz = Some i) <-> valid_offset hz) /\
  (forall i, (exists hz, freq_offset_id_to_hz i = Some hz) <-> 0 <= i <= 3).
Proof. exact offset_conversions. Qed.
Print Assumptions C12_offset_conversions.

Example C12_typical : exists f, freq_from_components 4 1521 12500 false 4 None = Ok f /\ get_freqs f = Ok (438037500, 433037500).
Proof. exists (mk_freq 4 1521 12500 4 5000000 false). vm_compute. intuition congruence. Qed.

(** Accepted, but the downlink wraps to 4.29 GHz. *)
Theorem C12_negative_downlink_refuted :
  exists f, freq_from_components 0 0 (-6250) true 2 None = Ok f /\ get_freqs f = Ok (4294961046, 4294961046).
Proof. exact freqs_wrap. Qed.
Print Assumptions C12_negative_downlink_refuted.

(** Accepted, but deriving the uplink stops the program. *)
Theorem C12_uplink_underflow_refuted :
  exists f, freq_from_components 0 0 0 false 0 (Some 10000000) = Ok f /\ get_freqs f = Panic.
Proof. exact freqs_underflow. Qed.
Print Assumptions C12_uplink_underflow_refuted.

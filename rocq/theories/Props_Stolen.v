(** Properties: signalling stolen from calls reaches the radios (C69). *)
From Verif Require Import Base BitBuffer BitBufferProofs MacFields MacPdus TdmaTime DlSched UmacPrecomps UmacBs StealSpec SlotSpec Slotter SlotterSpec BsMac AirSpec HeardSpec StolenSpec StolenFacts.
From Verif Require DlFacts AirFacts CallControl Scrambler MacSpec.
Open Scope nat_scope.

(** Over every history of the base station: the messages a radio in a call on timeslot [k] takes from stolen half slots,
    followed by those that wait, are just the messages that were to be stolen from this timeslot, with their addresses and bits,
    each once, in the order asked.  Missing: messages that do not fill whole octets with their header, which are damaged (C20). *)
Theorem C69_stolen_heard_partial : forall c k s log, 1 <= k <= 4 -> cell_ok c = true -> bs_reached c s log -> Forall steals_well (events_of log) ->
  exists halves, snatches c k log halves /\ Forall2 understood (halves ++ waiting k s) (to_steal k (fun _ => idle_ts) (events_of log)).
Proof. exact stolen_heard. Qed.
Print Assumptions C69_stolen_heard_partial.
(** A call on timeslot 2 from which two messages are to be stolen, one by name: one has been heard, the other waits. *)
Example C69_stolen_heard_met : exists s log, bs_reached DlFacts.ex_cell s log /\ Forall steals_well (events_of log) /\ snatches DlFacts.ex_cell 2 log [ex_half ex_one] /\ waiting 2 s = [ex_half ex_two] /\
  to_steal 2 (fun _ => idle_ts) (events_of log) = ex_both /\ Forall2 understood [ex_half ex_one; ex_half ex_two] ex_both.
Proof. exact ex_stolen. Qed.

(** The same for messages that need not fill whole octets, but leave half an octet free: each is heard once, in the order asked,
    with its address; of its bits the beginning is heard. *)
Theorem C69_stolen_begun_partial : forall c k s log, 1 <= k <= 4 -> cell_ok c = true -> bs_reached c s log -> Forall steals_short (events_of log) ->
  exists halves, snatches c k log halves /\ Forall2 begun (halves ++ waiting k s) (to_steal k (fun _ => idle_ts) (events_of log)).
Proof. exact stolen_begun. Qed.
Print Assumptions C69_stolen_begun_partial.
Example C69_stolen_begun_met : exists s log, bs_reached DlFacts.ex_cell s log /\ Forall steals_short (events_of log) /\ snatches DlFacts.ex_cell 2 log [ex_half ex_cut] /\ waiting 2 s = [] /\
  to_steal 2 (fun _ => idle_ts) (events_of log) = [(Some (MacSpec.on_air (tr_addr ex_cut)), window (tr_sdu ex_cut))] /\ steal_size ex_cut mod 8 <> 0.
Proof. exact ex_begun. Qed.

(** While there is a call on the timeslot, the message that has waited longest is in the next burst there outside frame 18, and
    the others move up. *)
Theorem C69_stolen_next : forall c k s log cn t s' xs ws h rest, 1 <= k <= 4 -> cell_ok c = true -> bs_reached c s log -> Forall steals_fit (events_of log) ->
  waiting k s = h :: rest -> vw_dl (bs_told (events_of log) k) <> None -> bs_step c (BeTick cn t) s = Ok (s', xs, ws) -> ts_of (add_timeslots t 1) = k -> tm_f (add_timeslots t 1) <> 18%Z ->
  waiting k s' = rest /\ exists w msg2 acc, ws = [b2b w] /\ AirSpec.on_air (Scrambler.scramb_get_init (cf_mcc c) (cf_mnc c) (cf_colour c)) KStolen h msg2 acc w.
Proof. exact stolen_next. Qed.
Print Assumptions C69_stolen_next.
Example C69_stolen_next_met : exists s log s' xs ws, bs_reached DlFacts.ex_cell s log /\ Forall steals_fit (events_of log) /\ waiting 2 s = [ex_half ex_one; ex_half ex_two] /\ vw_dl (bs_told (events_of log) 2) <> None /\
  bs_step DlFacts.ex_cell (BeTick false (add_timeslots ex_t1 4)) s = Ok (s', xs, ws) /\ ts_of (add_timeslots (add_timeslots ex_t1 4) 1) = 2 /\ tm_f (add_timeslots (add_timeslots ex_t1 4) 1) <> 18%Z.
Proof. exact ex_due. Qed.

(** When time passes and the call lasts, all of them are heard: after at most eight slots for each that waits. *)
Theorem C69_all_stolen_heard_partial : forall c k s log cns now s' more, 1 <= k <= 4 -> cell_ok c = true -> bs_reached c s log -> Forall steals_well (events_of log) -> vw_dl (bs_told (events_of log) k) <> None ->
  8 * length (waiting k s) <= length cns -> bs_run c (ticking cns now) s = Ok (s', more) ->
  exists halves, snatches c k (log ++ more) halves /\ Forall2 understood halves (to_steal k (fun _ => idle_ts) (events_of log)).
Proof. exact stolen_all_heard. Qed.
Print Assumptions C69_all_stolen_heard_partial.
Example C69_all_stolen_heard_met : exists s log s' more, bs_reached DlFacts.ex_cell s log /\ Forall steals_well (events_of log) /\ vw_dl (bs_told (events_of log) 2) <> None /\ 8 * length (waiting 2 s) = 16 /\
  bs_run DlFacts.ex_cell (ticking (repeat false 16) (mk_time 4 1 1 0)) s = Ok (s', more) /\ to_steal 2 (fun _ => idle_ts) (events_of log) = ex_both.
Proof. exact ex_lasts. Qed.

(** Refuted: what is stolen from a call is heard in this call.  In [ex_next] a call ends before its message is sent; the message
    waits, and is sent in the next call on the timeslot. *)
Theorem C69_stale_refuted : exists s log half, bs_reached DlFacts.ex_cell s log /\ Forall steals_well (events_of log) /\ events_of log = map AirFacts.be_of (UeTick false ex_t1 :: ex_next) /\
  snatches DlFacts.ex_cell 2 log [half] /\ understood half (Some (MacSpec.on_air (tr_addr ex_one)), window (tr_sdu ex_one)).
Proof. exact stale. Qed.
Print Assumptions C69_stale_refuted.

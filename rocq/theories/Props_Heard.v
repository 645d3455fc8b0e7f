(** Properties: what is asked for is heard (C61). *)
From Coq Require Import Arith Permutation.
From Verif Require Import Base BitBuffer MacFields MacPdus TdmaTime DlSched DlSchedSpec UlSched UmacPrecomps UmacBs SlotSpec BsMac AirSpec HeardSpec HeardFacts.
From Verif Require DlFacts.
Open Scope nat_scope.

(** Whatever was asked for and received until now: a radio that decodes the bursts of timeslot [k] has heard every
    message asked for, with its address and its bits, once, except those that wait in the queue; and nothing else.
    ([Mixed]: two messages in pieces were interleaved, which no radio can undo: C14, C17.) *)
Theorem C61_heard_once_partial : forall c k s log, 1 <= k <= 4 -> cell_ok c = true -> bs_history c k s log ->
  exists slots, receives c k log slots /\
  match hear slots with
  | Garbled => False
  | Mixed => True
  | Clear got part => Permutation (sends k (fun _ => idle_ts) (events_of log)) (flat_map payload got ++ flat_map payload (queued k s part))
  end.
Proof. exact heard_once. Qed.
Print Assumptions C61_heard_once_partial.
(** A message of 29 bits for a group and one of 157 bits for a radio: after one slot the first has been heard and a
    part of the second. *)
Example C61_heard_once_met : exists s log slots got part, bs_history DlFacts.ex_cell 1 s log /\ sends 1 (fun _ => idle_ts) (events_of log) = ex_wanted /\ work 1 s = 5 /\
  receives DlFacts.ex_cell 1 log slots /\ hear slots = Clear got part /\ flat_map payload got = firstn 1 ex_wanted /\ isnone part = false /\
  events_of log = map AirFacts.be_of (UeTick false (mk_time 1 1 1 0) :: ex_evs 3).
Proof. exact ex_part. Qed.
(** And after the next both. *)
Example C61_heard_whole_met : exists s log slots got part, bs_history DlFacts.ex_cell 1 s log /\ sends 1 (fun _ => idle_ts) (events_of log) = ex_wanted /\ work 1 s = 0 /\
  receives DlFacts.ex_cell 1 log slots /\ hear slots = Clear got part /\ flat_map payload got = ex_wanted /\ isnone part = true /\
  events_of log = map AirFacts.be_of (UeTick false (mk_time 1 1 1 0) :: ex_evs 7).
Proof. exact ex_whole. Qed.

(** When time passes and there is no call on the timeslot, everything is heard in the end: after at most eight slots
    for every bit and header that waits, radios have heard just the messages asked for. *)
Theorem C61_all_heard_partial : forall c k s log cns now s' more, 1 <= k <= 4 -> cell_ok c = true -> bs_history c k s log ->
  vw_dl (bs_told (events_of log) k) = None -> 8 * work k s <= length cns -> bs_run c (ticking cns now) s = Ok (s', more) ->
  exists slots, receives c k (log ++ more) slots /\
  match hear slots with
  | Garbled => False
  | Mixed => True
  | Clear got part => part = None /\ Permutation (sends k (fun _ => idle_ts) (events_of log)) (flat_map payload got)
  end.
Proof. exact all_heard. Qed.
Print Assumptions C61_all_heard_partial.
Example C61_all_heard_met : exists s log s' more, bs_history DlFacts.ex_cell 1 s log /\ vw_dl (bs_told (events_of log) 1) = None /\ 8 * work 1 s = 40 /\
  bs_run DlFacts.ex_cell (ticking (repeat false 40) (mk_time 4 1 1 0)) s = Ok (s', more) /\ length more = 40.
Proof. exact ex_rest. Qed.

(** In order: if nothing is received meanwhile and the headers all have the same size, radios hear the messages in the
    order in which they were asked for, and pieces are never interleaved. *)
Theorem C61_in_order_partial : forall c k h s log, 1 <= k <= 4 -> cell_ok c = true -> bs_history c k s log -> 32 <= h -> Forall (even_headed c k h) (events_of log) ->
  exists slots got part rest, receives c k log slots /\ hear slots = Clear got part /\
    sends k (fun _ => idle_ts) (events_of log) = flat_map payload got ++ rest /\ Permutation rest (flat_map payload (queued k s part)).
Proof. exact heard_in_order. Qed.
Print Assumptions C61_in_order_partial.
Example C61_in_order_met : exists s log, bs_history DlFacts.ex_cell 1 s log /\ Forall (even_headed DlFacts.ex_cell 1 43) (events_of log) /\ sends 1 (fun _ => idle_ts) (events_of log) = ex_wanted.
Proof. exact ex_ordered. Qed.

(** Refuted: radios can always put together what they hear.  A message of 181 bits, one of 307 bits with a channel
    allocation and one of 301 bits: the pieces of the last two are interleaved. *)
Theorem C61_mixed_refuted : exists s log slots, bs_history DlFacts.ex_cell 1 s log /\ receives DlFacts.ex_cell 1 log slots /\ hear slots = Mixed.
Proof. exact mixed_up. Qed.
Print Assumptions C61_mixed_refuted.

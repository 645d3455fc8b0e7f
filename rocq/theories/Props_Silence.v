(** Property theorems: silence on a traffic timeslot is reported to call control (C64). *)
From Verif Require Import Base TdmaTime UmacCircuits DlSched UmacPrecomps UmacBs SlotSpec LmacBs BsMac AirSpec AirRun SilenceSpec SilenceFacts.
From Verif Require CallControl DlFacts.
Open Scope nat_scope.

(** Over every history: a tick reports exactly the timeslots [SilenceSpec.reported] names from the events before it, in order,
    each with the time of the tick; nothing else reports. *)
Theorem C64_exactly : forall c s log, cell_ok c = true -> bs_reached c s log -> Forall (fun e => both_ways e = true) (events_of log) ->
  forall pre e o m post, entries log = pre ++ (e, o, m) :: post ->
  match e with
  | UeTick _ t => exists slot, o = map (OutInactive t) (filter (fun k => reported k (events pre)) [1; 2; 3; 4]) ++ [OutSlot slot]
  | _ => forall t k, ~ In (OutInactive t k) o
  end.
Proof. exact exactly. Qed.
Print Assumptions C64_exactly.

(** No report within three multiframes of speech from a radio, of the floor being granted, of the opening of the circuit. *)
Theorem C64_not_while_heard : forall c s log, cell_ok c = true -> bs_reached c s log -> Forall (fun e => both_ways e = true) (events_of log) ->
  forall pre x mid cn t o m post k, entries log = pre ++ x :: mid ++ (UeTick cn t, o, m) :: post -> alive k (fst (fst x)) = true -> ticks_in (events mid) < 216 -> ~ In (OutInactive t k) o.
Proof. exact not_heard_lately. Qed.
Print Assumptions C64_not_while_heard.

(** After three multiframes in which nothing was said on the timeslot or about it the silence is reported. *)
Theorem C64_noticed : forall c s log, cell_ok c = true -> bs_reached c s log -> Forall (fun e => both_ways e = true) (events_of log) ->
  forall pre x mid cn t o m post k, entries log = pre ++ x :: mid ++ (UeTick cn t, o, m) :: post -> 1 <= k <= 4 -> alive k (fst (fst x)) = true -> listening (all_told (events (pre ++ [x]))) k = true ->
  Forall (fun e => touches k e = false) (events mid) -> ticks_in (events mid) = 216 -> In (OutInactive t k) o.
Proof. exact noticed. Qed.
Print Assumptions C64_noticed.

(** A silence is reported once. *)
Theorem C64_once : forall c s log, cell_ok c = true -> bs_reached c s log -> Forall (fun e => both_ways e = true) (events_of log) ->
  forall pre cn t o m mid cn' t' o' m' post k, entries log = pre ++ (UeTick cn t, o, m) :: mid ++ (UeTick cn' t', o', m') :: post -> In (OutInactive t k) o ->
  Forall (fun e => revives k e = false) (events mid) -> ~ In (OutInactive t' k) o'.
Proof. exact once. Qed.
Print Assumptions C64_once.

(** A call is set up on timeslot 2 and nobody speaks: the 217th tick reports it, the next one does not. *)
Example C64_met : exists s log pre x mid o1 m1 o2 m2, bs_reached DlFacts.ex_cell s log /\ Forall (fun e => both_ways e = true) (events_of log) /\
  entries log = pre ++ x :: mid ++ (ex_tick1, o1, m1) :: [] ++ [(ex_tick2, o2, m2)] /\ fst (fst x) = ex_open /\ alive 2 ex_open = true /\ listening (all_told (events (pre ++ [x]))) 2 = true /\
  Forall (fun e => touches 2 e = false) (events mid) /\ ticks_in (events mid) = 216 /\ In (OutInactive (mk_time 2 1 4 0) 2) o1 /\ ~ In (OutInactive (mk_time 3 1 4 0) 2) o2.
Proof. exact ex_silence. Qed.

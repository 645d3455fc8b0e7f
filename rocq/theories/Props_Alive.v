(** Properties: the base station goes on (C47). *)
From Coq Require Import Arith.
From Verif Require Import Base BitBuffer MacFields MacPdus Layout MacSpec TdmaTime TdmaTimeProofs TxReceipt UmacCircuits UlSched DlSched DlSchedSpec UmacPrecomps UmacBs StealSpec SlotSpec.
From Verif Require Import BsMac AirSpec AliveSpec UlBlockSpec UlBlockFacts AliveFacts.
From Verif Require CallControl Llc DlFacts.
Open Scope nat_scope.

(** Whatever was received and asked for until now, the next tick makes its burst of 510 bits, unless what waits for the
    timeslot jams it: a header no radio could read, or a stolen half slot left behind by a circuit. *)
Theorem C47_every_tick_partial : forall c s log now, cell_ok c = true -> bs_reached c s log -> Forall decent (events_of log) -> last_tick (rev log) = Some now ->
  ~ jammed s log (add_timeslots now 1) -> forall cn, exists s' xs w, bs_step c (BeTick cn (add_timeslots now 1)) s = Ok (s', xs, [w]) /\ length w = 510.
Proof. exact every_tick. Qed.
Print Assumptions C47_every_tick_partial.
(** A message of 400 bits waits and a circuit is open on timeslot 2. *)
Example C47_every_tick_met : exists s log, bs_reached DlFacts.ex_cell s log /\ Forall decent (events_of log) /\ last_tick (rev log) = Some (mk_time 3 1 1 0) /\
  length (waiting s (mk_time 1 2 1 0)) = 1 /\ vw_dl (bs_told (events_of log) 2) <> None /\ ~ jammed s log (mk_time 4 1 1 0).
Proof. exact ex_alive. Qed.

(** Messages, speech and circuits asked for by the layers above are taken in every state. *)
Theorem C47_requests_partial : forall c s log e, cell_ok c = true -> bs_reached c s log -> Forall decent (events_of log) -> request_ok e ->
  exists s' xs, bs_step c e s = Ok (s', xs, []).
Proof. exact requests. Qed.
Print Assumptions C47_requests_partial.
Example C47_requests_met : request_ok (BeSend ex_steal) /\ request_ok (BeControl (CallControl.CtlClose DirBoth 3)).
Proof. exact ex_request. Qed.

(** Refuted: what was received without harm never stops a later tick.  One encrypted MAC-ACCESS is enough: it is
    acknowledged, and the acknowledgement, with an encrypted address in a clear PDU, cannot be written. *)
Theorem C47_encrypted_access_refuted : exists u, reached DlFacts.ex_cell u /\
  run_from DlFacts.ex_cell ex_t0 [ex_access ex_encrypted; ex_tick 2; ex_tick 3] = Ok u /\ um_step DlFacts.ex_cell (ex_tick 4) u = Panic.
Proof. exact encrypted_stops. Qed.
Print Assumptions C47_encrypted_access_refuted.
Example C47_encrypted_access_met : macc_valid ex_encrypted = true /\ length (enc (macc_layout ex_encrypted)) = 36.
Proof. split; reflexivity. Qed.
(** Three radios ask for 10, 6 and 1 slots in the same slot: the third is granted its slot sixteen opportunities later,
    which the four bits of the grant cannot say. *)
Theorem C47_late_grant_refuted : exists u, reached DlFacts.ex_cell u /\
  run_from DlFacts.ex_cell ex_t0 [ex_access (ex_asks 1 8); ex_access (ex_asks 2 6); ex_access (ex_asks 3 1); ex_tick 2; ex_tick 3] = Ok u /\
  um_step DlFacts.ex_cell (ex_tick 4) u = Panic.
Proof. exact late_grant_stops. Qed.
Print Assumptions C47_late_grant_refuted.
Example C47_late_grant_met : macc_valid (ex_asks 1 8) = true /\ macc_valid (ex_asks 2 6) = true /\ macc_valid (ex_asks 3 1) = true.
Proof. repeat split. Qed.
(** A stolen half slot is still waiting when the circuit closes, and a message that needs more than one slot follows. *)
Theorem C47_left_behind_refuted : exists u, reached DlFacts.ex_cell u /\
  run_from DlFacts.ex_cell ex_t0 [UeControl (CallControl.CtlOpen DirBoth 2 5); UeSend ex_steal; UeControl (CallControl.CtlClose DirBoth 2); UeSend ex_more; ex_tick 2; ex_tick 3; ex_tick 4] = Ok u /\
  um_step DlFacts.ex_cell (UeTick false (mk_time 1 2 1 0)) u = Panic.
Proof. exact left_stops. Qed.
Print Assumptions C47_left_behind_refuted.
Example C47_left_behind_met : request_ok (BeSend ex_steal).
Proof. exact (proj1 ex_request). Qed.

(** C65: what the radios find on the traffic timeslots is what call control knows about its calls, over every history of the two together. *)
From Verif Require Import Base TdmaTime UmacBs SlotSpec LmacBs BsMac AirSpec SlotterSpec UmacPrecomps BrewRoute CallControl CcSpec CallAirSpec CallAirFacts CallAirExamples SilenceSpec.
From Verif Require CcFacts DlFacts.
Open Scope nat_scope.

(** Whatever happens and however long messages take: once those on their way have arrived, the upper MAC has open exactly the timeslots of the calls, in both directions, with their usage markers, and in hang time where nobody has the floor. *)
Theorem C65_agree : forall cfg c, cell_ok c = true -> forall j since L B, joint_reached cfg c j since L B ->
  shows_calls (jo_cc j) (after_ctl (bs_told (events_of B)) (jo_down j)).
Proof. exact agree. Qed.
Print Assumptions C65_agree.
(** two calls, with the messages about them still on their way *)
Example C65_agree_met : exists p, stands CcFacts.ex_cfg DlFacts.ex_cell p /\ look p = (Some (100%N, 2, 4%N, false, true), Some (200%N, 3, 5%N, true, false), [CtlOpen UmacCircuits.DirBoth 2 4; CtlOpen UmacCircuits.DirBoth 3 5; CtlFloorReleased 4 2], []).
Proof. exact ex_talk_look. Qed.

(** ... and they can arrive: nothing call control says is refused or stops the station. *)
Theorem C65_delivered : forall cfg c, cell_ok c = true -> forall since L D j B, joint_reached cfg c j since L B -> others_decent B -> jo_down j = D ->
  exists s B', joint_reached cfg c (mk_joint (jo_cc j) s [] (jo_up j)) since L (B ++ B') /\ events_of B' = map BeControl D.
Proof. exact delivered. Qed.
Print Assumptions C65_delivered.

(** When none is on its way, the burst radios receive says so. *)
Theorem C65_bursts : forall cfg c, cell_ok c = true -> forall j since L B cn t s xs ws, joint_reached cfg c j since L B -> jo_down j = [] -> bs_step c (BeTick cn t) (jo_bs j) = Ok (s, xs, ws) ->
  exists w view, ws = [b2b w] /\ burst_true c cn t view w /\ shows_calls (jo_cc j) view.
Proof. exact burst_shows. Qed.
Print Assumptions C65_bursts.
Example C65_bursts_met : exists p, stands CcFacts.ex_cfg DlFacts.ex_cell p /\ look p = (Some (100%N, 2, 4%N, false, true), Some (200%N, 3, 5%N, true, false), [], []).
Proof. exact ex_arrived_look. Qed.

(** Every message call control sends to the upper MAC is one it can be given: it opens and closes traffic timeslots in both directions with traffic usage markers, and a call's end is announced when its circuit is closed. *)
Theorem C65_proper : forall cfg c, cell_ok c = true -> forall j since L B, joint_reached cfg c j since L B -> orderly (fun _ => idle_ts) (for_umac L).
Proof. exact all_proper. Qed.
Print Assumptions C65_proper.

(** So the base station is in one of the histories of C60 and C64, and call control in one of those of C33 to C38. *)
Theorem C65_each_alone : forall cfg c, cell_ok c = true -> forall j since L B, joint_reached cfg c j since L B ->
  bs_reached c (jo_bs j) B /\ history cfg 1023 (jo_cc j) since L /\ Forall (fun e => both_ways e = true) (events_of B).
Proof. exact both. Qed.
Print Assumptions C65_each_alone.

(** Whoever has the floor spoke, or was given it, at most three multiframes ago, unless the report that they are silent is on its way to call control. *)
Theorem C65_no_endless_silence : forall cfg c, cell_ok c = true -> forall j since L B id x, joint_reached cfg c j since L B -> jo_down j = [] -> call_of (jo_cc j) id = Some x -> ac_tx x = true ->
  In (ac_ts x) (jo_up j) \/ exists pre a post, entries B = pre ++ a :: post /\ revives (ac_ts x) (fst (fst a)) = true /\ ticks_in (events post) <= 216.
Proof. exact heard_lately. Qed.
Print Assumptions C65_no_endless_silence.
(** 216 ticks without a word on timeslot 3; the next one reports it *)
Example C65_no_endless_silence_met : exists p, stands CcFacts.ex_cfg DlFacts.ex_cell p /\
  next_tick (mk_time 2 1 4 0) p = ((Some (100%N, 2, 4%N, false, true), Some (200%N, 3, 5%N, true, false), [], []), Some (Some (100%N, 2, 4%N, false, true), Some (200%N, 3, 5%N, true, false), [], [3])).
Proof. exact ex_hushed_look. Qed.

(** Only a timeslot on which somebody has the floor is reported as silent. *)
Theorem C65_notice_true : forall cfg c, cell_ok c = true -> forall j since L B e s xs ws k, joint_reached cfg c j since L B -> jo_down j = [] -> from_cc e = false -> bs_fine e -> bs_step c e (jo_bs j) = Ok (s, xs, ws) -> In k (notices xs) ->
  exists id x, call_of (jo_cc j) id = Some x /\ ac_ts x = k /\ ac_tx x = true.
Proof. exact notice_true. Qed.
Print Assumptions C65_notice_true.

(** The report takes the floor from that call, tells the upper MAC so, and leaves the other calls alone. *)
Theorem C65_report_ends_turn : forall cfg c, cell_ok c = true -> forall j since L B hint ts up s q, joint_reached cfg c j since L B -> jo_up j = ts :: up -> cc_step cfg (EvControl hint (CtlUlInactivity ts)) (jo_cc j) = Ok (s, q) ->
  (forall id x, call_of (jo_cc j) id = Some x -> ac_ts x = ts -> ac_tx x = true -> exists x', call_of s id = Some x' /\ ac_ts x' = ts /\ ac_tx x' = false /\ ac_hang x' = Some (cc_dltime (jo_cc j)) /\ for_umac q = [CtlFloorReleased id ts]) /\
  (forall id x, call_of (jo_cc j) id = Some x -> ac_ts x <> ts -> call_of s id = Some x).
Proof. exact report_ends. Qed.
Print Assumptions C65_report_ends_turn.
Example C65_report_ends_turn_met : exists p, stands CcFacts.ex_cfg DlFacts.ex_cell p /\
  then_up p = ((Some (100%N, 2, 4%N, false, true), Some (200%N, 3, 5%N, true, false), [], [3]), Some (Some (100%N, 2, 4%N, false, true), Some (200%N, 3, 5%N, false, true), [CtlFloorReleased 5 3], [])).
Proof. exact ex_known_look. Qed.

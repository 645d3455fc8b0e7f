(** Property theorems for C35, C36 and C37: group calls. *)
From Verif Require Import Base BitBuffer AMap TdmaTime TimeslotAlloc MacFields UmacCircuits CmcePdus CmceSpec BrewRoute CircuitMgr CallControl CcSpec CcHistory CcSetup CcFacts CcKeeps.
Open Scope nat_scope.

(** C35: active calls, cached set-up messages, circuits and timeslots correspond one to one, in every history in
    which fewer than 1023 other calls are set up during the life of a call.  (Missing: longer histories, where the
    statement is false, see [C35_coherent_refuted].) *)
Theorem C35_coherent_partial : forall cfg s since log, history cfg 1023 s since log -> coherent s.
Proof. exact calls_coherent. Qed.
Print Assumptions C35_coherent_partial.
Example C35_coherent_met : exists s since log, history ex_cfg 1023 s since log /\
  option_map call_view (call_of s 4) = Some (100%N, 2, 4%N, false, true) /\ option_map call_view (call_of s 5) = Some (200%N, 3, 5%N, true, false) /\
  cc_slots s = [Some OwnCmce; Some OwnCmce; None].
Proof. exact ex_history. Qed.

(** C35: whatever event ends a call, its timeslot and its circuit are free afterwards, the group is told and the
    UMAC is told to close the circuit. *)
Theorem C35_release_partial : forall cfg s since log e s' q id c,
  history cfg 1023 s since log -> cc_step cfg e s = Ok (s', q) -> call_of s id = Some c -> call_of s' id = None ->
  ts_owner_of (cc_slots s') (ac_ts c) = None /\ circuit_on s' (ac_ts c) = None /\ release_sent id c q.
Proof. exact call_end_releases. Qed.
Print Assumptions C35_release_partial.
Example C35_release_met : after ex_events (next (up 1 (u_release_wire (mk_u_release 4 1 None None))) (ends 4)) = true.
Proof. vm_compute. reflexivity. Qed.

(** C35: the circuits the UMAC was told to open and not yet to close are those call control has open, with the same
    usage markers. *)
Theorem C35_umac_partial : forall cfg s since log, history cfg 1023 s since log ->
  forall ts, 1 <= ts -> umac_view log ts = option_map ci_usage (circuit_on s ts).
Proof. exact umac_agrees. Qed.
Print Assumptions C35_umac_partial.
Example C35_umac_met : after ex_events (fun s => match option_map ci_usage (circuit_on s 3) with Some 5%N => true | _ => false end) = true.
Proof. vm_compute. reflexivity. Qed.

(** C35 is false in general: call identifiers are handed out in a circle without looking at the calls in progress.
    When the circle closes during a call, the call is overwritten: its timeslot stays taken and no call owns it. *)
Theorem C35_coherent_refuted : exists cfg s, reachable cfg s /\ ~ ids_distinct s /\ ~ coherent s /\
  ts_owner_of (cc_slots s) 2 = Some OwnCmce /\ (forall id c, call_of s id = Some c -> ac_ts c = 3).
Proof. exact identifiers_collide. Qed.
Print Assumptions C35_coherent_refuted.

(** C36: a call is in hang time exactly when nobody speaks in it. *)
Theorem C36_hang_no_speaker : forall cfg s id c, reachable cfg s -> call_of s id = Some c -> (ac_hang c <> None <-> ac_tx c = false).
Proof. exact hang_no_speaker. Qed.
Print Assumptions C36_hang_no_speaker.
Example C36_hang_no_speaker_met : after ex_events (fun s => negb (speaking 4 s) && speaking 5 s) = true.
Proof. vm_compute. reflexivity. Qed.

(** C36: when the speaker stops, hang time begins at the current time. *)
Theorem C36_hang_begins : forall cfg s i p b c s' q, reachable cfg s -> u_tx_ceased_from_bitbuf (mi_sdu i) = Ok (p, b) ->
  call_of s (u_tx_ceased_call_identifier p) = Some c -> ac_tx c = true -> cc_step cfg (EvUplink i) s = Ok (s', q) ->
  exists c', call_of s' (u_tx_ceased_call_identifier p) = Some c' /\ ac_tx c' = false /\ ac_hang c' = Some (cc_dltime s).
Proof. exact ceased_hangs. Qed.
Print Assumptions C36_hang_begins.
Example C36_hang_begins_met : after ex_events (next (up 1 (u_tx_ceased_wire (mk_u_tx_ceased 5 None None None))) (fun s s' _ => speaking 5 s && negb (speaking 5 s'))) = true.
Proof. vm_compute. reflexivity. Qed.

(** C36: when the uplink of a timeslot falls silent, hang time begins for the call on that timeslot… *)
Theorem C36_silence_partial : forall cfg s since log hint ts s' q id c, history cfg 1023 s since log ->
  cc_step cfg (EvControl hint (CtlUlInactivity ts)) s = Ok (s', q) -> call_of s id = Some c -> ac_ts c = ts -> ac_tx c = true ->
  exists c', call_of s' id = Some c' /\ ac_tx c' = false /\ ac_hang c' = Some (cc_dltime s) /\ ac_ts c' = ts.
Proof. exact inactivity_hangs. Qed.
Print Assumptions C36_silence_partial.
Example C36_silence_met : after ex_events (next (EvControl [] (CtlUlInactivity 3)) (fun s s' _ => speaking 5 s && negb (speaking 5 s') && active s' 5)) = true.
Proof. vm_compute. reflexivity. Qed.

(** …and the calls on other timeslots go on. *)
Theorem C36_silence_elsewhere : forall cfg s hint ts s' q id c, reachable cfg s ->
  cc_step cfg (EvControl hint (CtlUlInactivity ts)) s = Ok (s', q) -> call_of s id = Some c -> ac_ts c <> ts -> call_of s' id = Some c.
Proof. exact inactivity_others. Qed.
Print Assumptions C36_silence_elsewhere.
Example C36_silence_elsewhere_met : after ex_events (next (EvControl [] (CtlUlInactivity 2)) (fun s s' _ => speaking 5 s && speaking 5 s')) = true.
Proof. vm_compute. reflexivity. Qed.

(** C36: the tick at which more than 360 timeslots (5 seconds) of hang time have passed releases the call… *)
Theorem C36_hang_released : forall cfg s hint t s' q id c h a,
  reachable cfg s -> cc_step cfg (EvTick hint t) s = Ok (s', q) -> call_of s id = Some c ->
  ac_hang c = Some h -> age h t = Ok a -> (360 < a)%Z -> call_of s' id = None.
Proof. exact hang_released. Qed.
Print Assumptions C36_hang_released.
Example C36_hang_released_met : after ex_events (next (EvTick [] (mk_time 2 1 6 0)) (ends 4)) = true /\ after ex_events (next (EvTick [] (mk_time 2 1 6 0)) (stays 5)) = true.
Proof. split; vm_compute; reflexivity. Qed.

(** …so no call is in hang time for longer after any tick… *)
Theorem C36_hang_bounded : forall cfg s hint t s' q id c h a,
  reachable cfg s -> cc_step cfg (EvTick hint t) s = Ok (s', q) -> call_of s' id = Some c ->
  ac_hang c = Some h -> age h t = Ok a -> (a <= 360)%Z.
Proof. exact no_late_hang. Qed.
Print Assumptions C36_hang_bounded.
Example C36_hang_bounded_met : after ex_events (next (EvTick [] (mk_time 1 1 6 0)) (stays 4)) = true.
Proof. vm_compute. reflexivity. Qed.

(** …and a hang time is not restarted: whatever happens, it keeps running until somebody takes the floor or the call
    ends… *)
Theorem C36_hang_runs : forall cfg s e s' q id c h c', reachable cfg s -> cc_step cfg e s = Ok (s', q) ->
  call_of s id = Some c -> ac_hang c = Some h -> call_of s' id = Some c' -> ac_hang c' = Some h \/ ac_tx c' = true.
Proof. exact hang_not_restarted. Qed.
Print Assumptions C36_hang_runs.
Example C36_hang_runs_met : after ex_events (next (EvControl [] (CtlUlInactivity 2)) (stays 4)) = true /\
  after ex_events (next (up 1 (u_tx_ceased_wire (mk_u_tx_ceased 4 None None None))) (stays 4)) = true.
Proof. split; vm_compute; reflexivity. Qed.

(** …and not before: a call whose hang time and whose circuit have not run out survives the tick unchanged. *)
Theorem C36_hang_kept_partial : forall cfg s since log hint t s' q id c,
  history cfg 1023 s since log -> cc_step cfg (EvTick hint t) s = Ok (s', q) -> call_of s id = Some c ->
  (forall h a, ac_hang c = Some h -> age h t = Ok a -> (a <= 360)%Z) ->
  (forall ci a, circuit_on s (ac_ts c) = Some ci -> age (ci_created ci) t = Ok a -> (a <= 25920)%Z) -> call_of s' id = Some c.
Proof. exact tick_keeps. Qed.
Print Assumptions C36_hang_kept_partial.
Example C36_hang_kept_met : after ex_events (next (EvTick [] (mk_time 1 1 6 0)) (stays 4)) = true /\
  after ex_events (fun s => match call_of s 4, circuit_on s 2 with
    | Some c, Some ci => match ac_hang c with Some h => match age h (mk_time 1 1 6 0), age (ci_created ci) (mk_time 1 1 6 0) with
                                                       | Ok a, Ok a' => (a =? 360)%Z && (a' <=? 25920)%Z | _, _ => false end | None => false end
    | _, _ => false end) = true.
Proof. split; vm_compute; reflexivity. Qed.

(** C36: a call ends only for one of the reasons listed in [end_reason]: hang time or maximum duration run out, a
    release by a radio, a disconnect by the caller, no listener left, or the network ends it while nobody speaks. *)
Theorem C36_end_reason_partial : forall cfg s since log e s' q id c,
  history cfg 1023 s since log -> cc_step cfg e s = Ok (s', q) -> call_of s id = Some c -> call_of s' id = None -> end_reason s s' id c e.
Proof. exact call_end_reason. Qed.
Print Assumptions C36_end_reason_partial.
Example C36_end_reason_met : after ex_events (next (EvSubscriber [] [] 2 [200%N] SubDeaffiliate) (ends 5)) = true.
Proof. vm_compute. reflexivity. Qed.

(** C36: every active call has a listener: a radio with the call's group among its groups. *)
Theorem C36_listened : forall cfg s id c, reachable cfg s -> call_of s id = Some c -> listened s (ac_dest c).
Proof. exact active_listened. Qed.
Print Assumptions C36_listened.
Example C36_listened_met : after ex_events (fun s => active s 4 && active s 5) = true.
Proof. vm_compute. reflexivity. Qed.

(** C36: the floor is not taken from a speaker: a demand while somebody speaks changes nothing. *)
Theorem C36_floor_kept : forall cfg s i p b c, u_tx_demand_from_bitbuf (mi_sdu i) = Ok (p, b) ->
  call_of s (u_tx_demand_call_identifier p) = Some c -> ac_tx c = true -> cc_step cfg (EvUplink i) s = Ok (s, []).
Proof. exact demand_refused. Qed.
Print Assumptions C36_floor_kept.
Example C36_floor_kept_met : after ex_events (next (up 2 (u_tx_demand_wire (mk_u_tx_demand 5 0 false false None None None))) (fun s s' q => speaking 5 s && match q with [] => true | _ => false end)) = true.
Proof. vm_compute. reflexivity. Qed.

(** C36: a demand in hang time gives the floor to the asking radio, ends the hang time, tells that radio, and leaves
    the other calls alone. *)
Theorem C36_floor_granted : forall cfg s i p b c s' q, reachable cfg s -> u_tx_demand_from_bitbuf (mi_sdu i) = Ok (p, b) ->
  call_of s (u_tx_demand_call_identifier p) = Some c -> ac_tx c = false -> cc_step cfg (EvUplink i) s = Ok (s', q) ->
  exists c', call_of s' (u_tx_demand_call_identifier p) = Some c' /\ ac_tx c' = true /\ ac_hang c' = None /\ ac_source c' = ad_ssi (mi_addr i) /\
    ac_ts c' = ac_ts c /\ (forall id, id <> u_tx_demand_call_identifier p -> call_of s' id = call_of s id) /\
    granted_sent (u_tx_demand_call_identifier p) (ad_ssi (mi_addr i)) q.
Proof. exact demand_granted. Qed.
Print Assumptions C36_floor_granted.
Example C36_floor_granted_met : after ex_events (next (up 2 (u_tx_demand_wire (mk_u_tx_demand 4 0 false false None None None))) (fun s s' q => negb (speaking 4 s) && speaking 4 s')) = true.
Proof. vm_compute. reflexivity. Qed.

(** C37: two open circuits never carry the same call identifier, if fewer than 1023 other calls are set up during
    the life of a call. *)
Theorem C37_ids_partial : forall cfg s since log, history cfg 1023 s since log -> ids_distinct s.
Proof. exact identifiers_distinct. Qed.
Print Assumptions C37_ids_partial.
Example C37_ids_met : after ex_events (fun s => present (circuit_on s 2) && present (circuit_on s 3)) = true.
Proof. vm_compute. reflexivity. Qed.

(** C37: two open circuits never share a usage marker, if fewer than 60 other calls are set up during the life of a
    call. *)
Theorem C37_usages_partial : forall cfg s since log, history cfg 60 s since log -> usages_distinct s.
Proof. exact markers_distinct. Qed.
Print Assumptions C37_usages_partial.
Example C37_usages_met : after ex_events (fun s => present (circuit_on s 2) && present (circuit_on s 3)) = true.
Proof. vm_compute. reflexivity. Qed.

(** C37 is false in general: a usage marker can be in use on two timeslots… *)
Theorem C37_usages_refuted : exists cfg s, reachable cfg s /\ ~ usages_distinct s.
Proof. exact markers_collide. Qed.
Print Assumptions C37_usages_refuted.
(** …and so can a call identifier. *)
Theorem C37_ids_refuted : exists cfg s, reachable cfg s /\ ~ ids_distinct s /\ ~ coherent s /\
  ts_owner_of (cc_slots s) 2 = Some OwnCmce /\ (forall id c, call_of s id = Some c -> ac_ts c = 3).
Proof. exact identifiers_collide. Qed.
Print Assumptions C37_ids_refuted.

(** C54: every set-up message sent, at set-up or for late entry, describes a call in progress: its group, its timeslot,
    its usage marker; and somebody speaks in that call. *)
Theorem C54_setups_true_partial : forall cfg s since log e s' q t r p, history cfg 1023 s since log -> cc_step cfg e s = Ok (s', q) ->
  In (ToMle t r) q -> mr_pdu r = PdSetup p -> announces s' r p.
Proof. exact setups_true. Qed.
Print Assumptions C54_setups_true_partial.
Example C54_setups_true_met : after (firstn 4 ex_events) (next (EvTick [] (mk_time 1 1 1 0)) (fun _ _ q => 0 <? length (filter is_setup q))) = true.
Proof. vm_compute. reflexivity. Qed.

(** C54: a call that begins is announced to its group with the speaker, the UMAC is told to open the circuit, and the
    radio that set it up is given the floor on the timeslot of the call. *)
Theorem C54_announced_partial : forall cfg s since log e s' q id c, history cfg 1023 s since log -> cc_step cfg e s = Ok (s', q) ->
  call_of s id = None -> call_of s' id = Some c -> setup_sent s' id c q /\ caller_connected id c q.
Proof. exact new_announced. Qed.
Print Assumptions C54_announced_partial.
Example C54_announced_met : after (firstn 2 ex_events) (next (up 1 (u_setup_wire ex_setup)) (fun s s' q => negb (active s 4) && active s' 4)) = true.
Proof. vm_compute. reflexivity. Qed.

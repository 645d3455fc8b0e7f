(** Property theorems for C56 and C57: short data of the network and of the control link, and what the network knows
    about the radios. *)
From Verif Require Import Base BitBuffer BitBufferProofs BitBufferOps AMap TdmaTime MacFields CmceFields CmcePdus PduSpec CmceSpec BrewRoute Registry RegistrySpec CallControl
  Sds SdsSpec SdsProofs SdsFacts BrewProtocol BrewProtocolSpec BrewProtocolProofs BrewWorker BrewEntity NetShortSpec NetShortProofs NetShortFacts
  CcFacts Mobility MobilitySpec MobilityFacts BrewViewSpec BrewViewProofs BrewRegistry BrewViewFacts.
Open Scope N_scope.

(** C56: a frame of short data from the network, after any history: without a header it is dropped; with one, the
    message goes to the radio the header names, unchanged and under the sender's number, if that radio is registered
    ([h] when the network entity handles it, [h'] when call control does), and is dropped otherwise.  Hypotheses: the
    frame holds as many bits as it says, and the sender's number has 24 bits; see the refuted properties. *)
Theorem C56_from_network_partial : forall cfg, brew_sds_enabled cfg = true -> forall l w e msg u n payload,
  hears cfg l w e -> Forall byte msg -> bytes msg (BmFrame (mk_brew_frame 1 u n payload)) -> sendable (SdsType4 n payload) = true ->
  match header l u with
  | None => exists w', worker_receive cfg msg w = Ok (w', [])
  | Some (source, dest) => fit 24 source = true ->
      exists w' ev, worker_receive cfg msg w = Ok (w', [ev]) /\
      forall lat h hint hg jc s,
        (~ is_here h dest -> be_step cfg lat (InEvent (reg_run h) hint hg jc ev) s = Ok (s, [])) /\
        (is_here h dest -> exists t, be_step cfg lat (InEvent (reg_run h) hint hg jc ev) s =
             Ok (s, [BoSds t source dest (SdsType4 n payload); BoCmd (BcSdsReport u 0)]) /\
           forall h',
             (~ is_here h' dest -> rx_sds_from_brew (reg_run h') t source dest (SdsType4 n payload) = Ok []) /\
             (is_here h' dest -> exists sdu, rx_sds_from_brew (reg_run h') t source dest (SdsType4 n payload) =
                Ok [SdToMle (forward_to_timeslot t 1) (mk_addr dest false SsiIssi) L2Acknowledged sdu] /\
                wf sdu /\ remaining sdu = d_sds_data_wire (from_to source (SdsType4 n payload))))
  end.
Proof. exact network_to_radio. Qed.
Print Assumptions C56_from_network_partial.
Example C56_from_network_met : exists l w e, hears ex_net l w e /\ header l 77 = Some (5, 2) /\ is_here ex_told 2 /\
  brew_sds_enabled ex_net = true /\ fit 24 5 = true /\ sendable (SdsType4 20 [0x82; 0x04; 0xA0]) = true /\
  Forall byte (net_frame 77 20 [0x82; 0x04; 0xA0]) /\ bytes (net_frame 77 20 [0x82; 0x04; 0xA0]) (BmFrame (mk_brew_frame 1 77 20 [0x82; 0x04; 0xA0])) /\
  exists w', worker_receive ex_net (net_frame 77 20 [0x82; 0x04; 0xA0]) w = Ok (w', [BeSdsTransfer 77 5 2 [0x82; 0x04; 0xA0] 20]).
Proof. exact net_met. Qed.

(** C56: a network that is not used for short data gets none delivered. *)
Theorem C56_disabled : forall cfg l w e msg u n payload, brew_sds_enabled cfg = false ->
  hears cfg l w e -> Forall byte msg -> bytes msg (BmFrame (mk_brew_frame 1 u n payload)) -> worker_receive cfg msg w = Ok (w, []).
Proof. exact disabled_frame. Qed.
Print Assumptions C56_disabled.

(** C56, the other way: short data for the network (C38 says which) leaves as a header and a frame under the same
    identifier, with sender, receiver and exactly the bits the sender wrote. *)
Theorem C56_to_network : forall cfg lat s fresh source dest d n hint hg w,
  brew_sds_enabled cfg = true -> be_connected s = true -> u128 fresh -> fit 24 source = true -> fit 24 dest = true -> sendable d = true ->
  exists cmd header frame payload k,
    be_step cfg lat (InSds fresh source dest d) s = Ok (s, [BoCmd cmd]) /\
    worker_command cfg n true hint hg cmd w = (w, [header; frame]) /\
    Forall byte header /\ bytes header (BmCallControl (mk_brew_call 11 fresh (BpShortTransfer source dest))) /\
    Forall byte frame /\ bytes frame (BmFrame (mk_brew_frame 1 fresh k payload)) /\
    firstn (N.to_nat k) (bytes_bits payload) = content d /\ N.to_nat k = length (content d).
Proof. exact radio_to_network. Qed.
Print Assumptions C56_to_network.
Theorem C56_offline : forall cfg lat s fresh source dest d, be_connected s = false -> be_step cfg lat (InSds fresh source dest d) s = Ok (s, []).
Proof. exact offline. Qed.
Print Assumptions C56_offline.
Example C56_to_network_met : be_connected (be_set_connected true brew_new) = true /\ brew_sds_enabled ex_net = true /\ u128 77 /\ sendable SdsFacts.text = true /\ sendable (SdsType1 40000) = true /\
  worker_command ex_net (mk_now 0 0) true [] [] (BcSds 77 5 2 (sds_to_arr SdsFacts.text) 20) worker_new = (worker_new, [net_header 77 5 2; net_frame 77 20 [0x82; 0x04; 0xA0]]).
Proof. exact net_send_met. Qed.

(** C56, the control link: accepted and sent unchanged exactly if the number is that of a registered radio.  Hypotheses
    as above; for a group see the refuted property. *)
Theorem C56_control_partial : forall h source dest is_group n payload, fit 24 source = true -> sendable (SdsType4 n payload) = true ->
  (is_here h dest -> exists sdu, rx_sds_from_control (reg_run h) source dest is_group n payload =
     Ok (true, [SdToMle (forward_to_timeslot time_default 1) (mk_addr dest false (if is_group then SsiGssi else SsiIssi))
                 (if is_group then L2Unacknowledged else L2Acknowledged) sdu]) /\
     wf sdu /\ remaining sdu = d_sds_data_wire (from_to source (SdsType4 n payload))) /\
  (~ is_here h dest -> rx_sds_from_control (reg_run h) source dest is_group n payload = Ok (false, [])).
Proof. exact control_short_data. Qed.
Print Assumptions C56_control_partial.
Example C56_control_met : fit 24 5 = true /\ sendable (SdsType4 20 [0x82; 0x04; 0xA0]) = true /\ is_here ex_told 2 /\ ~ is_here ex_told 3.
Proof. exact control_met. Qed.

(** C56 fails: a header and a frame that announces more bits than it has, or a header with a number of more than 24
    bits, crash the base station (after a report that the message was delivered); so does the control link. *)
Theorem C56_length_refuted : crashes 5 80 [1; 2; 3].
Proof. exact crash_length. Qed.
Print Assumptions C56_length_refuted.
Theorem C56_source_refuted : crashes 16777216 8 [1].
Proof. exact crash_source. Qed.
Print Assumptions C56_source_refuted.
Theorem C56_control_length_refuted : rx_sds_from_control (reg_run ex_told) 5 2 false 80 [1; 2; 3] = Panic.
Proof. exact control_crash_length. Qed.
Print Assumptions C56_control_length_refuted.
Theorem C56_control_source_refuted : rx_sds_from_control (reg_run ex_told) 16777216 2 false 8 [1] = Panic.
Proof. exact control_crash_source. Qed.
Print Assumptions C56_control_source_refuted.
(** C56 fails: the control link cannot send to a group although it offers to, because the group's number is looked up
    among the radios. *)
Theorem C56_control_group_refuted : has_member ex_told 100 /\ rx_sds_from_control (reg_run ex_told) 5 100 true 8 [1] = Ok (false, []).
Proof. exact control_group_refused. Qed.
Print Assumptions C56_control_group_refuted.

(** C57: what the network server knows after the connection was last made, computed from the bytes it was sent, is what
    the rest of the base station reported over the whole history, for the radios it may know about: memberships always;
    registrations if the radios register before they do anything else.  [before] was sent on earlier connections;
    [pending] waited in the queue when the connection was made. *)
Theorem C57_view : forall cfg lat l1 reg hint hg jc l2 s1 o1 s2 o2 before pending w w' msgs,
  Forall numbers_ok (l1 ++ l2) ->
  be_run cfg lat l1 brew_new = Ok (s1, o1) -> be_run cfg lat (InEvent reg hint hg jc BeConnected :: l2) s1 = Ok (s2, o2) ->
  commands o1 = before ++ pending -> works cfg w (pending ++ commands o2) w' msgs ->
  (forall r g, v_aff (server msgs) r g <-> brew_issi_routable cfg r = true /\ v_aff (reported (l1 ++ l2)) r g) /\
  (registered_first cfg nobody (l1 ++ l2) ->
   forall r, v_reg (server msgs) r <-> brew_issi_routable cfg r = true /\ v_reg (reported (l1 ++ l2)) r).
Proof. exact network_view. Qed.
Print Assumptions C57_view.

(** C57: together with mobility management, for every history of requests of radios that attach groups the way radios
    do ([orderly_request]; see C34 for what happens otherwise): the server knows exactly the radios and the memberships
    mobility management has, as far as it may know about them. *)
Theorem C57_registry_partial : forall cfg lat m l1 reg hint hg jc l2 s1 o1 s2 o2 before pending w w' msgs,
  mm_reports cfg m (updates (l1 ++ l2)) -> Forall numbers_ok (l1 ++ l2) ->
  be_run cfg lat l1 brew_new = Ok (s1, o1) -> be_run cfg lat (InEvent reg hint hg jc BeConnected :: l2) s1 = Ok (s2, o2) ->
  commands o1 = before ++ pending -> works cfg w (pending ++ commands o2) w' msgs ->
  (forall r, v_reg (server msgs) r <-> brew_issi_routable cfg r = true /\ mm_known m r) /\
  (forall r g, v_aff (server msgs) r g <-> brew_issi_routable cfg r = true /\ brew_gssi_routable cfg g = true /\ mm_attached m r g).
Proof. exact registry_view. Qed.
Print Assumptions C57_registry_partial.
Example C57_met : exists m l1 l2 s1 o1 s2 o2 before pending w msgs,
  mm_reports ex_cfg m (updates (l1 ++ l2)) /\ Forall numbers_ok (l1 ++ l2) /\
  be_run ex_cfg 0 l1 brew_new = Ok (s1, o1) /\ be_run ex_cfg 0 (view_connect :: l2) s1 = Ok (s2, o2) /\
  commands o1 = before ++ pending /\ works ex_cfg worker_new (pending ++ commands o2) w msgs /\
  length pending = 1%nat /\ length msgs = 11%nat /\ mm_groups 1 m = Some [400; 100] /\ brew_issi_routable ex_cfg 1 = true /\ brew_gssi_routable ex_cfg 100 = true.
Proof. exact view_met. Qed.

(** C47, layer 3: what mobility management, the short data service and call control survive.  Which messages are hostile
    is told on their bits in [Layer3Spec]. *)
From Verif Require Import Base BitsLib BitBuffer BitBufferProofs MacFields PduSpec CmcePdus CmceSpec MmPdus MmSpec BrewRoute Registry CallControl CcFacts Mobility MobilityFacts
  Sds RegistrySpec SdsFacts Layer3Spec Layer3Facts CcSafeSpec CcSafe Layer3Ex.
Open Scope N_scope.

(** Mobility management handles every message of every radio that is not hostile, in every state. *)
Theorem C47_mobility_partial : forall cfg hint i s, wf (di_sdu i) -> ad_ssi (di_addr i) < 2 ^ 24 -> ~ hostile_mm (remaining (di_sdu i)) ->
  exists s' q, mm_rx cfg hint i s = Ok (s', q).
Proof. exact mobility_survives. Qed.
Print Assumptions C47_mobility_partial.
Example C47_mobility_met : forall w,
  In w [u_lu_demand_wire (locate 0 0 [attach 100; attach 200]); u_attach_detach_wire (ask false [detach 200; attach 400]); u_itsi_detach_wire (mk_u_itsi_detach None None)] ->
  wf (di_sdu (say 1 w)) /\ ad_ssi (di_addr (say 1 w)) < 2 ^ 24 /\ ~ hostile_mm (remaining (di_sdu (say 1 w))).
Proof. exact mobility_met. Qed.

(** A list of groups that announces five bits stops the program, in every state. *)
Theorem C47_mobility_refuted : exists i, remaining (di_sdu i) = num 4 7 ++ [false; true; true; true] ++ num 4 8 ++ num 11 5 ++ num 6 0 ++ [false] /\ wf (di_sdu i) /\
  forall cfg hint s, mm_rx cfg hint i s = Panic.
Proof. exact attach_crash. Qed.
Print Assumptions C47_mobility_refuted.

(** So does the short data service, whatever the radios registered. *)
Theorem C47_short_data_partial : forall cfg h i, wf (mi_sdu i) -> ad_ssi (mi_addr i) < 2 ^ 24 -> ~ hostile_cmce (remaining (mi_sdu i)) ->
  (exists q, route_rf_deliver cfg (reg_run h) i = Ok q) /\ exists q, route_status_deliver cfg (reg_run h) i = Ok q.
Proof. exact short_data_survives. Qed.
Print Assumptions C47_short_data_partial.
Example C47_short_data_met : forall w, In w [u_sds_data_wire (send_to 2); u_status_wire (report_to 2 (CmceFields.PcsNetworkUser 40000))] ->
  wf (mi_sdu (speak 1 w)) /\ ad_ssi (mi_addr (speak 1 w)) < 2 ^ 24 /\ ~ hostile_cmce (remaining (mi_sdu (speak 1 w))).
Proof. exact short_data_met. Qed.

(** Status 31743 stops the program. *)
Theorem C47_short_data_refuted : exists i, remaining (mi_sdu i) = num 5 8 ++ num 4 0 ++ num 2 1 ++ num 24 2 ++ num 16 31743 ++ flag false /\
  route_status_deliver ex_net (reg_run ex_told) i = Panic.
Proof. exact status_crash. Qed.
Print Assumptions C47_short_data_refuted.

(** Call control handles every acceptable event in every state it gets into by acceptable events, however many calls there
    have been. *)
Theorem C47_call_control_partial : forall cfg s e, serves cfg s -> acceptable cfg e -> exists s' q, cc_step cfg e s = Ok (s', q).
Proof. exact call_control_survives. Qed.
Print Assumptions C47_call_control_partial.
Example C47_call_control_met : exists s, serves ex_cfg s /\ length (cc_active s) = 2%nat.
Proof. exact call_control_met. Qed.
Example C47_acceptable_met : Forall (acceptable ex_cfg) ex_events.
Proof. exact ex_acceptable. Qed.

(** A U-RELEASE whose facility element announces 100 bits of which 70 are there stops the program, in every state. *)
Theorem C47_call_control_refuted : exists i, remaining (mi_sdu i) = num 5 6 ++ num 14 4 ++ num 5 1 ++ [true; true] ++ num 4 3 ++ num 11 100 ++ repeat false 70 /\ wf (mi_sdu i) /\
  forall cfg s, cc_step cfg (EvUplink i) s = Panic.
Proof. exact release_crash. Qed.
Print Assumptions C47_call_control_refuted.

(** A call of the network whose speaker has a 25-bit number stops the program. *)
Theorem C47_network_speaker_refuted : exists s, serves ex_cfg s /\ cc_step ex_cfg (EvControl [] (CtlNetworkCallStart 9 (2 ^ 24) 200 0)) s = Panic.
Proof. exact speaker_crash. Qed.
Print Assumptions C47_network_speaker_refuted.

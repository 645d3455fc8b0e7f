(** Property theorems for C46: CMCE PDUs. *)
From Verif Require Import Base BitsLib BitBuffer BitBufferProofs BitBufferOps Codec CodecProofs TypedFields CmceFields CmcePdus PduSpec CmceSpec CmceFieldsProofs CmceProofs CmceFacts.
Open Scope N_scope.

(** C46: for every value of the PDU that has a representation ([_valid], CmceSpec.v) the writer appends exactly the
    documented bits ([_wire], CmceSpec.v) to any buffer with room, and the parser, given those bits followed by anything,
    returns the value with the cursor exactly after them ([conveys], PduSpec.v). *)

Theorem C46_cmce_function_not_supported : forall s, cmce_function_not_supported_valid s = true -> conveys (cmce_function_not_supported_to_bitbuf s) cmce_function_not_supported_from_bitbuf s (cmce_function_not_supported_wire s).
Proof. exact cmce_function_not_supported_ok. Qed.
Print Assumptions C46_cmce_function_not_supported.
Example C46_cmce_function_not_supported_met : cmce_function_not_supported_valid ex_cmce_function_not_supported = true.
Proof. reflexivity. Qed.

Theorem C46_d_alert : forall s, d_alert_valid s = true -> conveys (d_alert_to_bitbuf s) d_alert_from_bitbuf s (d_alert_wire s).
Proof. exact d_alert_ok. Qed.
Print Assumptions C46_d_alert.
Example C46_d_alert_met : d_alert_valid ex_d_alert = true.
Proof. reflexivity. Qed.

Theorem C46_d_call_proceeding : forall s, d_call_proceeding_valid s = true -> conveys (d_call_proceeding_to_bitbuf s) d_call_proceeding_from_bitbuf s (d_call_proceeding_wire s).
Proof. exact d_call_proceeding_ok. Qed.
Print Assumptions C46_d_call_proceeding.
Example C46_d_call_proceeding_met : d_call_proceeding_valid ex_d_call_proceeding = true.
Proof. reflexivity. Qed.

Theorem C46_d_call_restore : forall s, d_call_restore_valid s = true -> conveys (d_call_restore_to_bitbuf s) d_call_restore_from_bitbuf s (d_call_restore_wire s).
Proof. exact d_call_restore_ok. Qed.
Print Assumptions C46_d_call_restore.
Example C46_d_call_restore_met : d_call_restore_valid ex_d_call_restore = true.
Proof. reflexivity. Qed.

Theorem C46_d_connect : forall s, d_connect_valid s = true -> conveys (d_connect_to_bitbuf s) d_connect_from_bitbuf s (d_connect_wire s).
Proof. exact d_connect_ok. Qed.
Print Assumptions C46_d_connect.
Example C46_d_connect_met : d_connect_valid ex_d_connect = true.
Proof. reflexivity. Qed.

Theorem C46_d_connect_acknowledge : forall s, d_connect_acknowledge_valid s = true -> conveys (d_connect_acknowledge_to_bitbuf s) d_connect_acknowledge_from_bitbuf s (d_connect_acknowledge_wire s).
Proof. exact d_connect_acknowledge_ok. Qed.
Print Assumptions C46_d_connect_acknowledge.
Example C46_d_connect_acknowledge_met : d_connect_acknowledge_valid ex_d_connect_acknowledge = true.
Proof. reflexivity. Qed.

Theorem C46_d_disconnect : forall s, d_disconnect_valid s = true -> conveys (d_disconnect_to_bitbuf s) d_disconnect_from_bitbuf s (d_disconnect_wire s).
Proof. exact d_disconnect_ok. Qed.
Print Assumptions C46_d_disconnect.
Example C46_d_disconnect_met : d_disconnect_valid ex_d_disconnect = true.
Proof. reflexivity. Qed.

Theorem C46_d_facility : forall s, d_facility_valid s = true -> conveys (d_facility_to_bitbuf s) d_facility_from_bitbuf s (d_facility_wire s).
Proof. exact d_facility_ok. Qed.
Print Assumptions C46_d_facility.
Example C46_d_facility_met : d_facility_valid ex_d_facility = true.
Proof. reflexivity. Qed.

Theorem C46_d_info : forall s, d_info_valid s = true -> conveys (d_info_to_bitbuf s) d_info_from_bitbuf s (d_info_wire s).
Proof. exact d_info_ok. Qed.
Print Assumptions C46_d_info.
Example C46_d_info_met : d_info_valid ex_d_info = true.
Proof. reflexivity. Qed.

Theorem C46_d_release : forall s, d_release_valid s = true -> conveys (d_release_to_bitbuf s) d_release_from_bitbuf s (d_release_wire s).
Proof. exact d_release_ok. Qed.
Print Assumptions C46_d_release.
Example C46_d_release_met : d_release_valid ex_d_release = true.
Proof. reflexivity. Qed.

Theorem C46_d_sds_data : forall s, d_sds_data_valid s = true -> conveys (d_sds_data_to_bitbuf s) d_sds_data_from_bitbuf s (d_sds_data_wire s).
Proof. exact d_sds_data_ok. Qed.
Print Assumptions C46_d_sds_data.
Example C46_d_sds_data_met : d_sds_data_valid ex_d_sds_data = true.
Proof. reflexivity. Qed.

Theorem C46_d_setup : forall s, d_setup_valid s = true -> conveys (d_setup_to_bitbuf s) d_setup_from_bitbuf s (d_setup_wire s).
Proof. exact d_setup_ok. Qed.
Print Assumptions C46_d_setup.
Example C46_d_setup_met : d_setup_valid ex_d_setup = true.
Proof. reflexivity. Qed.

Theorem C46_d_status : forall s, d_status_valid s = true -> conveys (d_status_to_bitbuf s) d_status_from_bitbuf s (d_status_wire s).
Proof. exact d_status_ok. Qed.
Print Assumptions C46_d_status.
Example C46_d_status_met : d_status_valid ex_d_status = true.
Proof. reflexivity. Qed.

Theorem C46_d_tx_ceased : forall s, d_tx_ceased_valid s = true -> conveys (d_tx_ceased_to_bitbuf s) d_tx_ceased_from_bitbuf s (d_tx_ceased_wire s).
Proof. exact d_tx_ceased_ok. Qed.
Print Assumptions C46_d_tx_ceased.
Example C46_d_tx_ceased_met : d_tx_ceased_valid ex_d_tx_ceased = true.
Proof. reflexivity. Qed.

Theorem C46_d_tx_continue : forall s, d_tx_continue_valid s = true -> conveys (d_tx_continue_to_bitbuf s) d_tx_continue_from_bitbuf s (d_tx_continue_wire s).
Proof. exact d_tx_continue_ok. Qed.
Print Assumptions C46_d_tx_continue.
Example C46_d_tx_continue_met : d_tx_continue_valid ex_d_tx_continue = true.
Proof. reflexivity. Qed.

Theorem C46_d_tx_granted : forall s, d_tx_granted_valid s = true -> conveys (d_tx_granted_to_bitbuf s) d_tx_granted_from_bitbuf s (d_tx_granted_wire s).
Proof. exact d_tx_granted_ok. Qed.
Print Assumptions C46_d_tx_granted.
Example C46_d_tx_granted_met : d_tx_granted_valid ex_d_tx_granted = true.
Proof. reflexivity. Qed.

Theorem C46_d_tx_interrupt : forall s, d_tx_interrupt_valid s = true -> conveys (d_tx_interrupt_to_bitbuf s) d_tx_interrupt_from_bitbuf s (d_tx_interrupt_wire s).
Proof. exact d_tx_interrupt_ok. Qed.
Print Assumptions C46_d_tx_interrupt.
Example C46_d_tx_interrupt_met : d_tx_interrupt_valid ex_d_tx_interrupt = true.
Proof. reflexivity. Qed.

Theorem C46_d_tx_wait : forall s, d_tx_wait_valid s = true -> conveys (d_tx_wait_to_bitbuf s) d_tx_wait_from_bitbuf s (d_tx_wait_wire s).
Proof. exact d_tx_wait_ok. Qed.
Print Assumptions C46_d_tx_wait.
Example C46_d_tx_wait_met : d_tx_wait_valid ex_d_tx_wait = true.
Proof. reflexivity. Qed.

Theorem C46_u_alert : forall s, u_alert_valid s = true -> conveys (u_alert_to_bitbuf s) u_alert_from_bitbuf s (u_alert_wire s).
Proof. exact u_alert_ok. Qed.
Print Assumptions C46_u_alert.
Example C46_u_alert_met : u_alert_valid ex_u_alert = true.
Proof. reflexivity. Qed.

Theorem C46_u_call_restore : forall s, u_call_restore_valid s = true -> conveys (u_call_restore_to_bitbuf s) u_call_restore_from_bitbuf s (u_call_restore_wire s).
Proof. exact u_call_restore_ok. Qed.
Print Assumptions C46_u_call_restore.
Example C46_u_call_restore_met : u_call_restore_valid ex_u_call_restore = true.
Proof. reflexivity. Qed.

Theorem C46_u_connect : forall s, u_connect_valid s = true -> conveys (u_connect_to_bitbuf s) u_connect_from_bitbuf s (u_connect_wire s).
Proof. exact u_connect_ok. Qed.
Print Assumptions C46_u_connect.
Example C46_u_connect_met : u_connect_valid ex_u_connect = true.
Proof. reflexivity. Qed.

Theorem C46_u_disconnect : forall s, u_disconnect_valid s = true -> conveys (u_disconnect_to_bitbuf s) u_disconnect_from_bitbuf s (u_disconnect_wire s).
Proof. exact u_disconnect_ok. Qed.
Print Assumptions C46_u_disconnect.
Example C46_u_disconnect_met : u_disconnect_valid ex_u_disconnect = true.
Proof. reflexivity. Qed.

Theorem C46_u_facility : forall s, u_facility_valid s = true -> conveys (u_facility_to_bitbuf s) u_facility_from_bitbuf s (u_facility_wire s).
Proof. exact u_facility_ok. Qed.
Print Assumptions C46_u_facility.
Example C46_u_facility_met : u_facility_valid ex_u_facility = true.
Proof. reflexivity. Qed.

Theorem C46_u_info : forall s, u_info_valid s = true -> conveys (u_info_to_bitbuf s) u_info_from_bitbuf s (u_info_wire s).
Proof. exact u_info_ok. Qed.
Print Assumptions C46_u_info.
Example C46_u_info_met : u_info_valid ex_u_info = true.
Proof. reflexivity. Qed.

Theorem C46_u_release : forall s, u_release_valid s = true -> conveys (u_release_to_bitbuf s) u_release_from_bitbuf s (u_release_wire s).
Proof. exact u_release_ok. Qed.
Print Assumptions C46_u_release.
Example C46_u_release_met : u_release_valid ex_u_release = true.
Proof. reflexivity. Qed.

Theorem C46_u_sds_data : forall s, u_sds_data_valid s = true -> conveys (u_sds_data_to_bitbuf s) u_sds_data_from_bitbuf s (u_sds_data_wire s).
Proof. exact u_sds_data_ok. Qed.
Print Assumptions C46_u_sds_data.
Example C46_u_sds_data_met : u_sds_data_valid ex_u_sds_data = true.
Proof. reflexivity. Qed.

Theorem C46_u_setup : forall s, u_setup_valid s = true -> conveys (u_setup_to_bitbuf s) u_setup_from_bitbuf s (u_setup_wire s).
Proof. exact u_setup_ok. Qed.
Print Assumptions C46_u_setup.
Example C46_u_setup_met : u_setup_valid ex_u_setup = true.
Proof. reflexivity. Qed.

Theorem C46_u_status : forall s, u_status_valid s = true -> conveys (u_status_to_bitbuf s) u_status_from_bitbuf s (u_status_wire s).
Proof. exact u_status_ok. Qed.
Print Assumptions C46_u_status.
Example C46_u_status_met : u_status_valid ex_u_status = true.
Proof. reflexivity. Qed.

Theorem C46_u_tx_ceased : forall s, u_tx_ceased_valid s = true -> conveys (u_tx_ceased_to_bitbuf s) u_tx_ceased_from_bitbuf s (u_tx_ceased_wire s).
Proof. exact u_tx_ceased_ok. Qed.
Print Assumptions C46_u_tx_ceased.
Example C46_u_tx_ceased_met : u_tx_ceased_valid ex_u_tx_ceased = true.
Proof. reflexivity. Qed.

Theorem C46_u_tx_demand : forall s, u_tx_demand_valid s = true -> conveys (u_tx_demand_to_bitbuf s) u_tx_demand_from_bitbuf s (u_tx_demand_wire s).
Proof. exact u_tx_demand_ok. Qed.
Print Assumptions C46_u_tx_demand.
Example C46_u_tx_demand_met : u_tx_demand_valid ex_u_tx_demand = true.
Proof. reflexivity. Qed.

(** Finding: pre-coded status 31743 lies between the reserved range (up to 31742) and the SDS-TL range (from 31744); the parser
    takes it for an SDS-TL report, fails to decode that and unwraps the failure.  A radio can send it. *)
Theorem C46_status_refuted : exists b,
  u_status_to_bitbuf ex_bad_status (bb_new_autoexpand 64) = Ok b /\
  window b = num 5 8 ++ num 4 1 ++ num 2 1 ++ num 24 1234567 ++ num 16 31743 ++ flag false /\
  u_status_from_bitbuf (set_pos b 0) = Panic.
Proof. exact bad_status. Qed.
Print Assumptions C46_status_refuted.

(** Finding: CMCE-FUNCTION-NOT-SUPPORTED with a pointer is written but its parser is unimplemented. *)
Theorem C46_function_not_supported_refuted : exists b,
  cmce_function_not_supported_to_bitbuf ex_bad_fns (bb_new_autoexpand 64) = Ok b /\ cmce_function_not_supported_from_bitbuf (set_pos b 0) = Panic.
Proof. exact bad_fns. Qed.
Print Assumptions C46_function_not_supported_refuted.

(** Formats of the CMCE PDUs as documented on their fields (EN 300 392-2 clause 14.7): for each PDU the bits of a
    value on the wire and the values that have a representation.  Written from the tables, not from the code. *)
From Verif Require Import Base BitsLib TypedFields CmceFields CmcePdus PduSpec.
Open Scope N_scope.

(** 14.8.2 Basic service information: for speech the last two bits are the speech service, otherwise the number of slots *)
Definition bsi_bits (s : bsi) : list bool :=
  num 3 (bsi_circuit_mode s) ++ flag (bsi_encryption s) ++ num 2 (bsi_comm_type s) ++
  num 2 (match bsi_speech s with Some v => v | None => match bsi_slots s with Some v => v | None => 0 end end).
Definition bsi_valid (s : bsi) : bool :=
  fit 3 (bsi_circuit_mode s) && fit 2 (bsi_comm_type s) &&
  (if bsi_circuit_mode s =? 0 then some (bsi_speech s) && negb (some (bsi_slots s)) && fito 2 (bsi_speech s)
   else negb (some (bsi_speech s)) && some (bsi_slots s) && fito 2 (bsi_slots s)).

(** User defined data, 14.8.49 to 14.8.52: a two-bit identifier, then 16, 32 or 64 bits, or an 11-bit length and as many bits *)
Definition bytes_bits (data : list N) : list bool := flat_map (num 8) data.
Definition sds_bits (d : sds_user_data) : list bool :=
  match d with
  | SdsType1 v => num 2 0 ++ num 16 v
  | SdsType2 v => num 2 1 ++ num 32 v
  | SdsType3 v => num 2 2 ++ num 64 v
  | SdsType4 n data => num 2 3 ++ num 11 n ++ firstn (N.to_nat n) (bytes_bits data)
  end.
(** type 4 data: just enough bytes, unused bits of the last byte zero *)
Definition sds_valid (d : sds_user_data) : bool :=
  match d with
  | SdsType1 v => fit 16 v
  | SdsType2 v => fit 32 v
  | SdsType3 v => fit 64 v
  | SdsType4 n data => fit 11 n && (length data =? N.to_nat ((n + 7) / 8))%nat && forallb (fit 8) data &&
                       forallb negb (skipn (N.to_nat n) (bytes_bits data))
  end.

(** 14.8.34 Pre-coded status: 0 emergency; reserved values; 011111 then two bits of report type and eight bits of
    message reference for SDS-TL short reports; 32768 and above network and user specific *)
Definition pcs_value (p : pre_coded_status) : N :=
  match p with
  | PcsEmergency => 0
  | PcsReserved v => v
  | PcsSdsTl r => 31744 + 256 * ssr_type r + ssr_reference r
  | PcsNetworkUser v => v
  end.
Definition pcs_bits (p : pre_coded_status) : list bool := num 16 (pcs_value p).
(** The reserved value 31743 is left out: see C46_status_refuted *)
Definition pcs_valid (p : pre_coded_status) : bool :=
  match p with
  | PcsEmergency => true
  | PcsReserved v => (1 <=? v) && (v <? 31743)
  | PcsSdsTl r => fit 2 (ssr_type r) && fit 8 (ssr_reference r)
  | PcsNetworkUser v => (32768 <=? v) && fit 16 v
  end.

Definition is (v : N) (o : option N) : bool := match o with Some x => x =? v | None => false end.

(** CMCE-FUNCTION-NOT-SUPPORTED, PDU type 31 *)
Definition cmce_function_not_supported_wire (s : cmce_function_not_supported) : list bool :=
  num 5 31 ++
  num 5 (cmce_function_not_supported_not_supported_pdu_type s) ++
  flag (cmce_function_not_supported_call_identifier_present s) ++
  cond 14 (cmce_function_not_supported_call_identifier s) ++
  num 8 (cmce_function_not_supported_function_not_supported_pointer s) ++
  cond 8 (cmce_function_not_supported_length_of_received_pdu_extract s) ++
  options []
    ([]).
Definition cmce_function_not_supported_valid (s : cmce_function_not_supported) : bool :=
  fit 5 (cmce_function_not_supported_not_supported_pdu_type s) &&
  Bool.eqb (some (cmce_function_not_supported_call_identifier s)) (cmce_function_not_supported_call_identifier_present s) &&
  fito 14 (cmce_function_not_supported_call_identifier s) &&
  (cmce_function_not_supported_function_not_supported_pointer s =? 0) &&
  negb (some (cmce_function_not_supported_length_of_received_pdu_extract s)) &&
  negb (some (cmce_function_not_supported_received_pdu_extract s)).

(** D-ALERT, PDU type 0 *)
Definition d_alert_wire (s : d_alert) : list bool :=
  num 5 0 ++
  num 14 (d_alert_call_identifier s) ++
  num 3 (d_alert_call_time_out_set_up_phase s) ++
  flag (d_alert_reserved s) ++
  flag (d_alert_simplex_duplex_selection s) ++
  flag (d_alert_call_queued s) ++
  options [some (d_alert_basic_service_information s); some (d_alert_notification_indicator s); some (d_alert_facility s); some (d_alert_proprietary s)]
    (t2s bsi_bits (d_alert_basic_service_information s) ++
     t2 6 (d_alert_notification_indicator s) ++
     t3 3 (d_alert_facility s) ++
     t3 15 (d_alert_proprietary s)).
Definition d_alert_valid (s : d_alert) : bool :=
  fit 14 (d_alert_call_identifier s) &&
  fit 3 (d_alert_call_time_out_set_up_phase s) &&
  fits_with bsi_valid (d_alert_basic_service_information s) &&
  fito 6 (d_alert_notification_indicator s) &&
  fit3 3 (d_alert_facility s) &&
  fit3 15 (d_alert_proprietary s).

(** D-CALL-PROCEEDING, PDU type 1 *)
Definition d_call_proceeding_wire (s : d_call_proceeding) : list bool :=
  num 5 1 ++
  num 14 (d_call_proceeding_call_identifier s) ++
  num 3 (d_call_proceeding_call_time_out_set_up_phase s) ++
  flag (d_call_proceeding_hook_method_selection s) ++
  flag (d_call_proceeding_simplex_duplex_selection s) ++
  options [some (d_call_proceeding_basic_service_information s); some (d_call_proceeding_call_status s); some (d_call_proceeding_notification_indicator s); some (d_call_proceeding_facility s); some (d_call_proceeding_proprietary s)]
    (t2s bsi_bits (d_call_proceeding_basic_service_information s) ++
     t2 3 (d_call_proceeding_call_status s) ++
     t2 6 (d_call_proceeding_notification_indicator s) ++
     t3 3 (d_call_proceeding_facility s) ++
     t3 15 (d_call_proceeding_proprietary s)).
Definition d_call_proceeding_valid (s : d_call_proceeding) : bool :=
  fit 14 (d_call_proceeding_call_identifier s) &&
  fit 3 (d_call_proceeding_call_time_out_set_up_phase s) &&
  fits_with bsi_valid (d_call_proceeding_basic_service_information s) &&
  fits_with (fun v => v <=? 4) (d_call_proceeding_call_status s) &&
  fito 6 (d_call_proceeding_notification_indicator s) &&
  fit3 3 (d_call_proceeding_facility s) &&
  fit3 15 (d_call_proceeding_proprietary s).

(** D-CALL-RESTORE, PDU type 14 *)
Definition d_call_restore_wire (s : d_call_restore) : list bool :=
  num 5 14 ++
  num 14 (d_call_restore_call_identifier s) ++
  num 2 (d_call_restore_transmission_grant s) ++
  flag (d_call_restore_transmission_request_permission s) ++
  flag (d_call_restore_reset_call_time_out_timer_t310_ s) ++
  options [some (d_call_restore_new_call_identifier s); some (d_call_restore_call_time_out s); some (d_call_restore_call_status s); some (d_call_restore_modify s); some (d_call_restore_notification_indicator s); some (d_call_restore_facility s); some (d_call_restore_temporary_address s); some (d_call_restore_dm_ms_address s); some (d_call_restore_proprietary s)]
    (t2 14 (d_call_restore_new_call_identifier s) ++
     t2 4 (d_call_restore_call_time_out s) ++
     t2 3 (d_call_restore_call_status s) ++
     t2 9 (d_call_restore_modify s) ++
     t2 6 (d_call_restore_notification_indicator s) ++
     t3 3 (d_call_restore_facility s) ++
     t3 5 (d_call_restore_temporary_address s) ++
     t3 6 (d_call_restore_dm_ms_address s) ++
     t3 15 (d_call_restore_proprietary s)).
Definition d_call_restore_valid (s : d_call_restore) : bool :=
  fit 14 (d_call_restore_call_identifier s) &&
  fit 2 (d_call_restore_transmission_grant s) &&
  fito 14 (d_call_restore_new_call_identifier s) &&
  fito 4 (d_call_restore_call_time_out s) &&
  fito 3 (d_call_restore_call_status s) &&
  fito 9 (d_call_restore_modify s) &&
  fito 6 (d_call_restore_notification_indicator s) &&
  fit3 3 (d_call_restore_facility s) &&
  fit3 5 (d_call_restore_temporary_address s) &&
  fit3 6 (d_call_restore_dm_ms_address s) &&
  fit3 15 (d_call_restore_proprietary s).

(** D-CONNECT, PDU type 2 *)
Definition d_connect_wire (s : d_connect) : list bool :=
  num 5 2 ++
  num 14 (d_connect_call_identifier s) ++
  num 4 (d_connect_call_time_out s) ++
  flag (d_connect_hook_method_selection s) ++
  flag (d_connect_simplex_duplex_selection s) ++
  num 2 (d_connect_transmission_grant s) ++
  flag (d_connect_transmission_request_permission s) ++
  flag (d_connect_call_ownership s) ++
  options [some (d_connect_call_priority s); some (d_connect_basic_service_information s); some (d_connect_temporary_address s); some (d_connect_notification_indicator s); some (d_connect_facility s); some (d_connect_proprietary s)]
    (t2 4 (d_connect_call_priority s) ++
     t2s bsi_bits (d_connect_basic_service_information s) ++
     t2 24 (d_connect_temporary_address s) ++
     t2 6 (d_connect_notification_indicator s) ++
     t3 3 (d_connect_facility s) ++
     t3 15 (d_connect_proprietary s)).
Definition d_connect_valid (s : d_connect) : bool :=
  fit 14 (d_connect_call_identifier s) &&
  fit 4 (d_connect_call_time_out s) &&
  fit 2 (d_connect_transmission_grant s) &&
  fito 4 (d_connect_call_priority s) &&
  fits_with bsi_valid (d_connect_basic_service_information s) &&
  fito 24 (d_connect_temporary_address s) &&
  fito 6 (d_connect_notification_indicator s) &&
  fit3 3 (d_connect_facility s) &&
  fit3 15 (d_connect_proprietary s).

(** D-CONNECT-ACKNOWLEDGE, PDU type 3 *)
Definition d_connect_acknowledge_wire (s : d_connect_acknowledge) : list bool :=
  num 5 3 ++
  num 14 (d_connect_acknowledge_call_identifier s) ++
  num 4 (d_connect_acknowledge_call_time_out s) ++
  num 2 (d_connect_acknowledge_transmission_grant s) ++
  flag (d_connect_acknowledge_transmission_request_permission s) ++
  options [some (d_connect_acknowledge_notification_indicator s); some (d_connect_acknowledge_facility s); some (d_connect_acknowledge_proprietary s)]
    (t2 6 (d_connect_acknowledge_notification_indicator s) ++
     t3 3 (d_connect_acknowledge_facility s) ++
     t3 15 (d_connect_acknowledge_proprietary s)).
Definition d_connect_acknowledge_valid (s : d_connect_acknowledge) : bool :=
  fit 14 (d_connect_acknowledge_call_identifier s) &&
  fit 4 (d_connect_acknowledge_call_time_out s) &&
  fit 2 (d_connect_acknowledge_transmission_grant s) &&
  fito 6 (d_connect_acknowledge_notification_indicator s) &&
  fit3 3 (d_connect_acknowledge_facility s) &&
  fit3 15 (d_connect_acknowledge_proprietary s).

(** D-DISCONNECT, PDU type 4 *)
Definition d_disconnect_wire (s : d_disconnect) : list bool :=
  num 5 4 ++
  num 14 (d_disconnect_call_identifier s) ++
  num 5 (d_disconnect_disconnect_cause s) ++
  options [some (d_disconnect_notification_indicator s); some (d_disconnect_facility s); some (d_disconnect_proprietary s)]
    (t2 6 (d_disconnect_notification_indicator s) ++
     t3 3 (d_disconnect_facility s) ++
     t3 15 (d_disconnect_proprietary s)).
Definition d_disconnect_valid (s : d_disconnect) : bool :=
  fit 14 (d_disconnect_call_identifier s) &&
  ((d_disconnect_disconnect_cause s) <=? 23) &&
  fito 6 (d_disconnect_notification_indicator s) &&
  fit3 3 (d_disconnect_facility s) &&
  fit3 15 (d_disconnect_proprietary s).

(** D-FACILITY, PDU type 16 *)
Definition d_facility_wire (s : d_facility) : list bool :=
  num 5 16 ++
  options []
    ([]).
Definition d_facility_valid (s : d_facility) : bool :=
  true.

(** D-INFO, PDU type 5 *)
Definition d_info_wire (s : d_info) : list bool :=
  num 5 5 ++
  num 14 (d_info_call_identifier s) ++
  flag (d_info_reset_call_time_out_timer_t310_ s) ++
  flag (d_info_poll_request s) ++
  options [some (d_info_new_call_identifier s); some (d_info_call_time_out s); some (d_info_call_time_out_set_up_phase_t301_t302_ s); some (d_info_call_ownership s); some (d_info_modify s); some (d_info_call_status s); some (d_info_temporary_address s); some (d_info_notification_indicator s); some (d_info_poll_response_percentage s); some (d_info_poll_response_number s); some (d_info_dtmf s); some (d_info_facility s); some (d_info_poll_response_addresses s); some (d_info_proprietary s)]
    (t2 14 (d_info_new_call_identifier s) ++
     t2 4 (d_info_call_time_out s) ++
     t2 3 (d_info_call_time_out_set_up_phase_t301_t302_ s) ++
     t2 1 (d_info_call_ownership s) ++
     t2 9 (d_info_modify s) ++
     t2 3 (d_info_call_status s) ++
     t2 24 (d_info_temporary_address s) ++
     t2 6 (d_info_notification_indicator s) ++
     t2 6 (d_info_poll_response_percentage s) ++
     t2 6 (d_info_poll_response_number s) ++
     t3 1 (d_info_dtmf s) ++
     t3 3 (d_info_facility s) ++
     t3 4 (d_info_poll_response_addresses s) ++
     t3 15 (d_info_proprietary s)).
Definition d_info_valid (s : d_info) : bool :=
  fit 14 (d_info_call_identifier s) &&
  fito 14 (d_info_new_call_identifier s) &&
  fito 4 (d_info_call_time_out s) &&
  fito 3 (d_info_call_time_out_set_up_phase_t301_t302_ s) &&
  fito 1 (d_info_call_ownership s) &&
  fito 9 (d_info_modify s) &&
  fito 3 (d_info_call_status s) &&
  fito 24 (d_info_temporary_address s) &&
  fito 6 (d_info_notification_indicator s) &&
  fito 6 (d_info_poll_response_percentage s) &&
  fito 6 (d_info_poll_response_number s) &&
  fit3 1 (d_info_dtmf s) &&
  fit3 3 (d_info_facility s) &&
  fit3 4 (d_info_poll_response_addresses s) &&
  fit3 15 (d_info_proprietary s).

(** D-RELEASE, PDU type 6 *)
Definition d_release_wire (s : d_release) : list bool :=
  num 5 6 ++
  num 14 (d_release_call_identifier s) ++
  num 5 (d_release_disconnect_cause s) ++
  options [some (d_release_notification_indicator s); some (d_release_facility s); some (d_release_proprietary s)]
    (t2 6 (d_release_notification_indicator s) ++
     t3 3 (d_release_facility s) ++
     t3 15 (d_release_proprietary s)).
Definition d_release_valid (s : d_release) : bool :=
  fit 14 (d_release_call_identifier s) &&
  ((d_release_disconnect_cause s) <=? 23) &&
  fito 6 (d_release_notification_indicator s) &&
  fit3 3 (d_release_facility s) &&
  fit3 15 (d_release_proprietary s).

(** D-SDS-DATA, PDU type 15 *)
Definition d_sds_data_wire (s : d_sds_data) : list bool :=
  num 5 15 ++
  num 2 (d_sds_data_calling_party_type_identifier s) ++
  cond 24 (d_sds_data_calling_party_address_ssi s) ++
  cond 24 (d_sds_data_calling_party_extension s) ++
  sds_bits (d_sds_data_user_defined_data s) ++
  options [some (d_sds_data_external_subscriber_number s); some (d_sds_data_dm_ms_address s)]
    (t3 2 (d_sds_data_external_subscriber_number s) ++
     t3 6 (d_sds_data_dm_ms_address s)).
Definition d_sds_data_valid (s : d_sds_data) : bool :=
  fit 2 (d_sds_data_calling_party_type_identifier s) &&
  Bool.eqb (some (d_sds_data_calling_party_address_ssi s)) (((d_sds_data_calling_party_type_identifier s) =? 1) || ((d_sds_data_calling_party_type_identifier s) =? 2)) && fito 24 (d_sds_data_calling_party_address_ssi s) &&
  Bool.eqb (some (d_sds_data_calling_party_extension s)) ((d_sds_data_calling_party_type_identifier s) =? 2) && fito 24 (d_sds_data_calling_party_extension s) &&
  sds_valid (d_sds_data_user_defined_data s) &&
  fit3 2 (d_sds_data_external_subscriber_number s) &&
  fit3 6 (d_sds_data_dm_ms_address s).

(** the calling party type identifier is present with a calling party address: 1 for an SSI, 2 for an SSI with an extension *)
Definition d_setup_party (s : d_setup) : option N :=
  match d_setup_calling_party_address_ssi s, d_setup_calling_party_extension s with
  | None, _ => None
  | Some _, None => Some 1
  | Some _, Some _ => Some 2
  end.
(** D-SETUP, PDU type 7 *)
Definition d_setup_wire (s : d_setup) : list bool :=
  num 5 7 ++
  num 14 (d_setup_call_identifier s) ++
  num 4 (d_setup_call_time_out s) ++
  flag (d_setup_hook_method_selection s) ++
  flag (d_setup_simplex_duplex_selection s) ++
  bsi_bits (d_setup_basic_service_information s) ++
  num 2 (d_setup_transmission_grant s) ++
  flag (d_setup_transmission_request_permission s) ++
  num 4 (d_setup_call_priority s) ++
  options [some (d_setup_notification_indicator s); some (d_setup_temporary_address s); some (d_setup_calling_party_address_ssi s); some (d_setup_calling_party_extension s); some (d_setup_external_subscriber_number s); some (d_setup_facility s); some (d_setup_dm_ms_address s); some (d_setup_proprietary s)]
    (t2 6 (d_setup_notification_indicator s) ++
     t2 24 (d_setup_temporary_address s) ++
     t2 2 (d_setup_party s) ++ cond 24 (d_setup_calling_party_address_ssi s) ++ cond 24 (d_setup_calling_party_extension s) ++
     t3 2 (d_setup_external_subscriber_number s) ++
     t3 3 (d_setup_facility s) ++
     t3 6 (d_setup_dm_ms_address s) ++
     t3 15 (d_setup_proprietary s)).
Definition d_setup_valid (s : d_setup) : bool :=
  fit 14 (d_setup_call_identifier s) &&
  fit 4 (d_setup_call_time_out s) &&
  bsi_valid (d_setup_basic_service_information s) &&
  fit 2 (d_setup_transmission_grant s) &&
  fit 4 (d_setup_call_priority s) &&
  fito 6 (d_setup_notification_indicator s) &&
  fito 24 (d_setup_temporary_address s) &&
  (negb (some (d_setup_calling_party_extension s)) || some (d_setup_calling_party_address_ssi s)) &&
  fito 24 (d_setup_calling_party_address_ssi s) &&
  fito 24 (d_setup_calling_party_extension s) &&
  fit3 2 (d_setup_external_subscriber_number s) &&
  fit3 3 (d_setup_facility s) &&
  fit3 6 (d_setup_dm_ms_address s) &&
  fit3 15 (d_setup_proprietary s).

(** D-STATUS, PDU type 8 *)
Definition d_status_wire (s : d_status) : list bool :=
  num 5 8 ++
  num 2 (d_status_calling_party_type_identifier s) ++
  cond 24 (d_status_calling_party_address_ssi s) ++
  cond 24 (d_status_calling_party_extension s) ++
  pcs_bits (d_status_pre_coded_status s) ++
  options [some (d_status_external_subscriber_number s); some (d_status_dm_ms_address s)]
    (t3 2 (d_status_external_subscriber_number s) ++
     t3 6 (d_status_dm_ms_address s)).
Definition d_status_valid (s : d_status) : bool :=
  fit 2 (d_status_calling_party_type_identifier s) &&
  Bool.eqb (some (d_status_calling_party_address_ssi s)) (((d_status_calling_party_type_identifier s) =? 1) || ((d_status_calling_party_type_identifier s) =? 2)) && fito 24 (d_status_calling_party_address_ssi s) &&
  Bool.eqb (some (d_status_calling_party_extension s)) ((d_status_calling_party_type_identifier s) =? 2) && fito 24 (d_status_calling_party_extension s) &&
  pcs_valid (d_status_pre_coded_status s) &&
  fit3 2 (d_status_external_subscriber_number s) &&
  fit3 6 (d_status_dm_ms_address s).

(** D-TX-CEASED, PDU type 9 *)
Definition d_tx_ceased_wire (s : d_tx_ceased) : list bool :=
  num 5 9 ++
  num 14 (d_tx_ceased_call_identifier s) ++
  flag (d_tx_ceased_transmission_request_permission s) ++
  options [some (d_tx_ceased_notification_indicator s); some (d_tx_ceased_facility s); some (d_tx_ceased_dm_ms_address s); some (d_tx_ceased_proprietary s)]
    (t2 6 (d_tx_ceased_notification_indicator s) ++
     t3 3 (d_tx_ceased_facility s) ++
     t3 6 (d_tx_ceased_dm_ms_address s) ++
     t3 15 (d_tx_ceased_proprietary s)).
Definition d_tx_ceased_valid (s : d_tx_ceased) : bool :=
  fit 14 (d_tx_ceased_call_identifier s) &&
  fito 6 (d_tx_ceased_notification_indicator s) &&
  fit3 3 (d_tx_ceased_facility s) &&
  fit3 6 (d_tx_ceased_dm_ms_address s) &&
  fit3 15 (d_tx_ceased_proprietary s).

(** D-TX-CONTINUE, PDU type 10 *)
Definition d_tx_continue_wire (s : d_tx_continue) : list bool :=
  num 5 10 ++
  num 14 (d_tx_continue_call_identifier s) ++
  flag (d_tx_continue_do_continue s) ++
  flag (d_tx_continue_transmission_request_permission s) ++
  options [some (d_tx_continue_notification_indicator s); some (d_tx_continue_facility s); some (d_tx_continue_dm_ms_address s); some (d_tx_continue_proprietary s)]
    (t2 6 (d_tx_continue_notification_indicator s) ++
     t3 3 (d_tx_continue_facility s) ++
     t3 6 (d_tx_continue_dm_ms_address s) ++
     t3 15 (d_tx_continue_proprietary s)).
Definition d_tx_continue_valid (s : d_tx_continue) : bool :=
  fit 14 (d_tx_continue_call_identifier s) &&
  fito 6 (d_tx_continue_notification_indicator s) &&
  fit3 3 (d_tx_continue_facility s) &&
  fit3 6 (d_tx_continue_dm_ms_address s) &&
  fit3 15 (d_tx_continue_proprietary s).

(** D-TX-GRANTED, PDU type 11 *)
Definition d_tx_granted_wire (s : d_tx_granted) : list bool :=
  num 5 11 ++
  num 14 (d_tx_granted_call_identifier s) ++
  num 2 (d_tx_granted_transmission_grant s) ++
  flag (d_tx_granted_transmission_request_permission s) ++
  flag (d_tx_granted_encryption_control s) ++
  flag (d_tx_granted_reserved s) ++
  options [some (d_tx_granted_notification_indicator s); some (d_tx_granted_transmitting_party_type_identifier s); some (d_tx_granted_external_subscriber_number s); some (d_tx_granted_facility s); some (d_tx_granted_dm_ms_address s); some (d_tx_granted_proprietary s)]
    (t2 6 (d_tx_granted_notification_indicator s) ++
     t2 2 (d_tx_granted_transmitting_party_type_identifier s) ++
     cond 24 (d_tx_granted_transmitting_party_address_ssi s) ++
     cond 24 (d_tx_granted_transmitting_party_extension s) ++
     t3 2 (d_tx_granted_external_subscriber_number s) ++
     t3 3 (d_tx_granted_facility s) ++
     t3 6 (d_tx_granted_dm_ms_address s) ++
     t3 15 (d_tx_granted_proprietary s)).
Definition d_tx_granted_valid (s : d_tx_granted) : bool :=
  fit 14 (d_tx_granted_call_identifier s) &&
  fit 2 (d_tx_granted_transmission_grant s) &&
  fito 6 (d_tx_granted_notification_indicator s) &&
  fito 2 (d_tx_granted_transmitting_party_type_identifier s) &&
  Bool.eqb (some (d_tx_granted_transmitting_party_address_ssi s)) (is 1 (d_tx_granted_transmitting_party_type_identifier s) || is 2 (d_tx_granted_transmitting_party_type_identifier s)) && fito 24 (d_tx_granted_transmitting_party_address_ssi s) &&
  Bool.eqb (some (d_tx_granted_transmitting_party_extension s)) (is 2 (d_tx_granted_transmitting_party_type_identifier s)) && fito 24 (d_tx_granted_transmitting_party_extension s) &&
  fit3 2 (d_tx_granted_external_subscriber_number s) &&
  fit3 3 (d_tx_granted_facility s) &&
  fit3 6 (d_tx_granted_dm_ms_address s) &&
  fit3 15 (d_tx_granted_proprietary s).

(** D-TX-INTERRUPT, PDU type 13 *)
Definition d_tx_interrupt_wire (s : d_tx_interrupt) : list bool :=
  num 5 13 ++
  num 14 (d_tx_interrupt_call_identifier s) ++
  num 2 (d_tx_interrupt_transmission_grant s) ++
  flag (d_tx_interrupt_transmission_request_permission s) ++
  flag (d_tx_interrupt_encryption_control s) ++
  flag (d_tx_interrupt_reserved s) ++
  options [some (d_tx_interrupt_notification_indicator s); some (d_tx_interrupt_transmitting_party_type_identifier s); some (d_tx_interrupt_transmitting_party_address_ssi s); some (d_tx_interrupt_transmitting_party_extension s); some (d_tx_interrupt_external_subscriber_number s); some (d_tx_interrupt_facility s); some (d_tx_interrupt_dm_ms_address s); some (d_tx_interrupt_proprietary s)]
    (t2 6 (d_tx_interrupt_notification_indicator s) ++
     t2 2 (d_tx_interrupt_transmitting_party_type_identifier s) ++
     t2 24 (d_tx_interrupt_transmitting_party_address_ssi s) ++
     t2 24 (d_tx_interrupt_transmitting_party_extension s) ++
     t3 2 (d_tx_interrupt_external_subscriber_number s) ++
     t3 3 (d_tx_interrupt_facility s) ++
     t3 6 (d_tx_interrupt_dm_ms_address s) ++
     t3 15 (d_tx_interrupt_proprietary s)).
Definition d_tx_interrupt_valid (s : d_tx_interrupt) : bool :=
  fit 14 (d_tx_interrupt_call_identifier s) &&
  fit 2 (d_tx_interrupt_transmission_grant s) &&
  fito 6 (d_tx_interrupt_notification_indicator s) &&
  fito 2 (d_tx_interrupt_transmitting_party_type_identifier s) &&
  fito 24 (d_tx_interrupt_transmitting_party_address_ssi s) &&
  fito 24 (d_tx_interrupt_transmitting_party_extension s) &&
  fit3 2 (d_tx_interrupt_external_subscriber_number s) &&
  fit3 3 (d_tx_interrupt_facility s) &&
  fit3 6 (d_tx_interrupt_dm_ms_address s) &&
  fit3 15 (d_tx_interrupt_proprietary s).

(** D-TX-WAIT, PDU type 12 *)
Definition d_tx_wait_wire (s : d_tx_wait) : list bool :=
  num 5 12 ++
  num 14 (d_tx_wait_call_identifier s) ++
  flag (d_tx_wait_transmission_request_permission s) ++
  options [some (d_tx_wait_notification_indicator s); some (d_tx_wait_facility s); some (d_tx_wait_dm_ms_address s); some (d_tx_wait_proprietary s)]
    (t2 6 (d_tx_wait_notification_indicator s) ++
     t3 3 (d_tx_wait_facility s) ++
     t3 6 (d_tx_wait_dm_ms_address s) ++
     t3 15 (d_tx_wait_proprietary s)).
Definition d_tx_wait_valid (s : d_tx_wait) : bool :=
  fit 14 (d_tx_wait_call_identifier s) &&
  fito 6 (d_tx_wait_notification_indicator s) &&
  fit3 3 (d_tx_wait_facility s) &&
  fit3 6 (d_tx_wait_dm_ms_address s) &&
  fit3 15 (d_tx_wait_proprietary s).

(** U-ALERT, PDU type 0 *)
Definition u_alert_wire (s : u_alert) : list bool :=
  num 5 0 ++
  num 14 (u_alert_call_identifier s) ++
  flag (u_alert_reserved s) ++
  flag (u_alert_simplex_duplex_selection s) ++
  options [some (u_alert_basic_service_information s); some (u_alert_facility s); some (u_alert_proprietary s)]
    (t2s bsi_bits (u_alert_basic_service_information s) ++
     t3 3 (u_alert_facility s) ++
     t3 15 (u_alert_proprietary s)).
Definition u_alert_valid (s : u_alert) : bool :=
  fit 14 (u_alert_call_identifier s) &&
  fits_with bsi_valid (u_alert_basic_service_information s) &&
  fit3 3 (u_alert_facility s) &&
  fit3 15 (u_alert_proprietary s).

(** U-CALL-RESTORE, PDU type 14 *)
Definition u_call_restore_wire (s : u_call_restore) : list bool :=
  num 5 14 ++
  num 14 (u_call_restore_call_identifier s) ++
  flag (u_call_restore_request_to_transmit_send_data s) ++
  num 2 (u_call_restore_other_party_type_identifier s) ++
  cond 8 (u_call_restore_other_party_short_number_address s) ++
  cond 24 (u_call_restore_other_party_ssi s) ++
  cond 24 (u_call_restore_other_party_extension s) ++
  options [some (u_call_restore_basic_service_information s); some (u_call_restore_facility s); some (u_call_restore_dm_ms_address s); some (u_call_restore_proprietary s)]
    (t2s bsi_bits (u_call_restore_basic_service_information s) ++
     t3 3 (u_call_restore_facility s) ++
     t3 6 (u_call_restore_dm_ms_address s) ++
     t3 15 (u_call_restore_proprietary s)).
Definition u_call_restore_valid (s : u_call_restore) : bool :=
  fit 14 (u_call_restore_call_identifier s) &&
  fit 2 (u_call_restore_other_party_type_identifier s) &&
  Bool.eqb (some (u_call_restore_other_party_short_number_address s)) ((u_call_restore_other_party_type_identifier s) =? 0) && fito 8 (u_call_restore_other_party_short_number_address s) &&
  Bool.eqb (some (u_call_restore_other_party_ssi s)) (((u_call_restore_other_party_type_identifier s) =? 1) || ((u_call_restore_other_party_type_identifier s) =? 2)) && fito 24 (u_call_restore_other_party_ssi s) &&
  Bool.eqb (some (u_call_restore_other_party_extension s)) ((u_call_restore_other_party_type_identifier s) =? 2) && fito 24 (u_call_restore_other_party_extension s) &&
  fits_with bsi_valid (u_call_restore_basic_service_information s) &&
  fit3 3 (u_call_restore_facility s) &&
  fit3 6 (u_call_restore_dm_ms_address s) &&
  fit3 15 (u_call_restore_proprietary s).

(** U-CONNECT, PDU type 2 *)
Definition u_connect_wire (s : u_connect) : list bool :=
  num 5 2 ++
  num 14 (u_connect_call_identifier s) ++
  flag (u_connect_hook_method_selection s) ++
  flag (u_connect_simplex_duplex_selection s) ++
  options [some (u_connect_basic_service_information s); some (u_connect_facility s); some (u_connect_proprietary s)]
    (t2s bsi_bits (u_connect_basic_service_information s) ++
     t3 3 (u_connect_facility s) ++
     t3 15 (u_connect_proprietary s)).
Definition u_connect_valid (s : u_connect) : bool :=
  fit 14 (u_connect_call_identifier s) &&
  fits_with bsi_valid (u_connect_basic_service_information s) &&
  fit3 3 (u_connect_facility s) &&
  fit3 15 (u_connect_proprietary s).

(** U-DISCONNECT, PDU type 4 *)
Definition u_disconnect_wire (s : u_disconnect) : list bool :=
  num 5 4 ++
  num 14 (u_disconnect_call_identifier s) ++
  num 5 (u_disconnect_disconnect_cause s) ++
  options [some (u_disconnect_facility s); some (u_disconnect_proprietary s)]
    (t3 3 (u_disconnect_facility s) ++
     t3 15 (u_disconnect_proprietary s)).
Definition u_disconnect_valid (s : u_disconnect) : bool :=
  fit 14 (u_disconnect_call_identifier s) &&
  ((u_disconnect_disconnect_cause s) <=? 23) &&
  fit3 3 (u_disconnect_facility s) &&
  fit3 15 (u_disconnect_proprietary s).

(** U-FACILITY, PDU type 16 *)
Definition u_facility_wire (s : u_facility) : list bool :=
  num 5 16 ++
  options []
    ([]).
Definition u_facility_valid (s : u_facility) : bool :=
  true.

(** U-INFO, PDU type 5 *)
Definition u_info_wire (s : u_info) : list bool :=
  num 5 5 ++
  num 14 (u_info_call_identifier s) ++
  flag (u_info_poll_response s) ++
  options [some (u_info_modify s); some (u_info_dtmf s); some (u_info_facility s); some (u_info_proprietary s)]
    (t2 9 (u_info_modify s) ++
     t3 1 (u_info_dtmf s) ++
     t3 3 (u_info_facility s) ++
     t3 15 (u_info_proprietary s)).
Definition u_info_valid (s : u_info) : bool :=
  fit 14 (u_info_call_identifier s) &&
  fito 9 (u_info_modify s) &&
  fit3 1 (u_info_dtmf s) &&
  fit3 3 (u_info_facility s) &&
  fit3 15 (u_info_proprietary s).

(** U-RELEASE, PDU type 6 *)
Definition u_release_wire (s : u_release) : list bool :=
  num 5 6 ++
  num 14 (u_release_call_identifier s) ++
  num 5 (u_release_disconnect_cause s) ++
  options [some (u_release_facility s); some (u_release_proprietary s)]
    (t3 3 (u_release_facility s) ++
     t3 15 (u_release_proprietary s)).
Definition u_release_valid (s : u_release) : bool :=
  fit 14 (u_release_call_identifier s) &&
  ((u_release_disconnect_cause s) <=? 23) &&
  fit3 3 (u_release_facility s) &&
  fit3 15 (u_release_proprietary s).

(** U-SDS-DATA, PDU type 15 *)
Definition u_sds_data_wire (s : u_sds_data) : list bool :=
  num 5 15 ++
  num 4 (u_sds_data_area_selection s) ++
  num 2 (u_sds_data_called_party_type_identifier s) ++
  cond 8 (u_sds_data_called_party_short_number_address s) ++
  cond 24 (u_sds_data_called_party_ssi s) ++
  cond 24 (u_sds_data_called_party_extension s) ++
  sds_bits (u_sds_data_user_defined_data s) ++
  options [some (u_sds_data_external_subscriber_number s); some (u_sds_data_dm_ms_address s)]
    (t3 2 (u_sds_data_external_subscriber_number s) ++
     t3 6 (u_sds_data_dm_ms_address s)).
Definition u_sds_data_valid (s : u_sds_data) : bool :=
  fit 4 (u_sds_data_area_selection s) &&
  fit 2 (u_sds_data_called_party_type_identifier s) &&
  Bool.eqb (some (u_sds_data_called_party_short_number_address s)) ((u_sds_data_called_party_type_identifier s) =? 0) && fito 8 (u_sds_data_called_party_short_number_address s) &&
  Bool.eqb (some (u_sds_data_called_party_ssi s)) (((u_sds_data_called_party_type_identifier s) =? 1) || ((u_sds_data_called_party_type_identifier s) =? 2)) && fito 24 (u_sds_data_called_party_ssi s) &&
  Bool.eqb (some (u_sds_data_called_party_extension s)) ((u_sds_data_called_party_type_identifier s) =? 2) && fito 24 (u_sds_data_called_party_extension s) &&
  sds_valid (u_sds_data_user_defined_data s) &&
  fit3 2 (u_sds_data_external_subscriber_number s) &&
  fit3 6 (u_sds_data_dm_ms_address s).

(** U-SETUP, PDU type 7 *)
Definition u_setup_wire (s : u_setup) : list bool :=
  num 5 7 ++
  num 4 (u_setup_area_selection s) ++
  flag (u_setup_hook_method_selection s) ++
  flag (u_setup_simplex_duplex_selection s) ++
  bsi_bits (u_setup_basic_service_information s) ++
  flag (u_setup_request_to_transmit_send_data s) ++
  num 4 (u_setup_call_priority s) ++
  num 2 (u_setup_clir_control s) ++
  num 2 (u_setup_called_party_type_identifier s) ++
  cond 8 (u_setup_called_party_short_number_address s) ++
  cond 24 (u_setup_called_party_ssi s) ++
  cond 24 (u_setup_called_party_extension s) ++
  options [some (u_setup_external_subscriber_number s); some (u_setup_facility s); some (u_setup_dm_ms_address s); some (u_setup_proprietary s)]
    (t3 2 (u_setup_external_subscriber_number s) ++
     t3 3 (u_setup_facility s) ++
     t3 6 (u_setup_dm_ms_address s) ++
     t3 15 (u_setup_proprietary s)).
Definition u_setup_valid (s : u_setup) : bool :=
  fit 4 (u_setup_area_selection s) &&
  bsi_valid (u_setup_basic_service_information s) &&
  fit 4 (u_setup_call_priority s) &&
  fit 2 (u_setup_clir_control s) &&
  fit 2 (u_setup_called_party_type_identifier s) &&
  Bool.eqb (some (u_setup_called_party_short_number_address s)) ((u_setup_called_party_type_identifier s) =? 0) && fito 8 (u_setup_called_party_short_number_address s) &&
  Bool.eqb (some (u_setup_called_party_ssi s)) (((u_setup_called_party_type_identifier s) =? 1) || ((u_setup_called_party_type_identifier s) =? 2)) && fito 24 (u_setup_called_party_ssi s) &&
  Bool.eqb (some (u_setup_called_party_extension s)) ((u_setup_called_party_type_identifier s) =? 2) && fito 24 (u_setup_called_party_extension s) &&
  fit3 2 (u_setup_external_subscriber_number s) &&
  fit3 3 (u_setup_facility s) &&
  fit3 6 (u_setup_dm_ms_address s) &&
  fit3 15 (u_setup_proprietary s).

(** U-STATUS, PDU type 8 *)
Definition u_status_wire (s : u_status) : list bool :=
  num 5 8 ++
  num 4 (u_status_area_selection s) ++
  num 2 (u_status_called_party_type_identifier s) ++
  cond 8 (u_status_called_party_short_number_address s) ++
  cond 24 (u_status_called_party_ssi s) ++
  cond 24 (u_status_called_party_extension s) ++
  pcs_bits (u_status_pre_coded_status s) ++
  options [some (u_status_external_subscriber_number s); some (u_status_dm_ms_address s)]
    (t3 2 (u_status_external_subscriber_number s) ++
     t3 6 (u_status_dm_ms_address s)).
Definition u_status_valid (s : u_status) : bool :=
  fit 4 (u_status_area_selection s) &&
  fit 2 (u_status_called_party_type_identifier s) &&
  Bool.eqb (some (u_status_called_party_short_number_address s)) ((u_status_called_party_type_identifier s) =? 0) && fito 8 (u_status_called_party_short_number_address s) &&
  Bool.eqb (some (u_status_called_party_ssi s)) (((u_status_called_party_type_identifier s) =? 1) || ((u_status_called_party_type_identifier s) =? 2)) && fito 24 (u_status_called_party_ssi s) &&
  Bool.eqb (some (u_status_called_party_extension s)) ((u_status_called_party_type_identifier s) =? 2) && fito 24 (u_status_called_party_extension s) &&
  pcs_valid (u_status_pre_coded_status s) &&
  fit3 2 (u_status_external_subscriber_number s) &&
  fit3 6 (u_status_dm_ms_address s).

(** U-TX-CEASED, PDU type 9 *)
Definition u_tx_ceased_wire (s : u_tx_ceased) : list bool :=
  num 5 9 ++
  num 14 (u_tx_ceased_call_identifier s) ++
  options [some (u_tx_ceased_facility s); some (u_tx_ceased_dm_ms_address s); some (u_tx_ceased_proprietary s)]
    (t3 3 (u_tx_ceased_facility s) ++
     t3 6 (u_tx_ceased_dm_ms_address s) ++
     t3 15 (u_tx_ceased_proprietary s)).
Definition u_tx_ceased_valid (s : u_tx_ceased) : bool :=
  fit 14 (u_tx_ceased_call_identifier s) &&
  fit3 3 (u_tx_ceased_facility s) &&
  fit3 6 (u_tx_ceased_dm_ms_address s) &&
  fit3 15 (u_tx_ceased_proprietary s).

(** U-TX-DEMAND, PDU type 10 *)
Definition u_tx_demand_wire (s : u_tx_demand) : list bool :=
  num 5 10 ++
  num 14 (u_tx_demand_call_identifier s) ++
  num 2 (u_tx_demand_tx_demand_priority s) ++
  flag (u_tx_demand_encryption_control s) ++
  flag (u_tx_demand_reserved s) ++
  options [some (u_tx_demand_facility s); some (u_tx_demand_dm_ms_address s); some (u_tx_demand_proprietary s)]
    (t3 3 (u_tx_demand_facility s) ++
     t3 6 (u_tx_demand_dm_ms_address s) ++
     t3 15 (u_tx_demand_proprietary s)).
Definition u_tx_demand_valid (s : u_tx_demand) : bool :=
  fit 14 (u_tx_demand_call_identifier s) &&
  fit 2 (u_tx_demand_tx_demand_priority s) &&
  fit3 3 (u_tx_demand_facility s) &&
  fit3 6 (u_tx_demand_dm_ms_address s) &&
  fit3 15 (u_tx_demand_proprietary s).

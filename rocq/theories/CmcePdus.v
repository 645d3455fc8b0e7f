(** Model of the CMCE PDUs: crates/tetra-pdus/src/cmce/pdus/*.rs.
    One record, one reader ([from_bitbuf]) and one writer ([to_bitbuf]) per PDU, statement by statement.
    [read_field(1)? != 0] is [rflag]; casts to the type of a field are dropped where the field is not wider than
    the type; enumerations by raw value as explained in CmceFields.v; field names carry the PDU's name. *)
From Verif Require Import Base BitBuffer Codec TypedFields CmceFields.
Open Scope N_scope.

(** [x == Some(v)] *)
Definition opt_is (x : option N) (v : N) : bool := match x with Some y => y =? v | None => false end.

(** ** cmce_function_not_supported.rs *)

(** cmce_function_not_supported.rs:19-32 *)
Record cmce_function_not_supported := mk_cmce_function_not_supported {
  cmce_function_not_supported_not_supported_pdu_type : N;
  cmce_function_not_supported_call_identifier_present : bool;
  cmce_function_not_supported_call_identifier : option N;
  cmce_function_not_supported_function_not_supported_pointer : N;
  cmce_function_not_supported_length_of_received_pdu_extract : option N;
  cmce_function_not_supported_received_pdu_extract : option N }.

(** cmce_function_not_supported.rs:37-84 *)
Definition cmce_function_not_supported_from_bitbuf : reader cmce_function_not_supported :=
  pdu_type <~ rfield 5 ;;
  rguard (pdu_type =? Dl_CmceFunctionNotSupported) EInvalidPduType ;~
  not_supported_pdu_type <~ rfield 5 ;;
  call_identifier_present <~ rflag ;;
  call_identifier <~ ropt call_identifier_present (rfield 14) ;;
  function_not_supported_pointer <~ rfield 8 ;;
  length_of_received_pdu_extract <~ ropt (negb (function_not_supported_pointer =? 0)) (rfield 8) ;;
  received_pdu_extract <~ (if negb (function_not_supported_pointer =? 0) then rpanic else rret None) ;;
  obit <~ read_obit ;;
  read_trailing obit ;~
  rret (mk_cmce_function_not_supported not_supported_pdu_type call_identifier_present call_identifier function_not_supported_pointer length_of_received_pdu_extract received_pdu_extract).

(** cmce_function_not_supported.rs:87-112 *)
Definition cmce_function_not_supported_to_bitbuf (s : cmce_function_not_supported) : wr :=
  wfield Dl_CmceFunctionNotSupported 5 >>
  wfield (cmce_function_not_supported_not_supported_pdu_type s) 5 >>
  wflag (cmce_function_not_supported_call_identifier_present s) >>
  wopt (cmce_function_not_supported_call_identifier s) (fun value => wfield value 14) >>
  wfield (cmce_function_not_supported_function_not_supported_pointer s) 8 >>
  wopt (cmce_function_not_supported_length_of_received_pdu_extract s) (fun value => wfield value 8) >>
  wopt (cmce_function_not_supported_received_pdu_extract s) (fun _ => wpanic) >>
  write_mbit 0.

(** ** d_alert.rs *)

(** d_alert.rs:16-35 *)
Record d_alert := mk_d_alert {
  d_alert_call_identifier : N;
  d_alert_call_time_out_set_up_phase : N;
  d_alert_reserved : bool;
  d_alert_simplex_duplex_selection : bool;
  d_alert_call_queued : bool;
  d_alert_basic_service_information : option bsi;
  d_alert_notification_indicator : option N;
  d_alert_facility : option type3_generic;
  d_alert_proprietary : option type3_generic }.

(** d_alert.rs:40-87 *)
Definition d_alert_from_bitbuf : reader d_alert :=
  pdu_type <~ rfield 5 ;;
  rguard (pdu_type =? Dl_DAlert) EInvalidPduType ;~
  call_identifier <~ rfield 14 ;;
  call_time_out_set_up_phase <~ rfield 3 ;;
  reserved <~ rflag ;;
  simplex_duplex_selection <~ rflag ;;
  call_queued <~ rflag ;;
  obit <~ read_obit ;;
  basic_service_information <~ parse_type2_struct obit bsi_from_bitbuf ;;
  notification_indicator <~ parse_type2_generic obit 6 ;;
  facility <~ parse_type3_generic obit Cmce_Facility ;;
  proprietary <~ parse_type3_generic obit Cmce_Proprietary ;;
  read_trailing obit ;~
  rret (mk_d_alert call_identifier call_time_out_set_up_phase reserved simplex_duplex_selection call_queued basic_service_information notification_indicator facility proprietary).

(** d_alert.rs:90-129 *)
Definition d_alert_to_bitbuf (s : d_alert) : wr :=
  wfield Dl_DAlert 5 >>
  wfield (d_alert_call_identifier s) 14 >>
  wfield (d_alert_call_time_out_set_up_phase s) 3 >>
  wflag (d_alert_reserved s) >>
  wflag (d_alert_simplex_duplex_selection s) >>
  wflag (d_alert_call_queued s) >>
  let obit := (is_some (d_alert_basic_service_information s) || is_some (d_alert_notification_indicator s) || is_some (d_alert_facility s) || is_some (d_alert_proprietary s))%bool in
  write_obit (N.b2n obit) >>
  (if negb obit then wret else
    write_type2_struct obit (d_alert_basic_service_information s) bsi_to_bitbuf >>
    write_type2_generic obit (d_alert_notification_indicator s) 6 >>
    write_type3_generic obit (d_alert_facility s) Cmce_Facility >>
    write_type3_generic obit (d_alert_proprietary s) Cmce_Proprietary >>
    write_mbit 0).

(** ** d_call_proceeding.rs *)

(** d_call_proceeding.rs:17-36 *)
Record d_call_proceeding := mk_d_call_proceeding {
  d_call_proceeding_call_identifier : N;
  d_call_proceeding_call_time_out_set_up_phase : N;
  d_call_proceeding_hook_method_selection : bool;
  d_call_proceeding_simplex_duplex_selection : bool;
  d_call_proceeding_basic_service_information : option bsi;
  d_call_proceeding_call_status : option N;
  d_call_proceeding_notification_indicator : option N;
  d_call_proceeding_facility : option type3_generic;
  d_call_proceeding_proprietary : option type3_generic }.

(** d_call_proceeding.rs:41-97 *)
Definition d_call_proceeding_from_bitbuf : reader d_call_proceeding :=
  pdu_type <~ rfield 5 ;;
  rguard (pdu_type =? Dl_DCallProceeding) EInvalidPduType ;~
  call_identifier <~ rfield 14 ;;
  call_time_out_set_up_phase <~ rfield 3 ;;
  hook_method_selection <~ rflag ;;
  simplex_duplex_selection <~ rflag ;;
  obit <~ read_obit ;;
  basic_service_information <~ parse_type2_struct obit bsi_from_bitbuf ;;
  val <~ parse_type2_generic obit 3 ;;
  call_status <~ r_try_opt call_status_try_from val ;;
  notification_indicator <~ parse_type2_generic obit 6 ;;
  facility <~ parse_type3_generic obit Cmce_Facility ;;
  proprietary <~ parse_type3_generic obit Cmce_Proprietary ;;
  read_trailing obit ;~
  rret (mk_d_call_proceeding call_identifier call_time_out_set_up_phase hook_method_selection simplex_duplex_selection basic_service_information call_status notification_indicator facility proprietary).

(** d_call_proceeding.rs:100-141 *)
Definition d_call_proceeding_to_bitbuf (s : d_call_proceeding) : wr :=
  wfield Dl_DCallProceeding 5 >>
  wfield (d_call_proceeding_call_identifier s) 14 >>
  wfield (d_call_proceeding_call_time_out_set_up_phase s) 3 >>
  wflag (d_call_proceeding_hook_method_selection s) >>
  wflag (d_call_proceeding_simplex_duplex_selection s) >>
  let obit := (is_some (d_call_proceeding_basic_service_information s) || is_some (d_call_proceeding_call_status s) || is_some (d_call_proceeding_notification_indicator s) || is_some (d_call_proceeding_facility s) || is_some (d_call_proceeding_proprietary s))%bool in
  write_obit (N.b2n obit) >>
  (if negb obit then wret else
    write_type2_struct obit (d_call_proceeding_basic_service_information s) bsi_to_bitbuf >>
    write_type2_generic obit (d_call_proceeding_call_status s) 3 >>
    write_type2_generic obit (d_call_proceeding_notification_indicator s) 6 >>
    write_type3_generic obit (d_call_proceeding_facility s) Cmce_Facility >>
    write_type3_generic obit (d_call_proceeding_proprietary s) Cmce_Proprietary >>
    write_mbit 0).

(** ** d_call_restore.rs *)

(** d_call_restore.rs:13-41 *)
Record d_call_restore := mk_d_call_restore {
  d_call_restore_call_identifier : N;
  d_call_restore_transmission_grant : N;
  d_call_restore_transmission_request_permission : bool;
  d_call_restore_reset_call_time_out_timer_t310_ : bool;
  d_call_restore_new_call_identifier : option N;
  d_call_restore_call_time_out : option N;
  d_call_restore_call_status : option N;
  d_call_restore_modify : option N;
  d_call_restore_notification_indicator : option N;
  d_call_restore_facility : option type3_generic;
  d_call_restore_temporary_address : option type3_generic;
  d_call_restore_dm_ms_address : option type3_generic;
  d_call_restore_proprietary : option type3_generic }.

(** d_call_restore.rs:46-103 *)
Definition d_call_restore_from_bitbuf : reader d_call_restore :=
  pdu_type <~ rfield 5 ;;
  rguard (pdu_type =? Dl_DCallRestore) EInvalidPduType ;~
  call_identifier <~ rfield 14 ;;
  transmission_grant <~ rfield 2 ;;
  transmission_request_permission <~ rflag ;;
  reset_call_time_out_timer_t310_ <~ rflag ;;
  obit <~ read_obit ;;
  new_call_identifier <~ parse_type2_generic obit 14 ;;
  call_time_out <~ parse_type2_generic obit 4 ;;
  call_status <~ parse_type2_generic obit 3 ;;
  modify <~ parse_type2_generic obit 9 ;;
  notification_indicator <~ parse_type2_generic obit 6 ;;
  facility <~ parse_type3_generic obit Cmce_Facility ;;
  temporary_address <~ parse_type3_generic obit Cmce_TempAddr ;;
  dm_ms_address <~ parse_type3_generic obit Cmce_DmMsAddr ;;
  proprietary <~ parse_type3_generic obit Cmce_Proprietary ;;
  read_trailing obit ;~
  rret (mk_d_call_restore call_identifier transmission_grant transmission_request_permission reset_call_time_out_timer_t310_ new_call_identifier call_time_out call_status modify notification_indicator facility temporary_address dm_ms_address proprietary).

(** d_call_restore.rs:106-163 *)
Definition d_call_restore_to_bitbuf (s : d_call_restore) : wr :=
  wfield Dl_DCallRestore 5 >>
  wfield (d_call_restore_call_identifier s) 14 >>
  wfield (d_call_restore_transmission_grant s) 2 >>
  wflag (d_call_restore_transmission_request_permission s) >>
  wflag (d_call_restore_reset_call_time_out_timer_t310_ s) >>
  let obit := (is_some (d_call_restore_new_call_identifier s) || is_some (d_call_restore_call_time_out s) || is_some (d_call_restore_call_status s) || is_some (d_call_restore_modify s) || is_some (d_call_restore_notification_indicator s) || is_some (d_call_restore_facility s) || is_some (d_call_restore_temporary_address s) || is_some (d_call_restore_dm_ms_address s) || is_some (d_call_restore_proprietary s))%bool in
  write_obit (N.b2n obit) >>
  (if negb obit then wret else
    write_type2_generic obit (d_call_restore_new_call_identifier s) 14 >>
    write_type2_generic obit (d_call_restore_call_time_out s) 4 >>
    write_type2_generic obit (d_call_restore_call_status s) 3 >>
    write_type2_generic obit (d_call_restore_modify s) 9 >>
    write_type2_generic obit (d_call_restore_notification_indicator s) 6 >>
    write_type3_generic obit (d_call_restore_facility s) Cmce_Facility >>
    write_type3_generic obit (d_call_restore_temporary_address s) Cmce_TempAddr >>
    write_type3_generic obit (d_call_restore_dm_ms_address s) Cmce_DmMsAddr >>
    write_type3_generic obit (d_call_restore_proprietary s) Cmce_Proprietary >>
    write_mbit 0).

(** ** d_connect.rs *)

(** d_connect.rs:17-45 *)
Record d_connect := mk_d_connect {
  d_connect_call_identifier : N;
  d_connect_call_time_out : N;
  d_connect_hook_method_selection : bool;
  d_connect_simplex_duplex_selection : bool;
  d_connect_transmission_grant : N;
  d_connect_transmission_request_permission : bool;
  d_connect_call_ownership : bool;
  d_connect_call_priority : option N;
  d_connect_basic_service_information : option bsi;
  d_connect_temporary_address : option N;
  d_connect_notification_indicator : option N;
  d_connect_facility : option type3_generic;
  d_connect_proprietary : option type3_generic }.

(** d_connect.rs:50-112 *)
Definition d_connect_from_bitbuf : reader d_connect :=
  pdu_type <~ rfield 5 ;;
  rguard (pdu_type =? Dl_DConnect) EInvalidPduType ;~
  call_identifier <~ rfield 14 ;;
  call_time_out <~ rfield 4 ;;
  hook_method_selection <~ rflag ;;
  simplex_duplex_selection <~ rflag ;;
  transmission_grant <~ rfield 2 ;;
  transmission_request_permission <~ rflag ;;
  call_ownership <~ rflag ;;
  obit <~ read_obit ;;
  call_priority <~ parse_type2_generic obit 4 ;;
  basic_service_information <~ parse_type2_struct obit bsi_from_bitbuf ;;
  temporary_address <~ parse_type2_generic obit 24 ;;
  notification_indicator <~ parse_type2_generic obit 6 ;;
  facility <~ parse_type3_generic obit Cmce_Facility ;;
  proprietary <~ parse_type3_generic obit Cmce_Proprietary ;;
  read_trailing obit ;~
  rret (mk_d_connect call_identifier call_time_out hook_method_selection simplex_duplex_selection transmission_grant transmission_request_permission call_ownership call_priority basic_service_information temporary_address notification_indicator facility proprietary).

(** d_connect.rs:115-166 *)
Definition d_connect_to_bitbuf (s : d_connect) : wr :=
  wfield Dl_DConnect 5 >>
  wfield (d_connect_call_identifier s) 14 >>
  wfield (d_connect_call_time_out s) 4 >>
  wflag (d_connect_hook_method_selection s) >>
  wflag (d_connect_simplex_duplex_selection s) >>
  wfield (d_connect_transmission_grant s) 2 >>
  wflag (d_connect_transmission_request_permission s) >>
  wflag (d_connect_call_ownership s) >>
  let obit := (is_some (d_connect_call_priority s) || is_some (d_connect_basic_service_information s) || is_some (d_connect_temporary_address s) || is_some (d_connect_notification_indicator s) || is_some (d_connect_facility s) || is_some (d_connect_proprietary s))%bool in
  write_obit (N.b2n obit) >>
  (if negb obit then wret else
    write_type2_generic obit (d_connect_call_priority s) 4 >>
    write_type2_struct obit (d_connect_basic_service_information s) bsi_to_bitbuf >>
    write_type2_generic obit (d_connect_temporary_address s) 24 >>
    write_type2_generic obit (d_connect_notification_indicator s) 6 >>
    write_type3_generic obit (d_connect_facility s) Cmce_Facility >>
    write_type3_generic obit (d_connect_proprietary s) Cmce_Proprietary >>
    write_mbit 0).

(** ** d_connect_acknowledge.rs *)

(** d_connect_acknowledge.rs:13-29 *)
Record d_connect_acknowledge := mk_d_connect_acknowledge {
  d_connect_acknowledge_call_identifier : N;
  d_connect_acknowledge_call_time_out : N;
  d_connect_acknowledge_transmission_grant : N;
  d_connect_acknowledge_transmission_request_permission : bool;
  d_connect_acknowledge_notification_indicator : option N;
  d_connect_acknowledge_facility : option type3_generic;
  d_connect_acknowledge_proprietary : option type3_generic }.

(** d_connect_acknowledge.rs:34-74 *)
Definition d_connect_acknowledge_from_bitbuf : reader d_connect_acknowledge :=
  pdu_type <~ rfield 5 ;;
  rguard (pdu_type =? Dl_DConnectAcknowledge) EInvalidPduType ;~
  call_identifier <~ rfield 14 ;;
  call_time_out <~ rfield 4 ;;
  transmission_grant <~ rfield 2 ;;
  transmission_request_permission <~ rflag ;;
  obit <~ read_obit ;;
  notification_indicator <~ parse_type2_generic obit 6 ;;
  facility <~ parse_type3_generic obit Cmce_Facility ;;
  proprietary <~ parse_type3_generic obit Cmce_Proprietary ;;
  read_trailing obit ;~
  rret (mk_d_connect_acknowledge call_identifier call_time_out transmission_grant transmission_request_permission notification_indicator facility proprietary).

(** d_connect_acknowledge.rs:77-108 *)
Definition d_connect_acknowledge_to_bitbuf (s : d_connect_acknowledge) : wr :=
  wfield Dl_DConnectAcknowledge 5 >>
  wfield (d_connect_acknowledge_call_identifier s) 14 >>
  wfield (d_connect_acknowledge_call_time_out s) 4 >>
  wfield (d_connect_acknowledge_transmission_grant s) 2 >>
  wflag (d_connect_acknowledge_transmission_request_permission s) >>
  let obit := (is_some (d_connect_acknowledge_notification_indicator s) || is_some (d_connect_acknowledge_facility s) || is_some (d_connect_acknowledge_proprietary s))%bool in
  write_obit (N.b2n obit) >>
  (if negb obit then wret else
    write_type2_generic obit (d_connect_acknowledge_notification_indicator s) 6 >>
    write_type3_generic obit (d_connect_acknowledge_facility s) Cmce_Facility >>
    write_type3_generic obit (d_connect_acknowledge_proprietary s) Cmce_Proprietary >>
    write_mbit 0).

(** ** d_disconnect.rs *)

(** d_disconnect.rs:14-25 *)
Record d_disconnect := mk_d_disconnect {
  d_disconnect_call_identifier : N;
  d_disconnect_disconnect_cause : N;
  d_disconnect_notification_indicator : option N;
  d_disconnect_facility : option type3_generic;
  d_disconnect_proprietary : option type3_generic }.

(** d_disconnect.rs:30-69 *)
Definition d_disconnect_from_bitbuf : reader d_disconnect :=
  pdu_type <~ rfield 5 ;;
  rguard (pdu_type =? Dl_DDisconnect) EInvalidPduType ;~
  rassert (pdu_type =? Dl_DDisconnect) ;~
  call_identifier <~ rfield 14 ;;
  val <~ rfield 5 ;;
  disconnect_cause <~ r_try (disconnect_cause_try_from val) ;;
  obit <~ read_obit ;;
  notification_indicator <~ parse_type2_generic obit 6 ;;
  facility <~ parse_type3_generic obit Cmce_Facility ;;
  proprietary <~ parse_type3_generic obit Cmce_Proprietary ;;
  read_trailing obit ;~
  rret (mk_d_disconnect call_identifier disconnect_cause notification_indicator facility proprietary).

(** d_disconnect.rs:72-99 *)
Definition d_disconnect_to_bitbuf (s : d_disconnect) : wr :=
  wfield Dl_DDisconnect 5 >>
  wfield (d_disconnect_call_identifier s) 14 >>
  wfield (d_disconnect_disconnect_cause s) 5 >>
  let obit := (is_some (d_disconnect_notification_indicator s) || is_some (d_disconnect_facility s) || is_some (d_disconnect_proprietary s))%bool in
  write_obit (N.b2n obit) >>
  (if negb obit then wret else
    write_type2_generic obit (d_disconnect_notification_indicator s) 6 >>
    write_type3_generic obit (d_disconnect_facility s) Cmce_Facility >>
    write_type3_generic obit (d_disconnect_proprietary s) Cmce_Proprietary >>
    write_mbit 0).

(** ** d_facility.rs *)

(** d_facility.rs:14-14 *)
Record d_facility := mk_d_facility { }.

(** d_facility.rs:19-33 *)
Definition d_facility_from_bitbuf : reader d_facility :=
  pdu_type <~ rfield 5 ;;
  rguard (pdu_type =? Dl_DFacility) EInvalidPduType ;~
  obit <~ read_obit ;;
  read_trailing obit ;~
  rret mk_d_facility.

(** d_facility.rs:36-42 *)
Definition d_facility_to_bitbuf (s : d_facility) : wr :=
  wfield Dl_DFacility 5 >>
  write_mbit 0.

(** ** d_info.rs *)

(** d_info.rs:16-51 *)
Record d_info := mk_d_info {
  d_info_call_identifier : N;
  d_info_reset_call_time_out_timer_t310_ : bool;
  d_info_poll_request : bool;
  d_info_new_call_identifier : option N;
  d_info_call_time_out : option N;
  d_info_call_time_out_set_up_phase_t301_t302_ : option N;
  d_info_call_ownership : option N;
  d_info_modify : option N;
  d_info_call_status : option N;
  d_info_temporary_address : option N;
  d_info_notification_indicator : option N;
  d_info_poll_response_percentage : option N;
  d_info_poll_response_number : option N;
  d_info_dtmf : option type3_generic;
  d_info_facility : option type3_generic;
  d_info_poll_response_addresses : option type3_generic;
  d_info_proprietary : option type3_generic }.

(** d_info.rs:56-128 *)
Definition d_info_from_bitbuf : reader d_info :=
  pdu_type <~ rfield 5 ;;
  rguard (pdu_type =? Dl_DInfo) EInvalidPduType ;~
  call_identifier <~ rfield 14 ;;
  reset_call_time_out_timer_t310_ <~ rflag ;;
  poll_request <~ rflag ;;
  obit <~ read_obit ;;
  new_call_identifier <~ parse_type2_generic obit 14 ;;
  call_time_out <~ parse_type2_generic obit 4 ;;
  call_time_out_set_up_phase_t301_t302_ <~ parse_type2_generic obit 3 ;;
  call_ownership <~ parse_type2_generic obit 1 ;;
  modify <~ parse_type2_generic obit 9 ;;
  call_status <~ parse_type2_generic obit 3 ;;
  temporary_address <~ parse_type2_generic obit 24 ;;
  notification_indicator <~ parse_type2_generic obit 6 ;;
  poll_response_percentage <~ parse_type2_generic obit 6 ;;
  poll_response_number <~ parse_type2_generic obit 6 ;;
  dtmf <~ parse_type3_generic obit Cmce_Dtmf ;;
  facility <~ parse_type3_generic obit Cmce_Facility ;;
  poll_response_addresses <~ parse_type3_generic obit Cmce_PollResponseAddr ;;
  proprietary <~ parse_type3_generic obit Cmce_Proprietary ;;
  read_trailing obit ;~
  rret (mk_d_info call_identifier reset_call_time_out_timer_t310_ poll_request new_call_identifier call_time_out call_time_out_set_up_phase_t301_t302_ call_ownership modify call_status temporary_address notification_indicator poll_response_percentage poll_response_number dtmf facility poll_response_addresses proprietary).

(** d_info.rs:131-205 *)
Definition d_info_to_bitbuf (s : d_info) : wr :=
  wfield Dl_DInfo 5 >>
  wfield (d_info_call_identifier s) 14 >>
  wflag (d_info_reset_call_time_out_timer_t310_ s) >>
  wflag (d_info_poll_request s) >>
  let obit := (is_some (d_info_new_call_identifier s) || is_some (d_info_call_time_out s) || is_some (d_info_call_time_out_set_up_phase_t301_t302_ s) || is_some (d_info_call_ownership s) || is_some (d_info_modify s) || is_some (d_info_call_status s) || is_some (d_info_temporary_address s) || is_some (d_info_notification_indicator s) || is_some (d_info_poll_response_percentage s) || is_some (d_info_poll_response_number s) || is_some (d_info_dtmf s) || is_some (d_info_facility s) || is_some (d_info_poll_response_addresses s) || is_some (d_info_proprietary s))%bool in
  write_obit (N.b2n obit) >>
  (if negb obit then wret else
    write_type2_generic obit (d_info_new_call_identifier s) 14 >>
    write_type2_generic obit (d_info_call_time_out s) 4 >>
    write_type2_generic obit (d_info_call_time_out_set_up_phase_t301_t302_ s) 3 >>
    write_type2_generic obit (d_info_call_ownership s) 1 >>
    write_type2_generic obit (d_info_modify s) 9 >>
    write_type2_generic obit (d_info_call_status s) 3 >>
    write_type2_generic obit (d_info_temporary_address s) 24 >>
    write_type2_generic obit (d_info_notification_indicator s) 6 >>
    write_type2_generic obit (d_info_poll_response_percentage s) 6 >>
    write_type2_generic obit (d_info_poll_response_number s) 6 >>
    write_type3_generic obit (d_info_dtmf s) Cmce_Dtmf >>
    write_type3_generic obit (d_info_facility s) Cmce_Facility >>
    write_type3_generic obit (d_info_poll_response_addresses s) Cmce_PollResponseAddr >>
    write_type3_generic obit (d_info_proprietary s) Cmce_Proprietary >>
    write_mbit 0).

(** ** d_release.rs *)

(** d_release.rs:14-25 *)
Record d_release := mk_d_release {
  d_release_call_identifier : N;
  d_release_disconnect_cause : N;
  d_release_notification_indicator : option N;
  d_release_facility : option type3_generic;
  d_release_proprietary : option type3_generic }.

(** d_release.rs:30-69 *)
Definition d_release_from_bitbuf : reader d_release :=
  pdu_type <~ rfield 5 ;;
  rguard (pdu_type =? Dl_DRelease) EInvalidPduType ;~
  call_identifier <~ rfield 14 ;;
  val <~ rfield 5 ;;
  disconnect_cause <~ r_try (disconnect_cause_try_from val) ;;
  obit <~ read_obit ;;
  notification_indicator <~ parse_type2_generic obit 6 ;;
  facility <~ parse_type3_generic obit Cmce_Facility ;;
  proprietary <~ parse_type3_generic obit Cmce_Proprietary ;;
  read_trailing obit ;~
  rret (mk_d_release call_identifier disconnect_cause notification_indicator facility proprietary).

(** d_release.rs:72-99 *)
Definition d_release_to_bitbuf (s : d_release) : wr :=
  wfield Dl_DRelease 5 >>
  wfield (d_release_call_identifier s) 14 >>
  wfield (d_release_disconnect_cause s) 5 >>
  let obit := (is_some (d_release_notification_indicator s) || is_some (d_release_facility s) || is_some (d_release_proprietary s))%bool in
  write_obit (N.b2n obit) >>
  (if negb obit then wret else
    write_type2_generic obit (d_release_notification_indicator s) 6 >>
    write_type3_generic obit (d_release_facility s) Cmce_Facility >>
    write_type3_generic obit (d_release_proprietary s) Cmce_Proprietary >>
    write_mbit 0).

(** ** d_sds_data.rs *)

(** d_sds_data.rs:16-29 *)
Record d_sds_data := mk_d_sds_data {
  d_sds_data_calling_party_type_identifier : N;
  d_sds_data_calling_party_address_ssi : option N;
  d_sds_data_calling_party_extension : option N;
  d_sds_data_user_defined_data : sds_user_data;
  d_sds_data_external_subscriber_number : option type3_generic;
  d_sds_data_dm_ms_address : option type3_generic }.

(** d_sds_data.rs:33-100 *)
Definition d_sds_data_from_bitbuf : reader d_sds_data :=
  pdu_type <~ rfield 5 ;;
  rguard (pdu_type =? Dl_DSdsData) EInvalidPduType ;~
  calling_party_type_identifier <~ rfield 2 ;;
  calling_party_address_ssi <~ ropt ((calling_party_type_identifier =? Party_Ssi) || (calling_party_type_identifier =? Party_Tsi))%bool (rfield 24) ;;
  calling_party_extension <~ ropt (calling_party_type_identifier =? Party_Tsi) (rfield 24) ;;
  user_defined_data <~ sds_from_bitbuf ;;
  obit <~ read_obit ;;
  external_subscriber_number <~ parse_type3_generic obit Cmce_ExtSubscriberNum ;;
  dm_ms_address <~ parse_type3_generic obit Cmce_DmMsAddr ;;
  read_trailing obit ;~
  rret (mk_d_sds_data calling_party_type_identifier calling_party_address_ssi calling_party_extension user_defined_data external_subscriber_number dm_ms_address).

(** d_sds_data.rs:103-154 *)
Definition d_sds_data_to_bitbuf (s : d_sds_data) : wr :=
  wfield Dl_DSdsData 5 >>
  wfield (d_sds_data_calling_party_type_identifier s) 2 >>
  wopt (d_sds_data_calling_party_address_ssi s) (fun value => wfield value 24) >>
  wopt (d_sds_data_calling_party_extension s) (fun value => wfield value 24) >>
  sds_to_bitbuf (d_sds_data_user_defined_data s) >>
  let obit := (is_some (d_sds_data_external_subscriber_number s) || is_some (d_sds_data_dm_ms_address s))%bool in
  write_obit (N.b2n obit) >>
  (if negb obit then wret else
    write_type3_generic obit (d_sds_data_external_subscriber_number s) Cmce_ExtSubscriberNum >>
    write_type3_generic obit (d_sds_data_dm_ms_address s) Cmce_DmMsAddr >>
    write_mbit 0).

(** ** d_setup.rs *)

(** d_setup.rs:19-55 *)
Record d_setup := mk_d_setup {
  d_setup_call_identifier : N;
  d_setup_call_time_out : N;
  d_setup_hook_method_selection : bool;
  d_setup_simplex_duplex_selection : bool;
  d_setup_basic_service_information : bsi;
  d_setup_transmission_grant : N;
  d_setup_transmission_request_permission : bool;
  d_setup_call_priority : N;
  d_setup_notification_indicator : option N;
  d_setup_temporary_address : option N;
  d_setup_calling_party_address_ssi : option N;
  d_setup_calling_party_extension : option N;
  d_setup_external_subscriber_number : option type3_generic;
  d_setup_facility : option type3_generic;
  d_setup_dm_ms_address : option type3_generic;
  d_setup_proprietary : option type3_generic }.

(** d_setup.rs:60-143 *)
Definition d_setup_from_bitbuf : reader d_setup :=
  pdu_type <~ rfield 5 ;;
  rguard (pdu_type =? Dl_DSetup) EInvalidPduType ;~
  call_identifier <~ rfield 14 ;;
  call_time_out <~ rfield 4 ;;
  hook_method_selection <~ rflag ;;
  simplex_duplex_selection <~ rflag ;;
  basic_service_information <~ bsi_from_bitbuf ;;
  transmission_grant <~ rfield 2 ;;
  transmission_request_permission <~ rflag ;;
  call_priority <~ rfield 4 ;;
  obit <~ read_obit ;;
  notification_indicator <~ parse_type2_generic obit 6 ;;
  temporary_address <~ parse_type2_generic obit 24 ;;
  calling_party_type_identifier <~ parse_type2_generic obit 2 ;;
  calling_party_address_ssi <~ ropt ((obit && opt_is calling_party_type_identifier 1) || opt_is calling_party_type_identifier 2)%bool (rfield 24) ;;
  calling_party_extension <~ ropt (obit && opt_is calling_party_type_identifier 2)%bool (rfield 24) ;;
  external_subscriber_number <~ parse_type3_generic obit Cmce_ExtSubscriberNum ;;
  facility <~ parse_type3_generic obit Cmce_Facility ;;
  dm_ms_address <~ parse_type3_generic obit Cmce_DmMsAddr ;;
  proprietary <~ parse_type3_generic obit Cmce_Proprietary ;;
  read_trailing obit ;~
  rret (mk_d_setup call_identifier call_time_out hook_method_selection simplex_duplex_selection basic_service_information transmission_grant transmission_request_permission call_priority notification_indicator temporary_address calling_party_address_ssi calling_party_extension external_subscriber_number facility dm_ms_address proprietary).

(** d_setup.rs:146-222 *)
Definition d_setup_to_bitbuf (s : d_setup) : wr :=
  wfield Dl_DSetup 5 >>
  wfield (d_setup_call_identifier s) 14 >>
  wfield (d_setup_call_time_out s) 4 >>
  wflag (d_setup_hook_method_selection s) >>
  wflag (d_setup_simplex_duplex_selection s) >>
  bsi_to_bitbuf (d_setup_basic_service_information s) >>
  wfield (d_setup_transmission_grant s) 2 >>
  wflag (d_setup_transmission_request_permission s) >>
  wfield (d_setup_call_priority s) 4 >>
  let obit := (is_some (d_setup_notification_indicator s) || is_some (d_setup_temporary_address s) || is_some (d_setup_calling_party_address_ssi s) || is_some (d_setup_calling_party_extension s) || is_some (d_setup_external_subscriber_number s) || is_some (d_setup_facility s) || is_some (d_setup_dm_ms_address s) || is_some (d_setup_proprietary s))%bool in
  write_obit (N.b2n obit) >>
  (if negb obit then wret else
    write_type2_generic obit (d_setup_notification_indicator s) 6 >>
    write_type2_generic obit (d_setup_temporary_address s) 24 >>
    match d_setup_calling_party_address_ssi s, d_setup_calling_party_extension s with
      | None, None => write_type2_generic obit None 2
      | Some _, None => write_type2_generic obit (Some 1) 2
      | Some _, Some _ => write_type2_generic obit (Some 2) 2
      | None, Some _ => werr EInvalidValue
      end >>
    wopt (d_setup_calling_party_address_ssi s) (fun value => wfield value 24) >>
    wopt (d_setup_calling_party_extension s) (fun value => wfield value 24) >>
    write_type3_generic obit (d_setup_external_subscriber_number s) Cmce_ExtSubscriberNum >>
    write_type3_generic obit (d_setup_facility s) Cmce_Facility >>
    write_type3_generic obit (d_setup_dm_ms_address s) Cmce_DmMsAddr >>
    write_type3_generic obit (d_setup_proprietary s) Cmce_Proprietary >>
    write_mbit 0).

(** ** d_status.rs *)

(** d_status.rs:15-28 *)
Record d_status := mk_d_status {
  d_status_calling_party_type_identifier : N;
  d_status_calling_party_address_ssi : option N;
  d_status_calling_party_extension : option N;
  d_status_pre_coded_status : pre_coded_status;
  d_status_external_subscriber_number : option type3_generic;
  d_status_dm_ms_address : option type3_generic }.

(** d_status.rs:33-83 *)
Definition d_status_from_bitbuf : reader d_status :=
  pdu_type <~ rfield 5 ;;
  rguard (pdu_type =? Dl_DStatus) EInvalidPduType ;~
  calling_party_type_identifier <~ rfield 2 ;;
  calling_party_address_ssi <~ ropt ((calling_party_type_identifier =? Party_Ssi) || (calling_party_type_identifier =? Party_Tsi))%bool (rfield 24) ;;
  calling_party_extension <~ ropt (calling_party_type_identifier =? Party_Tsi) (rfield 24) ;;
  val <~ rfield 16 ;;
  pre_coded_status <~ rlift (pcs_from_u16 val) ;;
  obit <~ read_obit ;;
  external_subscriber_number <~ parse_type3_generic obit Cmce_ExtSubscriberNum ;;
  dm_ms_address <~ parse_type3_generic obit Cmce_DmMsAddr ;;
  read_trailing obit ;~
  rret (mk_d_status calling_party_type_identifier calling_party_address_ssi calling_party_extension pre_coded_status external_subscriber_number dm_ms_address).

(** d_status.rs:86-118 *)
Definition d_status_to_bitbuf (s : d_status) : wr :=
  wfield Dl_DStatus 5 >>
  wfield (d_status_calling_party_type_identifier s) 2 >>
  wopt (d_status_calling_party_address_ssi s) (fun value => wfield value 24) >>
  wopt (d_status_calling_party_extension s) (fun value => wfield value 24) >>
  pcs_write (d_status_pre_coded_status s) >>
  let obit := (is_some (d_status_external_subscriber_number s) || is_some (d_status_dm_ms_address s))%bool in
  write_obit (N.b2n obit) >>
  (if negb obit then wret else
    write_type3_generic obit (d_status_external_subscriber_number s) Cmce_ExtSubscriberNum >>
    write_type3_generic obit (d_status_dm_ms_address s) Cmce_DmMsAddr >>
    write_mbit 0).

(** ** d_tx_ceased.rs *)

(** d_tx_ceased.rs:13-27 *)
Record d_tx_ceased := mk_d_tx_ceased {
  d_tx_ceased_call_identifier : N;
  d_tx_ceased_transmission_request_permission : bool;
  d_tx_ceased_notification_indicator : option N;
  d_tx_ceased_facility : option type3_generic;
  d_tx_ceased_dm_ms_address : option type3_generic;
  d_tx_ceased_proprietary : option type3_generic }.

(** d_tx_ceased.rs:32-70 *)
Definition d_tx_ceased_from_bitbuf : reader d_tx_ceased :=
  pdu_type <~ rfield 5 ;;
  rguard (pdu_type =? Dl_DTxCeased) EInvalidPduType ;~
  call_identifier <~ rfield 14 ;;
  transmission_request_permission <~ rflag ;;
  obit <~ read_obit ;;
  notification_indicator <~ parse_type2_generic obit 6 ;;
  facility <~ parse_type3_generic obit Cmce_Facility ;;
  dm_ms_address <~ parse_type3_generic obit Cmce_DmMsAddr ;;
  proprietary <~ parse_type3_generic obit Cmce_Proprietary ;;
  read_trailing obit ;~
  rret (mk_d_tx_ceased call_identifier transmission_request_permission notification_indicator facility dm_ms_address proprietary).

(** d_tx_ceased.rs:73-104 *)
Definition d_tx_ceased_to_bitbuf (s : d_tx_ceased) : wr :=
  wfield Dl_DTxCeased 5 >>
  wfield (d_tx_ceased_call_identifier s) 14 >>
  wflag (d_tx_ceased_transmission_request_permission s) >>
  let obit := (is_some (d_tx_ceased_notification_indicator s) || is_some (d_tx_ceased_facility s) || is_some (d_tx_ceased_dm_ms_address s) || is_some (d_tx_ceased_proprietary s))%bool in
  write_obit (N.b2n obit) >>
  (if negb obit then wret else
    write_type2_generic obit (d_tx_ceased_notification_indicator s) 6 >>
    write_type3_generic obit (d_tx_ceased_facility s) Cmce_Facility >>
    write_type3_generic obit (d_tx_ceased_dm_ms_address s) Cmce_DmMsAddr >>
    write_type3_generic obit (d_tx_ceased_proprietary s) Cmce_Proprietary >>
    write_mbit 0).

(** ** d_tx_continue.rs *)

(** d_tx_continue.rs:13-29 *)
Record d_tx_continue := mk_d_tx_continue {
  d_tx_continue_call_identifier : N;
  d_tx_continue_do_continue : bool;
  d_tx_continue_transmission_request_permission : bool;
  d_tx_continue_notification_indicator : option N;
  d_tx_continue_facility : option type3_generic;
  d_tx_continue_dm_ms_address : option type3_generic;
  d_tx_continue_proprietary : option type3_generic }.

(** d_tx_continue.rs:34-75 *)
Definition d_tx_continue_from_bitbuf : reader d_tx_continue :=
  pdu_type <~ rfield 5 ;;
  rguard (pdu_type =? Dl_DTxContinue) EInvalidPduType ;~
  call_identifier <~ rfield 14 ;;
  do_continue <~ rflag ;;
  transmission_request_permission <~ rflag ;;
  obit <~ read_obit ;;
  notification_indicator <~ parse_type2_generic obit 6 ;;
  facility <~ parse_type3_generic obit Cmce_Facility ;;
  dm_ms_address <~ parse_type3_generic obit Cmce_DmMsAddr ;;
  proprietary <~ parse_type3_generic obit Cmce_Proprietary ;;
  read_trailing obit ;~
  rret (mk_d_tx_continue call_identifier do_continue transmission_request_permission notification_indicator facility dm_ms_address proprietary).

(** d_tx_continue.rs:78-111 *)
Definition d_tx_continue_to_bitbuf (s : d_tx_continue) : wr :=
  wfield Dl_DTxContinue 5 >>
  wfield (d_tx_continue_call_identifier s) 14 >>
  wflag (d_tx_continue_do_continue s) >>
  wflag (d_tx_continue_transmission_request_permission s) >>
  let obit := (is_some (d_tx_continue_notification_indicator s) || is_some (d_tx_continue_facility s) || is_some (d_tx_continue_dm_ms_address s) || is_some (d_tx_continue_proprietary s))%bool in
  write_obit (N.b2n obit) >>
  (if negb obit then wret else
    write_type2_generic obit (d_tx_continue_notification_indicator s) 6 >>
    write_type3_generic obit (d_tx_continue_facility s) Cmce_Facility >>
    write_type3_generic obit (d_tx_continue_dm_ms_address s) Cmce_DmMsAddr >>
    write_type3_generic obit (d_tx_continue_proprietary s) Cmce_Proprietary >>
    write_mbit 0).

(** ** d_tx_granted.rs *)

(** d_tx_granted.rs:15-43 *)
Record d_tx_granted := mk_d_tx_granted {
  d_tx_granted_call_identifier : N;
  d_tx_granted_transmission_grant : N;
  d_tx_granted_transmission_request_permission : bool;
  d_tx_granted_encryption_control : bool;
  d_tx_granted_reserved : bool;
  d_tx_granted_notification_indicator : option N;
  d_tx_granted_transmitting_party_type_identifier : option N;
  d_tx_granted_transmitting_party_address_ssi : option N;
  d_tx_granted_transmitting_party_extension : option N;
  d_tx_granted_external_subscriber_number : option type3_generic;
  d_tx_granted_facility : option type3_generic;
  d_tx_granted_dm_ms_address : option type3_generic;
  d_tx_granted_proprietary : option type3_generic }.

(** d_tx_granted.rs:48-117 *)
Definition d_tx_granted_from_bitbuf : reader d_tx_granted :=
  pdu_type <~ rfield 5 ;;
  rguard (pdu_type =? Dl_DTxGranted) EInvalidPduType ;~
  call_identifier <~ rfield 14 ;;
  transmission_grant <~ rfield 2 ;;
  transmission_request_permission <~ rflag ;;
  encryption_control <~ rflag ;;
  reserved <~ rflag ;;
  obit <~ read_obit ;;
  notification_indicator <~ parse_type2_generic obit 6 ;;
  transmitting_party_type_identifier <~ parse_type2_generic obit 2 ;;
  transmitting_party_address_ssi <~ ropt ((obit && opt_is transmitting_party_type_identifier 1) || opt_is transmitting_party_type_identifier 2)%bool (rfield 24) ;;
  transmitting_party_extension <~ ropt (obit && opt_is transmitting_party_type_identifier 2)%bool (rfield 24) ;;
  external_subscriber_number <~ parse_type3_generic obit Cmce_ExtSubscriberNum ;;
  facility <~ parse_type3_generic obit Cmce_Facility ;;
  dm_ms_address <~ parse_type3_generic obit Cmce_DmMsAddr ;;
  proprietary <~ parse_type3_generic obit Cmce_Proprietary ;;
  read_trailing obit ;~
  rret (mk_d_tx_granted call_identifier transmission_grant transmission_request_permission encryption_control reserved notification_indicator transmitting_party_type_identifier transmitting_party_address_ssi transmitting_party_extension external_subscriber_number facility dm_ms_address proprietary).

(** d_tx_granted.rs:120-176 *)
Definition d_tx_granted_to_bitbuf (s : d_tx_granted) : wr :=
  wfield Dl_DTxGranted 5 >>
  wfield (d_tx_granted_call_identifier s) 14 >>
  wfield (d_tx_granted_transmission_grant s) 2 >>
  wflag (d_tx_granted_transmission_request_permission s) >>
  wflag (d_tx_granted_encryption_control s) >>
  wflag (d_tx_granted_reserved s) >>
  let obit := (is_some (d_tx_granted_notification_indicator s) || is_some (d_tx_granted_transmitting_party_type_identifier s) || is_some (d_tx_granted_external_subscriber_number s) || is_some (d_tx_granted_facility s) || is_some (d_tx_granted_dm_ms_address s) || is_some (d_tx_granted_proprietary s))%bool in
  write_obit (N.b2n obit) >>
  (if negb obit then wret else
    write_type2_generic obit (d_tx_granted_notification_indicator s) 6 >>
    write_type2_generic obit (d_tx_granted_transmitting_party_type_identifier s) 2 >>
    wopt (d_tx_granted_transmitting_party_address_ssi s) (fun value => wfield value 24) >>
    wopt (d_tx_granted_transmitting_party_extension s) (fun value => wfield value 24) >>
    write_type3_generic obit (d_tx_granted_external_subscriber_number s) Cmce_ExtSubscriberNum >>
    write_type3_generic obit (d_tx_granted_facility s) Cmce_Facility >>
    write_type3_generic obit (d_tx_granted_dm_ms_address s) Cmce_DmMsAddr >>
    write_type3_generic obit (d_tx_granted_proprietary s) Cmce_Proprietary >>
    write_mbit 0).

(** ** d_tx_interrupt.rs *)

(** d_tx_interrupt.rs:15-43 *)
Record d_tx_interrupt := mk_d_tx_interrupt {
  d_tx_interrupt_call_identifier : N;
  d_tx_interrupt_transmission_grant : N;
  d_tx_interrupt_transmission_request_permission : bool;
  d_tx_interrupt_encryption_control : bool;
  d_tx_interrupt_reserved : bool;
  d_tx_interrupt_notification_indicator : option N;
  d_tx_interrupt_transmitting_party_type_identifier : option N;
  d_tx_interrupt_transmitting_party_address_ssi : option N;
  d_tx_interrupt_transmitting_party_extension : option N;
  d_tx_interrupt_external_subscriber_number : option type3_generic;
  d_tx_interrupt_facility : option type3_generic;
  d_tx_interrupt_dm_ms_address : option type3_generic;
  d_tx_interrupt_proprietary : option type3_generic }.

(** d_tx_interrupt.rs:48-108 *)
Definition d_tx_interrupt_from_bitbuf : reader d_tx_interrupt :=
  pdu_type <~ rfield 5 ;;
  rguard (pdu_type =? Dl_DTxInterrupt) EInvalidPduType ;~
  call_identifier <~ rfield 14 ;;
  transmission_grant <~ rfield 2 ;;
  transmission_request_permission <~ rflag ;;
  encryption_control <~ rflag ;;
  reserved <~ rflag ;;
  obit <~ read_obit ;;
  notification_indicator <~ parse_type2_generic obit 6 ;;
  transmitting_party_type_identifier <~ parse_type2_generic obit 2 ;;
  transmitting_party_address_ssi <~ parse_type2_generic obit 24 ;;
  transmitting_party_extension <~ parse_type2_generic obit 24 ;;
  external_subscriber_number <~ parse_type3_generic obit Cmce_ExtSubscriberNum ;;
  facility <~ parse_type3_generic obit Cmce_Facility ;;
  dm_ms_address <~ parse_type3_generic obit Cmce_DmMsAddr ;;
  proprietary <~ parse_type3_generic obit Cmce_Proprietary ;;
  read_trailing obit ;~
  rret (mk_d_tx_interrupt call_identifier transmission_grant transmission_request_permission encryption_control reserved notification_indicator transmitting_party_type_identifier transmitting_party_address_ssi transmitting_party_extension external_subscriber_number facility dm_ms_address proprietary).

(** d_tx_interrupt.rs:111-166 *)
Definition d_tx_interrupt_to_bitbuf (s : d_tx_interrupt) : wr :=
  wfield Dl_DTxInterrupt 5 >>
  wfield (d_tx_interrupt_call_identifier s) 14 >>
  wfield (d_tx_interrupt_transmission_grant s) 2 >>
  wflag (d_tx_interrupt_transmission_request_permission s) >>
  wflag (d_tx_interrupt_encryption_control s) >>
  wflag (d_tx_interrupt_reserved s) >>
  let obit := (is_some (d_tx_interrupt_notification_indicator s) || is_some (d_tx_interrupt_transmitting_party_type_identifier s) || is_some (d_tx_interrupt_transmitting_party_address_ssi s) || is_some (d_tx_interrupt_transmitting_party_extension s) || is_some (d_tx_interrupt_external_subscriber_number s) || is_some (d_tx_interrupt_facility s) || is_some (d_tx_interrupt_dm_ms_address s) || is_some (d_tx_interrupt_proprietary s))%bool in
  write_obit (N.b2n obit) >>
  (if negb obit then wret else
    write_type2_generic obit (d_tx_interrupt_notification_indicator s) 6 >>
    write_type2_generic obit (d_tx_interrupt_transmitting_party_type_identifier s) 2 >>
    write_type2_generic obit (d_tx_interrupt_transmitting_party_address_ssi s) 24 >>
    write_type2_generic obit (d_tx_interrupt_transmitting_party_extension s) 24 >>
    write_type3_generic obit (d_tx_interrupt_external_subscriber_number s) Cmce_ExtSubscriberNum >>
    write_type3_generic obit (d_tx_interrupt_facility s) Cmce_Facility >>
    write_type3_generic obit (d_tx_interrupt_dm_ms_address s) Cmce_DmMsAddr >>
    write_type3_generic obit (d_tx_interrupt_proprietary s) Cmce_Proprietary >>
    write_mbit 0).

(** ** d_tx_wait.rs *)

(** d_tx_wait.rs:13-27 *)
Record d_tx_wait := mk_d_tx_wait {
  d_tx_wait_call_identifier : N;
  d_tx_wait_transmission_request_permission : bool;
  d_tx_wait_notification_indicator : option N;
  d_tx_wait_facility : option type3_generic;
  d_tx_wait_dm_ms_address : option type3_generic;
  d_tx_wait_proprietary : option type3_generic }.

(** d_tx_wait.rs:32-70 *)
Definition d_tx_wait_from_bitbuf : reader d_tx_wait :=
  pdu_type <~ rfield 5 ;;
  rguard (pdu_type =? Dl_DTxWait) EInvalidPduType ;~
  call_identifier <~ rfield 14 ;;
  transmission_request_permission <~ rflag ;;
  obit <~ read_obit ;;
  notification_indicator <~ parse_type2_generic obit 6 ;;
  facility <~ parse_type3_generic obit Cmce_Facility ;;
  dm_ms_address <~ parse_type3_generic obit Cmce_DmMsAddr ;;
  proprietary <~ parse_type3_generic obit Cmce_Proprietary ;;
  read_trailing obit ;~
  rret (mk_d_tx_wait call_identifier transmission_request_permission notification_indicator facility dm_ms_address proprietary).

(** d_tx_wait.rs:73-104 *)
Definition d_tx_wait_to_bitbuf (s : d_tx_wait) : wr :=
  wfield Dl_DTxWait 5 >>
  wfield (d_tx_wait_call_identifier s) 14 >>
  wflag (d_tx_wait_transmission_request_permission s) >>
  let obit := (is_some (d_tx_wait_notification_indicator s) || is_some (d_tx_wait_facility s) || is_some (d_tx_wait_dm_ms_address s) || is_some (d_tx_wait_proprietary s))%bool in
  write_obit (N.b2n obit) >>
  (if negb obit then wret else
    write_type2_generic obit (d_tx_wait_notification_indicator s) 6 >>
    write_type3_generic obit (d_tx_wait_facility s) Cmce_Facility >>
    write_type3_generic obit (d_tx_wait_dm_ms_address s) Cmce_DmMsAddr >>
    write_type3_generic obit (d_tx_wait_proprietary s) Cmce_Proprietary >>
    write_mbit 0).

(** ** u_alert.rs *)

(** u_alert.rs:15-28 *)
Record u_alert := mk_u_alert {
  u_alert_call_identifier : N;
  u_alert_reserved : bool;
  u_alert_simplex_duplex_selection : bool;
  u_alert_basic_service_information : option bsi;
  u_alert_facility : option type3_generic;
  u_alert_proprietary : option type3_generic }.

(** u_alert.rs:33-70 *)
Definition u_alert_from_bitbuf : reader u_alert :=
  pdu_type <~ rfield 5 ;;
  rguard (pdu_type =? Ul_UAlert) EInvalidPduType ;~
  call_identifier <~ rfield 14 ;;
  reserved <~ rflag ;;
  simplex_duplex_selection <~ rflag ;;
  obit <~ read_obit ;;
  basic_service_information <~ parse_type2_struct obit bsi_from_bitbuf ;;
  facility <~ parse_type3_generic obit Cmce_Facility ;;
  proprietary <~ parse_type3_generic obit Cmce_Proprietary ;;
  read_trailing obit ;~
  rret (mk_u_alert call_identifier reserved simplex_duplex_selection basic_service_information facility proprietary).

(** u_alert.rs:73-102 *)
Definition u_alert_to_bitbuf (s : u_alert) : wr :=
  wfield Ul_UAlert 5 >>
  wfield (u_alert_call_identifier s) 14 >>
  wflag (u_alert_reserved s) >>
  wflag (u_alert_simplex_duplex_selection s) >>
  let obit := (is_some (u_alert_basic_service_information s) || is_some (u_alert_facility s) || is_some (u_alert_proprietary s))%bool in
  write_obit (N.b2n obit) >>
  (if negb obit then wret else
    write_type2_struct obit (u_alert_basic_service_information s) bsi_to_bitbuf >>
    write_type3_generic obit (u_alert_facility s) Cmce_Facility >>
    write_type3_generic obit (u_alert_proprietary s) Cmce_Proprietary >>
    write_mbit 0).

(** ** u_call_restore.rs *)

(** u_call_restore.rs:17-38 *)
Record u_call_restore := mk_u_call_restore {
  u_call_restore_call_identifier : N;
  u_call_restore_request_to_transmit_send_data : bool;
  u_call_restore_other_party_type_identifier : N;
  u_call_restore_other_party_short_number_address : option N;
  u_call_restore_other_party_ssi : option N;
  u_call_restore_other_party_extension : option N;
  u_call_restore_basic_service_information : option bsi;
  u_call_restore_facility : option type3_generic;
  u_call_restore_dm_ms_address : option type3_generic;
  u_call_restore_proprietary : option type3_generic }.

(** u_call_restore.rs:43-105 *)
Definition u_call_restore_from_bitbuf : reader u_call_restore :=
  pdu_type <~ rfield 5 ;;
  rguard (pdu_type =? Ul_UCallRestore) EInvalidPduType ;~
  call_identifier <~ rfield 14 ;;
  request_to_transmit_send_data <~ rflag ;;
  other_party_type_identifier <~ rfield 2 ;;
  other_party_short_number_address <~ ropt (other_party_type_identifier =? 0) (rfield 8) ;;
  other_party_ssi <~ ropt ((other_party_type_identifier =? 1) || (other_party_type_identifier =? 2))%bool (rfield 24) ;;
  other_party_extension <~ ropt (other_party_type_identifier =? 2) (rfield 24) ;;
  obit <~ read_obit ;;
  basic_service_information <~ parse_type2_struct obit bsi_from_bitbuf ;;
  facility <~ parse_type3_generic obit Cmce_Facility ;;
  dm_ms_address <~ parse_type3_generic obit Cmce_DmMsAddr ;;
  proprietary <~ parse_type3_generic obit Cmce_Proprietary ;;
  read_trailing obit ;~
  rret (mk_u_call_restore call_identifier request_to_transmit_send_data other_party_type_identifier other_party_short_number_address other_party_ssi other_party_extension basic_service_information facility dm_ms_address proprietary).

(** u_call_restore.rs:108-155 *)
Definition u_call_restore_to_bitbuf (s : u_call_restore) : wr :=
  wfield Ul_UCallRestore 5 >>
  wfield (u_call_restore_call_identifier s) 14 >>
  wflag (u_call_restore_request_to_transmit_send_data s) >>
  wfield (u_call_restore_other_party_type_identifier s) 2 >>
  wopt (u_call_restore_other_party_short_number_address s) (fun value => wfield value 8) >>
  wopt (u_call_restore_other_party_ssi s) (fun value => wfield value 24) >>
  wopt (u_call_restore_other_party_extension s) (fun value => wfield value 24) >>
  let obit := (is_some (u_call_restore_basic_service_information s) || is_some (u_call_restore_facility s) || is_some (u_call_restore_dm_ms_address s) || is_some (u_call_restore_proprietary s))%bool in
  write_obit (N.b2n obit) >>
  (if negb obit then wret else
    write_type2_struct obit (u_call_restore_basic_service_information s) bsi_to_bitbuf >>
    write_type3_generic obit (u_call_restore_facility s) Cmce_Facility >>
    write_type3_generic obit (u_call_restore_dm_ms_address s) Cmce_DmMsAddr >>
    write_type3_generic obit (u_call_restore_proprietary s) Cmce_Proprietary >>
    write_mbit 0).

(** ** u_connect.rs *)

(** u_connect.rs:14-27 *)
Record u_connect := mk_u_connect {
  u_connect_call_identifier : N;
  u_connect_hook_method_selection : bool;
  u_connect_simplex_duplex_selection : bool;
  u_connect_basic_service_information : option bsi;
  u_connect_facility : option type3_generic;
  u_connect_proprietary : option type3_generic }.

(** u_connect.rs:32-68 *)
Definition u_connect_from_bitbuf : reader u_connect :=
  pdu_type <~ rfield 5 ;;
  rguard (pdu_type =? Ul_UConnect) EInvalidPduType ;~
  call_identifier <~ rfield 14 ;;
  hook_method_selection <~ rflag ;;
  simplex_duplex_selection <~ rflag ;;
  obit <~ read_obit ;;
  basic_service_information <~ parse_type2_struct obit bsi_from_bitbuf ;;
  facility <~ parse_type3_generic obit Cmce_Facility ;;
  proprietary <~ parse_type3_generic obit Cmce_Proprietary ;;
  read_trailing obit ;~
  rret (mk_u_connect call_identifier hook_method_selection simplex_duplex_selection basic_service_information facility proprietary).

(** u_connect.rs:71-100 *)
Definition u_connect_to_bitbuf (s : u_connect) : wr :=
  wfield Ul_UConnect 5 >>
  wfield (u_connect_call_identifier s) 14 >>
  wflag (u_connect_hook_method_selection s) >>
  wflag (u_connect_simplex_duplex_selection s) >>
  let obit := (is_some (u_connect_basic_service_information s) || is_some (u_connect_facility s) || is_some (u_connect_proprietary s))%bool in
  write_obit (N.b2n obit) >>
  (if negb obit then wret else
    write_type2_struct obit (u_connect_basic_service_information s) bsi_to_bitbuf >>
    write_type3_generic obit (u_connect_facility s) Cmce_Facility >>
    write_type3_generic obit (u_connect_proprietary s) Cmce_Proprietary >>
    write_mbit 0).

(** ** u_disconnect.rs *)

(** u_disconnect.rs:14-23 *)
Record u_disconnect := mk_u_disconnect {
  u_disconnect_call_identifier : N;
  u_disconnect_disconnect_cause : N;
  u_disconnect_facility : option type3_generic;
  u_disconnect_proprietary : option type3_generic }.

(** u_disconnect.rs:28-62 *)
Definition u_disconnect_from_bitbuf : reader u_disconnect :=
  pdu_type <~ rfield 5 ;;
  rguard (pdu_type =? Ul_UDisconnect) EInvalidPduType ;~
  call_identifier <~ rfield 14 ;;
  val <~ rfield 5 ;;
  disconnect_cause <~ r_try (disconnect_cause_try_from val) ;;
  obit <~ read_obit ;;
  facility <~ parse_type3_generic obit Cmce_Facility ;;
  proprietary <~ parse_type3_generic obit Cmce_Proprietary ;;
  read_trailing obit ;~
  rret (mk_u_disconnect call_identifier disconnect_cause facility proprietary).

(** u_disconnect.rs:65-89 *)
Definition u_disconnect_to_bitbuf (s : u_disconnect) : wr :=
  wfield Ul_UDisconnect 5 >>
  wfield (u_disconnect_call_identifier s) 14 >>
  wfield (u_disconnect_disconnect_cause s) 5 >>
  let obit := (is_some (u_disconnect_facility s) || is_some (u_disconnect_proprietary s))%bool in
  write_obit (N.b2n obit) >>
  (if negb obit then wret else
    write_type3_generic obit (u_disconnect_facility s) Cmce_Facility >>
    write_type3_generic obit (u_disconnect_proprietary s) Cmce_Proprietary >>
    write_mbit 0).

(** ** u_facility.rs *)

(** u_facility.rs:14-14 *)
Record u_facility := mk_u_facility { }.

(** u_facility.rs:19-33 *)
Definition u_facility_from_bitbuf : reader u_facility :=
  pdu_type <~ rfield 5 ;;
  rguard (pdu_type =? Ul_UFacility) EInvalidPduType ;~
  obit <~ read_obit ;;
  read_trailing obit ;~
  rret mk_u_facility.

(** u_facility.rs:36-42 *)
Definition u_facility_to_bitbuf (s : u_facility) : wr :=
  wfield Ul_UFacility 5 >>
  write_mbit 0.

(** ** u_info.rs *)

(** u_info.rs:15-28 *)
Record u_info := mk_u_info {
  u_info_call_identifier : N;
  u_info_poll_response : bool;
  u_info_modify : option N;
  u_info_dtmf : option type3_generic;
  u_info_facility : option type3_generic;
  u_info_proprietary : option type3_generic }.

(** u_info.rs:33-71 *)
Definition u_info_from_bitbuf : reader u_info :=
  pdu_type <~ rfield 5 ;;
  rguard (pdu_type =? Ul_UInfo) EInvalidPduType ;~
  call_identifier <~ rfield 14 ;;
  poll_response <~ rflag ;;
  obit <~ read_obit ;;
  modify <~ parse_type2_generic obit 9 ;;
  dtmf <~ parse_type3_generic obit Cmce_Dtmf ;;
  facility <~ parse_type3_generic obit Cmce_Facility ;;
  proprietary <~ parse_type3_generic obit Cmce_Proprietary ;;
  read_trailing obit ;~
  rret (mk_u_info call_identifier poll_response modify dtmf facility proprietary).

(** u_info.rs:74-104 *)
Definition u_info_to_bitbuf (s : u_info) : wr :=
  wfield Ul_UInfo 5 >>
  wfield (u_info_call_identifier s) 14 >>
  wflag (u_info_poll_response s) >>
  let obit := (is_some (u_info_modify s) || is_some (u_info_dtmf s) || is_some (u_info_facility s) || is_some (u_info_proprietary s))%bool in
  write_obit (N.b2n obit) >>
  (if negb obit then wret else
    write_type2_generic obit (u_info_modify s) 9 >>
    write_type3_generic obit (u_info_dtmf s) Cmce_Dtmf >>
    write_type3_generic obit (u_info_facility s) Cmce_Facility >>
    write_type3_generic obit (u_info_proprietary s) Cmce_Proprietary >>
    write_mbit 0).

(** ** u_release.rs *)

(** u_release.rs:14-23 *)
Record u_release := mk_u_release {
  u_release_call_identifier : N;
  u_release_disconnect_cause : N;
  u_release_facility : option type3_generic;
  u_release_proprietary : option type3_generic }.

(** u_release.rs:28-62 *)
Definition u_release_from_bitbuf : reader u_release :=
  pdu_type <~ rfield 5 ;;
  rguard (pdu_type =? Ul_URelease) EInvalidPduType ;~
  call_identifier <~ rfield 14 ;;
  val <~ rfield 5 ;;
  disconnect_cause <~ r_try (disconnect_cause_try_from val) ;;
  obit <~ read_obit ;;
  facility <~ parse_type3_generic obit Cmce_Facility ;;
  proprietary <~ parse_type3_generic obit Cmce_Proprietary ;;
  read_trailing obit ;~
  rret (mk_u_release call_identifier disconnect_cause facility proprietary).

(** u_release.rs:65-89 *)
Definition u_release_to_bitbuf (s : u_release) : wr :=
  wfield Ul_URelease 5 >>
  wfield (u_release_call_identifier s) 14 >>
  wfield (u_release_disconnect_cause s) 5 >>
  let obit := (is_some (u_release_facility s) || is_some (u_release_proprietary s))%bool in
  write_obit (N.b2n obit) >>
  (if negb obit then wret else
    write_type3_generic obit (u_release_facility s) Cmce_Facility >>
    write_type3_generic obit (u_release_proprietary s) Cmce_Proprietary >>
    write_mbit 0).

(** ** u_sds_data.rs *)

(** u_sds_data.rs:19-36 *)
Record u_sds_data := mk_u_sds_data {
  u_sds_data_area_selection : N;
  u_sds_data_called_party_type_identifier : N;
  u_sds_data_called_party_short_number_address : option N;
  u_sds_data_called_party_ssi : option N;
  u_sds_data_called_party_extension : option N;
  u_sds_data_user_defined_data : sds_user_data;
  u_sds_data_external_subscriber_number : option type3_generic;
  u_sds_data_dm_ms_address : option type3_generic }.

(** u_sds_data.rs:40-117 *)
Definition u_sds_data_from_bitbuf : reader u_sds_data :=
  pdu_type <~ rfield 5 ;;
  rguard (pdu_type =? Ul_USdsData) EInvalidPduType ;~
  area_selection <~ rfield 4 ;;
  called_party_type_identifier <~ rfield 2 ;;
  called_party_short_number_address <~ ropt (called_party_type_identifier =? Party_Sna) (rfield 8) ;;
  called_party_ssi <~ ropt ((called_party_type_identifier =? Party_Ssi) || (called_party_type_identifier =? Party_Tsi))%bool (rfield 24) ;;
  called_party_extension <~ ropt (called_party_type_identifier =? Party_Tsi) (rfield 24) ;;
  user_defined_data <~ sds_from_bitbuf ;;
  obit <~ read_obit ;;
  external_subscriber_number <~ parse_type3_generic obit Cmce_ExtSubscriberNum ;;
  dm_ms_address <~ parse_type3_generic obit Cmce_DmMsAddr ;;
  read_trailing obit ;~
  rret (mk_u_sds_data area_selection called_party_type_identifier called_party_short_number_address called_party_ssi called_party_extension user_defined_data external_subscriber_number dm_ms_address).

(** u_sds_data.rs:120-177 *)
Definition u_sds_data_to_bitbuf (s : u_sds_data) : wr :=
  wfield Ul_USdsData 5 >>
  wfield (u_sds_data_area_selection s) 4 >>
  wfield (u_sds_data_called_party_type_identifier s) 2 >>
  wopt (u_sds_data_called_party_short_number_address s) (fun value => wfield value 8) >>
  wopt (u_sds_data_called_party_ssi s) (fun value => wfield value 24) >>
  wopt (u_sds_data_called_party_extension s) (fun value => wfield value 24) >>
  sds_to_bitbuf (u_sds_data_user_defined_data s) >>
  let obit := (is_some (u_sds_data_external_subscriber_number s) || is_some (u_sds_data_dm_ms_address s))%bool in
  write_obit (N.b2n obit) >>
  (if negb obit then wret else
    write_type3_generic obit (u_sds_data_external_subscriber_number s) Cmce_ExtSubscriberNum >>
    write_type3_generic obit (u_sds_data_dm_ms_address s) Cmce_DmMsAddr >>
    write_mbit 0).

(** ** u_setup.rs *)

(** u_setup.rs:18-57 *)
Record u_setup := mk_u_setup {
  u_setup_area_selection : N;
  u_setup_hook_method_selection : bool;
  u_setup_simplex_duplex_selection : bool;
  u_setup_basic_service_information : bsi;
  u_setup_request_to_transmit_send_data : bool;
  u_setup_call_priority : N;
  u_setup_clir_control : N;
  u_setup_called_party_type_identifier : N;
  u_setup_called_party_short_number_address : option N;
  u_setup_called_party_ssi : option N;
  u_setup_called_party_extension : option N;
  u_setup_external_subscriber_number : option type3_generic;
  u_setup_facility : option type3_generic;
  u_setup_dm_ms_address : option type3_generic;
  u_setup_proprietary : option type3_generic }.

(** u_setup.rs:62-144 *)
Definition u_setup_from_bitbuf : reader u_setup :=
  pdu_type <~ rfield 5 ;;
  rguard (pdu_type =? Ul_USetup) EInvalidPduType ;~
  area_selection <~ rfield 4 ;;
  hook_method_selection <~ rflag ;;
  simplex_duplex_selection <~ rflag ;;
  basic_service_information <~ bsi_from_bitbuf ;;
  request_to_transmit_send_data <~ rflag ;;
  call_priority <~ rfield 4 ;;
  clir_control <~ rfield 2 ;;
  called_party_type_identifier <~ rfield 2 ;;
  called_party_short_number_address <~ ropt (called_party_type_identifier =? Party_Sna) (rfield 8) ;;
  called_party_ssi <~ ropt ((called_party_type_identifier =? Party_Ssi) || (called_party_type_identifier =? Party_Tsi))%bool (rfield 24) ;;
  called_party_extension <~ ropt (called_party_type_identifier =? Party_Tsi) (rfield 24) ;;
  obit <~ read_obit ;;
  external_subscriber_number <~ parse_type3_generic obit Cmce_ExtSubscriberNum ;;
  facility <~ parse_type3_generic obit Cmce_Facility ;;
  dm_ms_address <~ parse_type3_generic obit Cmce_DmMsAddr ;;
  proprietary <~ parse_type3_generic obit Cmce_Proprietary ;;
  read_trailing obit ;~
  rret (mk_u_setup area_selection hook_method_selection simplex_duplex_selection basic_service_information request_to_transmit_send_data call_priority clir_control called_party_type_identifier called_party_short_number_address called_party_ssi called_party_extension external_subscriber_number facility dm_ms_address proprietary).

(** u_setup.rs:147-204 *)
Definition u_setup_to_bitbuf (s : u_setup) : wr :=
  wfield Ul_USetup 5 >>
  wfield (u_setup_area_selection s) 4 >>
  wflag (u_setup_hook_method_selection s) >>
  wflag (u_setup_simplex_duplex_selection s) >>
  bsi_to_bitbuf (u_setup_basic_service_information s) >>
  wflag (u_setup_request_to_transmit_send_data s) >>
  wfield (u_setup_call_priority s) 4 >>
  wfield (u_setup_clir_control s) 2 >>
  wfield (u_setup_called_party_type_identifier s) 2 >>
  wopt (u_setup_called_party_short_number_address s) (fun value => wfield value 8) >>
  wopt (u_setup_called_party_ssi s) (fun value => wfield value 24) >>
  wopt (u_setup_called_party_extension s) (fun value => wfield value 24) >>
  let obit := (is_some (u_setup_external_subscriber_number s) || is_some (u_setup_facility s) || is_some (u_setup_dm_ms_address s) || is_some (u_setup_proprietary s))%bool in
  write_obit (N.b2n obit) >>
  (if negb obit then wret else
    write_type3_generic obit (u_setup_external_subscriber_number s) Cmce_ExtSubscriberNum >>
    write_type3_generic obit (u_setup_facility s) Cmce_Facility >>
    write_type3_generic obit (u_setup_dm_ms_address s) Cmce_DmMsAddr >>
    write_type3_generic obit (u_setup_proprietary s) Cmce_Proprietary >>
    write_mbit 0).

(** ** u_status.rs *)

(** u_status.rs:16-33 *)
Record u_status := mk_u_status {
  u_status_area_selection : N;
  u_status_called_party_type_identifier : N;
  u_status_called_party_short_number_address : option N;
  u_status_called_party_ssi : option N;
  u_status_called_party_extension : option N;
  u_status_pre_coded_status : pre_coded_status;
  u_status_external_subscriber_number : option type3_generic;
  u_status_dm_ms_address : option type3_generic }.

(** u_status.rs:38-98 *)
Definition u_status_from_bitbuf : reader u_status :=
  pdu_type <~ rfield 5 ;;
  rguard (pdu_type =? Ul_UStatus) EInvalidPduType ;~
  area_selection <~ rfield 4 ;;
  called_party_type_identifier <~ rfield 2 ;;
  called_party_short_number_address <~ ropt (called_party_type_identifier =? Party_Sna) (rfield 8) ;;
  called_party_ssi <~ ropt ((called_party_type_identifier =? Party_Ssi) || (called_party_type_identifier =? Party_Tsi))%bool (rfield 24) ;;
  called_party_extension <~ ropt (called_party_type_identifier =? Party_Tsi) (rfield 24) ;;
  val <~ rfield 16 ;;
  pre_coded_status <~ rlift (pcs_from_u16 val) ;;
  obit <~ read_obit ;;
  external_subscriber_number <~ parse_type3_generic obit Cmce_ExtSubscriberNum ;;
  dm_ms_address <~ parse_type3_generic obit Cmce_DmMsAddr ;;
  read_trailing obit ;~
  rret (mk_u_status area_selection called_party_type_identifier called_party_short_number_address called_party_ssi called_party_extension pre_coded_status external_subscriber_number dm_ms_address).

(** u_status.rs:101-139 *)
Definition u_status_to_bitbuf (s : u_status) : wr :=
  wfield Ul_UStatus 5 >>
  wfield (u_status_area_selection s) 4 >>
  wfield (u_status_called_party_type_identifier s) 2 >>
  wopt (u_status_called_party_short_number_address s) (fun value => wfield value 8) >>
  wopt (u_status_called_party_ssi s) (fun value => wfield value 24) >>
  wopt (u_status_called_party_extension s) (fun value => wfield value 24) >>
  pcs_write (u_status_pre_coded_status s) >>
  let obit := (is_some (u_status_external_subscriber_number s) || is_some (u_status_dm_ms_address s))%bool in
  write_obit (N.b2n obit) >>
  (if negb obit then wret else
    write_type3_generic obit (u_status_external_subscriber_number s) Cmce_ExtSubscriberNum >>
    write_type3_generic obit (u_status_dm_ms_address s) Cmce_DmMsAddr >>
    write_mbit 0).

(** ** u_tx_ceased.rs *)

(** u_tx_ceased.rs:13-22 *)
Record u_tx_ceased := mk_u_tx_ceased {
  u_tx_ceased_call_identifier : N;
  u_tx_ceased_facility : option type3_generic;
  u_tx_ceased_dm_ms_address : option type3_generic;
  u_tx_ceased_proprietary : option type3_generic }.

(** u_tx_ceased.rs:27-58 *)
Definition u_tx_ceased_from_bitbuf : reader u_tx_ceased :=
  pdu_type <~ rfield 5 ;;
  rguard (pdu_type =? Ul_UTxCeased) EInvalidPduType ;~
  call_identifier <~ rfield 14 ;;
  obit <~ read_obit ;;
  facility <~ parse_type3_generic obit Cmce_Facility ;;
  dm_ms_address <~ parse_type3_generic obit Cmce_DmMsAddr ;;
  proprietary <~ parse_type3_generic obit Cmce_Proprietary ;;
  read_trailing obit ;~
  rret (mk_u_tx_ceased call_identifier facility dm_ms_address proprietary).

(** u_tx_ceased.rs:61-86 *)
Definition u_tx_ceased_to_bitbuf (s : u_tx_ceased) : wr :=
  wfield Ul_UTxCeased 5 >>
  wfield (u_tx_ceased_call_identifier s) 14 >>
  let obit := (is_some (u_tx_ceased_facility s) || is_some (u_tx_ceased_dm_ms_address s) || is_some (u_tx_ceased_proprietary s))%bool in
  write_obit (N.b2n obit) >>
  (if negb obit then wret else
    write_type3_generic obit (u_tx_ceased_facility s) Cmce_Facility >>
    write_type3_generic obit (u_tx_ceased_dm_ms_address s) Cmce_DmMsAddr >>
    write_type3_generic obit (u_tx_ceased_proprietary s) Cmce_Proprietary >>
    write_mbit 0).

(** ** u_tx_demand.rs *)

(** u_tx_demand.rs:14-29 *)
Record u_tx_demand := mk_u_tx_demand {
  u_tx_demand_call_identifier : N;
  u_tx_demand_tx_demand_priority : N;
  u_tx_demand_encryption_control : bool;
  u_tx_demand_reserved : bool;
  u_tx_demand_facility : option type3_generic;
  u_tx_demand_dm_ms_address : option type3_generic;
  u_tx_demand_proprietary : option type3_generic }.

(** u_tx_demand.rs:34-74 *)
Definition u_tx_demand_from_bitbuf : reader u_tx_demand :=
  pdu_type <~ rfield 5 ;;
  rguard (pdu_type =? Ul_UTxDemand) EInvalidPduType ;~
  call_identifier <~ rfield 14 ;;
  tx_demand_priority <~ rfield 2 ;;
  encryption_control <~ rflag ;;
  reserved <~ rflag ;;
  obit <~ read_obit ;;
  facility <~ parse_type3_generic obit Cmce_Facility ;;
  dm_ms_address <~ parse_type3_generic obit Cmce_DmMsAddr ;;
  proprietary <~ parse_type3_generic obit Cmce_Proprietary ;;
  read_trailing obit ;~
  rret (mk_u_tx_demand call_identifier tx_demand_priority encryption_control reserved facility dm_ms_address proprietary).

(** u_tx_demand.rs:77-108 *)
Definition u_tx_demand_to_bitbuf (s : u_tx_demand) : wr :=
  wfield Ul_UTxDemand 5 >>
  wfield (u_tx_demand_call_identifier s) 14 >>
  wfield (u_tx_demand_tx_demand_priority s) 2 >>
  wflag (u_tx_demand_encryption_control s) >>
  wflag (u_tx_demand_reserved s) >>
  let obit := (is_some (u_tx_demand_facility s) || is_some (u_tx_demand_dm_ms_address s) || is_some (u_tx_demand_proprietary s))%bool in
  write_obit (N.b2n obit) >>
  (if negb obit then wret else
    write_type3_generic obit (u_tx_demand_facility s) Cmce_Facility >>
    write_type3_generic obit (u_tx_demand_dm_ms_address s) Cmce_DmMsAddr >>
    write_type3_generic obit (u_tx_demand_proprietary s) Cmce_Proprietary >>
    write_mbit 0).

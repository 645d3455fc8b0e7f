(** Model of the MM PDUs: crates/tetra-pdus/src/mm/pdus/*.rs.
    One record, one reader ([from_bitbuf]) and one writer ([to_bitbuf]) per PDU, statement by statement.
    [read_field(1)? != 0] is [rflag]; casts to the type of a field are dropped where the field is not wider than
    the type; enumerations by raw value as explained in MmFields.v; field names carry the PDU's name. *)
From Verif Require Import Base BitBuffer Codec TypedFields CmceFields MmFields.
Open Scope N_scope.

(** ** d_attach_detach_group_identity.rs *)

(** d_attach_detach_group_identity.rs:18-33 *)
Record d_attach_detach := mk_d_attach_detach {
  d_attach_detach_group_identity_report : bool;
  d_attach_detach_group_identity_acknowledgement_request : bool;
  d_attach_detach_group_identity_attach_detach_mode : bool;
  d_attach_detach_proprietary : option type3_generic;
  d_attach_detach_group_report_response : option type3_generic;
  d_attach_detach_group_identity_downlink : option (list gid);
  d_attach_detach_group_identity_security_related_information : option type4_generic }.

(** d_attach_detach_group_identity.rs:38-85 *)
Definition d_attach_detach_from_bitbuf : reader d_attach_detach :=
  pdu_type <~ rfield 4 ;;
  rguard (pdu_type =? MmDl_DAttachDetachGroupIdentity) EInvalidPduType ;~
  group_identity_report <~ rflag ;;
  group_identity_acknowledgement_request <~ rflag ;;
  group_identity_attach_detach_mode <~ rflag ;;
  obit <~ read_obit ;;
  proprietary <~ parse_type3_generic obit MmDl_Proprietary ;;
  group_report_response <~ parse_type3_generic obit MmDl_GroupReportResponse ;;
  group_identity_downlink <~ parse_type4_struct obit MmDl_GroupIdentityDownlink gid_from_bitbuf ;;
  group_identity_security_related_information <~ parse_type4_generic obit MmDl_GroupIdentitySecurityRelatedInformation ;;
  read_trailing obit ;~
  rret (mk_d_attach_detach group_identity_report group_identity_acknowledgement_request group_identity_attach_detach_mode proprietary group_report_response group_identity_downlink group_identity_security_related_information).

(** d_attach_detach_group_identity.rs:88-134 *)
Definition d_attach_detach_to_bitbuf (s : d_attach_detach) : wr :=
  wfield MmDl_DAttachDetachGroupIdentity 4 >>
  wflag (d_attach_detach_group_identity_report s) >>
  wflag (d_attach_detach_group_identity_acknowledgement_request s) >>
  wflag (d_attach_detach_group_identity_attach_detach_mode s) >>
  let obit := (is_some (d_attach_detach_proprietary s) || is_some (d_attach_detach_group_report_response s) || is_some (d_attach_detach_group_identity_downlink s) || is_some (d_attach_detach_group_identity_security_related_information s))%bool in
  write_obit (N.b2n obit) >>
  (if negb obit then wret else
    write_type3_generic obit (d_attach_detach_proprietary s) MmDl_Proprietary >>
    write_type3_generic obit (d_attach_detach_group_report_response s) MmDl_GroupReportResponse >>
    write_type4_struct obit (d_attach_detach_group_identity_downlink s) MmDl_GroupIdentityDownlink gid_to_bitbuf >>
    write_type4_todo obit (d_attach_detach_group_identity_security_related_information s) MmDl_GroupIdentitySecurityRelatedInformation >>
    write_mbit 0).

(** ** d_attach_detach_group_identity_acknowledgement.rs *)

(** d_attach_detach_group_identity_acknowledgement.rs:18-29 *)
Record d_attach_detach_ack := mk_d_attach_detach_ack {
  d_attach_detach_ack_group_identity_accept_reject : N;
  d_attach_detach_ack_reserved : bool;
  d_attach_detach_ack_proprietary : option type3_generic;
  d_attach_detach_ack_group_identity_downlink : option (list gid);
  d_attach_detach_ack_group_identity_security_related_information : option type4_generic }.

(** d_attach_detach_group_identity_acknowledgement.rs:34-74 *)
Definition d_attach_detach_ack_from_bitbuf : reader d_attach_detach_ack :=
  pdu_type <~ rfield 4 ;;
  rguard (pdu_type =? MmDl_DAttachDetachGroupIdentityAcknowledgement) EInvalidPduType ;~
  group_identity_accept_reject <~ rfield 1 ;;
  reserved <~ rflag ;;
  obit <~ read_obit ;;
  proprietary <~ parse_type3_generic obit MmDl_Proprietary ;;
  group_identity_downlink <~ parse_type4_struct obit MmDl_GroupIdentityDownlink gid_from_bitbuf ;;
  group_identity_security_related_information <~ parse_type4_generic obit MmDl_GroupIdentitySecurityRelatedInformation ;;
  read_trailing obit ;~
  rret (mk_d_attach_detach_ack group_identity_accept_reject reserved proprietary group_identity_downlink group_identity_security_related_information).

(** d_attach_detach_group_identity_acknowledgement.rs:77-117 *)
Definition d_attach_detach_ack_to_bitbuf (s : d_attach_detach_ack) : wr :=
  wfield MmDl_DAttachDetachGroupIdentityAcknowledgement 4 >>
  wfield (d_attach_detach_ack_group_identity_accept_reject s) 1 >>
  wflag (d_attach_detach_ack_reserved s) >>
  let obit := (is_some (d_attach_detach_ack_proprietary s) || is_some (d_attach_detach_ack_group_identity_downlink s) || is_some (d_attach_detach_ack_group_identity_security_related_information s))%bool in
  write_obit (N.b2n obit) >>
  (if negb obit then wret else
    write_type3_generic obit (d_attach_detach_ack_proprietary s) MmDl_Proprietary >>
    write_type4_struct obit (d_attach_detach_ack_group_identity_downlink s) MmDl_GroupIdentityDownlink gid_to_bitbuf >>
    write_type4_todo obit (d_attach_detach_ack_group_identity_security_related_information s) MmDl_GroupIdentitySecurityRelatedInformation >>
    write_mbit 0).

(** ** d_location_update_accept.rs *)

(** d_location_update_accept.rs:20-49 *)
Record d_lu_accept := mk_d_lu_accept {
  d_lu_accept_location_update_accept_type : N;
  d_lu_accept_ssi : option N;
  d_lu_accept_address_extension : option N;
  d_lu_accept_subscriber_class : option N;
  d_lu_accept_energy_saving_information : option esi;
  d_lu_accept_scch_information_and_distribution_on_18th_frame : option N;
  d_lu_accept_new_registered_area : option type4_generic;
  d_lu_accept_security_downlink : option type3_generic;
  d_lu_accept_group_identity_location_accept : option gila;
  d_lu_accept_default_group_attachment_lifetime : option type3_generic;
  d_lu_accept_authentication_downlink : option type3_generic;
  d_lu_accept_group_identity_security_related_information : option type4_generic;
  d_lu_accept_cell_type_control : option type3_generic;
  d_lu_accept_proprietary : option type3_generic }.

(** d_location_update_accept.rs:54-138 *)
Definition d_lu_accept_from_bitbuf : reader d_lu_accept :=
  pdu_type <~ rfield 4 ;;
  rguard (pdu_type =? MmDl_DLocationUpdateAccept) EInvalidPduType ;~
  location_update_accept_type <~ rfield 3 ;;
  obit <~ read_obit ;;
  ssi <~ parse_type2_generic obit 24 ;;
  address_extension <~ parse_type2_generic obit 24 ;;
  subscriber_class <~ parse_type2_generic obit 16 ;;
  energy_saving_information <~ parse_type2_struct obit esi_from_bitbuf ;;
  scch_information_and_distribution_on_18th_frame <~ parse_type2_generic obit 6 ;;
  new_registered_area <~ parse_type4_generic obit MmDl_NewRegisteredArea ;;
  security_downlink <~ parse_type3_generic obit MmDl_SecurityDownlink ;;
  group_identity_location_accept <~ parse_type3_struct obit MmDl_GroupIdentityLocationAccept gila_from_bitbuf ;;
  default_group_attachment_lifetime <~ parse_type3_generic obit MmDl_DefaultGroupAttachLifetime ;;
  authentication_downlink <~ parse_type3_generic obit MmDl_AuthenticationDownlink ;;
  group_identity_security_related_information <~ parse_type4_generic obit MmDl_GroupIdentitySecurityRelatedInformation ;;
  cell_type_control <~ parse_type3_generic obit MmDl_CellTypeControl ;;
  proprietary <~ parse_type3_generic obit MmDl_Proprietary ;;
  read_trailing obit ;~
  rret (mk_d_lu_accept location_update_accept_type ssi address_extension subscriber_class energy_saving_information scch_information_and_distribution_on_18th_frame new_registered_area security_downlink group_identity_location_accept default_group_attachment_lifetime authentication_downlink group_identity_security_related_information cell_type_control proprietary).

(** d_location_update_accept.rs:141-230 *)
Definition d_lu_accept_to_bitbuf (s : d_lu_accept) : wr :=
  wfield MmDl_DLocationUpdateAccept 4 >>
  wfield (d_lu_accept_location_update_accept_type s) 3 >>
  let obit := (is_some (d_lu_accept_ssi s) || is_some (d_lu_accept_address_extension s) || is_some (d_lu_accept_subscriber_class s) || is_some (d_lu_accept_energy_saving_information s) || is_some (d_lu_accept_scch_information_and_distribution_on_18th_frame s) || is_some (d_lu_accept_new_registered_area s) || is_some (d_lu_accept_security_downlink s) || is_some (d_lu_accept_group_identity_location_accept s) || is_some (d_lu_accept_default_group_attachment_lifetime s) || is_some (d_lu_accept_authentication_downlink s) || is_some (d_lu_accept_group_identity_security_related_information s) || is_some (d_lu_accept_cell_type_control s) || is_some (d_lu_accept_proprietary s))%bool in
  write_obit (N.b2n obit) >>
  (if negb obit then wret else
    write_type2_generic obit (d_lu_accept_ssi s) 24 >>
    write_type2_generic obit (d_lu_accept_address_extension s) 24 >>
    write_type2_generic obit (d_lu_accept_subscriber_class s) 16 >>
    write_type2_struct obit (d_lu_accept_energy_saving_information s) esi_to_bitbuf >>
    write_type2_generic obit (d_lu_accept_scch_information_and_distribution_on_18th_frame s) 6 >>
    write_type4_todo obit (d_lu_accept_new_registered_area s) MmDl_NewRegisteredArea >>
    write_type3_generic obit (d_lu_accept_security_downlink s) MmDl_SecurityDownlink >>
    write_type3_struct obit (d_lu_accept_group_identity_location_accept s) MmDl_GroupIdentityLocationAccept gila_to_bitbuf >>
    write_type3_generic obit (d_lu_accept_default_group_attachment_lifetime s) MmDl_DefaultGroupAttachLifetime >>
    write_type3_generic obit (d_lu_accept_authentication_downlink s) MmDl_AuthenticationDownlink >>
    write_type4_todo obit (d_lu_accept_group_identity_security_related_information s) MmDl_GroupIdentitySecurityRelatedInformation >>
    write_type3_generic obit (d_lu_accept_cell_type_control s) MmDl_CellTypeControl >>
    write_type3_generic obit (d_lu_accept_proprietary s) MmDl_Proprietary >>
    write_mbit 0).

(** ** d_location_update_command.rs *)

(** d_location_update_command.rs:16-29 *)
Record d_lu_command := mk_d_lu_command {
  d_lu_command_group_identity_report : bool;
  d_lu_command_cipher_control : bool;
  d_lu_command_ciphering_parameters : option N;
  d_lu_command_address_extension : option N;
  d_lu_command_cell_type_control : option N;
  d_lu_command_proprietary : option N }.

(** d_location_update_command.rs:35-73 ; everything after [unimplemented!()] is unreachable *)
Definition d_lu_command_from_bitbuf : reader d_lu_command :=
  pdu_type <~ rfield 4 ;;
  rguard (pdu_type =? MmDl_DLocationUpdateCommand) EInvalidPduType ;~
  group_identity_report <~ rflag ;;
  cipher_control <~ rflag ;;
  rpanic.

(** d_location_update_command.rs:76-109 *)
Definition d_lu_command_to_bitbuf (s : d_lu_command) : wr :=
  wfield MmDl_DLocationUpdateCommand 4 >>
  wflag (d_lu_command_group_identity_report s) >>
  wflag (d_lu_command_cipher_control s) >>
  wopt (d_lu_command_ciphering_parameters s) (fun value => wfield value 10) >>
  let obit := (is_some (d_lu_command_address_extension s))%bool in
  write_obit (N.b2n obit) >>
  (if negb obit then wret else
    write_type2_generic obit (d_lu_command_address_extension s) 24 >>
    wopt (d_lu_command_cell_type_control s) (fun value => wfield value 3) >>
    wopt (d_lu_command_proprietary s) (fun value => wfield value 3) >>
    write_mbit 0).

(** ** d_location_update_proceeding.rs *)

(** d_location_update_proceeding.rs:16-23 *)
Record d_lu_proceeding := mk_d_lu_proceeding {
  d_lu_proceeding_ssi : N;
  d_lu_proceeding_address_extension : N;
  d_lu_proceeding_proprietary : option type3_generic }.

(** d_location_update_proceeding.rs:28-54 *)
Definition d_lu_proceeding_from_bitbuf : reader d_lu_proceeding :=
  pdu_type <~ rfield 4 ;;
  rguard (pdu_type =? MmDl_DLocationUpdateProceeding) EInvalidPduType ;~
  ssi <~ rfield 24 ;;
  address_extension <~ rfield 24 ;;
  obit <~ read_obit ;;
  proprietary <~ parse_type3_generic obit MmDl_Proprietary ;;
  read_trailing obit ;~
  rret (mk_d_lu_proceeding ssi address_extension proprietary).

(** d_location_update_proceeding.rs:57-78 *)
Definition d_lu_proceeding_to_bitbuf (s : d_lu_proceeding) : wr :=
  wfield MmDl_DLocationUpdateProceeding 4 >>
  wfield (d_lu_proceeding_ssi s) 24 >>
  wfield (d_lu_proceeding_address_extension s) 24 >>
  let obit := (is_some (d_lu_proceeding_proprietary s))%bool in
  write_obit (N.b2n obit) >>
  (if negb obit then wret else
    write_type3_generic obit (d_lu_proceeding_proprietary s) MmDl_Proprietary >>
    write_mbit 0).

(** ** d_location_update_reject.rs *)

(** d_location_update_reject.rs:18-33 *)
Record d_lu_reject := mk_d_lu_reject {
  d_lu_reject_location_update_type : N;
  d_lu_reject_reject_cause : N;
  d_lu_reject_cipher_control : bool;
  d_lu_reject_ciphering_parameters : option N;
  d_lu_reject_address_extension : option N;
  d_lu_reject_cell_type_control : option type3_generic;
  d_lu_reject_proprietary : option type3_generic }.

(** d_location_update_reject.rs:39-79 ; everything after [unimplemented!()] is unreachable *)
Definition d_lu_reject_from_bitbuf : reader d_lu_reject :=
  pdu_type <~ rfield 4 ;;
  rguard (pdu_type =? MmDl_DLocationUpdateReject) EInvalidPduType ;~
  location_update_type <~ rfield 3 ;;
  reject_cause <~ rfield 5 ;;
  cipher_control <~ rflag ;;
  rpanic.

(** d_location_update_reject.rs:82-115 *)
Definition d_lu_reject_to_bitbuf (s : d_lu_reject) : wr :=
  wfield MmDl_DLocationUpdateReject 4 >>
  wfield (d_lu_reject_location_update_type s) 3 >>
  wfield (d_lu_reject_reject_cause s) 5 >>
  wflag (d_lu_reject_cipher_control s) >>
  wopt (d_lu_reject_ciphering_parameters s) (fun value => wfield value 10) >>
  let obit := (is_some (d_lu_reject_address_extension s) || is_some (d_lu_reject_cell_type_control s) || is_some (d_lu_reject_proprietary s))%bool in
  write_obit (N.b2n obit) >>
  (if negb obit then wret else
    write_type2_generic obit (d_lu_reject_address_extension s) 24 >>
    write_type3_generic obit (d_lu_reject_cell_type_control s) MmDl_CellTypeControl >>
    write_type3_generic obit (d_lu_reject_proprietary s) MmDl_Proprietary >>
    write_mbit 0).

(** ** d_mm_status.rs *)

(** d_mm_status.rs:18-23 *)
Record d_mm_status := mk_d_mm_status {
  d_mm_status_status_downlink : N;
  d_mm_status_status_downlink_dependent_information : option N }.

(** d_mm_status.rs:29-52 ; everything after [unimplemented!()] is unreachable *)
Definition d_mm_status_from_bitbuf : reader d_mm_status :=
  pdu_type <~ rfield 4 ;;
  rguard (pdu_type =? MmDl_DMmStatus) EInvalidPduType ;~
  status_downlink <~ rfield 6 ;;
  rpanic.

(** d_mm_status.rs:55-68 *)
Definition d_mm_status_to_bitbuf (s : d_mm_status) : wr :=
  wfield MmDl_DMmStatus 4 >>
  wfield (d_mm_status_status_downlink s) 6 >>
  wopt (d_mm_status_status_downlink_dependent_information s) (fun _ => wpanic) >>
  write_mbit 0.

(** ** mm_pdu_function_not_supported.rs *)

(** mm_pdu_function_not_supported.rs:19-28 *)
Record mm_function_not_supported := mk_mm_function_not_supported {
  mm_function_not_supported_not_supported_pdu_type : N;
  mm_function_not_supported_not_supported_sub_pdu_type : option (nat * N) }.

(** mm_pdu_function_not_supported.rs:34-74 *)
Definition mm_function_not_supported_from_bitbuf : reader mm_function_not_supported :=
  pdu_type <~ rfield 4 ;;
  rguard (pdu_type =? MmDl_MmPduFunctionNotSupported) EInvalidPduType ;~
  not_supported_pdu_type <~ rfield 4 ;;
  obit <~ read_obit ;;
  if negb obit then rret (mk_mm_function_not_supported not_supported_pdu_type None) else
  rerr ENotImplemented.

(** mm_pdu_function_not_supported.rs:77-115 *)
Definition mm_function_not_supported_to_bitbuf (s : mm_function_not_supported) : wr :=
  wfield MmDl_MmPduFunctionNotSupported 4 >>
  wfield (mm_function_not_supported_not_supported_pdu_type s) 4 >>
  let obit := (is_some (mm_function_not_supported_not_supported_sub_pdu_type s))%bool in
  write_obit (N.b2n obit) >>
  (if negb obit then wret else
    match (mm_function_not_supported_not_supported_sub_pdu_type s) with Some (len, val) => write_type2_generic obit (Some val) len | None => wpanic end >>
    write_mbit 0).

(** ** u_attach_detach_group_identity.rs *)

(** u_attach_detach_group_identity.rs:17-28 *)
Record u_attach_detach := mk_u_attach_detach {
  u_attach_detach_group_identity_report : bool;
  u_attach_detach_group_identity_attach_detach_mode : bool;
  u_attach_detach_group_report_response : option type3_generic;
  u_attach_detach_group_identity_uplink : option (list giu);
  u_attach_detach_proprietary : option type3_generic }.

(** u_attach_detach_group_identity.rs:33-72 *)
Definition u_attach_detach_from_bitbuf : reader u_attach_detach :=
  pdu_type <~ rfield 4 ;;
  rguard (pdu_type =? MmUl_UAttachDetachGroupIdentity) EInvalidPduType ;~
  group_identity_report <~ rflag ;;
  group_identity_attach_detach_mode <~ rflag ;;
  obit <~ read_obit ;;
  group_report_response <~ parse_type3_generic obit MmUl_GroupReportResponse ;;
  group_identity_uplink <~ parse_type4_struct obit MmUl_GroupIdentityUplink giu_from_bitbuf ;;
  proprietary <~ parse_type3_generic obit MmUl_Proprietary ;;
  read_trailing obit ;~
  rret (mk_u_attach_detach group_identity_report group_identity_attach_detach_mode group_report_response group_identity_uplink proprietary).

(** u_attach_detach_group_identity.rs:75-108 *)
Definition u_attach_detach_to_bitbuf (s : u_attach_detach) : wr :=
  wfield MmUl_UAttachDetachGroupIdentity 4 >>
  wflag (u_attach_detach_group_identity_report s) >>
  wflag (u_attach_detach_group_identity_attach_detach_mode s) >>
  let obit := (is_some (u_attach_detach_group_report_response s) || is_some (u_attach_detach_group_identity_uplink s) || is_some (u_attach_detach_proprietary s))%bool in
  write_obit (N.b2n obit) >>
  (if negb obit then wret else
    write_type3_generic obit (u_attach_detach_group_report_response s) MmUl_GroupReportResponse >>
    write_type4_struct obit (u_attach_detach_group_identity_uplink s) MmUl_GroupIdentityUplink giu_to_bitbuf >>
    write_type3_generic obit (u_attach_detach_proprietary s) MmUl_Proprietary >>
    write_mbit 0).

(** ** u_attach_detach_group_identity_acknowledgement.rs *)

(** u_attach_detach_group_identity_acknowledgement.rs:17-24 *)
Record u_attach_detach_ack := mk_u_attach_detach_ack {
  u_attach_detach_ack_group_identity_acknowledgement_type : bool;
  u_attach_detach_ack_group_identity_uplink : option (list giu);
  u_attach_detach_ack_proprietary : option type3_generic }.

(** u_attach_detach_group_identity_acknowledgement.rs:29-61 *)
Definition u_attach_detach_ack_from_bitbuf : reader u_attach_detach_ack :=
  pdu_type <~ rfield 4 ;;
  rguard (pdu_type =? MmUl_UAttachDetachGroupIdentityAcknowledgement) EInvalidPduType ;~
  group_identity_acknowledgement_type <~ rflag ;;
  obit <~ read_obit ;;
  group_identity_uplink <~ parse_type4_struct obit MmUl_GroupIdentityUplink giu_from_bitbuf ;;
  proprietary <~ parse_type3_generic obit MmUl_Proprietary ;;
  read_trailing obit ;~
  rret (mk_u_attach_detach_ack group_identity_acknowledgement_type group_identity_uplink proprietary).

(** u_attach_detach_group_identity_acknowledgement.rs:64-92 *)
Definition u_attach_detach_ack_to_bitbuf (s : u_attach_detach_ack) : wr :=
  wfield MmUl_UAttachDetachGroupIdentityAcknowledgement 4 >>
  wflag (u_attach_detach_ack_group_identity_acknowledgement_type s) >>
  let obit := (is_some (u_attach_detach_ack_group_identity_uplink s) || is_some (u_attach_detach_ack_proprietary s))%bool in
  write_obit (N.b2n obit) >>
  (if negb obit then wret else
    write_type4_struct obit (u_attach_detach_ack_group_identity_uplink s) MmUl_GroupIdentityUplink giu_to_bitbuf >>
    write_type3_generic obit (u_attach_detach_ack_proprietary s) MmUl_Proprietary >>
    write_mbit 0).

(** ** u_itsi_detach.rs *)

(** u_itsi_detach.rs:16-21 *)
Record u_itsi_detach := mk_u_itsi_detach {
  u_itsi_detach_address_extension : option N;
  u_itsi_detach_proprietary : option type3_generic }.

(** u_itsi_detach.rs:26-49 *)
Definition u_itsi_detach_from_bitbuf : reader u_itsi_detach :=
  pdu_type <~ rfield 4 ;;
  rguard (pdu_type =? MmUl_UItsiDetach) EInvalidPduType ;~
  obit <~ read_obit ;;
  address_extension <~ parse_type2_generic obit 24 ;;
  proprietary <~ parse_type3_generic obit MmUl_Proprietary ;;
  read_trailing obit ;~
  rret (mk_u_itsi_detach address_extension proprietary).

(** u_itsi_detach.rs:52-72 *)
Definition u_itsi_detach_to_bitbuf (s : u_itsi_detach) : wr :=
  wfield MmUl_UItsiDetach 4 >>
  let obit := (is_some (u_itsi_detach_address_extension s) || is_some (u_itsi_detach_proprietary s))%bool in
  write_obit (N.b2n obit) >>
  (if negb obit then wret else
    write_type2_generic obit (u_itsi_detach_address_extension s) 24 >>
    write_type3_generic obit (u_itsi_detach_proprietary s) MmUl_Proprietary >>
    write_mbit 0).

(** ** u_location_update_demand.rs *)

(** u_location_update_demand.rs:21-50 *)
Record u_lu_demand := mk_u_lu_demand {
  u_lu_demand_location_update_type : N;
  u_lu_demand_request_to_append_la : bool;
  u_lu_demand_cipher_control : bool;
  u_lu_demand_ciphering_parameters : option N;
  u_lu_demand_class_of_ms : option N;
  u_lu_demand_energy_saving_mode : option N;
  u_lu_demand_la_information : option N;
  u_lu_demand_ssi : option N;
  u_lu_demand_address_extension : option N;
  u_lu_demand_group_identity_location_demand : option gild;
  u_lu_demand_group_report_response : option type3_generic;
  u_lu_demand_authentication_uplink : option type3_generic;
  u_lu_demand_extended_capabilities : option type3_generic;
  u_lu_demand_proprietary : option type3_generic }.

(** u_location_update_demand.rs:55-152 *)
Definition u_lu_demand_from_bitbuf : reader u_lu_demand :=
  pdu_type <~ rfield 4 ;;
  rguard (pdu_type =? MmUl_ULocationUpdateDemand) EInvalidPduType ;~
  location_update_type <~ rfield 3 ;;
  request_to_append_la <~ rflag ;;
  cipher_control <~ rflag ;;
  ciphering_parameters <~ ropt cipher_control (rfield 10) ;;
  obit <~ read_obit ;;
  class_of_ms <~ parse_type2_generic obit 24 ;;
  energy_saving_mode <~ parse_type2_generic obit 3 ;;
  la_information <~ parse_type2_generic obit 15 ;;
  let la_information := option_map (fun v => v / 2) la_information in
  ssi <~ parse_type2_generic obit 24 ;;
  address_extension <~ parse_type2_generic obit 24 ;;
  group_identity_location_demand <~ parse_type3_struct obit MmUl_GroupIdentityLocationDemand gild_from_bitbuf ;;
  group_report_response <~ parse_type3_generic obit MmUl_GroupReportResponse ;;
  authentication_uplink <~ parse_type3_generic obit MmUl_AuthenticationUplink ;;
  extended_capabilities <~ parse_type3_generic obit MmUl_ExtendedCapabilities ;;
  proprietary <~ parse_type3_generic obit MmUl_Proprietary ;;
  read_trailing obit ;~
  rret (mk_u_lu_demand location_update_type request_to_append_la cipher_control ciphering_parameters class_of_ms energy_saving_mode la_information ssi address_extension group_identity_location_demand group_report_response authentication_uplink extended_capabilities proprietary).

(** u_location_update_demand.rs:155-233 *)
Definition u_lu_demand_to_bitbuf (s : u_lu_demand) : wr :=
  wfield MmUl_ULocationUpdateDemand 4 >>
  wfield (u_lu_demand_location_update_type s) 3 >>
  wflag (u_lu_demand_request_to_append_la s) >>
  wflag (u_lu_demand_cipher_control s) >>
  wopt (u_lu_demand_ciphering_parameters s) (fun value => wfield value 10) >>
  let obit := (is_some (u_lu_demand_class_of_ms s) || is_some (u_lu_demand_energy_saving_mode s) || is_some (u_lu_demand_la_information s) || is_some (u_lu_demand_ssi s) || is_some (u_lu_demand_address_extension s) || is_some (u_lu_demand_group_identity_location_demand s) || is_some (u_lu_demand_group_report_response s) || is_some (u_lu_demand_authentication_uplink s) || is_some (u_lu_demand_extended_capabilities s) || is_some (u_lu_demand_proprietary s))%bool in
  write_obit (N.b2n obit) >>
  (if negb obit then wret else
    write_type2_generic obit (u_lu_demand_class_of_ms s) 24 >>
    write_type2_generic obit (u_lu_demand_energy_saving_mode s) 3 >>
    write_type2_generic obit (option_map (fun la => N.shiftl la 1 mod 2 ^ 64) (u_lu_demand_la_information s)) 15 >>
    write_type2_generic obit (u_lu_demand_ssi s) 24 >>
    write_type2_generic obit (u_lu_demand_address_extension s) 24 >>
    write_type3_struct obit (u_lu_demand_group_identity_location_demand s) MmUl_GroupIdentityLocationDemand gild_to_bitbuf >>
    write_type3_generic obit (u_lu_demand_group_report_response s) MmUl_GroupReportResponse >>
    write_type3_generic obit (u_lu_demand_authentication_uplink s) MmUl_AuthenticationUplink >>
    write_type3_generic obit (u_lu_demand_extended_capabilities s) MmUl_ExtendedCapabilities >>
    write_type3_generic obit (u_lu_demand_proprietary s) MmUl_Proprietary >>
    write_mbit 0).

(** ** u_mm_status.rs *)

(** u_mm_status.rs:18-24 *)
Record u_mm_status := mk_u_mm_status {
  u_mm_status_status_uplink : N;
  u_mm_status_status_uplink_dependent_information : option N;
  u_mm_status_status_uplink_dependent_information_len : option nat }.

(** u_mm_status.rs:30-69 *)
Definition u_mm_status_from_bitbuf : reader u_mm_status :=
  pdu_type <~ rfield 4 ;;
  rguard (pdu_type =? MmUl_UMmStatus) EInvalidPduType ;~
  val <~ rfield 6 ;;
  rguard (status_uplink_ok val) EInvalidValue ;~
  let status_uplink := val in
  bits_left <~ rlen_remaining ;;
  status_uplink_dependent_information <~ ropt (0 <? bits_left)%nat (rfield bits_left) ;;
  rret (mk_u_mm_status status_uplink status_uplink_dependent_information (if (0 <? bits_left)%nat then Some bits_left else None)).

(** u_mm_status.rs:72-86 *)
Definition u_mm_status_to_bitbuf (s : u_mm_status) : wr :=
  wfield MmUl_UMmStatus 4 >>
  wfield (u_mm_status_status_uplink s) 6 >>
  wopt (u_mm_status_status_uplink_dependent_information s) (fun value =>
    match u_mm_status_status_uplink_dependent_information_len s with Some len => wfield value len | None => wpanic end).

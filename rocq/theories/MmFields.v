(** Model of the fields and enumerations used by the MM PDUs: crates/tetra-pdus/src/mm/fields/*.rs, mm/enums/*.rs.

    Enumerations whose [try_from]/[into_raw] tables are the identity on the whole range of the field that
    carries them are represented by their raw number: LocationUpdateType, EnergySavingMode.  StatusUplink is a raw
    number too, with the failing part of its [try_from] kept as a check. *)
From Verif Require Import Base BitBuffer Codec TypedFields CmceFields.
Open Scope N_scope.

(** mm/enums/mm_pdu_type_dl.rs:6-18 *)
Definition MmDl_DOtar : N := 0.
Definition MmDl_DAuthentication : N := 1.
Definition MmDl_DCkChangeDemand : N := 2.
Definition MmDl_DDisable : N := 3.
Definition MmDl_DEnable : N := 4.
Definition MmDl_DLocationUpdateAccept : N := 5.
Definition MmDl_DLocationUpdateCommand : N := 6.
Definition MmDl_DLocationUpdateReject : N := 7.
Definition MmDl_DLocationUpdateProceeding : N := 9.
Definition MmDl_DAttachDetachGroupIdentity : N := 10.
Definition MmDl_DAttachDetachGroupIdentityAcknowledgement : N := 11.
Definition MmDl_DMmStatus : N := 12.
Definition MmDl_MmPduFunctionNotSupported : N := 15.

(** mm/enums/mm_pdu_type_ul.rs:6-17 *)
Definition MmUl_UAuthentication : N := 0.
Definition MmUl_UItsiDetach : N := 1.
Definition MmUl_ULocationUpdateDemand : N := 2.
Definition MmUl_UMmStatus : N := 3.
Definition MmUl_UCkChangeResult : N := 4.
Definition MmUl_UOtar : N := 5.
Definition MmUl_UInformationProvide : N := 6.
Definition MmUl_UAttachDetachGroupIdentity : N := 7.
Definition MmUl_UAttachDetachGroupIdentityAcknowledgement : N := 8.
Definition MmUl_UTeiProvide : N := 9.
Definition MmUl_UDisableStatus : N := 11.
Definition MmUl_MmPduFunctionNotSupported : N := 15.

(** mm/enums/type34_elem_id_dl.rs:6-16 *)
Definition MmDl_DefaultGroupAttachLifetime : N := 1.
Definition MmDl_NewRegisteredArea : N := 2.
Definition MmDl_SecurityDownlink : N := 3.
Definition MmDl_GroupReportResponse : N := 4.
Definition MmDl_GroupIdentityLocationAccept : N := 5.
Definition MmDl_DmMsAddress : N := 6.
Definition MmDl_GroupIdentityDownlink : N := 7.
Definition MmDl_AuthenticationDownlink : N := 10.
Definition MmDl_GroupIdentitySecurityRelatedInformation : N := 12.
Definition MmDl_CellTypeControl : N := 13.
Definition MmDl_Proprietary : N := 15.

(** mm/enums/type34_elem_id_ul.rs:6-12 *)
Definition MmUl_GroupIdentityLocationDemand : N := 3.
Definition MmUl_GroupReportResponse : N := 4.
Definition MmUl_DmMsAddress : N := 6.
Definition MmUl_GroupIdentityUplink : N := 8.
Definition MmUl_AuthenticationUplink : N := 9.
Definition MmUl_ExtendedCapabilities : N := 11.
Definition MmUl_Proprietary : N := 15.

(** mm/enums/status_uplink.rs:58 ff. [StatusUplink::try_from] succeeds: the values listed there are 1..7, 16..24 and 32..63 *)
Definition status_uplink_ok (v : N) : bool :=
  ((1 <=? v) && (v <=? 7)) || ((16 <=? v) && (v <=? 24)) || ((32 <=? v) && (v <=? 63)).

(** [buffer.get_len_remaining()] in a reader *)
Definition rlen_remaining : reader nat := fun b => n <- get_len_remaining b ;; Ok (n, b).

(** ** mm/fields/energy_saving_information.rs *)

(** energy_saving_information.rs:10-17 *)
Record esi := mk_esi { esi_mode : N; esi_frame : option N; esi_multiframe : option N }.

(** energy_saving_information.rs:20-53; StayAlive is 0 *)
Definition esi_from_bitbuf : reader esi :=
  mode <~ rfield 3 ;;
  fn_val <~ rfield 2 ;;
  mn_val <~ rfield 2 ;;
  if mode =? 0 then
    rguard (fn_val =? 0) EInvalidValue ;~
    rguard (mn_val =? 0) EInvalidValue ;~
    rret (mk_esi mode (Some fn_val) (Some mn_val))
  else rret (mk_esi mode None None).

(** energy_saving_information.rs:55-91 *)
Definition esi_to_bitbuf (s : esi) : wr :=
  wfield (esi_mode s) 3 >>
  (if esi_mode s =? 0 then
    wguard (negb (is_some (esi_frame s))) EInvalidValue >>
    wguard (negb (is_some (esi_multiframe s))) EInvalidValue >>
    wfield 0 4
  else
    match esi_frame s with Some f => wfield f 2 | None => werr EFieldNotPresent end >>
    match esi_multiframe s with Some f => wfield f 2 | None => werr EFieldNotPresent end).

(** ** mm/fields/group_identity_attachment.rs *)

(** group_identity_attachment.rs:7-16 *)
Record gia := mk_gia { gia_lifetime : N; gia_class_of_usage : N }.
(** group_identity_attachment.rs:19-29 *)
Definition gia_from_bitbuf : reader gia :=
  lifetime <~ rfield 2 ;; class_of_usage <~ rfield 3 ;; rret (mk_gia lifetime class_of_usage).
(** group_identity_attachment.rs:31-34 *)
Definition gia_to_bitbuf (s : gia) : wr := wfield (gia_lifetime s) 2 >> wfield (gia_class_of_usage s) 3.

(** ** mm/fields/group_identity_downlink.rs *)

(** group_identity_downlink.rs:9-24 *)
Record gid := mk_gid {
  gid_attachment : option gia;
  gid_detachment : option N;
  gid_gssi : option N;
  gid_address_extension : option N;
  gid_vgssi : option N }.

(** group_identity_downlink.rs:27-58 *)
Definition gid_from_bitbuf : reader gid :=
  attach_detach_type_identifier <~ rfield 1 ;;
  attachment <~ ropt (attach_detach_type_identifier =? 0) gia_from_bitbuf ;;
  detachment <~ ropt (attach_detach_type_identifier =? 1) (rfield 2) ;;
  address_type <~ rfield 2 ;;
  gssi <~ ropt ((address_type =? 0) || (address_type =? 1) || (address_type =? 3))%bool (rfield 24) ;;
  address_extension <~ ropt ((address_type =? 1) || (address_type =? 3))%bool (rfield 24) ;;
  vgssi <~ ropt ((address_type =? 2) || (address_type =? 3))%bool (rfield 24) ;;
  rret (mk_gid attachment detachment gssi address_extension vgssi).

(** group_identity_downlink.rs:74-100: [address_type] *)
Definition gid_address_type (s : gid) : res N :=
  if is_some (gid_gssi s) then
    if is_some (gid_address_extension s) then Ok (if is_some (gid_vgssi s) then 3 else 1)
    else if is_some (gid_vgssi s) then Err EInconsistency else Ok 0
  else if is_some (gid_address_extension s) then Err EInconsistency
  else if negb (is_some (gid_vgssi s)) then Err EInconsistency else Ok 2.

(** [let x = e?; k] in a writer *)
Definition wlift {A} (x : res A) (k : A -> wr) : wr := fun b => a <- x ;; k a b.

(** group_identity_downlink.rs:60-114 *)
Definition gid_to_bitbuf (s : gid) : wr :=
  wassert (xorb (is_some (gid_attachment s)) (is_some (gid_detachment s))) >>
  wfield (if is_some (gid_attachment s) then 0 else 1) 1 >>
  wopt (gid_attachment s) gia_to_bitbuf >>
  wopt (gid_detachment s) (fun v => wfield v 2) >>
  wlift (gid_address_type s) (fun address_type =>
  wfield address_type 2 >>
  wopt (gid_gssi s) (fun v => wfield v 24) >>
  wopt (gid_address_extension s) (fun v => wfield v 24) >>
  wopt (gid_vgssi s) (fun v => wfield v 24)).

(** ** mm/fields/group_identity_uplink.rs *)

(** group_identity_uplink.rs:7-22 *)
Record giu := mk_giu {
  giu_class_of_usage : option N;
  giu_detachment : option N;
  giu_gssi : option N;
  giu_address_extension : option N;
  giu_vgssi : option N }.

(** group_identity_uplink.rs:25-56 *)
Definition giu_from_bitbuf : reader giu :=
  attach_detach_type_identifier <~ rfield 1 ;;
  class_of_usage <~ ropt (attach_detach_type_identifier =? 0) (rfield 3) ;;
  detachment <~ ropt (attach_detach_type_identifier =? 1) (rfield 2) ;;
  address_type <~ rfield 2 ;;
  gssi <~ ropt ((address_type =? 0) || (address_type =? 1))%bool (rfield 24) ;;
  address_extension <~ ropt (address_type =? 1) (rfield 24) ;;
  vgssi <~ ropt (address_type =? 2) (rfield 24) ;;
  rret (mk_giu class_of_usage detachment gssi address_extension vgssi).

(** group_identity_uplink.rs:71-77: [address_type]; the assertions panic *)
Definition giu_address_type (s : giu) : res N :=
  if is_some (giu_gssi s) then
    assert (negb (is_some (giu_vgssi s))) ;;; Ok (if is_some (giu_address_extension s) then 1 else 0)
  else assert (is_some (giu_vgssi s)) ;;; Ok 2.

(** group_identity_uplink.rs:58-90 *)
Definition giu_to_bitbuf (s : giu) : wr :=
  wassert (xorb (is_some (giu_class_of_usage s)) (is_some (giu_detachment s))) >>
  wfield (if is_some (giu_class_of_usage s) then 0 else 1) 1 >>
  wopt (giu_class_of_usage s) (fun v => wfield v 3) >>
  wopt (giu_detachment s) (fun v => wfield v 2) >>
  wlift (giu_address_type s) (fun address_type =>
  wfield address_type 2 >>
  wopt (giu_gssi s) (fun v => wfield v 24) >>
  wopt (giu_address_extension s) (fun v => wfield v 24) >>
  wopt (giu_vgssi s) (fun v => wfield v 24)).

(** ** mm/fields/group_identity_location_accept.rs *)

(** group_identity_location_accept.rs:10-17 *)
Record gila := mk_gila { gila_accept_reject : N; gila_downlink : option (list gid) }.
(** group_identity_location_accept.rs:22-50 *)
Definition gila_from_bitbuf : reader gila :=
  accept_reject <~ rfield 1 ;;
  _reserved <~ rflag ;;
  obit <~ read_obit ;;
  downlink <~ parse_type4_struct obit MmDl_GroupIdentityDownlink gid_from_bitbuf ;;
  read_trailing obit ;~
  rret (mk_gila accept_reject downlink).
(** group_identity_location_accept.rs:53-78 *)
Definition gila_to_bitbuf (s : gila) : wr :=
  wfield (gila_accept_reject s) 1 >>
  wfield 0 1 >>
  let obit := is_some (gila_downlink s) in
  write_obit (N.b2n obit) >>
  (if negb obit then wret else
    write_type4_struct obit (gila_downlink s) MmDl_GroupIdentityDownlink gid_to_bitbuf >>
    write_mbit 0).

(** ** mm/fields/group_identity_location_demand.rs *)

(** group_identity_location_demand.rs:16-23 *)
Record gild := mk_gild { gild_mode : N; gild_uplink : option (list giu) }.
(** group_identity_location_demand.rs:28-56 *)
Definition gild_from_bitbuf : reader gild :=
  reserved <~ rfield 1 ;;
  rguard (reserved =? 0) EInvalidValue ;~
  mode <~ rfield 1 ;;
  obit <~ read_obit ;;
  uplink <~ parse_type4_struct obit MmUl_GroupIdentityUplink giu_from_bitbuf ;;
  read_trailing obit ;~
  rret (mk_gild mode uplink).
(** group_identity_location_demand.rs:59-85 *)
Definition gild_to_bitbuf (s : gild) : wr :=
  wfield 0 1 >>
  wfield (gild_mode s) 1 >>
  let obit := is_some (gild_uplink s) in
  write_obit (N.b2n obit) >>
  (if negb obit then wret else
    write_type4_struct obit (gild_uplink s) MmUl_GroupIdentityUplink giu_to_bitbuf >>
    write_mbit 0).

(** Model of the fields and enumerations used by the CMCE PDUs:
    crates/tetra-pdus/src/cmce/fields/*.rs, cmce/enums/*.rs and
    crates/tetra-saps/src/control/enums/{circuit_mode_type,communication_type,sds_user_data}.rs.

    Enumerations whose [try_from]/[into_raw] tables are the identity on the whole range of the field that
    carries them are represented by their raw number: CircuitModeType, CommunicationType, CallTimeout,
    CallTimeoutSetupPhase, TransmissionGrant, PartyTypeIdentifier.  CallStatus (0..4) and DisconnectCause (0..23)
    are raw numbers too, with the failing part of their [try_from] kept as a check. *)
From Verif Require Import Base BitBuffer Codec TypedFields.
Open Scope N_scope.

(** cmce/enums/type3_elem_id.rs:6-14 *)
Definition Cmce_Dtmf : N := 1.
Definition Cmce_ExtSubscriberNum : N := 2.
Definition Cmce_Facility : N := 3.
Definition Cmce_PollResponseAddr : N := 4.
Definition Cmce_TempAddr : N := 5.
Definition Cmce_DmMsAddr : N := 6.
Definition Cmce_Proprietary : N := 15.

(** cmce/enums/cmce_pdu_type_dl.rs:5-24 *)
Definition Dl_DAlert : N := 0.
Definition Dl_DCallProceeding : N := 1.
Definition Dl_DConnect : N := 2.
Definition Dl_DConnectAcknowledge : N := 3.
Definition Dl_DDisconnect : N := 4.
Definition Dl_DInfo : N := 5.
Definition Dl_DRelease : N := 6.
Definition Dl_DSetup : N := 7.
Definition Dl_DStatus : N := 8.
Definition Dl_DTxCeased : N := 9.
Definition Dl_DTxContinue : N := 10.
Definition Dl_DTxGranted : N := 11.
Definition Dl_DTxWait : N := 12.
Definition Dl_DTxInterrupt : N := 13.
Definition Dl_DCallRestore : N := 14.
Definition Dl_DSdsData : N := 15.
Definition Dl_DFacility : N := 16.
Definition Dl_CmceFunctionNotSupported : N := 31.

(** cmce/enums/cmce_pdu_type_ul.rs:5-19 *)
Definition Ul_UAlert : N := 0.
Definition Ul_UConnect : N := 2.
Definition Ul_UDisconnect : N := 4.
Definition Ul_UInfo : N := 5.
Definition Ul_URelease : N := 6.
Definition Ul_USetup : N := 7.
Definition Ul_UStatus : N := 8.
Definition Ul_UTxCeased : N := 9.
Definition Ul_UTxDemand : N := 10.
Definition Ul_UCallRestore : N := 14.
Definition Ul_USdsData : N := 15.
Definition Ul_UFacility : N := 16.
Definition Ul_CmceFunctionNotSupported : N := 31.

(** cmce/enums/party_type_identifier.rs:6-15 *)
Definition Party_Sna : N := 0.
Definition Party_Ssi : N := 1.
Definition Party_Tsi : N := 2.

(** cmce/enums/call_status.rs:13-25 [CallStatus::try_from] *)
Definition call_status_try_from (x : N) : option N := if x <=? 4 then Some x else None.
(** cmce/enums/disconnect_cause.rs:32-63 [DisconnectCause::try_from] *)
Definition disconnect_cause_try_from (x : N) : option N := if x <=? 23 then Some x else None.

(** [E::try_from(val).map_err(InvalidValue)?] *)
Definition r_try {A} (x : option A) : reader A := match x with Some v => rret v | None => rerr EInvalidValue end.

(** The match on an optional CallStatus (d_call_proceeding.rs:63-69) *)
Definition r_try_opt {A} (f : N -> option A) (v : option N) : reader (option A) :=
  match v with
  | None => rret None
  | Some x => y <~ r_try (f x) ;; rret (Some y)
  end.

(** The end of every [from_bitbuf] with optional elements, e.g. d_alert.rs:71-74:
    [obit = if obit { read_field(1)? == 1 } else { obit }; if obit { return Err(InvalidTrailingMbitValue) }] *)
Definition read_trailing (obit : bool) : reader unit :=
  t <~ (if obit then rflag else rret obit) ;;
  rguard (negb t) EInvalidTrailingMbitValue.

(** ** cmce/fields/basic_service_information.rs *)

(** basic_service_information.rs:8-20 *)
Record bsi := mk_bsi {
  bsi_circuit_mode : N;
  bsi_encryption : bool;
  bsi_comm_type : N;
  bsi_slots : option N;
  bsi_speech : option N }.

(** basic_service_information.rs:23-51 *)
Definition bsi_from_bitbuf : reader bsi :=
  circuit_mode_type <~ rfield 3 ;;
  encryption_flag <~ rflag ;;
  communication_type <~ rfield 2 ;;
  if circuit_mode_type =? 0 then
    speech_service <~ rfield 2 ;;
    rret (mk_bsi circuit_mode_type encryption_flag communication_type None (Some speech_service))
  else
    slots_per_frame <~ rfield 2 ;;
    rret (mk_bsi circuit_mode_type encryption_flag communication_type (Some slots_per_frame) None).

(** basic_service_information.rs:59-68: the sanity check of [to_bitbuf] *)
Definition bsi_consistent (s : bsi) : bool :=
  match bsi_slots s, bsi_speech s with
  | None, Some _ => bsi_circuit_mode s =? 0
  | Some _, None => true
  | _, _ => false
  end.

(** basic_service_information.rs:53-80 *)
Definition bsi_to_bitbuf (s : bsi) : wr :=
  wfield (bsi_circuit_mode s) 3 >>
  wflag (bsi_encryption s) >>
  wfield (bsi_comm_type s) 2 >>
  wguard (bsi_consistent s) EInvalidValue >>
  wopt (bsi_slots s) (fun v => wfield v 2) >>
  wopt (bsi_speech s) (fun v => wfield v 2).

(** ** SdsUserData *)

(** sds_user_data.rs:2-11 *)
Inductive sds_user_data :=
| SdsType1 (v : N)
| SdsType2 (v : N)
| SdsType3 (v : N)
| SdsType4 (len_bits : N) (data : list N).

(** sds_user_data.rs:14-21 [type_identifier] *)
Definition sds_type_identifier (d : sds_user_data) : N :=
  match d with SdsType1 _ => 0 | SdsType2 _ => 1 | SdsType3 _ => 2 | SdsType4 _ _ => 3 end.

(** sds_user_data.rs:23-30 [length_bits] *)
Definition sds_length_bits (d : sds_user_data) : N :=
  match d with SdsType1 _ => 16 | SdsType2 _ => 32 | SdsType3 _ => 64 | SdsType4 n _ => n end.

(** [v.to_be_bytes()] of an integer of [n] bytes *)
Fixpoint be_bytes (n : nat) (v : N) : list N :=
  match n with O => [] | S k => be_bytes k (v / 256) ++ [v mod 256] end.

(** sds_user_data.rs:32-39 [to_arr] *)
Definition sds_to_arr (d : sds_user_data) : list N :=
  match d with
  | SdsType1 v => be_bytes 2 v
  | SdsType2 v => be_bytes 4 v
  | SdsType3 v => be_bytes 8 v
  | SdsType4 _ data => data
  end.

(** u_sds_data.rs:73-90 = d_sds_data.rs:58-75: the type identifier and the data.
    [num_bytes = (len_bits + 7) / 8]; the identifier has two bits so the last arm is unreachable. *)
Definition sds_from_bitbuf : reader sds_user_data :=
  short_data_type_identifier <~ rfield 2 ;;
  if short_data_type_identifier =? 0 then v <~ rfield 16 ;; rret (SdsType1 v)
  else if short_data_type_identifier =? 1 then v <~ rfield 32 ;; rret (SdsType2 v)
  else if short_data_type_identifier =? 2 then v <~ rfield 64 ;; rret (SdsType3 v)
  else if short_data_type_identifier =? 3 then
    len_bits <~ rfield 11 ;;
    let num_bytes := N.to_nat ((len_bits + 7) / 8) in
    data <~ (fun b => read_bits_into_slice b (N.to_nat len_bits) num_bytes) ;;
    match data with
    | Some data => rret (SdsType4 len_bits data)
    | None => rerr EBufferEnded
    end
  else rpanic.

(** u_sds_data.rs:152-154: [for i in 0..full_bytes { write_bits(data[i] as u64, 8) }] *)
Fixpoint sds_write_bytes (data : list N) (i : nat) (k : nat) : wr :=
  match k with
  | O => wret
  | S k' => match nth_error data i with
            | Some x => wfield x 8 >> sds_write_bytes data (S i) k'
            | None => wpanic
            end
  end.

(** u_sds_data.rs:141-159 = d_sds_data.rs:118-136 *)
Definition sds_to_bitbuf (d : sds_user_data) : wr :=
  wfield (sds_type_identifier d) 2 >>
  match d with
  | SdsType1 v => wfield v 16
  | SdsType2 v => wfield v 32
  | SdsType3 v => wfield v 64
  | SdsType4 len_bits data =>
      wfield len_bits 11 >>
      let full_bytes := N.to_nat (len_bits / 8) in
      let remaining_bits := len_bits mod 8 in
      sds_write_bytes data 0 full_bytes >>
      if 0 <? remaining_bits then
        match nth_error data full_bytes with
        | Some x => wfield (N.shiftr x (8 - remaining_bits)) (N.to_nat remaining_bits)
        | None => wpanic
        end
      else wret
  end.

(** ** Pre-coded status *)

(** sds_short_report.rs:10-15; ShortReportType (short_report_type.rs) is the identity on its two bits *)
Record sds_short_report := mk_ssr { ssr_type : N; ssr_reference : N }.

(** sds_short_report.rs:27-39 [from_u16] *)
Definition ssr_from_u16 (val : N) : res sds_short_report :=
  let pdu_type := N.shiftr val 10 in
  if pdu_type =? 31 then
    Ok (mk_ssr (N.land (N.shiftr val 8) 3) (N.land val 255))
  else Err EInvalidValue.

(** sds_short_report.rs:41-45 [to_u16] *)
Definition ssr_to_u16 (s : sds_short_report) : res N :=
  assert (ssr_type s <=? 3) ;;;
  Ok (N.lor (N.lor (N.shiftl 31 10) (N.shiftl (ssr_type s) 8)) (N.land (ssr_reference s) 255)).

(** pre_coded_status.rs:9-14 *)
Inductive pre_coded_status :=
| PcsEmergency
| PcsReserved (v : N)
| PcsSdsTl (r : sds_short_report)
| PcsNetworkUser (v : N).

(** pre_coded_status.rs:16-25 [From<u16>]; [from_u16(x).unwrap()] panics when [from_u16] fails *)
Definition pcs_from_u16 (x : N) : res pre_coded_status :=
  if x =? 0 then Ok PcsEmergency
  else if x <=? 31742 then Ok (PcsReserved x)
  else if x <=? 32767 then
    match ssr_from_u16 x with
    | Ok r => Ok (PcsSdsTl r)
    | _ => Panic
    end
  else Ok (PcsNetworkUser x).

(** pre_coded_status.rs:29-36 [into_raw] *)
Definition pcs_into_raw (p : pre_coded_status) : res N :=
  match p with
  | PcsEmergency => Ok 0
  | PcsReserved x => Ok x
  | PcsSdsTl r => ssr_to_u16 r
  | PcsNetworkUser x => Ok x
  end.

(** [buffer.write_bits(self.pre_coded_status.into_raw().into(), 16)] *)
Definition pcs_write (p : pre_coded_status) : wr := fun b => v <- pcs_into_raw p ;; wfield v 16 b.

(** Model of crates/tetra-entities/src/cmce/subentities/sds_bs.rs: the short data service of the base station.

    A message to the lower layer carries the bits of its SDU.  Logging is left out, and so are the fields of
    [LcmcMleUnitdataReq] that are constant: handle, endpoint, link, priorities, no stealing, no channel allocation,
    no report. *)
From Verif Require Import Base BitBuffer Codec TypedFields TdmaTime MacFields CmceFields CmcePdus BrewRoute Registry CallControl.
Open Scope N_scope.

(** ** Messages *)

(** A [SapMsg] by destination: to the radios, with whether layer 2 is asked for the acknowledged service, the
    unacknowledged one or neither ([Layer2Service]); or to the network side, [CmceSdsData] *)
Inductive l2_service := L2Todo | L2Acknowledged | L2Unacknowledged.
Inductive sds_msg :=
| SdToMle (t : tdma_time) (addr : tetra_addr) (service : l2_service) (sdu : bitbuf)
| SdToBrew (t : tdma_time) (source dest : N) (data : sds_user_data).

(** [BitBuffer::new_autoexpand(n)], the writer, [seek(0)]: no message when the writer returns an error *)
Definition sds_send (n : nat) (w : wr) (k : bitbuf -> sds_msg) : res (list sds_msg) :=
  match w (bb_new_autoexpand n) with
  | Ok b => b <- seek 0 b ;; Ok [k b]
  | Err _ => Ok []
  | Panic => Panic
  end.

(** sds_bs.rs:310-365 [send_d_sds_data]; PartyTypeIdentifier::Ssi is 1 *)
Definition send_d_sds_data (t : tdma_time) (source dest : N) (ty : ssi_type) (data : sds_user_data) : res (list sds_msg) :=
  let pdu := mk_d_sds_data 1 (Some source) None data None None in
  sds_send 128 (d_sds_data_to_bitbuf pdu) (fun sdu =>
    SdToMle t (mk_addr dest false ty) (match ty with SsiGssi => L2Unacknowledged | _ => L2Acknowledged end) sdu).

(** sds_bs.rs:259-308 [send_d_status] *)
Definition send_d_status (t : tdma_time) (source dest : N) (status : pre_coded_status) : res (list sds_msg) :=
  let pdu := mk_d_status 1 (Some source) None status None None in
  sds_send 64 (d_status_to_bitbuf pdu) (fun sdu => SdToMle t (mk_addr dest false SsiIssi) L2Todo sdu).

(** [match X::from_bitbuf(&mut prim.sdu) { Ok(pdu) => pdu, Err(e) => { warn; return } }] *)
Definition sds_parsed {A} (r : reader A) (i : mle_ind) (k : A -> res (list sds_msg)) : res (list sds_msg) :=
  match r (mi_sdu i) with
  | Ok (p, _) => k p
  | Err _ => Ok []
  | Panic => Panic
  end.

Section Config.
(** The configuration and the subscriber registry of the shared state *)
Variable cfg : cfg_route.
Variable reg : registry.

(** sds_bs.rs:31-95 [route_rf_deliver].  [feature_check_u_sds_data] (367-387) asks for [called_party_ssi]; [as u32]
    does not change a 24-bit value *)
Definition route_rf_deliver (i : mle_ind) : res (list sds_msg) :=
  sds_parsed u_sds_data_from_bitbuf i (fun p =>
    match u_sds_data_called_party_ssi p with
    | None => Ok []
    | Some dest =>
        let source := ad_ssi (mi_addr i) in
        let t := mi_dltime i in
        let data := u_sds_data_user_defined_data p in
        let is_local_issi := reg_is_registered dest reg in
        let is_local_group := negb is_local_issi && reg_has_members dest reg in
        if is_local_issi then send_d_sds_data t source dest SsiIssi data
        else if is_local_group then send_d_sds_data t source dest SsiGssi data
        else if brew_sds_enabled cfg && (brew_issi_routable cfg dest || is_tetrapack_sds_service cfg dest)
        then Ok [SdToBrew t source dest data]
        else Ok []
    end).

(** sds_bs.rs:219-224; ShortReportType: 0 not supported, 1 memory full, 2 received, 3 consumed *)
Definition short_report_status (ty : N) : N := if ty =? 0 then 1 else if ty =? 1 then 2 else 0.
(** sds_bs.rs:218-237 *)
Definition status_for_network (s : pre_coded_status) : res sds_user_data :=
  match s with
  | PcsSdsTl r => Ok (SdsType4 32 [130; 16; short_report_status (ssr_type r); ssr_reference r])
  | _ => v <- pcs_into_raw s ;; Ok (SdsType1 v)
  end.

(** sds_bs.rs:168-257 [route_status_deliver] *)
Definition route_status_deliver (i : mle_ind) : res (list sds_msg) :=
  sds_parsed u_status_from_bitbuf i (fun p =>
    match u_status_called_party_ssi p with
    | None => Ok []
    | Some dest =>
        let source := ad_ssi (mi_addr i) in
        let t := mi_dltime i in
        if reg_is_registered dest reg then send_d_status t source dest (u_status_pre_coded_status p)
        else if brew_is_active cfg && (brew_issi_routable cfg dest || is_tetrapack_sds_service cfg dest)
        then data <- status_for_network (u_status_pre_coded_status p) ;; Ok [SdToBrew t source dest data]
        else Ok []
    end).

(** sds_bs.rs:97-125 [rx_sds_from_brew] *)
Definition rx_sds_from_brew (t : tdma_time) (source dest : N) (data : sds_user_data) : res (list sds_msg) :=
  if negb (reg_is_registered dest reg) then Ok []
  else send_d_sds_data (forward_to_timeslot t 1) source dest SsiIssi data.

(** sds_bs.rs:127-166 [rx_sds_from_control]: whether it was accepted, and what is sent; [TdmaTime::default()] is
    forwarded to timeslot 1 *)
Definition rx_sds_from_control (source dest : N) (is_group : bool) (len_bits : N) (payload : list N) : res (bool * list sds_msg) :=
  if negb (reg_is_registered dest reg) then Ok (false, [])
  else
    q <- send_d_sds_data (forward_to_timeslot time_default 1) source dest (if is_group then SsiGssi else SsiIssi) (SdsType4 len_bits payload) ;;
    Ok (true, q).
End Config.

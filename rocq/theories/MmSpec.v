(** Formats of the MM PDUs as documented on their fields (EN 300 392-2 clause 16.9): for each PDU the bits of a
    value on the wire and the values that have a representation.  Written from the tables, not from the code. *)
From Verif Require Import Base BitsLib TypedFields MmFields MmPdus PduSpec.
Open Scope N_scope.

(** ** Elements *)

(** a type 3 element with given content; its content must fit the 11-bit length *)
Definition t3s {T} (id : N) (f : T -> list bool) (o : option T) : list bool :=
  match o with
  | Some v => true :: bits_of 4 id ++ bits_of 11 (N.of_nat (length (f v))) ++ f v
  | None => []
  end.
Definition fit3s {T} (f : T -> list bool) (ok : T -> bool) (o : option T) : bool :=
  match o with Some v => ok v && fit 11 (N.of_nat (length (f v))) | None => true end.
(** a type 4 element: like type 3, with a 6-bit count of its parts at the head of the content *)
Definition t4s {T} (id : N) (f : T -> list bool) (o : option (list T)) : list bool :=
  match o with
  | Some l => true :: bits_of 4 id ++ bits_of 11 (N.of_nat (6 + length (flat_map f l))) ++ bits_of 6 (N.of_nat (length l)) ++ flat_map f l
  | None => []
  end.
Definition fit4s {T} (f : T -> list bool) (ok : T -> bool) (o : option (list T)) : bool :=
  match o with
  | Some l => forallb ok l && fit 11 (N.of_nat (6 + length (flat_map f l))) && fit 6 (N.of_nat (length l))
  | None => true
  end.
(** a type 4 element of unspecified content, at most 64 bits of it *)
Definition t4 (id : N) (o : option type4_generic) : list bool :=
  match o with
  | Some e => true :: bits_of 4 id ++ bits_of 11 (N.of_nat (6 + t4_len e)) ++ bits_of 6 (N.of_nat (t4_elems e)) ++ bits_of (t4_len e) (t4_data e)
  | None => []
  end.
Definition fit4 (id : N) (o : option type4_generic) : bool :=
  match o with
  | Some e => (t4_id e =? id) && (t4_len e <=? 64)%nat && fit 6 (N.of_nat (t4_elems e)) && fit (t4_len e) (t4_data e)
  | None => true
  end.

(** 16.10.10 Energy saving information, as laid out on the fields of the structure: mode 3 bits, frame 2 bits, multiframe 2 bits
    (the standard and the comment in d_location_update_accept.rs say 14 bits) *)
Definition esi_bits (s : esi) : list bool :=
  num 3 (esi_mode s) ++ num 2 (match esi_frame s with Some v => v | None => 0 end) ++ num 2 (match esi_multiframe s with Some v => v | None => 0 end).

(** Group identity address type, 16.10.15: 0 GSSI, 1 GSSI with extension, 2 (V)GSSI, 3 GSSI with extension and (V)GSSI *)
Definition address_type (gssi ext vgssi : bool) : option N :=
  match gssi, ext, vgssi with
  | true, false, false => Some 0
  | true, true, false => Some 1
  | false, false, true => Some 2
  | true, true, true => Some 3
  | _, _, _ => None
  end.
Definition address_bits (t : option N) (gssi ext vgssi : option N) : list bool :=
  cond 2 t ++ cond 24 gssi ++ cond 24 ext ++ cond 24 vgssi.

(** 16.10.22 Group identity downlink: attach (0) with lifetime and class of usage, or detach (1) with the reason; the address *)
Definition gid_bits (s : gid) : list bool :=
  match gid_attachment s with
  | Some a => flag false ++ num 2 (gia_lifetime a) ++ num 3 (gia_class_of_usage a)
  | None => flag true ++ cond 2 (gid_detachment s)
  end ++
  address_bits (address_type (some (gid_gssi s)) (some (gid_address_extension s)) (some (gid_vgssi s)))
    (gid_gssi s) (gid_address_extension s) (gid_vgssi s).
Definition gid_valid (s : gid) : bool :=
  xorb (some (gid_attachment s)) (some (gid_detachment s)) &&
  fits_with (fun a => fit 2 (gia_lifetime a) && fit 3 (gia_class_of_usage a)) (gid_attachment s) && fito 2 (gid_detachment s) &&
  some (address_type (some (gid_gssi s)) (some (gid_address_extension s)) (some (gid_vgssi s))) &&
  fito 24 (gid_gssi s) && fito 24 (gid_address_extension s) && fito 24 (gid_vgssi s).

(** 16.10.27 Group identity uplink: attach (0) with class of usage, or detach (1) with the reason; the address (types 0 to 2) *)
Definition giu_bits (s : giu) : list bool :=
  match giu_class_of_usage s with
  | Some c => flag false ++ num 3 c
  | None => flag true ++ cond 2 (giu_detachment s)
  end ++
  address_bits (address_type (some (giu_gssi s)) (some (giu_address_extension s)) (some (giu_vgssi s)))
    (giu_gssi s) (giu_address_extension s) (giu_vgssi s).
Definition giu_valid (s : giu) : bool :=
  xorb (some (giu_class_of_usage s)) (some (giu_detachment s)) &&
  fito 3 (giu_class_of_usage s) && fito 2 (giu_detachment s) &&
  match address_type (some (giu_gssi s)) (some (giu_address_extension s)) (some (giu_vgssi s)) with Some t => t <? 3 | None => false end &&
  fito 24 (giu_gssi s) && fito 24 (giu_address_extension s) && fito 24 (giu_vgssi s).

(** 16.10.23 Group identity location accept, 16.10.24 Group identity location demand *)
Definition gila_bits (s : gila) : list bool :=
  num 1 (gila_accept_reject s) ++ num 1 0 ++ options [some (gila_downlink s)] (t4s 7 gid_bits (gila_downlink s)).
Definition gila_valid (s : gila) : bool := fit 1 (gila_accept_reject s) && fit4s gid_bits gid_valid (gila_downlink s).
Definition gild_bits (s : gild) : list bool :=
  num 1 0 ++ num 1 (gild_mode s) ++ options [some (gild_uplink s)] (t4s 8 giu_bits (gild_uplink s)).
Definition gild_valid (s : gild) : bool := fit 1 (gild_mode s) && fit4s giu_bits giu_valid (gild_uplink s).

(** ** PDUs *)

(** D-ATTACH-DETACH-GROUP-IDENTITY, PDU type 10 *)
Definition d_attach_detach_wire (s : d_attach_detach) : list bool :=
  num 4 10 ++
  flag (d_attach_detach_group_identity_report s) ++
  flag (d_attach_detach_group_identity_acknowledgement_request s) ++
  flag (d_attach_detach_group_identity_attach_detach_mode s) ++
  options [some (d_attach_detach_proprietary s); some (d_attach_detach_group_report_response s); some (d_attach_detach_group_identity_downlink s); some (d_attach_detach_group_identity_security_related_information s)]
    (t3 15 (d_attach_detach_proprietary s) ++
     t3 4 (d_attach_detach_group_report_response s) ++
     t4s 7 gid_bits (d_attach_detach_group_identity_downlink s) ++
     t4 12 (d_attach_detach_group_identity_security_related_information s)).
Definition d_attach_detach_valid (s : d_attach_detach) : bool :=
  fit3 15 (d_attach_detach_proprietary s) &&
  fit3 4 (d_attach_detach_group_report_response s) &&
  fit4s gid_bits gid_valid (d_attach_detach_group_identity_downlink s) &&
  fit4 12 (d_attach_detach_group_identity_security_related_information s).
(** type 4 elements of unspecified content cannot be written: see C45_type4_refuted *)
Definition d_attach_detach_writable (s : d_attach_detach) : bool :=
  negb (some (d_attach_detach_group_identity_security_related_information s)).

(** D-ATTACH-DETACH-GROUP-IDENTITY-ACKNOWLEDGEMENT, PDU type 11 *)
Definition d_attach_detach_ack_wire (s : d_attach_detach_ack) : list bool :=
  num 4 11 ++
  num 1 (d_attach_detach_ack_group_identity_accept_reject s) ++
  flag (d_attach_detach_ack_reserved s) ++
  options [some (d_attach_detach_ack_proprietary s); some (d_attach_detach_ack_group_identity_downlink s); some (d_attach_detach_ack_group_identity_security_related_information s)]
    (t3 15 (d_attach_detach_ack_proprietary s) ++
     t4s 7 gid_bits (d_attach_detach_ack_group_identity_downlink s) ++
     t4 12 (d_attach_detach_ack_group_identity_security_related_information s)).
Definition d_attach_detach_ack_valid (s : d_attach_detach_ack) : bool :=
  fit 1 (d_attach_detach_ack_group_identity_accept_reject s) &&
  fit3 15 (d_attach_detach_ack_proprietary s) &&
  fit4s gid_bits gid_valid (d_attach_detach_ack_group_identity_downlink s) &&
  fit4 12 (d_attach_detach_ack_group_identity_security_related_information s).
(** type 4 elements of unspecified content cannot be written: see C45_type4_refuted *)
Definition d_attach_detach_ack_writable (s : d_attach_detach_ack) : bool :=
  negb (some (d_attach_detach_ack_group_identity_security_related_information s)).

(** D-LOCATION-UPDATE-ACCEPT, PDU type 5 *)
Definition d_lu_accept_wire (s : d_lu_accept) : list bool :=
  num 4 5 ++
  num 3 (d_lu_accept_location_update_accept_type s) ++
  options [some (d_lu_accept_ssi s); some (d_lu_accept_address_extension s); some (d_lu_accept_subscriber_class s); some (d_lu_accept_energy_saving_information s); some (d_lu_accept_scch_information_and_distribution_on_18th_frame s); some (d_lu_accept_new_registered_area s); some (d_lu_accept_security_downlink s); some (d_lu_accept_group_identity_location_accept s); some (d_lu_accept_default_group_attachment_lifetime s); some (d_lu_accept_authentication_downlink s); some (d_lu_accept_group_identity_security_related_information s); some (d_lu_accept_cell_type_control s); some (d_lu_accept_proprietary s)]
    (t2 24 (d_lu_accept_ssi s) ++
     t2 24 (d_lu_accept_address_extension s) ++
     t2 16 (d_lu_accept_subscriber_class s) ++
     t2s esi_bits (d_lu_accept_energy_saving_information s) ++
     t2 6 (d_lu_accept_scch_information_and_distribution_on_18th_frame s) ++
     t4 2 (d_lu_accept_new_registered_area s) ++
     t3 3 (d_lu_accept_security_downlink s) ++
     t3s 5 gila_bits (d_lu_accept_group_identity_location_accept s) ++
     t3 1 (d_lu_accept_default_group_attachment_lifetime s) ++
     t3 10 (d_lu_accept_authentication_downlink s) ++
     t4 12 (d_lu_accept_group_identity_security_related_information s) ++
     t3 13 (d_lu_accept_cell_type_control s) ++
     t3 15 (d_lu_accept_proprietary s)).
Definition d_lu_accept_valid (s : d_lu_accept) : bool :=
  fit 3 (d_lu_accept_location_update_accept_type s) &&
  fito 24 (d_lu_accept_ssi s) &&
  fito 24 (d_lu_accept_address_extension s) &&
  fito 16 (d_lu_accept_subscriber_class s) &&
  negb (some (d_lu_accept_energy_saving_information s)) &&
  fito 6 (d_lu_accept_scch_information_and_distribution_on_18th_frame s) &&
  fit4 2 (d_lu_accept_new_registered_area s) &&
  fit3 3 (d_lu_accept_security_downlink s) &&
  fit3s gila_bits gila_valid (d_lu_accept_group_identity_location_accept s) &&
  fit3 1 (d_lu_accept_default_group_attachment_lifetime s) &&
  fit3 10 (d_lu_accept_authentication_downlink s) &&
  fit4 12 (d_lu_accept_group_identity_security_related_information s) &&
  fit3 13 (d_lu_accept_cell_type_control s) &&
  fit3 15 (d_lu_accept_proprietary s).
(** type 4 elements of unspecified content cannot be written: see C45_type4_refuted *)
Definition d_lu_accept_writable (s : d_lu_accept) : bool :=
  negb (some (d_lu_accept_new_registered_area s)) && negb (some (d_lu_accept_group_identity_security_related_information s)).

(** D-LOCATION-UPDATE-COMMAND, PDU type 6 *)
Definition d_lu_command_wire (s : d_lu_command) : list bool :=
  num 4 6 ++
  flag (d_lu_command_group_identity_report s) ++
  flag (d_lu_command_cipher_control s) ++
  cond 10 (d_lu_command_ciphering_parameters s) ++
  options [some (d_lu_command_address_extension s)]
    (t2 24 (d_lu_command_address_extension s) ++
     cond 3 (d_lu_command_cell_type_control s) ++
     cond 3 (d_lu_command_proprietary s)).
Definition d_lu_command_valid (s : d_lu_command) : bool :=
  Bool.eqb (some (d_lu_command_ciphering_parameters s)) (d_lu_command_cipher_control s) && fito 10 (d_lu_command_ciphering_parameters s) &&
  fito 24 (d_lu_command_address_extension s) &&
  fito 3 (d_lu_command_cell_type_control s) &&
  fito 3 (d_lu_command_proprietary s).

(** D-LOCATION-UPDATE-PROCEEDING, PDU type 9 *)
Definition d_lu_proceeding_wire (s : d_lu_proceeding) : list bool :=
  num 4 9 ++
  num 24 (d_lu_proceeding_ssi s) ++
  num 24 (d_lu_proceeding_address_extension s) ++
  options [some (d_lu_proceeding_proprietary s)]
    (t3 15 (d_lu_proceeding_proprietary s)).
Definition d_lu_proceeding_valid (s : d_lu_proceeding) : bool :=
  fit 24 (d_lu_proceeding_ssi s) &&
  fit 24 (d_lu_proceeding_address_extension s) &&
  fit3 15 (d_lu_proceeding_proprietary s).

(** D-LOCATION-UPDATE-REJECT, PDU type 7 *)
Definition d_lu_reject_wire (s : d_lu_reject) : list bool :=
  num 4 7 ++
  num 3 (d_lu_reject_location_update_type s) ++
  num 5 (d_lu_reject_reject_cause s) ++
  flag (d_lu_reject_cipher_control s) ++
  cond 10 (d_lu_reject_ciphering_parameters s) ++
  options [some (d_lu_reject_address_extension s); some (d_lu_reject_cell_type_control s); some (d_lu_reject_proprietary s)]
    (t2 24 (d_lu_reject_address_extension s) ++
     t3 13 (d_lu_reject_cell_type_control s) ++
     t3 15 (d_lu_reject_proprietary s)).
Definition d_lu_reject_valid (s : d_lu_reject) : bool :=
  fit 3 (d_lu_reject_location_update_type s) &&
  fit 5 (d_lu_reject_reject_cause s) &&
  Bool.eqb (some (d_lu_reject_ciphering_parameters s)) (d_lu_reject_cipher_control s) && fito 10 (d_lu_reject_ciphering_parameters s) &&
  fito 24 (d_lu_reject_address_extension s) &&
  fit3 13 (d_lu_reject_cell_type_control s) &&
  fit3 15 (d_lu_reject_proprietary s).

(** D-MM-STATUS, PDU type 12; only statuses without dependent information *)
Definition d_mm_status_wire (s : d_mm_status) : list bool := num 4 12 ++ num 6 (d_mm_status_status_downlink s) ++ [false].
Definition d_mm_status_valid (s : d_mm_status) : bool :=
  fit 6 (d_mm_status_status_downlink s) && negb (some (d_mm_status_status_downlink_dependent_information s)).

(** MM PDU/FUNCTION NOT SUPPORTED, PDU type 15 *)
Definition mm_function_not_supported_wire (s : mm_function_not_supported) : list bool :=
  num 4 15 ++ num 4 (mm_function_not_supported_not_supported_pdu_type s) ++
  match mm_function_not_supported_not_supported_sub_pdu_type s with
  | Some (len, v) => options [true] (t2 len (Some v))
  | None => options [] []
  end.
Definition mm_function_not_supported_valid (s : mm_function_not_supported) : bool :=
  fit 4 (mm_function_not_supported_not_supported_pdu_type s) &&
  fits_with (fun '(len, v) => (len <=? 64)%nat && fit len v) (mm_function_not_supported_not_supported_sub_pdu_type s).

(** U-ATTACH-DETACH-GROUP-IDENTITY, PDU type 7 *)
Definition u_attach_detach_wire (s : u_attach_detach) : list bool :=
  num 4 7 ++
  flag (u_attach_detach_group_identity_report s) ++
  flag (u_attach_detach_group_identity_attach_detach_mode s) ++
  options [some (u_attach_detach_group_report_response s); some (u_attach_detach_group_identity_uplink s); some (u_attach_detach_proprietary s)]
    (t3 4 (u_attach_detach_group_report_response s) ++
     t4s 8 giu_bits (u_attach_detach_group_identity_uplink s) ++
     t3 15 (u_attach_detach_proprietary s)).
Definition u_attach_detach_valid (s : u_attach_detach) : bool :=
  fit3 4 (u_attach_detach_group_report_response s) &&
  fit4s giu_bits giu_valid (u_attach_detach_group_identity_uplink s) &&
  fit3 15 (u_attach_detach_proprietary s).

(** U-ATTACH-DETACH-GROUP-IDENTITY-ACKNOWLEDGEMENT, PDU type 8 *)
Definition u_attach_detach_ack_wire (s : u_attach_detach_ack) : list bool :=
  num 4 8 ++
  flag (u_attach_detach_ack_group_identity_acknowledgement_type s) ++
  options [some (u_attach_detach_ack_group_identity_uplink s); some (u_attach_detach_ack_proprietary s)]
    (t4s 8 giu_bits (u_attach_detach_ack_group_identity_uplink s) ++
     t3 15 (u_attach_detach_ack_proprietary s)).
Definition u_attach_detach_ack_valid (s : u_attach_detach_ack) : bool :=
  fit4s giu_bits giu_valid (u_attach_detach_ack_group_identity_uplink s) &&
  fit3 15 (u_attach_detach_ack_proprietary s).

(** U-ITSI-DETACH, PDU type 1 *)
Definition u_itsi_detach_wire (s : u_itsi_detach) : list bool :=
  num 4 1 ++
  options [some (u_itsi_detach_address_extension s); some (u_itsi_detach_proprietary s)]
    (t2 24 (u_itsi_detach_address_extension s) ++
     t3 15 (u_itsi_detach_proprietary s)).
Definition u_itsi_detach_valid (s : u_itsi_detach) : bool :=
  fito 24 (u_itsi_detach_address_extension s) &&
  fit3 15 (u_itsi_detach_proprietary s).

(** U-LOCATION-UPDATE-DEMAND, PDU type 2 *)
Definition u_lu_demand_wire (s : u_lu_demand) : list bool :=
  num 4 2 ++
  num 3 (u_lu_demand_location_update_type s) ++
  flag (u_lu_demand_request_to_append_la s) ++
  flag (u_lu_demand_cipher_control s) ++
  cond 10 (u_lu_demand_ciphering_parameters s) ++
  options [some (u_lu_demand_class_of_ms s); some (u_lu_demand_energy_saving_mode s); some (u_lu_demand_la_information s); some (u_lu_demand_ssi s); some (u_lu_demand_address_extension s); some (u_lu_demand_group_identity_location_demand s); some (u_lu_demand_group_report_response s); some (u_lu_demand_authentication_uplink s); some (u_lu_demand_extended_capabilities s); some (u_lu_demand_proprietary s)]
    (t2 24 (u_lu_demand_class_of_ms s) ++
     t2 3 (u_lu_demand_energy_saving_mode s) ++
     t2s (fun la => num 14 la ++ flag false) (u_lu_demand_la_information s) ++
     t2 24 (u_lu_demand_ssi s) ++
     t2 24 (u_lu_demand_address_extension s) ++
     t3s 3 gild_bits (u_lu_demand_group_identity_location_demand s) ++
     t3 4 (u_lu_demand_group_report_response s) ++
     t3 9 (u_lu_demand_authentication_uplink s) ++
     t3 11 (u_lu_demand_extended_capabilities s) ++
     t3 15 (u_lu_demand_proprietary s)).
Definition u_lu_demand_valid (s : u_lu_demand) : bool :=
  fit 3 (u_lu_demand_location_update_type s) &&
  Bool.eqb (some (u_lu_demand_ciphering_parameters s)) (u_lu_demand_cipher_control s) && fito 10 (u_lu_demand_ciphering_parameters s) &&
  fito 24 (u_lu_demand_class_of_ms s) &&
  fito 3 (u_lu_demand_energy_saving_mode s) &&
  fito 14 (u_lu_demand_la_information s) &&
  fito 24 (u_lu_demand_ssi s) &&
  fito 24 (u_lu_demand_address_extension s) &&
  fit3s gild_bits gild_valid (u_lu_demand_group_identity_location_demand s) &&
  fit3 4 (u_lu_demand_group_report_response s) &&
  fit3 9 (u_lu_demand_authentication_uplink s) &&
  fit3 11 (u_lu_demand_extended_capabilities s) &&
  fit3 15 (u_lu_demand_proprietary s).

(** U-MM-STATUS, PDU type 3: status, then whatever belongs to it up to the end of the message, at most 64 bits; statuses 16.10.64 *)
Definition u_mm_status_wire (s : u_mm_status) : list bool :=
  num 4 3 ++ num 6 (u_mm_status_status_uplink s) ++
  match u_mm_status_status_uplink_dependent_information_len s with
  | Some n => cond n (u_mm_status_status_uplink_dependent_information s)
  | None => []
  end.
Definition u_mm_status_valid (s : u_mm_status) : bool :=
  let v := u_mm_status_status_uplink s in
  (((1 <=? v) && (v <=? 7)) || ((16 <=? v) && (v <=? 24)) || ((32 <=? v) && (v <=? 63))) &&
  match u_mm_status_status_uplink_dependent_information s, u_mm_status_status_uplink_dependent_information_len s with
  | Some v, Some n => (1 <=? n)%nat && (n <=? 64)%nat && fit n v
  | None, None => true
  | _, _ => false
  end.

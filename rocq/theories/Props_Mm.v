(** Property theorems for C45: MM PDUs. *)
From Verif Require Import Base BitsLib BitBuffer BitBufferProofs BitBufferOps Codec CodecProofs TypedFields MmFields MmPdus PduSpec MmSpec MmFieldsProofs MmProofs MmFacts.
Open Scope N_scope.

(** C45: for every value of the PDU that has a representation ([_valid], MmSpec.v) the writer appends exactly the
    documented bits ([_wire], MmSpec.v) to any buffer with room, and the parser, given those bits followed by anything,
    returns the value with the cursor exactly after them ([conveys], PduSpec.v). *)

Theorem C45_d_lu_proceeding : forall s, d_lu_proceeding_valid s = true -> conveys (d_lu_proceeding_to_bitbuf s) d_lu_proceeding_from_bitbuf s (d_lu_proceeding_wire s).
Proof. exact d_lu_proceeding_ok. Qed.
Print Assumptions C45_d_lu_proceeding.
Example C45_d_lu_proceeding_met : d_lu_proceeding_valid ex_d_lu_proceeding = true.
Proof. repeat split; reflexivity. Qed.

Theorem C45_u_attach_detach : forall s, u_attach_detach_valid s = true -> conveys (u_attach_detach_to_bitbuf s) u_attach_detach_from_bitbuf s (u_attach_detach_wire s).
Proof. exact u_attach_detach_ok. Qed.
Print Assumptions C45_u_attach_detach.
Example C45_u_attach_detach_met : u_attach_detach_valid ex_u_attach_detach = true.
Proof. repeat split; reflexivity. Qed.

Theorem C45_u_attach_detach_ack : forall s, u_attach_detach_ack_valid s = true -> conveys (u_attach_detach_ack_to_bitbuf s) u_attach_detach_ack_from_bitbuf s (u_attach_detach_ack_wire s).
Proof. exact u_attach_detach_ack_ok. Qed.
Print Assumptions C45_u_attach_detach_ack.
Example C45_u_attach_detach_ack_met : u_attach_detach_ack_valid ex_u_attach_detach_ack = true.
Proof. repeat split; reflexivity. Qed.

Theorem C45_u_itsi_detach : forall s, u_itsi_detach_valid s = true -> conveys (u_itsi_detach_to_bitbuf s) u_itsi_detach_from_bitbuf s (u_itsi_detach_wire s).
Proof. exact u_itsi_detach_ok. Qed.
Print Assumptions C45_u_itsi_detach.
Example C45_u_itsi_detach_met : u_itsi_detach_valid ex_u_itsi_detach = true.
Proof. repeat split; reflexivity. Qed.

Theorem C45_u_lu_demand : forall s, u_lu_demand_valid s = true -> conveys (u_lu_demand_to_bitbuf s) u_lu_demand_from_bitbuf s (u_lu_demand_wire s).
Proof. exact u_lu_demand_ok. Qed.
Print Assumptions C45_u_lu_demand.
Example C45_u_lu_demand_met : u_lu_demand_valid ex_u_lu_demand = true.
Proof. repeat split; reflexivity. Qed.

Theorem C45_d_attach_detach : forall s, d_attach_detach_valid s = true -> d_attach_detach_writable s = true ->
  conveys (d_attach_detach_to_bitbuf s) d_attach_detach_from_bitbuf s (d_attach_detach_wire s).
Proof. exact d_attach_detach_ok. Qed.
Print Assumptions C45_d_attach_detach.
Example C45_d_attach_detach_met : d_attach_detach_valid ex_d_attach_detach = true /\ d_attach_detach_writable ex_d_attach_detach = true.
Proof. repeat split; reflexivity. Qed.

Theorem C45_d_attach_detach_parsed : forall s, d_attach_detach_valid s = true -> reads d_attach_detach_from_bitbuf (d_attach_detach_wire s) s.
Proof. exact d_attach_detach_reads. Qed.
Print Assumptions C45_d_attach_detach_parsed.
Example C45_d_attach_detach_parsed_met : d_attach_detach_valid ex_d_attach_detach4 = true.
Proof. repeat split; reflexivity. Qed.

Theorem C45_d_attach_detach_ack : forall s, d_attach_detach_ack_valid s = true -> d_attach_detach_ack_writable s = true ->
  conveys (d_attach_detach_ack_to_bitbuf s) d_attach_detach_ack_from_bitbuf s (d_attach_detach_ack_wire s).
Proof. exact d_attach_detach_ack_ok. Qed.
Print Assumptions C45_d_attach_detach_ack.
Example C45_d_attach_detach_ack_met : d_attach_detach_ack_valid ex_d_attach_detach_ack = true /\ d_attach_detach_ack_writable ex_d_attach_detach_ack = true.
Proof. repeat split; reflexivity. Qed.

Theorem C45_d_attach_detach_ack_parsed : forall s, d_attach_detach_ack_valid s = true -> reads d_attach_detach_ack_from_bitbuf (d_attach_detach_ack_wire s) s.
Proof. exact d_attach_detach_ack_reads. Qed.
Print Assumptions C45_d_attach_detach_ack_parsed.
Example C45_d_attach_detach_ack_parsed_met : d_attach_detach_ack_valid ex_d_attach_detach_ack = true.
Proof. repeat split; reflexivity. Qed.

Theorem C45_d_lu_accept : forall s, d_lu_accept_valid s = true -> d_lu_accept_writable s = true ->
  conveys (d_lu_accept_to_bitbuf s) d_lu_accept_from_bitbuf s (d_lu_accept_wire s).
Proof. exact d_lu_accept_ok. Qed.
Print Assumptions C45_d_lu_accept.
Example C45_d_lu_accept_met : d_lu_accept_valid ex_d_lu_accept = true /\ d_lu_accept_writable ex_d_lu_accept = true.
Proof. repeat split; reflexivity. Qed.

Theorem C45_d_lu_accept_parsed : forall s, d_lu_accept_valid s = true -> reads d_lu_accept_from_bitbuf (d_lu_accept_wire s) s.
Proof. exact d_lu_accept_reads. Qed.
Print Assumptions C45_d_lu_accept_parsed.
Example C45_d_lu_accept_parsed_met : d_lu_accept_valid ex_d_lu_accept = true.
Proof. repeat split; reflexivity. Qed.

(** U-MM-STATUS has no end marker: what belongs to the status is everything up to the end of the message *)
Theorem C45_u_mm_status : forall s, u_mm_status_valid s = true -> writes (u_mm_status_to_bitbuf s) (u_mm_status_wire s) /\
  forall b, wf b -> remaining b = u_mm_status_wire s -> u_mm_status_from_bitbuf b = Ok (s, adv b (length (u_mm_status_wire s))).
Proof. exact u_mm_status_conveys. Qed.
Print Assumptions C45_u_mm_status.
Example C45_u_mm_status_met : u_mm_status_valid ex_u_mm_status = true.
Proof. repeat split; reflexivity. Qed.

Theorem C45_function_not_supported : forall s, mm_function_not_supported_valid s = true -> mm_function_not_supported_not_supported_sub_pdu_type s = None ->
  conveys (mm_function_not_supported_to_bitbuf s) mm_function_not_supported_from_bitbuf s (mm_function_not_supported_wire s).
Proof. exact mm_function_not_supported_ok. Qed.
Print Assumptions C45_function_not_supported.
Example C45_function_not_supported_met : mm_function_not_supported_valid ex_mm_function_not_supported = true /\ mm_function_not_supported_not_supported_sub_pdu_type ex_mm_function_not_supported = None.
Proof. repeat split; reflexivity. Qed.

Theorem C45_d_lu_reject_written : forall s, d_lu_reject_valid s = true -> writes (d_lu_reject_to_bitbuf s) (d_lu_reject_wire s).
Proof. exact d_lu_reject_writes. Qed.
Print Assumptions C45_d_lu_reject_written.
Example C45_d_lu_reject_written_met : d_lu_reject_valid ex_d_lu_reject = true.
Proof. repeat split; reflexivity. Qed.

Theorem C45_d_lu_command_written : forall s, d_lu_command_valid s = true -> writes (d_lu_command_to_bitbuf s) (d_lu_command_wire s).
Proof. exact d_lu_command_writes. Qed.
Print Assumptions C45_d_lu_command_written.
Example C45_d_lu_command_written_met : d_lu_command_valid ex_d_lu_command = true.
Proof. repeat split; reflexivity. Qed.

Theorem C45_d_mm_status_written : forall s, d_mm_status_valid s = true -> writes (d_mm_status_to_bitbuf s) (d_mm_status_wire s).
Proof. exact d_mm_status_writes. Qed.
Print Assumptions C45_d_mm_status_written.
Example C45_d_mm_status_written_met : d_mm_status_valid ex_d_mm_status = true.
Proof. repeat split; reflexivity. Qed.

Theorem C45_function_not_supported_written : forall s, mm_function_not_supported_valid s = true -> writes (mm_function_not_supported_to_bitbuf s) (mm_function_not_supported_wire s).
Proof. exact mm_function_not_supported_writes. Qed.
Print Assumptions C45_function_not_supported_written.
Example C45_function_not_supported_written_met : mm_function_not_supported_valid ex_mm_function_not_supported_sub = true.
Proof. repeat split; reflexivity. Qed.

(** Findings: what is written is not read back. *)

(** the parser of d_lu_reject panics on every message *)
Theorem C45_d_lu_reject_refuted : forall s b rest, d_lu_reject_valid s = true -> wf b -> remaining b = d_lu_reject_wire s ++ rest -> d_lu_reject_from_bitbuf b = Panic.
Proof. exact d_lu_reject_unreadable. Qed.
Print Assumptions C45_d_lu_reject_refuted.
Example C45_d_lu_reject_refuted_met : d_lu_reject_valid ex_d_lu_reject = true.
Proof. repeat split; reflexivity. Qed.

(** the parser of d_lu_command panics on every message *)
Theorem C45_d_lu_command_refuted : forall s b rest, d_lu_command_valid s = true -> wf b -> remaining b = d_lu_command_wire s ++ rest -> d_lu_command_from_bitbuf b = Panic.
Proof. exact d_lu_command_unreadable. Qed.
Print Assumptions C45_d_lu_command_refuted.
Example C45_d_lu_command_refuted_met : d_lu_command_valid ex_d_lu_command = true.
Proof. repeat split; reflexivity. Qed.

(** the parser of d_mm_status panics on every message *)
Theorem C45_d_mm_status_refuted : forall s b rest, d_mm_status_valid s = true -> wf b -> remaining b = d_mm_status_wire s ++ rest -> d_mm_status_from_bitbuf b = Panic.
Proof. exact d_mm_status_unreadable. Qed.
Print Assumptions C45_d_mm_status_refuted.
Example C45_d_mm_status_refuted_met : d_mm_status_valid ex_d_mm_status = true.
Proof. repeat split; reflexivity. Qed.

(** a rejection that names a sub-type is written but refused by the parser *)
Theorem C45_function_not_supported_refuted : forall s b rest, mm_function_not_supported_valid s = true ->
  PduSpec.some (mm_function_not_supported_not_supported_sub_pdu_type s) = true ->
  wf b -> remaining b = mm_function_not_supported_wire s ++ rest -> mm_function_not_supported_from_bitbuf b = Err ENotImplemented.
Proof. exact mm_function_not_supported_unreadable. Qed.
Print Assumptions C45_function_not_supported_refuted.
Example C45_function_not_supported_refuted_met : mm_function_not_supported_valid ex_mm_function_not_supported_sub = true.
Proof. repeat split; reflexivity. Qed.

(** a status followed by more than 64 bits is refused *)
Theorem C45_u_mm_status_refuted : forall b v rest, wf b -> remaining b = num 4 3 ++ num 6 v ++ rest -> status_uplink_ok v = true -> (64 < length rest)%nat ->
  u_mm_status_from_bitbuf b = Err EBufferEnded.
Proof. exact u_mm_status_long. Qed.
Print Assumptions C45_u_mm_status_refuted.
Example C45_u_mm_status_refuted_met : exists b,
  bb_from_bitarr (map N.b2n (num 4 3 ++ num 6 33 ++ repeat true 65)) = Ok b /\ remaining b = num 4 3 ++ num 6 33 ++ repeat true 65.
Proof. eexists. split; vm_compute; reflexivity. Qed.

(** energy saving information never comes back as it was written: the parser keeps the frame numbers exactly when it should drop them *)
Theorem C45_energy_saving_refuted : forall s, esi_written s = true ->
  writes (esi_to_bitbuf s) (esi_bits s) /\ exists s', s' <> s /\ reads esi_from_bitbuf (esi_bits s) s'.
Proof. exact esi_refuted. Qed.
Print Assumptions C45_energy_saving_refuted.
Example C45_energy_saving_refuted_met : esi_written (mk_esi 2 (Some 1) (Some 3)) = true.
Proof. repeat split; reflexivity. Qed.

(** a group identity with an extension but no GSSI is written as address type 2 with the extension in place of the (V)GSSI *)
Theorem C45_group_identity_uplink_refuted : exists b s',
  giu_to_bitbuf (mk_giu (Some 4) None None (Some 204) (Some 4000)) (bb_new_autoexpand 64) = Ok b /\
  giu_from_bitbuf (set_pos b 0) = Ok (mk_giu (Some 4) None None None (Some 204), s').
Proof. exact giu_refuted. Qed.
Print Assumptions C45_group_identity_uplink_refuted.

(** group identity security related information can be received but makes the writer panic *)
Theorem C45_type4_refuted : d_attach_detach_valid ex_d_attach_detach4 = true /\
  reads d_attach_detach_from_bitbuf (d_attach_detach_wire ex_d_attach_detach4) ex_d_attach_detach4 /\
  d_attach_detach_to_bitbuf ex_d_attach_detach4 (bb_new_autoexpand 400) = Panic.
Proof. exact type4_refuted. Qed.
Print Assumptions C45_type4_refuted.

(** Proofs that the CMCE PDUs are written and read as CmceSpec.v says.  The lemmas differ only in the PDU. *)
From Verif Require Import Base BitsLib BitBuffer BitBufferProofs BitBufferOps Codec CodecProofs TypedFields TypedFieldsProofs
  CmceFields CmcePdus PduSpec PduProofs CmceSpec CmceFieldsProofs.
Open Scope N_scope.

Lemma r_trailing_absent {A} F (k : unit -> reader A) L x : readsF F (k tt) L x -> readsF F (rbind (read_trailing false) k) L x.
Proof. intros H. apply (r_sub _ _ tt k [] L x); [|exact H]. intros b rest W E. cbn [length]. rewrite adv_0. reflexivity. Qed.
Lemma r_trailing {A} F (k : unit -> reader A) x : readsF F (k tt) [] x -> readsF F (rbind (read_trailing true) k) [false] x.
Proof.
  intros H. apply (r_sub _ _ tt k [false] [] x); [|exact H]. apply readsF_reads.
  apply (r_flag _ false _ [] tt). apply reads_readsF, reads_guard. reflexivity.
Qed.

Lemma r_nocond {A} F c n (k : option N -> reader A) L x : c = false -> readsF F (k None) L x -> readsF F (rbind (ropt c (rfield n)) k) L x.
Proof. intros ->. apply r_retl. Qed.
Lemma opt_is_is o v : opt_is o v = is v o.
Proof. reflexivity. Qed.
Lemma le4_fit v : fits_with (fun v => v <=? 4) v = true -> fito 3 v = true.
Proof. destruct v as [v|]; [|reflexivity]. cbn. intros H. apply N.leb_le in H. apply N.ltb_lt. change (2 ^ N.of_nat 3) with 8. lia. Qed.
Lemma le4_try v : fits_with (fun v => v <=? 4) v = true -> forall x, v = Some x -> call_status_try_from x = Some x.
Proof. intros H x ->. cbn [fits_with] in H. unfold call_status_try_from. rewrite H. reflexivity. Qed.
Lemma le23_fit v : (v <=? 23) = true -> fit 5 v = true.
Proof. intros H. apply N.leb_le in H. apply N.ltb_lt. change (2 ^ N.of_nat 5) with 32. lia. Qed.
Lemma le23_try v : (v <=? 23) = true -> disconnect_cause_try_from v = Some v.
Proof. intros H. unfold disconnect_cause_try_from. now rewrite H. Qed.
Lemma fits_bsi_w o : fits_with bsi_valid o = true -> forall v, o = Some v -> writes (bsi_to_bitbuf v) (bsi_bits v).
Proof. intros H v ->. now apply bsi_writes. Qed.
Lemma fits_bsi_r o : fits_with bsi_valid o = true -> forall v, o = Some v -> reads bsi_from_bitbuf (bsi_bits v) v.
Proof. intros H v ->. now apply bsi_reads. Qed.

Ltac side :=
  first [ lia | assumption | reflexivity | now apply le23_fit | now apply le4_fit
        | (symmetry; assumption)
        | (cbn [existsb]; unfold id; rewrite ?some_is_some, ?orb_false_r, ?orb_assoc; reflexivity) ].
Ltac ws := first
  [ exact w_mbit0
  | apply writes_ret
  | apply w_num; [side|side|]
  | apply w_flag
  | apply w_cond; [side|side|]
  | apply w_pcs; [side|]
  | (apply w_sub; [apply bsi_writes; assumption|])
  | (apply w_sub; [apply sds_writes; assumption|])
  | apply w_t2; [side|side|]
  | apply w_t2s; [apply fits_bsi_w; assumption|]
  | apply w_t3; [side|side|]
  | (apply w_options; [side|let E := fresh "E" in intros E; rewrite E; rewrite <- ?app_assoc]) ].

Ltac absent := repeat match goal with
  | H : Forall _ (_ :: _) |- _ => inversion H; clear H; subst
  | H : Forall _ [] |- _ => clear H
  | H : some _ = (is _ None || is _ None)%bool |- _ => cbn [is orb] in H
  | H : some _ = is _ None |- _ => cbn [is] in H
  | H : some _ = false |- _ => apply some_false in H; subst
  end.
Ltac noelem := let rest := fresh in let H := fresh in intros rest H; rewrite <- ?app_assoc; repeat (apply no_elem_t3; [lia|discriminate|]); apply no_elem_stop.
Ltac rs := first
  [ (apply reads_readsF, r_done; reflexivity)
  | apply r_guard; [reflexivity|]
  | apply r_assert; [reflexivity|]
  | apply r_pcs; [side|]
  | apply r_num; [side|side|]
  | apply r_flag
  | (eapply r_try_some; [apply le23_try; assumption|])
  | apply r_nocond; [reflexivity|]
  | apply r_cond; [side|side|side|]
  | (eapply r_sub; [apply bsi_reads; assumption|])
  | (eapply r_sub; [apply sds_reads; assumption|])
  | apply r_t2; [side|side|]
  | apply r_t2s; [apply fits_bsi_r; assumption|]
  | apply r_t3; [side|side| |noelem]
  | apply r_try_opt_some; [apply le4_try; assumption|]
  | apply r_try_opt_some; [discriminate|]
  | apply r_absent2 | apply r_absent2s | apply r_absent3 | apply r_trailing_absent | apply r_trailing
  | apply r_retl
  | (apply r_obit; [intros _; rewrite <- ?app_assoc|intros ?; absent]) ].
Ltac hyps := repeat match goal with
  | H : (_ && _)%bool = true |- _ => apply andb_true_iff in H; destruct H
  | H : Bool.eqb _ _ = true |- _ => apply eqb_prop in H
  | H : negb (some ?o) = true |- _ => apply negb_true_iff, some_false in H; subst
  end.

Lemma cmce_function_not_supported_ok s : cmce_function_not_supported_valid s = true -> conveys (cmce_function_not_supported_to_bitbuf s) cmce_function_not_supported_from_bitbuf s (cmce_function_not_supported_wire s).
Proof.
  intros V. unfold cmce_function_not_supported_valid in V. unfold cmce_function_not_supported_to_bitbuf, cmce_function_not_supported_from_bitbuf, cmce_function_not_supported_wire. destruct s as [x0 x1 x2 x3 x4 x5].
  cbn [cmce_function_not_supported_not_supported_pdu_type cmce_function_not_supported_call_identifier_present cmce_function_not_supported_call_identifier cmce_function_not_supported_function_not_supported_pointer cmce_function_not_supported_length_of_received_pdu_extract cmce_function_not_supported_received_pdu_extract] in *. hyps.
  match goal with H : (x3 =? 0) = true |- _ => apply N.eqb_eq in H; subst x3 end.
  split; [cbv zeta; repeat ws; (apply writes_then0; [apply writes_ret|exact w_mbit0])|].
  apply readsF_reads. do 6 rs. apply r_nocond; [reflexivity|]. change (negb (0 =? 0)) with false. cbn iota. apply r_retl. repeat rs.
Qed.

Lemma d_alert_ok s : d_alert_valid s = true -> conveys (d_alert_to_bitbuf s) d_alert_from_bitbuf s (d_alert_wire s).
Proof.
  intros V. unfold d_alert_valid in V. unfold d_alert_to_bitbuf, d_alert_from_bitbuf, d_alert_wire. destruct s as [x0 x1 x2 x3 x4 x5 x6 x7 x8].
  cbn [d_alert_call_identifier d_alert_call_time_out_set_up_phase d_alert_reserved d_alert_simplex_duplex_selection d_alert_call_queued d_alert_basic_service_information d_alert_notification_indicator d_alert_facility d_alert_proprietary] in *. hyps. split; [cbv zeta; repeat ws|apply readsF_reads; repeat rs].
Qed.

Lemma d_call_proceeding_ok s : d_call_proceeding_valid s = true -> conveys (d_call_proceeding_to_bitbuf s) d_call_proceeding_from_bitbuf s (d_call_proceeding_wire s).
Proof.
  intros V. unfold d_call_proceeding_valid in V. unfold d_call_proceeding_to_bitbuf, d_call_proceeding_from_bitbuf, d_call_proceeding_wire. destruct s as [x0 x1 x2 x3 x4 x5 x6 x7 x8].
  cbn [d_call_proceeding_call_identifier d_call_proceeding_call_time_out_set_up_phase d_call_proceeding_hook_method_selection d_call_proceeding_simplex_duplex_selection d_call_proceeding_basic_service_information d_call_proceeding_call_status d_call_proceeding_notification_indicator d_call_proceeding_facility d_call_proceeding_proprietary] in *. hyps. split; [cbv zeta; repeat ws|apply readsF_reads; repeat rs].
Qed.

Lemma d_call_restore_ok s : d_call_restore_valid s = true -> conveys (d_call_restore_to_bitbuf s) d_call_restore_from_bitbuf s (d_call_restore_wire s).
Proof.
  intros V. unfold d_call_restore_valid in V. unfold d_call_restore_to_bitbuf, d_call_restore_from_bitbuf, d_call_restore_wire. destruct s as [x0 x1 x2 x3 x4 x5 x6 x7 x8 x9 x10 x11 x12].
  cbn [d_call_restore_call_identifier d_call_restore_transmission_grant d_call_restore_transmission_request_permission d_call_restore_reset_call_time_out_timer_t310_ d_call_restore_new_call_identifier d_call_restore_call_time_out d_call_restore_call_status d_call_restore_modify d_call_restore_notification_indicator d_call_restore_facility d_call_restore_temporary_address d_call_restore_dm_ms_address d_call_restore_proprietary] in *. hyps. split; [cbv zeta; repeat ws|apply readsF_reads; repeat rs].
Qed.

Lemma d_connect_ok s : d_connect_valid s = true -> conveys (d_connect_to_bitbuf s) d_connect_from_bitbuf s (d_connect_wire s).
Proof.
  intros V. unfold d_connect_valid in V. unfold d_connect_to_bitbuf, d_connect_from_bitbuf, d_connect_wire. destruct s as [x0 x1 x2 x3 x4 x5 x6 x7 x8 x9 x10 x11 x12].
  cbn [d_connect_call_identifier d_connect_call_time_out d_connect_hook_method_selection d_connect_simplex_duplex_selection d_connect_transmission_grant d_connect_transmission_request_permission d_connect_call_ownership d_connect_call_priority d_connect_basic_service_information d_connect_temporary_address d_connect_notification_indicator d_connect_facility d_connect_proprietary] in *. hyps. split; [cbv zeta; repeat ws|apply readsF_reads; repeat rs].
Qed.

Lemma d_connect_acknowledge_ok s : d_connect_acknowledge_valid s = true -> conveys (d_connect_acknowledge_to_bitbuf s) d_connect_acknowledge_from_bitbuf s (d_connect_acknowledge_wire s).
Proof.
  intros V. unfold d_connect_acknowledge_valid in V. unfold d_connect_acknowledge_to_bitbuf, d_connect_acknowledge_from_bitbuf, d_connect_acknowledge_wire. destruct s as [x0 x1 x2 x3 x4 x5 x6].
  cbn [d_connect_acknowledge_call_identifier d_connect_acknowledge_call_time_out d_connect_acknowledge_transmission_grant d_connect_acknowledge_transmission_request_permission d_connect_acknowledge_notification_indicator d_connect_acknowledge_facility d_connect_acknowledge_proprietary] in *. hyps. split; [cbv zeta; repeat ws|apply readsF_reads; repeat rs].
Qed.

Lemma d_disconnect_ok s : d_disconnect_valid s = true -> conveys (d_disconnect_to_bitbuf s) d_disconnect_from_bitbuf s (d_disconnect_wire s).
Proof.
  intros V. unfold d_disconnect_valid in V. unfold d_disconnect_to_bitbuf, d_disconnect_from_bitbuf, d_disconnect_wire. destruct s as [x0 x1 x2 x3 x4].
  cbn [d_disconnect_call_identifier d_disconnect_disconnect_cause d_disconnect_notification_indicator d_disconnect_facility d_disconnect_proprietary] in *. hyps. split; [cbv zeta; repeat ws|apply readsF_reads; repeat rs].
Qed.

Lemma d_facility_ok s : d_facility_valid s = true -> conveys (d_facility_to_bitbuf s) d_facility_from_bitbuf s (d_facility_wire s).
Proof.
  intros V. unfold d_facility_valid in V. unfold d_facility_to_bitbuf, d_facility_from_bitbuf, d_facility_wire. destruct s as [].
  hyps. split; [cbv zeta; repeat ws|apply readsF_reads; repeat rs].
Qed.

Lemma d_info_ok s : d_info_valid s = true -> conveys (d_info_to_bitbuf s) d_info_from_bitbuf s (d_info_wire s).
Proof.
  intros V. unfold d_info_valid in V. unfold d_info_to_bitbuf, d_info_from_bitbuf, d_info_wire. destruct s as [x0 x1 x2 x3 x4 x5 x6 x7 x8 x9 x10 x11 x12 x13 x14 x15 x16].
  cbn [d_info_call_identifier d_info_reset_call_time_out_timer_t310_ d_info_poll_request d_info_new_call_identifier d_info_call_time_out d_info_call_time_out_set_up_phase_t301_t302_ d_info_call_ownership d_info_modify d_info_call_status d_info_temporary_address d_info_notification_indicator d_info_poll_response_percentage d_info_poll_response_number d_info_dtmf d_info_facility d_info_poll_response_addresses d_info_proprietary] in *. hyps. split; [cbv zeta; repeat ws|apply readsF_reads; repeat rs].
Qed.

Lemma d_release_ok s : d_release_valid s = true -> conveys (d_release_to_bitbuf s) d_release_from_bitbuf s (d_release_wire s).
Proof.
  intros V. unfold d_release_valid in V. unfold d_release_to_bitbuf, d_release_from_bitbuf, d_release_wire. destruct s as [x0 x1 x2 x3 x4].
  cbn [d_release_call_identifier d_release_disconnect_cause d_release_notification_indicator d_release_facility d_release_proprietary] in *. hyps. split; [cbv zeta; repeat ws|apply readsF_reads; repeat rs].
Qed.

Lemma d_sds_data_ok s : d_sds_data_valid s = true -> conveys (d_sds_data_to_bitbuf s) d_sds_data_from_bitbuf s (d_sds_data_wire s).
Proof.
  intros V. unfold d_sds_data_valid in V. unfold d_sds_data_to_bitbuf, d_sds_data_from_bitbuf, d_sds_data_wire. destruct s as [x0 x1 x2 x3 x4 x5].
  cbn [d_sds_data_calling_party_type_identifier d_sds_data_calling_party_address_ssi d_sds_data_calling_party_extension d_sds_data_user_defined_data d_sds_data_external_subscriber_number d_sds_data_dm_ms_address] in *. hyps. split; [cbv zeta; repeat ws|apply readsF_reads; repeat rs].
Qed.

Lemma d_setup_ok s : d_setup_valid s = true -> conveys (d_setup_to_bitbuf s) d_setup_from_bitbuf s (d_setup_wire s).
Proof.
  intros V. unfold d_setup_valid in V. unfold d_setup_to_bitbuf, d_setup_from_bitbuf, d_setup_wire. destruct s as [x0 x1 x2 x3 x4 x5 x6 x7 x8 x9 x10 x11 x12 x13 x14 x15].
  cbn [d_setup_call_identifier d_setup_call_time_out d_setup_hook_method_selection d_setup_simplex_duplex_selection d_setup_basic_service_information d_setup_transmission_grant d_setup_transmission_request_permission d_setup_call_priority d_setup_notification_indicator d_setup_temporary_address d_setup_calling_party_address_ssi d_setup_calling_party_extension d_setup_external_subscriber_number d_setup_facility d_setup_dm_ms_address d_setup_proprietary] in *. hyps.
  unfold d_setup_party; cbn [d_setup_calling_party_address_ssi d_setup_calling_party_extension].
  match goal with |- context [t2 2 ?p] => set (P := p) end.
  assert (fito 2 P = true) as P0 by (destruct x10, x11; reflexivity).
  assert (some x10 = (is 1 P || is 2 P)%bool) as P1 by (destruct x10, x11; reflexivity).
  assert (some x11 = is 2 P) as P2 by (destruct x10, x11; try reflexivity; discriminate).
  split; [cbv zeta|clearbody P; apply readsF_reads; repeat rs].
  do 9 ws. apply w_options; [side|]. intros E. rewrite E. rewrite <- ?app_assoc. do 2 ws.
  apply w_sub; [|clearbody P; repeat ws].
  unfold P. destruct x10, x11; try discriminate;
    first [apply type2_generic_absent; reflexivity | apply type2_generic_present; [reflexivity|lia|reflexivity]].
Qed.

Lemma d_status_ok s : d_status_valid s = true -> conveys (d_status_to_bitbuf s) d_status_from_bitbuf s (d_status_wire s).
Proof.
  intros V. unfold d_status_valid in V. unfold d_status_to_bitbuf, d_status_from_bitbuf, d_status_wire. destruct s as [x0 x1 x2 x3 x4 x5].
  cbn [d_status_calling_party_type_identifier d_status_calling_party_address_ssi d_status_calling_party_extension d_status_pre_coded_status d_status_external_subscriber_number d_status_dm_ms_address] in *. hyps. split; [cbv zeta; repeat ws|apply readsF_reads; repeat rs].
Qed.

Lemma d_tx_ceased_ok s : d_tx_ceased_valid s = true -> conveys (d_tx_ceased_to_bitbuf s) d_tx_ceased_from_bitbuf s (d_tx_ceased_wire s).
Proof.
  intros V. unfold d_tx_ceased_valid in V. unfold d_tx_ceased_to_bitbuf, d_tx_ceased_from_bitbuf, d_tx_ceased_wire. destruct s as [x0 x1 x2 x3 x4 x5].
  cbn [d_tx_ceased_call_identifier d_tx_ceased_transmission_request_permission d_tx_ceased_notification_indicator d_tx_ceased_facility d_tx_ceased_dm_ms_address d_tx_ceased_proprietary] in *. hyps. split; [cbv zeta; repeat ws|apply readsF_reads; repeat rs].
Qed.

Lemma d_tx_continue_ok s : d_tx_continue_valid s = true -> conveys (d_tx_continue_to_bitbuf s) d_tx_continue_from_bitbuf s (d_tx_continue_wire s).
Proof.
  intros V. unfold d_tx_continue_valid in V. unfold d_tx_continue_to_bitbuf, d_tx_continue_from_bitbuf, d_tx_continue_wire. destruct s as [x0 x1 x2 x3 x4 x5 x6].
  cbn [d_tx_continue_call_identifier d_tx_continue_do_continue d_tx_continue_transmission_request_permission d_tx_continue_notification_indicator d_tx_continue_facility d_tx_continue_dm_ms_address d_tx_continue_proprietary] in *. hyps. split; [cbv zeta; repeat ws|apply readsF_reads; repeat rs].
Qed.

Lemma d_tx_granted_ok s : d_tx_granted_valid s = true -> conveys (d_tx_granted_to_bitbuf s) d_tx_granted_from_bitbuf s (d_tx_granted_wire s).
Proof.
  intros V. unfold d_tx_granted_valid in V. unfold d_tx_granted_to_bitbuf, d_tx_granted_from_bitbuf, d_tx_granted_wire. destruct s as [x0 x1 x2 x3 x4 x5 x6 x7 x8 x9 x10 x11 x12].
  cbn [d_tx_granted_call_identifier d_tx_granted_transmission_grant d_tx_granted_transmission_request_permission d_tx_granted_encryption_control d_tx_granted_reserved d_tx_granted_notification_indicator d_tx_granted_transmitting_party_type_identifier d_tx_granted_transmitting_party_address_ssi d_tx_granted_transmitting_party_extension d_tx_granted_external_subscriber_number d_tx_granted_facility d_tx_granted_dm_ms_address d_tx_granted_proprietary] in *. hyps. split; [cbv zeta; repeat ws|apply readsF_reads; repeat rs].
Qed.

Lemma d_tx_interrupt_ok s : d_tx_interrupt_valid s = true -> conveys (d_tx_interrupt_to_bitbuf s) d_tx_interrupt_from_bitbuf s (d_tx_interrupt_wire s).
Proof.
  intros V. unfold d_tx_interrupt_valid in V. unfold d_tx_interrupt_to_bitbuf, d_tx_interrupt_from_bitbuf, d_tx_interrupt_wire. destruct s as [x0 x1 x2 x3 x4 x5 x6 x7 x8 x9 x10 x11 x12].
  cbn [d_tx_interrupt_call_identifier d_tx_interrupt_transmission_grant d_tx_interrupt_transmission_request_permission d_tx_interrupt_encryption_control d_tx_interrupt_reserved d_tx_interrupt_notification_indicator d_tx_interrupt_transmitting_party_type_identifier d_tx_interrupt_transmitting_party_address_ssi d_tx_interrupt_transmitting_party_extension d_tx_interrupt_external_subscriber_number d_tx_interrupt_facility d_tx_interrupt_dm_ms_address d_tx_interrupt_proprietary] in *. hyps. split; [cbv zeta; repeat ws|apply readsF_reads; repeat rs].
Qed.

Lemma d_tx_wait_ok s : d_tx_wait_valid s = true -> conveys (d_tx_wait_to_bitbuf s) d_tx_wait_from_bitbuf s (d_tx_wait_wire s).
Proof.
  intros V. unfold d_tx_wait_valid in V. unfold d_tx_wait_to_bitbuf, d_tx_wait_from_bitbuf, d_tx_wait_wire. destruct s as [x0 x1 x2 x3 x4 x5].
  cbn [d_tx_wait_call_identifier d_tx_wait_transmission_request_permission d_tx_wait_notification_indicator d_tx_wait_facility d_tx_wait_dm_ms_address d_tx_wait_proprietary] in *. hyps. split; [cbv zeta; repeat ws|apply readsF_reads; repeat rs].
Qed.

Lemma u_alert_ok s : u_alert_valid s = true -> conveys (u_alert_to_bitbuf s) u_alert_from_bitbuf s (u_alert_wire s).
Proof.
  intros V. unfold u_alert_valid in V. unfold u_alert_to_bitbuf, u_alert_from_bitbuf, u_alert_wire. destruct s as [x0 x1 x2 x3 x4 x5].
  cbn [u_alert_call_identifier u_alert_reserved u_alert_simplex_duplex_selection u_alert_basic_service_information u_alert_facility u_alert_proprietary] in *. hyps. split; [cbv zeta; repeat ws|apply readsF_reads; repeat rs].
Qed.

Lemma u_call_restore_ok s : u_call_restore_valid s = true -> conveys (u_call_restore_to_bitbuf s) u_call_restore_from_bitbuf s (u_call_restore_wire s).
Proof.
  intros V. unfold u_call_restore_valid in V. unfold u_call_restore_to_bitbuf, u_call_restore_from_bitbuf, u_call_restore_wire. destruct s as [x0 x1 x2 x3 x4 x5 x6 x7 x8 x9].
  cbn [u_call_restore_call_identifier u_call_restore_request_to_transmit_send_data u_call_restore_other_party_type_identifier u_call_restore_other_party_short_number_address u_call_restore_other_party_ssi u_call_restore_other_party_extension u_call_restore_basic_service_information u_call_restore_facility u_call_restore_dm_ms_address u_call_restore_proprietary] in *. hyps. split; [cbv zeta; repeat ws|apply readsF_reads; repeat rs].
Qed.

Lemma u_connect_ok s : u_connect_valid s = true -> conveys (u_connect_to_bitbuf s) u_connect_from_bitbuf s (u_connect_wire s).
Proof.
  intros V. unfold u_connect_valid in V. unfold u_connect_to_bitbuf, u_connect_from_bitbuf, u_connect_wire. destruct s as [x0 x1 x2 x3 x4 x5].
  cbn [u_connect_call_identifier u_connect_hook_method_selection u_connect_simplex_duplex_selection u_connect_basic_service_information u_connect_facility u_connect_proprietary] in *. hyps. split; [cbv zeta; repeat ws|apply readsF_reads; repeat rs].
Qed.

Lemma u_disconnect_ok s : u_disconnect_valid s = true -> conveys (u_disconnect_to_bitbuf s) u_disconnect_from_bitbuf s (u_disconnect_wire s).
Proof.
  intros V. unfold u_disconnect_valid in V. unfold u_disconnect_to_bitbuf, u_disconnect_from_bitbuf, u_disconnect_wire. destruct s as [x0 x1 x2 x3].
  cbn [u_disconnect_call_identifier u_disconnect_disconnect_cause u_disconnect_facility u_disconnect_proprietary] in *. hyps. split; [cbv zeta; repeat ws|apply readsF_reads; repeat rs].
Qed.

Lemma u_facility_ok s : u_facility_valid s = true -> conveys (u_facility_to_bitbuf s) u_facility_from_bitbuf s (u_facility_wire s).
Proof.
  intros V. unfold u_facility_valid in V. unfold u_facility_to_bitbuf, u_facility_from_bitbuf, u_facility_wire. destruct s as [].
  hyps. split; [cbv zeta; repeat ws|apply readsF_reads; repeat rs].
Qed.

Lemma u_info_ok s : u_info_valid s = true -> conveys (u_info_to_bitbuf s) u_info_from_bitbuf s (u_info_wire s).
Proof.
  intros V. unfold u_info_valid in V. unfold u_info_to_bitbuf, u_info_from_bitbuf, u_info_wire. destruct s as [x0 x1 x2 x3 x4 x5].
  cbn [u_info_call_identifier u_info_poll_response u_info_modify u_info_dtmf u_info_facility u_info_proprietary] in *. hyps. split; [cbv zeta; repeat ws|apply readsF_reads; repeat rs].
Qed.

Lemma u_release_ok s : u_release_valid s = true -> conveys (u_release_to_bitbuf s) u_release_from_bitbuf s (u_release_wire s).
Proof.
  intros V. unfold u_release_valid in V. unfold u_release_to_bitbuf, u_release_from_bitbuf, u_release_wire. destruct s as [x0 x1 x2 x3].
  cbn [u_release_call_identifier u_release_disconnect_cause u_release_facility u_release_proprietary] in *. hyps. split; [cbv zeta; repeat ws|apply readsF_reads; repeat rs].
Qed.

Lemma u_sds_data_ok s : u_sds_data_valid s = true -> conveys (u_sds_data_to_bitbuf s) u_sds_data_from_bitbuf s (u_sds_data_wire s).
Proof.
  intros V. unfold u_sds_data_valid in V. unfold u_sds_data_to_bitbuf, u_sds_data_from_bitbuf, u_sds_data_wire. destruct s as [x0 x1 x2 x3 x4 x5 x6 x7].
  cbn [u_sds_data_area_selection u_sds_data_called_party_type_identifier u_sds_data_called_party_short_number_address u_sds_data_called_party_ssi u_sds_data_called_party_extension u_sds_data_user_defined_data u_sds_data_external_subscriber_number u_sds_data_dm_ms_address] in *. hyps. split; [cbv zeta; repeat ws|apply readsF_reads; repeat rs].
Qed.

Lemma u_setup_ok s : u_setup_valid s = true -> conveys (u_setup_to_bitbuf s) u_setup_from_bitbuf s (u_setup_wire s).
Proof.
  intros V. unfold u_setup_valid in V. unfold u_setup_to_bitbuf, u_setup_from_bitbuf, u_setup_wire. destruct s as [x0 x1 x2 x3 x4 x5 x6 x7 x8 x9 x10 x11 x12 x13 x14].
  cbn [u_setup_area_selection u_setup_hook_method_selection u_setup_simplex_duplex_selection u_setup_basic_service_information u_setup_request_to_transmit_send_data u_setup_call_priority u_setup_clir_control u_setup_called_party_type_identifier u_setup_called_party_short_number_address u_setup_called_party_ssi u_setup_called_party_extension u_setup_external_subscriber_number u_setup_facility u_setup_dm_ms_address u_setup_proprietary] in *. hyps. split; [cbv zeta; repeat ws|apply readsF_reads; repeat rs].
Qed.

Lemma u_status_ok s : u_status_valid s = true -> conveys (u_status_to_bitbuf s) u_status_from_bitbuf s (u_status_wire s).
Proof.
  intros V. unfold u_status_valid in V. unfold u_status_to_bitbuf, u_status_from_bitbuf, u_status_wire. destruct s as [x0 x1 x2 x3 x4 x5 x6 x7].
  cbn [u_status_area_selection u_status_called_party_type_identifier u_status_called_party_short_number_address u_status_called_party_ssi u_status_called_party_extension u_status_pre_coded_status u_status_external_subscriber_number u_status_dm_ms_address] in *. hyps. split; [cbv zeta; repeat ws|apply readsF_reads; repeat rs].
Qed.

Lemma u_tx_ceased_ok s : u_tx_ceased_valid s = true -> conveys (u_tx_ceased_to_bitbuf s) u_tx_ceased_from_bitbuf s (u_tx_ceased_wire s).
Proof.
  intros V. unfold u_tx_ceased_valid in V. unfold u_tx_ceased_to_bitbuf, u_tx_ceased_from_bitbuf, u_tx_ceased_wire. destruct s as [x0 x1 x2 x3].
  cbn [u_tx_ceased_call_identifier u_tx_ceased_facility u_tx_ceased_dm_ms_address u_tx_ceased_proprietary] in *. hyps. split; [cbv zeta; repeat ws|apply readsF_reads; repeat rs].
Qed.

Lemma u_tx_demand_ok s : u_tx_demand_valid s = true -> conveys (u_tx_demand_to_bitbuf s) u_tx_demand_from_bitbuf s (u_tx_demand_wire s).
Proof.
  intros V. unfold u_tx_demand_valid in V. unfold u_tx_demand_to_bitbuf, u_tx_demand_from_bitbuf, u_tx_demand_wire. destruct s as [x0 x1 x2 x3 x4 x5 x6].
  cbn [u_tx_demand_call_identifier u_tx_demand_tx_demand_priority u_tx_demand_encryption_control u_tx_demand_reserved u_tx_demand_facility u_tx_demand_dm_ms_address u_tx_demand_proprietary] in *. hyps. split; [cbv zeta; repeat ws|apply readsF_reads; repeat rs].
Qed.

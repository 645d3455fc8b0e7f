(** Proofs that the MM PDUs are written and read as MmSpec.v says.  The lemmas differ only in the PDU. *)
From Verif Require Import Base BitsLib BitBuffer BitBufferProofs BitBufferOps Codec CodecProofs TypedFields TypedFieldsProofs
  CmceFields CmceFieldsProofs CmceProofs MmFields MmPdus PduSpec PduProofs MmSpec MmFieldsProofs.
Open Scope N_scope.

Lemma la_bits la : fit 14 la = true -> bits_of 15 (N.shiftl la 1 mod 2 ^ 64) = num 14 la ++ flag false /\ N.shiftl la 1 mod 2 ^ 64 < 2 ^ 15 /\
  (N.shiftl la 1 mod 2 ^ 64) / 2 = la.
Proof.
  intros H. apply fit_lt in H. change (2 ^ N.of_nat 14) with 16384 in H.
  assert (N.shiftl la 1 mod 2 ^ 64 = 2 * la) as ->.
  { rewrite N.shiftl_mul_pow2. change (2 ^ 64) with 18446744073709551616. change (2 ^ 1) with 2. rewrite N.mod_small by lia. lia. }
  split; [|split].
  - change 15%nat with (14 + 1)%nat. rewrite bits_of_app.
    replace (N.shiftr (2 * la) (N.of_nat 1)) with la; [unfold num, flag; f_equal; cbn [bits_of]; rewrite N.testbit_even_0; reflexivity|].
    rewrite N.shiftr_div_pow2. change (2 ^ N.of_nat 1) with 2. rewrite N.mul_comm, N.div_mul by discriminate. reflexivity.
  - change (2 ^ 15) with 32768. lia.
  - rewrite N.mul_comm, N.div_mul by discriminate. reflexivity.
Qed.
Lemma w_la o k L : fito 14 o = true -> writes k L ->
  writes (write_type2_generic true (option_map (fun la => N.shiftl la 1 mod 2 ^ 64) o) 15 >> k) (t2s (fun la => num 14 la ++ flag false) o ++ L).
Proof.
  intros H C. apply writes_then; [|exact C]. destruct o as [la|]; cbn [option_map t2s].
  - destruct (la_bits la H) as (E & B & _). rewrite <- E. apply type2_generic_present; [reflexivity|lia|exact B].
  - now apply type2_generic_absent.
Qed.
Lemma r_la {A} F o (k : option N -> reader A) L x : fito 14 o = true ->
  (forall v, option_map (fun v => v / 2) v = o -> readsF F (k v) L x) ->
  readsF F (rbind (parse_type2_generic true 15) k) (t2s (fun la => num 14 la ++ flag false) o ++ L) x.
Proof.
  intros H C. destruct o as [la|]; cbn [t2s].
  - destruct (la_bits la H) as (E & B & D). rewrite <- E.
    apply (readsF_bind' F _ _ (true :: bits_of 15 (N.shiftl la 1 mod 2 ^ 64)) L (Some (N.shiftl la 1 mod 2 ^ 64))).
    + apply type2_generic_present; [reflexivity|lia|exact B].
    + apply C. cbn [option_map]. now rewrite D.
  - apply (readsF_bind' F _ _ [false] L None); [now apply type2_generic_absent|now apply C].
Qed.
Lemma w_noesi k L : writes k L -> writes (write_type2_struct true (None : option esi) esi_to_bitbuf >> k) (t2s esi_bits None ++ L).
Proof. apply w_t2s. discriminate. Qed.
Lemma r_noesi {A} F (k : option esi -> reader A) L x : readsF F (k None) L x -> readsF F (rbind (parse_type2_struct true esi_from_bitbuf) k) (t2s esi_bits None ++ L) x.
Proof. apply r_t2s. discriminate. Qed.

Ltac mws := first
  [ apply w_t4_none; [reflexivity|]
  | (apply (w_t4s _ _ gid_valid); [side|exact gid_writes|side|])
  | (apply (w_t4s _ _ giu_valid); [side|exact giu_writes|side|])
  | (apply (w_t3s _ _ gila_valid); [side|exact gila_writes|side|])
  | (apply (w_t3s _ _ gild_valid); [side|exact gild_writes|side|])
  | apply w_la; [side|]
  | apply w_noesi
  | (apply w_options; [cbn [existsb some is_some]; unfold id; rewrite ?orb_false_r, ?orb_false_l, ?orb_assoc; reflexivity|let E := fresh "E" in intros E; rewrite E; rewrite <- ?app_assoc])
  | ws ].
Ltac mnoelem := let rest := fresh in let H := fresh in intros rest H; rewrite <- ?app_assoc;
  repeat first [apply no_elem_t3; [lia|discriminate|] | apply no_elem_t3s; [lia|discriminate|] | apply no_elem_t4s; [lia|discriminate|]
               | apply no_elem_t4; [lia|discriminate|]]; apply no_elem_stop.
Ltac mrs := first
  [ (apply r_la; [side|let v := fresh in let E := fresh in intros v E; rewrite E; clear v E])
  | apply r_noesi
  | apply r_t4; [side|side| |mnoelem]
  | (apply (r_t4s _ _ _ gid_valid); [side|exact gid_reads|side| |mnoelem])
  | (apply (r_t4s _ _ _ giu_valid); [side|exact giu_reads|side| |mnoelem])
  | (apply (r_t3s _ _ _ gila_valid); [side|exact gila_reads|side| |mnoelem])
  | (apply (r_t3s _ _ _ gild_valid); [side|exact gild_reads|side| |mnoelem])
  | apply r_t3; [side|side| |mnoelem]
  | apply r_absent3s | apply r_absent4s | apply r_absent4
  | rs ].

Lemma d_attach_detach_reads s : d_attach_detach_valid s = true -> reads d_attach_detach_from_bitbuf (d_attach_detach_wire s) s.
Proof.
  intros V. unfold d_attach_detach_valid in V. unfold d_attach_detach_from_bitbuf, d_attach_detach_wire. destruct s as [x0 x1 x2 x3 x4 x5 x6].
  cbn [d_attach_detach_group_identity_report d_attach_detach_group_identity_acknowledgement_request d_attach_detach_group_identity_attach_detach_mode d_attach_detach_proprietary d_attach_detach_group_report_response d_attach_detach_group_identity_downlink d_attach_detach_group_identity_security_related_information] in *. hyps. apply readsF_reads. repeat mrs.
Qed.
Lemma d_attach_detach_ok s : d_attach_detach_valid s = true -> d_attach_detach_writable s = true -> conveys (d_attach_detach_to_bitbuf s) d_attach_detach_from_bitbuf s (d_attach_detach_wire s).
Proof.
  intros V U. split; [|now apply d_attach_detach_reads]. revert V U.
  intros V U. unfold d_attach_detach_valid in V. unfold d_attach_detach_writable in U. unfold d_attach_detach_to_bitbuf, d_attach_detach_wire. destruct s as [x0 x1 x2 x3 x4 x5 x6].
  cbn [d_attach_detach_group_identity_report d_attach_detach_group_identity_acknowledgement_request d_attach_detach_group_identity_attach_detach_mode d_attach_detach_proprietary d_attach_detach_group_report_response d_attach_detach_group_identity_downlink d_attach_detach_group_identity_security_related_information] in *. hyps. cbv zeta. repeat mws.
Qed.

Lemma d_attach_detach_ack_reads s : d_attach_detach_ack_valid s = true -> reads d_attach_detach_ack_from_bitbuf (d_attach_detach_ack_wire s) s.
Proof.
  intros V. unfold d_attach_detach_ack_valid in V. unfold d_attach_detach_ack_from_bitbuf, d_attach_detach_ack_wire. destruct s as [x0 x1 x2 x3 x4].
  cbn [d_attach_detach_ack_group_identity_accept_reject d_attach_detach_ack_reserved d_attach_detach_ack_proprietary d_attach_detach_ack_group_identity_downlink d_attach_detach_ack_group_identity_security_related_information] in *. hyps. apply readsF_reads. repeat mrs.
Qed.
Lemma d_attach_detach_ack_ok s : d_attach_detach_ack_valid s = true -> d_attach_detach_ack_writable s = true -> conveys (d_attach_detach_ack_to_bitbuf s) d_attach_detach_ack_from_bitbuf s (d_attach_detach_ack_wire s).
Proof.
  intros V U. split; [|now apply d_attach_detach_ack_reads]. revert V U.
  intros V U. unfold d_attach_detach_ack_valid in V. unfold d_attach_detach_ack_writable in U. unfold d_attach_detach_ack_to_bitbuf, d_attach_detach_ack_wire. destruct s as [x0 x1 x2 x3 x4].
  cbn [d_attach_detach_ack_group_identity_accept_reject d_attach_detach_ack_reserved d_attach_detach_ack_proprietary d_attach_detach_ack_group_identity_downlink d_attach_detach_ack_group_identity_security_related_information] in *. hyps. cbv zeta. repeat mws.
Qed.

Lemma d_lu_accept_reads s : d_lu_accept_valid s = true -> reads d_lu_accept_from_bitbuf (d_lu_accept_wire s) s.
Proof.
  intros V. unfold d_lu_accept_valid in V. unfold d_lu_accept_from_bitbuf, d_lu_accept_wire. destruct s as [x0 x1 x2 x3 x4 x5 x6 x7 x8 x9 x10 x11 x12 x13].
  cbn [d_lu_accept_location_update_accept_type d_lu_accept_ssi d_lu_accept_address_extension d_lu_accept_subscriber_class d_lu_accept_energy_saving_information d_lu_accept_scch_information_and_distribution_on_18th_frame d_lu_accept_new_registered_area d_lu_accept_security_downlink d_lu_accept_group_identity_location_accept d_lu_accept_default_group_attachment_lifetime d_lu_accept_authentication_downlink d_lu_accept_group_identity_security_related_information d_lu_accept_cell_type_control d_lu_accept_proprietary] in *. hyps. apply readsF_reads. repeat mrs.
Qed.
Lemma d_lu_accept_ok s : d_lu_accept_valid s = true -> d_lu_accept_writable s = true -> conveys (d_lu_accept_to_bitbuf s) d_lu_accept_from_bitbuf s (d_lu_accept_wire s).
Proof.
  intros V U. split; [|now apply d_lu_accept_reads]. revert V U.
  intros V U. unfold d_lu_accept_valid in V. unfold d_lu_accept_writable in U. unfold d_lu_accept_to_bitbuf, d_lu_accept_wire. destruct s as [x0 x1 x2 x3 x4 x5 x6 x7 x8 x9 x10 x11 x12 x13].
  cbn [d_lu_accept_location_update_accept_type d_lu_accept_ssi d_lu_accept_address_extension d_lu_accept_subscriber_class d_lu_accept_energy_saving_information d_lu_accept_scch_information_and_distribution_on_18th_frame d_lu_accept_new_registered_area d_lu_accept_security_downlink d_lu_accept_group_identity_location_accept d_lu_accept_default_group_attachment_lifetime d_lu_accept_authentication_downlink d_lu_accept_group_identity_security_related_information d_lu_accept_cell_type_control d_lu_accept_proprietary] in *. hyps. cbv zeta. repeat mws.
Qed.

Lemma d_lu_command_writes s : d_lu_command_valid s = true -> writes (d_lu_command_to_bitbuf s) (d_lu_command_wire s).
Proof.
  intros V. unfold d_lu_command_valid in V. unfold d_lu_command_to_bitbuf, d_lu_command_wire. destruct s as [x0 x1 x2 x3 x4 x5].
  cbn [d_lu_command_group_identity_report d_lu_command_cipher_control d_lu_command_ciphering_parameters d_lu_command_address_extension d_lu_command_cell_type_control d_lu_command_proprietary] in *. hyps. cbv zeta. repeat mws.
Qed.

Lemma d_lu_proceeding_ok s : d_lu_proceeding_valid s = true -> conveys (d_lu_proceeding_to_bitbuf s) d_lu_proceeding_from_bitbuf s (d_lu_proceeding_wire s).
Proof.
  intros V. unfold d_lu_proceeding_valid in V. unfold d_lu_proceeding_to_bitbuf, d_lu_proceeding_from_bitbuf, d_lu_proceeding_wire. destruct s as [x0 x1 x2].
  cbn [d_lu_proceeding_ssi d_lu_proceeding_address_extension d_lu_proceeding_proprietary] in *. hyps. split; [cbv zeta; repeat mws|apply readsF_reads; repeat mrs].
Qed.

Lemma d_lu_reject_writes s : d_lu_reject_valid s = true -> writes (d_lu_reject_to_bitbuf s) (d_lu_reject_wire s).
Proof.
  intros V. unfold d_lu_reject_valid in V. unfold d_lu_reject_to_bitbuf, d_lu_reject_wire. destruct s as [x0 x1 x2 x3 x4 x5 x6].
  cbn [d_lu_reject_location_update_type d_lu_reject_reject_cause d_lu_reject_cipher_control d_lu_reject_ciphering_parameters d_lu_reject_address_extension d_lu_reject_cell_type_control d_lu_reject_proprietary] in *. hyps. cbv zeta. repeat mws.
Qed.

Lemma u_attach_detach_ok s : u_attach_detach_valid s = true -> conveys (u_attach_detach_to_bitbuf s) u_attach_detach_from_bitbuf s (u_attach_detach_wire s).
Proof.
  intros V. unfold u_attach_detach_valid in V. unfold u_attach_detach_to_bitbuf, u_attach_detach_from_bitbuf, u_attach_detach_wire. destruct s as [x0 x1 x2 x3 x4].
  cbn [u_attach_detach_group_identity_report u_attach_detach_group_identity_attach_detach_mode u_attach_detach_group_report_response u_attach_detach_group_identity_uplink u_attach_detach_proprietary] in *. hyps. split; [cbv zeta; repeat mws|apply readsF_reads; repeat mrs].
Qed.

Lemma u_attach_detach_ack_ok s : u_attach_detach_ack_valid s = true -> conveys (u_attach_detach_ack_to_bitbuf s) u_attach_detach_ack_from_bitbuf s (u_attach_detach_ack_wire s).
Proof.
  intros V. unfold u_attach_detach_ack_valid in V. unfold u_attach_detach_ack_to_bitbuf, u_attach_detach_ack_from_bitbuf, u_attach_detach_ack_wire. destruct s as [x0 x1 x2].
  cbn [u_attach_detach_ack_group_identity_acknowledgement_type u_attach_detach_ack_group_identity_uplink u_attach_detach_ack_proprietary] in *. hyps. split; [cbv zeta; repeat mws|apply readsF_reads; repeat mrs].
Qed.

Lemma u_itsi_detach_ok s : u_itsi_detach_valid s = true -> conveys (u_itsi_detach_to_bitbuf s) u_itsi_detach_from_bitbuf s (u_itsi_detach_wire s).
Proof.
  intros V. unfold u_itsi_detach_valid in V. unfold u_itsi_detach_to_bitbuf, u_itsi_detach_from_bitbuf, u_itsi_detach_wire. destruct s as [x0 x1].
  cbn [u_itsi_detach_address_extension u_itsi_detach_proprietary] in *. hyps. split; [cbv zeta; repeat mws|apply readsF_reads; repeat mrs].
Qed.

Lemma u_lu_demand_ok s : u_lu_demand_valid s = true -> conveys (u_lu_demand_to_bitbuf s) u_lu_demand_from_bitbuf s (u_lu_demand_wire s).
Proof.
  intros V. unfold u_lu_demand_valid in V. unfold u_lu_demand_to_bitbuf, u_lu_demand_from_bitbuf, u_lu_demand_wire. destruct s as [x0 x1 x2 x3 x4 x5 x6 x7 x8 x9 x10 x11 x12 x13].
  cbn [u_lu_demand_location_update_type u_lu_demand_request_to_append_la u_lu_demand_cipher_control u_lu_demand_ciphering_parameters u_lu_demand_class_of_ms u_lu_demand_energy_saving_mode u_lu_demand_la_information u_lu_demand_ssi u_lu_demand_address_extension u_lu_demand_group_identity_location_demand u_lu_demand_group_report_response u_lu_demand_authentication_uplink u_lu_demand_extended_capabilities u_lu_demand_proprietary] in *. hyps. split; [cbv zeta; repeat mws|apply readsF_reads; repeat mrs].
Qed.

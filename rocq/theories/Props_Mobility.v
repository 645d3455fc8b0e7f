(** Property theorems for C34 and C55: mobility management. *)
From Verif Require Import Base AMap AMapOrder TdmaTime MacFields MmFields MmPdus MmSpec BrewRoute Registry CallControl CcSpec CcFacts Mobility MobilitySpec MobilityFacts
  BitBuffer BitBufferProofs Codec.
Open Scope N_scope.

(** C34: whatever radios send, and whatever happens in between, the shared registry says the same as mobility
    management: who is known, who is attached to what, which groups have members. *)
Theorem C34_registry : forall cfg y, runs_to cfg (fun _ => True) y -> registry_agrees (sy_mob y).
Proof. exact registry_in_step. Qed.
Print Assumptions C34_registry.
Example C34_registry_met : exists m c, runs_to ex_cfg (fun _ => True) (mk_sys m c []) /\
  same_groups (mm_groups 1 m) (Some [100; 400]) && same_groups (mm_groups 2 m) (Some [100]) && same_groups (mm_groups 3 m) None = true.
Proof. apply (after_talk_runs ex_talk (fun m _ => same_groups (mm_groups 1 m) (Some [100; 400]) && same_groups (mm_groups 2 m) (Some [100]) && same_groups (mm_groups 3 m) None)). vm_compute. reflexivity. Qed.

(** C34: once all updates are delivered, call control says the same as mobility management too, and a group has
    listeners exactly if somebody is attached to it, provided no request detaches a group and attaches it further on in
    the same list.  (Missing: such requests, for which the statement is false, see [C34_calls_refuted].) *)
Theorem C34_calls_partial : forall cfg m c, runs_to cfg orderly_request (mk_sys m c []) -> calls_agree m c.
Proof. exact calls_in_step. Qed.
Print Assumptions C34_calls_partial.
Example C34_calls_met : exists m c, runs_to ex_cfg orderly_request (mk_sys m c []) /\ same_groups (mm_groups 1 m) (Some [100; 400]) = true /\
  same_groups (aget 1 (cc_subs c)) (Some [100; 400]) = true.
Proof. exact talk_orderly. Qed.

(** C34 as stated is false: a radio that detaches from and attaches to its group in one request stays attached in
    mobility management and the registry, while call control forgets it. *)
Theorem C34_calls_refuted : exists cfg m c, runs_to cfg (fun _ => True) (mk_sys m c []) /\ mm_attached m 1 100 /\ ~ cc_attached c 1 100 /\ has_listener 100 c = false.
Proof. exact again_parts. Qed.
Print Assumptions C34_calls_refuted.

(** C34: the network is told the same as call control, as far as the configuration lets it know. *)
Theorem C34_network_told : forall cfg hint i s s' q, mm_rx cfg hint i s = Ok (s', q) ->
  to_network q = flat_map (fun u => match routed cfg u with Some v => [v] | None => [] end) (to_cmce q).
Proof. exact network_told. Qed.
Print Assumptions C34_network_told.
Example C34_network_told_met : match mm_rx ex_cfg [] (hd (say 0 []) ex_talk) mob_new with
  | Ok (_, q) => to_network q = [mk_update 1 [] SubRegister; mk_update 1 [100; 200] SubAffiliate] | _ => False end.
Proof. vm_compute. reflexivity. Qed.

(** C55: a location update of a supported kind makes the radio known and is accepted, with one answer for each group
    that was named by its GSSI; the radio is then attached as the answer says, and nothing changes for other radios.  A
    radio that was unknown and did not ask to be attached is asked to report its groups.  (Missing: the group mode
    of the request, which is not observed, see [C55_location_mode_refuted].) *)
Theorem C55_location_update_partial : forall cfg hint i s p b, wf (di_sdu i) -> u_lu_demand_from_bitbuf (di_sdu i) = Ok (p, b) -> lu_acceptable p ->
  ad_ssi (di_addr i) < 16777216 ->
  exists s' q, mm_rx cfg hint i s = Ok (s', q) /\ mm_known s' (ad_ssi (di_addr i)) /\
    replies q (di_handle i) (ad_ssi (di_addr i))
      (PmLuAccept (mk_d_lu_accept (u_lu_demand_location_update_type p) (Some (ad_ssi (di_addr i))) None None None None None None
         (option_map (fun d => mk_gila 0 (option_map answers_to (gild_uplink d))) (u_lu_demand_group_identity_location_demand p)) None None None None None)
       :: match aget (ad_ssi (di_addr i)) (mo_clients s) with
          | None => if u_lu_demand_location_update_type p =? 3 then [] else [PmLuCommand (mk_d_lu_command true false None None None None)]
          | Some _ => []
          end) /\
    attached_as_asked s s' (ad_ssi (di_addr i)) (match lu_groups p with Some l => l | None => [] end) true.
Proof. exact location_update. Qed.
Print Assumptions C55_location_update_partial.
Example C55_location_update_met : let i := say 1 (u_lu_demand_wire (locate 0 0 [attach 100; detach 200])) in
  wf (di_sdu i) /\ exists b, u_lu_demand_from_bitbuf (di_sdu i) = Ok (locate 0 0 [attach 100; detach 200], b) /\ lu_acceptable (locate 0 0 [attach 100; detach 200]).
Proof. exact ex_location. Qed.

(** C55: a location update of another kind changes nothing and is not answered. *)
Theorem C55_location_refused : forall cfg hint i s p b, u_lu_demand_from_bitbuf (di_sdu i) = Ok (p, b) -> ~ lu_acceptable p -> mm_rx cfg hint i s = Ok (s, []).
Proof. exact location_refused. Qed.
Print Assumptions C55_location_refused.
Example C55_location_refused_met : let i := say 1 (u_lu_demand_wire (locate 1 0 [attach 100])) in
  exists b, u_lu_demand_from_bitbuf (di_sdu i) = Ok (locate 1 0 [attach 100], b) /\ ~ lu_acceptable (locate 1 0 [attach 100]).
Proof. eexists. split; [vm_compute; reflexivity|]. intros [H _]. now apply H. Qed.

(** C55: a group mode that asks for all other groups to be detached is not observed in a location update. *)
Theorem C55_location_mode_refuted : exists cfg hint i s p b, wf (di_sdu i) /\ u_lu_demand_from_bitbuf (di_sdu i) = Ok (p, b) /\ lu_acceptable p /\
  option_map gild_mode (u_lu_demand_group_identity_location_demand p) = Some 1 /\
  exists s' q, mm_rx cfg hint i s = Ok (s', q) /\ ~ attached_as_asked s s' (ad_ssi (di_addr i)) (match lu_groups p with Some l => l | None => [] end) false.
Proof. exact location_mode. Qed.
Print Assumptions C55_location_mode_refuted.

(** C55: a request to attach and detach groups is acknowledged in the same way; with the mode "detach all first" the
    radio keeps only what the list attaches, and becomes known if it was not. *)
Theorem C55_group_request : forall cfg hint i s p b l, wf (di_sdu i) -> u_attach_detach_from_bitbuf (di_sdu i) = Ok (p, b) ->
  u_attach_detach_group_identity_uplink p = Some l -> (u_attach_detach_group_identity_attach_detach_mode p = true \/ mm_known s (ad_ssi (di_addr i))) ->
  exists s' q, mm_rx cfg hint i s = Ok (s', q) /\ mm_known s' (ad_ssi (di_addr i)) /\
    replies q (di_handle i) (ad_ssi (di_addr i)) [PmAttachAck (mk_d_attach_detach_ack 0 false None (Some (answers_to l)) None)] /\
    attached_as_asked s s' (ad_ssi (di_addr i)) l (negb (u_attach_detach_group_identity_attach_detach_mode p)).
Proof. exact group_request. Qed.
Print Assumptions C55_group_request.
Example C55_group_request_met : let i := say 2 (u_attach_detach_wire (ask true [attach 100; detach 200; attach 300])) in
  wf (di_sdu i) /\ exists b, u_attach_detach_from_bitbuf (di_sdu i) = Ok (ask true [attach 100; detach 200; attach 300], b).
Proof. exact ex_group. Qed.

(** C55: from a radio that is not known, without that mode, nothing is accepted: the acknowledgement is empty. *)
Theorem C55_group_request_stranger : forall cfg hint i s p b l, u_attach_detach_from_bitbuf (di_sdu i) = Ok (p, b) ->
  u_attach_detach_group_identity_uplink p = Some l -> u_attach_detach_group_identity_attach_detach_mode p = false -> ~ mm_known s (ad_ssi (di_addr i)) ->
  mm_rx cfg hint i s = Ok (s, [MmToMle (di_dltime i) (di_handle i) (mk_addr (ad_ssi (di_addr i)) false SsiSsi)
    (PmAttachAck (mk_d_attach_detach_ack 0 false None (Some []) None))]).
Proof. exact group_request_stranger. Qed.
Print Assumptions C55_group_request_stranger.
Example C55_group_request_stranger_met : let i := say 9 (u_attach_detach_wire (ask false [attach 100])) in
  exists b, u_attach_detach_from_bitbuf (di_sdu i) = Ok (ask false [attach 100], b) /\ ~ mm_known mob_new 9.
Proof. eexists. split; [vm_compute; reflexivity|]. intros H. now apply H. Qed.

(** C55: a radio that detaches is forgotten, and nobody else is. *)
Theorem C55_detach : forall cfg hint i s p b, u_itsi_detach_from_bitbuf (di_sdu i) = Ok (p, b) ->
  exists s' q, mm_rx cfg hint i s = Ok (s', q) /\ sent q = [] /\ ~ mm_known s' (ad_ssi (di_addr i)) /\
    forall j, j <> ad_ssi (di_addr i) -> aget j (mo_clients s') = aget j (mo_clients s).
Proof. exact itsi_detach. Qed.
Print Assumptions C55_detach.
Example C55_detach_met : let i := say 3 (u_itsi_detach_wire (mk_u_itsi_detach None None)) in
  exists b, u_itsi_detach_from_bitbuf (di_sdu i) = Ok (mk_u_itsi_detach None None, b).
Proof. eexists. vm_compute. reflexivity. Qed.

(** C55: a status is answered with "function not supported", naming the status, and changes nothing. *)
Theorem C55_status : forall cfg hint i s p b, u_mm_status_from_bitbuf (di_sdu i) = Ok (p, b) ->
  mm_rx cfg hint i s = Ok (s, [MmToMle (di_dltime i) (di_handle i) (di_addr i)
    (PmNotSupported (mk_mm_function_not_supported 3 (Some (6%nat, u_mm_status_status_uplink p))))]).
Proof. exact status_answered. Qed.
Print Assumptions C55_status.
Example C55_status_met : let i := say 3 (u_mm_status_wire (mk_u_mm_status 1 (Some 5) (Some 6%nat))) in
  exists b, u_mm_status_from_bitbuf (di_sdu i) = Ok (mk_u_mm_status 1 (Some 5) (Some 6%nat), b).
Proof. eexists. vm_compute. reflexivity. Qed.

(** C55: every other message changes nothing and is not answered. *)
Theorem C55_ignored : forall cfg hint i s ty, peek_bits (di_sdu i) 4 = Ok (Some ty) -> ~ In ty [1; 2; 3; 7] -> mm_rx cfg hint i s = Ok (s, []).
Proof. exact others_ignored. Qed.
Print Assumptions C55_ignored.
Example C55_ignored_met : peek_bits (di_sdu (say 1 (bits_ex 4 8 ++ [true; false]))) 4 = Ok (Some 8).
Proof. vm_compute. reflexivity. Qed.

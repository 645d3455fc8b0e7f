(** Property theorems for C38: short data from radios. *)
From Verif Require Import Base BitBuffer BitBufferProofs BitBufferOps Codec TdmaTime MacFields CmceFields CmcePdus PduSpec CmceSpec
  BrewRoute Registry RegistrySpec CallControl Sds SdsSpec SdsProofs SdsFacts.
Open Scope N_scope.

(** C38: a short data message of a radio, with whatever else it carries, goes to the radio it names if that is
    registered, else to the group if it has members, else to the network if that takes it, else nowhere: to exactly one
    of these, with the same data and the sender's address.  [h] is any history of the registry. *)
Theorem C38_short_data : forall cfg h i p rest dest,
  wf (mi_sdu i) -> fit 24 (ad_ssi (mi_addr i)) = true -> u_sds_data_valid p = true ->
  remaining (mi_sdu i) = u_sds_data_wire p ++ rest -> u_sds_data_called_party_ssi p = Some dest ->
  exists q, route_rf_deliver cfg (reg_run h) i = Ok q /\
    short_data_goes cfg h (mi_dltime i) (ad_ssi (mi_addr i)) dest (u_sds_data_user_defined_data p) q.
Proof. exact radio_short_data_wire. Qed.
Print Assumptions C38_short_data.

(** C38: the same for any bits that are read as a short data message. *)
Theorem C38_short_data_read : forall cfg h i p b dest,
  wf (mi_sdu i) -> fit 24 (ad_ssi (mi_addr i)) = true ->
  u_sds_data_from_bitbuf (mi_sdu i) = Ok (p, b) -> u_sds_data_called_party_ssi p = Some dest ->
  exists q, route_rf_deliver cfg (reg_run h) i = Ok q /\
    short_data_goes cfg h (mi_dltime i) (ad_ssi (mi_addr i)) dest (u_sds_data_user_defined_data p) q.
Proof. exact radio_short_data. Qed.
Print Assumptions C38_short_data_read.

(** C38: a message without such an address, or one that cannot be read, is dropped. *)
Theorem C38_short_data_dropped : forall cfg h i,
  ((exists p b, u_sds_data_from_bitbuf (mi_sdu i) = Ok (p, b) /\ u_sds_data_called_party_ssi p = None) \/ (exists e, u_sds_data_from_bitbuf (mi_sdu i) = Err e)) ->
  route_rf_deliver cfg (reg_run h) i = Ok [].
Proof. exact radio_short_data_dropped. Qed.
Print Assumptions C38_short_data_dropped.

Example C38_short_data_met :
  u_sds_data_valid (send_to 2) = true /\
  place (route_rf_deliver ex_net (reg_run ex_told) (speak 1 (u_sds_data_wire (send_to 2)))) = Some (Some (inl (2, SsiIssi))) /\
  place (route_rf_deliver ex_net (reg_run ex_told) (speak 1 (u_sds_data_wire (send_to 100)))) = Some (Some (inl (100, SsiGssi))) /\
  place (route_rf_deliver ex_net (reg_run ex_told) (speak 1 (u_sds_data_wire (send_to 3)))) = Some (Some (inr (3, text))) /\
  place (route_rf_deliver ex_off (reg_run ex_told) (speak 1 (u_sds_data_wire (send_to 300)))) = Some None.
Proof. exact ex_places. Qed.

(** C38 for status messages: to the registered radio it names, else to the network, else nowhere.  (Missing: the
    reserved status 31743, see [C38_status_refuted]; groups, see [C38_status_group_refuted].) *)
Theorem C38_status_partial : forall cfg h i p b dest,
  wf (mi_sdu i) -> fit 24 (ad_ssi (mi_addr i)) = true ->
  u_status_from_bitbuf (mi_sdu i) = Ok (p, b) -> u_status_called_party_ssi p = Some dest ->
  exists q, route_status_deliver cfg (reg_run h) i = Ok q /\
    status_goes cfg h (mi_dltime i) (ad_ssi (mi_addr i)) dest (u_status_pre_coded_status p) q.
Proof. exact radio_status. Qed.
Print Assumptions C38_status_partial.
Theorem C38_status_dropped : forall cfg h i,
  ((exists p b, u_status_from_bitbuf (mi_sdu i) = Ok (p, b) /\ u_status_called_party_ssi p = None) \/ (exists e, u_status_from_bitbuf (mi_sdu i) = Err e)) ->
  route_status_deliver cfg (reg_run h) i = Ok [].
Proof. exact radio_status_dropped. Qed.
Print Assumptions C38_status_dropped.
Example C38_status_met :
  place (route_status_deliver ex_net (reg_run ex_told) (speak 1 (u_status_wire (report_to 2 (PcsNetworkUser 40000))))) = Some (Some (inl (2, SsiIssi))) /\
  place (route_status_deliver ex_net (reg_run ex_told) (speak 1 (u_status_wire (report_to 3 (PcsNetworkUser 40000))))) = Some (Some (inr (3, SdsType1 40000))) /\
  place (route_status_deliver ex_net (reg_run ex_told) (speak 1 (u_status_wire (report_to 3 (PcsSdsTl (mk_ssr 1 77)))))) = Some (Some (inr (3, SdsType4 32 [0x82; 0x10; 0x02; 77]))) /\
  place (route_status_deliver ex_off (reg_run ex_told) (speak 1 (u_status_wire (report_to 100 PcsEmergency)))) = Some None.
Proof. exact ex_status_places. Qed.

(** C38 is false of status messages in two ways: the reserved status 31743 stops the base station, and a status for a
    group with members is not delivered to it. *)
Theorem C38_status_refuted : exists i,
  remaining (mi_sdu i) = num 5 8 ++ num 4 0 ++ num 2 1 ++ num 24 2 ++ num 16 31743 ++ flag false /\
  route_status_deliver ex_net (reg_run ex_told) i = Panic.
Proof. exact status_crash. Qed.
Print Assumptions C38_status_refuted.
Theorem C38_status_group_refuted : exists i,
  remaining (mi_sdu i) = u_status_wire (report_to 100 (PcsNetworkUser 40000)) /\ has_member ex_told 100 /\
  route_status_deliver ex_off (reg_run ex_told) i = Ok [].
Proof. exact status_group_lost. Qed.
Print Assumptions C38_status_group_refuted.

(** Examples and counterexamples on short data. *)
From Coq Require Import String.
From Verif Require Import Base BitsLib BitBuffer BitBufferProofs BitBufferOps Codec CodecProofs TypedFields
  TdmaTime MacFields CmceFields CmcePdus PduSpec PduProofs CmceSpec CmceProofs ReaderGives
  BrewRoute Registry RegistrySpec RegistryProofs CallControl Sds SdsSpec SdsProofs.
Open Scope string_scope. Open Scope list_scope. Open Scope N_scope.

(** Radio 1 is here; radio 2 is here and in group 100; radio 3 has left. *)
Definition ex_told : list reg_op := [Register 1; Register 2; Affiliate 2 100; Register 3; Affiliate 3 300; Deregister 3].
Definition ex_net : cfg_route := mk_cfg_route (Some (mk_cfg_brew "brew.example" true None)) [].
Definition ex_off : cfg_route := mk_cfg_route None [].
(** An uplink message of a radio *)
Definition speak (issi : N) (w : list bool) : mle_ind :=
  mk_mle_ind (mk_time 3 1 1 1) (match bb_from_bitstr w with Ok b => b | _ => bb_new 0 end) (mk_addr issi false SsiSsi) 0 0 0.
Definition text : sds_user_data := SdsType4 20 [0x82; 0x04; 0xA0].
Definition send_to (dest : N) : u_sds_data := mk_u_sds_data 0 1 None (Some dest) None text None None.
Definition report_to (dest : N) (s : pre_coded_status) : u_status := mk_u_status 0 1 None (Some dest) None s None None.

(** The kind of place a result goes to *)
Definition place (r : res (list sds_msg)) : option (option (N * ssi_type + N * sds_user_data)) :=
  match r with
  | Ok [] => Some None
  | Ok [SdToMle _ a _ _] => Some (Some (inl (ad_ssi a, ad_type a)))
  | Ok [SdToBrew _ _ d x] => Some (Some (inr (d, x)))
  | _ => None
  end.
Lemma ex_places :
  u_sds_data_valid (send_to 2) = true /\
  place (route_rf_deliver ex_net (reg_run ex_told) (speak 1 (u_sds_data_wire (send_to 2)))) = Some (Some (inl (2, SsiIssi))) /\
  place (route_rf_deliver ex_net (reg_run ex_told) (speak 1 (u_sds_data_wire (send_to 100)))) = Some (Some (inl (100, SsiGssi))) /\
  place (route_rf_deliver ex_net (reg_run ex_told) (speak 1 (u_sds_data_wire (send_to 3)))) = Some (Some (inr (3, text))) /\
  place (route_rf_deliver ex_off (reg_run ex_told) (speak 1 (u_sds_data_wire (send_to 300)))) = Some None.
Proof. vm_compute. auto. Qed.
Lemma ex_status_places :
  place (route_status_deliver ex_net (reg_run ex_told) (speak 1 (u_status_wire (report_to 2 (PcsNetworkUser 40000))))) = Some (Some (inl (2, SsiIssi))) /\
  place (route_status_deliver ex_net (reg_run ex_told) (speak 1 (u_status_wire (report_to 3 (PcsNetworkUser 40000))))) = Some (Some (inr (3, SdsType1 40000))) /\
  place (route_status_deliver ex_net (reg_run ex_told) (speak 1 (u_status_wire (report_to 3 (PcsSdsTl (mk_ssr 1 77)))))) = Some (Some (inr (3, SdsType4 32 [0x82; 0x10; 0x02; 77]))) /\
  place (route_status_deliver ex_off (reg_run ex_told) (speak 1 (u_status_wire (report_to 100 PcsEmergency)))) = Some None.
Proof. vm_compute. auto. Qed.

(** The reserved status 31743 *)
Lemma status_crash : exists i, remaining (mi_sdu i) = num 5 8 ++ num 4 0 ++ num 2 1 ++ num 24 2 ++ num 16 31743 ++ flag false /\
  route_status_deliver ex_net (reg_run ex_told) i = Panic.
Proof. exists (speak 1 (num 5 8 ++ num 4 0 ++ num 2 1 ++ num 24 2 ++ num 16 31743 ++ flag false)). vm_compute. auto. Qed.
(** A status for a group *)
Lemma status_group_lost : exists i, remaining (mi_sdu i) = u_status_wire (report_to 100 (PcsNetworkUser 40000)) /\ has_member ex_told 100 /\
  route_status_deliver ex_off (reg_run ex_told) i = Ok [].
Proof.
  exists (speak 1 (u_status_wire (report_to 100 (PcsNetworkUser 40000)))). split; [vm_compute; reflexivity|]. split; [|vm_compute; reflexivity].
  exists 2. vm_compute. auto.
Qed.
(** Two reports the network cannot tell apart *)
Lemma reports_merged : status_on_network (PcsSdsTl (mk_ssr 2 77)) = status_on_network (PcsSdsTl (mk_ssr 3 77)).
Proof. reflexivity. Qed.

(** Short data nobody checked *)
Lemma control_crash_length : rx_sds_from_control (reg_run ex_told) 5 2 false 80 [1; 2; 3] = Panic.
Proof. vm_compute. reflexivity. Qed.
Lemma control_crash_source : rx_sds_from_control (reg_run ex_told) 16777216 2 false 8 [1] = Panic.
Proof. vm_compute. reflexivity. Qed.
Lemma control_group_refused : has_member ex_told 100 /\ rx_sds_from_control (reg_run ex_told) 5 100 true 8 [1] = Ok (false, []).
Proof. split; [exists 2; vm_compute; auto|vm_compute; reflexivity]. Qed.

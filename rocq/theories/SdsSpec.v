(** What the theorems on short data (C38, C56) say, apart from the model's own helpers. *)
From Verif Require Import Base BitBuffer BitBufferProofs BitBufferOps TdmaTime MacFields CmceFields CmcePdus PduSpec CmceSpec BrewRoute Registry RegistrySpec CallControl Sds.
Open Scope N_scope.

(** The message itself: the bits the sender's user wrote *)
Definition content (d : sds_user_data) : list bool :=
  match d with
  | SdsType1 v => num 16 v
  | SdsType2 v => num 32 v
  | SdsType3 v => num 64 v
  | SdsType4 n data => firstn (N.to_nat n) (bytes_bits data)
  end.

(** What the base station sends to radios: D-SDS-DATA and D-STATUS with the sender's address and nothing else *)
Definition from_to (source : N) (data : sds_user_data) : d_sds_data := mk_d_sds_data 1 (Some source) None data None None.
Definition status_from (source : N) (s : pre_coded_status) : d_status := mk_d_status 1 (Some source) None s None None.

(** [h]: everything the registry was told, in order.  A radio is registered; a group has a member. *)
Definition is_here (h : list reg_op) (issi : N) : Prop := is_reg (rev h) issi = true.
Definition has_member (h : list reg_op) (g : N) : Prop := exists issi, is_reg (rev h) issi = true /\ is_aff (rev h) issi g = true.

(** The network takes short data for an address: short data is enabled, and the address is routable or that of one
    of the services of TetraPack (what that means is C41). *)
Definition network_takes (cfg : cfg_route) (dest : N) : Prop :=
  brew_sds_enabled cfg = true /\ (brew_issi_routable cfg dest = true \/ is_tetrapack_sds_service cfg dest = true).
(** The same for status messages, which does not ask whether short data is enabled *)
Definition network_takes_status (cfg : cfg_route) (dest : N) : Prop :=
  brew_is_active cfg = true /\ (brew_issi_routable cfg dest = true \/ is_tetrapack_sds_service cfg dest = true).

(** Where a short message goes, and as what: all that is sent because of it *)
Inductive short_data_goes (cfg : cfg_route) (h : list reg_op) (t : tdma_time) (source dest : N) (data : sds_user_data) : list sds_msg -> Prop :=
| goes_to_radio sdu :
    is_here h dest -> wf sdu -> remaining sdu = d_sds_data_wire (from_to source data) ->
    short_data_goes cfg h t source dest data [SdToMle t (mk_addr dest false SsiIssi) L2Acknowledged sdu]
| goes_to_group sdu :
    ~ is_here h dest -> has_member h dest -> wf sdu -> remaining sdu = d_sds_data_wire (from_to source data) ->
    short_data_goes cfg h t source dest data [SdToMle t (mk_addr dest false SsiGssi) L2Unacknowledged sdu]
| goes_to_network :
    ~ is_here h dest -> ~ has_member h dest -> network_takes cfg dest ->
    short_data_goes cfg h t source dest data [SdToBrew t source dest data]
| goes_nowhere :
    ~ is_here h dest -> ~ has_member h dest -> ~ network_takes cfg dest ->
    short_data_goes cfg h t source dest data [].

(** A status on the network: a plain one as 16 bits; a delivery report as the four octets of an SDS-TL report of text
    messaging, with the message reference of the short report *)
Definition status_on_network (s : pre_coded_status) : sds_user_data :=
  match s with
  | PcsSdsTl r => SdsType4 32 [0x82; 0x10; nth (N.to_nat (ssr_type r)) [0x01; 0x02; 0x00; 0x00] 0; ssr_reference r]
  | _ => SdsType1 (pcs_value s)
  end.

Inductive status_goes (cfg : cfg_route) (h : list reg_op) (t : tdma_time) (source dest : N) (s : pre_coded_status) : list sds_msg -> Prop :=
| status_to_radio sdu :
    is_here h dest -> wf sdu -> remaining sdu = d_status_wire (status_from source s) ->
    status_goes cfg h t source dest s [SdToMle t (mk_addr dest false SsiIssi) L2Todo sdu]
| status_to_network :
    ~ is_here h dest -> network_takes_status cfg dest ->
    status_goes cfg h t source dest s [SdToBrew t source dest (status_on_network s)]
| status_nowhere :
    ~ is_here h dest -> ~ network_takes_status cfg dest ->
    status_goes cfg h t source dest s [].

(** Data the base station can send: enough octets for the length, which fits eleven bits *)
Definition sendable (d : sds_user_data) : bool :=
  match d with
  | SdsType1 v => fit 16 v
  | SdsType2 v => fit 32 v
  | SdsType3 v => fit 64 v
  | SdsType4 n data => fit 11 n && (N.to_nat n <=? 8 * length data)%nat && forallb (fit 8) data
  end.

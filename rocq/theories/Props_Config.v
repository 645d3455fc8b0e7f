(** C62: what a configuration file asks for is what the base station does, and a file that is not in order is refused. *)
From Coq Require Import String QArith.
From Verif Require Import Base TdmaTime TdmaTimeProofs UmacPrecomps SlotSpec BsMac HeardSpec Config ConfigSpec ConfigProofs ConfigFacts.
Local Open Scope N_scope.

(** Every setting of an accepted file has the value it has in the file, or its default where the file leaves it out. *)
Theorem C62_settings_taken : forall d c, from_toml d = Ok c -> means d c.
Proof. exact settings. Qed.
Print Assumptions C62_settings_taken.
Example C62_settings_taken_met : exists c, from_toml ex_doc = Ok c /\ cs_colour (sk_cell c) = 1 /\ cs_sys (sk_cell c) = 3.
Proof. eexists. split; [vm_compute; reflexivity|]. split; reflexivity. Qed.

(** A file with a setting nobody knows is refused; the section [command] is the exception. *)
Theorem C62_unknown_refused_partial : forall d c, parsed d -> from_toml d = Ok c -> all_known d.
Proof. exact unknown_refused. Qed.
Print Assumptions C62_unknown_refused_partial.
Example C62_unknown_refused_partial_met : exists c, parsed ex_doc /\ from_toml ex_doc = Ok c.
Proof. exact ex_parsed. Qed.
Theorem C62_unknown_in_command_refuted : exists c, from_toml (ex_file "Bs" ex_soapy ex_net ex_cell_tab [("command"%string, VTab ex_command)]) = Ok c /\
  ~ known link_schema ex_command /\ option_map lk_tls (sk_control c) = Some false.
Proof. exact mistyped. Qed.
Print Assumptions C62_unknown_in_command_refuted.

(** A file with all settings that are required, each of its type, and with ranges that do not overlap, is accepted. *)
Theorem C62_in_order_accepted : forall d, file_in_order d -> exists c, from_toml d = Ok c.
Proof. exact accepted. Qed.
Print Assumptions C62_in_order_accepted.
Example C62_in_order_accepted_met : file_in_order ex_doc.
Proof. exact ex_in_order. Qed.
(** The example file describes a setting that is not accepted. *)
Theorem C62_documented_setting_refuted : from_toml (ex_file "Bs" ex_soapy ex_net (with_set "cell_load_ca" (VInt 0) ex_cell_tab) []) = Err EInvalidValue.
Proof. exact cell_load_refused. Qed.
Print Assumptions C62_documented_setting_refuted.

(** A base station that starts sends and listens where its broadcast sends the radios, but for the correction of the
    oscillator.  Missing: uplinks with a spacing of one's own, which the broadcast does not tell; the modes "Ms" and "Mon". *)
Theorem C62_on_frequency_partial : forall tz d c rx tx, start tz d = Ok (c, (rx, tx)) -> sk_mode c = ModeBs -> 1 <= cs_band (sk_cell c) ->
  exists s off, ph_soapy (sk_phy c) = Some s /\ offset_id (cell_of c) = Some off /\ forall t,
    (exists dl, radio_downlink (sysinfo_says (cell_of c) off t) = Some dl /\ about (so_dl s) dl) /\
    (cs_custom (sk_cell c) = None -> exists ul, radio_uplink (sysinfo_says (cell_of c) off t) = Some ul /\ about (so_ul s) ul) /\
    (tx == so_dl s * (1 + so_ppm s / inject_Z 1000000) /\ rx + inject_Z 20000 == so_ul s * (1 + so_ppm s / inject_Z 1000000))%Q.
Proof. exact on_frequency. Qed.
Print Assumptions C62_on_frequency_partial.
Example C62_on_frequency_partial_met : exists c rx tx, start any_tz ex_doc = Ok (c, (rx, tx)) /\ widths_fit c /\ sk_mode c = ModeBs /\ 1 <= cs_band (sk_cell c) /\ cs_custom (sk_cell c) = None.
Proof. exact ex_starts. Qed.
(** With the mode "Ms" the base station starts and sends on the frequency the radios send on. *)
Theorem C62_mode_checked_refuted : exists d c rx tx s off, start any_tz d = Ok (c, (rx, tx)) /\ widths_fit c /\ ph_soapy (sk_phy c) = Some s /\ offset_id (cell_of c) = Some off /\
  radio_uplink (sysinfo_says (cell_of c) off time_default) = Some 433025000%Z /\ (tx == inject_Z 433025000)%Q.
Proof. exact wrong_mode. Qed.
Print Assumptions C62_mode_checked_refuted.

(** A base station that starts, with settings that fit their fields, sends a burst in every timeslot for as long as it runs. *)
Theorem C62_starts_and_runs_partial : forall tz d c rx tx, start tz d = Ok (c, (rx, tx)) -> widths_fit c -> forall cn0 cn t cns, vtime t ->
  exists s0 s log, station_new (cell_of c) cn0 = Ok s0 /\ bs_run (cell_of c) (BeTick cn t :: ticking cns t) s0 = Ok (s, log) /\
    Forall (fun x => exists w, snd x = [w] /\ length w = 510%nat) log.
Proof. exact runs_on. Qed.
Print Assumptions C62_starts_and_runs_partial.
Example C62_starts_and_runs_partial_met : exists c rx tx, start any_tz ex_doc = Ok (c, (rx, tx)) /\ widths_fit c /\ sk_mode c = ModeBs /\ 1 <= cs_band (sk_cell c) /\ cs_custom (sk_cell c) = None.
Proof. exact ex_starts. Qed.
(** Eight settings are not checked: the files are accepted, and the base station stops in its first timeslot. *)
Theorem C62_widths_checked_refuted : Forall (dies 0) wide_files.
Proof. exact too_wide. Qed.
Print Assumptions C62_widths_checked_refuted.

(** The setting for neighbour cell broadcasts is read and not used. *)
Theorem C62_neighbours_used_refuted : exists d d' c c' p p', start any_tz d = Ok (c, p) /\ start any_tz d' = Ok (c', p') /\
  cs_ncb (sk_cell c) = 0 /\ cs_ncb (sk_cell c') = 3 /\ cell_of c = cell_of c'.
Proof. exact neighbours_ignored. Qed.
Print Assumptions C62_neighbours_used_refuted.

(** Two gains whose names differ in case only: which one counts depends on the order of a hash map. *)
Theorem C62_gain_order_refuted : exists c c', from_toml (ex_file "Bs" (ex_gains "rx_gain_lna" "rx_gain_LNA") ex_net ex_cell_tab []) = Ok c /\
  from_toml (ex_file "Bs" (ex_gains "rx_gain_LNA" "rx_gain_lna") ex_net ex_cell_tab []) = Ok c' /\
  option_map so_rx_gains (ph_soapy (sk_phy c)) = Some [("lna"%string, inject_Z 30)] /\ option_map so_rx_gains (ph_soapy (sk_phy c')) = Some [("lna"%string, inject_Z 10)].
Proof. exact gain_order. Qed.
Print Assumptions C62_gain_order_refuted.

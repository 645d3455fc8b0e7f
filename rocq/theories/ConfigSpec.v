(** What a configuration file means: the settings, their types and defaults, and what a radio makes of the broadcast. *)
From Coq Require Import String Ascii QArith.
From Verif Require Import Base SsiRanges MleBroadcast UmacPrecomps SlotSpec Config.
From Verif Require Freqs FreqsProofs.
Local Open Scope N_scope.

(** * The settings *)
(** What a value of the file is taken for. *)
Definition is_num (lim : N) (v : value) (n : N) : Prop := v = VInt (Z.of_N n) /\ n < lim.
Definition is_int16 (v : value) (z : Z) : Prop := v = VInt z /\ (-32768 <= z < 32768)%Z.
Definition is_flag (v : value) (b : bool) : Prop := v = VBool b.
Definition is_text (v : value) (s : string) : Prop := v = VStr s.
Definition is_real (v : value) (q : Q) : Prop := v = VFlt q \/ exists z, v = VInt z /\ q = inject_Z z.
Definition is_list {A} (is : value -> A -> Prop) (v : value) (l : list A) : Prop := exists vs, v = VArr vs /\ Forall2 is vs l.
Definition is_range (v : value) (p : N * N) : Prop := exists a b, v = VArr [a; b] /\ is_num (2 ^ 32) a (fst p) /\ is_num (2 ^ 32) b (snd p).
Definition is_mode (v : value) (m : stack_mode) : Prop := v = VStr (match m with ModeBs => "Bs" | ModeMs => "Ms" | ModeMon => "Mon" end).
Definition is_backend (v : value) (b : backend) : Prop := v = VStr (match b with BkUndefined => "Undefined" | BkNone => "None" | BkSoapySdr => "SoapySdr" end).

(** A setting that has to be there; one with a default; one that may be left out. *)
Definition required {A} (is : value -> A -> Prop) (t : tab) (k : string) (a : A) : Prop := exists v, In (k, v) t /\ is v a.
Definition absent (t : tab) (k : string) : Prop := forall v, ~ In (k, v) t.
Definition default {A} (d : A) (is : value -> A -> Prop) (t : tab) (k : string) (a : A) : Prop := required is t k a \/ absent t k /\ a = d.
Definition optional {A} (is : value -> A -> Prop) (t : tab) (k : string) (o : option A) : Prop :=
  match o with Some a => required is t k a | None => absent t k end.
Definition section (d : tab) (k : string) (t : tab) : Prop := In (k, VTab t) d.

(** the example file and the comments on the settings give these defaults *)
Definition cell_means (t : tab) (k : cell_set) : Prop :=
  required (is_num (2 ^ 16)) t "main_carrier" (cs_carrier k) /\ required (is_num (2 ^ 8)) t "freq_band" (cs_band k) /\
  required is_int16 t "freq_offset" (cs_offset k) /\ required (is_num (2 ^ 8)) t "duplex_spacing" (cs_duplex k) /\
  required is_flag t "reverse_operation" (cs_reverse k) /\ optional (is_num (2 ^ 32)) t "custom_duplex_spacing" (cs_custom k) /\
  required (is_num (2 ^ 16)) t "location_area" (cs_la k) /\
  default 0 (is_num (2 ^ 8)) t "neighbor_cell_broadcast" (cs_ncb k) /\ default false is_flag t "late_entry_supported" (cs_late k) /\
  default 65535 (is_num (2 ^ 16)) t "subscriber_class" (cs_class k) /\
  default true is_flag t "registration" (bs_reg (cs_services k)) /\ default true is_flag t "deregistration" (bs_dereg (cs_services k)) /\
  default false is_flag t "priority_cell" (bs_prio (cs_services k)) /\ default false is_flag t "no_minimum_mode" (bs_nomin (cs_services k)) /\
  default false is_flag t "migration" (bs_migr (cs_services k)) /\ default false is_flag t "system_wide_services" (bs_sws (cs_services k)) /\
  default true is_flag t "voice_service" (bs_voice (cs_services k)) /\ default false is_flag t "circuit_mode_data_service" (bs_cmd (cs_services k)) /\
  default false is_flag t "sndcp_service" (bs_sndcp (cs_services k)) /\ default false is_flag t "aie_service" (bs_aie (cs_services k)) /\
  default false is_flag t "advanced_link" (bs_al (cs_services k)) /\
  default 3 (is_num (2 ^ 8)) t "system_code" (cs_sys k) /\ default 0 (is_num (2 ^ 8)) t "colour_code" (cs_colour k) /\
  default 0 (is_num (2 ^ 8)) t "sharing_mode" (cs_sharing k) /\ default 0 (is_num (2 ^ 8)) t "ts_reserved_frames" (cs_tsres k) /\
  default false is_flag t "u_plane_dtx" (cs_dtx k) /\ default false is_flag t "frame_18_ext" (cs_f18 k) /\
  optional is_text t "timezone" (cs_tz k) /\
  (* local identities: the ranges listed, the end not included *)
  (exists l, default [] (is_list is_range) t "local_ssi_ranges" l /\
     forall a, ranges_contains (cs_ranges k) a = true <-> exists p, In p l /\ fst p <= a < snd p).
(** one gain for every amplifier that is named, the names in lower case; two names that differ in case only share one *)
Definition gains_mean (prefix : string) (t : tab) (m : list (string * Q)) : Prop :=
  NoDup (map fst m) /\
  (forall n q, In (n, q) m -> exists n', required is_real t (append prefix n') q /\ n = lowercase n') /\
  (forall n v, In (append prefix n, v) t -> exists q, In (lowercase n, q) m).
Definition soapy_means (t : tab) (s : soapy_cfg) : Prop :=
  gains_mean "rx_gain_" t (so_rx_gains s) /\ gains_mean "tx_gain_" t (so_tx_gains s) /\
  required is_real t "rx_freq" (so_ul s) /\ required is_real t "tx_freq" (so_dl s) /\ default 0%Q is_real t "ppm_err" (so_ppm s) /\
  optional is_text t "device" (so_device s) /\ optional is_text t "rx_antenna" (so_rx_ant s) /\ optional is_text t "tx_antenna" (so_tx_ant s) /\
  optional is_real t "sample_rate" (so_fs s) /\ optional (is_num (2 ^ 63)) t "rx_channel" (so_rx_ch s) /\ optional (is_num (2 ^ 63)) t "tx_channel" (so_tx_ch s).
Definition phy_means (t : tab) (p : phy_cfg) : Prop :=
  required is_backend t "backend" (ph_backend p) /\ optional is_text t "dl_tx_file" (ph_dl_tx p) /\ optional is_text t "ul_rx_file" (ph_ul_rx p) /\
  optional is_text t "ul_input_file" (ph_ul_in p) /\ optional is_text t "dl_input_file" (ph_dl_in p) /\
  match ph_soapy p with Some s => exists st, section t "soapysdr" st /\ soapy_means st s | None => absent t "soapysdr" end.
Definition brew_means (t : tab) (b : brew_cfg) : Prop :=
  required is_text t "host" (br_host b) /\ default 443 (is_num (2 ^ 16)) t "port" (br_port b) /\ required is_flag t "tls" (br_tls b) /\
  (exists n, required (is_num (2 ^ 32)) t "username" n /\ br_user b = Some (decimal n)) /\ (exists p, required is_text t "password" p /\ br_pass b = Some p) /\
  default 15 (is_num (2 ^ 63)) t "reconnect_delay_secs" (br_delay b) /\ default 0 (is_num (2 ^ 8)) t "jitter_initial_latency_frames" (br_jitter b) /\
  default true is_flag t "feature_sds_enabled" (br_sds b) /\ optional (is_list (is_num (2 ^ 32))) t "whitelisted_ssis" (br_white b).
(** A user name and a password come together or not at all; a certificate needs TLS. *)
Definition link_means (t : tab) (l : link_cfg) : Prop :=
  required is_text t "host" (lk_host l) /\ required (is_num (2 ^ 16)) t "port" (lk_port l) /\ default false is_flag t "use_tls" (lk_tls l) /\
  optional is_text t "ca_cert" (lk_ca l) /\ (lk_ca l <> None -> lk_tls l = true) /\
  match lk_cred l with
  | Some (u, p) => required is_text t "username" u /\ required is_text t "password" p
  | None => absent t "username" /\ absent t "password"
  end.
Definition maybe {A} (means : tab -> A -> Prop) (d : tab) (k : string) (o : option A) : Prop :=
  match o with Some a => exists t, section d k t /\ means t a | None => absent d k end.
Definition means (d : tab) (c : stack_cfg) : Prop :=
  required is_text d "config_version" "0.6"%string /\ required is_mode d "stack_mode" (sk_mode c) /\ optional is_text d "debug_log" (sk_log c) /\
  (exists t, section d "phy_io" t /\ phy_means t (sk_phy c)) /\
  (exists t, section d "net_info" t /\ required (is_num (2 ^ 16)) t "mcc" (sk_mcc c) /\ required (is_num (2 ^ 16)) t "mnc" (sk_mnc c)) /\
  (exists t, section d "cell_info" t /\ cell_means t (sk_cell c)) /\
  maybe brew_means d "brew" (sk_brew c) /\ maybe link_means d "telemetry" (sk_telemetry c) /\ maybe link_means d "command" (sk_control c).

(** * Which files are in order *)
(** the settings of each section: name, type, required *)
Inductive kind := KNum (lim : Z) | KInt16 | KFlag | KText | KReal | KRanges | KSsis | KMode | KBackend | KTab.
Definition num_ok (lim : Z) (v : value) : Prop := exists z, v = VInt z /\ (0 <= z < lim)%Z.
Definition of_kind (k : kind) (v : value) : Prop :=
  match k with
  | KNum lim => num_ok lim v
  | KInt16 => exists z, v = VInt z /\ (-32768 <= z < 32768)%Z
  | KFlag => exists b, v = VBool b
  | KText => exists s, v = VStr s
  | KReal => (exists z, v = VInt z) \/ exists q, v = VFlt q
  | KRanges => exists l, v = VArr l /\ Forall (fun x => exists a b, x = VArr [a; b] /\ num_ok (2 ^ 32) a /\ num_ok (2 ^ 32) b) l
  | KSsis => exists l, v = VArr l /\ Forall (num_ok (2 ^ 32)) l
  | KMode => In v [VStr "Bs"; VStr "Ms"; VStr "Mon"]
  | KBackend => In v [VStr "Undefined"; VStr "None"; VStr "SoapySdr"]
  | KTab => exists t, v = VTab t
  end.
Definition schema := list (string * kind * bool).
Definition root_schema : schema :=
  [("config_version", KText, true); ("stack_mode", KMode, true); ("debug_log", KText, false); ("phy_io", KTab, true); ("net_info", KTab, true);
   ("cell_info", KTab, true); ("brew", KTab, false); ("telemetry", KTab, false); ("command", KTab, false)]%string.
Definition phy_schema : schema :=
  [("backend", KBackend, true); ("dl_tx_file", KText, false); ("ul_rx_file", KText, false); ("ul_input_file", KText, false);
   ("dl_input_file", KText, false); ("soapysdr", KTab, false)]%string.
Definition soapy_schema : schema :=
  [("rx_freq", KReal, true); ("tx_freq", KReal, true); ("ppm_err", KReal, false); ("device", KText, false); ("rx_antenna", KText, false);
   ("tx_antenna", KText, false); ("sample_rate", KReal, false); ("rx_channel", KNum (2 ^ 63), false); ("tx_channel", KNum (2 ^ 63), false)]%string.
Definition net_schema : schema := [("mcc", KNum (2 ^ 16), true); ("mnc", KNum (2 ^ 16), true)]%string.
Definition cell_schema : schema :=
  [("main_carrier", KNum (2 ^ 16), true); ("freq_band", KNum (2 ^ 8), true); ("freq_offset", KInt16, true); ("duplex_spacing", KNum (2 ^ 8), true);
   ("reverse_operation", KFlag, true); ("custom_duplex_spacing", KNum (2 ^ 32), false); ("location_area", KNum (2 ^ 16), true);
   ("neighbor_cell_broadcast", KNum (2 ^ 8), false); ("late_entry_supported", KFlag, false); ("subscriber_class", KNum (2 ^ 16), false);
   ("registration", KFlag, false); ("deregistration", KFlag, false); ("priority_cell", KFlag, false); ("no_minimum_mode", KFlag, false);
   ("migration", KFlag, false); ("system_wide_services", KFlag, false); ("voice_service", KFlag, false); ("circuit_mode_data_service", KFlag, false);
   ("sndcp_service", KFlag, false); ("aie_service", KFlag, false); ("advanced_link", KFlag, false); ("system_code", KNum (2 ^ 8), false);
   ("colour_code", KNum (2 ^ 8), false); ("sharing_mode", KNum (2 ^ 8), false); ("ts_reserved_frames", KNum (2 ^ 8), false);
   ("u_plane_dtx", KFlag, false); ("frame_18_ext", KFlag, false); ("local_ssi_ranges", KRanges, false); ("timezone", KText, false)]%string.
Definition brew_schema : schema :=
  [("host", KText, true); ("port", KNum (2 ^ 16), false); ("tls", KFlag, true); ("username", KNum (2 ^ 32), true); ("password", KText, true);
   ("reconnect_delay_secs", KNum (2 ^ 63), false); ("jitter_initial_latency_frames", KNum (2 ^ 8), false); ("whitelisted_ssis", KSsis, false);
   ("feature_sds_enabled", KFlag, false)]%string.
Definition link_schema : schema :=
  [("host", KText, true); ("port", KNum (2 ^ 16), true); ("use_tls", KFlag, false); ("ca_cert", KText, false); ("username", KText, false); ("password", KText, false)]%string.
(** the gain settings of a radio device are named after its amplifiers *)
Definition gain_name (k : string) : Prop := exists name, k = append "rx_gain_" name \/ k = append "tx_gain_" name.

Definition known (s : schema) (t : tab) : Prop := forall k v, In (k, v) t -> exists kd rq, In (k, kd, rq) s.
(** every section but [command] contains known settings only *)
Definition all_known (d : tab) : Prop :=
  known root_schema d /\
  (forall t, section d "phy_io" t -> known phy_schema t /\
     forall s, section t "soapysdr" s -> forall k v, In (k, v) s -> gain_name k \/ exists kd rq, In (k, kd, rq) soapy_schema) /\
  (forall t, section d "net_info" t -> known net_schema t) /\ (forall t, section d "cell_info" t -> known cell_schema t) /\
  (forall t, section d "brew" t -> known brew_schema t) /\ (forall t, section d "telemetry" t -> known link_schema t).

(** a section in order: known settings of the right type, and all that are required; the TOML parser sees to it that
    no name occurs twice *)
Definition unique (t : tab) : Prop := NoDup (map fst t).
Definition in_order (s : schema) (t : tab) : Prop :=
  unique t /\ (forall k v, In (k, v) t -> exists kd rq, In (k, kd, rq) s /\ of_kind kd v) /\ (forall k kd, In (k, kd, true) s -> exists v, In (k, v) t).
Definition soapy_in_order (t : tab) : Prop :=
  unique t /\ (forall k v, In (k, v) t -> gain_name k /\ of_kind KReal v \/ exists kd rq, In (k, kd, rq) soapy_schema /\ of_kind kd v) /\
  (forall k kd, In (k, kd, true) soapy_schema -> exists v, In (k, v) t).
Definition link_in_order (t : tab) : Prop :=
  in_order link_schema t /\ ((exists v, In ("ca_cert"%string, v) t) -> In ("use_tls"%string, VBool true) t) /\
  ((exists v, In ("username"%string, v) t) <-> (exists v, In ("password"%string, v) t)).
(** the local ranges are not empty and no two overlap (C11) *)
Definition ranges_in_order (t : tab) : Prop :=
  forall l, required (is_list is_range) t "local_ssi_ranges" l ->
    Forall (fun p => fst p < snd p) l /\ ForallOrdPairs (fun p q => snd p <= fst q \/ snd q <= fst p) l.
Definition file_in_order (d : tab) : Prop :=
  in_order root_schema d /\ In ("config_version"%string, VStr "0.6") d /\
  (forall t, section d "phy_io" t -> in_order phy_schema t /\ forall s, section t "soapysdr" s -> soapy_in_order s) /\
  (forall t, section d "net_info" t -> in_order net_schema t) /\
  (forall t, section d "cell_info" t -> in_order cell_schema t /\ ranges_in_order t) /\
  (forall t, section d "brew" t -> in_order brew_schema t) /\
  (forall t, section d "telemetry" t -> link_in_order t) /\ (forall t, section d "command" t -> link_in_order t).

(** * What a radio makes of the broadcast *)
(** EN 300 392-2, 21.4.4.1 and TS 100 392-15, 6: from the fields of SYSINFO to the frequencies in Hz *)
Definition offset_hz (id : N) : option Z := match id with 0 => Some 0%Z | 1 => Some 6250%Z | 2 => Some (-6250)%Z | 3 => Some 12500%Z | _ => None end.
Definition radio_downlink (si : MacBroadcast.mac_sysinfo) : option Z :=
  match offset_hz (MacBroadcast.si_offset si) with
  | Some o => Some (100000000 * Z.of_N (MacBroadcast.si_band si) + 25000 * Z.of_N (MacBroadcast.si_carrier si) + o)%Z
  | None => None
  end.
Definition radio_uplink (si : MacBroadcast.mac_sysinfo) : option Z :=
  match radio_downlink si, FreqsProofs.std_lookup (Z.of_N (MacBroadcast.si_duplex si)) (Z.of_N (MacBroadcast.si_band si)) with
  | Some f, Some d => Some (if MacBroadcast.si_reverse si then f + d else f - d)%Z
  | _, _ => None
  end.
(** the setting is the frequency, but for a fraction of a Hz *)
Definition about (q : Q) (hz : Z) : Prop := (inject_Z hz <= q /\ q < inject_Z (hz + 1))%Q.

(** * Which settings fit the fields of the broadcasts *)
(** sec_cell.rs and sec_net.rs give the widths in comments *)
Definition widths_fit (c : stack_cfg) : Prop :=
  let k := sk_cell c in
  sk_mcc c < 2 ^ 10 /\ sk_mnc c < 2 ^ 14 /\ cs_la k < 2 ^ 14 /\ cs_class k < 2 ^ 16 /\ cs_sys k < 2 ^ 4 /\ cs_colour k < 2 ^ 6 /\ cs_sharing k < 2 ^ 2 /\
  cs_tsres k < 2 ^ 3 /\ cs_duplex k < 2 ^ 3.

(** What the TOML parser sees to: no name occurs twice. *)
Definition parsed (d : tab) : Prop := unique d /\ forall t, section d "phy_io" t -> unique t.

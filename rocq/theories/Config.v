(** Model of crates/tetra-config/src/bluestation: from a parsed TOML document to the configuration the stack runs with.
    External: the TOML parser (the document is its result; it refuses a key given twice, so a table is a list of
    pairs with different keys) and the list of time zone names.  [serde] is modelled by what it does for these
    structures: a field is looked up by name, a value of another type or out of the range of the integer type is an
    error, so is a required field that is absent, and the keys that name no field are collected in [extra].
    Simplifications: error texts are dropped; floating point numbers are the rational numbers they stand for
    (infinities, NaN and the rounding of integers above 2^53 are left out); text is ASCII; an enum is given by its name. *)
From Coq Require Import String Ascii QArith DecimalString.
From Verif Require Import Base SsiRanges Freqs MleBroadcast UmacPrecomps.
Local Open Scope N_scope.

(** [toml::Value] *)
Inductive value :=
| VInt (z : Z) | VFlt (q : Q) | VBool (b : bool) | VStr (s : string) | VDate (s : string)
| VArr (l : list value) | VTab (t : list (string * value)).
Definition tab := list (string * value).
Fixpoint look (k : string) (t : tab) : option value :=
  match t with [] => None | (x, v) :: t => if String.eqb x k then Some v else look k t end.
(** [#[serde(flatten)] extra]: the pairs that name no field *)
Definition extra (fields : list string) (t : tab) : tab := filter (fun p => negb (existsb (String.eqb (fst p)) fields)) t.

(** [serde]: a required field, an optional field, a field with a default *)
Definition need {A} (f : value -> option A) (k : string) (t : tab) : res A :=
  match look k t with Some v => ok_or (f v) EInvalidValue | None => Err EFieldNotPresent end.
Definition may {A} (f : value -> option A) (k : string) (t : tab) : res (option A) :=
  match look k t with Some v => a <- ok_or (f v) EInvalidValue ;; Ok (Some a) | None => Ok None end.
Definition dflt {A} (d : A) (f : value -> option A) (k : string) (t : tab) : res A :=
  o <- may f k t ;; Ok (match o with Some a => a | None => d end).

(** [serde]: the types.  [as_uint (2 ^ 8)] is [u8]; an integer is taken where a float is asked for. *)
Definition as_uint (lim : Z) (v : value) : option N := match v with VInt z => if ((0 <=? z) && (z <? lim))%Z then Some (Z.to_N z) else None | _ => None end.
Definition as_i16 (v : value) : option Z := match v with VInt z => if ((-32768 <=? z) && (z <? 32768))%Z then Some z else None | _ => None end.
Definition as_bool (v : value) : option bool := match v with VBool b => Some b | _ => None end.
Definition as_str (v : value) : option string := match v with VStr s => Some s | _ => None end.
Definition as_flt (v : value) : option Q := match v with VInt z => Some (inject_Z z) | VFlt q => Some q | _ => None end.
Definition as_tab (v : value) : option tab := match v with VTab t => Some t | _ => None end.
Fixpoint all_of {A} (f : value -> option A) (l : list value) : option (list A) :=
  match l with
  | [] => Some []
  | v :: l => match f v, all_of f l with Some a, Some r => Some (a :: r) | _, _ => None end
  end.
Definition as_vec {A} (f : value -> option A) (v : value) : option (list A) := match v with VArr l => all_of f l | _ => None end.
Definition as_pair (v : value) : option (N * N) :=
  match v with
  | VArr [a; b] => match as_uint (2 ^ 32) a, as_uint (2 ^ 32) b with Some x, Some y => Some (x, y) | _, _ => None end
  | _ => None
  end.
Definition u8 := as_uint (2 ^ 8).
Definition u16 := as_uint (2 ^ 16).
Definition u32 := as_uint (2 ^ 32).
(** [u64] and [usize]: TOML integers are below 2^63 *)
Definition u64 := as_uint (2 ^ 63).

(** config.rs:47-53 *)
Inductive stack_mode := ModeBs | ModeMs | ModeMon.
Definition as_mode (v : value) : option stack_mode :=
  match v with
  | VStr s => if String.eqb s "Bs" then Some ModeBs else if String.eqb s "Ms" then Some ModeMs else if String.eqb s "Mon" then Some ModeMon else None
  | _ => None
  end.
(** sec_phy.rs:9-15 *)
Inductive backend := BkUndefined | BkNone | BkSoapySdr.
Definition as_backend (v : value) : option backend :=
  match v with
  | VStr s => if String.eqb s "Undefined" then Some BkUndefined else if String.eqb s "None" then Some BkNone else if String.eqb s "SoapySdr" then Some BkSoapySdr else None
  | _ => None
  end.

(** sec_phy_soapy.rs:51-68 *)
Record soapy_dto := mk_soapy_dto {
  sd_rx_freq : Q; sd_tx_freq : Q; sd_ppm : option Q; sd_device : option string; sd_rx_ant : option string; sd_tx_ant : option string;
  sd_rate : option Q; sd_rx_ch : option N; sd_tx_ch : option N; sd_extra : tab }.
Definition soapy_fields : list string :=
  ["rx_freq"; "tx_freq"; "ppm_err"; "device"; "rx_antenna"; "tx_antenna"; "sample_rate"; "rx_channel"; "tx_channel"]%string.
Definition read_soapy (v : value) : res soapy_dto :=
  t <- ok_or (as_tab v) EInvalidValue ;;
  rx <- need as_flt "rx_freq" t ;; tx <- need as_flt "tx_freq" t ;; ppm <- may as_flt "ppm_err" t ;;
  dev <- may as_str "device" t ;; ra <- may as_str "rx_antenna" t ;; ta <- may as_str "tx_antenna" t ;;
  fs <- may as_flt "sample_rate" t ;; rc <- may u64 "rx_channel" t ;; tc <- may u64 "tx_channel" t ;;
  Ok (mk_soapy_dto rx tx ppm dev ra ta fs rc tc (extra soapy_fields t)).

(** sec_phy.rs:32-45 *)
Record phy_dto := mk_phy_dto {
  pd_backend : backend; pd_dl_tx : option string; pd_ul_rx : option string; pd_ul_in : option string; pd_dl_in : option string;
  pd_soapy : option soapy_dto; pd_extra : tab }.
Definition phy_fields : list string := ["backend"; "dl_tx_file"; "ul_rx_file"; "ul_input_file"; "dl_input_file"; "soapysdr"]%string.
(** an optional or required sub-table read by [f] *)
Definition may_sub {A} (f : value -> res A) (k : string) (t : tab) : res (option A) :=
  match look k t with Some v => a <- f v ;; Ok (Some a) | None => Ok None end.
Definition need_sub {A} (f : value -> res A) (k : string) (t : tab) : res A :=
  match look k t with Some v => f v | None => Err EFieldNotPresent end.
Definition read_phy (v : value) : res phy_dto :=
  t <- ok_or (as_tab v) EInvalidValue ;;
  b <- need as_backend "backend" t ;; f1 <- may as_str "dl_tx_file" t ;; f2 <- may as_str "ul_rx_file" t ;;
  f3 <- may as_str "ul_input_file" t ;; f4 <- may as_str "dl_input_file" t ;; s <- may_sub read_soapy "soapysdr" t ;;
  Ok (mk_phy_dto b f1 f2 f3 f4 s (extra phy_fields t)).

(** sec_net.rs:13-20 *)
Record net_dto := mk_net_dto { nd_mcc : N; nd_mnc : N; nd_extra : tab }.
Definition net_fields : list string := ["mcc"; "mnc"]%string.
Definition read_net (v : value) : res net_dto :=
  t <- ok_or (as_tab v) EInvalidValue ;;
  mcc <- need u16 "mcc" t ;; mnc <- need u16 "mnc" t ;; Ok (mk_net_dto mcc mnc (extra net_fields t)).

(** sec_cell.rs:62-101 *)
Record cell_dto := mk_cell_dto {
  cd_carrier : N; cd_band : N; cd_offset : Z; cd_duplex : N; cd_reverse : bool; cd_custom : option N; cd_la : N;
  cd_ncb : option N; cd_late : option bool; cd_class : option N; cd_reg : option bool; cd_dereg : option bool; cd_prio : option bool;
  cd_nomin : option bool; cd_migr : option bool; cd_sws : option bool; cd_voice : option bool; cd_cmd : option bool; cd_sndcp : option bool;
  cd_aie : option bool; cd_al : option bool; cd_sys : option N; cd_colour : option N; cd_sharing : option N; cd_tsres : option N;
  cd_dtx : option bool; cd_f18 : option bool; cd_ranges : option (list (N * N)); cd_tz : option string; cd_extra : tab }.
Definition cell_fields : list string :=
  ["main_carrier"; "freq_band"; "freq_offset"; "duplex_spacing"; "reverse_operation"; "custom_duplex_spacing"; "location_area";
   "neighbor_cell_broadcast"; "late_entry_supported"; "subscriber_class"; "registration"; "deregistration"; "priority_cell";
   "no_minimum_mode"; "migration"; "system_wide_services"; "voice_service"; "circuit_mode_data_service"; "sndcp_service";
   "aie_service"; "advanced_link"; "system_code"; "colour_code"; "sharing_mode"; "ts_reserved_frames"; "u_plane_dtx";
   "frame_18_ext"; "local_ssi_ranges"; "timezone"]%string.
Definition read_cell (v : value) : res cell_dto :=
  t <- ok_or (as_tab v) EInvalidValue ;;
  carrier <- need u16 "main_carrier" t ;; band <- need u8 "freq_band" t ;; off <- need as_i16 "freq_offset" t ;;
  dup <- need u8 "duplex_spacing" t ;; rev <- need as_bool "reverse_operation" t ;; custom <- may u32 "custom_duplex_spacing" t ;;
  la <- need u16 "location_area" t ;;
  ncb <- may u8 "neighbor_cell_broadcast" t ;; late <- may as_bool "late_entry_supported" t ;; class <- may u16 "subscriber_class" t ;;
  reg <- may as_bool "registration" t ;; dereg <- may as_bool "deregistration" t ;; prio <- may as_bool "priority_cell" t ;;
  nomin <- may as_bool "no_minimum_mode" t ;; migr <- may as_bool "migration" t ;; sws <- may as_bool "system_wide_services" t ;;
  voice <- may as_bool "voice_service" t ;; cmd <- may as_bool "circuit_mode_data_service" t ;; sndcp <- may as_bool "sndcp_service" t ;;
  aie <- may as_bool "aie_service" t ;; al <- may as_bool "advanced_link" t ;;
  sys <- may u8 "system_code" t ;; colour <- may u8 "colour_code" t ;; sharing <- may u8 "sharing_mode" t ;;
  tsres <- may u8 "ts_reserved_frames" t ;; dtx <- may as_bool "u_plane_dtx" t ;; f18 <- may as_bool "frame_18_ext" t ;;
  rs <- may (as_vec as_pair) "local_ssi_ranges" t ;; tz <- may as_str "timezone" t ;;
  Ok (mk_cell_dto carrier band off dup rev custom la ncb late class reg dereg prio nomin migr sws voice cmd sndcp aie al
    sys colour sharing tsres dtx f18 rs tz (extra cell_fields t)).

(** sec_brew.rs:32-61 *)
Record brew_dto := mk_brew_dto {
  bd_host : string; bd_port : N; bd_tls : bool; bd_user : N; bd_pass : string; bd_delay : N; bd_jitter : N;
  bd_white : option (list N); bd_sds : bool; bd_extra : tab }.
Definition brew_fields : list string :=
  ["host"; "port"; "tls"; "username"; "password"; "reconnect_delay_secs"; "jitter_initial_latency_frames"; "whitelisted_ssis"; "feature_sds_enabled"]%string.
Definition read_brew (v : value) : res brew_dto :=
  t <- ok_or (as_tab v) EInvalidValue ;;
  host <- need as_str "host" t ;; port <- dflt 443 u16 "port" t ;; tls <- need as_bool "tls" t ;;
  user <- need u32 "username" t ;; pass <- need as_str "password" t ;; delay <- dflt 15 u64 "reconnect_delay_secs" t ;;
  jit <- dflt 0 u8 "jitter_initial_latency_frames" t ;; white <- may (as_vec u32) "whitelisted_ssis" t ;;
  sds <- dflt true as_bool "feature_sds_enabled" t ;;
  Ok (mk_brew_dto host port tls user pass delay jit white sds (extra brew_fields t)).

(** sec_telemetry.rs:21-39, sec_control.rs:21-39: the two structures are the same *)
Record link_dto := mk_link_dto {
  ld_host : string; ld_port : N; ld_tls : bool; ld_ca : option string; ld_user : option string; ld_pass : option string; ld_extra : tab }.
Definition link_fields : list string := ["host"; "port"; "use_tls"; "ca_cert"; "username"; "password"]%string.
Definition read_link (v : value) : res link_dto :=
  t <- ok_or (as_tab v) EInvalidValue ;;
  host <- need as_str "host" t ;; port <- need u16 "port" t ;; tls <- dflt false as_bool "use_tls" t ;;
  ca <- may as_str "ca_cert" t ;; user <- may as_str "username" t ;; pass <- may as_str "password" t ;;
  Ok (mk_link_dto host port tls ca user pass (extra link_fields t)).

(** parsing.rs:118-134 *)
Record root_dto := mk_root_dto {
  rd_version : string; rd_mode : stack_mode; rd_log : option string; rd_phy : phy_dto; rd_net : net_dto; rd_cell : cell_dto;
  rd_brew : option brew_dto; rd_telemetry : option link_dto; rd_command : option link_dto; rd_extra : tab }.
Definition root_fields : list string :=
  ["config_version"; "stack_mode"; "debug_log"; "phy_io"; "net_info"; "cell_info"; "brew"; "telemetry"; "command"]%string.
Definition read_root (t : tab) : res root_dto :=
  version <- need as_str "config_version" t ;; mode <- need as_mode "stack_mode" t ;; log <- may as_str "debug_log" t ;;
  phy <- need_sub read_phy "phy_io" t ;; net <- need_sub read_net "net_info" t ;; cell <- need_sub read_cell "cell_info" t ;;
  brew <- may_sub read_brew "brew" t ;; tele <- may_sub read_link "telemetry" t ;; com <- may_sub read_link "command" t ;;
  Ok (mk_root_dto version mode log phy net cell brew tele com (extra root_fields t)).

(** sec_phy_soapy.rs:6-33 *)
Record soapy_cfg := mk_soapy {
  so_ul : Q; so_dl : Q; so_ppm : Q; so_device : option string; so_rx_ant : option string; so_tx_ant : option string;
  so_rx_gains : list (string * Q); so_tx_gains : list (string * Q); so_fs : option Q; so_rx_ch : option N; so_tx_ch : option N }.
(** [str::to_lowercase], ASCII *)
Definition lower (a : ascii) : ascii := let n := N_of_ascii a in if (65 <=? n) && (n <=? 90) then ascii_of_N (n + 32) else a.
Fixpoint lowercase (s : string) : string := match s with EmptyString => EmptyString | String a s => String (lower a) (lowercase s) end.
(** [str::strip_prefix] *)
Fixpoint strip (p s : string) : option string :=
  match p, s with
  | EmptyString, _ => Some s
  | String a p, String b s => if Ascii.eqb a b then strip p s else None
  | _, _ => None
  end.
(** [HashMap::insert] *)
Fixpoint put_gain (k : string) (g : Q) (m : list (string * Q)) : list (string * Q) :=
  match m with [] => [(k, g)] | (x, h) :: m => if String.eqb x k then (k, g) :: m else (x, h) :: put_gain k g m end.
(** sec_phy.rs:59-92: the order of [extra] is the order the hash map is walked in, which the program does not fix *)
Fixpoint gains (prefix : string) (e : tab) (m : list (string * Q)) : res (list (string * Q)) :=
  match e with
  | [] => Ok m
  | (k, v) :: e =>
      match strip prefix k with
      | Some name => g <- unwrap (as_flt v) ;; gains prefix e (put_gain (lowercase name) g m)
      | None => gains prefix e m
      end
  end.
(** sec_phy.rs:18-30 *)
Record phy_cfg := mk_phy {
  ph_backend : backend; ph_dl_tx : option string; ph_ul_rx : option string; ph_ul_in : option string; ph_dl_in : option string; ph_soapy : option soapy_cfg }.
(** sec_phy.rs:48-94 *)
Definition soapy_to_cfg (d : soapy_dto) : res soapy_cfg :=
  rg <- gains "rx_gain_" (sd_extra d) [] ;; tg <- gains "tx_gain_" (sd_extra d) [] ;;
  Ok (mk_soapy (sd_rx_freq d) (sd_tx_freq d) (match sd_ppm d with Some q => q | None => 0%Q end) (sd_device d) (sd_rx_ant d) (sd_tx_ant d)
    rg tg (sd_rate d) (sd_rx_ch d) (sd_tx_ch d)).
(** sec_phy.rs:47-104 [phy_dto_to_cfg] *)
Definition phy_to_cfg (d : phy_dto) : res phy_cfg :=
  s <- match pd_soapy d with Some s => c <- soapy_to_cfg s ;; Ok (Some c) | None => Ok None end ;;
  Ok (mk_phy (pd_backend d) (pd_dl_tx d) (pd_ul_rx d) (pd_ul_in d) (pd_dl_in d) s).

(** sec_cell.rs:7-60 *)
Record cell_set := mk_cell_set {
  cs_ncb : N; cs_late : bool; cs_carrier : N; cs_band : N; cs_offset : Z; cs_duplex : N; cs_custom : option N; cs_reverse : bool;
  cs_la : N; cs_class : N; cs_services : bs_services; cs_sys : N; cs_colour : N; cs_sharing : N; cs_tsres : N; cs_dtx : bool; cs_f18 : bool;
  cs_ranges : list ssi_range; cs_tz : option string }.
Definition or {A} (o : option A) (d : A) : A := match o with Some a => a | None => d end.
(** sec_cell.rs:103-138 [cell_dto_to_cfg] *)
Definition cell_to_cfg (d : cell_dto) : res cell_set :=
  rs <- match cd_ranges d with Some l => ranges_from_tuples l | None => ranges_from_vec [] end ;;
  Ok (mk_cell_set (or (cd_ncb d) 0) (or (cd_late d) false) (cd_carrier d) (cd_band d) (cd_offset d) (cd_duplex d) (cd_custom d) (cd_reverse d)
    (cd_la d) (or (cd_class d) 65535)
    (mk_bss (or (cd_reg d) true) (or (cd_dereg d) true) (or (cd_prio d) false) (or (cd_nomin d) false) (or (cd_migr d) false) (or (cd_sws d) false)
      (or (cd_voice d) true) (or (cd_cmd d) false) (or (cd_sndcp d) false) (or (cd_aie d) false) (or (cd_al d) false))
    (or (cd_sys d) 3) (or (cd_colour d) 0) (or (cd_sharing d) 0) (or (cd_tsres d) 0) (or (cd_dtx d) false) (or (cd_f18 d) false)
    rs (cd_tz d)).

(** sec_brew.rs:8-30 *)
Record brew_cfg := mk_brew {
  br_host : string; br_port : N; br_tls : bool; br_user : option string; br_pass : option string; br_delay : N; br_jitter : N;
  br_sds : bool; br_white : option (list N) }.
(** [u32::to_string] *)
Definition decimal (n : N) : string := NilZero.string_of_uint (N.to_uint n).
(** sec_brew.rs:76-88 [apply_brew_patch] *)
Definition brew_to_cfg (d : brew_dto) : brew_cfg :=
  mk_brew (bd_host d) (bd_port d) (bd_tls d) (Some (decimal (bd_user d))) (Some (bd_pass d)) (bd_delay d) (bd_jitter d) (bd_sds d) (bd_white d).

(** sec_telemetry.rs:6-19, sec_control.rs:6-19 *)
Record link_cfg := mk_link { lk_host : string; lk_port : N; lk_tls : bool; lk_ca : option string; lk_cred : option (string * string) }.
(** sec_telemetry.rs:44-60 [apply_telemetry_patch], sec_control.rs:44-60 [apply_control_patch] *)
Definition link_to_cfg (d : link_dto) : res link_cfg :=
  guard (negb (match ld_ca d with Some _ => true | None => false end && negb (ld_tls d))) EInconsistency ;;;
  cred <- match ld_user d, ld_pass d with
          | Some u, Some p => Ok (Some (u, p)) | None, None => Ok None | _, _ => Err EInconsistency
          end ;;
  Ok (mk_link (ld_host d) (ld_port d) (ld_tls d) (ld_ca d) cred).

(** config.rs:55-72 *)
Record stack_cfg := mk_stack {
  sk_mode : stack_mode; sk_log : option string; sk_phy : phy_cfg; sk_mcc : N; sk_mnc : N; sk_cell : cell_set;
  sk_brew : option brew_cfg; sk_telemetry : option link_cfg; sk_control : option link_cfg }.

Definition none_extra (t : tab) : bool := match t with [] => true | _ => false end.
Definition starts (p s : string) : bool := match strip p s with Some _ => true | None => false end.
(** parsing.rs:36-45 *)
Definition soapy_extra_ok (o : option soapy_dto) : bool :=
  match o with
  | Some s => none_extra (filter (fun p => negb (starts "rx_gain_" (fst p) || starts "tx_gain_" (fst p))) (sd_extra s))
  | None => true
  end.
(** parsing.rs:17-92 [from_toml_str], after the TOML parser *)
Definition from_toml (t : tab) : res stack_cfg :=
  d <- read_root t ;;
  guard (String.eqb (rd_version d) "0.6") EInvalidValue ;;;
  guard (none_extra (rd_extra d)) EInvalidValue ;;;
  guard (none_extra (pd_extra (rd_phy d))) EInvalidValue ;;;
  guard (soapy_extra_ok (pd_soapy (rd_phy d))) EInvalidValue ;;;
  guard (none_extra (nd_extra (rd_net d))) EInvalidValue ;;;
  guard (none_extra (cd_extra (rd_cell d))) EInvalidValue ;;;
  guard (match rd_brew d with Some b => none_extra (bd_extra b) | None => true end) EInvalidValue ;;;
  guard (match rd_telemetry d with Some l => none_extra (ld_extra l) | None => true end) EInvalidValue ;;;
  phy <- phy_to_cfg (rd_phy d) ;;
  cell <- cell_to_cfg (rd_cell d) ;;
  tele <- match rd_telemetry d with Some l => c <- link_to_cfg l ;; Ok (Some c) | None => Ok None end ;;
  com <- match rd_command d with Some l => c <- link_to_cfg l ;; Ok (Some c) | None => Ok None end ;;
  Ok (mk_stack (rd_mode d) (rd_log d) phy (nd_mcc (rd_net d)) (nd_mnc (rd_net d)) cell (option_map brew_to_cfg (rd_brew d)) tele com).

(** [f64 as u32]: towards zero, within the range of the type *)
Definition trunc_u32 (q : Q) : Z := Z.max 0 (Z.min 4294967295 (Z.quot (Qnum q) (Zpos (Qden q)))).

Section Valid.
(** [tz.parse::<chrono_tz::Tz>().is_ok()] *)
Variable tz_known : string -> bool.
(** config.rs:76-130 [validate] *)
Definition validate (c : stack_cfg) : res unit :=
  match ph_backend (sk_phy c) with
  | BkSoapySdr => guard (match ph_soapy (sk_phy c) with Some _ => true | None => false end) EInvalidValue
  | BkNone => Ok tt
  | BkUndefined => Err EInvalidValue
  end ;;;
  match ph_backend (sk_phy c) with
  | BkSoapySdr =>
      s <- unwrap (ph_soapy (sk_phy c)) ;;
      let k := sk_cell c in
      fi <- freq_from_components (Z.of_N (cs_band k)) (Z.of_N (cs_carrier k)) (cs_offset k) (cs_reverse k) (Z.of_N (cs_duplex k)) (option_map Z.of_N (cs_custom k)) ;;
      '(dl, ul) <- get_freqs fi ;;
      guard (Z.eqb (trunc_u32 (so_dl s)) dl) EInvalidValue ;;;
      guard (Z.eqb (trunc_u32 (so_ul s)) ul) EInvalidValue
  | _ => Ok tt
  end ;;;
  match cs_tz (sk_cell c) with Some z => guard (tz_known z) EInvalidValue | None => Ok tt end.
(** config.rs:143-154 [SharedConfig::from_parts]: an invalid configuration stops the program *)
Definition from_parts (c : stack_cfg) : res stack_cfg := match validate c with Ok _ => Ok c | _ => Panic end.
(** bins/bluestation-bs/src/main.rs:34-42 [load_config_from_toml] and 203-204: the file is read, then checked *)
Definition load (t : tab) : res stack_cfg := c <- from_toml t ;; from_parts c.
End Valid.
(** sec_phy_soapy.rs:36-48 *)
Definition corrected (f ppm : Q) : Q := (f + f / inject_Z 1000000 * ppm)%Q.
(** crates/tetra-entities/src/phy/components/soapyio.rs:12, 63-95: the centre frequencies the device is tuned to for
    receiving and for sending; the signal is received 20 kHz above the centre.  Simplification: rounding of floats. *)
Definition RX_OFFSET : Q := inject_Z 20000.
Definition tuning (c : stack_cfg) : res (Q * Q) :=
  s <- unwrap (ph_soapy (sk_phy c)) ;;
  let ul := corrected (so_ul s) (so_ppm s) in let dl := corrected (so_dl s) (so_ppm s) in
  match sk_mode c with
  | ModeBs => Ok (ul - RX_OFFSET, dl)%Q
  | ModeMs => Ok (dl - RX_OFFSET, ul)%Q
  | ModeMon => Panic
  end.
(** main.rs:111-125, 203-207: the base station is built for the SoapySDR backend only; the stack mode is not looked at *)
Definition start (tz_known : string -> bool) (t : tab) : res (stack_cfg * (Q * Q)) :=
  c <- load tz_known t ;;
  match ph_backend (sk_phy c) with BkSoapySdr => p <- tuning c ;; Ok (c, p) | _ => Panic end.

(** The settings the broadcasts and the scrambler use: umac_bs.rs:76, 96-207, lmac_bs.rs:69-75. *)
Definition cell_of (c : stack_cfg) : cell_cfg :=
  let k := sk_cell c in
  mk_cell (sk_mcc c) (sk_mnc c) (cs_late k) (cs_carrier k) (cs_band k) (cs_offset k) (cs_duplex k) (cs_reverse k) (cs_la k) (cs_class k) (cs_services k)
    (cs_sys k) (cs_colour k) (cs_sharing k) (cs_tsres k) (cs_dtx k) (cs_f18 k) (match sk_brew c with Some _ => true | None => false end).

(** The configuration: what the theorems use, and examples. *)
From Coq Require Import String Ascii QArith.
From Verif Require Import Base TdmaTime TdmaTimeProofs SsiRanges SsiRangesProofs MleBroadcast UmacPrecomps SlotSpec UmacBs BsMac HeardSpec StartProofs Config ConfigSpec ConfigProofs.
From Verif Require Freqs FreqsProofs DlSlot MacBroadcast.
Local Open Scope N_scope.

(** example_config/config.toml *)
Definition ex_soapy : tab := [("tx_freq", VInt 438025000); ("rx_freq", VInt 433025000)]%string.
Definition ex_net : tab := [("mcc", VInt 204); ("mnc", VInt 1337)]%string.
Definition ex_cell_tab : tab :=
  [("freq_band", VInt 4); ("main_carrier", VInt 1521); ("duplex_spacing", VInt 4); ("freq_offset", VInt 0); ("reverse_operation", VBool false); ("location_area", VInt 2);
   ("colour_code", VInt 1); ("system_wide_services", VBool true); ("voice_service", VBool true)]%string.
(** the file with the sections given, and with further sections *)
Definition ex_file (mode : string) (soapy net cell : tab) (more : tab) : tab :=
  ([("config_version", VStr "0.6"); ("stack_mode", VStr mode); ("phy_io", VTab [("backend", VStr "SoapySdr"); ("soapysdr", VTab soapy)]);
    ("net_info", VTab net); ("cell_info", VTab cell)]%string ++ more)%list.
Definition ex_doc : tab := ex_file "Bs" ex_soapy ex_net ex_cell_tab [].

(** * Frequencies *)
Lemma trunc_about q z : (0 < z < 4294967295)%Z -> trunc_u32 q = z -> about q z.
Proof.
  intros R E. unfold trunc_u32 in E. destruct q as [n d]. cbn [Qnum Qden] in *. unfold about, Qle, Qlt. cbn [Qnum Qden inject_Z].
  assert (E' : Z.quot n (Zpos d) = z) by lia. assert (P : (0 < Zpos d)%Z) by lia.
  assert (NN : (0 <= n)%Z). { destruct (Z.le_gt_cases 0 n) as [|L]; [assumption|]. pose proof (Z.quot_opp_l n (Zpos d) ltac:(lia)). pose proof (Z.quot_pos (- n) (Zpos d) ltac:(lia) P). lia. }
  rewrite Z.quot_div_nonneg in E' by lia. pose proof (Z.div_mod n (Zpos d) ltac:(lia)) as D. pose proof (Z.mod_pos_bound n (Zpos d) P) as B. rewrite E' in D. split; nia.
Qed.
Lemma started tz d c rx tx : start tz d = Ok (c, (rx, tx)) -> from_toml d = Ok c /\ validate tz c = Ok tt /\ ph_backend (sk_phy c) = BkSoapySdr /\ tuning c = Ok (rx, tx).
Proof.
  unfold start, load. intros E. next E. next H. unfold from_parts in H. destruct (validate tz x0) as [[]| |] eqn:V; try discriminate. injection H as ->. destruct (ph_backend (sk_phy x)) eqn:B; try discriminate. next E. injection E as -> ->. auto.
Qed.
Lemma valid_parts tz c : validate tz c = Ok tt -> ph_backend (sk_phy c) = BkSoapySdr ->
  exists s fi dl ul, ph_soapy (sk_phy c) = Some s /\
    Freqs.freq_from_components (Z.of_N (cs_band (sk_cell c))) (Z.of_N (cs_carrier (sk_cell c))) (cs_offset (sk_cell c)) (cs_reverse (sk_cell c)) (Z.of_N (cs_duplex (sk_cell c)))
      (option_map Z.of_N (cs_custom (sk_cell c))) = Ok fi /\ Freqs.get_freqs fi = Ok (dl, ul) /\ trunc_u32 (so_dl s) = dl /\ trunc_u32 (so_ul s) = ul.
Proof.
  intros V B. unfold validate in V. rewrite B in V. apply DlSlot.bind_inv in V. destruct V as (u1 & _ & V). apply DlSlot.bind_inv in V. destruct V as (u2 & V & _).
  apply DlSlot.bind_inv in V. destruct V as (s & S & V). destruct (ph_soapy (sk_phy c)) as [s'|]; [|discriminate]. injection S as ->. cbn zeta in V.
  apply DlSlot.bind_inv in V. destruct V as (fi & FC & V). apply DlSlot.bind_inv in V. destruct V as ([dl ul] & GF & V). apply DlSlot.bind_inv in V. destruct V as (u3 & G1 & G2).
  apply guard_true in G1. apply guard_true in G2. exists s, fi, dl, ul. split; [reflexivity|]. split; [exact FC|]. split; [exact GF|]. lia.
Qed.
Lemma offset_known c : FreqsProofs.valid_offset (cs_offset (sk_cell c)) -> exists off, offset_id (cell_of c) = Some off /\ offset_hz off = Some (cs_offset (sk_cell c)).
Proof.
  unfold offset_id, cell_of. cbn [cf_offset_hz]. intros [-> | [-> | [-> | ->]]]; cbn; eauto.
Qed.
Lemma on_frequency tz d c rx tx : start tz d = Ok (c, (rx, tx)) -> sk_mode c = ModeBs -> 1 <= cs_band (sk_cell c) ->
  exists s off, ph_soapy (sk_phy c) = Some s /\ offset_id (cell_of c) = Some off /\ forall t,
    (exists dl, radio_downlink (sysinfo_says (cell_of c) off t) = Some dl /\ about (so_dl s) dl) /\
    (cs_custom (sk_cell c) = None -> exists ul, radio_uplink (sysinfo_says (cell_of c) off t) = Some ul /\ about (so_ul s) ul) /\
    (tx == so_dl s * (1 + so_ppm s / inject_Z 1000000) /\ rx + inject_Z 20000 == so_ul s * (1 + so_ppm s / inject_Z 1000000))%Q.
Proof.
  intros E M B. destruct (started _ _ _ _ _ E) as (_ & V & BK & T). destruct (valid_parts tz c V BK) as (s & fi & dl & ul & SO & FC & GF & DL & UL).
  pose proof (FreqsProofs.from_components_ok _ _ _ _ _ _ _ (N2Z.is_nonneg _) (N2Z.is_nonneg _) FC) as (RB & RC & VO & _ & _ & _ & _ & _ & _ & SP).
  destruct (offset_known c VO) as (off & OI & OH). exists s, off. split; [exact SO|]. split; [exact OI|]. intros t.
  assert (OB : (-6250 <= cs_offset (sk_cell c) <= 12500)%Z) by (destruct VO as [-> | [-> | [-> | ->]]]; lia).
  assert (ND : (0 <= FreqsProofs.nominal_dl (Z.of_N (cs_band (sk_cell c))) (Z.of_N (cs_carrier (sk_cell c))) (cs_offset (sk_cell c)))%Z) by (unfold FreqsProofs.nominal_dl; lia).
  pose proof (FreqsProofs.freqs_formula _ _ _ _ _ _ _ (N2Z.is_nonneg _) (N2Z.is_nonneg _) FC ND) as FF. cbn zeta in FF. rewrite GF in FF. destruct (Freqs.u32_ok _) in FF; [|discriminate]. injection FF as -> ->.
  assert (RD : radio_downlink (sysinfo_says (cell_of c) off t) = Some (FreqsProofs.nominal_dl (Z.of_N (cs_band (sk_cell c))) (Z.of_N (cs_carrier (sk_cell c))) (cs_offset (sk_cell c)))).
  { unfold radio_downlink, sysinfo_says. cbn [MacBroadcast.si_offset MacBroadcast.si_band MacBroadcast.si_carrier]. now rewrite OH. }
  split; [|split].
  - eexists. split; [exact RD|]. apply trunc_about; [unfold FreqsProofs.nominal_dl; lia|exact DL].
  - intros CU. rewrite CU in *. cbn [option_map] in *. specialize (SP eq_refl).
    assert (DR : (0 <= Z.of_N (cs_duplex (sk_cell c)) < 8)%Z). { unfold Freqs.get_default_duplex_spacing in SP. destruct (Z.ltb_spec (Z.of_N (cs_duplex (sk_cell c))) 8); [lia|discriminate]. }
    pose proof (FreqsProofs.default_spacing_bound _ _ _ RB (N2Z.is_nonneg _) SP) as SB. rewrite FreqsProofs.spacing_table in SP by lia. injection SP as SP.
    eexists. split; [unfold radio_uplink; rewrite RD; unfold sysinfo_says; cbn [MacBroadcast.si_duplex MacBroadcast.si_band MacBroadcast.si_reverse]; unfold cell_of; cbn [cf_duplex cf_band cf_reverse]; rewrite SP; reflexivity|].
    apply trunc_about; [unfold FreqsProofs.nominal_dl; destruct (cs_reverse (sk_cell c)); lia|]. rewrite UL. destruct (cs_reverse (sk_cell c)); lia.
  - unfold tuning in T. rewrite SO, M in T. cbn [unwrap bind] in T. injection T as <- <-. unfold corrected, RX_OFFSET. split; field.
Qed.

(** * Starting *)
Lemma fits_cell tz d c rx tx : start tz d = Ok (c, (rx, tx)) -> widths_fit c -> cell_ok (cell_of c) = true.
Proof.
  intros E (W1 & W2 & W3 & W4 & W5 & W6 & W7 & W8 & W9). destruct (started _ _ _ _ _ E) as (_ & V & BK & _). destruct (valid_parts tz c V BK) as (s & fi & dl & ul & _ & FC & _).
  pose proof (FreqsProofs.from_components_ok _ _ _ _ _ _ _ (N2Z.is_nonneg _) (N2Z.is_nonneg _) FC) as (RB & RC & VO & _). destruct (offset_known c VO) as (off & OI & _).
  unfold cell_ok. rewrite OI. unfold cell_of. cbn [cf_mcc cf_mnc cf_carrier cf_band cf_duplex cf_la cf_class cf_sys cf_colour cf_sharing cf_tsres].
  change (2 ^ 10) with 1024 in *. change (2 ^ 14) with 16384 in *. change (2 ^ 16) with 65536 in *. change (2 ^ 4) with 16 in *. change (2 ^ 6) with 64 in *. change (2 ^ 2) with 4 in *. change (2 ^ 3) with 8 in *. lia.
Qed.
Lemma runs_on tz d c rx tx : start tz d = Ok (c, (rx, tx)) -> widths_fit c -> forall cn0 cn t cns, vtime t ->
  exists s0 s log, station_new (cell_of c) cn0 = Ok s0 /\ bs_run (cell_of c) (BeTick cn t :: ticking cns t) s0 = Ok (s, log) /\ Forall (fun x => exists w, snd x = [w] /\ length w = 510%nat) log.
Proof. intros E W cn0 cn t cns V. exact (starts_up (cell_of c) cn0 cn t cns (fits_cell _ _ _ _ _ E W) V). Qed.

(** * What goes wrong *)
Definition any_tz : string -> bool := fun _ => true.
(** the file is accepted and the base station stops within its first [n] + 1 timeslots *)
Definition dies (n : nat) (d : tab) : Prop :=
  exists c p s0, start any_tz d = Ok (c, p) /\ station_new (cell_of c) false = Ok s0 /\ bs_run (cell_of c) (BeTick false time_default :: ticking (repeat false n) time_default) s0 = Panic.
Definition dies_b (n : nat) (d : tab) : bool :=
  match start any_tz d with
  | Ok (c, _) => match station_new (cell_of c) false with
                 | Ok s0 => match bs_run (cell_of c) (BeTick false time_default :: ticking (repeat false n) time_default) s0 with Panic => true | _ => false end
                 | _ => false
                 end
  | _ => false
  end.
Lemma dies_dies n d : dies_b n d = true -> dies n d.
Proof.
  unfold dies_b, dies. generalize (start any_tz d) as r. intros [[c p]| |]; try discriminate. destruct (station_new (cell_of c) false) as [s0| |] eqn:S; try discriminate. intros H. exists c, p, s0. split; [reflexivity|]. split; [exact S|].
  destruct (bs_run _ _ s0); [discriminate|discriminate|reflexivity].
Qed.
(** one setting of the example changed or added *)
Definition with_set (k : string) (v : value) (t : tab) : tab := (k, v) :: filter (fun p => negb (String.eqb (fst p) k)) t.
Definition wide_files : list tab :=
  [ex_file "Bs" ex_soapy (with_set "mcc" (VInt 1024) ex_net) ex_cell_tab []; ex_file "Bs" ex_soapy (with_set "mnc" (VInt 16384) ex_net) ex_cell_tab [];
   ex_file "Bs" ex_soapy ex_net (with_set "location_area" (VInt 16384) ex_cell_tab) []; ex_file "Bs" ex_soapy ex_net (with_set "colour_code" (VInt 64) ex_cell_tab) [];
   ex_file "Bs" ex_soapy ex_net (with_set "system_code" (VInt 16) ex_cell_tab) []; ex_file "Bs" ex_soapy ex_net (with_set "sharing_mode" (VInt 4) ex_cell_tab) [];
   ex_file "Bs" ex_soapy ex_net (with_set "ts_reserved_frames" (VInt 8) ex_cell_tab) [];
   ex_file "Bs" ex_soapy ex_net (with_set "custom_duplex_spacing" (VInt 5000000) (with_set "duplex_spacing" (VInt 8) ex_cell_tab)) []]%string.
Lemma too_wide : Forall (dies 0) wide_files.
Proof. repeat (constructor; [apply dies_dies; vm_compute; reflexivity|]). constructor. Qed.
(** the same file but for the stack mode: it is sent on the uplink frequency *)
Lemma wrong_mode : exists d c rx tx s off, start any_tz d = Ok (c, (rx, tx)) /\ widths_fit c /\ ph_soapy (sk_phy c) = Some s /\ offset_id (cell_of c) = Some off /\
  radio_uplink (sysinfo_says (cell_of c) off time_default) = Some 433025000%Z /\ (tx == inject_Z 433025000)%Q.
Proof. exists (ex_file "Ms" ex_soapy ex_net ex_cell_tab []). do 5 eexists. split; [vm_compute; reflexivity|]. split; [vm_compute; repeat split|]. split; [reflexivity|]. split; [reflexivity|]. split; [vm_compute; reflexivity|vm_compute; reflexivity]. Qed.
Lemma monitor_mode : start any_tz (ex_file "Mon" ex_soapy ex_net ex_cell_tab []) = Panic.
Proof. vm_compute. reflexivity. Qed.
(** a mistyped setting of the section [command] *)
Definition ex_command : tab := [("host", VStr "localhost"); ("port", VInt 9000); ("usetls", VBool true)]%string.
Lemma mistyped : exists c, from_toml (ex_file "Bs" ex_soapy ex_net ex_cell_tab [("command"%string, VTab ex_command)]) = Ok c /\ ~ known link_schema ex_command /\ option_map lk_tls (sk_control c) = Some false.
Proof.
  eexists. split; [vm_compute; reflexivity|]. split; [|reflexivity]. intros K. destruct (K "usetls"%string (VBool true)) as (kd & rq & I); [cbn; auto|]. cbn in I. intuition discriminate.
Qed.
(** a setting the example file describes *)
Lemma cell_load_refused : from_toml (ex_file "Bs" ex_soapy ex_net (with_set "cell_load_ca" (VInt 0) ex_cell_tab) []) = Err EInvalidValue.
Proof. vm_compute. reflexivity. Qed.
(** the setting for neighbour cell broadcasts makes no difference *)
Lemma neighbours_ignored : exists d d' c c' p p', start any_tz d = Ok (c, p) /\ start any_tz d' = Ok (c', p') /\ cs_ncb (sk_cell c) = 0 /\ cs_ncb (sk_cell c') = 3 /\ cell_of c = cell_of c'.
Proof.
  exists ex_doc, (ex_file "Bs" ex_soapy ex_net (with_set "neighbor_cell_broadcast" (VInt 3) ex_cell_tab) []). do 4 eexists. split; [vm_compute; reflexivity|]. split; [vm_compute; reflexivity|]. repeat split.
Qed.
(** two gains whose names differ in case only: it depends on the order of the file, that is, of the hash map, which one is taken *)
Definition ex_gains (a b : string) : tab := (ex_soapy ++ [(a, VInt (if String.eqb a "rx_gain_lna" then 10 else 30)); (b, VInt (if String.eqb b "rx_gain_lna" then 10 else 30))])%list.
Lemma gain_order : exists c c', from_toml (ex_file "Bs" (ex_gains "rx_gain_lna" "rx_gain_LNA") ex_net ex_cell_tab []) = Ok c /\
  from_toml (ex_file "Bs" (ex_gains "rx_gain_LNA" "rx_gain_lna") ex_net ex_cell_tab []) = Ok c' /\
  option_map so_rx_gains (ph_soapy (sk_phy c)) = Some [("lna"%string, inject_Z 30)] /\ option_map so_rx_gains (ph_soapy (sk_phy c')) = Some [("lna"%string, inject_Z 10)].
Proof. do 2 eexists. split; [vm_compute; reflexivity|]. split; [vm_compute; reflexivity|]. split; reflexivity. Qed.

(** * The example is in order *)
Ltac table := split; [unfold unique; cbn; nodups|]; split;
  [intros k v I; cbn in I; repeat (destruct I as [[= <- <-]|I]; [eexists; eexists; split; [isin|cbn; repeat eexists; (lia || (left; eexists; reflexivity) || auto)]|]); contradiction
  |intros k kd I; cbn in I; repeat (destruct I as [I|I]; [try discriminate; injection I as <- <-; eexists; isin|]); contradiction].
Ltac sole := intros t SE; unfold section in SE; cbn in SE; repeat (destruct SE as [SE|SE]; [try discriminate; injection SE as <-|]); try contradiction.
Lemma ex_in_order : file_in_order ex_doc.
Proof.
  split; [table|]. split; [isin|]. split; [sole; split; [table|]|].
  { sole. split; [unfold unique; cbn; nodups|]. split.
    - intros k v I. cbn in I. repeat (destruct I as [[= <- <-]|I]; [right; eexists; eexists; split; [isin|left; eexists; reflexivity]|]). contradiction.
    - intros k kd I. cbn in I. repeat (destruct I as [I|I]; [try discriminate; injection I as <- <-; eexists; isin|]). contradiction. }
  split; [sole; table|]. split; [sole; split; [table|]|].
  { intros l (v & I & _). cbn in I. repeat (destruct I as [I|I]; [discriminate|]). contradiction. }
  split; [sole|]. split; sole.
Qed.
Lemma ex_starts : exists c rx tx, start any_tz ex_doc = Ok (c, (rx, tx)) /\ widths_fit c /\ sk_mode c = ModeBs /\ 1 <= cs_band (sk_cell c) /\ cs_custom (sk_cell c) = None.
Proof. do 3 eexists. split; [vm_compute; reflexivity|]. split; [vm_compute; repeat split|]. split; [reflexivity|]. split; [vm_compute; discriminate|reflexivity]. Qed.
Lemma ex_parsed : exists c, parsed ex_doc /\ from_toml ex_doc = Ok c.
Proof. eexists. split; [|vm_compute; reflexivity]. split; [unfold unique; cbn; nodups|]. sole. unfold unique. cbn. nodups. Qed.

(** What the base station puts in its broadcasts (crates/tetra-entities/src/umac/umac_bs.rs). *)
From Verif Require Import Base MacBroadcast MleBroadcast TdmaTime Freqs DlSched.
Open Scope N_scope.

(** crates/tetra-config/src/bluestation/sec_cell.rs:8-60 and sec_net.rs: the settings the broadcasts use.
    [cf_brew]: a network server is configured. *)
Record cell_cfg := mk_cell {
  cf_mcc : N; cf_mnc : N; cf_late : bool; cf_carrier : N; cf_band : N; cf_offset_hz : Z; cf_duplex : N; cf_reverse : bool;
  cf_la : N; cf_class : N; cf_services : bs_services;
  cf_sys : N; cf_colour : N; cf_sharing : N; cf_tsres : N; cf_dtx : bool; cf_f18ext : bool; cf_brew : bool }.
(** umac_bs.rs:211-218 *)
Definition sws_state (c : cell_cfg) (connected : bool) : bool := if cf_brew c then connected else bs_sws (cf_services c).
(** umac_bs.rs:96-207 *)
Definition generate_precomps (c : cell_cfg) (connected : bool) : res precomps :=
  off <- unwrap (freq_offset_hz_to_id (cf_offset_hz c)) ;;
  let ext := mk_es false true true false (Some 0) None None None None 2 false 0 0 in
  let acc := mk_aca 8 5 5 false 0 0 in
  let si o a e := mk_si (cf_carrier c) (cf_band c) (Z.to_N off) (cf_duplex c) (cf_reverse c) 0 5 3 7 3 None (Some 0) o None a e in
  let b := cf_services c in
  Ok (mk_pre (si 2 (Some acc) None) (si 3 None (Some ext))
    (mk_msi (cf_la c) (cf_class c)
      (mk_bss (bs_reg b) (bs_dereg b) (bs_prio b) (bs_nomin b) (bs_migr b) (sws_state c connected) (bs_voice b) (bs_cmd b) (bs_sndcp b) (bs_aie b) (bs_al b)))
    (mk_sync (cf_sys c) (cf_colour c) (mk_time 1 1 1 0) (cf_sharing c) (cf_tsres c) (cf_dtx c) (cf_f18ext c))
    (mk_msync (cf_mcc c) (cf_mnc c) 2 0 (cf_late c))).
(** umac_bs.rs:220-229: what a tick does first.  [last] is [self.system_wide_services]. *)
Definition refresh_sws (c : cell_cfg) (connected last : bool) (s : dls) : bool * dls :=
  let now := sws_state c connected in if Bool.eqb now last then (last, s) else (now, set_sws now s).

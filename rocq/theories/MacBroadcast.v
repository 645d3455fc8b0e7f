(** Broadcast and access-assignment PDUs (crates/tetra-pdus/src/umac/pdus and fields). *)
From Verif Require Import Base BitsLib BitBuffer Codec TypedFields MacFields MacPdus TdmaTime.
Open Scope N_scope.
Open Scope codec_scope.

(** access_assign.rs:9-14 *)
Record access_field := mk_af { af_code : N; af_len : N }.
(** enums/access_assign_dl_usage.rs:4-10 *)
Inductive dl_usage := DlUnallocated | DlAssignedControl | DlCommonControl | DlCommonAndAssigned | DlTraffic (um : N).
(** access_assign_dl_usage.rs:13-21 *)
Definition dl_from_um (x : N) : dl_usage :=
  if x =? 0 then DlUnallocated else if x =? 1 then DlAssignedControl else if x =? 2 then DlCommonControl
  else if x =? 3 then DlCommonAndAssigned else DlTraffic x.
(** access_assign_dl_usage.rs:23-31 *)
Definition dl_to_um (u : dl_usage) : N :=
  match u with DlUnallocated => 0 | DlAssignedControl => 1 | DlCommonControl => 2 | DlCommonAndAssigned => 3 | DlTraffic c => c end.
(** enums/access_assign_ul_usage.rs:5-11 *)
Inductive ul_usage := UlCommonOnly | UlCommonAndAssigned | UlAssignedOnly | UlUnallocated | UlTraffic (um : N).
(** access_assign_ul_usage.rs:14-26 *)
Definition ul_from_um (x : N) : option ul_usage :=
  if x =? 0 then Some UlUnallocated else if x <? 4 then None else Some (UlTraffic x).
(** access_assign_ul_usage.rs:28-34 *)
Definition ul_to_um (u : ul_usage) : option N :=
  match u with UlUnallocated => Some 0 | UlTraffic c => Some c | _ => None end.
(** access_assign_ul_usage.rs:36-38 *)
Definition ul_is_traffic (u : ul_usage) : bool := match u with UlTraffic _ => true | _ => false end.

(** access_assign.rs:19-45, without the write-only [_header] *)
Record access_assign := mk_aa {
  aa_dl : dl_usage; aa_ul : ul_usage; aa_f1_af1 : option access_field; aa_f2_af2 : option access_field; aa_f2_af : option access_field }.
(** the 6-bit access field split of access_assign.rs:79-82 *)
Definition af_of (x : N) : access_field := mk_af (N.land (N.shiftr x 4) 3) (N.land x 15).
(** access_assign.rs:63-124 *)
Definition aa_read : reader access_assign :=
  h <~ rfield 2 ;; f1 <~ rfield 6 ;; f2 <~ rfield 6 ;;
  if h =? 0 then rret (mk_aa DlCommonControl UlCommonOnly (Some (af_of f1)) (Some (af_of f2)) None)
  else if h =? 1 then rret (mk_aa (dl_from_um f1) UlCommonAndAssigned None None (Some (af_of f2)))
  else if h =? 2 then rret (mk_aa (dl_from_um f1) UlAssignedOnly None None (Some (af_of f2)))
  else if h =? 3 then u <~ rlift (ok_or (ul_from_um f2) EInvalidValue) ;; rret (mk_aa (dl_from_um f1) u None None None)
  else rpanic.
Definition w_af (a : access_field) : wr := wfield (af_code a) 2 >> wfield (af_len a) 4.
(** access_assign.rs:130-133 *)
Definition default_af : access_field := mk_af 0 4.
(** access_assign.rs:126-179 *)
Definition aa_write (p : access_assign) : wr :=
  match aa_dl p, aa_ul p with
  | DlCommonControl, UlCommonOnly =>
      wassert (is_some (aa_f1_af1 p) && is_some (aa_f2_af2 p)) >> wassert (is_none (aa_f2_af p)) >>
      wfield 0 2 >> w_unwrap (aa_f1_af1 p) w_af >> w_unwrap (aa_f2_af2 p) w_af >> wret
  | d, UlCommonAndAssigned =>
      wfield 1 2 >> wfield (dl_to_um d) 6 >> w_af (match aa_f2_af p with Some a => a | None => default_af end) >> wret
  | d, UlAssignedOnly =>
      wfield 2 2 >> wfield (dl_to_um d) 6 >> w_af (match aa_f2_af p with Some a => a | None => default_af end) >> wret
  | d, u =>
      wfield 3 2 >> w_unwrap (ul_to_um u) (fun v => wfield (dl_to_um d) 6 >> wfield v 6) >> wret
  end.

(** access_assign_fr18.rs:11-33, without the write-only [_header] and the never-set [f1_traf_um] *)
Record access_assign_fr18 := mk_af18 { a18_ul : ul_usage; a18_f1_af1 : option access_field; a18_f2_af2 : option access_field; a18_f2_af : option access_field }.
(** access_assign_fr18.rs:51-114 *)
Definition a18_read : reader access_assign_fr18 :=
  h <~ rfield 2 ;; f1 <~ rfield 6 ;; f2 <~ rfield 6 ;;
  if h =? 0 then rret (mk_af18 UlCommonOnly (Some (af_of f1)) (Some (af_of f2)) None)
  else if h =? 1 then rret (mk_af18 UlCommonAndAssigned (Some (af_of f1)) (Some (af_of f2)) None)
  else if h =? 2 then rret (mk_af18 UlAssignedOnly (Some (af_of f1)) (Some (af_of f2)) None)
  else if h =? 3 then
    u <~ rlift (ok_or (ul_from_um f1) EInvalidValue) ;; rassert (ul_is_traffic u) ;~
    rret (mk_af18 u None None (Some (af_of f2)))
  else rpanic.
(** access_assign_fr18.rs:116-154 *)
Definition a18_write (p : access_assign_fr18) : wr :=
  let common h := wfield h 2 >> w_unwrap (a18_f1_af1 p) w_af >> w_unwrap (a18_f2_af2 p) w_af >> wassert (is_none (a18_f2_af p)) >> wret in
  match a18_ul p with
  | UlCommonOnly => common 0
  | UlCommonAndAssigned => common 1
  | UlAssignedOnly => common 2
  | UlTraffic u => wfield 3 2 >> wfield u 6 >> w_unwrap (a18_f2_af p) w_af >>
      wassert (is_none (a18_f1_af1 p)) >> wassert (is_none (a18_f2_af2 p)) >> wret
  | UlUnallocated => wpanic
  end.

(** mac_sync.rs:8-30 *)
Record mac_sync := mk_sync {
  sy_sys : N; sy_colour : N; sy_time : tdma_time; sy_sharing : N; sy_tsres : N; sy_dtx : bool; sy_f18ext : bool }.
(** mac_sync.rs:33-61 (the reserved bit is only warned about) *)
Definition sync_read : reader mac_sync :=
  sys <~ rfield 4 ;; col <~ rfield 6 ;;
  t <~ rfield 2 ;; f <~ rfield 5 ;; m <~ rfield 6 ;;
  sh <~ rfield 2 ;; tsr <~ rfield 3 ;; dtx <~ rflag ;; f18 <~ rflag ;; r <~ rfield 1 ;;
  rret (mk_sync sys col (mk_time (Z.of_N t + 1) (Z.of_N f) (Z.of_N m) 0) sh tsr dtx f18).
(** mac_sync.rs:63-74; [time.t as u64 - 1] underflows (panics) for [t = 0]; the u8 time fields are
    non-negative *)
Definition sync_write (p : mac_sync) : wr :=
  wfield (sy_sys p) 4 >> wfield (sy_colour p) 6 >>
  wassert (1 <=? tm_t (sy_time p))%Z >>
  wfield (Z.to_N (tm_t (sy_time p) - 1)) 2 >> wfield (Z.to_N (tm_f (sy_time p))) 5 >> wfield (Z.to_N (tm_m (sy_time p))) 6 >>
  wfield (sy_sharing p) 2 >> wfield (sy_tsres p) 3 >> wflag (sy_dtx p) >> wflag (sy_f18ext p) >> wfield 0 1 >> wret.

(** fields/sysinfo_default_def_for_access_code_a.rs:7-49 *)
Record acc_code_a := mk_aca { aca_imm : N; aca_wt : N; aca_nu : N; aca_fl : bool; aca_ts : N; aca_prio : N }.
Definition aca_read : reader acc_code_a :=
  i <~ rfield 4 ;; w <~ rfield 4 ;; n <~ rfield 4 ;; f <~ rflag ;; t <~ rfield 4 ;; m <~ rfield 3 ;; rret (mk_aca i w n f t m).
Definition aca_write (p : acc_code_a) : wr :=
  wfield (aca_imm p) 4 >> wfield (aca_wt p) 4 >> wfield (aca_nu p) 4 >> wflag (aca_fl p) >> wfield (aca_ts p) 4 >> wfield (aca_prio p) 3 >> wret.

(** fields/sysinfo_ext_services.rs:7-34 *)
Record ext_services := mk_es {
  es_auth : bool; es_c1 : bool; es_c2 : bool; es_c3 : bool; es_sck : option N;
  es_dcks : option bool; es_dckr : option bool; es_gckl : option bool; es_gckvn : option N;
  es_sdstl : N; es_gck : bool; es_section : N; es_data : N }.
(** sysinfo_ext_services.rs:37-89 (asserts are warnings) *)
Definition es_read (aie : bool) : reader ext_services :=
  auth <~ rflag ;;
  cls <~ (if aie then c1 <~ rflag ;; c2 <~ rfield 1 ;; rret (c1, c2 =? 0, negb (c2 =? 0))
          else r <~ rfield 2 ;; rret (false, false, false)) ;;
  let '(c1, c2, c3) := cls in
  info <~ (if (c2 : bool) then s <~ rfield 5 ;; rret (Some s, None, None, None, None)
           else if (c3 : bool) then
             a <~ rflag ;; b <~ rflag ;; c <~ rflag ;; d <~ rfield 2 ;; rret (None, Some a, Some b, Some c, Some d)
           else r <~ rfield 5 ;; rret (None, None, None, None, None)) ;;
  let '(sck, a, b, c, d) := info in
  sd <~ rfield 2 ;; g <~ rflag ;; s <~ rfield 2 ;; dt <~ rfield 7 ;;
  rret (mk_es auth c1 c2 c3 sck a b c d sd g s dt).
(** sysinfo_ext_services.rs:91-119 *)
Definition es_write (p : ext_services) : wr :=
  wassert (negb (es_c2 p && es_c3 p)) >>
  wflag (es_auth p) >> wflag (es_c1 p) >> wflag (es_c3 p) >>
  (if es_c2 p then w_unwrap (es_sck p) (fun v => wfield v 5)
   else if es_c3 p then
     w_unwrap (es_dcks p) (fun v => wflag v) >> w_unwrap (es_dckr p) (fun v => wflag v) >>
     w_unwrap (es_gckl p) (fun v => wflag v) >> w_unwrap (es_gckvn p) (fun v => wfield v 2)
   else wfield 0 5) >>
  wfield (es_sdstl p) 2 >> wflag (es_gck p) >> wfield (es_section p) 2 >> wfield (es_data p) 7 >> wret.

(** fields/ts_common_frames.rs:7-118: eighteen flags and two reserved bits; the flags are a list here *)
Fixpoint rflags (n : nat) : reader (list bool) :=
  match n with O => rret [] | S n => f <~ rflag ;; l <~ rflags n ;; rret (f :: l) end.
Fixpoint wflags (l : list bool) : wr := match l with [] => wret | f :: l => wflag f >> wflags l end.
Definition tcf_read : reader (list bool) := l <~ rflags 18 ;; r <~ rfield 2 ;; rret l.
Definition tcf_write (l : list bool) : wr := wflags l >> wfield 0 2 >> wret.

(** mac_sysinfo.rs:13-47; [option_field] raw (enums/sysinfo_opt_field_flag.rs, identity on 0..3) *)
Record mac_sysinfo := mk_si {
  si_carrier : N; si_band : N; si_offset : N; si_duplex : N; si_reverse : bool; si_csch : N;
  si_txpwr : N; si_rxlev : N; si_accpar : N; si_dltimeout : N; si_cck : option N; si_hyper : option N;
  si_opt : N; si_tcf : option (list bool); si_aca : option acc_code_a; si_ext : option ext_services }.
(** mac_sysinfo.rs:52-121 (the two type checks are warnings) *)
Definition si_read : reader mac_sysinfo :=
  t <~ rfield 2 ;; st <~ rfield 2 ;;
  car <~ rfield 12 ;; band <~ rfield 4 ;; off <~ rfield 2 ;; dup <~ rfield 3 ;; rev <~ rflag ;; csch <~ rfield 2 ;;
  pw <~ rfield 3 ;; rx <~ rfield 4 ;; ap <~ rfield 4 ;; dlt <~ rfield 4 ;;
  has <~ rflag ;;
  ch <~ (if (has : bool) then v <~ rfield 16 ;; rret (Some v, None) else v <~ rfield 16 ;; rret (None, Some v)) ;;
  o <~ rfield 2 ;;
  let mk := mk_si car band off dup rev csch pw rx ap dlt (fst ch) (snd ch) in
  if o =? 0 then rseek_rel 20 ;~ rret (mk 0 None None None)
  else if o =? 1 then rseek_rel 20 ;~ rret (mk 1 None None None)
  else if o =? 2 then a <~ aca_read ;; rret (mk 2 None (Some a) None)
  else if o =? 3 then e <~ es_read true ;; rret (mk 3 None None (Some e))
  else rpanic.
(** mac_sysinfo.rs:123-175 *)
Definition si_write (p : mac_sysinfo) : wr :=
  wfield 2 2 >> wfield 0 2 >>
  wfield (si_carrier p) 12 >> wfield (si_band p) 4 >> wfield (si_offset p) 2 >> wfield (si_duplex p) 3 >> wflag (si_reverse p) >>
  wfield (si_csch p) 2 >> wfield (si_txpwr p) 3 >> wfield (si_rxlev p) 4 >> wfield (si_accpar p) 4 >> wfield (si_dltimeout p) 4 >>
  wassert (xorb (is_some (si_cck p)) (is_some (si_hyper p))) >>
  match si_cck p with
  | Some c => wfield 1 1 >> wfield c 16
  | None => wfield 0 1 >> w_unwrap (si_hyper p) (fun h => wfield h 16)
  end >>
  wfield (si_opt p) 2 >>
  (if si_opt p =? 0 then wassert (is_none (si_aca p)) >> wassert (is_none (si_ext p))
   else if si_opt p =? 1 then wassert (is_none (si_aca p)) >> wassert (is_none (si_ext p)) >> w_unwrap (si_tcf p) tcf_write
   else if si_opt p =? 2 then wassert (is_none (si_tcf p)) >> wassert (is_none (si_ext p)) >> w_unwrap (si_aca p) aca_write
   else wassert (is_none (si_tcf p)) >> wassert (is_none (si_aca p)) >> w_unwrap (si_ext p) es_write) >> wret.

(** access_define.rs:7-30 *)
Record access_define := mk_ad {
  adf_common : bool; adf_code : N; adf_imm : N; adf_wt : N; adf_nu : N; adf_flf : bool; adf_ts : N; adf_prio : N;
  adf_opt : N; adf_class : option N; adf_gssi : option N }.
(** access_define.rs:33-73 *)
Definition adf_read : reader access_define :=
  t <~ rfield 2 ;; rassert (t =? 2) ;~ bt <~ rfield 2 ;; rassert (bt =? 1) ;~
  c <~ rflag ;; ac <~ rfield 2 ;; i <~ rfield 4 ;; w <~ rfield 4 ;; n <~ rfield 4 ;; f <~ rflag ;; ts <~ rfield 4 ;; pr <~ rfield 3 ;;
  o <~ rfield 2 ;;
  cl <~ ropt (o =? 1) (rfield 16) ;;
  g <~ ropt (o =? 2) (rfield 24) ;;
  z <~ rfield 3 ;; rassert (z =? 4) ;~
  rret (mk_ad c ac i w n f ts pr o cl g).
(** access_define.rs:75-99 *)
Definition adf_write (p : access_define) : wr :=
  wfield 2 2 >> wfield 1 2 >> wflag (adf_common p) >> wfield (adf_code p) 2 >> wfield (adf_imm p) 4 >> wfield (adf_wt p) 4 >>
  wfield (adf_nu p) 4 >> wflag (adf_flf p) >> wfield (adf_ts p) 4 >> wfield (adf_prio p) 3 >> wfield (adf_opt p) 2 >>
  wopt (adf_class p) (fun v => wfield v 16) >> wopt (adf_gssi p) (fun v => wfield v 24) >> wfield 4 3 >> wret.

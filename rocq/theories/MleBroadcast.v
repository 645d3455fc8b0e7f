(** The two MLE broadcast PDUs carried by SYNC and SYSINFO (crates/tetra-pdus/src/mle/pdus and fields). *)
From Verif Require Import Base BitsLib BitBuffer Codec.
Open Scope N_scope.
Open Scope codec_scope.

(** d_mle_sync.rs:7-18 *)
Record mle_sync := mk_msync { ms_mcc : N; ms_mnc : N; ms_ncb : N; ms_load : N; ms_late : bool }.
(** d_mle_sync.rs:21-36 *)
Definition msync_read : reader mle_sync :=
  mcc <~ rfield 10 ;; mnc <~ rfield 14 ;; n <~ rfield 2 ;; c <~ rfield 2 ;; l <~ rflag ;; rret (mk_msync mcc mnc n c l).
(** d_mle_sync.rs:38-44 *)
Definition msync_write (p : mle_sync) : wr :=
  wfield (ms_mcc p) 10 >> wfield (ms_mnc p) 14 >> wfield (ms_ncb p) 2 >> wfield (ms_load p) 2 >> wflag (ms_late p) >> wret.

(** bs_service_details.rs:7-31 *)
Record bs_services := mk_bss {
  bs_reg : bool; bs_dereg : bool; bs_prio : bool; bs_nomin : bool; bs_migr : bool; bs_sws : bool; bs_voice : bool;
  bs_cmd : bool; bs_sndcp : bool; bs_aie : bool; bs_al : bool }.
(** bs_service_details.rs:34-62 (the reserved bit is only warned about) *)
Definition bss_read : reader bs_services :=
  a <~ rflag ;; b <~ rflag ;; c <~ rflag ;; d <~ rflag ;; e <~ rflag ;; f <~ rflag ;; g <~ rflag ;; h <~ rflag ;;
  r <~ rfield 1 ;; i <~ rflag ;; j <~ rflag ;; k <~ rflag ;; rret (mk_bss a b c d e f g h i j k).
(** bs_service_details.rs:64-77 *)
Definition bss_write (p : bs_services) : wr :=
  wflag (bs_reg p) >> wflag (bs_dereg p) >> wflag (bs_prio p) >> wflag (bs_nomin p) >> wflag (bs_migr p) >> wflag (bs_sws p) >>
  wflag (bs_voice p) >> wflag (bs_cmd p) >> wfield 0 1 >> wflag (bs_sndcp p) >> wflag (bs_aie p) >> wflag (bs_al p) >> wret.

(** d_mle_sysinfo.rs:9-16 *)
Record mle_sysinfo := mk_msi { mi_la : N; mi_class : N; mi_bss : bs_services }.
(** d_mle_sysinfo.rs:19-31 *)
Definition msi_read : reader mle_sysinfo := la <~ rfield 14 ;; c <~ rfield 16 ;; b <~ bss_read ;; rret (mk_msi la c b).
(** d_mle_sysinfo.rs:33-38 *)
Definition msi_write (p : mle_sysinfo) : wr := wfield (mi_la p) 14 >> wfield (mi_class p) 16 >> bss_write (mi_bss p) >> wret.

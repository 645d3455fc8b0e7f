(** The basic link PDU headers: crates/tetra-pdus/src/llc/pdus.  [expect_value!] returns the parse
    error InvalidValue. *)
From Verif Require Import Base BitBuffer Codec.
Open Scope N_scope.
Open Scope codec_scope.

(** bl_ack.rs:8-18 *)
Record bl_ack := mk_black { ba_fcs : bool; ba_nr : N }.
(** bl_ack.rs:21-36 *)
Definition ba_read : reader bl_ack :=
  lt <~ rfield 1 ;;
  rguard (lt =? 0) EInvalidValue ;~
  f <~ rflag ;;
  ty <~ rfield 2 ;;
  rguard (ty =? 3) EInvalidValue ;~
  nr <~ rfield 1 ;;
  rret (mk_black f nr).
(** bl_ack.rs:38-45 *)
Definition ba_write (p : bl_ack) : wr := wfield 0 1 >> wflag (ba_fcs p) >> wfield 3 2 >> wfield (ba_nr p) 1.

(** bl_adata.rs:9-17 *)
Record bl_adata := mk_bladata { bad_fcs : bool; bad_nr : N; bad_ns : N }.
(** bl_adata.rs:20-37 *)
Definition bad_read : reader bl_adata :=
  lt <~ rfield 1 ;;
  rguard (lt =? 0) EInvalidValue ;~
  f <~ rflag ;;
  ty <~ rfield 2 ;;
  rguard (ty =? 0) EInvalidValue ;~
  nr <~ rfield 1 ;;
  ns <~ rfield 1 ;;
  rret (mk_bladata f nr ns).
(** bl_adata.rs:39-47 *)
Definition bad_write (p : bl_adata) : wr := wfield 0 1 >> wflag (bad_fcs p) >> wfield 0 2 >> wfield (bad_nr p) 1 >> wfield (bad_ns p) 1.

(** bl_data.rs:7-12 *)
Record bl_data := mk_bldata { bd_fcs : bool; bd_ns : N }.
(** bl_data.rs:15-30 *)
Definition bd_read : reader bl_data :=
  lt <~ rfield 1 ;;
  rguard (lt =? 0) EInvalidValue ;~
  f <~ rflag ;;
  ty <~ rfield 2 ;;
  rguard (ty =? 1) EInvalidValue ;~
  ns <~ rfield 1 ;;
  rret (mk_bldata f ns).
(** bl_data.rs:32-39 *)
Definition bd_write (p : bl_data) : wr := wfield 0 1 >> wflag (bd_fcs p) >> wfield 1 2 >> wfield (bd_ns p) 1.

(** bl_udata.rs:9-12 *)
Record bl_udata := mk_bludata { bu_fcs : bool }.
(** bl_udata.rs:15-25 *)
Definition bu_read : reader bl_udata :=
  lt <~ rfield 1 ;;
  rguard (lt =? 0) EInvalidValue ;~
  f <~ rflag ;;
  ty <~ rfield 2 ;;
  rguard (ty =? 2) EInvalidValue ;~
  rret (mk_bludata f).
(** bl_udata.rs:27-33 *)
Definition bu_write (p : bl_udata) : wr := wfield 0 1 >> wflag (bu_fcs p) >> wfield 2 2.

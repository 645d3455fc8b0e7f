(** The basic link PDU headers on the wire (EN 300 392-2 clause 21.2.2). *)
From Verif Require Import Base Layout LlcPdus.
Open Scope N_scope.

(** The 4-bit PDU type: BL-ADATA 0, BL-DATA 1, BL-UDATA 2, BL-ACK 3, plus 4 with a frame check sequence. *)
Definition bl_type (fcs : bool) (t : N) : N * nat := ((if fcs then 4 else 0) + t, 4%nat).
Definition ba_layout (p : bl_ack) : layout := [bl_type (ba_fcs p) 3; (ba_nr p, 1%nat)].
Definition bad_layout (p : bl_adata) : layout := [bl_type (bad_fcs p) 0; (bad_nr p, 1%nat); (bad_ns p, 1%nat)].
Definition bd_layout (p : bl_data) : layout := [bl_type (bd_fcs p) 1; (bd_ns p, 1%nat)].
Definition bu_layout (p : bl_udata) : layout := [bl_type (bu_fcs p) 2].

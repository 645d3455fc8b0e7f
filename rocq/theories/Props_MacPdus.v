(** Property theorems for C18 and C19 (MAC PDU headers, reservation requests).
    [carries w r y L] (Layout.v): the writer puts exactly the bits of the format table [L] on the wire,
    whatever buffer it is given, and the reader, given those bits followed by anything, returns [y] and
    leaves the cursor at the end of [L].  Tables and value restrictions are in MacSpec.v. *)
From Verif Require Import Base BitsLib BitBuffer BitBufferProofs BitBufferOps Codec CodecProofs TypedFields MacFields MacPdus MacBroadcast
  Layout LayoutProofs MacSpec MacPdusProofs MacBroadcastProofs MacFacts TdmaTime.
Open Scope N_scope.

Theorem C18_mac_resource : forall p, mr_valid p = true ->
  carries (mr_write p) mr_read (mr_on_air p) (mr_layout p) /\ mr_compute_header_len p = Ok (length (enc (mr_layout p))).
Proof. exact mr_all. Qed.
Print Assumptions C18_mac_resource.

Theorem C18_mac_frag : forall f, carries (mfrag_write f) mfrag_read f (mfrag_layout f).
Proof. exact mfrag_carries. Qed.
Print Assumptions C18_mac_frag.

(** The announced length is right for a MAC-END without optional elements (the only one the code sends);
    with a slot grant it is two bits short: [C18_mac_end_length_refuted]. *)
Theorem C18_mac_end_dl : forall p, mend_valid p = true ->
  carries (mend_write p) mend_read p (mend_layout p) /\
  (me_sg p = None -> me_ca p = None -> mend_compute_hdr_len false false = Ok (length (enc (mend_layout p)))).
Proof. exact mend_all. Qed.
Print Assumptions C18_mac_end_dl.

Theorem C18_mac_end_length_refuted : exists p, mend_valid p = true /\ me_ca p = None /\ is_some (me_sg p) = true /\
  mend_compute_hdr_len true false = Ok 19%nat /\ length (enc (mend_layout p)) = 21%nat.
Proof. exact mend_len_wrong. Qed.
Print Assumptions C18_mac_end_length_refuted.

Theorem C18_mac_end_ul_partial : forall p, meul_valid p = true ->
  writes (meul_write p) (enc (meul_layout p)) /\
  (eu_req p = None -> carries (meul_write p) meul_read p (meul_layout p)).
Proof. exact meul_all. Qed.
Print Assumptions C18_mac_end_ul_partial.

Theorem C18_mac_end_hu : forall p, mehu_valid p = true -> carries (mehu_write p) mehu_read p (mehu_layout p).
Proof. exact mehu_carries. Qed.
Print Assumptions C18_mac_end_hu.

Theorem C18_mac_access : forall p, macc_valid p = true -> carries (macc_write p) macc_read p (macc_layout p).
Proof. exact macc_carries. Qed.
Print Assumptions C18_mac_access.

Theorem C18_mac_data : forall p, mdata_valid p = true -> carries (mdata_write p) mdata_read p (mdata_layout p).
Proof. exact mdata_carries. Qed.
Print Assumptions C18_mac_data.

Theorem C18_mac_blocks :
  (forall p, fits (ublck_layout p) = true -> carries (ublck_write p) ublck_read p (ublck_layout p)) /\
  (forall s, carries (usignal_write s) usignal_read s (usignal_layout s)) /\
  (forall p, fits (dblck_layout p) = true -> opt_valid sg_valid (db_sg p) = true -> carries (dblck_write p) dblck_read p (dblck_layout p)).
Proof. exact (conj ublck_carries (conj usignal_carries dblck_carries)). Qed.
Print Assumptions C18_mac_blocks.

Theorem C18_access_assign :
  (forall p, aa_valid p = true -> carries (aa_write p) aa_read p (aa_layout p)) /\
  (forall p, a18_valid p = true -> carries (a18_write p) a18_read p (a18_layout p)).
Proof. exact (conj aa_carries a18_carries). Qed.
Print Assumptions C18_access_assign.

(** An ACCESS-ASSIGN always fills its 14-bit channel. *)
Theorem C18_access_assign_width :
  (forall p, aa_valid p = true -> length (enc (aa_layout p)) = 14%nat) /\
  (forall p, a18_valid p = true -> length (enc (a18_layout p)) = 14%nat).
Proof. exact aa_widths. Qed.
Print Assumptions C18_access_assign_width.

Theorem C18_sync : forall p, sync_valid p = true -> carries (sync_write p) sync_read p (sync_layout p).
Proof. exact sync_carries. Qed.
Print Assumptions C18_sync.

(** Partial: the variants announcing timeslot-sharing frames (option field 0 and 1) are excluded. *)
Theorem C18_sysinfo_partial : forall p, si_valid p = true ->
  carries (si_write p) si_read p (si_layout p) /\ length (enc (si_layout p)) = 82%nat.
Proof. exact si_all. Qed.
Print Assumptions C18_sysinfo_partial.

(** With option field 0 the writer leaves out the 20 bits the reader skips; with option field 1 the
    frame flags are written but lost on reading. *)
Theorem C18_sysinfo_ts_mode_refuted :
  rt (si_write si_even) si_read = Ok si_even /\ rt (wthen (si_write si_even) (wfield 5 8)) (rbind si_read (fun _ => rfield 8)) <> Ok 5 /\
  (exists q, rt (si_write si_odd) si_read = Ok q /\ si_tcf si_odd <> None /\ si_tcf q = None).
Proof. exact si_ts_modes. Qed.
Print Assumptions C18_sysinfo_ts_mode_refuted.

Theorem C18_access_define : forall p, adf_valid p = true -> carries (adf_write p) adf_read p (adf_layout p).
Proof. exact adf_carries. Qed.
Print Assumptions C18_access_define.

(** Some PDU values the types allow do not survive: a granting delay of 14 slots becomes "frame 18",
    a delay of 16 panics; a channel allocation of the augmented kind panics in the reader. *)
Theorem C18_field_values_refuted :
  rt (sg_write (mk_sg 1 (GdDelay 14))) sg_read = Ok (mk_sg 1 GdFrame18) /\
  sg_write (mk_sg 1 (GdDelay 16)) (bb_new 64) = Panic /\
  (forall b rest, wf b -> remaining b = enc [(1, 2%nat); (8, 4%nat); (0, 2%nat); (0, 1%nat); (0, 1%nat); (1, 12%nat); (0, 1%nat); (1, 2%nat)] ++ rest ->
     ca_read b = Panic).
Proof. exact field_values_wrong. Qed.
Print Assumptions C18_field_values_refuted.

Definition ex_mr : mac_resource :=
  mk_mres true 0 0 true 9 (Some (mk_addr 123456 false SsiIssi)) None (Some 5) (Some 3) (Some (mk_sg 2 (GdDelay 3)))
    (Some (mk_ca 1 (false, true, false, false) 3 true false 1521 None 0 (Some 2))).
Example C18_values_exist :
  mr_valid ex_mr = true /\ length (enc (mr_layout ex_mr)) = 88%nat /\ mr_valid mr_null_pdu = true /\
  mend_valid (mk_mend true 0 12 (Some (mk_sg 1 GdNext)) None) = true /\
  meul_valid (mk_meul true (Some 12) None) = true /\ meul_valid (mk_meul true None (Some 9)) = true /\
  mehu_valid (mk_mehu false None (Some 3)) = true /\
  macc_valid (mk_mul true false (Some (mk_addr 2000001 false SsiSsi)) None None (Some true) (Some 4)) = true /\
  mdata_valid (mk_mul true false None (Some 77) (Some 33) None None) = true /\
  aa_valid (mk_aa (DlTraffic 5) (UlTraffic 5) None None None) = true /\
  aa_valid (mk_aa DlCommonControl UlCommonOnly (Some (mk_af 0 4)) (Some (mk_af 1 15)) None) = true /\
  a18_valid (mk_af18 (UlTraffic 17) None None (Some (mk_af 2 3))) = true /\
  sync_valid (mk_sync 3 1 (mk_time 4 18 60 0) 0 0 false true) = true /\
  si_valid (mk_si 1521 4 0 0 false 0 4 3 5 15 None (Some 65535) 3 None None
     (Some (mk_es false false false true None (Some true) (Some false) (Some true) (Some 2) 1 false 0 127))) = true /\
  adf_valid (mk_ad true 1 8 3 4 false 0 0 2 None (Some 91)) = true.
Proof. vm_compute. repeat split. Qed.

(** C19.  In MAC-ACCESS, MAC-DATA and MAC-END-HU every one of the sixteen reservation requirements is
    decoded as itself; the slot count it stands for is at least the request and the smallest expressible. *)
Theorem C19_reservation_partial :
  (forall p, macc_valid p = true -> reads macc_read (enc (macc_layout p)) p) /\
  (forall p, mdata_valid p = true -> reads mdata_read (enc (mdata_layout p)) p) /\
  (forall p, mehu_valid p = true -> reads mehu_read (enc (mehu_layout p)) p) /\
  (forall q, q <= 15 -> resreq_try_from q = Some q) /\
  (forall fill frag q a, q <= 15 -> mu_addr_valid a = true -> fits (mu_addr_layout a) = true ->
     macc_valid (mk_mul fill (mu_enc a) (mu_addr a) (mu_el a) None (Some frag) (Some q)) = true /\
     mdata_valid (mk_mul fill (mu_enc a) (mu_addr a) (mu_el a) None (Some frag) (Some q)) = true /\
     mehu_valid (mk_mehu fill None (Some q)) = true).
Proof. exact reservations_understood. Qed.
Print Assumptions C19_reservation_partial.

(** C19 fails for MAC-END on the uplink: a well-formed request is refused, whatever its value, and no input
    is ever decoded as a request (the bound is written 0x110000 instead of 0b110000). *)
Theorem C19_mac_end_ul_refuted :
  (forall f q b rest, q <= 15 -> wf b -> remaining b = enc (meul_layout (mk_meul f None (Some q))) ++ rest ->
     meul_read b = Err EInvalidValue) /\
  (forall b p b', wf b -> meul_read b = Ok (p, b') -> eu_req p = None).
Proof. exact (conj meul_req_rejected meul_never_req). Qed.
Print Assumptions C19_mac_end_ul_refuted.

Theorem C19_slot_counts :
  (forall req, 1 <= req -> req <= 68 ->
     exists n, resreq_to_req_slotcount (resreq_from_req_slotcount req) = Ok n /\ req <= n /\
     forall c m, c <= 15 -> resreq_to_req_slotcount c = Ok m -> req <= m -> n <= m) /\
  (forall req, 1 <= req -> req <= 68 ->
     exists c n, cap_from_req_slotcount req = Ok c /\ c <= 15 /\ cap_to_req_slotcount c = Ok n /\ req <= n /\
     forall c' m, c' <= 15 -> cap_to_req_slotcount c' = Ok m -> req <= m -> n <= m) /\
  (forall c, c <= 15 -> (resreq_to_req_slotcount c = Panic <-> c = 0 \/ c = 15) /\ (cap_to_req_slotcount c = Panic <-> c = 0 \/ c = 15)).
Proof. exact (conj resreq_code_spec (conj cap_code_spec slotcount_panics)). Qed.
Print Assumptions C19_slot_counts.

(** The uplink readers never panic on a buffer beginning with their own type bits (used for C47). *)
Theorem C18_uplink_readers_total :
  rsafe_at [false] macc_read /\ rsafe_at [false; false] mdata_read /\ rsafe_at [false; true; false] mfrag_read /\
  rsafe_at [false; true; true] meul_read /\ rsafe_at [true] mehu_read /\ rsafe_at [true; true; false] ublck_read /\
  rsafe_at [true; true] usignal_read.
Proof. exact (conj macc_safe (conj mdata_safe (conj mfrag_safe (conj meul_safe (conj mehu_safe (conj ublck_safe usignal_safe)))))). Qed.
Print Assumptions C18_uplink_readers_total.

Example C19_values : enc (meul_layout (mk_meul true None (Some 9))) = [false; true; true; true; true; true; true; false; false; true] /\
  resreq_from_req_slotcount 9 = 8 /\ resreq_to_req_slotcount 8 = Ok 10 /\
  mu_addr_valid (mk_mul true true (Some (mk_addr 5 true SsiUssi)) None None None None) = true.
Proof. vm_compute. repeat split. Qed.

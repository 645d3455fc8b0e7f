(** Wire formats of the MAC PDUs (EN 300 392-2 clause 21), as tables of values and widths, and the
    PDU values that are meaningful. *)
From Verif Require Import Base BitsLib BitBuffer Codec TypedFields MacFields MacPdus MacBroadcast Layout TdmaTime.
Open Scope N_scope.

(** Slot grant: capacity allocation 4, granting delay 4. *)
Definition sg_layout (s : slotgrant) : layout := [(sg_cap s, 4%nat); (gd_into_raw (sg_delay s), 4%nat)].
Definition sg_valid (s : slotgrant) : bool :=
  fits (sg_layout s) && match sg_delay s with GdDelay n => (1 <=? n) && (n <=? 13) | _ => true end.

(** Channel allocation: type 2, timeslots 4, up/downlink 2, CLCH 1, cell change 1, carrier 12, extended 1 (0),
    monitoring 2, frame 18 monitoring 2 when monitoring is 0.  Augmented (up/downlink 0) is not supported. *)
Definition ca_layout (c : chan_alloc) : layout :=
  let '(t1, t2, t3, t4) := ca_ts c in
  [(ca_type c, 2%nat); fl t1; fl t2; fl t3; fl t4; (ca_uldl c, 2%nat); fl (ca_clch c); fl (ca_cell_change c); (ca_carrier c, 12%nat);
   (0, 1%nat); (ca_mon c, 2%nat)] ++
  match ca_f18_mon c with Some v => [(v, 2%nat)] | None => [] end.
Definition ca_valid (c : chan_alloc) : bool :=
  fits (ca_layout c) && is_none (ca_ext c) && negb (ca_uldl c =? 0) && Bool.eqb (ca_mon c =? 0) (is_some (ca_f18_mon c)).

Definition opt_valid {A} (f : A -> bool) (x : option A) : bool := match x with Some v => f v | None => true end.

(** MAC-RESOURCE: type 2 (0), fill 1, position of grant 1, encryption 2, random access 1, length 6, address type 3,
    address, then three optional elements; a null PDU ends after the address type. *)
Definition mr_addr_layout (p : mac_resource) : layout :=
  match mr_addr p, mr_el p, mr_um p with
  | None, None, _ => [(0, 3%nat)]
  | None, Some e, _ => [(2, 3%nat); (e, 10%nat)]
  | Some a, None, None => [(match ad_type a with SsiUssi => 3 | SsiSmi => 4 | _ => 1 end, 3%nat); (ad_ssi a, 24%nat)]
  | Some a, Some e, _ => [(match ad_type a with SsiSmi => 7 | _ => 5 end, 3%nat); (ad_ssi a, 24%nat); (e, 10%nat)]
  | Some a, None, Some u => [(6, 3%nat); (ad_ssi a, 24%nat); (u, 6%nat)]
  end.
Definition mr_layout (p : mac_resource) : layout :=
  [(0, 2%nat); fl (mr_fill p); (mr_pog p, 1%nat); (mr_encmode p, 2%nat); fl (mr_raf p); (mr_len p, 6%nat)] ++
  mr_addr_layout p ++
  if mr_is_null p then []
  else optl (mr_pc p) (fun v => [(v, 4%nat)]) ++ optl (mr_sg p) sg_layout ++ optl (mr_ca p) ca_layout.
(** Which combinations of address, event label and usage marker exist. *)
Definition mr_addr_valid (p : mac_resource) : bool :=
  match mr_addr p, mr_el p, mr_um p with
  | None, None, None => negb (mr_fill p) && (mr_pog p =? 0) && (mr_encmode p =? 0) && negb (mr_raf p) &&
                        is_none (mr_pc p) && is_none (mr_sg p) && is_none (mr_ca p)
  | None, Some _, None => true
  | Some a, e, u =>
      Bool.eqb (ad_enc a) (negb (mr_encmode p =? 0)) &&
      match ad_type a, e, u with
      | (SsiSsi | SsiIssi | SsiGssi), _, None => true
      | (SsiSsi | SsiIssi | SsiGssi), None, Some _ => true
      | SsiUssi, None, None => true
      | SsiSmi, _, None => true
      | _, _, _ => false
      end
  | _, _, _ => false
  end.
Definition mr_valid (p : mac_resource) : bool :=
  fits (mr_layout p) && (0 <? mr_len p) && mr_addr_valid p && opt_valid sg_valid (mr_sg p) && opt_valid ca_valid (mr_ca p).
(** On the air an individual and a group address look the same: both arrive as plain SSI. *)
Definition on_air (a : tetra_addr) : tetra_addr :=
  mk_addr (ad_ssi a) (ad_enc a) (match ad_type a with SsiIssi | SsiGssi => SsiSsi | t => t end).
Definition mr_on_air (p : mac_resource) : mac_resource :=
  mk_mres (mr_fill p) (mr_pog p) (mr_encmode p) (mr_raf p) (mr_len p) (option_map on_air (mr_addr p)) (mr_el p) (mr_um p) (mr_pc p) (mr_sg p) (mr_ca p).

(** MAC-FRAG: type 2 (1), subtype 1 (0), fill 1. *)
Definition mfrag_layout (fill : bool) : layout := [(1, 2%nat); (0, 1%nat); fl fill].
(** MAC-END downlink: type 2 (1), subtype 1 (1), fill 1, position of grant 1, length 6, two optional elements. *)
Definition mend_layout (p : mac_end_dl) : layout :=
  [(1, 2%nat); (1, 1%nat); fl (me_fill p); (me_pog p, 1%nat); (me_len p, 6%nat)] ++ optl (me_sg p) sg_layout ++ optl (me_ca p) ca_layout.
Definition mend_valid (p : mac_end_dl) : bool := fits (mend_layout p) && opt_valid sg_valid (me_sg p) && opt_valid ca_valid (me_ca p).
(** MAC-END uplink: type 2 (1), subtype 1 (1), fill 1, then a 6-bit field: 1..45 a length, 110000..111111 a reservation requirement. *)
Definition meul_layout (p : mac_end_ul) : layout :=
  [(1, 2%nat); (1, 1%nat); fl (eu_fill p); (match eu_len p, eu_req p with Some l, _ => l | None, Some q => 48 + q | None, None => 0 end, 6%nat)].
Definition meul_valid (p : mac_end_ul) : bool :=
  match eu_len p, eu_req p with Some l, None => (1 <=? l) && (l <=? 45) | None, Some q => q <=? 15 | _, _ => false end.
(** MAC-END-HU: type 1 (1), fill 1, flag 1, length 4 or reservation requirement 4. *)
Definition mehu_layout (p : mac_end_hu) : layout :=
  [(1, 1%nat); fl (eh_fill p)] ++
  match eh_len p, eh_req p with Some l, _ => [(0, 1%nat); (l, 4%nat)] | None, Some q => [(1, 1%nat); (q, 4%nat)] | None, None => [] end.
Definition mehu_valid (p : mac_end_hu) : bool := fits (mehu_layout p) && xorb (is_some (eh_len p)) (is_some (eh_req p)).

(** MAC-ACCESS and MAC-DATA: type, fill 1, encrypted 1, address type 2, address; MAC-ACCESS then has an optional part
    (flag; 0 + length 5, or 1 + fragmentation flag + reservation requirement 4), MAC-DATA a mandatory one
    (0 + length 6, or 1 + fragmentation flag + reservation requirement 4 + reserved 0). *)
Definition mu_addr_layout (p : mac_ul) : layout :=
  match mu_addr p, mu_el p with
  | Some a, _ => [(match ad_type a with SsiUssi => 2 | SsiSmi => 3 | _ => 0 end, 2%nat); (ad_ssi a, 24%nat)]
  | None, Some e => [(1, 2%nat); (e, 10%nat)]
  | None, None => []
  end.
Definition macc_layout (p : mac_ul) : layout :=
  [(0, 1%nat); fl (mu_fill p); fl (mu_enc p)] ++ mu_addr_layout p ++
  match mu_len p, mu_frag p, mu_req p with
  | Some l, _, _ => [(1, 1%nat); (0, 1%nat); (l, 5%nat)]
  | None, Some f, Some q => [(1, 1%nat); (1, 1%nat); fl f; (q, 4%nat)]
  | _, _, _ => [(0, 1%nat)]
  end.
Definition mdata_layout (p : mac_ul) : layout :=
  [(0, 2%nat); fl (mu_fill p); fl (mu_enc p)] ++ mu_addr_layout p ++
  match mu_len p, mu_frag p, mu_req p with
  | Some l, _, _ => [(0, 1%nat); (l, 6%nat)]
  | None, Some f, Some q => [(1, 1%nat); fl f; (q, 4%nat); (0, 1%nat)]
  | _, _, _ => []
  end.
Definition mu_addr_valid (p : mac_ul) : bool :=
  match mu_addr p, mu_el p with
  | Some a, None => Bool.eqb (ad_enc a) (mu_enc p) && match ad_type a with SsiSsi | SsiUssi | SsiSmi => true | _ => false end
  | None, Some _ => true
  | _, _ => false
  end.
Definition mu_tail_valid (optional : bool) (p : mac_ul) : bool :=
  match mu_len p, mu_frag p, mu_req p with
  | Some _, None, None => true
  | None, Some _, Some _ => true
  | None, None, None => optional
  | _, _, _ => false
  end.
Definition macc_valid (p : mac_ul) : bool := fits (macc_layout p) && mu_addr_valid p && mu_tail_valid true p.
Definition mdata_valid (p : mac_ul) : bool := fits (mdata_layout p) && mu_addr_valid p && mu_tail_valid false p.

(** MAC-U-BLCK, MAC-U-SIGNAL, MAC-D-BLCK. *)
Definition ublck_layout (p : mac_u_blck) : layout :=
  [(3, 2%nat); (0, 1%nat); fl (ub_fill p); fl (ub_enc p); (ub_el p, 10%nat); (ub_req p, 4%nat)].
Definition usignal_layout (s : bool) : layout := [(3, 2%nat); fl s].
Definition dblck_layout (p : mac_d_blck) : layout :=
  [(3, 2%nat); (0, 1%nat); fl (db_fill p); (db_encmode p, 2%nat); (db_el p, 10%nat); fl (db_nap p)] ++ optl (db_sg p) sg_layout.

(** ACCESS-ASSIGN: header 2, field one 6, field two 6. *)
Definition af_layout (a : access_field) : layout := [(af_code a, 2%nat); (af_len a, 4%nat)].
Definition um_dl_valid (d : dl_usage) : bool := match d with DlTraffic u => (4 <=? u) && (u <=? 63) | _ => true end.
Definition um_ul_valid (u : ul_usage) : bool := match u with UlTraffic u => (4 <=? u) && (u <=? 63) | _ => true end.
Definition aa_layout (p : access_assign) : layout :=
  match aa_ul p, aa_f1_af1 p, aa_f2_af2 p, aa_f2_af p with
  | UlCommonOnly, Some a, Some b, _ => (0, 2%nat) :: af_layout a ++ af_layout b
  | UlCommonAndAssigned, _, _, Some a => [(1, 2%nat); (dl_to_um (aa_dl p), 6%nat)] ++ af_layout a
  | UlAssignedOnly, _, _, Some a => [(2, 2%nat); (dl_to_um (aa_dl p), 6%nat)] ++ af_layout a
  | UlUnallocated, _, _, _ => [(3, 2%nat); (dl_to_um (aa_dl p), 6%nat); (0, 6%nat)]
  | UlTraffic u, _, _, _ => [(3, 2%nat); (dl_to_um (aa_dl p), 6%nat); (u, 6%nat)]
  | _, _, _, _ => []
  end.
Definition aa_valid (p : access_assign) : bool :=
  fits (aa_layout p) && um_dl_valid (aa_dl p) && um_ul_valid (aa_ul p) &&
  match aa_ul p, aa_f1_af1 p, aa_f2_af2 p, aa_f2_af p with
  | UlCommonOnly, Some _, Some _, None => match aa_dl p with DlCommonControl => true | _ => false end
  | (UlCommonAndAssigned | UlAssignedOnly), None, None, Some _ => true
  | (UlUnallocated | UlTraffic _), None, None, None => true
  | _, _, _, _ => false
  end.
Definition a18_layout (p : access_assign_fr18) : layout :=
  match a18_ul p, a18_f1_af1 p, a18_f2_af2 p, a18_f2_af p with
  | UlCommonOnly, Some a, Some b, _ => (0, 2%nat) :: af_layout a ++ af_layout b
  | UlCommonAndAssigned, Some a, Some b, _ => (1, 2%nat) :: af_layout a ++ af_layout b
  | UlAssignedOnly, Some a, Some b, _ => (2, 2%nat) :: af_layout a ++ af_layout b
  | UlTraffic u, _, _, Some a => [(3, 2%nat); (u, 6%nat)] ++ af_layout a
  | _, _, _, _ => []
  end.
Definition a18_valid (p : access_assign_fr18) : bool :=
  fits (a18_layout p) && um_ul_valid (a18_ul p) &&
  match a18_ul p, a18_f1_af1 p, a18_f2_af2 p, a18_f2_af p with
  | (UlCommonOnly | UlCommonAndAssigned | UlAssignedOnly), Some _, Some _, None => true
  | UlTraffic _, None, None, Some _ => true
  | _, _, _, _ => false
  end.

(** SYNC: system code 4, colour code 6, timeslot 2, frame 5, multiframe 6, sharing 2, reserved frames 3, DTX 1, frame 18 ext 1, reserved 1. *)
Definition sync_layout (p : mac_sync) : layout :=
  [(sy_sys p, 4%nat); (sy_colour p, 6%nat); (Z.to_N (tm_t (sy_time p)) - 1, 2%nat); (Z.to_N (tm_f (sy_time p)), 5%nat); (Z.to_N (tm_m (sy_time p)), 6%nat);
   (sy_sharing p, 2%nat); (sy_tsres p, 3%nat); fl (sy_dtx p); fl (sy_f18ext p); (0, 1%nat)].
(** any valid clock value, without the hyperframe number (which SYNC does not carry) *)
Definition sync_valid (p : mac_sync) : bool :=
  fits (sync_layout p) && is_valid (sy_time p) && (tm_h (sy_time p) =? 0)%Z.

(** SYSINFO *)
Definition aca_layout (p : acc_code_a) : layout :=
  [(aca_imm p, 4%nat); (aca_wt p, 4%nat); (aca_nu p, 4%nat); fl (aca_fl p); (aca_ts p, 4%nat); (aca_prio p, 3%nat)].
Definition es_layout (p : ext_services) : layout :=
  [fl (es_auth p); fl (es_c1 p); fl (es_c3 p)] ++
  match es_sck p, es_dcks p, es_dckr p, es_gckl p, es_gckvn p with
  | Some s, _, _, _, _ => [(s, 5%nat)]
  | None, Some a, Some b, Some c, Some d => [fl a; fl b; fl c; (d, 2%nat)]
  | _, _, _, _, _ => [(0, 5%nat)]
  end ++ [(es_sdstl p, 2%nat); fl (es_gck p); (es_section p, 2%nat); (es_data p, 7%nat)].
(** exactly one of security classes 2 and 3, with the matching fields *)
Definition es_valid (p : ext_services) : bool :=
  fits (es_layout p) && xorb (es_c2 p) (es_c3 p) &&
  match es_sck p, es_dcks p, es_dckr p, es_gckl p, es_gckvn p with
  | Some _, None, None, None, None => es_c2 p
  | None, Some _, Some _, Some _, Some _ => es_c3 p
  | _, _, _, _, _ => false
  end.
Definition si_layout (p : mac_sysinfo) : layout :=
  [(2, 2%nat); (0, 2%nat); (si_carrier p, 12%nat); (si_band p, 4%nat); (si_offset p, 2%nat); (si_duplex p, 3%nat); fl (si_reverse p);
   (si_csch p, 2%nat); (si_txpwr p, 3%nat); (si_rxlev p, 4%nat); (si_accpar p, 4%nat); (si_dltimeout p, 4%nat)] ++
  match si_cck p, si_hyper p with Some c, _ => [(1, 1%nat); (c, 16%nat)] | None, Some h => [(0, 1%nat); (h, 16%nat)] | None, None => [] end ++
  (si_opt p, 2%nat) ::
  match si_aca p, si_ext p with Some a, _ => aca_layout a | None, Some e => es_layout e | None, None => [] end.
(** the two timeslot-sharing variants (option field 0 and 1) are not meaningful: see C18_sysinfo_ts_mode_refuted *)
Definition si_valid (p : mac_sysinfo) : bool :=
  fits (si_layout p) && xorb (is_some (si_cck p)) (is_some (si_hyper p)) && is_none (si_tcf p) &&
  match si_opt p, si_aca p, si_ext p with
  | 2, Some a, None => true
  | 3, None, Some e => es_valid e
  | _, _, _ => false
  end.

(** ACCESS-DEFINE *)
Definition adf_layout (p : access_define) : layout :=
  [(2, 2%nat); (1, 2%nat); fl (adf_common p); (adf_code p, 2%nat); (adf_imm p, 4%nat); (adf_wt p, 4%nat); (adf_nu p, 4%nat); fl (adf_flf p);
   (adf_ts p, 4%nat); (adf_prio p, 3%nat); (adf_opt p, 2%nat)] ++
  match adf_class p with Some v => [(v, 16%nat)] | None => [] end ++
  match adf_gssi p with Some v => [(v, 24%nat)] | None => [] end ++ [(4, 3%nat)].
Definition adf_valid (p : access_define) : bool :=
  fits (adf_layout p) && Bool.eqb (adf_opt p =? 1) (is_some (adf_class p)) && Bool.eqb (adf_opt p =? 2) (is_some (adf_gssi p)).

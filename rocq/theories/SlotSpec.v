(** What a radio must be able to rely on in every downlink slot: the shape of the slot, what its access assignment
    says, and what the broadcasts in it say.  Everything is derived from the cell's configuration, the time and
    what call control has told the MAC. *)
From Coq Require Import Arith.
From Verif Require Import Base BitsLib BitBuffer Codec MacBroadcast MleBroadcast TdmaTime UmacCircuits DlSched UmacPrecomps UmacBs.
From Verif Require Scrambler CallControl Layout MacSpec BitBufferProofs.
Open Scope nat_scope.

(** * What call control has told the MAC about a timeslot *)
(** the usage marker of the open downlink and uplink circuit; the call is in hang time (nobody has the floor) *)
Record ts_view := mk_tsv { vw_dl : option N; vw_ul : option N; vw_hang : bool }.
Definition idle_ts : ts_view := mk_tsv None None false.
Definition at_ts (ts : nat) (f : ts_view -> ts_view) (v : nat -> ts_view) : nat -> ts_view := fun k => if k =? ts then f (v k) else v k.
Definition downwards (d : direction) : bool := match d with DirDl | DirBoth => true | _ => false end.
Definition upwards (d : direction) : bool := match d with DirUl | DirBoth => true | _ => false end.
Definition opened (d : direction) (u : N) (v : ts_view) : ts_view :=
  mk_tsv (if downwards d then Some u else vw_dl v) (if upwards d then Some u else vw_ul v) (match d with DirNone => vw_hang v | _ => false end).
Definition closed (d : direction) (v : ts_view) : ts_view :=
  mk_tsv (if downwards d then None else vw_dl v) (if upwards d then None else vw_ul v) (match d with DirNone => vw_hang v | _ => false end).
Definition hanging (h : bool) (v : ts_view) : ts_view := mk_tsv (vw_dl v) (vw_ul v) h.
Definition told (v : nat -> ts_view) (e : um_event) : nat -> ts_view :=
  match e with
  | UeControl (CallControl.CtlOpen d ts u) => at_ts ts (opened d u) v
  | UeControl (CallControl.CtlClose d ts) => at_ts ts (closed d) v
  | UeControl (CallControl.CtlFloorReleased _ ts) => at_ts ts (hanging true) v
  | UeControl (CallControl.CtlFloorGranted _ _ _ ts) => at_ts ts (hanging false) v
  | UeControl (CallControl.CtlCallEnded _ ts) => at_ts ts (hanging false) v
  | _ => v
  end.
Definition all_told (evs : list um_event) : nat -> ts_view := fold_left told evs (fun _ => idle_ts).
(** usage markers of traffic are 4 to 63 *)
Definition marked (e : um_event) : bool :=
  match e with UeControl (CallControl.CtlOpen _ _ u) => (4 <=? u)%N && (u <=? 63)%N | _ => true end.

(** * The configuration fits the fields of the broadcasts *)
Definition offset_id (c : cell_cfg) : option N :=
  if (cf_offset_hz c =? 0)%Z then Some 0%N else if (cf_offset_hz c =? 6250)%Z then Some 1%N
  else if (cf_offset_hz c =? -6250)%Z then Some 2%N else if (cf_offset_hz c =? 12500)%Z then Some 3%N else None.
Definition cell_ok (c : cell_cfg) : bool :=
  ((cf_mcc c <? 1024) && (cf_mnc c <? 16384) && (cf_carrier c <? 4096) && (cf_band c <? 16) && (cf_duplex c <? 8) && (cf_la c <? 16384) &&
   (cf_class c <? 65536) && (cf_sys c <? 16) && (cf_colour c <? 64) && (cf_sharing c <? 4) && (cf_tsres c <? 8))%N &&
  match offset_id c with Some _ => true | None => false end.

(** * What the broadcasts say *)
(** SYNC: the identity of the cell and the time of this very slot (SYNC has no hyperframe number) *)
Definition sync_says (c : cell_cfg) (t : tdma_time) : mac_sync :=
  mk_sync (cf_sys c) (cf_colour c) (mk_time (tm_t t) (tm_f t) (tm_m t) 0) (cf_sharing c) (cf_tsres c) (cf_dtx c) (cf_f18ext c).
Definition msync_says (c : cell_cfg) : mle_sync := mk_msync (cf_mcc c) (cf_mnc c) 2 0 (cf_late c).
(** SYSINFO: the frequencies of the cell and the hyperframe number; in odd timeslots the random access parameters,
    in even ones the extended services *)
Definition access_says : acc_code_a := mk_aca 8 5 5 false 0 0.
Definition services_say : ext_services := mk_es false true true false (Some 0%N) None None None None 2 false 0 0.
Definition sysinfo_says (c : cell_cfg) (off : N) (t : tdma_time) : mac_sysinfo :=
  let odd := Z.odd (tm_t t) in
  mk_si (cf_carrier c) (cf_band c) off (cf_duplex c) (cf_reverse c) 0 5 3 7 3 None (Some (Z.to_N (tm_h t)))
    (if odd then 2%N else 3%N) None (if odd then Some access_says else None) (if odd then None else Some services_say).
(** the location area, subscriber class and services; "system wide services" follows the link to the network
    server when one is configured *)
Definition msysinfo_says (c : cell_cfg) (connected : bool) : mle_sysinfo :=
  let b := cf_services c in
  mk_msi (cf_la c) (cf_class c)
    (mk_bss (bs_reg b) (bs_dereg b) (bs_prio b) (bs_nomin b) (bs_migr b) (if cf_brew c then connected else bs_sws b) (bs_voice b) (bs_cmd b) (bs_sndcp b) (bs_aie b) (bs_al b)).

(** * What the access assignment says *)
Definition open_access (len : N) : option access_field := Some (mk_af 0 len).
Definition busy_ts (v : ts_view) : bool := match vw_dl v, vw_ul v with None, None => false | _, _ => true end.
Definition aach_says (t : tdma_time) (v : ts_view) : access_assign :=
  if (tm_t t =? 1)%Z then mk_aa DlCommonControl UlCommonOnly (open_access 4) (open_access 4) None
  else if vw_hang v && busy_ts v then mk_aa DlAssignedControl UlAssignedOnly None None (open_access 4)
  else mk_aa (match vw_dl v with Some u => DlTraffic u | None => DlUnallocated end)
             (match vw_ul v with Some u => UlTraffic u | None => UlUnallocated end) None None None.
Definition aach18_says : access_assign_fr18 := mk_af18 UlCommonOnly (open_access 1) (open_access 0) None.

(** * The shape of a slot *)
Inductive kind := KTraffic | KStolen | KSignalling | KSync | KHalf.
Definition kind_of (k : dl_slot) : option kind :=
  match bk_chan (sl_blk1 k), option_map bk_chan (sl_blk2 k) with
  | CTchS, None => Some KTraffic
  | CStch, Some CTchS => Some KStolen
  | CSchF, None => Some KSignalling
  | CBsch, Some CBnch => Some KSync
  | CSchHd, Some CBnch => Some KHalf
  | _, _ => None
  end.
(** Frame 18 is for synchronisation.  A timeslot with a circuit carries traffic, or signalling in hang time, and
    half of it may be stolen; a timeslot without carries signalling or broadcasts. *)
Definition kind_fits (t : tdma_time) (v : ts_view) (x : kind) : bool :=
  if (tm_f t =? 18)%Z then match x with KSync => true | _ => false end
  else match vw_dl v with
  | Some _ => match x with KStolen => true | KTraffic => negb (vw_hang v) | KSignalling => vw_hang v | _ => false end
  | None => match x with
            | KSignalling => true
            | KHalf => (tm_t t =? 1)%Z && Z.even (tm_f t)
            | KSync => negb (tm_t t =? 1)%Z
            | _ => false
            end
  end.
(** the bits in the first and in the second block (what a stolen half slot holds is the subject of C20) *)
Definition lengths_fit (x : kind) (k : dl_slot) : Prop :=
  let l1 n := get_len (bk_buf (sl_blk1 k)) = Ok n in
  let l2 n := exists b, sl_blk2 k = Some b /\ get_len (bk_buf b) = Ok n in
  match x with
  | KTraffic => l1 274
  | KStolen => l2 274
  | KSignalling => l1 268
  | KSync => l1 60 /\ l2 124
  | KHalf => l1 124 /\ l2 124
  end.

(** * The whole slot, sent after the tick for time [now] *)
Definition reads_all {A} (r : reader A) (b : bitbuf) (x : A) : Prop := exists b', r b = Ok (x, b').
Definition then_read {A B} (r : reader A) (q : reader B) : reader (A * B) := rbind r (fun a => rbind q (fun b => rret (a, b))).
Definition slot_true (c : cell_cfg) (connected : bool) (now : tdma_time) (view : nat -> ts_view) (k : dl_slot) : Prop :=
  let t := add_timeslots now 1 in let v := view (Z.to_nat (tm_t t)) in
  let code := Scrambler.scramb_get_init (cf_mcc c) (cf_mnc c) (cf_colour c) in
  sl_ts k = t /\
  (exists x, kind_of k = Some x /\ kind_fits t v x = true /\ lengths_fit x k /\
     (* the broadcasts, read as a radio reads them *)
     ((x = KSync -> reads_all (then_read sync_read msync_read) (bk_buf (sl_blk1 k)) (sync_says c t, msync_says c)) /\
      (x = KSync \/ x = KHalf -> exists b off, sl_blk2 k = Some b /\ offset_id c = Some off /\
         reads_all (then_read si_read msi_read) (bk_buf b) (sysinfo_says c off t, msysinfo_says c connected) /\
         (* and the PDU is marked as a SYSINFO *)
         exists rest, BitBufferProofs.window (bk_buf b) = Layout.enc (MacSpec.si_layout (sysinfo_says c off t)) ++ rest)) /\
     (* scrambling: what a radio needs to find the cell is scrambled with the fixed code, the rest with the cell's *)
     bk_scr (sl_blk1 k) = (match x with KSync => Scrambler.SCRAMB_INIT | _ => code end) /\
     (forall b, sl_blk2 k = Some b -> bk_scr b = code) /\
     (* the uplink is taken for traffic if it has a circuit, except in frame 18 and in hang time; but a stolen half
        slot sent in hang time suspends the hang time *)
     (exists stealing, (vw_dl v <> None -> tm_f t <> 18%Z -> tm_t t <> 1%Z -> stealing = match x with KStolen => true | _ => false end) /\
        sl_ul_tp k = (match vw_ul v with Some _ => true | None => false end) && negb (tm_f t =? 18)%Z && (negb (vw_hang v) || stealing))) /\
  (* the access assignment *)
  bk_chan (sl_bbk k) = CAach /\ bk_scr (sl_bbk k) = code /\ get_len (bk_buf (sl_bbk k)) = Ok 14 /\
  (if (tm_f t =? 18)%Z then reads_all a18_read (bk_buf (sl_bbk k)) aach18_says else reads_all aa_read (bk_buf (sl_bbk k)) (aach_says t v)).

(** the slot among the messages a tick produces: exactly one, the last *)
Definition sends_slot (o : list um_out) (P : dl_slot -> Prop) : Prop :=
  exists notices k, o = notices ++ [OutSlot k] /\ (forall k', ~ In (OutSlot k') notices) /\ P k.

(** Model of crates/tetra-entities/src/umac/umac_bs.rs: the upper MAC of the base station.
    Simplifications: log output is dropped; [endpoint_id], [pending_stch] (never used) and the constant
    fields of primitives are left out; of the configuration only what the broadcasts need ([cell_cfg]) is
    kept, and whether the network server is connected comes with each tick; messages of kinds that make
    the entity panic whatever its state (1216-1229, 1550-1563) are not representable. *)
From Verif Require Import Base BitBuffer Codec TypedFields MacFields MacPdus FillBits Defrag BsFrag TxReceipt TdmaTime UlSched UmacCircuits VoicePack
  DlSched UmacPrecomps CircuitMgr Scrambler.
From Verif Require Llc CallControl.
Open Scope N_scope.

(** umac_bs.rs:40-62 *)
Record umac := mk_umac { um_time : tdma_time; um_sws : bool; um_defrag : defrag; um_sch : dls; um_voice : list (option tdma_time) }.
Definition set_sch (s : dls) (u : umac) : umac := mk_umac (um_time u) (um_sws u) (um_defrag u) s (um_voice u).
Definition set_defrag (d : defrag) (u : umac) : umac := mk_umac (um_time u) (um_sws u) d (um_sch u) (um_voice u).
(** [if (1..=4).contains(&ts) { self.last_ul_voice[ts - 1] = v }] *)
Definition set_voice (ts : nat) (v : option tdma_time) (u : umac) : umac :=
  if (1 <=? ts)%nat && (ts <=? 4)%nat then mk_umac (um_time u) (um_sws u) (um_defrag u) (um_sch u) (upd (um_voice u) (ts - 1) v) else u.
(** umac_bs.rs:73-91 *)
Definition umac_new (c : cell_cfg) (connected : bool) : res umac :=
  let code := scramb_get_init (cf_mcc c) (cf_mnc c) (cf_colour c) in
  p <- generate_precomps c connected ;;
  Ok (mk_umac time_default (sws_state c connected) defrag_new (dls_new code p) [None; None; None; None]).

(** What the upper MAC sends: an SDU to the link layer (478-506, 683-712, 873-893, 1048-1069), the notice to the
    lower MAC that the second half of the slot is stolen too (1300-1314), a slot to the lower MAC (1583-1593),
    speech to the network (1269-1278), the notice that a circuit has fallen silent (1470-1476). *)
Inductive um_out :=
| OutSdu (t : tdma_time) (sdu : bitbuf) (a : tetra_addr) (scr : N)
| OutStolen
| OutSlot (k : dl_slot)
| OutVoice (t : tdma_time) (ts : nat) (data : list N)
| OutInactive (t : tdma_time) (ts : nat).

(** * Reception *)
(** crates/tetra-saps/src/tmv: [TmvUnitdataInd] with the time of its message.  [UcOther]: any other logical channel. *)
Inductive ul_chan := UcSchF | UcStch | UcSchHu | UcOther.
Record tmv_ind := mk_tmv { tv_time : tdma_time; tv_chan : ul_chan; tv_blk : blocknum; tv_scr : N }.
Definition ts_of (t : tdma_time) : nat := Z.to_nat (tm_t t).

(** the block of umac_bs.rs:498-507 (and 652-660, 853-861, 972-980): a reservation request *)
Definition rx_reservation (t : tdma_time) (a : tetra_addr) (req : option N) (s : dls) : res dls :=
  match req with
  | None => Ok s
  | Some q =>
      ' (g, ul) <- ul_process_cap_req (ds_cur s) (tm_t t) (ad_ssi a) q (ds_ul s) ;;
      let s := set_ul ul s in
      match g with Some g => dl_enqueue_grant (ts_of t) a g s | None => Ok s end
  end.
(** umac_bs.rs:555-557 and the other ends of PDU handlers: the next PDU begins behind this one *)
Definition next_pdu (orig_end n : nat) (b : bitbuf) : res bitbuf :=
  b <- set_raw_end orig_end b ;; b <- set_raw_pos (bstart b + n) b ;; set_raw_start (bpos b) b.
(** the buffer cut behind the PDU without its padding (umac_bs.rs:476-484 and the like): the number of
    padding bits, the length without them, the buffer *)
Definition cut_pdu (fill : bool) (len : nat) (b : bitbuf) : res (nat * nat * bitbuf) :=
  nf <- (if fill then get_num_fill_bits b len else Ok 0%nat) ;;
  len <- sub_checked len nf ;;
  b <- set_raw_end (bstart b + len) b ;; Ok (nf, len, b).

(** The handlers return the new state, the buffer (of which the caller looks at the start only when the
    handler returned early), and what was sent.  A PDU that does not parse leaves the buffer start alone. *)
(** umac_bs.rs:419-558 *)
Definition rx_mac_data (i : tmv_ind) (u : umac) (b : bitbuf) : res (umac * bitbuf * list um_out) :=
  pos <- get_pos b ;; assert (pos =? 0)%nat ;;;
  match mdata_read b with
  | Panic => Panic
  | Err _ => Ok (u, b, [])
  | Ok (p, b) =>
      if is_some (mu_el p) then Ok (u, b, []) else
      a <- unwrap (mu_addr p) ;;
      n <- get_len b ;;
      ' (len, frag, stolen, null) <-
        (match mu_len p with
         | Some l =>
             if l =? 0 then Ok (37%nat, false, false, true)
             else if (2 <=? l) && (l <? 56) then Ok ((N.to_nat l * 8)%nat, false, false, false)
             else if l =? 62 then Ok (n, false, true, false)
             else if l =? 63 then Ok (n, true, false, false)
             else Panic
         | None => f <- unwrap (mu_frag p) ;; Ok (n, f, false, false)
         end) ;;
      let out := if (stolen : bool) then [OutStolen] else [] in
      let len := if (n <? len)%nat then n else len in
      let orig_end := bend b in
      ' (nf, len, b) <- cut_pdu (mu_fill p) len b ;;
      if null then Ok (u, b, out) else
      if mu_enc p then Ok (u, b, out) else
      s <- rx_reservation (tv_time i) a (mu_req p) (um_sch u) ;;
      let u := set_sch s u in
      ' (u, b, out') <-
        (if (frag : bool) then ' (d, b) <- insert_first b (tv_time i) a false (um_defrag u) ;; Ok (set_defrag d u, b, [])
         else
           r <- get_len_remaining b ;;
           if (r =? 0)%nat then Ok (u, b, [])
           else sdu <- bb_from_bitbuffer_pos b ;; Ok (u, b, [OutSdu (tv_time i) sdu a (tv_scr i)])) ;;
      b <- next_pdu orig_end (len + nf) b ;;
      Ok (u, b, out ++ out')
  end.

(** umac_bs.rs:560-734 *)
Definition rx_mac_access (i : tmv_ind) (u : umac) (b : bitbuf) : res (umac * bitbuf * list um_out) :=
  pos <- get_pos b ;; assert (pos =? 0)%nat ;;;
  match macc_read b with
  | Panic => Panic
  | Err _ => Ok (u, b, [])
  | Ok (p, b) =>
      if is_some (mu_el p) then Ok (u, b, []) else
      a <- unwrap (mu_addr p) ;;
      n <- get_len b ;;
      let len := match mu_len p with Some l => if l =? 0 then 36%nat else (N.to_nat l * 8)%nat | None => n end in
      let len := if (n <? len)%nat then n else len in
      let orig_end := bend b in
      ' (nf, len, b) <- cut_pdu (mu_fill p) len b ;;
      if macc_is_null p then Ok (u, b, []) else
      s <- dl_enqueue_random_access_ack (ts_of (tv_time i)) a (um_sch u) ;;
      let u := set_sch s u in
      if mu_enc p then Ok (u, b, []) else
      s <- rx_reservation (tv_time i) a (mu_req p) (um_sch u) ;;
      let u := set_sch s u in
      if macc_is_frag_start p then
        ' (d, b) <- insert_first b (tv_time i) a false (um_defrag u) ;;
        b <- next_pdu orig_end (len + nf) b ;; Ok (set_defrag d u, b, [])
      else
        r <- get_len_remaining b ;;
        if (r =? 0)%nat then Ok (u, b, [])
        else
          sdu <- bb_from_bitbuffer_pos b ;;
          b <- next_pdu orig_end (len + nf) b ;; Ok (u, b, [OutSdu (tv_time i) sdu a (tv_scr i)])
  end.

(** umac_bs.rs:736-783 *)
Definition rx_mac_frag_ul (i : tmv_ind) (u : umac) (b : bitbuf) : res (umac * bitbuf * list um_out) :=
  pos <- get_pos b ;; assert (pos =? 0)%nat ;;;
  match mfrag_read b with
  | Panic => Panic
  | Err _ => Ok (u, b, [])
  | Ok (fill, b) =>
      n <- get_len b ;;
      ' (_, _, b) <- cut_pdu fill n b ;;
      o <- ul_get_slot_owner (tv_time i) (tv_blk i) (ds_ul (um_sch u)) ;;
      match o with
      | None => Ok (u, b, [])
      | Some ssi =>
          aie <- get_aie_info ssi (tv_time i) (um_defrag u) ;;
          if (aie : bool) then Ok (u, b, [])
          else ' (d, b) <- insert_next b ssi (tv_time i) (um_defrag u) ;; Ok (set_defrag d u, b, [])
      end
  end.

(** umac_bs.rs:828-900 and 949-1009: the common part of the two handlers of a last fragment *)
Definition rx_last (i : tmv_ind) (fill : bool) (len : nat) (req : option N) (u : umac) (b : bitbuf) : res (umac * bitbuf * list um_out) :=
  let orig_end := bend b in
  ' (nf, len, b) <- cut_pdu fill len b ;;
  o <- ul_get_slot_owner (tv_time i) (tv_blk i) (ds_ul (um_sch u)) ;;
  match o with
  | None => Ok (u, b, [])
  | Some ssi =>
      aie <- get_aie_info ssi (tv_time i) (um_defrag u) ;;
      assert (negb aie) ;;;
      ' (done, d, b) <- insert_last b ssi (tv_time i) (um_defrag u) ;;
      let u := set_defrag d u in
      match done with
      | None => Ok (u, b, [])
      | Some f =>
          s <- rx_reservation (tv_time i) (df_addr f) req (um_sch u) ;;
          b <- next_pdu orig_end (len + nf) b ;;
          Ok (set_sch s u, b, [OutSdu (tv_time i) (df_bits f) (df_addr f) (tv_scr i)])
      end
  end.
(** umac_bs.rs:785-900 *)
Definition rx_mac_end_ul (i : tmv_ind) (u : umac) (b : bitbuf) : res (umac * bitbuf * list um_out) :=
  pos <- get_pos b ;; assert (pos =? 0)%nat ;;;
  match meul_read b with
  | Panic => Panic
  | Err _ => Ok (u, b, [])
  | Ok (p, b) =>
      n <- get_len b ;;
      let len := match eu_len p with Some l => (N.to_nat l * 8)%nat | None => n end in
      rx_last i (eu_fill p) (if (n <? len)%nat then n else len) (eu_req p) u b
  end.
(** umac_bs.rs:902-1010 *)
Definition rx_mac_end_hu (i : tmv_ind) (u : umac) (b : bitbuf) : res (umac * bitbuf * list um_out) :=
  pos <- get_pos b ;; assert (pos =? 0)%nat ;;;
  match mehu_read b with
  | Panic => Panic
  | Err _ => Ok (u, b, [])
  | Ok (p, b) =>
      n <- get_len b ;;
      match eh_len p with
      | Some l =>
          if l =? 0 then Ok (u, b, [])
          else let len := (N.to_nat l * 8)%nat in rx_last i (eh_fill p) (if (n <? len)%nat then n else len) (eh_req p) u b
      | None => rx_last i (eh_fill p) n (eh_req p) u b
      end
  end.

(** umac_bs.rs:1014-1071; the buffer start is never moved *)
Definition rx_ul_mac_u_signal (i : tmv_ind) (u : umac) (b : bitbuf) : res (umac * bitbuf * list um_out) :=
  match usignal_read b with
  | Panic => Panic
  | Err _ => Ok (u, b, [])
  | Ok (stolen, b) =>
      if (stolen : bool) then Ok (u, b, [])
      else
        r <- get_len_remaining b ;;
        if (r =? 0)%nat then Ok (u, b, [])
        else sdu <- bb_from_bitbuffer_pos b ;; Ok (u, b, [OutSdu (tv_time i) sdu (mk_addr 0 false SsiSsi) (tv_scr i)])
  end.
(** umac_bs.rs:1073-1095: [unimplemented!] once the header has been read *)
Definition rx_ul_mac_u_blck (u : umac) (b : bitbuf) : res (umac * bitbuf * list um_out) :=
  match ublck_read b with Err _ => Ok (u, b, []) | _ => Panic end.

(** umac_bs.rs:337-395: the handler for the next PDU *)
Definition rx_pdu (i : tmv_ind) (bits : N) (u : umac) (b : bitbuf) : res (umac * bitbuf * list um_out) :=
  match tv_chan i with
  | UcSchF | UcStch =>
      let ty := N.shiftr bits 1 in
      if ty =? 0 then rx_mac_data i u b
      else if ty =? 1 then (if N.land bits 1 =? 0 then rx_mac_frag_ul i u b else rx_mac_end_ul i u b)
      else if ty =? 3 then
        match tv_chan i with
        | UcStch => rx_ul_mac_u_signal i u b
        | _ => if N.land bits 1 =? 0 then rx_ul_mac_u_blck u b else Ok (u, b, [])
        end
      else Ok (u, b, [])
  | UcSchHu =>
      if N.land (N.shiftr bits 2) 1 =? 0 then rx_mac_access i u b else rx_mac_end_hu i u b
  | UcOther => Ok (u, b, [])
  end.
(** umac_bs.rs:307-417.  [fuel] is the length of the block; running out of it is a panic. *)
Fixpoint rx_tmv_sch (fuel : nat) (i : tmv_ind) (u : umac) (b : bitbuf) : res (umac * list um_out) :=
  match fuel with
  | O => Panic
  | S fuel =>
      v <- peek_bits b 3 ;;
      match v with
      | None => Ok (u, [])
      | Some bits =>
          let orig := bstart b in
          ' (u, b, out) <- rx_pdu i bits u b ;;
          n <- get_len b ;;
          if negb (bstart b =? orig)%nat && (16 <=? n)%nat then
            ' (u, out') <- rx_tmv_sch fuel i u b ;; Ok (u, out ++ out')
          else Ok (u, out)
      end
  end.
(** umac_bs.rs:276-305 *)
Definition rx_tmv_unitdata_ind (i : tmv_ind) (pdu : bitbuf) (u : umac) : res (umac * list um_out) :=
  n <- get_len pdu ;;
  match tv_chan i with
  | UcSchF => match tv_blk i with BothBlocks => rx_tmv_sch (S n) i u pdu | _ => Panic end
  | UcStch | UcSchHu => match tv_blk i with Block1 | Block2 => rx_tmv_sch (S n) i u pdu | _ => Panic end
  | UcOther => Panic
  end.

(** * Requests from above *)
(** crates/tetra-saps/src/tma: [TmaUnitdataReq] with the time of its message *)
Record tma_req := mk_tma { tr_time : tdma_time; tr_sdu : bitbuf; tr_addr : tetra_addr; tr_steal : bool; tr_chan : option Llc.chan_req; tr_rep : option tx_reporter }.
(** umac_bs.rs:231-246 (allocation type 0 Replace, 1 Additional; assignment 2 uplink, 3 both; [timeslots] is an array of four) *)
Definition cmce_to_mac_chanalloc (c : Llc.chan_req) (carrier : N) : chan_alloc :=
  let ty := Llc.cq_type c in let ud := Llc.cq_assigned c in
  let t k := nth k (Llc.cq_timeslots c) false in
  mk_ca ty (t 0%nat, t 1%nat, t 2%nat, t 3%nat) ud (((ty =? 0) || (ty =? 1)) && ((ud =? 2) || (ud =? 3))) false carrier None 0 (Some 0).
(** umac_bs.rs:1110-1114: the timeslot named in the request *)
Fixpoint first_set (l : list bool) (k : nat) : option nat :=
  match l with [] => None | b :: t => if (b : bool) then Some k else first_set t (S k) end.
(** umac_bs.rs:1115: the first timeslot with a downlink circuit *)
Fixpoint first_active (l : list nat) (s : dls) : res (option nat) :=
  match l with [] => Ok None | t :: r => a <- circuit_is_active DirDl t s ;; if (a : bool) then Ok (Some t) else first_active r s end.
Definition traffic_ts (r : tma_req) (s : dls) : res (option nat) :=
  match tr_chan r with
  | Some c => match first_set (Llc.cq_timeslots c) 1 with Some t => Ok (Some t) | None => first_active [2; 3; 4]%nat s end
  | None => first_active [2; 3; 4]%nat s
  end.
(** umac_bs.rs:1117-1159: the half slot *)
Definition STCH_CAP : nat := 124.
Definition stch_block (raf : bool) (r : tma_req) : res bitbuf :=
  let p := mk_mres false 0 0 raf 0 (Some (tr_addr r)) None (match tr_chan r with Some c => Llc.cq_usage c | None => None end) None None None in
  n <- get_len (tr_sdu r) ;;
  ' (_, p) <- mr_update_len_and_fill_ind p n ;;
  b <- mr_write p (bb_new STCH_CAP) ;;
  sdu <- seek 0 (tr_sdu r) ;;
  ' (b, _) <- copy_bits n sdu b ;; Ok b.
(** umac_bs.rs:1097-1212 *)
Definition is_issi (a : tetra_addr) : bool := match ad_type a with SsiIssi => true | _ => false end.
Definition is_gssi (a : tetra_addr) : bool := match ad_type a with SsiGssi => true | _ => false end.
Definition rx_tma_unitdata_req (carrier : N) (r : tma_req) (s : dls) : res dls :=
  ts <- (if tr_steal r then traffic_ts r s else Ok None) ;;
  match ts with
  | Some ts =>
      ' (ra, s) <- take_pending_ra_ack ts (ad_ssi (tr_addr r)) s ;;
      b <- stch_block ((ra : bool) || is_issi (tr_addr r)) r ;;
      dl_enqueue_stealing ts b (tr_rep r) s
  | None =>
      let um := match tr_chan r with Some c => Llc.cq_usage c | None => None end in
      let ca := match tr_chan r with Some c => Some (cmce_to_mac_chanalloc c carrier) | None => None end in
      let p := mk_mres false 0 0 (negb (is_gssi (tr_addr r))) 0 (Some (tr_addr r)) None um None None ca in
      n <- get_len (tr_sdu r) ;;
      ' (_, p) <- mr_update_len_and_fill_ind p n ;;
      dl_enqueue_tma (ts_of (tr_time r)) p (tr_sdu r) (tr_rep r) s
  end.

(** * Speech *)
(** umac_bs.rs:1237-1254: speech from the network *)
Definition rx_dl_voice (ts : nat) (data : list N) (u : umac) : res umac :=
  u <- (if (1 <=? ts)%nat && (ts <=? 4)%nat then
          a <- circuit_is_active DirUl ts (um_sch u) ;; Ok (if (a : bool) then set_voice ts (Some (um_time u)) u else u)
        else Ok u) ;;
  a <- circuit_is_active DirDl ts (um_sch u) ;;
  if (a : bool) then s <- dl_schedule_tmd ts data (um_sch u) ;; Ok (set_sch s u) else Ok u.
(** umac_bs.rs:1256-1297: speech from a radio *)
Definition rx_ul_voice (brew : bool) (t : tdma_time) (ts : nat) (data : list N) (u : umac) : res (umac * list um_out) :=
  let u := set_voice ts (Some (um_time u)) u in
  out <- (if brew then a <- circuit_is_active DirUl ts (um_sch u) ;; Ok (if (a : bool) then [OutVoice t ts data] else []) else Ok []) ;;
  a <- circuit_is_active DirDl ts (um_sch u) ;;
  if (a : bool) then
    o <- pack_ul_acelp_bits data ;;
    match o with Some b => s <- dl_schedule_tmd ts b (um_sch u) ;; Ok (set_sch s u, out) | None => Ok (u, out) end
  else Ok (u, out).

(** * Call control *)
(** umac_bs.rs:1376-1383, 1416-1423 *)
Definition dirs_of (d : direction) : list direction :=
  match d with DirBoth => [DirDl; DirUl] | DirDl => [DirDl] | DirUl => [DirUl] | DirNone => [] end.
Definition is_ul (d : direction) : bool := match d with DirUl => true | _ => false end.
(** umac_bs.rs:1385-1409 *)
Fixpoint open_dirs (ds : list direction) (ts : nat) (usage : N) (u : umac) : res umac :=
  match ds with
  | [] => Ok u
  | d :: r =>
      a <- circuit_is_active d ts (um_sch u) ;;
      s <- (if (a : bool) then ' (_, s) <- dl_close_circuit d ts (um_sch u) ;; Ok s else Ok (um_sch u)) ;;
      s <- dl_create_circuit d ts usage s ;;
      let u := set_sch s u in
      open_dirs r ts usage (if is_ul d then set_voice ts (Some (um_time u)) u else u)
  end.
(** umac_bs.rs:1425-1438 *)
Fixpoint close_dirs (ds : list direction) (ts : nat) (u : umac) : res umac :=
  match ds with
  | [] => Ok u
  | d :: r =>
      ' (o, s) <- dl_close_circuit d ts (um_sch u) ;;
      let u := set_sch s u in
      close_dirs r ts (match o with Some _ => if is_ul d then set_voice ts None u else u | None => u end)
  end.
(** umac_bs.rs:1482-1525; returns the reporters marked *)
Definition rx_control (c : CallControl.call_ctl) (u : umac) : res (umac * list tx_reporter) :=
  let hang ts on v := ' (s, m) <- set_hangtime ts on (um_sch u) ;; Ok (set_voice ts v (set_sch s u), m) in
  match c with
  | CallControl.CtlOpen d ts usage => u <- open_dirs (dirs_of d) ts usage u ;; Ok (u, [])
  | CallControl.CtlClose d ts => u <- close_dirs (dirs_of d) ts u ;; Ok (u, [])
  | CallControl.CtlFloorReleased _ ts => hang ts true None
  | CallControl.CtlFloorGranted _ _ _ ts => hang ts false (Some (um_time u))
  | CallControl.CtlCallEnded _ ts => hang ts false None
  | _ => Ok (u, [])
  end.

(** * Time *)
(** umac_bs.rs:1446 *)
Definition UL_INACTIVITY_TIMESLOTS : Z := 3 * 18 * 4.
(** umac_bs.rs:1444-1480, the loop over the timeslots *)
Fixpoint check_silence (tss : list nat) (u : umac) : res (umac * list um_out) :=
  match tss with
  | [] => Ok (u, [])
  | ts :: r =>
      a <- circuit_is_active DirUl ts (um_sch u) ;;
      h <- ts_get (ds_hang (um_sch u)) ts ;;
      out <- (if (a : bool) && negb h then
                v <- ts_get (um_voice u) ts ;;
                match v with
                | Some t => d <- age t (um_time u) ;; Ok (if (UL_INACTIVITY_TIMESLOTS <? d)%Z then [OutInactive (um_time u) ts] else [])
                | None => Ok []
                end
              else Ok []) ;;
      ' (u, out') <- check_silence r (match out with [] => u | _ => set_voice ts None u end) ;;
      Ok (u, out ++ out')
  end.
(** umac_bs.rs:1566-1593; [connected]: whether the network server is connected at this moment *)
Definition tick_start (c : cell_cfg) (connected : bool) (ts : tdma_time) (u : umac) : res (umac * list um_out * list tx_reporter) :=
  let '(sws, s) := refresh_sws c connected (um_sws u) (um_sch u) in
  ' (s, m0) <- (if negb (time_eqb (ds_cur s) ts) && time_eqb (ds_cur s) (mk_time 0 0 0 0) then set_dl_time ts s
                else s <- dl_tick_start ts s ;; Ok (s, [])) ;;
  ' (u, out) <- check_silence [1; 2; 3; 4]%nat (mk_umac ts sws (um_defrag u) s (um_voice u)) ;;
  ' (k, s, m) <- finalize_ts (um_sch u) ;;
  Ok (set_sch s u, out ++ [OutSlot k], m0 ++ m).

(** * The entity *)
Inductive um_event :=
| UeTick (connected : bool) (ts : tdma_time)
| UeBlock (i : tmv_ind) (pdu : bitbuf)
| UeSend (r : tma_req)
| UeDlVoice (ts : nat) (data : list N)
| UeUlVoice (t : tdma_time) (ts : nat) (data : list N)
| UeControl (c : CallControl.call_ctl).
(** umac_bs.rs:1530-1593: the new state, the messages sent, the delivery reports marked *)
Definition um_step (c : cell_cfg) (e : um_event) (u : umac) : res (umac * list um_out * list tx_reporter) :=
  match e with
  | UeTick connected ts => tick_start c connected ts u
  | UeBlock i pdu => ' (u, o) <- rx_tmv_unitdata_ind i pdu u ;; Ok (u, o, [])
  | UeSend r => s <- rx_tma_unitdata_req (cf_carrier c) r (um_sch u) ;; Ok (set_sch s u, [], [])
  | UeDlVoice ts data => u <- rx_dl_voice ts data u ;; Ok (u, [], [])
  | UeUlVoice t ts data => ' (u, o) <- rx_ul_voice (cf_brew c) t ts data u ;; Ok (u, o, [])
  | UeControl k => ' (u, m) <- rx_control k u ;; Ok (u, [], m)
  end.
Fixpoint um_run (c : cell_cfg) (evs : list um_event) (u : umac) : res (umac * list (um_event * list um_out * list tx_reporter)) :=
  match evs with
  | [] => Ok (u, [])
  | e :: r => ' (u, o, m) <- um_step c e u ;; ' (u, log) <- um_run c r u ;; Ok (u, (e, o, m) :: log)
  end.

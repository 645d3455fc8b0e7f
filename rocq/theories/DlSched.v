(** Model of the downlink half of crates/tetra-entities/src/umac/subcomp/bs_sched.rs (the uplink half is
    UlSched.v).  Log messages are left out.  A delivery reporter is shared with the sender of a message;
    the functions below return the reporters they marked, in order, as marked. *)
From Verif Require Import Base BitBuffer Codec MacFields MacPdus MacBroadcast MleBroadcast BsFrag TxReceipt TdmaTime UlSched UmacCircuits Scrambler.
Open Scope nat_scope.

(** bs_sched.rs:37-41 *)
Definition NULL_PDU_LEN_BITS : nat := 16.
Definition SCH_HD_CAP : nat := 124.
Definition SCH_F_CAP : nat := 268.
Definition TCH_S_CAP : nat := 274.
(** bs_sched.rs:43-50 *)
Record precomps := mk_pre { pc_si1 : mac_sysinfo; pc_si2 : mac_sysinfo; pc_msi : mle_sysinfo; pc_sync : mac_sync; pc_msync : mle_sync }.
(** bs_sched.rs:84-106; nothing in the code makes a [Broadcast], its content is left out *)
Inductive dl_elem :=
| DlBroadcast
| DlAck (a : tetra_addr)
| DlGrant (a : tetra_addr) (g : slotgrant)
| DlResource (p : mac_resource) (sdu : bitbuf) (rep : option tx_reporter)
| DlFrag (f : fragger)
| DlSteal (b : bitbuf) (rep : option tx_reporter).
(** bs_sched.rs:60-82.  Of a circuit only the usage marker is kept (the rest is not used by the
    scheduler); a voice block is a list of bytes. *)
Record dls := mk_dls {
  ds_cur : tdma_time; ds_scr : N; ds_pre : precomps; ds_next : list dl_elem; ds_q : list (list dl_elem); ds_ul : ulsched;
  ds_circ : ucm N (list N); ds_hang : list bool; ds_ra : list (list N) }.
(** bs_sched.rs:117-129 *)
Definition dls_new (code : N) (p : precomps) : dls :=
  mk_dls (mk_time 0 0 0 0) code p [] (repeat [] 4) ul_empty (ucm_new) (repeat false 4) (repeat [] 4).
(** field updates *)
Definition set_cur (t : tdma_time) (s : dls) : dls := mk_dls t (ds_scr s) (ds_pre s) (ds_next s) (ds_q s) (ds_ul s) (ds_circ s) (ds_hang s) (ds_ra s).
Definition set_pre (p : precomps) (s : dls) : dls := mk_dls (ds_cur s) (ds_scr s) p (ds_next s) (ds_q s) (ds_ul s) (ds_circ s) (ds_hang s) (ds_ra s).
Definition set_next (n : list dl_elem) (s : dls) : dls := mk_dls (ds_cur s) (ds_scr s) (ds_pre s) n (ds_q s) (ds_ul s) (ds_circ s) (ds_hang s) (ds_ra s).
Definition set_q (q : list (list dl_elem)) (s : dls) : dls := mk_dls (ds_cur s) (ds_scr s) (ds_pre s) (ds_next s) q (ds_ul s) (ds_circ s) (ds_hang s) (ds_ra s).
Definition set_ul (u : ulsched) (s : dls) : dls := mk_dls (ds_cur s) (ds_scr s) (ds_pre s) (ds_next s) (ds_q s) u (ds_circ s) (ds_hang s) (ds_ra s).
Definition set_circ (c : ucm N (list N)) (s : dls) : dls := mk_dls (ds_cur s) (ds_scr s) (ds_pre s) (ds_next s) (ds_q s) (ds_ul s) c (ds_hang s) (ds_ra s).
Definition set_hang (h : list bool) (s : dls) : dls := mk_dls (ds_cur s) (ds_scr s) (ds_pre s) (ds_next s) (ds_q s) (ds_ul s) (ds_circ s) h (ds_ra s).
Definition set_ra (r : list (list N)) (s : dls) : dls := mk_dls (ds_cur s) (ds_scr s) (ds_pre s) (ds_next s) (ds_q s) (ds_ul s) (ds_circ s) (ds_hang s) r.

Definition is_steal (e : dl_elem) : bool := match e with DlSteal _ _ => true | _ => false end.
Definition is_grant (e : dl_elem) : bool := match e with DlGrant _ _ => true | _ => false end.
Definition is_frag (e : dl_elem) : bool := match e with DlFrag _ => true | _ => false end.
Definition is_resource (e : dl_elem) : bool := match e with DlResource _ _ _ => true | _ => false end.
Definition is_note (e : dl_elem) : bool := match e with DlGrant _ _ | DlAck _ => true | _ => false end.

(** [self.dltx_queues[ts as usize - 1]].  Timeslots are [nat] here; 0 and > 4 panic. *)
Definition get_q (ts : nat) (s : dls) : res (list dl_elem) := ts_get (ds_q s) ts.
Definition put_q (ts : nat) (q : list dl_elem) (s : dls) : dls := set_q (ts_set (ds_q s) ts q) s.
Definition push_q (ts : nat) (e : dl_elem) (s : dls) : res dls := q <- get_q ts s ;; Ok (put_q ts (q ++ [e]) s).

(** marking a reporter: the list of marked reporters *)
Definition marked (r : res tx_reporter) : res (list tx_reporter) := t <- r ;; Ok [t].
Definition mark_opt (f : tx_reporter -> res tx_reporter) (o : option tx_reporter) : res (list tx_reporter) :=
  match o with Some t => marked (f t) | None => Ok [] end.

(** bs_sched.rs:587-628 [dl_drop_all_except_stolen] on one queue: what stays, the SSIs of the dropped
    acknowledgements, the reporters marked.  Dropping a fragmenter runs its [Drop]. *)
Fixpoint drop_loop (q : list dl_elem) : res (list dl_elem * list N * list tx_reporter) :=
  match q with
  | [] => Ok ([], [], [])
  | e :: t =>
      match e with
      | DlSteal _ _ => ' (k, r, m) <- drop_loop t ;; Ok (e :: k, r, m)
      | DlResource _ _ rep => m0 <- mark_opt tx_mark_discarded rep ;; ' (k, r, m) <- drop_loop t ;; Ok (k, r, m0 ++ m)
      | DlFrag f =>
          o <- fg_drop f ;; ' (k, r, m) <- drop_loop t ;;
          Ok (k, r, match fg_rep f, o with Some a, Some b => if tx_byte a =? tx_byte b then m else b :: m | _, _ => m end)
      | DlAck a => ' (k, r, m) <- drop_loop t ;; Ok (k, ad_ssi a :: r, m)
      | DlGrant _ _ | DlBroadcast => drop_loop t
      end
  end.
Definition dl_drop_all_except_stolen (ts : nat) (s : dls) : res (dls * list tx_reporter) :=
  q <- get_q ts s ;; ' (k, r, m) <- drop_loop q ;;
  p <- (match r with [] => Ok (ds_ra s) | _ => p <- ts_get (ds_ra s) ts ;; Ok (ts_set (ds_ra s) ts (p ++ r)) end) ;;
  Ok (set_ra p (put_q ts k s), m).
(** bs_sched.rs:132-153 *)
Definition set_hangtime (ts : nat) (active : bool) (s : dls) : res (dls * list tx_reporter) :=
  if (1 <=? ts) && (ts <=? 4) then
    let s := set_hang (ts_set (ds_hang s) ts active) s in
    if active then Ok (s, []) else dl_drop_all_except_stolen ts s
  else Ok (s, []).
(** bs_sched.rs:159-175 *)
Definition has_pending_stealing (ts : nat) (s : dls) : res bool :=
  match ts with O => Panic | S i => Ok (match nth_error (ds_q s) i with Some q => existsb is_steal q | None => false end) end.
Definition is_hangtime_effective (ts : nat) (s : dls) : res bool :=
  h <- ts_get (ds_hang s) ts ;; if (h : bool) then p <- has_pending_stealing ts s ;; Ok (negb p) else Ok false.
(** bs_sched.rs:208-218 [set_dl_time] with [purge_schedule]: the queues are dropped *)
Definition purge_marks (q : list dl_elem) : res (list tx_reporter) := ' (_, _, m) <- drop_loop (filter is_frag q) ;; Ok m.
Definition set_dl_time (t : tdma_time) (s : dls) : res (dls * list tx_reporter) :=
  m <- purge_marks (concat (ds_q s)) ;; Ok (set_ul ul_empty (set_q (repeat [] 4) (set_cur t s)), m).

(** bs_sched.rs:402-428, 445-448 *)
Definition dl_enqueue_grant (ts : nat) (a : tetra_addr) (g : slotgrant) (s : dls) : res dls := push_q ts (DlGrant a g) s.
Definition dl_enqueue_random_access_ack (ts : nat) (a : tetra_addr) (s : dls) : res dls := push_q ts (DlAck a) s.
Definition dl_enqueue_tma (ts : nat) (p : mac_resource) (sdu : bitbuf) (rep : option tx_reporter) (s : dls) : res dls := push_q ts (DlResource p sdu rep) s.
Definition dl_enqueue_stealing (ts : nat) (b : bitbuf) (rep : option tx_reporter) (s : dls) : res dls := push_q ts (DlSteal b rep) s.
(** bs_sched.rs:433-441 *)
Fixpoint remove_first (x : N) (l : list N) : option (list N) :=
  match l with
  | [] => None
  | y :: t => if (y =? x)%N then Some t else match remove_first x t with Some t' => Some (y :: t') | None => None end
  end.
Definition take_pending_ra_ack (ts : nat) (ssi : N) (s : dls) : res (bool * dls) :=
  l <- ts_get (ds_ra s) ts ;;
  Ok (match remove_first ssi l with Some l' => (true, set_ra (ts_set (ds_ra s) ts l') s) | None => (false, s) end).
(** bs_sched.rs:464-486 *)
Definition dl_schedule_tmd (ts : nat) (block : list N) (s : dls) : res dls := c <- ucm_put ts block (ds_circ s) ;; Ok (set_circ c s).
Definition circuit_is_active (d : direction) (ts : nat) (s : dls) : res bool := ucm_is_active d ts (ds_circ s).
Definition clear_hang (ts : nat) (s : dls) : dls := if (1 <=? ts) && (ts <=? 4) then set_hang (ts_set (ds_hang s) ts false) s else s.
Definition dl_close_circuit (d : direction) (ts : nat) (s : dls) : res (option N * dls) :=
  ' (o, c) <- ucm_close d ts (ds_circ s) ;; Ok (o, set_circ c (clear_hang ts s)).
Definition dl_create_circuit (d : direction) (ts : nat) (usage : N) (s : dls) : res dls :=
  c <- ucm_create d ts usage (ds_circ s) ;; Ok (set_circ c (clear_hang ts s)).

(** bs_sched.rs:529-545: the first resource in the queue with this SSI, given by what comes before and after *)
Fixpoint split_resource (ssi : N) (q : list dl_elem) : option (list dl_elem * (mac_resource * bitbuf * option tx_reporter) * list dl_elem) :=
  match q with
  | [] => None
  | e :: t =>
      let next := match split_resource ssi t with Some (l, x, r) => Some (e :: l, x, r) | None => None end in
      match e with
      | DlResource p sdu rep =>
          match mr_addr p with Some a => if (ad_ssi a =? ssi)%N then Some ([], (p, sdu, rep), t) else next | None => next end
      | _ => next
      end
  end.
(** bs_sched.rs:548-564 *)
Definition dl_make_minimal_resource (a : tetra_addr) (g : option slotgrant) (ack : bool) : res mac_resource :=
  ' (_, p) <- mr_update_len_and_fill_ind (mk_mres false 0 0 ack 0 (Some a) None None None g None) 0 ;; Ok p.
(** assignments of bs_sched.rs:653 and 660 *)
Definition mr_set_grant (p : mac_resource) (g : slotgrant) : mac_resource :=
  mk_mres (mr_fill p) (mr_pog p) (mr_encmode p) (mr_raf p) (mr_len p) (mr_addr p) (mr_el p) (mr_um p) (mr_pc p) (Some g) (mr_ca p).
Definition mr_set_ack (p : mac_resource) : mac_resource :=
  mk_mres (mr_fill p) (mr_pog p) (mr_encmode p) true (mr_len p) (mr_addr p) (mr_el p) (mr_um p) (mr_pc p) (mr_sg p) (mr_ca p).
(** bs_sched.rs:635-693: one grant or acknowledgement *)
Definition integrate_one (q : list dl_elem) (e : dl_elem) : res (list dl_elem) :=
  a <- (match e with DlGrant a _ | DlAck a => Ok a | _ => Panic end) ;;
  match split_resource (ad_ssi a) q with
  | Some (l, (p, sdu, rep), r) =>
      Ok (l ++ DlResource (match e with DlGrant _ g => mr_set_grant p g | _ => mr_set_ack p end) sdu rep :: r)
  | None =>
      p <- (match e with DlGrant _ g => dl_make_minimal_resource a (Some g) false | _ => dl_make_minimal_resource a None true end) ;;
      Ok (q ++ [DlResource p (bb_new 0) None])
  end.
Fixpoint integrate_all (q notes : list dl_elem) : res (list dl_elem) :=
  match notes with [] => Ok q | e :: t => q <- integrate_one q e ;; integrate_all q t end.
(** bs_sched.rs:567-581, 630-694 *)
Definition dl_integrate (ts : nat) (s : dls) : res dls :=
  q <- get_q ts s ;; q <- integrate_all (filter (fun e => negb (is_note e)) q) (filter is_note q) ;; Ok (put_q ts q s).

(** bs_sched.rs:814-840: [position] and [remove] *)
Fixpoint take_first (f : dl_elem -> bool) (q : list dl_elem) : option (dl_elem * list dl_elem) :=
  match q with
  | [] => None
  | e :: t => if f e then Some (e, t) else match take_first f t with Some (x, t') => Some (x, e :: t') | None => None end
  end.
Definition dl_take_item (f18 : bool) (q : list dl_elem) : option (dl_elem * list dl_elem) :=
  if f18 then None
  else match take_first is_grant q with
  | Some x => Some x
  | None => match take_first is_frag q with Some x => Some x | None => take_first is_resource q end
  end.
(** bs_sched.rs:711-719 / 724-730: one chunk into the block *)
Definition put_chunk (f : fragger) (buf : option bitbuf) (next : list dl_elem) : res (bitbuf * list dl_elem * list tx_reporter) :=
  ' (dn, f, b) <- fg_next_chunk f (match buf with Some b => b | None => bb_new SCH_F_CAP end) ;;
  Ok (if (dn : bool) then (b, next, match fg_rep f with Some t => [t] | None => [] end) else (b, next ++ [DlFrag f], [])).
(** bs_sched.rs:699-752; every turn of the loop removes an element or ends it, so the length of the queue is
    enough fuel (running out is an error value, never reached) *)
Fixpoint build_loop (fuel : nat) (f18 : bool) (q next : list dl_elem) (buf : option bitbuf) : res (option bitbuf * list dl_elem * list dl_elem * list tx_reporter) :=
  match q, fuel with
  | [], _ => Ok (buf, q, next, [])
  | _, O => Panic
  | _, S n =>
      match dl_take_item f18 q with
      | None => Ok (buf, q, next, [])
      | Some (e, q) =>
          match e with
          | DlBroadcast => build_loop n f18 q next buf
          | DlResource p sdu rep =>
              f <- fg_new p sdu rep ;; ' (b, next, m0) <- put_chunk f buf next ;;
              ' (o, q, next, m) <- build_loop n f18 q next (Some b) ;; Ok (o, q, next, m0 ++ m)
          | DlFrag f =>
              ' (b, next, m0) <- put_chunk f buf next ;;
              ' (o, q, next, m) <- build_loop n f18 q next (Some b) ;; Ok (o, q, next, m0 ++ m)
          | DlSteal _ rep =>
              m0 <- mark_opt tx_mark_discarded rep ;;
              ' (o, q, next, m) <- build_loop n f18 q next buf ;; Ok (o, q, next, m0 ++ m)
          | DlGrant _ _ | DlAck _ => Panic
          end
      end
  end.
(** bs_sched.rs:696-764 *)
Definition dl_build_signalling (ts : nat) (f18 : bool) (s : dls) : res (option bitbuf * dls * list tx_reporter) :=
  q <- get_q ts s ;;
  ' (o, q, next, m) <- build_loop (length q) f18 q (ds_next s) None ;;
  match next with
  | [] => Ok (o, set_next [] (put_q ts q s), m)
  | _ => assert (match q with [] => true | _ => false end) ;;; Ok (o, set_next q (put_q ts next s), m)
  end.

(** bs_sched.rs:770-808 *)
Definition dl_build_traffic (ts : nat) (s : dls) : res (bitbuf * option bitbuf * dls * list tx_reporter) :=
  ' (v, c) <- ucm_take ts (ds_circ s) ;;
  let s := set_circ c s in
  tch <- (match v with
          | Some block => let b := bb_from_vec block in set_raw_end (bstart b + TCH_S_CAP) b
          | None => Ok (bb_new TCH_S_CAP)
          end) ;;
  q <- get_q ts s ;;
  match take_first is_steal q with
  | Some (DlSteal b rep, q') => m <- mark_opt tx_mark_transmitted rep ;; Ok (tch, Some b, put_q ts q' s, m)
  | Some _ => Panic
  | None => Ok (tch, None, s, [])
  end.

(** The logical channels of the downlink *)
Inductive dl_chan := CSchF | CSchHd | CBsch | CBnch | CTchS | CStch | CAach.
(** crates/tetra-saps/src/tmv/mod.rs [TmvUnitdataReq], [TmvUnitdataReqSlot] *)
Record dl_blk := mk_blk { bk_chan : dl_chan; bk_buf : bitbuf; bk_scr : N }.
Record dl_slot := mk_slot { sl_ts : tdma_time; sl_blk1 : dl_blk; sl_blk2 : option dl_blk; sl_bbk : dl_blk; sl_ul_tp : bool }.

(** bs_sched.rs:1053-1145 *)
Definition af (code len : N) : option access_field := Some (mk_af code len).
Definition generate_bbk (ts : tdma_time) (s : dls) : res dl_blk :=
  let t := Z.to_nat (tm_t ts) in
  let f18 := (tm_f ts =? 18)%Z in
  ul <- (if f18 then Ok None else ucm_get_usage (fun u => u) DirUl t (ds_circ s)) ;;
  dl <- (if f18 then Ok None else ucm_get_usage (fun u => u) DirDl t (ds_circ s)) ;;
  b <- (if negb f18 then
          aa <- (if t =? 1 then
                   assert (isnone dl) ;;; assert (isnone ul) ;;;
                   Ok (mk_aa DlCommonControl UlCommonOnly (af 0 4) (af 0 4) None)
                 else if (2 <=? t) && (t <=? 4) then
                   h <- ts_get (ds_hang s) t ;;
                   Ok (if (h : bool) && (negb (isnone dl) || negb (isnone ul))
                       then mk_aa DlAssignedControl UlAssignedOnly None None (af 0 4)
                       else mk_aa (match dl with Some u => DlTraffic u | None => DlUnallocated end)
                                  (match ul with Some u => UlTraffic u | None => UlUnallocated end) None None None)
                 else Panic) ;;
          aa_write aa (bb_new 14)
        else assert (isnone ul && isnone dl) ;;; a18_write (mk_af18 UlCommonOnly (af 0 1) (af 0 0) None) (bb_new 14)) ;;
  Ok (mk_blk CAach b (ds_scr s)).
(** bs_sched.rs:1147-1191; frames are 1..18 *)
Definition generate_default (ts : tdma_time) (s : dls) : res dl_blk :=
  let f := tm_f ts in let t := tm_t ts in
  if (1 <=? f)%Z && (f <=? 17)%Z && (t =? 1)%Z then
    if (f mod 2 =? 0)%Z then b <- mr_write mr_null_pdu (bb_new SCH_HD_CAP) ;; Ok (mk_blk CSchHd b (ds_scr s))
    else b <- mr_write mr_null_pdu (bb_new SCH_F_CAP) ;; Ok (mk_blk CSchF b (ds_scr s))
  else if ((1 <=? f)%Z && (f <=? 17)%Z && (2 <=? t)%Z && (t <=? 4)%Z) || (f =? 18)%Z then
    b <- sync_write (pc_sync (ds_pre s)) (bb_new 60) ;; b <- msync_write (pc_msync (ds_pre s)) b ;;
    Ok (mk_blk CBsch b SCRAMB_INIT)
  else Panic.
(** bs_sched.rs:493-526 *)
Definition try_add_null (k : dl_blk) : res dl_blk :=
  match bk_chan k with
  | CSchHd | CSchF =>
      r <- get_len_remaining (bk_buf k) ;;
      if NULL_PDU_LEN_BITS <=? r then
        ' (_, p) <- mr_update_len_and_fill_ind mr_null_pdu 0 ;;
        b <- mr_write p (bk_buf k) ;; Ok (mk_blk (bk_chan k) b (bk_scr k))
      else Ok k
  | _ => Ok k
  end.
(** [seek(0)], bs_sched.rs:1032-1036 *)
Definition rewind (k : dl_blk) : res dl_blk := b <- seek 0 (bk_buf k) ;; Ok (mk_blk (bk_chan k) b (bk_scr k)).
(** bs_sched.rs:861-863 *)
Definition stamp (ts : tdma_time) (p : precomps) : precomps :=
  let si x := mk_si (si_carrier x) (si_band x) (si_offset x) (si_duplex x) (si_reverse x) (si_csch x) (si_txpwr x) (si_rxlev x)
                    (si_accpar x) (si_dltimeout x) (si_cck x) (Some (Z.to_N (tm_h ts))) (si_opt x) (si_tcf x) (si_aca x) (si_ext x) in
  let sy := pc_sync p in
  mk_pre (si (pc_si1 p)) (si (pc_si2 p)) (pc_msi p)
    (mk_sync (sy_sys sy) (sy_colour sy) ts (sy_sharing sy) (sy_tsres sy) (sy_dtx sy) (sy_f18ext sy)) (pc_msync p).
(** bs_sched.rs:1001-1015: SYSINFO in the second half slot *)
Definition sysinfo_blk (ts : tdma_time) (s : dls) : res dl_blk :=
  b <- si_write (if (tm_t ts mod 2 =? 1)%Z then pc_si1 (ds_pre s) else pc_si2 (ds_pre s)) (bb_new 124) ;;
  b <- msi_write (pc_msi (ds_pre s)) b ;; Ok (mk_blk CBnch b (ds_scr s)).
(** bs_sched.rs:883-969: the blocks with traffic or signalling, before the defaults *)
Definition slot_content (ts : tdma_time) (dl_active hang : bool) (s : dls) : res (option dl_blk * option dl_blk * dls * list tx_reporter) :=
  let t := Z.to_nat (tm_t ts) in
  if dl_active && negb hang then
    ' (tch, stch, s, m) <- dl_build_traffic t s ;;
    Ok (match stch with
        | Some b => (Some (mk_blk CStch b (ds_scr s)), Some (mk_blk CTchS tch (ds_scr s)), s, m)
        | None => (Some (mk_blk CTchS tch (ds_scr s)), None, s, m)
        end)
  else
    s <- dl_integrate t s ;;
    ' (o, s, m) <- dl_build_signalling t (tm_f ts =? 18)%Z s ;;
    match o with
    | Some b => Ok (Some (mk_blk CSchF b (ds_scr s)), None, s, m)
    | None =>
        if hang && dl_active then b <- mr_write mr_null_pdu (bb_new SCH_F_CAP) ;; Ok (Some (mk_blk CSchF b (ds_scr s)), None, s, m)
        else Ok (None, None, s, m)
    end.
(** bs_sched.rs:858-1051 *)
Definition finalize_ts (s : dls) : res (dl_slot * dls * list tx_reporter) :=
  let ts := add_timeslots (ds_cur s) 1 in
  let t := Z.to_nat (tm_t ts) in
  let s := set_pre (stamp ts (ds_pre s)) s in
  let n18 := negb (tm_f ts =? 18)%Z in
  dla <- circuit_is_active DirDl t s ;;
  ula <- circuit_is_active DirUl t s ;;
  hang <- (if (2 <=? t) && (t <=? 4) then is_hangtime_effective t s else Ok false) ;;
  let dla := dla && n18 in let ula := ula && n18 in
  ' (blk1, blk2, s, m) <- slot_content ts dla hang s ;;
  assert (isnone blk1 || n18) ;;;
  bbk <- generate_bbk ts s ;;
  blk1 <- (match blk1 with Some b => Ok b | None => generate_default ts s end) ;;
  blk2 <- (match bk_chan blk1, blk2 with
           | CStch, Some b => Ok (Some b)
           | CStch, None => Panic
           | (CBsch | CSchHd), None => l <- get_len (bk_buf blk1) ;; assert (l <=? 124) ;;; b <- sysinfo_blk ts s ;; Ok (Some b)
           | _, None => l <- get_len (bk_buf blk1) ;; assert (268 <=? l) ;;; Ok None
           | _, Some b => Ok (Some b)
           end) ;;
  blk1 <- try_add_null blk1 ;;
  blk2 <- (match blk2 with Some b => b <- try_add_null b ;; Ok (Some b) | None => Ok None end) ;;
  bbk <- rewind bbk ;;
  blk1 <- rewind blk1 ;;
  blk2 <- (match blk2 with Some b => b <- rewind b ;; Ok (Some b) | None => Ok None end) ;;
  u <- ul_clear ts (ds_ul s) ;;
  Ok (mk_slot ts blk1 blk2 bbk (ula && negb hang), set_ul u s, m).
(** bs_sched.rs:842-851 *)
Definition time_eqb (a b : tdma_time) : bool := (tm_t a =? tm_t b)%Z && (tm_f a =? tm_f b)%Z && (tm_m a =? tm_m b)%Z && (tm_h a =? tm_h b)%Z.
Definition dl_tick_start (ts : tdma_time) (s : dls) : res dls :=
  let s := set_cur (add_timeslots (ds_cur s) 1) s in assert (time_eqb ts (ds_cur s)) ;;; Ok s.
(** bs_sched.rs:196-205 *)
Definition set_sws (on : bool) (s : dls) : dls :=
  let p := ds_pre s in let m := pc_msi p in let b := mi_bss m in
  set_pre (mk_pre (pc_si1 p) (pc_si2 p)
    (mk_msi (mi_la m) (mi_class m) (mk_bss (bs_reg b) (bs_dereg b) (bs_prio b) (bs_nomin b) (bs_migr b) on (bs_voice b) (bs_cmd b) (bs_sndcp b) (bs_aie b) (bs_al b)))
    (pc_sync p) (pc_msync p)) s.

(** The public interface as one step function.  [DvStart] is the first tick (umac_bs.rs:1570-1573), [DvTick]
    every later one (umac_bs.rs:1575, 1583); a tick yields the slot to be sent. *)
Inductive dl_event :=
| DvStart (t : tdma_time)
| DvTick
| DvResource (ts : nat) (p : mac_resource) (sdu : bitbuf) (rep : option tx_reporter)
| DvGrant (ts : nat) (a : tetra_addr) (g : slotgrant)
| DvAck (ts : nat) (a : tetra_addr)
| DvSteal (ts : nat) (b : bitbuf) (rep : option tx_reporter)
| DvTakeRa (ts : nat) (ssi : N)
| DvVoice (ts : nat) (block : list N)
| DvHang (ts : nat) (active : bool)
| DvOpen (d : direction) (ts : nat) (usage : N)
| DvClose (d : direction) (ts : nat)
| DvCapReq (ts : nat) (ssi : N) (req : N)
| DvSws (on : bool).
(** The outcome: the slot if it was a tick, and the reporters marked. *)
Definition dl_step (e : dl_event) (s : dls) : res (option dl_slot * list tx_reporter * dls) :=
  let plain r := s <- r ;; Ok (None, [], s) in
  match e with
  | DvStart t => ' (s, m0) <- set_dl_time t s ;; ' (k, s, m) <- finalize_ts s ;; Ok (Some k, m0 ++ m, s)
  | DvTick => s <- dl_tick_start (add_timeslots (ds_cur s) 1) s ;; ' (k, s, m) <- finalize_ts s ;; Ok (Some k, m, s)
  | DvResource ts p sdu rep => plain (dl_enqueue_tma ts p sdu rep s)
  | DvGrant ts a g => plain (dl_enqueue_grant ts a g s)
  | DvAck ts a => plain (dl_enqueue_random_access_ack ts a s)
  | DvSteal ts b rep => plain (dl_enqueue_stealing ts b rep s)
  | DvTakeRa ts ssi => ' (_, s) <- take_pending_ra_ack ts ssi s ;; Ok (None, [], s)
  | DvVoice ts b => plain (dl_schedule_tmd ts b s)
  | DvHang ts on => ' (s, m) <- set_hangtime ts on s ;; Ok (None, m, s)
  | DvOpen d ts u => plain (dl_create_circuit d ts u s)
  | DvClose d ts => ' (_, s) <- dl_close_circuit d ts s ;; Ok (None, [], s)
  | DvCapReq ts ssi req => ' (_, u) <- ul_process_cap_req (ds_cur s) (Z.of_nat ts) ssi req (ds_ul s) ;; Ok (None, [], set_ul u s)
  | DvSws on => Ok (None, [], set_sws on s)
  end.
Fixpoint dl_run (evs : list dl_event) (s : dls) : res (list (dl_event * option dl_slot * list tx_reporter) * dls) :=
  match evs with
  | [] => Ok ([], s)
  | e :: t => ' (k, m, s) <- dl_step e s ;; ' (log, s) <- dl_run t s ;; Ok ((e, k, m) :: log, s)
  end.

(** Model of crates/tetra-entities/src/cmce/subentities/cc_bs.rs (group call control) and of the part of
    cmce_bs.rs that hands messages to it.

    A message to the lower layer carries the PDU value instead of its bits: the writers of [CmcePdus] are run
    on it, a writer that fails is the panic of [expect("Failed to serialize")], and C46 says which bits they
    write.  The logging is left out, and so is the transmission receipt kept with the cached D-SETUP, which the
    code always leaves empty (cc_bs.rs:564, 1385 and no other write), so that the throttle of 675-687 never
    applies.  The timeslot allocator of the shared state is part of the state here.  Iteration over the hash
    maps follows the hints of [AMapOrder]. *)
From Verif Require Import Base BitBuffer Codec TypedFields AMap AMapOrder TdmaTime TimeslotAlloc MacFields
  UmacCircuits CmceFields CmcePdus BrewRoute CircuitMgr.
Open Scope N_scope.

(** ** Messages *)

(** crates/tetra-saps/src/control/call_control.rs [CallControl]; the circuit of [Open] without its constant
    fields *)
Inductive call_ctl :=
| CtlOpen (d : direction) (ts : nat) (usage : N)
| CtlClose (d : direction) (ts : nat)
| CtlFloorGranted (call_id source dest : N) (ts : nat)
| CtlFloorReleased (call_id : N) (ts : nat)
| CtlCallEnded (call_id : N) (ts : nat)
| CtlNetworkCallStart (uuid source dest priority : N)
| CtlNetworkCallReady (uuid call_id : N) (ts : nat) (usage : N)
| CtlNetworkCallEnd (uuid : N)
| CtlUlInactivity (ts : nat).

(** The PDUs call control sends. *)
Inductive cmce_pdu :=
| PdCallProceeding (p : d_call_proceeding)
| PdConnect (p : d_connect)
| PdSetup (p : d_setup)
| PdRelease (p : d_release)
| PdTxCeased (p : d_tx_ceased)
| PdTxGranted (p : d_tx_granted).

Definition pdu_to_bitbuf (p : cmce_pdu) : wr :=
  match p with
  | PdCallProceeding p => d_call_proceeding_to_bitbuf p
  | PdConnect p => d_connect_to_bitbuf p
  | PdSetup p => d_setup_to_bitbuf p
  | PdRelease p => d_release_to_bitbuf p
  | PdTxCeased p => d_tx_ceased_to_bitbuf p
  | PdTxGranted p => d_tx_granted_to_bitbuf p
  end.

(** [BitBuffer::new_autoexpand(n); pdu.to_bitbuf(&mut sdu).expect(..)] *)
Definition encode (n : nat) (p : cmce_pdu) : res unit :=
  match pdu_to_bitbuf p (bb_new_autoexpand n) with Ok _ => Ok tt | _ => Panic end.

(** tetra-saps [CmceChanAllocReq]; the allocation type is always Replace, the carrier absent, both directions *)
Record chan_req := mk_chan_req { ch_usage : option N; ch_slots : list bool }.

(** tetra-saps [LcmcMleUnitdataReq] without the fields that are always zero *)
Record mle_req := mk_mle_req {
  mr_pdu : cmce_pdu;
  mr_handle : N; mr_endpoint : N; mr_link : N;
  mr_acked : bool;
  mr_stealing : bool;
  mr_chan : option chan_req;
  mr_addr : tetra_addr;
  mr_reporter : bool }.

(** A [SapMsg] by destination; the time is its [dltime]. *)
Inductive cc_msg :=
| ToMle (t : tdma_time) (r : mle_req)
| ToUmac (t : tdma_time) (c : call_ctl)
| ToBrew (t : tdma_time) (c : call_ctl).

(** The fields of [LcmcMleUnitdataInd] that are read, with the [dltime] of the message around it *)
Record mle_ind := mk_mle_ind {
  mi_dltime : tdma_time;
  mi_sdu : bitbuf;
  mi_addr : tetra_addr;
  mi_handle : N; mi_endpoint : N; mi_link : N }.

(** ** State *)

(** cc_bs.rs:57-66 *)
Inductive call_origin := OLocal (caller : tetra_addr) | ONetwork (uuid : N).

(** cc_bs.rs:70-83 *)
Record active_call := mk_call {
  ac_origin : call_origin;
  ac_dest : N;
  ac_source : N;
  ac_ts : nat;
  ac_usage : N;
  ac_tx : bool;
  ac_hang : option tdma_time;
  ac_uuid : option N }.

(** cc_bs.rs:41-53, with the timeslot allocator of the shared state.  A set of groups is a list without
    repetitions. *)
Record cc := mk_cc {
  cc_dltime : tdma_time;
  cc_cached : amap (d_setup * tetra_addr);
  cc_circ : cmgr;
  cc_active : amap active_call;
  cc_subs : amap (list N);
  cc_listeners : amap N;
  cc_slots : ts_alloc }.

(** cc_bs.rs:86-96 *)
Definition cc_new : cc := mk_cc time_default [] cmgr_new [] [] [] ts_default.

Definition cc_set_dltime x s := mk_cc x (cc_cached s) (cc_circ s) (cc_active s) (cc_subs s) (cc_listeners s) (cc_slots s).
Definition cc_set_cached x s := mk_cc (cc_dltime s) x (cc_circ s) (cc_active s) (cc_subs s) (cc_listeners s) (cc_slots s).
Definition cc_set_circ x s := mk_cc (cc_dltime s) (cc_cached s) x (cc_active s) (cc_subs s) (cc_listeners s) (cc_slots s).
Definition cc_set_active x s := mk_cc (cc_dltime s) (cc_cached s) (cc_circ s) x (cc_subs s) (cc_listeners s) (cc_slots s).
Definition cc_set_subs x s := mk_cc (cc_dltime s) (cc_cached s) (cc_circ s) (cc_active s) x (cc_listeners s) (cc_slots s).
Definition cc_set_listeners x s := mk_cc (cc_dltime s) (cc_cached s) (cc_circ s) (cc_active s) (cc_subs s) x (cc_slots s).
Definition cc_set_slots x s := mk_cc (cc_dltime s) (cc_cached s) (cc_circ s) (cc_active s) (cc_subs s) (cc_listeners s) x.

(** What a handler does: a new state and the messages it pushes on the queue. *)
Definition cc_act := cc -> res (cc * list cc_msg).
Definition nothing : cc_act := fun s => Ok (s, []).
Definition andthen (f g : cc_act) : cc_act := fun s =>
  '(s, q) <- f s ;; '(s, q') <- g s ;; Ok (s, q ++ q').
Fixpoint each {A} (f : A -> cc_act) (l : list A) : cc_act :=
  match l with [] => nothing | x :: t => andthen (f x) (each f t) end.

(** ** Constants: raw values of the enumerations used *)
Definition T5m : N := 7.
Definition T10s : N := 4.
Definition Granted : N := 0.
Definition NotGranted : N := 1.
Definition GrantedToOtherUser : N := 3.
Definition UserRequestedDisconnection : N := 1.
Definition RequestedServiceNotAvailable : N := 8.
Definition ExpiryOfTimer : N := 13.
Definition SwmiRequestedDisconnection : N := 14.
Definition P2Mp : N := 1.

Definition gssi_addr (g : N) : tetra_addr := mk_addr g false SsiGssi.
Definition issi_addr (i : N) : tetra_addr := mk_addr i false SsiIssi.

(** [let mut timeslots = [false; 4]; timeslots[ts as usize - 1] = true] *)
Definition slot_mask (ts : nat) : res (list bool) :=
  assert ((1 <=? ts)%nat && (ts <=? 4)%nat) ;;; Ok (upd (repeat false 4) (ts - 1) true).

(** ** Building messages *)

(** cc_bs.rs:102-119 [build_d_setup_prim] with 121-150 [build_sapmsg] *)
Definition setup_msg (p : d_setup) (usage : N) (ts : nat) (t : tdma_time) (a : tetra_addr) (reporter : bool) : res cc_msg :=
  encode 80 (PdSetup p) ;;;
  m <- slot_mask ts ;;
  Ok (ToMle t (mk_mle_req (PdSetup p) 0 0 0 false false (Some (mk_chan_req (Some usage) m)) a reporter)).

(** cc_bs.rs:186-201 [build_d_release_from_d_setup] with [build_sapmsg] *)
Definition release_msg (p : d_setup) (cause : N) (t : tdma_time) (a : tetra_addr) : res cc_msg :=
  let r := mk_d_release (d_setup_call_identifier p) cause None None None in
  encode 32 (PdRelease r) ;;;
  Ok (ToMle t (mk_mle_req (PdRelease r) 0 0 0 false false None a false)).

(** cc_bs.rs:152-184 [build_sapmsg_stealing] *)
Definition stealing_msg (n : nat) (p : cmce_pdu) (t : tdma_time) (a : tetra_addr) (ts : nat) : res cc_msg :=
  encode n p ;;;
  m <- slot_mask ts ;;
  Ok (ToMle t (mk_mle_req p 0 0 0 false true (Some (mk_chan_req None m)) a false)).

(** cc_bs.rs:919-926, 1596-1603 *)
Definition tx_ceased_pdu (call_id : N) : cmce_pdu := PdTxCeased (mk_d_tx_ceased call_id false None None None None).
(** cc_bs.rs:1016-1030, 1522-1536 *)
Definition tx_granted_pdu (call_id grant speaker : N) : cmce_pdu :=
  PdTxGranted (mk_d_tx_granted call_id grant false false false None (Some 1) (Some speaker) None None None None None).

(** cc_bs.rs:1521-1546 [send_d_tx_granted_facch] *)
Definition send_tx_granted (call_id speaker gssi : N) (ts : nat) : cc_act := fun s =>
  m <- stealing_msg 30 (tx_granted_pdu call_id GrantedToOtherUser speaker) (cc_dltime s) (gssi_addr gssi) ts ;; Ok (s, [m]).
(** cc_bs.rs:1595-1614 [send_d_tx_ceased_facch] *)
Definition send_tx_ceased (call_id gssi : N) (ts : nat) : cc_act := fun s =>
  m <- stealing_msg 30 (tx_ceased_pdu call_id) (cc_dltime s) (gssi_addr gssi) ts ;; Ok (s, [m]).

(** Control messages carrying the current time. *)
Definition to_umac (c : call_ctl) : cc_act := fun s => Ok (s, [ToUmac (cc_dltime s) c]).
Definition to_brew (c : call_ctl) : cc_act := fun s => Ok (s, [ToBrew (cc_dltime s) c]).
Definition when (b : bool) (f : cc_act) : cc_act := if b then f else nothing.

(** ** Listeners *)

(** cc_bs.rs:203-205 *)
Definition has_listener (g : N) (s : cc) : bool :=
  match aget g (cc_listeners s) with Some n => 0 <? n | None => false end.
(** cc_bs.rs:207-210 *)
Definition inc_listener (l : amap N) (g : N) : amap N :=
  aset g (match aget g l with Some n => n + 1 | None => 1 end) l.
(** cc_bs.rs:212-220 *)
Definition dec_listener (l : amap N) (g : N) : amap N :=
  match aget g l with
  | Some n => if n <=? 1 then adel g l else aset g (n - 1) l
  | None => l
  end.

(** ** Releasing *)

(** cc_bs.rs:766-771 *)
Definition release_timeslot (ts : nat) (s : cc) : cc := cc_set_slots (snd (ts_release (cc_slots s) OwnCmce ts)) s.

Definition forget_call (id : N) (s : cc) : cc :=
  cc_set_active (adel id (cc_active s)) (cc_set_cached (adel id (cc_cached s)) s).

Section Config.
(** The configuration the routing functions read. *)
Variable cfg : cfg_route.

(** cc_bs.rs:774-825 [release_call] *)
Definition release_call (id cause : N) : cc_act := fun s =>
  match aget id (cc_cached s) with
  | None => Ok (s, [])
  | Some (p, a) =>
      rel <- release_msg p cause (cc_dltime s) a ;;
      match aget id (cc_active s) with
      | None => Ok (forget_call id s, [rel])
      | Some call =>
          let ts := ac_ts call in
          let is_local := match ac_origin call with OLocal _ => true | ONetwork _ => false end in
          '(closed, m) <- cm_close DirBoth ts (cc_circ s) ;;
          let close := match closed with Some c => [ToUmac (cc_dltime s) (CtlClose (ci_dir c) (ci_ts c))] | None => [] end in
          let ended := [ToUmac (cc_dltime s) (CtlCallEnded id ts)] in
          let notify := if brew_gssi_routable cfg (ac_dest call) && is_local
                        then [ToBrew (cc_dltime s) (CtlCallEnded id ts)] else [] in
          Ok (forget_call id (release_timeslot ts (cc_set_circ m s)), rel :: close ++ ended ++ notify)
      end
  end.

(** cc_bs.rs:222-249 [drop_group_calls_if_unlistened] *)
Definition drop_unlistened (hint : list N) (g : N) : cc_act := fun s =>
  if has_listener g s then Ok (s, [])
  else
    each (fun p : N * active_call =>
            let (id, call) := p in
            andthen (match ac_origin call with
                     | ONetwork u => when (brew_gssi_routable cfg g) (to_brew (CtlNetworkCallEnd u))
                     | OLocal _ => nothing
                     end)
                    (release_call id SwmiRequestedDisconnection))
         (filter (fun p => ac_dest (snd p) =? g) (arrange hint (cc_active s))) s.

(** crates/tetra-saps/src/control/brew.rs [BrewSubscriberAction] *)
Inductive sub_action := SubRegister | SubDeregister | SubAffiliate | SubDeaffiliate.

(** The loop of cc_bs.rs:274-278: insert into the set, note what is new *)
Fixpoint insert_groups (groups : list N) (l : list N) : list N * list N :=
  match groups with
  | [] => (l, [])
  | g :: t =>
      if memN g l then insert_groups t l
      else let (l, new) := insert_groups t (g :: l) in (l, g :: new)
  end.
(** The loop of cc_bs.rs:295-299 *)
Fixpoint remove_groups (groups : list N) (l : list N) : list N * list N :=
  match groups with
  | [] => (l, [])
  | g :: t =>
      if memN g l then let (l, gone) := remove_groups t (filter (fun x => negb (g =? x)) l) in (l, g :: gone)
      else remove_groups t l
  end.

(** cc_bs.rs:251-319 [handle_subscriber_update]; [hint_groups] is the order in which the removed set of groups is
    visited *)
Definition subscriber_update (hint_groups hint : list N) (issi : N) (groups : list N) (action : sub_action) : cc_act := fun s =>
  match action with
  | SubRegister =>
      match aget issi (cc_subs s) with
      | Some _ => Ok (s, [])
      | None => Ok (cc_set_subs (aset issi [] (cc_subs s)) s, [])
      end
  | SubDeregister =>
      match aget issi (cc_subs s) with
      | None => Ok (s, [])
      | Some existing =>
          each (fun g => fun s => drop_unlistened hint g (cc_set_listeners (dec_listener (cc_listeners s) g) s))
               (arrange_set hint_groups existing)
               (cc_set_subs (adel issi (cc_subs s)) s)
      end
  | SubAffiliate =>
      let entry := match aget issi (cc_subs s) with Some l => l | None => [] end in
      let (entry, new) := insert_groups groups entry in
      Ok (cc_set_listeners (fold_left inc_listener new (cc_listeners s)) (cc_set_subs (aset issi entry (cc_subs s)) s), [])
  | SubDeaffiliate =>
      match aget issi (cc_subs s) with
      | Some entry =>
          let (entry, gone) := remove_groups groups entry in
          each (drop_unlistened hint) gone
               (cc_set_listeners (fold_left dec_listener gone (cc_listeners s)) (cc_set_subs (aset issi entry (cc_subs s)) s))
      | None => each (drop_unlistened hint) groups s
      end
  end.

(** ** Set-up *)

(** cc_bs.rs:827-870 [feature_check_u_setup] *)
Definition feature_check (p : u_setup) : bool :=
  ((u_setup_area_selection p =? 0) || (u_setup_area_selection p =? 1))
  && negb (u_setup_hook_method_selection p) && negb (u_setup_simplex_duplex_selection p).

(** cc_bs.rs:321-367 [send_d_call_proceeding] *)
Definition call_proceeding_msg (i : mle_ind) (p : u_setup) (id : N) : res cc_msg :=
  let r := mk_d_call_proceeding id T10s (u_setup_hook_method_selection p) (u_setup_simplex_duplex_selection p) None None None None None in
  encode 25 (PdCallProceeding r) ;;;
  Ok (ToMle (mi_dltime i) (mk_mle_req (PdCallProceeding r) (mi_handle i) (mi_endpoint i) (mi_link i) true false None (mi_addr i) false)).

(** cc_bs.rs:491-538 *)
Definition connect_caller_msg (i : mle_ind) (p : u_setup) (c : circuit) : res cc_msg :=
  let r := mk_d_connect (ci_call c) T5m (u_setup_hook_method_selection p) (u_setup_simplex_duplex_selection p) Granted false true
             None None None None None None in
  encode 30 (PdConnect r) ;;;
  m <- slot_mask (ci_ts c) ;;
  Ok (ToMle (mi_dltime i) (mk_mle_req (PdConnect r) (mi_handle i) (mi_endpoint i) (mi_link i) false false
                             (Some (mk_chan_req (Some (ci_usage c)) m)) (mi_addr i) false)).

(** cc_bs.rs:542-559 *)
Definition local_setup (i : mle_ind) (p : u_setup) (id : N) : d_setup :=
  mk_d_setup id T5m (u_setup_hook_method_selection p) (u_setup_simplex_duplex_selection p) (u_setup_basic_service_information p)
    GrantedToOtherUser false (u_setup_call_priority p) None None (Some (ad_ssi (mi_addr i))) None None None None None.

(** cc_bs.rs:399-612 [rx_u_setup] from the parsed PDU on *)
Definition rx_u_setup (i : mle_ind) (p : u_setup) : cc_act := fun s =>
  if negb (feature_check p) then Ok (s, [])
  else match u_setup_called_party_ssi p with
  | None => Ok (s, [])
  | Some dest =>
      if negb (has_listener dest s) then Ok (s, [])
      else
        '(r, m, slots) <- cm_allocate DirBoth (bsi_comm_type (u_setup_basic_service_information p)) (cc_slots s) OwnCmce (cc_circ s) ;;
        let s := cc_set_slots slots (cc_set_circ m s) in
        match r with
        | inr _ => Ok (s, [])
        | inl c =>
            proceeding <- call_proceeding_msg i p (ci_call c) ;;
            connect <- connect_caller_msg i p c ;;
            let d := local_setup i p (ci_call c) in
            let s := cc_set_cached (aset (ci_call c) (d, gssi_addr dest) (cc_cached s)) s in
            setup <- setup_msg d (ci_usage c) (ci_ts c) (mi_dltime i) (gssi_addr dest) false ;;
            let s := cc_set_active (aset (ci_call c)
                       (mk_call (OLocal (mi_addr i)) dest (ad_ssi (mi_addr i)) (ci_ts c) (ci_usage c) true None None)
                       (cc_active s)) s in
            let floor := if brew_gssi_routable cfg dest
                         then [ToBrew (mi_dltime i) (CtlFloorGranted (ci_call c) (ad_ssi (mi_addr i)) dest (ci_ts c))] else [] in
            Ok (s, [ToUmac (mi_dltime i) (CtlOpen (ci_dir c) (ci_ts c) (ci_usage c)); proceeding; connect; setup] ++ floor)
        end
  end.

(** ** Floor control *)

Definition call_to_hang (now : tdma_time) (c : active_call) : active_call :=
  mk_call (ac_origin c) (ac_dest c) (ac_source c) (ac_ts c) (ac_usage c) false (Some now) (ac_uuid c).

(** cc_bs.rs:874-956 [rx_u_tx_ceased] from the parsed PDU on *)
Definition rx_u_tx_ceased (p : u_tx_ceased) : cc_act := fun s =>
  let id := u_tx_ceased_call_identifier p in
  match aget id (cc_active s) with
  | None => Ok (s, [])
  | Some call =>
      if negb (ac_tx call) && present (ac_hang call) then Ok (s, [])
      else
        let s := cc_set_active (aset id (call_to_hang (cc_dltime s) call) (cc_active s)) s in
        match aget id (cc_cached s) with
        | None => Ok (s, [])
        | Some (_, a) =>
            m <- stealing_msg 25 (tx_ceased_pdu id) (cc_dltime s) a (ac_ts call) ;;
            Ok (s, [m; ToUmac (cc_dltime s) (CtlFloorReleased id (ac_ts call))]
                   ++ (if brew_gssi_routable cfg (ac_dest call) then [ToBrew (cc_dltime s) (CtlFloorReleased id (ac_ts call))] else []))
        end
  end.

(** cc_bs.rs:960-1076 [rx_u_tx_demand] from the parsed PDU on *)
Definition rx_u_tx_demand (i : mle_ind) (p : u_tx_demand) : cc_act := fun s =>
  let id := u_tx_demand_call_identifier p in
  let who := mi_addr i in
  match aget id (cc_active s) with
  | None => Ok (s, [])
  | Some call =>
      if ac_tx call then Ok (s, [])
      else
        let ts := ac_ts call in
        let origin := match ac_origin call with OLocal _ => OLocal who | ONetwork u => ONetwork u end in
        let s := cc_set_active (aset id (mk_call origin (ac_dest call) (ad_ssi who) ts (ac_usage call) true None (ac_uuid call)) (cc_active s)) s in
        match aget id (cc_cached s) with
        | None => Ok (s, [])
        | Some (_, a) =>
            m <- stealing_msg 50 (tx_granted_pdu id Granted (ad_ssi who)) (cc_dltime s) (issi_addr (ad_ssi who)) ts ;;
            '(s, q) <- send_tx_granted id (ad_ssi who) (ad_ssi a) ts s ;;
            Ok (s, m :: q ++ [ToUmac (cc_dltime s) (CtlFloorGranted id (ad_ssi who) (ad_ssi a) ts)]
                   ++ (if brew_gssi_routable cfg (ad_ssi a) then [ToBrew (cc_dltime s) (CtlFloorGranted id (ad_ssi who) (ad_ssi a) ts)] else []))
        end
  end.

(** cc_bs.rs:1079-1098 [rx_u_release] from the parsed PDU on *)
Definition rx_u_release (p : u_release) : cc_act := release_call (u_release_call_identifier p) UserRequestedDisconnection.

(** cc_bs.rs:1103-1183 [rx_u_disconnect] from the parsed PDU on *)
Definition rx_u_disconnect (i : mle_ind) (p : u_disconnect) : cc_act := fun s =>
  let id := u_disconnect_call_identifier p in
  match aget id (cc_active s) with
  | None => Ok (s, [])
  | Some call =>
      let owner := match ac_origin call with OLocal a => ad_ssi a =? ad_ssi (mi_addr i) | ONetwork _ => false end in
      if owner then release_call id UserRequestedDisconnection s
      else
        let r := mk_d_release id RequestedServiceNotAvailable None None None in
        encode 32 (PdRelease r) ;;;
        Ok (s, [ToMle (cc_dltime s) (mk_mle_req (PdRelease r) (mi_handle i) (mi_endpoint i) (mi_link i) false false None
                                       (issi_addr (ad_ssi (mi_addr i))) false)])
  end.

(** [match X::from_bitbuf(&mut prim.sdu) { Ok(pdu) => pdu, Err(e) => { warn; return } }] *)
Definition parsed {A} (r : reader A) (i : mle_ind) (k : A -> cc_act) : cc_act := fun s =>
  match r (mi_sdu i) with
  | Ok (p, _) => k p s
  | Err _ => Ok (s, [])
  | Panic => Panic
  end.

(** cmce/enums/cmce_pdu_type_ul.rs:21-42 [try_from] *)
Definition ul_type_known (x : N) : bool := memN x [0; 2; 4; 5; 6; 7; 8; 9; 10; 14; 15; 16; 31].

(** cc_bs.rs:614-647 [route_xx_deliver] *)
Definition route_xx_deliver (i : mle_ind) : cc_act := fun s =>
  b <- peek_bits (mi_sdu i) 5 ;;
  match b with
  | None => Ok (s, [])
  | Some t =>
      if negb (ul_type_known t) then Ok (s, [])
      else if t =? Ul_USetup then parsed u_setup_from_bitbuf i (rx_u_setup i) s
      else if t =? Ul_UTxCeased then parsed u_tx_ceased_from_bitbuf i rx_u_tx_ceased s
      else if t =? Ul_UTxDemand then parsed u_tx_demand_from_bitbuf i (rx_u_tx_demand i) s
      else if t =? Ul_URelease then parsed u_release_from_bitbuf i rx_u_release s
      else if t =? Ul_UDisconnect then parsed u_disconnect_from_bitbuf i (rx_u_disconnect i) s
      else if memN t [Ul_UAlert; Ul_UConnect; Ul_UInfo; Ul_UStatus; Ul_UCallRestore] then Ok (s, [])
      else Panic
  end.

(** cmce_bs.rs:37-79 [rx_lcmc_mle_unitdata_ind]: what is for call control.  U-STATUS and U-SDS-DATA go to the
    short data sub-entity, which does not touch this state. *)
Definition cc_rx_ind (i : mle_ind) : cc_act := fun s =>
  b <- peek_bits (mi_sdu i) 5 ;;
  match b with
  | None => Ok (s, [])
  | Some t =>
      if memN t [Ul_UAlert; Ul_UConnect; Ul_UDisconnect; Ul_UInfo; Ul_URelease; Ul_USetup; Ul_UTxCeased; Ul_UTxDemand; Ul_UCallRestore]
      then route_xx_deliver i s
      else Ok (s, [])
  end.

(** ** Network calls *)

(** cc_bs.rs:1357-1380 *)
Definition network_setup (id source : N) : d_setup :=
  mk_d_setup id T5m false false (mk_bsi 0 false P2Mp None (Some 0)) GrantedToOtherUser false 0 None None (Some source) None None None None None.

(** cc_bs.rs:1400-1440 *)
Definition connect_group_msg (id : N) (t : tdma_time) (a : tetra_addr) : res cc_msg :=
  let r := mk_d_connect id T5m false false GrantedToOtherUser false false None None None None None None in
  encode 30 (PdConnect r) ;;;
  Ok (ToMle t (mk_mle_req (PdConnect r) 0 0 0 false false None a false)).

(** cc_bs.rs:1213-1470 [rx_network_call_start] *)
Definition rx_network_call_start (hint : list N) (uuid source dest : N) : cc_act := fun s =>
  assert (brew_gssi_routable cfg dest) ;;;
  if negb (has_listener dest s) then
    andthen (drop_unlistened hint dest) (to_brew (CtlNetworkCallEnd uuid)) s
  else
    match find (fun p => ac_dest (snd p) =? dest) (arrange hint (cc_active s)) with
    | Some (id, call) =>
        if ac_tx call then to_brew (CtlNetworkCallEnd uuid) s
        else
          let ts := ac_ts call in
          let origin := match ac_origin call with OLocal a => OLocal a | ONetwork _ => ONetwork uuid end in
          let s := cc_set_active (aset id (mk_call origin (ac_dest call) source ts (ac_usage call) true None (Some uuid)) (cc_active s)) s in
          andthen (send_tx_granted id source dest ts)
            (andthen (to_umac (CtlFloorGranted id source dest ts)) (to_brew (CtlNetworkCallReady uuid id ts (ac_usage call)))) s
    | None =>
        '(r, m, slots) <- cm_allocate DirBoth P2Mp (cc_slots s) OwnCmce (cc_circ s) ;;
        let s := cc_set_slots slots (cc_set_circ m s) in
        match r with
        | inr _ => Ok (s, [])
        | inl c =>
            let id := ci_call c in
            let now := cc_dltime s in
            let d := network_setup id source in
            let s := cc_set_cached (aset id (d, gssi_addr dest) (cc_cached s)) s in
            setup <- setup_msg d (ci_usage c) (ci_ts c) now (gssi_addr dest) false ;;
            connect <- connect_group_msg id now (gssi_addr dest) ;;
            let s := cc_set_active (aset id (mk_call (ONetwork uuid) dest source (ci_ts c) (ci_usage c) true None (Some uuid)) (cc_active s)) s in
            Ok (s, [ToUmac now (CtlOpen (ci_dir c) (ci_ts c) (ci_usage c)); setup; connect;
                    ToBrew now (CtlNetworkCallReady uuid id (ci_ts c) (ci_usage c))])
        end
    end.

Definition opt_eqb (a : option N) (b : N) : bool := match a with Some x => x =? b | None => false end.

(** cc_bs.rs:1473-1518 [rx_network_call_end] *)
Definition rx_network_call_end (hint : list N) (uuid : N) : cc_act := fun s =>
  match find (fun p => opt_eqb (ac_uuid (snd p)) uuid) (arrange hint (cc_active s)) with
  | None => Ok (s, [])
  | Some (id, call) =>
      if ac_tx call then
        let s := cc_set_active (aset id (mk_call (ac_origin call) (ac_dest call) (ac_source call) (ac_ts call) (ac_usage call) false
                                           (Some (cc_dltime s)) None) (cc_active s)) s in
        andthen (send_tx_ceased id (ac_dest call) (ac_ts call)) (to_umac (CtlFloorReleased id (ac_ts call))) s
      else release_call id SwmiRequestedDisconnection s
  end.

(** cc_bs.rs:1550-1592 [handle_ul_inactivity_timeout] *)
Definition ul_inactivity (hint : list N) (ts : nat) : cc_act := fun s =>
  match find (fun p => (ac_ts (snd p) =? ts)%nat && ac_tx (snd p)) (arrange hint (cc_active s)) with
  | None => Ok (s, [])
  | Some (id, call) =>
      let s := cc_set_active (aset id (call_to_hang (cc_dltime s) call) (cc_active s)) s in
      andthen (send_tx_ceased id (ac_dest call) ts)
        (andthen (to_umac (CtlFloorReleased id ts))
                 (when (brew_gssi_routable cfg (ac_dest call)) (to_brew (CtlFloorReleased id ts)))) s
  end.

(** cc_bs.rs:1186-1210 [rx_call_control] *)
Definition rx_call_control (hint : list N) (c : call_ctl) : cc_act :=
  match c with
  | CtlNetworkCallStart uuid source dest _ => rx_network_call_start hint uuid source dest
  | CtlNetworkCallEnd uuid => rx_network_call_end hint uuid
  | CtlUlInactivity ts => ul_inactivity hint ts
  | _ => nothing
  end.

(** ** Time *)

(** cc_bs.rs:745 *)
Definition HANGTIME_FRAMES : Z := 5 * 18 * 4.

(** cc_bs.rs:747-758 *)
Fixpoint hang_expired (now : tdma_time) (l : list (N * active_call)) : res (list N) :=
  match l with
  | [] => Ok []
  | (id, call) :: t =>
      e <- match ac_hang call with
           | Some h => a <- age h now ;; Ok (HANGTIME_FRAMES <? a)%Z
           | None => Ok false
           end ;;
      t <- hang_expired now t ;;
      Ok (if e then id :: t else t)
  end.

(** cc_bs.rs:743-764 [check_hangtime_expiry] *)
Definition check_hangtime (hint : list N) : cc_act := fun s =>
  l <- hang_expired (cc_dltime s) (arrange hint (cc_active s)) ;;
  each (fun id => release_call id ExpiryOfTimer) l s.

Definition set_grant (g : N) (p : d_setup) : d_setup :=
  mk_d_setup (d_setup_call_identifier p) (d_setup_call_time_out p) (d_setup_hook_method_selection p) (d_setup_simplex_duplex_selection p)
    (d_setup_basic_service_information p) g (d_setup_transmission_request_permission p) (d_setup_call_priority p)
    (d_setup_notification_indicator p) (d_setup_temporary_address p) (d_setup_calling_party_address_ssi p) (d_setup_calling_party_extension p)
    (d_setup_external_subscriber_number p) (d_setup_facility p) (d_setup_dm_ms_address p) (d_setup_proprietary p).

(** cc_bs.rs:656-738: one task of the circuit manager *)
Definition do_task (c : circuit_cmd) : cc_act := fun s =>
  match c with
  | SendDSetup id usage ts =>
      match aget id (cc_active s) with
      | Some call =>
          if present (ac_hang call) then Ok (s, [])
          else match aget id (cc_cached s) with
               | None => Ok (s, [])
               | Some (p, a) =>
                   let p := set_grant (if ac_tx call then GrantedToOtherUser else NotGranted) p in
                   m <- setup_msg p usage ts (cc_dltime s) a true ;;
                   Ok (cc_set_cached (aset id (p, a) (cc_cached s)) s, [m])
               end
      | None =>
          match aget id (cc_cached s) with
          | None => Ok (s, [])
          | Some (p, a) => m <- setup_msg p usage ts (cc_dltime s) a true ;; Ok (s, [m])
          end
      end
  | SendClose id c =>
      q <- match aget id (cc_cached s) with
           | Some (p, a) => m <- release_msg p ExpiryOfTimer (cc_dltime s) a ;; Ok [m]
           | None => Ok []
           end ;;
      Ok (release_timeslot (ci_ts c) (forget_call id s), q ++ [ToUmac (cc_dltime s) (CtlClose (ci_dir c) (ci_ts c))])
  end.

(** cc_bs.rs:649-740 [tick_start] *)
Definition cc_tick (hint : list N) (t : tdma_time) : cc_act := fun s =>
  andthen (check_hangtime hint)
    (fun s =>
       '(tasks, m) <- cm_tick t (cc_circ s) ;;
       each do_task tasks (cc_set_circ m s))
    (cc_set_dltime t s).

(** ** The interface of call control: cmce_bs.rs:91-143 ([tick_start] and [rx_prim]) *)
Inductive cc_event :=
| EvTick (hint : list N) (t : tdma_time)
| EvUplink (i : mle_ind)
| EvControl (hint : list N) (c : call_ctl)
| EvSubscriber (hint_groups hint : list N) (issi : N) (groups : list N) (action : sub_action).

Definition cc_step (e : cc_event) : cc_act :=
  match e with
  | EvTick hint t => cc_tick hint t
  | EvUplink i => cc_rx_ind i
  | EvControl hint c => rx_call_control hint c
  | EvSubscriber hg hint issi groups action => subscriber_update hg hint issi groups action
  end.
End Config.

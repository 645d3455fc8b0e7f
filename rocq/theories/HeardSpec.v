(** From the layer above the MAC to the radios: what is asked for on a timeslot, and what radios make of the bursts. *)
From Coq Require Import Arith.
From Verif Require Import Base BitBuffer BitBufferProofs MacFields MacPdus Layout MacSpec FragSpec TdmaTime TdmaTimeProofs TxReceipt DlSched DlSchedSpec UmacPrecomps UmacBs StealSpec
  LmacSpec SlotterSpec Slotter SlotSpec LmacBs BsMac AirSpec AliveSpec.
From Verif Require CallControl Scrambler Llc.
Open Scope nat_scope.

(** * What is asked for *)
(** what a message means to a radio: whom it is for, as sent on the air, and its bits; a PDU without any only carries
    grants and acknowledgements *)
Definition payload (m : mac_resource * list bool) : list (option tetra_addr * list bool) :=
  match snd m with [] => [] | _ => [(mr_addr (fst m), snd m)] end.
(** a request to send by stealing from a call: it names timeslots, or there is a call *)
Definition named (r : tma_req) : bool := match tr_chan r with Some c => existsb (fun b => b) (Llc.cq_timeslots c) | None => false end.
Definition busy (v : nat -> ts_view) (t : nat) : bool := match vw_dl (v t) with Some _ => true | None => false end.
Definition steals_from_call (v : nat -> ts_view) (r : tma_req) : bool := tr_steal r && (named r || busy v 2 || busy v 3 || busy v 4).
(** what is to be heard on timeslot [k]: the other requests for this timeslot; [v]: the calls there are *)
Fixpoint sends (k : nat) (v : nat -> ts_view) (evs : list bs_event) : list (option tetra_addr * list bool) :=
  match evs with
  | [] => []
  | BeSend r :: es => (if (ts_of (tr_time r) =? k) && negb (steals_from_call v r) then payload (mk_mres false 0 0 false 0 (Some (MacSpec.on_air (tr_addr r))) None None None None None, remaining (tr_sdu r)) else []) ++ sends k v es
  | BeControl x :: es => sends k (told v (UeControl x)) es
  | _ :: es => sends k v es
  end.

(** * What radios hear *)
(** the messages a radio that listens to timeslot [k] decodes from the bursts: those of full slots and of first half
    slots of signalling; the tick at [t] puts the burst of the next timeslot on the air *)
Definition signals (x : kind) (msg : list bool) : list (list bool) := match x with KSignalling | KHalf => [msg] | _ => [] end.
Inductive receives (c : cell_cfg) (k : nat) : bs_log -> list (list bool) -> Prop :=
| receives_nothing : receives c k [] []
| receives_burst cn t xs w log x msg1 msg2 acc l : ts_of (add_timeslots t 1) = k ->
    AirSpec.on_air (Scrambler.scramb_get_init (cf_mcc c) (cf_mnc c) (cf_colour c)) x msg1 msg2 acc w ->
    receives c k log l -> receives c k ((BeTick cn t, xs, [b2b w]) :: log) (signals x msg1 ++ l)
| receives_other cn t xs ws log l : ts_of (add_timeslots t 1) <> k -> receives c k log l -> receives c k ((BeTick cn t, xs, ws) :: log) l
| receives_silence e xs log l : (match e with BeTick _ _ => False | _ => True end) -> receives c k log l -> receives c k ((e, xs, []) :: log) l.

(** * What is assumed *)
(** the header of a message for a radio *)
Definition plain_header (c : cell_cfg) (r : tma_req) : mac_resource :=
  mk_mres false 0 0 (negb (is_gssi (tr_addr r))) 0 (Some (tr_addr r)) None (match tr_chan r with Some q => Llc.cq_usage q | None => None end) None None
    (match tr_chan r with Some q => Some (cmce_to_mac_chanalloc q (cf_carrier c)) | None => None end).
(** Of timeslot [k]: messages are buffers at their start, with a report not yet given, and do not end in the half octet
    at the end of a slot (C14); what is stolen is stolen from other timeslots; no call on it is given the floor or ended
    (which throws away what waits).  On timeslot 1 there are no calls. *)
Definition proper (c : cell_cfg) (k : nat) (e : bs_event) : Prop :=
  match e with
  | BeSend r =>
      (tr_steal r = true -> ~ names r k /\ (k = 1 \/ named r = true)) /\
      (ts_of (tr_time r) = k -> wf (tr_sdu r) /\ bpos (tr_sdu r) = bstart (tr_sdu r) /\ pending (tr_rep r) /\
        not_cut (width (mr_layout (plain_header c r))) (length (remaining (tr_sdu r))))
  | BeControl (CallControl.CtlFloorGranted _ _ _ ts) | BeControl (CallControl.CtlCallEnded _ ts) => ts <> k
  | _ => True
  end.
(** At every moment nothing hopeless waits (C47: a header no radio can read, such as that of a grant too far away). *)
Definition hopeful (k : nat) (s : station) : Prop := Forall (fun e => ~ hopeless e) (nth (k - 1) (ds_q (um_sch (st_um s))) []).
Fixpoint always (P : station -> Prop) (c : cell_cfg) (evs : list bs_event) (s : station) : Prop :=
  match evs with [] => True | e :: r => match bs_step c e s with Ok (s', _, _) => P s' /\ always P c r s' | _ => True end end.
Definition bs_history (c : cell_cfg) (k : nat) (s : station) (log : bs_log) : Prop := exists connected s0 cn t evs,
  station_new c connected = Ok s0 /\ vtime t /\ Forall bs_fine evs /\ Forall (proper c k) evs /\ bs_run c (BeTick cn t :: evs) s0 = Ok (s, log) /\
  always (hopeful k) c (BeTick cn t :: evs) s0.
(** the messages that wait for timeslot [k], if [part] is what radios have heard of the one in progress *)
Definition queued (k : nat) (s : station) (part : option (mac_resource * list bool)) : list (mac_resource * list bool) :=
  map (full part) (entries (nth (k - 1) (ds_q (um_sch (st_um s))) [])).
(** How much work waits for timeslot [k]: the bits, and the headers to be written. *)
Definition toil (e : dl_elem) : nat :=
  match e with
  | DlResource _ sdu _ => length (remaining sdu) + 2
  | DlFrag f => length (remaining (BsFrag.fg_sdu f)) + (if BsFrag.fg_hdr f then 1 else 2)
  | DlGrant _ _ | DlAck _ => 2
  | DlSteal _ _ | DlBroadcast => 0
  end.
Definition work (k : nat) (s : station) : nat := list_sum (map toil (nth (k - 1) (ds_q (um_sch (st_um s))) [])).
(** Nothing but time passes: a tick for every timeslot; [cns]: is the network connected? *)
Fixpoint ticking (cns : list bool) (now : tdma_time) : list bs_event :=
  match cns with [] => [] | cn :: r => BeTick cn (add_timeslots now 1) :: ticking r (add_timeslots now 1) end.
(** Nothing is received (so nothing is granted or acknowledged), and the headers of the messages for timeslot [k] all
    have [h] bits. *)
Definition even_headed (c : cell_cfg) (k h : nat) (e : bs_event) : Prop :=
  match e with BeSend r => ts_of (tr_time r) = k -> width (mr_layout (plain_header c r)) = h | BeBurst _ _ => False | _ => True end.

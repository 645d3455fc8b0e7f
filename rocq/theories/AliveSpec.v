(** When does the base station go on?  What stops a tick, and what the layers above have to keep to. *)
From Coq Require Import Arith.
From Verif Require Import Base BitBuffer BitBufferProofs TypedFields MacFields MacPdus MacSpec FragSpec TdmaTime TxReceipt BsFrag UmacCircuits DlSched DlSchedSpec UmacPrecomps UmacBs StealSpec SlotSpec BsMac AirSpec TdmaTimeProofs.
From Verif Require CallControl Llc.
Open Scope nat_scope.

(** * What stops a tick *)
(** the header that has yet to be written for something that waits *)
Definition heads (e : dl_elem) : option mac_resource :=
  match e with
  | DlResource p _ _ => Some p
  | DlFrag f => if fg_hdr f then None else Some (fg_res f)
  | DlGrant a g => Some (short_hdr a (Some g) false)
  | DlAck a => Some (short_hdr a None true)
  | DlSteal _ _ | DlBroadcast => None
  end.
(** it is not a header a radio could read *)
Definition hopeless (e : dl_elem) : Prop := exists p, heads e = Some p /\ ~ sendable p.
(** What waits for a timeslot jams the slot at time [t]: the slot is one for signalling (frame 18, no circuit on the
    downlink, or hang time) and a hopeless header waits; or there is no circuit (any more) and a stolen half slot waits
    for one. *)
Definition jams (t : tdma_time) (w : ts_view) (q : list dl_elem) : Prop :=
  (tm_f t = 18%Z \/ vw_dl w = None \/ vw_hang w = true /\ existsb is_steal q = false) /\
  (Exists hopeless q \/ tm_f t <> 18%Z /\ vw_dl w = None /\ existsb is_steal q = true).
(** the queue of the timeslot of time [t] *)
Definition waiting (s : station) (t : tdma_time) : list dl_elem := nth (ts_of t - 1) (ds_q (um_sch (st_um s))) [].
(** The tick at [t] makes the slot after it. *)
Definition jammed (s : station) (log : bs_log) (t : tdma_time) : Prop :=
  let slot := add_timeslots t 1 in jams slot (bs_told (events_of log) (ts_of slot)) (waiting s slot).

(** * What the layers above keep to *)
(** A message comes with a buffer at its start and a report not yet given; speech is a whole frame (35 octets hold the
    274 bits); circuits are opened on the timeslots 2, 3 and 4 (call control opens no others: C09, C35). *)
Definition decent (e : bs_event) : Prop :=
  match e with
  | BeSend r => wf (tr_sdu r) /\ bpos (tr_sdu r) = bstart (tr_sdu r) /\ FragSpec.pending (tr_rep r)
  | BeVoice _ data => 35 <= length data
  | BeControl (CallControl.CtlOpen _ ts _) => 2 <= ts <= 4
  | _ => True
  end.
(** A request that is taken whatever state the base station is in: the time names a timeslot, a channel allocation
    names timeslots 1 to 4 and a direction, what is to be sent by stealing fits into half a slot; speech and circuits
    are for the timeslots 1 to 4. *)
Definition request_ok (e : bs_event) : Prop :=
  match e with
  | BeSend r => wf (tr_sdu r) /\ vtime (tr_time r) /\
      (forall c, tr_chan r = Some c -> length (Llc.cq_timeslots c) = 4 /\ Llc.cq_assigned c <> 0%N) /\
      (tr_steal r = true -> steal_ok r /\ steal_size r <= half_slot)
  | BeVoice ts _ => 1 <= ts <= 4
  | BeControl (CallControl.CtlOpen _ ts _) | BeControl (CallControl.CtlClose _ ts) => 1 <= ts <= 4
  | BeControl _ => True
  | BeTick _ _ | BeBurst _ _ => False
  end.

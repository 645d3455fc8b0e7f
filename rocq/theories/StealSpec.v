(** Signalling sent by stealing half a traffic slot: what is asked for. *)
From Verif Require Import Base BitBuffer BitBufferProofs MacFields MacPdus Layout MacSpec TxReceipt TdmaTime DlSched DlSchedSpec UmacBs.
Open Scope nat_scope.

(** The header owed to the radio: its address, the usage marker of the call, and whether this answers a random access. *)
Definition steal_usage (r : tma_req) : option N := match tr_chan r with Some c => Llc.cq_usage c | None => None end.
Definition steal_header (raf : bool) (r : tma_req) : mac_resource := mk_mres false 0 0 raf 0 (Some (tr_addr r)) None (steal_usage r) None None None.
(** A request that makes sense: the address and the usage marker can be sent. *)
Definition steal_ok (r : tma_req) : Prop := wf (tr_sdu r) /\ sendable (steal_header false r).
(** The size of the message: header and SDU. *)
Definition steal_size (r : tma_req) : nat := width (mr_layout (steal_header false r)) + length (window (tr_sdu r)).
(** Half a slot *)
Definition half_slot : nat := 124.
(** The stolen half slots waiting for a timeslot, oldest first. *)
Definition steals (q : list dl_elem) : list (bitbuf * option tx_reporter) :=
  flat_map (fun e => match e with DlSteal b rep => [(b, rep)] | _ => [] end) q.

(** * Histories of the scheduler *)
(** The half slots asked for on timeslot [k], and those sent there, in order, as bits. *)
Definition log_entry : Type := dl_event * option dl_slot * list tx_reporter.
Definition steal_wish (k : nat) (x : log_entry) : list (list bool) :=
  match fst (fst x) with DvSteal ts b _ => if ts =? k then [window b] else [] | _ => [] end.
Definition stolen_slot (k : nat) (x : log_entry) : list (list bool) :=
  match snd (fst x) with
  | Some s => if for_ts k (sl_ts s) then match bk_chan (sl_blk1 s) with CStch => [window (bk_buf (sl_blk1 s))] | _ => [] end else []
  | None => []
  end.
(** Any events but a restart; the half slots are buffers. *)
Definition steal_fair (e : dl_event) : Prop := match e with DvStart _ => False | DvSteal _ b _ => wf b | _ => True end.
(** The timeslot to steal from: the first one named in the request, otherwise the first with a downlink circuit. *)
Definition names (r : tma_req) (t : nat) : Prop := exists c, tr_chan r = Some c /\ 1 <= t /\ nth_error (Llc.cq_timeslots c) (t - 1) = Some true.
Definition steal_from (r : tma_req) (s : dls) (ts : nat) : Prop :=
  (names r ts /\ forall t, names r t -> ts <= t) \/
  ((forall t, ~ names r t) /\ 2 <= ts <= 4 /\ circuit_is_active UmacCircuits.DirDl ts s = Ok true /\ forall t, 2 <= t < ts -> circuit_is_active UmacCircuits.DirDl t s = Ok false).

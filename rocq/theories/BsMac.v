(** The physical layer's framing, the lower MAC and the upper MAC of the base station together, as the message
    router connects them (crates/tetra-entities/src/messagerouter.rs): between an uplink block and the notice that
    the second half slot is stolen nothing else is handled, because both messages are sent with priority
    (lmac_bs.rs:256-259, umac_bs.rs:1300-1314).
    Simplification: speech from a radio is handed to the upper MAC before the next received block is looked at
    (lmac_bs.rs:216 queues it); no block that follows in the same timeslot depends on it. *)
From Verif Require Import Base BitBuffer TdmaTime TxReceipt UmacPrecomps UmacBs ErrorControl Slotter DlSched LmacBs.
From Verif Require CallControl.
Open Scope nat_scope.

Record station := mk_station { st_um : umac; st_lm : lmac }.
Definition station_new (c : cell_cfg) (connected : bool) : res station := u <- umac_new c connected ;; Ok (mk_station u (lmac_new c)).
(** one call of the upper MAC: the event, what it sent, the reports marked *)
Definition um_entry : Type := um_event * list um_out * list tx_reporter.
(** What the upper MAC sends to the lower MAC: the bursts made of it (phy_bs.rs:173-225) *)
Fixpoint to_lmac (o : list um_out) (l : lmac) : res (lmac * list (list N)) :=
  match o with
  | [] => Ok (l, [])
  | OutStolen :: r => to_lmac r (lm_configure true l)
  | OutSlot k :: r => ' (l, q) <- lm_slot k l ;; w <- phy_build q ;; ' (l, ws) <- to_lmac r l ;; Ok (l, w :: ws)
  | _ :: r => to_lmac r l
  end.
Definition um_do (c : cell_cfg) (e : um_event) (s : station) : res (station * um_entry * list (list N)) :=
  ' (u, o, m) <- um_step c e (st_um s) ;;
  ' (l, ws) <- to_lmac o (st_lm s) ;;
  Ok (mk_station u l, (e, o, m), ws).
Definition um_event_of (x : lm_out) : um_event := match x with LoBlock i pdu => UeBlock i pdu | LoVoice t ts d => UeUlVoice t ts d end.
Fixpoint um_do_all (c : cell_cfg) (es : list um_event) (s : station) : res (station * list um_entry * list (list N)) :=
  match es with
  | [] => Ok (s, [], [])
  | e :: r => ' (s, x, ws) <- um_do c e s ;; ' (s, xs, ws') <- um_do_all c r s ;; Ok (s, x :: xs, ws ++ ws')
  end.
Fixpoint rx_blocks (c : cell_cfg) (is : list tp_ind) (s : station) : res (station * list um_entry * list (list N)) :=
  match is with
  | [] => Ok (s, [], [])
  | i :: r =>
      out <- lm_rx i (st_lm s) ;;
      ' (s, xs, ws) <- um_do_all c (map um_event_of out) s ;;
      ' (s, xs', ws') <- rx_blocks c r s ;; Ok (s, xs ++ xs', ws ++ ws')
  end.

(** A tick; a burst received in the timeslot two before, with the training sequence found in it; a message from the
    link layer, speech from the network, a message from call control. *)
Inductive bs_event :=
| BeTick (connected : bool) (t : tdma_time)
| BeBurst (ts : train_seq) (bits : list N)
| BeSend (r : tma_req)
| BeVoice (ts : nat) (data : list N)
| BeControl (k : CallControl.call_ctl).
(** the new state, what the upper MAC did, the bursts put on the air *)
Definition bs_step (c : cell_cfg) (e : bs_event) (s : station) : res (station * list um_entry * list (list N)) :=
  match e with
  | BeTick cn t => um_do_all c [UeTick cn t] (mk_station (st_um s) (lm_tick t (st_lm s)))
  | BeBurst ts bits => is <- phy_split ts bits (lm_time (st_lm s)) ;; rx_blocks c is s
  | BeSend r => um_do_all c [UeSend r] s
  | BeVoice ts data => um_do_all c [UeDlVoice ts data] s
  | BeControl k => um_do_all c [UeControl k] s
  end.
Fixpoint bs_run (c : cell_cfg) (evs : list bs_event) (s : station) : res (station * list (bs_event * list um_entry * list (list N))) :=
  match evs with
  | [] => Ok (s, [])
  | e :: r => ' (s, x, w) <- bs_step c e s ;; ' (s, log) <- bs_run c r s ;; Ok (s, (e, x, w) :: log)
  end.

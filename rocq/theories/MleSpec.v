(** What the mobile link entity should do, on plain bit lists. *)
From Verif Require Import Base TdmaTime TdmaTimeProofs BitBuffer BitBufferProofs MacFields Llc PduSpec NetworkTimeSpec MleBs UpPathSpec.
Open Scope N_scope.

(** ** D-NWRK-BROADCAST (EN 300 392-2, 18.4.1.4.1), without neighbour cell information *)
Definition nwrk_wire (p : d_nwrk_broadcast) : list bool :=
  num 3 2 ++ num 16 (nb_reselect p) ++ num 2 (nb_load p) ++
  (if some (nb_time p) || some (nb_cells p) then true :: t2 48 (nb_time p) ++ t2 3 (nb_cells p) else [false]).
Definition nwrk_valid (p : d_nwrk_broadcast) : bool :=
  fit 16 (nb_reselect p) && fit 2 (nb_load p) && fito 48 (nb_time p) &&
  match nb_cells p with Some n => n =? 0 | None => true end && negb (some (nb_neighbours p)).

(** ** The entity *)
(** Protocol discriminators (18.5.21) *)
Definition disc_mm : list bool := [false; false; true].
Definition disc_cmce : list bool := [false; true; false].
Definition disc_mle : list bool := [true; false; true].
(** The message [l] for the layer below, for [a]; nothing else of the request changes. *)
Definition link_req (t : tdma_time) (l : list bool) (a : tetra_addr) (steal : bool) (chan : option chan_req) (rep : option N) (q : tla_req unit) : Prop :=
  wf (lq_sdu q) /\ bpos (lq_sdu q) = bstart (lq_sdu q) /\ window (lq_sdu q) = l /\ q = mk_tlareq t (lq_sdu q) a steal false chan rep None.
(** Network time goes to everybody once per hyperframe, in slot 1 of frame 1 of multiframe 20. *)
Definition everybody : tetra_addr := mk_addr 16777215 false SsiGssi.
Definition due (t : tdma_time) : bool := ((tm_m t =? 20) && (tm_f t =? 1) && (tm_t t =? 1))%Z.
Definition time_message (now : N) : list bool := disc_mle ++ nwrk_wire (mk_nwrk 0 0 (Some now) (Some 0) None).

(** What one event gives; [zone]: a time zone is configured; handles count from [h] to [h']. *)
Definition answers (zone : bool) (e : mle_event) (h : N) (x : list mle_out) (h' : N) : Prop :=
  match e with
  | MeInd i => match ti_sdu i with
               | Some b => gets (ti_time i) (ti_addr i) (addressed (window b)) h x h'
               | None => False
               end
  | MeMm t sdu a _ rep => h' = h /\ exists q, x = [DnData q] /\ link_req t (disc_mm ++ window sdu) a false None rep q
  | MeCmce t sdu a unack steal chan rep => h' = h /\ exists q, x = [if unack then DnUnit q else DnData q] /\ link_req t (disc_cmce ++ window sdu) a steal chan rep q
  | MeTick now t => h' = h /\ (if zone && due t then exists q, x = [DnUnit q] /\ link_req t (time_message now) everybody false None None q else x = [])
  end.
Inductive answers_all (zone : bool) : list mle_event -> N -> list mle_out -> N -> Prop :=
| aa_none h : answers_all zone [] h [] h
| aa_more e r h x h' y h'' : answers zone e h x h' -> answers_all zone r h' y h'' -> answers_all zone (e :: r) h (x ++ y) h''.

(** Events that occur: buffers read from their start, valid times, MM asks for the acknowledged service only, network
    time has 48 bits; received messages are acknowledged data and not empty (C52), not packet data (C47). *)
Definition at_start (b : bitbuf) : Prop := wf b /\ bpos b = bstart b.
Definition event_ok (e : mle_event) : Prop :=
  match e with
  | MeInd i => ti_unit i = false /\ ti_link i = tm_t (add_timeslots (ti_time i) (-2)) /\
               exists b, ti_sdu i = Some b /\ at_start b /\ addressed (window b) <> Dies
  | MeMm _ sdu _ unack _ => at_start sdu /\ unack = false
  | MeCmce _ sdu _ _ _ _ _ => at_start sdu
  | MeTick now t => now < 2 ^ 48 /\ vtime t
  end.

(** Clock ticks of a history, and the network time messages among what it gives: when, to whom, and the PDU. *)
Definition clock_ticks (evs : list mle_event) : list (N * tdma_time) := flat_map (fun e => match e with MeTick now t => [(now, t)] | _ => [] end) evs.
Definition announced (outs : list mle_out) : list (tdma_time * tetra_addr * list bool) :=
  flat_map (fun o => match o with
                     | DnUnit q => match window (lq_sdu q) with
                                   | true :: false :: true :: m => [(lq_time q, lq_addr q, m)]
                                   | _ => []
                                   end
                     | _ => []
                     end) outs.
Definition time_pdu (now : N) : list bool := nwrk_wire (mk_nwrk 0 0 (Some now) (Some 0) None).

(** The downlink scheduler (C17). *)
From Coq Require Import Arith Permutation.
From Verif Require Import Base BitsLib BitBuffer BitBufferProofs BitBufferOps Codec MacFields MacPdus MacBroadcast Layout MacSpec BsFrag FragSpec TxReceipt TdmaTime
  UmacCircuits DlSched DlSchedSpec UmacPrecomps DlFacts.
Open Scope nat_scope.

(** C17, one slot: after any history, a slot of a timeslot either carries speech (and the queue stays), or is
    in frame 18 (grants and acknowledgements are attached, nothing is sent), or each message that is ready is
    sent whole, begun, continued, finished or left for later, in order, in a block of exactly the slot's
    size that a receiver reads as these PDUs.  When something is ready, some work is done. *)
Theorem C17_slot k t code p evs log s slot m s' :
  1 <= k <= 4 -> Forall (fair k) evs -> dl_run (DvStart t :: evs) (dls_new code p) = Ok (log, s) ->
  dl_step DvTick s = Ok (Some slot, m, s') -> for_ts k (sl_ts slot) = true ->
  exists q q', get_q k s = Ok q /\ get_q k s' = Ok q' /\
    if is_traffic slot then q' = q
    else exists fresh,
      Forall2 waits_for fresh (fold_left (fun l n => attach n l) (dk_notes (asked k log)) (dk_fresh (asked k log))) /\
      let ready := entries (filter is_frag q) ++ fresh in
      if (tm_f (sl_ts slot) =? 18)%Z then m = [] /\ filter is_frag q' = filter is_frag q /\ entries (filter is_resource q') = fresh
      else exists is,
        served_all ready is (entries q') m /\
        (ready <> [] -> loads (entries q') < loads ready) /\
        (bk_chan (sl_blk1 slot) = CBsch /\ ready = [] \/
         (bk_chan (sl_blk1 slot) = CSchF /\ length (window (bk_buf (sl_blk1 slot))) = 268 \/
          bk_chan (sl_blk1 slot) = CSchHd /\ length (window (bk_buf (sl_blk1 slot))) = 124 /\ ready = []) /\
         slot_items (window (bk_buf (sl_blk1 slot))) = Some is).
Proof. exact (C17_slot_proof k t code p evs log s slot m s'). Qed.
Print Assumptions C17_slot.
Example C17_slot_met : Forall (fair 1) ex_evs /\ exists log s slot m s',
  ex_run (firstn 6 ex_evs) = Ok (log, s) /\ dl_step DvTick s = Ok (Some slot, m, s') /\ for_ts 1 (sl_ts slot) = true /\ is_traffic slot = false /\
  length (window (bk_buf (sl_blk1 slot))) = 268.
Proof. split; [exact ex_fair|exact ex_slot]. Qed.

(** C17, histories: what a receiver has heard on a timeslot, together with what waits in the queue, is at
    every moment exactly what was asked for: no message is lost, sent twice or altered, and the receiver is
    never left with a slot that makes no sense. *)
Theorem C17_history k t code p evs log s :
  1 <= k <= 4 -> Forall (fair k) evs -> dl_run (DvStart t :: evs) (dls_new code p) = Ok (log, s) ->
  exists q, get_q k s = Ok q /\
    Forall2 waits_for (entries (filter is_resource q)) (dk_fresh (asked k log)) /\
    flat_map notes_of q = dk_notes (asked k log) /\
    match hear (air k log) with
    | Garbled => False
    | Mixed => True
    | Clear got part =>
        in_step part (entries (filter is_frag q)) /\
        Permutation (map message (dk_firm (asked k log))) (got ++ map (full part) (entries (filter is_frag q)))
    end.
Proof. exact (C17_history_proof k t code p evs log s). Qed.
Print Assumptions C17_history.
Example C17_history_met : Forall (fair 1) ex_evs /\
  (exists log s, ex_run ex_evs = Ok (log, s) /\ whats_heard log = Some ([], true) /\
     map (fun w => width (mr_layout (w_hdr w))) (dk_firm (asked 1 log)) = [43; 43; 43; 51]) /\
  exists log s, ex_run (ex_evs ++ repeat DvTick 4) = Ok (log, s) /\
     whats_heard log = Some ([(1001%N, 500); (1002%N, 45); (1003%N, 0); (1003%N, 0)], false).
Proof. split; [exact ex_fair|]. split; [exact ex_middle|exact ex_heard]. Qed.

(** C17, order: when the headers have one size, messages are heard in the order asked for, none interrupting another. *)
Theorem C17_order k t code p evs log s h :
  1 <= k <= 4 -> Forall (fair k) evs -> dl_run (DvStart t :: evs) (dls_new code p) = Ok (log, s) ->
  32 <= h -> Forall (fun w => width (mr_layout (w_hdr w)) = h) (dk_firm (asked k log)) ->
  exists q got part, get_q k s = Ok q /\ hear (air k log) = Clear got part /\
    map message (dk_firm (asked k log)) = got ++ map (full part) (entries (filter is_frag q)).
Proof. exact (C17_order_proof k t code p evs log s h). Qed.
Print Assumptions C17_order.
Example C17_order_met : Forall (fair 1) (firstn 9 ex_evs) /\ exists log s, ex_run (firstn 9 ex_evs) = Ok (log, s) /\
  Forall (fun w => width (mr_layout (w_hdr w)) = 43) (dk_firm (asked 1 log)) /\ length (dk_firm (asked 1 log)) = 3.
Proof. exact order_met. Qed.

(** C17 is false in these respects.  A message with a longer header can be passed over at the end of a slot
    while the next one is begun there; then two messages are in progress at once and the receiver cannot tell their parts apart. *)
Theorem C17_mixed_refuted : exists evs log s, Forall (fair 1) evs /\ dl_run (DvStart ex_start :: evs) (dls_new 5 ex_pre) = Ok (log, s) /\ hear (air 1 log) = Mixed.
Proof. exact mixed. Qed.
Print Assumptions C17_mixed_refuted.
(** Of two grants to a station that await the same slot only the last is sent. *)
Theorem C17_grants_refuted : exists a g1 g2 log s, g1 <> g2 /\
  dl_run (DvStart ex_start :: [DvGrant 1 a g1; DvGrant 1 a g2] ++ repeat DvTick 8) (dls_new 5 ex_pre) = Ok (log, s) /\ get_q 1 s = Ok [] /\
  exists h, hear (air 1 log) = Clear [(h, [])] None /\ mr_sg h = Some g2.
Proof. exact twice. Qed.
Print Assumptions C17_grants_refuted.
(** A stolen half slot left over from a call that has ended stops the scheduler (a panic) as soon as a message on that timeslot is fragmented. *)
Theorem C17_leftover_refuted : exists steal : dl_event, 
  dl_run (DvStart ex_start :: call_start ++ [steal] ++ call_end ++ [long_message] ++ repeat DvTick 8) (dls_new 5 ex_pre) = Panic /\
  exists log s, dl_run (DvStart ex_start :: call_start ++ call_end ++ [long_message] ++ repeat DvTick 8) (dls_new 5 ex_pre) = Ok (log, s).
Proof. exact leftover. Qed.
Print Assumptions C17_leftover_refuted.

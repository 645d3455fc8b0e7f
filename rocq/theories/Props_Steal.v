(** C20: signalling sent by stealing half a traffic slot. *)
From Verif Require Import Base BitBuffer BitBufferProofs MacFields MacPdus Layout MacSpec FragSpec TxReceipt TdmaTime UmacCircuits DlSched DlSchedSpec UmacBs StealSpec DlFacts StealFacts OwedSpec OwedProofs.
Open Scope nat_scope.

(** C20, when header and SDU together fill whole octets: the half slot made for the message holds, for a
    receiver that parses headers and removes fill bits, exactly one message: the address, the usage marker and
    the SDU bit for bit. *)
Theorem C20_block_partial raf r : steal_ok r -> steal_size r <= half_slot -> steal_size r mod 8 = 0 ->
  exists b, stch_block raf r = Ok b /\ wf b /\ length (window b) = half_slot /\
    slot_items_lenient (window b) = Some [IWhole (header (steal_header raf r)) (window (tr_sdu r))].
Proof. exact (C20_block_proof raf r). Qed.
Print Assumptions C20_block_partial.
Example C20_block_partial_met : steal_ok (ex_steal 55 ex_chan) /\ steal_size (ex_steal 55 ex_chan) = 104 /\ existsb (fun x => x) (window (tr_sdu (ex_steal 55 ex_chan))) = true.
Proof. split; [exact (ex_steal_ok 55 ex_chan (or_intror eq_refl))|]. split; [exact (ex_steal_size 55 ex_chan eq_refl)|]. vm_compute. reflexivity. Qed.

(** C20 is false of every other message: the header announces fill bits which are not there, so the receiver
    removes the end of the SDU instead; in the last half octet of the slot the message cannot be read at all; a
    message too long for half a slot stops the program. *)
Theorem C20_damage_refuted raf r : steal_ok r -> steal_size r mod 8 <> 0 -> window (tr_sdu r) <> [] ->
  (steal_size r <= 120 -> exists b d, stch_block raf r = Ok b /\ slot_items_lenient (window b) = Some [IWhole (header (steal_header raf r)) d] /\
      d = strip (window (tr_sdu r)) /\ length d < length (window (tr_sdu r))) /\
  (120 < steal_size r <= half_slot -> exists b, stch_block raf r = Ok b /\ slot_items_lenient (window b) = None) /\
  (half_slot < steal_size r -> stch_block raf r = Panic).
Proof. exact (C20_damage_proof raf r). Qed.
Print Assumptions C20_damage_refuted.
Example C20_damage_refuted_met : steal_ok (ex_steal 56 ex_chan) /\ steal_size (ex_steal 56 ex_chan) = 105 /\ window (tr_sdu (ex_steal 56 ex_chan)) <> [].
Proof. split; [exact (ex_steal_ok 56 ex_chan (or_intror eq_refl))|]. split; [exact (ex_steal_size 56 ex_chan eq_refl)|]. intros H. vm_compute in H. discriminate. Qed.

(** C20, the request: the half slot goes to the timeslot named in the request, or else to the first timeslot
    with a downlink circuit; the random access flag is set just for an individual address or when an
    acknowledgement is owed to that address on that timeslot. *)
Theorem C20_request carrier r s s' ts : tr_steal r = true -> traffic_ts r s = Ok (Some ts) -> rx_tma_unitdata_req carrier r s = Ok s' ->
  steal_from r s ts /\
  exists waiting raf b s1, ts_get (ds_ra s) ts = Ok waiting /\
    (raf = true <-> ad_type (tr_addr r) = SsiIssi \/ In (ad_ssi (tr_addr r)) waiting) /\
    stch_block raf r = Ok b /\ dl_step (DvTakeRa ts (ad_ssi (tr_addr r))) s = Ok (None, [], s1) /\ dl_step (DvSteal ts b (tr_rep r)) s1 = Ok (None, [], s').
Proof. exact (fun A B C => conj (traffic_ts_spec r s ts B) (steal_request carrier r s s' ts A B C)). Qed.
Print Assumptions C20_request.
Example C20_request_met : exists log s s', dl_run (DvStart ex_start :: ex_steals) (dls_new 5 ex_pre) = Ok (log, s) /\
  tr_steal (ex_steal 55 None) = true /\ traffic_ts (ex_steal 55 None) s = Ok (Some 2) /\ rx_tma_unitdata_req 1521 (ex_steal 55 None) s = Ok s'.
Proof. exact C20_request_met. Qed.

(** C20, histories: whatever happens, the stolen half slots sent on a timeslot, followed by those waiting, are
    exactly those asked for, in order and unaltered. *)
Theorem C20_queue k t code p evs log s : 1 <= k <= 4 -> Forall steal_fair evs -> dl_run (DvStart t :: evs) (dls_new code p) = Ok (log, s) ->
  exists q, get_q k s = Ok q /\ flat_map (stolen_slot k) log ++ map (fun x => window (fst x)) (steals q) = flat_map (steal_wish k) log.
Proof. exact (C20_queue_proof k t code p evs log s). Qed.
Print Assumptions C20_queue.
Example C20_queue_met : Forall steal_fair (ex_steals ++ repeat DvTick 4) /\ exists log s q, dl_run (DvStart ex_start :: ex_steals ++ repeat DvTick 4) (dls_new 5 ex_pre) = Ok (log, s) /\
  flat_map (stolen_slot 2) log = [window (ex_blk 55)] /\ get_q 2 s = Ok q /\ map (fun x => window (fst x)) (steals q) = [window (ex_blk 31)].
Proof. exact C20_queue_met. Qed.

(** C20, the slot: while there is a downlink circuit, the next slot of the timeslot (other than in frame 18)
    carries the oldest stolen half slot, speech in its second half, and the sender is told; hang time does not delay it. *)
Theorem C20_slot k t code p evs log s q b rep rest slot m s' :
  1 <= k <= 4 -> Forall steal_fair evs -> dl_run (DvStart t :: evs) (dls_new code p) = Ok (log, s) ->
  get_q k s = Ok q -> steals q = (b, rep) :: rest ->
  dl_step DvTick s = Ok (Some slot, m, s') -> for_ts k (sl_ts slot) = true -> tm_f (sl_ts slot) <> 18%Z -> circuit_is_active DirDl k s = Ok true ->
  bk_chan (sl_blk1 slot) = CStch /\ window (bk_buf (sl_blk1 slot)) = window b /\
  (exists b2, sl_blk2 slot = Some b2 /\ bk_chan b2 = CTchS) /\ (pending rep -> m = sent rep) /\
  exists q', get_q k s' = Ok q' /\ steals q' = rest.
Proof. exact (C20_slot_proof k t code p evs log s q b rep rest slot m s'). Qed.
Print Assumptions C20_slot.
Example C20_slot_met : Forall steal_fair ex_steals /\ exists log s q b rep rest slot m s', dl_run (DvStart ex_start :: ex_steals) (dls_new 5 ex_pre) = Ok (log, s) /\
  get_q 2 s = Ok q /\ steals q = (b, rep) :: rest /\ length rest = 1 /\ pending rep /\
  dl_step DvTick s = Ok (Some slot, m, s') /\ for_ts 2 (sl_ts slot) = true /\ tm_f (sl_ts slot) <> 18%Z /\ circuit_is_active DirDl 2 s = Ok true.
Proof. exact C20_slot_met. Qed.

(** C20, acknowledgements: a radio whose acknowledgement is dropped because speech resumes is owed one on that timeslot; just one claim is settled
    when a stolen half slot for it is built; nothing else changes what is owed. *)
Theorem C20_owed k t code p evs log s e o m s' : 1 <= k <= 4 -> dl_run (DvStart t :: evs) (dls_new code p) = Ok (log, s) -> dl_step e s = Ok (o, m, s') ->
  forall q, get_q k s = Ok q -> exists before after, ts_get (ds_ra s) k = Ok before /\ ts_get (ds_ra s') k = Ok after /\ owing k e q before after.
Proof. exact (owed_history k t code p evs log s e o m s'). Qed.
Print Assumptions C20_owed.
Example C20_owed_met : exists log s o m s' o1 m1 s1, dl_run (DvStart ex_start :: ex_owed) (dls_new 5 ex_pre) = Ok (log, s) /\ dl_step (DvHang 2 false) s = Ok (o, m, s') /\
  ts_get (ds_ra s') 2 = Ok [1001; 1002]%N /\ dl_step (DvTakeRa 2 1001) s' = Ok (o1, m1, s1) /\ ts_get (ds_ra s1) 2 = Ok [1002]%N.
Proof. exact owed_met. Qed.

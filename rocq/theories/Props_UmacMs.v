(** C66: a mobile station that decodes what the base station sends gets every message, whole, once and in order. *)
From Coq Require Import Arith Permutation.
From Verif Require Import Base BitBuffer BitBufferProofs Layout MacFields MacPdus MacSpec MacBroadcast TdmaTime TdmaTimeProofs UlSched ErrorControl DlSched DlSchedSpec UmacPrecomps UmacBs SlotSpec DlTrace BsMac AirSpec HeardSpec StealSpec UmacMs MsSpec.
From Verif Require DlFacts HeardFacts UmacMsProofs UmacMsFacts.
Open Scope nat_scope.

(** Over every history of blocks on all timeslots: if the slots of signalling can be put together (the receiver of
    DlSchedSpec), every message is one a mobile station can take, and no PDU says that it ends within its own header, then the
    mobile station never goes down and hands its link layer exactly the messages of each timeslot, whole and in order.
    In full this would hold of whatever is received: see the refuted theorems below. *)
Theorem C66_every_message_partial : forall evs got part, Forall event_fine evs ->
  (forall k, 1 <= k <= 4 -> hear (slots_on k evs) = Clear (got k) (part k) /\ Forall takeable (got k) /\ match part k with Some m => takeable m | None => True end) ->
  (forall k, Forall uncut (slots_on k evs)) ->
  exists u out, ms_run evs ums_new = Ok (u, out) /\ forall k, 1 <= k <= 4 -> handed (sdus_on k out) (got k).
Proof. exact UmacMsProofs.whole_history. Qed.
Print Assumptions C66_every_message_partial.

(** And so it is from every state that an earlier history, of any blocks whatever, can lead to: messages whose ends were lost
    leave nothing behind. *)
Theorem C66_recovers_partial : forall before u0 out0 evs got part, ms_run before ums_new = Ok (u0, out0) -> Forall event_fine evs ->
  (forall k, 1 <= k <= 4 -> hear (slots_on k evs) = Clear (got k) (part k) /\ Forall takeable (got k) /\ match part k with Some m => takeable m | None => True end) ->
  (forall k, Forall uncut (slots_on k evs)) ->
  exists u out, ms_run evs u0 = Ok (u, out) /\ forall k, 1 <= k <= 4 -> handed (sdus_on k out) (got k).
Proof. exact UmacMsProofs.later_history. Qed.
Print Assumptions C66_recovers_partial.
(** A message of 300 bits whose second piece is lost, and the same message again, whole. *)
Example C66_recovers_met : exists log s u0 out0 u out got, DlFacts.ex_run UmacMsFacts.lost_evs = Ok (log, s) /\ ms_run (UmacMsFacts.listen UmacMsFacts.ex_time (firstn 2 (air 1 log))) ums_new = Ok (u0, out0) /\ UmacMsFacts.begun u0 = true /\ out0 = [] /\
  Forall event_fine (UmacMsFacts.listen UmacMsFacts.ex_time (air 1 log)) /\ slots_on 1 (UmacMsFacts.listen UmacMsFacts.ex_time (air 1 log)) = air 1 log /\ Forall uncut (air 1 log) /\
  hear (air 1 log) = Clear got None /\ Forall takeable got /\
  ms_run (UmacMsFacts.listen UmacMsFacts.ex_time (air 1 log)) u0 = Ok (u, out) /\ map snd (flat_map UmacMsFacts.sdu_of out) = [window (DlFacts.ex_sdu 300)].
Proof. exact UmacMsFacts.ex_recovers. Qed.

(** With the base station at the other end: over every history of a base station, a radio that decodes the slots of
    timeslot [k] hands up messages whose contents, with those that still wait, are just the ones asked for. *)
Theorem C66_base_to_mobile_partial : forall c k s log, 1 <= k <= 4 -> cell_ok c = true -> bs_history c k s log ->
  Forall UmacMsFacts.short (sends k (fun _ => idle_ts) (events_of log)) ->
  exists slots, receives c k log slots /\
  match hear slots with
  | Garbled => False
  | Mixed => True
  | Clear got part =>
      Permutation (sends k (fun _ => idle_ts) (events_of log)) (flat_map payload got ++ flat_map payload (queued k s part)) /\
      forall evs, Forall event_fine evs -> slots_on k evs = slots -> (forall j, j <> k -> slots_on j evs = []) -> Forall uncut slots ->
        exists u out, ms_run evs ums_new = Ok (u, out) /\ handed (sdus_on k out) got
  end.
Proof. exact UmacMsFacts.radio_hears. Qed.
Print Assumptions C66_base_to_mobile_partial.
(** A message of 29 bits for a group and one of 157 bits for a radio, which goes in two pieces, while a call begins on another
    timeslot: the mobile station hands up both. *)
Example C66_base_to_mobile_met : exists s log slots u out, bs_history DlFacts.ex_cell 1 s log /\ sends 1 (fun _ => idle_ts) (events_of log) = HeardFacts.ex_wanted /\ Forall UmacMsFacts.short HeardFacts.ex_wanted /\
  receives DlFacts.ex_cell 1 log slots /\
  Forall event_fine (UmacMsFacts.listen UmacMsFacts.ex_time slots) /\ slots_on 1 (UmacMsFacts.listen UmacMsFacts.ex_time slots) = slots /\ (forall j, j <> 1 -> slots_on j (UmacMsFacts.listen UmacMsFacts.ex_time slots) = []) /\ Forall uncut slots /\
  ms_run (UmacMsFacts.listen UmacMsFacts.ex_time slots) ums_new = Ok (u, out) /\ flat_map UmacMsFacts.sdu_of out = [(2001%N, UlBlockFacts.ex_text 29); (1001%N, UlBlockFacts.ex_text 157)].
Proof. exact UmacMsFacts.ex_listen. Qed.

(** And in the end all of them. *)
Theorem C66_all_in_the_end_partial : forall c k s log cns now s' more, 1 <= k <= 4 -> cell_ok c = true -> bs_history c k s log ->
  Forall UmacMsFacts.short (sends k (fun _ => idle_ts) (events_of log)) ->
  vw_dl (bs_told (events_of log) k) = None -> 8 * work k s <= length cns -> bs_run c (ticking cns now) s = Ok (s', more) ->
  exists slots, receives c k (log ++ more) slots /\
  match hear slots with
  | Garbled => False
  | Mixed => True
  | Clear got part =>
      Permutation (sends k (fun _ => idle_ts) (events_of log)) (flat_map payload got) /\
      forall evs, Forall event_fine evs -> slots_on k evs = slots -> (forall j, j <> k -> slots_on j evs = []) -> Forall uncut slots ->
        exists u out, ms_run evs ums_new = Ok (u, out) /\ handed (sdus_on k out) got
  end.
Proof. exact UmacMsFacts.radio_gets_all. Qed.
Print Assumptions C66_all_in_the_end_partial.
Example C66_all_in_the_end_met : exists s log s' more, bs_history DlFacts.ex_cell 1 s log /\ vw_dl (bs_told (events_of log) 1) = None /\ 8 * work 1 s = 40 /\
  bs_run DlFacts.ex_cell (ticking (repeat false 40) (mk_time 4 1 1 0)) s = Ok (s', more) /\ length more = 40.
Proof. exact HeardFacts.ex_rest. Qed.

(** The access assignment: in every frame but the eighteenth, whatever its 14 bits are, the lower MAC is told that the slot is
    traffic just when they say so, and nothing when they say nothing. *)
Theorem C66_access_assignment : forall i b u, wf b -> bpos b = bstart b -> mi_chan i = Aach -> 14 <= length (window b) -> tm_f (mi_time i) <> 18%Z ->
  ms_step (MeBlock i b) u = Ok (u, if assignment_known (window b) then [MoTraffic (mi_time i) (marks_traffic (window b))] else []).
Proof. exact UmacMsFacts.assignment. Qed.
Print Assumptions C66_access_assignment.
Example C66_access_assignment_met :
  ms_run [decoded UmacMsFacts.ex_time Aach (UmacMsFacts.aach_bits 3 5 5); decoded UmacMsFacts.ex_time Aach (UmacMsFacts.aach_bits 3 3 0);
          decoded UmacMsFacts.ex_time Aach (UmacMsFacts.aach_bits 0 9 9); decoded UmacMsFacts.ex_time Aach (UmacMsFacts.aach_bits 3 5 2)] ums_new =
  Ok (ums_new, [MoTraffic UmacMsFacts.ex_time true; MoTraffic UmacMsFacts.ex_time false; MoTraffic UmacMsFacts.ex_time false]).
Proof. exact UmacMsFacts.ex_aach. Qed.
(** In frame 18 a slot is never said to be traffic, whatever the state and the bits, but for headers of the fourth kind. *)
Theorem C66_frame_18_partial : forall i b u, wf b -> bpos b = bstart b -> mi_chan i = Aach -> tm_f (mi_time i) = 18%Z -> firstn 2 (window b) <> [true; true] ->
  exists out, ms_step (MeBlock i b) u = Ok (u, out) /\ Forall (fun o => o = MoTraffic (mi_time i) false) out.
Proof. exact UmacMsFacts.in_frame_18. Qed.
Print Assumptions C66_frame_18_partial.
(** Refuted: an access assignment of frame 18 of the fourth kind, without traffic, brings the mobile station down. *)
Theorem C66_frame_18_refuted : ms_step (decoded UmacMsFacts.frame18 Aach (UmacMsFacts.aach_bits 3 0 0)) ums_new = Panic.
Proof. exact UmacMsFacts.down_in_18. Qed.
Print Assumptions C66_frame_18_refuted.

(** The system information: every meaningful SYSINFO, followed by any bits, sets the hyperframe if it differs, and hands
    just those bits to the mobility layer. *)
Theorem C66_sysinfo : forall i b u p rest, wf b -> bpos b = bstart b -> mi_chan i = Bnch -> (mi_blk i = Block1 \/ mi_blk i = Block2) -> si_valid p = true -> window b = enc (si_layout p) ++ rest ->
  exists sdu, remaining sdu = rest /\ wf sdu /\ ms_step (MeBlock i b) u =
    Ok (u, match si_hyper p with Some h => if (Z.of_N h =? tm_h (mi_time i))%Z then [] else [MoTime (mk_time (tm_t (mi_time i)) (tm_f (mi_time i)) (tm_m (mi_time i)) (Z.of_N h))] | None => [] end ++ [MoSysinfo (mi_time i) sdu]).
Proof. exact UmacMsFacts.broadcast. Qed.
Print Assumptions C66_sysinfo.
Example C66_sysinfo_met : si_valid UmacMsFacts.ex_si = true /\ length (enc (si_layout UmacMsFacts.ex_si) ++ repeat true 42) = 124 /\
  match ms_step (decoded UmacMsFacts.ex_time Bnch (enc (si_layout UmacMsFacts.ex_si) ++ repeat true 42)) ums_new with
  | Ok (_, [MoTime t; MoSysinfo t' sdu]) => t = mk_time 1 1 1 7 /\ t' = UmacMsFacts.ex_time /\ remaining sdu = repeat true 42
  | _ => False
  end.
Proof. exact UmacMsFacts.ex_sysinfo. Qed.

(** Refuted: a mobile station that was given the network's addresses works out the scrambling code.  Over every history, whatever
    was received and configured, it never does. *)
Theorem C66_scrambling_code_refuted : forall evs u out, ms_run evs ums_new = Ok (u, out) -> forall t code, ~ In (MoScrambling t code) out.
Proof. exact UmacMsFacts.never_scrambles. Qed.
Print Assumptions C66_scrambling_code_refuted.
(** Refuted: what the base station sends never brings the mobile station down.  A message of 181 bits and the acknowledgement
    that follows it in the slot; and a short message that takes the place of speech. *)
Theorem C66_cut_header_refuted : Forall (fair 1) UmacMsFacts.cut_evs /\ exists log s, DlFacts.ex_run UmacMsFacts.cut_evs = Ok (log, s) /\
  Forall event_fine (UmacMsFacts.listen UmacMsFacts.ex_time (air 1 log)) /\ slots_on 1 (UmacMsFacts.listen UmacMsFacts.ex_time (air 1 log)) = air 1 log /\
  (exists got, hear (air 1 log) = Clear got None /\ Forall takeable got) /\ ms_run (UmacMsFacts.listen UmacMsFacts.ex_time (air 1 log)) ums_new = Panic.
Proof. exact (conj UmacMsFacts.cut_fair UmacMsFacts.cut_down). Qed.
Print Assumptions C66_cut_header_refuted.
Theorem C66_stolen_refuted : exists r b, steal_ok r /\ stch_block false r = Ok b /\ length (window b) = 124 /\ ms_step (MeBlock (mk_msi UmacMsFacts.ex_time Stch Block1 3) b) ums_new = Panic.
Proof. exact UmacMsFacts.stolen_down. Qed.
Print Assumptions C66_stolen_refuted.

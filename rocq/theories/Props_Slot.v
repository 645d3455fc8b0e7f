(** Property theorems: every downlink slot (C59, C08). *)
From Coq Require Import Arith.
From Verif Require Import Base BitsLib BitBuffer BitBufferProofs Codec MacFields MacPdus MacBroadcast MleBroadcast TdmaTime TdmaTimeProofs TxReceipt UmacCircuits DlSched UmacPrecomps UmacBs UlBlockSpec UmacSched SlotSpec SlotRun SlotFacts.
From Verif Require Scrambler CallControl DlFacts.
Open Scope nat_scope.

(** In every history of the upper MAC, whatever the radios, the layers above and the network server do, every tick sends exactly one slot, and this
    slot is complete and says the truth: [SlotSpec.slot_true]. *)
Theorem C59_every_slot : forall c connected u0 cn t evs u log, cell_ok c = true -> umac_new c connected = Ok u0 -> vtime t -> Forall ev_fine evs -> Forall (fun e => marked e = true) evs ->
  um_run c (UeTick cn t :: evs) u0 = Ok (u, log) ->
  map (fun x => fst (fst x)) log = UeTick cn t :: evs /\
  forall pre cn' t' o m post, log = pre ++ (UeTick cn' t', o, m) :: post -> sends_slot o (slot_true c cn' t' (all_told (map (fun x => fst (fst x)) pre))).
Proof. exact history_true. Qed.
Print Assumptions C59_every_slot.
(** an idle timeslot, traffic, hang time, a stolen half slot in hang time, and frame 18 *)
Example C59_every_met : cell_ok DlFacts.ex_cell = true /\ vtime ex_t0 /\ Forall ev_fine ex_call /\ Forall (fun e => marked e = true) ex_call /\
  exists u0 u log, umac_new DlFacts.ex_cell false = Ok u0 /\ um_run DlFacts.ex_cell (UeTick false ex_t0 :: ex_call) u0 = Ok (u, log) /\
  ex_slots log = [(14%Z, Some KSync, false, Some (DlUnallocated, UlUnallocated)); (15%Z, Some KTraffic, true, Some (DlTraffic 5, UlTraffic 5)); (16%Z, Some KSignalling, false, Some (DlAssignedControl, UlAssignedOnly));
                  (17%Z, Some KStolen, true, Some (DlAssignedControl, UlAssignedOnly)); (18%Z, Some KSync, false, None)].
Proof. exact (conj eq_refl (conj ex_t0_ok (conj (proj1 ex_call_fine) (conj (proj2 ex_call_fine) ex_call_runs)))). Qed.

(** The slots in which radios expect the synchronisation and the network broadcast carry them, readable with the fixed scrambling code. *)
Theorem C08_sent : forall c connected u0 cn t evs u log, cell_ok c = true -> umac_new c connected = Ok u0 -> vtime t -> Forall ev_fine evs -> Forall (fun e => marked e = true) evs ->
  um_run c (UeTick cn t :: evs) u0 = Ok (u, log) ->
  forall pre cn' t' o m post, log = pre ++ (UeTick cn' t', o, m) :: post ->
  let next := add_timeslots t' 1 in is_mandatory_bsch next || is_mandatory_bnch next = true ->
  sends_slot o (fun k => sl_ts k = next /\ bk_chan (sl_blk1 k) = CBsch /\ bk_scr (sl_blk1 k) = Scrambler.SCRAMB_INIT /\
    reads_all (then_read sync_read msync_read) (bk_buf (sl_blk1 k)) (sync_says c next, msync_says c) /\
    exists b off, sl_blk2 k = Some b /\ bk_chan b = CBnch /\ offset_id c = Some off /\
      reads_all (then_read si_read msi_read) (bk_buf b) (sysinfo_says c off next, msysinfo_says c cn')).
Proof. exact mandatory_sent. Qed.
Print Assumptions C08_sent.
Example C08_sent_met : is_mandatory_bsch (mk_time 2 18 1 0) = true /\ is_mandatory_bnch (mk_time 4 18 1 0) = true /\ In (UeTick false (mk_time 1 18 1 0)) ex_call /\ add_timeslots (mk_time 1 18 1 0) 1 = mk_time 2 18 1 0.
Proof. split; [reflexivity|]. split; [reflexivity|]. split; [vm_compute; tauto|reflexivity]. Qed.

(** Outside hang time the access assignment of a timeslot for traffic says what the slot is and what is expected on the uplink. *)
Theorem C59_assignment_partial : forall c connected u0 cn t evs u log, cell_ok c = true -> umac_new c connected = Ok u0 -> vtime t -> Forall ev_fine evs -> Forall (fun e => marked e = true) evs ->
  um_run c (UeTick cn t :: evs) u0 = Ok (u, log) ->
  forall pre cn' t' o m post, log = pre ++ (UeTick cn' t', o, m) :: post ->
  let next := add_timeslots t' 1 in tm_t next <> 1%Z -> tm_f next <> 18%Z -> vw_hang (all_told (map (fun x => fst (fst x)) pre) (Z.to_nat (tm_t next))) = false ->
  sends_slot o (fun k => exists a, reads_all aa_read (bk_buf (sl_bbk k)) a /\
    (traffic_kind k = true <-> exists n, aa_dl a = DlTraffic n) /\ (sl_ul_tp k = true <-> exists n, aa_ul a = UlTraffic n)).
Proof. exact assignment_true. Qed.
Print Assumptions C59_assignment_partial.
Example C59_assignment_met : vw_hang (all_told (UeTick false ex_t0 :: firstn 4 ex_call) 2) = false /\ vw_dl (all_told (UeTick false ex_t0 :: firstn 4 ex_call) 2) = Some 5%N /\
  nth 4 ex_call (UeTick true ex_t0) = UeTick false (mk_time 1 15 1 0) /\ add_timeslots (mk_time 1 15 1 0) 1 = mk_time 2 15 1 0.
Proof. repeat (split; [reflexivity|]). reflexivity. Qed.

(** Refuted in hang time: a stolen half slot suspends the hang time on the air, but the access assignment still calls the slot a control channel
    open to random access, while the uplink is received as traffic. *)
Theorem C59_hang_time_refuted : exists evs u0 u log, Forall ev_fine evs /\ Forall (fun e => marked e = true) evs /\ umac_new DlFacts.ex_cell false = Ok u0 /\
  um_run DlFacts.ex_cell (UeTick false ex_t0 :: evs) u0 = Ok (u, log) /\ In (17%Z, Some KStolen, true, Some (DlAssignedControl, UlAssignedOnly)) (ex_slots log).
Proof. exact hang_time_lies. Qed.
Print Assumptions C59_hang_time_refuted.

(** Property theorems for C43. *)
From Coq Require Import ZArith.
From Verif Require Import Base BitsLib BitBuffer BitBufferProofs TdmaTime Slotter SlotterSpec SlotterProofs.
Open Scope nat_scope.

(** C43: for all block contents the normal downlink burst is built, and is the one of the standard
    with some two phase adjustment bits in each of its two places. *)
Theorem C43_normal_burst : forall ts blk1 bbk blk2, ts = TrainNormal1 \/ ts = TrainNormal2 -> length blk1 = 216 -> length bbk = 30 -> length blk2 = 216 ->
  exists h1 h2, length h1 = 2 /\ length h2 = 2 /\ build_ndb ts (b2b blk1) (b2b bbk) (b2b blk2) = Ok (b2b (ndb (train_bits ts) blk1 bbk blk2 h1 h2)).
Proof. exact ndb_built. Qed.
Print Assumptions C43_normal_burst.

(** C43: likewise the synchronisation burst *)
Theorem C43_sync_burst : forall blk1 bbk blk2, length blk1 = 120 -> length bbk = 30 -> length blk2 = 216 ->
  exists h1 h2, length h1 = 2 /\ length h2 = 2 /\ build_sdb (b2b blk1) (b2b bbk) (b2b blk2) = Ok (b2b (sdb blk1 bbk blk2 h1 h2)).
Proof. exact sdb_built. Qed.
Print Assumptions C43_sync_burst.

(** C43: a burst has 510 bits, and each block, and the training sequence, is found in it at its place. *)
Theorem C43_normal_blocks_recoverable : forall train blk1 bbk blk2 h1 h2,
  length train = 22 -> length blk1 = 216 -> length bbk = 30 -> length blk2 = 216 -> length h1 = 2 -> length h2 = 2 ->
  let w := ndb train blk1 bbk blk2 h1 h2 in
  length w = 510 /\ firstn 216 (skipn NDB_BLK1_OFFSET w) = blk1 /\ firstn 14 (skipn NDB_BBK1_OFFSET w) ++ firstn 16 (skipn NDB_BBK2_OFFSET w) = bbk /\
  firstn 216 (skipn NDB_BLK2_OFFSET w) = blk2 /\ firstn 22 (skipn 244 w) = train.
Proof. exact ndb_slices. Qed.
Print Assumptions C43_normal_blocks_recoverable.
Theorem C43_sync_blocks_recoverable : forall blk1 bbk blk2 h1 h2, length blk1 = 120 -> length bbk = 30 -> length blk2 = 216 -> length h1 = 2 -> length h2 = 2 ->
  let w := sdb blk1 bbk blk2 h1 h2 in
  length w = 510 /\ firstn 120 (skipn SB_BLK1_OFFSET w) = blk1 /\ firstn 30 (skipn SB_BBK_OFFSET w) = bbk /\ firstn 216 (skipn SB_BLK2_OFFSET w) = blk2 /\
  firstn 80 (skipn 14 w) = frequency_correction /\ firstn 38 (skipn 214 w) = sync.
Proof. exact sdb_slices. Qed.
Print Assumptions C43_sync_blocks_recoverable.

(** C43: the request of the lower MAC is turned into the burst of the bits its buffers hold; with
    training sequence 1 the first buffer holds both blocks. *)
Theorem C43_request_sync : forall b1 bb b2, wf b1 -> wf bb -> wf b2 -> 120 <= length (remaining b1) -> 30 <= length (remaining bb) -> 216 <= length (remaining b2) ->
  phy_build (mk_tpreq BurstSDB TrainSync (Some bb) (Some b1) (Some b2)) =
  build_sdb (b2b (firstn 120 (remaining b1))) (b2b (firstn 30 (remaining bb))) (b2b (firstn 216 (remaining b2))).
Proof. exact sdb_request. Qed.
Print Assumptions C43_request_sync.
Theorem C43_request_half_slots : forall b1 bb b2, wf b1 -> wf bb -> wf b2 -> 216 <= length (remaining b1) -> 30 <= length (remaining bb) -> 216 <= length (remaining b2) ->
  phy_build (mk_tpreq BurstNDB TrainNormal2 (Some bb) (Some b1) (Some b2)) =
  build_ndb TrainNormal2 (b2b (firstn 216 (remaining b1))) (b2b (firstn 30 (remaining bb))) (b2b (firstn 216 (remaining b2))).
Proof. exact ndb2_request. Qed.
Print Assumptions C43_request_half_slots.
Theorem C43_request_full_slot : forall b1 bb, wf b1 -> wf bb -> 432 <= length (remaining b1) -> 30 <= length (remaining bb) ->
  phy_build (mk_tpreq BurstNDB TrainNormal1 (Some bb) (Some b1) None) =
  build_ndb TrainNormal1 (b2b (firstn 216 (remaining b1))) (b2b (firstn 30 (remaining bb))) (b2b (firstn 216 (skipn 216 (remaining b1)))).
Proof. exact ndb1_request. Qed.
Print Assumptions C43_request_full_slot.

(** C43, partial: the adjustment bits cancel the accumulated phase when that is -1 or 3 eighths
    of a turn modulo half a turn, and are half a turn wrong otherwise; they should always cancel it. *)
Theorem C43_normal_phase_partial : forall ts blk1 bbk blk2 h1 h2, ts = TrainNormal1 \/ ts = TrainNormal2 ->
  length blk1 = 216 -> length bbk = 30 -> length blk2 = 216 -> length h1 = 2 -> length h2 = 2 ->
  build_ndb ts (b2b blk1) (b2b bbk) (b2b blk2) = Ok (b2b (ndb (train_bits ts) blk1 bbk blk2 h1 h2)) ->
  let w := ndb (train_bits ts) blk1 bbk blk2 h1 h2 in
  off h1 8 122 w = (if (phases (symbols 8 122 w) mod 4 =? 3) then 0 else 4)%Z /\ off h2 123 249 w = (if (phases (symbols 123 249 w) mod 4 =? 3) then 0 else 4)%Z.
Proof. exact ndb_phase. Qed.
Print Assumptions C43_normal_phase_partial.
Theorem C43_sync_phase_partial : forall blk1 bbk blk2 h1 h2, length blk1 = 120 -> length bbk = 30 -> length blk2 = 216 -> length h1 = 2 -> length h2 = 2 ->
  build_sdb (b2b blk1) (b2b bbk) (b2b blk2) = Ok (b2b (sdb blk1 bbk blk2 h1 h2)) ->
  let w := sdb blk1 bbk blk2 h1 h2 in
  off h1 8 108 w = (if (phases (symbols 8 108 w) mod 4 =? 3) then 0 else 4)%Z /\ off h2 109 249 w = (if (phases (symbols 109 249 w) mod 4 =? 3) then 0 else 4)%Z.
Proof. exact sdb_phase. Qed.
Print Assumptions C43_sync_phase_partial.

(** C43, refuted: slotter.rs:74-83 swaps the bits of +3 and -1, so a burst need not come out of its
    adjustment with the phase it should have. *)
Definition ex_blk (n k : nat) : list bool := map (fun i => i mod k =? 0) (seq 0 n).
Definition ex_burst (k : nat) : list bool := match build_ndb TrainNormal1 (b2b (ex_blk 216 k)) (b2b (ex_blk 30 7)) (b2b (ex_blk 216 5)) with Ok w => map (N.eqb 1) w | _ => [] end.
Theorem C43_phase_refuted : exists blk1 bbk blk2 h1 h2, length blk1 = 216 /\ length bbk = 30 /\ length blk2 = 216 /\
  build_ndb TrainNormal1 (b2b blk1) (b2b bbk) (b2b blk2) = Ok (b2b (ndb normal1 blk1 bbk blk2 h1 h2)) /\ ~ compensates h1 8 122 (ndb normal1 blk1 bbk blk2 h1 h2).
Proof.
  exists (ex_blk 216 7), (ex_blk 30 7), (ex_blk 216 5), (firstn 2 (skipn 12 (ex_burst 7))), (firstn 2 (skipn 498 (ex_burst 7))).
  split; [reflexivity|]. split; [reflexivity|]. split; [reflexivity|]. split; [vm_compute; reflexivity|]. unfold compensates. vm_compute. discriminate.
Qed.
Print Assumptions C43_phase_refuted.

(** C43: a received burst is cut into its blocks, unchanged, and dated two slots back. *)
Theorem C43_received_full_slot : forall t1 train blk1 blk2 t2 time, length t1 = 4 -> length blk1 = 216 -> length train = 22 -> length blk2 = 216 -> length t2 = 4 ->
  exists b, phy_split TrainNormal1 (b2b (nub t1 train blk1 blk2 t2)) time = Ok [mk_tpind TrainNormal1 BurstNUB PbNUB BkBoth b (add_timeslots time (-2))] /\ fresh_with b (blk1 ++ blk2).
Proof. exact split_nub1. Qed.
Print Assumptions C43_received_full_slot.
Theorem C43_received_half_slots : forall t1 train blk1 blk2 t2 time, length t1 = 4 -> length blk1 = 216 -> length train = 22 -> length blk2 = 216 -> length t2 = 4 ->
  exists b1 b2, phy_split TrainNormal2 (b2b (nub t1 train blk1 blk2 t2)) time =
    Ok [mk_tpind TrainNormal2 BurstNUB PbNUB Bk1 b1 (add_timeslots time (-2)); mk_tpind TrainNormal2 BurstNUB PbNUB Bk2 b2 (add_timeslots time (-2))] /\ fresh_with b1 blk1 /\ fresh_with b2 blk2.
Proof. exact split_nub2. Qed.
Print Assumptions C43_received_half_slots.
Theorem C43_received_control : forall t1 train blk1 blk2 t2 time, length t1 = 4 -> length blk1 = 84 -> length train = 30 -> length blk2 = 84 -> length t2 = 4 ->
  exists b, phy_split TrainExtended (b2b (nub t1 train blk1 blk2 t2)) time = Ok [mk_tpind TrainExtended BurstCUB PbSSN1 Bk1 b (add_timeslots time (-2))] /\ fresh_with b (blk1 ++ blk2).
Proof. exact split_cub. Qed.
Print Assumptions C43_received_control.

(** The hypotheses are met: two bursts with different contents, one whose first adjustment
    cancels the phase. *)
Example C43_met : exists k h1 h2, let blk := ex_blk 216 k in
  build_ndb TrainNormal1 (b2b blk) (b2b (ex_blk 30 7)) (b2b (ex_blk 216 5)) = Ok (b2b (ndb normal1 blk (ex_blk 30 7) (ex_blk 216 5) h1 h2)) /\
  compensates h1 8 122 (ndb normal1 blk (ex_blk 30 7) (ex_blk 216 5) h1 h2) /\ In true blk /\ In false blk.
Proof.
  exists 4, (firstn 2 (skipn 12 (ex_burst 4))), (firstn 2 (skipn 498 (ex_burst 4))). cbv zeta. split; [vm_compute; reflexivity|]. split; [unfold compensates; vm_compute; reflexivity|].
  split; vm_compute; [left; reflexivity|right; left; reflexivity].
Qed.
Example C43_met_received : exists b, phy_split TrainNormal1 (b2b (nub (ex_blk 4 2) normal1 (ex_blk 216 3) (ex_blk 216 5) (ex_blk 4 3))) (from_int 17) =
  Ok [mk_tpind TrainNormal1 BurstNUB PbNUB BkBoth b (from_int 15)] /\ window b = ex_blk 216 3 ++ ex_blk 216 5.
Proof. eexists. split; vm_compute; reflexivity. Qed.

(** Property theorems for C23, C24, C25, C44, C52, C53. *)
From Coq Require Import NArith ZArith Permutation.
From Verif Require Import Base BitsLib TdmaTime TxReceipt BitBuffer BitBufferProofs BitBufferOps Codec CodecProofs Layout LayoutProofs MacFields
  Fcs FcsProofs LlcPdus LlcPdusSpec LlcPdusProofs Llc LlcSpec LlcFacts LmacSpec.
Local Open Scope nat_scope.

(** C23: whatever is asked of the link layer, received, reported by the MAC, and whenever ticks come:
    the log of the link to each radio is accepted by the stop-and-wait automaton [link_step].  A data
    message is submitted only when none is outstanding, and then it is the one that has waited
    longest, with the bits it was given; or it is the outstanding message again, unchanged, 16 slots
    or more after its last transmission was reported, and not for the fifth time.  A message is
    declared lost only 16 slots after its fourth transmission, and declared acknowledged exactly when
    its number is acknowledged after its transmission. *)
Theorem C23_stop_and_wait : forall (P : Type) (l : list (lcall P)) log s ssi,
  llc_run l llc_new = Ok (log, s) -> log_ok [] [] log ->
  exists k, link_run ssi link_start log = Some k /\ lk_owes k = false.
Proof. exact @run_link. Qed.
Print Assumptions C23_stop_and_wait.

(** C23: at the end of a tick no message waits for a free link, and none is due for retransmission
    or for being declared lost. *)
Theorem C23_tick_end_settles : forall (P : Type) (l : list (lcall P)) log s ssi,
  llc_run (l ++ [LTickEnd]) llc_new = Ok (log, s) -> log_ok [] [] log ->
  exists k, link_run ssi link_start log = Some k /\ settled k.
Proof. exact @run_settles. Qed.
Print Assumptions C23_tick_end_settles.

(** C23: the requests to one radio become messages in order, numbered 0, 1, 0, 1, ... *)
Theorem C23_numbers_alternate : forall (P : Type) (l : list (lcall P)) log s ssi,
  llc_run l llc_new = Ok (log, s) -> log_ok [] [] log ->
  numbered_in_turn false (data_reqs ssi log) (queued ssi log).
Proof. exact @run_numbers. Qed.
Print Assumptions C23_numbers_alternate.

(** C23: if the MAC drops no message, the link layer panics on [bad_call]s and on nothing else. *)
Theorem C23_panics_partial : forall (P : Type) (l : list (lcall P)) log s c,
  llc_run l llc_new = Ok (log, s) -> log_ok [] [] (log ++ [LCall c]) -> Forall not_dropped l ->
  (llc_step c s = Panic <-> bad_call log c).
Proof. exact @run_panics. Qed.
Print Assumptions C23_panics_partial.

Definition ex_addr (n : N) : tetra_addr := mk_addr n false SsiSsi.
Definition ex_time (n : Z) : tdma_time := from_int n.
Definition ex_bits (l : list bool) : bitbuf := match bb_from_bitstr l with Ok b => b | _ => bb_new 0 end.
Definition ex_req (t : Z) (n : N) (sdu : list bool) : tla_req unit :=
  mk_tlareq (ex_time t) (ex_bits sdu) (ex_addr n) false false None None None.
Definition ex_ind (t : Z) (n : N) (l : list bool) : lcall unit := LInd (ex_time t) (ex_addr n) (Some (ex_bits l)).
Definition ex_tick (t : Z) : list (lcall unit) := [LTickStart (ex_time t); LTickEnd].

(** The MAC drops a message (bs_sched.rs:605, 740, bs_frag.rs:240) and it is not acknowledged: after
    the retries the link layer marks the receipt lost, which panics. *)
Definition dropped_history : list (lcall unit) :=
  LTickStart (ex_time 0) :: LDataReq 7 tx_new (ex_req 0 100 [true; false; true]) :: LTickEnd :: LUmacMark 7 MarkDiscarded ::
  ex_tick 1 ++ ex_tick 17 ++ LUmacMark 7 MarkDiscarded :: ex_tick 18 ++ ex_tick 34 ++ LUmacMark 7 MarkDiscarded ::
  ex_tick 35 ++ ex_tick 51 ++ LUmacMark 7 MarkDiscarded :: ex_tick 52 ++ [LTickStart (ex_time 68)].
Theorem C23_panic_after_drops_refuted : exists log s, llc_run dropped_history llc_new = Ok (log, s) /\ llc_step LTickEnd s = Panic.
Proof.
  destruct (llc_run dropped_history llc_new) as [[log s]| |] eqn:E; [exists log, s; split; [reflexivity|]|vm_compute in E; discriminate E..].
  vm_compute in E. injection E as _ <-. vm_compute. reflexivity.
Qed.
Print Assumptions C23_panic_after_drops_refuted.

(** Two radios; radio 100 gets two messages and acknowledges the first after one retransmission. *)
Definition ex_history : list (lcall unit) :=
  LTickStart (ex_time 0) :: LDataReq 7 tx_new (ex_req 0 100 [true; false; true]) :: LDataReq 8 tx_new (ex_req 0 100 [false; false]) ::
  LDataReq 9 tx_new (ex_req 0 200 [true; true; true; true]) :: LTickEnd ::
  LUmacMark 7 MarkTransmitted :: LUmacMark 9 MarkTransmitted :: ex_tick 1 ++ ex_tick 17 ++
  LUmacMark 7 MarkTransmitted :: ex_tick 18 ++
  ex_ind 20 100 [false; false; true; true; false] :: ex_ind 20 200 [false; false; false; true; true; true; false] ::
  LTickStart (ex_time 20) :: [LTickEnd].
Example C23_met : exists log s, llc_run ex_history llc_new = Ok (log, s) /\ log_ok [] [] log /\
  option_map (fun k => (lk_waiting k, option_map (fun o => (os_id o, os_count o)) (lk_current k))) (link_run 100 link_start log) = Some ([], Some (8%N, 1)) /\
  option_map (fun k => option_map (fun o => (os_id o, os_count o)) (lk_current k)) (link_run 200 link_start log) = Some (Some (9%N, 2)) /\
  Forall not_dropped ex_history /\
  received log = [(200%N, 1%Z, true)] /\ standalone log = [(200%N, 1%Z, true)].
Proof.
  destruct (llc_run ex_history llc_new) as [[log s]| |] eqn:E; [exists log, s; split; [reflexivity|]|vm_compute in E; discriminate E..].
  vm_compute in E. injection E as <- <-.
  split; [|split; [vm_compute; reflexivity|split; [vm_compute; reflexivity|split; [|split; vm_compute; reflexivity]]]].
  - vm_compute. repeat first [split | reflexivity | discriminate | (let H := fresh in intros H; decompose [or] H; (discriminate || contradiction)) | (left; reflexivity) | right ].
  - repeat constructor.
Qed.

(** C24: at the end of a tick the acknowledgements put into data messages and those handed to the MAC
    on their own are, together, one for each received numbered PDU: same radio, timeslot, number. *)
Theorem C24_one_ack_each : forall (P : Type) (l : list (lcall P)) log s,
  llc_run (l ++ [LTickEnd]) llc_new = Ok (log, s) -> log_ok [] [] log ->
  Permutation (received log) (piggybacked log ++ standalone log).
Proof. exact @run_acks. Qed.
Print Assumptions C24_one_ack_each.

(** C24: an acknowledgement put into a data message waits with it behind an outstanding one: it is
    not handed to the MAC in the tick in which it was received. *)
Definition late_history : list (lcall unit) :=
  LTickStart (ex_time 0) :: LDataReq 7 tx_new (ex_req 0 100 [true]) :: LTickEnd :: LTickStart (ex_time 4) ::
  ex_ind 4 100 [false; false; false; true; true; true; false] :: LDataReq 8 tx_new (ex_req 4 100 [false]) :: [LTickEnd].
Theorem C24_in_its_tick_refuted : exists log s, llc_run late_history llc_new = Ok (log, s) /\
  received log = [(100%N, 1%Z, true)] /\ acks_submitted log = [].
Proof.
  destruct (llc_run late_history llc_new) as [[log s]| |] eqn:E; [exists log, s; split; [reflexivity|]|vm_compute in E; discriminate E..].
  vm_compute in E. injection E as <- _. split; vm_compute; reflexivity.
Qed.
Print Assumptions C24_in_its_tick_refuted.

(** C24: and it is sent again with every retransmission of that message. *)
Definition again_history : list (lcall unit) :=
  LTickStart (ex_time 0) :: ex_ind 0 100 [false; false; false; true; true; true; false] ::
  LDataReq 8 tx_new (ex_req 0 100 [false]) :: LTickEnd :: LUmacMark 8 MarkTransmitted :: ex_tick 1 ++ ex_tick 17.
Theorem C24_once_refuted : exists log s, llc_run again_history llc_new = Ok (log, s) /\
  received log = [(100%N, 1%Z, true)] /\ acks_submitted log = [(100%N, true); (100%N, true)].
Proof.
  destruct (llc_run again_history llc_new) as [[log s]| |] eqn:E; [exists log, s; split; [reflexivity|]|vm_compute in E; discriminate E..].
  vm_compute in E. injection E as <- _. split; vm_compute; reflexivity.
Qed.
Print Assumptions C24_once_refuted.

(** C25 *)
Theorem C25_accepted_partial : forall m, m <> [] -> exists v, (v < 2 ^ 32)%N /\
  (forall b start, wf b -> bstart b + start + length m <= bend b -> bits_rng (bytes b) (bstart b + start) (length m) = m ->
     compute_fcs b start (start + length m) = Ok v) /\
  (forall b, wf b -> remaining b = m ++ bits_of 32 v -> check_fcs b = Ok true).
Proof. exact fcs_accepts. Qed.
Print Assumptions C25_accepted_partial.

Theorem C25_burst_rejected : forall b b' e, wf b -> wf b' -> 32 < length (remaining b) -> check_fcs b = Ok true ->
  length e = length (remaining b) -> remaining b' = xorl (remaining b) e ->
  (exists a burst c, e = repeat false a ++ burst ++ repeat false c /\ length burst <= 32 /\ In true burst) ->
  check_fcs b' = Ok false.
Proof. exact fcs_rejects. Qed.
Print Assumptions C25_burst_rejected.

Theorem C25_too_short_rejected : forall b, wf b -> length (remaining b) < 32 -> check_fcs b = Ok false.
Proof. exact fcs_short. Qed.
Print Assumptions C25_too_short_rejected.

(** C25: a frame check sequence over nothing panics. *)
Theorem C25_empty_message_refuted : forall b, wf b -> length (remaining b) = 32 -> check_fcs b = Panic.
Proof. exact fcs_no_message. Qed.
Print Assumptions C25_empty_message_refuted.

(** The test vector of fcs.rs:66, read after its 5-bit header; one bit altered. *)
Definition fcs_vector : bitbuf := mkbb
  [82; 122; 215; 194; 97; 139; 12; 0; 3; 16; 19; 51; 3; 34; 195; 35; 3; 35; 19; 19; 19; 19; 83; 35; 3; 35; 3; 3; 22; 122; 10; 177; 168]%N 0 5 261 false.
Example C25_met : wf fcs_vector /\ length (remaining fcs_vector) = 256 /\ check_fcs fcs_vector = Ok true /\
  check_fcs (mkbb [82; 122; 214; 194; 97; 139; 12; 0; 3; 16; 19; 51; 3; 34; 195; 35; 3; 35; 19; 19; 19; 19; 83; 35; 3; 35; 3; 3; 22; 122; 10; 177; 168]%N 0 5 261 false) = Ok false.
Proof. vm_compute. repeat split; try lia; try discriminate; repeat constructor. Qed.

(** C44: each basic link PDU is written with its layout and read back. *)
Theorem C44_bl_ack : forall p, (ba_nr p < 2)%N -> carries (ba_write p) ba_read p (ba_layout p).
Proof. exact ba_carries. Qed.
Print Assumptions C44_bl_ack.
Theorem C44_bl_adata : forall p, (bad_nr p < 2)%N -> (bad_ns p < 2)%N -> carries (bad_write p) bad_read p (bad_layout p).
Proof. exact bad_carries. Qed.
Print Assumptions C44_bl_adata.
Theorem C44_bl_data : forall p, (bd_ns p < 2)%N -> carries (bd_write p) bd_read p (bd_layout p).
Proof. exact bd_carries. Qed.
Print Assumptions C44_bl_data.
Theorem C44_bl_udata : forall p, carries (bu_write p) bu_read p (bu_layout p).
Proof. exact bu_carries. Qed.
Print Assumptions C44_bl_udata.
Example C44_met : exists b, bad_write (mk_bladata true 1 0) (bb_new_autoexpand 8) = Ok b /\ window b = [false; true; false; false; true; false].
Proof. eexists. split; vm_compute; reflexivity. Qed.

(** C52: a received basic link PDU that carries data and passes its check is handed to the MLE, once,
    with exactly the bits that follow its header; nothing else is. *)
Theorem C52_delivered : forall (P : Type) t a b (s s' : llc P) ev, wf b -> rx_unitdata_ind t a (Some b) s = Ok (ev, s') ->
  match bl_accept (remaining b) with
  | Some p => if is_ack p then deliveries ev = [] else exists i, deliveries ev = [i] /\ to_mle t a p i
  | None => ev = [] /\ s' = s
  end.
Proof. exact @ind_delivers. Qed.
Print Assumptions C52_delivered.
Example C52_met : exists ev s', rx_unitdata_ind (ex_time 3) (ex_addr 5) (Some (ex_bits [false; false; false; true; true; true; false])) (llc_new (P := unit)) = Ok (ev, s') /\
  map (fun i => option_map window (ti_sdu i)) (deliveries ev) = [Some [true; false]].
Proof. do 2 eexists. split; vm_compute; reflexivity. Qed.

(** C53: at the end of a tick every unacknowledged message asked for has been handed to the MAC once,
    in order, with its data, address and channel allocation unchanged, and no other has. *)
Theorem C53_unacknowledged_sent_once : forall (P : Type) (l : list (lcall P)) log s,
  llc_run (l ++ [LTickEnd]) llc_new = Ok (log, s) -> log_ok [] [] log -> unit_sent log = unit_asked log.
Proof. exact @run_units. Qed.
Print Assumptions C53_unacknowledged_sent_once.
Example C53_met : exists log s, llc_run [LUnitdataReq (ex_req 0 100 [true; false]); LDataReq 7 tx_new (ex_req 0 100 [true]); LUnitdataReq (ex_req 0 5 [false]); LTickEnd] llc_new = Ok (log, s) /\
  log_ok [] [] log /\ map (fun x => snd (fst (fst (fst (fst x))))) (unit_sent log) = [[true; false]; [false]].
Proof.
  do 2 eexists. split; [vm_compute; reflexivity|]. split; [|vm_compute; reflexivity].
  vm_compute. repeat first [split | reflexivity | discriminate | (let H := fresh in intros H; decompose [or] H; (discriminate || contradiction)) | (left; reflexivity) | right ].
Qed.

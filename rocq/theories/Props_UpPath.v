(** Property theorems: messages between the radios and layer 3 (C58, C47, C51). *)
From Coq Require Import Arith ZArith.
From Verif Require Import Base BitsLib BitBuffer BitBufferProofs BitBufferOps Codec TdmaTime TdmaTimeProofs MacFields MacPdus Layout MacSpec FragSpec PduSpec FcsProofs
  Llc LlcSpec UlSched DlSched UmacPrecomps UmacBs UlBlockSpec UlBlockPdu UlBlockFacts MleBs UpPath UpPathSpec UpPathProofs UpPathFacts NetworkTime NetworkTimeSpec MleSpec MleProofs.
From Verif Require DlFacts.
Open Scope nat_scope.

(** Whatever a block contains: the SDUs the upper MAC hands up become, in their order, exactly the messages [get_all] says,
    each once, with its bits, its time and its sender, to the entity its discriminator names. *)
Theorem C58_any_block : forall c u i pdu s m, reached c u -> wf pdu -> bpos pdu = bstart pdu -> vtime (tv_time i) -> on_channel i = true -> link_reached s ->
  forall u' outs, rx_tmv_unitdata_ind i pdu u = Ok (u', outs) -> room_for outs m -> Forall (fun x => fate_of (snd x) <> Dies) (handed_up outs) ->
  exists ups s' m', rx_block i pdu u s m = Ok (ups, u', s', m') /\ link_reached s' /\ get_all (handed_up outs) (ml_next m) ups (ml_next m').
Proof. exact path_ok. Qed.
Print Assumptions C58_any_block.
(** A block of whole SDUs, from what the radios put into it to what layer 3 gets. *)
Theorem C58_sent : forall c u i pdu s m, reached c u -> wf pdu -> bpos pdu = bstart pdu -> vtime (tv_time i) -> on_channel i = true -> link_reached s ->
  forall xs, block_sent (tv_chan i) (window pdu) (map (fun x => ASdu (fst x) (snd x)) xs) -> (ml_next m + N.of_nat (length xs) <= 4294967295)%N ->
  Forall (fun x => fate_of (snd x) <> Dies) xs ->
  exists ups s' m', rx_block i pdu u s m = Ok (ups, u, s', m') /\ link_reached s' /\ get_all (map (fun x => (tv_time i, fst x, snd x)) xs) (ml_next m) ups (ml_next m').
Proof. exact path_sent. Qed.
Print Assumptions C58_sent.
(** one message for call control and one for mobility management in one slot *)
Example C58_sent_met : (exists u, reached DlFacts.ex_cell u) /\ wf (ex_bits ex_msg_block) /\ bpos (ex_bits ex_msg_block) = bstart (ex_bits ex_msg_block) /\ vtime (tv_time ex_full) /\ on_channel ex_full = true /\
  link_reached llc_new /\ block_sent (tv_chan ex_full) (window (ex_bits ex_msg_block)) (map (fun x => ASdu (fst x) (snd x)) ex_msgs) /\
  Forall (fun x => fate_of (snd x) <> Dies) ex_msgs /\ map (fun x => fate_of (snd x)) ex_msgs = [ForCmce (ex_text 19); ForMm (ex_text 31)].
Proof.
  destruct ex_reached as (u & _ & R). split; [exists u; exact R|]. destruct (ex_bits_ok ex_msg_block) as (A & B & V). destruct ex_full_ok as (C & D).
  split; [exact A|]. split; [exact B|]. split; [exact C|]. split; [exact D|]. split; [exact link_new|]. rewrite V. split; [exact (proj2 ex_msg_sent)|].
  split; [|reflexivity]. constructor; [discriminate|]. constructor; [discriminate|constructor].
Qed.
(** A radio's acknowledged data, with or without an acknowledgement in it, arrives as the message it contains. *)
Theorem C58_understood : forall nr ns x, fate_of (bl_data ns (for_mm x)) = ForMm x /\ fate_of (bl_data ns (for_cmce x)) = ForCmce x /\
  fate_of (bl_adata nr ns (for_mm x)) = ForMm x /\ fate_of (bl_adata nr ns (for_cmce x)) = ForCmce x.
Proof. exact fate_sent. Qed.
Print Assumptions C58_understood.
(** Refuted: the same with a frame check sequence.  Layer 3 gets the message and the 32 bits of the check sequence. *)
Theorem C58_fcs_refuted : forall ns x y, length y = 32 -> bits_val y = fcs_of (for_cmce x) ->
  fate_of ([false; true; false; true; ns] ++ for_cmce x ++ y) = ForCmce (x ++ y) /\ x ++ y <> x.
Proof. exact fate_fcs_kept. Qed.
Print Assumptions C58_fcs_refuted.
Example C58_fcs_met : let x := ex_text 19 in let y := bits_of 32 (fcs_of (for_cmce x)) in length y = 32 /\ bits_val y = fcs_of (for_cmce x).
Proof. vm_compute. split; reflexivity. Qed.

(** Over any history of the mobile link entity: every message received goes to the entity its discriminator names; every
    message of mobility management or call control goes to the link layer once, in the order given, its discriminator in front,
    for the same address, with the same service, channel allocation and reporter; network time is sent when due, and nothing
    else is. *)
Theorem C58_history : forall zone evs, Forall event_ok evs -> (N.of_nat (length evs) < MAXH)%N ->
  exists outs s', mle_run evs (mle_new zone) = Ok (outs, s') /\ answers_all zone evs 1 outs (ml_next s').
Proof. exact run_new. Qed.
Print Assumptions C58_history.
Definition ex_history : list mle_event :=
  [MeCmce (mk_time 1 1 1 0) (ex_bits (ex_text 20)) ex_radio true false None None; MeTick 5 (mk_time 1 1 20 3);
   MeInd (mk_tlaind false (mk_time 2 1 20 3) ex_radio 4%Z (Some (ex_bits (for_mm (ex_text 9)))) false); MeMm (mk_time 2 1 20 3) (ex_bits (ex_text 30)) ex_radio false (Some 7%N)].
Example C58_history_met : Forall event_ok ex_history /\ match mle_run ex_history (mle_new true) with
  | Ok ([DnUnit a; DnUnit b; UpMm c; DnData d], _) => window (lq_sdu a) = disc_cmce ++ ex_text 20 /\ window (lq_sdu b) = time_message 5 /\ remaining (Mobility.di_sdu c) = ex_text 9 /\ window (lq_sdu d) = disc_mm ++ ex_text 30
  | _ => False end.
Proof.
  split; [|vm_compute; repeat split].
  pose proof (ex_bits_ok (ex_text 20)) as (A1 & A2 & _). pose proof (ex_bits_ok (for_mm (ex_text 9))) as (B1 & B2 & B3). pose proof (ex_bits_ok (ex_text 30)) as (C1 & C2 & _).
  constructor; [exact (conj A1 A2)|]. constructor; [split; [reflexivity|unfold vtime; cbn [tm_t tm_f tm_m tm_h]; lia]|]. constructor; [|constructor; [exact (conj (conj C1 C2) eq_refl)|constructor]].
  split; [reflexivity|]. split; [reflexivity|]. eexists. split; [reflexivity|]. split; [exact (conj B1 B2)|]. rewrite B3. discriminate.
Qed.

(** A block without a PDU that stops the upper MAC, and without an SDU of fate [Dies], stops nothing above it either. *)
Theorem C47_layers_partial : forall c u i pdu s m, reached c u -> wf pdu -> bpos pdu = bstart pdu -> vtime (tv_time i) -> on_channel i = true -> link_reached s ->
  forall u' outs, rx_tmv_unitdata_ind i pdu u = Ok (u', outs) -> room_for outs m ->
  (rx_block i pdu u s m = Panic <-> exists t a l, In (t, a, l) (handed_up outs) /\ fate_of l = Dies).
Proof. exact path_dies. Qed.
Print Assumptions C47_layers_partial.
(** Refuted: in every reachable state a block with one SDU of that kind stops the program ... *)
Theorem C47_layers_refuted : forall c u i pdu s m, reached c u -> wf pdu -> bpos pdu = bstart pdu -> vtime (tv_time i) -> on_channel i = true -> link_reached s ->
  forall xs a l, block_sent (tv_chan i) (window pdu) (map (fun x => ASdu (fst x) (snd x)) xs) -> (ml_next m + N.of_nat (length xs) <= 4294967295)%N ->
  In (a, l) xs -> fate_of l = Dies -> rx_block i pdu u s m = Panic.
Proof. exact path_killed. Qed.
Print Assumptions C47_layers_refuted.
(** ... and these are of that kind: link layer PDU types 13 and 14; unacknowledged data; data without data; packet data; a
    frame check sequence without data. *)
Theorem C47_fates_refuted :
  (forall l x y, x <> y -> fate_of (true :: true :: x :: y :: l) = Dies) /\ (forall l, fate_of (false :: false :: true :: false :: l) = Dies) /\
  (forall nr ns, fate_of (bl_data ns []) = Dies /\ fate_of (bl_adata nr ns []) = Dies) /\
  (forall ns l, fate_of (bl_data ns (true :: false :: false :: l)) = Dies) /\ (forall ns l, length l = 32 -> fate_of ([false; true; false; true; ns] ++ l) = Dies).
Proof. exact (conj fate_types (conj fate_udata (conj fate_no_data (conj fate_packet fate_only_fcs)))). Qed.
Print Assumptions C47_fates_refuted.
Example C47_layers_met : block_sent UcSchF (window (ex_bits ex_killer)) (map (fun x => ASdu (fst x) (snd x)) [(ex_radio, [false; false; true; false] ++ ex_text 23)]) /\
  match run_from DlFacts.ex_cell ex_t0 ex_evs with
  | Ok u => match rx_tmv_unitdata_ind ex_full (ex_bits ex_killer) u, rx_block ex_full (ex_bits ex_killer) u llc_new (mle_new false), rx_block ex_full (ex_bits ex_msg_block) u llc_new (mle_new false) with
            | Ok _, Panic, Ok ([UpCmce _; UpMm _], _, _, _) => true
            | _, _, _ => false end
  | _ => false end = true.
Proof. split; [exact (proj2 ex_killer_sent)|]. vm_compute. reflexivity. Qed.

(** C51: the broadcast carries the time as D-NWRK-BROADCAST, ... *)
Theorem C51_broadcast_pdu : forall p, nwrk_valid p = true -> conveys (nwrk_write p) nwrk_read p (nwrk_wire p).
Proof. exact nwrk_conveys. Qed.
Print Assumptions C51_broadcast_pdu.
Example C51_broadcast_pdu_met : nwrk_valid (mk_nwrk 513 2 (Some 123456789012%N) (Some 0%N) None) = true /\ length (nwrk_wire (mk_nwrk 513 2 (Some 123456789012%N) (Some 0%N) None)) = 75.
Proof. split; reflexivity. Qed.
(** ... to everybody, exactly once in any hyperframe's worth of slots, whatever else goes on. *)
Theorem C51_broadcast_once : forall evs t n, Forall event_ok evs -> (N.of_nat (length evs) < MAXH)%N -> vtime t -> Z.of_nat n = 4320%Z ->
  map snd (clock_ticks evs) = map (fun k => add_timeslots t (Z.of_nat k)) (seq 0 n) ->
  exists outs s', mle_run evs (mle_new true) = Ok (outs, s') /\
    exists now at_, In (now, at_) (clock_ticks evs) /\ due at_ = true /\ announced outs = [(at_, everybody, time_pdu now)].
Proof. exact hyperframe_announced. Qed.
Print Assumptions C51_broadcast_once.
Example C51_broadcast_once_met : let evs := map (fun k => MeTick 5 (add_timeslots (mk_time 2 7 33 9) (Z.of_nat k))) (seq 0 (Z.to_nat 4320)) in
  Forall event_ok evs /\ map snd (clock_ticks evs) = map (fun k => add_timeslots (mk_time 2 7 33 9) (Z.of_nat k)) (seq 0 (Z.to_nat 4320)).
Proof.
  cbv zeta. split.
  - apply Forall_forall. intros e I. apply in_map_iff in I. destruct I as (k & <- & _). split; [reflexivity|apply add_valid].
  - generalize (seq 0 (Z.to_nat 4320)). intros l. induction l as [|k l IH]; [reflexivity|]. cbn [map clock_ticks flat_map app snd]. f_equal. exact IH.
Qed.

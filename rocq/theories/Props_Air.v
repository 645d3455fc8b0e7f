(** Property theorems: the physical framing, the lower and the upper MAC together (C60, C47). *)
From Coq Require Import Arith.
From Verif Require Import Base BitBuffer BitBufferProofs Codec TypedFields MacFields MacPdus Layout MacSpec TdmaTime TdmaTimeProofs UlSched UmacPrecomps UmacBs UlBlockSpec UlBlockFacts
  ErrorControl LmacSpec Slotter SlotterSpec DlSched SlotSpec LmacBs BsMac AirSpec AirProofs AirFacts.
From Verif Require Scrambler DlFacts.
Open Scope nat_scope.

(** After any history: every tick puts exactly one burst on the air, nothing else puts one there; what a radio decodes from the burst,
    even with one bit of each block wrong, is what the cell's configuration, the clock and the calls require of the slot. *)
Theorem C60_every_burst : forall c s log, cell_ok c = true -> bs_reached c s log -> forall pre e xs ws post, log = pre ++ (e, xs, ws) :: post ->
  match e with BeTick cn t => exists w, ws = [b2b w] /\ burst_true c cn t (bs_told (events_of pre)) w | _ => ws = [] end.
Proof. exact bursts. Qed.
Print Assumptions C60_every_burst.
(** The burst carries the whole slot the upper MAC made, for the next timeslot: every bit of both blocks and of the access assignment. *)
Theorem C60_whole_slot : forall c s log, cell_ok c = true -> bs_reached c s log -> forall pre e xs ws post, log = pre ++ (e, xs, ws) :: post ->
  match e with
  | BeTick cn t => exists k x w, slots_of xs = [k] /\ sl_ts k = add_timeslots t 1 /\ ws = [b2b w] /\ kind_of k = Some x /\
      on_air (Scrambler.scramb_get_init (cf_mcc c) (cf_mnc c) (cf_colour c)) x (window (bk_buf (sl_blk1 k))) (second_of k) (window (bk_buf (sl_bbk k))) w
  | _ => slots_of xs = []
  end.
Proof. exact whole_slot. Qed.
Print Assumptions C60_whole_slot.
(** If the upper MAC finishes its slot, the lower MAC and the framing send it. *)
Theorem C60_never_stuck : forall c s log, cell_ok c = true -> bs_reached c s log -> forall cn t u o m, um_step c (UeTick cn t) (st_um s) = Ok (u, o, m) ->
  exists s' xs w, bs_step c (BeTick cn t) s = Ok (s', xs, [w]) /\ length w = 510.
Proof. exact never_stuck. Qed.
Print Assumptions C60_never_stuck.
Example C60_downlink_met : cell_ok DlFacts.ex_cell = true /\ exists s log, bs_reached DlFacts.ex_cell s log /\ last_tick (rev log) = Some (mk_time 4 15 1 0) /\ length log = 9.
Proof. split; [reflexivity|]. destruct ex_busy as (s & log & A & B & _ & _ & C). exists s, log. auto. Qed.

(** A burst looked at after the tick for time [now] was received in the timeslot [now - 2].  Which channel it is taken for is decided
    by the slot that was made for just that timeslot. *)
Theorem C60_right_timeslot : forall c s log now, cell_ok c = true -> bs_reached c s log -> last_tick (rev log) = Some now ->
  forall k, nth_error (rev (sent log)) 3 = Some k -> sl_ts k = add_timeslots now (-2).
Proof. exact due_slot. Qed.
Print Assumptions C60_right_timeslot.
(** A random access: the upper MAC gets the message the radio sent, once; nothing, if the checksum is wrong. *)
Theorem C60_access_burst : forall c s log now, cell_ok c = true -> bs_reached c s log -> last_tick (rev log) = Some now -> stolen_since (rev log) = false ->
  let code := Scrambler.scramb_get_init (cf_mcc c) (cf_mnc c) (cf_colour c) in
  forall t1 tr b1 b2 t2 m, length t1 = 4 -> length b1 = 84 -> length tr = 30 -> length b2 = 84 -> length t2 = 4 -> arrives SchHu code (b1 ++ b2) m ->
  exists es, gives_block (add_timeslots now (-2)) UcSchHu Block1 code m es /\ bs_step c (BeBurst TrainExtended (b2b (nub t1 tr b1 b2 t2))) s = um_do_all c es s.
Proof. exact access_burst. Qed.
Print Assumptions C60_access_burst.
(** A whole slot of signalling. *)
Theorem C60_signalling_burst : forall c s log now, cell_ok c = true -> bs_reached c s log -> last_tick (rev log) = Some now -> stolen_since (rev log) = false ->
  let code := Scrambler.scramb_get_init (cf_mcc c) (cf_mnc c) (cf_colour c) in
  forall t1 tr b1 b2 t2 m, length t1 = 4 -> length b1 = 216 -> length tr = 22 -> length b2 = 216 -> length t2 = 4 -> speech_due log = false -> arrives SchF code (b1 ++ b2) m ->
  exists es, gives_block (add_timeslots now (-2)) UcSchF BothBlocks code m es /\ bs_step c (BeBurst TrainNormal1 (b2b (nub t1 tr b1 b2 t2))) s = um_do_all c es s.
Proof. exact full_burst. Qed.
Print Assumptions C60_signalling_burst.
(** ... so that whole SDUs in it reach the link layer as they were sent, each once and in order, and nothing else happens. *)
Theorem C60_burst_to_link : forall c s log now, cell_ok c = true -> bs_reached c s log -> last_tick (rev log) = Some now -> stolen_since (rev log) = false ->
  let code := Scrambler.scramb_get_init (cf_mcc c) (cf_mnc c) (cf_colour c) in
  forall t1 tr b1 b2 t2 msg xs, length t1 = 4 -> length b1 = 216 -> length tr = 22 -> length b2 = 216 -> length t2 = 4 -> speech_due log = false -> arrives SchF code (b1 ++ b2) (Some msg) ->
  block_sent UcSchF msg (map (fun x => ASdu (fst x) (snd x)) xs) ->
  exists e outs, bs_step c (BeBurst TrainNormal1 (b2b (nub t1 tr b1 b2 t2))) s = Ok (s, [(e, outs, [])], []) /\
    Forall2 (fun x o => exists b, wf b /\ bpos b = bstart b /\ window b = snd x /\ o = OutSdu (add_timeslots now (-2)) b (fst x) code) xs outs.
Proof. exact burst_to_link. Qed.
Print Assumptions C60_burst_to_link.
(** A slot of speech: always one block, of 274 bits; unchanged if no bit was wrong, its protected bits unchanged if one was. *)
Theorem C60_speech_burst : forall c s log now, cell_ok c = true -> bs_reached c s log -> last_tick (rev log) = Some now -> stolen_since (rev log) = false ->
  let code := Scrambler.scramb_get_init (cf_mcc c) (cf_mnc c) (cf_colour c) in
  forall t1 tr b1 b2 t2, length t1 = 4 -> length b1 = 216 -> length tr = 22 -> length b2 = 216 -> length t2 = 4 -> speech_due log = true ->
  exists data, bs_step c (BeBurst TrainNormal1 (b2b (nub t1 tr b1 b2 t2))) s = um_do_all c [UeUlVoice (add_timeslots now (-2)) (ts_of (add_timeslots now (-2))) (b2b data)] s /\ length data = 274 /\
    (forall msg, speech_arrives code (b1 ++ b2) msg -> forall k, k < 274 -> unprotected k = false -> nth k data false = nth k msg false) /\
    (forall msg, speech_clean code (b1 ++ b2) msg -> data = msg).
Proof. exact speech_burst. Qed.
Print Assumptions C60_speech_burst.
(** Two half slots: the first is signalling; the second is signalling if no speech is due or if the first says that it is stolen, too; if
    speech is due and the first does not say so, the second is ignored; if the first says so although no speech is due, the program stops. *)
Theorem C60_half_slots : forall c s log now, cell_ok c = true -> bs_reached c s log -> last_tick (rev log) = Some now -> stolen_since (rev log) = false ->
  let code := Scrambler.scramb_get_init (cf_mcc c) (cf_mnc c) (cf_colour c) in
  forall t1 tr b1 b2 t2 m1 m2, length t1 = 4 -> length b1 = 216 -> length tr = 22 -> length b2 = 216 -> length t2 = 4 -> arrives Stch code b1 m1 -> arrives Stch code b2 m2 ->
  exists es1 es2, gives_block (add_timeslots now (-2)) UcStch Block1 code m1 es1 /\ gives_block (add_timeslots now (-2)) UcStch Block2 code m2 es2 /\
    bs_step c (BeBurst TrainNormal2 (b2b (nub t1 tr b1 b2 t2))) s =
    bind (um_do_all c es1 s) (fun x => let '(s1, xs, ws) := x in
      if xorb (says_stolen xs) (speech_due log) then (if says_stolen xs then Panic else Ok (s1, xs, ws))
      else bind (um_do_all c es2 s1) (fun y => let '(s2, xs2, ws2) := y in Ok (s2, xs ++ xs2, ws ++ ws2))).
Proof. exact half_bursts. Qed.
Print Assumptions C60_half_slots.
(** Both kinds of timeslot; a message of two SDUs, a random access, a half slot, with a wrong bit each; speech. *)
Example C60_uplink_met : let code := Scrambler.scramb_get_init (cf_mcc DlFacts.ex_cell) (cf_mnc DlFacts.ex_cell) (cf_colour DlFacts.ex_cell) in
  (exists s log, bs_reached DlFacts.ex_cell s log /\ last_tick (rev log) = Some (mk_time 4 14 1 0) /\ stolen_since (rev log) = false /\ speech_due log = false) /\
  (exists s log, bs_reached DlFacts.ex_cell s log /\ last_tick (rev log) = Some (mk_time 4 15 1 0) /\ stolen_since (rev log) = false /\ speech_due log = true) /\
  (exists b1 b2, length b1 = 216 /\ length b2 = 216 /\ arrives SchF code (b1 ++ b2) (Some ex_two)) /\ block_sent UcSchF ex_two (map (fun x => ASdu (fst x) (snd x)) [(ex_radio, ex_text 27); (ex_radio, ex_text 40)]) /\
  (exists b1 b2, length b1 = 84 /\ length b2 = 84 /\ arrives SchHu code (b1 ++ b2) (Some ex_quiet_block)) /\
  (exists b1, length b1 = 216 /\ arrives Stch code b1 (Some (ex_text 124))) /\
  (exists b1 b2, length b1 = 216 /\ length b2 = 216 /\ speech_clean code (b1 ++ b2) (ex_text 274)).
Proof.
  cbv zeta. pose proof (code_small DlFacts.ex_cell eq_refl) as CS. unfold SlotProofs.code_of in CS. revert CS. generalize (Scrambler.scramb_get_init (cf_mcc DlFacts.ex_cell) (cf_mnc DlFacts.ex_cell) (cf_colour DlFacts.ex_cell)). intros code CS.
  split; [destruct ex_idle as (s & log & A & B & C & D & _); exists s, log; auto|]. split; [destruct ex_busy as (s & log & A & B & C & D & _); exists s, log; auto|].
  split; [destruct (radio_sends SchF 268 432 code ex_two 77 eq_refl eq_refl CS) as (r & L & A); [lia|]; destruct (in_two r 216 216 L) as (b1 & b2 & -> & L1 & L2); exists b1, b2; auto|].
  split; [exact (proj2 ex_two_sent)|].
  split; [destruct (radio_sends SchHu 92 168 code ex_quiet_block 5 eq_refl eq_refl CS) as (r & L & A); [lia|]; destruct (in_two r 84 84 L) as (b1 & b2 & -> & L1 & L2); exists b1, b2; auto|].
  split; [destruct (radio_sends Stch 124 216 code (ex_text 124) 5 eq_refl eq_refl CS) as (r & L & A); [lia|]; exists r; auto|].
  destruct (radio_speaks code (ex_text 274) eq_refl CS) as (r & L & A). destruct (in_two r 216 216 L) as (b1 & b2 & -> & L1 & L2). exists b1, b2. auto.
Qed.

(** No burst, whatever its bits, stops the base station: unless a block that passes its checksum contains one of the PDUs that stop the upper
    MAC, or the first of two half slots announces a stolen second one where no speech is due. *)
Theorem C47_lower_mac_partial : forall c s log now, cell_ok c = true -> bs_reached c s log -> last_tick (rev log) = Some now -> stolen_since (rev log) = false ->
  let code := Scrambler.scramb_get_init (cf_mcc c) (cf_mnc c) (cf_colour c) in
  (forall t1 tr b1 b2 t2, length t1 = 4 -> length b1 = 84 -> length tr = 30 -> length b2 = 84 -> length t2 = 4 -> harmless SchHu code (b1 ++ b2) ->
     exists s' xs, bs_step c (BeBurst TrainExtended (b2b (nub t1 tr b1 b2 t2))) s = Ok (s', xs, [])) /\
  (forall t1 tr b1 b2 t2, length t1 = 4 -> length b1 = 216 -> length tr = 22 -> length b2 = 216 -> length t2 = 4 ->
     (speech_due log = true \/ harmless SchF code (b1 ++ b2) -> exists s' xs, bs_step c (BeBurst TrainNormal1 (b2b (nub t1 tr b1 b2 t2))) s = Ok (s', xs, [])) /\
     (harmless Stch code b1 -> harmless Stch code b2 -> speech_due log = true \/ ~ announces_stolen code b1 -> exists s' xs, bs_step c (BeBurst TrainNormal2 (b2b (nub t1 tr b1 b2 t2))) s = Ok (s', xs, []))).
Proof. exact bursts_survived. Qed.
Print Assumptions C47_lower_mac_partial.
(** Refuted: such a half slot, sent by any radio, whatever comes in the second half, stops the program. *)
Theorem C47_lower_mac_refuted : forall c s log now, cell_ok c = true -> bs_reached c s log -> last_tick (rev log) = Some now -> stolen_since (rev log) = false ->
  let code := Scrambler.scramb_get_init (cf_mcc c) (cf_mnc c) (cf_colour c) in
  forall t1 tr b1 b2 t2 p a rest, length t1 = 4 -> length b1 = 216 -> length tr = 22 -> length b2 = 216 -> length t2 = 4 -> speech_due log = false ->
  mdata_valid p = true -> mu_addr p = Some a -> mu_len p = Some 62%N -> arrives Stch code b1 (Some (enc (mdata_layout p) ++ rest)) ->
  bs_step c (BeBurst TrainNormal2 (b2b (nub t1 tr b1 b2 t2))) s = Panic.
Proof. exact half_kills. Qed.
Print Assumptions C47_lower_mac_refuted.
Example C47_lower_mac_met : (exists s log, bs_reached DlFacts.ex_cell s log /\ last_tick (rev log) = Some (mk_time 4 14 1 0) /\ stolen_since (rev log) = false /\ speech_due log = false) /\
  let p := mk_mul false false (Some ex_radio) None (Some 62%N) None None in mdata_valid p = true /\
  exists b1, length b1 = 216 /\ arrives Stch (Scrambler.scramb_get_init (cf_mcc DlFacts.ex_cell) (cf_mnc DlFacts.ex_cell) (cf_colour DlFacts.ex_cell)) b1 (Some (enc (mdata_layout p) ++ ex_text 87)).
Proof.
  split; [destruct ex_idle as (s & log & A & B & C & D & _); exists s, log; auto|]. cbv zeta. split; [reflexivity|].
  destruct (radio_sends Stch 124 216 (Scrambler.scramb_get_init (cf_mcc DlFacts.ex_cell) (cf_mnc DlFacts.ex_cell) (cf_colour DlFacts.ex_cell)) (enc (mdata_layout (mk_mul false false (Some ex_radio) None (Some 62%N) None None)) ++ ex_text 87) 5 eq_refl eq_refl (code_small DlFacts.ex_cell eq_refl)) as (r & L & A); [lia|].
  exists r. auto.
Qed.

(** C67: a mobile station makes of the bursts of a base station just what was put into them, and hands up every message. *)
From Coq Require Import Arith Permutation.
From Verif Require Import Base BitBuffer BitBufferProofs Layout MacFields MacPdus MacSpec MacBroadcast TdmaTime TdmaTimeProofs UlSched ErrorControl Slotter SlotterSpec DlSched DlSchedSpec UmacPrecomps UmacBs SlotSpec DlTrace LmacBs BsMac AirSpec HeardSpec UmacMs MsSpec LmacMs MobileSpec.
From Verif Require Scrambler DlFacts HeardFacts UmacMsFacts LmacMsFacts.
Open Scope nat_scope.

(** Every burst of every history of a base station: a mobile station that knows the cell's scrambling code and has the base
    station's time gives its upper MAC, of the blocks as demodulated with at most one bit of each wrong, exactly the access
    assignment and the messages that were put into the burst, and nothing of speech.  Missing: signalling in stolen half
    slots, which is never decoded, and what [told_apart] rules out. *)
Theorem C67_every_burst_partial : forall c s log pre cn t xs ws post, cell_ok c = true -> bs_reached c s log -> log = pre ++ (BeTick cn t, xs, ws) :: post ->
  let code := Scrambler.scramb_get_init (cf_mcc c) (cf_mnc c) (cf_colour c) in let t' := add_timeslots t 1 in
  exists k x w, slots_of xs = [k] /\ kind_of k = Some x /\ ws = [b2b w] /\
    (told_apart t' (bs_told (events_of pre) (Z.to_nat (tm_t t'))) x ->
     forall blks lm um, demodulated x w blks -> lms_code lm = Some code -> lms_time lm = Some t ->
     exists evs, slot_brings code t' x (window (bk_buf (sl_blk1 k))) (second_of k) (window (bk_buf (sl_bbk k))) evs /\
       mob_run [MvTick t; MvSlot blks] (mk_mobile lm um) = mob_upper evs (mk_mobile (mk_lms (Some code) (Some t') false) um)).
Proof. exact LmacMsFacts.every_burst. Qed.
Print Assumptions C67_every_burst_partial.
(** a history with bursts of synchronisation, signalling and speech *)
Example C67_every_burst_met : exists s log, bs_reached DlFacts.ex_cell s log /\ forall x, In x [KSync; KSignalling; KTraffic] ->
  exists pre cn t xs ws post k, log = pre ++ (BeTick cn t, xs, ws) :: post /\ slots_of xs = [k] /\ kind_of k = Some x /\ told_apart (add_timeslots t 1) (bs_told (events_of pre) (Z.to_nat (tm_t (add_timeslots t 1)))) x.
Proof. exact LmacMsFacts.ex_bursts. Qed.

(** Every history can be listened to. *)
Theorem C67_overheard : forall c s log, cell_ok c = true -> bs_reached c s log -> exists mevs, overhears log mevs.
Proof. exact LmacMsFacts.reached_overheard. Qed.
Print Assumptions C67_overheard.

(** From the base station's upper MAC to the mobile station's link layer: over every history of a base station, a mobile station
    that listens from the first burst on, in whatever state earlier blocks left its upper MAC, never goes down, keeps time with the
    base station, and hands up, of each timeslot, messages whose contents with those that still wait are just the ones asked for.
    In full this would need neither that messages are not mixed on the air (C17), nor that no PDU ends within its own header
    (C66), nor that calls stay off timeslot 1. *)
Theorem C67_base_to_mobile_partial : forall c s log t mevs lm um before out0, cell_ok c = true -> (forall k, 1 <= k <= 4 -> bs_history c k s log) ->
  (forall k, 1 <= k <= 4 -> Forall UmacMsFacts.short (sends k (fun _ => idle_ts) (events_of log))) ->
  Forall first_free (events_of log) -> starts_at log t -> overhears log mevs ->
  lms_code lm = Some (Scrambler.scramb_get_init (cf_mcc c) (cf_mnc c) (cf_colour c)) -> lms_time lm = Some t -> ms_run before ums_new = Ok (um, out0) ->
  exists slots, (forall k, 1 <= k <= 4 -> receives c k log (slots k)) /\
  ((forall k, 1 <= k <= 4 -> hear (slots k) <> Mixed /\ Forall uncut (slots k)) ->
   exists m out, mob_run mevs (mk_mobile lm um) = Ok (m, out) /\ forall k, 1 <= k <= 4 -> exists got part, hear (slots k) = Clear got part /\
     Permutation (sends k (fun _ => idle_ts) (events_of log)) (flat_map payload got ++ flat_map payload (queued k s part)) /\ handed (sdus_on k out) got).
Proof. exact LmacMsFacts.mobile_gets. Qed.
Print Assumptions C67_base_to_mobile_partial.
(** A message of 29 bits for a group and one of 157 bits for a radio, which goes in two pieces, in eight bursts, while a call
    occupies timeslot 2. *)
Example C67_base_to_mobile_met : exists s log mevs m out slots got, (forall k, 1 <= k <= 4 -> bs_history DlFacts.ex_cell k s log) /\ sends 1 (fun _ => idle_ts) (events_of log) = HeardFacts.ex_wanted /\
  (forall k, 1 <= k <= 4 -> Forall UmacMsFacts.short (sends k (fun _ => idle_ts) (events_of log))) /\ Forall first_free (events_of log) /\ starts_at log UmacMsFacts.ex_time /\ vw_dl (bs_told (events_of log) 2) = Some 5%N /\ overhears log mevs /\ length mevs = 16 /\
  (forall k, 1 <= k <= 4 -> receives DlFacts.ex_cell k log (slots k) /\ hear (slots k) <> Mixed /\ Forall uncut (slots k)) /\
  mob_run mevs (mk_mobile (mk_lms (Some (Scrambler.scramb_get_init (cf_mcc DlFacts.ex_cell) (cf_mnc DlFacts.ex_cell) (cf_colour DlFacts.ex_cell))) (Some UmacMsFacts.ex_time) false) ums_new) = Ok (m, out) /\
  hear (slots 1) = Clear got None /\ flat_map payload got = HeardFacts.ex_wanted /\ handed (sdus_on 1 out) got.
Proof. exact LmacMsFacts.ex_mobile. Qed.

(** Refuted: a mobile station that is started hears a base station.  Whatever bursts it gets and whatever it is configured with,
    nothing ever leaves its upper MAC: the scrambling code and the time of SYNC are never taken over. *)
Theorem C67_deaf_refuted : forall evs m out, mob_run evs mobile_new = Ok (m, out) -> out = [].
Proof. exact LmacMsFacts.starts_deaf. Qed.
Print Assumptions C67_deaf_refuted.
Example C67_deaf_met : exists m, mob_run LmacMsFacts.ex_deaf mobile_new = Ok (m, []) /\ ms_mcc (mo_um m) = Some 204%N.
Proof. exact LmacMsFacts.ex_deaf_runs. Qed.

(** Refuted: a mobile station takes over the hyperframe of the cell.  Every meaningful SYSINFO with another hyperframe than its own
    stops the program at the next tick, whose time is still that of the old hyperframe. *)
Theorem C67_hyperframe_refuted : forall i b lm um p rest h, wf b -> bpos b = bstart b -> mi_chan i = Bnch -> (mi_blk i = Block1 \/ mi_blk i = Block2) -> si_valid p = true -> window b = enc (si_layout p) ++ rest ->
  si_hyper p = Some h -> Z.of_N h <> tm_h (mi_time i) ->
  exists m out, mob_upper [MeBlock i b] (mk_mobile lm um) = Ok (m, out) /\ forall t, tm_h t = tm_h (mi_time i) -> mob_step (MvTick t) m = Panic.
Proof. exact LmacMsFacts.other_hyperframe. Qed.
Print Assumptions C67_hyperframe_refuted.
Example C67_hyperframe_met : si_valid UmacMsFacts.ex_si = true /\ si_hyper UmacMsFacts.ex_si = Some 7%N /\ tm_h UmacMsFacts.ex_time = 0%Z.
Proof. repeat split. Qed.

(** What a radio finds in a burst of the base station, and what a radio's burst means to it. *)
From Verif Require Import Base BitBuffer BitBufferProofs Codec TdmaTime TdmaTimeProofs MacBroadcast MleBroadcast UmacPrecomps UmacBs ErrorControl LmacSpec Slotter SlotterSpec UlSched DlSched SlotSpec UlBlockSpec LmacBs BsMac.
From Verif Require CallControl Scrambler Layout MacSpec.
Open Scope nat_scope.

(** * Channels *)
(** [r] is [l] with at most one bit wrong *)
Definition near (l r : list bool) : Prop := exists e, length e = length l /\ weight e <= 1 /\ r = xorl l e.
(** The bits [air], scrambled with [code], carry the message [msg] on the control channel [c], on the access
    assignment channel, as speech: this is what a receiver decodes, even with one bit of the block wrong. *)
Definition holds_msg (c : lchan) (code : N) (air msg : list bool) : Prop :=
  forall r b, near air r -> fresh_with b r -> exists o, decode_cp c b false (Some code) = Ok (Some o, true) /\ fresh_with o msg.
Definition holds_aach (code : N) (air msg : list bool) : Prop :=
  forall r b, near air r -> fresh_with b r -> exists o, decode_aach b code = Ok o /\ fresh_with o msg.
(** (of speech only the protected bits survive a wrong bit) *)
Definition holds_speech (code : N) (air msg : list bool) : Prop :=
  forall r b, near air r -> fresh_with b r -> exists o, decode_tp TchS b code = Ok (Some o, true) /\ wf o /\ bpos o = bstart o /\ length (window o) = 274 /\
    (r = air -> window o = msg) /\ (forall i, i < 274 -> unprotected i = false -> nth i (window o) false = nth i msg false).

(** * Bursts of the base station, EN 300 392-2 clause 9.4.4.2 *)
(** [n] bits of the burst from bit [a] on, bits counted from 0 *)
Definition part (w : list bool) (a n : nat) : list bool := firstn n (skipn a w).
(** [msg1] and [msg2] are the messages in the first and in the second block, [acc] is the access assignment. *)
Definition on_air (code : N) (x : kind) (msg1 msg2 acc : list bool) (w : list bool) : Prop :=
  length w = 510 /\
  match x with
  | KSync => part w 214 38 = sync /\ holds_msg Bsch Scrambler.SCRAMB_INIT (part w 94 120) msg1 /\ holds_msg Bnch code (part w 282 216) msg2 /\ holds_aach code (part w 252 30) acc
  | _ =>
      holds_aach code (part w 230 14 ++ part w 266 16) acc /\
      match x with
      | KHalf => part w 244 22 = normal2 /\ holds_msg SchHd code (part w 14 216) msg1 /\ holds_msg Bnch code (part w 282 216) msg2
      | KSignalling => part w 244 22 = normal1 /\ holds_msg SchF code (part w 14 216 ++ part w 282 216) msg1
      | KTraffic => part w 244 22 = normal1 /\ holds_speech code (part w 14 216 ++ part w 282 216) msg1
      | _ => (* the second half of what speech takes when nothing is stolen *)
          part w 244 22 = normal2 /\ holds_msg Stch code (part w 14 216) msg1 /\
          exists first, length first = 216 /\ holds_speech code (first ++ part w 282 216) msg2
      end
  end.
(** a receiver that has decoded [l] reads [x] in it *)
Definition says {A} (r : reader A) (l : list bool) (x : A) : Prop := forall b, fresh_with b l -> reads_all r b x.

(** * The burst sent after the tick for time [now] *)
(** Call control has told the base station [view]; [w] is the burst. *)
Definition burst_true (c : cell_cfg) (connected : bool) (now : tdma_time) (view : nat -> ts_view) (w : list bool) : Prop :=
  let t := add_timeslots now 1 in let v := view (Z.to_nat (tm_t t)) in
  let code := Scrambler.scramb_get_init (cf_mcc c) (cf_mnc c) (cf_colour c) in
  exists x msg1 msg2 acc, kind_fits t v x = true /\ on_air code x msg1 msg2 acc w /\
    (x = KSync -> says (then_read sync_read msync_read) msg1 (sync_says c t, msync_says c)) /\
    (x = KSync \/ x = KHalf -> exists off, offset_id c = Some off /\ says (then_read si_read msi_read) msg2 (sysinfo_says c off t, msysinfo_says c connected) /\
       exists rest, msg2 = Layout.enc (MacSpec.si_layout (sysinfo_says c off t)) ++ rest) /\
    (if (tm_f t =? 18)%Z then says a18_read acc aach18_says else says aa_read acc (aach_says t v)).

(** the message of the second block of a slot *)
Definition second_of (k : dl_slot) : list bool := match sl_blk2 k with Some b => window (bk_buf b) | None => [] end.

(** * Histories of the base station *)
Definition bs_log : Type := list (bs_event * list um_entry * list (list N)).
(** what call control said *)
Definition bs_told (evs : list bs_event) : nat -> ts_view :=
  fold_left (fun v e => match e with BeControl k => told v (UeControl k) | _ => v end) evs (fun _ => idle_ts).
(** usage markers of traffic are 4 to 63; speech from the network is bytes; received bits are bits *)
Definition bs_fine (e : bs_event) : Prop :=
  match e with
  | BeControl k => marked (UeControl k) = true
  | BeVoice _ data => Forall (fun x => (x < 256)%N) data
  | BeBurst _ bits => exists l, bits = b2b l
  | _ => True
  end.
(** the slots the upper MAC asked for, oldest first *)
Definition slots_in (o : list um_out) : list dl_slot := flat_map (fun x => match x with OutSlot k => [k] | _ => [] end) o.
Definition slots_of (xs : list um_entry) : list dl_slot := flat_map (fun x => slots_in (snd (fst x))) xs.
Definition sent (log : bs_log) : list dl_slot := flat_map (fun x => slots_of (snd (fst x))) log.
(** A burst that is handled after the tick for time [now] was received two timeslots before, in the timeslot the
    slot three ticks ago was made for: was that slot's uplink marked as traffic? *)
Definition speech_due (log : bs_log) : bool := match nth_error (rev (sent log)) 3 with Some k => sl_ul_tp k | None => false end.
Definition is_stolen (x : um_out) : bool := match x with OutStolen => true | _ => false end.
Definition says_stolen (xs : list um_entry) : bool := existsb (fun x => existsb is_stolen (snd (fst x))) xs.
(** newest first: the time of the last tick; whether a radio has said since then that the next half slot is stolen *)
Fixpoint last_tick (rlog : bs_log) : option tdma_time :=
  match rlog with [] => None | (BeTick _ t, _, _) :: _ => Some t | _ :: r => last_tick r end.
Fixpoint stolen_since (rlog : bs_log) : bool :=
  match rlog with [] => false | (BeTick _ _, _, _) :: _ => false | (_, xs, _) :: r => says_stolen xs || stolen_since r end.

(** * What a radio's burst brings *)
(** [r] are the received bits of a block of channel [ch]: [Some msg], a radio sent [msg] and at most one bit is
    wrong; [None], the checksum shows that the block is damaged. *)
Definition arrives (ch : lchan) (code : N) (r : list bool) (m : option (list bool)) : Prop :=
  match m with
  | Some msg => exists blk b, wf blk /\ window blk = msg /\ encode_cp ch blk code = Ok b /\ near (window b) r
  | None => forall b, fresh_with b r -> exists o, decode_cp ch b false (Some code) = Ok (o, false)
  end.
(** the same for a block of speech; without a wrong bit *)
Definition speech_arrives (code : N) (r msg : list bool) : Prop :=
  exists blk b, wf blk /\ window blk = msg /\ length msg = 274 /\ encode_tp TchS blk code 1 = Ok b /\ near (window b) r.
Definition speech_clean (code : N) (r msg : list bool) : Prop :=
  exists blk b, wf blk /\ window blk = msg /\ length msg = 274 /\ encode_tp TchS blk code 1 = Ok b /\ r = window b.
(** what the upper MAC is given of a block received in timeslot [t] *)
Definition gives_block (t : tdma_time) (ch : ul_chan) (num : blocknum) (code : N) (m : option (list bool)) (es : list um_event) : Prop :=
  match m with None => es = [] | Some msg => exists o, fresh_with o msg /\ es = [UeBlock (mk_tmv t ch num code) o] end.

(** the block [r] is taken for the message [msg], whoever sent what *)
Definition accepted (ch : lchan) (code : N) (r msg : list bool) : Prop :=
  exists b o, fresh_with b r /\ decode_cp ch b false (Some code) = Ok (Some o, true) /\ window o = msg.
(** it contains none of the PDUs that stop the upper MAC (C47, [hostile]) *)
Definition harmless (ch : lchan) (code : N) (r : list bool) : Prop :=
  forall msg l, accepted ch code r msg -> begins (ul_chan_of ch) msg l -> ~ hostile (ul_chan_of ch) l.
(** it says that the second half slot is stolen, too *)
Definition announces_stolen (code : N) (r : list bool) : Prop :=
  exists msg l acts n, accepted Stch code r msg /\ begins UcStch msg l /\ first_pdu UcStch l = Acts acts n /\ In AStolen acts.

(** * The base station after any history *)
(** It was started, had a first tick, then anything. *)
Definition bs_reached (c : cell_cfg) (s : station) (log : bs_log) : Prop := exists connected s0 cn t evs,
  station_new c connected = Ok s0 /\ vtime t /\ Forall bs_fine evs /\ bs_run c (BeTick cn t :: evs) s0 = Ok (s, log).
Definition events_of (log : bs_log) : list bs_event := map (fun x => fst (fst x)) log.

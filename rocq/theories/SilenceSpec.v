(** When the base station tells call control that nobody speaks on a timeslot any more, in terms of what the upper MAC
    was told and heard before. *)
From Verif Require Import Base TdmaTime UmacCircuits UmacBs SlotSpec BsMac.
From Verif Require CallControl.
Open Scope nat_scope.

(** * Signs of life *)
(** [sign now k view e last]: when the last sign of life on timeslot [k] was, given that it was [last] before the event
    [e], which happens [now]; [None]: nobody is expected to speak, or the silence is known already. *)
Definition sign {A} (now : A) (k : nat) (view : nat -> ts_view) (e : um_event) (last : option A) : option A :=
  let at_k ts x := if ts =? k then x else last in
  match e with
  | UeUlVoice _ ts _ => at_k ts (Some now)
  | UeDlVoice ts _ => at_k ts (match vw_ul (view k) with Some _ => Some now | None => last end)
  | UeControl (CallControl.CtlOpen d ts _) => if upwards d then at_k ts (Some now) else last
  | UeControl (CallControl.CtlClose d ts) => if upwards d then at_k ts (match vw_ul (view k) with Some _ => None | None => last end) else last
  | UeControl (CallControl.CtlFloorGranted _ _ _ ts) => at_k ts (Some now)
  | UeControl (CallControl.CtlFloorReleased _ ts) | UeControl (CallControl.CtlCallEnded _ ts) => at_k ts None
  | _ => last
  end.

(** * Silence *)
(** three multiframes of 18 frames of 4 timeslots *)
Definition patience : N := 216.
(** the uplink of the timeslot is open and somebody has the floor *)
Definition listening (view : nat -> ts_view) (k : nat) : bool := match vw_ul (view k) with Some _ => negb (vw_hang (view k)) | None => false end.
(** it is due at the next tick, [n] ticks after the last sign of life *)
Definition due (view : nat -> ts_view) (k : nat) (n : option N) : bool :=
  listening view k && match n with Some n => (patience <? n + 1)%N | None => false end.
(** ticks since the last sign of life; a report ends the count *)
Definition count (k : nat) (x : (nat -> ts_view) * option N) (e : um_event) : (nat -> ts_view) * option N :=
  let '(v, n) := x in
  (told v e, match e with UeTick _ _ => if due v k n then None else option_map N.succ n | _ => sign 0%N k v e n end).
Definition counted (k : nat) (evs : list um_event) : (nat -> ts_view) * option N := fold_left (count k) evs (fun _ => idle_ts, None).
Definition quiet (k : nat) (evs : list um_event) : option N := snd (counted k evs).
(** a tick after the events [evs] reports timeslot [k] *)
Definition reported (k : nat) (evs : list um_event) : bool := due (all_told evs) k (quiet k evs).

(** * Histories *)
(** Call control opens and closes its circuits in both directions; the downlink is not opened or closed alone. *)
Definition not_down_only (e : um_event) : bool :=
  match e with UeControl (CallControl.CtlOpen DirDl _ _) | UeControl (CallControl.CtlClose DirDl _) => false | _ => true end.
Definition both_ways (e : bs_event) : bool := match e with BeControl k => not_down_only (UeControl k) | _ => true end.
(** what happened in the upper MAC, from what the station did *)
Definition entries (log : list (bs_event * list um_entry * list (list N))) : list um_entry := flat_map (fun x => snd (fst x)) log.
Definition events (xs : list um_entry) : list um_event := map (fun x => fst (fst x)) xs.
Definition is_tick (e : um_event) : bool := match e with UeTick _ _ => true | _ => false end.
Definition ticks_in (evs : list um_event) : nat := length (filter is_tick evs).
(** speech, or control that names the timeslot *)
Definition touches (k : nat) (e : um_event) : bool :=
  match e with
  | UeUlVoice _ ts _ | UeDlVoice ts _ => ts =? k
  | UeControl (CallControl.CtlOpen _ ts _) | UeControl (CallControl.CtlClose _ ts)
  | UeControl (CallControl.CtlFloorGranted _ _ _ ts) | UeControl (CallControl.CtlFloorReleased _ ts) | UeControl (CallControl.CtlCallEnded _ ts) => ts =? k
  | _ => false
  end.
(** a radio speaks on the timeslot, or is given it *)
Definition alive (k : nat) (e : um_event) : bool :=
  match e with
  | UeUlVoice _ ts _ => ts =? k
  | UeControl (CallControl.CtlOpen d ts _) => upwards d && (ts =? k)
  | UeControl (CallControl.CtlFloorGranted _ _ _ ts) => ts =? k
  | _ => false
  end.
(** the same, or the network speaks *)
Definition revives (k : nat) (e : um_event) : bool := alive k e || match e with UeDlVoice ts _ => ts =? k | _ => false end.

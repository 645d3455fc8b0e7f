(** Signalling stolen from calls, from the layer above the MAC to the radios of a call: what is asked for and what is heard. *)
From Verif Require Import Base BitBuffer BitBufferProofs MacFields MacPdus MacSpec FragSpec TdmaTime TdmaTimeProofs DlSched DlSchedSpec UmacPrecomps UmacBs StealSpec
  LmacSpec SlotterSpec Slotter SlotSpec LmacBs BsMac AirSpec HeardSpec.
From Verif Require CallControl Scrambler Llc.
Open Scope nat_scope.

(** * What is asked for *)
(** the first timeslot of those named, counted from [i] *)
Fixpoint first_named (l : list bool) (i : nat) : option nat := match l with [] => None | true :: _ => Some i | false :: r => first_named r (i + 1) end.
(** the timeslot a message is to be stolen from: the first one it names, otherwise the first with a call; [v]: the calls there are *)
Definition target (v : nat -> ts_view) (r : tma_req) : option nat :=
  if tr_steal r then
    match (match tr_chan r with Some q => first_named (Llc.cq_timeslots q) 1 | None => None end) with
    | Some t => Some t
    | None => if busy v 2 then Some 2 else if busy v 3 then Some 3 else if busy v 4 then Some 4 else None
    end
  else None.
(** the messages to be stolen from timeslot [k], oldest first: whom they are for, as sent on the air, and their bits *)
Fixpoint to_steal (k : nat) (v : nat -> ts_view) (evs : list bs_event) : list (option tetra_addr * list bool) :=
  match evs with
  | [] => []
  | BeSend r :: es => match target v r with Some t => if t =? k then [(Some (MacSpec.on_air (tr_addr r)), window (tr_sdu r))] else [] | None => [] end ++ to_steal k v es
  | BeControl x :: es => to_steal k (told v (UeControl x)) es
  | _ :: es => to_steal k v es
  end.
(** Messages that can be sent: with their header they fit half a slot. *)
Definition steals_fit (e : bs_event) : Prop :=
  match e with BeSend r => tr_steal r = true -> steal_ok r /\ steal_size r <= half_slot | _ => True end.
(** Messages that C20 says arrive unchanged: with their header they also fill whole octets. *)
Definition steals_well (e : bs_event) : Prop :=
  match e with BeSend r => tr_steal r = true -> steal_ok r /\ steal_size r <= half_slot /\ steal_size r mod 8 = 0 | _ => True end.
(** Messages that leave half an octet free. *)
Definition steals_short (e : bs_event) : Prop :=
  match e with BeSend r => tr_steal r = true -> steal_ok r /\ steal_size r <= 120 | _ => True end.

(** * What radios hear *)
(** the first half slots a radio in a call on timeslot [k] decodes from bursts of which they were stolen *)
Definition stolen_half (x : kind) (msg : list bool) : list (list bool) := match x with KStolen => [msg] | _ => [] end.
Inductive snatches (c : cell_cfg) (k : nat) : bs_log -> list (list bool) -> Prop :=
| snatches_nothing : snatches c k [] []
| snatches_burst cn t xs w log x msg1 msg2 acc l : ts_of (add_timeslots t 1) = k ->
    AirSpec.on_air (Scrambler.scramb_get_init (cf_mcc c) (cf_mnc c) (cf_colour c)) x msg1 msg2 acc w ->
    snatches c k log l -> snatches c k ((BeTick cn t, xs, [b2b w]) :: log) (stolen_half x msg1 ++ l)
| snatches_other cn t xs ws log l : ts_of (add_timeslots t 1) <> k -> snatches c k log l -> snatches c k ((BeTick cn t, xs, ws) :: log) l
| snatches_silence e xs log l : (match e with BeTick _ _ => False | _ => True end) -> snatches c k log l -> snatches c k ((e, xs, []) :: log) l.
(** a radio that takes the half slot [msg] apart finds one message in it, with this address and these bits *)
Definition understood (msg : list bool) (m : option tetra_addr * list bool) : Prop :=
  exists h, slot_items_lenient msg = Some [IWhole h (snd m)] /\ mr_addr h = fst m.
(** a radio finds one message in it, with this address and the beginning of these bits *)
Definition begun (msg : list bool) (m : option tetra_addr * list bool) : Prop :=
  exists h d lost, slot_items_lenient msg = Some [IWhole h d] /\ mr_addr h = fst m /\ snd m = d ++ lost.
(** the half slots that wait for timeslot [k] *)
Definition waiting (k : nat) (s : station) : list (list bool) := map (fun x => window (fst x)) (steals (nth (k - 1) (ds_q (um_sch (st_um s))) [])).

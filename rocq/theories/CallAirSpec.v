(** Call control and the base station's air interface together: what the radios find on the traffic timeslots is what
    call control knows about its calls. *)
From Verif Require Import Base AMap TdmaTime TdmaTimeProofs UmacCircuits UmacPrecomps UmacBs SlotSpec LmacBs BsMac AirSpec CmcePdus BrewRoute CallControl CcSpec CircuitMgr.
From Verif Require AliveSpec.
Open Scope nat_scope.

(** * What the calls require *)
(** A timeslot with a call is open in both directions under the usage marker of the call, and in hang time if nobody has
    the floor; the other timeslots are idle. *)
Definition speaking_view (c : active_call) : ts_view := mk_tsv (Some (ac_usage c)) (Some (ac_usage c)) (negb (ac_tx c)).
Definition shows_calls (s : cc) (view : nat -> ts_view) : Prop :=
  (forall id c, call_of s id = Some c -> view (ac_ts c) = speaking_view c) /\
  (forall ts, (forall id c, call_of s id = Some c -> ac_ts c <> ts) -> view ts = idle_ts).

(** * Messages between the two *)
Definition for_umac (q : list cc_msg) : list call_ctl := flat_map (fun m => match m with ToUmac _ c => [c] | _ => [] end) q.
(** [view] after some more messages *)
Definition after_ctl (view : nat -> ts_view) (l : list call_ctl) : nat -> ts_view := fold_left (fun v c => told v (UeControl c)) l view.
(** a message the upper MAC can be given: a traffic timeslot, both directions, a traffic usage marker *)
Definition proper (c : call_ctl) : bool :=
  match c with
  | CtlOpen DirBoth ts u => (2 <=? ts) && (ts <=? 4) && (4 <=? u)%N && (u <=? 63)%N
  | CtlClose DirBoth ts | CtlFloorGranted _ _ _ ts | CtlFloorReleased _ ts | CtlCallEnded _ ts => (2 <=? ts) && (ts <=? 4)
  | _ => false
  end.
(** ... and the end of a call is announced once its circuit is closed *)
Fixpoint orderly (view : nat -> ts_view) (l : list call_ctl) : Prop :=
  match l with
  | [] => True
  | k :: t => proper k = true /\ (match k with CtlCallEnded _ ts => view ts = idle_ts | _ => True end) /\ orderly (told view (UeControl k)) t
  end.
(** the timeslots the upper MAC reports as silent *)
Definition notices (xs : list um_entry) : list nat :=
  flat_map (fun x => flat_map (fun o => match o with OutInactive _ ts => [ts] | _ => [] end) (snd (fst x))) xs.

(** * Histories of the two together *)
(** messagerouter.rs:18-48, 100-136: one queue; both kinds of messages are put at its back (cc_bs.rs:376-397, 797-805,
    938-946, 1045-1058, 1287-1300, 1507-1515, 1574-1582; umac_bs.rs:1471-1479), so those in one direction arrive in order.
    Everything else either of them gets may come at any time: that is more than the other entities can do. *)
Record joint := mk_joint { jo_cc : cc; jo_bs : station; jo_down : list call_ctl; jo_up : list nat }.
Definition from_mac (e : cc_event) : bool := match e with EvControl _ (CtlUlInactivity _) => true | _ => false end.
Definition from_cc (e : bs_event) : bool := match e with BeControl _ => true | _ => false end.
Definition since_next (s : cc) (q : list cc_msg) (since : N -> nat) : N -> nat :=
  fun id => if present (aget id (cc_active s)) then since id + opens q else 0.
(** [since]: as in [CcSpec.history], fewer than 1023 calls are set up during the life of a call; [L] and [B]: what the two
    have done *)
Inductive joint_reached (cfg : cfg_route) (c : cell_cfg) : joint -> (N -> nat) -> list cc_msg -> list (bs_event * list um_entry * list (list N)) -> Prop :=
| joint_start connected cn t s0 s B : station_new c connected = Ok s0 -> vtime t -> bs_run c [BeTick cn t] s0 = Ok (s, B) ->
    joint_reached cfg c (mk_joint cc_new s [] []) (fun _ => 0) [] B
| joint_call j since L B e s q : joint_reached cfg c j since L B -> from_mac e = false -> cc_step cfg e (jo_cc j) = Ok (s, q) ->
    (forall id x, aget id (cc_active s) = Some x -> since_next (jo_cc j) q since id < 1023) ->
    joint_reached cfg c (mk_joint s (jo_bs j) (jo_down j ++ for_umac q) (jo_up j)) (since_next (jo_cc j) q since) (L ++ q) B
| joint_up j since L B hint ts up s q : joint_reached cfg c j since L B -> jo_up j = ts :: up ->
    cc_step cfg (EvControl hint (CtlUlInactivity ts)) (jo_cc j) = Ok (s, q) ->
    (forall id x, aget id (cc_active s) = Some x -> since_next (jo_cc j) q since id < 1023) ->
    joint_reached cfg c (mk_joint s (jo_bs j) (jo_down j ++ for_umac q) up) (since_next (jo_cc j) q since) (L ++ q) B
| joint_air j since L B e s xs ws : joint_reached cfg c j since L B -> from_cc e = false -> bs_fine e -> bs_step c e (jo_bs j) = Ok (s, xs, ws) ->
    joint_reached cfg c (mk_joint (jo_cc j) s (jo_down j) (jo_up j ++ notices xs)) since L (B ++ [(e, xs, ws)])
| joint_down j since L B k down s xs ws : joint_reached cfg c j since L B -> jo_down j = k :: down -> bs_step c (BeControl k) (jo_bs j) = Ok (s, xs, ws) ->
    joint_reached cfg c (mk_joint (jo_cc j) s down (jo_up j ++ notices xs)) since L (B ++ [(BeControl k, xs, ws)]).
(** the other entities send whole messages and whole frames of speech ([AliveSpec.decent]) *)
Definition others_decent (B : list (bs_event * list um_entry * list (list N))) : Prop := Forall (fun e => from_cc e = false -> AliveSpec.decent e) (events_of B).

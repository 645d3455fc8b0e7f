(** What the theorems on the network entity (C50, C56, C57) say, apart from the model's own helpers. *)
From Verif Require Import Base AMap TdmaTime MacFields UmacCircuits CmceFields CmcePdus BrewRoute CircuitMgr CallControl CcSpec VoicePack JitterBuffer BrewProtocol BrewWorker BrewEntity BrewSystem.
Open Scope nat_scope.

(** ** What call control tells the network entity about the floor *)

(** A turn: the call, the talker and the group. *)
Definition turn : Type := N * N * N.

(** Who talks on each timeslot after one more message. *)
Definition floor_after (v : nat -> option turn) (c : call_ctl) : nat -> option turn :=
  match c with
  | CtlFloorGranted id src dest ts => fun x => if x =? ts then Some (id, src, dest) else v x
  | CtlFloorReleased _ ts | CtlCallEnded _ ts => fun x => if x =? ts then None else v x
  | _ => v
  end.
(** The messages of call control for the network entity *)
Definition for_brew (q : list cc_msg) : list call_ctl :=
  flat_map (fun m => match m with ToBrew _ c => [c] | _ => [] end) q.
(** Who talks on each timeslot, by the messages of [log] *)
Definition floor_view (log : list cc_msg) : nat -> option turn := fold_left floor_after (for_brew log) (fun _ => None).

(** A radio holds the floor of call [id]: somebody talks, and it is not the network. *)
Definition radio_talks (c : active_call) : Prop := ac_tx c = true /\ ac_uuid c = None.

(** What the theorems on timeslot ownership exclude.  [no_takeover]: no radio takes the floor of a call that the
    network began, or that still bears the network's identifier.  [no_expiry]: no call in which somebody talks runs
    into the 6-minute limit of a circuit. *)
Definition no_takeover (s : cc) (e : cc_event) : Prop := forall i p b c, e = EvUplink i -> u_tx_demand_from_bitbuf (mi_sdu i) = Ok (p, b) ->
  call_of s (u_tx_demand_call_identifier p) = Some c -> ac_tx c = false -> (exists a, ac_origin c = OLocal a) /\ ac_uuid c = None.
Definition no_expiry (s : cc) (e : cc_event) : Prop := forall hint t id c ci a, e = EvTick hint t ->
  call_of s id = Some c -> ac_tx c = true -> circuit_on s (ac_ts c) = Some ci -> age (ci_created ci) t = Ok a -> (a <= 25920)%Z.

(** ** Speech from the radios to the network *)

(** Whether the network is connected, and which turn is relayed on each timeslot: a turn begins when call control grants
    the floor to a radio the network may hear, and ends when it says that the turn or the call is over. *)
Definition uplink : Type := bool * (nat -> option turn).
Definition uplink_after (cfg : cfg_route) (u : uplink) (i : brew_in) : uplink :=
  let (online, v) := u in
  match i with
  | InEvent _ _ _ _ BeConnected => (true, v)
  | InEvent _ _ _ _ BeDisconnected => (false, v)
  | InControl _ _ (CtlFloorGranted id src dest ts) => (online, if online && brew_issi_routable cfg src then floor_after v (CtlFloorGranted id src dest ts) else v)
  | InControl _ _ c => (online, floor_after v c)
  | _ => u
  end.
Definition uplink_of (cfg : cfg_route) (l : list brew_in) : uplink := fold_left (uplink_after cfg) l (false, fun _ => None).
Definition relayed (cfg : cfg_route) (l : list brew_in) (ts : nat) : option turn := snd (uplink_of cfg l) ts.

(** The last thing the network was told about session [u]: [src] talks to [dest]. *)
Definition announced (u src dest : N) (o : list brew_out) : Prop := exists o1 o2, o = o1 ++ BoCmd (BcGroupTx u src dest 0 0) :: o2 /\
  forall x, In x o2 -> match x with BoCmd (BcGroupTx u' _ _ _ _) | BoCmd (BcGroupIdle u' _) => u' <> u | _ => True end.

(** The identifiers made for new sessions *)
Definition made_ids (l : list brew_in) : list N :=
  flat_map (fun i => match i with InControl _ fresh (CtlFloorGranted _ _ _ _) => [fresh] | _ => [] end) l.

(** What the network sees of session [u] must be: a start, then starts and speech, then at most one end. *)
Inductive session_state := NotBegun | Talking | Over.
Definition session_step (u : N) (x : brew_out) (st : session_state) : option session_state :=
  match x with
  | BoCmd (BcGroupTx u' _ _ _ _) => if (u' =? u)%N then match st with Over => None | _ => Some Talking end else Some st
  | BoCmd (BcVoiceFrame u' _ _) => if (u' =? u)%N then match st with Talking => Some Talking | _ => None end else Some st
  | BoCmd (BcGroupIdle u' _) => if (u' =? u)%N then match st with Talking => Some Over | _ => None end else Some st
  | _ => Some st
  end.
Fixpoint session (u : N) (o : list brew_out) (st : session_state) : option session_state :=
  match o with
  | [] => Some st
  | x :: t => match session_step u x st with Some st => session u t st | None => None end
  end.

(** ** Speech from the network to the radios *)

(** What happens to call [u] of the network: the time, and if the call runs, the timeslot call control gave it, if any
    yet, and the use of its play-out buffer since it began: frames that came in and requests for a frame to send. *)
Record downlink := mk_downlink { dn_time : tdma_time; dn_call : option (option nat * list (jcall (list N))) }.
(** This is a time to send speech on timeslot [ts]: its slot, not in the control frame 18. *)
Definition speech_slot (t : tdma_time) (ts : nat) : bool := (tm_t t =? Z.of_nat ts)%Z && negb (tm_f t =? 18)%Z.
Definition downlink_after (u : N) (d : downlink) (i : brew_in) : downlink :=
  let t := dn_time d in
  match i with
  | InTick t => mk_downlink t (dn_call d)
  | InEvent _ _ _ _ (BeGroupCallStart u' _ _ _ _) =>
      if (u' =? u)%N then mk_downlink t (match dn_call d with Some c => Some c | None => Some (None, []) end) else d
  | InEvent _ _ _ _ (BeGroupCallEnd u' _) => if (u' =? u)%N then mk_downlink t None else d
  | InEvent _ _ _ _ BeDisconnected => mk_downlink t None
  | InControl _ _ (CtlNetworkCallEnd u') => if (u' =? u)%N then mk_downlink t None else d
  | InControl _ _ (CtlNetworkCallReady u' _ ts _) =>
      if (u' =? u)%N then mk_downlink t (match dn_call d with Some (_, uses) => Some (Some ts, uses) | None => None end) else d
  | InEvent _ _ _ jc (BeVoiceFrame u' _ data) =>
      match dn_call d with
      | Some (Some ts, uses) => if (u' =? u)%N && (36 <=? length data) then mk_downlink t (Some (Some ts, uses ++ [(jc, Some (tl data))])) else d
      | _ => d
      end
  | InPlayout _ jc =>
      match dn_call d with
      | Some (Some ts, uses) => if speech_slot t ts then mk_downlink t (Some (Some ts, uses ++ [(jc u, None)])) else d
      | _ => d
      end
  | _ => d
  end.
Definition downlink_of (u : N) (l : list brew_in) : downlink := fold_left (downlink_after u) l (mk_downlink time_default None).

(** The frame call [u] sends next, if there is one: the answer of its play-out buffer (C40) *)
Definition next_frame (latency : nat) (jc : nat) (uses : list (jcall (list N))) : option (list N) :=
  match last (fst (jb_run (jb_new latency) (uses ++ [(jc, None)]))) None with Some f => Some (jf_data f) | None => None end.

(** ** Call control and the network entity together *)

(** What call control does on an event of the two *)
Definition cc_event_of (ev : sys_event) (y : sys) : option cc_event :=
  match ev with
  | SeCc e => Some e
  | SeDeliver hint _ => match sy_queue y with QCmce c :: _ => Some (EvControl hint c) | _ => None end
  | SeBrew _ => None
  end.
(** What call control sent, and what the network entity sent *)
Definition cc_part (o : list (cc_msg + brew_out)) : list cc_msg := flat_map (fun x => match x with inl m => [m] | inr _ => [] end) o.
Definition brew_part (o : list (cc_msg + brew_out)) : list brew_out := flat_map (fun x => match x with inr m => [m] | inl _ => [] end) o.
(** The identifier made for a new session, if the event needs one *)
Definition made_id (ev : sys_event) (y : sys) : list N :=
  match ev with
  | SeDeliver _ fresh => match sy_queue y with QBrew (CtlFloorGranted _ _ _ _) :: _ => [fresh] | _ => [] end
  | _ => []
  end.

(** The histories of the two: what they sent to each other and to others, in order, and the identifiers made.  As in
    [history], during the life of a call fewer than 1023 other calls are set up.  No radio takes over a call of the
    network, and no call in which somebody talks runs into the limit of its circuit: see the refuted properties for
    what happens otherwise. *)
Inductive sys_history (cfg : cfg_route) (latency : nat) : sys -> (N -> nat) -> list (cc_msg + brew_out) -> list N -> Prop :=
| sys_start : sys_history cfg latency sys_new (fun _ => 0) [] []
| sys_call y since log ids ev e y' o :
    sys_history cfg latency y since log ids -> from_outside ev = true -> cc_event_of ev y = Some e ->
    sys_step cfg latency ev y = Ok (y', o) ->
    no_takeover (sy_cc y) e -> no_expiry (sy_cc y) e ->
    let since' id := if present (call_of (sy_cc y) id) then since id + opens (cc_part o) else 0 in
    (forall id c, call_of (sy_cc y') id = Some c -> since' id < 1023) ->
    sys_history cfg latency y' since' (log ++ o) ids
| sys_net y since log ids ev y' o :
    sys_history cfg latency y since log ids -> from_outside ev = true -> cc_event_of ev y = None ->
    sys_step cfg latency ev y = Ok (y', o) ->
    sys_history cfg latency y' since (log ++ o) (ids ++ made_id ev y).

(** Every message of call control for the network entity was delivered. *)
Definition all_delivered (y : sys) : Prop := forall c, ~ In (QBrew c) (sy_queue y).

(** The states call control can be in if the network never names two groups for one call: [g] is the group of each call. *)
Inductive one_group (cfg : cfg_route) (g : N -> N) : cc -> Prop :=
| one_group_start : one_group cfg g cc_new
| one_group_step s e s' q : one_group cfg g s -> cc_step cfg e s = Ok (s', q) ->
    (forall hint u src dest prio, e = EvControl hint (CtlNetworkCallStart u src dest prio) -> dest = g u) -> one_group cfg g s'.

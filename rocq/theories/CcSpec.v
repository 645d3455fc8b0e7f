(** What the theorems on call control (C35, C36, C37) say, apart from the model's own helpers. *)
From Verif Require Import Base AMap TdmaTime TimeslotAlloc MacFields UmacCircuits CmcePdus BrewRoute CircuitMgr CallControl.
Open Scope nat_scope.

(** ** Histories *)

(** The states call control can be in: it starts empty and handles events one after the other. *)
Inductive reachable (cfg : cfg_route) : cc -> Prop :=
| reachable_start : reachable cfg cc_new
| reachable_step s e s' q : reachable cfg s -> cc_step cfg e s = Ok (s', q) -> reachable cfg s'.

(** How many circuits were opened, seen from the messages to the UMAC. *)
Definition is_open (m : cc_msg) : bool := match m with ToUmac _ (CtlOpen _ _ _) => true | _ => false end.
Definition opens (q : list cc_msg) : nat := length (filter is_open q).

(** A history together with the messages sent so far ([log]) and, for every active call, the number of circuits
    opened for other calls since that call was set up.  [history K] holds the histories in which that number
    stays below [K]: during the life of a call fewer than [K] other calls are set up. *)
Inductive history (cfg : cfg_route) (K : nat) : cc -> (N -> nat) -> list cc_msg -> Prop :=
| history_start : history cfg K cc_new (fun _ => 0) []
| history_step s since log e s' q :
    history cfg K s since log ->
    cc_step cfg e s = Ok (s', q) ->
    let since' id := if present (aget id (cc_active s)) then since id + opens q else 0 in
    (forall id c, aget id (cc_active s') = Some c -> since' id < K) ->
    history cfg K s' since' (log ++ q).

(** ** Calls, cached set-up messages, circuits and timeslots (C35) *)

(** The circuit call control keeps open on timeslot [ts]. *)
Definition circuit_on (s : cc) (ts : nat) : option circuit :=
  match nth_error (cm_dl (cc_circ s)) (ts - 1) with Some c => c | None => None end.
Definition call_of (s : cc) (id : N) : option active_call := aget id (cc_active s).

(** One to one correspondence: every active call has its cached set-up message, its timeslot in the ownership
    table and its circuit; every cached message, every timeslot call control owns and every open circuit belongs
    to an active call; two active calls never have the same timeslot. *)
Record coherent (s : cc) : Prop := {
  coh_cached : forall id, call_of s id <> None <-> aget id (cc_cached s) <> None;
  coh_setup : forall id c, call_of s id = Some c ->
    exists p, aget id (cc_cached s) = Some (p, gssi_addr (ac_dest c)) /\ d_setup_call_identifier p = id;
  coh_slot : forall id c, call_of s id = Some c -> ts_owner_of (cc_slots s) (ac_ts c) = Some OwnCmce;
  coh_circuit : forall id c, call_of s id = Some c ->
    exists ci, circuit_on s (ac_ts c) = Some ci /\ ci_call ci = id /\ ci_usage ci = ac_usage c /\ ci_ts ci = ac_ts c /\ ci_dir ci = DirBoth;
  coh_distinct : forall id id' c c', call_of s id = Some c -> call_of s id' = Some c' -> ac_ts c = ac_ts c' -> id = id';
  coh_held : forall ts, ts_owner_of (cc_slots s) ts = Some OwnCmce -> exists id c, call_of s id = Some c /\ ac_ts c = ts;
  coh_open : forall ts ci, 1 <= ts -> circuit_on s ts = Some ci -> exists c, call_of s (ci_call ci) = Some c /\ ac_ts c = ts }.

(** The circuits the UMAC has open after the messages of [log], as (timeslot -> usage marker). *)
Definition umac_view (log : list cc_msg) : nat -> option N :=
  fold_left (fun v m => match m with
                        | ToUmac _ (CtlOpen _ ts u) => fun x => if x =? ts then Some u else v x
                        | ToUmac _ (CtlClose _ ts) => fun x => if x =? ts then None else v x
                        | _ => v
                        end) log (fun _ => None).

(** What is sent when a call ends: a D-RELEASE with its identifier to the group, and the order to the UMAC to
    close the circuit. *)
Definition release_sent (id : N) (c : active_call) (q : list cc_msg) : Prop :=
  exists t r, In (ToMle t r) q /\ mr_addr r = gssi_addr (ac_dest c) /\
    (exists p, mr_pdu r = PdRelease p /\ d_release_call_identifier p = id) /\
    exists t', In (ToUmac t' (CtlClose DirBoth (ac_ts c))) q.

(** ** Why a call ends (C36) *)

(** Somebody listens to the group: a registered radio has it among its groups. *)
Definition listened (s : cc) (g : N) : Prop := exists issi groups, aget issi (cc_subs s) = Some groups /\ In g groups.

(** The events that may end call [id], whose state before the event is [c]. *)
Inductive end_reason (s s' : cc) (id : N) (c : active_call) : cc_event -> Prop :=
| end_hangtime hint t h a : ac_hang c = Some h -> age h t = Ok a -> (360 < a)%Z -> end_reason s s' id c (EvTick hint t)
| end_expiry hint t ci a : circuit_on s (ac_ts c) = Some ci -> age (ci_created ci) t = Ok a -> (25920 < a)%Z ->
    end_reason s s' id c (EvTick hint t)
| end_release i p b : u_release_from_bitbuf (mi_sdu i) = Ok (p, b) -> u_release_call_identifier p = id -> end_reason s s' id c (EvUplink i)
| end_disconnect i p b a : u_disconnect_from_bitbuf (mi_sdu i) = Ok (p, b) -> u_disconnect_call_identifier p = id ->
    ac_origin c = OLocal a -> ad_ssi a = ad_ssi (mi_addr i) -> end_reason s s' id c (EvUplink i)
| end_unlistened hg h issi groups action : ~ listened s' (ac_dest c) -> end_reason s s' id c (EvSubscriber hg h issi groups action)
| end_network hint u : ac_uuid c = Some u -> ac_tx c = false -> end_reason s s' id c (EvControl hint (CtlNetworkCallEnd u)).

(** The floor goes to [who]: a D-TX-GRANTED for call [id] granting it is sent to that radio. *)
Definition granted_sent (id who : N) (q : list cc_msg) : Prop :=
  exists t r p, In (ToMle t r) q /\ mr_addr r = issi_addr who /\ mr_pdu r = PdTxGranted p /\
    d_tx_granted_call_identifier p = id /\ d_tx_granted_transmission_grant p = 0%N.

(** ** Identifiers (C37) *)
Definition ids_distinct (s : cc) : Prop := forall ts ts' c c', 1 <= ts -> 1 <= ts' ->
  circuit_on s ts = Some c -> circuit_on s ts' = Some c' -> ci_call c = ci_call c' -> ts = ts'.
Definition usages_distinct (s : cc) : Prop := forall ts ts' c c', 1 <= ts -> 1 <= ts' ->
  circuit_on s ts = Some c -> circuit_on s ts' = Some c' -> ci_usage c = ci_usage c' -> ts = ts'.

(** ** Announcing calls (C54) *)

(** The slot mask names timeslot [ts] and no other. *)
Definition names_slot (m : list bool) (ts : nat) : Prop := length m = 4 /\ forall k, k < 4 -> nth k m false = (k + 1 =? ts).

(** The set-up message [p], sent in request [r], describes a call in progress: it goes to the group of the call and
    directs the radios to the timeslot and the usage marker of the call; somebody speaks in the call. *)
Definition announces (s : cc) (r : mle_req) (p : d_setup) : Prop :=
  exists c m, call_of s (d_setup_call_identifier p) = Some c /\ mr_addr r = gssi_addr (ac_dest c) /\
    mr_chan r = Some (mk_chan_req (Some (ac_usage c)) m) /\ names_slot m (ac_ts c) /\ ac_tx c = true.

(** What is sent when call [id], in state [c], begins: a set-up message naming the speaker, and the order to the UMAC
    to open the circuit. *)
Definition setup_sent (s : cc) (id : N) (c : active_call) (q : list cc_msg) : Prop :=
  (exists t r p, In (ToMle t r) q /\ mr_pdu r = PdSetup p /\ d_setup_call_identifier p = id /\
     d_setup_calling_party_address_ssi p = Some (ac_source c) /\ announces s r p) /\
  exists t, In (ToUmac t (CtlOpen DirBoth (ac_ts c) (ac_usage c))) q.

(** The radio that set up the call is given the floor on its timeslot. *)
Definition caller_connected (id : N) (c : active_call) (q : list cc_msg) : Prop :=
  forall a, ac_origin c = OLocal a -> exists t r p m, In (ToMle t r) q /\ mr_pdu r = PdConnect p /\ d_connect_call_identifier p = id /\
    d_connect_transmission_grant p = 0%N /\ mr_addr r = a /\ mr_chan r = Some (mk_chan_req (Some (ac_usage c)) m) /\ names_slot m (ac_ts c).

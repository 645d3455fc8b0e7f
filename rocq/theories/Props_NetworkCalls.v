(** Property theorems for C50, continued: calls of the network begin and end here when the network says so. *)
From Verif Require Import Base AMap TdmaTime CmceFields BrewRoute Registry CallControl CcSpec CcFacts BrewProtocol BrewWorker BrewEntity BrewSpec BrewFacts BrewRequestSpec BrewRequests BrewRequestFacts CcNetEnd.
Open Scope N_scope.

(** C50: after every history of the network entity: a call the network begins, or a new talker in one that runs, is
    passed on to call control; so is its end; and when the connection is lost, the end of every running call is. *)
Theorem C50_requests : forall cfg lat l s o reg hint hg jc, be_run cfg lat l brew_new = Ok (s, o) ->
  (forall u source dest priority service, exists s',
     be_step cfg lat (InEvent reg hint hg jc (BeGroupCallStart u source dest priority service)) s =
     Ok (s', match talker l u with
             | Some x => if x =? source then [] else [BoCmce (be_dltime s) (CtlNetworkCallStart u source dest priority)]
             | None => [BoCmce (be_dltime s) (CtlNetworkCallStart u source dest priority)]
             end)) /\
  (forall u cause, exists s', be_step cfg lat (InEvent reg hint hg jc (BeGroupCallEnd u cause)) s =
     Ok (s', match talker l u with Some _ => [BoCmce (be_dltime s) (CtlNetworkCallEnd u)] | None => [] end)) /\
  (exists us s', NoDup us /\ (forall u, In u us <-> talker l u <> None) /\
     be_step cfg lat (InEvent reg hint hg jc BeDisconnected) s = Ok (s', map (fun u => BoCmce (be_dltime s) (CtlNetworkCallEnd u)) us)).
Proof. exact requests. Qed.
Print Assumptions C50_requests.
Example C50_requests_met : exists s o, be_run net_cfg 0 ex_calls brew_new = Ok (s, o) /\
  talker ex_calls 7 = Some 5 /\ talker ex_calls 8 = Some 6 /\ talker ex_calls 9 = None /\ length o = 4%nat.
Proof. exact requests_met. Qed.

(** C50: when the network ends its call, its talker loses the floor and the hang time starts at once; if nobody was
    talking the call is released.  Other calls are left alone. *)
Theorem C50_end : forall cfg s hint u s' q, reachable cfg s -> cc_step cfg (EvControl hint (CtlNetworkCallEnd u)) s = Ok (s', q) ->
  (s' = s /\ q = [] /\ forall id c, call_of s id = Some c -> ac_uuid c <> Some u) \/
  exists id c, call_of s id = Some c /\ ac_uuid c = Some u /\ (forall k, k <> id -> call_of s' k = call_of s k) /\
    if ac_tx c then
      In (ToUmac (cc_dltime s) (CtlFloorReleased id (ac_ts c))) q /\
      call_of s' id = Some (mk_call (ac_origin c) (ac_dest c) (ac_source c) (ac_ts c) (ac_usage c) false (Some (cc_dltime s)) None)
    else call_of s' id = None.
Proof. exact network_end. Qed.
Print Assumptions C50_end.
Example C50_end_met : reachable ex_cfg one_call /\ call_of (fst (answer_of (EvControl [] (CtlNetworkCallEnd 7)) one_call)) 4 <> call_of one_call 4 /\
  (exists c, call_of one_call 4 = Some c /\ ac_uuid c = Some 7 /\ ac_tx c = true).
Proof. exact end_met. Qed.

(** C50: what call control answers: it refuses the call if nobody listens to the group or somebody talks in it;
    otherwise the network's talker has the floor of a call of that group, and the answer names its identifier, timeslot and
    usage marker.  Missing: the call may find no resources, and then there is no answer. *)
Theorem C50_answer_partial : forall cfg s hint u source g p s' q, reachable cfg s -> cc_step cfg (EvControl hint (CtlNetworkCallStart u source g p)) s = Ok (s', q) ->
  (for_brew q = [CtlNetworkCallEnd u] /\ (~ listened s g \/ group_busy s g)) \/
  (exists id c, for_brew q = [CtlNetworkCallReady u id (ac_ts c) (ac_usage c)] /\
     call_of s' id = Some c /\ ac_dest c = g /\ ac_source c = source /\ ac_tx c = true /\ ac_uuid c = Some u) \/
  (q = [] /\ forall id c, call_of s id = Some c -> ac_dest c <> g).
Proof. exact answer. Qed.
Print Assumptions C50_answer_partial.
Example C50_answer_met : reachable ex_cfg one_call /\
  for_brew (snd (answer_of (net_start 8 6 200) one_call)) = [CtlNetworkCallReady 8 5 3 5] /\
  for_brew (snd (answer_of (net_start 8 6 100) one_call)) = [CtlNetworkCallEnd 8] /\
  for_brew (snd (answer_of (net_start 8 6 500) one_call)) = [CtlNetworkCallEnd 8].
Proof. exact answer_met. Qed.
(** C50 fails: with all timeslots in use a call of the network is neither set up nor refused. *)
Theorem C50_answer_refuted : exists s s', reachable ex_cfg s /\ listened s 400 /\ ~ group_busy s 400 /\ cc_step ex_cfg (net_start 10 5 400) s = Ok (s', []).
Proof. exact unanswered. Qed.
Print Assumptions C50_answer_refuted.

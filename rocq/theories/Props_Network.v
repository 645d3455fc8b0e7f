(** Property theorems for C50: calls of the network and calls of the radios stay in step. *)
From Verif Require Import Base BitBuffer AMap TdmaTime MacFields UmacCircuits CmceFields BrewRoute Registry CircuitMgr CallControl CcSpec VoicePack JitterBuffer
  BrewProtocol BrewWorker BrewEntity BrewSystem BrewSpec BrewProofs BrewJoint CcNetwork BrewFacts.
Open Scope nat_scope.

(** C50: no input, in any order, crashes the network entity. *)
Theorem C50_no_crash : forall cfg lat l s, exists s' o, be_run cfg lat l s = Ok (s', o).
Proof. exact run_total. Qed.
Print Assumptions C50_no_crash.

(** C50: after every history of the network entity, speech on timeslot [ts] goes to the network exactly if a turn is
    relayed on it (call control granted the floor to a radio the network may hear, and did not take it back), in a
    session that was announced with the talker and group of this turn, and that no other timeslot uses. *)
Theorem C50_uplink : forall cfg lat l s o ts bits, NoDup (made_ids l) -> be_run cfg lat l brew_new = Ok (s, o) ->
  exists frame, ul_voice_to_ste bits = Ok frame /\
  match relayed cfg l ts, frame with
  | Some (id, src, dest), Some data =>
      exists u, be_step cfg lat (InUlVoice ts bits) s = Ok (s, [BoCmd (BcVoiceFrame u (N.of_nat (length data) * 8 mod 65536) data)]) /\
        announced u src dest o /\
        (forall ts' bits' s' u' n' d', ts' <> ts -> be_step cfg lat (InUlVoice ts' bits') s = Ok (s', [BoCmd (BcVoiceFrame u' n' d')]) -> u' <> u)
  | _, _ => be_step cfg lat (InUlVoice ts bits) s = Ok (s, [])
  end.
Proof. exact uplink_exact. Qed.
Print Assumptions C50_uplink.
(** Two radios talk, on timeslots 2 and 3; then the first stops. *)
Definition ex_turns : list brew_in :=
  [InEvent reg_new [] [] 0 BeConnected; InControl [] 70 (CtlFloorGranted 4 1 100 2); InControl [] 71 (CtlFloorGranted 5 2 200 3)].
Example C50_uplink_met :
  NoDup (made_ids ex_turns) /\ (exists s o, be_run net_cfg 0 ex_turns brew_new = Ok (s, o)) /\
  relayed net_cfg ex_turns 2 = Some (4, 1, 100)%N /\ relayed net_cfg ex_turns 3 = Some (5, 2, 200)%N /\
  relayed net_cfg (ex_turns ++ [InControl [] 72 (CtlFloorReleased 4 2)]) 2 = None /\
  ul_voice_to_ste frame36 = Ok (Some frame36).
Proof. split; [repeat constructor; cbn; intuition discriminate|]. split; [apply run_total|]. now vm_compute. Qed.

(** C50: what the network sees of each session is a start, then starts and speech, then at most one end. *)
Theorem C50_sessions : forall cfg lat l s o u, NoDup (made_ids l) -> be_run cfg lat l brew_new = Ok (s, o) ->
  session u o NotBegun <> None.
Proof. exact sessions_good. Qed.
Print Assumptions C50_sessions.
Example C50_sessions_met : exists s o,
  be_run net_cfg 0 (ex_turns ++ [InUlVoice 2 frame36; InControl [] 72 (CtlFloorReleased 4 2); InUlVoice 2 frame36]) brew_new = Ok (s, o) /\
  session 70 o NotBegun = Some Over /\ session 71 o NotBegun = Some Talking /\ length o = 4.
Proof. eexists _, _. split; [vm_compute; reflexivity|]. now vm_compute. Qed.

(** C50: after every history of the network entity, each play-out sends for every running call of the network that has a
    timeslot, in its slot and never in frame 18, the next frame of its play-out buffer (C40), and nothing else. *)
Theorem C50_downlink : forall cfg lat l s o hint jc, be_run cfg lat l brew_new = Ok (s, o) ->
  exists us s', NoDup us /\ (forall u, In u us <-> dn_call (downlink_of u l) <> None) /\
    be_step cfg lat (InPlayout hint jc) s = Ok (s', flat_map (fun u =>
      match dn_call (downlink_of u l) with
      | Some (Some ts, uses) =>
          if speech_slot (be_dltime s) ts then match next_frame lat (jc u) uses with Some data => [BoVoice (be_dltime s) ts data] | None => [] end else []
      | _ => []
      end) us) /\
    forall u, dn_time (downlink_of u l) = be_dltime s.
Proof. exact downlink_exact. Qed.
Print Assumptions C50_downlink.
(** A call of the network on timeslot 2, with six frames waiting *)
Definition ex_speech : list brew_in :=
  [InEvent reg_new [] [] 0 (BeGroupCallStart 7 5 100 0 0); InControl [] 0 (CtlNetworkCallReady 7 4 2 4); InTick (mk_time 2 1 7 0)] ++
  repeat (InEvent reg_new [] [] 0 (BeVoiceFrame 7 288 frame36)) 6.
Example C50_downlink_met : exists s o s', be_run net_cfg 0 ex_speech brew_new = Ok (s, o) /\
  be_step net_cfg 0 (InPlayout [] (fun _ => 0)) s = Ok (s', [BoVoice (mk_time 2 1 7 0) 2 (tl frame36)]).
Proof. eexists _, _, _. split; [vm_compute; reflexivity|]. vm_compute. reflexivity. Qed.

(** C50, call control and the network entity together, every message between them being delivered in order but at any
    later time: once all are delivered, speech on a timeslot goes to the network only for the call that owns the timeslot, while
    a radio holds its floor, a radio began the call, and its group and talker may go to the network.  Missing: histories
    in which a radio takes the floor of a call the network began, or a call in which somebody talks runs into the limit
    of its circuit (refuted below). *)
Theorem C50_owner_partial : forall cfg lat y since log ids ts bits y' o, sys_history cfg lat y since log ids -> NoDup ids -> all_delivered y ->
  sys_step cfg lat (SeBrew (InUlVoice ts bits)) y = Ok (y', o) ->
  o = [] \/
  exists id c a u data, call_of (sy_cc y) id = Some c /\ ac_ts c = ts /\ radio_talks c /\ ac_origin c = OLocal a /\
    brew_gssi_routable cfg (ac_dest c) = true /\ brew_issi_routable cfg (ac_source c) = true /\
    ul_voice_to_ste bits = Ok (Some data) /\ announced u (ac_source c) (ac_dest c) (brew_part log) /\
    o = [inr (BoCmd (BcVoiceFrame u (N.of_nat (length data) * 8 mod 65536) data))].
Proof. exact media_of_owner. Qed.
Print Assumptions C50_owner_partial.
Example C50_owner_partial_met : exists y since log ids, sys_history net_cfg 0 y since log ids /\ NoDup ids /\ all_delivered y /\
  relays 2 y = true /\ relays 3 y = false.
Proof. exact local_relayed. Qed.

(** C50: if the network names one group per call, and no two calls have the same group, a call of the network is at most
    one call here.  Missing: a network that names two groups for one call (refuted below). *)
Theorem C50_one_call_partial : forall cfg g s, one_group cfg g s ->
  (forall id id' c c', call_of s id = Some c -> call_of s id' = Some c' -> ac_dest c = ac_dest c' -> id = id') ->
  forall id id' c c' u, call_of s id = Some c -> call_of s id' = Some c' -> ac_uuid c = Some u -> ac_uuid c' = Some u -> id = id'.
Proof. exact one_local_call. Qed.
Print Assumptions C50_one_call_partial.
Example C50_one_call_partial_met : exists s, one_group net_cfg (fun _ => 200%N) s /\ length (cc_active s) = 2 /\
  exists id c, call_of s id = Some c /\ ac_uuid c = Some 7%N.
Proof. exact one_group_met. Qed.

(** C50 is false of the code.  One call of the network, announced for two groups, becomes two calls here. *)
Theorem C50_one_call_refuted : exists l y o id id' c c' u, outside l /\ sys_run net_cfg 0 l sys_new = Ok (y, o) /\ sy_queue y = [] /\
  id <> id' /\ call_of (sy_cc y) id = Some c /\ call_of (sy_cc y) id' = Some c' /\ ac_uuid c = Some u /\ ac_uuid c' = Some u /\ ac_tx c = true /\ ac_tx c' = true.
Proof. exact two_calls. Qed.
Print Assumptions C50_one_call_refuted.

(** A radio takes the floor of a call of the network and hangs up: the session on its timeslot stays, and the speech of
    the next call on this timeslot, to a group that must stay local, goes to the network. *)
Theorem C50_owner_refuted : exists l y o id c u n data, outside l /\ sys_run net_cfg 0 l sys_new = Ok (y, o) /\ sy_queue y = [] /\
  call_of (sy_cc y) id = Some c /\ radio_talks c /\ brew_gssi_routable net_cfg (ac_dest c) = false /\
  sys_step net_cfg 0 (SeBrew (InUlVoice (ac_ts c) data)) y = Ok (y, [inr (BoCmd (BcVoiceFrame u n data))]).
Proof. exact speech_leaks. Qed.
Print Assumptions C50_owner_refuted.

(** A call of the network that went into hang time because of a message from a radio is released without a word to the
    network entity: its speech is then sent on the timeslot of the next call, while a radio talks there. *)
Theorem C50_downlink_owner_refuted : exists l y o id c y' t data, outside l /\ sys_run net_cfg 0 l sys_new = Ok (y, o) /\ sy_queue y = [] /\
  call_of (sy_cc y) id = Some c /\ radio_talks c /\ brew_gssi_routable net_cfg (ac_dest c) = false /\
  sys_step net_cfg 0 (SeBrew (InPlayout [] (fun _ => 0))) y = Ok (y', [inr (BoVoice t (ac_ts c) data)]).
Proof. exact speech_mixes. Qed.
Print Assumptions C50_downlink_owner_refuted.

(** When the talker of a call of the network changes, call control goes on with the call and the network entity forgets
    it, although the network did not end it: nothing of its speech is sent from then on. *)
Theorem C50_speaker_change_refuted : exists l y o id c u, outside l /\ sys_run net_cfg 0 l sys_new = Ok (y, o) /\ sy_queue y = [] /\
  call_of (sy_cc y) id = Some c /\ ac_uuid c = Some u /\ ac_tx c = true /\ aget u (be_active (sy_brew y)) = None /\
  ~ In (idle u) l.
Proof. exact change_silences. Qed.
Print Assumptions C50_speaker_change_refuted.

(** When a radio hangs up while it talks, the network is never told that the session is over. *)
Theorem C50_session_end_refuted : exists l y o u, outside l /\ sys_run net_cfg 0 l sys_new = Ok (y, o) /\ sy_queue y = [] /\
  cc_active (sy_cc y) = [] /\ be_fwd (sy_brew y) = [] /\ session u (brew_part o) NotBegun = Some Talking.
Proof. exact session_stays. Qed.
Print Assumptions C50_session_end_refuted.

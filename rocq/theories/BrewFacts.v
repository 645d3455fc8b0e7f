(** The network entity and call control: concrete histories, and where they get out of step. *)
From Coq Require Import String.
From Verif Require Import Base BitBuffer AMap AMapOrder TdmaTime TimeslotAlloc MacFields UmacCircuits CmceFields CmcePdus CmceSpec SsiRanges BrewRoute Registry
  CircuitMgr CallControl CcSpec CcHistory CcFacts VoicePack JitterBuffer BrewProtocol BrewWorker BrewEntity BrewSystem BrewSpec.
Open Scope string_scope. Open Scope list_scope. Open Scope nat_scope.

(** Groups 300 to 399 stay local. *)
Definition net_cfg : cfg_route := mk_cfg_route (Some (mk_cfg_brew "brew.example" true None)) [mk_range 300 400].

(** Every event from outside is followed by enough deliveries to empty the queue; each delivery has its own fresh
    identifier. *)
Fixpoint scene_from (n : N) (l : list sys_event) : list sys_event :=
  match l with
  | [] => []
  | e :: t => e :: SeDeliver [] (n + 1) :: SeDeliver [] (n + 2) :: SeDeliver [] (n + 3) :: SeDeliver [] (n + 4) :: scene_from (n + 10) t
  end.
Definition scene (l : list sys_event) : list sys_event := scene_from 1000 l.

(** ** Playing a history *)
Definition calm_demand (s : cc) (e : cc_event) : bool :=
  match e with
  | EvUplink i => match u_tx_demand_from_bitbuf (mi_sdu i) with
                  | Ok (p, _) => match call_of s (u_tx_demand_call_identifier p) with
                                 | Some c => ac_tx c || (match ac_origin c with OLocal _ => true | ONetwork _ => false end && negb (present (ac_uuid c)))
                                 | None => true
                                 end
                  | _ => true
                  end
  | _ => true
  end.
Lemma calm_demand_ok s e : calm_demand s e = true -> no_takeover s e.
Proof.
  intros H i p b c -> Ep Ec Et. cbn [calm_demand] in H. rewrite Ep, Ec, Et in H. cbn [orb] in H. apply andb_true_iff in H. destruct H as [H1 H2].
  destruct (ac_origin c) as [a|]; [|discriminate]. destruct (ac_uuid c); [discriminate|]. split; [now exists a|reflexivity].
Qed.
Definition young (s : cc) (e : cc_event) : bool :=
  match e with
  | EvTick _ t => forallb (fun p : N * active_call => let c := snd p in
      negb (ac_tx c) || match circuit_on s (ac_ts c) with Some ci => match age (ci_created ci) t with Ok a => (a <=? 25920)%Z | _ => true end | None => true end) (cc_active s)
  | _ => true
  end.
Lemma young_ok s e : young s e = true -> no_expiry s e.
Proof.
  intros H hint t id c ci a -> Hc Ht Hci Ha. cbn [young] in H. rewrite forallb_forall in H. unfold call_of in Hc. apply aget_in in Hc. specialize (H _ Hc).
  cbn [snd] in H. rewrite Ht, Hci, Ha in H. now apply Z.leb_le in H.
Qed.

Fixpoint sys_play (cfg : cfg_route) (lat : nat) (evs : list sys_event) (y : sys) (since : N -> nat) (log : list (cc_msg + brew_out)) (ids : list N)
  : option (sys * (N -> nat) * list (cc_msg + brew_out) * list N) :=
  match evs with
  | [] => Some (y, since, log, ids)
  | ev :: t =>
      if from_outside ev then
        match sys_step cfg lat ev y with
        | Ok (y', o) =>
            match cc_event_of ev y with
            | Some e =>
                let since' id := if present (call_of (sy_cc y) id) then since id + opens (cc_part o) else 0 in
                if calm_demand (sy_cc y) e && young (sy_cc y) e && forallb (fun p => since' (fst p) <? 1023) (cc_active (sy_cc y'))
                then sys_play cfg lat t y' since' (log ++ o) ids else None
            | None => sys_play cfg lat t y' since (log ++ o) (ids ++ made_id ev y)
            end
        | _ => None
        end
      else None
  end.
Lemma sys_play_history cfg lat evs : forall y since log ids y' since' log' ids', sys_history cfg lat y since log ids ->
  sys_play cfg lat evs y since log ids = Some (y', since', log', ids') -> sys_history cfg lat y' since' log' ids'.
Proof.
  induction evs as [|ev t IH]; intros y since log ids y' since' log' ids' H E; cbn [sys_play] in E.
  - injection E as <- <- <- <-. exact H.
  - destruct (from_outside ev) eqn:Eo; [|discriminate]. destruct (sys_step cfg lat ev y) as [[y1 o]| |] eqn:Es; try discriminate.
    destruct (cc_event_of ev y) as [e|] eqn:Ee.
    + destruct (calm_demand _ _) eqn:E1; [|discriminate]. destruct (young _ _) eqn:E2; [|discriminate]. cbn [andb] in E. destruct (forallb _ _) eqn:E3; [|discriminate].
      refine (IH _ _ _ _ _ _ _ _ _ E). apply (sys_call cfg lat y since log ids ev e y1 o H Eo Ee Es (calm_demand_ok _ _ E1) (young_ok _ _ E2)).
      intros id c Hc. rewrite forallb_forall in E3. unfold call_of in Hc. apply aget_in in Hc. specialize (E3 _ Hc). now apply Nat.ltb_lt in E3.
    + refine (IH _ _ _ _ _ _ _ _ _ E). now apply (sys_net cfg lat y since log ids ev y1 o).
Qed.

Definition played (evs : list sys_event) (P : sys -> list (cc_msg + brew_out) -> list N -> bool) : bool :=
  match sys_play net_cfg 0 evs sys_new (fun _ => 0) [] [] with Some (y, _, log, ids) => P y log ids | None => false end.
Lemma played_history evs P : played evs P = true -> exists y since log ids, sys_history net_cfg 0 y since log ids /\ P y log ids = true.
Proof.
  unfold played. destruct (sys_play _ _ _ _ _ _ _) as [[[[y since] log] ids]|] eqn:E; [|discriminate]. intros H. exists y, since, log, ids. split; [|exact H].
  exact (sys_play_history _ _ _ _ _ _ _ _ _ _ _ (sys_start net_cfg 0) E).
Qed.

(** ** Pieces of scenes *)
Definition net (e : brew_event) : sys_event := SeBrew (InEvent reg_new [] [] 0 e).
Definition start (u src g : N) : sys_event := net (BeGroupCallStart u src g 0 0).
Definition idle (u : N) : sys_event := net (BeGroupCallEnd u 0).
Definition listen (issi : N) (groups : list N) : sys_event := SeCc (EvSubscriber [] [] issi groups SubAffiliate).
Definition calls (issi g : N) : sys_event :=
  SeCc (up issi (u_setup_wire (mk_u_setup 0 false false (mk_bsi 0 false 1 None (Some 0%N)) true 0 0 1 None (Some g) None None None None None))).
Definition stops (issi id : N) : sys_event := SeCc (up issi (u_tx_ceased_wire (mk_u_tx_ceased id None None None))).
Definition wants (issi id : N) : sys_event := SeCc (up issi (u_tx_demand_wire (mk_u_tx_demand id 0 false false None None None))).
Definition hangs_up (issi id : N) : sys_event := SeCc (up issi (u_release_wire (mk_u_release id 1 None None))).
Definition clock (t : tdma_time) : list sys_event := [SeCc (EvTick [] t); SeBrew (InTick t)].
Definition frame36 : list N := map N.of_nat (seq 0 36).

(** Radio 1 listens to groups 100, 200 and 300. *)
Definition opening : list sys_event := [net BeConnected; listen 1 [100; 200; 300]%N].

Definition outside (l : list sys_event) : Prop := Forall (fun ev => from_outside ev = true) l.

(** A radio calls group 100 and talks. *)
Definition scene_local : list sys_event := scene (opening ++ [calls 1 100; start 7 5 200]).

(** One call of the network for two groups *)
Definition scene_two : list sys_event := scene (opening ++ [start 7 5 100; start 7 6 200]).
(** A radio takes the floor of a network call and hangs up; then a radio calls the local group 300. *)
Definition scene_leak : list sys_event := scene (opening ++ [start 7 5 100; idle 7; wants 1 4; hangs_up 1 4; calls 1 300]).
(** A network call goes into hang time, because a radio said so, and is released; then a radio calls group 300. *)
Definition scene_mix : list sys_event :=
  scene (opening ++ [start 7 5 100; stops 1 4] ++ clock (mk_time 2 1 7 0) ++ [calls 1 300]) ++
  repeat (net (BeVoiceFrame 7 288 frame36)) 6.
(** The speaker of a network call changes. *)
Definition scene_change : list sys_event := scene (opening ++ [start 7 5 100; start 7 6 100]).
(** A radio hangs up while it talks. *)
Definition scene_hangup : list sys_event := scene (opening ++ [calls 1 100; hangs_up 1 4]).

Definition end_of (l : list sys_event) : sys * list (cc_msg + brew_out) :=
  match sys_run net_cfg 0 l sys_new with Ok r => r | _ => (sys_new, []) end.
Definition called (id : N) (y : sys) : active_call := match call_of (sy_cc y) id with Some c => c | None => ex_call end.
Lemma outside_all l : forallb from_outside l = true -> outside l.
Proof. intros H. apply Forall_forall. now apply forallb_forall. Qed.

(** What the play-out sends of the network's speech at the end of a scene *)
Definition sends_down (y : sys) : sys * list (cc_msg + brew_out) := match sys_step net_cfg 0 (SeBrew (InPlayout [] (fun _ => 0))) y with Ok r => r | _ => (sys_new, []) end.

Definition two_end := Eval vm_compute in end_of scene_two.
Lemma two_calls : exists l y o id id' c c' u, outside l /\ sys_run net_cfg 0 l sys_new = Ok (y, o) /\ sy_queue y = [] /\
  id <> id' /\ call_of (sy_cc y) id = Some c /\ call_of (sy_cc y) id' = Some c' /\ ac_uuid c = Some u /\ ac_uuid c' = Some u /\ ac_tx c = true /\ ac_tx c' = true.
Proof.
  exists scene_two, (fst two_end), (snd two_end), 4%N, 5%N, (called 4 (fst two_end)), (called 5 (fst two_end)), 7%N.
  split; [apply outside_all; reflexivity|]. split; [vm_compute; reflexivity|]. split; [reflexivity|]. split; [discriminate|]. now repeat split.
Qed.

Definition leak_end := Eval vm_compute in end_of scene_leak.
Lemma speech_leaks : exists l y o id c u n data, outside l /\ sys_run net_cfg 0 l sys_new = Ok (y, o) /\ sy_queue y = [] /\
  call_of (sy_cc y) id = Some c /\ radio_talks c /\ brew_gssi_routable net_cfg (ac_dest c) = false /\
  sys_step net_cfg 0 (SeBrew (InUlVoice (ac_ts c) data)) y = Ok (y, [inr (BoCmd (BcVoiceFrame u n data))]).
Proof.
  exists scene_leak, (fst leak_end), (snd leak_end), 5%N, (called 5 (fst leak_end)), 1041%N, 288%N, frame36.
  split; [apply outside_all; reflexivity|]. split; [vm_compute; reflexivity|]. split; [reflexivity|]. split; [reflexivity|]. split; [split; reflexivity|]. split; vm_compute; reflexivity.
Qed.

Definition mix_end := Eval vm_compute in end_of scene_mix.
Lemma speech_mixes : exists l y o id c y' t data, outside l /\ sys_run net_cfg 0 l sys_new = Ok (y, o) /\ sy_queue y = [] /\
  call_of (sy_cc y) id = Some c /\ radio_talks c /\ brew_gssi_routable net_cfg (ac_dest c) = false /\
  sys_step net_cfg 0 (SeBrew (InPlayout [] (fun _ => 0))) y = Ok (y', [inr (BoVoice t (ac_ts c) data)]).
Proof.
  exists scene_mix, (fst mix_end), (snd mix_end), 5%N, (called 5 (fst mix_end)), (fst (sends_down (fst mix_end))), (mk_time 2 1 7 0), (tl frame36).
  split; [apply outside_all; reflexivity|]. split; [vm_compute; reflexivity|]. split; [reflexivity|]. split; [reflexivity|]. split; [split; reflexivity|]. split; vm_compute; reflexivity.
Qed.

Definition change_end := Eval vm_compute in end_of scene_change.
Lemma change_silences : exists l y o id c u, outside l /\ sys_run net_cfg 0 l sys_new = Ok (y, o) /\ sy_queue y = [] /\
  call_of (sy_cc y) id = Some c /\ ac_uuid c = Some u /\ ac_tx c = true /\ aget u (be_active (sy_brew y)) = None /\
  ~ In (idle u) l.
Proof.
  exists scene_change, (fst change_end), (snd change_end), 4%N, (called 4 (fst change_end)), 7%N.
  split; [apply outside_all; reflexivity|]. split; [vm_compute; reflexivity|]. do 5 (split; [reflexivity|]).
  intros H. repeat (destruct H as [H|H]; [discriminate|]). destruct H.
Qed.

Definition hangup_end := Eval vm_compute in end_of scene_hangup.
Lemma session_stays : exists l y o u, outside l /\ sys_run net_cfg 0 l sys_new = Ok (y, o) /\ sy_queue y = [] /\
  cc_active (sy_cc y) = [] /\ be_fwd (sy_brew y) = [] /\ session u (brew_part o) NotBegun = Some Talking.
Proof.
  exists scene_hangup, (fst hangup_end), (snd hangup_end), 1021%N.
  split; [apply outside_all; reflexivity|]. split; [vm_compute; reflexivity|]. do 3 (split; [reflexivity|]). vm_compute. reflexivity.
Qed.

(** What happens in the scene of a local call: its speech goes to the network. *)
Definition relays (ts : nat) (y : sys) : bool :=
  match sys_step net_cfg 0 (SeBrew (InUlVoice ts frame36)) y with Ok (_, [inr (BoCmd (BcVoiceFrame u n d))]) => true | _ => false end.
Lemma local_relayed : exists y since log ids, sys_history net_cfg 0 y since log ids /\ NoDup ids /\ all_delivered y /\ relays 2 y = true /\ relays 3 y = false.
Proof.
  destruct (played_history scene_local (fun y log ids => match sy_queue y, ids with [], [_] => relays 2 y && negb (relays 3 y) | _, _ => false end)) as (y & since & log & ids & H & P);
    [vm_compute; reflexivity|].
  exists y, since, log, ids. split; [exact H|]. unfold all_delivered. destruct (sy_queue y); [|discriminate]. destruct ids as [|i [|]]; try discriminate.
  apply andb_true_iff in P. destruct P as [P1 P2]. apply negb_true_iff in P2. split; [repeat constructor; easy|]. split; [intros c []|]. auto.
Qed.

(** A network call and a local call, each with its own group *)
Lemma one_group_met : exists s, one_group net_cfg (fun _ => 200%N) s /\ List.length (cc_active s) = 2 /\ exists id c, call_of s id = Some c /\ ac_uuid c = Some 7%N.
Proof.
  assert (R : forall l s s' q, one_group net_cfg (fun _ => 200%N) s -> cc_step net_cfg l s = Ok (s', q) ->
    match l with EvControl _ (CtlNetworkCallStart _ _ d _) => d = 200%N | _ => True end -> one_group net_cfg (fun _ => 200%N) s').
  { intros l s s' q H E G. apply (one_group_step _ _ _ _ _ _ H E). intros hint u src dest prio ->. exact G. }
  set (e1 := EvSubscriber [] [] 1 [100; 200; 300]%N SubAffiliate). set (e2 := EvControl [] (CtlNetworkCallStart 7 5 200 0)).
  pose (e3 := match calls 1 100 with SeCc e => e | _ => e1 end).
  destruct (cc_step net_cfg e1 cc_new) as [[s1 q1]| |] eqn:E1; [|vm_compute in E1; discriminate..].
  destruct (cc_step net_cfg e2 s1) as [[s2 q2]| |] eqn:E2; [|vm_compute in E1; injection E1 as <- <-; vm_compute in E2; discriminate..].
  destruct (cc_step net_cfg e3 s2) as [[s3 q3]| |] eqn:E3;
    [|vm_compute in E1; injection E1 as <- <-; vm_compute in E2; injection E2 as <- <-; vm_compute in E3; discriminate..].
  exists s3. split; [exact (R _ _ _ _ (R _ _ _ _ (R _ _ _ _ (one_group_start _ _) E1 Logic.I) E2 eq_refl) E3 Logic.I)|].
  vm_compute in E1. injection E1 as <- <-. vm_compute in E2. injection E2 as <- <-. vm_compute in E3. injection E3 as <- <-. split; [reflexivity|].
  eexists 4%N, _. split; reflexivity.
Qed.

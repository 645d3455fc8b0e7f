(** Call control and the base station together: runs that can be computed, and what follows for the theorems. *)
From Verif Require Import Base AMap AMapOrder AMapOrderProofs Slotter SlotterSpec TdmaTime TdmaTimeProofs MacFields UmacCircuits UmacPrecomps UmacBs UmacSched SlotSpec LmacBs BsMac AirSpec AirRun AirFacts
  SilenceFacts CmcePdus BrewRoute CircuitMgr CallControl CcSpec CcProofs CcInv CcHistory CcKeeps CallAirSpec CallAirProofs DlSlot CallAirFacts SilenceSpec.
From Verif Require CcFacts DlFacts AliveSpec.
Open Scope nat_scope.
(** ** Running both *)
Inductive act := ACall (e : cc_event) | AUp (hint : list N) | ATick (t : tdma_time) | ADown.
Record pair_state := mk_ps { ps_cc : cc; ps_um : umac; ps_down : list call_ctl; ps_up : list nat; ps_since : N -> nat }.
Definition called (cfg : cfg_route) (e : cc_event) (up : list nat) (p : pair_state) : option pair_state :=
  match cc_step cfg e (ps_cc p) with
  | Ok (s, q) =>
      let since := since_next (ps_cc p) q (ps_since p) in
      if forallb (fun p => since (fst p) <? 1023) (cc_active s) then Some (mk_ps s (ps_um p) (ps_down p ++ for_umac q) up since) else None
  | _ => None
  end.
Definition aired (c : cell_cfg) (e : um_event) (down : list call_ctl) (p : pair_state) : option pair_state :=
  match um_step c e (ps_um p) with Ok (u, o, m) => Some (mk_ps (ps_cc p) u down (ps_up p ++ CallAirSpec.notices [(e, o, m)]) (ps_since p)) | _ => None end.
Definition act1 (cfg : cfg_route) (c : cell_cfg) (a : act) (p : pair_state) : option pair_state :=
  match a with
  | ACall e => if from_mac e then None else called cfg e (ps_up p) p
  | AUp hint => match ps_up p with ts :: up => called cfg (EvControl hint (CtlUlInactivity ts)) up p | [] => None end
  | ATick t => aired c (UeTick false t) (ps_down p) p
  | ADown => match ps_down p with k :: down => aired c (UeControl k) down p | [] => None end
  end.
Fixpoint acts (cfg : cfg_route) (c : cell_cfg) (l : list act) (p : pair_state) : option pair_state :=
  match l with [] => Some p | a :: l => match act1 cfg c a p with Some p => acts cfg c l p | None => None end end.
Definition from_start (c : cell_cfg) (t : tdma_time) : option pair_state :=
  match umac_new c false with Ok u => match um_step c (UeTick false t) u with Ok (u, _, _) => Some (mk_ps cc_new u [] [] (fun _ => 0)) | _ => None end | _ => None end.
Definition stands (cfg : cfg_route) (c : cell_cfg) (p : pair_state) : Prop := exists j L B, joint_reached cfg c j (ps_since p) L B /\ jo_cc j = ps_cc p /\ st_um (jo_bs j) = ps_um p /\ jo_down j = ps_down p /\ jo_up j = ps_up p /\ others_decent B.

Section Run.
Variables (cfg : cfg_route) (c : cell_cfg).
Hypothesis CO : cell_ok c = true.
Lemma in_bounds (s : cc) (since : N -> nat) : forallb (fun p => since (fst p) <? 1023) (cc_active s) = true -> forall id (x : active_call), aget id (cc_active s) = Some x -> since id < 1023.
Proof. intros F id x Hx. rewrite forallb_forall in F. apply aget_in in Hx. specialize (F _ Hx). now apply Nat.ltb_lt in F. Qed.
Lemma more_decent B e xs ws : others_decent B -> (from_cc e = false -> AliveSpec.decent e) -> others_decent (B ++ [(e, xs, ws)]).
Proof. intros O D. unfold others_decent, events_of. rewrite map_app. apply Forall_app. split; [exact O|]. constructor; [exact D|constructor]. Qed.
Lemma act1_stands a p p' : stands cfg c p -> act1 cfg c a p = Some p' -> stands cfg c p'.
Proof.
  intros (j & L & B & H & E1 & E2 & E3 & E4 & O) E. destruct p as [s u down up since]. cbn [ps_cc ps_um ps_down ps_up ps_since] in *. subst s u down up.
  pose proof (proj1 (reached_good _ _ _ CO (proj1 (proj2 (joint_both cfg c CO _ _ _ _ H))))) as G.
  destruct a as [e|hint|t|]; cbn [act1 ps_cc ps_um ps_down ps_up ps_since] in E.
  - destruct (from_mac e) eqn:FM; [discriminate E|]. unfold called in E. cbn [ps_cc ps_um ps_down ps_up ps_since] in E. destruct (cc_step cfg e (jo_cc j)) as [[s q]| |] eqn:Es; try discriminate E. cbn zeta in E. destruct (forallb _ _) eqn:F; [|discriminate E]. injection E as <-.
    eexists _, _, _. split; [exact (joint_call cfg c j since L B e s q H FM Es (in_bounds _ _ F))|]. auto.
  - destruct (jo_up j) as [|ts up] eqn:Up; [discriminate E|]. unfold called in E. cbn [ps_cc ps_um ps_down ps_up ps_since] in E. destruct (cc_step cfg _ (jo_cc j)) as [[s q]| |] eqn:Es; try discriminate E. cbn zeta in E. destruct (forallb _ _) eqn:F; [|discriminate E]. injection E as <-.
    eexists _, _, _. split; [exact (joint_up cfg c j since L B hint ts up s q H Up Es (in_bounds _ _ F))|]. auto.
  - unfold aired in E. cbn [ps_cc ps_um ps_down ps_up ps_since] in E. destruct (um_step c _ _) as [[[u o] m]| |] eqn:Es; try discriminate E. injection E as <-.
    destruct (lift_step c (UeTick false t) _ (jo_bs j) u o m CO Logic.I G Es) as (s' & ws & Bs & U). cbn [be_of] in Bs.
    eexists _, _, _. split; [exact (joint_air cfg c j since L B (BeTick false t) s' _ ws H eq_refl Logic.I Bs)|]. repeat (split; [reflexivity || exact U|]). apply (more_decent _ _ _ _ O). intros _. exact Logic.I.
  - destruct (jo_down j) as [|k down] eqn:D; [discriminate E|]. unfold aired in E. cbn [ps_cc ps_um ps_down ps_up ps_since] in E. destruct (um_step c _ _) as [[[u o] m]| |] eqn:Es; try discriminate E. injection E as <-.
    destruct (lift_step c (UeControl k) _ (jo_bs j) u o m CO Logic.I G Es) as (s' & ws & Bs & U). cbn [be_of] in Bs.
    eexists _, _, _. split; [exact (joint_down cfg c j since L B k down s' _ ws H D Bs)|]. repeat (split; [reflexivity || exact U|]). apply (more_decent _ _ _ _ O). discriminate.
Qed.
Lemma acts_stand l : forall p p', stands cfg c p -> acts cfg c l p = Some p' -> stands cfg c p'.
Proof.
  induction l as [|a l IH]; intros p p' S E; cbn [acts] in E; [injection E as <-; exact S|]. destruct (act1 cfg c a p) as [p1|] eqn:E1; [|discriminate E]. exact (IH _ _ (act1_stands _ _ _ S E1) E).
Qed.
Lemma start_stands t p : vtime t -> from_start c t = Some p -> stands cfg c p.
Proof.
  intros V E. unfold from_start in E. destruct (umac_new c false) as [u0| |] eqn:EN; try discriminate E. destruct (um_step c (UeTick false t) u0) as [[[u o] m]| |] eqn:Es; try discriminate E. injection E as <-.
  assert (Un : um_run c [UeTick false t] u0 = Ok (u, [(UeTick false t, o, m)])) by (cbn [um_run]; rewrite Es; reflexivity).
  destruct (lifted c false u0 false t [] u _ CO EN V ltac:(constructor) ltac:(constructor) Un) as (s & log & R & U & _ & EO).
  destruct R as (cn0 & s0 & cn & t' & evs & N0 & V' & _ & Run). pose proof (events_of_run _ _ _ _ _ Run) as EV. rewrite EO in EV. cbn [map be_of] in EV. injection EV as <- <- <-.
  eexists _, _, _. split; [exact (joint_start cfg c cn0 false t s0 s log N0 V Run)|]. repeat (split; [reflexivity || exact U|]). unfold others_decent. rewrite EO. constructor; [intros _; exact Logic.I|constructor].
Qed.
Lemma runs {A} t l (f : pair_state -> A) (v : A) : vtime t -> match from_start c t with Some p => match acts cfg c l p with Some p => Some (f p) | None => None end | None => None end = Some v ->
  exists p, stands cfg c p /\ f p = v.
Proof.
  intros V E. destruct (from_start c t) as [p|] eqn:E1; [|discriminate E]. destruct (acts cfg c l p) as [p'|] eqn:E2; [|discriminate E]. injection E as <-. exists p'. split; [|reflexivity].
  exact (acts_stand _ _ _ (start_stands _ _ V E1) E2).
Qed.
End Run.

Fixpoint ticking (n : nat) (t : tdma_time) : list act := match n with O => [] | Datatypes.S n => ATick t :: ticking n (add_timeslots t 1) end.
Definition look (p : pair_state) := (option_map CcFacts.call_view (call_of (ps_cc p) 4), option_map CcFacts.call_view (call_of (ps_cc p) 5), ps_down p, ps_up p).
(** A radio calls group 100 on timeslot 2 and stops, the network calls group 200 on timeslot 3: the messages are on their way; have arrived; nobody speaks; the silence is known. *)
Definition ex_talk : list act := map ACall CcFacts.ex_events.
Definition ex_arrived : list act := ex_talk ++ [ADown; ADown; ADown].
Definition ex_hushed : list act := ex_arrived ++ ticking 216 (mk_time 2 1 1 0).
Lemma ex_vtime : vtime (mk_time 1 1 1 0).
Proof. unfold vtime. cbn. lia. Qed.
Lemma ex_talk_look : exists p, stands CcFacts.ex_cfg DlFacts.ex_cell p /\ look p = (Some (100%N, 2, 4%N, false, true), Some (200%N, 3, 5%N, true, false), [CtlOpen DirBoth 2 4; CtlOpen DirBoth 3 5; CtlFloorReleased 4 2], []).
Proof. apply (runs CcFacts.ex_cfg DlFacts.ex_cell eq_refl (mk_time 1 1 1 0) ex_talk); [exact ex_vtime|]. vm_compute. reflexivity. Qed.
Lemma ex_arrived_look : exists p, stands CcFacts.ex_cfg DlFacts.ex_cell p /\ look p = (Some (100%N, 2, 4%N, false, true), Some (200%N, 3, 5%N, true, false), [], []).
Proof. apply (runs CcFacts.ex_cfg DlFacts.ex_cell eq_refl (mk_time 1 1 1 0) ex_arrived); [exact ex_vtime|]. vm_compute. reflexivity. Qed.
Definition next_tick (t : tdma_time) (p : pair_state) := (look p, option_map look (act1 CcFacts.ex_cfg DlFacts.ex_cell (ATick t) p)).
Lemma ex_hushed_look : exists p, stands CcFacts.ex_cfg DlFacts.ex_cell p /\
  next_tick (mk_time 2 1 4 0) p = ((Some (100%N, 2, 4%N, false, true), Some (200%N, 3, 5%N, true, false), [], []), Some (Some (100%N, 2, 4%N, false, true), Some (200%N, 3, 5%N, true, false), [], [3])).
Proof. apply (runs CcFacts.ex_cfg DlFacts.ex_cell eq_refl (mk_time 1 1 1 0) ex_hushed); [exact ex_vtime|]. vm_compute. reflexivity. Qed.
Definition then_up (p : pair_state) := (look p, option_map look (act1 CcFacts.ex_cfg DlFacts.ex_cell (AUp []) p)).
Lemma ex_known_look : exists p, stands CcFacts.ex_cfg DlFacts.ex_cell p /\
  then_up p = ((Some (100%N, 2, 4%N, false, true), Some (200%N, 3, 5%N, true, false), [], [3]), Some (Some (100%N, 2, 4%N, false, true), Some (200%N, 3, 5%N, false, true), [CtlFloorReleased 5 3], [])).
Proof. apply (runs CcFacts.ex_cfg DlFacts.ex_cell eq_refl (mk_time 1 1 1 0) (ex_hushed ++ [ATick (mk_time 2 1 4 0)])); [exact ex_vtime|]. vm_compute. reflexivity. Qed.

(** What an event leaves alone: a call in hang time keeps its hang time until somebody takes the floor, and only
    subscriber updates change the groups of the radios. *)
From Verif Require Import Base BitBuffer Codec AMap AMapOrder AMapOrderProofs TdmaTime TimeslotAlloc MacFields UmacCircuits CmceFields CmcePdus BrewRoute CircuitMgr CallControl CcSpec CcProofs CcHistory CcFacts.
Open Scope nat_scope.

(** [id]'s call in [m'] is the one in [m], or it has a speaker *)
Definition runs (id : N) (c : active_call) (s' : cc) : Prop :=
  forall c', aget id (cc_active s') = Some c' -> c' = c \/ ac_tx c' = true.
Lemma runs_released D s s' id c : aget id (cc_active s) = Some c -> released D s s' -> runs id c s'.
Proof. intros Hc R c' H. rewrite (rl_active _ _ _ R) in H. destruct (D id); [discriminate|]. left. congruence. Qed.
Lemma runs_same s id c : aget id (cc_active s) = Some c -> runs id c s.
Proof. intros H c' H'. left. congruence. Qed.
Lemma runs_set s s' id c k x : aget id (cc_active s) = Some c -> cc_active s' = aset k x (cc_active s) ->
  (k = id -> ac_tx x = true) -> runs id c s'.
Proof.
  intros Hc E T c' H. rewrite E, aget_aset in H. destruct (N.eqb_spec id k) as [e|e]; [|left; congruence].
  right. injection H as <-. auto.
Qed.

Lemma update_released cfg hg hint issi groups action s s' q : keys s -> NoDup (akeys (cc_active s)) ->
  subscriber_update cfg hg hint issi groups action s = Ok (s', q) -> forall id c, aget id (cc_active s) = Some c -> runs id c s'.
Proof.
  intros K ND E id c Hc.
  assert (X : forall l (g0 : N -> amap N -> amap N) s s' q, keys s -> NoDup (akeys (cc_active s)) -> aget id (cc_active s) = Some c \/ aget id (cc_active s) = None ->
    each (fun g => fun s => drop_unlistened cfg hint g (cc_set_listeners (g0 g (cc_listeners s)) s)) l s = Ok (s', q) -> runs id c s').
  { clear. induction l as [|g t IH]; intros g0 s s' q K ND Hc E; cbn [each] in E.
    - injection E as <- <-. intros c' H. left. destruct Hc; congruence.
    - apply andthen_ok in E. destruct E as (s1 & q1 & q2 & E1 & E2 & ->). set (sa := cc_set_listeners (g0 g (cc_listeners s)) s) in *.
      pose proof (drop_released cfg hint g sa s1 q1 K ND E1) as R.
      apply (IH g0 s1 s' q2); [exact (released_keys _ sa s1 K R)|now apply (rl_nodup _ _ _ R)| |exact E2].
      rewrite (rl_active _ _ _ R). change (cc_active sa) with (cc_active s). destruct (match aget id (cc_active s) with Some _ => _ | None => _ end); tauto. }
  destruct action; cbn [subscriber_update] in E.
  - destruct (aget issi (cc_subs s)); injection E as <- <-; now apply runs_same.
  - destruct (aget issi (cc_subs s)) as [ex|]; [|injection E as <- <-; now apply runs_same].
    apply (X _ (fun g m => dec_listener m g)) in E; [exact E|exact K|exact ND|now left].
  - destruct (insert_groups _ _). injection E as <- <-. now apply runs_same.
  - assert (Y : forall l s s' q, keys s -> NoDup (akeys (cc_active s)) -> aget id (cc_active s) = Some c -> each (drop_unlistened cfg hint) l s = Ok (s', q) -> runs id c s').
    { clear - X. intros l s s' q K ND Hc E. apply (X l (fun _ m => m) s s' q K ND); [now left|].
      rewrite <- E. clear. revert s. induction l as [|g t IH]; intros s; [reflexivity|]. cbn [each]. unfold andthen.
      replace (cc_set_listeners (cc_listeners s) s) with s by (now destruct s).
      destruct (drop_unlistened cfg hint g s) as [[s1 q1]| |]; cbn [bind]; try reflexivity. now rewrite IH. }
    destruct (aget issi (cc_subs s)) as [entry|].
    + destruct (remove_groups groups entry) as [l' gone]. apply (Y _ _ _ _) in E; assumption.
    + apply (Y _ _ _ _) in E; assumption.
Qed.

Lemma hang_runs cfg s e s' q id c h : reachable cfg s -> cc_step cfg e s = Ok (s', q) -> aget id (cc_active s) = Some c -> ac_hang c = Some h -> runs id c s'.
Proof.
  intros R E Hc Hh. pose proof (W_reachable cfg s R) as Hw. pose proof (w_keys _ _ _ Hw) as K.
  assert (Ht : ac_tx c = false) by (rewrite (w_floor _ _ _ Hw id c Hc), Hh; reflexivity).
  destruct e as [hint t|i|hint x|hg hint issi groups action].
  - intros c' H. left. destruct (tick_sub cfg hint t s s' q R E id c' H) as [H0 _]. unfold call_of in H0. congruence.
  - cbn [cc_step] in E. unfold cc_rx_ind in E. binv E. destruct x as [t|]; [|injection E as <- <-; now apply runs_same].
    destruct (memN t _); [|injection E as <- <-; now apply runs_same]. unfold route_xx_deliver in E. binv E.
    destruct x as [t'|]; [|injection E as <- <-; now apply runs_same]. destruct (negb (ul_type_known t')); [injection E as <- <-; now apply runs_same|]. unfold parsed in E.
    repeat match type of E with (if ?b then _ else _) = _ => destruct b end; try discriminate; try (injection E as <- <-; now apply runs_same);
      match type of E with match ?r with _ => _ end = _ => destruct r as [[p b]| |] eqn:Ep end; try discriminate; try (injection E as <- <-; now apply runs_same).
    + unfold rx_u_setup in E. destruct (negb (feature_check p)); [injection E as <- <-; now apply runs_same|].
      destruct (u_setup_called_party_ssi p) as [dest|]; [|injection E as <- <-; now apply runs_same].
      destruct (negb (has_listener dest s)); [injection E as <- <-; now apply runs_same|].
      binv E. destruct x as [[r m] slots]. destruct r as [ci|e].
      * binv E. binv E. binv E. injection E as <- <-. now eapply runs_set; [exact Hc|reflexivity|].
      * injection E as <- <-. now apply runs_same.
    + unfold rx_u_tx_ceased in E. destruct (aget _ (cc_active s)) as [c0|] eqn:Eq0; [|injection E as <- <-; now apply runs_same].
      destruct (_ && _) eqn:EB; [injection E as <- <-; now apply runs_same|].
      assert (Hk : u_tx_ceased_call_identifier p <> id) by (intros e; rewrite e, Hc in Eq0; injection Eq0 as <-; rewrite Ht, Hh in EB; discriminate).
      destruct (aget _ (cc_cached _)) as [[d a]|]; [binv E|]; injection E as <- <-; (eapply runs_set; [exact Hc|reflexivity|]); contradiction.
    + unfold rx_u_tx_demand in E. destruct (aget _ (cc_active s)) as [c0|]; [|injection E as <- <-; now apply runs_same].
      destruct (ac_tx c0); [injection E as <- <-; now apply runs_same|].
      destruct (aget _ (cc_cached _)) as [[d a]|].
      * binv E. binv E. destruct x0 as [s1 q1]. match goal with H : send_tx_granted _ _ _ _ _ = _ |- _ => apply tx_granted_same in H; subst s1 end. injection E as <- <-. now eapply runs_set; [exact Hc|reflexivity|].
      * injection E as <- <-. now eapply runs_set; [exact Hc|reflexivity|].
    + apply (runs_released _ s s' id c Hc (release_released cfg _ _ s s' q K E)).
    + unfold rx_u_disconnect in E. destruct (aget (u_disconnect_call_identifier p) (cc_active s)) as [c0|]; [|injection E as <- <-; now apply runs_same].
      destruct (match ac_origin c0 with OLocal a => (ad_ssi a =? ad_ssi (mi_addr i))%N | ONetwork _ => false end);
        [apply (runs_released _ s s' id c Hc (release_released cfg _ _ s s' q K E))|binv E; injection E as <- <-; now apply runs_same].
  - cbn [cc_step] in E. destruct x; cbn [rx_call_control] in E; try (unfold nothing in E; injection E as <- <-; now apply runs_same).
    + unfold rx_network_call_start in E. binv E. destruct (has_listener dest s) eqn:Hl; cbn [negb] in E.
      * destruct (find _ _) as [[k c0]|] eqn:Ef.
        -- destruct (ac_tx c0).
           ++ apply brew_same in E. destruct E as [-> _]. now apply runs_same.
           ++ apply andthen_ok in E. destruct E as (s1 & q1 & q2 & E1 & E2 & _). apply tx_granted_same in E1. subst s1.
              apply andthen_ok in E2. destruct E2 as (s1 & q3 & q4 & E1 & E2 & _). apply umac_same in E1. destruct E1 as [-> _].
              apply brew_same in E2. destruct E2 as [-> _]. now eapply runs_set; [exact Hc|reflexivity|].
        -- binv E. destruct x0 as [[r m] slots]. destruct r as [ci|e].
           ++ binv E. binv E. injection E as <- <-. now eapply runs_set; [exact Hc|reflexivity|].
           ++ injection E as <- <-. now apply runs_same.
      * apply andthen_ok in E. destruct E as (s1 & q1 & q2 & E1 & E2 & _). apply brew_same in E2. destruct E2 as [-> _].
        apply (runs_released _ s s1 id c Hc (drop_released cfg hint dest s s1 q1 K (w_nodup _ _ _ Hw) E1)).
    + unfold rx_network_call_end in E. destruct (find _ _) as [[k c0]|] eqn:Ef; [|injection E as <- <-; now apply runs_same].
      apply find_some_in in Ef; [|apply (w_nodup _ _ _ Hw)]. destruct Ef as [Ec _]. destruct (ac_tx c0) eqn:Et.
      * apply andthen_ok in E. destruct E as (s1 & q1 & q2 & E1 & E2 & _). apply tx_ceased_same in E1. subst s1. apply umac_same in E2. destruct E2 as [-> _].
        eapply runs_set; [exact Hc|reflexivity|]. intros ->. congruence.
      * apply (runs_released _ s s' id c Hc (release_released cfg _ _ s s' q K E)).
    + unfold ul_inactivity in E. destruct (find _ _) as [[k c0]|] eqn:Ef; [|injection E as <- <-; now apply runs_same].
      apply find_some_in in Ef; [|apply (w_nodup _ _ _ Hw)]. destruct Ef as [Ec Et]. cbn [snd] in Et.
      apply andthen_ok in E. destruct E as (s1 & q1 & q2 & E1 & E2 & _). apply tx_ceased_same in E1. subst s1.
      apply andthen_ok in E2. destruct E2 as (s1 & q3 & q4 & E1 & E2 & _). apply umac_same in E1. destruct E1 as [-> _].
      apply when_brew_same in E2. destruct E2 as [-> _]. eapply runs_set; [exact Hc|reflexivity|]. intros ->.
      apply andb_true_iff in Et. destruct Et. congruence.
  - cbn [cc_step] in E. apply (update_released cfg hg hint issi groups action s s' q K (w_nodup _ _ _ Hw) E id c Hc).
Qed.

Lemma hang_not_restarted : forall cfg s e s' q id c h c', reachable cfg s -> cc_step cfg e s = Ok (s', q) ->
  call_of s id = Some c -> ac_hang c = Some h -> call_of s' id = Some c' -> ac_hang c' = Some h \/ ac_tx c' = true.
Proof.
  intros cfg s e s' q id c h c' R E Hc Hh Hc'. destruct (hang_runs cfg s e s' q id c h R E Hc Hh c' Hc') as [->|]; auto.
Qed.

(** ** The groups of the radios *)
Definition subs_event (e : cc_event) : bool := match e with EvSubscriber _ _ _ _ _ => true | _ => false end.
Lemma step_subs cfg s e s' q : reachable cfg s -> cc_step cfg e s = Ok (s', q) -> subs_event e = false -> cc_subs s' = cc_subs s.
Proof.
  intros R E Hs. pose proof (W_reachable cfg s R) as Hw. pose proof (w_keys _ _ _ Hw) as K.
  destruct e as [hint t|i|hint x|hg hint issi groups action]; [| | |discriminate]; cbn [cc_step] in E.
  - unfold cc_tick in E. apply andthen_ok in E. destruct E as (s1 & q1 & q2 & E1 & E2 & _).
    assert (T : forall tasks s s' q, each do_task tasks s = Ok (s', q) -> cc_subs s' = cc_subs s).
    { clear. induction tasks as [|k l IH]; cbn [each]; intros s s' q E; [injection E as <- <-; reflexivity|].
      apply andthen_ok in E. destruct E as (s1 & q1 & q2 & E1 & E2 & ->). rewrite (IH _ _ _ E2). clear E2.
      destruct k as [i u ts|i ci]; cbn [do_task] in E1.
      - destruct (aget i (cc_active s)) as [x|]; [destruct (present (ac_hang x)); [injection E1 as <- <-; reflexivity|]|];
          (destruct (aget i (cc_cached s)) as [[p a]|]; [binv E1|]; injection E1 as <- <-; reflexivity).
      - binv E1. injection E1 as <- <-. reflexivity. }
    binv E2. destruct x as [tasks m]. rewrite (T _ _ _ _ E2). cbn [cc_set_circ cc_subs]. clear T E2.
    unfold check_hangtime in E1. binv E1. set (s0 := cc_set_dltime t s) in *.
    assert (R1 : released (fun k => existsb (fun id => (id =? k)%N) x) s0 s1).
    { apply (each_released N.eqb (fun id => release_call cfg id ExpiryOfTimer) x) with (q := q1); [|assumption|assumption].
      intros y a b c0 _ Ka Ea. now apply release_released in Ea. }
    apply (rl_subs _ _ _ R1).
  - unfold cc_rx_ind in E. binv E. destruct x as [t|]; [|congruence]. destruct (memN t _); [|congruence]. unfold route_xx_deliver in E. binv E.
    destruct x as [t'|]; [|congruence]. destruct (negb (ul_type_known t')); [congruence|]. unfold parsed in E.
    repeat match type of E with (if ?b then _ else _) = _ => destruct b end; try discriminate; try congruence;
      match type of E with match ?r with _ => _ end = _ => destruct r as [[p b]| |] eqn:Ep end; try discriminate; try congruence.
    + unfold rx_u_setup in E. destruct (negb (feature_check p)); [congruence|].
      destruct (u_setup_called_party_ssi p) as [dest|]; [|congruence]. destruct (negb (has_listener dest s)); [congruence|].
      binv E. destruct x as [[r m] slots]. destruct r as [ci|e]; [binv E; binv E; binv E|]; injection E as <- <-; reflexivity.
    + unfold rx_u_tx_ceased in E. destruct (aget _ (cc_active s)) as [c0|]; [|congruence]. destruct (_ && _); [congruence|].
      destruct (aget _ (cc_cached _)) as [[d a]|]; [binv E|]; injection E as <- <-; reflexivity.
    + unfold rx_u_tx_demand in E. destruct (aget _ (cc_active s)) as [c0|]; [|congruence]. destruct (ac_tx c0); [congruence|].
      destruct (aget _ (cc_cached _)) as [[d a]|].
      * binv E. binv E. destruct x0 as [s1 q1]. match goal with H : send_tx_granted _ _ _ _ _ = _ |- _ => apply tx_granted_same in H; subst s1 end. injection E as <- <-. reflexivity.
      * injection E as <- <-. reflexivity.
    + apply (rl_subs _ _ _ (release_released cfg _ _ s s' q K E)).
    + unfold rx_u_disconnect in E. destruct (aget (u_disconnect_call_identifier p) (cc_active s)) as [c0|]; [|congruence].
      destruct (match ac_origin c0 with OLocal a => (ad_ssi a =? ad_ssi (mi_addr i))%N | ONetwork _ => false end);
        [apply (rl_subs _ _ _ (release_released cfg _ _ s s' q K E))|binv E; congruence].
  - destruct x; cbn [rx_call_control] in E; try (unfold nothing in E; congruence).
    + unfold rx_network_call_start in E. binv E. destruct (has_listener dest s) eqn:Hl; cbn [negb] in E.
      * destruct (find _ _) as [[k c0]|] eqn:Ef.
        -- destruct (ac_tx c0).
           ++ apply brew_same in E. destruct E as [-> _]. reflexivity.
           ++ apply andthen_ok in E. destruct E as (s1 & q1 & q2 & E1 & E2 & _). apply tx_granted_same in E1. subst s1.
              apply andthen_ok in E2. destruct E2 as (s1 & q3 & q4 & E1 & E2 & _). apply umac_same in E1. destruct E1 as [-> _].
              apply brew_same in E2. destruct E2 as [-> _]. reflexivity.
        -- binv E. destruct x0 as [[r m] slots]. destruct r as [ci|e]; [binv E; binv E|]; injection E as <- <-; reflexivity.
      * apply andthen_ok in E. destruct E as (s1 & q1 & q2 & E1 & E2 & _). apply brew_same in E2. destruct E2 as [-> _].
        apply (rl_subs _ _ _ (drop_released cfg hint dest s s1 q1 K (w_nodup _ _ _ Hw) E1)).
    + unfold rx_network_call_end in E. destruct (find _ _) as [[k c0]|] eqn:Ef; [|congruence]. destruct (ac_tx c0) eqn:Et.
      * apply andthen_ok in E. destruct E as (s1 & q1 & q2 & E1 & E2 & _). apply tx_ceased_same in E1. subst s1. apply umac_same in E2. destruct E2 as [-> _]. reflexivity.
      * apply (rl_subs _ _ _ (release_released cfg _ _ s s' q K E)).
    + unfold ul_inactivity in E. destruct (find _ _) as [[k c0]|] eqn:Ef; [|congruence].
      apply andthen_ok in E. destruct E as (s1 & q1 & q2 & E1 & E2 & _). apply tx_ceased_same in E1. subst s1.
      apply andthen_ok in E2. destruct E2 as (s1 & q3 & q4 & E1 & E2 & _). apply umac_same in E1. destruct E1 as [-> _].
      apply when_brew_same in E2. destruct E2 as [-> _]. reflexivity.
Qed.

(** ** A silent uplink *)
Lemma inactivity_others : forall cfg s hint ts s' q id c, reachable cfg s -> cc_step cfg (EvControl hint (CtlUlInactivity ts)) s = Ok (s', q) ->
  call_of s id = Some c -> ac_ts c <> ts -> call_of s' id = Some c.
Proof.
  intros cfg s hint ts s' q id c R E Hc Ht. pose proof (W_reachable cfg s R) as Hw. unfold call_of in *. cbn [cc_step rx_call_control] in E.
  unfold ul_inactivity in E. destruct (find _ _) as [[k c0]|] eqn:Ef; [|congruence].
  apply find_some_in in Ef; [|apply (w_nodup _ _ _ Hw)]. destruct Ef as [Ec Et]. cbn [snd] in Et. apply andb_true_iff in Et. destruct Et as [Et _]. apply Nat.eqb_eq in Et.
  apply andthen_ok in E. destruct E as (s1 & q1 & q2 & E1 & E2 & _). apply tx_ceased_same in E1. subst s1.
  apply andthen_ok in E2. destruct E2 as (s1 & q3 & q4 & E1 & E2 & _). apply umac_same in E1. destruct E1 as [-> _].
  apply when_brew_same in E2. destruct E2 as [-> _]. cbn [cc_set_active cc_active]. rewrite aget_aset.
  destruct (N.eqb_spec id k) as [->|]; [|exact Hc]. exfalso. congruence.
Qed.
Lemma inactivity_hangs : forall cfg s since log hint ts s' q id c, history cfg 1023 s since log ->
  cc_step cfg (EvControl hint (CtlUlInactivity ts)) s = Ok (s', q) -> call_of s id = Some c -> ac_ts c = ts -> ac_tx c = true ->
  exists c', call_of s' id = Some c' /\ ac_tx c' = false /\ ac_hang c' = Some (cc_dltime s) /\ ac_ts c' = ts.
Proof.
  intros cfg s since log hint ts s' q id c H E Hc Ht Hx. pose proof (calls_coherent cfg s since log H) as Co.
  pose proof (W_reachable cfg s (history_reachable _ _ _ _ _ H)) as Hw. cbn [cc_step rx_call_control] in E.
  unfold ul_inactivity in E. destruct (find _ _) as [[k c0]|] eqn:Ef.
  - apply find_some_in in Ef; [|apply (w_nodup _ _ _ Hw)]. destruct Ef as [Ec Et]. cbn [snd] in Et. apply andb_true_iff in Et. destruct Et as [Et _]. apply Nat.eqb_eq in Et.
    assert (k = id) by (apply (coh_distinct _ Co k id c0 c Ec Hc); congruence). subst k.
    apply andthen_ok in E. destruct E as (s1 & q1 & q2 & E1 & E2 & _). apply tx_ceased_same in E1. subst s1.
    apply andthen_ok in E2. destruct E2 as (s1 & q3 & q4 & E1 & E2 & _). apply umac_same in E1. destruct E1 as [-> _].
    apply when_brew_same in E2. destruct E2 as [-> _]. exists (call_to_hang (cc_dltime s) c0). unfold call_of. cbn [cc_set_active cc_active]. rewrite aget_aset, N.eqb_refl.
    repeat split. exact Et.
  - exfalso. apply find_none with (x := (id, c)) in Ef; [|now apply arrange_in; [apply (w_nodup _ _ _ Hw)|]]. cbn [snd] in Ef.
    rewrite Ht, Nat.eqb_refl, Hx in Ef. discriminate.
Qed.

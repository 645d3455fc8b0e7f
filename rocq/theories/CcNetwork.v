(** Which calls bear an identifier of the network. *)
From Verif Require Import Base BitBuffer Codec AMap AMapOrder AMapOrderProofs TdmaTime TimeslotAlloc MacFields UmacCircuits CmceFields CmcePdus BrewRoute
  CircuitMgr CallControl CcSpec CcProofs CcHistory CcFacts CcKeeps BrewSpec.
Open Scope nat_scope.

Definition shrinks (s s' : cc) : Prop := forall id c, aget id (cc_active s') = Some c -> aget id (cc_active s) = Some c.
Lemma shrinks_released D s s' : released D s s' -> shrinks s s'.
Proof. intros R id c H. rewrite (rl_active _ _ _ R) in H. now destruct (D id). Qed.

Lemma update_shrinks cfg hg hint issi groups action s s' q : keys s -> NoDup (akeys (cc_active s)) ->
  subscriber_update cfg hg hint issi groups action s = Ok (s', q) -> shrinks s s'.
Proof.
  intros K ND E.
  assert (X : forall l (g0 : N -> amap N -> amap N) s s' q, keys s -> NoDup (akeys (cc_active s)) ->
    each (fun g => fun s => drop_unlistened cfg hint g (cc_set_listeners (g0 g (cc_listeners s)) s)) l s = Ok (s', q) -> shrinks s s').
  { clear. induction l as [|g t IH]; intros g0 s s' q K ND E; cbn [each] in E.
    - injection E as <- <-. intros id c H. exact H.
    - apply andthen_ok in E. destruct E as (s1 & q1 & q2 & E1 & E2 & ->). set (sa := cc_set_listeners (g0 g (cc_listeners s)) s) in *.
      pose proof (drop_released cfg hint g sa s1 q1 K ND E1) as R. pose proof (shrinks_released _ _ _ R) as S1.
      intros id c H. apply (S1 id c). apply (IH g0 s1 s' q2); [exact (released_keys _ sa s1 K R)|now apply (rl_nodup _ _ _ R)|exact E2|exact H]. }
  destruct action; cbn [subscriber_update] in E.
  - destruct (aget issi (cc_subs s)); injection E as <- <-; now intros id c H.
  - destruct (aget issi (cc_subs s)) as [ex|]; [|injection E as <- <-; now intros id c H].
    apply (X _ (fun g m => dec_listener m g)) in E; [exact E|exact K|exact ND].
  - destruct (insert_groups _ _). injection E as <- <-. now intros id c H.
  - assert (Y : forall l s s' q, keys s -> NoDup (akeys (cc_active s)) -> each (drop_unlistened cfg hint) l s = Ok (s', q) -> shrinks s s').
    { clear - X. intros l s s' q K ND E. apply (X l (fun _ m => m) s s' q K ND).
      rewrite <- E. clear. revert s. induction l as [|g t IH]; intros s; [reflexivity|]. cbn [each]. unfold andthen.
      replace (cc_set_listeners (cc_listeners s) s) with s by (now destruct s).
      destruct (drop_unlistened cfg hint g s) as [[s1 q1]| |]; cbn [bind]; try reflexivity. now rewrite IH. }
    destruct (aget issi (cc_subs s)) as [entry|].
    + destruct (remove_groups groups entry) as [l' gone]. apply (Y _ _ _ _) in E; assumption.
    + apply (Y _ _ _ _) in E; assumption.
Qed.

(** A call bears the identifier [u] after an event only if it did before, or the event is a start of [u] for its group. *)
Definition bears (s : cc) (id u g : N) : Prop := exists c, call_of s id = Some c /\ ac_uuid c = Some u /\ ac_dest c = g.
Definition starts (e : cc_event) (u g : N) : Prop := exists hint src prio, e = EvControl hint (CtlNetworkCallStart u src g prio).
Definition from (s : cc) (e : cc_event) (s' : cc) : Prop := forall id u g, bears s' id u g -> bears s id u g \/ starts e u g.

Lemma from_shrinks s e s' : shrinks s s' -> from s e s'.
Proof. intros S id u g (c & H & U). left. exists c. split; [now apply S|exact U]. Qed.
Lemma from_same s e s' : cc_active s' = cc_active s -> from s e s'.
Proof. intros E. apply from_shrinks. intros id c. now rewrite E. Qed.
Lemma from_set s e s' k x : cc_active s' = aset k x (cc_active s) ->
  (forall u, ac_uuid x = Some u -> starts e u (ac_dest x) \/ exists c, aget k (cc_active s) = Some c /\ ac_uuid c = Some u /\ ac_dest c = ac_dest x) -> from s e s'.
Proof.
  intros E H id u g (c & Hc & U & G). unfold call_of in Hc. rewrite E, aget_aset in Hc. destruct (N.eqb_spec id k) as [->|].
  - injection Hc as <-. rewrite <- G. destruct (H u U) as [X|(c0 & X)]; [now right|left; now exists c0].
  - left. exists c. auto.
Qed.

Lemma step_from cfg s e s' q : reachable cfg s -> cc_step cfg e s = Ok (s', q) -> from s e s'.
Proof.
  intros R E. pose proof (W_reachable cfg s R) as Hw. pose proof (w_keys _ _ _ Hw) as K.
  destruct e as [hint t|i|hint x|hg hint issi groups action].
  - apply from_shrinks. intros id c H. exact (proj1 (tick_sub cfg hint t s s' q R E id c H)).
  - cbn [cc_step] in E. unfold cc_rx_ind in E. binv E. destruct x as [t|]; [|injection E as <- <-; now apply from_same].
    destruct (memN t _); [|injection E as <- <-; now apply from_same]. unfold route_xx_deliver in E. binv E.
    destruct x as [t'|]; [|injection E as <- <-; now apply from_same]. destruct (negb (ul_type_known t')); [injection E as <- <-; now apply from_same|]. unfold parsed in E.
    repeat match type of E with (if ?b then _ else _) = _ => destruct b end; try discriminate; try (injection E as <- <-; now apply from_same);
      match type of E with match ?r with _ => _ end = _ => destruct r as [[p b]| |] eqn:Ep end; try discriminate; try (injection E as <- <-; now apply from_same).
    + unfold rx_u_setup in E. destruct (negb (feature_check p)); [injection E as <- <-; now apply from_same|].
      destruct (u_setup_called_party_ssi p) as [dest|]; [|injection E as <- <-; now apply from_same].
      destruct (negb (has_listener dest s)); [injection E as <- <-; now apply from_same|].
      binv E. destruct x as [[r m] slots]. destruct r as [ci|e].
      * binv E. binv E. binv E. injection E as <- <-. eapply from_set; [reflexivity|]. discriminate.
      * injection E as <- <-. now apply from_same.
    + unfold rx_u_tx_ceased in E. destruct (aget (u_tx_ceased_call_identifier p) (cc_active s)) as [c0|] eqn:Eq0; [|injection E as <- <-; now apply from_same].
      destruct (_ && _) eqn:EB; [injection E as <- <-; now apply from_same|].
      destruct (aget _ (cc_cached _)) as [[d a]|]; [binv E|]; injection E as <- <-; (eapply from_set; [reflexivity|]); intros u Hu; right; exists c0; auto.
    + unfold rx_u_tx_demand in E. destruct (aget (u_tx_demand_call_identifier p) (cc_active s)) as [c0|] eqn:Eq0; [|injection E as <- <-; now apply from_same].
      destruct (ac_tx c0); [injection E as <- <-; now apply from_same|].
      destruct (aget _ (cc_cached _)) as [[d a]|].
      * binv E. binv E. destruct x0 as [s1 q1]. match goal with H : send_tx_granted _ _ _ _ _ = _ |- _ => apply tx_granted_same in H; subst s1 end. injection E as <- <-.
        eapply from_set; [reflexivity|]. intros u Hu; right; exists c0; auto.
      * injection E as <- <-. eapply from_set; [reflexivity|]. intros u Hu; right; exists c0; auto.
    + apply from_shrinks, (shrinks_released _ s s' (release_released cfg _ _ s s' q K E)).
    + unfold rx_u_disconnect in E. destruct (aget (u_disconnect_call_identifier p) (cc_active s)) as [c0|]; [|injection E as <- <-; now apply from_same].
      destruct (match ac_origin c0 with OLocal a => (ad_ssi a =? ad_ssi (mi_addr i))%N | ONetwork _ => false end);
        [apply from_shrinks, (shrinks_released _ s s' (release_released cfg _ _ s s' q K E))|binv E; injection E as <- <-; now apply from_same].
  - cbn [cc_step] in E. destruct x; cbn [rx_call_control] in E; try (unfold nothing in E; injection E as <- <-; now apply from_same).
    + unfold rx_network_call_start in E. binv E. destruct (has_listener dest s) eqn:Hl; cbn [negb] in E.
      * destruct (find _ _) as [[k c0]|] eqn:Ef.
        -- apply find_some_in in Ef; [|apply (w_nodup _ _ _ Hw)]. destruct Ef as [Ec Ed]. cbn [snd] in Ed. apply N.eqb_eq in Ed. destruct (ac_tx c0).
           ++ apply brew_same in E. destruct E as [-> _]. now apply from_same.
           ++ apply andthen_ok in E. destruct E as (s1 & q1 & q2 & E1 & E2 & _). apply tx_granted_same in E1. subst s1.
              apply andthen_ok in E2. destruct E2 as (s1 & q3 & q4 & E1 & E2 & _). apply umac_same in E1. destruct E1 as [-> _].
              apply brew_same in E2. destruct E2 as [-> _]. eapply from_set; [reflexivity|]. intros u Hu. cbn [ac_uuid ac_dest] in *. injection Hu as <-. left.
              rewrite Ed. now exists hint, source, priority.
        -- binv E. destruct x0 as [[r m] slots]. destruct r as [ci|e].
           ++ binv E. binv E. injection E as <- <-. eapply from_set; [reflexivity|]. intros u Hu. cbn [ac_uuid ac_dest] in *. injection Hu as <-. left. now exists hint, source, priority.
           ++ injection E as <- <-. now apply from_same.
      * apply andthen_ok in E. destruct E as (s1 & q1 & q2 & E1 & E2 & _). apply brew_same in E2. destruct E2 as [-> _].
        apply from_shrinks, (shrinks_released _ s s1 (drop_released cfg hint dest s s1 q1 K (w_nodup _ _ _ Hw) E1)).
    + unfold rx_network_call_end in E. destruct (find _ _) as [[k c0]|] eqn:Ef; [|injection E as <- <-; now apply from_same].
      destruct (ac_tx c0) eqn:Et.
      * apply andthen_ok in E. destruct E as (s1 & q1 & q2 & E1 & E2 & _). apply tx_ceased_same in E1. subst s1. apply umac_same in E2. destruct E2 as [-> _].
        eapply from_set; [reflexivity|]. discriminate.
      * apply from_shrinks, (shrinks_released _ s s' (release_released cfg _ _ s s' q K E)).
    + unfold ul_inactivity in E. destruct (find _ _) as [[k c0]|] eqn:Ef; [|injection E as <- <-; now apply from_same].
      apply find_some_in in Ef; [|apply (w_nodup _ _ _ Hw)]. destruct Ef as [Ec Et]. cbn [snd] in Et.
      apply andthen_ok in E. destruct E as (s1 & q1 & q2 & E1 & E2 & _). apply tx_ceased_same in E1. subst s1.
      apply andthen_ok in E2. destruct E2 as (s1 & q3 & q4 & E1 & E2 & _). apply umac_same in E1. destruct E1 as [-> _].
      apply when_brew_same in E2. destruct E2 as [-> _]. eapply from_set; [reflexivity|]. intros u Hu; right; exists c0; auto.
  - cbn [cc_step] in E. apply from_shrinks, (update_shrinks cfg hg hint issi groups action s s' q K (w_nodup _ _ _ Hw) E).
Qed.

Lemma one_group_reachable cfg g s : one_group cfg g s -> reachable cfg s.
Proof. induction 1; [constructor|econstructor; eassumption]. Qed.
Lemma one_group_dest cfg g s : one_group cfg g s -> forall id u x, bears s id u x -> x = g u.
Proof.
  induction 1 as [|s e s' q H IH E G]; intros id u x B.
  - destruct B as (c & X & _). discriminate.
  - destruct (step_from cfg s e s' q (one_group_reachable _ _ _ H) E id u x B) as [B'|(hint & src & prio & ->)]; [now apply (IH id)|].
    exact (G hint u src x prio eq_refl).
Qed.
Theorem one_local_call cfg g s : one_group cfg g s ->
  (forall id id' c c', call_of s id = Some c -> call_of s id' = Some c' -> ac_dest c = ac_dest c' -> id = id') ->
  forall id id' c c' u, call_of s id = Some c -> call_of s id' = Some c' -> ac_uuid c = Some u -> ac_uuid c' = Some u -> id = id'.
Proof.
  intros H O id id' c c' u Hc Hc' U U'. apply (O id id' c c' Hc Hc').
  rewrite (one_group_dest cfg g s H id u (ac_dest c)); [|now exists c]. symmetry. apply (one_group_dest cfg g s H id' u). now exists c'.
Qed.

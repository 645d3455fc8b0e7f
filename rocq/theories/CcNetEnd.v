(** The end of a network call in call control. *)
From Verif Require Import Base AMap AMapOrder AMapOrderProofs TdmaTime CmcePdus CallControl CcSpec CcProofs CcInv.
Open Scope N_scope.

Lemma network_end cfg s hint u s' q : reachable cfg s -> cc_step cfg (EvControl hint (CtlNetworkCallEnd u)) s = Ok (s', q) ->
  (s' = s /\ q = [] /\ forall id c, call_of s id = Some c -> ac_uuid c <> Some u) \/
  exists id c, call_of s id = Some c /\ ac_uuid c = Some u /\ (forall k, k <> id -> call_of s' k = call_of s k) /\
    if ac_tx c then
      In (ToUmac (cc_dltime s) (CtlFloorReleased id (ac_ts c))) q /\
      call_of s' id = Some (mk_call (ac_origin c) (ac_dest c) (ac_source c) (ac_ts c) (ac_usage c) false (Some (cc_dltime s)) None)
    else call_of s' id = None.
Proof.
  intros R E. pose proof (W_reachable cfg s R) as H. cbn [cc_step rx_call_control] in E. unfold rx_network_call_end in E.
  destruct (find _ _) as [[id c]|] eqn:Ef.
  - right. apply find_some_in in Ef; [|apply (w_nodup _ _ _ H)]. destruct Ef as [Ec Eu]. cbn [snd] in Eu. exists id, c. split; [exact Ec|].
    split; [destruct (ac_uuid c); [|discriminate]; cbn [opt_eqb] in Eu; apply N.eqb_eq in Eu; now subst|].
    destruct (ac_tx c).
    + cbv zeta in E. apply andthen_ok in E. destruct E as (s1 & q1 & q2 & E1 & E2 & ->).
      unfold send_tx_ceased in E1. binv E1. injection E1 as <- <-. unfold to_umac in E2. injection E2 as <- <-. unfold call_of. cbn [cc_set_active cc_active cc_dltime].
      split; [intros k Hk; rewrite aget_aset; destruct (N.eqb_spec k id); [contradiction|reflexivity]|].
      split; [apply in_or_app; right; left; reflexivity|]. rewrite aget_aset, N.eqb_refl. reflexivity.
    + apply (release_released cfg id _ s s' q (w_keys _ _ _ H)) in E. unfold call_of. split.
      * intros k Hk. rewrite (rl_active _ _ _ E). destruct (N.eqb_spec id k); [congruence|reflexivity].
      * rewrite (rl_active _ _ _ E), N.eqb_refl. reflexivity.
  - left. injection E as <- <-. split; [reflexivity|]. split; [reflexivity|]. intros id c Ec Eu.
    apply aget_in in Ec. assert (IN : In (id, c) (arrange hint (cc_active s))) by (apply arrange_in; [apply (w_nodup _ _ _ H)|]; unfold call_of in *; first [exact Ec|apply in_aget; [apply (w_nodup _ _ _ H)|exact Ec]]).
    pose proof (find_none _ _ Ef _ IN) as X. cbn [snd] in X. rewrite Eu in X. cbn [opt_eqb] in X. rewrite N.eqb_refl in X. discriminate.
Qed.

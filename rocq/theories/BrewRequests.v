(** Proofs about the set-up and the end of network calls (C50). *)
From Verif Require Import Base AMap AMapOrder AMapOrderProofs TdmaTime MacFields UmacCircuits CmceFields BrewRoute Registry CircuitMgr CallControl CcSpec CcProofs CcInv CcHistory
  VoicePack JitterBuffer BrewProtocol BrewWorker BrewEntity BrewSpec BrewProofs BrewRequestSpec.
From Coq Require Import Permutation.
Open Scope N_scope.

Lemma talker_snoc l i u : talker (l ++ [i]) u = talker_after u (talker l u) i.
Proof. unfold talker. now rewrite fold_left_app. Qed.

Section Config.
Variable cfg : cfg_route.
Variable lat : nat.

Definition source_of (s : brew) (u : N) : option N := option_map nc_source (aget u (be_active s)).

Lemma playout_active jc l : forall s, be_active (fst (be_playout jc l s)) = be_active s.
Proof.
  induction l as [|[u c] t IH]; intros s; [reflexivity|]. cbn [be_playout].
  destruct (be_playout_one jc (u, c) s) as [s1 o1] eqn:E. destruct (be_playout jc t s1) as [s2 o2] eqn:E2. cbn [fst].
  assert (be_active s1 = be_active s).
  { unfold be_playout_one in E. destruct (nc_ready c) as [[[a b] d]|]; [|now injection E as <- _]. destruct (negb _); [now injection E as <- _|].
    destruct (aget u (be_jitter s)); [|now injection E as <- _]. destruct (jb_pop _ _). now injection E as <- _. }
  specialize (IH s1). rewrite E2 in IH. cbn [fst] in IH. congruence.
Qed.
Lemma ensure_active u s : be_active (be_ensure_jitter lat u s) = be_active s.
Proof. unfold be_ensure_jitter. now destruct (aget u (be_jitter s)). Qed.

Lemma talker_step i s s' o u : be_step cfg lat i s = Ok (s', o) -> source_of s' u = talker_after u (source_of s u) i.
Proof.
  unfold source_of. destruct i as [t|reg hint hg jc e|hint jc|x|hint fresh c|hint issi gs act|fresh src dst d|ts bits]; cbn [be_step talker_after]; intros E.
  - injection E as <- _. reflexivity.
  - injection E as E. destruct e; cbn [be_event] in E; try (injection E as <- _; reflexivity).
    + unfold be_group_call_start in E. destruct (aget uuid (be_active s)) as [c|] eqn:A.
      * destruct (N.eqb_spec (nc_source c) source) as [Ec|Ec]; cbn [negb] in E; injection E as <- _; cbn [be_set_active be_active].
        -- destruct (N.eqb_spec uuid u) as [<-|]; [|reflexivity]. rewrite A. cbn. now rewrite Ec.
        -- rewrite aget_aset, (N.eqb_sym u uuid). destruct (N.eqb_spec uuid u); reflexivity.
      * injection E as <- _. rewrite ensure_active. cbn [be_set_active be_set_hanging be_active]. rewrite aget_aset, (N.eqb_sym u uuid). destruct (N.eqb_spec uuid u); reflexivity.
    + unfold be_group_call_end in E. destruct (aget uuid (be_active s)) as [c|] eqn:A.
      * injection E as <- _. destruct (nc_ready c); cbn [be_set_hanging be_set_jitter be_set_active be_active]; rewrite aget_adel, (N.eqb_sym u uuid); now destruct (N.eqb_spec uuid u).
      * injection E as <- _. destruct (N.eqb_spec uuid u) as [<-|]; [now rewrite A|reflexivity].
    + injection E as <- _. unfold be_voice_frame. destruct (aget uuid (be_active s)) as [c|]; [|reflexivity]. destruct (nc_ready c); [|reflexivity].
      destruct (ste_to_acelp data); [|reflexivity]. destruct (aget uuid (be_jitter _)); cbn [be_set_jitter be_active]; now rewrite ensure_active.
  - injection E as E. unfold be_drain in E. destruct (_ =? 18)%Z; [now injection E as <- _|].
    assert (s' = fst (be_playout jc (arrange hint (be_active s)) s)) as -> by now rewrite E. now rewrite playout_active.
  - injection E as <- _. reflexivity.
  - injection E as E. destruct c; try (injection E as <- _; reflexivity).
    + unfold be_local_start in E. destruct (negb _); [injection E as <- _; reflexivity|]. destruct (negb _); injection E as <- _; reflexivity.
    + unfold be_local_stopped in E. destruct (aget _ (be_fwd s)); injection E as <- _; reflexivity.
    + injection E as <- _. unfold be_call_ready. destruct (aget uuid (be_active s)) as [c|] eqn:A; [|reflexivity]. cbn [be_set_active be_active].
      rewrite aget_aset. destruct (N.eqb_spec u uuid) as [->|]; [now rewrite A|reflexivity].
    + injection E as <- _. unfold be_drop_call. destruct (aget uuid (be_active s)) as [c|] eqn:A.
      * cbn [be_set_jitter be_set_active be_set_hanging be_active]. rewrite aget_adel, (N.eqb_sym u uuid). now destruct (N.eqb_spec uuid u).
      * assert (X : be_active (match find (fun p => snd p =? uuid) (arrange hint (be_hanging s)) with Some (g, _) => be_set_hanging (adel g (be_hanging s)) s | None => s end) = be_active s)
          by (destruct (find _ _) as [[g x]|]; reflexivity).
        rewrite X. destruct (N.eqb_spec uuid u) as [<-|]; [now rewrite A|reflexivity].
  - injection E as E. unfold be_subscriber_update in E. destruct act.
    + injection E as <- _. now destruct (aget issi (be_subs s)).
    + now injection E as <- _.
    + destruct (insert_groups _ _). now injection E as <- _.
    + destruct (aget issi (be_subs s)); [|now injection E as <- _]. destruct (remove_groups _ _). now injection E as <- _.
  - now injection E as <- _.
  - binv E. now injection E as <- _.
Qed.

Lemma talker_run l : forall s o, be_run cfg lat l brew_new = Ok (s, o) -> forall u, source_of s u = talker l u.
Proof.
  induction l as [|i t IH] using rev_ind; intros s o R u; [injection R as <- <-; reflexivity|].
  apply run_snoc in R. destruct R as (s1 & o1 & o2 & R1 & E & ->). rewrite talker_snoc, <- (IH _ _ R1). exact (talker_step _ _ _ _ _ E).
Qed.

Theorem requests l s o reg hint hg jc : be_run cfg lat l brew_new = Ok (s, o) ->
  (forall u source dest priority service, exists s',
     be_step cfg lat (InEvent reg hint hg jc (BeGroupCallStart u source dest priority service)) s =
     Ok (s', match talker l u with
             | Some x => if x =? source then [] else [BoCmce (be_dltime s) (CtlNetworkCallStart u source dest priority)]
             | None => [BoCmce (be_dltime s) (CtlNetworkCallStart u source dest priority)]
             end)) /\
  (forall u cause, exists s', be_step cfg lat (InEvent reg hint hg jc (BeGroupCallEnd u cause)) s =
     Ok (s', match talker l u with Some _ => [BoCmce (be_dltime s) (CtlNetworkCallEnd u)] | None => [] end)) /\
  (exists us s', NoDup us /\ (forall u, In u us <-> talker l u <> None) /\
     be_step cfg lat (InEvent reg hint hg jc BeDisconnected) s = Ok (s', map (fun u => BoCmce (be_dltime s) (CtlNetworkCallEnd u)) us)).
Proof.
  intros R. pose proof (talker_run _ _ _ R) as T. pose proof (D_run cfg lat l s o R) as [ND _]. unfold source_of in T. split; [|split].
  - intros u source dest priority service. rewrite <- T. cbn [be_step be_event]. unfold be_group_call_start.
    destruct (aget u (be_active s)) as [c|]; cbn [option_map]; [|eexists; reflexivity]. destruct (nc_source c =? source); eexists; reflexivity.
  - intros u cause. rewrite <- T. cbn [be_step be_event]. unfold be_group_call_end. destruct (aget u (be_active s)) as [c|]; eexists; reflexivity.
  - exists (map fst (arrange hint (be_active s))). eexists. split; [|split].
    + refine (Permutation_NoDup _ ND). unfold akeys. apply Permutation_map. apply Permutation_sym, arrange_perm. exact ND.
    + intros u. rewrite <- T. rewrite in_map_iff. split.
      * intros ([k c] & E & I). cbn [fst] in E. subst k. apply arrange_in in I; [|exact ND]. rewrite I. discriminate.
      * intros N0. destruct (aget u (be_active s)) as [c|] eqn:A; [|now elim N0]. exists (u, c). split; [reflexivity|]. now apply arrange_in.
    + cbn [be_step be_event]. unfold be_release_all. rewrite map_map. reflexivity.
Qed.
End Config.

(** ** What call control answers *)
Lemma no_calls_none {A B} (f : A -> bool) (g : A -> B) l : (forall x, In x l -> f x = false) -> filter f l = [].
Proof. induction l as [|x t IH]; intros H; [reflexivity|]. cbn [filter]. rewrite (H x (or_introl eq_refl)). apply IH. intros y I. apply H. now right. Qed.

Theorem answer cfg s hint u source g p s' q : reachable cfg s -> cc_step cfg (EvControl hint (CtlNetworkCallStart u source g p)) s = Ok (s', q) ->
  (for_brew q = [CtlNetworkCallEnd u] /\ (~ listened s g \/ group_busy s g)) \/
  (exists id c, for_brew q = [CtlNetworkCallReady u id (ac_ts c) (ac_usage c)] /\
     call_of s' id = Some c /\ ac_dest c = g /\ ac_source c = source /\ ac_tx c = true /\ ac_uuid c = Some u) \/
  (q = [] /\ forall id c, call_of s id = Some c -> ac_dest c <> g).
Proof.
  intros Re E. pose proof (W_reachable cfg s Re) as Wf. cbn [cc_step rx_call_control] in E. unfold rx_network_call_start in E. binv E.
  destruct (has_listener g s) eqn:HL; cbn [negb] in E.
  2:{ left. assert (NL : ~ listened s g) by (intros L; apply (listened_has [] s g Wf) in L; congruence). split; [|now left].
      apply andthen_ok in E. destruct E as (s1 & q1 & q2 & E1 & E2 & ->). unfold drop_unlistened in E1. rewrite HL in E1.
      assert (X : filter (fun p0 : N * active_call => ac_dest (snd p0) =? g) (arrange hint (cc_active s)) = []).
      { apply (@no_calls_none _ unit _ (fun _ => tt)). intros [k c] I. apply arrange_in in I; [|exact (w_nodup _ _ _ Wf)]. cbn [snd].
        destruct (N.eqb_spec (ac_dest c) g) as [<-|]; [|reflexivity]. elim NL. exact (active_listened cfg s k c Re I). }
      rewrite X in E1. injection E1 as <- <-. injection E2 as <- <-. reflexivity. }
  destruct (find (fun p0 : N * active_call => ac_dest (snd p0) =? g) (arrange hint (cc_active s))) as [[id call]|] eqn:Ef.
  - apply find_some_in in Ef; [|exact (w_nodup _ _ _ Wf)]. destruct Ef as [Ef Eg]. cbn [snd] in Eg. apply N.eqb_eq in Eg. destruct (ac_tx call) eqn:Tx.
    + injection E as <- <-. left. split; [reflexivity|]. right. exists id, call. auto.
    + right. left. apply andthen_ok in E. destruct E as (s1 & q1 & q2 & E1 & E2 & ->). unfold send_tx_granted in E1. binv E1. injection E1 as <- <-.
      apply andthen_ok in E2. destruct E2 as (s2 & q3 & q4 & E3 & E4 & ->). injection E3 as <- <-. injection E4 as <- <-.
      match goal with H : stealing_msg _ _ _ _ _ = Ok _ |- _ => unfold stealing_msg in H; binv H; binv H; injection H as <- end.
      eexists id, _. split; [|split; [unfold call_of; cbn [cc_set_active cc_active]; rewrite aget_aset, N.eqb_refl; reflexivity|]]; [reflexivity|]. cbn. auto.
  - right. binv E. destruct x0 as [[r m] slots]. destruct r as [c|er].
    + left. binv E. binv E. injection E as <- <-. match goal with H : setup_msg _ _ _ _ _ _ = Ok _ |- _ => unfold setup_msg in H; binv H; binv H; injection H as <- end.
      match goal with H : connect_group_msg _ _ _ = Ok _ |- _ => unfold connect_group_msg in H; binv H; injection H as <- end.
      eexists (ci_call c), _. split; [|split; [unfold call_of; cbn [cc_set_active cc_active]; rewrite aget_aset, N.eqb_refl; reflexivity|]]; [reflexivity|]. cbn. auto.
    + right. injection E as <- <-. split; [reflexivity|]. intros k c A Eg. assert (I : In (k, c) (arrange hint (cc_active s))) by (apply arrange_in; [exact (w_nodup _ _ _ Wf)|exact A]).
      apply (find_none _ _ Ef) in I. cbn [snd] in I. apply N.eqb_neq in I. contradiction.
Qed.

(** What call control tells the upper MAC is what its calls require, and the upper MAC can be given it. *)
From Verif Require Import Base AMap AMapOrder AMapOrderProofs TdmaTime TimeslotAlloc MacFields UmacCircuits CmceFields CmcePdus BrewRoute
  UmacBs SlotSpec CircuitMgr CallControl CcSpec CcProofs CcInv CcHistory CcKeeps CcFacts CallAirSpec.
Open Scope nat_scope.

Definition said (v : nat -> ts_view) (q : list cc_msg) : nat -> ts_view := after_ctl v (for_umac q).
Lemma for_umac_app q q' : for_umac (q ++ q') = for_umac q ++ for_umac q'.
Proof. apply flat_map_app. Qed.
Lemma said_app v q q' : said v (q ++ q') = said (said v q) q'.
Proof. unfold said, after_ctl. now rewrite for_umac_app, fold_left_app. Qed.
Lemma orderly_app l : forall v l', orderly v (l ++ l') <-> orderly v l /\ orderly (after_ctl v l) l'.
Proof. induction l as [|k l IH]; intros v l'; cbn [app orderly after_ctl fold_left]; [tauto|]. change (fold_left _ ?a ?b) with (after_ctl b a). rewrite IH. tauto. Qed.
Definition propers (v : nat -> ts_view) (q : list cc_msg) : Prop := orderly v (for_umac q).
Lemma propers_app v q q' : propers v (q ++ q') <-> propers v q /\ propers (said v q) q'.
Proof. unfold propers. rewrite for_umac_app. apply orderly_app. Qed.

Section Config.
Variable cfg : cfg_route.

Record G (v : nat -> ts_view) (s : cc) : Prop := {
  g_call : forall id c, aget id (cc_active s) = Some c -> v (ac_ts c) = speaking_view c;
  g_free : forall ts, (forall id c, aget id (cc_active s) = Some c -> ac_ts c <> ts) -> v ts = idle_ts }.
Definition Gs (v : nat -> ts_view) (q : list cc_msg) (s' : cc) : Prop := G (said v q) s' /\ propers v q.

Lemma Gs_trans v q q' s1 s2 : Gs v q s1 -> (G (said v q) s1 -> Gs (said v q) q' s2) -> Gs v (q ++ q') s2.
Proof. intros [A B] H. destruct (H A) as [C D]. split; [now rewrite said_app|]. rewrite propers_app. split; assumption. Qed.
Lemma Gs_none v q s s' : G v s -> for_umac q = [] -> cc_active s' = cc_active s -> Gs v q s'.
Proof. intros [A B] Q E. unfold Gs, said, propers. rewrite Q. split; [|exact Logic.I]. constructor; rewrite E; assumption. Qed.

(** One call changes. *)
Lemma Gs_call u v q s s' id c c' : Inv u s -> G v s -> aget id (cc_active s) = Some c -> ac_ts c' = ac_ts c ->
  cc_active s' = aset id c' (cc_active s) ->
  (forall ts, said v q ts = if ts =? ac_ts c then speaking_view c' else v ts) -> propers v q -> Gs v q s'.
Proof.
  intros I [A B] H E EA T K. split; [|exact K]. constructor; rewrite EA.
  - intros k x. rewrite aget_aset, T. destruct (N.eqb_spec k id) as [->|Hk]; intros X.
    + injection X as <-. now rewrite E, Nat.eqb_refl.
    + destruct (Nat.eqb_spec (ac_ts x) (ac_ts c)) as [Et|]; [|now apply A with (id := k)]. exfalso. apply Hk. exact (Inv_distinct u s k id x c I X H Et).
  - intros ts X. rewrite T. destruct (Nat.eqb_spec ts (ac_ts c)) as [->|].
    + exfalso. specialize (X id c'). rewrite aget_aset, N.eqb_refl in X. now apply X.
    + apply B. intros k x Hk Et. destruct (N.eqb_spec k id) as [->|Hn]; [congruence|]. specialize (X k x). rewrite aget_aset in X.
      destruct (N.eqb_spec k id); [contradiction|]. now apply (X Hk).
Qed.

(** One call goes. *)
Lemma Gs_gone u v q s s' id c : Inv u s -> G v s -> aget id (cc_active s) = Some c -> (forall k, aget k (cc_active s') = if (k =? id)%N then None else aget k (cc_active s)) ->
  (forall ts, said v q ts = if ts =? ac_ts c then idle_ts else v ts) -> propers v q -> Gs v q s'.
Proof.
  intros I [A B] H EA T K. split; [|exact K]. constructor.
  - intros k x. rewrite EA, T. destruct (N.eqb_spec k id) as [->|Hk]; intros X; [discriminate|].
    destruct (Nat.eqb_spec (ac_ts x) (ac_ts c)) as [Et|]; [|now apply A with (id := k)]. exfalso. apply Hk. exact (Inv_distinct u s k id x c I X H Et).
  - intros ts X. rewrite T. destruct (Nat.eqb_spec ts (ac_ts c)) as [->|Hn]; [reflexivity|].
    apply B. intros k x Hk Et. specialize (X k x). rewrite EA in X. destruct (N.eqb_spec k id) as [->|]; [congruence|]. now apply (X Hk).
Qed.

Lemma stealing_still n p t a ts m : stealing_msg n p t a ts = Ok m -> exists t r, m = ToMle t r.
Proof. unfold stealing_msg. intros H. binv H. binv H. injection H as <-. eauto. Qed.
Lemma release_still p c t a m : release_msg p c t a = Ok m -> exists t r, m = ToMle t r.
Proof. unfold release_msg. intros H. binv H. injection H as <-. eauto. Qed.
Lemma setup_still p u ts t a r m : setup_msg p u ts t a r = Ok m -> exists t r, m = ToMle t r.
Proof. unfold setup_msg. intros H. binv H. binv H. injection H as <-. eauto. Qed.
Lemma tx_granted_still id sp g ts s s' q : send_tx_granted id sp g ts s = Ok (s', q) -> for_umac q = [].
Proof. unfold send_tx_granted. intros H. binv H. injection H as <- <-. apply stealing_still in E. destruct E as (? & ? & ->). reflexivity. Qed.
Lemma tx_ceased_still id g ts s s' q : send_tx_ceased id g ts s = Ok (s', q) -> for_umac q = [].
Proof. unfold send_tx_ceased. intros H. binv H. injection H as <- <-. apply stealing_still in E. destruct E as (? & ? & ->). reflexivity. Qed.
Lemma brew_still (b : bool) t c : for_umac (if b then [ToBrew t c] else []) = [].
Proof. now destruct b. Qed.
Lemma on_traffic u s id c : Inv u s -> aget id (cc_active s) = Some c -> (2 <=? ac_ts c) && (ac_ts c <=? 4) = true.
Proof. intros I H. destruct (i_call _ _ I _ _ H) as (i & ci & Hi & -> & _). apply andb_true_iff. split; apply Nat.leb_le; lia. Qed.

(** ** Releasing *)
Lemma G_release id cause u v s s' q : Inv u s -> keys s -> G v s -> release_call cfg id cause s = Ok (s', q) -> Gs v q s'.
Proof.
  intros I K H E. unfold release_call in E. pose proof (K id) as Kid. destruct (aget id (cc_cached s)) as [[p a]|] eqn:EC.
  2:{ injection E as <- <-. now apply (Gs_none v [] s). }
  binv E. destruct (aget id (cc_active s)) as [c|] eqn:EA; [|discriminate]. binv E. destruct x0 as [closed m]. injection E as <- <-.
  apply release_still in E0. destruct E0 as (t & r & ->).
  destruct (i_call _ _ I _ _ EA) as (i & ci & Hi & Ets & _ & Dl & _). rewrite Ets in E1.
  apply (close_dl DirBoth) in E1; [|apply (i_dl _ _ I)|exact Hi]. destruct E1 as [E1 _]. injection E1 as -> ->. unfold dl_of in Dl. rewrite Dl.
  destruct (i_circ _ _ I (S i) ci Dl) as (Ct & Cd & _). pose proof (on_traffic u s id c I EA) as OT.
  match goal with |- Gs v ?q _ => set (q0 := q) end.
  assert (Q : for_umac q0 = [CtlClose DirBoth (ac_ts c); CtlCallEnded id (ac_ts c)]).
  { unfold q0. cbn [for_umac flat_map app]. rewrite Cd, Ct, Ets. replace (S (S i)) with (i + 2) by lia. cbn [app]. do 2 f_equal.
    change (flat_map _ ?l) with (for_umac l). apply brew_still. }
  apply (Gs_gone u v q0 s _ id c I H EA).
  - intros k. cbn. apply aget_adel.
  - intros ts. unfold said. rewrite Q. cbn [after_ctl fold_left told]. unfold at_ts. now destruct (ts =? ac_ts c).
  - unfold propers. rewrite Q. repeat split; try exact OT. cbn [told]. unfold at_ts. now rewrite Nat.eqb_refl.
Qed.

Lemma G_each {A} (f : A -> cc_act) (P : cc -> Prop) l :
  (forall x u v s s' q, In x l -> Inv u s -> G v s -> P s -> f x s = Ok (s', q) -> calm u s s' q /\ P s' /\ Gs v q s') ->
  forall u v s s' q, Inv u s -> G v s -> P s -> each f l s = Ok (s', q) -> calm u s s' q /\ P s' /\ Gs v q s'.
Proof.
  induction l as [|x t IH]; intros H u v s s' q I HF HP E; cbn [each] in E.
  - injection E as <- <-. split; [now apply calm_refl|]. split; [assumption|now apply (Gs_none v [] s)].
  - apply andthen_ok in E. destruct E as (s1 & q1 & q2 & E1 & E2 & ->).
    destruct (H x u v s s1 q1 (or_introl eq_refl) I HF HP E1) as (C1 & P1 & G1).
    destruct (IH (fun y u v s s' q Hy => H y u v s s' q (or_intror Hy)) (view u q1) (said v q1) s1 s' q2 (ca_inv _ _ _ _ C1) (proj1 G1) P1 E2) as (C2 & P2 & G2).
    split; [now apply (calm_trans u s s1)|]. split; [assumption|]. apply (Gs_trans v q1 q2 s1); auto.
Qed.

Lemma G_drop hint g u v s s' q : Inv u s -> keys s -> G v s -> drop_unlistened cfg hint g s = Ok (s', q) -> calm u s s' q /\ keys s' /\ Gs v q s'.
Proof.
  intros I K H E. unfold drop_unlistened in E. destruct (has_listener g s).
  { injection E as <- <-. split; [now apply calm_refl|]. split; [assumption|now apply (Gs_none v [] s)]. }
  apply (G_each _ keys) with (u := u) (v := v) in E; [exact E| |assumption|assumption|assumption]. clear E.
  generalize (filter (fun p => (ac_dest (snd p) =? g)%N) (arrange hint (cc_active s))) as l. clear. intros l.
  intros [id c] u v s s' q _ I H K E. apply andthen_ok in E. destruct E as (s1 & q1 & q2 & E1 & E2 & ->).
  assert (s1 = s /\ silent q1 /\ for_umac q1 = []) as (-> & S1 & B1).
  { destruct (ac_origin c) as [a|w]; [unfold nothing in E1; injection E1 as <- <-; split; [reflexivity|]; split; [constructor|reflexivity]|].
    apply when_brew_same in E1. destruct E1 as [-> ->]. split; [reflexivity|]. split; [apply silent_brew|apply brew_still]. }
  split; [|split].
  - apply (calm_trans u s s); [now apply calm_same|]. rewrite view_silent by assumption. now apply (calm_release cfg id SwmiRequestedDisconnection).
  - apply (released_keys (N.eqb id) s s' K), (release_released cfg id _ s s' q2 K E2).
  - apply (Gs_trans v q1 q2 s); [now apply (Gs_none v q1 s)|]. intros F1. now apply (G_release id SwmiRequestedDisconnection u _ s).
Qed.

Lemma G_field v s s' : G v s -> cc_active s' = cc_active s -> G v s'.
Proof. intros [A B] E. constructor; rewrite E; assumption. Qed.

Lemma G_update hg hint issi groups action u v s s' q : Inv u s -> keys s -> G v s ->
  subscriber_update cfg hg hint issi groups action s = Ok (s', q) -> Gs v q s'.
Proof.
  intros I K H E. destruct action; cbn [subscriber_update] in E.
  - destruct (aget issi (cc_subs s)); injection E as <- <-; now apply (Gs_none v [] s).
  - destruct (aget issi (cc_subs s)) as [ex|]; [|injection E as <- <-; now apply (Gs_none v [] s)].
    apply (G_each _ keys) with (u := u) (v := v) in E.
    + apply E.
    + clear. intros g u v s s' q _ I H K E. apply (G_drop hint g u v) in E; [|now apply (Inv_field u s)|now apply (keys_field s)|now apply (G_field v s)].
      destruct E as (E & K' & G1). split; [now apply (calm_setc u s) in E|]. auto.
    + now apply (Inv_field u s).
    + now apply (G_field v s).
    + now apply (keys_field s).
  - destruct (insert_groups _ _) as [l' new]. injection E as <- <-. now apply (Gs_none v [] s).
  - destruct (aget issi (cc_subs s)) as [entry|].
    + destruct (remove_groups groups entry) as [l' gone]. apply (G_each _ keys) with (u := u) (v := v) in E.
      * apply E.
      * clear. intros g u v s s' q _ I H K E. now apply (G_drop hint g u v) in E.
      * now apply (Inv_field u s).
      * now apply (G_field v s).
      * now apply (keys_field s).
    + apply (G_each _ keys) with (u := u) (v := v) in E; [apply E| |assumption|assumption|assumption].
      clear. intros g u v s s' q _ I H K E. now apply (G_drop hint g u v) in E.
Qed.

(** ** Floor control *)
(** the floor is given or taken *)
Lemma G_floor u v s s' q id c c' k : Inv u s -> G v s -> aget id (cc_active s) = Some c -> for_umac q = [k] ->
  (exists h, (forall w, told w (UeControl k) = at_ts (ac_ts c) (hanging h) w) /\ h = negb (ac_tx c')) -> proper k = (2 <=? ac_ts c) && (ac_ts c <=? 4) ->
  (match k with CtlCallEnded _ _ => false | _ => true end) = true ->
  ac_ts c' = ac_ts c -> ac_usage c' = ac_usage c -> cc_active s' = aset id c' (cc_active s) -> Gs v q s'.
Proof.
  intros I H Hc Q (h & T & Eh) Pk Ne Et Eu EA. apply (Gs_call u v q s s' id c c' I H Hc Et EA).
  - intros ts. unfold said. rewrite Q. unfold after_ctl. cbn [fold_left]. rewrite T. unfold at_ts. destruct (Nat.eqb_spec ts (ac_ts c)) as [->|]; [|reflexivity].
    rewrite (g_call _ _ H _ _ Hc). unfold speaking_view, hanging. cbn. now rewrite Eu, Eh.
  - unfold propers. rewrite Q. split; [rewrite Pk; exact (on_traffic u s id c I Hc)|]. split; [|exact Logic.I]. now destruct k.
Qed.

Lemma G_tx_ceased p u v s s' q : Inv u s -> keys s -> G v s -> rx_u_tx_ceased cfg p s = Ok (s', q) -> Gs v q s'.
Proof.
  intros I K H E. unfold rx_u_tx_ceased in E. set (id := u_tx_ceased_call_identifier p) in *. pose proof (K id) as Kid.
  destruct (aget id (cc_active s)) as [c|] eqn:Ec; [|injection E as <- <-; now apply (Gs_none v [] s)].
  destruct (negb (ac_tx c) && present (ac_hang c)); [injection E as <- <-; now apply (Gs_none v [] s)|].
  cbn [cc_set_active cc_cached] in E. destruct (aget id (cc_cached s)) as [[d a]|]; [|discriminate].
  binv E. injection E as <- <-. apply stealing_still in E0. destruct E0 as (t & r & ->).
  apply (G_floor u v s _ _ id c (call_to_hang (cc_dltime s) c) (CtlFloorReleased id (ac_ts c)) I H Ec); try reflexivity.
  - cbn [for_umac flat_map app]. change (flat_map _ ?l) with (for_umac l). now rewrite brew_still.
  - now exists true.
Qed.

Lemma G_tx_demand i p u v s s' q : Inv u s -> keys s -> G v s -> rx_u_tx_demand cfg i p s = Ok (s', q) -> Gs v q s'.
Proof.
  intros I K H E. unfold rx_u_tx_demand in E. set (id := u_tx_demand_call_identifier p) in *. pose proof (K id) as Kid.
  destruct (aget id (cc_active s)) as [c|] eqn:Ec; [|injection E as <- <-; now apply (Gs_none v [] s)].
  destruct (ac_tx c) eqn:Et; [injection E as <- <-; now apply (Gs_none v [] s)|].
  destruct (i_cached _ _ I _ _ Ec) as (pd & EP & _). cbn [cc_set_active cc_cached] in E. rewrite EP in E. binv E. binv E. destruct x0 as [s1 q1]. injection E as <- <-.
  pose proof (tx_granted_still _ _ _ _ _ _ _ E1) as Q1. apply tx_granted_same in E1. subst s1. apply stealing_still in E0. destruct E0 as (t & r & ->).
  cbn [gssi_addr ad_ssi cc_set_active cc_dltime].
  match goal with |- Gs v ?q ?s' => match s' with cc_set_active (aset id ?c' _) s =>
    apply (G_floor u v s s' q id c c' (CtlFloorGranted id (ad_ssi (mi_addr i)) (ac_dest c) (ac_ts c)) I H Ec) end end; try reflexivity.
  - cbn [for_umac flat_map app]. change (flat_map _ ?l) with (for_umac l). rewrite for_umac_app, Q1. cbn [app for_umac flat_map]. change (flat_map _ ?l) with (for_umac l). now rewrite brew_still.
  - now exists false.
Qed.

Lemma G_inactivity hint ts u v s s' q : Inv u s -> W [] [] s -> G v s -> ul_inactivity cfg hint ts s = Ok (s', q) -> Gs v q s'.
Proof.
  intros I H HF E. unfold ul_inactivity in E. destruct (find _ _) as [[id c]|] eqn:Ef; [|injection E as <- <-; now apply (Gs_none v [] s)].
  apply find_some_in in Ef; [|apply (w_nodup _ _ _ H)]. destruct Ef as [Ec Eb]. cbn [snd] in Eb. apply andb_true_iff in Eb. destruct Eb as [Ets _]. apply Nat.eqb_eq in Ets. subst ts.
  apply andthen_ok in E. destruct E as (s1 & q1 & q2 & E1 & E2 & ->). pose proof (tx_ceased_still _ _ _ _ _ _ E1) as Q1. apply tx_ceased_same in E1. subst s1.
  apply andthen_ok in E2. destruct E2 as (s1 & q3 & q4 & E1 & E2 & ->). apply umac_same in E1. destruct E1 as [-> ->].
  apply when_brew_same in E2. destruct E2 as [-> ->].
  apply (G_floor u v s _ _ id c (call_to_hang (cc_dltime s) c) (CtlFloorReleased id (ac_ts c)) I HF Ec); try reflexivity.
  - rewrite for_umac_app, Q1. cbn [app for_umac flat_map]. change (flat_map _ ?l) with (for_umac l). now rewrite brew_still.
  - now exists true.
Qed.

Lemma G_end hint w u v s s' q : Inv u s -> W [] [] s -> G v s -> rx_network_call_end cfg hint w s = Ok (s', q) -> Gs v q s'.
Proof.
  intros I H HF E. unfold rx_network_call_end in E. destruct (find _ _) as [[id c]|] eqn:Ef; [|injection E as <- <-; now apply (Gs_none v [] s)].
  apply find_some_in in Ef; [|apply (w_nodup _ _ _ H)]. destruct Ef as [Ec Eu]. cbn [snd] in Eu. destruct (ac_tx c) eqn:Et.
  - apply andthen_ok in E. destruct E as (s1 & q1 & q2 & E1 & E2 & ->). pose proof (tx_ceased_still _ _ _ _ _ _ E1) as Q1. apply tx_ceased_same in E1. subst s1.
    apply umac_same in E2. destruct E2 as [-> ->].
    match goal with |- Gs v ?q ?s' => match s' with cc_set_active (aset id ?c' _) s =>
      apply (G_floor u v s s' q id c c' (CtlFloorReleased id (ac_ts c)) I HF Ec) end end; try reflexivity.
    + now rewrite for_umac_app, Q1.
    + now exists true.
  - apply (G_release id SwmiRequestedDisconnection u v s s' q I (w_keys _ _ _ H) HF E).
Qed.

(** ** Setting up *)
Lemma G_new u v q s s' id c i : Inv u s -> G v s -> aget id (cc_active s) = None -> i < 3 -> slot_of s i = None -> ac_ts c = i + 2 ->
  cc_active s' = aset id c (cc_active s) -> for_umac q = [CtlOpen DirBoth (ac_ts c) (ac_usage c)] -> ac_tx c = true -> (4 <= ac_usage c <= 63)%N -> Gs v q s'.
Proof.
  intros I HF Fr Hi Si Ets EA Q Tx Us.
  assert (D : forall k x, aget k (cc_active s) = Some x -> ac_ts x <> ac_ts c).
  { intros k x X E. destruct (i_call _ _ I _ _ X) as (j & cj & Hj & Ej & Sj & _). assert (j = i) by lia. subst j. congruence. }
  assert (T : forall ts, said v q ts = if ts =? ac_ts c then speaking_view c else v ts).
  { intros ts. unfold said. rewrite Q. cbn [after_ctl fold_left told]. unfold at_ts. destruct (ts =? ac_ts c); [|reflexivity].
    unfold speaking_view, opened. cbn. now rewrite Tx. }
  destruct HF as [A B]. split.
  2:{ unfold propers. rewrite Q. repeat split. cbn [proper]. rewrite !andb_true_iff, !Nat.leb_le, !N.leb_le. lia. }
  constructor; rewrite EA.
  - intros k x. rewrite aget_aset, T. destruct (N.eqb_spec k id) as [->|Hk]; intros X.
    + injection X as <-. now rewrite Nat.eqb_refl.
    + destruct (Nat.eqb_spec (ac_ts x) (ac_ts c)) as [Et|]; [|now apply A with (id := k)]. exfalso. exact (D k x X Et).
  - intros ts X. rewrite T. destruct (Nat.eqb_spec ts (ac_ts c)) as [->|].
    + exfalso. specialize (X id c). rewrite aget_aset, N.eqb_refl in X. now apply X.
    + apply B. intros k x Hk Et. specialize (X k x). rewrite aget_aset in X. destruct (N.eqb_spec k id) as [->|]; [congruence|]. now apply (X Hk).
Qed.

Lemma G_setup i p u v s s' q : Inv u s -> G v s -> (4 <= cm_next_usage (cc_circ s) <= 63)%N -> aget (cm_next_call (cc_circ s)) (cc_active s) = None \/ opens q = 0 ->
  rx_u_setup cfg i p s = Ok (s', q) -> Gs v q s'.
Proof.
  intros I HF Us Fr E. unfold rx_u_setup in E. destruct (negb (feature_check p)); [injection E as <- <-; now apply (Gs_none v [] s)|].
  destruct (u_setup_called_party_ssi p) as [dest|]; [|injection E as <- <-; now apply (Gs_none v [] s)].
  destruct (negb (has_listener dest s)); [injection E as <- <-; now apply (Gs_none v [] s)|].
  binv E. destruct x as [[r m] slots]. apply (alloc_inv u) in E0; [|assumption]. destruct E0 as [(-> & -> & ->)|(k & -> & Hk & Si & -> & ->)].
  { injection E as <- <-. now apply (Gs_none v [] s). }
  binv E. binv E. binv E. injection E as <- <-. destruct Fr as [Fr|Fr]; [|discriminate Fr].
  apply setup_still in E2. destruct E2 as (t2 & r2 & ->). unfold call_proceeding_msg in E0. binv E0. injection E0 as <-.
  unfold connect_caller_msg in E1. binv E1. binv E1. injection E1 as <-. cbn [ci_call ci_ts ci_usage ci_dir].
  match goal with |- Gs v ?q ?s' => match s' with cc_set_active (aset ?id ?c _) _ => apply (G_new u v q s s' id c k I HF Fr Hk Si eq_refl eq_refl) end end.
  - cbn [for_umac flat_map app]. change (flat_map _ ?l) with (for_umac l). now rewrite brew_still.
  - reflexivity.
  - exact Us.
Qed.

Lemma G_start hint w src dest u v s s' q : Inv u s -> W [] [] s -> G v s -> (4 <= cm_next_usage (cc_circ s) <= 63)%N -> aget (cm_next_call (cc_circ s)) (cc_active s) = None \/ opens q = 0 ->
  rx_network_call_start cfg hint w src dest s = Ok (s', q) -> Gs v q s'.
Proof.
  intros I H HF Us Fr E. unfold rx_network_call_start in E. binv E. destruct (negb (has_listener dest s)).
  - apply andthen_ok in E. destruct E as (s1 & q1 & q2 & E1 & E2 & ->). apply brew_same in E2. destruct E2 as [-> ->].
    apply (G_drop hint dest u v) in E1; [|assumption|apply (w_keys _ _ _ H)|assumption]. destruct E1 as (C1 & _ & G1).
    apply (Gs_trans v q1 _ s1); [assumption|]. intros F1. now apply (Gs_none _ _ s1).
  - destruct (find _ _) as [[id c]|] eqn:Ef.
    + apply find_some_in in Ef; [|apply (w_nodup _ _ _ H)]. destruct Ef as [Ec _]. destruct (ac_tx c) eqn:Et.
      * apply brew_same in E. destruct E as [-> ->]. now apply (Gs_none _ _ s).
      * apply andthen_ok in E. destruct E as (s1 & q1 & q2 & E1 & E2 & ->). pose proof (tx_granted_still _ _ _ _ _ _ _ E1) as Q1. apply tx_granted_same in E1. subst s1.
        apply andthen_ok in E2. destruct E2 as (s1 & q3 & q4 & E1 & E2 & ->). apply umac_same in E1. destruct E1 as [-> ->].
        apply brew_same in E2. destruct E2 as [-> ->].
        match goal with |- Gs v ?q ?s' => match s' with cc_set_active (aset id ?c' _) s =>
          apply (G_floor u v s s' q id c c' (CtlFloorGranted id src dest (ac_ts c)) I HF Ec) end end; try reflexivity.
        -- now rewrite for_umac_app, Q1.
        -- now exists false.
    + binv E. destruct x0 as [[r m] slots]. apply (alloc_inv u) in E1; [|assumption]. destruct E1 as [(-> & -> & ->)|(k & -> & Hk & Si & -> & ->)].
      * injection E as <- <-. now apply (Gs_none v [] s).
      * binv E. binv E. injection E as <- <-. destruct Fr as [Fr|Fr]; [|discriminate Fr].
        apply setup_still in E1. destruct E1 as (t2 & r2 & ->). unfold connect_group_msg in E2. binv E2. injection E2 as <-. cbn [ci_call ci_ts ci_usage ci_dir].
        match goal with |- Gs v ?q ?s' => match s' with cc_set_active (aset ?id ?c _) _ => apply (G_new u v q s s' id c k I HF Fr Hk Si eq_refl eq_refl) end end.
        -- reflexivity.
        -- reflexivity.
        -- exact Us.
Qed.

(** ** Time *)
Lemma G_close c u v s s' q : Inv u s -> keys s -> G v s -> (dl_of s (ci_ts c - 1) = Some c \/ dl_of s (ci_ts c - 1) = None) ->
  2 <= ci_ts c <= 4 -> ci_dir c = DirBoth -> close_task c s = Ok (s', q) -> Gs v q s'.
Proof.
  intros I K H D R Cd E. destruct (calm_close_task c u s s' q I K D R Cd E) as (_ & _ & Dl & Gone).
  destruct (i_circ _ _ I _ _ Dl) as (Ct & _ & x & Hx & Tx).
  unfold close_task in E. binv E. destruct x0 as [closed m]. rewrite Cd in E0. assert (Ec : ci_ts c = (ci_ts c - 2) + 2) by lia. rewrite Ec in E0.
  apply (close_dl DirBoth) in E0; [|apply (i_dl _ _ I)|lia]. destruct E0 as [E0 _]. injection E0 as -> ->.
  replace (S (ci_ts c - 2)) with (ci_ts c - 1) in E by lia. unfold dl_of in Dl. rewrite Dl in E. cbn [unwrap bind do_task cc_set_circ cc_cached] in E.
  binv E. injection E as <- <-.
  assert (Q : for_umac (x0 ++ [ToUmac (cc_dltime (cc_set_circ (cm_set_dl (upd (cm_dl (cc_circ s)) (ci_ts c - 1) None) (cc_circ s)) s)) (CtlClose (ci_dir c) (ci_ts c))]) = [CtlClose DirBoth (ci_ts c)]).
  { rewrite for_umac_app, Cd. cbn [for_umac flat_map app]. destruct (aget (ci_call c) (cc_cached s)) as [[p a]|];
      [binv E0; apply release_still in E; destruct E as (? & ? & ->)|]; injection E0 as <-; reflexivity. }
  cbn [cc_set_circ cc_dltime] in *.
  apply (Gs_gone u v _ s _ (ci_call c) x I H Hx).
  - intros k. rewrite Gone, N.eqb_sym. reflexivity.
  - intros ts. unfold said. rewrite Q. cbn [after_ctl fold_left told]. unfold at_ts. rewrite Tx. replace (S (ci_ts c - 1)) with (ci_ts c) by lia. now destruct (ts =? ci_ts c).
  - unfold propers. rewrite Q. repeat split. cbn [proper]. rewrite andb_true_iff, !Nat.leb_le. lia.
Qed.
Lemma G_closes l : forall u v s s' q, Inv u s -> keys s -> G v s ->
  Forall (fun c => (dl_of s (ci_ts c - 1) = Some c \/ dl_of s (ci_ts c - 1) = None) /\ 2 <= ci_ts c <= 4 /\ ci_dir c = DirBoth) l ->
  each close_task l s = Ok (s', q) -> Gs v q s'.
Proof.
  induction l as [|c t IH]; intros u v s s' q I K H F E; cbn [each] in E; [injection E as <- <-; now apply (Gs_none v [] s)|].
  apply andthen_ok in E. destruct E as (s1 & q1 & q2 & E1 & E2 & ->). apply Forall_cons_iff in F. destruct F as [(F1 & F2 & F3) F].
  destruct (calm_close_task c u s s1 q1 I K F1 F2 F3 E1) as (C1 & K1 & _ & A1). pose proof (G_close c u v s s1 q1 I K H F1 F2 F3 E1) as G1.
  apply (Gs_trans v q1 q2 s1); [exact G1|]. intros G2. apply (IH (view u q1) _ s1); [apply (ca_inv _ _ _ _ C1)|assumption|assumption| |assumption].
  apply Forall_impl with (2 := F). intros x (X1 & X2 & X3). split; [|auto].
  destruct (dl_of s1 (ci_ts x - 1)) as [y|] eqn:D; [|now right]. left. apply (ca_circ _ _ _ _ C1) in D. destruct X1; congruence.
Qed.
Lemma lates_still l : Forall (fun c => match c with SendDSetup _ _ _ => True | SendClose _ _ => False end) l ->
  forall s s' q, each do_task l s = Ok (s', q) -> for_umac q = [].
Proof.
  induction 1 as [|k l Hk F IH]; cbn [each]; intros s s' q E; [injection E as <- <-; reflexivity|].
  apply andthen_ok in E. destruct E as (s1 & q1 & q2 & E1 & E2 & ->). rewrite for_umac_app, (IH _ _ _ E2), app_nil_r. clear IH E2.
  destruct k as [i u ts|i ci]; [|contradiction]. cbn [do_task] in E1.
  destruct (aget i (cc_active s)) as [x|]; [destruct (present (ac_hang x)); [injection E1 as <- <-; reflexivity|]|];
    (destruct (aget i (cc_cached s)) as [[p a]|]; [binv E1; apply setup_still in E; destruct E as (? & ? & ->)|]; injection E1 as <- <-; reflexivity).
Qed.

Lemma G_tick hint t u v s s' q : Inv u s -> W [] [] s -> G v s -> cc_tick cfg hint t s = Ok (s', q) -> Gs v q s'.
Proof.
  intros I H HF E. unfold cc_tick in E. apply andthen_ok in E. destruct E as (s1 & q1 & q2 & E1 & E2 & ->).
  set (s0 := cc_set_dltime t s) in *. assert (I0 : Inv u s0) by (now apply (Inv_field u s)). assert (K0 : keys s0) by (apply (w_keys _ _ _ H)).
  assert (F0 : G v s0) by (now apply (G_field v s)).
  unfold check_hangtime in E1. binv E1. clear E.
  assert (G1 : calm u s0 s1 q1 /\ keys s1 /\ Gs v q1 s1).
  { apply (G_each _ keys) with (u := u) (v := v) in E1; [exact E1| |assumption|assumption|assumption]. clear.
    intros id u v s s' q _ I HF K E. split; [now apply (calm_release cfg id ExpiryOfTimer)|].
    split; [apply (released_keys (N.eqb id) s s' K), (release_released cfg id _ s s' q K E)|]. now apply (G_release id ExpiryOfTimer u v s). }
  destruct G1 as (C1 & K1 & G1). binv E2. destruct x0 as [tasks m]. apply (Gs_trans v q1 q2 s1); [exact G1|]. intros F1.
  unfold cm_tick in E. destruct (Z.eqb_spec (tm_t t) 1) as [T1|T1].
  - binv E. destruct x0 as [closes m1]. binv E. injection E as <- <-. apply each_app in E2. destruct E2 as (s2 & q3 & q4 & X1 & X2 & ->).
    unfold cm_close_expired in E0. binv E0. binv E0. cbn [cm_set_time cm_dltime cm_dl cm_ul] in *.
    rewrite (i_ul _ _ (ca_inv _ _ _ _ C1)), expired_none in E2. injection E2 as <-. rewrite app_nil_r in E0.
    pose proof (close_all_each _ _ _ _ s1 s2 q3 E0 X1) as X3. pose proof (expired_in _ _ _ E) as EX. fold (dl_of s1) in EX.
    set (s1' := cc_set_circ (cm_set_time t (cc_circ s1)) s1) in *.
    assert (C1' : calm (view u q1) s1 s1' []).
    { apply calm_silent; try reflexivity; [apply (ca_inv _ _ _ _ C1)|constructor|apply same_active|apply same_cached]. }
    assert (FA : Forall (fun c => (dl_of s1' (ci_ts c - 1) = Some c \/ dl_of s1' (ci_ts c - 1) = None) /\ 2 <= ci_ts c <= 4 /\ ci_dir c = DirBoth) x1).
    { apply Forall_forall. intros c Hc. apply EX in Hc. destruct Hc as (i & a & Hi & _). fold (dl_of s1 i) in Hi.
      destruct (i_circ _ _ (ca_inv _ _ _ _ C1) _ _ Hi) as (B1 & B2 & z & B3 & B4). rewrite B1. replace (S i - 1) with i by lia.
      split; [left; exact Hi|]. split; [|assumption]. destruct (i_call _ _ (ca_inv _ _ _ _ C1) _ _ B3) as (j & cj & Hj & Ej & _). lia. }
    pose proof (close_tasks _ (view u q1) _ _ _ (ca_inv _ _ _ _ C1') K1 FA X3) as (C2 & _ & _).
    apply (G_closes _ (view u q1) (said v q1)) in X3; [|apply (ca_inv _ _ _ _ C1')|exact K1|now apply (G_field _ s1)|exact FA].
    apply late_only in E3. apply (Gs_trans _ q3 q4 s2); [exact X3|]. intros F2. apply (Gs_none _ _ s2); [assumption|now apply (lates_still x0 E3) in X2|].
    apply (calm_lates x0) with (v := view (view u q1) q3) in X2; [apply X2|exact E3|apply (ca_inv _ _ _ _ C2)].
  - injection E as <- <-. cbn [each] in E2. injection E2 as <- <-. now apply (Gs_none _ _ s1).
Qed.

Lemma G_step e u v s s' q : Inv u s -> W [] [] s -> G v s -> (4 <= cm_next_usage (cc_circ s) <= 63)%N ->
  aget (cm_next_call (cc_circ s)) (cc_active s) = None \/ opens q = 0 -> cc_step cfg e s = Ok (s', q) -> Gs v q s'.
Proof.
  intros I H HF Us Fr E. destruct e as [hint t|i|hint c|hg hint issi groups action]; cbn [cc_step] in E.
  - exact (G_tick hint t u v s s' q I H HF E).
  - assert (N0 : forall s0 q0, Ok (s, []) = Ok (s0, q0) -> Gs v q0 s0) by (intros s0 q0 X; injection X as <- <-; now apply (Gs_none v [] s)).
    unfold cc_rx_ind in E. binv E. destruct x as [t|]; [|exact (N0 _ _ E)]. destruct (memN t _); [|exact (N0 _ _ E)]. unfold route_xx_deliver in E. binv E.
    destruct x as [t'|]; [|exact (N0 _ _ E)]. destruct (negb (ul_type_known t')); [exact (N0 _ _ E)|]. unfold parsed in E.
    repeat match type of E with (if ?b then _ else _) = _ => destruct b end; try (exact (N0 _ _ E)); try discriminate;
      match type of E with match ?r with _ => _ end = _ => destruct r as [[p b]| |] eqn:Ep end; try (exact (N0 _ _ E)); try discriminate.
    + now apply (G_setup i p u v s).
    + apply (G_tx_ceased p u v s); auto. apply (w_keys _ _ _ H).
    + apply (G_tx_demand i p u v s); auto. apply (w_keys _ _ _ H).
    + apply (G_release (u_release_call_identifier p) UserRequestedDisconnection u v s); auto. apply (w_keys _ _ _ H).
    + unfold rx_u_disconnect in E. destruct (aget (u_disconnect_call_identifier p) (cc_active s)) as [c|]; [|exact (N0 _ _ E)].
      destruct (match ac_origin c with OLocal a => (ad_ssi a =? ad_ssi (mi_addr i))%N | ONetwork _ => false end).
      * apply (G_release (u_disconnect_call_identifier p) UserRequestedDisconnection u v s); auto. apply (w_keys _ _ _ H).
      * binv E. injection E as <- <-. now apply (Gs_none v _ s).
  - destruct c; cbn [rx_call_control] in E; try (unfold nothing in E; injection E as <- <-; now apply (Gs_none v [] s)).
    + now apply (G_start hint uuid source dest u v s) in E.
    + now apply (G_end hint uuid u v s) in E.
    + now apply (G_inactivity hint ts u v s) in E.
  - apply (G_update hg hint issi groups action u v s s' q I (w_keys _ _ _ H) HF E).
Qed.
End Config.

(** ** Histories of call control *)
Lemma G_start_state : G (fun _ => idle_ts) cc_new.
Proof. constructor; [discriminate|reflexivity]. Qed.
Lemma fresh_call cfg s since log e s' q : history cfg 1023 s since log -> cc_step cfg e s = Ok (s', q) ->
  (forall id x, aget id (cc_active s') = Some x -> since_next s q since id < 1023) -> aget (cm_next_call (cc_circ s)) (cc_active s) = None \/ opens q = 0.
Proof.
  intros H E B. destruct (history_inv _ _ _ _ H) as [I A]. pose proof (W_reachable cfg s (history_reachable _ _ _ _ _ H)) as Hw.
  destruct (step_effect cfg e _ s s' q I Hw E) as [C|C]; [right; apply (ca_opens _ _ _ _ C)|]. left.
  destruct C as [O C1 U1 (c & Ac & Eu) I']. destruct A as [A1 A2 A3].
  destruct (aget (cm_next_call (cc_circ s)) (cc_active s)) as [c0|] eqn:E0; [|reflexivity]. exfalso.
  pose proof (A2 _ _ E0) as A0. apply after_call_same in A0. specialize (B (cm_next_call (cc_circ s)) c). rewrite Ac, N.eqb_refl in B.
  specialize (B eq_refl). unfold since_next in B. rewrite E0 in B. cbn [present] in B. rewrite O in B. lia.
Qed.
Lemma history_G cfg s since log : history cfg 1023 s since log -> G (said (fun _ => idle_ts) log) s /\ propers (fun _ => idle_ts) log.
Proof.
  induction 1 as [|s since log e s' q H IH E since' B].
  - split; [apply G_start_state|exact Logic.I].
  - destruct IH as [IG IP]. destruct (history_inv _ _ _ _ H) as [I A]. pose proof (W_reachable cfg s (history_reachable _ _ _ _ _ H)) as Hw.
    destruct (G_step cfg e _ _ s s' q I Hw IG (proj2 (ag_next _ _ A)) (fresh_call cfg s since log e s' q H E B) E) as [C D].
    rewrite said_app, propers_app. auto.
Qed.
Lemma history_shows cfg s since log : history cfg 1023 s since log -> shows_calls s (after_ctl (fun _ => idle_ts) (for_umac log)).
Proof. intros H. destruct (history_G _ _ _ _ H) as [[A B] _]. split; [exact A|exact B]. Qed.

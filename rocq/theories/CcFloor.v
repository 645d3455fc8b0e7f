(** What call control tells the network entity about the floor is true. *)
From Verif Require Import Base AMap AMapOrder AMapOrderProofs TdmaTime TimeslotAlloc MacFields UmacCircuits CmceFields CmcePdus BrewRoute
  CircuitMgr CallControl CcSpec CcProofs CcInv CcHistory CcKeeps CcFacts BrewSpec.
Open Scope nat_scope.

Definition told (v : nat -> option turn) (q : list cc_msg) : nat -> option turn := fold_left floor_after (for_brew q) v.
Lemma for_brew_app q q' : for_brew (q ++ q') = for_brew q ++ for_brew q'.
Proof. apply flat_map_app. Qed.
Lemma told_app v q q' : told v (q ++ q') = told (told v q) q'.
Proof. unfold told. now rewrite for_brew_app, fold_left_app. Qed.

(** The floor is granted only on timeslots nobody talks on. *)
Fixpoint turns_ok (v : nat -> option turn) (l : list call_ctl) : Prop :=
  match l with
  | [] => True
  | c :: t => match c with CtlFloorGranted _ _ _ ts => v ts = None | _ => True end /\ turns_ok (floor_after v c) t
  end.
Lemma turns_app v l l' : turns_ok v (l ++ l') <-> turns_ok v l /\ turns_ok (fold_left floor_after l v) l'.
Proof. revert v. induction l as [|c t IH]; intros v; cbn [app turns_ok fold_left]; [tauto|]. rewrite IH. tauto. Qed.

Section Config.
Variable cfg : cfg_route.

Definition heard (c : active_call) : bool :=
  ac_tx c && brew_gssi_routable cfg (ac_dest c) && negb (present (ac_uuid c)) && match ac_origin c with OLocal _ => true | ONetwork _ => false end.

Record F (v : nat -> option turn) (s : cc) : Prop := {
  f_call : forall id c, aget id (cc_active s) = Some c -> v (ac_ts c) = if heard c then Some (id, ac_source c, ac_dest c) else None;
  f_free : forall ts, (forall id c, aget id (cc_active s) = Some c -> ac_ts c <> ts) -> v ts = None;
  f_net : forall id c, aget id (cc_active s) = Some c -> match ac_origin c with ONetwork _ => ac_uuid c = None -> ac_tx c = false | OLocal _ => True end }.

Definition Fs (v : nat -> option turn) (q : list cc_msg) (s' : cc) : Prop := F (told v q) s' /\ turns_ok v (for_brew q).

Lemma Fs_trans v q q' s1 s2 : Fs v q s1 -> (F (told v q) s1 -> Fs (told v q) q' s2) -> Fs v (q ++ q') s2.
Proof.
  intros [A B] H. destruct (H A) as [C D]. split; [now rewrite told_app|]. rewrite for_brew_app, turns_app. split; assumption.
Qed.
Lemma Fs_none v q s s' : F v s -> for_brew q = [] -> cc_active s' = cc_active s -> Fs v q s'.
Proof. intros [A B C] Q E. unfold Fs, told. rewrite Q. split; [|exact Logic.I]. constructor; rewrite E; assumption. Qed.

(** One call changes. *)
Lemma Fs_call u v q s s' id c c' : Inv u s -> F v s -> aget id (cc_active s) = Some c -> ac_ts c' = ac_ts c ->
  cc_active s' = aset id c' (cc_active s) ->
  (match ac_origin c' with ONetwork _ => ac_uuid c' = None -> ac_tx c' = false | OLocal _ => True end) ->
  (forall ts, told v q ts = if ts =? ac_ts c then (if heard c' then Some (id, ac_source c', ac_dest c') else None) else v ts) ->
  turns_ok v (for_brew q) -> Fs v q s'.
Proof.
  intros I [A B C] H E EA N T K. split; [|exact K]. constructor; rewrite EA.
  - intros k x. rewrite aget_aset, T. destruct (N.eqb_spec k id) as [->|Hk]; intros X.
    + injection X as <-. now rewrite E, Nat.eqb_refl.
    + destruct (Nat.eqb_spec (ac_ts x) (ac_ts c)) as [Et|]; [|now apply A]. exfalso. apply Hk. exact (Inv_distinct u s k id x c I X H Et).
  - intros ts X. rewrite T. destruct (Nat.eqb_spec ts (ac_ts c)) as [->|].
    + exfalso. specialize (X id c'). rewrite aget_aset, N.eqb_refl in X. now apply X.
    + apply B. intros k x Hk Et. destruct (N.eqb_spec k id) as [->|Hn]; [congruence|]. specialize (X k x). rewrite aget_aset in X.
      destruct (N.eqb_spec k id); [contradiction|]. now apply (X Hk).
  - intros k x. rewrite aget_aset. destruct (N.eqb_spec k id) as [->|Hk]; [|apply C]. intros X. injection X as <-. exact N.
Qed.

(** One call goes. *)
Lemma Fs_gone u v q s s' id c : Inv u s -> F v s -> aget id (cc_active s) = Some c -> (forall k, aget k (cc_active s') = if (k =? id)%N then None else aget k (cc_active s)) ->
  (forall ts, told v q ts = if ts =? ac_ts c then None else v ts) -> turns_ok v (for_brew q) -> Fs v q s'.
Proof.
  intros I [A B C] H EA T K. split; [|exact K]. constructor.
  - intros k x. rewrite EA, T. destruct (N.eqb_spec k id) as [->|Hk]; intros X; [discriminate|].
    destruct (Nat.eqb_spec (ac_ts x) (ac_ts c)) as [Et|]; [|now apply A]. exfalso. apply Hk. exact (Inv_distinct u s k id x c I X H Et).
  - intros ts X. rewrite T. destruct (Nat.eqb_spec ts (ac_ts c)) as [->|Hn]; [reflexivity|].
    apply B. intros k x Hk Et. specialize (X k x). rewrite EA in X. destruct (N.eqb_spec k id) as [->|]; [congruence|]. now apply (X Hk).
  - intros k x. rewrite EA. destruct (k =? id)%N; [discriminate|apply C].
Qed.

Lemma stealing_quiet n p t a ts m : stealing_msg n p t a ts = Ok m -> exists t r, m = ToMle t r.
Proof. unfold stealing_msg. intros H. binv H. binv H. injection H as <-. eauto. Qed.
Lemma release_quiet p c t a m : release_msg p c t a = Ok m -> exists t r, m = ToMle t r.
Proof. unfold release_msg. intros H. binv H. injection H as <-. eauto. Qed.
Lemma setup_quiet p u ts t a r m : setup_msg p u ts t a r = Ok m -> exists t r, m = ToMle t r.
Proof. unfold setup_msg. intros H. binv H. binv H. injection H as <-. eauto. Qed.
Lemma tx_granted_quiet id sp g ts s s' q : send_tx_granted id sp g ts s = Ok (s', q) -> for_brew q = [].
Proof. unfold send_tx_granted. intros H. binv H. injection H as <- <-. apply stealing_quiet in E. destruct E as (? & ? & ->). reflexivity. Qed.
Lemma tx_ceased_quiet id g ts s s' q : send_tx_ceased id g ts s = Ok (s', q) -> for_brew q = [].
Proof. unfold send_tx_ceased. intros H. binv H. injection H as <- <-. apply stealing_quiet in E. destruct E as (? & ? & ->). reflexivity. Qed.

(** ** Releasing *)
Lemma F_release id cause u v s s' q : Inv u s -> keys s -> F v s -> release_call cfg id cause s = Ok (s', q) -> Fs v q s'.
Proof.
  intros I K H E. unfold release_call in E. pose proof (K id) as Kid. destruct (aget id (cc_cached s)) as [[p a]|] eqn:EC.
  2:{ injection E as <- <-. now apply (Fs_none v [] s). }
  binv E. destruct (aget id (cc_active s)) as [c|] eqn:EA; [|discriminate]. binv E. destruct x0 as [closed m]. injection E as <- <-.
  apply release_quiet in E0. destruct E0 as (t & r & ->).
  match goal with |- Fs v ?q _ => set (q0 := q) end.
  assert (Q : for_brew q0 = if brew_gssi_routable cfg (ac_dest c) && match ac_origin c with OLocal _ => true | ONetwork _ => false end then [CtlCallEnded id (ac_ts c)] else []).
  { unfold q0. cbn [for_brew flat_map app]. fold for_brew. destruct closed; cbn; destruct (_ && _)%bool; reflexivity. }
  apply (Fs_gone u v q0 s _ id c I H EA).
  - intros k. cbn. apply aget_adel.
  - intros ts. unfold told. rewrite Q. pose proof (f_call _ _ H _ _ EA) as V. unfold heard in V.
    destruct (brew_gssi_routable cfg (ac_dest c)); destruct (ac_origin c); cbn [andb fold_left floor_after]; try reflexivity;
      rewrite ?andb_false_r in V; cbn [andb] in V; destruct (Nat.eqb_spec ts (ac_ts c)) as [->|]; auto.
  - rewrite Q. destruct (_ && _)%bool; cbn; auto.
Qed.

Lemma F_each {A} (f : A -> cc_act) (P : cc -> Prop) l :
  (forall x u v s s' q, In x l -> Inv u s -> F v s -> P s -> f x s = Ok (s', q) -> calm u s s' q /\ P s' /\ Fs v q s') ->
  forall u v s s' q, Inv u s -> F v s -> P s -> each f l s = Ok (s', q) -> calm u s s' q /\ P s' /\ Fs v q s'.
Proof.
  induction l as [|x t IH]; intros H u v s s' q I HF HP E; cbn [each] in E.
  - injection E as <- <-. split; [now apply calm_refl|]. split; [assumption|now apply (Fs_none v [] s)].
  - apply andthen_ok in E. destruct E as (s1 & q1 & q2 & E1 & E2 & ->).
    destruct (H x u v s s1 q1 (or_introl eq_refl) I HF HP E1) as (C1 & P1 & G1).
    destruct (IH (fun y u v s s' q Hy => H y u v s s' q (or_intror Hy)) (view u q1) (told v q1) s1 s' q2 (ca_inv _ _ _ _ C1) (proj1 G1) P1 E2) as (C2 & P2 & G2).
    split; [now apply (calm_trans u s s1)|]. split; [assumption|]. apply (Fs_trans v q1 q2 s1); auto.
Qed.

Lemma F_drop hint g u v s s' q : Inv u s -> keys s -> F v s -> drop_unlistened cfg hint g s = Ok (s', q) -> calm u s s' q /\ keys s' /\ Fs v q s'.
Proof.
  intros I K H E. unfold drop_unlistened in E. destruct (has_listener g s).
  { injection E as <- <-. split; [now apply calm_refl|]. split; [assumption|now apply (Fs_none v [] s)]. }
  apply (F_each _ keys) with (u := u) (v := v) in E; [exact E| |assumption|assumption|assumption]. clear E.
  generalize (filter (fun p => (ac_dest (snd p) =? g)%N) (arrange hint (cc_active s))) as l. clear. intros l.
  intros [id c] u v s s' q _ I H K E. apply andthen_ok in E. destruct E as (s1 & q1 & q2 & E1 & E2 & ->).
  assert (s1 = s /\ silent q1 /\ (for_brew q1 = [] \/ exists w, for_brew q1 = [CtlNetworkCallEnd w])) as (-> & S1 & B1).
  { destruct (ac_origin c) as [a|w]; [unfold nothing in E1; injection E1 as <- <-; split; [reflexivity|]; split; [constructor|now left]|].
    apply when_brew_same in E1. destruct E1 as [-> ->]. split; [reflexivity|]. split; [apply silent_brew|]. destruct (brew_gssi_routable cfg g); [right; now exists w|now left]. }
  split; [|split].
  - apply (calm_trans u s s); [now apply calm_same|]. rewrite view_silent by assumption. now apply (calm_release cfg id SwmiRequestedDisconnection).
  - apply (released_keys (N.eqb id) s s' K), (release_released cfg id _ s s' q2 K E2).
  - apply (Fs_trans v q1 q2 s).
    + destruct B1 as [B1|[w B1]]; unfold Fs, told; rewrite B1; cbn; auto.
    + intros F1. assert (T1 : told v q1 = v) by (unfold told; destruct B1 as [B1|[w B1]]; rewrite B1; reflexivity). rewrite T1 in *.
      now apply (F_release id SwmiRequestedDisconnection u v s).
Qed.

Lemma F_field v s s' : F v s -> cc_active s' = cc_active s -> F v s'.
Proof. intros [A B C] E. constructor; rewrite E; assumption. Qed.

Lemma F_update hg hint issi groups action u v s s' q : Inv u s -> keys s -> F v s ->
  subscriber_update cfg hg hint issi groups action s = Ok (s', q) -> Fs v q s'.
Proof.
  intros I K H E. destruct action; cbn [subscriber_update] in E.
  - destruct (aget issi (cc_subs s)); injection E as <- <-; now apply (Fs_none v [] s).
  - destruct (aget issi (cc_subs s)) as [ex|]; [|injection E as <- <-; now apply (Fs_none v [] s)].
    apply (F_each _ keys) with (u := u) (v := v) in E.
    + apply E.
    + clear. intros g u v s s' q _ I H K E. apply (F_drop hint g u v) in E; [|now apply (Inv_field u s)|now apply (keys_field s)|now apply (F_field v s)].
      destruct E as (E & K' & G). split; [now apply (calm_setc u s) in E|]. auto.
    + now apply (Inv_field u s).
    + now apply (F_field v s).
    + now apply (keys_field s).
  - destruct (insert_groups _ _) as [l' new]. injection E as <- <-. now apply (Fs_none v [] s).
  - destruct (aget issi (cc_subs s)) as [entry|].
    + destruct (remove_groups groups entry) as [l' gone]. apply (F_each _ keys) with (u := u) (v := v) in E.
      * apply E.
      * clear. intros g u v s s' q _ I H K E. now apply (F_drop hint g u v) in E.
      * now apply (Inv_field u s).
      * now apply (F_field v s).
      * now apply (keys_field s).
    + apply (F_each _ keys) with (u := u) (v := v) in E; [apply E| |assumption|assumption|assumption].
      clear. intros g u v s s' q _ I H K E. now apply (F_drop hint g u v) in E.
Qed.

(** ** Floor control *)
Lemma told_brew v b t c ts : told v (if b : bool then [ToBrew t c] else []) ts = if b then floor_after v c ts else v ts.
Proof. now destruct b. Qed.
Lemma told_mle v t r q : told v (ToMle t r :: q) = told v q.
Proof. reflexivity. Qed.
Lemma told_umac v t r q : told v (ToUmac t r :: q) = told v q.
Proof. reflexivity. Qed.
Lemma told_quiet v q q' : for_brew q = [] -> told v (q ++ q') = told v q'.
Proof. intros H. unfold told. now rewrite for_brew_app, H. Qed.

Lemma F_hang u v s s' q id c q0 t : Inv u s -> F v s -> aget id (cc_active s) = Some c -> for_brew q0 = [] ->
  cc_active s' = aset id (call_to_hang t c) (cc_active s) ->
  q = q0 ++ (if brew_gssi_routable cfg (ac_dest c) then [ToBrew t (CtlFloorReleased id (ac_ts c))] else []) -> Fs v q s'.
Proof.
  intros I H Hc Q EA ->. apply (Fs_call u v _ s s' id c (call_to_hang t c) I H Hc eq_refl EA).
  - cbn. now destruct (ac_origin c).
  - intros ts. rewrite told_quiet by assumption. rewrite told_brew. pose proof (f_call _ _ H _ _ Hc) as V. unfold heard in *. cbn [call_to_hang ac_tx andb].
    destruct (brew_gssi_routable cfg (ac_dest c)); [reflexivity|]. rewrite andb_false_r in V. cbn [andb] in V. destruct (Nat.eqb_spec ts (ac_ts c)) as [->|]; auto.
  - rewrite for_brew_app, Q. destruct (brew_gssi_routable cfg (ac_dest c)); cbn; auto.
Qed.

Lemma F_tx_ceased p u v s s' q : Inv u s -> keys s -> F v s -> rx_u_tx_ceased cfg p s = Ok (s', q) -> Fs v q s'.
Proof.
  intros I K H E. unfold rx_u_tx_ceased in E. set (id := u_tx_ceased_call_identifier p) in *. pose proof (K id) as Kid.
  destruct (aget id (cc_active s)) as [c|] eqn:Ec; [|injection E as <- <-; now apply (Fs_none v [] s)].
  destruct (negb (ac_tx c) && present (ac_hang c)); [injection E as <- <-; now apply (Fs_none v [] s)|].
  cbn [cc_set_active cc_cached] in E. destruct (aget id (cc_cached s)) as [[d a]|]; [|discriminate].
  binv E. injection E as <- <-. apply stealing_quiet in E0. destruct E0 as (t & r & ->).
  match goal with |- Fs v ?q _ => apply (F_hang u v s _ q id c [ToMle t r; ToUmac (cc_dltime s) (CtlFloorReleased id (ac_ts c))] (cc_dltime s) I H Ec) end; reflexivity.
Qed.

Lemma F_tx_demand i p u v s s' q : Inv u s -> keys s -> F v s ->
  (forall c, aget (u_tx_demand_call_identifier p) (cc_active s) = Some c -> ac_tx c = false -> (exists a, ac_origin c = OLocal a) /\ ac_uuid c = None) ->
  rx_u_tx_demand cfg i p s = Ok (s', q) -> Fs v q s'.
Proof.
  intros I K H NT E. unfold rx_u_tx_demand in E. set (id := u_tx_demand_call_identifier p) in *. pose proof (K id) as Kid.
  destruct (aget id (cc_active s)) as [c|] eqn:Ec; [|injection E as <- <-; now apply (Fs_none v [] s)].
  destruct (ac_tx c) eqn:Et; [injection E as <- <-; now apply (Fs_none v [] s)|]. destruct (NT c eq_refl Et) as ((a0 & Or) & Un).
  destruct (i_cached _ _ I _ _ Ec) as (pd & EP & _). cbn [cc_set_active cc_cached] in E. rewrite EP in E. binv E. binv E. destruct x0 as [s1 q1]. injection E as <- <-.
  pose proof (tx_granted_quiet _ _ _ _ _ _ _ E1) as Q1. apply tx_granted_same in E1. subst s1. apply stealing_quiet in E0. destruct E0 as (t & r & ->).
  rewrite Or, Un. cbn [gssi_addr ad_ssi cc_set_active cc_dltime].
  pose proof (f_call _ _ H _ _ Ec) as V. unfold heard in V. rewrite Et in V. cbn [andb] in V.
  match goal with |- Fs v ?q ?s' => match s' with cc_set_active (aset id ?c' _) s => apply (Fs_call u v q s s' id c c' I H Ec eq_refl eq_refl) end end.
  - exact Logic.I.
  - intros ts. rewrite told_mle, told_quiet by assumption. rewrite (told_umac v). rewrite told_brew. unfold heard. cbn [ac_tx ac_dest ac_uuid ac_origin ac_source andb present negb].
    rewrite !andb_true_r. destruct (brew_gssi_routable cfg (ac_dest c)); [reflexivity|]. destruct (Nat.eqb_spec ts (ac_ts c)) as [->|]; auto.
  - cbn [for_brew flat_map app]. fold for_brew. change (flat_map _ ?l) with (for_brew l). rewrite for_brew_app, Q1. cbn. destruct (brew_gssi_routable cfg (ac_dest c)); cbn; auto.
Qed.

Lemma F_inactivity hint ts u v s s' q : Inv u s -> W [] [] s -> F v s -> ul_inactivity cfg hint ts s = Ok (s', q) -> Fs v q s'.
Proof.
  intros I H HF E. unfold ul_inactivity in E. destruct (find _ _) as [[id c]|] eqn:Ef; [|injection E as <- <-; now apply (Fs_none v [] s)].
  apply find_some_in in Ef; [|apply (w_nodup _ _ _ H)]. destruct Ef as [Ec Eb]. cbn [snd] in Eb. apply andb_true_iff in Eb. destruct Eb as [Ets _]. apply Nat.eqb_eq in Ets. subst ts.
  apply andthen_ok in E. destruct E as (s1 & q1 & q2 & E1 & E2 & ->). pose proof (tx_ceased_quiet _ _ _ _ _ _ E1) as Q1. apply tx_ceased_same in E1. subst s1.
  apply andthen_ok in E2. destruct E2 as (s1 & q3 & q4 & E1 & E2 & ->). apply umac_same in E1. destruct E1 as [-> ->].
  apply when_brew_same in E2. destruct E2 as [-> ->]. rewrite app_assoc.
  match goal with |- Fs v (?q0 ++ _) _ => apply (F_hang u v s _ _ id c q0 (cc_dltime s) I HF Ec) end; try reflexivity. now rewrite for_brew_app, Q1.
Qed.

Lemma F_end hint w u v s s' q : Inv u s -> W [] [] s -> F v s -> rx_network_call_end cfg hint w s = Ok (s', q) -> Fs v q s'.
Proof.
  intros I H HF E. unfold rx_network_call_end in E. destruct (find _ _) as [[id c]|] eqn:Ef; [|injection E as <- <-; now apply (Fs_none v [] s)].
  apply find_some_in in Ef; [|apply (w_nodup _ _ _ H)]. destruct Ef as [Ec Eu]. cbn [snd] in Eu. destruct (ac_tx c) eqn:Et.
  - apply andthen_ok in E. destruct E as (s1 & q1 & q2 & E1 & E2 & ->). pose proof (tx_ceased_quiet _ _ _ _ _ _ E1) as Q1. apply tx_ceased_same in E1. subst s1.
    apply umac_same in E2. destruct E2 as [-> ->].
    pose proof (f_call _ _ HF _ _ Ec) as V. unfold heard in V. destruct (ac_uuid c); [|discriminate]. cbn [present negb] in V. rewrite andb_false_r in V. cbn [andb] in V.
    match goal with |- Fs v ?q ?s' => match s' with cc_set_active (aset id ?c' _) s => apply (Fs_call u v q s s' id c c' I HF Ec eq_refl eq_refl) end end.
    + cbn. now destruct (ac_origin c).
    + intros ts. rewrite told_quiet by assumption. cbn. destruct (Nat.eqb_spec ts (ac_ts c)) as [->|]; auto.
    + rewrite for_brew_app, Q1. exact Logic.I.
  - apply (F_release id SwmiRequestedDisconnection u v s s' q I (w_keys _ _ _ H) HF E).
Qed.

(** ** Setting up *)
Lemma F_new u v q s s' id c i : Inv u s -> F v s -> aget id (cc_active s) = None -> i < 3 -> slot_of s i = None -> ac_ts c = i + 2 ->
  cc_active s' = aset id c (cc_active s) ->
  (match ac_origin c with ONetwork _ => ac_uuid c = None -> ac_tx c = false | OLocal _ => True end) ->
  (forall ts, told v q ts = if ts =? ac_ts c then (if heard c then Some (id, ac_source c, ac_dest c) else None) else v ts) ->
  (v (ac_ts c) = None -> turns_ok v (for_brew q)) -> Fs v q s'.
Proof.
  intros I HF Fr Hi Si Ets EA N T K.
  assert (D : forall k x, aget k (cc_active s) = Some x -> ac_ts x <> ac_ts c).
  { intros k x X E. destruct (i_call _ _ I _ _ X) as (j & cj & Hj & Ej & Sj & _). assert (j = i) by lia. subst j. congruence. }
  pose proof (f_free _ _ HF _ D) as V. destruct HF as [A B C]. split; [|now apply K]. constructor; rewrite EA.
  - intros k x. rewrite aget_aset, T. destruct (N.eqb_spec k id) as [->|Hk]; intros X.
    + injection X as <-. now rewrite Nat.eqb_refl.
    + destruct (Nat.eqb_spec (ac_ts x) (ac_ts c)) as [Et|]; [|now apply A]. exfalso. exact (D k x X Et).
  - intros ts X. rewrite T. destruct (Nat.eqb_spec ts (ac_ts c)) as [->|].
    + exfalso. specialize (X id c). rewrite aget_aset, N.eqb_refl in X. now apply X.
    + apply B. intros k x Hk Et. specialize (X k x). rewrite aget_aset in X. destruct (N.eqb_spec k id) as [->|]; [congruence|]. now apply (X Hk).
  - intros k x. rewrite aget_aset. destruct (N.eqb_spec k id) as [->|Hk]; [|apply C]. intros X. injection X as <-. exact N.
Qed.

Lemma F_setup i p u v s s' q : Inv u s -> F v s -> aget (cm_next_call (cc_circ s)) (cc_active s) = None \/ opens q = 0 ->
  rx_u_setup cfg i p s = Ok (s', q) -> Fs v q s'.
Proof.
  intros I HF Fr E. unfold rx_u_setup in E. destruct (negb (feature_check p)); [injection E as <- <-; now apply (Fs_none v [] s)|].
  destruct (u_setup_called_party_ssi p) as [dest|]; [|injection E as <- <-; now apply (Fs_none v [] s)].
  destruct (negb (has_listener dest s)); [injection E as <- <-; now apply (Fs_none v [] s)|].
  binv E. destruct x as [[r m] slots]. apply (alloc_inv u) in E0; [|assumption]. destruct E0 as [(-> & -> & ->)|(k & -> & Hk & Si & -> & ->)].
  { injection E as <- <-. now apply (Fs_none v [] s). }
  binv E. binv E. binv E. injection E as <- <-. destruct Fr as [Fr|Fr]; [|discriminate Fr].
  apply setup_quiet in E2. destruct E2 as (t2 & r2 & ->). unfold call_proceeding_msg in E0. binv E0. injection E0 as <-.
  unfold connect_caller_msg in E1. binv E1. binv E1. injection E1 as <-. cbn [ci_call ci_ts ci_usage ci_dir].
  match goal with |- Fs v ?q ?s' => match s' with cc_set_active (aset ?id ?c _) _ => apply (F_new u v q s s' id c k I HF Fr Hk Si eq_refl eq_refl) end end.
  - exact Logic.I.
  - intros ts. cbn [app]. rewrite told_umac, !told_mle, told_brew. unfold heard. cbn [ac_tx ac_dest ac_uuid ac_origin ac_source ac_ts andb present negb].
    rewrite !andb_true_r. destruct (brew_gssi_routable cfg dest); [reflexivity|]. destruct (Nat.eqb_spec ts (k + 2)) as [->|]; [|reflexivity].
    apply (f_free _ _ HF). intros id c Hc Et. destruct (i_call _ _ I _ _ Hc) as (j & cj & Hj & Ej & Sj & _). assert (j = k) by lia. subst j. congruence.
  - cbn [ac_ts]. intros V. cbn [for_brew flat_map app]. destruct (brew_gssi_routable cfg dest); cbn; auto.
Qed.

Lemma F_start hint w src dest u v s s' q : Inv u s -> W [] [] s -> F v s -> aget (cm_next_call (cc_circ s)) (cc_active s) = None \/ opens q = 0 ->
  rx_network_call_start cfg hint w src dest s = Ok (s', q) -> Fs v q s'.
Proof.
  intros I H HF Fr E. unfold rx_network_call_start in E. binv E. destruct (negb (has_listener dest s)).
  - apply andthen_ok in E. destruct E as (s1 & q1 & q2 & E1 & E2 & ->). apply brew_same in E2. destruct E2 as [-> ->].
    apply (F_drop hint dest u v) in E1; [|assumption|apply (w_keys _ _ _ H)|assumption]. destruct E1 as (C1 & _ & G1).
    apply (Fs_trans v q1 _ s1); [assumption|]. intros F1. split; [exact F1|now split].
  - destruct (find _ _) as [[id c]|] eqn:Ef.
    + apply find_some_in in Ef; [|apply (w_nodup _ _ _ H)]. destruct Ef as [Ec _]. destruct (ac_tx c) eqn:Et.
      * apply brew_same in E. destruct E as [-> ->]. split; [exact HF|now split].
      * apply andthen_ok in E. destruct E as (s1 & q1 & q2 & E1 & E2 & ->). pose proof (tx_granted_quiet _ _ _ _ _ _ _ E1) as Q1. apply tx_granted_same in E1. subst s1.
        apply andthen_ok in E2. destruct E2 as (s1 & q3 & q4 & E1 & E2 & ->). apply umac_same in E1. destruct E1 as [-> ->].
        apply brew_same in E2. destruct E2 as [-> ->].
        pose proof (f_call _ _ HF _ _ Ec) as V. unfold heard in V. rewrite Et in V. cbn [andb] in V.
        match goal with |- Fs v ?q ?s' => match s' with cc_set_active (aset id ?c' _) s => apply (Fs_call u v q s s' id c c' I HF Ec eq_refl eq_refl) end end.
        -- cbn. destruct (ac_origin c); [exact Logic.I|discriminate].
        -- intros ts. rewrite told_quiet by assumption. unfold heard. cbn [ac_uuid present negb ac_tx andb]. rewrite andb_false_r. cbn.
           destruct (Nat.eqb_spec ts (ac_ts c)) as [->|]; auto.
        -- rewrite for_brew_app, Q1. cbn. auto.
    + binv E. destruct x0 as [[r m] slots]. apply (alloc_inv u) in E1; [|assumption]. destruct E1 as [(-> & -> & ->)|(k & -> & Hk & Si & -> & ->)].
      * injection E as <- <-. now apply (Fs_none v [] s).
      * binv E. binv E. injection E as <- <-. destruct Fr as [Fr|Fr]; [|discriminate Fr].
        apply setup_quiet in E1. destruct E1 as (t2 & r2 & ->). unfold connect_group_msg in E2. binv E2. injection E2 as <-. cbn [ci_call ci_ts ci_usage ci_dir].
        match goal with |- Fs v ?q ?s' => match s' with cc_set_active (aset ?id ?c _) _ => apply (F_new u v q s s' id c k I HF Fr Hk Si eq_refl eq_refl) end end.
        -- cbn. discriminate.
        -- intros ts. unfold heard. cbn [ac_uuid present negb ac_tx andb ac_ts]. rewrite andb_false_r. cbn. destruct (Nat.eqb_spec ts (k + 2)) as [->|]; [|reflexivity].
           apply (f_free _ _ HF). intros id c Hc Et. destruct (i_call _ _ I _ _ Hc) as (j & cj & Hj & Ej & Sj & _). assert (j = k) by lia. subst j. congruence.
        -- intros _. cbn. auto.
Qed.

(** ** Time *)
Lemma tasks_quiet tasks : forall s s' q, each do_task tasks s = Ok (s', q) -> for_brew q = [].
Proof.
  induction tasks as [|k l IH]; cbn [each]; intros s s' q E; [injection E as <- <-; reflexivity|].
  apply andthen_ok in E. destruct E as (s1 & q1 & q2 & E1 & E2 & ->). rewrite for_brew_app, (IH _ _ _ E2), app_nil_r. clear IH E2.
  destruct k as [i u ts|i ci]; cbn [do_task] in E1.
  - destruct (aget i (cc_active s)) as [x|]; [destruct (present (ac_hang x)); [injection E1 as <- <-; reflexivity|]|];
      (destruct (aget i (cc_cached s)) as [[p a]|]; [binv E1; apply setup_quiet in E; destruct E as (? & ? & ->)|]; injection E1 as <- <-; reflexivity).
  - binv E1. injection E1 as <- <-. rewrite for_brew_app. cbn [for_brew flat_map app]. rewrite app_nil_r.
    destruct (aget i (cc_cached s)) as [[p a]|]; [binv E; apply release_quiet in E0; destruct E0 as (? & ? & ->)|]; injection E as <-; reflexivity.
Qed.

Lemma F_tick hint t u v s s' q : Inv u s -> W [] [] s -> F v s ->
  (forall id c, aget id (cc_active s) = Some c -> ac_tx c = true -> ~ circuit_over s t c) ->
  cc_tick cfg hint t s = Ok (s', q) -> Fs v q s'.
Proof.
  intros I H HF NE E. pose proof (tick_calm cfg hint t u s s' q I H E) as [_ TC]. unfold cc_tick in E. apply andthen_ok in E. destruct E as (s1 & q1 & q2 & E1 & E2 & ->).
  set (s0 := cc_set_dltime t s) in *. assert (I0 : Inv u s0) by (now apply (Inv_field u s)). assert (K0 : keys s0) by (apply (w_keys _ _ _ H)).
  assert (F0 : F v s0) by (now apply (F_field v s)).
  unfold check_hangtime in E1. binv E1. clear E.
  assert (G1 : calm u s0 s1 q1 /\ keys s1 /\ Fs v q1 s1).
  { apply (F_each _ keys) with (u := u) (v := v) in E1; [exact E1| |assumption|assumption|assumption]. clear.
    intros id u v s s' q _ I HF K E. split; [now apply (calm_release cfg id ExpiryOfTimer)|].
    split; [apply (released_keys (N.eqb id) s s' K), (release_released cfg id _ s s' q K E)|]. now apply (F_release id ExpiryOfTimer u v s). }
  assert (R1 : released (fun k => existsb (fun id => (id =? k)%N) x) s0 s1).
  { apply (each_released N.eqb (fun id => release_call cfg id ExpiryOfTimer) x) with (q := q1); [|assumption|assumption].
    intros y a b c _ Ka Ea. now apply release_released in Ea. }
  destruct G1 as (C1 & K1 & G1). binv E2. destruct x0 as [tasks m].
  pose proof (tasks_quiet _ _ _ _ E2) as Q2. pose proof (tasks_sub _ _ _ _ E2) as Sub. cbn [cc_set_circ cc_active] in Sub.
  apply (Fs_trans v q1 q2 s1); [exact G1|]. intros F1. split; [|rewrite Q2; exact Logic.I].
  unfold told at 1. rewrite Q2. cbn [fold_left].
  assert (Gone : forall k c, aget k (cc_active s1) = Some c -> aget k (cc_active s') = None -> ac_tx c = false).
  { intros k c Hk Hn. destruct (ac_tx c) eqn:Et; [|reflexivity]. exfalso.
    assert (Hs : aget k (cc_active s) = Some c) by (rewrite (rl_active _ _ _ R1) in Hk; destruct (existsb _ x); [discriminate|exact Hk]).
    destruct (TC k c Hs) as [[A _]|[_ [(h & a & Hh & _)|[_ A]]]]; [congruence| |now apply (NE k c)].
    pose proof (w_floor _ _ _ H _ _ Hs) as Wf. rewrite Hh, Et in Wf. discriminate. }
  destruct F1 as [A B C]. constructor.
  - intros k c Hk. apply (A k c), (Sub k c Hk).
  - intros ts X. destruct (existsb (fun p => (ac_ts (snd p) =? ts)) (cc_active s1)) eqn:Ex.
    + apply existsb_exists in Ex. destruct Ex as ([k c] & Hin & Et). cbn [snd] in Et. apply Nat.eqb_eq in Et.
      assert (Hk : aget k (cc_active s1) = Some c) by (apply in_aget; [apply (rl_nodup _ _ _ R1), (w_nodup _ _ _ H)|assumption]).
      rewrite <- Et, (A k c Hk). unfold heard. destruct (aget k (cc_active s')) as [c'|] eqn:Ek.
      * exfalso. pose proof (Sub _ _ Ek) as Hk'. assert (c' = c) by congruence. subst c'. now apply (X k c Ek).
      * now rewrite (Gone k c Hk Ek).
    + apply B. intros k c Hk Et. assert (Y : existsb (fun p => ac_ts (snd p) =? ts) (cc_active s1) = true); [|congruence].
      apply existsb_exists. exists (k, c). split; [now apply aget_in|]. cbn [snd]. now apply Nat.eqb_eq.
  - intros k c Hk. apply (C k c), (Sub k c Hk).
Qed.

Lemma F_step e u v s s' q : Inv u s -> W [] [] s -> F v s -> aget (cm_next_call (cc_circ s)) (cc_active s) = None \/ opens q = 0 ->
  no_takeover s e -> no_expiry s e -> cc_step cfg e s = Ok (s', q) -> Fs v q s'.
Proof.
  intros I H HF Fr NT NE E. destruct e as [hint t|i|hint c|hg hint issi groups action]; cbn [cc_step] in E.
  - apply (F_tick hint t u v s s' q I H HF); [|exact E]. intros id c Hc Ht (ci & a & Hci & Ha & La).
    pose proof (NE hint t id c ci a eq_refl Hc Ht Hci Ha). unfold CIRCUIT_EXPIRY_TIMESLOTS in *. lia.
  - assert (N0 : forall s0 q0, Ok (s, []) = Ok (s0, q0) -> Fs v q0 s0) by (intros s0 q0 X; injection X as <- <-; now apply (Fs_none v [] s)).
    unfold cc_rx_ind in E. binv E. destruct x as [t|]; [|exact (N0 _ _ E)]. destruct (memN t _); [|exact (N0 _ _ E)]. unfold route_xx_deliver in E. binv E.
    destruct x as [t'|]; [|exact (N0 _ _ E)]. destruct (negb (ul_type_known t')); [exact (N0 _ _ E)|]. unfold parsed in E.
    repeat match type of E with (if ?b then _ else _) = _ => destruct b end; try (exact (N0 _ _ E)); try discriminate;
      match type of E with match ?r with _ => _ end = _ => destruct r as [[p b]| |] eqn:Ep end; try (exact (N0 _ _ E)); try discriminate.
    + now apply (F_setup i p u v s).
    + apply (F_tx_ceased p u v s); auto. apply (w_keys _ _ _ H).
    + apply (F_tx_demand i p u v s); auto; [apply (w_keys _ _ _ H)|]. intros c Hc Ht. exact (NT i p b c eq_refl Ep Hc Ht).
    + apply (F_release (u_release_call_identifier p) UserRequestedDisconnection u v s); auto. apply (w_keys _ _ _ H).
    + unfold rx_u_disconnect in E. destruct (aget (u_disconnect_call_identifier p) (cc_active s)) as [c|]; [|exact (N0 _ _ E)].
      destruct (match ac_origin c with OLocal a => (ad_ssi a =? ad_ssi (mi_addr i))%N | ONetwork _ => false end).
      * apply (F_release (u_disconnect_call_identifier p) UserRequestedDisconnection u v s); auto. apply (w_keys _ _ _ H).
      * binv E. injection E as <- <-. now apply (Fs_none v _ s).
  - destruct c; cbn [rx_call_control] in E; try (unfold nothing in E; injection E as <- <-; now apply (Fs_none v [] s)).
    + now apply (F_start hint uuid source dest u v s) in E.
    + now apply (F_end hint uuid u v s) in E.
    + now apply (F_inactivity hint ts u v s) in E.
  - apply (F_update hg hint issi groups action u v s s' q I (w_keys _ _ _ H) HF E).
Qed.
End Config.

(** The network entity: the calls it relays. *)
From Coq Require Import Permutation.
From Verif Require Import Base AMap AMapOrder AMapOrderProofs TdmaTime MacFields UmacCircuits CmceFields CmcePdus BrewRoute Registry CircuitMgr CallControl CcSpec CcProofs
  VoicePack VoicePackProofs JitterBuffer JitterProofs BrewProtocol BrewWorker BrewEntity BrewSystem BrewSpec.
Open Scope nat_scope.

Section Config.
Variable cfg : cfg_route.
Variable lat : nat.

Lemma run_app l1 l2 s s' o : be_run cfg lat (l1 ++ l2) s = Ok (s', o) ->
  exists s1 o1 o2, be_run cfg lat l1 s = Ok (s1, o1) /\ be_run cfg lat l2 s1 = Ok (s', o2) /\ o = o1 ++ o2.
Proof.
  revert s s' o. induction l1 as [|i t IH]; intros s s' o H; cbn [app be_run] in H.
  - exists s, [], o. auto.
  - binv H. destruct x as [s1 o1]. binv H. destruct x as [s2 o2]. injection H as <- <-. destruct (IH _ _ _ E0) as (s3 & o3 & o4 & R1 & R2 & ->).
    exists s3, (o1 ++ o3), o4. cbn [be_run]. rewrite E. cbn [bind]. rewrite R1. cbn [bind]. rewrite app_assoc. auto.
Qed.
Lemma run_snoc l i s s' o : be_run cfg lat (l ++ [i]) s = Ok (s', o) ->
  exists s1 o1 o2, be_run cfg lat l s = Ok (s1, o1) /\ be_step cfg lat i s1 = Ok (s', o2) /\ o = o1 ++ o2.
Proof.
  intros H. apply run_app in H. destruct H as (s1 & o1 & o2 & R1 & R2 & ->). cbn [be_run] in R2. binv R2. destruct x as [s2 o3]. injection R2 as <- <-.
  exists s1, o1, o3. rewrite app_nil_r. auto.
Qed.
Lemma run_snoc_ok l i s s1 o1 s' o2 : be_run cfg lat l s = Ok (s1, o1) -> be_step cfg lat i s1 = Ok (s', o2) -> be_run cfg lat (l ++ [i]) s = Ok (s', o1 ++ o2).
Proof.
  revert s s1 o1. induction l as [|j t IH]; intros s s1 o1 R E; cbn [app be_run] in *.
  - injection R as <- <-. rewrite E. cbn [bind]. now rewrite app_nil_r.
  - binv R. destruct x as [s2 o3]. binv R. destruct x as [s3 o4]. injection R as <- <-. rewrite E0. cbn [bind]. rewrite (IH _ _ _ E1 E). cbn [bind]. now rewrite app_assoc.
Qed.

(** ** Nothing crashes *)
Lemma ste_total bits : exists x, ul_voice_to_ste bits = Ok x.
Proof.
  unfold ul_voice_to_ste. destruct (length bits =? 36); [eauto|]. destruct (length bits =? 35); [eauto|]. destruct (Nat.ltb_spec (length bits) 274) as [|L]; [eauto|].
  destruct (pack_bytes_spec bits L 35 0) as (out & E & _). rewrite E. cbn [bind]. eauto.
Qed.
Lemma step_total i s : exists r, be_step cfg lat i s = Ok r.
Proof.
  destruct i; cbn [be_step]; eauto. unfold be_ul_voice. destruct (aget _ _) as [f|]; [|cbn [bind]; eauto].
  destruct (ste_total bits) as [x E]. rewrite E. cbn [bind]. eauto.
Qed.
Lemma run_total l : forall s, exists s' o, be_run cfg lat l s = Ok (s', o).
Proof.
  induction l as [|i t IH]; intros s; cbn [be_run]; [eauto|]. destruct (step_total i s) as [[s1 o1] E]. rewrite E. cbn [bind].
  destruct (IH s1) as (s2 & o2 & E2). rewrite E2. cbn [bind]. eauto.
Qed.

(** ** Outputs that are not about speech to the network *)
Definition quiet (x : brew_out) : Prop := match x with BoCmd (BcGroupTx _ _ _ _ _) | BoCmd (BcVoiceFrame _ _ _) | BoCmd (BcGroupIdle _ _) => False | _ => True end.
Ltac st := repeat split; repeat constructor.
Definition same_up (s s' : brew) : Prop := be_fwd s' = be_fwd s /\ be_connected s' = be_connected s.

Lemma playout_up jc l : forall s, same_up s (fst (be_playout jc l s)) /\ Forall quiet (snd (be_playout jc l s)).
Proof.
  induction l as [|[u c] t IH]; intros s; cbn [be_playout]; [st|].
  destruct (be_playout_one jc (u, c) s) as [s1 o1] eqn:E1. specialize (IH s1). destruct (be_playout jc t s1) as [s2 o2]. cbn [fst snd] in *.
  assert (H : same_up s s1 /\ Forall quiet o1).
  { unfold be_playout_one in E1. destruct (nc_ready c) as [[[id ts] us]|]; [|injection E1 as <- <-; st].
    destruct (negb _); [injection E1 as <- <-; st|]. destruct (aget u (be_jitter s)) as [b|]; [|injection E1 as <- <-; st].
    destruct (jb_pop (jc u) b) as [[f|] b']; injection E1 as <- <-; repeat split; repeat constructor. }
  destruct H as [[A B] C], IH as [[A' B'] C']. split; [split; congruence|]. apply Forall_app. auto.
Qed.

Definition about_floor (i : brew_in) : bool :=
  match i with
  | InEvent _ _ _ _ (BeConnected | BeDisconnected) => true
  | InControl _ _ (CtlFloorGranted _ _ _ _ | CtlFloorReleased _ _ | CtlCallEnded _ _) => true
  | InUlVoice _ _ => true
  | _ => false
  end.

Lemma resync_quiet hint hg s : Forall quiet (be_resync cfg hint hg s).
Proof.
  unfold be_resync. apply Forall_flat_map. apply Forall_forall. intros [issi groups] _. destruct (negb _); [constructor|]. constructor; [exact I|].
  destruct groups; repeat constructor.
Qed.
Lemma release_all_quiet hint s : Forall quiet (snd (be_release_all hint s)).
Proof. unfold be_release_all. cbn [snd]. apply Forall_map, Forall_forall. intros x _. exact I. Qed.

Lemma ensure_up u s : same_up s (be_ensure_jitter lat u s).
Proof. unfold be_ensure_jitter. destruct (aget u (be_jitter s)); now split. Qed.

Lemma other_step i s s' o : about_floor i = false -> be_step cfg lat i s = Ok (s', o) -> same_up s s' /\ Forall quiet o.
Proof.
  intros A E. destruct i as [t|reg hint hg jc e|hint jc|ex|hint fresh c|hint issi groups action|fresh src dest data|ts bits]; cbn [be_step] in E; try discriminate.
  - injection E as <- <-. st.
  - destruct e; try discriminate; cbn [be_event] in E; try solve [injection E as <- <-; st].
    + unfold be_group_call_start in E. destruct (aget uuid (be_active s)) as [c|].
      * destruct (negb _); injection E as <- <-; repeat split; repeat constructor.
      * injection E as <- <-. destruct (ensure_up uuid (be_set_active (aset uuid (mk_net_call None source dest) (be_active (be_set_hanging (adel dest (be_hanging s)) s))) (be_set_hanging (adel dest (be_hanging s)) s))) as [X Y].
        rewrite <- X, <- Y || idtac. split; [split; [exact X|exact Y]|repeat constructor].
    + unfold be_group_call_end in E. destruct (aget uuid (be_active s)) as [c|]; [|injection E as <- <-; st].
      destruct (nc_ready c); injection E as <- <-; repeat split; repeat constructor.
    + injection E as <- <-. split; [|constructor]. unfold be_voice_frame. destruct (aget uuid (be_active s)) as [c|]; [|now split].
      destruct (nc_ready c); [|now split]. destruct (ste_to_acelp data); [|now split]. destruct (ensure_up uuid s) as [X Y].
      destruct (aget uuid (be_jitter (be_ensure_jitter lat uuid s))); split; assumption.
    + injection E as <- <-. split; [now split|]. unfold be_sds_transfer. destruct (negb _); repeat constructor.
  - injection E as E. unfold be_drain in E. destruct (_ =? _)%Z; [injection E as <- <-; st|].
    pose proof (playout_up jc (arrange hint (be_active s)) s) as H. now rewrite E in H.
  - injection E as <- <-. st.
  - destruct c; try discriminate; injection E as <- <-; (split; [|constructor]); try (now split).
    + unfold be_call_ready. destruct (aget uuid (be_active s)); now split.
    + unfold be_drop_call. destruct (aget uuid (be_active s)); [now split|]. destruct (find _ _) as [[g w]|]; now split.
  - injection E as E. unfold be_subscriber_update in E. destruct action.
    + destruct (aget issi (be_subs s)); injection E as <- <-; (split; [now split|]); destruct (brew_issi_routable cfg issi); repeat constructor.
    + injection E as <- <-. split; [now split|]. destruct (brew_issi_routable cfg issi); [|constructor]. apply Forall_app. split; [|repeat constructor].
      destruct (match aget issi (be_subs s) with Some l => arrange_set hint l | None => [] end); repeat constructor.
    + destruct (insert_groups _ _) as [entry new]. injection E as <- <-. split; [now split|]. destruct new; [constructor|]. destruct (brew_issi_routable cfg issi); repeat constructor.
    + destruct (aget issi (be_subs s)) as [entry|]; [|injection E as <- <-; st]. destruct (remove_groups groups entry) as [e' gone].
      injection E as <- <-. split; [now split|]. destruct gone; [constructor|]. destruct (brew_issi_routable cfg issi); repeat constructor.
  - injection E as <- <-. split; [now split|]. unfold be_sds_send. destruct (negb _); repeat constructor.
Qed.

Lemma other_spec i l : about_floor i = false -> uplink_of cfg (l ++ [i]) = uplink_of cfg l /\ made_ids (l ++ [i]) = made_ids l.
Proof.
  intros A. unfold uplink_of, made_ids. rewrite fold_left_app, flat_map_app. cbn [fold_left flat_map]. rewrite app_nil_r.
  destruct (fold_left (uplink_after cfg) l (false, fun _ => None)) as [on v].
  destruct i as [t|reg hint hg jc e|hint jc|ex|hint fresh c|hint issi groups action|fresh src dest data|ts bits]; try discriminate; cbn [uplink_after];
    try (split; [reflexivity|apply app_nil_r]).
  - destruct e; try discriminate; cbn [uplink_after]; split; try reflexivity; apply app_nil_r.
  - destruct c; try discriminate; cbn [uplink_after floor_after]; split; try reflexivity; apply app_nil_r.
Qed.

(** ** Sessions *)
Lemma session_app u o o' : forall st, session u (o ++ o') st = match session u o st with Some st => session u o' st | None => None end.
Proof. induction o as [|x t IH]; intros st; cbn [app session]; [reflexivity|]. destruct (session_step u x st); [apply IH|reflexivity]. Qed.
Lemma session_quiet u o st : Forall quiet o -> session u o st = Some st.
Proof.
  intros H. revert st. induction H as [|x t Hx Ht IH]; intros st; cbn [session]; [reflexivity|].
  replace (session_step u x st) with (Some st); [apply IH|]. destruct x as [| | |c]; try reflexivity. destruct c; try reflexivity; destruct Hx.
Qed.
Lemma announced_more u src dest o o' : announced u src dest o ->
  (forall x, In x o' -> match x with BoCmd (BcGroupTx u' _ _ _ _) | BoCmd (BcGroupIdle u' _) => u' <> u | _ => True end) -> announced u src dest (o ++ o').
Proof.
  intros (o1 & o2 & -> & H) H'. exists o1, (o2 ++ o'). rewrite <- app_assoc. split; [reflexivity|]. intros x Hx. apply in_app_iff in Hx. destruct Hx as [Hx|Hx]; [exact (H x Hx)|exact (H' x Hx)].
Qed.
Lemma announced_last u src dest o : announced u src dest (o ++ [BoCmd (BcGroupTx u src dest 0 0)]).
Proof. exists o, []. split; [reflexivity|]. intros x []. Qed.

Record U (l : list brew_in) (s : brew) (o : list brew_out) : Prop := {
  u_online : be_connected s = fst (uplink_of cfg l);
  u_turn : forall ts, relayed cfg l ts = match aget (slot_key ts) (be_fwd s) with Some f => Some (fw_call f, fw_source f, fw_dest f) | None => None end;
  u_made : forall k f, aget k (be_fwd s) = Some f -> In (fw_uuid f) (made_ids l);
  u_apart : forall k k' f f', aget k (be_fwd s) = Some f -> aget k' (be_fwd s) = Some f' -> fw_uuid f = fw_uuid f' -> k = k';
  u_said : forall k f, aget k (be_fwd s) = Some f -> announced (fw_uuid f) (fw_source f) (fw_dest f) o;
  u_known : forall u, session u o NotBegun <> None;
  u_open : forall k f, aget k (be_fwd s) = Some f -> session (fw_uuid f) o NotBegun = Some Talking;
  u_fresh : forall u, ~ In u (made_ids l) -> session u o NotBegun = Some NotBegun }.

Lemma U_new : U [] brew_new [].
Proof. constructor; cbn; easy. Qed.

Lemma quiet_said u o : Forall quiet o -> forall x, In x o -> match x with BoCmd (BcGroupTx u' _ _ _ _) | BoCmd (BcGroupIdle u' _) => u' <> u | _ => True end.
Proof.
  intros H x Hx. apply (proj1 (Forall_forall _ _) H) in Hx. destruct x as [| | |c]; try exact I. destruct c; try exact I; destruct Hx.
Qed.

Lemma slot_key_inj a b : slot_key a = slot_key b -> a = b.
Proof. apply Nat2N.inj. Qed.
Lemma slot_key_eqb a b : (slot_key a =? slot_key b)%N = (a =? b).
Proof. destruct (Nat.eqb_spec a b) as [->|H]; [apply N.eqb_refl|]. apply N.eqb_neq. intros E. now apply slot_key_inj in E. Qed.

Lemma relayed_snoc l i ts : relayed cfg (l ++ [i]) ts = snd (uplink_after cfg (uplink_of cfg l) i) ts.
Proof. unfold relayed, uplink_of. now rewrite fold_left_app. Qed.
Lemma uplink_snoc l i : uplink_of cfg (l ++ [i]) = uplink_after cfg (uplink_of cfg l) i.
Proof. unfold uplink_of. now rewrite fold_left_app. Qed.
Lemma made_snoc l i : made_ids (l ++ [i]) = made_ids l ++ match i with InControl _ fresh (CtlFloorGranted _ _ _ _) => [fresh] | _ => [] end.
Proof. unfold made_ids. rewrite flat_map_app. cbn [flat_map]. now rewrite app_nil_r. Qed.

(** Nothing about the sessions changes. *)
Lemma U_same l i s s' o o' : U l s o -> be_fwd s' = be_fwd s -> be_connected s' = fst (uplink_of cfg (l ++ [i])) -> Forall quiet o' ->
  (forall ts, relayed cfg (l ++ [i]) ts = relayed cfg l ts) -> incl (made_ids l) (made_ids (l ++ [i])) -> U (l ++ [i]) s' (o ++ o').
Proof.
  intros [A B C D E F G H] EF EC Q R M. constructor; rewrite ?EF; auto.
  - intros ts. rewrite R. apply B.
  - intros k f Hf. apply M. now apply (C k).
  - intros k f Hf. apply announced_more; [now apply (E k)|]. now apply quiet_said.
  - intros u. rewrite session_app. destruct (session u o NotBegun) as [st|] eqn:X; [|now destruct (F u)]. now rewrite session_quiet.
  - intros k f Hf. rewrite session_app, (G k f Hf). now apply session_quiet.
  - intros u Hu. rewrite session_app, H; [now apply session_quiet|]. intros X. apply Hu. now apply M.
Qed.

Lemma U_step l i s s' o o' : U l s o -> NoDup (made_ids (l ++ [i])) -> be_step cfg lat i s = Ok (s', o') -> U (l ++ [i]) s' (o ++ o').
Proof.
  intros HU ND E. destruct (about_floor i) eqn:AF.
  2:{ destruct (other_step i s s' o' AF E) as [[X Y] Q]. destruct (other_spec i l AF) as [V W]. apply (U_same l i s); auto.
      - rewrite V, Y. apply (u_online _ _ _ HU).
      - intros ts. unfold relayed. now rewrite V.
      - rewrite W. apply incl_refl. }
  rewrite made_snoc in ND. assert (HU' := HU). destruct HU' as [A B C D S F G H]. destruct (uplink_of cfg l) as [on v] eqn:EV. cbn [fst] in A.
  destruct i as [t|reg hint hg jc e|hint jc|ex|hint fresh c|hint issi groups action|fresh src dest data|ts bits]; try discriminate; cbn [be_step] in E.
  - destruct e; try discriminate; cbn [be_event] in E; injection E as <- <-.
    + apply (U_same l _ s); auto.
      * rewrite uplink_snoc, EV. reflexivity.
      * apply resync_quiet.
      * intros ts. rewrite relayed_snoc, EV. cbn. unfold relayed. now rewrite EV.
      * rewrite made_snoc, app_nil_r. apply incl_refl.
    + apply (U_same l _ s); auto.
      * rewrite uplink_snoc, EV. reflexivity.
      * apply release_all_quiet.
      * intros ts. rewrite relayed_snoc, EV. cbn. unfold relayed. now rewrite EV.
      * rewrite made_snoc, app_nil_r. apply incl_refl.
  - assert (RV : forall ts, v ts = match aget (slot_key ts) (be_fwd s) with Some f => Some (fw_call f, fw_source f, fw_dest f) | None => None end).
    { intros ts. rewrite <- B. unfold relayed. now rewrite EV. }
    destruct c as [| |id src dest ts|id ts|id ts| | | |]; try discriminate; [injection E as E|injection E as E|injection E as E1 E2].
    + (* granted *)
      unfold be_local_start in E. cbn [app] in ND. rewrite A in E. destruct on; cbn [negb] in E.
      2:{ injection E as <- <-. apply (U_same l _ s); auto.
          - rewrite uplink_snoc, EV. exact A.
          - intros x. rewrite relayed_snoc, EV. cbn. unfold relayed. now rewrite EV.
          - rewrite made_snoc. now apply incl_appl, incl_refl. }
      destruct (brew_issi_routable cfg src) eqn:ER; cbn [negb] in E.
      2:{ injection E as <- <-. apply (U_same l _ s); auto.
          - rewrite uplink_snoc, EV. exact A.
          - intros x. rewrite relayed_snoc, EV. cbn [uplink_after]. rewrite ER. unfold relayed. now rewrite EV.
          - rewrite made_snoc. now apply incl_appl, incl_refl. }
      set (u := match aget (slot_key ts) (be_fwd s) with Some f => fw_uuid f | None => fresh end) in E. injection E as <- <-.
      assert (Uin : In u (made_ids l ++ [fresh])).
      { unfold u. rewrite in_app_iff. destruct (aget (slot_key ts) (be_fwd s)) as [f|] eqn:Ef; [left; now apply (C (slot_key ts))|right; now left]. }
      assert (Nfresh : ~ In fresh (made_ids l)).
      { apply NoDup_remove_2 in ND. now rewrite app_nil_r in ND. }
      assert (Uother : forall k f, k <> slot_key ts -> aget k (be_fwd s) = Some f -> fw_uuid f <> u).
      { intros k f Hk Hf Eu. unfold u in Eu. destruct (aget (slot_key ts) (be_fwd s)) as [f0|] eqn:Ef.
        - apply Hk. exact (D _ _ _ _ Hf Ef Eu).
        - apply Nfresh. rewrite <- Eu. now apply (C k). }
      assert (Ust : session u o NotBegun = Some Talking \/ session u o NotBegun = Some NotBegun).
      { unfold u. destruct (aget (slot_key ts) (be_fwd s)) as [f0|] eqn:Ef; [left; now apply (G (slot_key ts))|right; now apply H]. }
      constructor; cbn [be_set_fwd be_connected be_fwd].
      * rewrite uplink_snoc, EV. exact A.
      * intros x. rewrite relayed_snoc, EV. cbn [uplink_after]. rewrite ER. cbn [andb snd floor_after]. rewrite aget_aset, slot_key_eqb.
        destruct (x =? ts); [reflexivity|apply RV].
      * intros k f. rewrite made_snoc, aget_aset. destruct (N.eqb_spec k (slot_key ts)) as [->|Hk]; intros X.
        -- injection X as <-. exact Uin.
        -- apply in_app_iff. left. now apply (C k).
      * intros k k' f f'. rewrite !aget_aset. destruct (N.eqb_spec k (slot_key ts)) as [->|Hk], (N.eqb_spec k' (slot_key ts)) as [->|Hk']; intros X X' Eu.
        -- reflexivity.
        -- exfalso. injection X as <-. exact (Uother k' f' Hk' X' (eq_sym Eu)).
        -- exfalso. injection X' as <-. exact (Uother k f Hk X Eu).
        -- exact (D _ _ _ _ X X' Eu).
      * intros k f. rewrite aget_aset. destruct (N.eqb_spec k (slot_key ts)) as [->|Hk]; intros X.
        -- injection X as <-. apply announced_last.
        -- apply announced_more; [now apply (S k)|]. intros x [<-|[]]. intros Eu. exact (Uother k f Hk X (eq_sym Eu)).
      * intros w. rewrite session_app. destruct (session w o NotBegun) as [st|] eqn:X; [|now destruct (F w)]. cbn [session session_step].
        destruct (N.eqb_spec u w) as [<-|]; [|discriminate]. rewrite X in Ust. destruct Ust as [Y|Y]; injection Y as ->; discriminate.
      * intros k f. rewrite aget_aset. destruct (N.eqb_spec k (slot_key ts)) as [->|Hk]; intros X; rewrite session_app.
        -- injection X as <-. cbn [fw_uuid]. destruct Ust as [Y|Y]; rewrite Y; cbn [session session_step]; now rewrite N.eqb_refl.
        -- rewrite (G k f X). cbn [session session_step]. destruct (N.eqb_spec u (fw_uuid f)) as [Eu|]; [|reflexivity]. exfalso. exact (Uother k f Hk X (eq_sym Eu)).
      * intros w Hw. rewrite made_snoc in Hw. rewrite session_app, H by (intros X; apply Hw, in_app_iff; now left). cbn [session session_step].
        destruct (N.eqb_spec u w) as [<-|]; [|reflexivity]. destruct (Hw Uin).
    + (* released *)
      unfold be_local_stopped in E.
      assert (RR : forall x, relayed cfg (l ++ [InControl hint fresh (CtlFloorReleased id ts)]) x = if x =? ts then None else v x).
      { intros x. rewrite relayed_snoc, EV. reflexivity. }
      destruct (aget (slot_key ts) (be_fwd s)) as [f0|] eqn:Ef; injection E as <- <-.
      * assert (Uother : forall k f, k <> slot_key ts -> aget k (be_fwd s) = Some f -> fw_uuid f <> fw_uuid f0).
        { intros k f Hk Hf Eu. apply Hk. exact (D _ _ _ _ Hf Ef Eu). }
        constructor; cbn [be_set_fwd be_connected be_fwd].
        -- rewrite uplink_snoc, EV. exact A.
        -- intros x. rewrite RR, aget_adel, slot_key_eqb. destruct (x =? ts); [reflexivity|apply RV].
        -- intros k f. rewrite aget_adel, made_snoc, app_nil_r. destruct (k =? slot_key ts)%N; [discriminate|apply C].
        -- intros k k' f f'. rewrite !aget_adel. destruct (k =? slot_key ts)%N, (k' =? slot_key ts)%N; try discriminate. apply D.
        -- intros k f. rewrite aget_adel. destruct (N.eqb_spec k (slot_key ts)) as [->|Hk]; [discriminate|]. intros X.
           apply announced_more; [now apply (S k)|]. intros x [<-|[]]. intros Eu. exact (Uother k f Hk X (eq_sym Eu)).
        -- intros w. rewrite session_app. destruct (session w o NotBegun) as [st|] eqn:X; [|now destruct (F w)]. cbn [session session_step].
           destruct (N.eqb_spec (fw_uuid f0) w) as [<-|]; [|discriminate]. rewrite (G _ _ Ef) in X. injection X as <-. discriminate.
        -- intros k f. rewrite aget_adel. destruct (N.eqb_spec k (slot_key ts)) as [->|Hk]; [discriminate|]. intros X. rewrite session_app, (G k f X). cbn [session session_step].
           destruct (N.eqb_spec (fw_uuid f0) (fw_uuid f)) as [Eu|]; [|reflexivity]. exfalso. exact (Uother k f Hk X (eq_sym Eu)).
        -- intros w. rewrite made_snoc, app_nil_r. intros Hw. rewrite session_app, (H w Hw). cbn [session session_step].
           destruct (N.eqb_spec (fw_uuid f0) w) as [<-|]; [|reflexivity]. destruct (Hw (C _ _ Ef)).
      * apply (U_same l _ s); auto.
        -- rewrite uplink_snoc, EV. exact A.
        -- intros x. rewrite RR. rewrite B. destruct (Nat.eqb_spec x ts) as [->|]; [now rewrite Ef|apply RV].
        -- rewrite made_snoc, app_nil_r. apply incl_refl.
    + (* ended *)
      subst s' o'. unfold be_local_end. rewrite app_nil_r.
      constructor; cbn [be_set_fwd be_connected be_fwd]; auto.
      * rewrite uplink_snoc, EV. exact A.
      * intros x. rewrite relayed_snoc, EV. cbn [uplink_after snd floor_after]. rewrite aget_adel, slot_key_eqb. destruct (x =? ts); [reflexivity|apply RV].
      * intros k f. rewrite aget_adel, made_snoc, app_nil_r. destruct (k =? slot_key ts)%N; [discriminate|apply C].
      * intros k k' f f'. rewrite !aget_adel. destruct (k =? slot_key ts)%N, (k' =? slot_key ts)%N; try discriminate. apply D.
      * intros k f. rewrite aget_adel. destruct (k =? slot_key ts)%N; [discriminate|]. apply S.
      * intros k f. rewrite aget_adel. destruct (k =? slot_key ts)%N; [discriminate|]. apply G.
      * intros w. rewrite made_snoc, app_nil_r. apply H.
  - (* speech *)
    binv E. injection E as <- <-. unfold be_ul_voice in E0.
    assert (SR : forall x0, relayed cfg (l ++ [InUlVoice ts bits]) x0 = relayed cfg l x0) by (intros x0; rewrite relayed_snoc, EV; cbn; unfold relayed; now rewrite EV).
    assert (SM : made_ids (l ++ [InUlVoice ts bits]) = made_ids l) by (now rewrite made_snoc, app_nil_r).
    assert (SO : be_connected s = fst (uplink_of cfg (l ++ [InUlVoice ts bits]))) by (now rewrite uplink_snoc, EV).
    destruct (aget (slot_key ts) (be_fwd s)) as [f0|] eqn:Ef.
    2:{ injection E0 as <-. apply (U_same l _ s); auto. rewrite SM. apply incl_refl. }
    binv E0. destruct x0 as [data|]; injection E0 as <-.
    2:{ apply (U_same l _ s); auto. rewrite SM. apply incl_refl. }
    constructor; auto; try (rewrite ?SM; assumption).
    + intros x. rewrite SR. apply B.
    + intros k f X. apply announced_more; [now apply (S k)|]. intros x [<-|[]]. exact I.
    + intros w. rewrite session_app. destruct (session w o NotBegun) as [st|] eqn:X; [|now destruct (F w)]. cbn [session session_step].
      destruct (N.eqb_spec (fw_uuid f0) w) as [<-|]; [|discriminate]. rewrite (G _ _ Ef) in X. injection X as <-. discriminate.
    + intros k f X. rewrite session_app, (G k f X). cbn [session session_step]. destruct (_ =? _)%N; reflexivity.
    + rewrite SM. intros w Hw. rewrite session_app, (H w Hw). cbn [session session_step].
      destruct (N.eqb_spec (fw_uuid f0) w) as [<-|]; [|reflexivity]. destruct (Hw (C _ _ Ef)).
Qed.

Lemma nodup_front {A} (l l' : list A) : NoDup (l ++ l') -> NoDup l.
Proof. induction l as [|x t IH]; cbn [app]; intros H; [constructor|]. inversion H; subst. constructor; [rewrite in_app_iff in *; tauto|auto]. Qed.

Lemma U_run l : forall s o, NoDup (made_ids l) -> be_run cfg lat l brew_new = Ok (s, o) -> U l s o.
Proof.
  induction l as [|i t IH] using rev_ind; intros s o ND R; [injection R as <- <-; apply U_new|].
  apply run_snoc in R. destruct R as (s1 & o1 & o2 & R1 & E & ->). apply (U_step t i s1); auto. apply IH; auto. rewrite made_snoc in ND. exact (nodup_front _ _ ND).
Qed.

(** ** The network's speech *)

Lemma downlink_snoc u l i : downlink_of u (l ++ [i]) = downlink_after u (downlink_of u l) i.
Proof. unfold downlink_of. now rewrite fold_left_app. Qed.

Lemma jb_run_app l1 l2 (b : jbuf (list N)) : jb_run b (l1 ++ l2) =
  (fst (jb_run b l1) ++ fst (jb_run (snd (jb_run b l1)) l2), snd (jb_run (snd (jb_run b l1)) l2)).
Proof.
  revert b. induction l1 as [|c t IH]; intros b; cbn [app jb_run]; [cbn [fst snd app]; apply surjective_pairing|].
  destruct (jb_step b c) as [o b1]. rewrite IH. destruct (jb_run b1 t) as [os b2]. cbn [fst snd]. now rewrite app_assoc.
Qed.
Definition buffer (uses : list (jcall (list N))) : jbuf (list N) := snd (jb_run (jb_new lat) uses).
Lemma buffer_push uses jc d : buffer (uses ++ [(jc, Some d)]) = jb_push jc d (buffer uses).
Proof. unfold buffer. rewrite jb_run_app. reflexivity. Qed.
Lemma buffer_pop uses jc : buffer (uses ++ [(jc, None)]) = snd (jb_pop jc (buffer uses)).
Proof. unfold buffer. rewrite jb_run_app. cbn [snd jb_run jb_step fst]. now destruct (jb_pop jc (snd (jb_run (jb_new lat) uses))). Qed.
Lemma next_frame_eq uses jc : next_frame lat jc uses = option_map jf_data (fst (jb_pop jc (buffer uses))).
Proof.
  unfold next_frame, buffer. rewrite jb_run_app. cbn [fst snd jb_run jb_step]. destruct (jb_pop jc (snd (jb_run (jb_new lat) uses))) as [o b]. cbn [fst app].
  rewrite last_last. reflexivity.
Qed.

(** What the calls and the play-out buffers hold *)
Definition D1 (s : brew) (u : N) (d : downlink) : Prop :=
  dn_time d = be_dltime s /\
  match dn_call d with
  | None => aget u (be_active s) = None /\ aget u (be_jitter s) = None
  | Some (ts, uses) => (exists c, aget u (be_active s) = Some c /\ ts = match nc_ready c with Some (_, ts, _) => Some ts | None => None end) /\
      aget u (be_jitter s) = Some (buffer uses)
  end.
Definition D (l : list brew_in) (s : brew) : Prop := NoDup (akeys (be_active s)) /\ forall u, D1 s u (downlink_of u l).

Lemma D_new : D [] brew_new.
Proof. split; [constructor|]. intros u. repeat split. Qed.

Lemma flat_map_same {A B} (f g : A -> list B) l : (forall x, In x l -> f x = g x) -> flat_map f l = flat_map g l.
Proof. induction l as [|x t IH]; intros H; cbn [flat_map]; [reflexivity|]. rewrite H by (now left). rewrite IH; [reflexivity|]. intros y Hy. apply H. now right. Qed.

(** One call of the play-out loop *)
Definition sent (t : tdma_time) (jc : N -> nat) (u : N) (d : downlink) : list brew_out :=
  match dn_call d with
  | Some (Some ts, uses) => if speech_slot t ts then match next_frame lat (jc u) uses with Some x => [BoVoice t ts x] | None => [] end else []
  | _ => []
  end.
Lemma slot_eq t ts : (tm_f t =? 18)%Z = false -> negb (Z.of_nat ts =? tm_t t)%Z = negb (speech_slot t ts).
Proof. intros F. unfold speech_slot. rewrite F, andb_true_r. now rewrite Z.eqb_sym. Qed.

Lemma playout_spec h jc (v : N -> downlink) m : forall s, NoDup (map fst m) -> (tm_f (be_dltime s) =? 18)%Z = false ->
  (forall u c, In (u, c) m -> aget u (be_active s) = Some c) -> (forall u, D1 s u (v u)) ->
  let r := be_playout jc m s in
  be_active (fst r) = be_active s /\ be_dltime (fst r) = be_dltime s /\
  (forall u, D1 (fst r) u (if existsb (fun p => (fst p =? u)%N) m then downlink_after u (v u) (InPlayout h jc) else v u)) /\
  snd r = flat_map (fun u => sent (be_dltime s) jc u (v u)) (map fst m).
Proof.
  revert v. induction m as [|[u c] t IH]; intros v s ND F A B; cbv zeta; cbn [be_playout map fst flat_map existsb].
  { repeat split; try reflexivity; apply B. }
  destruct (be_playout_one jc (u, c) s) as [s1 o1] eqn:E1. inversion ND as [|x1 x2 N1 N2]; subst.
  assert (Au : aget u (be_active s) = Some c) by (apply A; now left).
  assert (Step : be_active s1 = be_active s /\ be_dltime s1 = be_dltime s /\ o1 = sent (be_dltime s) jc u (v u) /\
     (forall w, D1 s1 w (if (u =? w)%N then downlink_after w (v w) (InPlayout h jc) else v w))).
  { destruct (B u) as [Tu Bu]. assert (V : forall w, dn_time (v w) = be_dltime s) by (intros w; apply (B w)). unfold be_playout_one in E1. unfold sent.
    destruct (dn_call (v u)) as [[ts uses]|] eqn:Ev; [|rewrite Au in Bu; destruct Bu; discriminate].
    destruct Bu as [(c0 & X & Y) Z]. rewrite Au in X. injection X as <-. destruct (nc_ready c) as [[[id ts0] us]|] eqn:Er; subst ts.
    2:{ injection E1 as <- <-. repeat split; try reflexivity; destruct (N.eqb_spec u w) as [<-|]; try apply B; cbn [downlink_after]; rewrite Ev; apply B. }
    rewrite (slot_eq _ ts0 F), Z in E1. destruct (speech_slot (be_dltime s) ts0) eqn:Es; cbn [negb] in E1.
    2:{ injection E1 as <- <-. repeat split; try reflexivity; destruct (N.eqb_spec u w) as [<-|]; try apply B; cbn [downlink_after]; rewrite Ev, Tu, Es; apply B. }
    rewrite next_frame_eq. pose proof (buffer_pop uses (jc u)) as P. destruct (jb_pop (jc u) (buffer uses)) as [fo b]. cbn [fst snd] in *.
    injection E1 as <- <-. split; [reflexivity|]. split; [reflexivity|]. split; [destruct fo; reflexivity|].
    intros w. destruct (N.eqb_spec u w) as [<-|Nw].
    - cbn [downlink_after]. rewrite Ev, Tu, Es. split; [reflexivity|]. cbn [dn_call be_set_jitter be_active be_jitter]. split.
      + exists c. rewrite Er. auto.
      + rewrite aget_aset, N.eqb_refl. f_equal. symmetry. exact P.
    - destruct (B w) as [Tw Bw]. split; [exact Tw|]. cbn [be_set_jitter be_active be_jitter]. rewrite aget_aset. destruct (N.eqb_spec w u); [congruence|exact Bw]. }
  destruct Step as (S1 & S2 & S3 & S4). subst o1.
  specialize (IH (fun w => if (u =? w)%N then downlink_after w (v w) (InPlayout h jc) else v w) s1 N2).
  rewrite S1, S2 in IH. specialize (IH F). cbv zeta in IH. destruct IH as (I1 & I2 & I3 & I4).
  { intros w0 c' Hw. apply A. now right. }
  { exact S4. }
  destruct (be_playout jc t s1) as [s2 o2]. cbn [fst snd] in *. split; [exact I1|]. split; [exact I2|]. split.
  - intros w. specialize (I3 w). destruct (N.eqb_spec u w) as [Eu|Nw]; [|exact I3]. cbn [orb]. subst w. replace (existsb (fun p => (fst p =? u)%N) t) with false in I3; [exact I3|].
    symmetry. apply not_true_iff_false. intros X. apply existsb_exists in X. destruct X as ([w c'] & X & Y). cbn [fst] in Y. apply N.eqb_eq in Y. subst w.
    apply N1. now apply (in_map fst) in X.
  - rewrite I4. f_equal. apply flat_map_same. intros w Hw. destruct (N.eqb_spec u w) as [<-|]; [contradiction|reflexivity].
Qed.

Lemma D_same l i s s' : D l s -> be_dltime s' = be_dltime s -> be_active s' = be_active s -> be_jitter s' = be_jitter s ->
  (forall u, downlink_of u (l ++ [i]) = downlink_of u l) -> D (l ++ [i]) s'.
Proof.
  intros [A B] ET EA EJ EN. split; [now rewrite EA|]. intros u. destruct (B u) as [X Y]. rewrite EN. split; [congruence|]. now rewrite EA, EJ.
Qed.

(** The calls and buffers after one more input *)
Lemma D_step l i s s' o : D l s -> be_step cfg lat i s = Ok (s', o) -> D (l ++ [i]) s'.
Proof.
  intros HD E. assert (HD' := HD). destruct HD' as [A B].
  destruct i as [t|reg hint hg jc e|hint jc|ex|hint fresh c|hint issi groups action|fresh src dest data|ts bits]; cbn [be_step] in E.
  - injection E as <- _. split; [exact A|]. intros u. rewrite downlink_snoc. destruct (B u) as [X Y]. split; [reflexivity|exact Y].
  - injection E as E. destruct e; cbn [be_event] in E.
    + injection E as <- _. apply (D_same l _ s); auto. intros u. now rewrite downlink_snoc.
    + injection E as <- _. split; [constructor|]. intros u. rewrite downlink_snoc. destruct (B u) as [X Y]. split; [exact X|]. cbn. auto.
    + unfold be_group_call_start in E. destruct (aget uuid (be_active s)) as [c|] eqn:Ea.
      * assert (G : D (l ++ [InEvent reg hint hg jc (BeGroupCallStart uuid source dest priority service)]) (be_set_active (aset uuid (mk_net_call (nc_ready c) source (nc_dest c)) (be_active s)) s)
                    /\ D (l ++ [InEvent reg hint hg jc (BeGroupCallStart uuid source dest priority service)]) s).
        { assert (V : forall u, downlink_of u (l ++ [InEvent reg hint hg jc (BeGroupCallStart uuid source dest priority service)]) = downlink_of u l).
          { intros u. rewrite downlink_snoc. cbn [downlink_after]. destruct (N.eqb_spec uuid u) as [<-|]; [|reflexivity].
            destruct (B uuid) as [X Y]. destruct (dn_call (downlink_of uuid l)) as [x|] eqn:Ed; [|destruct Y; congruence].
            rewrite <- Ed. now destruct (downlink_of uuid l). }
          split; [|now apply (D_same l _ s)]. split; [now apply nodup_aset|]. intros u. rewrite V. destruct (B u) as [X Y]. split; [exact X|].
          cbn [be_set_active be_active be_jitter]. rewrite aget_aset. destruct (N.eqb_spec u uuid) as [->|]; [|exact Y].
          destruct (dn_call (downlink_of uuid l)) as [[r uses]|]; [|destruct Y; congruence]. destruct Y as [(c0 & Y1 & Y2) Y3]. split; [|exact Y3].
          rewrite Ea in Y1. injection Y1 as <-. now exists (mk_net_call (nc_ready c) source (nc_dest c)). }
        destruct (negb _); injection E as <- _; apply G.
      * injection E as <- _. split.
        { unfold be_ensure_jitter. cbn [be_set_active be_set_hanging be_jitter]. destruct (aget uuid (be_jitter s)); now apply nodup_aset. }
        intros u. rewrite downlink_snoc. cbn [downlink_after]. destruct (B u) as [X Y]. unfold be_ensure_jitter. cbn [be_set_active be_set_hanging be_jitter be_active].
        destruct (B uuid) as [X0 Y0]. destruct (dn_call (downlink_of uuid l)) as [[r uses]|] eqn:Ed0.
        { destruct Y0 as [(c0 & Y1 & _) _]. congruence. }
        destruct Y0 as [_ Y0]. rewrite Y0. destruct (N.eqb_spec uuid u) as [<-|Nu].
        -- split; [exact X|]. cbn [dn_call]. rewrite Ed0. cbn [be_set_jitter be_set_active be_set_hanging be_active be_jitter]. rewrite !aget_aset, N.eqb_refl. split; [|reflexivity].
           now exists (mk_net_call None source dest).
        -- split; [exact X|]. cbn [be_set_jitter be_set_active be_set_hanging be_active be_jitter]. rewrite !aget_aset. destruct (N.eqb_spec u uuid); [congruence|]. exact Y.
    + unfold be_group_call_end in E. destruct (aget uuid (be_active s)) as [c|] eqn:Ea.
      * assert (G : D (l ++ [InEvent reg hint hg jc (BeGroupCallEnd uuid cause)]) (be_set_jitter (adel uuid (be_jitter s)) (be_set_active (adel uuid (be_active s)) s))).
        { split; [now apply nodup_adel|]. intros u. rewrite downlink_snoc. cbn [downlink_after]. destruct (B u) as [X Y].
          destruct (N.eqb_spec uuid u) as [<-|Nu]; (split; [exact X|]); cbn [dn_call be_set_jitter be_set_active be_active be_jitter]; rewrite !aget_adel.
          - now rewrite N.eqb_refl.
          - destruct (N.eqb_spec u uuid); [congruence|exact Y]. }
        destruct (nc_ready c); injection E as <- _; exact G.
      * injection E as <- _. apply (D_same l _ s); auto. intros u. rewrite downlink_snoc. cbn [downlink_after]. destruct (N.eqb_spec uuid u) as [<-|]; [|reflexivity].
        destruct (B uuid) as [X Y]. destruct (downlink_of uuid l) as [t [[r uses]|]]; [|reflexivity]. cbn [dn_call] in Y. destruct Y as [(c0 & Y1 & _) _]. congruence.
    + injection E as <- _. unfold be_voice_frame.
      assert (K : forall u, u <> uuid -> downlink_of u (l ++ [InEvent reg hint hg jc (BeVoiceFrame uuid length_bits data)]) = downlink_of u l).
      { intros u Nu. rewrite downlink_snoc. cbn [downlink_after]. destruct (dn_call (downlink_of u l)) as [[[ts|] uses]|]; [|reflexivity..].
        destruct (N.eqb_spec uuid u); [congruence|reflexivity]. }
      pose proof (downlink_snoc uuid l (InEvent reg hint hg jc (BeVoiceFrame uuid length_bits data))) as KU. cbn [downlink_after] in KU. rewrite N.eqb_refl in KU. cbn [andb] in KU.
      destruct (B uuid) as [X Y]. destruct (dn_call (downlink_of uuid l)) as [[r uses]|] eqn:Ed.
      2:{ destruct Y as [Y _]. rewrite Y. apply (D_same l _ s); auto. intros u. destruct (N.eq_dec u uuid) as [->|Nu]; [exact KU|now apply K]. }
      destruct Y as [(c & Ea & Er) Ej]. rewrite Ea. destruct (nc_ready c) as [[[id ts] us]|] eqn:Erc; subst r.
      2:{ apply (D_same l _ s); auto. intros u. destruct (N.eq_dec u uuid) as [->|Nu]; [exact KU|now apply K]. }
      unfold ste_to_acelp. rewrite Nat.ltb_antisym. destruct (36 <=? length data) eqn:E36; cbn [negb].
      2:{ apply (D_same l _ s); auto. intros u. destruct (N.eq_dec u uuid) as [->|Nu]; [exact KU|now apply K]. }
      unfold be_ensure_jitter. rewrite Ej, Ej. split; [exact A|]. intros u. destruct (N.eq_dec u uuid) as [->|Nu].
      * rewrite KU. split; [exact X|]. cbn [dn_call be_set_jitter be_active be_jitter]. rewrite aget_aset, N.eqb_refl, buffer_push. split; [|reflexivity].
        exists c. rewrite Erc. auto.
      * rewrite (K u Nu). destruct (B u) as [X' Y']. split; [exact X'|]. cbn [be_set_jitter be_active be_jitter]. rewrite aget_aset. destruct (N.eqb_spec u uuid); [congruence|exact Y'].
    + injection E as <- _. apply (D_same l _ s); auto. intros u. now rewrite downlink_snoc.
    + injection E as <- _. apply (D_same l _ s); auto. intros u. now rewrite downlink_snoc.
    + injection E as <- _. apply (D_same l _ s); auto. intros u. now rewrite downlink_snoc.
    + injection E as <- _. apply (D_same l _ s); auto. intros u. now rewrite downlink_snoc.
  - injection E as E. unfold be_drain in E. destruct (tm_f (be_dltime s) =? 18)%Z eqn:F.
    + injection E as <- _. apply (D_same l _ s); auto. intros u. rewrite downlink_snoc. cbn [downlink_after]. destruct (B u) as [X _].
      destruct (dn_call (downlink_of u l)) as [[[ts|] uses]|]; [|reflexivity..]. unfold speech_slot. now rewrite X, F, andb_false_r.
    + pose proof (playout_spec hint jc (fun u => downlink_of u l) (arrange hint (be_active s)) s) as P. cbv zeta in P. rewrite E in P.
      assert (PM := arrange_perm hint (be_active s) A).
      destruct P as (P1 & P2 & P3 & _); [exact (Permutation_NoDup (Permutation_sym (Permutation_map fst PM)) A)|exact F| |exact B|].
      { intros u c Hu. now apply (arrange_in hint) in Hu. }
      cbn [fst snd] in *. split; [now rewrite P1|]. intros u. rewrite downlink_snoc. specialize (P3 u).
      destruct (existsb _ _) eqn:Ex in P3; [exact P3|]. replace (downlink_after u (downlink_of u l) (InPlayout hint jc)) with (downlink_of u l); [exact P3|].
      cbn [downlink_after]. destruct (B u) as [X Y]. destruct (dn_call (downlink_of u l)) as [[[ts|] uses]|] eqn:Ed; [|reflexivity..].
      destruct Y as [(c & Ea & _) _]. exfalso. apply not_true_iff_false in Ex. apply Ex. apply existsb_exists. exists (u, c). split; [now apply arrange_in|apply N.eqb_refl].
  - injection E as <- _. apply (D_same l _ s); auto. intros u. now rewrite downlink_snoc.
  - destruct c as [| |id src dest ts|id ts|id ts| |uuid id ts us|uuid|]; try (injection E as <- _; apply (D_same l _ s); auto; intros u; now rewrite downlink_snoc).
    + injection E as E. apply (f_equal fst) in E. cbn [fst] in E. subst s'. apply (D_same l _ s); unfold be_local_start; try (destruct (negb _); [reflexivity|]; now destruct (negb _)); auto.
      intros u. now rewrite downlink_snoc.
    + injection E as E. apply (f_equal fst) in E. cbn [fst] in E. subst s'. apply (D_same l _ s); unfold be_local_stopped; try (now destruct (aget _ _)); auto.
      intros u. now rewrite downlink_snoc.
    + injection E as <- _. unfold be_call_ready. destruct (aget uuid (be_active s)) as [c|] eqn:Ea.
      * split; [now apply nodup_aset|]. intros u. rewrite downlink_snoc. cbn [downlink_after]. destruct (B u) as [X Y].
        destruct (N.eqb_spec uuid u) as [<-|Nu]; (split; [exact X|]); cbn [dn_call be_set_active be_active be_jitter]; rewrite aget_aset.
        -- rewrite N.eqb_refl. destruct (dn_call (downlink_of uuid l)) as [[r uses]|]; [|destruct Y; congruence]. destruct Y as [_ Y]. split; [|exact Y].
           now exists (mk_net_call (Some (id, ts, us)) (nc_source c) (nc_dest c)).
        -- destruct (N.eqb_spec u uuid); [congruence|exact Y].
      * apply (D_same l _ s); auto. intros u. rewrite downlink_snoc. cbn [downlink_after]. destruct (N.eqb_spec uuid u) as [<-|]; [|reflexivity].
        destruct (B uuid) as [X Y]. destruct (downlink_of uuid l) as [t [[r uses]|]]; [|reflexivity]. cbn [dn_call] in Y. destruct Y as [(c0 & Y1 & _) _]. congruence.
    + injection E as <- _. unfold be_drop_call. destruct (aget uuid (be_active s)) as [c|] eqn:Ea.
      * split; [now apply nodup_adel|]. intros u. rewrite downlink_snoc. cbn [downlink_after]. destruct (B u) as [X Y].
        destruct (N.eqb_spec uuid u) as [<-|Nu]; (split; [exact X|]); cbn [dn_call be_set_hanging be_set_jitter be_set_active be_active be_jitter]; rewrite !aget_adel.
        -- now rewrite N.eqb_refl.
        -- destruct (N.eqb_spec u uuid); [congruence|exact Y].
      * assert (G : forall x, D (l ++ [InControl hint fresh (CtlNetworkCallEnd uuid)]) (be_set_hanging x s)).
        { intros x. apply (D_same l _ s); auto. intros u. rewrite downlink_snoc. cbn [downlink_after]. destruct (N.eqb_spec uuid u) as [<-|]; [|reflexivity].
          destruct (B uuid) as [X Y]. destruct (downlink_of uuid l) as [t [[r uses]|]]; [|reflexivity]. cbn [dn_call] in Y. destruct Y as [(c0 & Y1 & _) _]. congruence. }
        destruct (find _ _) as [[g w]|]; [apply G|]. pose proof (G (be_hanging s)) as G'. now destruct s.
  - injection E as E. assert (K : be_dltime s' = be_dltime s /\ be_active s' = be_active s /\ be_jitter s' = be_jitter s).
    { unfold be_subscriber_update in E. destruct action.
      - destruct (aget issi (be_subs s)); injection E as <- <-; auto.
      - injection E as <- <-; auto.
      - destruct (insert_groups _ _). injection E as <- <-; auto.
      - destruct (aget issi (be_subs s)) as [en|]; [destruct (remove_groups groups en)|]; injection E as <- <-; auto. }
    destruct K as (K1 & K2 & K3). apply (D_same l _ s); auto. intros u. now rewrite downlink_snoc.
  - injection E as <- _. apply (D_same l _ s); auto. intros u. now rewrite downlink_snoc.
  - binv E. injection E as <- _. apply (D_same l _ s); auto. intros u. now rewrite downlink_snoc.
Qed.
Lemma D_run l : forall s o, be_run cfg lat l brew_new = Ok (s, o) -> D l s.
Proof.
  induction l as [|i t IH] using rev_ind; intros s o R; [injection R as <- <-; apply D_new|].
  apply run_snoc in R. destruct R as (s1 & o1 & o2 & R1 & E & ->). exact (D_step t i s1 _ _ (IH _ _ R1) E).
Qed.

(** ** The theorems *)

Theorem uplink_exact l s o ts bits : NoDup (made_ids l) -> be_run cfg lat l brew_new = Ok (s, o) ->
  exists frame, ul_voice_to_ste bits = Ok frame /\
  match relayed cfg l ts, frame with
  | Some (id, src, dest), Some data => exists u, be_step cfg lat (InUlVoice ts bits) s = Ok (s, [BoCmd (BcVoiceFrame u (N.of_nat (length data) * 8 mod 65536) data)]) /\
      announced u src dest o /\ (forall ts' bits' s' u' n' d', ts' <> ts -> be_step cfg lat (InUlVoice ts' bits') s = Ok (s', [BoCmd (BcVoiceFrame u' n' d')]) -> u' <> u)
  | _, _ => be_step cfg lat (InUlVoice ts bits) s = Ok (s, [])
  end.
Proof.
  intros ND R. destruct (U_run l s o ND R) as [A B C E S F G H]. destruct (ste_total bits) as [frame Ef]. exists frame. split; [exact Ef|].
  rewrite B. cbn [be_step]. unfold be_ul_voice. destruct (aget (slot_key ts) (be_fwd s)) as [f|] eqn:Es; [|reflexivity]. rewrite Ef. cbn [bind].
  destruct frame as [data|]; [|reflexivity]. exists (fw_uuid f). split; [reflexivity|]. split; [now apply (S (slot_key ts))|].
  intros ts' bits' s' u' n' d' Nts X Eu. cbn [be_step] in X. unfold be_ul_voice in X. destruct (aget (slot_key ts') (be_fwd s)) as [f'|] eqn:Es'; [|discriminate].
  apply Nts, slot_key_inj. binv X. binv E0. destruct x0; injection E0 as <-; [|discriminate]. apply (E _ _ _ _ Es' Es). congruence.
Qed.

Theorem sessions_good l s o u : NoDup (made_ids l) -> be_run cfg lat l brew_new = Ok (s, o) -> session u o NotBegun <> None.
Proof. intros ND R. apply (U_run l s o ND R). Qed.

Theorem downlink_exact l s o hint jc : be_run cfg lat l brew_new = Ok (s, o) ->
  exists us s', NoDup us /\ (forall u, In u us <-> dn_call (downlink_of u l) <> None) /\
    be_step cfg lat (InPlayout hint jc) s = Ok (s', flat_map (fun u =>
      match dn_call (downlink_of u l) with
      | Some (Some ts, uses) =>
          if speech_slot (be_dltime s) ts then match next_frame lat (jc u) uses with Some data => [BoVoice (be_dltime s) ts data] | None => [] end else []
      | _ => []
      end) us) /\ forall u, dn_time (downlink_of u l) = be_dltime s.
Proof.
  intros R. destruct (D_run l s o R) as [A B]. cbn [be_step]. unfold be_drain.
  assert (PM := arrange_perm hint (be_active s) A). assert (NDm := Permutation_NoDup (Permutation_sym (Permutation_map fst PM)) A).
  exists (map fst (arrange hint (be_active s))), (fst (be_drain hint jc s)). split; [exact NDm|]. split; [|split; [|intros u; apply (B u)]].
  { intros u. destruct (B u) as [X Y]. split.
    - intros H. apply in_map_iff in H. destruct H as ([u' c] & <- & H). cbn [fst] in *. apply (arrange_in hint) in H; [|exact A]. intros N. rewrite N in Y. destruct Y; congruence.
    - intros H. destruct (dn_call (downlink_of u l)) as [[r uses]|]; [|now destruct H]. destruct Y as [(c & Ea & _) _]. apply in_map_iff. exists (u, c). split; [reflexivity|]. now apply arrange_in. }
  unfold be_drain. destruct (tm_f (be_dltime s) =? 18)%Z eqn:F.
  - do 2 f_equal. symmetry. clear -F. induction (map fst (arrange hint (be_active s))) as [|u t IH]; [reflexivity|]. cbn [flat_map]. rewrite IH, app_nil_r.
    destruct (dn_call (downlink_of u l)) as [[[ts|] uses]|]; [|reflexivity..]. unfold speech_slot. now rewrite F, andb_false_r.
  - destruct (playout_spec hint jc (fun u => downlink_of u l) (arrange hint (be_active s)) s NDm F) as (P1 & P2 & P3 & P4); [|exact B|].
    { intros u c Hu. now apply (arrange_in hint) in Hu. }
    destruct (be_playout jc (arrange hint (be_active s)) s) as [s1 o1]. cbn [fst snd] in *. now rewrite P4.
Qed.
End Config.

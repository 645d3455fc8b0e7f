(** What the network knows of the radios is what mobility management knows (C57). *)
From Verif Require Import Base AMap AMapOrder AMapOrderProofs TdmaTime MacFields MmFields MmPdus CmceFields BrewRoute Registry CallControl Mobility MobilitySpec MobilityProofs MobilityFacts
  BrewProtocol BrewProtocolProofs BrewWorker BrewEntity BrewViewSpec BrewViewProofs.
Open Scope N_scope.

Notation mview := MobilityProofs.view.
Notation msame := MobilityProofs.same.

(** ** Groups are reported only of known radios *)
Fixpoint known_first (v : mview) (us : list sub_update) : Prop :=
  match us with
  | [] => True
  | u :: t => (su_action u = SubAffiliate -> v (su_issi u) <> None) /\ known_first (apply_upd v u) t
  end.
Lemma known_first_same us : forall v w, msame v w -> known_first v us -> known_first w us.
Proof.
  induction us as [|u t IH]; intros v w S; [auto|]. intros [H1 H2]. split; [|exact (IH _ _ (apply_same u _ _ S) H2)].
  intros A. specialize (H1 A). specialize (S (su_issi u)). unfold oeq in S. destruct (v (su_issi u)), (w (su_issi u)); easy.
Qed.
Lemma known_first_app a : forall b v, known_first v a -> known_first (follow v a) b -> known_first v (a ++ b).
Proof. induction a as [|u t IH]; intros b v; [auto|]. intros [H1 H2] H3. split; [exact H1|]. now apply IH. Qed.

Lemma emit_first cfg t i gs a v : (a = SubAffiliate -> v i <> None) -> known_first v (to_cmce (emit_nonempty cfg t i gs a)).
Proof. intros H. rewrite emit_nonempty_cmce. destruct gs; [exact Logic.I|]. split; [exact H|exact Logic.I]. Qed.
Lemma register_first cfg t issi s s' q : register_radio cfg t issi s = (s', q) -> known_first (mmv s) (to_cmce q).
Proof. unfold register_radio. intros [= <- <-]. rewrite emit_cmce. split; [discriminate|exact Logic.I]. Qed.
Lemma groups_first cfg t issi l s s' acc q : attach_groups cfg t issi l s = (s', acc, q) -> known_first (mmv s) (to_cmce q).
Proof.
  unfold attach_groups. destruct (attach_loop issi l s) as [[[s1 acc1] aff] deaff] eqn:E. intros [= <- <- <-].
  destruct (aget issi (mo_clients s)) as [c|] eqn:C.
  - rewrite to_cmce_app. apply known_first_app; apply emit_first; [|discriminate]. intros _. now rewrite (mmv_at s issi c C).
  - rewrite (loop_unknown _ _ _ C) in E. injection E as <- <- <- <-. exact Logic.I.
Qed.
Lemma drop_first cfg hint t issi s s' q : drop_groups cfg hint t issi s = Some (s', q) -> known_first (mmv s) (to_cmce q).
Proof.
  unfold drop_groups, client_detach_all. destruct (aget issi (mo_clients s)) as [c|] eqn:E; [|discriminate]. intros [= <- <-]. now apply emit_first.
Qed.
Lemma detach_first cfg hint i s s' q : rx_u_itsi_detach cfg hint i s = (s', q) -> known_first (mmv s) (to_cmce q).
Proof.
  unfold rx_u_itsi_detach. destruct (aget _ (mo_clients s)) as [c|] eqn:E; intros [= <- <-]; [|exact Logic.I].
  rewrite to_cmce_app. apply known_first_app; [now apply emit_first|]. rewrite emit_cmce. split; [discriminate|exact Logic.I].
Qed.
Lemma then_first s s1 q1 q2 q3 : known_first (mmv s) (to_cmce q1) -> msame (follow (mmv s) (to_cmce q1)) (mmv s1) -> known_first (mmv s1) (to_cmce q2) -> to_cmce q3 = [] ->
  known_first (mmv s) (to_cmce (q1 ++ q2 ++ q3)).
Proof.
  intros H1 S H2 E. rewrite !to_cmce_app, E, app_nil_r. apply known_first_app; [exact H1|]. exact (known_first_same _ _ _ (same_sym _ _ S) H2).
Qed.
Lemma lu_first cfg i p s s' q : rx_u_lu_demand cfg i p s = Ok (s', q) -> known_first (mmv s) (to_cmce q).
Proof.
  unfold rx_u_lu_demand. destruct (lu_supported p); cbn [negb]; [|intros [= <- <-]; exact Logic.I].
  set (issi := ad_ssi (di_addr i)). set (t := di_dltime i).
  set (first := if negb (client_is_known issi s) then _ else _).
  assert (F : match first with Some (s1, q1) => known_first (mmv s) (to_cmce q1) /\ msame (follow (mmv s) (to_cmce q1)) (mmv s1) | None => True end).
  { unfold first, client_is_known. destruct (aget issi (mo_clients s)) as [c|] eqn:E; cbn [negb].
    - destruct (set_client_state issi ClAttached s) as [s1|] eqn:E1; cbn [option_map]; [|exact Logic.I].
      destruct (set_state_view _ _ _ _ E1) as [V R]. split; [exact Logic.I|]. apply same_sym, V.
    - destruct (register_radio cfg t issi s) as [s1 q1] eqn:E1. split; [exact (register_first _ _ _ _ _ _ E1)|exact (register_follow _ _ _ _ _ _ E1 E)]. }
  destruct first as [[s1 q1]|]; [|intros [= <- <-]; exact Logic.I]. destruct F as [F1 F2].
  set (second := match u_lu_demand_group_identity_location_demand p with Some d => _ | None => _ end).
  assert (G : let '(s2, _, q2) := second in known_first (mmv s1) (to_cmce q2)).
  { unfold second. destruct (u_lu_demand_group_identity_location_demand p) as [d|]; [|exact Logic.I].
    destruct (gild_uplink d) as [l|]; [|exact Logic.I]. destruct (attach_groups cfg t issi l s1) as [[s2 acc] q2] eqn:E2. exact (groups_first _ _ _ _ _ _ _ _ E2). }
  destruct second as [[s2 g] q2]. intros H.
  destruct (mm_encode 34 _) as [[]| |]; [|discriminate H..]. cbn [bind] in H.
  destruct (if negb (client_is_known issi s) && negb (u_lu_demand_location_update_type p =? 3) then _ else _) as [c| |] eqn:EC; [|discriminate H..].
  cbn [bind] in H. injection H as <- <-. apply (then_first s s1 q1 q2 _ F1 F2 G).
  destruct (negb (client_is_known issi s) && negb (u_lu_demand_location_update_type p =? 3)).
  - destruct (lu_command_msg t issi (di_handle i)) as [m| |] eqn:EM; [|discriminate EC..]. cbn [bind] in EC. injection EC as <-.
    unfold lu_command_msg in EM. destruct (mm_encode 16 _) as [[]| |]; [|discriminate EM..]. cbn [bind] in EM. injection EM as <-. reflexivity.
  - injection EC as <-. reflexivity.
Qed.
Lemma attach_first cfg hint i p s s' q : rx_u_attach_detach cfg hint i p s = Ok (s', q) -> known_first (mmv s) (to_cmce q).
Proof.
  unfold rx_u_attach_detach. destruct (u_attach_detach_group_identity_uplink p) as [l|]; [|intros [= <- <-]; exact Logic.I].
  set (issi := ad_ssi (di_addr i)). set (t := di_dltime i).
  set (first := if u_attach_detach_group_identity_attach_detach_mode p then _ else _).
  assert (F : match first with Some (s1, q1) => known_first (mmv s) (to_cmce q1) /\ msame (follow (mmv s) (to_cmce q1)) (mmv s1) | None => True end).
  { unfold first, client_is_known. destruct (u_attach_detach_group_identity_attach_detach_mode p); [|split; [exact Logic.I|apply MobilityProofs.same_refl]].
    destruct (aget issi (mo_clients s)) as [c|] eqn:E; cbn [negb].
    - destruct (drop_groups cfg hint t issi s) as [[s1 q1]|] eqn:E1; [|exact Logic.I].
      split; [exact (drop_first _ _ _ _ _ _ _ E1)|exact (drop_follow _ _ _ _ _ _ _ E1)].
    - destruct (register_radio cfg t issi s) as [s1 q1] eqn:E1. split; [exact (register_first _ _ _ _ _ _ E1)|exact (register_follow _ _ _ _ _ _ E1 E)]. }
  destruct first as [[s1 q1]|]; [|intros [= <- <-]; exact Logic.I]. destruct F as [F1 F2].
  destruct (attach_groups cfg t issi l s1) as [[s2 acc] q2] eqn:E2. intros H.
  destruct (mm_encode 32 _) as [[]| |]; [|discriminate H..]. cbn [bind] in H. injection H as <- <-.
  apply (then_first s s1 q1 q2 _ F1 F2 (groups_first _ _ _ _ _ _ _ _ E2)). reflexivity.
Qed.
Lemma rx_first cfg hint i s s' q : mm_rx cfg hint i s = Ok (s', q) -> known_first (mmv s) (to_cmce q).
Proof.
  unfold mm_rx. destruct (BitBuffer.peek_bits (di_sdu i) 4) as [[t|]| |]; cbn [bind]; [|intros [= <- <-]; exact Logic.I|discriminate..].
  unfold mm_parsed.
  destruct (t =? MmUl_UItsiDetach).
  { destruct (u_itsi_detach_from_bitbuf (di_sdu i)) as [[p b]| |]; [|intros [= <- <-]; exact Logic.I|discriminate].
    intros H. injection H as H. exact (detach_first _ _ _ _ _ _ H). }
  destruct (t =? MmUl_ULocationUpdateDemand).
  { destruct (u_lu_demand_from_bitbuf (di_sdu i)) as [[p b]| |] eqn:E; [|intros [= <- <-]; exact Logic.I|discriminate]. apply lu_first. }
  destruct (t =? MmUl_UMmStatus).
  { destruct (u_mm_status_from_bitbuf (di_sdu i)) as [[p b]| |] eqn:E; [|intros [= <- <-]; exact Logic.I|discriminate].
    unfold rx_u_mm_status. destruct (mm_encode 14 _) as [[]| |]; cbn [bind]; [|discriminate..]. intros [= <- <-]. exact Logic.I. }
  destruct (t =? MmUl_UAttachDetachGroupIdentity).
  { destruct (u_attach_detach_from_bitbuf (di_sdu i)) as [[p b]| |] eqn:E; [|intros [= <- <-]; exact Logic.I|discriminate]. apply attach_first. }
  intros [= <- <-]. exact Logic.I.
Qed.

Section Config.
Variable cfg : cfg_route.
Definition shared (us : list sub_update) : list sub_update := flat_map (fun u => match routed cfg u with Some v => [v] | None => [] end) us.

Lemma reports m us : mm_reports cfg m us ->
  exists all, us = shared all /\ msame (follow (fun _ => None) all) (mmv m) /\ known_first (fun _ => None) all.
Proof.
  induction 1 as [|m us hint i m' q _ (all & E & S & K) O H].
  - exists []. split; [reflexivity|]. split; [intros i; exact Logic.I|exact Logic.I].
  - exists (all ++ to_cmce q). unfold shared in *. rewrite flat_map_app, <- E, <- (network_told _ _ _ _ _ _ H). split; [reflexivity|]. split.
    + rewrite follow_app. eapply MobilityProofs.same_trans; [apply follow_same, S|]. exact (proj2 (rx_tracks _ _ _ _ _ _ H) O).
    + apply known_first_app; [exact K|]. exact (known_first_same _ _ _ (same_sym _ _ S) (rx_first _ _ _ _ _ _ H)).
Qed.

(** ** The reports, filtered *)
Definition as_in (u : sub_update) : brew_in := InSubscriber [] (su_issi u) (su_groups u) (su_action u).
Lemma reported_updates l : forall v, fold_left reported_after l v = fold_left (fun v u => reported_after v (as_in u)) (updates l) v.
Proof.
  induction l as [|i t IH]; intros v; [reflexivity|]. cbn [fold_left]. rewrite IH. destruct i; try reflexivity.
Qed.
Fixpoint first_upd (v : BrewViewSpec.view) (us : list sub_update) : Prop :=
  match us with
  | [] => True
  | u :: t => match su_action u with SubAffiliate => brew_issi_routable cfg (su_issi u) = true -> v_reg v (su_issi u) | _ => True end /\
              first_upd (reported_after v (as_in u)) t
  end.
Lemma first_updates l : forall v, first_upd v (updates l) -> registered_first cfg v l.
Proof.
  induction l as [|i t IH]; intros v H; [exact Logic.I|]. destruct i; try (split; [exact Logic.I|exact (IH v H)]).
  cbn [updates flat_map app] in H. destruct H as [H1 H2]. split; [exact H1|exact (IH _ H2)].
Qed.

Definition fits (v : mview) (w : BrewViewSpec.view) : Prop := forall r, brew_issi_routable cfg r = true ->
  (v_reg w r <-> v r <> None) /\ (forall g, v_aff w r g <-> brew_gssi_routable cfg g = true /\ exists a, v r = Some a /\ a g = true).
Lemma active r : brew_issi_routable cfg r = true -> brew_is_active cfg = true.
Proof. unfold brew_issi_routable, brew_is_active. now destruct (cr_brew cfg). Qed.
Lemma vset_at i o (v : mview) r : vset i o v r = if r =? i then o else v r.
Proof. reflexivity. Qed.

Lemma routed_fits u v w : fits v w -> (su_action u = SubAffiliate -> v (su_issi u) <> None) ->
  fits (apply_upd v u) (fold_left (fun v u => reported_after v (as_in u)) (match routed cfg u with Some x => [x] | None => [] end) w) /\
  first_upd w (match routed cfg u with Some x => [x] | None => [] end).
Proof.
  destruct u as [i gs a]. intros F K. cbn [su_action su_issi] in K.
  unfold routed. cbn [su_issi su_groups su_action]. set (gs' := filter (brew_gssi_routable cfg) gs).
  assert (Hgs : forall g, In g gs' <-> brew_gssi_routable cfg g = true /\ In g gs) by (intros g; unfold gs'; rewrite filter_In; tauto).
  clearbody gs'. split.
  - intros r Hr. destruct (F r Hr) as [F1 F2]. rewrite (active r Hr). cbn [negb]. unfold apply_upd. cbn [su_issi su_groups su_action].
    destruct a.
    + destruct (N.eq_dec r i) as [->|Ne].
      * rewrite Hr. cbn [fold_left as_in su_issi su_groups su_action reported_after registers v_reg v_aff].
        destruct (v i) as [a|] eqn:Ev; [rewrite Ev; split; [split; [discriminate|auto]|exact F2]|]. split; [split; [|auto]|].
        -- intros _. rewrite vset_at, N.eqb_refl. discriminate.
        -- intros g. rewrite F2, vset_at, N.eqb_refl. split; intros [_ (a & H1 & H2)]; [discriminate|]. injection H1 as <-. discriminate.
      * assert (X : forall o, vset i o v r = v r) by (intros o; rewrite vset_at; apply N.eqb_neq in Ne; now rewrite Ne).
        assert (Y : (match v i with Some _ => v | None => vset i (Some (fun _ => false)) v end) r = v r) by (destruct (v i); [reflexivity|apply X]).
        rewrite Y. destruct (brew_issi_routable cfg i); cbn [fold_left as_in su_issi su_groups su_action reported_after registers v_reg v_aff]; [|split; assumption].
        split; [|exact F2]. rewrite <- F1. tauto.
    + rewrite vset_at. destruct (N.eqb_spec r i) as [->|Ne].
      * rewrite Hr. cbn [fold_left as_in su_issi su_groups su_action reported_after leaves v_reg v_aff]. split; [tauto|]. intros g. split; [tauto|]. intros [_ (a & H & _)]. discriminate.
      * destruct (brew_issi_routable cfg i); cbn [fold_left as_in su_issi su_groups su_action reported_after leaves v_reg v_aff]; [|split; assumption].
        split; [tauto|]. intros g. rewrite F2. tauto.
    + assert (Z : forall g, v_aff (fold_left (fun v u => reported_after v (as_in u)) (match (match gs' with [] => None | _ => Some (mk_update i gs' SubAffiliate) end) with Some x => [x] | None => [] end) w) r g
                  <-> r = i /\ In g gs' \/ v_aff w r g).
      { intros g. destruct gs' as [|g0 t]; [cbn [fold_left In]; tauto|]. reflexivity. }
      assert (Z1 : v_reg (fold_left (fun v u => reported_after v (as_in u)) (match (match gs' with [] => None | _ => Some (mk_update i gs' SubAffiliate) end) with Some x => [x] | None => [] end) w) r
                  <-> v_reg w r) by (destruct gs'; reflexivity).
      rewrite Z1. rewrite vset_at. destruct (N.eqb_spec r i) as [->|Ne].
      * specialize (K eq_refl). split; [rewrite F1; split; [discriminate|auto]|]. intros g. rewrite Z, F2, Hgs. split.
        -- intros [[_ [H1 H2]]|[H1 (a & H2 & H3)]]; (split; [exact H1|]); eexists; (split; [reflexivity|]); cbn beta; apply orb_true_iff; [left; now apply memN_true|right; now rewrite H2].
        -- intros [H1 (a & H2 & H3)]. injection H2 as <-. apply orb_true_iff in H3. destruct H3 as [H3|H3]; [left; split; [reflexivity|]; split; [exact H1|now apply memN_true]|].
           right. split; [exact H1|]. destruct (v i) as [a|]; [now exists a|discriminate].
      * split; [exact F1|]. intros g. rewrite Z, F2. tauto.
    + assert (Z : forall g, v_aff (fold_left (fun v u => reported_after v (as_in u)) (match (match gs' with [] => None | _ => Some (mk_update i gs' SubDeaffiliate) end) with Some x => [x] | None => [] end) w) r g
                  <-> ~ (r = i /\ In g gs') /\ v_aff w r g).
      { intros g. destruct gs' as [|g0 t]; [cbn [fold_left In]; tauto|]. reflexivity. }
      assert (Z1 : v_reg (fold_left (fun v u => reported_after v (as_in u)) (match (match gs' with [] => None | _ => Some (mk_update i gs' SubDeaffiliate) end) with Some x => [x] | None => [] end) w) r
                  <-> v_reg w r) by (destruct gs'; reflexivity).
      rewrite Z1. destruct (v i) as [a|] eqn:Ev.
      * rewrite vset_at. destruct (N.eqb_spec r i) as [->|Ne].
        -- split; [rewrite F1, Ev; split; discriminate|]. intros g. rewrite Z, F2, Hgs, Ev. split.
           ++ intros [H0 [H1 (a' & H2 & H3)]]. injection H2 as <-. split; [exact H1|]. eexists. split; [reflexivity|]. cbn beta. rewrite H3. cbn [andb].
              apply negb_true_iff, memN_false. tauto.
           ++ intros [H1 (a' & H2 & H3)]. injection H2 as <-. apply andb_true_iff in H3. destruct H3 as [H3 H4]. apply negb_true_iff, memN_false in H4. split; [tauto|].
              split; [exact H1|]. now exists a.
        -- split; [exact F1|]. intros g. rewrite Z, F2. tauto.
      * split; [exact F1|]. intros g. rewrite Z, F2. split; [tauto|]. intros H. split; [|exact H]. intros [-> _]. destruct H as [_ (a & H & _)]. congruence.
  - destruct (negb (brew_is_active cfg)); [exact Logic.I|]. destruct a.
    + destruct (brew_issi_routable cfg i); now cbn.
    + destruct (brew_issi_routable cfg i); now cbn.
    + destruct gs'; [exact Logic.I|]. split; [|exact Logic.I]. cbn [su_action su_issi]. intros Hi. apply (F i Hi). now apply K.
    + destruct gs'; now cbn.
Qed.
Lemma first_upd_app a : forall b v, first_upd v a -> first_upd (fold_left (fun v u => reported_after v (as_in u)) a v) b -> first_upd v (a ++ b).
Proof. induction a as [|u t IH]; intros b v; [auto|]. intros [H1 H2] H3. split; [exact H1|]. now apply IH. Qed.
Lemma shared_fits all : forall v w, fits v w -> known_first v all ->
  fits (follow v all) (fold_left (fun v u => reported_after v (as_in u)) (shared all) w) /\ first_upd w (shared all).
Proof.
  induction all as [|u t IH]; intros v w F K; [split; [exact F|exact Logic.I]|]. destruct K as [K1 K2]. cbn [shared flat_map follow fold_left].
  destruct (routed_fits u v w F K1) as [R1 R2]. destruct (IH _ _ R1 K2) as [I1 I2]. rewrite fold_left_app. split; [exact I1|]. now apply first_upd_app.
Qed.
Lemma empty_fits : fits (fun _ => None) nobody.
Proof. intros r _. split; [split; [intros []|intros H; now destruct H]|]. intros g. split; [intros []|]. intros [_ (a & H & _)]. discriminate. Qed.

Theorem registry_view lat m l1 reg hint hg jc l2 s1 o1 s2 o2 before pending w w' msgs :
  mm_reports cfg m (updates (l1 ++ l2)) -> Forall numbers_ok (l1 ++ l2) ->
  be_run cfg lat l1 brew_new = Ok (s1, o1) -> be_run cfg lat (InEvent reg hint hg jc BeConnected :: l2) s1 = Ok (s2, o2) ->
  commands o1 = before ++ pending -> works cfg w (pending ++ commands o2) w' msgs ->
  (forall r, v_reg (server msgs) r <-> brew_issi_routable cfg r = true /\ mm_known m r) /\
  (forall r g, v_aff (server msgs) r g <-> brew_issi_routable cfg r = true /\ brew_gssi_routable cfg g = true /\ mm_attached m r g).
Proof.
  intros R F E1 E2 Ec Hw. destruct (reports _ _ R) as (all & Eu & S & K). destruct (shared_fits all _ _ empty_fits K) as [Ft Fu].
  rewrite <- Eu in Ft, Fu. rewrite <- (reported_updates (l1 ++ l2) nobody) in Ft. change (fold_left reported_after (l1 ++ l2) nobody) with (reported (l1 ++ l2)) in Ft.
  destruct (network_view cfg lat _ _ _ _ _ _ _ _ _ _ _ _ _ _ _ F E1 E2 Ec Hw) as [V1 V2]. specialize (V2 (first_updates _ _ Fu)). split.
  - intros r. rewrite V2. split; intros [H1 H2]; (split; [exact H1|]).
    + apply (Ft r H1) in H2. specialize (S r). unfold mm_known. unfold mmv in S. destruct (follow (fun _ => None) all r); [|easy]. destruct (aget r (mo_clients m)); [discriminate|destruct S].
    + apply (Ft r H1). specialize (S r). unfold mm_known in H2. unfold mmv in S. destruct (aget r (mo_clients m)); [|easy]. destruct (follow (fun _ => None) all r); [discriminate|destruct S].
  - intros r g. rewrite V1. split.
    + intros [H1 H2]. apply (Ft r H1) in H2. destruct H2 as [H2 (a & H3 & H4)]. split; [exact H1|]. split; [exact H2|]. specialize (S r). rewrite H3 in S.
      unfold mmv in S. unfold mm_attached. destruct (aget r (mo_clients m)) as [c|]; [|destruct S]. exists c. split; [reflexivity|]. apply memN_true. cbn in S. now rewrite <- S.
    + intros (H1 & H2 & c & H3 & H4). split; [exact H1|]. apply (Ft r H1). split; [exact H2|]. specialize (S r). unfold mmv in S. rewrite H3 in S.
      destruct (follow (fun _ => None) all r) as [a|]; [|destruct S]. exists a. split; [reflexivity|]. cbn in S. rewrite S. now apply memN_true.
Qed.
End Config.

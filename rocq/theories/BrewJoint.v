(** Call control and the network entity together: media is relayed only for the call that owns the timeslot. *)
From Verif Require Import Base AMap AMapOrder AMapOrderProofs TdmaTime TimeslotAlloc MacFields UmacCircuits CmceFields CmcePdus BrewRoute
  CircuitMgr CallControl CcSpec CcProofs CcInv CcHistory CcKeeps CcFacts VoicePack BrewProtocol BrewWorker BrewEntity BrewSystem BrewSpec BrewProofs CcFloor.
Open Scope nat_scope.

Section Config.
Variable cfg : cfg_route.
Variable lat : nat.

Lemma fresh_next s since log e s' q : history cfg 1023 s since log -> cc_step cfg e s = Ok (s', q) ->
  (forall id c, aget id (cc_active s') = Some c -> (if present (aget id (cc_active s)) then since id + opens q else 0) < 1023) ->
  aget (cm_next_call (cc_circ s)) (cc_active s) = None \/ opens q = 0.
Proof.
  intros H E B. destruct (history_inv _ _ _ _ H) as [I [A1 A2 A3]].
  destruct (step_effect cfg e _ s s' q I (W_reachable cfg s (history_reachable _ _ _ _ _ H)) E) as [C|C].
  - right. apply (ca_opens _ _ _ _ C).
  - left. destruct C as [O C1 U1 (c & Ac & Eu) I'].
    destruct (aget (cm_next_call (cc_circ s)) (cc_active s)) as [c0|] eqn:E0; [|reflexivity]. exfalso.
    pose proof (A2 _ _ E0) as A0. apply after_call_same in A0. specialize (B (cm_next_call (cc_circ s)) c). rewrite Ac, N.eqb_refl in B.
    specialize (B eq_refl). rewrite E0 in B. cbn [present] in B. rewrite O in B. lia.
Qed.

Lemma floor_view_app log q : floor_view (log ++ q) = told (floor_view log) q.
Proof. unfold floor_view, told. now rewrite for_brew_app, fold_left_app. Qed.

Definition controls (l : list brew_in) : list call_ctl := flat_map (fun i => match i with InControl _ _ c => [c] | _ => [] end) l.
Definition queued (q : list sys_msg) : list call_ctl := flat_map (fun m => match m with QBrew c => [c] | QCmce _ => [] end) q.

Lemma cc_part_inl q : cc_part (map inl q) = q /\ brew_part (map inl q) = [].
Proof. induction q as [|m t [A B]]; [split; reflexivity|]. unfold cc_part, brew_part in *. cbn [map flat_map app]. now rewrite A, B. Qed.
Lemma brew_part_inr o : cc_part (map inr o) = [] /\ brew_part (map inr o) = o.
Proof. induction o as [|m t [A B]]; [split; reflexivity|]. unfold cc_part, brew_part in *. cbn [map flat_map app]. now rewrite A, B. Qed.
Lemma cc_part_app a b : cc_part (a ++ b) = cc_part a ++ cc_part b. Proof. apply flat_map_app. Qed.
Lemma brew_part_app a b : brew_part (a ++ b) = brew_part a ++ brew_part b. Proof. apply flat_map_app. Qed.
Lemma queued_app a b : queued (a ++ b) = queued a ++ queued b. Proof. apply flat_map_app. Qed.
Lemma queued_cc q : queued (cc_queue q) = for_brew q.
Proof. induction q as [|m t IH]; [reflexivity|]. unfold cc_queue, for_brew in *. cbn [flat_map]. rewrite queued_app, IH. now destruct m. Qed.
Lemma queued_brew o : queued (brew_queue o) = [].
Proof. induction o as [|m t IH]; [reflexivity|]. unfold brew_queue in *. cbn [flat_map]. rewrite queued_app, IH. now destruct m. Qed.

Record J (y : sys) (since : N -> nat) (log : list (cc_msg + brew_out)) (ids : list N) : Prop := {
  j_cc : history cfg 1023 (sy_cc y) since (cc_part log);
  j_floor : F cfg (floor_view (cc_part log)) (sy_cc y);
  j_turns : turns_ok (fun _ => None) (for_brew (cc_part log));
  j_brew : exists ins, be_run cfg lat ins brew_new = Ok (sy_brew y, brew_part log) /\ made_ids ins = ids /\
    controls ins ++ queued (sy_queue y) = for_brew (cc_part log) }.

Lemma F_new0 : F cfg (fun _ => None) cc_new.
Proof. constructor; cbn; easy. Qed.

Lemma J_cc y since log ids e s' q rest : J y since log ids -> queued rest = queued (sy_queue y) -> cc_step cfg e (sy_cc y) = Ok (s', q) ->
  no_takeover (sy_cc y) e -> no_expiry (sy_cc y) e ->
  (forall id c, call_of s' id = Some c -> (if present (call_of (sy_cc y) id) then since id + opens q else 0) < 1023) ->
  J (mk_sys s' (sy_brew y) (rest ++ cc_queue q)) (fun id => if present (call_of (sy_cc y) id) then since id + opens q else 0) (log ++ map inl q) ids.
Proof.
  intros [A B C (ins & D1 & D2 & D3)] QR E NT NE Bd. destruct (cc_part_inl q) as [P1 P2].
  pose proof (F_step cfg e _ _ _ _ _ (proj1 (history_inv _ _ _ _ A)) (W_reachable cfg _ (history_reachable _ _ _ _ _ A)) B (fresh_next _ _ _ _ _ _ A E Bd) NT NE E) as [G1 G2].
  constructor; cbn [sy_cc sy_brew sy_queue]; rewrite ?cc_part_app, ?brew_part_app, P1, ?P2, ?app_nil_r.
  - exact (history_step cfg 1023 _ _ _ _ _ _ A E Bd).
  - now rewrite floor_view_app.
  - rewrite for_brew_app, turns_app. split; [exact C|exact G2].
  - exists ins. split; [exact D1|]. split; [exact D2|]. rewrite queued_app, queued_cc, QR, for_brew_app, <- D3. apply app_assoc.
Qed.
Lemma J_brew y since log ids i s' o rest : J y since log ids -> be_step cfg lat i (sy_brew y) = Ok (s', o) ->
  controls [i] ++ queued rest = queued (sy_queue y) ->
  J (mk_sys (sy_cc y) s' (rest ++ brew_queue o)) since (log ++ map inr o) (ids ++ made_ids [i]).
Proof.
  intros [A B C (ins & D1 & D2 & D3)] E Q. destruct (brew_part_inr o) as [P1 P2].
  constructor; cbn [sy_cc sy_brew sy_queue]; rewrite ?cc_part_app, ?brew_part_app, P1, ?P2, ?app_nil_r; auto.
  exists (ins ++ [i]). split; [exact (run_snoc_ok cfg lat _ _ _ _ _ _ _ D1 E)|]. split.
  - unfold made_ids in *. now rewrite flat_map_app, D2.
  - rewrite queued_app, queued_brew, app_nil_r. unfold controls at 1. rewrite flat_map_app. fold (controls ins). fold (controls [i]).
    now rewrite <- app_assoc, Q.
Qed.
Lemma outside_controls i : from_outside (SeBrew i) = true -> controls [i] = [] /\ made_ids [i] = [].
Proof. destruct i; cbn; try discriminate; auto. Qed.

Lemma J_history y since log ids : sys_history cfg lat y since log ids -> J y since log ids.
Proof.
  induction 1 as [|y since log ids ev e y' o H IH O Ee E NT NE since' B|y since log ids ev y' o H IH O Ee E].
  - constructor; cbn; [constructor|apply F_new0|exact Logic.I|]. exists []. auto.
  - destruct ev as [e0|i|hint fresh]; cbn [cc_event_of] in Ee; cbn [sys_step] in E; [|discriminate|].
    + injection Ee as ->. unfold sys_cc in E. binv E. destruct x as [s' q]. injection E as <- <-. unfold since' in *. cbn [sy_cc] in B. rewrite (proj1 (cc_part_inl q)) in *.
      now apply (J_cc y since log ids e s' q (sy_queue y)).
    + destruct (sy_queue y) as [|[c|c] rest] eqn:Eq; try discriminate. injection Ee as <-. unfold sys_cc in E. binv E. destruct x as [s' q]. injection E as <- <-.
      unfold since' in *. cbn [sy_cc] in B. rewrite (proj1 (cc_part_inl q)) in *. apply (J_cc y since log ids (EvControl hint c) s' q rest); auto. now rewrite Eq.
  - destruct ev as [e0|i|hint fresh]; cbn [cc_event_of] in Ee; cbn [sys_step] in E; [discriminate| |].
    + unfold sys_brew in E. binv E. destruct x as [s' o']. injection E as <- <-. destruct (outside_controls i O) as [X Y].
      cbn [made_id]. rewrite <- Y. apply J_brew; auto. now rewrite X.
    + destruct (sy_queue y) as [|[c|c] rest] eqn:Eq; try discriminate.
      * injection E as <- <-. cbn [made_id]. rewrite Eq, !app_nil_r. exact IH.
      * unfold sys_brew in E. binv E. destruct x as [s' o']. injection E as <- <-.
        replace (made_id (SeDeliver hint fresh) y) with (made_ids [InControl hint fresh c]) by (unfold made_id; rewrite Eq; now destruct c).
        apply (J_brew y since log ids (InControl hint fresh c)); auto. now rewrite Eq.
Qed.

Lemma relayed_true l : turns_ok (fun _ => None) (controls l) -> forall ts id src dest, relayed cfg l ts = Some (id, src, dest) ->
  fold_left floor_after (controls l) (fun _ => None) ts = Some (id, src, dest) /\ brew_issi_routable cfg src = true.
Proof.
  induction l as [|i t IH] using rev_ind; [intros _ ts id src dest; discriminate|]. intros T.
  assert (CS : controls (t ++ [i]) = controls t ++ controls [i]) by apply flat_map_app. rewrite CS in T. apply turns_app in T. destruct T as [T1 T2].
  specialize (IH T1). intros ts id src dest. rewrite relayed_snoc, CS, fold_left_app. unfold relayed in IH.
  destruct (uplink_of cfg t) as [on v]. cbn [snd] in IH. set (w := fold_left floor_after (controls t) (fun _ => None)) in *.
  destruct i as [tm|reg hint hg jc e|hint jc|ex|hint fresh c|hint issi groups action|fresh sr de data|ts' bits]; try (apply IH).
  - destruct e; try (apply IH).
  - cbn [controls flat_map app fold_left] in *. destruct c as [| |id0 src0 dest0 ts0|id0 ts0|id0 ts0| | | |]; try (apply IH).
    + cbn [turns_ok] in T2. destruct T2 as [T2 _]. cbn [uplink_after snd floor_after]. destruct on; cbn [andb].
      * destruct (brew_issi_routable cfg src0) eqn:R; cbn [floor_after].
        -- destruct (ts =? ts0); [intros X; injection X as <- <- <-; auto|apply IH].
        -- destruct (Nat.eqb_spec ts ts0) as [->|]; [|apply IH]. intros X. apply IH in X. destruct X. congruence.
      * destruct (Nat.eqb_spec ts ts0) as [->|]; [|apply IH]. intros X. apply IH in X. destruct X. congruence.
    + cbn [uplink_after snd floor_after]. destruct (ts =? ts0); [discriminate|apply IH].
    + cbn [uplink_after snd floor_after]. destruct (ts =? ts0); [discriminate|apply IH].
Qed.

Theorem media_of_owner y since log ids ts bits y' o : sys_history cfg lat y since log ids -> NoDup ids -> all_delivered y ->
  sys_step cfg lat (SeBrew (InUlVoice ts bits)) y = Ok (y', o) ->
  o = [] \/ exists id c a u data,
    call_of (sy_cc y) id = Some c /\ ac_ts c = ts /\ radio_talks c /\ ac_origin c = OLocal a /\
    brew_gssi_routable cfg (ac_dest c) = true /\ brew_issi_routable cfg (ac_source c) = true /\
    ul_voice_to_ste bits = Ok (Some data) /\ announced u (ac_source c) (ac_dest c) (brew_part log) /\
    o = [inr (BoCmd (BcVoiceFrame u (N.of_nat (length data) * 8 mod 65536) data))].
Proof.
  intros H ND AD E. destruct (J_history _ _ _ _ H) as [A [B1 B2 B3] C (ins & D1 & D2 & D3)].
  assert (Q : queued (sy_queue y) = []).
  { unfold all_delivered in AD. clear -AD. induction (sy_queue y) as [|[c|c] t IH]; [reflexivity| |].
    - exfalso. apply (AD c). now left.
    - apply IH. intros x Hx. apply (AD x). now right. }
  rewrite Q, app_nil_r in D3. rewrite <- D2 in ND. destruct (uplink_exact cfg lat ins _ _ ts bits ND D1) as (frame & Ef & X).
  cbn [sys_step] in E. unfold sys_brew in E. binv E. destruct x as [s' o']. injection E as <- <-.
  destruct (relayed cfg ins ts) as [[[id src] dest]|] eqn:R.
  2:{ left. rewrite X in E0. injection E0 as <- <-. reflexivity. }
  destruct frame as [data|].
  2:{ left. rewrite X in E0. injection E0 as <- <-. reflexivity. }
  right. destruct X as (u & X1 & X2 & _). rewrite X1 in E0. injection E0 as <- <-.
  destruct (relayed_true ins) with (ts := ts) (id := id) (src := src) (dest := dest) as [V I]; [now rewrite D3|exact R|].
  rewrite D3 in V. fold (floor_view (cc_part log)) in V.
  destruct (existsb (fun p => ac_ts (snd p) =? ts) (cc_active (sy_cc y))) eqn:Ex.
  2:{ rewrite B2 in V; [discriminate|]. intros k c Hk Et. apply not_true_iff_false in Ex. apply Ex, existsb_exists. exists (k, c). split; [now apply aget_in|]. now apply Nat.eqb_eq. }
  apply existsb_exists in Ex. destruct Ex as ([k c] & Hin & Et). cbn [snd] in Et. apply Nat.eqb_eq in Et.
  apply in_aget in Hin; [|apply (w_nodup _ _ _ (W_reachable cfg _ (history_reachable _ _ _ _ _ A)))].
  rewrite <- Et, (B1 k c Hin) in V. destruct (heard cfg c) eqn:Eh; [|discriminate]. injection V as <- <- <-.
  unfold heard in Eh. apply andb_true_iff in Eh. destruct Eh as [Eh E4]. apply andb_true_iff in Eh. destruct Eh as [Eh E3]. apply andb_true_iff in Eh. destruct Eh as [E1 E2].
  destruct (ac_origin c) as [a|] eqn:Eo; [|discriminate]. exists k, c, a, u, data. unfold radio_talks. destruct (ac_uuid c); [discriminate|]. repeat split; auto.
Qed.
End Config.

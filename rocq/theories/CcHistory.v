(** Call control: histories, identifiers, and the facts behind the theorems C35, C36 and C37. *)
From Verif Require Import Base BitBuffer Codec AMap AMapOrder AMapOrderProofs TdmaTime TimeslotAlloc MacFields UmacCircuits CmceFields CmcePdus BrewRoute
  CircuitMgr CallControl CcSpec CcProofs CcInv.
Open Scope nat_scope.

(** ** Counting identifiers *)

(** [next] is what the counter shows [n] steps after it handed out [id]. *)
Definition after_call (id : N) (n : nat) (next : N) : Prop :=
  (1 <= id <= 1023 /\ 1 <= next <= 1023 /\ next - 1 = (id + N.of_nat n) mod 1023)%N.
Definition after_usage (u : N) (n : nat) (next : N) : Prop :=
  (4 <= u <= 63 /\ 4 <= next <= 63 /\ next - 4 = (u - 3 + N.of_nat n) mod 60)%N.

Lemma mod_succ (x m r : N) : (1 < m -> r = x mod m -> (x + 1) mod m = if r + 1 =? m then 0 else r + 1)%N.
Proof.
  intros Hm ->. rewrite N.add_mod by lia. pose proof (N.mod_lt x m ltac:(lia)) as L. rewrite (N.mod_small 1 m) by lia. destruct (N.eqb_spec (x mod m + 1) m) as [E|E].
  - rewrite E. apply N.mod_same. lia.
  - apply N.mod_small. lia.
Qed.
Lemma after_call_new id : (1 <= id <= 1023)%N -> after_call id 0 (succ_call id).
Proof.
  intros H. unfold after_call, succ_call. destruct (N.ltb_spec 0x3FF (id + 1)); change (N.of_nat 0) with 0%N; rewrite N.add_0_r.
  - replace id with 1023%N by lia. repeat split; try lia.
  - rewrite N.mod_small by lia. lia.
Qed.
Lemma after_call_step id n next : after_call id n next -> after_call id (n + 1) (succ_call next).
Proof.
  intros (A & B & C). unfold after_call. pose proof (mod_succ (id + N.of_nat n) 1023 (next - 1) ltac:(lia) C) as M.
  replace (id + N.of_nat (n + 1))%N with (id + N.of_nat n + 1)%N by lia. rewrite M. unfold succ_call.
  destruct (N.ltb_spec 0x3FF (next + 1)), (N.eqb_spec (next - 1 + 1) 1023); repeat split; lia.
Qed.
Lemma after_call_same id n : after_call id n id -> 1022 <= n.
Proof.
  intros (A & B & C). destruct (Nat.le_gt_cases 1022 n) as [|L]; [assumption|]. exfalso.
  destruct (N.lt_ge_cases (id + N.of_nat n) 1023) as [L'|L'].
  - rewrite N.mod_small in C by lia. lia.
  - replace (id + N.of_nat n)%N with ((id + N.of_nat n - 1023) + 1 * 1023)%N in C by lia. rewrite N.mod_add in C by lia. rewrite N.mod_small in C by lia. lia.
Qed.
Lemma after_call_id id id' n next : after_call id n next -> after_call id' n next -> id = id'.
Proof.
  intros (A & B & C) (A' & B' & C'). rewrite C in C'. clear B B' C.
  pose proof (N.div_mod (id + N.of_nat n) 1023 ltac:(lia)). pose proof (N.div_mod (id' + N.of_nat n) 1023 ltac:(lia)). rewrite C' in H.
  set (a := ((id + N.of_nat n) / 1023)%N) in *. set (b := ((id' + N.of_nat n) / 1023)%N) in *. clearbody a b. lia.
Qed.
Lemma after_usage_new u : (4 <= u <= 63)%N -> after_usage u 0 (succ_usage u).
Proof.
  intros H. unfold after_usage, succ_usage. destruct (N.ltb_spec 63 (u + 1)); change (N.of_nat 0) with 0%N; rewrite N.add_0_r.
  - replace u with 63%N by lia. repeat split; try lia.
  - rewrite N.mod_small by lia. lia.
Qed.
Lemma after_usage_step u n next : after_usage u n next -> after_usage u (n + 1) (succ_usage next).
Proof.
  intros (A & B & C). unfold after_usage. pose proof (mod_succ (u - 3 + N.of_nat n) 60 (next - 4) ltac:(lia) C) as M.
  replace (u - 3 + N.of_nat (n + 1))%N with (u - 3 + N.of_nat n + 1)%N by lia. rewrite M. unfold succ_usage.
  destruct (N.ltb_spec 63 (next + 1)), (N.eqb_spec (next - 4 + 1) 60); repeat split; lia.
Qed.
Lemma after_usage_count u n n' next : after_usage u n next -> after_usage u n' next -> n < 60 -> n' < 60 -> n = n'.
Proof.
  intros (A & B & C) (A' & B' & C') L L'. rewrite C in C'. clear B B' C.
  pose proof (N.div_mod (u - 3 + N.of_nat n) 60 ltac:(lia)). pose proof (N.div_mod (u - 3 + N.of_nat n') 60 ltac:(lia)). rewrite C' in H.
  set (a := ((u - 3 + N.of_nat n) / 60)%N) in *. set (b := ((u - 3 + N.of_nat n') / 60)%N) in *. clearbody a b. lia.
Qed.

(** ** Histories *)
Lemma history_reachable cfg K s since log : history cfg K s since log -> reachable cfg s.
Proof. induction 1; [constructor|econstructor; eassumption]. Qed.
Lemma history_le cfg K K' s since log : K <= K' -> history cfg K s since log -> history cfg K' s since log.
Proof.
  intros L. induction 1 as [|s since log e s' q H IH E since' B]; [constructor|]. apply (history_step cfg K' s since log e s' q IH E).
  intros id c Hc. specialize (B id c Hc). unfold since' in B. lia.
Qed.

Record Ages (s : cc) (since : N -> nat) : Prop := {
  ag_next : (1 <= cm_next_call (cc_circ s) <= 1023 /\ 4 <= cm_next_usage (cc_circ s) <= 63)%N;
  ag_call : forall id c, aget id (cc_active s) = Some c -> after_call id (since id) (cm_next_call (cc_circ s));
  ag_usage : forall id c, aget id (cc_active s) = Some c -> after_usage (ac_usage c) (since id) (cm_next_usage (cc_circ s)) }.

Lemma history_inv cfg s since log : history cfg 1023 s since log -> Inv (umac_view log) s /\ Ages s since.
Proof.
  induction 1 as [|s since log e s' q H IH E since' B].
  - split; [apply Inv_new|]. constructor; [cbn; lia|easy|easy].
  - destruct IH as [I A]. pose proof (W_reachable cfg s (history_reachable _ _ _ _ _ H)) as Hw. rewrite umac_view_app.
    destruct (step_effect cfg e _ s s' q I Hw E) as [C|C].
    + split; [apply (ca_inv _ _ _ _ C)|]. destruct A as [A1 A2 A3]. constructor.
      * now rewrite (ca_call _ _ _ _ C), (ca_usage _ _ _ _ C).
      * intros id c Hc. destruct (ca_sub _ _ _ _ C _ _ Hc) as (c0 & H0 & _). unfold since'. rewrite H0. cbn [present].
        rewrite (ca_opens _ _ _ _ C), Nat.add_0_r, (ca_call _ _ _ _ C). now apply (A2 id c0).
      * intros id c Hc. destruct (ca_sub _ _ _ _ C _ _ Hc) as (c0 & H0 & _ & Eu & _). unfold since'. rewrite H0. cbn [present].
        rewrite (ca_opens _ _ _ _ C), Nat.add_0_r, (ca_usage _ _ _ _ C), Eu. now apply (A3 id c0).
    + destruct C as [O C1 U1 (c & Ac & Eu) I']. destruct A as [A1 A2 A3].
      assert (Fresh : aget (cm_next_call (cc_circ s)) (cc_active s) = None).
      { destruct (aget (cm_next_call (cc_circ s)) (cc_active s)) as [c0|] eqn:E0; [|reflexivity]. exfalso.
        pose proof (A2 _ _ E0) as A0. apply after_call_same in A0. specialize (B (cm_next_call (cc_circ s)) c). rewrite Ac, N.eqb_refl in B.
        specialize (B eq_refl). unfold since' in B. rewrite E0 in B. cbn [present] in B. rewrite O in B. lia. }
      split; [now apply I'|]. constructor.
      * rewrite C1, U1. unfold succ_call, succ_usage.
        destruct (N.ltb_spec 0x3FF (cm_next_call (cc_circ s) + 1)), (N.ltb_spec 63 (cm_next_usage (cc_circ s) + 1)); lia.
      * intros id x. rewrite Ac, C1. unfold since'. destruct (N.eqb_spec id (cm_next_call (cc_circ s))) as [->|Ni]; intros Hx.
        -- rewrite Fresh. cbn [present]. apply after_call_new, A1.
        -- rewrite Hx. cbn [present]. rewrite O. apply after_call_step. now apply (A2 id x).
      * intros id x. rewrite Ac, U1. unfold since'. destruct (N.eqb_spec id (cm_next_call (cc_circ s))) as [->|Ni]; intros Hx.
        -- rewrite Fresh. cbn [present]. injection Hx as <-. rewrite Eu. apply after_usage_new, A1.
        -- rewrite Hx. cbn [present]. rewrite O. apply after_usage_step. now apply (A3 id x).
Qed.
Lemma history_bound cfg K s since log : history cfg K s since log -> forall id c, aget id (cc_active s) = Some c -> since id < K.
Proof. destruct 1; [easy|assumption]. Qed.

(** ** C35 *)
Lemma owner_slot s i : i < 3 -> ts_owner_of (cc_slots s) (i + 2) = slot_of s i.
Proof.
  intros H. unfold ts_owner_of, ts_idx. destruct (Nat.leb_spec 2 (i + 2)); [|lia]. destruct (Nat.leb_spec (i + 2) 4); [|lia]. cbn [andb].
  now replace (i + 2 - 2) with i by lia.
Qed.
Lemma owner_some s ts o : ts_owner_of (cc_slots s) ts = Some o -> exists i, i < 3 /\ ts = i + 2 /\ slot_of s i = Some o.
Proof.
  unfold ts_owner_of, ts_idx. destruct (Nat.leb_spec 2 ts); [|discriminate]. destruct (Nat.leb_spec ts 4); [|discriminate]. cbn [andb].
  intros E. exists (ts - 2). split; [lia|]. split; [lia|exact E].
Qed.

Lemma Inv_coherent v s : Inv v s -> keys s -> coherent s.
Proof.
  intros I K. constructor; unfold call_of.
  - intros id. specialize (K id). destruct (aget id (cc_active s)), (aget id (cc_cached s)); try discriminate; split; congruence.
  - apply (i_cached _ _ I).
  - intros id c H. destruct (i_call _ _ I _ _ H) as (i & ci & Hi & -> & Si & _). now rewrite owner_slot.
  - intros id c H. destruct (i_call _ _ I _ _ H) as (i & ci & Hi & Ei & Si & Di & Ec & Eu). exists ci.
    destruct (i_circ _ _ I _ _ Di) as (T & D & _). rewrite Ei. replace (i + 2) with (S (S i)) by lia. rewrite circuit_on_dl. auto.
  - intros id id' c c'. apply (Inv_distinct v s id id' c c' I).
  - intros ts H. apply owner_some in H. destruct H as (i & Hi & -> & Si). destruct (i_slot _ _ I _ _ Si) as [_ D].
    destruct (dl_of s (S i)) as [ci|] eqn:E; [|easy]. destruct (i_circ _ _ I _ _ E) as (_ & _ & c & Hc & Et). exists (ci_call ci), c. split; [assumption|lia].
  - intros [|ts] ci L; [lia|]. rewrite circuit_on_dl. intros H. now destruct (i_circ _ _ I _ _ H) as (_ & _ & Hc).
Qed.

Lemma calls_coherent : forall cfg s since log, history cfg 1023 s since log -> coherent s.
Proof.
  intros cfg s since log H. apply (Inv_coherent (umac_view log)); [apply (history_inv cfg s since log H)|].
  apply (w_keys [] []), (W_reachable cfg), (history_reachable _ _ _ _ _ H).
Qed.

Lemma call_end_releases : forall cfg s since log e s' q id c,
  history cfg 1023 s since log -> cc_step cfg e s = Ok (s', q) -> call_of s id = Some c -> call_of s' id = None ->
  ts_owner_of (cc_slots s') (ac_ts c) = None /\ circuit_on s' (ac_ts c) = None /\ release_sent id c q.
Proof.
  intros cfg s since log e s' q id c H E Hc Hn. unfold call_of in *. destruct (history_inv cfg s since log H) as [I A].
  destruct (step_effect cfg e _ s s' q I (W_reachable cfg s (history_reachable _ _ _ _ _ H)) E) as [C|[_ _ _ (c0 & Ac & _) _]].
  - pose proof (ca_inv _ _ _ _ C) as I'.
    assert (X : forall i ci, i + 2 = ac_ts c -> dl_of s' (S i) = Some ci -> False).
    { intros i ci Ei D. destruct (i_circ _ _ I' _ _ D) as (_ & _ & c' & Hc' & Et). destruct (ca_sub _ _ _ _ C _ _ Hc') as (c1 & H1 & E1 & _).
      assert (ci_call ci = id) by (apply (Inv_distinct _ s _ _ c1 c I H1 Hc); lia). congruence. }
    destruct (i_call _ _ I _ _ Hc) as (i & ci & Hi & Ei & _). split; [|split].
    + rewrite Ei, owner_slot by assumption. destruct (slot_of s' i) as [o|] eqn:Es; [|reflexivity]. exfalso.
      destruct (i_slot _ _ I' _ _ Es) as [_ D]. destruct (dl_of s' (S i)) as [cj|] eqn:Ed; [|easy]. now apply (X i cj).
    + rewrite Ei. replace (i + 2) with (S (S i)) by lia. rewrite circuit_on_dl. destruct (dl_of s' (S i)) as [cj|] eqn:Ed; [|reflexivity]. exfalso. now apply (X i cj).
    + apply (ca_gone _ _ _ _ C _ _ Hc Hn).
  - exfalso. rewrite Ac in Hn. destruct (_ =? _)%N; [discriminate|congruence].
Qed.

Lemma umac_agrees : forall cfg s since log, history cfg 1023 s since log ->
  forall ts, 1 <= ts -> umac_view log ts = option_map ci_usage (circuit_on s ts).
Proof.
  intros cfg s since log H [|ts] L; [lia|]. destruct (history_inv cfg s since log H) as [I _]. rewrite (i_view _ _ I), circuit_on_dl. reflexivity.
Qed.

(** ** C37 *)
Lemma identifiers_distinct : forall cfg s since log, history cfg 1023 s since log -> ids_distinct s.
Proof.
  intros cfg s since log H [|ts] [|ts'] c c' L L' D D' E; try lia. rewrite circuit_on_dl in D, D'. destruct (history_inv cfg s since log H) as [I _].
  destruct (i_circ _ _ I _ _ D) as (_ & _ & x & Hx & Ex). destruct (i_circ _ _ I _ _ D') as (_ & _ & y & Hy & Ey). rewrite E in Hx. congruence.
Qed.
Lemma markers_distinct : forall cfg s since log, history cfg 60 s since log -> usages_distinct s.
Proof.
  intros cfg s since log H [|ts] [|ts'] c c' L L' D D' E; try lia. rewrite circuit_on_dl in D, D'.
  pose proof (history_bound _ _ _ _ _ H) as B. apply (history_le cfg 60 1023) in H; [|lia]. destruct (history_inv cfg s since log H) as [I [_ A2 A3]].
  destruct (i_circ _ _ I _ _ D) as (_ & _ & x & Hx & Ex). destruct (i_circ _ _ I _ _ D') as (_ & _ & y & Hy & Ey).
  assert (U : forall i ci z, dl_of s i = Some ci -> aget (ci_call ci) (cc_active s) = Some z -> ac_ts z = S i -> ac_usage z = ci_usage ci).
  { intros i ci z Hi Hz Ez. destruct (i_call _ _ I _ _ Hz) as (j & cj & _ & Ej & _ & Dj & _ & Eu). assert (i = S j) by lia. subst i. congruence. }
  pose proof (A3 _ _ Hx) as Ux. pose proof (A3 _ _ Hy) as Uy. rewrite (U _ _ _ D Hx Ex) in Ux. rewrite (U _ _ _ D' Hy Ey) in Uy. rewrite <- E in Uy.
  pose proof (after_usage_count _ _ _ _ Ux Uy (B _ _ Hx) (B _ _ Hy)) as En.
  pose proof (A2 _ _ Hx) as Cx. pose proof (A2 _ _ Hy) as Cy. rewrite En in Cx. pose proof (after_call_id _ _ _ _ Cx Cy) as Ei. rewrite Ei in Hx. congruence.
Qed.

(** ** C36 *)
Lemma hang_no_speaker : forall cfg s id c, reachable cfg s -> call_of s id = Some c -> (ac_hang c <> None <-> ac_tx c = false).
Proof.
  intros cfg s id c H Hc. rewrite (w_floor _ _ _ (W_reachable cfg s H) id c Hc). destruct (ac_hang c); cbn; split; congruence.
Qed.

Lemma count_listened g m : NoDup (akeys m) -> 0 < count g m -> exists issi l, aget issi m = Some l /\ In g l.
Proof.
  intros ND. unfold count. destruct (filter _ m) as [|[i l] t] eqn:E; cbn; [lia|]. intros _.
  assert (H : In (i, l) (filter (fun p => memN g (snd p)) m)) by (rewrite E; now left). apply filter_In in H. cbn [snd] in H.
  exists i, l. split; [apply in_aget; [assumption|apply H]|now apply memN_true].
Qed.
Lemma listened_count g m : (exists issi l, aget issi m = Some l /\ In g l) -> 0 < count g m.
Proof.
  intros (i & l & H1 & H2). unfold count. apply aget_in in H1. apply memN_true in H2.
  assert (X : In (i, l) (filter (fun p => memN g (snd p)) m)) by (apply filter_In; auto). destruct (filter _ m); [destruct X|cbn; lia].
Qed.
Lemma listened_has G s g : W G [] s -> listened s g <-> has_listener g s = true.
Proof.
  intros H. pose proof (w_count _ _ _ H g) as C. rewrite (has_listener_nz _ _ _ C), Nat.ltb_lt. cbn [occ count_occ]. rewrite Nat.add_0_r. split.
  - apply listened_count.
  - apply count_listened, (w_subs _ _ _ H).
Qed.

Lemma active_listened : forall cfg s id c, reachable cfg s -> call_of s id = Some c -> listened s (ac_dest c).
Proof.
  intros cfg s id c H Hc. pose proof (W_reachable cfg s H) as Hw. apply (listened_has [] s _ Hw).
  destruct (w_listen _ _ _ Hw id c Hc) as [Hl|[]]; exact Hl.
Qed.

Lemma tick_releases : forall cfg s since log hint t s' q id c h a,
  history cfg 1023 s since log -> cc_step cfg (EvTick hint t) s = Ok (s', q) -> call_of s id = Some c ->
  ac_hang c = Some h -> age h t = Ok a -> (360 < a)%Z -> call_of s' id = None.
Proof.
  intros cfg s since log hint t s' q id c h a H E Hc Hh Ha L. unfold call_of in *. destruct (history_inv cfg s since log H) as [I _].
  destruct (tick_calm cfg hint t _ s s' q I (W_reachable cfg s (history_reachable _ _ _ _ _ H)) E) as [_ T].
  destruct (T id c Hc) as [(_ & N & _)|[Hn _]]; [|assumption]. destruct N. exists h, a. auto.
Qed.
Lemma tick_keeps : forall cfg s since log hint t s' q id c,
  history cfg 1023 s since log -> cc_step cfg (EvTick hint t) s = Ok (s', q) -> call_of s id = Some c ->
  (forall h a, ac_hang c = Some h -> age h t = Ok a -> (a <= 360)%Z) ->
  (forall ci a, circuit_on s (ac_ts c) = Some ci -> age (ci_created ci) t = Ok a -> (a <= 25920)%Z) -> call_of s' id = Some c.
Proof.
  intros cfg s since log hint t s' q id c H E Hc Hh Hci. unfold call_of in *. destruct (history_inv cfg s since log H) as [I _].
  destruct (tick_calm cfg hint t _ s s' q I (W_reachable cfg s (history_reachable _ _ _ _ _ H)) E) as [_ T].
  destruct (T id c Hc) as [(Hs & _)|[_ [(h & a & X1 & X2 & X3)|(_ & ci & a & X1 & X2 & X3)]]]; [assumption| |].
  - specialize (Hh h a X1 X2). lia.
  - specialize (Hci ci a X1 X2). lia.
Qed.

(** Nothing but these events ends a call. *)
Lemma released_gone D s s' id c : released D s s' -> aget id (cc_active s) = Some c -> aget id (cc_active s') = None -> D id = true.
Proof. intros R Hc Hn. rewrite (rl_active _ _ _ R) in Hn. destruct (D id); [reflexivity|congruence]. Qed.
Lemma kept_call id0 c0 (m : amap active_call) id c : aget id m = Some c -> aget id (aset id0 c0 m) = None -> False.
Proof. rewrite aget_aset. destruct (id =? id0)%N; congruence. Qed.

Lemma update_gone cfg hg hint issi groups action s s' q id c : W [] [] s -> subscriber_update cfg hg hint issi groups action s = Ok (s', q) ->
  aget id (cc_active s) = Some c -> aget id (cc_active s') = None -> has_listener (ac_dest c) s' = false.
Proof.
  intros H E Hc Hn.
  (* a group without listeners stays without until the update is over *)
  assert (X : forall l (g0 : N -> amap N -> amap N) s s' q, keys s -> NoDup (akeys (cc_active s)) ->
    (forall g m x, match aget x m with Some n => (0 <? n)%N | None => false end = false -> match aget x (g0 g m) with Some n => (0 <? n)%N | None => false end = false) ->
    each (fun g => fun s => drop_unlistened cfg hint g (cc_set_listeners (g0 g (cc_listeners s)) s)) l s = Ok (s', q) ->
    (forall x, has_listener x s = false -> has_listener x s' = false) /\
    (forall id c, aget id (cc_active s) = Some c -> aget id (cc_active s') = None -> has_listener (ac_dest c) s' = false)).
  { clear. induction l as [|g t IH]; intros g0 s s' q K ND M E; cbn [each] in E.
    - injection E as <- <-. split; [auto|congruence].
    - apply andthen_ok in E. destruct E as (s1 & q1 & q2 & E1 & E2 & ->). set (sa := cc_set_listeners (g0 g (cc_listeners s)) s) in *.
      pose proof (drop_released cfg hint g sa s1 q1 K ND E1) as R.
      assert (K1 : keys s1) by (exact (released_keys _ sa s1 K R)). assert (ND1 : NoDup (akeys (cc_active s1))) by (now apply (rl_nodup _ _ _ R)).
      destruct (IH g0 s1 s' q2 K1 ND1 M E2) as [IH1 IH2].
      assert (L1 : forall x, has_listener x sa = false -> has_listener x s1 = false) by (intros x; unfold has_listener; now rewrite (rl_listeners _ _ _ R)).
      split.
      + intros x Hx. apply IH1, L1. unfold has_listener in *. apply M, Hx.
      + intros id c Hc Hn. destruct (aget id (cc_active s1)) as [c1|] eqn:E3.
        * rewrite (rl_active _ _ _ R) in E3. change (cc_active sa) with (cc_active s) in E3. rewrite Hc in E3.
          destruct (negb (has_listener g sa) && (ac_dest c =? g)%N) eqn:EB; [discriminate|]. injection E3 as <-.
          apply (IH2 id c); [|assumption]. rewrite (rl_active _ _ _ R). change (cc_active sa) with (cc_active s). now rewrite Hc, EB.
        * rewrite (rl_active _ _ _ R) in E3. change (cc_active sa) with (cc_active s) in E3. rewrite Hc in E3.
          destruct (negb (has_listener g sa) && (ac_dest c =? g)%N) eqn:EB; [|congruence]. apply andb_true_iff in EB. destruct EB as [B1 B2].
          apply negb_true_iff in B1. apply N.eqb_eq in B2. rewrite B2. now apply IH1, L1. }
  destruct H as [ND K _ _ _ _ _].
  destruct action; cbn [subscriber_update] in E.
  - destruct (aget issi (cc_subs s)); injection E as <- <-; cbn in Hn; congruence.
  - destruct (aget issi (cc_subs s)) as [ex|]; [|injection E as <- <-; congruence].
    apply (X _ (fun g m => dec_listener m g)) in E; [apply (proj2 E id c); assumption|exact K|exact ND|].
    clear. intros g m x Hx. unfold dec_listener. destruct (aget g m) as [n|] eqn:Eg; [|exact Hx]. destruct (N.leb_spec n 1).
    + rewrite aget_adel. now destruct (x =? g)%N.
    + rewrite aget_aset. destruct (N.eqb_spec x g) as [->|]; [|exact Hx]. rewrite Eg in Hx. apply N.ltb_ge in Hx. lia.
  - destruct (insert_groups _ _). injection E as <- <-. cbn in Hn. congruence.
  - assert (Y : forall l s s' q, keys s -> NoDup (akeys (cc_active s)) -> each (drop_unlistened cfg hint) l s = Ok (s', q) ->
      forall id c, aget id (cc_active s) = Some c -> aget id (cc_active s') = None -> has_listener (ac_dest c) s' = false).
    { clear - X. intros l s s' q K ND E. apply (X l (fun _ m => m) s s' q K ND); [auto|].
      rewrite <- E. clear. revert s. induction l as [|g t IH]; intros s; [reflexivity|]. cbn [each]. unfold andthen.
      replace (cc_set_listeners (cc_listeners s) s) with s by (now destruct s).
      destruct (drop_unlistened cfg hint g s) as [[s1 q1]| |]; cbn [bind]; try reflexivity. now rewrite IH. }
    destruct (aget issi (cc_subs s)) as [entry|].
    + destruct (remove_groups groups entry) as [l' gone]. apply (Y _ _ _ _) with (id := id) (c := c) in E; assumption.
    + apply (Y _ _ _ _) with (id := id) (c := c) in E; assumption.
Qed.

Lemma call_end_reason : forall cfg s since log e s' q id c,
  history cfg 1023 s since log -> cc_step cfg e s = Ok (s', q) -> call_of s id = Some c -> call_of s' id = None -> end_reason s s' id c e.
Proof.
  intros cfg s since log e s' q id c H E Hc Hn. unfold call_of in *. destruct (history_inv cfg s since log H) as [I _].
  pose proof (W_reachable cfg s (history_reachable _ _ _ _ _ H)) as Hw. pose proof (w_keys _ _ _ Hw) as K.
  destruct e as [hint t|i|hint x|hg hint issi groups action]; cbn [cc_step] in E.
  - destruct (tick_calm cfg hint t _ s s' q I Hw E) as [_ T]. destruct (T id c Hc) as [(Hs & _)|[_ [(h & a & X1 & X2 & X3)|(_ & ci & a & X1 & X2 & X3)]]]; [congruence| |].
    + now apply (end_hangtime s s' id c hint t h a).
    + now apply (end_expiry s s' id c hint t ci a).
  - unfold cc_rx_ind in E. binv E. destruct x as [t|]; [|congruence]. destruct (memN t _); [|congruence]. unfold route_xx_deliver in E. binv E.
    destruct x as [t'|]; [|congruence]. destruct (negb (ul_type_known t')); [congruence|]. unfold parsed in E.
    repeat match type of E with (if ?b then _ else _) = _ => destruct b end; try congruence; try discriminate;
      match type of E with match ?r with _ => _ end = _ => destruct r as [[p b]| |] eqn:Ep end; try congruence; try discriminate.
    + destruct (setup_u cfg i p _ s s' q I E) as [C|[_ _ _ (c0 & Ac & _) _]].
      * exfalso. clear -E Hc Hn. unfold rx_u_setup in E. destruct (negb (feature_check p)); [congruence|].
        destruct (u_setup_called_party_ssi p) as [dest|]; [|congruence]. destruct (negb (has_listener dest s)); [congruence|].
        binv E. destruct x as [[r m] slots]. destruct r as [ci|e].
        -- binv E. binv E. binv E. injection E as <- <-. now apply (kept_call _ _ _ _ _ Hc) in Hn.
        -- injection E as <- <-. cbn in Hn. congruence.
      * exfalso. rewrite Ac in Hn. destruct (_ =? _)%N; congruence.
    + exfalso. clear -E Hc Hn. unfold rx_u_tx_ceased in E. destruct (aget _ (cc_active s)) as [c0|]; [|congruence]. destruct (_ && _); [congruence|].
      destruct (aget _ (cc_cached _)) as [[d a]|]; [binv E|]; injection E as <- <-; now apply (kept_call _ _ _ _ _ Hc) in Hn.
    + exfalso. clear -E Hc Hn. unfold rx_u_tx_demand in E. destruct (aget _ (cc_active s)) as [c0|]; [|congruence]. destruct (ac_tx c0); [congruence|].
      destruct (aget _ (cc_cached _)) as [[d a]|].
      * binv E. binv E. destruct x0 as [s1 q1]. apply tx_granted_same in E1. subst s1. injection E as <- <-. now apply (kept_call _ _ _ _ _ Hc) in Hn.
      * injection E as <- <-. now apply (kept_call _ _ _ _ _ Hc) in Hn.
    + pose proof (released_gone _ s s' id c (release_released cfg _ _ s s' q K E) Hc Hn) as Ei. apply N.eqb_eq in Ei.
      now apply (end_release s s' id c i p b).
    + unfold rx_u_disconnect in E. destruct (aget (u_disconnect_call_identifier p) (cc_active s)) as [c0|] eqn:Ed; [|congruence].
      destruct (match ac_origin c0 with OLocal a => (ad_ssi a =? ad_ssi (mi_addr i))%N | ONetwork _ => false end) eqn:Eo; [|binv E; congruence].
      pose proof (released_gone _ s s' id c (release_released cfg _ _ s s' q K E) Hc Hn) as Ei. apply N.eqb_eq in Ei. rewrite Ei in Ed.
      assert (c0 = c) by congruence. subst c0. destruct (ac_origin c) as [a|] eqn:Ea; [|discriminate]. apply N.eqb_eq in Eo.
      now apply (end_disconnect s s' id c i p b a).
  - destruct x; cbn [rx_call_control] in E; try (unfold nothing in E; congruence).
    + exfalso. unfold rx_network_call_start in E. binv E. destruct (has_listener dest s) eqn:Hl; cbn [negb] in E.
      * destruct (find _ _) as [[k c0]|] eqn:Ef.
        -- destruct (ac_tx c0).
           ++ apply brew_same in E. destruct E as [-> _]. congruence.
           ++ apply andthen_ok in E. destruct E as (s1 & q1 & q2 & E1 & E2 & _). apply tx_granted_same in E1. subst s1.
              apply andthen_ok in E2. destruct E2 as (s1 & q3 & q4 & E1 & E2 & _). apply umac_same in E1. destruct E1 as [-> _].
              apply brew_same in E2. destruct E2 as [-> _]. now apply (kept_call _ _ _ _ _ Hc) in Hn.
        -- binv E. destruct x0 as [[r m] slots]. destruct r as [ci|e].
           ++ binv E. binv E. injection E as <- <-. now apply (kept_call _ _ _ _ _ Hc) in Hn.
           ++ injection E as <- <-. cbn in Hn. congruence.
      * apply andthen_ok in E. destruct E as (s1 & q1 & q2 & E1 & E2 & _). apply brew_same in E2. destruct E2 as [-> _].
        pose proof (released_gone _ s s1 id c (drop_released cfg hint dest s s1 q1 K (w_nodup _ _ _ Hw) E1) Hc Hn) as Ei. cbv beta in Ei. rewrite Hc in Ei.
        apply andb_true_iff in Ei. destruct Ei as [_ Ed]. apply N.eqb_eq in Ed. destruct (w_listen _ _ _ Hw id c Hc) as [Hl'|[]]. congruence.
    + unfold rx_network_call_end in E. destruct (find _ _) as [[k c0]|] eqn:Ef; [|congruence].
      apply find_some_in in Ef; [|apply (w_nodup _ _ _ Hw)]. destruct Ef as [Ec Eu]. cbn [snd] in Eu. destruct (ac_tx c0) eqn:Et.
      * exfalso. apply andthen_ok in E. destruct E as (s1 & q1 & q2 & E1 & E2 & _). apply tx_ceased_same in E1. subst s1. apply umac_same in E2. destruct E2 as [-> _].
        now apply (kept_call _ _ _ _ _ Hc) in Hn.
      * pose proof (released_gone _ s s' id c (release_released cfg _ _ s s' q K E) Hc Hn) as Ei. apply N.eqb_eq in Ei. subst k.
        assert (c0 = c) by congruence. subst c0. apply (end_network s s' id c hint uuid); [|assumption].
        destruct (ac_uuid c) as [u|]; [|discriminate]. cbn in Eu. apply N.eqb_eq in Eu. now subst u.
    + exfalso. unfold ul_inactivity in E. destruct (find _ _) as [[k c0]|] eqn:Ef; [|congruence].
      apply andthen_ok in E. destruct E as (s1 & q1 & q2 & E1 & E2 & _). apply tx_ceased_same in E1. subst s1.
      apply andthen_ok in E2. destruct E2 as (s1 & q3 & q4 & E1 & E2 & _). apply umac_same in E1. destruct E1 as [-> _].
      apply when_brew_same in E2. destruct E2 as [-> _]. now apply (kept_call _ _ _ _ _ Hc) in Hn.
  - apply end_unlistened. pose proof (update_gone cfg hg hint issi groups action s s' q id c Hw E Hc Hn) as Hl.
    rewrite (listened_has [] s' _ (W_update _ _ _ _ _ _ _ _ _ Hw E)). congruence.
Qed.

(** ** Taking the floor *)
Lemma field_peek n b x b' : read_field n b = Ok (x, b') -> peek_bits b n = Ok (Some x).
Proof.
  unfold read_field, read_bits_opt, peek_bits, peek_bits_posoffset. intros H. binv H. destruct x0 as [ov b1]. binv E. rewrite E0. cbn [bind].
  rewrite Nat.add_0_r. binv E. rewrite E1. destruct x1; injection E as <- <-; [|discriminate]. congruence.
Qed.

Lemma demand_routed cfg i p b s : u_tx_demand_from_bitbuf (mi_sdu i) = Ok (p, b) -> cc_step cfg (EvUplink i) s = rx_u_tx_demand cfg i p s.
Proof.
  intros H. assert (T : peek_bits (mi_sdu i) 5 = Ok (Some Ul_UTxDemand)).
  { unfold u_tx_demand_from_bitbuf in H. unfold rbind at 1, rfield at 1 in H. binv H. destruct x as [t b1]. apply field_peek in E. rewrite E.
    unfold rbind at 1 in H. binv H. cbn [fst snd] in E0. unfold rguard in E0. destruct (N.eqb_spec t Ul_UTxDemand) as [->|]; [reflexivity|discriminate]. }
  cbn [cc_step]. unfold cc_rx_ind. rewrite T. cbn [bind]. unfold Ul_UTxDemand at 1. cbn [memN existsb N.eqb Pos.eqb orb].
  change (memN 10%N _) with true. cbv iota. unfold route_xx_deliver. rewrite T. cbn [bind]. change (ul_type_known Ul_UTxDemand) with true. cbn [negb].
  change (Ul_UTxDemand =? Ul_USetup)%N with false. change (Ul_UTxDemand =? Ul_UTxCeased)%N with false. rewrite N.eqb_refl. cbv iota. unfold parsed. now rewrite H.
Qed.

(** Call control: floor control, examples and the histories that break the full statements. *)
From Coq Require Import String.
From Verif Require Import Base BitBuffer BitBufferProofs BitBufferOps Codec AMap AMapOrder AMapOrderProofs TdmaTime TimeslotAlloc MacFields UmacCircuits SsiRanges
  CmceFields CmcePdus PduSpec CmceSpec CmceProofs BrewRoute CircuitMgr CallControl CcSpec CcProofs CcInv CcHistory.
Open Scope nat_scope.

(** ** Floor control *)
Lemma demand_refused : forall cfg s i p b c, u_tx_demand_from_bitbuf (mi_sdu i) = Ok (p, b) ->
  call_of s (u_tx_demand_call_identifier p) = Some c -> ac_tx c = true -> cc_step cfg (EvUplink i) s = Ok (s, []).
Proof. intros cfg s i p b c H Hc Ht. rewrite (demand_routed cfg i p b s H). unfold rx_u_tx_demand. unfold call_of in Hc. now rewrite Hc, Ht. Qed.

Lemma demand_granted : forall cfg s i p b c s' q, reachable cfg s -> u_tx_demand_from_bitbuf (mi_sdu i) = Ok (p, b) ->
  call_of s (u_tx_demand_call_identifier p) = Some c -> ac_tx c = false -> cc_step cfg (EvUplink i) s = Ok (s', q) ->
  exists c', call_of s' (u_tx_demand_call_identifier p) = Some c' /\ ac_tx c' = true /\ ac_hang c' = None /\ ac_source c' = ad_ssi (mi_addr i) /\
    ac_ts c' = ac_ts c /\ (forall id, id <> u_tx_demand_call_identifier p -> call_of s' id = call_of s id) /\
    granted_sent (u_tx_demand_call_identifier p) (ad_ssi (mi_addr i)) q.
Proof.
  intros cfg s i p b c s' q R H Hc Ht E. rewrite (demand_routed cfg i p b s H) in E. unfold rx_u_tx_demand in E. unfold call_of in *. rewrite Hc, Ht in E.
  cbn [cc_set_active cc_cached] in E. pose proof (w_keys _ _ _ (W_reachable cfg s R) (u_tx_demand_call_identifier p)) as K. rewrite Hc in K.
  destruct (aget (u_tx_demand_call_identifier p) (cc_cached s)) as [[d a]|]; [|discriminate].
  binv E. binv E. destruct x0 as [s1 q1]. pose proof (tx_granted_same _ _ _ _ _ _ _ E1). subst s1. injection E as <- <-.
  eexists. split; [cbn [cc_set_active cc_active]; rewrite aget_aset, N.eqb_refl; reflexivity|].
  cbn [cc_set_active cc_active ac_tx ac_hang ac_source ac_ts]. split; [reflexivity|]. split; [reflexivity|]. split; [reflexivity|]. split; [reflexivity|]. split.
  - intros id Hid. rewrite aget_aset. destruct (N.eqb_spec id (u_tx_demand_call_identifier p)); [contradiction|reflexivity].
  - unfold stealing_msg in E0. binv E0. binv E0. injection E0 as <-. eexists _, _, _. split; [left; reflexivity|]. repeat split.
Qed.

Lemma ceased_routed cfg i p b s : u_tx_ceased_from_bitbuf (mi_sdu i) = Ok (p, b) -> cc_step cfg (EvUplink i) s = rx_u_tx_ceased cfg p s.
Proof.
  intros H. assert (T : peek_bits (mi_sdu i) 5 = Ok (Some Ul_UTxCeased)).
  { unfold u_tx_ceased_from_bitbuf in H. unfold rbind at 1, rfield at 1 in H. binv H. destruct x as [t b1]. apply field_peek in E. rewrite E.
    unfold rbind at 1 in H. binv H. cbn [fst snd] in E0. unfold rguard in E0. destruct (N.eqb_spec t Ul_UTxCeased) as [->|]; [reflexivity|discriminate]. }
  cbn [cc_step]. unfold cc_rx_ind. rewrite T. cbn [bind]. change (memN Ul_UTxCeased _) with true. cbv iota.
  unfold route_xx_deliver. rewrite T. cbn [bind]. change (ul_type_known Ul_UTxCeased) with true. cbn [negb].
  change (Ul_UTxCeased =? Ul_USetup)%N with false. rewrite N.eqb_refl. cbv iota. unfold parsed. now rewrite H.
Qed.
Lemma ceased_hangs : forall cfg s i p b c s' q, reachable cfg s -> u_tx_ceased_from_bitbuf (mi_sdu i) = Ok (p, b) ->
  call_of s (u_tx_ceased_call_identifier p) = Some c -> ac_tx c = true -> cc_step cfg (EvUplink i) s = Ok (s', q) ->
  exists c', call_of s' (u_tx_ceased_call_identifier p) = Some c' /\ ac_tx c' = false /\ ac_hang c' = Some (cc_dltime s).
Proof.
  intros cfg s i p b c s' q R H Hc Ht E. rewrite (ceased_routed cfg i p b s H) in E. unfold rx_u_tx_ceased in E. unfold call_of in *. rewrite Hc, Ht in E.
  cbn [negb andb cc_set_active cc_cached] in E. exists (call_to_hang (cc_dltime s) c).
  destruct (aget _ (cc_cached s)) as [[d a]|]; [binv E|]; injection E as <- <-; cbn [cc_set_active cc_active]; rewrite aget_aset, N.eqb_refl; auto.
Qed.

(** No call stays in hang time beyond the limit, whatever happened before. *)
Lemma tasks_sub tasks : forall s s' q, each do_task tasks s = Ok (s', q) -> forall id c, aget id (cc_active s') = Some c -> aget id (cc_active s) = Some c.
Proof.
  induction tasks as [|k l IH]; cbn [each]; intros s s' q E id c Hc; [injection E as <- <-; exact Hc|].
  apply andthen_ok in E. destruct E as (s1 & q1 & q2 & E1 & E2 & ->). specialize (IH _ _ _ E2 _ _ Hc). clear E2 Hc.
  destruct k as [i u ts|i ci]; cbn [do_task] in E1.
  - destruct (aget i (cc_active s)) as [x|]; [destruct (present (ac_hang x)); [injection E1 as <- <-; exact IH|]|];
      (destruct (aget i (cc_cached s)) as [[p a]|]; [binv E1|]; injection E1 as <- <-; exact IH).
  - binv E1. injection E1 as <- <-. unfold release_timeslot, forget_call in IH. cbn [cc_set_slots cc_set_active cc_set_cached cc_active] in IH.
    rewrite aget_adel in IH. destruct (id =? i)%N; [discriminate|exact IH].
Qed.
Lemma tick_sub cfg hint t s s' q : reachable cfg s -> cc_step cfg (EvTick hint t) s = Ok (s', q) ->
  forall id c, call_of s' id = Some c -> call_of s id = Some c /\ ~ hang_over t c.
Proof.
  intros R E id c Hc. unfold call_of in *. cbn [cc_step] in E. unfold cc_tick in E. apply andthen_ok in E. destruct E as (s1 & q1 & q2 & E1 & E2 & ->).
  binv E2. destruct x as [tasks m]. apply (tasks_sub tasks _ _ _ E2) in Hc. cbn [cc_set_circ cc_active] in Hc. clear E2 E.
  pose proof (W_reachable cfg s R) as H. set (s0 := cc_set_dltime t s) in *. assert (K0 : keys s0) by (apply (w_keys _ _ _ H)).
  unfold check_hangtime in E1. binv E1. pose proof (hang_in _ _ _ E) as HX. cbn [s0 cc_set_dltime cc_dltime cc_active] in HX.
  assert (R1 : released (fun k => existsb (fun id => (id =? k)%N) x) s0 s1).
  { apply (each_released N.eqb (fun id => release_call cfg id ExpiryOfTimer) x) with (q := q1); [|assumption|assumption].
    intros y a b c0 _ Ka Ea. now apply release_released in Ea. }
  rewrite (rl_active _ _ _ R1) in Hc. destruct (existsb _ x) eqn:Ex; [discriminate|]. split; [exact Hc|].
  intros (h & a & Hh). assert (Y : existsb (fun i => (i =? id)%N) x = true); [|congruence].
  apply existsb_exists. exists id. rewrite N.eqb_refl. split; [|reflexivity]. apply HX. exists c, h, a. split; [|assumption].
  apply arrange_in; [apply (w_nodup _ _ _ H)|assumption].
Qed.
Lemma no_late_hang : forall cfg s hint t s' q id c h a,
  reachable cfg s -> cc_step cfg (EvTick hint t) s = Ok (s', q) -> call_of s' id = Some c ->
  ac_hang c = Some h -> age h t = Ok a -> (a <= 360)%Z.
Proof.
  intros cfg s hint t s' q id c h a R E Hc Hh Ha. destruct (tick_sub cfg hint t s s' q R E id c Hc) as [_ N].
  destruct (Z.le_gt_cases a 360) as [|L]; [assumption|]. destruct N. exists h, a. auto.
Qed.
Lemma hang_released : forall cfg s hint t s' q id c h a,
  reachable cfg s -> cc_step cfg (EvTick hint t) s = Ok (s', q) -> call_of s id = Some c ->
  ac_hang c = Some h -> age h t = Ok a -> (360 < a)%Z -> call_of s' id = None.
Proof.
  intros cfg s hint t s' q id c h a R E Hc Hh Ha L. destruct (call_of s' id) as [c'|] eqn:E'; [|reflexivity]. exfalso.
  destruct (tick_sub cfg hint t s s' q R E id c' E') as [H0 N]. assert (c' = c) by congruence. subst c'. apply N. exists h, a. auto.
Qed.

(** ** Messages built from small numbers can be written *)
Lemma encode_ok n p l : writes (pdu_to_bitbuf p) l -> encode n p = Ok tt.
Proof.
  intros H. unfold encode. destruct (H (bb_new_autoexpand n) (wf_new_autoexpand n)) as (b & E & _); [now left|]. now rewrite E.
Qed.
Lemma fit_small k n : (n < 1024)%N -> 10 <= k -> k <= 64 -> fit k n = true.
Proof.
  intros H L L'. unfold fit. apply N.ltb_lt. apply N.lt_le_trans with (2 ^ 10)%N; [exact H|]. apply N.pow_le_mono_r; lia.
Qed.

(** ** A history that wears out the identifiers *)

Definition ex_cfg : cfg_route := mk_cfg_route (Some (mk_cfg_brew "brew.example" true None)) [].
Definition ex_call : active_call := mk_call (ONetwork 7) 100 5 2 4 true None (Some 7%N).
Definition ex_circuit : circuit := mk_circuit time_default DirBoth 2 4 4 P2Mp.
(** Call 4 to group 100 goes on; the counters are at [n] and [u]. *)
Definition worn (n u : N) : cc :=
  mk_cc time_default [(4%N, (network_setup 4 5, gssi_addr 100))]
    (mk_cmgr time_default [None; Some ex_circuit; None; None] [None; None; None; None] n u)
    [(4%N, ex_call)] [(2%N, []); (1%N, [100%N])] [(100%N, 1%N)] [Some OwnCmce; None; None].
(** Meanwhile a second call to group 200 is set up. *)
Definition worn2 (n u : N) (n' u' : N) : cc :=
  mk_cc time_default (aset n (network_setup n 5, gssi_addr 200) [(4%N, (network_setup 4 5, gssi_addr 100))])
    (mk_cmgr time_default [None; Some ex_circuit; Some (mk_circuit time_default DirBoth 3 n u P2Mp); None] [None; None; None; None] n' u')
    (aset n (mk_call (ONetwork 9) 200 5 3 u true None (Some 9%N)) [(4%N, ex_call)])
    [(2%N, [200%N]); (1%N, [100%N])] [(200%N, 1%N); (100%N, 1%N)] [Some OwnCmce; Some OwnCmce; None].

Lemma worn_start : reachable ex_cfg (worn 5 5).
Proof.
  assert (E1 : cc_step ex_cfg (EvSubscriber [] [] 1 [100%N] SubAffiliate) cc_new =
               Ok (mk_cc time_default [] cmgr_new [] [(1%N, [100%N])] [(100%N, 1%N)] ts_default, [])) by reflexivity.
  pose proof (reachable_step _ _ _ _ _ (reachable_start ex_cfg) E1) as R. clear E1.
  eapply reachable_step in R; [|instantiate (3 := EvControl [] (CtlNetworkCallStart 7 5 100 0)); vm_compute; reflexivity].
  eapply reachable_step in R; [|instantiate (3 := EvSubscriber [] [] 2 [] SubAffiliate); vm_compute; reflexivity].
  exact R.
Qed.

Lemma cycle_setup n u : (1 <= n <= 1023)%N -> reachable ex_cfg (worn n u) -> reachable ex_cfg (worn2 n u (succ_call n) (succ_usage u)).
Proof.
  intros Hn R.
  assert (E1 : cc_step ex_cfg (EvSubscriber [] [] 2 [200%N] SubAffiliate) (worn n u) =
    Ok (cc_set_listeners [(200%N, 1%N); (100%N, 1%N)] (cc_set_subs [(2%N, [200%N]); (1%N, [100%N])] (worn n u)), [])) by reflexivity.
  pose proof (reachable_step _ _ _ _ _ R E1) as R1. clear E1.
  assert (A1 : encode 80 (PdSetup (network_setup n 5)) = Ok tt).
  { eapply encode_ok. apply (d_setup_ok (network_setup n 5)). unfold d_setup_valid, network_setup. cbn [d_setup_call_identifier].
    rewrite (fit_small 14 n) by lia. reflexivity. }
  assert (A2 : encode 30 (PdConnect (mk_d_connect n T5m false false GrantedToOtherUser false false None None None None None None)) = Ok tt).
  { eapply encode_ok. apply (d_connect_ok (mk_d_connect n T5m false false GrantedToOtherUser false false None None None None None None)).
    unfold d_connect_valid. cbn [d_connect_call_identifier]. rewrite (fit_small 14 n) by lia. reflexivity. }
  eassert (E2 : cc_step ex_cfg (EvControl [] (CtlNetworkCallStart 9 5 200 0))
    (cc_set_listeners [(200%N, 1%N); (100%N, 1%N)] (cc_set_subs [(2%N, [200%N]); (1%N, [100%N])] (worn n u))) = Ok (worn2 n u (succ_call n) (succ_usage u), _)).
  { cbn [cc_step rx_call_control]. unfold rx_network_call_start. change (brew_gssi_routable ex_cfg 200) with true. cbn [assert bind].
    change (has_listener 200 _) with true. cbn [negb]. change (find _ _) with (@None (N * active_call)). cbv iota.
    unfold cm_allocate. change (ts_allocate_any _ _) with (Some 3, [Some OwnCmce; Some OwnCmce; @None ts_owner]). cbv iota.
    unfold cm_take_call_id, cm_take_usage. cbn [cc_set_listeners cc_set_subs worn cc_circ cm_dltime cm_dl cm_ul cm_next_call cm_next_usage].
    fold (succ_call n). fold (succ_usage u). unfold cm_open, cm_is_active. cbn [ci_ts UmacCircuits.ts_get cm_dl cm_ul nth_error unwrap bind present includes_dl includes_ul andb].
    cbn [ci_call ci_usage ci_ts ci_dir]. unfold setup_msg, connect_group_msg. rewrite A1, A2. cbn [bind slot_mask assert Nat.leb andb].
    reflexivity. }
  exact (reachable_step _ _ _ _ _ R1 E2).
Qed.

Lemma cycle n u : (1 <= n <= 1023)%N -> n <> 4%N -> reachable ex_cfg (worn n u) -> reachable ex_cfg (worn (succ_call n) (succ_usage u)).
Proof.
  intros Hn H4 R. apply cycle_setup in R; [|assumption].
  assert (N4 : (n =? 4)%N = false) by (now apply N.eqb_neq). assert (N4' : (4 =? n)%N = false) by (rewrite N.eqb_sym; exact N4).
  assert (A3 : encode 32 (PdRelease (mk_d_release n SwmiRequestedDisconnection None None None)) = Ok tt).
  { eapply encode_ok. apply (d_release_ok (mk_d_release n SwmiRequestedDisconnection None None None)).
    unfold d_release_valid. cbn [d_release_call_identifier]. rewrite (fit_small 14 n) by lia. reflexivity. }
  set (n' := succ_call n) in *. set (u' := succ_usage u) in *. clearbody n' u'.
  eassert (E : cc_step ex_cfg (EvSubscriber [] [] 2 [200%N] SubDeaffiliate) (worn2 n u n' u') = Ok (worn n' u', _)).
  { cbn [cc_step subscriber_update]. change (aget 2 (cc_subs (worn2 n u n' u'))) with (Some [200%N]). cbv iota.
    change (remove_groups [200%N] [200%N]) with (@nil N, [200%N]). cbv iota. cbn [fold_left each].
    change (dec_listener (cc_listeners (worn2 n u n' u')) 200) with [(100%N, 1%N)].
    change (aset 2 [] (cc_subs (worn2 n u n' u'))) with [(2%N, @nil N); (1%N, [100%N])].
    set (s1 := cc_set_listeners _ _). unfold andthen, nothing.
    assert (ED : drop_unlistened ex_cfg [] 200 s1 = Ok (worn n' u', [ToBrew time_default (CtlNetworkCallEnd 9);
       ToMle time_default (mk_mle_req (PdRelease (mk_d_release n SwmiRequestedDisconnection None None None)) 0 0 0 false false None (gssi_addr 200) false);
       ToUmac time_default (CtlClose DirBoth 3); ToUmac time_default (CtlCallEnded n 3)])).
    { unfold drop_unlistened. change (has_listener 200 s1) with false. cbv iota.
      assert (EL : filter (fun p => (ac_dest (snd p) =? 200)%N) (arrange [] (cc_active s1)) = [(n, mk_call (ONetwork 9) 200 5 3 u true None (Some 9%N))]).
      { unfold s1, worn2. cbn [cc_set_listeners cc_set_subs cc_active]. unfold aset, adel. cbn [filter fst]. rewrite N4. cbn [negb]. reflexivity. }
      rewrite EL. cbn [each]. unfold andthen at 1 2, nothing. cbn [ac_origin]. change (brew_gssi_routable ex_cfg 200) with true. unfold when, to_brew.
      cbn [bind]. unfold release_call.
      assert (G1 : aget n (cc_cached s1) = Some (network_setup n 5, gssi_addr 200)) by (unfold s1, worn2; cbn [cc_set_listeners cc_set_subs cc_cached]; now rewrite aget_aset, N.eqb_refl).
      assert (G2 : aget n (cc_active s1) = Some (mk_call (ONetwork 9) 200 5 3 u true None (Some 9%N))) by (unfold s1, worn2; cbn [cc_set_listeners cc_set_subs cc_active]; now rewrite aget_aset, N.eqb_refl).
      assert (G3 : adel n (cc_cached s1) = [(4%N, (network_setup 4 5, gssi_addr 100))]).
      { unfold s1, worn2. cbn [cc_set_listeners cc_set_subs cc_cached]. unfold aset, adel. repeat (cbn [filter fst negb]; rewrite ?N4, ?N.eqb_refl). reflexivity. }
      assert (G4 : adel n (cc_active s1) = [(4%N, ex_call)]).
      { unfold s1, worn2. cbn [cc_set_listeners cc_set_subs cc_active]. unfold aset, adel. repeat (cbn [filter fst negb]; rewrite ?N4, ?N.eqb_refl). reflexivity. }
      rewrite G1, G2. unfold release_msg. cbn [d_setup_call_identifier network_setup]. rewrite A3. cbn [bind].
      change (cm_close DirBoth _ (cc_circ s1)) with (Ok (Some (mk_circuit time_default DirBoth 3 n u P2Mp),
        mk_cmgr time_default [None; Some ex_circuit; None; None] [None; None; None; None] n' u')). cbn [bind].
      unfold forget_call, release_timeslot, cc_set_active, cc_set_cached, cc_set_slots, cc_set_circ.
      cbn [cc_dltime cc_cached cc_circ cc_active cc_subs cc_listeners cc_slots]. rewrite G3, G4. cbn [ac_dest ac_origin]. rewrite andb_false_r. reflexivity. }
    rewrite ED. cbn [bind]. reflexivity. }
  exact (reachable_step _ _ _ _ _ R E).
Qed.

Lemma worn_usage : reachable ex_cfg (worn 64 4).
Proof.
  assert (X : forall k, k <= 58 -> reachable ex_cfg (worn (5 + N.of_nat k) (5 + N.of_nat k))).
  { induction k as [|k IH]; intros L; [apply worn_start|]. specialize (IH ltac:(lia)). apply cycle in IH; [|lia|lia].
    replace (5 + N.of_nat (S k))%N with (5 + N.of_nat k + 1)%N by lia. unfold succ_call, succ_usage in IH.
    destruct (N.ltb_spec 0x3FF (5 + N.of_nat k + 1)); [lia|]. destruct (N.ltb_spec 63 (5 + N.of_nat k + 1)); [lia|]. exact IH. }
  specialize (X 58 ltac:(lia)). change (5 + N.of_nat 58)%N with 63%N in X. apply cycle in X; [exact X|lia|lia].
Qed.
Lemma markers_collide : exists cfg s, reachable cfg s /\ ~ usages_distinct s.
Proof.
  exists ex_cfg, (worn2 64 4 (succ_call 64) (succ_usage 4)). split; [apply cycle_setup; [lia|apply worn_usage]|].
  intros D. assert (2 = 3); [|discriminate]. apply (D 2 3 ex_circuit (mk_circuit time_default DirBoth 3 64 4 P2Mp)); [lia|lia|reflexivity..].
Qed.

Lemma worn_call : exists u, reachable ex_cfg (worn 4 u).
Proof.
  assert (X : forall k, k <= 1018 -> exists u, reachable ex_cfg (worn (5 + N.of_nat k) u)).
  { induction k as [|k IH]; intros L; [exists 5%N; apply worn_start|]. destruct (IH ltac:(lia)) as [u R]. apply cycle in R; [|lia|lia].
    exists (succ_usage u). replace (5 + N.of_nat (S k))%N with (5 + N.of_nat k + 1)%N by lia. unfold succ_call in R.
    destruct (N.ltb_spec 0x3FF (5 + N.of_nat k + 1)); [lia|exact R]. }
  destruct (X (N.to_nat 1018) ltac:(lia)) as [u R]. replace (5 + N.of_nat (N.to_nat 1018))%N with 1023%N in R by lia.
  apply cycle in R; [|lia|lia]. change (succ_call 1023) with 1%N in R.
  apply cycle in R; [|lia|lia]. change (succ_call 1) with 2%N in R.
  apply cycle in R; [|lia|lia]. change (succ_call 2) with 3%N in R.
  apply cycle in R; [|lia|lia]. change (succ_call 3) with 4%N in R. eauto.
Qed.
(** Two circuits with the same call identifier; the timeslot and the circuit of the first call belong to nobody. *)
Lemma identifiers_collide : exists cfg s, reachable cfg s /\ ~ ids_distinct s /\ ~ coherent s /\
  ts_owner_of (cc_slots s) 2 = Some OwnCmce /\ (forall id c, call_of s id = Some c -> ac_ts c = 3).
Proof.
  destruct worn_call as [u R]. apply cycle_setup in R; [|lia].
  exists ex_cfg, (worn2 4 u (succ_call 4) (succ_usage u)). split; [exact R|].
  assert (Only : forall id c, call_of (worn2 4 u (succ_call 4) (succ_usage u)) id = Some c -> ac_ts c = 3).
  { intros id c. unfold call_of, worn2. cbn [cc_active]. unfold aset, adel. cbn [filter fst N.eqb Pos.eqb negb aget]. destruct (id =? 4)%N; [|discriminate].
    intros H. injection H as <-. reflexivity. }
  split; [|split; [|split; [reflexivity|exact Only]]].
  - intros D. assert (2 = 3); [|discriminate]. apply (D 2 3 ex_circuit (mk_circuit time_default DirBoth 3 4 u P2Mp)); [lia|lia|reflexivity..].
  - intros C. destruct (coh_held _ C 2 eq_refl) as (id & c & Hc & Et). apply Only in Hc. congruence.
Qed.

(** ** Running a list of events *)
Fixpoint play (cfg : cfg_route) (K : nat) (evs : list cc_event) (s : cc) (since : N -> nat) (log : list cc_msg) : option (cc * (N -> nat) * list cc_msg) :=
  match evs with
  | [] => Some (s, since, log)
  | e :: t =>
      match cc_step cfg e s with
      | Ok (s', q) =>
          let since' id := if present (aget id (cc_active s)) then since id + opens q else 0 in
          if forallb (fun p => since' (fst p) <? K) (cc_active s') then play cfg K t s' since' (log ++ q) else None
      | _ => None
      end
  end.
Lemma play_history cfg K evs : forall s since log s' since' log',
  history cfg K s since log -> play cfg K evs s since log = Some (s', since', log') -> history cfg K s' since' log'.
Proof.
  induction evs as [|e t IH]; intros s since log s' since' log' H E; cbn [play] in E.
  - injection E as <- <- <-. exact H.
  - destruct (cc_step cfg e s) as [[s1 q1]| |] eqn:Es; try discriminate. destruct (forallb _ (cc_active s1)) eqn:Ef; [|discriminate].
    refine (IH _ _ _ _ _ _ _ E). apply (history_step cfg K s since log e s1 q1 H Es). intros id c Hc. rewrite forallb_forall in Ef.
    apply aget_in in Hc. specialize (Ef _ Hc). now apply Nat.ltb_lt in Ef.
Qed.

(** An uplink message carrying these bits, from this radio. *)
Definition up (issi : N) (w : list bool) : cc_event :=
  EvUplink (mk_mle_ind time_default (match bb_from_bitstr w with Ok b => b | _ => bb_new 0 end) (mk_addr issi false SsiSsi) 0 0 0).
Definition ex_setup : u_setup := mk_u_setup 0 false false (mk_bsi 0 false 1 None (Some 0%N)) true 0 0 1 None (Some 100%N) None None None None None.

(** Radio 1 calls group 100; a network call for group 200 comes in; radio 1 stops talking; time passes. *)
Definition ex_events : list cc_event :=
  [ EvSubscriber [] [] 1 [100%N] SubAffiliate; EvSubscriber [] [] 2 [200%N; 100%N] SubAffiliate;
    up 1 (u_setup_wire ex_setup); EvControl [] (CtlNetworkCallStart 9 5 200 0);
    EvTick [] (mk_time 1 1 1 0); up 1 (u_tx_ceased_wire (mk_u_tx_ceased 4 None None None)) ].
Definition ex_state : option cc := match play ex_cfg 1023 ex_events cc_new (fun _ => 0) [] with Some (s, _, _) => Some s | None => None end.

Definition call_view (c : active_call) : N * nat * N * bool * bool := (ac_dest c, ac_ts c, ac_usage c, ac_tx c, present (ac_hang c)).
Lemma ex_history : exists s since log, history ex_cfg 1023 s since log /\
  option_map call_view (call_of s 4) = Some (100%N, 2, 4%N, false, true) /\ option_map call_view (call_of s 5) = Some (200%N, 3, 5%N, true, false) /\
  cc_slots s = [Some OwnCmce; Some OwnCmce; None].
Proof.
  destruct (play ex_cfg 1023 ex_events cc_new (fun _ => 0) []) as [[[s since] log]|] eqn:E.
  - exists s, since, log. split; [apply (play_history _ _ _ _ _ _ _ _ _ (history_start ex_cfg 1023) E)|].
    assert (X : ex_state = Some s) by (unfold ex_state; now rewrite E). clear E. revert X.
    match goal with |- _ -> ?g => set (P := fun s => (option_map call_view (call_of s 4), option_map call_view (call_of s 5), cc_slots s)) end.
    intros X. assert (Y : option_map P ex_state = Some (P s)) by (now rewrite X). clear X.
    assert (Z : option_map P ex_state = Some (Some (100%N, 2, 4%N, false, true), Some (200%N, 3, 5%N, true, false), [Some OwnCmce; Some OwnCmce; None])) by (vm_compute; reflexivity).
    rewrite Z in Y. injection Y as Y1 Y2 Y3. unfold P in *. auto.
  - exfalso. assert (X : ex_state = None) by (unfold ex_state; now rewrite E). vm_compute in X. discriminate.
Qed.

(** [after evs P]: the events can be played from the start with the bound of the theorems, and [P] holds then. *)
Definition after (evs : list cc_event) (P : cc -> bool) : bool :=
  match play ex_cfg 60 evs cc_new (fun _ => 0) [] with Some (s, _, _) => P s | None => false end.
Lemma after_history evs P : after evs P = true -> exists s since log, history ex_cfg 60 s since log /\ history ex_cfg 1023 s since log /\ P s = true.
Proof.
  unfold after. destruct (play _ _ _ _ _ _) as [[[s since] log]|] eqn:E; [|discriminate]. intros H. exists s, since, log.
  pose proof (play_history _ _ _ _ _ _ _ _ _ (history_start ex_cfg 60) E) as Hh. split; [exact Hh|]. split; [|exact H].
  apply (history_le ex_cfg 60 1023); [lia|exact Hh].
Qed.
(** The next event is handled and [P] relates the states before and after. *)
Definition next (e : cc_event) (P : cc -> cc -> list cc_msg -> bool) (s : cc) : bool :=
  match cc_step ex_cfg e s with Ok (s', q) => P s s' q | _ => false end.
Definition active (s : cc) (id : N) : bool := present (call_of s id).
Definition ends (id : N) (s s' : cc) (q : list cc_msg) : bool := active s id && negb (active s' id).
Definition stays (id : N) (s s' : cc) (q : list cc_msg) : bool := active s id && active s' id.
Definition speaking (id : N) (s : cc) : bool := match call_of s id with Some c => ac_tx c | None => false end.
Definition is_setup (m : cc_msg) : bool := match m with ToMle _ r => match mr_pdu r with PdSetup _ => true | _ => false end | _ => false end.

(** What the upper MAC does is a history of the downlink scheduler: with the slots, the headers and the hang times. *)
From Coq Require Import Arith.
From Verif Require Import Base BitsLib BitBuffer BitBufferProofs BitBufferOps MacFields MacPdus Layout MacSpec TdmaTime TdmaTimeProofs TxReceipt UmacCircuits BsFrag DlSched DlSchedSpec
  DlSlot DlChunk UlSched UmacPrecomps UmacBs StealSpec StealFacts UlBlockSpec UlBlockPdu UmacSched SlotSpec SlotRun LmacBs BsMac AirSpec AirRun AliveSpec HeardSpec.
From Verif Require CallControl FragProofs.
Open Scope nat_scope.

Definition dlog : Type := list (dl_event * option dl_slot * list tx_reporter).
Definition made_slots (lg : dlog) : list dl_slot := flat_map (fun x => match snd (fst x) with Some k => [k] | None => [] end) lg.
Definition hang_of (k : CallControl.call_ctl) : option (nat * bool) :=
  match k with
  | CallControl.CtlFloorReleased _ ts => Some (ts, true)
  | CallControl.CtlFloorGranted _ _ _ ts => Some (ts, false)
  | CallControl.CtlCallEnded _ ts => Some (ts, false)
  | _ => None
  end.
Definition made (c : cell_cfg) (e : um_event) (s : dls) (evs : list dl_event) : Prop :=
  match e with
  | UeTick _ _ => evs = [DvTick] \/ exists on, evs = [DvSws on; DvTick]
  | UeBlock i _ => Forall (from_block (ts_of (tv_time i))) evs
  | UeSend r =>
      (exists p, (tr_steal r = true -> traffic_ts r s = Ok None) /\ evs = [DvResource (ts_of (tr_time r)) p (tr_sdu r) (tr_rep r)] /\
         header p = header (plain_header c r) /\ width (mr_layout p) = width (mr_layout (plain_header c r))) \/
      (exists ts raf b, tr_steal r = true /\ traffic_ts r s = Ok (Some ts) /\ stch_block raf r = Ok b /\ evs = [DvTakeRa ts (ad_ssi (tr_addr r)); DvSteal ts b (tr_rep r)])
  | UeDlVoice ts _ | UeUlVoice _ ts _ => evs = [] \/ exists b, evs = [DvVoice ts b]
  | UeControl k => Forall (fun x => match x with DvOpen _ _ _ | DvClose _ _ => True | DvHang ts on => hang_of k = Some (ts, on) | _ => False end) evs
  end.
Definition circ_ev (x : dl_event) : Prop := match x with DvOpen _ _ _ | DvClose _ _ => True | _ => False end.

Lemma run_app a : forall b s s1 s2 la lb, dl_run a s = Ok (la, s1) -> dl_run b s1 = Ok (lb, s2) -> dl_run (a ++ b) s = Ok (la ++ lb, s2).
Proof.
  induction a as [|e a IH]; intros b s s1 s2 la lb E1 E2; cbn [dl_run app] in *; [injection E1 as <- <-; exact E2|].
  bi E1. destruct x as [[k m] sx]. bi E1. destruct x as [lg sy]. injection E1 as <- <-. rewrite E. cbn [bind]. rewrite (IH _ _ _ _ _ _ E0 E2). reflexivity.
Qed.
Definition silent (e : dl_event) : Prop := match e with DvTick | DvStart _ => False | _ => True end.
Lemma silent_step e s o m s1 : silent e -> dl_step e s = Ok (o, m, s1) -> o = None.
Proof. intros Q E. destruct e; try contradiction Q; cbn [dl_step] in E; try (bi E; try destruct x; try (destruct p)); injection E; intros; congruence. Qed.
Lemma silent_run evs : forall s lg s1, Forall silent evs -> dl_run evs s = Ok (lg, s1) -> made_slots lg = [].
Proof.
  induction evs as [|e evs IH]; intros s lg s1 Q E; cbn [dl_run] in E; [injection E as <- <-; reflexivity|].
  bi E. destruct x as [[k m] sx]. bi E. destruct x as [l sy]. injection E as <- <-. rewrite (silent_step _ _ _ _ _ (Forall_inv Q) E0). cbn [made_slots flat_map fst snd app]. exact (IH _ _ _ (Forall_inv_tail Q) E1).
Qed.
Lemma open_circ ds ts us : forall u u', open_dirs ds ts us u = Ok u' -> exists evs, Forall circ_ev evs /\ did evs (um_sch u) (um_sch u').
Proof.
  induction ds as [|d ds IH]; intros u u' E; cbn [open_dirs] in E.
  { injection E as <-. exists []. split; [constructor|apply did_nil]. }
  bi E. bi E. bi E. apply IH in E. destruct E as (evs & F & D).
  assert (X : exists e0, Forall circ_ev e0 /\ did e0 (um_sch u) x0).
  { destruct x; [|injection E1 as <-; exists []; split; [constructor|apply did_nil]]. bi E1. destruct x as [o s]. injection E1 as <-. exists [DvClose d ts]. split; [repeat constructor|].
    apply did_one with (o := None) (m := []). cbn [dl_step]. rewrite E. reflexivity. }
  destruct X as (e0 & F0 & D0). exists (e0 ++ [DvOpen d ts us] ++ evs). split; [apply Forall_app; split; [exact F0|constructor; [exact Logic.I|exact F]]|].
  eapply did_app; [exact D0|]. eapply did_app; [apply did_one with (o := None) (m := []) (s1 := x1); cbn [dl_step]; rewrite E2; reflexivity|].
  destruct (is_ul d); [|exact D]. rewrite (proj1 (voice_same ts _ (set_sch x1 u))) in D. exact D.
Qed.
Lemma close_circ ds ts : forall u u', close_dirs ds ts u = Ok u' -> exists evs, Forall circ_ev evs /\ did evs (um_sch u) (um_sch u').
Proof.
  induction ds as [|d ds IH]; intros u u' E; cbn [close_dirs] in E.
  { injection E as <-. exists []. split; [constructor|apply did_nil]. }
  bi E. destruct x as [o s]. apply IH in E. destruct E as (evs & F & D). assert (VS : forall b : bool, let w := if b then set_voice ts None (set_sch s u) else set_sch s u in um_sch w = s /\ um_defrag w = um_defrag u) by (intros []; [apply (voice_same ts None (set_sch s u))|now split]).
  exists ([DvClose d ts] ++ evs). split; [constructor; [exact Logic.I|exact F]|].
  eapply did_app; [apply did_one with (o := None) (m := []) (s1 := s); cbn [dl_step]; rewrite E0; reflexivity|]. destruct o; [|exact D]. rewrite (proj1 (VS (is_ul d))) in D. exact D.
Qed.
Lemma no_slots o : plain o -> slots_in o = [].
Proof. unfold plain. induction o as [|x o IH]; intros H; [reflexivity|]. cbn [existsb] in H. apply Bool.orb_false_elim in H. destruct H as (A & B). unfold slots_in in *. cbn [flat_map]. rewrite (IH B). destruct x; try reflexivity. discriminate A. Qed.
Lemma plain_out c e u u' o m : ev_fine e -> sound u -> (match e with UeTick _ _ => False | _ => True end) -> um_step c e u = Ok (u', o, m) -> slots_in o = [].
Proof.
  intros F S N E. assert (C : ev_chan e).
  { destruct e as [| i pdu| | | |]; try exact Logic.I. cbn [um_step] in E. bi E. destruct x as [u1 o1]. unfold rx_tmv_unitdata_ind in E0. bi E0. unfold ev_chan, on_channel. destruct (tv_chan i), (tv_blk i); try discriminate E0; reflexivity. }
  pose proof (step_plain c e u u' o m F C S E) as P. apply no_slots. destruct e; try contradiction N; exact P.
Qed.
Lemma silent_made c e s evs : (match e with UeTick _ _ => False | _ => True end) -> made c e s evs -> Forall silent evs.
Proof.
  intros N M. destruct e; try contradiction N; cbn [made] in M.
  - eapply Forall_impl; [|exact M]. intros x H. destruct x; try contradiction H; exact Logic.I.
  - destruct M as [(p & _ & -> & _)|(ts & raf & b & _ & _ & _ & ->)]; repeat (constructor; [exact Logic.I|]); constructor.
  - destruct M as [->|(b & ->)]; repeat (constructor; [exact Logic.I|]); constructor.
  - destruct M as [->|(b & ->)]; repeat (constructor; [exact Logic.I|]); constructor.
  - eapply Forall_impl; [|exact M]. intros x H. destruct x; try contradiction H; exact Logic.I.
Qed.
Lemma circ_made k evs : Forall circ_ev evs -> Forall (fun x => match x with DvOpen _ _ _ | DvClose _ _ => True | DvHang ts on => hang_of k = Some (ts, on) | _ => False end) evs.
Proof. apply Forall_impl. intros x H. destruct x; try contradiction H; exact Logic.I. Qed.
Lemma slots_app a b : slots_in (a ++ b) = slots_in a ++ slots_in b.
Proof. unfold slots_in. apply flat_map_app. Qed.
Lemma tick_slots c cn t u u' o m s0 : ds_cur (snd (refresh_sws c cn (um_sws u) (um_sch u))) = s0 -> sound u -> um_step c (UeTick cn t) u = Ok (u', o, m) ->
  exists evs lg, (evs = [DvTick] \/ exists on, evs = [DvSws on; DvTick]) /\ dl_run evs (um_sch u) = Ok (lg, um_sch u') /\ made_slots lg = slots_in o.
Proof.
  intros _ S E. cbn [um_step] in E. unfold tick_start in E. pose proof (sws_did c cn (um_sws u) (um_sch u)) as SW. destruct (refresh_sws c cn (um_sws u) (um_sch u)) as [sws s0']. destruct SW as (e0 & H0 & (lg0 & D0) & C0 & L0).
  destruct S as ((L & now & l & CU & I) & _). bi E. destruct x as [s1 m0]. rewrite (later_tick s0' now) in E0 by congruence. bi E0. injection E0 as -> <-.
  bi E. destruct x as [u1 o1]. pose proof (silence_quiet _ _ _ _ E0) as (_ & NS). apply silence_same in E0. cbn [um_sch um_defrag] in E0. destruct E0 as (SU & DU). rewrite SU in E. bi E. destruct x as [[k s2] m2]. injection E as <- <- _.
  assert (D : dl_run [DvTick] s0' = Ok ([(DvTick, Some k, m2)], s2)).
  { cbn [dl_run dl_step]. unfold dl_tick_start in E1 |- *. bi E1. injection E1 as E1. rewrite <- E1 in E0.
    assert (T : time_eqb (add_timeslots (ds_cur s0') 1) (ds_cur (set_cur (add_timeslots (ds_cur s0') 1) s0')) = true) by (unfold time_eqb; cbn [ds_cur set_cur]; now rewrite !Z.eqb_refl).
    rewrite T. cbn [assert bind]. rewrite E0. reflexivity. }
  exists (e0 ++ [DvTick]), (lg0 ++ [(DvTick, Some k, m2)]). split; [destruct H0 as [->|(on & ->)]; [now left|right; now exists on]|]. split; [exact (run_app _ _ _ _ _ _ _ D0 D)|].
  assert (Q : made_slots lg0 = []) by (apply (silent_run e0 (um_sch u) lg0 s0'); [destruct H0 as [->|(on & ->)]; repeat constructor|exact D0]).
  unfold made_slots in *. rewrite flat_map_app, Q. rewrite slots_app, (no_slots o1 (plain_in o1 NS)). reflexivity.
Qed.
Lemma step_made c e u u' o m : ev_fine e -> sound u -> um_step c e u = Ok (u', o, m) ->
  exists evs lg, made c e (um_sch u) evs /\ dl_run evs (um_sch u) = Ok (lg, um_sch u') /\ made_slots lg = slots_in o.
Proof.
  intros F S E. destruct (match e with UeTick _ _ => true | _ => false end) eqn:IT.
  { destruct e as [cn t| | | | |]; try discriminate IT. exact (tick_slots c cn t u u' o m _ eq_refl S E). }
  assert (N : match e with UeTick _ _ => False | _ => True end) by (destruct e; [discriminate IT|exact Logic.I..]).
  assert (K : exists evs, made c e (um_sch u) evs /\ did evs (um_sch u) (um_sch u')).
  { destruct (step_did c e u u' o m F S E) as (_ & evs & FE & D). destruct e as [cn t|i pdu|r|ts data|t ts data|k]; cbn [um_step from_event made] in *; try contradiction N; try (exists evs; split; [exact FE|exact D]); clear D FE evs.
    - bi E. injection E as <- _ _. cbn [um_sch set_sch]. unfold rx_tma_unitdata_req in E0. apply bind_inv in E0. destruct E0 as (o' & ET & E0). destruct o' as [ts|].
      + bi E0. destruct x0 as [ra s1]. bi E0. exists ([DvTakeRa ts (ad_ssi (tr_addr r))] ++ [DvSteal ts x0 (tr_rep r)]). destruct (tr_steal r) eqn:ST; [|discriminate ET].
        split; [right; eexists ts, _, x0; split; [reflexivity|]; split; [exact ET|]; split; [exact E1|reflexivity]|].
        eapply did_app; [apply did_one with (o := None) (m := []); cbn [dl_step]; rewrite E; reflexivity|]. apply did_one with (o := None) (m := []). cbn [dl_step]. rewrite E0. reflexivity.
      + bi E0. bi E0. destruct x1 as [n1 p]. exists [DvResource (ts_of (tr_time r)) p (tr_sdu r) (tr_rep r)]. split; [left; exists p|].
        * split; [intros ST; rewrite ST in ET; exact ET|]. split; [reflexivity|]. unfold mr_update_len_and_fill_ind in E1. bi E1. injection E1 as _ <-.
          match goal with |- context [header (mk_mres ?f _ _ _ ?l _ _ _ _ _ _)] => change (header (mr_set_len (plain_header c r) l f) = header (plain_header c r) /\ width (mr_layout (mr_set_len (plain_header c r) l f)) = width (mr_layout (plain_header c r))) end.
          split; [apply header_set|apply FragProofs.set_len_width].
        * apply did_one with (o := None) (m := []). cbn [dl_step]. rewrite E0. reflexivity.
    - bi E. destruct x as [u1 m1]. injection E as <- _ _.
      assert (HG : forall ts on v, hang_of k = Some (ts, on) -> (' (s, m2) <- set_hangtime ts on (um_sch u) ;; Ok (set_voice ts v (set_sch s u), m2)) = Ok (u1, m1) ->
        exists evs, Forall (fun x => match x with DvOpen _ _ _ | DvClose _ _ => True | DvHang ts on => hang_of k = Some (ts, on) | _ => False end) evs /\ did evs (um_sch u) (um_sch u1)).
      { intros ts on v HK E. bi E. destruct x as [s m2]. injection E as <- _. destruct (voice_same ts v (set_sch s u)) as (-> & _). exists [DvHang ts on]. split; [constructor; [exact HK|constructor]|].
        apply did_one with (o := None) (m := m2). cbn [dl_step]. rewrite E1. reflexivity. }
      assert (N0 : u1 = u -> exists evs, Forall (fun x => match x with DvOpen _ _ _ | DvClose _ _ => True | DvHang ts on => hang_of k = Some (ts, on) | _ => False end) evs /\ did evs (um_sch u) (um_sch u1)).
      { intros ->. exists []. split; [constructor|apply did_nil]. }
      unfold rx_control in E0. destruct k; try (injection E0 as <- _; now apply N0); try (exact (HG _ _ _ eq_refl E0)); bi E0; injection E0 as <- _.
      + destruct (open_circ _ _ _ _ _ E) as (evs & A & B). exists evs. split; [apply circ_made, A|exact B].
      + destruct (close_circ _ _ _ _ E) as (evs & A & B). exists evs. split; [apply circ_made, A|exact B]. }
  destruct K as (evs & M & lg & D). exists evs, lg. split; [exact M|]. split; [exact D|]. rewrite (plain_out c e u u' o m F S N E). exact (silent_run evs _ _ _ (silent_made c e _ evs N M) D).
Qed.

(** The downlink slots: examples and consequences. *)
From Coq Require Import Arith.
From Verif Require Import Base BitsLib BitBuffer BitBufferProofs Codec MacFields MacPdus MacBroadcast MleBroadcast TdmaTime TdmaTimeProofs TxReceipt UmacCircuits DlSched UmacPrecomps UmacBs UlBlockSpec UmacSched SlotSpec SlotRun.
From Verif Require Scrambler CallControl DlFacts StealFacts.
Open Scope nat_scope.

(** Whenever a radio expects the synchronisation or the network broadcast, the slot carries both. *)
Lemma mandatory_sent c connected u0 cn t evs u log : cell_ok c = true -> umac_new c connected = Ok u0 -> vtime t -> Forall ev_fine evs -> Forall (fun e => marked e = true) evs ->
  um_run c (UeTick cn t :: evs) u0 = Ok (u, log) ->
  forall pre cn' t' o m post, log = pre ++ (UeTick cn' t', o, m) :: post ->
  let next := add_timeslots t' 1 in is_mandatory_bsch next || is_mandatory_bnch next = true ->
  sends_slot o (fun k => sl_ts k = next /\ bk_chan (sl_blk1 k) = CBsch /\ bk_scr (sl_blk1 k) = Scrambler.SCRAMB_INIT /\
    reads_all (then_read sync_read msync_read) (bk_buf (sl_blk1 k)) (sync_says c next, msync_says c) /\
    exists b off, sl_blk2 k = Some b /\ bk_chan b = CBnch /\ offset_id c = Some off /\
      reads_all (then_read si_read msi_read) (bk_buf b) (sysinfo_says c off next, msysinfo_says c cn')).
Proof.
  intros CO EN V F MK E pre cn' t' o m post EL next MD.
  destruct (history_true _ _ _ _ _ _ _ _ CO EN V F MK E) as (_ & H). destruct (H _ _ _ _ _ _ EL) as (ns & k & EO & NS & ST).
  exists ns, k. split; [exact EO|]. split; [exact NS|]. revert ST. unfold slot_true. cbv zeta. fold next. intros (A & (x & KO & KF & _ & (B1 & B2) & SC & _) & _).
  assert (F18 : (tm_f next =? 18)%Z = true) by (unfold is_mandatory_bsch, is_mandatory_bnch in MD; destruct (tm_f next =? 18)%Z; [reflexivity|discriminate MD]).
  unfold kind_fits in KF. rewrite F18 in KF. destruct x; try discriminate KF. destruct (B2 (or_introl eq_refl)) as (b & off & S2 & O & R & _).
  unfold kind_of in KO. rewrite S2 in KO. cbn [option_map] in KO. destruct (bk_chan (sl_blk1 k)); try discriminate KO; destruct (bk_chan b) eqn:CB; try discriminate KO.
  split; [exact A|]. split; [reflexivity|]. split; [exact SC|]. split; [exact (B1 eq_refl)|]. exists b, off. auto.
Qed.

(** * Examples *)
Fixpoint ticks (t : tdma_time) (n : nat) : list um_event := match n with O => [] | S n => UeTick false t :: ticks (add_timeslots t 1) n end.
Definition ex_t0 : tdma_time := mk_time 1 14 1 0.
(** a call on timeslot 2 begins, its speaker stops, an announcement is stolen from the traffic, the call goes on and ends *)
Definition ex_call : list um_event :=
  ticks (add_timeslots ex_t0 1) 3 ++ [UeControl (CallControl.CtlOpen DirBoth 2 5)] ++ ticks (add_timeslots ex_t0 4) 4
  ++ [UeControl (CallControl.CtlFloorReleased 1 2)] ++ ticks (add_timeslots ex_t0 8) 4
  ++ [UeSend (mk_tma ex_t0 (DlFacts.ex_sdu 55) (mk_addr 2001 false SsiGssi) true StealFacts.ex_chan None)] ++ ticks (add_timeslots ex_t0 12) 4
  ++ [UeControl (CallControl.CtlClose DirBoth 2)] ++ ticks (add_timeslots ex_t0 16) 4.
Lemma ex_ticks_fine n : forall t, Forall ev_fine (ticks t n) /\ Forall (fun e => marked e = true) (ticks t n).
Proof. induction n as [|n IH]; intros t; cbn [ticks]; split; constructor; try apply IH; [exact Logic.I|reflexivity]. Qed.
Lemma ex_call_fine : Forall ev_fine ex_call /\ Forall (fun e => marked e = true) ex_call.
Proof.
  unfold ex_call. split; repeat (apply Forall_app; split); try (apply ex_ticks_fine); repeat constructor.
Qed.
(** what a radio sees of a slot: its kind, whether the uplink is traffic, and the access assignment *)
Definition seen (o : list um_out) : option (tdma_time * option kind * bool * option (dl_usage * ul_usage)) :=
  match rev o with
  | OutSlot k :: _ => Some (sl_ts k, kind_of k, sl_ul_tp k, if (tm_f (sl_ts k) =? 18)%Z then None else match aa_read (bk_buf (sl_bbk k)) with Ok (a, _) => Some (aa_dl a, aa_ul a) | _ => None end)
  | _ => None
  end.
Definition ex_slots (log : list (um_event * list um_out * list tx_reporter)) :=
  flat_map (fun x => match seen (snd (fst x)) with Some (t, k, b, a) => if (tm_t t =? 2)%Z then [(tm_f t, k, b, a)] else [] | None => [] end) log.
Lemma ran {A} c evs (f : list (um_event * list um_out * list tx_reporter) -> A) (v : A) :
  match umac_new c false with Ok u0 => match um_run c evs u0 with Ok (_, log) => Some (f log) | _ => None end | _ => None end = Some v ->
  exists u0 u log, umac_new c false = Ok u0 /\ um_run c evs u0 = Ok (u, log) /\ f log = v.
Proof.
  intros H. destruct (umac_new c false) as [u0| |]; try discriminate H. destruct (um_run c evs u0) as [[u log]| |] eqn:E; try discriminate H. injection H as H. eauto 6.
Qed.
Lemma ex_call_runs : exists u0 u log, umac_new DlFacts.ex_cell false = Ok u0 /\ um_run DlFacts.ex_cell (UeTick false ex_t0 :: ex_call) u0 = Ok (u, log) /\
  ex_slots log = [(14%Z, Some KSync, false, Some (DlUnallocated, UlUnallocated)); (15%Z, Some KTraffic, true, Some (DlTraffic 5, UlTraffic 5)); (16%Z, Some KSignalling, false, Some (DlAssignedControl, UlAssignedOnly));
                  (17%Z, Some KStolen, true, Some (DlAssignedControl, UlAssignedOnly)); (18%Z, Some KSync, false, None)].
Proof. apply (ran DlFacts.ex_cell (UeTick false ex_t0 :: ex_call) ex_slots). vm_compute. reflexivity. Qed.
Lemma ex_t0_ok : vtime ex_t0.
Proof. unfold vtime, ex_t0. cbn [tm_t tm_f tm_m tm_h]. lia. Qed.

(** Outside hang time the access assignment of a traffic timeslot says what the slot is. *)
Definition traffic_kind (k : dl_slot) : bool := match kind_of k with Some KTraffic | Some KStolen => true | _ => false end.
Lemma assignment_true c connected u0 cn t evs u log : cell_ok c = true -> umac_new c connected = Ok u0 -> vtime t -> Forall ev_fine evs -> Forall (fun e => marked e = true) evs ->
  um_run c (UeTick cn t :: evs) u0 = Ok (u, log) ->
  forall pre cn' t' o m post, log = pre ++ (UeTick cn' t', o, m) :: post ->
  let next := add_timeslots t' 1 in tm_t next <> 1%Z -> tm_f next <> 18%Z -> vw_hang (all_told (map (fun x => fst (fst x)) pre) (Z.to_nat (tm_t next))) = false ->
  sends_slot o (fun k => exists a, reads_all aa_read (bk_buf (sl_bbk k)) a /\
    (traffic_kind k = true <-> exists n, aa_dl a = DlTraffic n) /\ (sl_ul_tp k = true <-> exists n, aa_ul a = UlTraffic n)).
Proof.
  intros CO EN V F MK E pre cn' t' o m post EL next T1 F18 HG.
  destruct (history_true _ _ _ _ _ _ _ _ CO EN V F MK E) as (_ & H). destruct (H _ _ _ _ _ _ EL) as (ns & k & EO & NS & ST).
  exists ns, k. split; [exact EO|]. split; [exact NS|]. revert ST. unfold slot_true. cbv zeta. fold next. set (v := all_told (map (fun x => fst (fst x)) pre) (Z.to_nat (tm_t next))) in *.
  apply Z.eqb_neq in T1. apply Z.eqb_neq in F18.
  intros (_ & (x & KO & KF & _ & _ & _ & _ & (st & _ & UL)) & _ & _ & _ & A). rewrite F18 in A, UL. exists (aach_says next v). split; [exact A|].
  unfold traffic_kind. rewrite KO. unfold kind_fits in KF. rewrite F18, HG, T1 in KF. rewrite HG in UL. rewrite UL. unfold aach_says. rewrite T1, HG. cbn [andb negb orb aa_dl aa_ul].
  split.
  - destruct (vw_dl v) as [n|]; destruct x; try discriminate KF; split; intros K; try discriminate K; try reflexivity; try (now exists n); now destruct K as (? & K).
  - destruct (vw_ul v) as [n|]; cbn [andb orb negb]; split; intros K; try discriminate K; try reflexivity; [now exists n|now destruct K as (? & K)].
Qed.
Lemma hang_time_lies : exists evs u0 u log, Forall ev_fine evs /\ Forall (fun e => marked e = true) evs /\ umac_new DlFacts.ex_cell false = Ok u0 /\
  um_run DlFacts.ex_cell (UeTick false ex_t0 :: evs) u0 = Ok (u, log) /\ In (17%Z, Some KStolen, true, Some (DlAssignedControl, UlAssignedOnly)) (ex_slots log).
Proof.
  destruct ex_call_runs as (u0 & u & log & A & B & C). exists ex_call, u0, u, log. split; [apply ex_call_fine|]. split; [apply ex_call_fine|]. split; [exact A|]. split; [exact B|].
  rewrite C. do 3 right. left. reflexivity.
Qed.

(** From requests to bursts: the theorems. *)
From Coq Require Import Arith Permutation.
From Verif Require Import Base BitsLib BitBuffer BitBufferProofs BitBufferOps MacFields MacPdus Layout MacSpec TdmaTime TdmaTimeProofs TxReceipt UmacCircuits UmacCircuitsProofs BsFrag DlSched DlSchedSpec
  DlSlot DlChunk UlSched UmacPrecomps UmacBs StealSpec StealFacts UlBlockSpec UlBlockPdu UmacSched SlotSpec SlotProofs SlotRun LmacSpec Slotter SlotterSpec LmacBs BsMac AirSpec AirRun AliveSpec HeardSpec DlTrace HeardProofs.
From Verif Require CallControl FragSpec AirFacts DlFacts Llc Scrambler.
Open Scope nat_scope.

(** * The messages asked for *)
Definition pay (w : wish) : list (option tetra_addr * list bool) := payload (message w).
Definition wishes (k : nat) (lg : dlog) : list wish :=
  flat_map (fun x => match fst (fst x) with DvResource ts p sdu rep => if ts =? k then [mk_wish p (remaining sdu) rep] else [] | _ => [] end) lg.
Lemma attach_pay n l : flat_map pay (attach n l) = flat_map pay l.
Proof.
  induction l as [|w l IH]; [reflexivity|]. cbn [attach]. destruct (to_ssi _ w); cbn [flat_map]; [|now rewrite IH]. f_equal. unfold pay, payload, message, header. cbn [w_hdr w_bits fst snd]. destruct (w_bits w); [reflexivity|]. cbn [mr_addr]. unfold with_note. now destruct (snd n).
Qed.
Lemma notes_pay ns : forall l, flat_map pay (fold_left (fun l n => attach n l) ns l) = flat_map pay l.
Proof. induction ns as [|n ns IH]; intros l; [reflexivity|]. cbn [fold_left]. now rewrite IH, attach_pay. Qed.
Definition owed (d : desk) : list (option tetra_addr * list bool) := flat_map pay (dk_firm d ++ dk_fresh d).
Lemma desk_pay k x d : owed (desk_step k d x) = owed d ++ flat_map pay (wishes k [x]).
Proof.
  destruct x as [[e o] m]. unfold owed, desk_step, wishes. cbn [fst snd flat_map]. rewrite app_nil_r.
  assert (T : forall e : dl_event, flat_map pay (dk_firm (match o with Some s => if for_ts k (sl_ts s) && negb (DlSchedSpec.is_traffic s) then
      let fresh := fold_left (fun l n => attach n l) (dk_notes d) (dk_fresh d) in if (tm_f (sl_ts s) =? 18)%Z then mk_desk (dk_firm d) fresh [] else mk_desk (dk_firm d ++ fresh) [] [] else d | None => d end)
      ++ dk_fresh (match o with Some s => if for_ts k (sl_ts s) && negb (DlSchedSpec.is_traffic s) then
      let fresh := fold_left (fun l n => attach n l) (dk_notes d) (dk_fresh d) in if (tm_f (sl_ts s) =? 18)%Z then mk_desk (dk_firm d) fresh [] else mk_desk (dk_firm d ++ fresh) [] [] else d | None => d end))
      = flat_map pay (dk_firm d ++ dk_fresh d) ++ []).
  { intros _. rewrite app_nil_r. destruct o as [s|]; [|reflexivity]. destruct (_ && _); [|reflexivity]. cbv zeta. destruct (_ =? _)%Z; cbn [dk_firm dk_fresh]; rewrite ?app_nil_r, !flat_map_app, notes_pay; reflexivity. }
  destruct e; try exact (T DvTick).
  - destruct (ts =? k); [|now rewrite app_nil_r]. cbn [dk_firm dk_fresh flat_map]. rewrite !app_assoc, !flat_map_app. cbn [flat_map]. now rewrite !app_nil_r.
  - destruct (ts =? k); cbn [dk_firm dk_fresh flat_map]; now rewrite app_nil_r.
  - destruct (ts =? k); cbn [dk_firm dk_fresh flat_map]; now rewrite app_nil_r.
Qed.
Lemma wishes_app k a b : wishes k (a ++ b) = wishes k a ++ wishes k b.
Proof. apply flat_map_app. Qed.
Lemma run_pay k lg : forall d, owed (fold_left (desk_step k) lg d) = owed d ++ flat_map pay (wishes k lg).
Proof.
  induction lg as [|x lg IH]; intros d; cbn [fold_left]; [cbn; now rewrite app_nil_r|]. change (x :: lg) with ([x] ++ lg). now rewrite IH, desk_pay, wishes_app, flat_map_app, app_assoc.
Qed.
Lemma asked_pay k lg : owed (DlSchedSpec.asked k lg) = flat_map pay (wishes k lg).
Proof. exact (run_pay k lg desk_empty). Qed.

(** * The slots *)
Definition slot_air (k : nat) (s : dl_slot) : list (list bool) :=
  if for_ts k (sl_ts s) then match bk_chan (sl_blk1 s) with CSchF | CSchHd => [window (bk_buf (sl_blk1 s))] | _ => [] end else [].
Lemma air_slots k lg : air k lg = flat_map (slot_air k) (made_slots lg).
Proof.
  unfold air, made_slots. induction lg as [|x lg IH]; [reflexivity|]. cbn [flat_map]. rewrite flat_map_app, <- IH. f_equal. unfold air_slot, slot_air. destruct (snd (fst x)); [|reflexivity]. cbn [flat_map]. now rewrite app_nil_r.
Qed.
Lemma for_ts_of k t : 1 <= k -> for_ts k t = (ts_of t =? k).
Proof. intros K. unfold for_ts, ts_of. destruct (Z.eqb_spec (tm_t t) (Z.of_nat k)) as [E|E]; symmetry; [apply Nat.eqb_eq|apply Nat.eqb_neq]; lia. Qed.
Lemma receives_app c k a : forall b la lb, receives c k a la -> receives c k b lb -> receives c k (a ++ b) (la ++ lb).
Proof.
  intros b la lb H. revert b lb. induction H as [|cn t xs w log x msg1 msg2 acc l T A H IH|cn t xs ws log l T H IH|e xs log l T H IH]; intros b lb B; cbn [app].
  - exact B.
  - rewrite <- app_assoc. exact (receives_burst c k cn t xs w (log ++ b) x msg1 msg2 acc (l ++ lb) T A (IH b lb B)).
  - exact (receives_other c k cn t xs ws (log ++ b) (l ++ lb) T (IH b lb B)).
  - exact (receives_silence c k e xs (log ++ b) (l ++ lb) T (IH b lb B)).
Qed.
Lemma kind_signals k x : kind_of k = Some x -> signals x (window (bk_buf (sl_blk1 k))) = match bk_chan (sl_blk1 k) with CSchF | CSchHd => [window (bk_buf (sl_blk1 k))] | _ => [] end.
Proof. unfold kind_of. destruct (bk_chan (sl_blk1 k)), (option_map bk_chan (sl_blk2 k)) as [[]|]; intros H; try discriminate H; injection H as <-; reflexivity. Qed.
Lemma step_receives c k e v s s' xs ws : 1 <= k -> step_air c v e s s' xs ws -> receives c k [(e, xs, ws)] (flat_map (slot_air k) (slots_of xs)).
Proof.
  intros K A. destruct e as [cn t|ts bits|r|ts data|x]; cbn [step_air] in A; [|destruct A as (-> & -> & _); apply receives_silence; [exact Logic.I|constructor]..].
  destruct A as (no & kk & m & x & w & -> & -> & EK & OA & _ & PN & _ & (TS & _) & _). rewrite (AirFacts.slots_tick (UeTick cn t) no kk m PN). cbn [flat_map]. unfold slot_air. rewrite TS, for_ts_of by exact K.
  destruct (Nat.eqb_spec (ts_of (add_timeslots t 1)) k) as [T|T].
  - rewrite <- (kind_signals kk x EK). exact (receives_burst c k cn t _ w [] x _ _ _ [] T OA (receives_nothing c k)).
  - exact (receives_other c k cn t _ _ [] [] T (receives_nothing c k)).
Qed.

(** * The requests *)
Definition heard_from (k : nat) (v : nat -> ts_view) (e : bs_event) : list (option tetra_addr * list bool) := sends k v [e].
Lemma sends_cons k v e es : sends k v (e :: es) = sends k v [e] ++ sends k (told1 v e) es.
Proof. destruct e; cbn [sends told1 app]; now rewrite ?app_nil_r. Qed.
Lemma sends_app k a : forall v b, sends k v (a ++ b) = sends k v a ++ sends k (fold_left told1 a v) b.
Proof. induction a as [|e a IH]; intros v b; [reflexivity|]. cbn [app fold_left]. rewrite sends_cons, (sends_cons k v e a), IH. now rewrite app_assoc. Qed.
Lemma chosen c cn v s r o : shows c cn v s -> tr_steal r = true -> traffic_ts r s = Ok o -> steals_from_call v r = match o with Some _ => true | None => false end.
Proof.
  intros SH ST E. unfold steals_from_call. rewrite ST. cbn [andb]. unfold traffic_ts in E.
  assert (FA : first_active [2; 3; 4] s = Ok o -> busy v 2 || busy v 3 || busy v 4 = match o with Some _ => true | None => false end).
  { cbn [first_active]. unfold busy. rewrite (proj1 (active_view c cn v s DirDl 2 SH ltac:(lia)) eq_refl), (proj1 (active_view c cn v s DirDl 3 SH ltac:(lia)) eq_refl), (proj1 (active_view c cn v s DirDl 4 SH ltac:(lia)) eq_refl). cbn [bind].
    destruct (vw_dl (v 2)), (vw_dl (v 3)), (vw_dl (v 4)); intros [= <-]; reflexivity. }
  pose proof (names_first r) as NF. unfold named in *. destruct (tr_chan r) as [q|].
  - destruct (first_set (Llc.cq_timeslots q) 1) as [t|] eqn:EF.
    + injection E as <-. pose proof (first_set_spec (Llc.cq_timeslots q) 1) as FS. rewrite EF in FS. destruct FS as (_ & N & _). apply nth_error_In in N. rewrite (proj2 (existsb_exists _ _)); [reflexivity|]. now exists true.
    + rewrite (NF eq_refl). cbn [orb]. exact (FA E).
  - cbn [orb]. exact (FA E).
Qed.
Lemma quiet_wishes k evs : forall s lg s1, Forall (fun e => match e with DvResource _ _ _ _ => False | _ => True end) evs -> dl_run evs s = Ok (lg, s1) -> wishes k lg = [].
Proof.
  induction evs as [|e evs IH]; intros s lg s1 F E; cbn [dl_run] in E; [injection E as <- <-; reflexivity|]. bi E. destruct x as [[o m] sx]. bi E. destruct x as [l sy]. injection E as <- <-.
  unfold wishes. cbn [flat_map fst snd]. fold (wishes k l). rewrite (IH _ _ _ (Forall_inv_tail F) E1). pose proof (Forall_inv F) as N. destruct e; try reflexivity. contradiction N.
Qed.
Lemma step_wishes c v k e s s' evs lg : good c v s -> bs_made c e (um_sch (st_um s)) evs -> dl_run evs (um_sch (st_um s)) = Ok (lg, s') -> flat_map pay (wishes k lg) = sends k v [e].
Proof.
  intros G M D. destruct e as [cn t|ts bits|r|ts data|x]; cbn [bs_made made] in M.
  - rewrite (quiet_wishes k evs _ _ _) with (2 := D); [reflexivity|]. destruct M as [->|(on & ->)]; repeat constructor.
  - rewrite (quiet_wishes k evs _ _ _) with (2 := D); [reflexivity|]. eapply Forall_impl; [|exact M]. intros y H. destruct y; try contradiction H; exact Logic.I.
  - cbn [sends]. rewrite app_nil_r. destruct G as (_ & (cn & _ & SH) & _). destruct M as [(p & ST & -> & HH & HW)|(ts & raf & b & ST & ET & EB & ->)].
    + assert (SC : steals_from_call v r = false). { destruct (tr_steal r) eqn:E; [|unfold steals_from_call; now rewrite E]. exact (chosen c cn v _ r None SH E (ST eq_refl)). }
      rewrite SC. cbn [negb]. rewrite Bool.andb_true_r. cbn [dl_run] in D. bi D. destruct x as [[o m] sx]. cbn [bind] in D. injection D as <- _. unfold wishes. cbn [flat_map fst snd]. rewrite app_nil_r. destruct (ts_of (tr_time r) =? k); [|reflexivity].
      cbn [flat_map]. rewrite app_nil_r. unfold pay, message, payload. cbn [w_hdr w_bits fst snd]. destruct (remaining (tr_sdu r)); [reflexivity|]. rewrite HH. reflexivity.
    + rewrite (chosen c cn v _ r (Some ts) SH ST ET). cbn [negb]. rewrite Bool.andb_false_r. rewrite (quiet_wishes k _ _ _ _) with (2 := D); [reflexivity|]. repeat (constructor; [exact Logic.I|]). constructor.
  - rewrite (quiet_wishes k evs _ _ _) with (2 := D); [reflexivity|]. destruct M as [->|(b & ->)]; repeat constructor.
  - rewrite (quiet_wishes k evs _ _ _) with (2 := D); [destruct x; reflexivity|]. eapply Forall_impl; [|exact M]. intros y H. destruct y; try contradiction H; exact Logic.I.
Qed.

(** messages have an address and are not encrypted *)
Definition plain_wish (w : wish) : Prop := mr_addr (header (w_hdr w)) <> None /\ mr_encmode (header (w_hdr w)) = 0%N.
Lemma step_plain c k e s s' evs lg : bs_made c e s evs -> dl_run evs s = Ok (lg, s') -> Forall plain_wish (wishes k lg).
Proof.
  intros M D. destruct e as [cn t|ts bits|r|ts data|x]; cbn [bs_made made] in M.
  - rewrite (quiet_wishes k evs _ _ _) with (2 := D); [constructor|]. destruct M as [->|(on & ->)]; repeat constructor.
  - rewrite (quiet_wishes k evs _ _ _) with (2 := D); [constructor|]. eapply Forall_impl; [|exact M]. intros y H. destruct y; try contradiction H; exact Logic.I.
  - destruct M as [(p & ST & -> & HH & HW)|(ts & raf & b & ST & ET & EB & ->)].
    + cbn [dl_run] in D. bi D. destruct x as [[o m] sx]. cbn [bind] in D. injection D as <- _. unfold wishes. cbn [flat_map fst snd]. rewrite app_nil_r. destruct (ts_of (tr_time r) =? k); repeat constructor; cbn [w_hdr]; rewrite HH; [discriminate|reflexivity].
    + rewrite (quiet_wishes k _ _ _ _) with (2 := D); [constructor|]. repeat (constructor; [exact Logic.I|]). constructor.
  - rewrite (quiet_wishes k evs _ _ _) with (2 := D); [constructor|]. destruct M as [->|(b & ->)]; repeat constructor.
  - rewrite (quiet_wishes k evs _ _ _) with (2 := D); [constructor|]. eapply Forall_impl; [|exact M]. intros y H. destruct y; try contradiction H; exact Logic.I.
Qed.

(** * The history *)
Definition traced (c : cell_cfg) (k : nat) (s : station) (log : bs_log) : Prop := exists code t p evs lg,
  dl_run (DvStart t :: evs) (dls_new code p) = Ok (lg, um_sch (st_um s)) /\ Forall (fair k) evs /\ (receives c k log (air k lg) /\ made_slots lg = sent log) /\
  flat_map pay (wishes k lg) = sends k (fun _ => idle_ts) (events_of log) /\ Forall plain_wish (wishes k lg).
Lemma run_step c k e v s s' xs ws pre : 1 <= k <= 4 -> cell_ok c = true -> bs_fine e -> good c v s -> v = fold_left told1 (events_of pre) (fun _ => idle_ts) ->
  (forall evs lg, bs_made c e (um_sch (st_um s)) evs -> dl_run evs (um_sch (st_um s)) = Ok (lg, um_sch (st_um s')) -> Forall (fair k) evs) -> bs_step c e s = Ok (s', xs, ws) ->
  traced c k s pre -> traced c k s' (pre ++ [(e, xs, ws)]).
Proof.
  intros K CO F G EV HF E (code & t & p & evs & lg & D & FA & R & W & PL). destruct (step_good c e v s s' xs ws CO F G E) as (_ & A). destruct (bs_step_made c e v s s' xs ws CO F G E) as (evs1 & lg1 & M & D1 & L).
  exists code, t, p, (evs ++ evs1), (lg ++ lg1). split; [exact (run_app (DvStart t :: evs) _ _ _ _ _ _ D D1)|]. split; [apply Forall_app; split; [exact FA|exact (HF evs1 lg1 M D1)]|].
  split; [|split; [rewrite wishes_app, flat_map_app, W; unfold events_of; rewrite map_app, sends_app; unfold events_of in EV; cbn [map fst]; rewrite <- EV; f_equal; exact (step_wishes c v k e s _ evs1 lg1 G M D1)|]].
  2:{ rewrite wishes_app. apply Forall_app. split; [exact PL|exact (step_plain c k e _ _ evs1 lg1 M D1)]. }
  split; [|unfold sent; rewrite made_app, flat_map_app, L; destruct R as (_ & ->); cbn [flat_map fst snd]; now rewrite app_nil_r].
  rewrite air_slots, made_app, flat_map_app, <- air_slots, L. exact (receives_app c k _ _ _ _ (proj1 R) (step_receives c k e v s s' xs ws (proj1 K) A)).
Qed.
Lemma run_traced c k evs : 1 <= k <= 4 -> cell_ok c = true -> forall v s s' log pre, Forall bs_fine evs -> Forall (proper c k) evs -> good c v s -> v = fold_left told1 (events_of pre) (fun _ => idle_ts) -> always (hopeful k) c evs s ->
  bs_run c evs s = Ok (s', log) -> traced c k s pre -> traced c k s' (pre ++ log).
Proof.
  intros K CO. induction evs as [|e evs IH]; intros v s s' log pre F P G EV AL E T; cbn [bs_run] in E; [injection E as <- <-; now rewrite app_nil_r|].
  apply bind_inv in E. destruct E as (((s1 & xs) & ws) & E1 & E). apply bind_inv in E. destruct E as ((s2 & lg) & E2 & E). injection E as <- <-. cbn [always] in AL. rewrite E1 in AL. destruct AL as (HP & AL).
  change ((e, xs, ws) :: lg) with ([(e, xs, ws)] ++ lg). rewrite app_assoc.
  refine (IH (told1 v e) s1 s2 lg (pre ++ [(e, xs, ws)]) (Forall_inv_tail F) (Forall_inv_tail P) (proj1 (step_good c e v s s1 xs ws CO (Forall_inv F) G E1)) _ AL E2 _).
  - unfold events_of. rewrite map_app, fold_left_app. cbn [map fst fold_left]. unfold events_of in EV. now rewrite <- EV.
  - refine (run_step c k e v s s1 xs ws pre K CO (Forall_inv F) G EV _ E1 T). intros evs1 lg1 M D1. exact (fair_made c v k e s s1 evs1 lg1 K CO G ltac:(apply G) (Forall_inv P) M D1 HP).
Qed.
Lemma first_trace c k cn0 s0 cn t s1 xs ws : 1 <= k <= 4 -> cell_ok c = true -> station_new c cn0 = Ok s0 -> vtime t -> bs_step c (BeTick cn t) s0 = Ok (s1, xs, ws) ->
  good c (fun _ => idle_ts) s1 /\ exists code t0 p evs lg, dl_run (DvStart t0 :: evs) (dls_new code p) = Ok (lg, um_sch (st_um s1)) /\ Forall (fair k) evs /\ (receives c k [(BeTick cn t, xs, ws)] (air k lg) /\ made_slots lg = sent [(BeTick cn t, xs, ws)]) /\
  flat_map pay (wishes k lg) = sends k (fun _ => idle_ts) (events_of [(BeTick cn t, xs, ws)]) /\ evs = [] /\ wishes k lg = [].
Proof.
  intros K CO EN V E1. destruct (AirFacts.new_station c cn0 s0 CO EN) as (EU & M & T & EL).
  destruct (tick_good c cn t (fun _ => idle_ts) s0 s1 xs ws CO M T V) as (G1 & A); [now rewrite EL|now rewrite EL|intros u' o m ES; exact (proj1 (first_tick _ _ _ _ _ _ _ _ EU V ES))|exact E1|].
  split; [exact G1|].
  assert (D : exists p m k0, dl_run [DvStart t] (dls_new (code_of c) p) = Ok ([(DvStart t, Some k0, m)], um_sch (st_um s1)) /\ slots_of xs = [k0]).
  { cbn [bs_step um_do_all] in E1. apply bind_inv in E1. destruct E1 as (((s3 & x3) & w3) & E1 & H3). injection H3 as <- <- _. unfold um_do in E1. cbn [st_um] in E1.
    apply bind_inv in E1. destruct E1 as (((u & o) & m) & E1 & H). apply bind_inv in H. destruct H as ((l & w) & _ & H). injection H as <- <- _. cbn [st_um].
    destruct (new_df _ _ _ EU) as (_ & CU). cbn [um_step] in E1. unfold tick_start in E1.
    pose proof (sws_did c cn (um_sws (st_um s0)) (um_sch (st_um s0))) as SW. destruct (refresh_sws c cn (um_sws (st_um s0)) (um_sch (st_um s0))) as [sws sa]. destruct SW as (e0 & H0 & (lg0 & D0) & C0 & L0).
    apply bind_inv in E1. destruct E1 as ((sb & m0) & E0 & E). rewrite C0, CU in E0.
    assert (NT : time_eqb (mk_time 0 0 0 0) t = false). { destruct (time_eqb (mk_time 0 0 0 0) t) eqn:ET; [|reflexivity]. apply time_eqb_eq in ET. subst t. destruct V as (V & _). cbn [tm_t] in V. lia. }
    rewrite NT in E0. cbn [negb andb] in E0. change (time_eqb (mk_time 0 0 0 0) (mk_time 0 0 0 0)) with true in E0. cbn iota in E0.
    apply bind_inv in E. destruct E as ((u1 & o1) & EC & E). pose proof (silence_quiet _ _ _ _ EC) as (_ & NS). apply silence_same in EC. cbn [um_sch um_defrag] in EC. destruct EC as (SU & _). rewrite SU in E. apply bind_inv in E. destruct E as (((kk & s2) & m2) & EF & E). injection E as <- <- _.
    assert (PN : exists p, um_sch (st_um s0) = dls_new (code_of c) p). { unfold umac_new in EU. apply bind_inv in EU. destruct EU as (p & _ & H). injection H as <-. now exists p. }
    destruct PN as (p & PN). assert (PA : exists p', sa = dls_new (code_of c) p').
    { rewrite PN in D0. destruct H0 as [->|(on & ->)]; cbn [dl_run dl_step bind] in D0; injection D0 as _ <-; [now exists p|]. eexists. reflexivity. }
    destruct PA as (p' & PA). exists p', (m0 ++ m2), kk. rewrite PA in E0. cbn [um_sch set_sch]. split; [cbn [dl_run dl_step]; rewrite E0; cbn [bind]; rewrite EF; reflexivity|].
    unfold slots_of. cbn [flat_map fst snd]. rewrite slots_app, (no_slots o1 (plain_in o1 NS)), app_nil_r. reflexivity. }
  destruct D as (p & m & k0 & D & SL). exists (code_of c), t, p, [], [(DvStart t, Some k0, m)]. split; [exact D|]. split; [constructor|]. split; [|repeat split; reflexivity]. split; [|unfold sent; cbn [flat_map fst snd]; rewrite SL; reflexivity].
  rewrite air_slots. change (made_slots [(DvStart t, Some k0, m)]) with [k0]. rewrite <- SL. exact (step_receives c k (BeTick cn t) _ s0 s1 xs ws (proj1 K) A).
Qed.
Lemma history_traced c k s log : 1 <= k <= 4 -> cell_ok c = true -> bs_history c k s log -> traced c k s log.
Proof.
  intros K CO (cn0 & s0 & cn & t & evs & EN & V & F & P & E & AL). cbn [bs_run] in E. apply bind_inv in E. destruct E as (((s1 & xs) & ws) & E1 & E). apply bind_inv in E. destruct E as ((s2 & lg) & E2 & E). injection E as <- <-.
  cbn [always] in AL. rewrite E1 in AL. destruct AL as (_ & AL). destruct (first_trace c k cn0 s0 cn t s1 xs ws K CO EN V E1) as (G1 & (code & t0 & p & l & lg0 & D & FA & R & W & _ & NW)). assert (T : traced c k s1 [(BeTick cn t, xs, ws)]) by (exists code, t0, p, l, lg0; split; [exact D|]; split; [exact FA|]; split; [exact R|]; split; [exact W|]; rewrite NW; constructor).
  change ((BeTick cn t, xs, ws) :: lg) with ([(BeTick cn t, xs, ws)] ++ lg). exact (run_traced c k evs K CO _ s1 s2 lg [(BeTick cn t, xs, ws)] F P G1 eq_refl AL E2 T).
Qed.

Lemma entries_split q : Permutation (entries q) (entries (filter is_frag q) ++ entries (filter is_resource q)).
Proof.
  unfold entries. induction q as [|e q IH]; [constructor|]. destruct e; cbn [filter is_frag is_resource flat_map entry_of app]; try exact IH.
  - eapply Permutation_trans; [apply perm_skip, IH|]. apply Permutation_middle.
  - apply perm_skip, IH.
Qed.
Lemma fresh_pay part l l' : Forall2 waits_for l l' -> flat_map payload (map (full part) l) = flat_map pay l'.
Proof.
  induction 1 as [|e w l l' (A & B & C & D) H IH]; [reflexivity|]. cbn [map flat_map]. rewrite IH. f_equal. unfold pay, message, full. rewrite A, B, C. reflexivity.
Qed.
Lemma get_nth k s q : get_q k s = Ok q -> nth (k - 1) (ds_q s) [] = q.
Proof. intros EQ. unfold get_q, ts_get in EQ. destruct k as [|i]; [discriminate EQ|]. replace (S i - 1) with i by lia. destruct (nth_error (ds_q s) i) as [q'|] eqn:EN; [|discriminate EQ]. injection EQ as ->. exact (nth_error_nth _ _ _ EN). Qed.
Definition told_to (k : nat) (s : station) (wanted : list (option tetra_addr * list bool)) (e : ear) : Prop :=
  match e with
  | Garbled => False
  | Mixed => True
  | Clear got part => in_step part (entries (filter is_frag (nth (k - 1) (ds_q (um_sch (st_um s))) []))) /\
      Permutation wanted (flat_map payload got ++ flat_map payload (queued k s part))
  end.
Lemma heard_traced c k s log : 1 <= k <= 4 -> traced c k s log -> exists slots, receives c k log slots /\ told_to k s (sends k (fun _ => idle_ts) (events_of log)) (hear slots).
Proof.
  intros K (code & t & p & evs & lg & D & F & R & W & _). exists (air k lg). split; [exact (proj1 R)|].
  destruct (DlFacts.C17_history_proof k t code p evs lg _ K F D) as (q & EQ & FR & _ & HR). apply get_nth in EQ. unfold told_to. destruct (hear (air k lg)) as [got part| |]; [|exact HR..]. destruct HR as (IS & PM).
  rewrite <- W, <- asked_pay. unfold owed. rewrite flat_map_app. unfold queued. rewrite EQ. split; [exact IS|].
  eapply Permutation_trans; [|apply Permutation_app_head, Permutation_flat_map, Permutation_map, Permutation_sym, entries_split]. rewrite map_app, flat_map_app, app_assoc. apply Permutation_app.
  - eapply Permutation_trans; [|rewrite <- flat_map_app; apply Permutation_flat_map, PM]. unfold pay. clear. induction (dk_firm (DlSchedSpec.asked k lg)); [constructor|]. cbn [flat_map map]. now apply Permutation_app_head.
  - now rewrite (fresh_pay part _ _ FR).
Qed.
Lemma heard_once c k s log : 1 <= k <= 4 -> cell_ok c = true -> bs_history c k s log -> exists slots, receives c k log slots /\
  match hear slots with
  | Garbled => False
  | Mixed => True
  | Clear got part => Permutation (sends k (fun _ => idle_ts) (events_of log)) (flat_map payload got ++ flat_map payload (queued k s part))
  end.
Proof.
  intros K CO H. destruct (heard_traced c k s log K (history_traced c k s log K CO H)) as (slots & R & T). exists slots. split; [exact R|]. destruct (hear slots); [exact (proj2 T)|exact T..].
Qed.

(** * In order *)
Definition noteless (e : dl_event) : Prop := match e with DvGrant _ _ _ | DvAck _ _ => False | _ => True end.
Lemma noteless_desk k lg : forall d, Forall (fun x => noteless (fst (fst x))) lg -> dk_notes d = [] -> let d' := fold_left (desk_step k) lg d in
  dk_notes d' = [] /\ dk_firm d' ++ dk_fresh d' = dk_firm d ++ dk_fresh d ++ wishes k lg.
Proof.
  induction lg as [|[[e o] m] lg IH]; intros d F N; cbv zeta; cbn [fold_left]; [cbn; now rewrite app_nil_r|].
  assert (H : dk_notes (desk_step k d (e, o, m)) = [] /\ dk_firm (desk_step k d (e, o, m)) ++ dk_fresh (desk_step k d (e, o, m)) = dk_firm d ++ dk_fresh d ++ wishes k [(e, o, m)]).
  { pose proof (Forall_inv F) as NE. cbn [fst] in NE. unfold desk_step, wishes. cbn [fst snd flat_map]. rewrite !app_nil_r. destruct e; try contradiction NE; try (destruct (ts =? k)); cbn [dk_firm dk_fresh dk_notes]; rewrite ?app_nil_r;
      try (split; [exact N|reflexivity]);
      (destruct o as [sl|]; [|split; [exact N|reflexivity]]); (destruct (_ && _); [|split; [exact N|reflexivity]]); rewrite N; cbn [fold_left]; destruct (_ =? _)%Z; cbn [dk_firm dk_fresh dk_notes]; rewrite ?app_nil_r; split; reflexivity. }
  destruct H as (H1 & H2). destruct (IH (desk_step k d (e, o, m)) (Forall_inv_tail F) H1) as (I1 & I2). split; [exact I1|]. rewrite I2, app_assoc, H2. change ((e, o, m) :: lg) with ([(e, o, m)] ++ lg). rewrite wishes_app, <- !app_assoc. reflexivity.
Qed.
Lemma log_events evs : forall s lg s1, dl_run evs s = Ok (lg, s1) -> map (fun x => fst (fst x)) lg = evs.
Proof. induction evs as [|e evs IH]; intros s lg s1 E; cbn [dl_run] in E; [injection E as <- _; reflexivity|]. apply bind_inv in E. destruct E as (((o & m) & sx) & E0 & E). apply bind_inv in E. destruct E as ((l & sy) & E1 & E). injection E as <- _. cbn [map fst]. now rewrite (IH _ _ _ E1). Qed.
Definition tracks (c : cell_cfg) (k h : nat) (s : station) (log : bs_log) : Prop := exists code t p evs lg,
  dl_run (DvStart t :: evs) (dls_new code p) = Ok (lg, um_sch (st_um s)) /\ Forall (fair k) evs /\ receives c k log (air k lg) /\
  flat_map pay (wishes k lg) = sends k (fun _ => idle_ts) (events_of log) /\ Forall noteless evs /\ Forall (fun w => width (mr_layout (w_hdr w)) = h) (wishes k lg).
Lemma made_even c k h e s s' evs lg : even_headed c k h e -> bs_made c e s evs -> dl_run evs s = Ok (lg, s') -> Forall noteless evs /\ Forall (fun w => width (mr_layout (w_hdr w)) = h) (wishes k lg).
Proof.
  intros EH M D. assert (Q : Forall (fun e => match e with DvResource _ _ _ _ => False | _ => True end) evs -> Forall (fun w => width (mr_layout (w_hdr w)) = h) (wishes k lg)) by (intros H; rewrite (quiet_wishes k evs _ _ _ H D); constructor).
  destruct e as [cn t|ts bits|r|ts data|x]; cbn [bs_made made even_headed] in *; [|contradiction EH|..].
  - destruct M as [->|(on & ->)]; (split; [repeat constructor|apply Q; repeat constructor]).
  - destruct M as [(p & ST & -> & HH & HW)|(ts & raf & b & ST & ET & EB & ->)]; [|split; [repeat (constructor; [exact Logic.I|]); constructor|apply Q; repeat (constructor; [exact Logic.I|]); constructor]].
    split; [constructor; [exact Logic.I|constructor]|]. cbn [dl_run] in D. apply bind_inv in D. destruct D as (((o & m) & sx) & _ & D). cbn [bind] in D. injection D as <- _. unfold wishes. cbn [flat_map fst snd]. rewrite app_nil_r. destruct (Nat.eqb_spec (ts_of (tr_time r)) k) as [T|T]; [|constructor].
    constructor; [|constructor]. cbn [w_hdr]. rewrite HW. exact (EH T).
  - destruct M as [->|(b & ->)]; (split; [repeat constructor|apply Q; repeat constructor]).
  - split; [|apply Q]; (eapply Forall_impl; [|exact M]); intros y H; destruct y; try contradiction H; exact Logic.I.
Qed.
Lemma history_tracks c k h s log : 1 <= k <= 4 -> cell_ok c = true -> bs_history c k s log -> Forall (even_headed c k h) (events_of log) -> tracks c k h s log.
Proof.
  intros K CO (cn0 & s0 & cn & t & evs & EN & V & F & P & E & AL) EH. cbn [bs_run] in E. apply bind_inv in E. destruct E as (((s1 & xs) & ws) & E1 & E). apply bind_inv in E. destruct E as ((s2 & lg) & E2 & E). injection E as <- <-.
  cbn [always] in AL. rewrite E1 in AL. destruct AL as (_ & AL). destruct (first_trace c k cn0 s0 cn t s1 xs ws K CO EN V E1) as (G1 & T0).
  assert (T : tracks c k h s1 [(BeTick cn t, xs, ws)]).
  { destruct T0 as (code & t0 & p & l & lg0 & D & FA & R & W & L0 & _). subst l. exists code, t0, p, [], lg0. split; [exact D|]. split; [exact FA|]. split; [exact (proj1 R)|]. split; [exact W|]. split; [constructor|].
    assert (LE := log_events _ _ _ _ D). destruct lg0 as [|[[e0 o0] m0] [|y z]]; [constructor| |discriminate LE]. cbn [map fst] in LE. injection LE as ->. constructor. }
  clear T0. change ((BeTick cn t, xs, ws) :: lg) with ([(BeTick cn t, xs, ws)] ++ lg) in *. unfold events_of in EH. rewrite map_app in EH. apply Forall_app in EH. destruct EH as (_ & EH). fold (events_of lg) in EH.
  assert (EV : (fun _ => idle_ts) = fold_left told1 (events_of [(BeTick cn t, xs, ws)]) (fun _ => idle_ts)) by reflexivity. revert EV G1 T E2 AL F P EH. generalize [(BeTick cn t, xs, ws)] as pre. generalize (fun _ : nat => idle_ts) at 1 3 as v. clear E1 EN V. revert s1 lg.
  induction evs as [|e evs IH]; intros s1 lg v pre EV G T E AL F P EH; cbn [bs_run] in E; [injection E as <- <-; now rewrite app_nil_r|].
  apply bind_inv in E. destruct E as (((s3 & xs3) & ws3) & E1 & E). apply bind_inv in E. destruct E as ((s4 & lg4) & E2 & E). injection E as <- <-. cbn [always] in AL. rewrite E1 in AL. destruct AL as (HP & AL).
  change ((e, xs3, ws3) :: lg4) with ([(e, xs3, ws3)] ++ lg4). rewrite app_assoc. cbn [events_of map fst] in EH. pose proof (Forall_inv EH) as EH1. apply Forall_inv_tail in EH.
  destruct (step_good c e v s1 s3 xs3 ws3 CO (Forall_inv F) G E1) as (G3 & A).
  refine (IH s3 lg4 (told1 v e) (pre ++ [(e, xs3, ws3)]) _ G3 _ E2 AL (Forall_inv_tail F) (Forall_inv_tail P) EH).
  - unfold events_of. rewrite map_app, fold_left_app. cbn [map fst fold_left]. unfold events_of in EV. now rewrite <- EV.
  - destruct T as (code & t0 & p & evs0 & lg0 & D & FA & R & W & NL & WD). destruct (bs_step_made c e v s1 s3 xs3 ws3 CO (Forall_inv F) G E1) as (evs1 & lg1 & M & D1 & L). destruct (made_even c k h e _ _ evs1 lg1 EH1 M D1) as (NL1 & WD1).
    exists code, t0, p, (evs0 ++ evs1), (lg0 ++ lg1). split; [exact (run_app (DvStart t0 :: evs0) _ _ _ _ _ _ D D1)|]. split; [apply Forall_app; split; [exact FA|exact (fair_made c v k e s1 s3 evs1 lg1 K CO G ltac:(apply G) (Forall_inv P) M D1 HP)]|].
    split; [rewrite air_slots, made_app, flat_map_app, <- air_slots, L; exact (receives_app c k _ _ _ _ R (step_receives c k e v s1 s3 xs3 ws3 (proj1 K) A))|].
    split; [rewrite wishes_app, flat_map_app, W; unfold events_of; rewrite map_app, sends_app; unfold events_of in EV; cbn [map fst]; rewrite <- EV; f_equal; exact (step_wishes c v k e s1 _ evs1 lg1 G M D1)|].
    split; [apply Forall_app; now split|]. rewrite wishes_app. apply Forall_app. now split.
Qed.
Lemma heard_in_order c k h s log : 1 <= k <= 4 -> cell_ok c = true -> bs_history c k s log -> 32 <= h -> Forall (even_headed c k h) (events_of log) ->
  exists slots got part rest, receives c k log slots /\ hear slots = Clear got part /\ sends k (fun _ => idle_ts) (events_of log) = flat_map payload got ++ rest /\ Permutation rest (flat_map payload (queued k s part)).
Proof.
  intros K CO H HH EH. destruct (history_tracks c k h s log K CO H EH) as (code & t & p & evs & lg & D & F & R & W & NL & WD).
  assert (NN : Forall (fun x => noteless (fst (fst x))) lg). { pose proof (log_events _ _ _ _ D) as LE. apply Forall_forall. intros x IN. assert (IN' : In (fst (fst x)) (DvStart t :: evs)) by (rewrite <- LE; now apply in_map with (f := fun x => fst (fst x))). destruct IN' as [<-|IN']; [exact Logic.I|]. rewrite Forall_forall in NL. exact (NL _ IN'). }
  destruct (noteless_desk k lg desk_empty NN eq_refl) as (_ & EQ). cbv zeta in EQ. fold (DlSchedSpec.asked k lg) in EQ. cbn [desk_empty dk_firm dk_fresh app] in EQ.
  assert (WF : Forall (fun w => width (mr_layout (w_hdr w)) = h) (dk_firm (DlSchedSpec.asked k lg))). { rewrite <- EQ in WD. now apply Forall_app in WD. }
  destruct (DlFacts.C17_order_proof k t code p evs lg _ h K F D HH WF) as (q & got & part & GQ & HE & ME). destruct (DlFacts.C17_history_proof k t code p evs lg _ K F D) as (q' & GQ' & FR & _). rewrite GQ in GQ'. injection GQ' as <-. apply get_nth in GQ.
  exists (air k lg), got, part, (flat_map payload (map (full part) (entries (filter is_frag q))) ++ flat_map pay (dk_fresh (DlSchedSpec.asked k lg))). split; [exact R|]. split; [exact HE|].
  assert (FM : forall l, flat_map pay l = flat_map payload (map message l)) by (induction l as [|x l IH]; [reflexivity|]; cbn [flat_map map]; now rewrite IH).
  split; [rewrite <- W, <- EQ, flat_map_app, (FM (dk_firm _)), ME, flat_map_app, <- app_assoc; reflexivity|].
  unfold queued. rewrite GQ. rewrite <- (fresh_pay part _ _ FR), <- flat_map_app, <- map_app. apply Permutation_flat_map, Permutation_map, Permutation_sym, entries_split.
Qed.

(** * In the end everything is heard *)
Definition tally (q : list dl_elem) : nat := list_sum (map toil q).
Lemma tally_split q : tally q = loads (entries (filter is_frag q)) + loads (entries (filter is_resource q)) + 2 * length (flat_map notes_of q).
Proof.
  unfold tally, loads, entries, list_sum. induction q as [|e q IH]; [reflexivity|]. cbn [map fold_right]. rewrite IH. clear IH.
  destruct e; cbn [toil filter is_frag is_resource flat_map entry_of notes_of app map length fold_right]; unfold load; cbn [en_bits en_going]; lia.
Qed.
Definition wload (l : list wish) : nat := list_sum (map (fun w => length (w_bits w) + 2) l).
Lemma waits_load l l' : Forall2 waits_for l l' -> loads l = wload l'.
Proof. unfold loads, wload. induction 1 as [|e w l l' (A & B & C & D) H IH]; [reflexivity|]. cbn [map list_sum fold_right]. change (fold_right Nat.add 0 (map load l)) with (list_sum (map load l)). rewrite IH. unfold load. rewrite A, C. reflexivity. Qed.
Lemma attach_load n l : wload (attach n l) <= wload l + 2.
Proof. unfold wload. induction l as [|w l IH]; cbn [attach]; [cbn; lia|]. destruct (to_ssi _ w); cbn [map list_sum fold_right w_bits] in *; unfold list_sum in *; lia. Qed.
Lemma attaches_load ns : forall l, wload (fold_left (fun l n => attach n l) ns l) <= wload l + 2 * length ns.
Proof. induction ns as [|n ns IH]; intros l; cbn [fold_left length]; [lia|]. pose proof (IH (attach n l)). pose proof (attach_load n l). lia. Qed.
Lemma frag_load q : loads (entries (filter is_frag q)) + loads (entries (filter is_resource q)) = loads (entries q).
Proof.
  unfold loads, entries. induction q as [|e q IH]; [reflexivity|]. destruct e; cbn [filter is_frag is_resource flat_map entry_of app map list_sum fold_right]; unfold list_sum in *; lia.
Qed.
Lemma loads_app a b : loads (a ++ b) = loads a + loads b.
Proof. unfold loads. now rewrite map_app, list_sum_app. Qed.
Lemma slot_work k t code p evs lg s o m s' : 1 <= k <= 4 -> Forall (fair k) evs -> dl_run (DvStart t :: evs) (dls_new code p) = Ok (lg, s) -> dl_step DvTick s = Ok (o, m, s') ->
  exists slot, o = Some slot /\
    (for_ts k (sl_ts slot) = true -> DlSchedSpec.is_traffic slot = false -> tally (nth (k - 1) (ds_q s') []) <= tally (nth (k - 1) (ds_q s) []) /\
       (tm_f (sl_ts slot) <> 18%Z -> tally (nth (k - 1) (ds_q s') []) = 0 \/ tally (nth (k - 1) (ds_q s') []) < tally (nth (k - 1) (ds_q s) []))) /\
    (for_ts k (sl_ts slot) = false -> nth (k - 1) (ds_q s') [] = nth (k - 1) (ds_q s) []).
Proof.
  intros K F D E. assert (EO : exists slot, o = Some slot). { cbn [dl_step] in E. bi E. bi E. destruct x0 as [[kk s2] m2]. injection E as <- _ _. now exists kk. }
  destruct EO as (slot & ->). exists slot. split; [reflexivity|]. split.
  - intros FT NT. destruct (DlFacts.C17_slot_proof k t code p evs lg s slot m s' K F D E FT) as (q & q' & EQ & EQ' & H). rewrite NT in H. destruct H as (fresh & WF & H). cbv zeta in H.
    destruct (DlFacts.C17_history_proof k t code p evs lg s K F D) as (q0 & EQ0 & WR & EN & _). rewrite EQ0 in EQ. injection EQ as ->.
    assert (D2 : dl_run (DvStart t :: (evs ++ [DvTick])) (dls_new code p) = Ok (lg ++ [(DvTick, Some slot, m)], s')). { refine (run_app (DvStart t :: evs) [DvTick] _ s _ _ _ D _). cbn [dl_run]. rewrite E. reflexivity. }
    assert (F2 : Forall (fair k) (evs ++ [DvTick])) by (apply Forall_app; split; [exact F|constructor; [exact Logic.I|constructor]]).
    destruct (DlFacts.C17_history_proof k t code p (evs ++ [DvTick]) _ s' K F2 D2) as (q2 & EQ2 & _ & EN2 & _). rewrite EQ' in EQ2. injection EQ2 as <-.
    assert (N2 : flat_map notes_of q' = []). { rewrite EN2. unfold DlSchedSpec.asked. rewrite fold_left_app. cbn [fold_left]. unfold desk_step at 1. cbn [fst snd]. rewrite FT, NT. cbn [negb andb]. cbv zeta. destruct (_ =? _)%Z; reflexivity. }
    rewrite (get_nth _ _ _ EQ0), (get_nth _ _ _ EQ'). rewrite (tally_split q'), (tally_split q), N2. cbn [length]. rewrite (waits_load _ _ WR), EN. pose proof (attaches_load (dk_notes (DlSchedSpec.asked k lg)) (dk_fresh (DlSchedSpec.asked k lg))) as AL. rewrite <- (waits_load _ _ WF) in AL.
    destruct (tm_f (sl_ts slot) =? 18)%Z eqn:F18.
    + destruct H as (_ & A & B). rewrite A, B. split; [lia|]. apply Z.eqb_eq in F18. contradiction.
    + destruct H as (is & SA & LT & _). pose proof (DlFacts.served_loads _ _ _ _ SA) as SL. rewrite loads_app in SL. rewrite <- (frag_load q') in *. split; [lia|]. intros _.
      destruct (entries (filter is_frag q) ++ fresh) as [|x l] eqn:ER.
      * left. assert (Z0 : loads (entries q') = 0). { revert SA. generalize (entries q'). intros z SA. inversion SA. reflexivity. } rewrite <- (frag_load q') in Z0. lia.
      * right. rewrite <- ER in LT. rewrite loads_app in LT. assert (entries (filter is_frag q) ++ fresh <> []) as NE by (rewrite ER; discriminate). specialize (LT NE). lia.
  - intros FT. destruct (DlRun.history_inv k t code p evs lg s K F D) as (q & (F4 & NX & EQ & _) & _). cbn [dl_step] in E. apply bind_inv in E. destruct E as (sa & ET & E). apply bind_inv in E. destruct E as (((kk & s2) & m2) & EF & E). injection E as <- <- <-.
    unfold dl_tick_start in ET. apply bind_inv in ET. destruct ET as (y & _ & ET). injection ET as <-.
    destruct (DlFinal.tick_other _ kk s2 m2 k EF F4 NX K FT) as ((G1 & _) & _). rewrite (get_nth k s q EQ). apply get_nth. rewrite G1. exact EQ.
Qed.
Definition waits (c : cell_cfg) (k : nat) (v : nat -> ts_view) (s : station) (pre : bs_log) : Prop :=
  good c v s /\ v = fold_left told1 (events_of pre) (fun _ => idle_ts) /\ vw_dl (v k) = None /\ traced c k s pre.
Lemma tick_work c k v cn t s s' xs ws pre : 1 <= k <= 4 -> cell_ok c = true -> waits c k v s pre -> bs_step c (BeTick cn t) s = Ok (s', xs, ws) ->
  waits c k v s' (pre ++ [(BeTick cn t, xs, ws)]) /\ work k s' <= work k s /\
  (ts_of (add_timeslots t 1) = k -> tm_f (add_timeslots t 1) <> 18%Z -> work k s' = 0 \/ work k s' < work k s).
Proof.
  intros K CO (G & EV & NC & T) E. destruct (step_good c (BeTick cn t) v s s' xs ws CO Logic.I G E) as (G' & A). split.
  - split; [exact G'|]. split; [unfold events_of; rewrite map_app, fold_left_app; cbn [map fst fold_left told1]; exact EV|]. split; [exact NC|].
    refine (run_step c k (BeTick cn t) v s s' xs ws pre K CO Logic.I G EV _ E T). intros evs lg M _. cbn [bs_made made] in M. destruct M as [->|(on & ->)]; repeat constructor.
  - destruct T as (code & t0 & p & evs & lg & D & F & _). destruct (bs_step_made c (BeTick cn t) v s s' xs ws CO Logic.I G E) as (evs1 & lg1 & M & D1 & L).
    assert (X : exists evs2 lg2 sx m slot, Forall (fair k) evs2 /\ dl_run (DvStart t0 :: evs2) (dls_new code p) = Ok (lg2, sx) /\ dl_step DvTick sx = Ok (Some slot, m, um_sch (st_um s')) /\ slots_of xs = [slot] /\ ds_q sx = ds_q (um_sch (st_um s))).
    { cbn [bs_made made] in M. destruct M as [->|(on & ->)].
      - cbn [dl_run] in D1. apply bind_inv in D1. destruct D1 as (((o & m) & sy) & E1 & D1). cbn [bind] in D1. injection D1 as <- ->. destruct (slot_work k t0 code p evs lg _ o m _ K F D E1) as (slot & -> & _).
        exists evs, lg, (um_sch (st_um s)), m, slot. split; [exact F|]. split; [exact D|]. split; [exact E1|]. split; [rewrite <- L; reflexivity|reflexivity].
      - cbn [dl_run] in D1. apply bind_inv in D1. destruct D1 as (((o0 & m0) & sz) & E0 & D1). apply bind_inv in D1. destruct D1 as ((l & sw) & D1 & D2). apply bind_inv in D1. destruct D1 as (((o & m) & sy) & E1 & D1). cbn [bind] in D1. injection D1 as <- ->. injection D2 as <- ->.
        assert (F2 : Forall (fair k) (evs ++ [DvSws on])) by (apply Forall_app; split; [exact F|constructor; [exact Logic.I|constructor]]).
        assert (DD : dl_run (DvStart t0 :: (evs ++ [DvSws on])) (dls_new code p) = Ok (lg ++ [(DvSws on, o0, m0)], sz)). { refine (run_app (DvStart t0 :: evs) [DvSws on] _ _ _ _ _ D _). cbn [dl_run]. rewrite E0. reflexivity. }
        destruct (slot_work k t0 code p _ _ _ o m _ K F2 DD E1) as (slot & -> & _). exists (evs ++ [DvSws on]), (lg ++ [(DvSws on, o0, m0)]), sz, m, slot. split; [exact F2|]. split; [exact DD|]. split; [exact E1|]. cbn [dl_step] in E0. injection E0 as <- <- <-. split; [rewrite <- L; reflexivity|reflexivity]. }
    destruct X as (evs2 & lg2 & sx & m & slot & F2 & D2 & E1 & SL & QX). cbn [step_air] in A. destruct A as (no & kk & mm & x & w & EX & _ & EK & _ & _ & PN & _ & (TS & (x' & EK' & KF & _) & _) & _).
    rewrite EX, (AirFacts.slots_tick (UeTick cn t) no kk mm PN) in SL. injection SL as ->. rewrite EK in EK'. injection EK' as <-.
    destruct (slot_work k t0 code p evs2 lg2 sx (Some slot) m _ K F2 D2 E1) as (sl & EO & SA & SB). injection EO as <-. rewrite QX in SA, SB. unfold tally in SA, SB. fold (work k s) in SA. fold (work k s') in SA.
    rewrite TS, for_ts_of in SA, SB by lia. destruct (Nat.eqb_spec (ts_of (add_timeslots t 1)) k) as [EK1|EK1].
    + assert (NT : DlSchedSpec.is_traffic slot = false).
      { unfold ts_of in EK1. rewrite EK1 in KF. unfold kind_fits in KF. rewrite NC in KF. unfold kind_of in EK. unfold DlSchedSpec.is_traffic. destruct (bk_chan (sl_blk1 slot)), (option_map bk_chan (sl_blk2 slot)) as [[]|]; try reflexivity; try discriminate EK; injection EK as <-; destruct (_ =? 18)%Z; discriminate KF. }
      destruct (SA eq_refl NT) as (S1 & S2). split; [exact S1|]. intros _ N18. exact (S2 N18).
    + split; [|intros; contradiction]. unfold work. now rewrite (SB eq_refl).
Qed.
Lemma ticks_work c k v cns : 1 <= k <= 4 -> cell_ok c = true -> forall now s s' more pre, waits c k v s pre -> bs_run c (ticking cns now) s = Ok (s', more) ->
  waits c k v s' (pre ++ more) /\ work k s' <= work k s /\ events_of more = ticking cns now /\
  (forall i, i < length cns -> ts_of (add_timeslots now (Z.of_nat i + 2)) = k -> tm_f (add_timeslots now (Z.of_nat i + 2)) <> 18%Z -> work k s' = 0 \/ work k s' < work k s).
Proof.
  intros K CO. induction cns as [|cn cns IH]; intros now s s' more pre W E; cbn [ticking bs_run] in E.
  - injection E as <- <-. rewrite app_nil_r. split; [exact W|]. split; [lia|]. split; [reflexivity|]. intros i H. cbn [length] in H. lia.
  - apply bind_inv in E. destruct E as (((s1 & xs) & ws) & E1 & E). apply bind_inv in E. destruct E as ((s2 & lg) & E2 & E). injection E as <- <-. destruct (tick_work c k v cn _ s s1 xs ws pre K CO W E1) as (W1 & L1 & H1).
    destruct (IH _ s1 s2 lg _ W1 E2) as (W2 & L2 & EV & H2). rewrite <- app_assoc in W2. split; [exact W2|]. split; [lia|]. split; [unfold events_of in *; cbn [map fst ticking]; now rewrite EV|].
    rewrite add_add in H1. intros i HI HT HF. destruct i as [|i].
    + change (Z.of_nat 0 + 2)%Z with (1 + 1)%Z in HT, HF. destruct (H1 HT HF); [left|right]; lia.
    + destruct (H2 i) as [H|H]; [cbn [length] in HI; lia| | |left; exact H|right; lia].
      * rewrite add_add. replace (1 + (Z.of_nat i + 2))%Z with (Z.of_nat (S i) + 2)%Z by lia. exact HT.
      * rewrite add_add. replace (1 + (Z.of_nat i + 2))%Z with (Z.of_nat (S i) + 2)%Z by lia. exact HF.
Qed.
Lemma soon now k : 1 <= k <= 4 -> exists i, i < 8 /\ ts_of (add_timeslots now (Z.of_nat i + 2)) = k /\ tm_f (add_timeslots now (Z.of_nat i + 2)) <> 18%Z.
Proof.
  intros K. unfold ts_of, add_timeslots, from_int. cbn [tm_t tm_f]. generalize (to_int now). intros x.
  set (a := Z.to_nat ((Z.of_nat k - 1 - (x + 2)) mod 4)). assert (A : a < 4) by (unfold a; lia).
  destruct (Z.eq_dec ((x + (Z.of_nat a + 2)) / 4 mod 18 + 1) 18) as [H|H].
  - exists (a + 4). split; [lia|]. split; unfold a in *; lia.
  - exists a. split; [lia|]. split; [unfold a in *; lia|exact H].
Qed.
Lemma ticking_app a : forall b now, exists now', ticking (a ++ b) now = ticking a now ++ ticking b now'.
Proof. induction a as [|x a IH]; intros b now; [now exists now|]. cbn [app ticking]. destruct (IH b (add_timeslots now 1)) as (n & H). exists n. now rewrite H. Qed.
Lemma bs_run_app c a : forall b s s' log, bs_run c (a ++ b) s = Ok (s', log) -> exists s1 l1 l2, bs_run c a s = Ok (s1, l1) /\ bs_run c b s1 = Ok (s', l2) /\ log = l1 ++ l2.
Proof.
  induction a as [|e a IH]; intros b s s' log E; [exists s, [], log; repeat split; exact E|]. cbn [app bs_run] in E. apply bind_inv in E. destruct E as (((s1 & xs) & ws) & E1 & E). apply bind_inv in E. destruct E as ((s2 & lg) & E2 & E). injection E as <- <-.
  destruct (IH b s1 s2 lg E2) as (s3 & l1 & l2 & A & B & ->). exists s3, ((e, xs, ws) :: l1), l2. cbn [bs_run]. rewrite E1. cbn [bind]. rewrite A. repeat split. exact B.
Qed.
Lemma all_done c k v : 1 <= k <= 4 -> cell_ok c = true -> forall w cns now s s' more pre, work k s <= w -> 8 * w <= length cns -> waits c k v s pre -> bs_run c (ticking cns now) s = Ok (s', more) -> work k s' = 0.
Proof.
  intros K CO. induction w as [|w IH]; intros cns now s s' more pre HW HL W E; [destruct (ticks_work c k v cns K CO now s s' more pre W E) as (_ & L & _); lia|].
  destruct (ticking_app (firstn 8 cns) (skipn 8 cns) now) as (now' & EA). rewrite firstn_skipn in EA. rewrite EA in E. destruct (bs_run_app c _ _ s s' more E) as (s1 & l1 & l2 & E1 & E2 & ->).
  destruct (ticks_work c k v _ K CO now s s1 l1 pre W E1) as (W1 & L1 & _ & H). destruct (soon now k K) as (i & HI & HT & HF).
  assert (H' : work k s1 = 0 \/ work k s1 < work k s). { apply (H i); [rewrite firstn_length; lia|exact HT|exact HF]. }
  refine (IH (skipn 8 cns) now' s1 s' l2 (pre ++ l1) ltac:(lia) _ W1 E2). rewrite skipn_length. lia.
Qed.
Lemma idle_done k s : work k s = 0 -> entries (nth (k - 1) (ds_q (um_sch (st_um s))) []) = [].
Proof.
  unfold work, entries. induction (nth (k - 1) (ds_q (um_sch (st_um s))) []) as [|e q IH]; [reflexivity|]. cbn [map list_sum fold_right flat_map]. unfold list_sum in IH. intros H. rewrite IH by lia.
  destruct e as [| | | |f|]; cbn [toil] in H; try reflexivity; [lia|]. destruct (BsFrag.fg_hdr f); lia.
Qed.
Lemma ticks_send k cns : forall v now, sends k v (ticking cns now) = [].
Proof. induction cns as [|x cns IH]; intros v now; [reflexivity|]. cbn [ticking sends]. apply IH. Qed.
Lemma all_heard c k s log cns now s' more : 1 <= k <= 4 -> cell_ok c = true -> bs_history c k s log -> vw_dl (bs_told (events_of log) k) = None -> 8 * work k s <= length cns -> bs_run c (ticking cns now) s = Ok (s', more) ->
  exists slots, receives c k (log ++ more) slots /\
  match hear slots with
  | Garbled => False
  | Mixed => True
  | Clear got part => part = None /\ Permutation (sends k (fun _ => idle_ts) (events_of log)) (flat_map payload got)
  end.
Proof.
  intros K CO H NC HL E. assert (R : bs_reached c s log). { destruct H as (cn0 & s0 & cn & t & evs & EN & V & F & _ & ER & _). exists cn0, s0, cn, t, evs. auto. }
  destruct (AirFacts.reached_good c s log CO R) as (G & _).
  assert (W : waits c k (bs_told (events_of log)) s log). { split; [exact G|]. split; [|split; [exact NC|exact (history_traced c k s log K CO H)]]. reflexivity. }
  destruct (ticks_work c k _ cns K CO now s s' more log W E) as ((_ & _ & _ & T) & _ & EV & _). pose proof (idle_done k s' (all_done c k _ K CO _ cns now s s' more log (le_n _) HL W E)) as ID.
  destruct (heard_traced c k s' (log ++ more) K T) as (slots & RS & TT). exists slots. split; [exact RS|]. unfold told_to, queued in TT. destruct (hear slots) as [got part| |]; [|exact TT..]. rewrite ID in TT. destruct TT as (IS & PM).
  assert (EF : entries (filter is_frag (nth (k - 1) (ds_q (um_sch (st_um s'))) [])) = []). { pose proof (entries_split (nth (k - 1) (ds_q (um_sch (st_um s'))) [])) as PS. rewrite ID in PS. apply Permutation_nil in PS. now apply app_eq_nil in PS. }
  rewrite EF in IS. cbn [map flat_map] in PM. rewrite app_nil_r in PM. unfold events_of in PM at 1. rewrite map_app in PM. fold (events_of log) in PM. fold (events_of more) in PM. rewrite sends_app, EV, ticks_send, app_nil_r in PM.
  split; [|exact PM]. destruct part as [[h a]|]; [contradiction IS|reflexivity].
Qed.

(** * Examples *)
Lemma run_receives c k evs : 1 <= k -> cell_ok c = true -> forall v s s' log, Forall bs_fine evs -> good c v s -> bs_run c evs s = Ok (s', log) -> receives c k log (flat_map (slot_air k) (sent log)).
Proof.
  intros K CO. induction evs as [|e evs IH]; intros v s s' log F G E; cbn [bs_run] in E; [injection E as <- <-; constructor|]. apply bind_inv in E. destruct E as (((s1 & xs) & ws) & E1 & E). apply bind_inv in E. destruct E as ((s2 & lg) & E2 & E). injection E as <- <-.
  destruct (step_good c e v s s1 xs ws CO (Forall_inv F) G E1) as (G1 & A). change ((e, xs, ws) :: lg) with ([(e, xs, ws)] ++ lg). unfold sent. cbn [app flat_map fst snd]. rewrite flat_map_app. change (receives c k ([(e, xs, ws)] ++ lg) (flat_map (slot_air k) (slots_of xs) ++ flat_map (slot_air k) (sent lg))).
  apply receives_app; [exact (step_receives c k e v s s1 xs ws K A)|exact (IH _ s1 s2 lg (Forall_inv_tail F) G1 E2)].
Qed.
Lemma reached_receives c k s log : 1 <= k -> cell_ok c = true -> bs_reached c s log -> receives c k log (flat_map (slot_air k) (sent log)).
Proof.
  intros K CO (cn0 & s0 & cn & t & evs & EN & V & F & E). cbn [bs_run] in E. apply bind_inv in E. destruct E as (((s1 & xs) & ws) & E1 & E). apply bind_inv in E. destruct E as ((s2 & lg) & E2 & E). injection E as <- <-.
  destruct (AirFacts.new_station c cn0 s0 CO EN) as (EU & M & T & EL).
  destruct (tick_good c cn t (fun _ => idle_ts) s0 s1 xs ws CO M T V) as (G1 & A); [now rewrite EL|now rewrite EL|intros u' o m ES; exact (proj1 (first_tick _ _ _ _ _ _ _ _ EU V ES))|exact E1|].
  change ((BeTick cn t, xs, ws) :: lg) with ([(BeTick cn t, xs, ws)] ++ lg). unfold sent. cbn [app flat_map fst snd]. rewrite flat_map_app. change (receives c k ([(BeTick cn t, xs, ws)] ++ lg) (flat_map (slot_air k) (slots_of xs) ++ flat_map (slot_air k) (sent lg))).
  apply receives_app; [exact (step_receives c k (BeTick cn t) _ s0 s1 xs ws K A)|exact (run_receives c k evs K CO _ s1 s2 lg F G1 E2)].
Qed.
Definition sendableb (p : mac_resource) : bool :=
  mr_valid (mk_mres false (mr_pog p) (mr_encmode p) (mr_raf p) 1 (mr_addr p) (mr_el p) (mr_um p) (mr_pc p) (mr_sg p) (mr_ca p)) && negb (mr_is_null p).
Definition hopes (k : nat) (u : umac) : bool := forallb (fun e => match heads e with Some p => sendableb p | None => true end) (nth (k - 1) (ds_q (um_sch u)) []).
Lemma hopes_spec k s : hopes k (st_um s) = true -> hopeful k s.
Proof.
  intros H. unfold hopeful, hopes in *. apply Forall_forall. intros e IN (p & HP & NS). rewrite forallb_forall in H. specialize (H e IN). rewrite HP in H. apply NS. apply andb_true_iff in H. destruct H as (A & B). apply negb_true_iff in B. now split.
Qed.
Fixpoint run_hopes (k : nat) (c : cell_cfg) (evs : list um_event) (u : umac) : bool :=
  match evs with [] => true | e :: r => match um_step c e u with Ok (u', _, _) => hopes k u' && run_hopes k c r u' | _ => true end end.
Lemma lift_always c k evs : cell_ok c = true -> Forall AirFacts.no_radio evs -> Forall bs_fine (map AirFacts.be_of evs) -> forall v s u ulog, good c v s -> um_run c evs (st_um s) = Ok (u, ulog) -> run_hopes k c evs (st_um s) = true -> always (hopeful k) c (map AirFacts.be_of evs) s.
Proof.
  intros CO. induction evs as [|e evs IH]; intros N F v s u ulog G E H; cbn [um_run map always run_hopes] in *; [exact Logic.I|].
  apply bind_inv in E. destruct E as (((u1 & o) & m) & E1 & E). apply bind_inv in E. destruct E as ((u2 & lg) & E2 & E). injection E as <- <-. rewrite E1 in H. apply andb_true_iff in H. destruct H as (H1 & H2).
  destruct (AirFacts.lift_step c e v s u1 o m CO (Forall_inv N) G E1) as (s1 & ws & B & U). rewrite <- U in E2, H1, H2. destruct (step_good c (AirFacts.be_of e) v s s1 _ ws CO (Forall_inv F) G B) as (G1 & _). rewrite B.
  split; [exact (hopes_spec k s1 H1)|exact (IH (Forall_inv_tail N) (Forall_inv_tail F) _ s1 u2 lg G1 E2 H2)].
Qed.
(** a history without bursts, and what radios hear in it *)
Lemma lift_history c k cn0 u0 cn t evs u ulog : 1 <= k -> cell_ok c = true -> umac_new c cn0 = Ok u0 -> vtime t -> Forall AirFacts.no_radio evs -> Forall bs_fine (map AirFacts.be_of evs) -> Forall (proper c k) (map AirFacts.be_of evs) ->
  um_run c (UeTick cn t :: evs) u0 = Ok (u, ulog) -> run_hopes k c (UeTick cn t :: evs) u0 = true ->
  exists s log, bs_history c k s log /\ st_um s = u /\ events_of log = map AirFacts.be_of (UeTick cn t :: evs) /\ receives c k log (flat_map (slot_air k) (flat_map (fun x => slots_in (snd (fst x))) ulog)).
Proof.
  intros K CO EU V N F P E H. assert (EN : station_new c cn0 = Ok (mk_station u0 (lmac_new c))) by (unfold station_new; rewrite EU; reflexivity).
  destruct (AirFacts.new_station c cn0 _ CO EN) as (_ & M & T & EL). cbn [um_run] in E. apply bind_inv in E. destruct E as (((u1 & o) & m) & E1 & E). apply bind_inv in E. destruct E as ((u2 & lg) & E2 & E). injection E as <- <-.
  cbn [run_hopes] in H. rewrite E1 in H. apply andb_true_iff in H. destruct H as (H1 & H2).
  destruct (AirFacts.lift_tick c cn t _ (mk_station u0 (lmac_new c)) u1 o m CO M T V eq_refl E1) as (s1 & ws & B & U). rewrite <- U in E2, H1, H2.
  destruct (tick_good c cn t (fun _ => idle_ts) (mk_station u0 (lmac_new c)) s1 [(UeTick cn t, o, m)] ws CO M T V eq_refl eq_refl) as (G1 & _); [intros u' o' m' ES; exact (proj1 (first_tick _ _ _ _ _ _ _ _ EU V ES))|exact B|].
  destruct (AirFacts.lift_run c evs CO N F _ s1 u2 lg G1 E2) as (s' & log & R & U' & L).
  assert (RUN : bs_run c (BeTick cn t :: map AirFacts.be_of evs) (mk_station u0 (lmac_new c)) = Ok (s', (BeTick cn t, [(UeTick cn t, o, m)], ws) :: log)) by (cbn [bs_run]; rewrite B; cbn [bind]; rewrite R; reflexivity).
  assert (BR : bs_reached c s' ((BeTick cn t, [(UeTick cn t, o, m)], ws) :: log)) by (exists cn0, (mk_station u0 (lmac_new c)), cn, t, (map AirFacts.be_of evs); split; [exact EN|]; split; [exact V|]; split; [exact F|exact RUN]).
  exists s', ((BeTick cn t, [(UeTick cn t, o, m)], ws) :: log).
  split; [|split; [exact U'|split; [exact (proj2 (proj2 (proj2 (AirFacts.history c cn0 _ cn t (map AirFacts.be_of evs) s' _ CO EN V F RUN))))|]]].
  - exists cn0, (mk_station u0 (lmac_new c)), cn, t, (map AirFacts.be_of evs). split; [exact EN|]. split; [exact V|]. split; [exact F|]. split; [exact P|]. split; [exact RUN|]. cbn [always]. rewrite B. split; [exact (hopes_spec k s1 H1)|]. exact (lift_always c k evs CO N F _ s1 u2 lg G1 E2 H2).
  - pose proof (reached_receives c k s' _ K CO BR) as RR. rewrite AirFacts.sent_flat in RR. cbn [flat_map fst snd app] in RR. rewrite L in RR. exact RR.
Qed.
Definition ex_msg (n : nat) (a : tetra_addr) : tma_req := mk_tma (mk_time 1 1 1 0) (UlBlockFacts.ex_bits (UlBlockFacts.ex_text n)) a false None None.
Definition ex_group : tetra_addr := mk_addr 2001 false SsiGssi.
Definition ex_radio : tetra_addr := mk_addr 1001 false SsiIssi.
Definition ex_later (n : nat) : um_event := UeTick false (add_timeslots (mk_time 1 1 1 0) (Z.of_nat n)).
Definition ex_asked : list um_event := [UeControl (CallControl.CtlOpen DirBoth 2 5); UeSend (ex_msg 29 ex_group); UeSend (ex_msg 157 ex_radio)].
Definition ex_evs (n : nat) : list um_event := ex_asked ++ map ex_later (seq 1 n).
Definition ex_wanted : list (option tetra_addr * list bool) := [(Some (MacSpec.on_air ex_group), UlBlockFacts.ex_text 29); (Some (MacSpec.on_air ex_radio), UlBlockFacts.ex_text 157)].
Lemma ex_sends n : sends 1 (fun _ => idle_ts) (map AirFacts.be_of (UeTick false (mk_time 1 1 1 0) :: ex_evs n)) = ex_wanted.
Proof.
  unfold ex_evs. rewrite app_comm_cons, map_app, map_map, sends_app.
  assert (H : forall v a, sends 1 v (map (fun x => AirFacts.be_of (ex_later x)) a) = []) by (intros v a; revert v; induction a as [|x a IH]; intros v; [reflexivity|exact (IH v)]). rewrite H, app_nil_r. vm_compute. reflexivity.
Qed.
Lemma ex_proper n : Forall AirFacts.no_radio (ex_evs n) /\ Forall bs_fine (map AirFacts.be_of (ex_evs n)) /\ Forall (proper DlFacts.ex_cell 1) (map AirFacts.be_of (ex_evs n)) /\ Forall decent (map AirFacts.be_of (ex_evs n)).
Proof.
  assert (T : forall P : bs_event -> Prop, (forall t, P (BeTick false t)) -> Forall P (map AirFacts.be_of (map ex_later (seq 1 n)))) by (intros P H; apply Forall_forall; intros x IN; apply in_map_iff in IN; destruct IN as (y & <- & IN); apply in_map_iff in IN; destruct IN as (z & <- & _); apply H).
  unfold ex_evs. rewrite map_app. rewrite !Forall_app. split; [|split; [|split]]; (split; [|try (apply T; intros t; exact Logic.I)]).
  - repeat constructor.
  - apply Forall_forall. intros x IN. apply in_map_iff in IN. destruct IN as (y & <- & _). exact Logic.I.
  - cbn [ex_asked map AirFacts.be_of]. constructor; [reflexivity|]. constructor; [exact Logic.I|]. constructor; [exact Logic.I|constructor].
  - cbn [ex_asked map AirFacts.be_of]. constructor; [exact Logic.I|]. constructor; [|constructor; [|constructor]]; cbn [proper ex_msg tr_steal tr_time tr_sdu tr_rep tr_addr]; (split; [discriminate|]); intros _; (split; [apply UlBlockFacts.ex_bits_ok|]); (split; [reflexivity|]); (split; [exact Logic.I|]); unfold not_cut; right; vm_compute; [left; reflexivity|left; reflexivity].
  - cbn [ex_asked map AirFacts.be_of]. constructor; [cbn; lia|]. constructor; [|constructor; [|constructor]]; cbn [decent ex_msg tr_sdu tr_rep]; (split; [apply UlBlockFacts.ex_bits_ok|]); (split; [reflexivity|exact Logic.I]).
Qed.
Definition ex_ran (n : nat) : Prop := exists u0 u log, umac_new DlFacts.ex_cell false = Ok u0 /\ um_run DlFacts.ex_cell (UeTick false (mk_time 1 1 1 0) :: ex_evs n) u0 = Ok (u, log).
Lemma ran {A} c t evs (f : umac -> umac -> list um_entry -> A) (v : A) :
  match umac_new c false with Ok u0 => match um_run c (UeTick false t :: evs) u0 with Ok (u, log) => Some (f u0 u log) | _ => None end | _ => None end = Some v ->
  exists u0 u log, umac_new c false = Ok u0 /\ um_run c (UeTick false t :: evs) u0 = Ok (u, log) /\ f u0 u log = v.
Proof. intros H. destruct (umac_new c false) as [u0| |]; try discriminate H. destruct (um_run c _ u0) as [[u log]| |] eqn:E; try discriminate H. injection H as H. eauto 6. Qed.
Definition ex_sum (n : nat) (u0 u : umac) (log : list um_entry) : nat * bool * option (list (option tetra_addr * list bool) * bool) :=
  (tally (nth 0 (ds_q (um_sch u)) []), run_hopes 1 DlFacts.ex_cell (UeTick false (mk_time 1 1 1 0) :: ex_evs n) u0,
   match hear (flat_map (slot_air 1) (flat_map (fun x => slots_in (snd (fst x))) log)) with Clear got part => Some (flat_map payload got, isnone part) | _ => None end).
Lemma ex_at n w g : (exists u0 u log, umac_new DlFacts.ex_cell false = Ok u0 /\ um_run DlFacts.ex_cell (UeTick false (mk_time 1 1 1 0) :: ex_evs n) u0 = Ok (u, log) /\ ex_sum n u0 u log = (w, true, Some g)) ->
  exists s log slots got part, bs_history DlFacts.ex_cell 1 s log /\ sends 1 (fun _ => idle_ts) (events_of log) = ex_wanted /\ work 1 s = w /\ receives DlFacts.ex_cell 1 log slots /\ hear slots = Clear got part /\ flat_map payload got = fst g /\ isnone part = snd g /\
    events_of log = map AirFacts.be_of (UeTick false (mk_time 1 1 1 0) :: ex_evs n).
Proof.
  intros (u0 & u & ulog & EN & E & S). destruct (ex_proper n) as (P1 & P2 & P3 & _). unfold ex_sum in S. assert (HH : forall (a a' : nat) (b b' : bool) (x x' : option (list (option tetra_addr * list bool) * bool)), (a, b, x) = (a', b', x') -> a = a' /\ b = b' /\ x = x') by (intros; now repeat split; congruence). apply HH in S. destruct S as (S1 & S2 & S3).
  assert (V : vtime (mk_time 1 1 1 0)) by (unfold vtime; cbn; lia).
  destruct (lift_history DlFacts.ex_cell 1 false u0 false (mk_time 1 1 1 0) (ex_evs n) u ulog (le_n 1) eq_refl EN V P1 P2 P3 E S2) as (s & log & H & U & EV & R).
  destruct (hear (flat_map (slot_air 1) (flat_map (fun x => slots_in (snd (fst x))) ulog))) as [got part| |] eqn:EH; [|discriminate S3..]. exists s, log, (flat_map (slot_air 1) (flat_map (fun x => slots_in (snd (fst x))) ulog)), got, part.
  injection S3 as S3. split; [exact H|]. split; [rewrite EV; apply ex_sends|]. split; [unfold work; rewrite U; exact S1|]. split; [exact R|]. split; [exact EH|]. rewrite <- S3. repeat split. exact EV.
Qed.
(** After four slots the short message and most of the long one have been heard; five bits' work is left. *)
Lemma ex_part : exists s log slots got part, bs_history DlFacts.ex_cell 1 s log /\ sends 1 (fun _ => idle_ts) (events_of log) = ex_wanted /\ work 1 s = 5 /\ receives DlFacts.ex_cell 1 log slots /\ hear slots = Clear got part /\
  flat_map payload got = firstn 1 ex_wanted /\ isnone part = false /\ events_of log = map AirFacts.be_of (UeTick false (mk_time 1 1 1 0) :: ex_evs 3).
Proof. apply (ex_at 3 5 (firstn 1 ex_wanted, false)). apply ran. vm_compute. reflexivity. Qed.
Lemma ex_whole : exists s log slots got part, bs_history DlFacts.ex_cell 1 s log /\ sends 1 (fun _ => idle_ts) (events_of log) = ex_wanted /\ work 1 s = 0 /\ receives DlFacts.ex_cell 1 log slots /\ hear slots = Clear got part /\
  flat_map payload got = ex_wanted /\ isnone part = true /\ events_of log = map AirFacts.be_of (UeTick false (mk_time 1 1 1 0) :: ex_evs 7).
Proof. apply (ex_at 7 0 (ex_wanted, true)). apply ran. vm_compute. reflexivity. Qed.
(** Forty more slots follow. *)
Lemma ex_rest : exists s log s' more, bs_history DlFacts.ex_cell 1 s log /\ vw_dl (bs_told (events_of log) 1) = None /\ 8 * work 1 s = 40 /\ bs_run DlFacts.ex_cell (ticking (repeat false 40) (mk_time 4 1 1 0)) s = Ok (s', more) /\ length more = 40.
Proof.
  assert (X : exists u0 u log, umac_new DlFacts.ex_cell false = Ok u0 /\ um_run DlFacts.ex_cell (UeTick false (mk_time 1 1 1 0) :: ex_evs 3) u0 = Ok (u, log) /\
     (tally (nth 0 (ds_q (um_sch u)) []), run_hopes 1 DlFacts.ex_cell (UeTick false (mk_time 1 1 1 0) :: ex_evs 3) u0, match um_run DlFacts.ex_cell (map ex_later (seq 4 40)) u with Ok (_, l) => Some (length l) | _ => None end) = (5, true, Some 40)) by (apply ran; vm_compute; reflexivity).
  destruct X as (u0 & u & ulog & EN & E & S). assert (HH : forall (a a' : nat) (b b' : bool) (x x' : option nat), (a, b, x) = (a', b', x') -> a = a' /\ b = b' /\ x = x') by (intros; now repeat split; congruence). apply HH in S. destruct S as (S1 & S2 & S3).
  destruct (ex_proper 3) as (P1 & P2 & P3 & _). assert (V : vtime (mk_time 1 1 1 0)) by (unfold vtime; cbn; lia).
  destruct (lift_history DlFacts.ex_cell 1 false u0 false (mk_time 1 1 1 0) (ex_evs 3) u ulog (le_n 1) eq_refl EN V P1 P2 P3 E S2) as (s & log & H & U & EV & _).
  assert (R : bs_reached DlFacts.ex_cell s log). { destruct H as (cn0 & s0 & cn & t & evs & EN' & V' & F & _ & ER & _). exists cn0, s0, cn, t, evs. auto. }
  destruct (um_run DlFacts.ex_cell (map ex_later (seq 4 40)) u) as [[u2 l2]| |] eqn:E2; [|discriminate S3..]. rewrite <- U in E2.
  assert (N1 : Forall AirFacts.no_radio (map ex_later (seq 4 40))) by (apply Forall_forall; intros x IN; apply in_map_iff in IN; destruct IN as (z & <- & _); exact Logic.I).
  assert (N2 : Forall bs_fine (map AirFacts.be_of (map ex_later (seq 4 40)))) by (apply Forall_forall; intros x IN; apply in_map_iff in IN; destruct IN as (y & <- & IN); apply in_map_iff in IN; destruct IN as (z & <- & _); exact Logic.I).
  destruct (AirFacts.lift_run DlFacts.ex_cell _ eq_refl N1 N2 _ s u2 l2 (proj1 (AirFacts.reached_good DlFacts.ex_cell s log eq_refl R)) E2) as (s' & more & R2 & _ & L2).
  exists s, log, s', more. split; [exact H|]. split; [rewrite EV; vm_compute; reflexivity|]. split; [unfold work; rewrite U; change (list_sum (map toil (nth (1 - 1) (ds_q (um_sch u)) []))) with (tally (nth 0 (ds_q (um_sch u)) [])); rewrite S1; reflexivity|].
  assert (TK : ticking (repeat false 40) (mk_time 4 1 1 0) = map AirFacts.be_of (map ex_later (seq 4 40))) by (vm_compute; reflexivity). rewrite TK. split; [exact R2|].
  assert (LL : forall evs s s' log, bs_run DlFacts.ex_cell evs s = Ok (s', log) -> length log = length evs). { induction evs as [|e evs IH]; intros a b lg EE; cbn [bs_run] in EE; [injection EE as _ <-; reflexivity|]. apply bind_inv in EE. destruct EE as (((a1 & xs) & ws) & E1 & EE). apply bind_inv in EE. destruct EE as ((a2 & lg2) & E3 & EE). injection EE as <- <-. cbn [length]. now rewrite (IH _ _ _ E3). }
  rewrite (LL _ _ _ _ R2), map_length, map_length, seq_length. reflexivity.
Qed.
Lemma ex_even n : Forall (even_headed DlFacts.ex_cell 1 43) (map AirFacts.be_of (UeTick false (mk_time 1 1 1 0) :: ex_evs n)).
Proof.
  unfold ex_evs. rewrite app_comm_cons, map_app, Forall_app. split.
  - cbn [ex_asked map AirFacts.be_of]. constructor; [exact Logic.I|]. constructor; [exact Logic.I|]. constructor; [intros _; reflexivity|]. constructor; [intros _; reflexivity|constructor].
  - apply Forall_forall; intros x IN; apply in_map_iff in IN; destruct IN as (y & <- & IN); apply in_map_iff in IN; destruct IN as (z & <- & _); exact Logic.I.
Qed.
Lemma ex_ordered : exists s log, bs_history DlFacts.ex_cell 1 s log /\ Forall (even_headed DlFacts.ex_cell 1 43) (events_of log) /\ sends 1 (fun _ => idle_ts) (events_of log) = ex_wanted.
Proof. destruct ex_part as (s & log & slots & got & part & H & W & _ & _ & _ & _ & _ & EV). exists s, log. split; [exact H|]. split; [rewrite EV; apply ex_even|exact W]. Qed.
(** Two long messages, the first with a channel allocation and so a longer header, behind a short one: their pieces are
    interleaved. *)
Definition ex_alloc : Llc.chan_req := Llc.mk_chreq (Some 5%N) [false; true; false; false] 0 3.
Definition mix_asked : list um_event :=
  [UeSend (ex_msg 181 ex_radio); UeSend (mk_tma (mk_time 1 1 1 0) (UlBlockFacts.ex_bits (UlBlockFacts.ex_text 307)) (mk_addr 1002 false SsiIssi) false (Some ex_alloc) None); UeSend (ex_msg 301 (mk_addr 1003 false SsiIssi))].
Definition mix_evs : list um_event := mix_asked ++ map ex_later (seq 1 11).
Lemma mix_proper : Forall AirFacts.no_radio mix_evs /\ Forall bs_fine (map AirFacts.be_of mix_evs) /\ Forall (proper DlFacts.ex_cell 1) (map AirFacts.be_of mix_evs).
Proof.
  assert (T : forall P : bs_event -> Prop, (forall t, P (BeTick false t)) -> Forall P (map AirFacts.be_of (map ex_later (seq 1 11)))) by (intros P H; apply Forall_forall; intros x IN; apply in_map_iff in IN; destruct IN as (y & <- & IN); apply in_map_iff in IN; destruct IN as (z & <- & _); apply H).
  unfold mix_evs. rewrite map_app. rewrite !Forall_app. split; [|split]; (split; [|try (apply T; intros t; exact Logic.I)]).
  - repeat constructor.
  - apply Forall_forall. intros x IN. apply in_map_iff in IN. destruct IN as (y & <- & _). exact Logic.I.
  - cbn [mix_asked map AirFacts.be_of]. constructor; [exact Logic.I|]. constructor; [exact Logic.I|]. constructor; [exact Logic.I|constructor].
  - cbn [mix_asked map AirFacts.be_of]. constructor; [|constructor; [|constructor; [|constructor]]]; cbn [proper ex_msg tr_steal tr_time tr_sdu tr_rep tr_addr]; (split; [discriminate|]); intros _; (split; [apply UlBlockFacts.ex_bits_ok|]); (split; [reflexivity|]); (split; [exact Logic.I|]); unfold not_cut; right; vm_compute; [left; reflexivity|right; lia|left; reflexivity].
Qed.
Lemma mixed_up : exists s log slots, bs_history DlFacts.ex_cell 1 s log /\ receives DlFacts.ex_cell 1 log slots /\ hear slots = Mixed.
Proof.
  assert (X : exists u0 u log, umac_new DlFacts.ex_cell false = Ok u0 /\ um_run DlFacts.ex_cell (UeTick false (mk_time 1 1 1 0) :: mix_evs) u0 = Ok (u, log) /\
     (run_hopes 1 DlFacts.ex_cell (UeTick false (mk_time 1 1 1 0) :: mix_evs) u0, hear (flat_map (slot_air 1) (flat_map (fun x => slots_in (snd (fst x))) log))) = (true, Mixed)) by (apply ran; vm_compute; reflexivity).
  destruct X as (u0 & u & ulog & EN & E & S). assert (HH : forall (b b' : bool) (x x' : ear), (b, x) = (b', x') -> b = b' /\ x = x') by (intros; split; congruence). apply HH in S. destruct S as (S1 & S2).
  destruct mix_proper as (P1 & P2 & P3). assert (V : vtime (mk_time 1 1 1 0)) by (unfold vtime; cbn; lia).
  destruct (lift_history DlFacts.ex_cell 1 false u0 false (mk_time 1 1 1 0) mix_evs u ulog (le_n 1) eq_refl EN V P1 P2 P3 E S1) as (s & log & H & _ & _ & R). exists s, log, (flat_map (slot_air 1) (flat_map (fun x => slots_in (snd (fst x))) ulog)). split; [exact H|]. split; [exact R|exact S2].
Qed.

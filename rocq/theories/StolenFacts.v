(** Signalling stolen from calls over histories of the base station: the theorems. *)
From Coq Require Import Arith.
From Verif Require Import Base BitsLib BitBuffer BitBufferProofs BitBufferOps MacFields MacPdus Layout MacSpec TdmaTime TdmaTimeProofs TxReceipt UmacCircuits UmacCircuitsProofs DlSched DlSchedSpec
  BsFrag DlSlot DlChunk UlSched UmacPrecomps UmacBs StealSpec StealFacts UmacSched SlotSpec SlotProofs SlotRun LmacSpec Slotter SlotterSpec LmacBs BsMac AirSpec AirRun HeardSpec DlTrace HeardProofs HeardFacts StolenSpec.
From Verif Require CallControl AirFacts DlFacts Llc Scrambler StealRun StealProofs UlBlockProofs FragSpec.
Open Scope nat_scope.

(** * The slots *)
Definition slot_stolen (k : nat) (s : dl_slot) : list (list bool) :=
  if for_ts k (sl_ts s) then match bk_chan (sl_blk1 s) with CStch => [window (bk_buf (sl_blk1 s))] | _ => [] end else [].
Lemma stolen_slots k lg : flat_map (stolen_slot k) lg = flat_map (slot_stolen k) (made_slots lg).
Proof.
  unfold made_slots. induction lg as [|x lg IH]; [reflexivity|]. cbn [flat_map]. rewrite flat_map_app, <- IH. f_equal. unfold stolen_slot, slot_stolen. destruct (snd (fst x)); [|reflexivity]. cbn [flat_map]. now rewrite app_nil_r.
Qed.
Lemma snatches_app c k a : forall b la lb, snatches c k a la -> snatches c k b lb -> snatches c k (a ++ b) (la ++ lb).
Proof.
  intros b la lb H. revert b lb. induction H as [|cn t xs w log x msg1 msg2 acc l T A H IH|cn t xs ws log l T H IH|e xs log l T H IH]; intros b lb B; cbn [app].
  - exact B.
  - rewrite <- app_assoc. exact (snatches_burst c k cn t xs w (log ++ b) x msg1 msg2 acc (l ++ lb) T A (IH b lb B)).
  - exact (snatches_other c k cn t xs ws (log ++ b) (l ++ lb) T (IH b lb B)).
  - exact (snatches_silence c k e xs (log ++ b) (l ++ lb) T (IH b lb B)).
Qed.
Lemma kind_stolen k x : kind_of k = Some x -> stolen_half x (window (bk_buf (sl_blk1 k))) = match bk_chan (sl_blk1 k) with CStch => [window (bk_buf (sl_blk1 k))] | _ => [] end.
Proof. unfold kind_of. destruct (bk_chan (sl_blk1 k)), (option_map bk_chan (sl_blk2 k)) as [[]|]; intros H; try discriminate H; injection H as <-; reflexivity. Qed.
Lemma step_snatches c k e v s s' xs ws : 1 <= k -> step_air c v e s s' xs ws -> snatches c k [(e, xs, ws)] (flat_map (slot_stolen k) (slots_of xs)).
Proof.
  intros K A. destruct e as [cn t|ts bits|r|ts data|x]; cbn [step_air] in A; [|destruct A as (-> & -> & _); apply snatches_silence; [exact Logic.I|constructor]..].
  destruct A as (no & kk & m & x & w & -> & -> & EK & OA & _ & PN & _ & (TS & _) & _). rewrite (AirFacts.slots_tick (UeTick cn t) no kk m PN). cbn [flat_map]. unfold slot_stolen. rewrite TS, for_ts_of by exact K.
  destruct (Nat.eqb_spec (ts_of (add_timeslots t 1)) k) as [T|T].
  - rewrite <- (kind_stolen kk x EK). exact (snatches_burst c k cn t _ w [] x _ _ _ [] T OA (snatches_nothing c k)).
  - exact (snatches_other c k cn t _ _ [] [] T (snatches_nothing c k)).
Qed.

(** * The requests *)
Lemma steal_cons k v e es : to_steal k v (e :: es) = to_steal k v [e] ++ to_steal k (told1 v e) es.
Proof. destruct e; cbn [to_steal told1 app]; now rewrite ?app_nil_r. Qed.
Lemma steal_app k a : forall v b, to_steal k v (a ++ b) = to_steal k v a ++ to_steal k (fold_left told1 a v) b.
Proof. induction a as [|e a IH]; intros v b; [reflexivity|]. cbn [app fold_left]. rewrite steal_cons, (steal_cons k v e a), IH. now rewrite app_assoc. Qed.
Lemma first_named_set l : forall i, first_named l i = first_set l i.
Proof. induction l as [|[] l IH]; intros i; [reflexivity..|]. cbn [first_named first_set]. rewrite IH. f_equal. lia. Qed.
Lemma target_chosen c cn v s r o : shows c cn v s -> tr_steal r = true -> traffic_ts r s = Ok o -> target v r = o.
Proof.
  intros SH ST E. unfold target. rewrite ST. unfold traffic_ts in E.
  assert (FA : first_active [2; 3; 4] s = Ok o -> (if busy v 2 then Some 2 else if busy v 3 then Some 3 else if busy v 4 then Some 4 else None) = o).
  { cbn [first_active]. unfold busy. rewrite (proj1 (active_view c cn v s DirDl 2 SH ltac:(lia)) eq_refl), (proj1 (active_view c cn v s DirDl 3 SH ltac:(lia)) eq_refl), (proj1 (active_view c cn v s DirDl 4 SH ltac:(lia)) eq_refl). cbn [bind].
    destruct (vw_dl (v 2)), (vw_dl (v 3)), (vw_dl (v 4)); intros [= <-]; reflexivity. }
  destruct (tr_chan r) as [q|]; [|exact (FA E)]. rewrite first_named_set. destruct (first_set (Llc.cq_timeslots q) 1) as [t|]; [now injection E|exact (FA E)].
Qed.
Definition wishless (e : dl_event) : Prop := match e with DvSteal _ _ _ | DvStart _ => False | _ => True end.
Lemma quiet_steals k evs : forall s lg s1, Forall wishless evs -> dl_run evs s = Ok (lg, s1) -> flat_map (steal_wish k) lg = [].
Proof.
  induction evs as [|e evs IH]; intros s lg s1 F E; cbn [dl_run] in E; [injection E as <- <-; reflexivity|]. bi E. destruct x as [[o m] sx]. bi E. destruct x as [l sy]. injection E as <- <-.
  cbn [flat_map fst snd]. rewrite (IH _ _ _ (Forall_inv_tail F) E1). pose proof (Forall_inv F) as N. destruct e; try reflexivity. contradiction N.
Qed.
Lemma wishless_fair evs : Forall wishless evs -> Forall steal_fair evs.
Proof. apply Forall_impl. intros e H. destruct e; try exact Logic.I; contradiction H. Qed.
Lemma header_addr raf r : mr_addr (header (steal_header raf r)) = Some (MacSpec.on_air (tr_addr r)).
Proof. reflexivity. Qed.
(** what is asked for, and the half slot of a request *)
Definition asks (P : tma_req -> Prop) (e : bs_event) : Prop := match e with BeSend r => tr_steal r = true -> P r | _ => True end.
Definition fitting (P : tma_req -> Prop) : Prop := forall r, P r -> steal_ok r /\ steal_size r <= half_slot.
Definition holds (P : tma_req -> Prop) (half : list bool) (m : option tetra_addr * list bool) : Prop :=
  exists r raf b, P r /\ stch_block raf r = Ok b /\ half = window b /\ m = (Some (MacSpec.on_air (tr_addr r)), window (tr_sdu r)).
Lemma step_steals P c v k e s s' evs lg : fitting P -> good c v s -> asks P e -> bs_made c e (um_sch (st_um s)) evs -> dl_run evs (um_sch (st_um s)) = Ok (lg, s') ->
  Forall steal_fair evs /\ Forall2 (holds P) (flat_map (steal_wish k) lg) (to_steal k v [e]).
Proof.
  intros FP G SW M D.
  assert (NO : Forall wishless evs -> to_steal k v [e] = [] -> Forall steal_fair evs /\ Forall2 (holds P) (flat_map (steal_wish k) lg) (to_steal k v [e])).
  { intros WL ->. split; [exact (wishless_fair _ WL)|]. rewrite (quiet_steals k _ _ _ _ WL D). constructor. }
  destruct e as [cn t|ts bits|r|ts data|x]; cbn [bs_made made asks] in *.
  - apply NO; [|reflexivity]. destruct M as [->|(on & ->)]; repeat constructor.
  - apply NO; [|reflexivity]. eapply Forall_impl; [|exact M]. intros y H. destruct y; try contradiction H; exact Logic.I.
  - destruct G as (_ & (cn & _ & SH) & _). destruct M as [(p & ST & -> & _)|(ts & raf & b & ST & ET & EB & ->)].
    + apply NO; [repeat constructor|]. cbn [to_steal]. destruct (tr_steal r) eqn:E; [rewrite (target_chosen c cn v _ r None SH E (ST eq_refl)); reflexivity|]. unfold target. now rewrite E.
    + destruct (FP r (SW ST)) as (OK & L). destruct (StealProofs.stch_spec raf r OK) as (_ & HS). destruct (HS L) as (b' & EB' & WB & _). assert (b' = b) as -> by congruence. split; [exact (Forall_cons _ (Logic.I : steal_fair (DvTakeRa _ _)) (Forall_cons _ (WB : steal_fair (DvSteal ts b _)) (Forall_nil _)))|].
      cbn [dl_run] in D. bi D. destruct x as [[o m] sx]. bi D. destruct x as [l1 s1]. bi E0. destruct x as [[o2 m2] s2]. cbn [bind] in E0. injection E0 as <- _. injection D as <- _.
      cbn [flat_map to_steal fst snd steal_wish]. unfold steal_wish. cbn [fst snd app]. rewrite (target_chosen c cn v _ r (Some ts) SH ST ET), !app_nil_r. destruct (ts =? k); [|constructor]. constructor; [|constructor].
      exists r, raf, b. split; [exact (SW ST)|]. split; [exact EB|]. split; reflexivity.
  - apply NO; [|reflexivity]. destruct M as [->|(b & ->)]; repeat constructor.
  - apply NO; [|destruct x; reflexivity]. eapply Forall_impl; [|exact M]. intros y H. destruct y; try contradiction H; exact Logic.I.
Qed.

(** * The history *)
Definition robbed (P : tma_req -> Prop) (c : cell_cfg) (k : nat) (s : station) (log : bs_log) : Prop := exists code t p evs lg,
  dl_run (DvStart t :: evs) (dls_new code p) = Ok (lg, um_sch (st_um s)) /\ Forall steal_fair evs /\ snatches c k log (flat_map (stolen_slot k) lg) /\
  Forall2 (holds P) (flat_map (steal_wish k) lg) (to_steal k (fun _ => idle_ts) (events_of log)).
Lemma run_robbed P c k evs : fitting P -> 1 <= k <= 4 -> cell_ok c = true -> forall v s s' log pre, Forall bs_fine evs -> Forall (asks P) evs -> good c v s -> v = fold_left told1 (events_of pre) (fun _ => idle_ts) ->
  bs_run c evs s = Ok (s', log) -> robbed P c k s pre -> good c (fold_left told1 evs v) s' /\ robbed P c k s' (pre ++ log).
Proof.
  intros FP K CO. induction evs as [|e evs IH]; intros v s s' log pre F AP G EV E T; cbn [bs_run] in E; [injection E as <- <-; now rewrite app_nil_r|].
  apply bind_inv in E. destruct E as (((s1 & xs) & ws) & E1 & E). apply bind_inv in E. destruct E as ((s2 & lg) & E2 & E). injection E as <- <-.
  change ((e, xs, ws) :: lg) with ([(e, xs, ws)] ++ lg). rewrite app_assoc. destruct (step_good c e v s s1 xs ws CO (Forall_inv F) G E1) as (G1 & A).
  refine (IH (told1 v e) s1 s2 lg (pre ++ [(e, xs, ws)]) (Forall_inv_tail F) (Forall_inv_tail AP) G1 _ E2 _).
  - unfold events_of. rewrite map_app, fold_left_app. cbn [map fst fold_left]. unfold events_of in EV. now rewrite <- EV.
  - destruct T as (code & t & p & evs0 & lg0 & D & FA & R & W). destruct (bs_step_made c e v s s1 xs ws CO (Forall_inv F) G E1) as (evs1 & lg1 & M & D1 & L).
    destruct (step_steals P c v k e s _ evs1 lg1 FP G (Forall_inv AP) M D1) as (F1 & U1).
    exists code, t, p, (evs0 ++ evs1), (lg0 ++ lg1). split; [exact (run_app (DvStart t :: evs0) _ _ _ _ _ _ D D1)|]. split; [apply Forall_app; now split|].
    split; [assert (X : flat_map (stolen_slot k) (lg0 ++ lg1) = flat_map (stolen_slot k) lg0 ++ flat_map (slot_stolen k) (slots_of xs)) by (rewrite <- L, <- (stolen_slots k lg1); apply flat_map_app); rewrite X; exact (snatches_app c k _ _ _ _ R (step_snatches c k e v s s1 xs ws (proj1 K) A))|].
    rewrite flat_map_app. unfold events_of. rewrite map_app, steal_app. apply Forall2_app; [exact W|]. unfold events_of in EV. cbn [map fst]. rewrite <- EV. exact U1.
Qed.
Lemma first_robbed P c k cn0 s0 cn t s1 xs ws : 1 <= k <= 4 -> cell_ok c = true -> station_new c cn0 = Ok s0 -> vtime t -> bs_step c (BeTick cn t) s0 = Ok (s1, xs, ws) ->
  good c (fun _ => idle_ts) s1 /\ robbed P c k s1 [(BeTick cn t, xs, ws)].
Proof.
  intros K CO EN V E1. destruct (first_trace c k cn0 s0 cn t s1 xs ws K CO EN V E1) as (G1 & (code & t0 & p & l & lg0 & D & _ & (_ & MS) & _ & -> & _)). split; [exact G1|].
  exists code, t0, p, [], lg0. split; [exact D|]. split; [constructor|].
  destruct (AirFacts.new_station c cn0 s0 CO EN) as (EU & M & T & EL).
  destruct (tick_good c cn t (fun _ => idle_ts) s0 s1 xs ws CO M T V) as (_ & A); [now rewrite EL|now rewrite EL|intros u' o m ES; exact (proj1 (UmacSched.first_tick _ _ _ _ _ _ _ _ EU V ES))|exact E1|].
  split.
  - rewrite stolen_slots, MS. unfold sent. cbn [flat_map fst snd]. rewrite app_nil_r. exact (step_snatches c k (BeTick cn t) _ s0 s1 xs ws (proj1 K) A).
  - pose proof (log_events _ _ _ _ D) as LE. destruct lg0 as [|x [|]]; try discriminate LE. cbn [map] in LE. injection LE as LE. cbn [flat_map]. unfold steal_wish. rewrite LE. constructor.
Qed.
Lemma history_robbed P c k s log : fitting P -> 1 <= k <= 4 -> cell_ok c = true -> bs_reached c s log -> Forall (asks P) (events_of log) -> good c (bs_told (events_of log)) s /\ robbed P c k s log.
Proof.
  intros FP K CO BR SW. split; [exact (proj1 (AirFacts.reached_good c s log CO BR))|]. destruct BR as (cn0 & s0 & cn & t & evs & EN & V & F & E). cbn [bs_run] in E. apply bind_inv in E. destruct E as (((s1 & xs) & ws) & E1 & E). apply bind_inv in E. destruct E as ((s2 & lg) & E2 & E). injection E as <- <-.
  destruct (first_robbed P c k cn0 s0 cn t s1 xs ws K CO EN V E1) as (G1 & T). change ((BeTick cn t, xs, ws) :: lg) with ([(BeTick cn t, xs, ws)] ++ lg).
  assert (EV : events_of lg = evs). { clear - E2. revert s1 s2 lg E2. induction evs as [|e evs IH]; intros s1 s2 lg E; cbn [bs_run] in E; [injection E as <- <-; reflexivity|]. apply bind_inv in E. destruct E as (((s3 & x) & w) & _ & E). apply bind_inv in E. destruct E as ((s4 & l) & E2 & E). injection E as <- <-. unfold events_of. cbn [map fst]. f_equal. exact (IH _ _ _ E2). }
  refine (proj2 (run_robbed P c k evs FP K CO _ s1 s2 lg [(BeTick cn t, xs, ws)] F _ G1 eq_refl E2 T)). unfold events_of in *. cbn [map] in SW. rewrite EV in SW. exact (Forall_inv_tail SW).
Qed.
Lemma wins_waiting k s q : 1 <= k <= 4 -> get_q k (um_sch (st_um s)) = Ok q -> map (fun x => window (fst x)) (steals q) = waiting k s.
Proof.
  intros K E. unfold waiting, get_q, UmacCircuits.ts_get in *. destruct k as [|i]; [lia|]. replace (S i - 1) with i by lia. destruct (nth_error (ds_q (um_sch (st_um s))) i) as [y|] eqn:N; cbn in E; [|discriminate E]. injection E as ->. now rewrite (nth_error_nth _ _ _ N).
Qed.
(** Every message stolen is heard once, in the order asked. *)
Lemma stolen_held P c k s log : fitting P -> 1 <= k <= 4 -> cell_ok c = true -> bs_reached c s log -> Forall (asks P) (events_of log) ->
  exists halves, snatches c k log halves /\ Forall2 (holds P) (halves ++ waiting k s) (to_steal k (fun _ => idle_ts) (events_of log)).
Proof.
  intros FP K CO BR SW. destruct (history_robbed P c k s log FP K CO BR SW) as (_ & code & t & p & evs & lg & D & FA & R & U).
  exists (flat_map (stolen_slot k) lg). split; [exact R|]. destruct (C20_queue_proof k t code p evs lg _ K FA D) as (q & EQ & H). rewrite <- (wins_waiting k s q K EQ), H. exact U.
Qed.
Lemma all2_impl {A B} (P Q : A -> B -> Prop) : (forall a b, P a b -> Q a b) -> forall l m, Forall2 P l m -> Forall2 Q l m.
Proof. intros H l m F. induction F; constructor; auto. Qed.
Definition fit (r : tma_req) : Prop := steal_ok r /\ steal_size r <= half_slot.
Definition well (r : tma_req) : Prop := steal_ok r /\ steal_size r <= half_slot /\ steal_size r mod 8 = 0.
Definition short (r : tma_req) : Prop := steal_ok r /\ steal_size r <= 120.
Lemma fit_fits : fitting fit.
Proof. intros r H. exact H. Qed.
Lemma well_fits : fitting well.
Proof. intros r (A & B & _). now split. Qed.
Lemma short_fits : fitting short.
Proof. intros r (A & B). split; [exact A|unfold half_slot; lia]. Qed.
Lemma well_fit evs : Forall steals_well evs -> Forall steals_fit evs.
Proof. apply Forall_impl. intros e. destruct e; try exact (fun H => H). unfold steals_well, steals_fit. tauto. Qed.
Lemma holds_well half m : holds well half m -> understood half m.
Proof. intros (r & raf & b & (OK & L & M) & EB & -> & ->). exists (header (steal_header raf r)). split; [exact (StealProofs.steal_exact raf r b OK L M EB)|exact (header_addr raf r)]. Qed.
Lemma holds_short half m : holds short half m -> begun half m.
Proof.
  intros (r & raf & b & (OK & L) & EB & -> & ->). assert (L' : steal_size r <= half_slot) by (unfold half_slot; lia). destruct (Nat.eq_dec (steal_size r mod 8) 0) as [M|M].
  - exists (header (steal_header raf r)), (window (tr_sdu r)), []. split; [exact (StealProofs.steal_exact raf r b OK L' M EB)|]. split; [exact (header_addr raf r)|]. cbn [snd]. now rewrite app_nil_r.
  - pose proof (StealProofs.steal_other raf r b OK L' M EB) as E. destruct (Nat.leb_spec (steal_size r) 120); [|lia]. exists (header (steal_header raf r)), (FragSpec.strip (window (tr_sdu r))), (skipn (length (FragSpec.strip (window (tr_sdu r)))) (window (tr_sdu r))).
    split; [exact E|]. split; [exact (header_addr raf r)|]. cbn [snd]. pose proof (UlBlockProofs.strip_prefix (window (tr_sdu r))) as SP. set (n := length (FragSpec.strip (window (tr_sdu r)))) in *. rewrite SP. symmetry. apply firstn_skipn.
Qed.
Lemma stolen_heard c k s log : 1 <= k <= 4 -> cell_ok c = true -> bs_reached c s log -> Forall steals_well (events_of log) ->
  exists halves, snatches c k log halves /\ Forall2 understood (halves ++ waiting k s) (to_steal k (fun _ => idle_ts) (events_of log)).
Proof. intros K CO BR SW. destruct (stolen_held well c k s log well_fits K CO BR SW) as (hs & SN & U). exists hs. split; [exact SN|]. exact (all2_impl _ _ holds_well _ _ U). Qed.
Lemma stolen_begun c k s log : 1 <= k <= 4 -> cell_ok c = true -> bs_reached c s log -> Forall steals_short (events_of log) ->
  exists halves, snatches c k log halves /\ Forall2 begun (halves ++ waiting k s) (to_steal k (fun _ => idle_ts) (events_of log)).
Proof. intros K CO BR SW. destruct (stolen_held short c k s log short_fits K CO BR SW) as (hs & SN & U). exists hs. split; [exact SN|]. exact (all2_impl _ _ holds_short _ _ U). Qed.
(** The oldest is heard in the next slot of a call. *)
Lemma stolen_next c k s log cn t s' xs ws h rest : 1 <= k <= 4 -> cell_ok c = true -> bs_reached c s log -> Forall steals_fit (events_of log) ->
  waiting k s = h :: rest -> vw_dl (bs_told (events_of log) k) <> None -> bs_step c (BeTick cn t) s = Ok (s', xs, ws) -> ts_of (add_timeslots t 1) = k -> tm_f (add_timeslots t 1) <> 18%Z ->
  waiting k s' = rest /\ exists w msg2 acc, ws = [b2b w] /\ AirSpec.on_air (code_of c) KStolen h msg2 acc w.
Proof.
  intros K CO BR SW WT VD E TK F18. destruct (history_robbed fit c k s log fit_fits K CO BR SW) as (G & code & t0 & p & evs & lg & D & FA & _).
  destruct (step_good c (BeTick cn t) _ s s' xs ws CO Logic.I G E) as (_ & A). destruct (bs_step_made c (BeTick cn t) _ s s' xs ws CO Logic.I G E) as (evs1 & lg1 & M & D1 & L).
  destruct A as (no & kk & m & x & w & EX & -> & EK & OA & _ & PN & _ & (TS & _) & _). rewrite EX, (AirFacts.slots_tick (UeTick cn t) no kk m PN) in L.
  assert (P : exists evs0 lg0 sx m0, Forall steal_fair evs0 /\ dl_run (DvStart t0 :: evs0) (dls_new code p) = Ok (lg0, sx) /\ dl_step DvTick sx = Ok (Some kk, m0, um_sch (st_um s')) /\
    ds_q sx = ds_q (um_sch (st_um s)) /\ circuit_is_active DirDl k sx = circuit_is_active DirDl k (um_sch (st_um s))).
  { cbn [bs_made made] in M. destruct M as [->|(on & ->)].
    - cbn [dl_run] in D1. bi D1. destruct x0 as [[o m0] sx]. cbn [bind] in D1. injection D1 as <- <-. cbn [made_slots flat_map fst snd] in L. destruct o; [|discriminate L]. injection L as ->. exists evs, lg, (um_sch (st_um s)), m0. auto.
    - cbn [dl_run] in D1. bi D1. destruct x0 as [[o1 m1] sx]. bi D1. destruct x0 as [l2 s2]. bi E1. destruct x0 as [[o m0] s3]. cbn [bind] in E1. injection E1 as <- <-. injection D1 as <- <-. cbn [dl_step] in E0. injection E0 as <- <- <-.
      cbn [made_slots flat_map fst snd app] in L. destruct o; [|discriminate L]. injection L as ->. exists (evs ++ [DvSws on]), (lg ++ [(DvSws on, None, [])]), (set_sws on (um_sch (st_um s))), m0.
      split; [apply Forall_app; split; [exact FA|repeat constructor]|]. split; [apply (run_app (DvStart t0 :: evs) [DvSws on] _ _ _ _ _ D); reflexivity|]. split; [exact E2|]. split; reflexivity. }
  destruct P as (evs0 & lg0 & sx & m0 & F0 & D0 & ET & EQ & EC). destruct G as (_ & (cn1 & _ & SH) & _).
  assert (CA : circuit_is_active DirDl k sx = Ok true). { rewrite EC, (proj1 (active_view c cn1 _ _ DirDl k SH K) eq_refl). destruct (vw_dl _); [reflexivity|now destruct VD]. }
  destruct (C20_queue_proof k t0 code p evs0 lg0 sx K F0 D0) as (q & GQ & _). assert (GQ' : get_q k (um_sch (st_um s)) = Ok q) by (unfold get_q in *; now rewrite <- EQ).
  pose proof (wins_waiting k s q K GQ') as WW. rewrite WT in WW. destruct (steals q) as [|(b & rep) rs] eqn:SQ; [discriminate WW|]. injection WW as <- WR.
  destruct (C20_slot_proof k t0 code p evs0 lg0 sx q b rep rs kk m0 _ K F0 D0 GQ SQ ET) as (CH & WB & _ & _ & q' & GQ1 & SQ'); [rewrite TS, for_ts_of, TK, Nat.eqb_refl by lia; reflexivity|rewrite TS; exact F18|exact CA|].
  split; [rewrite <- (wins_waiting k s' q' K GQ1), SQ'; exact WR|]. exists w, (second_of kk), (window (bk_buf (sl_bbk kk))). split; [reflexivity|]. rewrite <- WB.
  assert (x = KStolen) as <-; [|exact OA]. clear - EK CH. unfold kind_of in EK. rewrite CH in EK. destruct (option_map bk_chan (sl_blk2 kk)) as [[]|]; try discriminate EK. now injection EK.
Qed.
(** When time passes and the call lasts, all are heard. *)
Lemma join_run c a : forall b s s1 s2 la lb, bs_run c a s = Ok (s1, la) -> bs_run c b s1 = Ok (s2, lb) -> bs_run c (a ++ b) s = Ok (s2, la ++ lb).
Proof.
  induction a as [|e a IH]; intros b s s1 s2 la lb A B; cbn [bs_run app] in *; [injection A as -> <-; exact B|]. apply bind_inv in A. destruct A as (((s3 & xs) & ws) & E1 & A). apply bind_inv in A. destruct A as ((s4 & lg) & E2 & A). injection A as <- <-.
  rewrite E1. cbn [bind]. rewrite (IH b s3 s4 s2 lg lb E2 B). reflexivity.
Qed.
Lemma reached_join c s log evs s' more : bs_reached c s log -> Forall bs_fine evs -> bs_run c evs s = Ok (s', more) -> bs_reached c s' (log ++ more).
Proof.
  intros (cn0 & s0 & cn & t & evs0 & EN & V & F & E) F' E'. exists cn0, s0, cn, t, (evs0 ++ evs). split; [exact EN|]. split; [exact V|]. split; [apply Forall_app; now split|]. exact (join_run c (BeTick cn t :: evs0) evs s0 s s' log more E E').
Qed.
Lemma tick_waiting c k s log cn t s' xs ws : 1 <= k <= 4 -> cell_ok c = true -> bs_reached c s log -> Forall steals_fit (events_of log) -> bs_step c (BeTick cn t) s = Ok (s', xs, ws) ->
  length (waiting k s') <= length (waiting k s).
Proof.
  intros K CO BR SW E. destruct (history_robbed fit c k s log fit_fits K CO BR SW) as (G & code & t0 & p & evs & lg & D & FA & _). destruct (bs_step_made c (BeTick cn t) _ s s' xs ws CO Logic.I G E) as (evs1 & lg1 & M & D1 & _).
  assert (WL : Forall wishless evs1) by (cbn [bs_made made] in M; destruct M as [->|(on & ->)]; repeat constructor).
  destruct (C20_queue_proof k t0 code p evs lg _ K FA D) as (q & GQ & H). rewrite (wins_waiting k s q K GQ) in H.
  assert (F2 : Forall steal_fair (evs ++ evs1)) by (apply Forall_app; split; [exact FA|exact (wishless_fair _ WL)]).
  destruct (C20_queue_proof k t0 code p (evs ++ evs1) (lg ++ lg1) _ K F2 (run_app (DvStart t0 :: evs) _ _ _ _ _ _ D D1)) as (q' & GQ' & H'). rewrite (wins_waiting k s' q' K GQ') in H'.
  assert (X1 : flat_map (stolen_slot k) (lg ++ lg1) = flat_map (stolen_slot k) lg ++ flat_map (stolen_slot k) lg1) by apply flat_map_app.
  assert (X2 : flat_map (steal_wish k) (lg ++ lg1) = flat_map (steal_wish k) lg ++ flat_map (steal_wish k) lg1) by apply flat_map_app.
  rewrite X1, X2, (quiet_steals k _ _ _ _ WL D1), app_nil_r, <- H, <- app_assoc in H'. apply app_inv_head in H'. rewrite <- H', app_length. lia.
Qed.
Lemma ticks_waiting c k cns : 1 <= k <= 4 -> cell_ok c = true -> forall now s log s' more, bs_reached c s log -> Forall steals_fit (events_of log) -> vw_dl (bs_told (events_of log) k) <> None -> bs_run c (ticking cns now) s = Ok (s', more) ->
  bs_reached c s' (log ++ more) /\ Forall steals_fit (events_of (log ++ more)) /\ vw_dl (bs_told (events_of (log ++ more)) k) <> None /\ events_of more = ticking cns now /\ length (waiting k s') <= length (waiting k s) /\
  (forall i, i < length cns -> ts_of (add_timeslots now (Z.of_nat i + 2)) = k -> tm_f (add_timeslots now (Z.of_nat i + 2)) <> 18%Z -> length (waiting k s') = 0 \/ length (waiting k s') < length (waiting k s)).
Proof.
  intros K CO. induction cns as [|cn cns IH]; intros now s log s' more BR SW VD E; cbn [ticking bs_run] in E.
  - injection E as <- <-. rewrite app_nil_r. split; [exact BR|]. split; [exact SW|]. split; [exact VD|]. split; [reflexivity|]. split; [lia|]. intros i H. cbn [length] in H. lia.
  - apply bind_inv in E. destruct E as (((s1 & xs) & ws) & E1 & E). apply bind_inv in E. destruct E as ((s2 & lg) & E2 & E). injection E as <- <-.
    pose proof (tick_waiting c k s log cn _ s1 xs ws K CO BR SW E1) as L1. set (x := (BeTick cn (add_timeslots now 1), xs, ws)) in *.
    assert (BR1 : bs_reached c s1 (log ++ [x])) by (apply (reached_join c s log [BeTick cn (add_timeslots now 1)] s1 [x] BR); [constructor; [exact Logic.I|constructor]|cbn [bs_run]; rewrite E1; reflexivity]).
    assert (EV1 : events_of (log ++ [x]) = events_of log ++ [BeTick cn (add_timeslots now 1)]) by (unfold events_of; rewrite map_app; reflexivity).
    assert (SW1 : Forall steals_fit (events_of (log ++ [x]))) by (rewrite EV1; apply Forall_app; split; [exact SW|constructor; [exact Logic.I|constructor]]).
    assert (VD1 : vw_dl (bs_told (events_of (log ++ [x])) k) <> None) by (rewrite EV1; unfold bs_told; rewrite fold_left_app; exact VD).
    destruct (IH _ s1 _ s2 lg BR1 SW1 VD1 E2) as (A1 & A2 & A3 & A4 & L2 & H2). rewrite <- app_assoc in A1, A2, A3. cbn [app] in A1, A2, A3. split; [exact A1|]. split; [exact A2|]. split; [exact A3|]. split; [unfold events_of in *; cbn [map fst ticking]; rewrite A4; reflexivity|]. split; [lia|].
    intros i HI HT HF. destruct i as [|i].
    + change (Z.of_nat 0 + 2)%Z with (1 + 1)%Z in HT, HF. rewrite <- add_add in HT, HF. destruct (waiting k s) as [|h r] eqn:EW; [left; cbn [length] in L1; lia|]. destruct (stolen_next c k s log cn _ s1 xs ws h r K CO BR SW EW VD E1 HT HF) as (W1 & _). right. rewrite W1 in L2. cbn [length]. lia.
    + destruct (H2 i) as [H|H]; [cbn [length] in HI; lia| | |left; exact H|right; lia].
      * rewrite add_add. replace (1 + (Z.of_nat i + 2))%Z with (Z.of_nat (S i) + 2)%Z by lia. exact HT.
      * rewrite add_add. replace (1 + (Z.of_nat i + 2))%Z with (Z.of_nat (S i) + 2)%Z by lia. exact HF.
Qed.
Lemma all_stolen c k : 1 <= k <= 4 -> cell_ok c = true -> forall n cns now s log s' more, length (waiting k s) <= n -> 8 * n <= length cns -> bs_reached c s log -> Forall steals_fit (events_of log) -> vw_dl (bs_told (events_of log) k) <> None ->
  bs_run c (ticking cns now) s = Ok (s', more) -> waiting k s' = [].
Proof.
  intros K CO. induction n as [|n IH]; intros cns now s log s' more HW HL BR SW VD E.
  - destruct (ticks_waiting c k cns K CO now s log s' more BR SW VD E) as (_ & _ & _ & _ & L & _). apply length_zero_iff_nil. lia.
  - destruct (ticking_app (firstn 8 cns) (skipn 8 cns) now) as (now' & EA). rewrite firstn_skipn in EA. rewrite EA in E. destruct (bs_run_app c _ _ s s' more E) as (s1 & l1 & l2 & E1 & E2 & ->).
    destruct (ticks_waiting c k _ K CO now s log s1 l1 BR SW VD E1) as (BR1 & SW1 & VD1 & _ & L1 & H). destruct (soon now k K) as (i & HI & HT & HF).
    assert (H' : length (waiting k s1) = 0 \/ length (waiting k s1) < length (waiting k s)). { apply (H i); [rewrite firstn_length; lia|exact HT|exact HF]. }
    refine (IH (skipn 8 cns) now' s1 (log ++ l1) s' l2 ltac:(lia) _ BR1 SW1 VD1 E2). rewrite skipn_length. lia.
Qed.
Lemma ticks_steal k cns : forall v now, to_steal k v (ticking cns now) = [].
Proof. induction cns as [|x cns IH]; intros v now; [reflexivity|]. cbn [ticking to_steal]. apply IH. Qed.
Lemma stolen_all_heard c k s log cns now s' more : 1 <= k <= 4 -> cell_ok c = true -> bs_reached c s log -> Forall steals_well (events_of log) -> vw_dl (bs_told (events_of log) k) <> None ->
  8 * length (waiting k s) <= length cns -> bs_run c (ticking cns now) s = Ok (s', more) ->
  exists halves, snatches c k (log ++ more) halves /\ Forall2 understood halves (to_steal k (fun _ => idle_ts) (events_of log)).
Proof.
  intros K CO BR SW VD HL E. pose proof (well_fit _ SW) as SF. destruct (ticks_waiting c k cns K CO now s log s' more BR SF VD E) as (BR1 & _ & _ & EV & _).
  assert (SW1 : Forall steals_well (events_of (log ++ more))). { unfold events_of in *. rewrite map_app, EV. apply Forall_app. split; [exact SW|]. clear. revert now. induction cns as [|x cns IH]; intros now; constructor; [exact Logic.I|apply IH]. }
  pose proof (all_stolen c k K CO _ cns now s log s' more (le_n _) HL BR SF VD E) as W0.
  destruct (stolen_heard c k s' (log ++ more) K CO BR1 SW1) as (halves & SN & U). exists halves. split; [exact SN|]. rewrite W0, app_nil_r in U. unfold events_of in U at 1. rewrite map_app in U. fold (events_of log) in U. fold (events_of more) in U. rewrite steal_app, EV, ticks_steal, app_nil_r in U. exact U.
Qed.

(** * Examples *)
Lemma run_snatches c k evs : 1 <= k -> cell_ok c = true -> forall v s s' log, Forall bs_fine evs -> good c v s -> bs_run c evs s = Ok (s', log) -> snatches c k log (flat_map (slot_stolen k) (sent log)).
Proof.
  intros K CO. induction evs as [|e evs IH]; intros v s s' log F G E; cbn [bs_run] in E; [injection E as <- <-; constructor|].
  apply bind_inv in E. destruct E as (((s1 & xs) & ws) & E1 & E). apply bind_inv in E. destruct E as ((s2 & lg) & E2 & E). injection E as <- <-. destruct (step_good c e v s s1 xs ws CO (Forall_inv F) G E1) as (G1 & A).
  unfold sent. cbn [flat_map fst snd]. rewrite flat_map_app. change (snatches c k ([(e, xs, ws)] ++ lg) (flat_map (slot_stolen k) (slots_of xs) ++ flat_map (slot_stolen k) (sent lg))).
  apply snatches_app; [exact (step_snatches c k e v s s1 xs ws K A)|exact (IH _ s1 s2 lg (Forall_inv_tail F) G1 E2)].
Qed.
Lemma reached_snatches c k s log : 1 <= k -> cell_ok c = true -> bs_reached c s log -> snatches c k log (flat_map (slot_stolen k) (sent log)).
Proof.
  intros K CO (cn0 & s0 & cn & t & evs & EN & V & F & E). cbn [bs_run] in E. apply bind_inv in E. destruct E as (((s1 & xs) & ws) & E1 & E). apply bind_inv in E. destruct E as ((s2 & lg) & E2 & E). injection E as <- <-.
  destruct (AirFacts.new_station c cn0 s0 CO EN) as (EU & M & T & EL).
  destruct (tick_good c cn t (fun _ => idle_ts) s0 s1 xs ws CO M T V) as (G1 & A); [now rewrite EL|now rewrite EL|intros u' o m ES; exact (proj1 (UmacSched.first_tick _ _ _ _ _ _ _ _ EU V ES))|exact E1|].
  unfold sent. cbn [flat_map fst snd]. rewrite flat_map_app. change (snatches c k ([(BeTick cn t, xs, ws)] ++ lg) (flat_map (slot_stolen k) (slots_of xs) ++ flat_map (slot_stolen k) (sent lg))).
  apply snatches_app; [exact (step_snatches c k (BeTick cn t) _ s0 s1 xs ws K A)|exact (run_snatches c k evs K CO _ s1 s2 lg F G1 E2)].
Qed.
Definition ex_t1 : tdma_time := mk_time 1 1 1 0.
Definition ex_one : tma_req := ex_steal 55 ex_chan.
Definition ex_two : tma_req := ex_steal 21 None.
(** a call on timeslot 2 from which two messages are stolen, the first by name *)
Definition ex_call (n : nat) : list um_event := [UeControl (CallControl.CtlOpen DirBoth 2 5); UeSend ex_one; UeSend ex_two] ++ map ex_later (seq 1 n).
(** the call ends before its message is sent, and there is another *)
Definition ex_next : list um_event :=
  [UeControl (CallControl.CtlOpen DirBoth 2 5); UeSend ex_one; UeControl (CallControl.CtlClose DirBoth 2); UeControl (CallControl.CtlCallEnded 7 2)] ++ map ex_later (seq 1 8) ++
  [UeControl (CallControl.CtlOpen DirBoth 2 6)] ++ map ex_later (seq 9 4).
Lemma one_well : steals_well (BeSend ex_one).
Proof. intros _. split; [apply ex_steal_ok; right; reflexivity|]. split; [apply Nat.leb_le; vm_compute; reflexivity|vm_compute; reflexivity]. Qed.
Lemma two_well : steals_well (BeSend ex_two).
Proof. intros _. split; [apply ex_steal_ok; left; reflexivity|]. split; [apply Nat.leb_le; vm_compute; reflexivity|vm_compute; reflexivity]. Qed.
Lemma all_later (P : um_event -> Prop) a n : (forall t, P (UeTick false t)) -> Forall P (map ex_later (seq a n)).
Proof. intros H. apply Forall_forall. intros x IN. apply in_map_iff in IN. destruct IN as (y & <- & _). apply H. Qed.
Lemma stolen_run (Q : bs_event -> Prop) evs f : Q (BeTick false ex_t1) -> Forall AirFacts.no_radio evs -> Forall (fun e => bs_fine (AirFacts.be_of e)) evs -> Forall (fun e => Q (AirFacts.be_of e)) evs ->
  match umac_new DlFacts.ex_cell false with Ok u0 => match um_run DlFacts.ex_cell (UeTick false ex_t1 :: evs) u0 with
    | Ok (u, log) => Some (flat_map (slot_stolen 2) (flat_map (fun x => slots_in (snd (fst x))) log), map (fun x => window (fst x)) (steals (nth 1 (ds_q (um_sch u)) [])))
    | _ => None end | _ => None end = Some f ->
  exists s log, bs_reached DlFacts.ex_cell s log /\ events_of log = map AirFacts.be_of (UeTick false ex_t1 :: evs) /\ Forall Q (events_of log) /\ snatches DlFacts.ex_cell 2 log (fst f) /\ waiting 2 s = snd f.
Proof.
  intros Q1 N F W H. destruct (umac_new DlFacts.ex_cell false) as [u0| |] eqn:EN; try discriminate H. destruct (um_run _ _ u0) as [[u ulog]| |] eqn:E; try discriminate H. injection H as <-.
  destruct (AirFacts.lifted DlFacts.ex_cell false u0 false ex_t1 evs u ulog eq_refl EN) as (s & log & BR & U & L & EV); [unfold vtime; cbn; lia|exact N|apply Forall_map; exact F|exact E|].
  exists s, log. split; [exact BR|]. split; [exact EV|]. split; [rewrite EV; constructor; [exact Q1|apply Forall_map; exact W]|]. cbn [fst snd].
  split; [|unfold waiting; now rewrite U]. pose proof (reached_snatches DlFacts.ex_cell 2 s log ltac:(lia) eq_refl BR) as R. rewrite AirFacts.sent_flat, L in R. exact R.
Qed.
Lemma call_fine n : Forall AirFacts.no_radio (ex_call n) /\ Forall (fun e => bs_fine (AirFacts.be_of e)) (ex_call n) /\ Forall (fun e => steals_well (AirFacts.be_of e)) (ex_call n).
Proof.
  unfold ex_call. rewrite !Forall_app. split; [|split]; (split; [|apply all_later; intros; exact Logic.I]).
  - do 3 (constructor; [exact Logic.I|]). constructor.
  - constructor; [reflexivity|]. do 2 (constructor; [exact Logic.I|]). constructor.
  - constructor; [exact Logic.I|]. constructor; [exact one_well|]. constructor; [exact two_well|constructor].
Qed.
Definition ex_both : list (option tetra_addr * list bool) := [(Some (MacSpec.on_air (tr_addr ex_one)), window (tr_sdu ex_one)); (Some (MacSpec.on_air (tr_addr ex_two)), window (tr_sdu ex_two))].
Definition ex_half (r : tma_req) : list bool := match stch_block false r with Ok b => window b | _ => [] end.
Lemma half_understood r : tr_steal r = true -> steals_well (BeSend r) -> understood (ex_half r) (Some (MacSpec.on_air (tr_addr r)), window (tr_sdu r)).
Proof. intros T W. destruct (W T) as (O1 & L1 & M1). destruct (C20_block_proof false r O1 L1 M1) as (b1 & B1 & _ & _ & I1). unfold ex_half. rewrite B1. exists (header (steal_header false r)). split; [exact I1|reflexivity]. Qed.
(** After five slots one has been heard and one waits. *)
Lemma ex_stolen : exists s log, bs_reached DlFacts.ex_cell s log /\ Forall steals_well (events_of log) /\ snatches DlFacts.ex_cell 2 log [ex_half ex_one] /\ waiting 2 s = [ex_half ex_two] /\
  to_steal 2 (fun _ => idle_ts) (events_of log) = ex_both /\ Forall2 understood [ex_half ex_one; ex_half ex_two] ex_both.
Proof.
  destruct (call_fine 4) as (N & F & W). destruct (stolen_run steals_well (ex_call 4) ([ex_half ex_one], [ex_half ex_two]) Logic.I N F W) as (s & log & BR & EV & SW & SN & WT); [vm_compute; reflexivity|]. exists s, log.
  split; [exact BR|]. split; [exact SW|]. split; [exact SN|]. split; [exact WT|]. split; [rewrite EV; vm_compute; reflexivity|].
  constructor; [exact (half_understood ex_one eq_refl one_well)|]. constructor; [exact (half_understood ex_two eq_refl two_well)|constructor].
Qed.
(** One slot earlier both wait; the tick for timeslot 1 sends the first. *)
Lemma ex_due : exists s log s' xs ws, bs_reached DlFacts.ex_cell s log /\ Forall steals_fit (events_of log) /\ waiting 2 s = [ex_half ex_one; ex_half ex_two] /\ vw_dl (bs_told (events_of log) 2) <> None /\
  bs_step DlFacts.ex_cell (BeTick false (add_timeslots ex_t1 4)) s = Ok (s', xs, ws) /\ ts_of (add_timeslots (add_timeslots ex_t1 4) 1) = 2 /\ tm_f (add_timeslots (add_timeslots ex_t1 4) 1) <> 18%Z.
Proof.
  destruct (call_fine 3) as (N & F & W). destruct (umac_new DlFacts.ex_cell false) as [u0| |] eqn:EN; [|exfalso; revert EN; vm_compute; discriminate..].
  assert (R : match um_run DlFacts.ex_cell (UeTick false ex_t1 :: ex_call 3) u0 with Ok (u, _) => match um_step DlFacts.ex_cell (ex_later 4) u with Ok _ => map (fun x => window (fst x)) (steals (nth 1 (ds_q (um_sch u)) [])) | _ => [] end | _ => [] end = [ex_half ex_one; ex_half ex_two]).
  { assert (R : match umac_new DlFacts.ex_cell false with Ok u0 => match um_run DlFacts.ex_cell (UeTick false ex_t1 :: ex_call 3) u0 with Ok (u, _) => match um_step DlFacts.ex_cell (ex_later 4) u with Ok _ => map (fun x => window (fst x)) (steals (nth 1 (ds_q (um_sch u)) [])) | _ => [] end | _ => [] end | _ => [] end = [ex_half ex_one; ex_half ex_two]) by (vm_compute; reflexivity). rewrite EN in R. exact R. }
  destruct (um_run _ _ u0) as [[u ulog]| |] eqn:E; [|discriminate R..]. destruct (um_step DlFacts.ex_cell (ex_later 4) u) as [[[u1 o] m]| |] eqn:ES; [|discriminate R..].
  destruct (AirFacts.lifted DlFacts.ex_cell false u0 false ex_t1 (ex_call 3) u ulog eq_refl EN) as (s & log & BR & U & L & EV); [unfold vtime; cbn; lia|exact N|apply Forall_map; exact F|exact E|].
  rewrite <- U in ES. destruct (AirFacts.lift_step DlFacts.ex_cell (ex_later 4) _ s u1 o m eq_refl Logic.I (proj1 (AirFacts.reached_good DlFacts.ex_cell s log eq_refl BR)) ES) as (s' & ws & B & _).
  exists s, log, s', [(ex_later 4, o, m)], ws. split; [exact BR|]. split; [apply well_fit; rewrite EV; constructor; [exact Logic.I|apply Forall_map; exact W]|]. split; [unfold waiting; rewrite U; exact R|].
  split; [rewrite EV; vm_compute; discriminate|]. split; [exact B|]. split; [vm_compute; reflexivity|vm_compute; discriminate].
Qed.
(** Sixteen slots later both have been heard. *)
Lemma ex_lasts : exists s log s' more, bs_reached DlFacts.ex_cell s log /\ Forall steals_well (events_of log) /\ vw_dl (bs_told (events_of log) 2) <> None /\ 8 * length (waiting 2 s) = 16 /\
  bs_run DlFacts.ex_cell (ticking (repeat false 16) (mk_time 4 1 1 0)) s = Ok (s', more) /\ to_steal 2 (fun _ => idle_ts) (events_of log) = ex_both.
Proof.
  destruct (call_fine 3) as (N & F & W).
  assert (X : exists u0 u log, umac_new DlFacts.ex_cell false = Ok u0 /\ um_run DlFacts.ex_cell (UeTick false ex_t1 :: ex_call 3) u0 = Ok (u, log) /\
     (length (steals (nth 1 (ds_q (um_sch u)) [])), match um_run DlFacts.ex_cell (map ex_later (seq 4 16)) u with Ok (_, l) => length l | _ => 0 end) = (2, 16)) by (apply ran; vm_compute; reflexivity).
  destruct X as (u0 & u & ulog & EN & E & S). assert (HH : forall a a' b b' : nat, (a, b) = (a', b') -> a = a' /\ b = b') by (intros; split; congruence). apply HH in S. destruct S as (S1 & S2).
  destruct (AirFacts.lifted DlFacts.ex_cell false u0 false ex_t1 (ex_call 3) u ulog eq_refl EN) as (s & log & BR & U & L & EV); [unfold vtime; cbn; lia|exact N|apply Forall_map; exact F|exact E|].
  destruct (um_run DlFacts.ex_cell (map ex_later (seq 4 16)) u) as [[u2 l2]| |] eqn:E2; [|discriminate S2..]. rewrite <- U in E2.
  destruct (AirFacts.lift_run DlFacts.ex_cell _ eq_refl (all_later AirFacts.no_radio 4 16 (fun _ => Logic.I)) (proj2 (Forall_map _ _ _) (all_later (fun e => bs_fine (AirFacts.be_of e)) 4 16 (fun _ => Logic.I))) _ s u2 l2 (proj1 (AirFacts.reached_good DlFacts.ex_cell s log eq_refl BR)) E2) as (s' & more & R2 & _).
  exists s, log, s', more. split; [exact BR|]. split; [rewrite EV; constructor; [exact Logic.I|apply Forall_map; exact W]|]. split; [rewrite EV; vm_compute; discriminate|].
  split; [unfold waiting; rewrite U, map_length; change (2 - 1) with 1; rewrite S1; reflexivity|].
  assert (TK : ticking (repeat false 16) (mk_time 4 1 1 0) = map AirFacts.be_of (map ex_later (seq 4 16))) by (vm_compute; reflexivity). rewrite TK. split; [exact R2|]. rewrite EV. vm_compute. reflexivity.
Qed.
(** A message that does not fill whole octets: its last bits are lost. *)
Definition ex_cut : tma_req := ex_steal 20 None.
Definition ex_short : list um_event := [UeControl (CallControl.CtlOpen DirBoth 2 5); UeSend ex_cut] ++ map ex_later (seq 1 4).
Lemma ex_begun : exists s log, bs_reached DlFacts.ex_cell s log /\ Forall steals_short (events_of log) /\ snatches DlFacts.ex_cell 2 log [ex_half ex_cut] /\ waiting 2 s = [] /\
  to_steal 2 (fun _ => idle_ts) (events_of log) = [(Some (MacSpec.on_air (tr_addr ex_cut)), window (tr_sdu ex_cut))] /\ steal_size ex_cut mod 8 <> 0.
Proof.
  assert (P : Forall AirFacts.no_radio ex_short /\ Forall (fun e => bs_fine (AirFacts.be_of e)) ex_short /\ Forall (fun e => steals_short (AirFacts.be_of e)) ex_short).
  { unfold ex_short. rewrite !Forall_app. split; [|split]; (split; [|apply all_later; intros; exact Logic.I]).
    - do 2 (constructor; [exact Logic.I|]). constructor.
    - constructor; [reflexivity|]. constructor; [exact Logic.I|constructor].
    - constructor; [exact Logic.I|]. constructor; [|constructor]. intros _. split; [apply ex_steal_ok; left; reflexivity|apply Nat.leb_le; vm_compute; reflexivity]. }
  destruct P as (N & F & W). destruct (stolen_run steals_short ex_short ([ex_half ex_cut], []) Logic.I N F W) as (s & log & BR & EV & SW & SN & WT); [vm_compute; reflexivity|]. exists s, log.
  split; [exact BR|]. split; [exact SW|]. split; [exact SN|]. split; [exact WT|]. split; [rewrite EV; vm_compute; reflexivity|vm_compute; discriminate].
Qed.
(** * Findings *)
Lemma stale : exists s log half, bs_reached DlFacts.ex_cell s log /\ Forall steals_well (events_of log) /\ events_of log = map AirFacts.be_of (UeTick false ex_t1 :: ex_next) /\
  snatches DlFacts.ex_cell 2 log [half] /\ understood half (Some (MacSpec.on_air (tr_addr ex_one)), window (tr_sdu ex_one)).
Proof.
  assert (P : Forall AirFacts.no_radio ex_next /\ Forall (fun e => bs_fine (AirFacts.be_of e)) ex_next /\ Forall (fun e => steals_well (AirFacts.be_of e)) ex_next).
  { unfold ex_next. rewrite !Forall_app. split; [|split]; (split; [|split; [apply all_later; intros; exact Logic.I|split; [|apply all_later; intros; exact Logic.I]]]).
    - do 4 (constructor; [exact Logic.I|]). constructor.
    - constructor; [exact Logic.I|constructor].
    - constructor; [reflexivity|]. constructor; [exact Logic.I|]. do 2 (constructor; [reflexivity|]). constructor.
    - constructor; [reflexivity|constructor].
    - constructor; [exact Logic.I|]. constructor; [exact one_well|]. do 2 (constructor; [exact Logic.I|]). constructor.
    - constructor; [exact Logic.I|constructor]. }
  destruct P as (N & F & W). destruct (stolen_run steals_well ex_next ([ex_half ex_one], []) Logic.I N F W) as (s & log & BR & EV & SW & SN & _); [vm_compute; reflexivity|].
  exists s, log, (ex_half ex_one). split; [exact BR|]. split; [exact SW|]. split; [exact EV|]. split; [exact SN|exact (half_understood ex_one eq_refl one_well)].
Qed.

(** Facts about the bursts of the base station. *)
From Coq Require Import Arith.
From Verif Require Import Base BitsLib BitBuffer BitBufferProofs BitBufferOps BitBufferFacts Codec TypedFields MacFields MacPdus Layout LayoutProofs MacSpec TdmaTime TdmaTimeProofs TxReceipt VoicePack VoicePackProofs UmacCircuits UmacCircuitsProofs UlSched UlSchedProofs UmacPrecomps UmacBs UlBlockSpec UlBlockPdu UmacSched UlBlockFacts SlotFacts
  ErrorControl ChanSpec LmacSpec LmacFacts Slotter SlotterSpec SlotterProofs DlSched DlSlot SlotSpec SlotProofs SlotRun SlotWf LmacBs BsMac AirSpec AirProofs AirRun.
From Verif Require CallControl Scrambler.
Open Scope nat_scope.

Definition mark (o : option dl_slot) : bool := match o with Some k => sl_ul_tp k | None => false end.
(** what the lower MAC remembers of the history *)
Definition recalls (log : bs_log) (l : lmac) : Prop :=
  last_tick (rev log) = Some (lm_time l) /\ stolen_since (rev log) = lm_stolen l /\
  (forall i, i < 4 -> nth (ts_of (add_timeslots (lm_time l) (1 - Z.of_nat i)) - 1) (lm_tp l) false = mark (nth_error (rev (sent log)) i)) /\
  (forall i k, nth_error (rev (sent log)) i = Some k -> sl_ts k = add_timeslots (lm_time l) (1 - Z.of_nat i)).
Lemma ts_mod x n : ts_of (add_timeslots x n) = Z.to_nat ((to_int x + n) mod 4 + 1).
Proof. unfold ts_of, add_timeslots. rewrite tm_t_from. reflexivity. Qed.
Lemma ts_differ x i : 0 < i < 4 -> ts_of (add_timeslots x (1 - Z.of_nat i)) <> ts_of (add_timeslots x 1).
Proof. intros H. rewrite !ts_mod. lia. Qed.
Lemma ts_range x n : 1 <= ts_of (add_timeslots x n) <= 4.
Proof. rewrite ts_mod. lia. Qed.
Lemma sent_snoc log e xs ws : sent (log ++ [(e, xs, ws)]) = sent log ++ slots_of xs.
Proof. unfold sent. rewrite flat_map_app. cbn [flat_map fst snd]. now rewrite app_nil_r. Qed.
Lemma slots_tick e no k m : plain no -> slots_of [(e, no ++ [OutSlot k], m)] = [k].
Proof. intros P. unfold slots_of. cbn [flat_map fst snd]. unfold slots_in. rewrite flat_map_app. fold (slots_in no). rewrite (plain_slots no P). reflexivity. Qed.
(** a tick, the next one or the first *)
Lemma recalls_tick log l l' cn t xs ws k no m : length (lm_tp l) = 4 -> xs = [(UeTick cn t, no ++ [OutSlot k], m)] -> plain no -> sl_ts k = add_timeslots t 1 ->
  lm_time l' = t -> lm_stolen l' = false -> lm_tp l' = ts_set (lm_tp l) (ts_of (sl_ts k)) (sl_ul_tp k) ->
  ((recalls log l /\ t = add_timeslots (lm_time l) 1) \/ (log = [] /\ lm_tp l = [false; false; false; false])) -> recalls (log ++ [(BeTick cn t, xs, ws)]) l'.
Proof.
  intros L4 -> P TS T ST TP H. unfold recalls. rewrite rev_app_distr, sent_snoc, (slots_tick _ _ _ _ P), rev_app_distr, T. cbn [rev app last_tick stolen_since]. split; [reflexivity|]. split; [now symmetry|].
  rewrite TP, TS.
  assert (OLD : forall i, i < 3 -> nth (ts_of (add_timeslots t (1 - Z.of_nat (Datatypes.S i))) - 1) (lm_tp l) false = mark (nth_error (rev (sent log)) i)).
  { intros i I. destruct H as [((_ & _ & H & _) & ->)|(-> & ->)].
    - rewrite <- (H i) by lia. rewrite add_add. do 4 f_equal. lia.
    - destruct (ts_of _ - 1) as [|[|[|[|[|]]]]]; destruct i; reflexivity. }
  split.
  - intros i I. rewrite (nth_ts_set (lm_tp l) _ _ _ false L4 (ts_range _ _) (ts_range _ _)). destruct i as [|i].
    + cbn [nth_error mark]. change (1 - Z.of_nat 0)%Z with 1%Z. now rewrite Nat.eqb_refl.
    + cbn [nth_error]. pose proof (ts_differ t (Datatypes.S i) ltac:(lia)) as D. apply Nat.eqb_neq in D. rewrite D. apply OLD. lia.
  - intros i k' E. destruct i as [|i]; cbn [nth_error] in E; [injection E as <-; exact TS|].
    destruct H as [((_ & _ & _ & H) & ->)|(-> & _)]; [|destruct i; discriminate E]. rewrite (H i k' E), add_add. f_equal. lia.
Qed.
Lemma recalls_kept log s s' e xs ws : (match e with BeTick _ _ => False | _ => True end) -> kept s s' xs ws -> recalls log (st_lm s) -> recalls (log ++ [(e, xs, ws)]) (st_lm s').
Proof.
  intros N (_ & K2 & K3 & K4 & K5) (R1 & R2 & R3 & R4). unfold recalls. rewrite rev_app_distr, sent_snoc, K2, app_nil_r, K3, K4, K5. cbn [rev app].
  split; [destruct e; try contradiction N; exact R1|]. split; [|split; [exact R3|exact R4]]. destruct e; try contradiction N; cbn [stolen_since]; rewrite R2; apply orb_comm.
Qed.

(** * Whole histories *)
Definition air (c : cell_cfg) (v : nat -> ts_view) (e : bs_event) (xs : list um_entry) (ws : list (list N)) : Prop :=
  match e with
  | BeTick cn t => exists notices k m x w, xs = [(UeTick cn t, notices ++ [OutSlot k], m)] /\ ws = [b2b w] /\ kind_of k = Some x /\
      on_air (code_of c) x (window (bk_buf (sl_blk1 k))) (second_of k) (window (bk_buf (sl_bbk k))) w /\ (burst_true c cn t v w /\ slot_ready k) /\ plain notices /\ slot_true c cn t v k
  | _ => ws = [] /\ slots_of xs = []
  end.
Fixpoint airs (c : cell_cfg) (v : nat -> ts_view) (log : bs_log) : Prop :=
  match log with [] => True | (e, xs, ws) :: r => air c v e xs ws /\ airs c (told1 v e) r end.
Lemma step_airs c e v s s' xs ws : step_air c v e s s' xs ws -> air c v e xs ws.
Proof.
  destruct e; cbn [step_air air]; [|intros (K1 & K2 & _); split; [exact K1|exact K2]..]. intros (no & k & m & x & w & A & B & C & D & E & F & G & H & _). exists no, k, m, x, w.
  split; [exact A|]. split; [exact B|]. split; [exact C|]. split; [exact D|]. split; [exact E|]. split; [exact F|exact H].
Qed.
Lemma run_recalls c evs : cell_ok c = true -> forall v pre s s' log, Forall bs_fine evs -> good c v s -> recalls pre (st_lm s) -> bs_run c evs s = Ok (s', log) ->
  good c (fold_left told1 evs v) s' /\ recalls (pre ++ log) (st_lm s') /\ airs c v log /\ map (fun x => fst (fst x)) log = evs.
Proof.
  intros CO. induction evs as [|e evs IH]; intros v pre s s' log F G R E; cbn [bs_run] in E.
  - injection E as <- <-. rewrite app_nil_r. now repeat (split; [assumption|]).
  - apply bind_inv in E. destruct E as (((s1 & xs) & ws) & E1 & E). apply bind_inv in E. destruct E as ((s2 & lg) & E2 & E). injection E as <- <-.
    destruct (step_good c e v s s1 xs ws CO (Forall_inv F) G E1) as (G1 & A).
    assert (R1 : recalls (pre ++ [(e, xs, ws)]) (st_lm s1)).
    { destruct e as [cn t|ts bits|r|ts data|k]; [|match goal with |- recalls (_ ++ [(?e, _, _)]) _ => exact (recalls_kept _ s s1 e xs ws Logic.I A R) end..]. pose proof G as (S & M & T & (LC & L4 & LV) & CK).
      pose proof A as (no & k & m & x & w & X1 & X2 & _ & _ & _ & X6 & _ & X8 & X9 & X10 & X11). apply (recalls_tick pre (st_lm s) _ cn t xs ws k no m L4 X1 X6 (proj1 X8) X9 X10 X11). left. split; [exact R|].
      cbn [bs_step um_do_all] in E1. apply bind_inv in E1. destruct E1 as (((s3 & x3) & w3) & E1 & _). unfold um_do in E1. apply bind_inv in E1. destruct E1 as (((u & o) & mm) & E1 & _). cbn [st_um] in E1.
      rewrite <- CK. exact (proj2 (tick_hour c cn t v _ _ _ _ M E1) S). }
    destruct (IH _ _ _ _ _ (Forall_inv_tail F) G1 R1 E2) as (G2 & R2 & A2 & M2). rewrite <- app_assoc in R2. split; [exact G2|]. split; [exact R2|].
    split; [split; [exact (step_airs _ _ _ _ _ _ _ A)|exact A2]|cbn [map fst]; now rewrite M2].
Qed.
Lemma new_station c cn0 s0 : cell_ok c = true -> station_new c cn0 = Ok s0 ->
  umac_new c cn0 = Ok (st_um s0) /\ minv c (fun _ => idle_ts) (st_um s0) /\ tidy (um_sch (st_um s0)) /\ st_lm s0 = lmac_new c.
Proof.
  intros CO E. unfold station_new in E. apply bind_inv in E. destruct E as (u & E & H). injection H as <-. split; [exact E|]. split; [exact (new_minv c cn0 u CO E)|]. split; [exact (new_tidy c cn0 u E)|reflexivity].
Qed.
Lemma history c cn0 s0 cn t evs s log : cell_ok c = true -> station_new c cn0 = Ok s0 -> vtime t -> Forall bs_fine evs -> bs_run c (BeTick cn t :: evs) s0 = Ok (s, log) ->
  good c (bs_told evs) s /\ recalls log (st_lm s) /\ airs c (fun _ => idle_ts) log /\ map (fun x => fst (fst x)) log = BeTick cn t :: evs.
Proof.
  intros CO EN V F E. destruct (new_station c cn0 s0 CO EN) as (EU & M & T & EL). cbn [bs_run] in E. apply bind_inv in E. destruct E as (((s1 & xs) & ws) & E1 & E). apply bind_inv in E. destruct E as ((s2 & lg) & E2 & E). injection E as <- <-.
  destruct (tick_good c cn t (fun _ => idle_ts) s0 s1 xs ws CO M T V) as (G1 & A); [now rewrite EL|now rewrite EL|intros u' o m ES; exact (proj1 (first_tick _ _ _ _ _ _ _ _ EU V ES))|exact E1|].
  pose proof A as (no & k & m & x & w & X1 & X2 & X3 & X4 & X5 & X6 & X7 & X8 & X9 & X10 & X11).
  assert (R1 : recalls [(BeTick cn t, xs, ws)] (st_lm s1)).
  { apply (recalls_tick [] (st_lm s0) _ cn t xs ws k no m) ; [now rewrite EL|exact X1|exact X6|exact (proj1 X8)|exact X9|exact X10|exact X11|right; split; [reflexivity|now rewrite EL]]. }
  destruct (run_recalls c evs CO _ _ _ _ _ F G1 R1 E2) as (G2 & R2 & A2 & M2). split; [exact G2|]. split; [exact R2|]. split; [|cbn [map fst]; now rewrite M2].
  split; [|exact A2]. cbn [air]. exists no, k, m, x, w.
  split; [exact X1|]. split; [exact X2|]. split; [exact X3|]. split; [exact X4|]. split; [exact X5|]. split; [exact X6|exact X8].
Qed.
Lemma airs_at c log : forall v pre e xs ws post, airs c v log -> log = pre ++ (e, xs, ws) :: post -> air c (fold_left told1 (map (fun x => fst (fst x)) pre) v) e xs ws.
Proof.
  induction log as [|[[e0 x0] w0] log IH]; intros v pre e xs ws post H E; [destruct pre; discriminate E|]. destruct H as (H1 & H2). destruct pre as [|p pre]; cbn [app] in E.
  - injection E as <- <- <- _. exact H1.
  - injection E as <- E. exact (IH _ _ _ _ _ _ H2 E).
Qed.
(** * The upper MAC by itself *)
Lemma um_run_app c a : forall b u u1 l1 u2 l2, um_run c a u = Ok (u1, l1) -> um_run c b u1 = Ok (u2, l2) -> um_run c (a ++ b) u = Ok (u2, l1 ++ l2).
Proof.
  induction a as [|e a IH]; intros b u u1 l1 u2 l2 A B; cbn [um_run app] in *; [injection A as <- <-; exact B|].
  apply bind_inv in A. destruct A as (((v & o) & m) & E & A). apply bind_inv in A. destruct A as ((w & lg) & E2 & A). injection A as <- <-. rewrite E. cbn [bind]. rewrite (IH _ _ _ _ _ _ E2 B). reflexivity.
Qed.
Lemma reached_step c e u u' o m : reached c u -> ev_fine e -> um_step c e u = Ok (u', o, m) -> reached c u'.
Proof.
  intros (cn0 & u0 & cn & t & evs & log & A & B & C & D) F E. exists cn0, u0, cn, t, (evs ++ [e]), (log ++ [(e, o, m)]). split; [exact A|]. split; [exact B|]. split; [apply Forall_app; auto|].
  apply (um_run_app c (UeTick cn t :: evs) [e] u0 u log u' [(e, o, m)] D). cbn [um_run]. rewrite E. reflexivity.
Qed.
Lemma do_all_reached c es : forall s s' xs ws, Forall ev_fine es -> reached c (st_um s) -> um_do_all c es s = Ok (s', xs, ws) -> reached c (st_um s').
Proof.
  induction es as [|e es IH]; intros s s' xs ws F R E; cbn [um_do_all] in E; [injection E as <- _ _; exact R|].
  apply bind_inv in E. destruct E as (((s1 & x) & w1) & E1 & E). apply bind_inv in E. destruct E as (((s2 & x2) & w2) & E2 & E). injection E as <- _ _. apply (IH _ _ _ _ (Forall_inv_tail F)) in E2; [exact E2|].
  unfold um_do in E1. apply bind_inv in E1. destruct E1 as (((u & o) & m) & E1 & H). apply bind_inv in H. destruct H as ((l & w) & _ & H). injection H as <- _ _. exact (reached_step c e _ _ _ _ R (Forall_inv F) E1).
Qed.
Lemma rx_reached c t is : cell_ok c = true -> vtime t -> forall v s s' xs ws, Forall (ind_ok t) is -> good c v s -> reached c (st_um s) -> rx_blocks c is s = Ok (s', xs, ws) -> reached c (st_um s').
Proof.
  intros CO V. induction is as [|i is IH]; intros v s s' xs ws F G R E; cbn [rx_blocks] in E; [injection E as <- _ _; exact R|].
  apply bind_inv in E. destruct E as (out & ER & E). apply bind_inv in E. destruct E as (((s1 & x1) & w1) & E1 & E). apply bind_inv in E. destruct E as (((s2 & x2) & w2) & E2 & E). injection E as <- _ _.
  destruct (rx_events c (st_lm s) t i out CO (proj1 (proj2 (proj2 (proj2 G)))) V (Forall_inv F) ER) as (EV & CA). destruct (marked_rx _ CA) as (CA1 & CA2 & TO).
  destruct (do_all_good c _ CO v s s1 x1 w1 EV CA1 CA2 G E1) as (G1 & _ & _). apply (fun H => IH _ s1 s2 x2 w2 (Forall_inv_tail F) G1 H E2). apply (do_all_reached c (map um_event_of out) s s1 x1 w1); [|exact R|exact E1]. eapply Forall_impl; [|exact EV]. intros e H. exact (proj1 H).
Qed.
Lemma step_reached c e v s s' xs ws : cell_ok c = true -> bs_fine e -> good c v s -> reached c (st_um s) -> bs_step c e s = Ok (s', xs, ws) -> reached c (st_um s').
Proof.
  intros CO F G R E. destruct e as [cn t|ts bits|r|ts data|k]; cbn [bs_step bs_fine] in *.
  - exact (do_all_reached c [UeTick cn t] (mk_station (st_um s) (lm_tick t (st_lm s))) s' xs ws (Forall_cons (P := ev_fine) (UeTick cn t) Logic.I (Forall_nil _)) R E).
  - destruct F as (l & ->). apply bind_inv in E. destruct E as (is & ES & E). exact (rx_reached c _ is CO (proj2 (proj2 (proj1 (proj2 (proj2 (proj2 G)))))) v s s' xs ws (split_ok _ _ _ _ ES) G R E).
  - exact (do_all_reached c [UeSend r] s s' xs ws (Forall_cons (P := ev_fine) (UeSend r) Logic.I (Forall_nil _)) R E).
  - exact (do_all_reached c [UeDlVoice ts data] s s' xs ws (Forall_cons (P := ev_fine) (UeDlVoice ts data) Logic.I (Forall_nil _)) R E).
  - exact (do_all_reached c [UeControl k] s s' xs ws (Forall_cons (P := ev_fine) (UeControl k) Logic.I (Forall_nil _)) R E).
Qed.
Lemma run_um c evs : cell_ok c = true -> forall v s s' log, Forall bs_fine evs -> good c v s -> reached c (st_um s) -> bs_run c evs s = Ok (s', log) -> reached c (st_um s').
Proof.
  intros CO. induction evs as [|e evs IH]; intros v s s' log F G R E; cbn [bs_run] in E; [injection E as <- _; exact R|].
  apply bind_inv in E. destruct E as (((s1 & xs) & ws) & E1 & E). apply bind_inv in E. destruct E as ((s2 & lg) & E2 & E). injection E as <- _.
  exact (IH _ _ _ _ (Forall_inv_tail F) (proj1 (step_good c e v s s1 xs ws CO (Forall_inv F) G E1)) (step_reached c e v s s1 xs ws CO (Forall_inv F) G R E1) E2).
Qed.
Lemma upper_reached c s log : cell_ok c = true -> bs_reached c s log -> reached c (st_um s).
Proof.
  intros CO (cn0 & s0 & cn & t & evs & EN & V & F & E). destruct (new_station c cn0 s0 CO EN) as (EU & M & T & EL). cbn [bs_run] in E. apply bind_inv in E. destruct E as (((s1 & xs) & ws) & E1 & E). apply bind_inv in E. destruct E as ((s2 & lg) & E2 & E). injection E as <- _.
  destruct (tick_good c cn t (fun _ => idle_ts) s0 s1 xs ws CO M T V) as (G1 & _); [now rewrite EL|now rewrite EL|intros u' o m ES; exact (proj1 (first_tick _ _ _ _ _ _ _ _ EU V ES))|exact E1|].
  refine (run_um c evs CO _ _ _ _ F G1 _ E2). cbn [bs_step um_do_all] in E1. apply bind_inv in E1. destruct E1 as (((s3 & x3) & w3) & E1 & H3). injection H3 as <- _ _. unfold um_do in E1. cbn [st_um] in E1.
  apply bind_inv in E1. destruct E1 as (((u & o) & m) & E1 & H). apply bind_inv in H. destruct H as ((l & w) & _ & H). injection H as <- _ _. cbn [st_um].
  exists cn0, (st_um s0), cn, t, [], [(UeTick cn t, o, m)]. split; [exact EU|]. split; [exact V|]. split; [constructor|]. cbn [um_run]. rewrite E1. reflexivity.
Qed.
Lemma reached_good c s log : cell_ok c = true -> bs_reached c s log -> good c (bs_told (events_of log)) s /\ recalls log (st_lm s) /\ airs c (fun _ => idle_ts) log.
Proof.
  intros CO (cn0 & s0 & cn & t & evs & EN & V & F & E). destruct (history c cn0 s0 cn t evs s log CO EN V F E) as (G & R & A & M). unfold events_of. rewrite M. split; [exact G|]. now split.
Qed.

(** * What is sent *)
Lemma bursts c s log : cell_ok c = true -> bs_reached c s log -> forall pre e xs ws post, log = pre ++ (e, xs, ws) :: post ->
  match e with BeTick cn t => exists w, ws = [b2b w] /\ burst_true c cn t (bs_told (events_of pre)) w | _ => ws = [] end.
Proof.
  intros CO R pre e xs ws post EL. destruct (reached_good c s log CO R) as (_ & _ & A). pose proof (airs_at c log _ _ _ _ _ _ A EL) as H.
  destruct e; try exact (proj1 H). destruct H as (no & k & m & x & w & _ & H2 & _ & _ & H5 & _). exists w. split; [exact H2|exact (proj1 H5)].
Qed.
Lemma whole_slot c s log : cell_ok c = true -> bs_reached c s log -> forall pre e xs ws post, log = pre ++ (e, xs, ws) :: post ->
  match e with
  | BeTick cn t => exists k x w, slots_of xs = [k] /\ sl_ts k = add_timeslots t 1 /\ ws = [b2b w] /\ kind_of k = Some x /\
      on_air (Scrambler.scramb_get_init (cf_mcc c) (cf_mnc c) (cf_colour c)) x (window (bk_buf (sl_blk1 k))) (second_of k) (window (bk_buf (sl_bbk k))) w
  | _ => slots_of xs = []
  end.
Proof.
  intros CO R pre e xs ws post EL. destruct (reached_good c s log CO R) as (_ & _ & A). pose proof (airs_at c log _ _ _ _ _ _ A EL) as H.
  destruct e; try exact (proj2 H). destruct H as (no & k & m & x & w & H1 & H2 & H3 & H4 & _ & HP & H6). subst xs. exists k, x, w. split; [exact (slots_tick _ _ _ _ HP)|split; [exact (proj1 H6)|split; [exact H2|split; [exact H3|exact H4]]]].
Qed.
(** if the upper MAC finishes its slot, the lower MAC sends it *)
Lemma never_stuck c s log : cell_ok c = true -> bs_reached c s log -> forall cn t u o m, um_step c (UeTick cn t) (st_um s) = Ok (u, o, m) ->
  exists s' xs w, bs_step c (BeTick cn t) s = Ok (s', xs, [w]) /\ length w = 510.
Proof.
  intros CO R cn t u o m E. destruct (reached_good c s log CO R) as (G & RC & _). pose proof G as (S & M & T & (LC & L4 & LV) & CK).
  assert (V : vtime t) by (rewrite (proj2 (tick_hour c cn t _ _ _ _ _ M E) S); apply add_valid).
  destruct (tick_total c cn t _ s u o m CO M T V L4 E) as (s' & xs & ws & E1). destruct (step_good c (BeTick cn t) _ s s' xs ws CO Logic.I G E1) as (_ & A).
  destruct A as (no & k & mm & x & w & _ & -> & _ & (LW & _) & _). exists s', xs, (b2b w). split; [exact E1|]. now rewrite b2b_length.
Qed.
(** the slot three ticks ago was for the timeslot a burst now comes from *)
Lemma due_slot c s log now : cell_ok c = true -> bs_reached c s log -> last_tick (rev log) = Some now -> forall k, nth_error (rev (sent log)) 3 = Some k -> sl_ts k = add_timeslots now (-2).
Proof. intros CO R N k E. destruct (reached_good c s log CO R) as (_ & (R1 & _ & _ & R4) & _). rewrite R1 in N. injection N as <-. exact (R4 3 k E). Qed.

(** * The uplink *)
Lemma guard_inv {A} (b : bool) (r : res A) x : (assert b ;;; r) = Ok x -> b = true /\ r = Ok x.
Proof. destruct b; cbn [assert bind]; [auto|intros H; discriminate H]. Qed.
Lemma encoded_length ch k n blk code b : control_sizes ch = Some (k, n) -> wf blk -> encode_cp ch blk code = Ok b -> length (window blk) = k.
Proof.
  intros S W E. unfold encode_cp in E. apply guard_inv in E. destruct E as (_ & E). apply bind_inv in E. destruct E as (p & EP & E). rewrite (StealProofs.win_len blk W) in E. cbn [bind] in E. apply guard_inv in E. destruct E as (E & _).
  apply Nat.eqb_eq in E. rewrite E. clear E. destruct ch; try discriminate S; cbn [get_params] in EP; injection EP as <-; cbn [type1_bits]; injection S as <- _; reflexivity.
Qed.
Lemma rx_ctl_gives i ch l k n t num m : control_sizes ch = Some (k, n) -> is_control_channel ch = true -> fresh_with (tp_i_block i) m -> length m = n -> (lm_code l < 2 ^ 32)%N -> tp_i_time i = t -> num_of (tp_i_num i) = num ->
  forall x, arrives ch (lm_code l) m x -> exists outs, rx_blk_control i ch l = Ok outs /\ gives_block t (ul_chan_of ch) num (lm_code l) x (map um_event_of outs).
Proof.
  intros S C (W & P & F) L CS <- <- x A. unfold rx_blk_control. rewrite C. cbn [assert bind]. destruct x as [msg|]; cbn [arrives gives_block] in *.
  - destruct A as (blk & b & WB & EM & EC & (e & LE & WE & ER)). pose proof (encoded_length ch k n blk _ b S WB EC) as LB.
    destruct (control_encode ch k n blk _ S WB LB CS) as (b' & EC' & _ & _ & LB'). rewrite EC in EC'. injection EC' as <-.
    destruct (control_chain ch k n blk (lm_code l) b (tp_i_block i) e false (Some (lm_code l)) S WB LB CS EC) as (o & D & WO & PO & FO); [congruence|exact WE|exact W|exact P|congruence|reflexivity|].
    rewrite D. cbn [bind unwrap]. eexists. split; [reflexivity|]. exists o. split; [split; [exact WO|split; [exact PO|congruence]]|reflexivity].
  - destruct (control_total ch k n (tp_i_block i) false (Some (lm_code l)) (lm_code l) S W P) as (o & crc & D & _); [congruence|reflexivity|exact CS|].
    destruct (A (tp_i_block i)) as (o' & D'); [split; [exact W|split; [exact P|exact F]]|]. rewrite D in D'. injection D' as _ ->. rewrite D. cbn [bind unwrap]. eexists. split; reflexivity.
Qed.
Lemma weight_zeros n : weight (repeat false n) = 0.
Proof. induction n as [|n IH]; [reflexivity|exact IH]. Qed.
Lemma xorl_zeros l : xorl l (repeat false (length l)) = l.
Proof. induction l as [|x l IH]; [reflexivity|]. cbn [length repeat]. unfold xorl in *. cbn [combine map fst snd]. rewrite IH. now destruct x. Qed.
Lemma rx_spk_gives i l r : fresh_with (tp_i_block i) r -> length r = 432 -> tp_i_num i = BkBoth -> (lm_code l < 2 ^ 32)%N ->
  exists data, rx_blk_traffic i TchS l = Ok [LoVoice (tp_i_time i) (ts_of (tp_i_time i)) (b2b data)] /\ length data = 274 /\
    (forall msg, speech_arrives (lm_code l) r msg -> forall k, k < 274 -> unprotected k = false -> nth k data false = nth k msg false) /\
    (forall msg, speech_clean (lm_code l) r msg -> data = msg).
Proof.
  intros (W & P & F) L N CS. destruct (rx_spk i l N (conj W P)) as (o & ok & D & (WO & PO) & LO & E); [congruence|exact CS|]. exists (window o). split; [exact E|]. split; [exact LO|].
  assert (K : forall blk b e, wf blk -> length (window blk) = 274 -> encode_tp TchS blk (lm_code l) 1 = Ok b -> length e = length (window b) -> weight e <= 1 -> r = xorl (window b) e ->
    (weight e = 0 -> window o = window blk) /\ forall k, k < 274 -> unprotected k = false -> nth k (window o) false = nth k (window blk) false).
  { intros blk b e WB LB EB LE WE ER. destruct (speech_roundtrip blk (lm_code l) (repeat false 432) WB LB CS (repeat_length _ _)) as (b' & EB' & _ & _ & LB' & _); [rewrite weight_zeros; lia|].
    rewrite EB in EB'. injection EB' as <-. rewrite LB' in LE. destruct (speech_roundtrip blk (lm_code l) e WB LB CS LE WE) as (b' & EB' & _ & _ & _ & H). rewrite EB in EB'. injection EB' as <-.
    destruct (H (tp_i_block i) W P) as (o' & D' & _ & _ & _ & _ & H1 & H2); [congruence|]. rewrite D in D'. injection D' as <- _. now split. }
  split.
  - intros msg (blk & b & WB & <- & LB & EB & (e & LE & WE & ER)). exact (proj2 (K blk b e WB LB EB LE WE ER)).
  - intros msg (blk & b & WB & <- & LB & EB & ER). apply (proj1 (K blk b (repeat false (length (window b))) WB LB EB (repeat_length _ _) ltac:(rewrite weight_zeros; lia) ltac:(rewrite xorl_zeros; exact ER))). apply weight_zeros.
Qed.
Lemma due log l : recalls log l -> forall now, last_tick (rev log) = Some now -> now = lm_time l /\ nth (ts_of (add_timeslots now (-2)) - 1) (lm_tp l) false = speech_due log.
Proof. intros (R1 & _ & R3 & _) now E. rewrite R1 in E. injection E as <-. split; [reflexivity|]. exact (R3 3 ltac:(lia)). Qed.

(** A notice that the other half is stolen has been read in the block. *)
Lemma stolen_act_said i x u r : does i x u r -> forall u' o c, r = Ok (u', o, c) -> In OutStolen o -> x = AStolen.
Proof.
  intros D u' o c -> I. destruct x; cbn [does] in D; [reflexivity|exfalso..].
  - apply eq_sym, bind_inv in D. destruct D as (q & _ & D). injection D as _ <- _. contradiction I.
  - apply eq_sym, bind_inv in D. destruct D as (q & _ & D). injection D as _ <- _. contradiction I.
  - destruct D as (b & _ & _ & _ & D). injection D as _ -> _. destruct I as [I|[]]. discriminate I.
  - destruct D as (b & _ & _ & D). apply eq_sym, bind_inv in D. destruct D as ((q & w) & _ & D). injection D as _ <- _. contradiction I.
  - destruct D as (b & _ & _ & D). apply eq_sym, bind_inv in D. destruct D as (q & _ & D). destruct q as [ssi|]; [|injection D as _ <- _; contradiction I].
    apply bind_inv in D. destruct D as (aie & _ & D). destruct aie; [injection D as _ <- _; contradiction I|]. apply bind_inv in D. destruct D as ((q & w) & _ & D). injection D as _ <- _. contradiction I.
  - destruct D as (b & _ & _ & D). apply eq_sym, bind_inv in D. destruct D as (q & _ & D). destruct q as [ssi|]; [|injection D as _ <- _; contradiction I].
    apply bind_inv in D. destruct D as (aie & _ & D). apply guard_inv in D. destruct D as (_ & D). apply bind_inv in D. destruct D as ((q & w) & _ & D).
    destruct w as [|[w|] [|]]; try (injection D as _ <- _; contradiction I). apply bind_inv in D. destruct D as (z & _ & D). injection D as _ <- _. destruct I as [I|[]]. discriminate I.
Qed.
Lemma stolen_acts_said i acts u r : does_all i acts u r -> forall u' o c, r = Ok (u', o, c) -> In OutStolen o -> In AStolen acts.
Proof.
  induction 1 as [u|x l u H|x l u u1 o1 H|x l u u1 o1 H r HR IH]; intros u' o c E I; try discriminate E.
  - injection E as _ <- _. contradiction I.
  - injection E as _ <- _. left. exact (stolen_act_said _ _ _ _ H _ _ _ eq_refl I).
  - apply bind_inv in E. destruct E as (((v & o2) & c2) & E & E'). injection E' as _ <- _. apply in_app_or in I. destruct I as [I|I]; [left; exact (stolen_act_said _ _ _ _ H _ _ _ eq_refl I)|right; exact (IH _ _ _ E I)].
Qed.
Lemma stolen_said i l u r : heard i l u r -> forall u' o, r = Ok (u', o) -> In OutStolen o -> exists l' acts n, begins (tv_chan i) l l' /\ first_pdu (tv_chan i) l' = Acts acts n /\ In AStolen acts.
Proof.
  induction 1 as [l u C|l u acts n F D|l u acts n u1 o1 c F D S|l u acts n u1 o1 F D S|l u acts n u1 o1 r F D S H IH]; intros u' o E I; try discriminate E.
  - injection E as _ <-. exists l, acts, n. split; [constructor|]. split; [exact F|]. exact (stolen_acts_said _ _ _ _ D _ _ _ eq_refl I).
  - injection E as _ <-. exists l, acts, (Some n). split; [constructor|]. split; [exact F|]. exact (stolen_acts_said _ _ _ _ D _ _ _ eq_refl I).
  - apply bind_inv in E. destruct E as ((v & o2) & E & E'). injection E' as _ <-. apply in_app_or in I. destruct I as [I|I].
    + exists l, acts, (Some n). split; [constructor|]. split; [exact F|]. exact (stolen_acts_said _ _ _ _ D _ _ _ eq_refl I).
    + destruct (IH _ _ E I) as (l' & a' & n' & B & FP & IN). exists l', a', n'. split; [exact (b_next _ _ _ _ _ F B)|]. now split.
Qed.

Lemma heard_res i l u r : heard i l u r -> r = Panic \/ exists u' o, r = Ok (u', o).
Proof.
  induction 1 as [l u C|l u acts n F D|l u acts n u1 o1 c F D S|l u acts n u1 o1 F D S|l u acts n u1 o1 r F D S H IH]; eauto.
  destruct IH as [->|(u' & o & ->)]; cbn [bind]; eauto.
Qed.
Lemma acts_stolen i acts u r : does_all i (AStolen :: acts) u r -> forall u' o c, r = Ok (u', o, c) -> existsb is_stolen o = true.
Proof.
  intros D. remember (AStolen :: acts) as l eqn:EL. destruct D as [v|x l v X|x l v v1 o1 X|x l v v1 o1 X q HR]; intros u' o c EQ; [discriminate EL|discriminate EQ| |]; injection EL as -> ->; cbn [does] in X; [discriminate X|].
  assert (EO : o1 = [OutStolen]) by congruence. apply bind_inv in EQ. destruct EQ as (((w & o2) & c2) & _ & EQ). injection EQ as _ <- _. rewrite EO. reflexivity.
Qed.
Lemma first_stolen i l u r : heard i l u r -> forall acts n, first_pdu (tv_chan i) l = Acts (AStolen :: acts) n -> r = Panic \/ exists u' o, r = Ok (u', o) /\ plain o /\ existsb is_stolen o = true.
Proof.
  intros H acts n FP. destruct (heard_res _ _ _ _ H) as [->|(u' & o & ->)]; [now left|]. right. exists u', o. split; [reflexivity|]. split; [exact (heard_plain _ _ _ _ H _ _ eq_refl)|].
  remember (Ok (u', o)) as r eqn:EQ. destruct H as [| |l0 u0 a0 n0 u1 o1 c F D S|l0 u0 a0 n0 u1 o1 F D S|l0 u0 a0 n0 u1 o1 r0 F D S HR]; try discriminate EQ; rewrite F in FP; injection FP as -> _.
  - injection EQ as _ <-. exact (acts_stolen _ _ _ _ D _ _ _ eq_refl).
  - injection EQ as _ <-. exact (acts_stolen _ _ _ _ D _ _ _ eq_refl).
  - apply bind_inv in EQ. destruct EQ as ((w & o2) & _ & EQ). injection EQ as _ <-. rewrite existsb_app. now rewrite (acts_stolen _ _ _ _ D _ _ _ eq_refl).
Qed.

Section Reached.
Variables (c : cell_cfg) (v : nat -> ts_view) (s : station) (log : bs_log) (now : tdma_time).
Hypotheses (CO : cell_ok c = true) (G : good c v s) (R : recalls log (st_lm s)) (NOW : last_tick (rev log) = Some now) (ST : stolen_since (rev log) = false).
Notation code := (Scrambler.scramb_get_init (cf_mcc c) (cf_mnc c) (cf_colour c)).
Lemma lcode : lm_code (st_lm s) = code. Proof. destruct G as (_ & _ & _ & (LC & _) & _). exact LC. Qed.
Lemma lsmall : (lm_code (st_lm s) < 2 ^ 32)%N. Proof. rewrite lcode. exact (code_small c CO). Qed.
Lemma lnow : lm_time (st_lm s) = now. Proof. symmetry. exact (proj1 (due log _ R now NOW)). Qed.
Lemma lquiet : lm_stolen (st_lm s) = false. Proof. destruct R as (_ & R2 & _). now rewrite <- R2. Qed.
Lemma ldue : nth (ts_of (add_timeslots now (-2)) - 1) (lm_tp (st_lm s)) false = speech_due log. Proof. exact (proj2 (due log _ R now NOW)). Qed.
Lemma lm_ok_s : lm_ok c (st_lm s). Proof. destruct G as (_ & _ & _ & L & _). exact L. Qed.
Lemma vnow : vtime now. Proof. rewrite <- lnow. exact (proj2 (proj2 lm_ok_s)). Qed.

Lemma up_control t1 tr b1 b2 t2 m : length t1 = 4 -> length b1 = 84 -> length tr = 30 -> length b2 = 84 -> length t2 = 4 -> arrives SchHu code (b1 ++ b2) m ->
  exists es, gives_block (add_timeslots now (-2)) UcSchHu Block1 code m es /\ bs_step c (BeBurst TrainExtended (b2b (nub t1 tr b1 b2 t2))) s = um_do_all c es s.
Proof.
  intros L1 L2 L3 L4 L5 A. destruct (split_cub t1 tr b1 b2 t2 now L1 L2 L3 L4 L5) as (b & E & F). cbn [bs_step]. rewrite lnow, E. cbn [bind rx_blocks].
  pose proof (rx_is c (st_lm s) now (mk_tpind TrainExtended BurstCUB PbSSN1 Bk1 b (add_timeslots now (-2))) CO lm_ok_s vnow) as X. cbn [tp_i_time tp_i_burst tp_i_train tp_i_num tp_i_block rx_chan] in X.
  pose proof F as (W & P & FW). rewrite lquiet in X. rewrite X; [|split; [reflexivity|split; [now split|]]; cbn [tp_i_burst tp_i_train tp_i_num tp_i_block]; rewrite FW, app_length; lia].
  destruct (rx_ctl_gives (mk_tpind TrainExtended BurstCUB PbSSN1 Bk1 b (add_timeslots now (-2))) SchHu (st_lm s) 92 168 (add_timeslots now (-2)) Block1 (b1 ++ b2) eq_refl eq_refl F ltac:(rewrite app_length; lia) lsmall eq_refl eq_refl m ltac:(rewrite lcode; exact A)) as (outs & EO & GO).
  rewrite EO. cbn [bind]. exists (map um_event_of outs). rewrite lcode in GO. split; [exact GO|]. destruct (um_do_all c (map um_event_of outs) s) as [[[s1 xs] ws]| |]; cbn [bind]; [|reflexivity..]. now rewrite !app_nil_r.
Qed.
Lemma up_full t1 tr b1 b2 t2 m : length t1 = 4 -> length b1 = 216 -> length tr = 22 -> length b2 = 216 -> length t2 = 4 -> speech_due log = false -> arrives SchF code (b1 ++ b2) m ->
  exists es, gives_block (add_timeslots now (-2)) UcSchF BothBlocks code m es /\ bs_step c (BeBurst TrainNormal1 (b2b (nub t1 tr b1 b2 t2))) s = um_do_all c es s.
Proof.
  intros L1 L2 L3 L4 L5 SD A. destruct (split_nub1 t1 tr b1 b2 t2 now L1 L2 L3 L4 L5) as (b & E & F). cbn [bs_step]. rewrite lnow, E. cbn [bind rx_blocks].
  pose proof (rx_is c (st_lm s) now (mk_tpind TrainNormal1 BurstNUB PbNUB BkBoth b (add_timeslots now (-2))) CO lm_ok_s vnow) as X. cbn [tp_i_time tp_i_burst tp_i_train tp_i_num tp_i_block rx_chan] in X.
  pose proof F as (W & P & FW). rewrite lquiet, ldue, SD in X. rewrite X; [|split; [reflexivity|split; [now split|]]; cbn [tp_i_burst tp_i_train tp_i_num tp_i_block]; rewrite FW, app_length; lia].
  destruct (rx_ctl_gives (mk_tpind TrainNormal1 BurstNUB PbNUB BkBoth b (add_timeslots now (-2))) SchF (st_lm s) 268 432 (add_timeslots now (-2)) BothBlocks (b1 ++ b2) eq_refl eq_refl F ltac:(rewrite app_length; lia) lsmall eq_refl eq_refl m ltac:(rewrite lcode; exact A)) as (outs & EO & GO).
  rewrite EO. cbn [bind]. exists (map um_event_of outs). rewrite lcode in GO. split; [exact GO|]. destruct (um_do_all c (map um_event_of outs) s) as [[[s1 xs] ws]| |]; cbn [bind]; [|reflexivity..]. now rewrite !app_nil_r.
Qed.
Lemma up_speech t1 tr b1 b2 t2 : length t1 = 4 -> length b1 = 216 -> length tr = 22 -> length b2 = 216 -> length t2 = 4 -> speech_due log = true ->
  exists data, bs_step c (BeBurst TrainNormal1 (b2b (nub t1 tr b1 b2 t2))) s = um_do_all c [UeUlVoice (add_timeslots now (-2)) (ts_of (add_timeslots now (-2))) (b2b data)] s /\ length data = 274 /\
    (forall msg, speech_arrives code (b1 ++ b2) msg -> forall k, k < 274 -> unprotected k = false -> nth k data false = nth k msg false) /\
    (forall msg, speech_clean code (b1 ++ b2) msg -> data = msg).
Proof.
  intros L1 L2 L3 L4 L5 SD. destruct (split_nub1 t1 tr b1 b2 t2 now L1 L2 L3 L4 L5) as (b & E & F). cbn [bs_step]. rewrite lnow, E. cbn [bind rx_blocks].
  pose proof (rx_is c (st_lm s) now (mk_tpind TrainNormal1 BurstNUB PbNUB BkBoth b (add_timeslots now (-2))) CO lm_ok_s vnow) as X. cbn [tp_i_time tp_i_burst tp_i_train tp_i_num tp_i_block rx_chan] in X.
  pose proof F as (W & P & FW). rewrite lquiet, ldue, SD in X. rewrite X; [|split; [reflexivity|split; [now split|]]; cbn [tp_i_burst tp_i_train tp_i_num tp_i_block]; rewrite FW, app_length; lia].
  destruct (rx_spk_gives (mk_tpind TrainNormal1 BurstNUB PbNUB BkBoth b (add_timeslots now (-2))) (st_lm s) (b1 ++ b2) F ltac:(rewrite app_length; lia) eq_refl lsmall) as (data & EO & LD & H1 & H2).
  rewrite EO. cbn [bind map um_event_of]. exists data. rewrite lcode in H1, H2. split; [|split; [exact LD|split; [exact H1|exact H2]]].
  cbn [tp_i_time]. destruct (um_do_all c _ s) as [[[s1 xs] ws]| |]; cbn [bind]; [|reflexivity..]. now rewrite !app_nil_r.
Qed.
(** both halves of a slot, each by itself *)
Lemma up_halves t1 tr b1 b2 t2 m1 m2 : length t1 = 4 -> length b1 = 216 -> length tr = 22 -> length b2 = 216 -> length t2 = 4 -> arrives Stch code b1 m1 -> arrives Stch code b2 m2 ->
  exists es1 es2, gives_block (add_timeslots now (-2)) UcStch Block1 code m1 es1 /\ gives_block (add_timeslots now (-2)) UcStch Block2 code m2 es2 /\
    bs_step c (BeBurst TrainNormal2 (b2b (nub t1 tr b1 b2 t2))) s =
    bind (um_do_all c es1 s) (fun x => let '(s1, xs, ws) := x in
      if xorb (says_stolen xs) (speech_due log) then (if says_stolen xs then Panic else Ok (s1, xs, ws))
      else bind (um_do_all c es2 s1) (fun y => let '(s2, xs2, ws2) := y in Ok (s2, xs ++ xs2, ws ++ ws2))).
Proof.
  intros L1 L2 L3 L4 L5 A1 A2. destruct (split_nub2 t1 tr b1 b2 t2 now L1 L2 L3 L4 L5) as (c1 & c2 & E & F1 & F2). cbn [bs_step]. rewrite lnow, E. cbn [bind rx_blocks].
  set (i1 := mk_tpind TrainNormal2 BurstNUB PbNUB Bk1 c1 (add_timeslots now (-2))). set (i2 := mk_tpind TrainNormal2 BurstNUB PbNUB Bk2 c2 (add_timeslots now (-2))).
  assert (I1 : ind_ok now i1). { pose proof F1 as (W & P & FW). split; [reflexivity|split; [now split|]]. cbn [i1 tp_i_burst tp_i_train tp_i_num tp_i_block]. congruence. }
  assert (I2 : ind_ok now i2). { pose proof F2 as (W & P & FW). split; [reflexivity|split; [now split|]]. cbn [i2 tp_i_burst tp_i_train tp_i_num tp_i_block]. congruence. }
  pose proof (rx_is c (st_lm s) now i1 CO lm_ok_s vnow I1) as X. cbv zeta in X. cbn [i1 tp_i_time tp_i_burst tp_i_train tp_i_num tp_i_block rx_chan] in X. rewrite lquiet in X. fold i1 in X.
  destruct (rx_ctl_gives i1 Stch (st_lm s) 124 216 (add_timeslots now (-2)) Block1 b1 eq_refl eq_refl F1 L2 lsmall eq_refl eq_refl m1 ltac:(rewrite lcode; exact A1)) as (outs & EO & GO).
  destruct (rx_ctl_gives i2 Stch (st_lm s) 124 216 (add_timeslots now (-2)) Block2 b2 eq_refl eq_refl F2 L4 lsmall eq_refl eq_refl m2 ltac:(rewrite lcode; exact A2)) as (outs2 & EO2 & GO2).
  exists (map um_event_of outs), (map um_event_of outs2). rewrite lcode in GO, GO2. split; [exact GO|]. split; [exact GO2|].
  pose proof (rx_events c (st_lm s) now i1 outs CO lm_ok_s vnow I1 ltac:(rewrite X; exact EO)) as (EV & CA). rewrite X, EO. cbn [bind].
  destruct (um_do_all c (map um_event_of outs) s) as [[[s1 xs] ws]| |] eqn:D; cbn [bind]; [|reflexivity..].
  destruct (do_all_good c (map um_event_of outs) CO v s s1 xs ws EV) as (G1 & (K1 & K2 & K3 & K4 & K5) & _); [eapply Forall_impl; [|exact CA]; intros []; cbn; tauto|eapply Forall_impl; [|exact CA]; intros []; cbn; tauto|exact G|exact D|].
  pose proof (proj1 (proj2 (proj2 (proj2 G1)))) as LO1. pose proof (proj1 LO1) as LC1.
  pose proof (rx_is c (st_lm s1) now i2 CO LO1 vnow I2) as X2. cbv zeta in X2. cbn [i2 tp_i_time tp_i_burst tp_i_train tp_i_num tp_i_block rx_chan] in X2. fold i2 in X2. rewrite K4, ldue, K5, lquiet in X2. cbn [orb] in X2.
  assert (SAME : rx_blk_control i2 Stch (st_lm s1) = rx_blk_control i2 Stch (st_lm s)). { unfold rx_blk_control. now rewrite LC1, lcode. }
  destruct (speech_due log), (says_stolen xs); cbn [xorb] in *; rewrite X2; try reflexivity.
  - rewrite SAME, EO2. cbn [bind]. destruct (um_do_all c (map um_event_of outs2) s1) as [[[s2 xs2] ws2]| |]; cbn [bind]; [|reflexivity..]. now rewrite !app_nil_r.
  - cbn [bind]. unfold rx_blk_traffic. cbn [i2 tp_i_num bind map um_event_of um_do_all]. now rewrite !app_nil_r.
  - rewrite SAME, EO2. cbn [bind]. destruct (um_do_all c (map um_event_of outs2) s1) as [[[s2 xs2] ws2]| |]; cbn [bind]; [|reflexivity..]. now rewrite !app_nil_r.
Qed.
(** * No burst stops the base station but the hostile ones *)
Lemma block_does i pdu s1 v1 : good c v1 s1 -> ready pdu -> vtime (tv_time i) -> on_channel i = true -> (forall l, begins (tv_chan i) (window pdu) l -> ~ hostile (tv_chan i) l) ->
  exists s2 x, um_do_all c [UeBlock i pdu] s1 = Ok (s2, [x], []) /\ lm_time (st_lm s2) = lm_time (st_lm s1) /\ lm_tp (st_lm s2) = lm_tp (st_lm s1) /\
    lm_stolen (st_lm s2) = (lm_stolen (st_lm s1) || existsb is_stolen (snd (fst x))) /\ lm_code (st_lm s2) = lm_code (st_lm s1) /\ good c v1 s2 /\
    (existsb is_stolen (snd (fst x)) = true -> exists l acts n, begins (tv_chan i) (window pdu) l /\ first_pdu (tv_chan i) l = Acts acts n /\ In AStolen acts).
Proof.
  intros G1 (W & P) V C H. pose proof G1 as (SO & _). destruct (block_ok i pdu (st_um s1) W P SO V C) as (r & ER & HH & _).
  destruct (no_hostile _ _ _ _ HH H SO V) as (u & o & EO). { intros E. unfold on_channel in C. rewrite E in C. destruct (tv_chan i); discriminate C. }
  subst r. pose proof (heard_plain _ _ _ _ HH _ _ EO) as PL.
  assert (D : um_do c (UeBlock i pdu) s1 = Ok (mk_station u (lm_configure (lm_stolen (st_lm s1) || existsb is_stolen o) (st_lm s1)), (UeBlock i pdu, o, []), [])).
  { unfold um_do. cbn [um_step]. rewrite EO. cbn [bind]. rewrite (to_plain o _ PL). reflexivity. }
  destruct (do_good c (UeBlock i pdu) v1 _ _ _ _ CO (conj (conj W (conj P V)) (conj Logic.I C)) Logic.I eq_refl G1 D) as (G2 & _ & _).
  cbn [um_do_all]. rewrite D. cbn [bind]. eexists _, _. split; [reflexivity|]. split; [reflexivity|]. split; [reflexivity|]. split; [reflexivity|]. split; [reflexivity|]. split; [exact G2|].
  cbn [fst snd]. intros X. apply existsb_exists in X. destruct X as (y & IY & TY). destruct y; try discriminate TY. rewrite EO in HH. exact (stolen_said _ _ _ _ HH _ _ eq_refl IY).
Qed.
(** one block of signalling, whatever it is *)
Lemma any_block i ch k n num r s1 v1 : control_sizes ch = Some (k, n) -> is_control_channel ch = true -> fresh_with (tp_i_block i) r -> length r = n -> tp_i_time i = add_timeslots now (-2) -> num_of (tp_i_num i) = num ->
  on_channel (mk_tmv (add_timeslots now (-2)) (ul_chan_of ch) num code) = true -> harmless ch code r -> good c v1 s1 ->
  exists outs s2 xs, rx_blk_control i ch (st_lm s1) = Ok outs /\ um_do_all c (map um_event_of outs) s1 = Ok (s2, xs, []) /\ lm_time (st_lm s2) = lm_time (st_lm s1) /\ lm_tp (st_lm s2) = lm_tp (st_lm s1) /\
    lm_stolen (st_lm s2) = (lm_stolen (st_lm s1) || says_stolen xs) /\ good c v1 s2 /\
    (says_stolen xs = true -> exists msg l acts n, accepted ch code r msg /\ begins (ul_chan_of ch) msg l /\ first_pdu (ul_chan_of ch) l = Acts acts n /\ In AStolen acts).
Proof.
  intros SZ CC (W & P & F) L T N ON HL G1. assert (LC : lm_code (st_lm s1) = code) by (destruct G1 as (_ & _ & _ & (X & _) & _); exact X).
  destruct (rx_ctl i ch (st_lm s1) k n SZ CC (conj W P)) as (o & crc & D & RO & LO & E); [congruence|rewrite LC; exact (code_small c CO)|]. rewrite E, T, N, LC.
  assert (AC : crc = true -> accepted ch code r (window o)). { intros ->. exists (tp_i_block i), o. split; [split; [exact W|split; [exact P|exact F]]|]. split; [rewrite <- LC; exact D|reflexivity]. }
  destruct crc; cbn [map um_event_of].
  - destruct (block_does (mk_tmv (add_timeslots now (-2)) (ul_chan_of ch) num code) o s1 v1 G1 RO (add_valid _ _) ON (fun l => HL _ l (AC eq_refl))) as (s2 & x & E2 & K1 & K2 & K3 & K4 & G2 & K5).
    eexists _, s2, [x]. split; [reflexivity|]. cbn [map um_event_of]. split; [exact E2|]. split; [exact K1|]. split; [exact K2|]. unfold says_stolen. cbn [existsb]. rewrite orb_false_r. split; [exact K3|]. split; [exact G2|].
    intros X. destruct (K5 X) as (l & acts & m & H). exists (window o), l, acts, m. split; [exact (AC eq_refl)|exact H].
  - eexists _, s1, []. split; [reflexivity|]. cbn [map um_do_all]. split; [reflexivity|]. split; [reflexivity|]. split; [reflexivity|]. cbn [says_stolen existsb]. rewrite orb_false_r. split; [reflexivity|]. split; [exact G1|]. intros X. discriminate X.
Qed.
Lemma safe_control t1 tr b1 b2 t2 : length t1 = 4 -> length b1 = 84 -> length tr = 30 -> length b2 = 84 -> length t2 = 4 -> harmless SchHu code (b1 ++ b2) ->
  exists s' xs, bs_step c (BeBurst TrainExtended (b2b (nub t1 tr b1 b2 t2))) s = Ok (s', xs, []).
Proof.
  intros L1 L2 L3 L4 L5 H. destruct (split_cub t1 tr b1 b2 t2 now L1 L2 L3 L4 L5) as (b & E & F). cbn [bs_step]. rewrite lnow, E. cbn [bind rx_blocks].
  pose proof (rx_is c (st_lm s) now (mk_tpind TrainExtended BurstCUB PbSSN1 Bk1 b (add_timeslots now (-2))) CO lm_ok_s vnow) as X. cbn [tp_i_time tp_i_burst tp_i_train tp_i_num tp_i_block rx_chan] in X.
  pose proof F as (W & P & FW). rewrite lquiet in X. rewrite X; [|split; [reflexivity|split; [now split|]]; cbn [tp_i_burst tp_i_train tp_i_num tp_i_block]; rewrite FW, app_length; lia].
  destruct (any_block (mk_tpind TrainExtended BurstCUB PbSSN1 Bk1 b (add_timeslots now (-2))) SchHu 92 168 Block1 (b1 ++ b2) s v eq_refl eq_refl F ltac:(rewrite app_length; lia) eq_refl eq_refl eq_refl H G) as (outs & s2 & xs & E1 & E2 & _).
  rewrite E1. cbn [bind]. rewrite E2. cbn [bind]. eauto.
Qed.
Lemma voice_does t ts data s1 v1 : good c v1 s1 -> 1 <= ts <= 4 -> length data = 274 -> exists s2 x, um_do_all c [UeUlVoice t ts (b2b data)] s1 = Ok (s2, [x], []).
Proof.
  intros G1 R4 LD. pose proof G1 as (SO & (cn & _ & (_ & (LL1 & LL2 & _) & _)) & (_ & _ & (LT & _)) & _).
  cbn [um_do_all]. unfold um_do. cbn [um_step].
  assert (E : exists u o, rx_ul_voice (cf_brew c) t ts (b2b data) (st_um s1) = Ok (u, o)).
  { unfold rx_ul_voice. set (u1 := set_voice ts (Some (um_time (st_um s1))) (st_um s1)). assert (SU : um_sch u1 = um_sch (st_um s1)) by exact (proj1 (voice_same _ _ _)).
    assert (AL : forall d, d = DirDl \/ d = DirUl -> exists x, circuit_is_active d ts (um_sch u1) = Ok x).
    { intros d [->| ->]; unfold circuit_is_active, ucm_is_active; rewrite SU; [rewrite (ts_get_ok (uc_dl (ds_circ (um_sch (st_um s1)))) ts None) by assumption|rewrite (ts_get_ok (uc_ul (ds_circ (um_sch (st_um s1)))) ts None) by assumption]; cbn [bind]; eauto. }
    destruct (AL DirDl (or_introl eq_refl)) as (a & EA). destruct (AL DirUl (or_intror eq_refl)) as (a' & EA').
    match goal with |- exists u o, bind ?x _ = _ => assert (EX : exists out, x = Ok out) by (destruct (cf_brew c); [rewrite EA'; cbn [bind]; eauto|eauto]) end. destruct EX as (out & ->). cbn [bind]. rewrite EA. cbn [bind]. destruct a; [|eauto].
    destruct (voice_loopback data [] LD) as (blk & bb & EP & _). rewrite app_nil_r in EP. unfold b2b. rewrite EP. cbn [bind]. unfold dl_schedule_tmd, ucm_put. unfold circuit_is_active in EA. rewrite EA. cbn [bind].
    rewrite SU, (ts_get_ok _ ts []) by assumption. cbn [bind]. eauto. }
  destruct E as (u & o & E). rewrite E. cbn [bind]. pose proof (step_plain c (UeUlVoice t ts (b2b data)) (st_um s1) u o []) as PL. cbn [um_step] in PL. rewrite E in PL. specialize (PL Logic.I Logic.I SO eq_refl).
  rewrite (to_plain o _ PL). cbn [bind]. eauto.
Qed.
Lemma safe_full t1 tr b1 b2 t2 : length t1 = 4 -> length b1 = 216 -> length tr = 22 -> length b2 = 216 -> length t2 = 4 -> speech_due log = true \/ harmless SchF code (b1 ++ b2) ->
  exists s' xs, bs_step c (BeBurst TrainNormal1 (b2b (nub t1 tr b1 b2 t2))) s = Ok (s', xs, []).
Proof.
  intros L1 L2 L3 L4 L5 H. destruct (speech_due log) eqn:SD.
  - destruct (up_speech t1 tr b1 b2 t2 L1 L2 L3 L4 L5 SD) as (data & E & LD & _). rewrite E. destruct (voice_does (add_timeslots now (-2)) (ts_of (add_timeslots now (-2))) data s v G (ts_range _ _) LD) as (s2 & x & E2). eauto.
  - destruct H as [H|H]; [discriminate H|]. destruct (split_nub1 t1 tr b1 b2 t2 now L1 L2 L3 L4 L5) as (b & E & F). cbn [bs_step]. rewrite lnow, E. cbn [bind rx_blocks].
    pose proof (rx_is c (st_lm s) now (mk_tpind TrainNormal1 BurstNUB PbNUB BkBoth b (add_timeslots now (-2))) CO lm_ok_s vnow) as X. cbn [tp_i_time tp_i_burst tp_i_train tp_i_num tp_i_block rx_chan] in X.
    pose proof F as (W & P & FW). rewrite lquiet, ldue, SD in X. rewrite X; [|split; [reflexivity|split; [now split|]]; cbn [tp_i_burst tp_i_train tp_i_num tp_i_block]; rewrite FW, app_length; lia].
    destruct (any_block (mk_tpind TrainNormal1 BurstNUB PbNUB BkBoth b (add_timeslots now (-2))) SchF 268 432 BothBlocks (b1 ++ b2) s v eq_refl eq_refl F ltac:(rewrite app_length; lia) eq_refl eq_refl eq_refl H G) as (outs & s2 & xs & E1 & E2 & _).
    rewrite E1. cbn [bind]. rewrite E2. cbn [bind]. eauto.
Qed.
(** the first half, then the second *)
Lemma first_half t1 tr b1 b2 t2 : length t1 = 4 -> length b1 = 216 -> length tr = 22 -> length b2 = 216 -> length t2 = 4 ->
  exists i1 i2, phy_split TrainNormal2 (b2b (nub t1 tr b1 b2 t2)) now = Ok [i1; i2] /\ fresh_with (tp_i_block i1) b1 /\ fresh_with (tp_i_block i2) b2 /\ ind_ok now i1 /\ ind_ok now i2 /\
    tp_i_burst i1 = BurstNUB /\ tp_i_burst i2 = BurstNUB /\ tp_i_num i1 = Bk1 /\ tp_i_num i2 = Bk2 /\
    bs_step c (BeBurst TrainNormal2 (b2b (nub t1 tr b1 b2 t2))) s = rx_blocks c [i1; i2] s /\ lm_rx i1 (st_lm s) = rx_blk_control i1 Stch (st_lm s).
Proof.
  intros L1 L2 L3 L4 L5. destruct (split_nub2 t1 tr b1 b2 t2 now L1 L2 L3 L4 L5) as (c1 & c2 & E & F1 & F2). eexists _, _. split; [exact E|]. split; [exact F1|]. split; [exact F2|].
  set (i1 := mk_tpind TrainNormal2 BurstNUB PbNUB Bk1 c1 (add_timeslots now (-2))) in *. set (i2 := mk_tpind TrainNormal2 BurstNUB PbNUB Bk2 c2 (add_timeslots now (-2))) in *.
  assert (I1 : ind_ok now i1). { pose proof F1 as (W & P & FW). split; [reflexivity|split; [now split|]]. cbn [i1 tp_i_burst tp_i_train tp_i_num tp_i_block]. congruence. }
  assert (I2 : ind_ok now i2). { pose proof F2 as (W & P & FW). split; [reflexivity|split; [now split|]]. cbn [i2 tp_i_burst tp_i_train tp_i_num tp_i_block]. congruence. }
  pose proof (rx_is c (st_lm s) now i1 CO lm_ok_s vnow I1) as X. cbv zeta in X. cbn [i1 tp_i_time tp_i_burst tp_i_train tp_i_num tp_i_block rx_chan] in X. rewrite lquiet in X. fold i1 in X.
  split; [exact I1|]. split; [exact I2|]. do 4 (split; [reflexivity|]). split; [|exact X]. cbn [bs_step]. now rewrite lnow, E.
Qed.
Lemma safe_halves t1 tr b1 b2 t2 : length t1 = 4 -> length b1 = 216 -> length tr = 22 -> length b2 = 216 -> length t2 = 4 -> harmless Stch code b1 -> harmless Stch code b2 -> speech_due log = true \/ ~ announces_stolen code b1 ->
  exists s' xs, bs_step c (BeBurst TrainNormal2 (b2b (nub t1 tr b1 b2 t2))) s = Ok (s', xs, []).
Proof.
  intros L1 L2 L3 L4 L5 H1 H2 H3. destruct (first_half t1 tr b1 b2 t2 L1 L2 L3 L4 L5) as (i1 & i2 & _ & F1 & F2 & I1 & I2 & B1 & B2 & N1 & N2 & -> & X1). cbn [rx_blocks]. rewrite X1.
  destruct (any_block i1 Stch 124 216 Block1 b1 s v eq_refl eq_refl F1 L2 (proj1 I1) ltac:(now rewrite N1) eq_refl H1 G) as (outs & s2 & xs & E1 & E2 & K1 & K2 & K3 & G2 & K5).
  rewrite E1. cbn [bind]. rewrite E2. cbn [bind]. rewrite lquiet in K3. cbn [orb] in K3.
  pose proof (proj1 (proj2 (proj2 (proj2 G2)))) as LO2. pose proof (rx_is c (st_lm s2) now i2 CO LO2 vnow I2) as X2. cbv zeta in X2. unfold rx_chan in X2. rewrite B2, N2, (proj1 I2), K2, ldue, K3 in X2.
  assert (CTL : exists outs s' xs', rx_blk_control i2 Stch (st_lm s2) = Ok outs /\ um_do_all c (map um_event_of outs) s2 = Ok (s', xs', [])).
  { destruct (any_block i2 Stch 124 216 Block2 b2 s2 v eq_refl eq_refl F2 L4 (proj1 I2) ltac:(now rewrite N2) eq_refl H2 G2) as (o3 & s3 & x3 & A & B & _). eauto. }
  destruct CTL as (o3 & s3 & x3 & A & B).
  destruct (speech_due log) eqn:SD.
  - destruct (says_stolen xs); rewrite X2; [rewrite A; cbn [bind]; rewrite B; cbn [bind app]; eauto|]. unfold rx_blk_traffic. rewrite N2. cbn [bind map um_do_all app]. eauto.
  - destruct (says_stolen xs); [exfalso; destruct H3 as [H3|H3]; [discriminate H3|]; exact (H3 (K5 eq_refl))|]. rewrite X2, A. cbn [bind]. rewrite B. cbn [bind app]. eauto.
Qed.
(** ... and the one the lower MAC does not survive *)
Lemma kill_half t1 tr b1 b2 t2 p a rest : length t1 = 4 -> length b1 = 216 -> length tr = 22 -> length b2 = 216 -> length t2 = 4 -> speech_due log = false ->
  mdata_valid p = true -> mu_addr p = Some a -> mu_len p = Some 62%N -> arrives Stch code b1 (Some (enc (mdata_layout p) ++ rest)) ->
  bs_step c (BeBurst TrainNormal2 (b2b (nub t1 tr b1 b2 t2))) s = Panic.
Proof.
  intros L1 L2 L3 L4 L5 SD VA AD LN A. destruct (first_half t1 tr b1 b2 t2 L1 L2 L3 L4 L5) as (i1 & i2 & _ & F1 & F2 & I1 & I2 & B1 & B2 & N1 & N2 & -> & X1). cbn [rx_blocks]. rewrite X1.
  destruct (rx_ctl_gives i1 Stch (st_lm s) 124 216 (add_timeslots now (-2)) Block1 b1 eq_refl eq_refl F1 L2 lsmall (proj1 I1) ltac:(now rewrite N1) _ ltac:(rewrite lcode; exact A)) as (outs & EO & o & (W & P & FO) & GO).
  assert (LM : length (enc (mdata_layout p) ++ rest) = 124). { destruct A as (blk & b & WB & <- & EC & _). exact (encoded_length Stch 124 216 blk _ b eq_refl WB EC). }
  rewrite EO. cbn [bind]. rewrite GO. cbn [um_do_all]. unfold um_do. cbn [um_step]. set (i := mk_tmv _ _ _ _).
  assert (VI : vtime (tv_time i)) by (cbn [i tv_time]; apply add_valid). pose proof G as (SO & _).
  destruct (block_ok i o (st_um s) W P SO VI eq_refl) as (r & -> & HH & _). rewrite FO in HH.
  assert (HL : length (enc (mdata_layout p)) = 37) by (unfold mdata_layout, mu_addr_layout; rewrite AD, LN; destruct (mu_el p); rewrite enc_length; reflexivity).
  assert (FP : exists acts n, first_pdu (tv_chan i) (enc (mdata_layout p) ++ rest) = Acts (AStolen :: acts) n).
  { cbn [i tv_chan ul_chan_of]. rewrite data_dispatch by now right. unfold data_pdu. rewrite data_parse, AD, LN by exact VA. cbn [N.eqb N.leb N.compare Pos.compare Pos.compare_cont andb Pos.eqb].
    destruct (Nat.ltb_spec (length (enc (mdata_layout p) ++ rest)) (length (enc (mdata_layout p)))); [lia|]. destruct (mu_enc p); cbn [stolen_act app]; eauto. }
  destruct FP as (acts & n & FP). destruct (first_stolen _ _ _ _ HH _ _ FP) as [->|(u & o1 & -> & PL & ST1)]; [reflexivity|]. cbn [bind]. rewrite (to_plain o1 _ PL), ST1, orb_true_r. cbn [bind app].
  assert (LO2 : lm_ok c (lm_configure true (st_lm s))) by exact lm_ok_s.
  pose proof (rx_is c (lm_configure true (st_lm s)) now i2 CO LO2 vnow I2) as X2. cbv zeta in X2. unfold rx_chan in X2. rewrite B2, N2, (proj1 I2) in X2. cbn [lm_configure lm_tp lm_stolen] in X2. rewrite ldue, SD in X2.
  cbn [st_lm]. rewrite X2. reflexivity.
Qed.
End Reached.

(** * From a burst to the link layer *)
Definition one_block (c : cell_cfg) (e : bs_event) (s : station) (i : tmv_ind) (msg : list bool) : Prop :=
  exists o, fresh_with o msg /\ bs_step c e s = um_do_all c [UeBlock i o] s.
Lemma one_block_sdus c s log e i msg xs : cell_ok c = true -> bs_reached c s log -> one_block c e s i msg -> vtime (tv_time i) -> on_channel i = true ->
  block_sent (tv_chan i) msg (map (fun x => ASdu (fst x) (snd x)) xs) ->
  exists pdu outs, bs_step c e s = Ok (s, [(UeBlock i pdu, outs, [])], []) /\ Forall2 (is_sdu_of i) xs outs.
Proof.
  intros CO R (o & (W & P & F) & E) V C B. rewrite <- F in B. destruct (block_sdus c (st_um s) i o xs (upper_reached c s log CO R) W P V C B) as (outs & ER & FA). exists o, outs. split; [|exact FA].
  rewrite E. cbn [um_do_all]. unfold um_do. cbn [um_step]. rewrite ER. cbn [bind].
  assert (NS : plain outs /\ existsb is_stolen outs = false). { clear - FA. induction FA as [|x o l outs (b & _ & _ & _ & ->) F (P & Q)]; [now split|]. split; [exact P|exact Q]. }
  rewrite (to_plain outs _ (proj1 NS)), (proj2 NS), orb_false_r. cbn [bind app]. destruct s as [u l]. cbn [st_um st_lm]. now destruct l.
Qed.

(** * Histories without bursts *)
Definition be_of (e : um_event) : bs_event :=
  match e with UeTick cn t => BeTick cn t | UeSend r => BeSend r | UeDlVoice ts d => BeVoice ts d | UeControl k => BeControl k | _ => BeVoice 0 [] end.
Definition no_radio (e : um_event) : Prop := match e with UeTick _ _ | UeSend _ | UeControl _ => True | _ => False end.
Lemma lift_tick c cn t v s u o m : cell_ok c = true -> minv c v (st_um s) -> tidy (um_sch (st_um s)) -> vtime t -> length (lm_tp (st_lm s)) = 4 -> um_step c (UeTick cn t) (st_um s) = Ok (u, o, m) ->
  exists s' ws, bs_step c (BeTick cn t) s = Ok (s', [(UeTick cn t, o, m)], ws) /\ st_um s' = u.
Proof.
  intros CO M T V L E. destruct (tick_total c cn t v s u o m CO M T V L E) as (s' & xs & ws & B). pose proof B as B'. cbn [bs_step um_do_all] in B'. apply bind_inv in B'. destruct B' as (((s1 & x1) & w1) & B1 & H). injection H as <- <- <-.
  unfold um_do in B1. cbn [st_um st_lm] in B1. rewrite E in B1. cbn [bind] in B1. apply bind_inv in B1. destruct B1 as ((l & w) & _ & B1). injection B1 as <- <- <-. eexists _, _. split; [exact B|reflexivity].
Qed.
Lemma lift_step c e v s u o m : cell_ok c = true -> no_radio e -> good c v s -> um_step c e (st_um s) = Ok (u, o, m) -> exists s' ws, bs_step c (be_of e) s = Ok (s', [(e, o, m)], ws) /\ st_um s' = u.
Proof.
  intros CO N G E. assert (Q : (exists cn t, e = UeTick cn t) \/ (o = [] /\ bs_step c (be_of e) s = um_do_all c [e] s)).
  { destruct e; try contradiction N; cbn [um_step be_of bs_step] in *; [left; eauto|right..]; (split; [|reflexivity]); apply bind_inv in E; destruct E as (y & _ & E); [|destruct y as (y1 & y2)]; now injection E. }
  destruct Q as [(cn & t & ->)|(-> & Q)].
  - pose proof G as (S & M & T & (LC & L4 & LV) & CK). apply (lift_tick c cn t v s u o m CO M T); [rewrite (proj2 (tick_hour c cn t _ _ _ _ _ M E) S); apply add_valid|exact L4|exact E].
  - cbn [be_of]. rewrite Q. cbn [um_do_all]. unfold um_do. rewrite E. cbn [bind to_lmac app]. eexists _, _. split; reflexivity.
Qed.
Lemma lift_run c evs : cell_ok c = true -> Forall no_radio evs -> Forall bs_fine (map be_of evs) -> forall v s u ulog, good c v s -> um_run c evs (st_um s) = Ok (u, ulog) ->
  exists s' log, bs_run c (map be_of evs) s = Ok (s', log) /\ st_um s' = u /\ flat_map (fun x => snd (fst x)) log = ulog.
Proof.
  intros CO. induction evs as [|e evs IH]; intros N F v s u ulog G E; cbn [um_run map bs_run] in *; [injection E as <- <-; eexists _, _; split; [reflexivity|split; reflexivity]|].
  apply bind_inv in E. destruct E as (((u1 & o) & m) & E1 & E). apply bind_inv in E. destruct E as ((u2 & lg) & E2 & E). injection E as <- <-.
  destruct (lift_step c e v s u1 o m CO (Forall_inv N) G E1) as (s1 & ws & B & U). rewrite <- U in E2. destruct (step_good c (be_of e) v s s1 _ ws CO (Forall_inv F) G B) as (G1 & _).
  destruct (IH (Forall_inv_tail N) (Forall_inv_tail F) _ s1 u2 lg G1 E2) as (s' & log & R & U' & L). rewrite B. cbn [bind]. rewrite R. cbn [bind]. eexists _, _. split; [reflexivity|]. split; [exact U'|].
  cbn [flat_map fst snd app]. now rewrite L.
Qed.
Lemma lifted c cn0 u0 cn t evs u ulog : cell_ok c = true -> umac_new c cn0 = Ok u0 -> vtime t -> Forall no_radio evs -> Forall bs_fine (map be_of evs) -> um_run c (UeTick cn t :: evs) u0 = Ok (u, ulog) ->
  exists s log, bs_reached c s log /\ st_um s = u /\ flat_map (fun x => snd (fst x)) log = ulog /\ events_of log = map be_of (UeTick cn t :: evs).
Proof.
  intros CO EU V N F E. assert (EN : station_new c cn0 = Ok (mk_station u0 (lmac_new c))) by (unfold station_new; rewrite EU; reflexivity).
  destruct (new_station c cn0 _ CO EN) as (_ & M & T & EL). cbn [um_run] in E. apply bind_inv in E. destruct E as (((u1 & o) & m) & E1 & E). apply bind_inv in E. destruct E as ((u2 & lg) & E2 & E). injection E as <- <-.
  destruct (lift_tick c cn t _ (mk_station u0 (lmac_new c)) u1 o m CO M T V eq_refl E1) as (s1 & ws & B & U). rewrite <- U in E2.
  destruct (tick_good c cn t (fun _ => idle_ts) (mk_station u0 (lmac_new c)) s1 [(UeTick cn t, o, m)] ws CO M T V eq_refl eq_refl) as (G1 & _); [intros u' o' m' ES; exact (proj1 (first_tick _ _ _ _ _ _ _ _ EU V ES))|exact B|].
  destruct (lift_run c evs CO N F _ s1 u2 lg G1 E2) as (s' & log & R & U' & L).
  assert (RUN : bs_run c (BeTick cn t :: map be_of evs) (mk_station u0 (lmac_new c)) = Ok (s', (BeTick cn t, [(UeTick cn t, o, m)], ws) :: log)) by (cbn [bs_run]; rewrite B; cbn [bind]; rewrite R; reflexivity).
  exists s', ((BeTick cn t, [(UeTick cn t, o, m)], ws) :: log).
  split; [exists cn0, (mk_station u0 (lmac_new c)), cn, t, (map be_of evs); split; [exact EN|]; split; [exact V|]; split; [exact F|exact RUN]|].
  split; [exact U'|]. split; [cbn [flat_map fst snd app]; now rewrite L|].
  exact (proj2 (proj2 (proj2 (history c cn0 _ cn t (map be_of evs) s' _ CO EN V F RUN)))).
Qed.
Lemma sent_flat log : sent log = flat_map (fun x => slots_in (snd (fst x))) (flat_map (fun x => snd (fst x)) log).
Proof. induction log as [|x log IH]; [reflexivity|]. unfold sent in *. cbn [flat_map]. rewrite flat_map_app, IH. reflexivity. Qed.

(** * The uplink theorems over histories *)
Section History.
Variables (c : cell_cfg) (s : station) (log : bs_log) (now : tdma_time).
Hypotheses (CO : cell_ok c = true) (H : bs_reached c s log) (NOW : last_tick (rev log) = Some now) (ST : stolen_since (rev log) = false).
Notation code := (Scrambler.scramb_get_init (cf_mcc c) (cf_mnc c) (cf_colour c)).
Lemma hg : good c (bs_told (events_of log)) s. Proof. exact (proj1 (reached_good c s log CO H)). Qed.
Lemma hr : recalls log (st_lm s). Proof. exact (proj1 (proj2 (reached_good c s log CO H))). Qed.
Lemma access_burst t1 tr b1 b2 t2 m : length t1 = 4 -> length b1 = 84 -> length tr = 30 -> length b2 = 84 -> length t2 = 4 -> arrives SchHu code (b1 ++ b2) m ->
  exists es, gives_block (add_timeslots now (-2)) UcSchHu Block1 code m es /\ bs_step c (BeBurst TrainExtended (b2b (nub t1 tr b1 b2 t2))) s = um_do_all c es s.
Proof. exact (up_control c _ s log now CO hg hr NOW ST t1 tr b1 b2 t2 m). Qed.
Lemma full_burst t1 tr b1 b2 t2 m : length t1 = 4 -> length b1 = 216 -> length tr = 22 -> length b2 = 216 -> length t2 = 4 -> speech_due log = false -> arrives SchF code (b1 ++ b2) m ->
  exists es, gives_block (add_timeslots now (-2)) UcSchF BothBlocks code m es /\ bs_step c (BeBurst TrainNormal1 (b2b (nub t1 tr b1 b2 t2))) s = um_do_all c es s.
Proof. exact (up_full c _ s log now CO hg hr NOW ST t1 tr b1 b2 t2 m). Qed.
Lemma speech_burst t1 tr b1 b2 t2 : length t1 = 4 -> length b1 = 216 -> length tr = 22 -> length b2 = 216 -> length t2 = 4 -> speech_due log = true ->
  exists data, bs_step c (BeBurst TrainNormal1 (b2b (nub t1 tr b1 b2 t2))) s = um_do_all c [UeUlVoice (add_timeslots now (-2)) (ts_of (add_timeslots now (-2))) (b2b data)] s /\ length data = 274 /\
    (forall msg, speech_arrives code (b1 ++ b2) msg -> forall k, k < 274 -> unprotected k = false -> nth k data false = nth k msg false) /\
    (forall msg, speech_clean code (b1 ++ b2) msg -> data = msg).
Proof. exact (up_speech c _ s log now CO hg hr NOW ST t1 tr b1 b2 t2). Qed.
Lemma half_bursts t1 tr b1 b2 t2 m1 m2 : length t1 = 4 -> length b1 = 216 -> length tr = 22 -> length b2 = 216 -> length t2 = 4 -> arrives Stch code b1 m1 -> arrives Stch code b2 m2 ->
  exists es1 es2, gives_block (add_timeslots now (-2)) UcStch Block1 code m1 es1 /\ gives_block (add_timeslots now (-2)) UcStch Block2 code m2 es2 /\
    bs_step c (BeBurst TrainNormal2 (b2b (nub t1 tr b1 b2 t2))) s =
    bind (um_do_all c es1 s) (fun x => let '(s1, xs, ws) := x in
      if xorb (says_stolen xs) (speech_due log) then (if says_stolen xs then Panic else Ok (s1, xs, ws))
      else bind (um_do_all c es2 s1) (fun y => let '(s2, xs2, ws2) := y in Ok (s2, xs ++ xs2, ws ++ ws2))).
Proof. exact (up_halves c _ s log now CO hg hr NOW ST t1 tr b1 b2 t2 m1 m2). Qed.
Lemma burst_to_link t1 tr b1 b2 t2 msg xs : length t1 = 4 -> length b1 = 216 -> length tr = 22 -> length b2 = 216 -> length t2 = 4 -> speech_due log = false -> arrives SchF code (b1 ++ b2) (Some msg) ->
  block_sent UcSchF msg (map (fun x => ASdu (fst x) (snd x)) xs) ->
  exists e outs, bs_step c (BeBurst TrainNormal1 (b2b (nub t1 tr b1 b2 t2))) s = Ok (s, [(e, outs, [])], []) /\
    Forall2 (fun x o => exists b, wf b /\ bpos b = bstart b /\ window b = snd x /\ o = OutSdu (add_timeslots now (-2)) b (fst x) code) xs outs.
Proof.
  intros L1 L2 L3 L4 L5 SD A B. destruct (full_burst t1 tr b1 b2 t2 (Some msg) L1 L2 L3 L4 L5 SD A) as (es & (o & F & ->) & E).
  destruct (one_block_sdus c s log _ _ msg xs CO H (ex_intro _ o (conj F E)) (add_valid _ _) eq_refl B) as (pdu & outs & E2 & FA). eexists _, outs. split; [exact E2|exact FA].
Qed.
Lemma bursts_survived :
  (forall t1 tr b1 b2 t2, length t1 = 4 -> length b1 = 84 -> length tr = 30 -> length b2 = 84 -> length t2 = 4 -> harmless SchHu code (b1 ++ b2) ->
     exists s' xs, bs_step c (BeBurst TrainExtended (b2b (nub t1 tr b1 b2 t2))) s = Ok (s', xs, [])) /\
  (forall t1 tr b1 b2 t2, length t1 = 4 -> length b1 = 216 -> length tr = 22 -> length b2 = 216 -> length t2 = 4 ->
     (speech_due log = true \/ harmless SchF code (b1 ++ b2) -> exists s' xs, bs_step c (BeBurst TrainNormal1 (b2b (nub t1 tr b1 b2 t2))) s = Ok (s', xs, [])) /\
     (harmless Stch code b1 -> harmless Stch code b2 -> speech_due log = true \/ ~ announces_stolen code b1 -> exists s' xs, bs_step c (BeBurst TrainNormal2 (b2b (nub t1 tr b1 b2 t2))) s = Ok (s', xs, []))).
Proof.
  split; [intros t1 tr b1 b2 t2; exact (safe_control c _ s log now CO hg hr NOW ST t1 tr b1 b2 t2)|]. intros t1 tr b1 b2 t2 L1 L2 L3 L4 L5.
  split; [exact (safe_full c _ s log now CO hg hr NOW ST t1 tr b1 b2 t2 L1 L2 L3 L4 L5)|exact (safe_halves c _ s log now CO hg hr NOW ST t1 tr b1 b2 t2 L1 L2 L3 L4 L5)].
Qed.
Lemma half_kills t1 tr b1 b2 t2 p a rest : length t1 = 4 -> length b1 = 216 -> length tr = 22 -> length b2 = 216 -> length t2 = 4 -> speech_due log = false ->
  mdata_valid p = true -> mu_addr p = Some a -> mu_len p = Some 62%N -> arrives Stch code b1 (Some (enc (mdata_layout p) ++ rest)) ->
  bs_step c (BeBurst TrainNormal2 (b2b (nub t1 tr b1 b2 t2))) s = Panic.
Proof. exact (kill_half c _ s log now CO hg hr NOW ST t1 tr b1 b2 t2 p a rest). Qed.
End History.

(** * Examples *)
Lemma last_is_tick log evs cn t : events_of log = evs ++ [BeTick cn t] -> last_tick (rev log) = Some t /\ stolen_since (rev log) = false.
Proof.
  intros E. destruct log as [|x log] using rev_ind; [destruct evs; discriminate E|]. unfold events_of in E. rewrite map_app in E. cbn [map] in E. apply app_inj_tail in E. destruct E as (_ & E).
  rewrite rev_app_distr. destruct x as ((e & xs) & ws). cbn [fst] in E. subst e. now split.
Qed.
Lemma Forall_firstn {A} (P : A -> Prop) l : forall n, Forall P l -> Forall P (firstn n l).
Proof. induction l as [|x l IH]; intros [|n] F; cbn [firstn]; constructor; [exact (Forall_inv F)|exact (IH n (Forall_inv_tail F))]. Qed.
Lemma ex_ticks_no n : forall t, Forall no_radio (ticks t n) /\ Forall bs_fine (map be_of (ticks t n)).
Proof. induction n as [|n IH]; intros t; cbn [ticks map be_of]; split; constructor; try apply IH; exact Logic.I. Qed.
Lemma ex_call_no : Forall no_radio ex_call /\ Forall bs_fine (map be_of ex_call).
Proof.
  unfold ex_call. rewrite !map_app. split; repeat (apply Forall_app; split); try (apply ex_ticks_no); repeat constructor.
Qed.
Definition ex_due (n : nat) (log : list (um_event * list um_out * list tx_reporter)) : bool := match nth_error (rev (flat_map (fun x => slots_in (snd (fst x))) log)) n with Some k => sl_ul_tp k | None => false end.
Lemma ex_state n cn t b pre : firstn n ex_call = pre ++ [UeTick cn t] ->
  (exists u0 u ulog, umac_new DlFacts.ex_cell false = Ok u0 /\ um_run DlFacts.ex_cell (UeTick false ex_t0 :: firstn n ex_call) u0 = Ok (u, ulog) /\ ex_due 3 ulog = b) ->
  exists s log, bs_reached DlFacts.ex_cell s log /\ last_tick (rev log) = Some t /\ stolen_since (rev log) = false /\ speech_due log = b /\ length log = S (length pre) + 1.
Proof.
  intros EP (u0 & u & ulog & EN & E & D). destruct (lifted DlFacts.ex_cell false u0 false ex_t0 (firstn n ex_call) u ulog eq_refl EN ex_t0_ok) as (s & log & R & _ & L & EV); [|rewrite <- firstn_map|exact E|].
  1, 2: apply Forall_firstn; apply ex_call_no.
  exists s, log. split; [exact R|]. assert (EV' : events_of log = (BeTick false ex_t0 :: map be_of pre) ++ [BeTick cn t]) by (rewrite EV, EP; cbn [map]; rewrite map_app; reflexivity).
  destruct (last_is_tick log _ cn t EV') as (A & B). split; [exact A|]. split; [exact B|]. split; [unfold speech_due; rewrite sent_flat, L; exact D|].
  apply (f_equal (@length bs_event)) in EV'. unfold events_of in EV'. rewrite map_length, app_length in EV'. cbn [length] in EV'. rewrite map_length in EV'. lia.
Qed.
Lemma ex_idle : exists s log, bs_reached DlFacts.ex_cell s log /\ last_tick (rev log) = Some (mk_time 4 14 1 0) /\ stolen_since (rev log) = false /\ speech_due log = false /\ length log = 4.
Proof. apply (ex_state 3 false (mk_time 4 14 1 0) false [UeTick false (mk_time 2 14 1 0); UeTick false (mk_time 3 14 1 0)] eq_refl). apply (ran DlFacts.ex_cell (UeTick false ex_t0 :: firstn 3 ex_call) (ex_due 3)). vm_compute. reflexivity. Qed.
Lemma ex_busy : exists s log, bs_reached DlFacts.ex_cell s log /\ last_tick (rev log) = Some (mk_time 4 15 1 0) /\ stolen_since (rev log) = false /\ speech_due log = true /\ length log = 9.
Proof. apply (ex_state 8 false (mk_time 4 15 1 0) true (firstn 7 ex_call) eq_refl). apply (ran DlFacts.ex_cell (UeTick false ex_t0 :: firstn 8 ex_call) (ex_due 3)). vm_compute. reflexivity. Qed.
Lemma weight_parts a b : weight (a ++ b) = weight a + weight b.
Proof. induction a as [|x a IH]; [reflexivity|]. cbn [app weight]. rewrite IH. lia. Qed.
(** a radio sends, one bit is wrong *)
Lemma radio_sends ch k n code msg j : control_sizes ch = Some (k, n) -> length msg = k -> (code < 2 ^ 32)%N -> j < n -> exists r, length r = n /\ arrives ch code r (Some msg).
Proof.
  intros S L C J. destruct (one_half msg) as (blk & _ & (W & _ & F)). destruct (control_encode ch k n blk code S W ltac:(congruence) C) as (b & E & _ & _ & LB).
  exists (xorl (window b) (repeat false j ++ true :: repeat false (n - j - 1))).
  assert (LE : length (repeat false j ++ true :: repeat false (n - j - 1)) = length (window b)) by (rewrite app_length; cbn [length]; rewrite !repeat_length; lia).
  split; [rewrite ConvDist.xorl_length; congruence|]. exists blk, b. split; [exact W|]. split; [exact F|]. split; [exact E|]. eexists. split; [exact LE|]. split; [|reflexivity].
  rewrite weight_parts. cbn [weight]. rewrite !weight_zeros. lia.
Qed.
Lemma radio_speaks code msg : length msg = 274 -> (code < 2 ^ 32)%N -> exists r, length r = 432 /\ speech_clean code r msg.
Proof.
  intros L C. destruct (one_half msg) as (blk & _ & (W & _ & F)). destruct (speech_roundtrip blk code (repeat false 432) W ltac:(congruence) C (repeat_length _ _)) as (b & E & _ & _ & LB & _); [rewrite weight_zeros; lia|].
  exists (window b). split; [exact LB|]. exists blk, b. rewrite F. auto.
Qed.
Lemma in_two {A} (r : list A) a b : length r = a + b -> exists x y, r = x ++ y /\ length x = a /\ length y = b.
Proof. intros L. exists (firstn a r), (skipn a r). rewrite firstn_skipn, firstn_length, skipn_length. split; [reflexivity|lia]. Qed.

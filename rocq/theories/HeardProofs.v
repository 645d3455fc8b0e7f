(** From requests to bursts: the history of the base station as a history of the downlink scheduler. *)
From Coq Require Import Arith Permutation.
From Verif Require Import Base BitsLib BitBuffer BitBufferProofs BitBufferOps MacFields MacPdus Layout MacSpec TdmaTime TdmaTimeProofs TxReceipt UmacCircuits UmacCircuitsProofs BsFrag DlSched DlSchedSpec
  DlSlot DlChunk UlSched UmacPrecomps UmacBs StealSpec StealFacts UlBlockSpec UlBlockPdu UmacSched SlotSpec SlotProofs SlotRun LmacSpec Slotter SlotterSpec LmacBs BsMac AirSpec AirRun AliveSpec HeardSpec DlTrace.
From Verif Require CallControl FragSpec AirFacts DlFacts Llc.
Open Scope nat_scope.

(** * One step of the base station *)
Definition burst_ev (e : dl_event) : Prop := match e with DvAck _ _ | DvGrant _ _ _ | DvCapReq _ _ _ | DvVoice _ _ => True | _ => False end.
Definition bs_made (c : cell_cfg) (e : bs_event) (s : dls) (evs : list dl_event) : Prop :=
  match e with
  | BeTick cn t => made c (UeTick cn t) s evs
  | BeBurst _ _ => Forall burst_ev evs
  | BeSend r => made c (UeSend r) s evs
  | BeVoice ts d => made c (UeDlVoice ts d) s evs
  | BeControl k => made c (UeControl k) s evs
  end.
Lemma do_made c e s s' x ws : ev_fine e -> sound (st_um s) -> um_do c e s = Ok (s', x, ws) ->
  sound (st_um s') /\ exists evs lg, made c e (um_sch (st_um s)) evs /\ dl_run evs (um_sch (st_um s)) = Ok (lg, um_sch (st_um s')) /\ made_slots lg = slots_of [x].
Proof.
  intros F S E. unfold um_do in E. apply bind_inv in E. destruct E as (((u & o) & m) & E & H). apply bind_inv in H. destruct H as ((l & w) & _ & H). injection H as <- <- _. cbn [st_um].
  split; [exact (proj1 (step_did c e _ u o m F S E))|]. destruct (step_made c e _ u o m F S E) as (evs & lg & M & D & L). exists evs, lg. split; [exact M|]. split; [exact D|]. rewrite L. unfold slots_of. cbn [flat_map fst snd]. now rewrite app_nil_r.
Qed.
Lemma made_app a b : made_slots (a ++ b) = made_slots a ++ made_slots b.
Proof. apply flat_map_app. Qed.
Definition rx_ev (e : um_event) : Prop := match e with UeTick _ _ | UeControl _ | UeSend _ | UeDlVoice _ _ => False | _ => True end.
Lemma burst_made c e s evs : rx_ev e -> made c e s evs -> Forall burst_ev evs.
Proof.
  intros R M. destruct e; try contradiction R; cbn [made] in M.
  - eapply Forall_impl; [|exact M]. intros x H. destruct x; try contradiction H; exact Logic.I.
  - destruct M as [->|(b & ->)]; repeat constructor.
Qed.
Lemma one_made c e s s' xs ws : ev_fine e -> sound (st_um s) -> um_do_all c [e] s = Ok (s', xs, ws) ->
  exists evs lg, made c e (um_sch (st_um s)) evs /\ dl_run evs (um_sch (st_um s)) = Ok (lg, um_sch (st_um s')) /\ made_slots lg = slots_of xs.
Proof.
  intros F S E. cbn [um_do_all] in E. apply bind_inv in E. destruct E as (((s1 & x) & w1) & E1 & E). injection E as <- <- _. exact (proj2 (do_made c e s s1 x w1 F S E1)).
Qed.
Lemma all_made c es : forall s s' xs ws, Forall ev_fine es -> Forall rx_ev es -> sound (st_um s) -> um_do_all c es s = Ok (s', xs, ws) ->
  exists evs lg, Forall burst_ev evs /\ dl_run evs (um_sch (st_um s)) = Ok (lg, um_sch (st_um s')) /\ made_slots lg = slots_of xs.
Proof.
  induction es as [|e es IH]; intros s s' xs ws F R S E; cbn [um_do_all] in E; [injection E as <- <- _; exists [], []; split; [constructor|]; split; reflexivity|].
  apply bind_inv in E. destruct E as (((s1 & x) & w1) & E1 & E). apply bind_inv in E. destruct E as (((s2 & x2) & w2) & E2 & E). injection E as <- <- _.
  destruct (do_made c e s s1 x w1 (Forall_inv F) S E1) as (S1 & evs & lg & M & D & L). destruct (IH s1 s2 x2 w2 (Forall_inv_tail F) (Forall_inv_tail R) S1 E2) as (evs2 & lg2 & M2 & D2 & L2).
  exists (evs ++ evs2), (lg ++ lg2). split; [apply Forall_app; split; [exact (burst_made c e _ _ (Forall_inv R) M)|exact M2]|]. split; [exact (run_app _ _ _ _ _ _ _ D D2)|].
  rewrite made_app, L, L2. unfold slots_of. cbn [flat_map]. now rewrite app_nil_r.
Qed.
Lemma rx_made c t is : cell_ok c = true -> vtime t -> forall v s s' xs ws, Forall (ind_ok t) is -> good c v s -> rx_blocks c is s = Ok (s', xs, ws) ->
  exists evs lg, Forall burst_ev evs /\ dl_run evs (um_sch (st_um s)) = Ok (lg, um_sch (st_um s')) /\ made_slots lg = slots_of xs.
Proof.
  intros CO V. induction is as [|i is IH]; intros v s s' xs ws F G E; cbn [rx_blocks] in E; [injection E as <- <- _; exists [], []; split; [constructor|]; split; reflexivity|].
  apply bind_inv in E. destruct E as (out & ER & E). apply bind_inv in E. destruct E as (((s1 & x1) & w1) & E1 & E). apply bind_inv in E. destruct E as (((s2 & x2) & w2) & E2 & E). injection E as <- <- _.
  destruct (rx_events c (st_lm s) t i out CO (proj1 (proj2 (proj2 (proj2 G)))) V (Forall_inv F) ER) as (EV & CA). destruct (marked_rx _ CA) as (CA1 & CA2 & TO).
  destruct (do_all_good c _ CO v s s1 x1 w1 EV CA1 CA2 G E1) as (G1 & _ & _). destruct (IH _ s1 s2 x2 w2 (Forall_inv_tail F) G1 E2) as (evs2 & lg2 & M2 & D2 & L2).
  destruct (all_made c (map um_event_of out) s s1 x1 w1) as (evs & lg & M & D & L); [|clear; induction out as [|[] out IH]; constructor; try exact Logic.I; exact IH|exact (proj1 G)|exact E1|].
  { eapply Forall_impl; [|exact EV]. intros e H. exact (proj1 H). }
  exists (evs ++ evs2), (lg ++ lg2). split; [apply Forall_app; now split|]. split; [exact (run_app _ _ _ _ _ _ _ D D2)|]. now rewrite made_app, L, L2, slots_of_app.
Qed.
Lemma bs_step_made c e v s s' xs ws : cell_ok c = true -> bs_fine e -> good c v s -> bs_step c e s = Ok (s', xs, ws) ->
  exists evs lg, bs_made c e (um_sch (st_um s)) evs /\ dl_run evs (um_sch (st_um s)) = Ok (lg, um_sch (st_um s')) /\ made_slots lg = slots_of xs.
Proof.
  intros CO F G E. pose proof (proj1 G) as S. destruct e as [cn t|ts bits|r|ts data|k]; cbn [bs_step bs_fine bs_made] in *.
  - exact (one_made c (UeTick cn t) (mk_station (st_um s) (lm_tick t (st_lm s))) s' xs ws Logic.I S E).
  - destruct F as (l & ->). apply bind_inv in E. destruct E as (is & ES & E). exact (rx_made c _ is CO (proj2 (proj2 (proj1 (proj2 (proj2 (proj2 G)))))) v s s' xs ws (split_ok _ _ _ _ ES) G E).
  - exact (one_made c (UeSend r) s s' xs ws Logic.I S E).
  - exact (one_made c (UeDlVoice ts data) s s' xs ws Logic.I S E).
  - exact (one_made c (UeControl k) s s' xs ws Logic.I S E).
Qed.

(** * What is put into the queue *)
Definition pushed (k : nat) (e : dl_event) : list dl_elem :=
  match e with
  | DvAck ts a => if ts =? k then [DlAck a] else []
  | DvGrant ts a g => if ts =? k then [DlGrant a g] else []
  | DvResource ts p sdu rep => if ts =? k then [DlResource p sdu rep] else []
  | _ => []
  end.
Definition q_of (k : nat) (s : dls) : list dl_elem := nth (k - 1) (ds_q s) [].
Lemma push_q_of k ts e s s1 : four s -> 1 <= k <= 4 -> push_q ts e s = Ok s1 -> four s1 /\ q_of k s1 = q_of k s ++ (if ts =? k then [e] else []).
Proof.
  intros F K E. unfold push_q in E. bi E. injection E as <-. assert (T : 1 <= ts <= 4) by (exact (DlRun.get_range ts s x F E0)). split; [apply four_put; exact F|].
  unfold get_q in E0. rewrite (ts_get_ok _ ts []) in E0 by assumption. injection E0 as <-. unfold q_of, put_q, set_q. cbn [ds_q]. rewrite nth_ts_set by assumption. destruct (k =? ts) eqn:EK.
  - apply Nat.eqb_eq in EK. subst ts. now rewrite Nat.eqb_refl.
  - rewrite Nat.eqb_sym, EK. now rewrite app_nil_r.
Qed.
Lemma burst_step k e s o m s1 : burst_ev e -> four s -> 1 <= k <= 4 -> dl_step e s = Ok (o, m, s1) -> four s1 /\ q_of k s1 = q_of k s ++ pushed k e.
Proof.
  intros B F K E. destruct e; try contradiction B; cbn [dl_step pushed] in *.
  - bi E. injection E as _ _ <-. exact (push_q_of k ts _ s x F K E0).
  - bi E. injection E as _ _ <-. exact (push_q_of k ts _ s x F K E0).
  - bi E. injection E as _ _ <-. unfold dl_schedule_tmd in E0. bi E0. injection E0 as <-. split; [exact F|]. unfold q_of. cbn [ds_q set_circ]. now rewrite app_nil_r.
  - bi E. destruct x as [g u]. injection E as _ _ <-. split; [exact F|]. unfold q_of. cbn [ds_q set_ul]. now rewrite app_nil_r.
Qed.
Lemma burst_run k evs : forall s lg s1, Forall burst_ev evs -> four s -> 1 <= k <= 4 -> dl_run evs s = Ok (lg, s1) -> q_of k s1 = q_of k s ++ flat_map (pushed k) evs.
Proof.
  induction evs as [|e evs IH]; intros s lg s1 B F K E; cbn [dl_run] in E; [injection E as _ <-; cbn [flat_map]; now rewrite app_nil_r|].
  bi E. destruct x as [[o m] sx]. bi E. destruct x as [l sy]. injection E as _ <-. destruct (burst_step k e s o m sx (Forall_inv B) F K E0) as (F1 & Q1). rewrite (IH sx l sy (Forall_inv_tail B) F1 K E1), Q1. cbn [flat_map]. now rewrite app_assoc.
Qed.
Lemma not_hopeless e p : heads e = Some p -> ~ hopeless e -> sendable p.
Proof.
  intros H N. assert (D : sendable p \/ ~ sendable p).
  { unfold sendable. destruct (mr_valid _); [|right; intros (A & _); discriminate A]. destruct (mr_is_null p); [right; intros (_ & A); discriminate A|]. left. now split. }
  destruct D as [D|D]; [exact D|]. exfalso. apply N. now exists p.
Qed.
Lemma names_first r : match tr_chan r with Some q => first_set (Llc.cq_timeslots q) 1 = None -> named r = false | None => named r = false end.
Proof.
  unfold named. destruct (tr_chan r) as [q|]; [|reflexivity]. intros H. pose proof (first_set_spec (Llc.cq_timeslots q) 1) as S. rewrite H in S. destruct (existsb _ _) eqn:E; [|reflexivity].
  apply existsb_exists in E. destruct E as (b & I & ->). apply In_nth_error in I. destruct I as (i & I). exfalso. exact (S i I).
Qed.
Lemma named_names r : named r = true -> exists t, names r t.
Proof.
  unfold named. destruct (tr_chan r) as [q|] eqn:E; [|discriminate]. intros H. apply existsb_exists in H. destruct H as (b & I & ->). apply In_nth_error in I. destruct I as (i & I).
  exists (S i), q. split; [exact E|]. split; [lia|]. replace (S i - 1) with i by lia. exact I.
Qed.
Lemma aside c cn v k s r ts : 1 <= k <= 4 -> shows c cn v s -> (tr_steal r = true -> ~ names r k /\ (k = 1 \/ named r = true)) -> tr_steal r = true -> traffic_ts r s = Ok (Some ts) -> ts <> k.
Proof.
  intros K SH P ST E -> . destruct (P ST) as (P1 & P2). destruct (traffic_ts_spec r s k E) as [(A & _)|(A & B & _)]; [exact (P1 A)|]. destruct P2 as [->|P2]; [lia|]. destruct (named_names r P2) as (t & N). exact (A t N).
Qed.
Lemma fair_made c v k e s s' evs lg : 1 <= k <= 4 -> cell_ok c = true -> good c v s -> four (um_sch (st_um s)) -> proper c k e -> bs_made c e (um_sch (st_um s)) evs ->
  dl_run evs (um_sch (st_um s)) = Ok (lg, um_sch (st_um s')) -> hopeful k s' -> Forall (fair k) evs.
Proof.
  intros K CO G F P M D HP. unfold hopeful in HP. fold (q_of k (um_sch (st_um s'))) in HP. destruct e as [cn t|ts bits|r|ts data|x]; cbn [bs_made made proper] in *.
  - destruct M as [->|(on & ->)]; repeat constructor.
  - rewrite (burst_run k evs _ _ _ M F K D) in HP. apply Forall_app in HP. destruct HP as (_ & HP). clear D. induction evs as [|e evs IH]; [constructor|]. cbn [flat_map] in HP. apply Forall_app in HP. destruct HP as (H1 & H2).
    constructor; [|exact (IH (Forall_inv_tail M) H2)]. pose proof (Forall_inv M) as B. destruct e; try contradiction B; cbn [fair pushed] in *; try exact Logic.I; intros ->; rewrite Nat.eqb_refl in H1; apply Forall_inv in H1; refine (not_hopeless _ _ _ H1); reflexivity.
  - destruct M as [(p & ST & -> & HH & HW)|(ts & raf & b & ST & ET & EB & ->)].
    + constructor; [|constructor]. cbn [fair]. intros TK. destruct (proj2 P TK) as (W & PO & RP & NC). split; [|split; [exact W|]; split; [exact PO|]; split; [exact RP|rewrite HW; exact NC]].
      cbn [dl_run dl_step] in D. apply bind_inv in D. destruct D as (((o & m) & sx) & E & D). apply bind_inv in E. destruct E as (sy & E0 & E). injection E as _ _ <-. cbn [bind] in D. injection D as _ D. rewrite D in E0. unfold dl_enqueue_tma in E0. destruct (push_q_of k _ _ _ _ F K E0) as (_ & Q). rewrite Q, TK, Nat.eqb_refl in HP. apply Forall_app in HP. destruct HP as (_ & HP). apply Forall_inv in HP. refine (not_hopeless _ _ _ HP); reflexivity.
    + destruct G as (_ & (cn & _ & SH) & _). constructor; [exact Logic.I|]. constructor; [|constructor]. cbn [fair]. exact (aside c cn v k _ r ts K SH (proj1 P) ST ET).
  - destruct M as [->|(b & ->)]; repeat constructor.
  - eapply Forall_impl; [|exact M]. intros y H. destruct y; try contradiction H; try exact Logic.I. cbn [fair]. destruct x; try discriminate H; injection H as -> <-; auto.
Qed.

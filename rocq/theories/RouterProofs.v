(** Proofs about the message router. *)
From Coq Require Import Permutation.
From Verif Require Import Base TdmaTime Router RouterSpec.
Open Scope nat_scope.

Section P.
Variables (Ent Msg World : Type).
Variable ent_eqb : Ent -> Ent -> bool.
Variables (Llc Umac : Ent).
Variable dest : Msg -> Ent.
Variable registered : Ent -> bool.
Variable rx : Ent -> Msg -> World -> World * list (Msg * prio).
Variable ts_of te_of : Ent -> tdma_time -> World -> World * list (Msg * prio).
Notation event := (event Ent Msg).
Notation follows := (@follows Ent Msg dest registered).
Notation router := (router Msg World).
Notation deliver_message := (deliver_message Ent Msg World dest registered rx).
Notation deliver_all := (deliver_all_messages Ent Msg World dest registered rx).
Notation rrun := (rrun Ent Msg World ent_eqb Llc Umac dest registered rx ts_of te_of).
Notation rstep := (rstep Ent Msg World ent_eqb Llc Umac dest registered rx ts_of te_of).
Notation tick_end := (tick_end Ent Msg World ent_eqb Llc Umac dest registered rx te_of).
Notation run_tick := (run_tick Ent Msg World).
Notation run_ticks := (run_ticks Ent Msg World).
Notation run_stack := (run_stack Ent Msg World ent_eqb Llc Umac dest registered rx ts_of te_of).

Lemma follows_app w tr1 w1 tr2 w2 : follows w tr1 w1 -> follows w1 tr2 w2 -> follows w (tr1 ++ tr2) w2.
Proof. induction 1; intros H2; cbn [app]; [assumption| | | | |]; econstructor; eauto. Qed.

Definition queue_of (w : waiting) : list Msg := w_immediate w ++ w_normal w.

Lemma push_all_follows out : forall w, exists w', follows w (sent_events Ent Msg out) w' /\ queue_of w' = push_all Msg (queue_of w) out.
Proof.
  induction out as [|[m p] t IH]; intros w; cbn [sent_events map push_all fold_left].
  - exists w. split; [constructor|reflexivity].
  - destruct p; cbn [fst snd].
    + destruct (IH (mk_waiting (m :: w_immediate w) (w_normal w))) as (w' & F & Q). exists w'. split; [now constructor|exact Q].
    + destruct (IH (mk_waiting (w_immediate w) (w_normal w ++ [m]))) as (w' & F & Q). exists w'. split; [now constructor|].
      rewrite Q. unfold queue_of, push_prio. cbn. now rewrite app_assoc.
Qed.

Lemma next_out_queue w m q : queue_of w = m :: q -> exists w1, next_out w = Some (m, w1) /\ queue_of w1 = q.
Proof.
  destruct w as [[|i ti] n]; unfold queue_of, next_out; cbn [w_immediate w_normal app].
  - intros ->. eexists. split; [reflexivity|reflexivity].
  - intros H. injection H as -> <-. eexists. split; [reflexivity|reflexivity].
Qed.

Lemma deliver_follows w r : queue_of w = rt_queue _ _ r ->
  exists w', follows w (fst (deliver_message r)) w' /\ queue_of w' = rt_queue _ _ (snd (deliver_message r)).
Proof.
  intros H. unfold Router.deliver_message. destruct (rt_queue _ _ r) as [|m q] eqn:E.
  - exists w. split; [constructor|]. cbn [snd]. now rewrite E.
  - destruct (next_out_queue w m q H) as (w1 & N1 & Q1). destruct (registered (dest m)) eqn:R.
    + destruct (rx (dest m) m (rt_world _ _ r)) as [wd out]. cbn [fst snd rt_queue].
      destruct (push_all_follows out w1) as (w' & F & Q). exists w'. split; [econstructor; eauto|]. now rewrite Q, Q1.
    + cbn [fst snd rt_queue]. exists w1. split; [eapply f_discarded; eauto; constructor|exact Q1].
Qed.

Lemma deliver_all_follows fuel : forall w r ev r', queue_of w = rt_queue _ _ r -> deliver_all fuel r = Some (ev, r') ->
  rt_queue _ _ r' = [] /\ follows w ev (mk_waiting [] []).
Proof.
  induction fuel as [|fuel IH]; intros w r ev r' H E; cbn [deliver_all_messages] in E;
    destruct (rt_queue _ _ r) as [|m q] eqn:Eq; try discriminate E.
  1,2: injection E as <- <-; rewrite Eq; split; [reflexivity|];
    destruct w as [[|] [|]]; try discriminate H; constructor.
  rewrite <- Eq in H. destruct (deliver_follows w r H) as (w1 & F1 & Q1).
  destruct (deliver_message r) as [ev1 r1]. cbn [fst snd] in *.
  destruct (deliver_all fuel r1) as [[ev2 r2]|] eqn:E2; [|discriminate E]. injection E as <- <-.
  destruct (IH w1 r1 ev2 r2 Q1 E2) as [Z F2]. split; [exact Z|]. eapply follows_app; eauto.
Qed.

Lemma run_tick_follows tick e w r : queue_of w = rt_queue _ _ r ->
  exists w', follows w (fst (run_tick tick e r)) w' /\ queue_of w' = rt_queue _ _ (snd (run_tick tick e r)).
Proof.
  intros H. unfold Router.run_tick. destruct (tick e (rt_ts _ _ r) (rt_world _ _ r)) as [wd out]. cbn [fst snd rt_queue].
  destruct (push_all_follows out w) as (w' & F & Q). exists w'. split; [now constructor|]. now rewrite Q, H.
Qed.
Lemma run_ticks_follows tick es : forall w r, queue_of w = rt_queue _ _ r ->
  exists w', follows w (fst (run_ticks tick es r)) w' /\ queue_of w' = rt_queue _ _ (snd (run_ticks tick es r)).
Proof.
  induction es as [|e t IH]; intros w r H; cbn [Router.run_ticks].
  - exists w. split; [constructor|exact H].
  - destruct (run_tick_follows tick e w r H) as (w1 & F1 & Q1). destruct (run_tick tick e r) as [ev1 r1]. cbn [fst snd] in *.
    destruct (IH w1 r1 Q1) as (w2 & F2 & Q2). destruct (run_ticks tick t r1) as [ev2 r2]. cbn [fst snd] in *.
    exists w2. split; [eapply follows_app; eauto|exact Q2].
Qed.

Definition empty_w := @mk_waiting Msg [] [].
Lemma queue_empty (r : router) : rt_queue _ _ r = [] -> queue_of empty_w = rt_queue _ _ r.
Proof. intros ->. reflexivity. Qed.

(** [tick_end] runs in three phases, each starting only when nothing is waiting any more. *)
Lemma tick_end_phases fuel order w r ev r' : queue_of w = rt_queue _ _ r -> tick_end fuel order r = Some (ev, r') ->
  rt_queue _ _ r' = [] /\ rt_ts _ _ r' = add_timeslots (rt_ts _ _ r) 1 /\
  exists p1 p2 p3, ev = p1 ++ p2 ++ p3 /\
    follows w p1 empty_w /\ follows empty_w p2 empty_w /\ follows empty_w p3 empty_w /\
    (forall e, In (Ticked _ _ e) p1 <-> registered Llc = true /\ e = Llc) /\
    (forall e, In (Ticked _ _ e) p2 <-> registered Umac = true /\ e = Umac) /\
    (forall e, In (Ticked _ _ e) p3 <-> In e order /\ ent_eqb e Llc = false /\ ent_eqb e Umac = false).
Proof.
  assert (NT : forall out e, ~ In (Ticked Ent Msg e) (sent_events Ent Msg out)).
  { intros out e Q. unfold sent_events in Q. apply in_map_iff in Q. destruct Q as (x & E & _). discriminate E. }
  assert (ND : forall r0 e, ~ In (Ticked Ent Msg e) (fst (deliver_message r0))).
  { intros r0 e. unfold Router.deliver_message. destruct (rt_queue _ _ r0) as [|m q]; [intros []|].
    destruct (registered (dest m)); [|intros [Q|[]]; discriminate Q].
    destruct (rx (dest m) m (rt_world _ _ r0)) as [wd out]. cbn [fst]. intros [Q|Q]; [discriminate Q|]. now apply NT in Q. }
  assert (NA : forall f r0 ev0 r1 e, deliver_all f r0 = Some (ev0, r1) -> ~ In (Ticked Ent Msg e) ev0).
  { induction f as [|f IH]; intros r0 ev0 r1 e E; cbn [deliver_all_messages] in E; destruct (rt_queue _ _ r0); try discriminate E.
    1,2: injection E as <- <-; intros [].
    pose proof (ND r0 e) as N0. destruct (deliver_message r0) as [ev1 r2]. destruct (deliver_all f r2) as [[ev2 r3]|] eqn:E2; [|discriminate E].
    injection E as <- <-. intros Q. apply in_app_or in Q. destruct Q as [Q|Q]; [now apply N0|]. now apply (IH _ _ _ e E2) in Q. }
  assert (TT : forall tick e r0 e', In (Ticked Ent Msg e') (fst (run_tick tick e r0)) <-> e' = e).
  { intros tick e r0 e'. unfold Router.run_tick. destruct (tick e (rt_ts _ _ r0) (rt_world _ _ r0)) as [wd out]. cbn [fst In].
    split; [intros [Q|Q]; [congruence|now apply NT in Q]|intros ->; now left]. }
  assert (TS : forall tick es r0 e', In (Ticked Ent Msg e') (fst (run_ticks tick es r0)) <-> In e' es).
  { intros tick. induction es as [|e t IH]; intros r0 e'; cbn [Router.run_ticks]; [reflexivity|].
    pose proof (TT tick e r0 e') as T1. destruct (run_tick tick e r0) as [ev1 r1]. cbn [fst] in T1.
    specialize (IH r1 e'). destruct (run_ticks tick t r1) as [ev2 r2]. cbn [fst] in *. rewrite in_app_iff, T1, IH. cbn [In]. intuition congruence. }
  assert (SD : forall r0, rt_ts _ _ (snd (deliver_message r0)) = rt_ts _ _ r0).
  { intros r0. unfold Router.deliver_message. destruct (rt_queue _ _ r0); [reflexivity|]. destruct (registered _); [|reflexivity].
    now destruct (rx _ _ _). }
  assert (SA : forall f r0 ev0 r1, deliver_all f r0 = Some (ev0, r1) -> rt_ts _ _ r1 = rt_ts _ _ r0).
  { induction f as [|f IH]; intros r0 ev0 r1 E; cbn [deliver_all_messages] in E; destruct (rt_queue _ _ r0); try discriminate E.
    1,2: injection E as <- <-; reflexivity.
    pose proof (SD r0) as N0. destruct (deliver_message r0) as [ev1 r2]. destruct (deliver_all f r2) as [[ev2 r3]|] eqn:E2; [|discriminate E].
    injection E as <- <-. cbn [snd] in N0. rewrite <- N0. now apply (IH _ _ _ E2). }
  assert (ST : forall tick e r0, rt_ts _ _ (snd (run_tick tick e r0)) = rt_ts _ _ r0).
  { intros tick e r0. unfold Router.run_tick. now destruct (tick e (rt_ts _ _ r0) (rt_world _ _ r0)). }
  assert (STS : forall tick es r0, rt_ts _ _ (snd (run_ticks tick es r0)) = rt_ts _ _ r0).
  { intros tick. induction es as [|e t IH]; intros r0; cbn [Router.run_ticks]; [reflexivity|].
    pose proof (ST tick e r0) as T1. destruct (run_tick tick e r0) as [ev1 r1]. specialize (IH r1). destruct (run_ticks tick t r1). cbn [snd] in *. congruence. }
  intros H E. unfold Router.tick_end in E.
  (* phase 1 *)
  set (x1 := if registered Llc then run_tick te_of Llc r else ([], r)) in E.
  assert (X1 : (exists w1, follows w (fst x1) w1 /\ queue_of w1 = rt_queue _ _ (snd x1)) /\
               (forall e, In (Ticked _ _ e) (fst x1) <-> registered Llc = true /\ e = Llc) /\ rt_ts _ _ (snd x1) = rt_ts _ _ r).
  { unfold x1. destruct (registered Llc).
    - split; [now apply run_tick_follows|]. split; [|apply ST]. intros e. rewrite TT. intuition congruence.
    - split; [exists w; split; [constructor|exact H]|]. split; [|reflexivity]. intros e. cbn. intuition congruence. }
  clearbody x1. destruct x1 as [ev1 r1]. cbn [fst snd] in X1. destruct X1 as ((w1 & F1 & Q1) & T1 & S1).
  destruct (deliver_all fuel r1) as [[ev2 r2]|] eqn:E2; [|discriminate E].
  destruct (deliver_all_follows fuel w1 r1 ev2 r2 Q1 E2) as [Z2 F2].
  (* phase 2 *)
  set (x3 := if registered Umac then run_tick te_of Umac r2 else ([], r2)) in E.
  assert (X3 : (exists w3, follows empty_w (fst x3) w3 /\ queue_of w3 = rt_queue _ _ (snd x3)) /\
               (forall e, In (Ticked _ _ e) (fst x3) <-> registered Umac = true /\ e = Umac) /\ rt_ts _ _ (snd x3) = rt_ts _ _ r2).
  { pose proof (queue_empty r2 Z2) as H2. unfold x3. destruct (registered Umac).
    - split; [now apply run_tick_follows|]. split; [|apply ST]. intros e. rewrite TT. intuition congruence.
    - split; [exists empty_w; split; [constructor|exact H2]|]. split; [|reflexivity]. intros e. cbn. intuition congruence. }
  clearbody x3. destruct x3 as [ev3 r3]. cbn [fst snd] in X3. destruct X3 as ((w3 & F3 & Q3) & T3 & S3).
  destruct (deliver_all fuel r3) as [[ev4 r4]|] eqn:E4; [|discriminate E].
  destruct (deliver_all_follows fuel w3 r3 ev4 r4 Q3 E4) as [Z4 F4].
  (* phase 3 *)
  set (rest := filter _ order) in E.
  pose proof (run_ticks_follows te_of rest empty_w r4 (queue_empty r4 Z4)) as (w5 & F5 & Q5).
  pose proof (TS te_of rest r4) as T5. pose proof (STS te_of rest r4) as S5.
  destruct (run_ticks te_of rest r4) as [ev5 r5]. cbn [fst snd] in *.
  destruct (deliver_all fuel r5) as [[ev6 r6]|] eqn:E6; [|discriminate E].
  destruct (deliver_all_follows fuel w5 r5 ev6 r6 Q5 E6) as [Z6 F6].
  injection E as <- <-. cbn [rt_queue rt_ts].
  split; [exact Z6|]. split; [rewrite (SA _ _ _ _ E6), S5, (SA _ _ _ _ E4), S3, (SA _ _ _ _ E2), S1; reflexivity|].
  exists (ev1 ++ ev2), (ev3 ++ ev4), (ev5 ++ ev6). split; [now rewrite !app_assoc|].
  split; [eapply follows_app; eauto|]. split; [eapply follows_app; eauto|]. split; [eapply follows_app; eauto|].
  split; [intros e; rewrite in_app_iff, T1; pose proof (NA _ _ _ _ e E2); tauto|].
  split; [intros e; rewrite in_app_iff, T3; pose proof (NA _ _ _ _ e E4); tauto|].
  intros e. rewrite in_app_iff, T5. pose proof (NA _ _ _ _ e E6). unfold rest. rewrite filter_In, negb_true_iff, orb_false_iff. tauto.
Qed.

Lemma rstep_follows fuel order c w r ev r' : queue_of w = rt_queue _ _ r -> rstep fuel order c r = Some (ev, r') ->
  exists w', follows w ev w' /\ queue_of w' = rt_queue _ _ r'.
Proof.
  intros H E. destruct c; cbn [Router.rstep] in E.
  - injection E as <- <-. destruct (push_all_follows [(m, Normal)] w) as (w' & F & Q). exists w'. split; [exact F|]. rewrite Q, H. reflexivity.
  - pose proof (deliver_follows w r H) as D. destruct (deliver_message r) as [a b]. injection E as <- <-. exact D.
  - destruct (deliver_all_follows fuel w r ev r' H E) as [Z F]. exists empty_w. split; [exact F|]. now rewrite Z.
  - pose proof (run_ticks_follows ts_of order w r H) as D. unfold tick_start in E. destruct (run_ticks ts_of order r) as [a b]. injection E as <- <-. exact D.
  - destruct (tick_end_phases fuel order w r ev r' H E) as (Z & _ & p1 & p2 & p3 & -> & F1 & F2 & F3 & _).
    exists empty_w. split; [|now rewrite Z]. eapply follows_app; [exact F1|]. eapply follows_app; eauto.
Qed.

Lemma rrun_follows fuel order l : forall w r ev r', queue_of w = rt_queue _ _ r -> rrun fuel order l r = Some (ev, r') ->
  exists w', follows w ev w' /\ queue_of w' = rt_queue _ _ r'.
Proof.
  induction l as [|c t IH]; intros w r ev r' H E; cbn [Router.rrun] in E.
  - injection E as <- <-. exists w. split; [constructor|exact H].
  - destruct (rstep fuel order c r) as [[ev1 r1]|] eqn:E1; [|discriminate E].
    destruct (rrun fuel order t r1) as [[ev2 r2]|] eqn:E2; [|discriminate E]. injection E as <- <-.
    destruct (rstep_follows fuel order c w r ev1 r1 H E1) as (w1 & F1 & Q1).
    destruct (IH w1 r1 ev2 r2 Q1 E2) as (w2 & F2 & Q2). exists w2. split; [eapply follows_app; eauto|exact Q2].
Qed.

(** Every message is accounted for exactly once; messages of normal priority leave in the order sent. *)
Lemma follows_accounts w tr w' : follows w tr w' ->
  Permutation (queue_of w ++ all_sent tr) (left_queue tr ++ queue_of w') /\
  (all_normal tr = true -> w_immediate w = [] -> w_normal w ++ all_sent tr = left_queue tr ++ w_normal w' /\ w_immediate w' = []) /\
  given tr = filter (fun m => registered (dest m)) (left_queue tr) /\
  discarded tr = filter (fun m => negb (registered (dest m))) (left_queue tr).
Proof.
  induction 1 as [w|w m tr w' F IH|w m tr w' F IH|w m w1 tr w' N R F IH|w m w1 tr w' N R F IH|w e tr w' F IH];
    unfold all_sent, left_queue, given, discarded, all_normal in *;
    cbn [flat_map filter forallb app andb] in *; unfold queue_of in *; cbn [w_immediate w_normal] in *.
  - rewrite app_nil_r. split; [reflexivity|]. split; [|split; reflexivity]. intros _ ->. now rewrite app_nil_r.
  - destruct IH as (P & O & G). split; [|split; [discriminate|exact G]].
    rewrite <- P. cbn [app]. rewrite <- !app_assoc. symmetry. rewrite !app_assoc. apply Permutation_middle.
  - destruct IH as (P & O & G). split; [|split; [|exact G]].
    + rewrite <- P. rewrite <- !app_assoc. reflexivity.
    + intros A I. destruct (O A I) as [O1 O2]. split; [|exact O2]. rewrite <- O1, <- app_assoc. reflexivity.
  - destruct IH as (P & O & G1 & G2). rewrite R. cbn [negb]. unfold next_out in N. split; [|split; [|now rewrite G1, G2]].
    + destruct (w_immediate w) as [|i ti]; [destruct (w_normal w) as [|n tn]; [discriminate N|]|]; injection N as <- <-;
        cbn [w_immediate w_normal app] in *; now rewrite P.
    + intros A I. rewrite I in N. destruct (w_normal w) as [|n tn]; [discriminate N|]. injection N as <- <-.
      cbn [w_immediate w_normal app] in *. destruct (O A eq_refl) as [O1 O2]. split; [|exact O2]. now rewrite O1.
  - destruct IH as (P & O & G1 & G2). rewrite R. cbn [negb]. unfold next_out in N. split; [|split; [|now rewrite G1, G2]].
    + destruct (w_immediate w) as [|i ti]; [destruct (w_normal w) as [|n tn]; [discriminate N|]|]; injection N as <- <-;
        cbn [w_immediate w_normal app] in *; now rewrite P.
    + intros A I. rewrite I in N. destruct (w_normal w) as [|n tn]; [discriminate N|]. injection N as <- <-.
      cbn [w_immediate w_normal app] in *. destruct (O A eq_refl) as [O1 O2]. split; [|exact O2]. now rewrite O1.
  - exact IH.
Qed.

Lemma router_order fuel order l r ev r' : rt_queue _ _ r = [] -> rrun fuel order l r = Some (ev, r') ->
  exists w, follows (mk_waiting [] []) ev w /\ rt_queue _ _ r' = w_immediate w ++ w_normal w.
Proof.
  intros Z E. destruct (rrun_follows fuel order l empty_w r ev r' (queue_empty r Z) E) as (w & F & Q). exists w. split; [exact F|]. now rewrite <- Q.
Qed.

Lemma router_exactly_once fuel order l r ev r' : rt_queue _ _ r = [] -> rrun fuel order l r = Some (ev, r') ->
  Permutation (all_sent ev) (left_queue ev ++ rt_queue _ _ r') /\
  (all_normal ev = true -> all_sent ev = left_queue ev ++ rt_queue _ _ r') /\
  given ev = filter (fun m => registered (dest m)) (left_queue ev) /\
  discarded ev = filter (fun m => negb (registered (dest m))) (left_queue ev).
Proof.
  intros Z E. destruct (router_order fuel order l r ev r' Z E) as (w & F & ->).
  destruct (follows_accounts _ _ _ F) as (P & O & G). split; [exact P|]. split; [|exact G].
  intros A. destruct (O A eq_refl) as [O1 O2]. cbn [w_normal app] in O1. rewrite O2. exact O1.
Qed.

Lemma router_tick_end fuel order l r ev r' ev2 r2 : rt_queue _ _ r = [] -> rrun fuel order l r = Some (ev, r') ->
  tick_end fuel order r' = Some (ev2, r2) ->
  rt_queue _ _ r2 = [] /\ rt_ts _ _ r2 = add_timeslots (rt_ts _ _ r') 1 /\
  exists w p1 p2 p3, ev2 = p1 ++ p2 ++ p3 /\ follows (mk_waiting [] []) ev w /\
    follows w p1 (mk_waiting [] []) /\ follows (mk_waiting [] []) p2 (mk_waiting [] []) /\ follows (mk_waiting [] []) p3 (mk_waiting [] []) /\
    (forall e, In (Ticked _ _ e) p1 <-> registered Llc = true /\ e = Llc) /\
    (forall e, In (Ticked _ _ e) p2 <-> registered Umac = true /\ e = Umac) /\
    (forall e, In (Ticked _ _ e) p3 <-> In e order /\ ent_eqb e Llc = false /\ ent_eqb e Umac = false).
Proof.
  intros Z E E2. destruct (rrun_follows fuel order l empty_w r ev r' (queue_empty r Z) E) as (w & F & Q).
  destruct (tick_end_phases fuel order w r' ev2 r2 Q E2) as (Z2 & S2 & p1 & p2 & p3 & H). split; [exact Z2|]. split; [exact S2|].
  exists w, p1, p2, p3. destruct H as (H1 & H2 & H3 & H4 & H5). tauto.
Qed.

(** The main loop is made of the calls above. *)
Lemma run_stack_calls n fuel order : forall r,
  run_stack n fuel order r = rrun fuel order (concat (repeat [TickStart Msg; DeliverAll Msg; TickEnd Msg] n)) r.
Proof.
  induction n as [|n IH]; intros r; [reflexivity|]. cbn [Router.run_stack repeat concat app Router.rrun Router.rstep].
  destruct (tick_start Ent Msg World ts_of order r) as [ev1 r1].
  destruct (deliver_all fuel r1) as [[ev2 r2]|]; [|reflexivity].
  destruct (tick_end fuel order r2) as [[ev3 r3]|]; [|reflexivity].
  rewrite IH. destruct (rrun _ _ _ r3) as [[ev4 r4]|]; reflexivity.
Qed.
End P.

(** What the upper MAC does to its scheduler: every event of the upper MAC is a list of scheduler operations; what holds
    of its state between events. *)
From Coq Require Import Arith.
From Verif Require Import Base BitsLib AMap BitBuffer BitBufferProofs BitBufferOps Codec CodecProofs TypedFields MacFields MacPdus TxReceipt
  TdmaTime TdmaTimeProofs Defrag DefragSpec DefragProofs UlSched UlSchedProofs UmacCircuits UmacCircuitsProofs DlSched DlSlot DlRun UmacPrecomps UmacBs UlBlockSpec UlBlockProofs UlBlockPdu.
From Verif Require UlSchedSpec CallControl.
Open Scope nat_scope.

(** * The scheduler keeps its shape *)
Definition like (s s1 : dls) : Prop := length (ds_q s1) = length (ds_q s) /\ ds_cur s1 = ds_cur s /\ ds_ul s1 = ds_ul s.
Lemma like_refl s : like s s.
Proof. now split. Qed.
Lemma like_trans a b c : like a b -> like b c -> like a c.
Proof. unfold like. intuition congruence. Qed.
Lemma like_put ts q s : like s (put_q ts q s).
Proof. split; [apply put_len|split; reflexivity]. Qed.
Lemma content_like ts dla hang s o1 o2 s1 m : slot_content ts dla hang s = Ok (o1, o2, s1, m) -> like s s1.
Proof.
  intros E. unfold slot_content in E. destruct (dla && negb hang).
  - bi E. destruct x as [[[tch stch] s2] m2]. injection E as E. assert (s1 = s2) as -> by (destruct stch; congruence). clear E.
    unfold dl_build_traffic in E0. bi E0. destruct x as [v c]. bi E0. bi E0. destruct (take_first is_steal x0) as [[[] q']|]; try discriminate E0.
    + bi E0. injection E0 as _ _ <- _. apply like_trans with (set_circ c s); [now split|apply like_put].
    + injection E0 as _ _ <- _. now split.
  - bi E. bi E. destruct x0 as [[o s2] m2]. assert (s1 = s2) as ->.
    { destruct o; [congruence|]. destruct (hang && dla); [bi E; congruence|congruence]. }
    clear E. apply like_trans with x.
    + unfold dl_integrate in E0. bi E0. bi E0. injection E0 as <-. apply like_put.
    + unfold dl_build_signalling in E1. bi E1. bi E1. destruct x1 as [[[o' q] next] m']. destruct next.
      * injection E1 as _ <- _. apply like_trans with (put_q (Z.to_nat (tm_t ts)) q x); [apply like_put|now split].
      * bi E1. injection E1 as _ <- _. apply like_trans with (put_q (Z.to_nat (tm_t ts)) (d :: next) x); [apply like_put|now split].
Qed.
Lemma finalize_ul s k s' m : finalize_ts s = Ok (k, s', m) -> exists u, ul_clear (add_timeslots (ds_cur s) 1) (ds_ul s) = Ok u /\ like (set_ul u s) s'.
Proof.
  intros E. unfold finalize_ts in E. cbv zeta in E.
  bi E. bi E. bi E. bi E. destruct x2 as [[[o1 o2] s1] m1]. cbn [fst snd] in E.
  bi E. bi E. bi E. bi E. bi E. bi E. bi E. bi E. bi E. bi E. injection E as _ Es _. subst s'.
  apply content_like in E3. destruct E3 as (L & C & U). rewrite U in E13. exists x11. split; [exact E13|]. split; [exact L|]. split; [exact C|reflexivity].
Qed.
Lemma sched_like s s1 : like s s1 -> sched_ok s -> sched_ok s1.
Proof. intros (A & B & C) (L & now & l & H). split; [congruence|]. exists now, l. rewrite B, C. exact H. Qed.
Lemma finalize_ok now l s k s' m : length (ds_q s) = 4 -> ds_cur s = from_int now -> inv (ds_ul s) (now - 1) l -> finalize_ts s = Ok (k, s', m) -> sched_ok s'.
Proof.
  intros L C I E. destruct (finalize_ul _ _ _ _ E) as (u & EU & LK). apply (sched_like _ _ LK). split; [exact L|]. exists now, l. split; [exact C|].
  destruct (tick_spec (ds_ul s) (now - 1) l I) as (u' & EU' & I'). rewrite C, add_from in EU. replace (now + 1)%Z with (now - 1 + 2)%Z in EU by lia.
  rewrite EU in EU'. injection EU' as <-. replace now with (now - 1 + 1)%Z by lia. exact I'.
Qed.
Lemma start_ok t s o m s1 : vtime t -> dl_step (DvStart t) s = Ok (o, m, s1) -> sched_ok s1.
Proof.
  intros V E. cbn [dl_step] in E. bi E. destruct x as [s0 m0]. bi E. destruct x as [[k s2] m2]. injection E as _ _ <-. unfold set_dl_time in E0. bi E0. injection E0 as E0 _. rewrite <- E0 in E1. clear E0.
  refine (finalize_ok (to_int t) [] _ _ _ _ _ _ _ E1); [reflexivity|cbn [ds_cur set_ul set_q set_cur]; symmetry; now apply from_to_int|apply inv_empty].
Qed.
Lemma clear_like ts s : like s (clear_hang ts s).
Proof. unfold clear_hang. destruct (_ && _); now split. Qed.
Definition dv_fine (e : dl_event) : Prop :=
  match e with
  | DvStart t => vtime t
  | DvCapReq ts _ _ => 1 <= ts <= 4
  | _ => True
  end.
Lemma high_panics now t ssi req s : (15 <= req)%N -> ul_process_cap_req (from_int now) t ssi req s = Panic.
Proof.
  intros H. unfold ul_process_cap_req. destruct (N.eqb_spec req 0); [lia|]. unfold resreq_to_req_slotcount. destruct (N.eqb_spec req 0); [lia|].
  destruct (N.leb_spec req 6); [lia|]. rewrite nth_overflow; [reflexivity|]. cbn [length]. lia.
Qed.
Lemma dl_step_ok e s o m s1 : dv_fine e -> sched_ok s -> dl_step e s = Ok (o, m, s1) -> sched_ok s1.
Proof.
  intros F S E. destruct e as [t| |ts p sdu rep|ts a g|ts a|ts b rep|ts ssi|ts blk|ts act|dr ts u|dr ts|ts ssi req|on]; [exact (start_ok _ _ _ _ _ F E)|..]; cbn [dl_step dv_fine] in *.
  - bi E. bi E. destruct x0 as [[k s2] m2]. injection E as _ _ <-. destruct S as (L & now & l & C & I). unfold dl_tick_start in E0. bi E0. injection E0 as E0. rewrite <- E0 in E1. clear E0.
    apply (finalize_ok (now + 1) l) in E1; [exact E1|exact L|cbn [ds_cur set_cur]; now rewrite C, add_from|]. replace (now + 1 - 1)%Z with now by lia. exact I.
  - bi E. injection E as _ _ <-. unfold dl_enqueue_tma, push_q in E0. bi E0. injection E0 as <-. apply (sched_like _ _ (like_put _ _ _) S).
  - bi E. injection E as _ _ <-. unfold dl_enqueue_grant, push_q in E0. bi E0. injection E0 as <-. apply (sched_like _ _ (like_put _ _ _) S).
  - bi E. injection E as _ _ <-. unfold dl_enqueue_random_access_ack, push_q in E0. bi E0. injection E0 as <-. apply (sched_like _ _ (like_put _ _ _) S).
  - bi E. injection E as _ _ <-. unfold dl_enqueue_stealing, push_q in E0. bi E0. injection E0 as <-. apply (sched_like _ _ (like_put _ _ _) S).
  - bi E. destruct x as [b0 s0]. injection E as _ _ <-. unfold take_pending_ra_ack in E0. bi E0. destruct (remove_first ssi x); injection E0 as _ <-; [|exact S]. apply (sched_like s); [now split|exact S].
  - bi E. injection E as _ _ <-. unfold dl_schedule_tmd in E0. bi E0. injection E0 as <-. apply (sched_like s); [now split|exact S].
  - bi E. destruct x as [s0 m0]. injection E as _ _ <-. unfold set_hangtime in E0. destruct (_ && _); [|injection E0 as <- _; exact S].
    destruct act; [injection E0 as <- _; apply (sched_like s); [now split|exact S]|]. unfold dl_drop_all_except_stolen in E0. bi E0. bi E0. destruct x0 as [[k r] m1]. bi E0.
    injection E0 as <- _. apply (sched_like (put_q ts k s)); [now split|]. exact (sched_like _ _ (like_put _ _ _) S).
  - bi E. injection E as _ _ <-. unfold dl_create_circuit in E0. bi E0. injection E0 as <-. apply (sched_like (clear_hang ts s)); [now split|]. exact (sched_like _ _ (clear_like _ _) S).
  - bi E. destruct x as [o0 s0]. injection E as _ _ <-. unfold dl_close_circuit in E0. bi E0. destruct x as [o1 c]. injection E0 as _ <-.
    apply (sched_like (clear_hang ts s)); [now split|]. exact (sched_like _ _ (clear_like _ _) S).
  - bi E. destruct x as [g u]. injection E as _ _ <-. destruct S as (L & now & l & C & I). rewrite C in E0. destruct (N.le_gt_cases 15 req) as [NQ|NQ].
    { rewrite high_panics in E0 by assumption. discriminate E0. }
    destruct (req_spec (ds_ul s) now l (Z.of_nat ts) ssi req I ltac:(lia) ltac:(lia)) as (g' & u' & E & H). rewrite E in E0. injection E0 as -> ->. split; [exact L|].
    destruct g as [g|]; [exists now, (l ++ [UlSchedSpec.mk_gr now (Z.of_nat ts) ssi req g]); split; [exact C|exact H]|]. destruct H as (-> & _). exists now, l. split; [exact C|exact I].
  - injection E as _ _ <-. apply (sched_like s); [now split|exact S].
Qed.
Lemma dl_run_ok evs : forall s log s1, Forall dv_fine evs -> sched_ok s -> dl_run evs s = Ok (log, s1) -> sched_ok s1.
Proof.
  induction evs as [|e evs IH]; intros s log s1 F S E; cbn [dl_run] in E; [injection E as _ <-; exact S|].
  bi E. destruct x as [[k m] s2]. bi E. destruct x as [lg s3]. injection E as _ <-. inversion F as [|? ? F1 F2]; subst.
  apply (IH s2 lg s3 F2); [|assumption]. exact (dl_step_ok _ _ _ _ _ F1 S E0).
Qed.

(** * Operations of the scheduler *)
(** [did evs s s1]: the operations [evs] lead from [s] to [s1]. *)
Definition did (evs : list dl_event) (s s1 : dls) : Prop := exists log, dl_run evs s = Ok (log, s1).
Lemma did_nil s : did [] s s.
Proof. exists []. reflexivity. Qed.
Lemma did_one e s o m s1 : dl_step e s = Ok (o, m, s1) -> did [e] s s1.
Proof. intros E. exists [(e, o, m)]. cbn [dl_run]. rewrite E. reflexivity. Qed.
Lemma did_app a : forall b s s1 s2, did a s s1 -> did b s1 s2 -> did (a ++ b) s s2.
Proof.
  induction a as [|e a IH]; intros b s s1 s2 (l1 & E1) H2; cbn [dl_run app] in *.
  - injection E1 as _ ->. exact H2.
  - bi E1. destruct x as [[k m] s']. bi E1. destruct x as [lg s'']. injection E1 as _ ->. destruct (IH b s' s1 s2 ltac:(now exists lg) H2) as (l3 & E3).
    exists ((e, k, m) :: l3). cbn [dl_run]. rewrite E. cbn [bind]. rewrite E3. reflexivity.
Qed.
Lemma did_ok evs s s1 : Forall dv_fine evs -> sched_ok s -> did evs s s1 -> sched_ok s1.
Proof. intros F S (log & E). exact (dl_run_ok _ _ _ _ F S E). Qed.

(** * Blocks *)
(** In a block only acknowledgements, requests and grants reach the scheduler, in the timeslot of the block. *)
Definition from_block (ts : nat) (e : dl_event) : Prop :=
  match e with DvAck t _ => t = ts | DvGrant t _ _ => t = ts | DvCapReq t _ _ => t = ts | _ => False end.
Lemma block_fine ts l : 1 <= ts <= 4 -> Forall (from_block ts) l -> Forall dv_fine l.
Proof. intros H. apply Forall_impl. intros [] A; cbn [from_block dv_fine] in *; try contradiction; auto. now subst. Qed.
Lemma reservation_did t a req s s1 : vtime t -> rx_reservation t a req s = Ok s1 -> exists evs, Forall (from_block (ts_of t)) evs /\ did evs s s1.
Proof.
  intros V E. destruct req as [q|]; cbn [rx_reservation] in E; [|injection E as <-; exists []; split; [constructor|apply did_nil]].
  bi E. destruct x as [g u]. assert (ZT : Z.of_nat (ts_of t) = tm_t t) by (destruct V; unfold ts_of; lia).
  assert (C : did [DvCapReq (ts_of t) (ad_ssi a) q] s (set_ul u s)) by (apply did_one with (o := None) (m := []); cbn [dl_step]; rewrite ZT, E0; reflexivity).
  destruct g as [g|].
  - exists ([DvCapReq (ts_of t) (ad_ssi a) q] ++ [DvGrant (ts_of t) a g]). split; [repeat (constructor; [cbn [from_block]; auto|]); constructor|].
    eapply did_app; [exact C|]. apply did_one with (o := None) (m := []). cbn [dl_step]. rewrite E. reflexivity.
  - injection E as <-. exists [DvCapReq (ts_of t) (ad_ssi a) q]. split; [repeat constructor|]. exact C.
Qed.

Definition did_block (i : tmv_ind) (u u' : umac) : Prop := exists evs, Forall (from_block (ts_of (tv_time i))) evs /\ did evs (um_sch u) (um_sch u').
Lemma did_block_nil i u u' : um_sch u' = um_sch u -> did_block i u u'.
Proof. intros E. exists []. split; [constructor|]. rewrite E. apply did_nil. Qed.
Lemma did_block_app i a b c : did_block i a b -> did_block i b c -> did_block i a c.
Proof. intros (e1 & F1 & D1) (e2 & F2 & D2). exists (e1 ++ e2). split; [apply Forall_app; auto|]. exact (did_app _ _ _ _ _ D1 D2). Qed.
Lemma act_did i x u u' o c : vtime (tv_time i) -> does i x u (Ok (u', o, c)) -> did_block i u u'.
Proof.
  intros V H. destruct x; cbn [does] in H.
  - injection H as -> _ _. now apply did_block_nil.
  - symmetry in H. bi H. injection H as <- _ _. exists [DvAck (ts_of (tv_time i)) a]. split; [repeat constructor|]. cbn [set_sch um_sch]. apply did_one with (o := None) (m := []). cbn [dl_step]. rewrite E. reflexivity.
  - symmetry in H. bi H. injection H as <- _ _. exact (reservation_did _ _ _ _ _ V E).
  - destruct H as (b & _ & _ & _ & H). injection H as -> _ _. now apply did_block_nil.
  - destruct H as (f & _ & _ & H). symmetry in H. bi H. destruct x as [df g]. injection H as <- _ _. now apply did_block_nil.
  - destruct H as (f & _ & _ & H). symmetry in H. bi H. destruct x as [ssi|]; [|injection H as <- _ _; now apply did_block_nil].
    bi H. destruct x; [injection H as <- _ _; now apply did_block_nil|]. bi H. destruct x as [df g]. injection H as <- _ _. now apply did_block_nil.
  - destruct H as (f & _ & _ & H). symmetry in H. bi H. destruct x as [ssi|]; [|injection H as <- _ _; now apply did_block_nil].
    bi H. bi H. bi H. destruct x1 as [df g]. destruct g as [|[b|] [|]]; try (injection H as <- _ _; now apply did_block_nil).
    bi H. injection H as <- _ _. exact (reservation_did _ _ _ _ _ V E3).
Qed.
Lemma acts_did i acts u r : does_all i acts u r -> vtime (tv_time i) -> forall u' o c, r = Ok (u', o, c) -> did_block i u u'.
Proof.
  induction 1 as [u|x l u H|x l u u1 o1 H|x l u u1 o1 H r HR IH]; intros V u' o c E; try discriminate E.
  - injection E as <- _ _. now apply did_block_nil.
  - injection E as <- _ _. exact (act_did _ _ _ _ _ _ V H).
  - bi E. destruct x0 as [[v o2] c2]. injection E as <- _ _. apply did_block_app with u1; [exact (act_did _ _ _ _ _ _ V H)|exact (IH V _ _ _ E0)].
Qed.
Lemma heard_did i l u r : heard i l u r -> vtime (tv_time i) -> forall u' o, r = Ok (u', o) -> did_block i u u'.
Proof.
  induction 1 as [| |l u acts n u1 o1 c EP H _|l u acts n u1 o1 EP H _|l u acts n u1 o1 r EP H _ HR IH]; intros V u' o E; try discriminate E.
  - injection E as <- _. exact (acts_did _ _ _ _ H V _ _ _ eq_refl).
  - injection E as <- _. exact (acts_did _ _ _ _ H V _ _ _ eq_refl).
  - bi E. destruct x as [v o2]. injection E as <- _. apply did_block_app with u1; [exact (acts_did _ _ _ _ H V _ _ _ eq_refl)|exact (IH V _ _ E0)].
Qed.

(** * Every event of the upper MAC *)
Definition from_event (e : um_event) (evs : list dl_event) : Prop :=
  match e with
  | UeTick _ t => evs = [DvTick] \/ exists on, evs = [DvSws on; DvTick]
  | UeBlock i _ => Forall (from_block (ts_of (tv_time i))) evs
  | UeSend r => (exists p, evs = [DvResource (ts_of (tr_time r)) p (tr_sdu r) (tr_rep r)]) \/
                (exists ts b, evs = [DvTakeRa ts (ad_ssi (tr_addr r)); DvSteal ts b (tr_rep r)])
  | UeDlVoice ts _ | UeUlVoice _ ts _ => evs = [] \/ exists b, evs = [DvVoice ts b]
  | UeControl _ => Forall (fun e => match e with DvOpen _ _ _ | DvClose _ _ | DvHang _ _ => True | _ => False end) evs
  end.
Lemma from_fine e evs : (forall i p, e = UeBlock i p -> vtime (tv_time i)) -> from_event e evs -> Forall dv_fine evs.
Proof.
  intros V H. destruct e; cbn [from_event] in H.
  - destruct H as [->|(on & ->)]; repeat constructor.
  - apply (block_fine (ts_of (tv_time i))); [|exact H]. apply ts_of_range. eapply V. reflexivity.
  - destruct H as [(p & ->)|(k & b & ->)]; repeat constructor.
  - destruct H as [->|(b & ->)]; repeat constructor.
  - destruct H as [->|(b & ->)]; repeat constructor.
  - revert H. apply Forall_impl. intros [] A; try contradiction; exact Logic.I.
Qed.
Definition ev_fine (e : um_event) : Prop :=
  match e with UeBlock i pdu => wf pdu /\ bpos pdu = bstart pdu /\ vtime (tv_time i) | _ => True end.
Lemma voice_same ts v u : um_sch (set_voice ts v u) = um_sch u /\ um_defrag (set_voice ts v u) = um_defrag u.
Proof. unfold set_voice. now destruct (_ && _). Qed.
Lemma silence_same tss : forall u u' o, check_silence tss u = Ok (u', o) -> um_sch u' = um_sch u /\ um_defrag u' = um_defrag u.
Proof.
  induction tss as [|ts tss IH]; intros u u' o E; cbn [check_silence] in E; [injection E as <- _; auto|].
  bi E. bi E. bi E. bi E. destruct x2 as [v o2]. injection E as <- _. apply IH in E3. destruct x1; [exact E3|]. now destruct (voice_same ts None u) as (<- & <-).
Qed.
Lemma open_did ds ts us : forall u u', open_dirs ds ts us u = Ok u' -> um_defrag u' = um_defrag u /\
  exists evs, Forall (fun e => match e with DvOpen _ _ _ | DvClose _ _ | DvHang _ _ => True | _ => False end) evs /\ did evs (um_sch u) (um_sch u').
Proof.
  induction ds as [|d ds IH]; intros u u' E; cbn [open_dirs] in E.
  { injection E as <-. split; [reflexivity|]. exists []. split; [constructor|apply did_nil]. }
  bi E. bi E. bi E. apply IH in E. destruct E as (ED & evs & F & D). split; [rewrite ED; destruct (is_ul d); [apply (voice_same ts _ (set_sch x1 u))|reflexivity]|].
  assert (X : exists e0, Forall (fun e => match e with DvOpen _ _ _ | DvClose _ _ | DvHang _ _ => True | _ => False end) e0 /\ did e0 (um_sch u) x0).
  { destruct x; [|injection E1 as <-; exists []; split; [constructor|apply did_nil]]. bi E1. destruct x as [o s]. injection E1 as <-. exists [DvClose d ts]. split; [repeat constructor|].
    apply did_one with (o := None) (m := []). cbn [dl_step]. rewrite E. reflexivity. }
  destruct X as (e0 & F0 & D0). exists (e0 ++ [DvOpen d ts us] ++ evs). split; [apply Forall_app; split; [exact F0|constructor; [exact Logic.I|exact F]]|].
  eapply did_app; [exact D0|]. eapply did_app; [apply did_one with (o := None) (m := []) (s1 := x1); cbn [dl_step]; rewrite E2; reflexivity|].
  destruct (is_ul d); [|exact D]. rewrite (proj1 (voice_same ts _ (set_sch x1 u))) in D. exact D.
Qed.
Lemma close_did ds ts : forall u u', close_dirs ds ts u = Ok u' -> um_defrag u' = um_defrag u /\
  exists evs, Forall (fun e => match e with DvOpen _ _ _ | DvClose _ _ | DvHang _ _ => True | _ => False end) evs /\ did evs (um_sch u) (um_sch u').
Proof.
  induction ds as [|d ds IH]; intros u u' E; cbn [close_dirs] in E.
  { injection E as <-. split; [reflexivity|]. exists []. split; [constructor|apply did_nil]. }
  bi E. destruct x as [o s]. apply IH in E. destruct E as (ED & evs & F & D). assert (VS : forall b : bool, let w := if b then set_voice ts None (set_sch s u) else set_sch s u in um_sch w = s /\ um_defrag w = um_defrag u) by (intros []; [apply (voice_same ts None (set_sch s u))|now split]).
  split; [rewrite ED; destruct o; [apply VS|reflexivity]|].
  exists ([DvClose d ts] ++ evs). split; [constructor; [exact Logic.I|exact F]|].
  eapply did_app; [apply did_one with (o := None) (m := []) (s1 := s); cbn [dl_step]; rewrite E0; reflexivity|]. destruct o; [|exact D]. rewrite (proj1 (VS (is_ul d))) in D. exact D.
Qed.
Lemma sws_did c connected last s : let '(_, s1) := refresh_sws c connected last s in
  exists evs, (evs = [] \/ exists on, evs = [DvSws on]) /\ did evs s s1 /\ ds_cur s1 = ds_cur s /\ length (ds_q s1) = length (ds_q s).
Proof.
  unfold refresh_sws. destruct (Bool.eqb _ _).
  - exists []. split; [auto|]. split; [apply did_nil|auto].
  - exists [DvSws (sws_state c connected)]. split; [eauto|]. split; [|auto]. apply did_one with (o := None) (m := []). reflexivity.
Qed.
Lemma time_eqb_eq a b : time_eqb a b = true -> a = b.
Proof.
  unfold time_eqb. rewrite !Bool.andb_true_iff, !Z.eqb_eq. intros (((A & B) & C) & D). destruct a, b; cbn in *; congruence.
Qed.
Lemma later_tick s now ts (r : res (dls * list tx_reporter)) : ds_cur s = from_int now ->
  (if negb (time_eqb (ds_cur s) ts) && time_eqb (ds_cur s) (mk_time 0 0 0 0) then r else s <- dl_tick_start ts s ;; Ok (s, [])) = (s <- dl_tick_start ts s ;; Ok (s, [])).
Proof.
  intros ->. destruct (time_eqb (from_int now) (mk_time 0 0 0 0)) eqn:E; [|now rewrite Bool.andb_false_r].
  apply time_eqb_eq in E. pose proof (f_equal tm_t E) as X. cbn [tm_t] in X. rewrite tm_t_from in X. lia.
Qed.
Lemma step_did c e u u' o m : ev_fine e -> sound u -> um_step c e u = Ok (u', o, m) -> sound u' /\ exists evs, from_event e evs /\ did evs (um_sch u) (um_sch u').
Proof.
  intros F S E.
  assert (K : (um_defrag u' = um_defrag u /\ exists evs, from_event e evs /\ did evs (um_sch u) (um_sch u')) \/ exists i p, e = UeBlock i p).
  { destruct e as [cn t|i pdu|r|ts data|t ts data|k]; cbn [um_step from_event] in *; [|eauto|..]; left.
    - unfold tick_start in E. pose proof (sws_did c cn (um_sws u) (um_sch u)) as SW. destruct (refresh_sws c cn (um_sws u) (um_sch u)) as [sws s0]. destruct SW as (e0 & H0 & D0 & C0 & L0).
      destruct S as ((L & now & l & CU & I) & _). bi E. destruct x as [s1 m0]. rewrite (later_tick s0 now) in E0 by congruence. bi E0. injection E0 as -> <-.
      bi E. destruct x as [u1 o1]. apply silence_same in E0. cbn [um_sch um_defrag] in E0. destruct E0 as (SU & DU). rewrite SU in E. bi E. destruct x as [[k s2] m2]. injection E as <- _ _. split; [exact DU|].
      assert (D : did [DvTick] s0 s2).
      { exists [(DvTick, Some k, m2)]. cbn [dl_run dl_step]. unfold dl_tick_start in E1 |- *. bi E1. injection E1 as E1. rewrite <- E1 in E0.
        assert (T : time_eqb (add_timeslots (ds_cur s0) 1) (ds_cur (set_cur (add_timeslots (ds_cur s0) 1) s0)) = true) by (unfold time_eqb; cbn [ds_cur set_cur]; now rewrite !Z.eqb_refl).
        rewrite T. cbn [assert bind]. rewrite E0. reflexivity. }
      destruct H0 as [->|(on & ->)]; [exists [DvTick]; split; [auto|]|exists ([DvSws on] ++ [DvTick]); split; [right; now exists on|]].
      + destruct D0 as (lg & D0). cbn [dl_run] in D0. injection D0 as _ ->. exact D.
      + exact (did_app _ _ _ _ _ D0 D).
    - bi E. injection E as <- _ _. split; [reflexivity|]. cbn [um_sch set_sch]. unfold rx_tma_unitdata_req in E0. bi E0. destruct x0 as [ts|].
      + bi E0. destruct x0 as [ra s1]. bi E0. exists ([DvTakeRa ts (ad_ssi (tr_addr r))] ++ [DvSteal ts x0 (tr_rep r)]). split; [right; now exists ts, x0|].
        eapply did_app; [apply did_one with (o := None) (m := []); cbn [dl_step]; rewrite E1; reflexivity|]. apply did_one with (o := None) (m := []). cbn [dl_step]. rewrite E0. reflexivity.
      + bi E0. bi E0. destruct x1 as [n1 p]. exists [DvResource (ts_of (tr_time r)) p (tr_sdu r) (tr_rep r)]. split; [left; now exists p|].
        apply did_one with (o := None) (m := []). cbn [dl_step]. rewrite E0. reflexivity.
    - bi E. injection E as <- _ _. unfold rx_dl_voice in E0. bi E0.
      assert (X : um_sch x0 = um_sch u /\ um_defrag x0 = um_defrag u).
      { destruct (_ && _); [|injection E as <-; auto]. bi E. injection E as <-. destruct x1; [apply voice_same|auto]. }
      destruct X as (X1 & X2). bi E0. destruct x1.
      + bi E0. injection E0 as <-. split; [exact X2|]. exists [DvVoice ts data]. split; [right; now exists data|]. cbn [um_sch set_sch]. rewrite X1 in E2.
        apply did_one with (o := None) (m := []). cbn [dl_step]. rewrite E2. reflexivity.
      + injection E0 as <-. split; [exact X2|]. exists []. split; [auto|]. rewrite X1. apply did_nil.
    - bi E. destruct x as [u1 o1]. injection E as <- _ _. unfold rx_ul_voice in E0. destruct (voice_same ts (Some (um_time u)) u) as (X1 & X2).
      bi E0. bi E0. assert (N0 : um_defrag u1 = um_defrag u /\ um_sch u1 = um_sch u -> um_defrag u1 = um_defrag u /\ exists evs, (evs = [] \/ exists b, evs = [DvVoice ts b]) /\ did evs (um_sch u) (um_sch u1)).
      { intros (A & ->). split; [exact A|]. exists []. split; [auto|apply did_nil]. }
      destruct x0; [|injection E0 as <- _; apply N0; auto]. bi E0. destruct x0 as [b|]; [|injection E0 as <- _; apply N0; auto]. bi E0. injection E0 as <- _.
      split; [exact X2|]. exists [DvVoice ts b]. split; [right; now exists b|]. cbn [um_sch set_sch]. rewrite X1 in E3. apply did_one with (o := None) (m := []). cbn [dl_step]. rewrite E3. reflexivity.
    - bi E. destruct x as [u1 m1]. injection E as <- _ _.
      assert (HG : forall ts on v, (' (s, m2) <- set_hangtime ts on (um_sch u) ;; Ok (set_voice ts v (set_sch s u), m2)) = Ok (u1, m1) ->
        um_defrag u1 = um_defrag u /\ exists evs, Forall (fun e => match e with DvOpen _ _ _ | DvClose _ _ | DvHang _ _ => True | _ => False end) evs /\ did evs (um_sch u) (um_sch u1)).
      { intros ts on v E. bi E. destruct x as [s m2]. injection E as <- _. destruct (voice_same ts v (set_sch s u)) as (-> & ->). split; [reflexivity|]. exists [DvHang ts on]. split; [repeat constructor|].
        apply did_one with (o := None) (m := m2). cbn [dl_step]. rewrite E1. reflexivity. }
      assert (N0 : u1 = u -> um_defrag u1 = um_defrag u /\ exists evs, Forall (fun e => match e with DvOpen _ _ _ | DvClose _ _ | DvHang _ _ => True | _ => False end) evs /\ did evs (um_sch u) (um_sch u1)).
      { intros ->. split; [reflexivity|]. exists []. split; [constructor|apply did_nil]. }
      unfold rx_control in E0. destruct k; try (injection E0 as <- _; now apply N0); try exact (HG _ _ _ E0); bi E0; injection E0 as <- _; [exact (open_did _ _ _ _ _ E)|exact (close_did _ _ _ _ E)]. }
  destruct K as [(KD & evs & KF & KO)|(i & p & ->)].
  - split; [|eauto]. assert (FV : forall i p, e = UeBlock i p -> vtime (tv_time i)) by (intros i p ->; apply F).
    destruct S as (S & h & R & A). split; [exact (did_ok _ _ _ (from_fine _ _ FV KF) S KO)|]. exists h. rewrite KD. auto.
  - destruct F as (W & P & V). cbn [um_step] in E. bi E. destruct x as [u1 o1]. injection E as <- _ _.
    assert (C : on_channel i = true).
    { unfold rx_tmv_unitdata_ind in E0. bi E0. unfold on_channel. destruct (tv_chan i), (tv_blk i); try discriminate E0; reflexivity. }
    destruct (block_ok i p u W P S V C) as (r & E1 & H & SS). rewrite E0 in E1. subst r. split; [eapply SS; reflexivity|]. exact (heard_did _ _ _ _ H V _ _ eq_refl).
Qed.
(** The first tick. *)
Lemma new_df u c connected : umac_new c connected = Ok u -> df_rel (um_defrag u) [] /\ ds_cur (um_sch u) = mk_time 0 0 0 0.
Proof. intros E. unfold umac_new in E. bi E. injection E as <-. split; [apply new_rel|reflexivity]. Qed.
Lemma first_tick c connected u cn t u' o m : umac_new c connected = Ok u -> vtime t -> um_step c (UeTick cn t) u = Ok (u', o, m) ->
  sound u' /\ exists evs, (evs = [DvStart t] \/ exists on, evs = [DvSws on; DvStart t]) /\ did evs (um_sch u) (um_sch u').
Proof.
  intros EN V E. destruct (new_df _ _ _ EN) as (R & CU). cbn [um_step] in E. unfold tick_start in E.
  pose proof (sws_did c cn (um_sws u) (um_sch u)) as SW. destruct (refresh_sws c cn (um_sws u) (um_sch u)) as [sws s0]. destruct SW as (e0 & H0 & D0 & C0 & L0).
  bi E. destruct x as [s1 m0]. rewrite C0, CU in E0.
  assert (NT : time_eqb (mk_time 0 0 0 0) t = false). { destruct (time_eqb (mk_time 0 0 0 0) t) eqn:ET; [|reflexivity]. apply time_eqb_eq in ET. subst t. destruct V as (V & _). cbn [tm_t] in V. lia. }
  rewrite NT in E0. cbn [negb andb] in E0. change (time_eqb (mk_time 0 0 0 0) (mk_time 0 0 0 0)) with true in E0. cbn iota in E0.
  bi E. destruct x as [u1 o1]. apply silence_same in E1. cbn [um_sch um_defrag] in E1. destruct E1 as (SU & DU). rewrite SU in E. bi E. destruct x as [[k s2] m2]. injection E as <- _ _.
  assert (ES : dl_step (DvStart t) s0 = Ok (Some k, m0 ++ m2, s2)) by (cbn [dl_step]; rewrite E0; cbn [bind]; rewrite E1; reflexivity).
  split.
  - split; [exact (start_ok _ _ _ _ _ V ES)|]. exists []. split; [cbn [um_defrag set_sch]; rewrite DU; exact R|constructor].
  - destruct H0 as [->|(on & ->)]; [exists [DvStart t]; split; [auto|]|exists ([DvSws on] ++ [DvStart t]); split; [right; now exists on|]].
    + destruct D0 as (lg & D0). cbn [dl_run] in D0. injection D0 as _ ->. exact (did_one _ _ _ _ _ ES).
    + exact (did_app _ _ _ _ _ D0 (did_one _ _ _ _ _ ES)).
Qed.
(** Every history that begins with a tick. *)
Lemma run_sound c evs : forall u u' log, Forall ev_fine evs -> sound u -> um_run c evs u = Ok (u', log) -> sound u'.
Proof.
  induction evs as [|e evs IH]; intros u u' log F S E; cbn [um_run] in E; [injection E as <- _; exact S|].
  bi E. destruct x as [[u1 o] m]. bi E. destruct x as [u2 lg]. injection E as <- _. inversion F as [|? ? F1 F2]; subst.
  apply (IH u1 u2 lg F2); [|assumption]. exact (proj1 (step_did _ _ _ _ _ _ F1 S E0)).
Qed.
Lemma history_sound c connected u0 cn t evs u log : umac_new c connected = Ok u0 -> vtime t -> Forall ev_fine evs ->
  um_run c (UeTick cn t :: evs) u0 = Ok (u, log) -> sound u.
Proof.
  intros EN V F E. cbn [um_run] in E. bi E. destruct x as [[u1 o] m]. bi E. destruct x as [u2 lg]. injection E as <- _.
  apply (run_sound c evs u1 u2 lg F); [|assumption]. exact (proj1 (first_tick _ _ _ _ _ _ _ _ EN V E0)).
Qed.

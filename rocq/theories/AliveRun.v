(** What the next slot needs is kept by everything the base station does, and suffices for the next tick. *)
From Coq Require Import Arith.
From Verif Require Import Base BitsLib AMap BitBuffer BitBufferProofs BitBufferOps Codec CodecProofs MacFields MacPdus MacSpec
  TdmaTime TdmaTimeProofs TxReceipt UmacCircuits UmacCircuitsProofs VoicePack VoicePackProofs DlSched DlSchedSpec DlSlot UmacPrecomps UmacBs SlotSpec SlotProofs.
From Verif Require Import UmacSched SlotRun SlotWf AliveSpec TickSafe TickTotal UlBlockSpec UlBlockPdu UlBlockFacts.
From Verif Require Import LmacBs Slotter BsMac AirSpec AirRun AirFacts.
From Verif Require Scrambler UlSched UlSchedProofs FragSpec OwedProofs CallControl Llc.
Open Scope nat_scope.

(** * The queues *)
Definition dl_decent (e : dl_event) : Prop :=
  match e with
  | DvResource _ _ sdu rep => wf sdu /\ bpos sdu = bstart sdu /\ FragSpec.pending rep
  | DvSteal _ _ rep => FragSpec.pending rep
  | DvVoice _ b => 35 <= length b
  | DvStart _ | DvTick => False
  | _ => True
  end.
Notation framed := (Forall (Forall (fun b : list N => 35 <= length b))).
Lemma push_live k e s s' : lawful e -> live s -> push_q k e s = Ok s' -> live s'.
Proof. intros H L E. unfold push_q in E. bi E. injection E as <-. apply live_put; [exact L|]. apply Forall_app. split; [exact (live_get _ _ _ L E0)|constructor; [exact H|constructor]]. Qed.
Lemma close_live d ts (m m1 : ucm N (list N)) o : framed (uc_tx m) -> ucm_close d ts m = Ok (o, m1) -> framed (uc_tx m1).
Proof.
  intros F E. unfold ucm_close in E. destruct d; try discriminate E; apply bind_inv in E; destruct E as (a & _ & E); injection E as _ <-; cbn [uc_tx]; [|exact F]. apply ts_set_in; [exact F|constructor].
Qed.
Lemma create_live d ts u (m m1 : ucm N (list N)) : framed (uc_tx m) -> ucm_create d ts u m = Ok m1 -> framed (uc_tx m1).
Proof.
  intros F E. unfold ucm_create in E. apply bind_inv in E. destruct E as (a & _ & E). apply bind_inv in E. destruct E as (m0 & E0 & E).
  assert (F0 : framed (uc_tx m0)).
  { destruct a; [|injection E0 as <-; exact F]. apply bind_inv in E0. destruct E0 as ([o0 m2] & E1 & E0). injection E0 as <-. exact (close_live _ _ _ _ _ F E1). }
  destruct d; try discriminate E; [|injection E as <-; exact F0]. apply bind_inv in E. destruct E as (q & _ & E). injection E as <-. cbn [uc_tx]. destruct q; [exact F0|apply ts_set_in; [exact F0|constructor]].
Qed.
Lemma put_live ts b (m m1 : ucm N (list N)) : framed (uc_tx m) -> 35 <= length b -> ucm_put ts b m = Ok m1 -> framed (uc_tx m1).
Proof.
  intros F B E. unfold ucm_put in E. apply bind_inv in E. destruct E as (a & _ & E). destruct a; [|injection E as <-; exact F].
  apply bind_inv in E. destruct E as (q & G & E). injection E as <-. cbn [uc_tx]. apply ts_set_in; [exact F|]. apply Forall_app. split; [exact (ts_get_in _ _ _ _ F G)|now constructor].
Qed.
Lemma clear_live ts s : live s -> live (clear_hang ts s).
Proof. intros L. unfold clear_hang. destruct (_ && _); exact L. Qed.
Lemma dl_step_live e s o m s' : dl_decent e -> live s -> dl_step e s = Ok (o, m, s') -> live s'.
Proof.
  intros F T E. destruct e as [t| |ts p sdu rep|ts a g|ts a|ts b rep|ts ssi|ts blk|ts act|dr ts u|dr ts|ts ssi req|on]; cbn [dl_step dl_decent] in *; try contradiction.
  - bi E. injection E as _ _ <-. exact (push_live _ (DlResource p sdu rep) _ _ F T E0).
  - bi E. injection E as _ _ <-. exact (push_live _ (DlGrant a g) _ _ Logic.I T E0).
  - bi E. injection E as _ _ <-. exact (push_live _ (DlAck a) _ _ Logic.I T E0).
  - bi E. injection E as _ _ <-. exact (push_live _ (DlSteal b rep) _ _ F T E0).
  - bi E. destruct x as [b0 s0]. injection E as _ _ <-. unfold take_pending_ra_ack in E0. bi E0. destruct (remove_first ssi x); injection E0 as _ <-; exact T.
  - bi E. injection E as _ _ <-. unfold dl_schedule_tmd in E0. bi E0. injection E0 as <-. split; [exact (proj1 T)|exact (put_live _ _ _ _ (proj2 T) F E)].
  - bi E. destruct x as [s0 m0]. injection E as _ _ <-. unfold set_hangtime in E0. destruct (_ && _); [|injection E0 as <- _; exact T].
    destruct act; [injection E0 as <- _; exact T|]. unfold dl_drop_all_except_stolen in E0. bi E0. bi E0. destruct x0 as [[k r] m1]. bi E0. injection E0 as <- _.
    apply (live_put s ts k T). destruct (OwedProofs.drop_unacked _ _ _ _ E1) as (_ & ->). apply TickSafe.Forall_filter. exact (live_get s ts x T E).
  - bi E. injection E as _ _ <-. unfold dl_create_circuit in E0. bi E0. injection E0 as <-. destruct (clear_live ts s T) as (TQ & TV). split; [exact TQ|exact (create_live _ _ _ _ _ (proj2 T) E)].
  - bi E. destruct x as [o0 s0]. injection E as _ _ <-. unfold dl_close_circuit in E0. bi E0. destruct x as [o1 c]. injection E0 as _ <-.
    destruct (clear_live ts s T) as (TQ & TV). split; [exact TQ|exact (close_live _ _ _ _ _ (proj2 T) E)].
  - bi E. destruct x as [g u]. injection E as _ _ <-. exact T.
  - injection E as _ _ <-. exact T.
Qed.
Lemma did_live evs : forall s s', Forall dl_decent evs -> live s -> did evs s s' -> live s'.
Proof.
  induction evs as [|e evs IH]; intros s s' F T (log & E); cbn [dl_run] in E; [injection E as _ <-; exact T|].
  bi E. destruct x as [[o m] s2]. bi E. destruct x as [lg s3]. injection E as _ <-. apply (IH s2 s3 (Forall_inv_tail F)); [|now exists lg].
  exact (dl_step_live _ _ _ _ _ (Forall_inv F) T E0).
Qed.

(** * The clocks of the silence check *)
Definition clocks (u : umac) : Prop := length (um_voice u) = 4 /\ Forall (fun o => match o with Some t => vtime t | None => True end) (um_voice u).
Lemma upd_len {A} (l : list A) x : forall n, length (upd l n x) = length l.
Proof. induction l as [|a l IH]; intros [|n]; cbn; auto. Qed.
Lemma set_clock ts v u : clocks u -> (forall t, v = Some t -> vtime t) -> clocks (set_voice ts v u).
Proof.
  intros (L & F) V. unfold set_voice. destruct (_ && _); [|split; assumption]. split; cbn [um_voice]; [rewrite upd_len; exact L|]. apply (ts_set_in _ _ ts v F). destruct v; auto.
Qed.
Lemma clock_time ts v u : um_time (set_voice ts v u) = um_time u.
Proof. unfold set_voice. destruct (_ && _); reflexivity. Qed.
Lemma act_clocks i x u u' o c : does i x u (Ok (u', o, c)) -> um_voice u' = um_voice u /\ um_time u' = um_time u.
Proof.
  intros H. destruct x; cbn [does] in H.
  - injection H as -> _ _. auto.
  - symmetry in H. bi H. injection H as <- _ _. auto.
  - symmetry in H. bi H. injection H as <- _ _. auto.
  - destruct H as (b & _ & _ & _ & H). injection H as -> _ _. auto.
  - destruct H as (f & _ & _ & H). symmetry in H. bi H. destruct x as [df g]. injection H as <- _ _. auto.
  - destruct H as (f & _ & _ & H). symmetry in H. bi H. destruct x as [ssi|]; [|injection H as <- _ _; auto].
    bi H. destruct x; [injection H as <- _ _; auto|]. bi H. destruct x as [df g]. injection H as <- _ _. auto.
  - destruct H as (f & _ & _ & H). symmetry in H. bi H. destruct x as [ssi|]; [|injection H as <- _ _; auto].
    bi H. bi H. bi H. destruct x1 as [df g]. destruct g as [|[b|] [|]]; try (injection H as <- _ _; auto).
    bi H. injection H as <- _ _. auto.
Qed.
Lemma acts_clocks i acts u r : does_all i acts u r -> forall u' o c, r = Ok (u', o, c) -> um_voice u' = um_voice u /\ um_time u' = um_time u.
Proof.
  induction 1 as [u|x l u H|x l u u1 o1 H|x l u u1 o1 H r HR IH]; intros u' o c E; try discriminate E.
  - injection E as <- _ _. auto.
  - injection E as <- _ _. exact (act_clocks _ _ _ _ _ _ H).
  - bi E. destruct x0 as [[w o2] c2]. injection E as <- _ _. destruct (IH _ _ _ E0) as (-> & ->). exact (act_clocks _ _ _ _ _ _ H).
Qed.
Lemma heard_clocks i l u r : heard i l u r -> forall u' o, r = Ok (u', o) -> um_voice u' = um_voice u /\ um_time u' = um_time u.
Proof.
  induction 1 as [| |l u acts n u1 o1 c EP H _|l u acts n u1 o1 EP H _|l u acts n u1 o1 r EP H _ HR IH]; intros u' o E; try discriminate E.
  - injection E as <- _. exact (acts_clocks _ _ _ _ H _ _ _ eq_refl).
  - injection E as <- _. exact (acts_clocks _ _ _ _ H _ _ _ eq_refl).
  - bi E. destruct x as [w o2]. injection E as <- _. destruct (IH _ _ E0) as (-> & ->). exact (acts_clocks _ _ _ _ H _ _ _ eq_refl).
Qed.
Lemma open_clocks ds ts us : forall u u', clocks u -> vtime (um_time u) -> open_dirs ds ts us u = Ok u' -> clocks u' /\ um_time u' = um_time u.
Proof.
  induction ds as [|d ds IH]; intros u u' C V E; cbn [open_dirs] in E; [injection E as <-; auto|].
  bi E. bi E. bi E. set (u0 := set_sch x1 u) in *. assert (C0 : clocks u0) by exact C.
  assert (K : clocks (if is_ul d then set_voice ts (Some (um_time u0)) u0 else u0) /\ um_time (if is_ul d then set_voice ts (Some (um_time u0)) u0 else u0) = um_time u).
  { destruct (is_ul d); [|split; [exact C0|reflexivity]]. split; [apply set_clock; [exact C0|]; intros t Et; injection Et as <-; exact V|]. rewrite clock_time. reflexivity. }
  destruct K as (K1 & K2). apply IH in E; [|exact K1|now rewrite K2]. rewrite K2 in E. exact E.
Qed.
Lemma close_clocks ds ts : forall u u', clocks u -> close_dirs ds ts u = Ok u' -> clocks u' /\ um_time u' = um_time u.
Proof.
  induction ds as [|d ds IH]; intros u u' C E; cbn [close_dirs] in E; [injection E as <-; auto|].
  bi E. destruct x as [o s]. set (u0 := set_sch s u) in *. assert (C0 : clocks u0) by exact C. apply IH in E.
  - destruct E as (A & B). split; [exact A|]. rewrite B. destruct o; [destruct (is_ul d); [exact (clock_time ts None u0)|]|]; reflexivity.
  - destruct o; [destruct (is_ul d)|]; try exact C0. apply set_clock; [exact C0|discriminate].
Qed.
Lemma silence_clocks tss : forall u u' o, clocks u -> check_silence tss u = Ok (u', o) -> clocks u' /\ um_time u' = um_time u.
Proof.
  induction tss as [|ts tss IH]; intros u u' o C E; cbn [check_silence] in E; [injection E as <- _; auto|].
  bi E. bi E. bi E. bi E. destruct x2 as [v o2]. injection E as <- _. apply IH in E3.
  - destruct E3 as (A & B). split; [exact A|]. rewrite B. destruct x1; [reflexivity|apply clock_time].
  - destruct x1; [exact C|apply set_clock; [exact C|discriminate]].
Qed.
Lemma silence_total c cn v : forall tss u, shows c cn v (um_sch u) -> clocks u -> vtime (um_time u) -> Forall (fun t => 1 <= t <= 4) tss -> exists u' o, check_silence tss u = Ok (u', o).
Proof.
  induction tss as [|ts tss IH]; intros u SH C V F; cbn [check_silence]; [eauto|]. pose proof (Forall_inv F) as T. cbn beta in T.
  rewrite (proj2 (active_view _ _ _ _ DirUl ts SH T) eq_refl). cbn [bind]. rewrite (ts_get_ok (ds_hang (um_sch u)) ts false) by (apply SH || exact T). cbn [bind].
  assert (OUT : exists o, (if ((match vw_ul (v ts) with Some _ => true | None => false end) && negb (nth (ts - 1) (ds_hang (um_sch u)) false))%bool then
    v0 <- ts_get (um_voice u) ts ;; match v0 with Some t => d <- age t (um_time u) ;; Ok (if (UL_INACTIVITY_TIMESLOTS <? d)%Z then [OutInactive (um_time u) ts] else []) | None => Ok [] end else Ok []) = Ok o).
  { destruct (_ && _); [|eauto]. destruct C as (L & FV). rewrite (ts_get_ok (um_voice u) ts None) by (exact L || exact T). cbn [bind].
    destruct (nth (ts - 1) (um_voice u) None) as [t|] eqn:EN; [|eauto].
    assert (VT : vtime t). { rewrite Forall_forall in FV. refine (FV (Some t) _). rewrite <- EN. apply nth_In. lia. }
    unfold age. destruct (diff_spec (um_time u) t V VT) as (d & -> & _). cbn [bind]. eauto. }
  destruct OUT as (o & EO).
  match goal with |- exists _ _, bind ?x _ = _ => assert (X : x = Ok o) end.
  { exact EO. }
  rewrite X. cbn [bind]. destruct (IH (match o with [] => u | _ => set_voice ts None u end)) as (u' & o' & E).
  - destruct o; [exact SH|]. rewrite (proj1 (voice_same ts None u)). exact SH.
  - destruct o; [exact C|apply set_clock; [exact C|discriminate]].
  - destruct o; [exact V|now rewrite clock_time].
  - exact (Forall_inv_tail F).
  - rewrite E. cbn [bind]. eauto.
Qed.

(** * The upper MAC *)
Definition alive (u : umac) : Prop := live (um_sch u) /\ length (ds_ra (um_sch u)) = 4 /\ clocks u.
Definition um_decent (e : um_event) : Prop :=
  match e with
  | UeTick _ t => vtime t
  | UeSend r => wf (tr_sdu r) /\ bpos (tr_sdu r) = bstart (tr_sdu r) /\ FragSpec.pending (tr_rep r)
  | UeDlVoice _ data => 35 <= length data
  | _ => True
  end.
Lemma refresh_alive c cn w s : live s -> live (snd (refresh_sws c cn w s)) /\ ds_ra (snd (refresh_sws c cn w s)) = ds_ra s /\ ds_q (snd (refresh_sws c cn w s)) = ds_q s /\ ds_ul (snd (refresh_sws c cn w s)) = ds_ul s.
Proof. intros T. unfold refresh_sws. destruct (Bool.eqb _ _); (split; [exact T|auto]). Qed.
Lemma ra_did evs s s' : length (ds_ra s) = 4 -> did evs s s' -> length (ds_ra s') = 4.
Proof. intros L (log & E). exact (OwedProofs.run_len _ _ _ _ L E). Qed.
Lemma tick_keeps c cn t v u u' o m : minv c v u -> tidy (um_sch u) -> four (um_sch u) -> vtime t -> alive u -> tick_start c cn t u = Ok (u', o, m) -> alive u' /\ um_time u' = t.
Proof.
  intros MI TD F4 V (LV & RA & CK) E. unfold tick_start in E. pose proof (refresh_shows c cn v u MI) as RS. pose proof (refresh_tidy c cn (um_sws u) (um_sch u) TD) as T0.
  destruct (refresh_alive c cn (um_sws u) (um_sch u) LV) as (L0 & R0 & Q0 & U0). destruct (refresh_sws c cn (um_sws u) (um_sch u)) as [sws s0]. cbn [snd] in *. destruct RS as (_ & SH & CU).
  bi E. destruct x as [s1 m0]. bi E. destruct x as [u1 o1]. bi E. destruct x as [[k s2] m2]. injection E as <- _ _.
  assert (X : face s0 s1 /\ tidy s1 /\ live s1 /\ four s1 /\ ds_ra s1 = ds_ra s0).
  { destruct (_ && _).
    - pose proof (proj1 (start_face _ _ _ _ E0)) as FC. split; [exact FC|]. unfold set_dl_time in E0. apply bind_inv in E0. destruct E0 as (m1 & _ & E0). injection E0 as <- _. destruct T0 as (_ & TN & TV). destruct L0 as (_ & LV0).
      split; [|split; [|split; reflexivity]]; [split; [cbn; repeat constructor|split; [exact TN|exact TV]]|split; [cbn; repeat constructor|exact LV0]].
    - apply bind_inv in E0. destruct E0 as (s3 & E3 & E0). injection E0 as <- _. split; [exact (proj1 (tick_face _ _ _ E3))|]. unfold dl_tick_start in E3. apply bind_inv in E3. destruct E3 as (m1 & _ & E3). injection E3 as <-.
      split; [exact T0|split; [exact L0|split; [|reflexivity]]]. unfold four in *. cbn [ds_q]. now rewrite <- Q0 in F4. }
  destruct X as (FC & T1 & L1 & F1 & R1). pose proof (silence_same _ _ _ _ E1) as (SU & _). destruct (fun H => silence_clocks _ _ _ _ H E1) as (C1 & TM); [exact CK|]. cbn [um_sch um_time] in SU, TM. rewrite SU in E2.
  split; [|exact TM]. split; [|split].
  - exact (finalize_keeps c cn v s1 k s2 m2 (face_shows _ _ _ _ _ FC SH) T1 L1 F1 E2).
  - cbn [um_sch set_sch]. rewrite (OwedProofs.finalize_ra _ _ _ _ E2), R1, R0. exact RA.
  - exact C1.
Qed.
Lemma pack_framed data b : pack_ul_acelp_bits data = Ok (Some b) -> 35 <= length b.
Proof.
  intros E. unfold pack_ul_acelp_bits in E. destruct (Nat.eqb_spec (length data) PACKED_TCH_S_BYTES) as [EL|_]; [injection E as <-; rewrite EL; apply le_n|].
  destruct (Nat.ltb_spec (length data) VoicePack.TCH_S_CAP) as [_|L]; [discriminate E|]. bi E. injection E as <-.
  destruct (pack_bytes_spec data L 35 0) as (out & EO & LO & _). change PACKED_TCH_S_BYTES with 35 in E0. rewrite EO in E0. injection E0 as <-. lia.
Qed.
Lemma step_alive c e v u u' o m : ev_ok e -> um_decent e -> sound u -> minv c v u -> tidy (um_sch u) -> vtime (um_time u) -> alive u -> um_step c e u = Ok (u', o, m) -> alive u' /\ vtime (um_time u').
Proof.
  intros (F & _ & CH) D S MI TD V AL E. assert (F4 : four (um_sch u)) by apply S.
  destruct e as [cn t|i pdu|r|ts data|t ts data|k].
  { cbn [um_step um_decent] in *. destruct (tick_keeps _ _ _ _ _ _ _ _ MI TD F4 D AL E) as (A & ->). auto. }
  all: pose proof AL as (LV & RA & CK); destruct (step_did c _ u u' o m F S E) as (_ & evs & FE & DD);
    assert (K : Forall dl_decent evs -> clocks u' -> um_time u' = um_time u -> alive u' /\ vtime (um_time u')) by
      (intros A B C; split; [split; [exact (did_live _ _ _ A LV DD)|split; [exact (ra_did _ _ _ RA DD)|exact B]]|now rewrite C]).
  - cbn [from_event] in FE. destruct F as (W & P & VT). cbn [um_step ev_chan] in E, CH. bi E. destruct x as [u1 o1]. injection E as <- _ _.
    destruct (block_ok i pdu u W P S VT CH) as (r & E1 & H & _). rewrite E0 in E1. subst r. destruct (heard_clocks _ _ _ _ H _ _ eq_refl) as (A & B).
    apply K; [|unfold clocks; rewrite A; exact CK|exact B]. revert FE. apply Forall_impl. intros [] X; try contradiction; exact Logic.I.
  - cbn [from_event um_decent um_step] in *. bi E. injection E as <- _ _. apply K; [|exact CK|reflexivity]. destruct FE as [(p & ->)|(ts & b & ->)].
    + constructor; [exact D|constructor].
    + constructor; [exact Logic.I|]. constructor; [exact (proj2 (proj2 D))|constructor].
  - clear K DD FE evs. cbn [um_decent um_step] in *. bi E. injection E as <- _ _. unfold rx_dl_voice in E0. bi E0.
    assert (X : um_sch x0 = um_sch u /\ clocks x0 /\ um_time x0 = um_time u).
    { destruct (_ && _); [|injection E as <-; auto]. bi E. injection E as <-. destruct x1; [|auto]. split; [apply voice_same|]. split; [|apply clock_time]. apply set_clock; [exact CK|]. intros t Et. injection Et as <-. exact V. }
    destruct X as (X1 & X2 & X3). bi E0. destruct x1; [|injection E0 as <-; split; [split; [now rewrite X1|split; [now rewrite X1|exact X2]]|now rewrite X3]].
    bi E0. injection E0 as <-. rewrite X1 in E2. assert (ES : dl_step (DvVoice ts data) (um_sch u) = Ok (None, [], x1)) by (cbn [dl_step]; rewrite E2; reflexivity).
    split; [|cbn [um_time set_sch]; now rewrite X3]. split; [exact (dl_step_live (DvVoice ts data) _ _ _ _ D LV ES)|]. split; [exact (OwedProofs.step_len _ _ _ _ _ RA ES)|exact X2].
  - clear K DD FE evs. cbn [um_decent um_step] in *. bi E. destruct x as [u1 o1]. injection E as <- _ _. unfold rx_ul_voice in E0. cbv zeta in E0. set (u0 := set_voice ts (Some (um_time u)) u) in *.
    assert (X1 : um_sch u0 = um_sch u) by apply voice_same. assert (X2 : clocks u0) by (apply set_clock; [exact CK|]; intros t0 Et; injection Et as <-; exact V). assert (X3 : um_time u0 = um_time u) by apply clock_time.
    assert (OLD : alive u0 /\ vtime (um_time u0)) by (split; [split; [now rewrite X1|split; [now rewrite X1|exact X2]]|now rewrite X3]).
    bi E0. bi E0. destruct x0; [|injection E0 as <- _; exact OLD]. bi E0. destruct x0 as [b|]; [|injection E0 as <- _; exact OLD]. bi E0. injection E0 as <- _.
    rewrite X1 in E3. assert (ES : dl_step (DvVoice ts b) (um_sch u) = Ok (None, [], x0)) by (cbn [dl_step]; rewrite E3; reflexivity).
    split; [|cbn [um_time set_sch]; now rewrite X3]. split; [exact (dl_step_live (DvVoice ts b) _ _ _ _ (pack_framed _ _ E2) LV ES)|]. split; [exact (OwedProofs.step_len _ _ _ _ _ RA ES)|exact X2].
  - cbn [from_event um_step] in *. bi E. destruct x as [u1 m1]. injection E as <- _ _.
    assert (KE : Forall dl_decent evs) by (revert FE; apply Forall_impl; intros [] X; try contradiction; exact Logic.I).
    assert (X : clocks u1 /\ um_time u1 = um_time u).
    { assert (HG : forall ts on w s1 m2, (forall t, w = Some t -> vtime t) -> set_hangtime ts on (um_sch u) = Ok (s1, m2) -> clocks (set_voice ts w (set_sch s1 u)) /\ um_time (set_voice ts w (set_sch s1 u)) = um_time u).
      { intros ts on w s1 m2 W _. split; [apply set_clock; [exact CK|exact W]|]. rewrite clock_time. reflexivity. }
      unfold rx_control in E0. destruct k; try (injection E0 as <- _; auto).
      all: try (bi E0; injection E0 as <- _; first [exact (open_clocks _ _ _ _ _ CK V E)|exact (close_clocks _ _ _ _ CK E)]).
      all: bi E0; destruct x as [s1 m2]; injection E0 as <- _; eapply HG; [|exact E]; first [discriminate|intros t Et; injection Et as <-; exact V]. }
    destruct X as (X1 & X2). exact (K KE X1 X2).
Qed.

(** * The next tick *)
Lemma tick_lives c cn v u : cell_ok c = true -> sound u -> minv c v u -> tidy (um_sch u) -> alive u -> vw_dl (v 1) = None -> vw_ul (v 1) = None ->
  let t := add_timeslots (ds_cur (um_sch u)) 1 in let slot := add_timeslots t 1 in
  ~ jams slot (v (ts_of slot)) (nth (ts_of slot - 1) (ds_q (um_sch u)) []) -> exists u' o m, um_step c (UeTick cn t) u = Ok (u', o, m).
Proof.
  intros CO ((F4 & now & l & CU & IV) & _) MI TD (LV & RA & CK) D1 U1 t slot NJ. cbn [um_step]. unfold tick_start.
  pose proof (refresh_shows c cn v u MI) as RS. pose proof (refresh_tidy c cn (um_sws u) (um_sch u) TD) as T0.
  destruct (refresh_alive c cn (um_sws u) (um_sch u) LV) as (L0 & R0 & Q0 & U0). destruct (refresh_sws c cn (um_sws u) (um_sch u)) as [sws s0]. cbn [snd] in *. destruct RS as (_ & SH & CU0).
  assert (CN : ds_cur s0 = from_int now) by congruence. rewrite (later_tick s0 now t _ CN). unfold dl_tick_start. cbv zeta. cbn [ds_cur set_cur].
  assert (ET : time_eqb t (add_timeslots (ds_cur s0) 1) = true).
  { rewrite CU0. fold t. unfold time_eqb. now rewrite !Z.eqb_refl. }
  rewrite ET. cbn [assert bind]. rewrite CU0. fold t. set (s1 := set_cur t s0).
  assert (SH1 : shows c cn v s1) by (apply (face_shows c cn v s0 s1); [unfold face; auto|exact SH]).
  destruct (silence_total c cn v [1; 2; 3; 4] (mk_umac t sws (um_defrag u) s1 (um_voice u))) as (u1 & o1 & E1);
    [exact SH1|exact CK|apply add_valid|repeat constructor; lia|]. rewrite E1. cbn [bind].
  destruct (silence_same _ _ _ _ E1) as (-> & _). cbn [um_sch].
  destruct (finalize_total c cn v s1 (now + 1) l CO SH1) as (k & s2 & m & E2).
  - exact T0.
  - exact L0.
  - unfold four, s1. cbn [ds_q set_cur]. now rewrite Q0.
  - unfold s1, t. cbn [ds_cur set_cur]. rewrite CU. apply UlSchedProofs.add_from.
  - unfold s1. cbn [ds_ul set_cur]. rewrite U0. replace (now + 1 - 1)%Z with now by lia. exact IV.
  - exact D1.
  - exact U1.
  - cbv zeta. intros q EQ J. apply NJ. change (ds_cur s1) with t in EQ, J. fold slot in EQ, J. fold (ts_of slot) in EQ, J.
    rewrite get_ok in EQ by (try apply ts_range; unfold four, s1; cbn [ds_q set_cur]; now rewrite Q0). injection EQ as EQ. unfold s1 in EQ. cbn [ds_q set_cur] in EQ. rewrite Q0 in EQ. rewrite EQ. exact J.
  - rewrite E2. cbn [bind]. eauto.
Qed.

(** * The station *)
Definition thrives (c : cell_cfg) (v : nat -> ts_view) (s : station) : Prop :=
  good c v s /\ alive (st_um s) /\ vtime (um_time (st_um s)) /\ vw_dl (v 1) = None /\ vw_ul (v 1) = None.
Definition um_idle1 (e : um_event) : Prop := match e with UeControl (CallControl.CtlOpen _ ts _) => 2 <= ts <= 4 | _ => True end.
Lemma told_idle e v : um_idle1 e -> vw_dl (v 1) = None /\ vw_ul (v 1) = None -> vw_dl (told v e 1) = None /\ vw_ul (told v e 1) = None.
Proof.
  intros D (A & B). destruct e as [cn t|i pdu|r|ts data|t ts data|k]; try (split; assumption). destruct k; cbn [told um_idle1] in *; try (split; assumption); unfold at_ts.
  all: match goal with |- context [1 =? ?t] => destruct (Nat.eqb_spec 1 t) as [H|H]; [try lia|split; assumption] end.
  all: cbn [closed hanging vw_dl vw_ul]; try (split; assumption).
  destruct (downwards d), (upwards d); split; assumption || reflexivity.
Qed.
Lemma do_thrives c e v s s' x ws : cell_ok c = true -> ev_ok e -> calm e -> marked e = true -> um_decent e -> um_idle1 e -> thrives c v s -> um_do c e s = Ok (s', x, ws) -> thrives c (told v e) s'.
Proof.
  intros CO OK CA MK D D1 (G & AL & V & I1) E. destruct (do_good c e v s s' x ws CO OK CA MK G E) as (G1 & _). unfold um_do in E. bi E. destruct x0 as [[u o] m]. bi E. destruct x0 as [l w]. injection E as <- _ _.
  pose proof G as (S & M & T & _). destruct (step_alive c e v (st_um s) u o m OK D S M T V AL E0) as (A & B). split; [exact G1|]. split; [exact A|]. split; [exact B|]. exact (told_idle _ _ D1 I1).
Qed.
Lemma do_all_thrives c es : cell_ok c = true -> forall v s s' xs ws, Forall ev_ok es -> Forall calm es -> Forall (fun e => marked e = true) es -> Forall um_decent es -> Forall um_idle1 es -> thrives c v s ->
  um_do_all c es s = Ok (s', xs, ws) -> thrives c (fold_left told es v) s'.
Proof.
  intros CO. induction es as [|e es IH]; intros v s s' xs ws F1 F2 F3 F4 F5 T E; cbn [um_do_all] in E; [injection E as <- _ _; exact T|].
  bi E. destruct x as [[s1 x1] w1]. bi E. destruct x as [[s2 x2] w2]. injection E as <- _ _. cbn [fold_left].
  apply (IH (told v e) s1 s2 x2 w2 (Forall_inv_tail F1) (Forall_inv_tail F2) (Forall_inv_tail F3) (Forall_inv_tail F4) (Forall_inv_tail F5)); [|exact E1].
  exact (do_thrives c e v s s1 x1 w1 CO (Forall_inv F1) (Forall_inv F2) (Forall_inv F3) (Forall_inv F4) (Forall_inv F5) T E0).
Qed.
Lemma rx_thrives c t is : cell_ok c = true -> vtime t -> forall v s s' xs ws, Forall (ind_ok t) is -> thrives c v s -> rx_blocks c is s = Ok (s', xs, ws) -> thrives c v s'.
Proof.
  intros CO V. induction is as [|i is IH]; intros v s s' xs ws F T E; cbn [rx_blocks] in E; [injection E as <- _ _; exact T|].
  apply bind_inv in E. destruct E as (out & ER & E). apply bind_inv in E. destruct E as (((s1 & x1) & w1) & E1 & E). apply bind_inv in E. destruct E as (((s2 & x2) & w2) & E2 & E). injection E as <- _ _.
  destruct (rx_events c (st_lm s) t i out CO (proj1 (proj2 (proj2 (proj2 (proj1 T))))) V (Forall_inv F) ER) as (EV & CA). destruct (marked_rx _ CA) as (CA1 & CA2 & TO).
  apply (IH v s1 s2 x2 w2 (Forall_inv_tail F)); [|exact E2]. rewrite <- (TO v). apply (do_all_thrives c _ CO v s s1 x1 w1 EV CA1 CA2); [| |exact T|exact E1].
  - rewrite Forall_forall in *. intros e HI. apply in_map_iff in HI. destruct HI as (y & <- & _). destruct y; exact Logic.I.
  - rewrite Forall_forall in *. intros e HI. apply in_map_iff in HI. destruct HI as (y & <- & _). destruct y; exact Logic.I.
Qed.
Lemma step_thrives c e v s s' xs ws : cell_ok c = true -> bs_fine e -> decent e -> thrives c v s -> bs_step c e s = Ok (s', xs, ws) -> thrives c (told1 v e) s'.
Proof.
  intros CO F D T E. pose proof T as (G & AL & V & I1). pose proof (proj1 (step_good c e v s s' xs ws CO F G E)) as G1. destruct e as [cn t|ts bits|r|ts data|k]; cbn [bs_step bs_fine told1] in *.
  - cbn [um_do_all] in E. bi E. destruct x as [[s1 x1] w1]. injection E as <- _ _. unfold um_do in E0. cbn [st_um st_lm] in E0. bi E0. destruct x as [[u o] m]. bi E0. destruct x as [l w]. injection E0 as <- _ _.
    pose proof G as (S & M & TD & _). assert (DT : vtime t) by (rewrite (proj2 (tick_hour c cn t _ _ _ _ _ M E) S); apply add_valid).
    destruct (step_alive c (UeTick cn t) v (st_um s) u o m (conj Logic.I (conj Logic.I Logic.I)) DT S M TD V AL E) as (A & B).
    split; [exact G1|]. split; [exact A|]. split; [exact B|exact I1].
  - destruct F as (l & ->). apply bind_inv in E. destruct E as (is & ES & E). exact (rx_thrives c _ is CO (proj2 (proj2 (proj1 (proj2 (proj2 (proj2 G)))))) v s s' xs ws (split_ok _ _ _ _ ES) T E).
  - exact (do_all_thrives c [UeSend r] CO v s s' xs ws (Forall_cons (P := ev_ok) (UeSend r) (conj Logic.I (conj Logic.I Logic.I)) (Forall_nil _)) (Forall_cons (P := calm) (UeSend r) Logic.I (Forall_nil _))
      (Forall_cons (P := fun e => marked e = true) (UeSend r) eq_refl (Forall_nil _)) (Forall_cons (P := um_decent) (UeSend r) D (Forall_nil _)) (Forall_cons (P := um_idle1) (UeSend r) Logic.I (Forall_nil _)) T E).
  - exact (do_all_thrives c [UeDlVoice ts data] CO v s s' xs ws (Forall_cons (P := ev_ok) (UeDlVoice ts data) (conj Logic.I (conj F Logic.I)) (Forall_nil _)) (Forall_cons (P := calm) (UeDlVoice ts data) Logic.I (Forall_nil _))
      (Forall_cons (P := fun e => marked e = true) (UeDlVoice ts data) eq_refl (Forall_nil _)) (Forall_cons (P := um_decent) (UeDlVoice ts data) D (Forall_nil _)) (Forall_cons (P := um_idle1) (UeDlVoice ts data) Logic.I (Forall_nil _)) T E).
  - assert (D1 : um_idle1 (UeControl k)) by (destruct k; exact Logic.I || exact D).
    exact (do_all_thrives c [UeControl k] CO v s s' xs ws (Forall_cons (P := ev_ok) (UeControl k) (conj Logic.I (conj Logic.I Logic.I)) (Forall_nil _)) (Forall_cons (P := calm) (UeControl k) Logic.I (Forall_nil _))
      (Forall_cons (P := fun e => marked e = true) (UeControl k) F (Forall_nil _)) (Forall_cons (P := um_decent) (UeControl k) Logic.I (Forall_nil _)) (Forall_cons (P := um_idle1) (UeControl k) D1 (Forall_nil _)) T E).
Qed.
Lemma run_thrives c evs : cell_ok c = true -> forall v s s' log, Forall bs_fine evs -> Forall decent evs -> thrives c v s -> bs_run c evs s = Ok (s', log) -> thrives c (fold_left told1 evs v) s'.
Proof.
  intros CO. induction evs as [|e evs IH]; intros v s s' log F D T E; cbn [bs_run] in E; [injection E as <- _; exact T|].
  bi E. destruct x as [[s1 x1] w1]. bi E. destruct x as [s2 lg]. injection E as <- _. cbn [fold_left].
  apply (IH _ _ _ _ (Forall_inv_tail F) (Forall_inv_tail D)) with (2 := E1). exact (step_thrives c e v s s1 x1 w1 CO (Forall_inv F) (Forall_inv D) T E0).
Qed.
Lemma reached_thrives c s log : cell_ok c = true -> bs_reached c s log -> Forall decent (events_of log) -> thrives c (bs_told (events_of log)) s.
Proof.
  intros CO (cn0 & s0 & cn & t & evs & EN & V & F & E) D.
  destruct (history c cn0 s0 cn t evs s log CO EN V F E) as (_ & _ & _ & EM). unfold events_of in *. rewrite EM in D |- *. change (bs_told (BeTick cn t :: evs)) with (bs_told evs). pose proof (Forall_inv_tail D) as D'.
  destruct (new_station c cn0 s0 CO EN) as (EU & M & T & EL). cbn [bs_run] in E. apply bind_inv in E. destruct E as (((s1 & xs) & ws) & E1 & E). apply bind_inv in E. destruct E as ((s2 & lg) & E2 & E). injection E as <- _.
  destruct (tick_good c cn t (fun _ => idle_ts) s0 s1 xs ws CO M T V) as (G1 & _); [now rewrite EL|now rewrite EL|intros u' o m ES; exact (proj1 (first_tick _ _ _ _ _ _ _ _ EU V ES))|exact E1|].
  refine (run_thrives c evs CO _ _ _ _ F D' _ E2). split; [exact G1|]. cbn [bs_step um_do_all] in E1. apply bind_inv in E1. destruct E1 as (((s3 & x3) & w3) & E3 & E1). injection E1 as <- _ _. unfold um_do in E3. cbn [st_um st_lm] in E3.
  apply bind_inv in E3. destruct E3 as (((u & o) & m) & E4 & E3). apply bind_inv in E3. destruct E3 as ((l & w) & _ & E3). injection E3 as <- _ _. cbn [st_um].
  assert (A0 : alive (st_um s0) /\ four (um_sch (st_um s0))).
  { unfold umac_new in EU. bi EU. injection EU as <-. split; [|reflexivity]. split; [|split; [reflexivity|]]; cbn [um_sch]; [|split; [reflexivity|repeat constructor]]. split; cbn; repeat constructor. }
  destruct A0 as (A0 & F4). destruct (tick_keeps c cn t _ (st_um s0) u o m M T F4 V A0 E4) as (A & TM). split; [exact A|]. split; [now rewrite TM|]. split; reflexivity.
Qed.

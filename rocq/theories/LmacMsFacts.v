(** Facts about a mobile station that listens to a base station. *)
From Coq Require Import Arith Permutation.
From Verif Require Import Base BitsLib BitBuffer BitBufferProofs Codec TdmaTime TdmaTimeProofs UlSched ErrorControl LmacSpec Slotter SlotterSpec MacBroadcast MleBroadcast DlSched DlSlot UmacPrecomps UmacBs UmacSched SlotSpec SlotProofs SlotRun SlotWf LmacBs BsMac AirSpec AirProofs AirRun AirFacts UmacMs LmacMs MobileSpec LmacMsProofs MsSpec UmacMsProofs.
From Verif Require StealSpec StealRun DlTrace BitBufferOps MacPdus HeardSpec CallControl UlBlockPdu Scrambler SlotterProofs Layout MacSpec FragSpec FragProofs MacBroadcastProofs DlSchedSpec HeardFacts UmacMsFacts.
Open Scope nat_scope.

(** what every burst of a history needs *)
Definition all_apart (log : bs_log) : Prop := forall pre cn t xs ws post k x, log = pre ++ (BeTick cn t, xs, ws) :: post -> slots_of xs = [k] -> kind_of k = Some x ->
  told_apart (add_timeslots t 1) (bs_told (events_of pre) (Z.to_nat (tm_t (add_timeslots t 1)))) x.

(** * One burst *)
Lemma in_frame18 t v x : kind_fits t v x = true -> tm_f t = 18%Z -> x = KSync.
Proof. unfold kind_fits. intros K F. rewrite F in K. cbn in K. destruct x; try discriminate K. reflexivity. Qed.
Lemma assignment c cn t v k x : slot_true c cn t v k -> slot_ready k -> kind_of k = Some x ->
  told_apart (add_timeslots t 1) (v (Z.to_nat (tm_t (add_timeslots t 1)))) x ->
  forall b, fresh_with b (window (bk_buf (sl_bbk k))) -> ms_aach (mk_msi (add_timeslots t 1) Aach BlockUndef (code_of c)) b = Ok [MoTraffic (add_timeslots t 1) (speech x)].
Proof.
  intros (_ & (x' & KO & KF & _) & _ & _ & _ & AA) (RB & _) KX (T1 & T2) b F. assert (x' = x) as -> by congruence. clear KO.
  unfold ms_aach. cbn [mi_time]. revert KF T1 T2 AA. generalize (add_timeslots t 1). intros t'. generalize (v (Z.to_nat (tm_t t'))). intros y KF T1 T2 AA.
  pose proof (in_frame18 t' y x KF) as E18. unfold kind_fits in KF. destruct (Z.eqb_spec (tm_f t') 18) as [F18|F18].
  - destruct (local_says _ _ _ a18_local RB AA b F) as (b' & E). rewrite E. now rewrite (E18 F18).
  - destruct (local_says _ _ _ aa_local RB AA b F) as (b' & E). rewrite E. do 3 f_equal. clear E E18 AA. unfold aach_says, busy_ts.
    destruct (Z.eqb_spec (tm_t t') 1) as [E1|E1]; cbn [aa_dl].
    + rewrite (T1 E1) in KF. destruct x; try reflexivity; discriminate KF.
    + destruct (vw_hang y) eqn:H; cbn [andb].
      * destruct (vw_dl y); cbn [aa_dl].
        -- destruct x; try discriminate KF; [exfalso; now apply T2|reflexivity].
        -- destruct (vw_ul y); cbn [aa_dl]; destruct x; try discriminate KF; reflexivity.
      * cbn [aa_dl]. destruct (vw_dl y); destruct x; try discriminate KF; reflexivity.
Qed.
Lemma bsch_frame t : is_mandatory_bsch t = true -> tm_f t = 18%Z.
Proof. unfold is_mandatory_bsch. intros H. apply andb_prop in H. now apply Z.eqb_eq. Qed.
Lemma time_eqb_refl t : time_eqb t t = true.
Proof. destruct t as [a b d e]. unfold time_eqb. cbn. now rewrite !Z.eqb_refl. Qed.
Lemma burst_heard c cn t v k x w blks : slot_true c cn t v k -> slot_ready k -> kind_of k = Some x ->
  on_air (code_of c) x (window (bk_buf (sl_blk1 k))) (second_of k) (window (bk_buf (sl_bbk k))) w ->
  told_apart (add_timeslots t 1) (v (Z.to_nat (tm_t (add_timeslots t 1)))) x -> demodulated x w blks ->
  exists evs, slot_brings (code_of c) (add_timeslots t 1) x (window (bk_buf (sl_blk1 k))) (second_of k) (window (bk_buf (sl_bbk k))) evs /\
    forall lm um, lms_code lm = Some (code_of c) -> lms_time lm = Some t ->
    mob_step (MvTick t) (mk_mobile lm um) = Ok (mk_mobile (mk_lms (Some (code_of c)) (Some (add_timeslots t 1)) false) um, []) /\
    mob_step (MvSlot blks) (mk_mobile (mk_lms (Some (code_of c)) (Some (add_timeslots t 1)) false) um) =
    mob_upper evs (mk_mobile (mk_lms (Some (code_of c)) (Some (add_timeslots t 1)) false) um).
Proof.
  intros ST SR KX O A D. pose proof (assignment c cn t v k x ST SR KX A) as AA. destruct ST as (_ & (x' & KO & KF & _) & _). assert (x' = x) as -> by congruence.
  destruct (slot_heard (code_of c) x _ _ _ w blks (add_timeslots t 1) (mk_lms (Some (code_of c)) (Some (add_timeslots t 1)) false) O D eq_refl eq_refl) as (evs & B & M).
  - intros H. apply (in_frame18 _ _ _ KF). now apply bsch_frame.
  - exact AA.
  - exists evs. split; [exact B|]. intros lm um LC LT. split; [|exact (M um)]. unfold mob_step, lms_tick. cbn [mo_lm mo_um]. rewrite LT, LC, time_eqb_refl. reflexivity.
Qed.
Lemma every_burst c s log pre cn t xs ws post : cell_ok c = true -> bs_reached c s log -> log = pre ++ (BeTick cn t, xs, ws) :: post ->
  exists k x w, slots_of xs = [k] /\ kind_of k = Some x /\ ws = [b2b w] /\
    (told_apart (add_timeslots t 1) (bs_told (events_of pre) (Z.to_nat (tm_t (add_timeslots t 1)))) x ->
     forall blks lm um, demodulated x w blks -> lms_code lm = Some (code_of c) -> lms_time lm = Some t ->
     exists evs, slot_brings (code_of c) (add_timeslots t 1) x (window (bk_buf (sl_blk1 k))) (second_of k) (window (bk_buf (sl_bbk k))) evs /\
       mob_run [MvTick t; MvSlot blks] (mk_mobile lm um) = mob_upper evs (mk_mobile (mk_lms (Some (code_of c)) (Some (add_timeslots t 1)) false) um)).
Proof.
  intros CO R E. destruct (reached_good c s log CO R) as (_ & _ & A). pose proof (airs_at c log _ pre _ _ _ post A E) as (no & k & m & x & w & -> & -> & KX & O & (_ & SR) & P & ST).
  exists k, x, w. split; [now apply slots_tick|]. split; [exact KX|]. split; [reflexivity|]. intros TA blks lm um D LC LT.
  destruct (burst_heard c cn t _ k x w blks ST SR KX O TA D) as (evs & B & M). destruct (M lm um LC LT) as (M1 & M2). exists evs. split; [exact B|]. cbn [mob_run]. rewrite M1. cbn [bind]. rewrite M2.
  destruct (mob_upper _ _) as [[m' o]|er|]; cbn [bind]; [|reflexivity..]. now rewrite app_nil_r.
Qed.

(** * Whole histories *)
(** [t]: the time of the next tick *)
Fixpoint clocked (t : tdma_time) (log : bs_log) : Prop :=
  match log with
  | [] => True
  | (BeTick _ t', _, _) :: r => t' = t /\ vtime t /\ clocked (add_timeslots t 1) r
  | _ :: r => clocked t r
  end.
Lemma run_clocked c evs : cell_ok c = true -> forall v s s' log, Forall bs_fine evs -> good c v s -> bs_run c evs s = Ok (s', log) -> clocked (add_timeslots (lm_time (st_lm s)) 1) log.
Proof.
  intros CO. induction evs as [|e evs IH]; intros v s s' log F G E; cbn [bs_run] in E; [injection E as _ <-; exact Logic.I|].
  apply bind_inv in E. destruct E as (((s1 & xs) & ws) & E1 & E). apply bind_inv in E. destruct E as ((s2 & lg) & E2 & E). injection E as <- <-.
  destruct (step_good c e v s s1 xs ws CO (Forall_inv F) G E1) as (G1 & A). pose proof (IH _ _ _ _ (Forall_inv_tail F) G1 E2) as H.
  destruct e as [cn t|ts bits|r|ts data|k]; [|cbn [clocked]; cbn [step_air] in A; destruct A as (_ & _ & A & _); rewrite A in H; exact H..].
  pose proof A as (no & k & m & x & w & _ & _ & _ & _ & _ & _ & _ & _ & X9 & _). rewrite X9 in H. cbn [clocked]. pose proof G as (S & M & T & (_ & _ & LV) & CK).
  assert (ET : t = add_timeslots (lm_time (st_lm s)) 1).
  { cbn [bs_step um_do_all] in E1. apply bind_inv in E1. destruct E1 as (((s3 & x3) & w3) & E1 & _). unfold um_do in E1. apply bind_inv in E1. destruct E1 as (((u & o) & mm) & E1 & _). cbn [st_um] in E1.
    rewrite <- CK. exact (proj2 (tick_hour c cn t v _ _ _ _ M E1) S). }
  split; [exact ET|]. split; [now apply add_valid|]. rewrite <- ET. exact H.
Qed.
Lemma reached_clocked c s log t : cell_ok c = true -> bs_reached c s log -> starts_at log t -> clocked t log.
Proof.
  intros CO (cn0 & s0 & cn & t0 & evs & EN & V & F & E) (cn1 & xs1 & ws1 & r & EL). destruct (new_station c cn0 s0 CO EN) as (EU & M & T & ELM). cbn [bs_run] in E. apply bind_inv in E. destruct E as (((s1 & xs) & ws) & E1 & E).
  apply bind_inv in E. destruct E as ((s2 & lg) & E2 & E). injection E as <- EQ. rewrite EL in EQ. injection EQ as <- <- <- <- ->.
  destruct (tick_good c cn t0 (fun _ => idle_ts) s0 s1 xs ws CO M T V) as (G1 & A); [now rewrite ELM|now rewrite ELM|intros u' o m ES; exact (proj1 (first_tick _ _ _ _ _ _ _ _ EU V ES))|exact E1|].
  pose proof A as (no & k & m & x & w & _ & _ & _ & _ & _ & _ & _ & _ & X9 & _). pose proof (run_clocked c evs CO _ _ _ _ F G1 E2) as H. rewrite X9 in H. rewrite EL. cbn [clocked]. split; [reflexivity|]. split; [exact V|exact H].
Qed.
(** what a mobile station's lower MAC keeps as it is *)
Definition steady (o : ms_out) : Prop := match o with MoTime _ | MoScrambling _ _ => False | _ => True end.
Lemma steady_kept out : forall lm, Forall steady out -> lms_code (fold_left lms_configure out lm) = lms_code lm /\ lms_time (fold_left lms_configure out lm) = lms_time lm.
Proof.
  induction out as [|o out IH]; intros lm F; [now split|]. cbn [fold_left]. destruct (IH (lms_configure lm o) (Forall_inv_tail F)) as (-> & ->). pose proof (Forall_inv F) as H. destruct o; try destruct H; now split.
Qed.
Lemma ms_run_app a : forall b u u' out, ms_run (a ++ b) u = Ok (u', out) -> exists u1 o1 o2, ms_run a u = Ok (u1, o1) /\ ms_run b u1 = Ok (u', o2) /\ out = o1 ++ o2.
Proof.
  induction a as [|e a IH]; intros b u u' out H; cbn [app ms_run] in *; [exists u, [], out; now repeat split|].
  apply bind_inv in H. destruct H as ((u1 & o1) & E1 & H). apply bind_inv in H. destruct H as ((u2 & o2) & E2 & H). injection H as <- <-. destruct (IH _ _ _ _ E2) as (u3 & o3 & o4 & E3 & E4 & ->).
  exists u3, (o1 ++ o3), o4. rewrite E1. cbn [bind]. rewrite E3. cbn [bind]. split; [reflexivity|]. split; [exact E4|apply app_assoc].
Qed.
Lemma apart_tail e xs ws log v : (forall pre cn t xs' ws' post k x, (e, xs, ws) :: log = pre ++ (BeTick cn t, xs', ws') :: post -> slots_of xs' = [k] -> kind_of k = Some x ->
    told_apart (add_timeslots t 1) (fold_left told1 (events_of pre) v (Z.to_nat (tm_t (add_timeslots t 1)))) x) ->
  forall pre cn t xs' ws' post k x, log = pre ++ (BeTick cn t, xs', ws') :: post -> slots_of xs' = [k] -> kind_of k = Some x ->
    told_apart (add_timeslots t 1) (fold_left told1 (events_of pre) (told1 v e) (Z.to_nat (tm_t (add_timeslots t 1)))) x.
Proof. intros H pre cn t xs' ws' post k x ->. exact (H ((e, xs, ws) :: pre) cn t xs' ws' post k x eq_refl). Qed.
Lemma listens c log : forall v t mevs, airs c v log -> clocked t log ->
  (forall pre cn t xs ws post k x, log = pre ++ (BeTick cn t, xs, ws) :: post -> slots_of xs = [k] -> kind_of k = Some x ->
    told_apart (add_timeslots t 1) (fold_left told1 (events_of pre) v (Z.to_nat (tm_t (add_timeslots t 1)))) x) -> overhears log mevs ->
  exists uevs, listened (code_of c) log uevs /\ forall lm um um' out, lms_code lm = Some (code_of c) -> lms_time lm = Some t -> ms_run uevs um = Ok (um', out) -> Forall steady out ->
    exists lm', mob_run mevs (mk_mobile lm um) = Ok (mk_mobile lm' um', out).
Proof.
  induction log as [|[[e xs] ws] log IH]; intros v t mevs A C AP OV.
  - inversion OV; subst. exists []. split; [constructor|]. intros lm um um' out _ _ E _. injection E as <- <-. exists lm. reflexivity.
  - destruct A as (A1 & A2). pose proof (apart_tail e xs ws log v AP) as AP2. inversion OV as [|cn t0 xs0 k x w blks log0 evs0 SL KX D OV2 E1 E2|e0 xs0 log0 evs0 NT OV2 E1 E2]; subst.
    + cbn [clocked] in C. destruct C as (-> & V & C). destruct A1 as (no & k' & m & x' & w' & EX & EW & KX' & O & (_ & SR) & P & ST). pose proof SL as SL'. rewrite EX, (slots_tick _ _ _ _ P) in SL'. injection SL' as ->. assert (x' = x) as -> by congruence.
      injection EW as EW. apply SlotterProofs.b2b_inj in EW. subst w'.
      pose proof (AP [] cn t xs _ log k x eq_refl SL KX) as TA. cbn [events_of map fold_left] in TA.
      destruct (burst_heard c cn t v k x w blks ST SR KX O TA D) as (evs & B & M). destruct (IH _ _ _ A2 C AP2 OV2) as (uevs & L & H).
      exists (evs ++ uevs). split; [apply (listened_burst _ cn t xs k x); [exact SL|exact KX|exact B|exact L]|].
      intros lm um um' out LC LT R F. destruct (ms_run_app _ _ _ _ _ R) as (u1 & o1 & o2 & R1 & R2 & ->). apply Forall_app in F. destruct F as (F1 & F2).
      destruct (M lm um LC LT) as (M1 & M2). cbn [mob_run]. rewrite M1. cbn [bind]. rewrite M2. unfold mob_upper. cbn [mo_um mo_lm]. rewrite R1. cbn [bind].
      destruct (steady_kept o1 (mk_lms (Some (code_of c)) (Some (add_timeslots t 1)) false) F1) as (K1 & K2). destruct (H _ u1 um' o2 K1 K2 R2 F2) as (lm' & E). rewrite E. cbn [bind app]. exists lm'. reflexivity.
    + assert (C2 : clocked t log) by (destruct e; try contradiction NT; exact C). destruct (IH _ _ _ A2 C2 AP2 OV2) as (uevs & L & H). exists uevs. split; [now apply listened_silence|exact H].
Qed.

(** * What the upper MAC gets *)
Lemma a18_kind b : wf b -> bpos b = bstart b -> length (window b) = 14 -> reads_all a18_read b aach18_says -> firstn 2 (window b) <> [true; true].
Proof.
  intros W P L (b' & E) H. rewrite (window_at b P) in L, H. unfold a18_read in E. rewrite UmacMsFacts.read3 in E by (assumption || lia). rewrite H in E.
  change (bits_val [true; true]) with 3%N in E. cbn [N.eqb Pos.eqb] in E. unfold rbind, rlift in E. destruct (ok_or (ul_from_um _) _) as [u| |]; cbn [bind] in E; try discriminate E.
  unfold rassert, rret in E. destruct u; cbn [ul_is_traffic] in E; discriminate E.
Qed.
Lemma si_start p rest : says_broadcast (Layout.enc (MacSpec.si_layout p) ++ rest) = true /\ firstn 4 (Layout.enc (MacSpec.si_layout p) ++ rest) = [true; false; false; false].
Proof. destruct (UmacMsFacts.sysinfo_start p rest) as (l & ->). split; reflexivity. Qed.
Lemma si_parsed p rest : MacSpec.si_valid p = true -> FragSpec.parse si_read (Layout.enc (MacSpec.si_layout p) ++ rest) = Some (p, length (Layout.enc (MacSpec.si_layout p))).
Proof. intros V. apply FragProofs.parse_reads. exact (proj2 (MacBroadcastProofs.si_carries p V)). Qed.
Lemma clear_plain slots : forall e, (exists got part, fold_left DlSchedSpec.hear_slot slots e = DlSchedSpec.Clear got part) -> Forall (fun l => 16 <= length l -> says_broadcast l = false) slots.
Proof.
  induction slots as [|l slots IH]; intros e H; [constructor|]. cbn [fold_left] in H. constructor; [|exact (IH _ H)]. intros L. destruct l as [|[|] l]; try reflexivity. exfalso. destruct H as (got & part & H).
  assert (G : forall ls e, (e = DlSchedSpec.Garbled \/ e = DlSchedSpec.Mixed) -> fold_left DlSchedSpec.hear_slot ls e = e) by (induction ls as [|a ls G]; intros e0 [-> | ->]; cbn [fold_left DlSchedSpec.hear_slot]; auto).
  assert (X : DlSchedSpec.hear_slot e (true :: l) = DlSchedSpec.Garbled \/ DlSchedSpec.hear_slot e (true :: l) = DlSchedSpec.Mixed).
  { destruct e as [g p| |]; cbn [DlSchedSpec.hear_slot]; auto. unfold DlSchedSpec.slot_items. cbn [length] in *. cbn [DlSchedSpec.items length]. rewrite (proj2 (Nat.ltb_ge (Datatypes.S (length l)) 16) L). now left. }
  rewrite (G slots _ X) in H. rewrite H in X. destruct X; discriminate.
Qed.
(** the SYSINFOs say the hyperframe it is *)
Definition timely (evs : list ms_event) : Prop := forall i b p n h, In (MeBlock i b) evs -> on_sch i -> says_broadcast (window b) = true -> FragSpec.parse si_read (window b) = Some (p, n) -> si_hyper p = Some h -> Z.of_N h = tm_h (mi_time i).
Lemma slot_fine c cn t v k x evs : cell_ok c = true -> vtime (add_timeslots t 1) -> slot_true c cn t v k -> slot_ready k -> kind_of k = Some x ->
  slot_brings (code_of c) (add_timeslots t 1) x (window (bk_buf (sl_blk1 k))) (second_of k) (window (bk_buf (sl_bbk k))) evs ->
  (forall j, 1 <= j <= 4 -> Forall (fun l => 16 <= length l -> says_broadcast l = false) (HeardFacts.slot_air j k)) ->
  Forall event_fine evs /\ (forall j, 1 <= j -> slots_on j evs = HeardFacts.slot_air j k) /\ timely evs.
Proof.
  intros CO V (TS & (x' & KO & KF & LF & (_ & Y2) & _) & _ & _ & LB & AA) (RB & R1 & R2 & _) KX (e0 & r & -> & (b0 & F0 & ->) & B) NB. assert (x' = x) as -> by congruence. clear KO.
  set (t' := add_timeslots t 1) in *.
  assert (E0 : event_fine (MeBlock (mk_msi t' Aach BlockUndef (code_of c)) b0)).
  { destruct F0 as (W & P & EW). cbn [event_fine mi_chan mi_time mi_blk]. split; [exact W|]. split; [exact P|]. split; [exact V|]. intros F18. rewrite F18 in AA. cbn [Z.eqb Pos.eqb] in AA.
    rewrite EW. apply a18_kind; [exact (proj1 RB)|exact (proj2 RB)|exact (AirProofs.len_of _ _ (proj1 RB) LB)|exact AA]. }
  assert (AIR : forall j, 1 <= j -> HeardFacts.slot_air j k = if on_ts j t' then match x with KSignalling | KHalf => [window (bk_buf (sl_blk1 k))] | _ => [] end else []).
  { intros j Hj. unfold HeardFacts.slot_air. rewrite TS, (HeardFacts.for_ts_of j t' Hj). unfold on_ts. destruct (ts_of t' =? j); [|reflexivity].
    pose proof (HeardFacts.kind_signals k x KX) as Q. rewrite <- Q. destruct x; reflexivity. }
  (* the signalling *)
  assert (SIG : (x = KSignalling \/ x = KHalf) -> says_broadcast (window (bk_buf (sl_blk1 k))) = false).
  { intros HX. pose proof (UlBlockPdu.ts_of_range t' V) as RT. specialize (NB _ RT). rewrite (AIR _ (proj1 RT)) in NB. unfold on_ts in NB. rewrite Nat.eqb_refl in NB.
    assert (L16 : 16 <= length (window (bk_buf (sl_blk1 k)))) by (destruct HX as [-> | ->]; cbn [lengths_fit] in LF; [|destruct LF as (LF & _)]; rewrite (AirProofs.len_of _ _ (proj1 R1) LF); lia).
    destruct HX as [-> | ->]; exact (Forall_inv NB L16). }
  (* the system information *)
  assert (SYS : (x = KSync \/ x = KHalf) -> exists p rest, second_of k = Layout.enc (MacSpec.si_layout p) ++ rest /\ MacSpec.si_valid p = true /\ si_hyper p = Some (Z.to_N (tm_h t')) /\ length (second_of k) = 124).
  { intros HX. destruct (Y2 HX) as (b & off & B2 & OF & _ & rest & ER). exists (sysinfo_says c off t'), rest. unfold second_of. rewrite B2. split; [exact ER|]. split; [now apply si_good|]. split; [reflexivity|].
    assert (exists b, sl_blk2 k = Some b /\ get_len (bk_buf b) = Ok 124) as (b2 & B2' & L2) by (destruct HX as [-> | ->]; exact (proj2 LF)). rewrite B2 in B2'. injection B2' as <-. exact (AirProofs.len_of _ _ (proj1 (R2 b B2)) L2). }
  assert (HY : forall p, si_hyper p = Some (Z.to_N (tm_h t')) -> forall h, si_hyper p = Some h -> Z.of_N h = tm_h t') by (intros p -> h EH; injection EH as <-; destruct V as (_ & _ & _ & V); exact (Z2N.id _ (proj1 V))).
  destruct x.
  - subst r. split; [constructor; [exact E0|constructor]|]. split; [intros j Hj; rewrite (AIR j Hj); destruct (on_ts j t'); reflexivity|]. intros i b p n h [IN|[]] OS. injection IN as <- <-. destruct OS.
  - subst r. split; [constructor; [exact E0|constructor]|]. split; [intros j Hj; rewrite (AIR j Hj); destruct (on_ts j t'); reflexivity|]. intros i b p n h [IN|[]] OS. injection IN as <- <-. destruct OS.
  - destruct B as (e1 & -> & (b1 & F1 & ->)). specialize (SIG (or_introl eq_refl)). destruct F1 as (W1 & P1 & EW1). split; [|split].
    + constructor; [exact E0|]. constructor; [|constructor]. cbn [event_fine mi_chan mi_time mi_blk]. rewrite EW1, SIG. repeat (split; [assumption|]). split; [exact (AirProofs.len_of _ _ (proj1 R1) LF)|discriminate].
    + intros j Hj. rewrite (AIR j Hj). cbn [slots_on flat_map signalling mi_chan mi_time]. rewrite EW1, SIG. cbn [negb]. rewrite andb_true_r. destruct (on_ts j t'); reflexivity.
    + intros i b p n h [IN|[IN|[]]] OS SB; injection IN as <- <-; [destruct OS|]. rewrite EW1 in SB. congruence.
  - destruct B as (e1 & e2 & -> & (b1 & F1 & ->) & (b2 & F2 & ->)). destruct (SYS (or_introl eq_refl)) as (p & rest & ES & VS & HS & LS). destruct (si_start p rest) as (SB & SF). pose proof (si_parsed p rest VS) as PA. rewrite <- ES in SB, SF, PA.
    destruct F1 as (W1 & P1 & EW1). destruct F2 as (W2 & P2 & EW2). split; [|split].
    + constructor; [exact E0|]. constructor; [cbn [event_fine mi_chan mi_time mi_blk]; repeat (split; [assumption|]); exact Logic.I|]. constructor; [|constructor]. cbn [event_fine mi_time mi_blk]. rewrite EW2. repeat (split; [assumption|]).
      assert (SI : sysinfo_fine (second_of k)) by (split; [exact SF|rewrite PA; discriminate]). cbn [mi_chan]. destruct (is_mandatory_bnch t'); [exact SI|split; [exact LS|intros _; exact SI]].
    + intros j Hj. rewrite (AIR j Hj). cbn [slots_on flat_map signalling mi_chan mi_time app]. rewrite EW2, SB. cbn [negb]. rewrite andb_false_r. destruct (is_mandatory_bnch t'), (on_ts j t'); reflexivity.
    + intros i b p' n h [IN|[IN|[IN|[]]]] OS SB' PA' HH; injection IN as <- <-; [destruct OS|destruct OS|]. rewrite EW2, PA in PA'. injection PA' as <- <-. exact (HY p HS h HH).
  - destruct B as (e1 & e2 & -> & (b1 & F1 & ->) & (b2 & F2 & ->)). destruct (SYS (or_intror eq_refl)) as (p & rest & ES & VS & HS & LS). destruct (si_start p rest) as (SB & SF). pose proof (si_parsed p rest VS) as PA. rewrite <- ES in SB, SF, PA.
    specialize (SIG (or_intror eq_refl)). destruct F1 as (W1 & P1 & EW1). destruct F2 as (W2 & P2 & EW2). split; [|split].
    + constructor; [exact E0|]. assert (SI : sysinfo_fine (second_of k)) by (split; [exact SF|rewrite PA; discriminate]).
      constructor; [cbn [event_fine mi_chan mi_time mi_blk]; rewrite EW1, SIG; repeat (split; [assumption|]); split; [exact (AirProofs.len_of _ _ (proj1 R1) (proj1 LF))|discriminate]|].
      constructor; [|constructor]. cbn [event_fine mi_chan mi_time mi_blk]. rewrite EW2. split; [exact W2|]. split; [exact P2|]. split; [exact V|]. split; [exact LS|intros _; exact SI].
    + intros j Hj. rewrite (AIR j Hj). cbn [slots_on flat_map signalling mi_chan mi_time]. rewrite EW1, EW2, SIG, SB. cbn [negb]. rewrite andb_true_r, andb_false_r. destruct (on_ts j t'); reflexivity.
    + intros i b p' n h [IN|[IN|[IN|[]]]] OS SB' PA' HH; injection IN as <- <-; [destruct OS|rewrite EW1 in SB'; congruence|]. rewrite EW2, PA in PA'. injection PA' as <- <-. exact (HY p HS h HH).
Qed.

(** * A whole history *)
Lemma timely_app a b : timely a -> timely b -> timely (a ++ b).
Proof. intros A B i x p n h H. apply in_app_iff in H. destruct H as [H|H]; [exact (A i x p n h H)|exact (B i x p n h H)]. Qed.
Lemma slots_on_app j a b : slots_on j (a ++ b) = slots_on j a ++ slots_on j b.
Proof. unfold slots_on. apply flat_map_app. Qed.
Lemma listened_fine c log : cell_ok c = true -> forall v t uevs, airs c v log -> clocked t log -> listened (code_of c) log uevs ->
  (forall j, 1 <= j <= 4 -> Forall (fun l => 16 <= length l -> says_broadcast l = false) (flat_map (HeardFacts.slot_air j) (AirSpec.sent log))) ->
  Forall event_fine uevs /\ (forall j, 1 <= j -> slots_on j uevs = flat_map (HeardFacts.slot_air j) (AirSpec.sent log)) /\ timely uevs.
Proof.
  intros CO. induction log as [|[[e xs] ws] log IH]; intros v t uevs A C L NB.
  - inversion L; subst. split; [constructor|]. split; [reflexivity|]. intros i b p n h [].
  - destruct A as (A1 & A2). assert (NB1 : forall j, 1 <= j <= 4 -> Forall (fun l => 16 <= length l -> says_broadcast l = false) (flat_map (HeardFacts.slot_air j) (slots_of xs)) /\ Forall (fun l => 16 <= length l -> says_broadcast l = false) (flat_map (HeardFacts.slot_air j) (AirSpec.sent log))).
    { intros j Hj. specialize (NB j Hj). unfold AirSpec.sent in NB. cbn [flat_map fst snd] in NB. rewrite flat_map_app in NB. apply Forall_app in NB. exact NB. }
    assert (SE : AirSpec.sent ((e, xs, ws) :: log) = slots_of xs ++ AirSpec.sent log) by reflexivity.
    inversion L as [|cn t0 xs0 k x ws0 log0 evs evs' SL KX B L2 E1 E2|e0 xs0 ws0 log0 evs NT L2 E1 E2]; subst.
    + cbn [clocked] in C. destruct C as (-> & V & C). destruct A1 as (no & k' & m & x' & w' & EX & EW & KX' & O & (_ & SR) & P & ST). pose proof SL as SL'. rewrite EX, (slots_tick _ _ _ _ P) in SL'. injection SL' as ->.
      destruct (IH _ _ _ A2 C L2 (fun j Hj => proj2 (NB1 j Hj))) as (F & S2 & T2).
      destruct (slot_fine c cn t v k x evs CO (add_valid _ _) ST SR KX B) as (F1 & S1 & T1).
      { intros j Hj. destruct (NB1 j Hj) as (N1 & _). rewrite SL in N1. cbn [flat_map] in N1. now rewrite app_nil_r in N1. }
      split; [apply Forall_app; now split|]. split; [|now apply timely_app]. intros j Hj. rewrite slots_on_app, (S1 j Hj), (S2 j Hj), SE, SL, flat_map_app. cbn [flat_map]. now rewrite app_nil_r.
    + assert (C2 : clocked t log) by (destruct e; try contradiction NT; exact C). assert (SX : slots_of xs = []) by (destruct e; try contradiction NT; exact (proj2 A1)).
      destruct (IH _ _ _ A2 C2 L2 (fun j Hj => proj2 (NB1 j Hj))) as (F & S2 & T2). split; [exact F|]. split; [|exact T2]. intros j Hj. rewrite SE, SX. exact (S2 j Hj).
Qed.
Lemma slots_off evs k : Forall event_fine evs -> ~ 1 <= k <= 4 -> slots_on k evs = [].
Proof.
  intros F H. unfold slots_on. induction F as [|e evs E F IH]; [reflexivity|]. cbn [flat_map]. rewrite IH, app_nil_r. destruct e as [i b|]; [|reflexivity]. cbn [event_fine] in E. destruct E as (_ & _ & V & _).
  cbn [signalling]. unfold on_ts. pose proof (UlBlockPdu.ts_of_range (mi_time i) V) as R. destruct (Nat.eqb_spec (ts_of (mi_time i)) k) as [E|E]; [lia|]. cbn [andb]. destruct (mi_chan i); reflexivity.
Qed.
(** * Times of messages *)
Definition timed (o : ms_out) : Prop := match o with MoSdu t _ _ _ _ => vtime t | _ => True end.
Ltac open_up H := match type of H with
  | Ok _ = Ok _ => injection H; clear H; intros; subst
  | Panic = _ => discriminate H
  | Err _ = _ => discriminate H
  | bind ?m _ = _ => let E := fresh "E" in destruct m eqn:E; [cbn [bind] in H|discriminate H|discriminate H]; open_up H
  | (let '(_, _) := ?x in _) = _ => destruct x; open_up H
  | (if ?c then _ else _) = _ => let E := fresh "E" in destruct c eqn:E; open_up H
  | match ?m with _ => _ end = _ => let E := fresh "E" in destruct m eqn:E; open_up H
  | _ => idtac
  end.
Ltac all_timed V := cbn [snd]; repeat match goal with E : _ = Ok (_, _, ?l) |- Forall timed ?l => revert V E; clear; intros V E; open_up E end;
  repeat (apply Forall_cons; [first [exact V|exact Logic.I]|]); try exact (Forall_nil _).
Lemma pdu_timed i v d b x : vtime (mi_time i) -> ms_pdu i v d b = Ok x -> Forall timed (snd x).
Proof.
  intros V. unfold ms_pdu. intros H. destruct (_ =? 0)%N; [unfold ms_resource in H; open_up H; all_timed V|]. destruct (_ =? 1)%N.
  - destruct (_ =? 0)%N; [unfold ms_frag in H; open_up H; all_timed V|unfold ms_end in H; open_up H; all_timed V].
  - destruct (_ =? 2)%N; [|discriminate H]. unfold ms_broadcast in H. UmacMsFacts.peel H; cbn [snd]; apply Forall_app; split; repeat constructor. all: destruct (si_hyper _); repeat constructor; destruct (_ =? _)%Z; repeat constructor.
Qed.
Lemma sch_timed fuel : forall i d b x, vtime (mi_time i) -> ms_sch fuel i d b = Ok x -> Forall timed (snd x).
Proof.
  induction fuel as [|n IH]; intros i d b x V H; [discriminate H|]. cbn [ms_sch] in H. destruct (peek_bits b 3) as [[v|]| |]; cbn [bind] in H; try discriminate H; [|injection H as <-; constructor].
  destruct (ms_pdu i v d b) as [[[d1 b1] out]| |] eqn:E1; cbn [bind] in H; try discriminate H. apply (pdu_timed _ _ _ _ _ V) in E1. cbn [snd] in E1. destruct (get_len b1) as [m| |]; cbn [bind] in H; try discriminate H.
  destruct (_ && _)%bool; [|injection H as <-; exact E1]. destruct (ms_sch n i d1 b1) as [[d2 out2]| |] eqn:E2; cbn [bind] in H; try discriminate H. injection H as <-. apply (IH _ _ _ _ V) in E2. apply Forall_app. split; assumption.
Qed.
Lemma step_timed e u u' out : event_fine e -> ms_step e u = Ok (u', out) -> Forall timed out.
Proof.
  intros F H. destruct e as [i b|t [[mcc mnc]|]]; cbn [ms_step] in H.
  - destruct F as (_ & _ & V & _).
    assert (SCH : (' (d, out0) <- ms_sch (S (bend b - bstart b)) i (ms_df u) b ;; Ok (mk_ums d (ms_mcc u) (ms_mnc u) (ms_cc u) (ms_code u), out0)) = Ok (u', out) -> Forall timed out).
    { clear H. destruct (ms_sch _ i (ms_df u) b) as [[d o]| |] eqn:E; cbn [bind]; intros H; try discriminate H. injection H as <- <-. exact (sch_timed _ _ _ _ _ V E). }
    destruct (mi_chan i); try discriminate H; try (destruct (mi_blk i); try discriminate H; exact (SCH H)).
    + destruct (ms_aach i b) as [o| |] eqn:E; cbn [bind] in H; try discriminate H. injection H as <- <-. unfold ms_aach in E. open_up E; all_timed V.
    + destruct (sync_read b); try discriminate H; injection H as <- <-; constructor.
  - unfold ms_update in H. UmacMsFacts.peel H; try (repeat constructor). all: destruct (ms_cc u); injection H as <- <-; repeat constructor.
  - injection H as <- <-. constructor.
Qed.
Lemma run_timed evs : Forall event_fine evs -> forall u u' out, ms_run evs u = Ok (u', out) -> Forall timed out.
Proof.
  induction 1 as [|e evs E F IH]; intros u u' out H; cbn [ms_run] in H; [injection H as <- <-; constructor|].
  destruct (ms_step e u) as [[u1 o1]| |] eqn:E1; cbn [bind] in H; try discriminate H. destruct (ms_run evs u1) as [[u2 o2]| |] eqn:E2; cbn [bind] in H; try discriminate H. injection H as <- <-.
  apply Forall_app. split; [exact (step_timed e u u1 o1 E E1)|exact (IH u1 u2 o2 E2)].
Qed.
Lemma hands_up c s log t mevs lm um before out0 (got : nat -> list (MacPdus.mac_resource * list bool)) (part : nat -> option (MacPdus.mac_resource * list bool)) : cell_ok c = true -> bs_reached c s log -> all_apart log -> starts_at log t -> overhears log mevs ->
  lms_code lm = Some (code_of c) -> lms_time lm = Some t -> ms_run before ums_new = Ok (um, out0) ->
  (forall k, 1 <= k <= 4 -> DlSchedSpec.hear (flat_map (HeardFacts.slot_air k) (AirSpec.sent log)) = DlSchedSpec.Clear (got k) (part k) /\ Forall takeable (got k) /\ match part k with Some m => takeable m | None => True end) ->
  (forall k, 1 <= k <= 4 -> Forall uncut (flat_map (HeardFacts.slot_air k) (AirSpec.sent log))) ->
  exists m out, mob_run mevs (mk_mobile lm um) = Ok (m, out) /\ Forall timed out /\ forall k, 1 <= k <= 4 -> handed (sdus_on k out) (got k).
Proof.
  intros CO BR AP ST OV LC LT RB HR UC. pose proof (reached_clocked c s log t CO BR ST) as CL. destruct (reached_good c s log CO BR) as (_ & _ & A).
  destruct (listens c log _ t mevs A CL AP OV) as (uevs & L & GO).
  destruct (listened_fine c log CO _ t uevs A CL L) as (F & S1 & T1).
  { intros j Hj. apply (clear_plain _ (DlSchedSpec.Clear [] None)). exists (got j), (part j). exact (proj1 (HR j Hj)). }
  destruct (later_times before um out0 uevs got part RB F) as (um' & out & R & TM & H).
  { intros k Hk. rewrite (S1 k (proj1 Hk)). exact (HR k Hk). }
  { intros k. destruct (le_lt_dec 1 k) as [K1|K1]; [destruct (le_lt_dec k 4) as [K4|K4]|].
    - rewrite (S1 k K1). exact (UC k (conj K1 K4)).
    - rewrite (slots_off uevs k F); [constructor|lia].
    - rewrite (slots_off uevs k F); [constructor|lia]. }
  assert (CN : ms_cc um = None) by exact (proj1 (UmacMsFacts.run_no_code before ums_new um out0 eq_refl RB)).
  assert (SD : Forall steady out).
  { pose proof (proj2 (UmacMsFacts.run_no_code uevs um um' out CN R)) as NC. rewrite Forall_forall in NC |- *. intros o IN. specialize (NC o IN). destruct o; try exact Logic.I; try contradiction NC.
    destruct (TM _ IN) as (i & b & p & n & h & I1 & I2 & I3 & I4 & I5 & I6). exact (I6 (T1 i b p n h I1 I2 I3 I4 I5)). }
  destruct (GO lm um um' out LC LT R SD) as (lm' & E). exists (mk_mobile lm' um'), out. split; [exact E|]. split; [exact (run_timed uevs F um um' out R)|exact H].
Qed.
(** * What the histories heard in full never do *)
Lemma nothing_stolen c k s log : 1 <= k <= 4 -> cell_ok c = true -> HeardSpec.bs_history c k s log -> forall sl, In sl (AirSpec.sent log) -> ts_of (sl_ts sl) = k -> kind_of sl <> Some KStolen.
Proof.
  intros K CO H sl IN TS. destruct (HeardFacts.history_traced c k s log K CO H) as (code & t & p & evs & lg & D & FA & (_ & MS) & _).
  assert (F : Forall (StealRun.fair_at k) evs). { revert FA. apply Forall_impl. intros e E. destruct e; try exact E; try exact Logic.I. intros ET. now destruct E. }
  destruct (StealRun.history_steals_at k t code p evs lg _ K F D) as (q & _ & _ & EQ).
  assert (NW : flat_map (StealSpec.steal_wish k) lg = []).
  { pose proof (HeardFacts.log_events _ _ _ _ D) as LE. assert (A : Forall (fun e => match e with DvSteal ts _ _ => ts <> k | _ => True end) (map (fun x => fst (fst x)) lg)).
    { rewrite LE. constructor; [exact Logic.I|]. revert FA. apply Forall_impl. intros e E. destruct e; try exact Logic.I. exact E. }
    clear - A. induction lg as [|x lg IH]; [reflexivity|]. cbn [map] in A. cbn [flat_map]. rewrite (IH (Forall_inv_tail A)), app_nil_r. pose proof (Forall_inv A) as E. unfold StealSpec.steal_wish.
    destruct (fst (fst x)); try reflexivity. destruct (Nat.eqb_spec ts k) as [ET|_]; [now destruct E|reflexivity]. }
  rewrite NW in EQ. apply app_eq_nil in EQ. destruct EQ as (EQ & _). rewrite <- MS in IN. unfold DlTrace.made_slots in IN. apply in_flat_map in IN. destruct IN as (x & IX & IS).
  destruct (snd (fst x)) as [y|] eqn:EX; [|destruct IS]. destruct IS as [->|[]]. intros KO.
  assert (Z : StealSpec.stolen_slot k x = []).
  { clear - EQ IX. induction lg as [|y lg IH]; [destruct IX|]. cbn [flat_map] in EQ. apply app_eq_nil in EQ. destruct EQ as (E1 & E2). destruct IX as [->|IX]; [exact E1|exact (IH IX E2)]. }
  unfold StealSpec.stolen_slot in Z. rewrite EX, HeardFacts.for_ts_of, TS, Nat.eqb_refl in Z by lia. unfold kind_of in KO. destruct (bk_chan (sl_blk1 sl)); try discriminate Z; destruct (option_map bk_chan (sl_blk2 sl)) as [[]|]; discriminate KO.
Qed.
Lemma free_told evs : Forall first_free evs -> forall v, vw_dl (v 1) = None -> vw_dl (fold_left told1 evs v 1) = None.
Proof.
  induction 1 as [|e evs E F IH]; intros v H; [exact H|]. cbn [fold_left]. apply IH. destruct e as [| | | |k]; try exact H. destruct k; try exact H; cbn [told1 told first_free] in *; unfold at_ts; (match goal with |- vw_dl (if 1 =? ?ts then _ else _) = _ => destruct (Nat.eqb_spec 1 ts) as [<-|N]; [|exact H] end); try exact H.
  - unfold opened. cbn [vw_dl]. now rewrite (E eq_refl).
  - unfold closed. cbn [vw_dl]. destruct (downwards d); [reflexivity|exact H].
Qed.
Lemma history_apart c s log : cell_ok c = true -> (forall k, 1 <= k <= 4 -> HeardSpec.bs_history c k s log) -> Forall first_free (events_of log) -> all_apart log.
Proof.
  intros CO HS FF pre cn t xs ws post k x EL SL KX.
  assert (BR : bs_reached c s log). { destruct (HS 1 ltac:(lia)) as (cn0 & s0 & cn' & t0 & evs & EN & V & F & _ & ER & _). exists cn0, s0, cn', t0, evs. auto. }
  split.
  - intros ->. rewrite EL in FF. unfold events_of in FF. rewrite map_app in FF. apply Forall_app in FF. exact (free_told _ (proj1 FF) (fun _ => idle_ts) eq_refl).
  - intros _ ->. destruct (reached_good c s log CO BR) as (_ & _ & A). pose proof (airs_at c log _ pre _ _ _ post A EL) as (no & k' & m & x & w & EX & _ & _ & _ & _ & P & ST).
    rewrite EX, (slots_tick _ _ _ _ P) in SL. injection SL as ->. pose proof (UlBlockPdu.ts_of_range (add_timeslots t 1) (add_valid t 1)) as R.
    destruct ST as (ET & _). refine (nothing_stolen c (ts_of (add_timeslots t 1)) s log R CO (HS _ R) k _ (f_equal ts_of ET) KX).
    rewrite EL. unfold AirSpec.sent. rewrite flat_map_app. apply in_or_app. right. cbn [flat_map fst snd]. apply in_or_app. left. rewrite EX, (slots_tick _ _ _ _ P). now left.
Qed.

Lemma gets c s log t mevs lm um before out0 : cell_ok c = true -> (forall k, 1 <= k <= 4 -> HeardSpec.bs_history c k s log) -> (forall k, 1 <= k <= 4 -> Forall UmacMsFacts.short (HeardSpec.sends k (fun _ => idle_ts) (events_of log))) ->
  Forall first_free (events_of log) -> starts_at log t -> overhears log mevs -> lms_code lm = Some (code_of c) -> lms_time lm = Some t -> ms_run before ums_new = Ok (um, out0) ->
  let slots := fun k => flat_map (HeardFacts.slot_air k) (AirSpec.sent log) in (forall k, 1 <= k <= 4 -> HeardSpec.receives c k log (slots k)) /\
  ((forall k, 1 <= k <= 4 -> DlSchedSpec.hear (slots k) <> DlSchedSpec.Mixed /\ Forall uncut (slots k)) ->
   exists m out, mob_run mevs (mk_mobile lm um) = Ok (m, out) /\ Forall timed out /\ forall k, 1 <= k <= 4 -> exists got part, DlSchedSpec.hear (slots k) = DlSchedSpec.Clear got part /\
     Permutation (HeardSpec.sends k (fun _ => idle_ts) (events_of log)) (flat_map HeardSpec.payload got ++ flat_map HeardSpec.payload (HeardSpec.queued k s part)) /\ handed (sdus_on k out) got).
Proof.
  intros CO HS SH FF ST OV LC LT RB slots. pose proof (history_apart c s log CO HS FF) as AP.
  assert (PL : forall k, 1 <= k <= 4 -> HeardSpec.receives c k log (slots k) /\ HeardFacts.told_to k s (HeardSpec.sends k (fun _ => idle_ts) (events_of log)) (DlSchedSpec.hear (slots k)) /\
    match DlSchedSpec.hear (slots k) with DlSchedSpec.Clear got part => all_take (DlSchedSpec.Clear got part) | _ => True end).
  { intros k K. destruct (UmacMsFacts.heard_plain c k s log K (HeardFacts.history_traced c k s log K CO (HS k K)) (SH k K)) as (sl & (R & ->) & T & A). split; [exact R|]. split; [exact T|exact A]. }
  split; [intros k K; exact (proj1 (PL k K))|]. intros NM.
  pose (got := fun k => match DlSchedSpec.hear (slots k) with DlSchedSpec.Clear g _ => g | _ => [] end). pose (part := fun k => match DlSchedSpec.hear (slots k) with DlSchedSpec.Clear _ p => p | _ => None end).
  assert (CL : forall k, 1 <= k <= 4 -> DlSchedSpec.hear (slots k) = DlSchedSpec.Clear (got k) (part k)).
  { intros k K. destruct (PL k K) as (_ & T & _). destruct (NM k K) as (N1 & _). unfold got, part. destruct (DlSchedSpec.hear (slots k)); [reflexivity|first [now destruct (N1 eq_refl)|now destruct T]..]. }
  assert (BR : bs_reached c s log). { destruct (HS 1 ltac:(lia)) as (cn0 & s0 & cn & t0 & evs & EN & V & F & _ & ER & _). exists cn0, s0, cn, t0, evs. auto. }
  destruct (hands_up c s log t mevs lm um before out0 got part CO BR AP ST OV LC LT RB) as (m & out & R & TI & H).
  { intros k K. split; [exact (CL k K)|]. destruct (PL k K) as (_ & _ & A). rewrite (CL k K) in A. exact A. }
  { intros k K. exact (proj2 (NM k K)). }
  exists m, out. split; [exact R|]. split; [exact TI|]. intros k K. exists (got k), (part k). split; [exact (CL k K)|]. split; [|exact (H k K)]. destruct (PL k K) as (_ & T & _). rewrite (CL k K) in T. exact (proj2 T).
Qed.
Lemma mobile_gets c s log t mevs lm um before out0 : cell_ok c = true -> (forall k, 1 <= k <= 4 -> HeardSpec.bs_history c k s log) -> (forall k, 1 <= k <= 4 -> Forall UmacMsFacts.short (HeardSpec.sends k (fun _ => idle_ts) (events_of log))) ->
  Forall first_free (events_of log) -> starts_at log t -> overhears log mevs -> lms_code lm = Some (code_of c) -> lms_time lm = Some t -> ms_run before ums_new = Ok (um, out0) ->
  exists slots, (forall k, 1 <= k <= 4 -> HeardSpec.receives c k log (slots k)) /\
  ((forall k, 1 <= k <= 4 -> DlSchedSpec.hear (slots k) <> DlSchedSpec.Mixed /\ Forall uncut (slots k)) ->
   exists m out, mob_run mevs (mk_mobile lm um) = Ok (m, out) /\ forall k, 1 <= k <= 4 -> exists got part, DlSchedSpec.hear (slots k) = DlSchedSpec.Clear got part /\
     Permutation (HeardSpec.sends k (fun _ => idle_ts) (events_of log)) (flat_map HeardSpec.payload got ++ flat_map HeardSpec.payload (HeardSpec.queued k s part)) /\ handed (sdus_on k out) got).
Proof. intros CO HS SH AP ST OV LC LT RB. destruct (gets c s log t mevs lm um before out0 CO HS SH AP ST OV LC LT RB) as (RC & GO). eexists. split; [exact RC|].
  intros NM. destruct (GO NM) as (m & out & R & _ & H). exists m, out. split; [exact R|exact H].
Qed.

(** * Bursts can be demodulated *)
Lemma a_block ty num l : exists p, block_of ty num l p.
Proof.
  destruct (BitBufferOps.from_bitstr_spec l) as (b & _ & W & P & _ & E). exists (mk_pblk ty num b). split; [reflexivity|]. split; [reflexivity|]. exists l. split; [|split; [exact W|split; [exact P|exact E]]].
  exists (repeat false (length l)). split; [apply repeat_length|]. split; [rewrite weight_zeros; lia|]. now rewrite xorl_zeros.
Qed.
Lemma a_demodulation x w : exists l, demodulated x w l.
Proof.
  destruct x; cbn [demodulated].
  1, 3: destruct (a_block TyBBK BlockUndef (part w 230 14 ++ part w 266 16)) as (p0 & B0), (a_block TyNDB BothBlocks (part w 14 216 ++ part w 282 216)) as (p1 & B1); exists [p0; p1], p0, p1; auto.
  2: destruct (a_block TyBBK BlockUndef (part w 252 30)) as (p0 & B0), (a_block TySB1 Block1 (part w 94 120)) as (p1 & B1), (a_block TySB2 Block2 (part w 282 216)) as (p2 & B2); exists [p0; p1; p2], p0, p1, p2; auto.
  all: destruct (a_block TyBBK BlockUndef (part w 230 14 ++ part w 266 16)) as (p0 & B0), (a_block TyNDB Block1 (part w 14 216)) as (p1 & B1), (a_block TyNDB Block2 (part w 282 216)) as (p2 & B2); exists [p0; p1; p2], p0, p1, p2; auto.
Qed.
Lemma overheard c log : forall v, airs c v log -> exists mevs, overhears log mevs.
Proof.
  induction log as [|[[e xs] ws] log IH]; intros v A; [exists []; constructor|]. destruct A as (A1 & A2). destruct (IH _ A2) as (mevs & O). destruct e as [cn t|ts bits|r|ts data|k].
  2-5: destruct A1 as (-> & _); exists mevs; apply overhears_silence; [exact Logic.I|exact O].
  destruct A1 as (no & k & m & x & w & EX & -> & KX & _ & _ & P & _). destruct (a_demodulation x w) as (blks & D). exists (MvTick t :: MvSlot blks :: mevs).
  apply (overhears_burst cn t xs k x w); [rewrite EX; exact (slots_tick _ _ _ _ P)|exact KX|exact D|exact O].
Qed.
Lemma reached_overheard c s log : cell_ok c = true -> bs_reached c s log -> exists mevs, overhears log mevs.
Proof. intros CO BR. destruct (reached_good c s log CO BR) as (_ & _ & A). exact (overheard c log _ A). Qed.

(** * Examples *)
Definition is_tick (e : bs_event) : bool := match e with BeTick _ _ => true | _ => false end.
Lemma overhears_length log mevs : overhears log mevs -> length mevs = 2 * length (filter is_tick (events_of log)).
Proof. unfold events_of. induction 1 as [|cn t xs k x w blks log evs SL KX D O IH|e xs log evs NT O IH]; [reflexivity|cbn [length map fst filter is_tick]; lia|]. cbn [map fst filter]. destruct e; try contradiction NT; exact IH. Qed.
Definition calm (e : bs_event) : Prop := match e with BeControl (CallControl.CtlOpen _ ts _) => ts <> 1 | BeControl _ => False | _ => True end.
Lemma calm_told evs : Forall calm evs -> forall v, vw_dl (v 1) = None /\ (forall k, vw_hang (v k) = false) -> vw_dl (fold_left told1 evs v 1) = None /\ (forall k, vw_hang (fold_left told1 evs v k) = false).
Proof.
  induction 1 as [|e evs E F IH]; intros v H; [exact H|]. cbn [fold_left]. apply IH. destruct H as (H1 & H2). destruct e as [| | | |k]; try (split; assumption). destruct k; try (exfalso; exact E). cbn [told1 told calm] in *. unfold at_ts. split.
  - destruct (Nat.eqb_spec 1 ts) as [N|N]; [now destruct E|]. exact H1.
  - intros k. destruct (Nat.eqb_spec k ts) as [->|N]; [|exact (H2 k)]. unfold opened. cbn [vw_hang]. destruct d; try reflexivity; exact (H2 ts).
Qed.
Lemma calm_apart log : Forall calm (events_of log) -> all_apart log.
Proof.
  intros F pre cn t xs ws post k x -> _ _. unfold events_of in F. rewrite map_app in F. apply Forall_app in F. destruct F as (F & _).
  destruct (calm_told _ F (fun _ => idle_ts) (conj eq_refl (fun _ => eq_refl))) as (T1 & T2). split.
  - intros ->. exact T1.
  - intros H. change (bs_told (events_of pre)) with (fold_left told1 (events_of pre) (fun _ => idle_ts)) in H. unfold events_of in H. rewrite T2 in H. discriminate H.
Qed.
Lemma lift_histories c cn0 u0 cn t evs u ulog : cell_ok c = true -> umac_new c cn0 = Ok u0 -> vtime t -> Forall AirFacts.no_radio evs -> Forall bs_fine (map AirFacts.be_of evs) ->
  (forall k, 1 <= k <= 4 -> Forall (HeardSpec.proper c k) (map AirFacts.be_of evs) /\ HeardFacts.run_hopes k c (UeTick cn t :: evs) u0 = true) -> um_run c (UeTick cn t :: evs) u0 = Ok (u, ulog) ->
  exists s log, (forall k, 1 <= k <= 4 -> HeardSpec.bs_history c k s log) /\ events_of log = map AirFacts.be_of (UeTick cn t :: evs) /\ AirSpec.sent log = flat_map (fun x => slots_in (snd (fst x))) ulog.
Proof.
  intros CO EU V N F P E. assert (EN : station_new c cn0 = Ok (mk_station u0 (lmac_new c))) by (unfold station_new; rewrite EU; reflexivity).
  destruct (AirFacts.new_station c cn0 _ CO EN) as (_ & M & T & EL). cbn [um_run] in E. apply bind_inv in E. destruct E as (((u1 & o) & m) & E1 & E). apply bind_inv in E. destruct E as ((u2 & lg) & E2 & E). injection E as <- <-.
  destruct (AirFacts.lift_tick c cn t _ (mk_station u0 (lmac_new c)) u1 o m CO M T V eq_refl E1) as (s1 & ws & B & U). rewrite <- U in E2.
  destruct (tick_good c cn t (fun _ => idle_ts) (mk_station u0 (lmac_new c)) s1 [(UeTick cn t, o, m)] ws CO M T V eq_refl eq_refl) as (G1 & _); [intros u' o' m' ES; exact (proj1 (first_tick _ _ _ _ _ _ _ _ EU V ES))|exact B|].
  destruct (AirFacts.lift_run c evs CO N F _ s1 u2 lg G1 E2) as (s' & log & R & U' & L).
  assert (RUN : bs_run c (BeTick cn t :: map AirFacts.be_of evs) (mk_station u0 (lmac_new c)) = Ok (s', (BeTick cn t, [(UeTick cn t, o, m)], ws) :: log)) by (cbn [bs_run]; rewrite B; cbn [bind]; rewrite R; reflexivity).
  exists s', ((BeTick cn t, [(UeTick cn t, o, m)], ws) :: log).
  split; [|split; [exact (proj2 (proj2 (proj2 (AirFacts.history c cn0 _ cn t (map AirFacts.be_of evs) s' _ CO EN V F RUN))))|]].
  - intros k K. destruct (P k K) as (P1 & H). cbn [HeardFacts.run_hopes] in H. rewrite E1 in H. apply andb_true_iff in H. destruct H as (H1 & H2). rewrite <- U in H1, H2.
    exists cn0, (mk_station u0 (lmac_new c)), cn, t, (map AirFacts.be_of evs). split; [exact EN|]. split; [exact V|]. split; [exact F|]. split; [exact P1|]. split; [exact RUN|]. cbn [HeardSpec.always]. rewrite B. split; [exact (HeardFacts.hopes_spec k s1 H1)|]. exact (HeardFacts.lift_always c k evs CO N F _ s1 u2 lg G1 E2 H2).
  - rewrite AirFacts.sent_flat. cbn [flat_map fst snd app]. rewrite L. reflexivity.
Qed.
Lemma ex_proper n k : Forall (HeardSpec.proper DlFacts.ex_cell k) (map AirFacts.be_of (HeardFacts.ex_evs n)).
Proof.
  destruct (Nat.eq_dec k 1) as [->|NK]; [exact (proj1 (proj2 (proj2 (HeardFacts.ex_proper n))))|].
  unfold HeardFacts.ex_evs. rewrite map_app, Forall_app. split; [|apply Forall_forall; intros x IN; apply in_map_iff in IN; destruct IN as (y & <- & IN); apply in_map_iff in IN; destruct IN as (z & <- & _); exact Logic.I].
  cbn [HeardFacts.ex_asked map AirFacts.be_of]. constructor; [exact Logic.I|].
  constructor; [|constructor; [|constructor]]; cbn [HeardSpec.proper HeardFacts.ex_msg tr_steal tr_time]; (split; [discriminate|]); intros H; destruct NK; symmetry; exact H.
Qed.
Lemma ex_calm n : Forall calm (map AirFacts.be_of (UeTick false UmacMsFacts.ex_time :: HeardFacts.ex_evs n)).
Proof.
  unfold HeardFacts.ex_evs. cbn [map]. constructor; [exact Logic.I|]. rewrite map_app, Forall_app. split; [|apply Forall_forall; intros x IN; apply in_map_iff in IN; destruct IN as (y & <- & IN); apply in_map_iff in IN; destruct IN as (z & <- & _); exact Logic.I].
  cbn [HeardFacts.ex_asked map AirFacts.be_of]. constructor; [cbn; discriminate|]. constructor; [exact Logic.I|]. constructor; [exact Logic.I|constructor].
Qed.
Lemma ex_none n k : k <> 1 -> HeardSpec.sends k (fun _ => idle_ts) (map AirFacts.be_of (UeTick false UmacMsFacts.ex_time :: HeardFacts.ex_evs n)) = [].
Proof.
  intros NK. unfold HeardFacts.ex_evs. rewrite app_comm_cons, map_app, map_map, HeardFacts.sends_app.
  assert (H : forall v a, HeardSpec.sends k v (map (fun x => AirFacts.be_of (HeardFacts.ex_later x)) a) = []) by (intros v a; revert v; induction a as [|x a IH]; intros v; [reflexivity|exact (IH v)]). rewrite H, app_nil_r.
  cbn [map HeardFacts.ex_asked AirFacts.be_of HeardSpec.sends]. unfold HeardSpec.sends. change (ts_of (tr_time (HeardFacts.ex_msg 29 HeardFacts.ex_group))) with 1. change (ts_of (tr_time (HeardFacts.ex_msg 157 HeardFacts.ex_radio))) with 1.
  rewrite (proj2 (Nat.eqb_neq 1 k)) by congruence. reflexivity.
Qed.
Definition ex_slots (log : list um_entry) (k : nat) : list (list bool) := flat_map (HeardFacts.slot_air k) (flat_map (fun x => slots_in (snd (fst x))) log).
Definition not_mixed (l : list (list bool)) : bool := match DlSchedSpec.hear l with DlSchedSpec.Mixed => false | _ => true end.
Definition ex_checks (u0 u : umac) (log : list um_entry) :=
  (forallb (fun k => HeardFacts.run_hopes k DlFacts.ex_cell (UeTick false UmacMsFacts.ex_time :: HeardFacts.ex_evs 7) u0) [1; 2; 3; 4],
   forallb (fun k => not_mixed (ex_slots log k) && forallb (fun l => headers_whole (length l) l) (ex_slots log k)) [1; 2; 3; 4],
   match DlSchedSpec.hear (ex_slots log 1) with DlSchedSpec.Clear got None => Some (flat_map HeardSpec.payload got) | _ => None end).
Lemma four (P : nat -> bool) : forallb P [1; 2; 3; 4] = true -> forall k, 1 <= k <= 4 -> P k = true.
Proof. intros H k K. rewrite forallb_forall in H. apply H. cbn [In]. lia. Qed.
Lemma ex_mobile_at : exists s log mevs m out slots got, (forall k, 1 <= k <= 4 -> HeardSpec.bs_history DlFacts.ex_cell k s log) /\ HeardSpec.sends 1 (fun _ => idle_ts) (events_of log) = HeardFacts.ex_wanted /\
  (forall k, 1 <= k <= 4 -> Forall UmacMsFacts.short (HeardSpec.sends k (fun _ => idle_ts) (events_of log))) /\ Forall first_free (events_of log) /\ starts_at log UmacMsFacts.ex_time /\ vw_dl (bs_told (events_of log) 2) = Some 5%N /\ overhears log mevs /\ length mevs = 16 /\
  (forall k, 1 <= k <= 4 -> HeardSpec.receives DlFacts.ex_cell k log (slots k) /\ DlSchedSpec.hear (slots k) <> DlSchedSpec.Mixed /\ Forall uncut (slots k)) /\
  mob_run mevs (mk_mobile (mk_lms (Some (code_of DlFacts.ex_cell)) (Some UmacMsFacts.ex_time) false) ums_new) = Ok (m, out) /\
  DlSchedSpec.hear (slots 1) = DlSchedSpec.Clear got None /\ flat_map HeardSpec.payload got = HeardFacts.ex_wanted /\ handed (sdus_on 1 out) got /\
  (slots = fun k => flat_map (HeardFacts.slot_air k) (AirSpec.sent log)) /\ (forall k, k <> 1 -> HeardSpec.sends k (fun _ => idle_ts) (events_of log) = []).
Proof.
  assert (X : exists u0 u log, umac_new DlFacts.ex_cell false = Ok u0 /\ um_run DlFacts.ex_cell (UeTick false UmacMsFacts.ex_time :: HeardFacts.ex_evs 7) u0 = Ok (u, log) /\ ex_checks u0 u log = (true, true, Some HeardFacts.ex_wanted)) by (apply HeardFacts.ran; vm_compute; reflexivity).
  destruct X as (u0 & u & ulog & EN & E & S). unfold ex_checks in S. assert (HH : forall {A B C} (a a' : A) (b b' : B) (x x' : C), (a, b, x) = (a', b', x') -> a = a' /\ b = b' /\ x = x') by (intros; repeat split; congruence). apply HH in S. destruct S as (S1 & S2 & S3).
  pose proof (four _ S1) as H1. pose proof (four _ S2) as H2. clear S1 S2.
  destruct (HeardFacts.ex_proper 7) as (P1 & P2 & _). assert (V : vtime UmacMsFacts.ex_time) by (unfold vtime; cbn; lia).
  destruct (lift_histories DlFacts.ex_cell false u0 false UmacMsFacts.ex_time (HeardFacts.ex_evs 7) u ulog eq_refl EN V P1 P2 (fun k K => conj (ex_proper 7 k) (H1 k K)) E) as (s & log & HS & EV & SE).
  assert (BR : bs_reached DlFacts.ex_cell s log). { destruct (HS 1 ltac:(lia)) as (cn0 & s0 & cn & t0 & evs & EN' & V' & F & _ & ER & _). exists cn0, s0, cn, t0, evs. auto. }
  destruct (reached_overheard DlFacts.ex_cell s log eq_refl BR) as (mevs & OV).
  assert (AP : Forall first_free (events_of log)) by (rewrite EV; generalize (ex_calm 7); apply Forall_impl; intros a; destruct a as [| | | |cc]; try exact (fun H => H); destruct cc; cbn [calm first_free]; try tauto; intros H1 H2; now destruct H1).
  assert (ST : starts_at log UmacMsFacts.ex_time) by (destruct log as [|[[e xs] ws] log]; [discriminate EV|]; cbn [events_of map fst] in EV; injection EV as -> _; exists false, xs, ws, log; reflexivity).
  assert (SW : HeardSpec.sends 1 (fun _ => idle_ts) (events_of log) = HeardFacts.ex_wanted) by (rewrite EV; apply HeardFacts.ex_sends).
  assert (SH : forall k, 1 <= k <= 4 -> Forall UmacMsFacts.short (HeardSpec.sends k (fun _ => idle_ts) (events_of log))).
  { intros k K. destruct (Nat.eq_dec k 1) as [->|NK]; [rewrite SW; constructor; [|constructor; [|constructor]]; unfold UmacMsFacts.short; apply Nat.leb_le; vm_compute; reflexivity|]. rewrite EV, (ex_none 7 k NK). constructor. }
  destruct (gets DlFacts.ex_cell s log UmacMsFacts.ex_time mevs (mk_lms (Some (code_of DlFacts.ex_cell)) (Some UmacMsFacts.ex_time) false) ums_new [] [] eq_refl HS SH AP ST OV eq_refl eq_refl eq_refl) as (RC & GO).
  assert (EQ : forall k, flat_map (HeardFacts.slot_air k) (AirSpec.sent log) = ex_slots ulog k) by (intros k; now rewrite SE).
  assert (NM : forall k, 1 <= k <= 4 -> DlSchedSpec.hear (flat_map (HeardFacts.slot_air k) (AirSpec.sent log)) <> DlSchedSpec.Mixed /\ Forall uncut (flat_map (HeardFacts.slot_air k) (AirSpec.sent log))).
  { intros k K. rewrite EQ. specialize (H2 k K). apply andb_true_iff in H2. destruct H2 as (H2 & H3). split; [|exact (UmacMsFacts.uncuts _ H3)]. unfold not_mixed in H2. intros EM. rewrite EM in H2. discriminate H2. }
  destruct (GO NM) as (m & out & R & _ & H). destruct (H 1 ltac:(lia)) as (got & part & HC & _ & HD). pose proof HC as HC'. rewrite EQ in HC'. rewrite HC' in S3. destruct part as [?|]; [discriminate S3|]. injection S3 as S3.
  exists s, log, mevs, m, out, (fun k => flat_map (HeardFacts.slot_air k) (AirSpec.sent log)), got.
  split; [exact HS|]. split; [exact SW|]. split; [exact SH|]. split; [exact AP|]. split; [exact ST|]. split; [rewrite EV; vm_compute; reflexivity|]. split; [exact OV|].
  split; [rewrite (overhears_length _ _ OV), EV; vm_compute; reflexivity|]. split; [intros k K; split; [exact (RC k K)|exact (NM k K)]|]. split; [exact R|]. split; [exact HC|]. split; [exact S3|]. split; [exact HD|]. split; [reflexivity|]. intros k NK. rewrite EV. exact (ex_none 7 k NK).
Qed.
Lemma ex_mobile : exists s log mevs m out slots got, (forall k, 1 <= k <= 4 -> HeardSpec.bs_history DlFacts.ex_cell k s log) /\ HeardSpec.sends 1 (fun _ => idle_ts) (events_of log) = HeardFacts.ex_wanted /\
  (forall k, 1 <= k <= 4 -> Forall UmacMsFacts.short (HeardSpec.sends k (fun _ => idle_ts) (events_of log))) /\ Forall first_free (events_of log) /\ starts_at log UmacMsFacts.ex_time /\ vw_dl (bs_told (events_of log) 2) = Some 5%N /\ overhears log mevs /\ length mevs = 16 /\
  (forall k, 1 <= k <= 4 -> HeardSpec.receives DlFacts.ex_cell k log (slots k) /\ DlSchedSpec.hear (slots k) <> DlSchedSpec.Mixed /\ Forall uncut (slots k)) /\
  mob_run mevs (mk_mobile (mk_lms (Some (code_of DlFacts.ex_cell)) (Some UmacMsFacts.ex_time) false) ums_new) = Ok (m, out) /\
  DlSchedSpec.hear (slots 1) = DlSchedSpec.Clear got None /\ flat_map HeardSpec.payload got = HeardFacts.ex_wanted /\ handed (sdus_on 1 out) got.
Proof.
  destruct ex_mobile_at as (s & log & mevs & m & out & slots & got & H1 & H2 & H3 & H4 & H5 & H6 & H7 & H8 & H9 & H10 & H11 & H12 & H13 & _).
  exists s, log, mevs, m, out, slots, got. repeat (split; [assumption|]). exact H13.
Qed.

(** * Findings *)
Lemma deaf_rx p l e : lms_code l = None -> lms_rx p l = Ok (Some e) -> exists i b, e = MeBlock i b /\ mi_chan i = Bsch.
Proof.
  intros NC E. unfold lms_rx in E. apply bind_inv in E. destruct E as (c & EC & E). unfold lms_channel in EC. destruct (pb_type p) eqn:ET.
  1: { injection EC as <-. unfold lms_bbk in E. rewrite NC in E. discriminate E. }
  1: { injection EC as <-. unfold lms_cp in E. apply bind_inv in E. destruct E as ((o & crc) & _ & E). destruct o as [b|]; [|discriminate E]. destruct crc; [|discriminate E]. cbn [bind] in E. injection E as <-. eauto. }
  all: apply bind_inv in EC; destruct EC as (_ & _ & EC).
  all: assert (CH : c <> Aach) by (repeat match type of EC with (if ?x then _ else _) = _ => destruct x end; injection EC as <-; try discriminate; destruct (pb_num p); discriminate).
  all: destruct c; try discriminate E; try (now destruct CH); unfold lms_cp, decode_cp in E; rewrite ET, NC in E; apply bind_inv in E; destruct E as ((o & crc) & E1 & E); apply bind_inv in E1; destruct E1 as (_ & _ & E1); apply bind_inv in E1; destruct E1 as (? & _ & E1); injection E1 as <- <-; discriminate E.
Qed.
Lemma deaf_step i b u u' out : mi_chan i = Bsch -> ms_step (MeBlock i b) u = Ok (u', out) -> u' = u /\ out = [].
Proof. intros C E. cbn [ms_step] in E. rewrite C in E. destruct (sync_read b); try discriminate E; injection E as <- <-; auto. Qed.
Definition sync_only (e : ms_event) : Prop := match e with MeBlock i _ => mi_chan i = Bsch | _ => False end.
Lemma deaf_run evs : Forall sync_only evs -> forall u u' out, ms_run evs u = Ok (u', out) -> u' = u /\ out = [].
Proof.
  induction 1 as [|e evs E F IH]; intros u u' out R; cbn [ms_run] in R; [injection R as <- <-; auto|]. destruct e as [i b|]; [|contradiction E].
  apply bind_inv in R. destruct R as ((u1 & o1) & R1 & R). apply bind_inv in R. destruct R as ((u2 & o2) & R2 & R). injection R as <- <-. destruct (deaf_step i b u u1 o1 E R1) as (-> & ->). destruct (IH u u2 o2 R2) as (-> & ->). auto.
Qed.
Lemma deaf_blocks l : forall m m' q out, lms_code (mo_lm m) = None -> mob_blocks l m = Ok (m', q, out) -> m' = m /\ out = [] /\ Forall sync_only q.
Proof.
  induction l as [|p l IH]; intros m m' q out NC E; cbn [mob_blocks] in E; [injection E as <- <- <-; auto|]. apply bind_inv in E. destruct E as (e & E1 & E). destruct e as [e|]; [|exact (IH m m' q out NC E)].
  destruct (deaf_rx p _ e NC E1) as (i & b & -> & C). rewrite C in E. apply bind_inv in E. destruct E as (((m1 & q1) & o1) & E2 & E). injection E as <- <- <-. destruct (IH m m1 q1 o1 NC E2) as (-> & -> & F). repeat split. constructor; [exact C|exact F].
Qed.
Lemma deaf evs : forall m m' out, lms_code (mo_lm m) = None -> ms_cc (mo_um m) = None -> mob_run evs m = Ok (m', out) -> out = [].
Proof.
  induction evs as [|e evs IH]; intros m m' out NC CC R; cbn [mob_run] in R; [injection R as _ <-; reflexivity|]. apply bind_inv in R. destruct R as ((m1 & o1) & R1 & R). apply bind_inv in R. destruct R as ((m2 & o2) & R2 & R). injection R as <- <-.
  assert (H : lms_code (mo_lm m1) = None /\ ms_cc (mo_um m1) = None /\ o1 = []); [|destruct H as (N1 & C1 & ->); exact (IH m1 m2 o2 N1 C1 R2)]. destruct e as [t|l|t addr]; cbn [mob_step] in R1.
  - apply bind_inv in R1. destruct R1 as (l & R1 & E). injection E as <- <-. cbn [mo_lm mo_um]. unfold lms_tick in R1. destruct (lms_time (mo_lm m)); [apply bind_inv in R1; destruct R1 as (_ & _ & R1)|]; injection R1 as <-; auto.
  - apply bind_inv in R1. destruct R1 as (((m3 & q) & o3) & R3 & R1). destruct (deaf_blocks l m m3 q o3 NC R3) as (-> & -> & F). unfold mob_upper in R1. apply bind_inv in R1. destruct R1 as ((m4 & o4) & R4 & R1). injection R1 as <- <-.
    apply bind_inv in R4. destruct R4 as ((u & o5) & R5 & R4). destruct (deaf_run q F _ u o5 R5) as (-> & ->). injection R4 as <- <-. auto.
  - unfold mob_upper in R1. apply bind_inv in R1. destruct R1 as ((u & o) & R3 & R1). injection R1 as <- <-. cbn [ms_run] in R3. apply bind_inv in R3. destruct R3 as ((u1 & o') & R3 & R4). injection R4 as <- <-.
    cbn [ms_step] in R3. destruct addr as [[mcc mnc]|]; [unfold ms_update in R3; cbn [ms_mcc ms_mnc ms_cc] in R3; rewrite CC in R3|]; injection R3 as <- <-; auto.
Qed.
Lemma starts_deaf evs m out : mob_run evs mobile_new = Ok (m, out) -> out = [].
Proof. exact (deaf evs mobile_new m out eq_refl eq_refl). Qed.
Lemma other_hyperframe i b lm um p rest h : wf b -> bpos b = bstart b -> mi_chan i = Bnch -> (mi_blk i = Block1 \/ mi_blk i = Block2) -> MacSpec.si_valid p = true -> window b = Layout.enc (MacSpec.si_layout p) ++ rest ->
  si_hyper p = Some h -> Z.of_N h <> tm_h (mi_time i) ->
  exists m out, mob_upper [MeBlock i b] (mk_mobile lm um) = Ok (m, out) /\ forall t, tm_h t = tm_h (mi_time i) -> mob_step (MvTick t) m = Panic.
Proof.
  intros W P C B V E HY NE. destruct (UmacMsFacts.broadcast i b um p rest W P C B V E) as (sdu & _ & _ & S). rewrite HY, (proj2 (Z.eqb_neq _ _) NE) in S.
  unfold mob_upper. cbn [mo_um mo_lm ms_run]. rewrite S. cbn [bind app fold_left lms_configure]. eexists _, _. split; [reflexivity|]. intros t EH. cbn [mob_step mo_lm]. unfold lms_tick. cbn [lms_time].
  assert (T : time_eqb (mk_time (tm_t (mi_time i)) (tm_f (mi_time i)) (tm_m (mi_time i)) (Z.of_N h)) t = false).
  { unfold time_eqb. cbn [tm_t tm_f tm_m tm_h]. rewrite EH, (proj2 (Z.eqb_neq _ _) NE). now rewrite !andb_false_r. }
  rewrite T. reflexivity.
Qed.
Definition ex_deaf : list mob_event :=
  [MvConfigure UmacMsFacts.ex_time (Some (204, 1337)%N); MvTick UmacMsFacts.ex_time;
   MvSlot [mk_pblk TyBBK BlockUndef (UlBlockFacts.ex_bits (repeat true 30)); mk_pblk TyNDB BothBlocks (UlBlockFacts.ex_bits (repeat true 432))]; MvTick (add_timeslots UmacMsFacts.ex_time 1)].
Lemma ex_deaf_runs : exists m, mob_run ex_deaf mobile_new = Ok (m, []) /\ ms_mcc (mo_um m) = Some 204%N.
Proof. eexists. split; vm_compute; reflexivity. Qed.
Lemma sent_at c log k : forall v, airs c v log -> In k (AirSpec.sent log) -> exists pre cn t xs ws post, log = pre ++ (BeTick cn t, xs, ws) :: post /\ slots_of xs = [k].
Proof.
  induction log as [|[[e xs] ws] log IH]; intros v A IN; [contradiction IN|]. destruct A as (A1 & A2). change (AirSpec.sent ((e, xs, ws) :: log)) with (slots_of xs ++ AirSpec.sent log) in IN. apply in_app_iff in IN. destruct IN as [IN|IN].
  - destruct e as [cn t|ts bits|r|ts data|x]; [|destruct A1 as (_ & A1); rewrite A1 in IN; contradiction IN..]. destruct A1 as (no & k' & m & x' & w' & EX & _ & _ & _ & _ & P & _). pose proof (slots_tick (UeTick cn t) no k' m P) as SL. rewrite <- EX in SL.
    rewrite SL in IN. destruct IN as [->|[]]. exists [], cn, t, xs, ws, log. split; [reflexivity|exact SL].
  - destruct (IH _ A2 IN) as (pre & cn & t & xs' & ws' & post & -> & SL). exists ((e, xs, ws) :: pre), cn, t, xs', ws', post. split; [reflexivity|exact SL].
Qed.
Definition ex_kinds (u0 u : umac) (log : list um_entry) :=
  (forallb (fun k => HeardFacts.run_hopes k DlFacts.ex_cell (UeTick false UmacMsFacts.ex_time :: HeardFacts.ex_evs 7) u0) [1; 2; 3; 4], map kind_of (flat_map (fun x => slots_in (snd (fst x))) log)).
Lemma ex_bursts : exists s log, bs_reached DlFacts.ex_cell s log /\ forall x, In x [KSync; KSignalling; KTraffic] ->
  exists pre cn t xs ws post k, log = pre ++ (BeTick cn t, xs, ws) :: post /\ slots_of xs = [k] /\ kind_of k = Some x /\ told_apart (add_timeslots t 1) (bs_told (events_of pre) (Z.to_nat (tm_t (add_timeslots t 1)))) x.
Proof.
  assert (X : exists u0 u log, umac_new DlFacts.ex_cell false = Ok u0 /\ um_run DlFacts.ex_cell (UeTick false UmacMsFacts.ex_time :: HeardFacts.ex_evs 7) u0 = Ok (u, log) /\
    ex_kinds u0 u log = (true, [Some KSync; Some KSync; Some KSync; Some KSignalling; Some KTraffic; Some KSync; Some KSync; Some KSignalling])) by (apply HeardFacts.ran; vm_compute; reflexivity).
  destruct X as (u0 & u & ulog & EN & E & S). unfold ex_kinds in S. assert (HH : forall {A B} (a a' : A) (b b' : B), (a, b) = (a', b') -> a = a' /\ b = b') by (intros; split; congruence). apply HH in S. destruct S as (S1 & S2). pose proof (four _ S1) as H1.
  destruct (HeardFacts.ex_proper 7) as (P1 & P2 & _). assert (V : vtime UmacMsFacts.ex_time) by (unfold vtime; cbn; lia).
  destruct (lift_histories DlFacts.ex_cell false u0 false UmacMsFacts.ex_time (HeardFacts.ex_evs 7) u ulog eq_refl EN V P1 P2 (fun k K => conj (ex_proper 7 k) (H1 k K)) E) as (s & log & HS & EV & SE).
  assert (BR : bs_reached DlFacts.ex_cell s log). { destruct (HS 1 ltac:(lia)) as (cn0 & s0 & cn & t0 & evs & EN' & V' & F & _ & ER & _). exists cn0, s0, cn, t0, evs. auto. }
  assert (AP : all_apart log) by (apply calm_apart; rewrite EV; apply ex_calm). destruct (reached_good DlFacts.ex_cell s log eq_refl BR) as (_ & _ & A).
  exists s, log. split; [exact BR|]. intros x Hx. assert (IN : In (Some x) (map kind_of (AirSpec.sent log))) by (rewrite SE, S2; destruct Hx as [<-|[<-|[<-|[]]]]; cbn [In]; tauto).
  apply in_map_iff in IN. destruct IN as (k & KX & IN). destruct (sent_at _ log k _ A IN) as (pre & cn & t & xs & ws & post & EL & SL). exists pre, cn, t, xs, ws, post, k. split; [exact EL|]. split; [exact SL|]. split; [exact KX|]. exact (AP pre cn t xs ws post k x EL SL KX).
Qed.

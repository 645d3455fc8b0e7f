(** A cell whose settings fit their fields starts, and goes on for ever if nothing happens. *)
From Coq Require Import Arith.
From Verif Require Import Base BitsLib AMap BitBuffer BitBufferProofs BitBufferOps Codec CodecProofs TypedFields MacFields MacPdus Layout MacSpec
  TdmaTime TdmaTimeProofs TxReceipt UmacCircuits UmacCircuitsProofs UlSched BsFrag DlSched DlSchedSpec DlSlot UmacPrecomps UmacBs StealSpec StealProofs StealFacts SlotSpec SlotProofs.
From Verif Require Import UmacSched SlotRun SlotWf AliveSpec TickSafe TickTotal UlBlockSpec UlBlockPdu UlBlockFacts.
From Verif Require Import LmacBs Slotter BsMac AirSpec AirRun AirFacts AliveRun AliveFacts HeardSpec.
From Verif Require FragSpec CallControl Llc DlFacts DlFinal DlBuild DlNotes UlSchedProofs SlotterProofs Freqs FreqsProofs.
Open Scope nat_scope.

(** * Empty queues stay empty *)
Definition hushed (s : dls) : Prop := four s /\ ds_next s = [] /\ forall k, 1 <= k <= 4 -> get_q k s = Ok [].
Lemma busy_none q : forallb DlBuild.busy q = true -> filter is_frag q = [] -> filter is_resource q = [] -> q = [].
Proof. destruct q as [|e q]; [reflexivity|]. cbn. unfold DlBuild.busy. destruct (is_frag e), (is_resource e); discriminate. Qed.
Lemma no_frags q : DlBuild.all_frags q -> entries q = [] -> q = [].
Proof. intros A E. destruct A as [|e q (f & -> & _)]; [reflexivity|discriminate E]. Qed.
Lemma none_served is es m : served_all [] is es m -> es = [].
Proof. intros H. inversion H. reflexivity. Qed.
Lemma none_did m slot q2 o : DlFinal.did [] [] m slot q2 o -> q2 = [].
Proof.
  intros H. destruct H as [T ->|q1 T F M -> B L FR RS C|q1 is T F B L FR RS AF SV _ _ _]; [reflexivity| |].
  - cbn in FR, RS. apply busy_none; [exact B|exact FR|]. inversion RS. reflexivity.
  - cbn in FR, RS. assert (X : q1 = []) by (apply busy_none; [exact B|exact FR|]; inversion RS; reflexivity). subst q1. cbn in SV. apply none_served in SV. now apply no_frags.
Qed.
Lemma tick_hushed s slot s' m : finalize_ts s = Ok (slot, s', m) -> hushed s -> hushed s'.
Proof.
  intros E (F & NX & Q). assert (K : forall k, 1 <= k <= 4 -> four s' /\ ds_next s' = [] /\ get_q k s' = Ok []).
  { intros k K. destruct (for_ts k (sl_ts slot)) eqn:FT.
    - destruct (DlFinal.tick_own s slot s' m k [] [] E F NX K FT (Q k K)) as (F' & N' & _ & _ & q2 & o & GQ & _ & D); [constructor|constructor|]. apply none_did in D. subst q2. auto.
    - destruct (DlFinal.tick_other s slot s' m k E F NX K FT) as ((GQ & F' & N' & _) & _). rewrite (Q k K) in GQ. auto. }
  destruct (K 1) as (F' & N' & _); [lia|]. split; [exact F'|]. split; [exact N'|]. intros k R. now apply K.
Qed.
Lemma step_hushed c cn t u u' o m : hushed (um_sch u) -> um_step c (UeTick cn t) u = Ok (u', o, m) -> hushed (um_sch u').
Proof.
  intros H E. cbn [um_step] in E. unfold tick_start in E.
  assert (H0 : hushed (snd (refresh_sws c cn (um_sws u) (um_sch u)))) by (unfold refresh_sws; destruct (Bool.eqb _ _); exact H).
  destruct (refresh_sws c cn (um_sws u) (um_sch u)) as [sws s]. cbn [snd] in H0.
  apply bind_inv in E. destruct E as ((s1 & m0) & E0 & E). apply bind_inv in E. destruct E as ((u1 & o1) & E1 & E). apply bind_inv in E. destruct E as (((k & s2) & m2) & E2 & E). injection E as <- _ _.
  destruct (silence_same _ _ _ _ E1) as (S1 & _). cbn [um_sch] in S1. rewrite S1 in E2. change (um_sch (set_sch s2 u1)) with s2. refine (tick_hushed _ _ _ _ E2 _).
  destruct (_ && _) in E0.
  - unfold set_dl_time in E0. apply bind_inv in E0. destruct E0 as (mm & _ & E0). injection E0 as <- _. split; [reflexivity|]. split; [exact (proj1 (proj2 H0))|].
    intros k0 K. cbn. assert (X : k0 = 1 \/ k0 = 2 \/ k0 = 3 \/ k0 = 4) by lia. destruct X as [->|[->|[->| ->]]]; reflexivity.
  - apply bind_inv in E0. destruct E0 as (s3 & E3 & E0). injection E0 as <- _. unfold dl_tick_start in E3. cbv zeta in E3. apply bind_inv in E3. destruct E3 as (? & _ & E3). injection E3 as <-. exact H0.
Qed.
Lemma bs_step_hushed c cn t s s' xs ws : hushed (um_sch (st_um s)) -> bs_step c (BeTick cn t) s = Ok (s', xs, ws) -> hushed (um_sch (st_um s')).
Proof.
  intros H E. cbn [bs_step um_do_all] in E. apply bind_inv in E. destruct E as (((s1 & x) & w) & E1 & E). injection E as <- _ _. unfold um_do in E1. cbn [st_um st_lm] in E1.
  apply bind_inv in E1. destruct E1 as (((u & o) & m) & E2 & E1). apply bind_inv in E1. destruct E1 as ((l & w') & _ & E1). injection E1 as <- _ _. exact (step_hushed _ _ _ _ _ _ _ H E2).
Qed.
Lemma quiet_free s log t : hushed (um_sch (st_um s)) -> ~ jammed s log t.
Proof.
  intros (F & _ & Q) (_ & J). assert (W : waiting s (add_timeslots t 1) = []).
  { pose proof (ts_range t 1) as R. specialize (Q _ R). rewrite get_ok in Q by assumption. injection Q as Q. exact Q. }
  rewrite W in J. destruct J as [J|(_ & _ & J)]; [inversion J|discriminate J].
Qed.

(** * The first tick *)
Lemma made c cn : cell_ok c = true -> exists s, station_new c cn = Ok s.
Proof.
  intros CO. unfold station_new, umac_new, generate_precomps. apply andb_true_iff in CO. destruct CO as (_ & O). unfold offset_id in O. unfold Freqs.freq_offset_hz_to_id.
  destruct (cf_offset_hz c =? 0)%Z; [eexists; reflexivity|]. destruct (cf_offset_hz c =? 6250)%Z; [eexists; reflexivity|]. destruct (cf_offset_hz c =? -6250)%Z; [eexists; reflexivity|]. destruct (cf_offset_hz c =? 12500)%Z; [eexists; reflexivity|discriminate].
Qed.
Lemma first_lives c cn0 u cn t : cell_ok c = true -> umac_new c cn0 = Ok u -> vtime t -> exists u' o m, um_step c (UeTick cn t) u = Ok (u', o, m).
Proof.
  intros CO EU V. pose proof (new_minv c cn0 u CO EU) as MI. pose proof (new_tidy c cn0 u EU) as TD.
  assert (A0 : alive u /\ four (um_sch u) /\ ds_q (um_sch u) = repeat [] 4 /\ ds_cur (um_sch u) = mk_time 0 0 0 0).
  { unfold umac_new in EU. apply bind_inv in EU. destruct EU as (p & _ & EU). injection EU as <-. split; [|split; [reflexivity|split; reflexivity]]. split; [|split; [reflexivity|]]; cbn [um_sch]; [|split; [reflexivity|repeat constructor]]. split; cbn; repeat constructor. }
  destruct A0 as ((LV & RA & CK) & F4 & QE & CU). cbn [um_step]. unfold tick_start.
  pose proof (refresh_shows c cn _ u MI) as RS. pose proof (refresh_tidy c cn (um_sws u) (um_sch u) TD) as T0.
  destruct (refresh_alive c cn (um_sws u) (um_sch u) LV) as (L0 & R0 & Q0 & U0). destruct (refresh_sws c cn (um_sws u) (um_sch u)) as [sws s0]. cbn [snd] in *. destruct RS as (_ & SH & CU0).
  assert (C1 : negb (time_eqb (ds_cur s0) t) && time_eqb (ds_cur s0) (mk_time 0 0 0 0) = true).
  { rewrite CU0, CU. rewrite andb_true_iff. split; [|reflexivity]. unfold time_eqb. cbn [tm_t]. destruct V as (VT & _). destruct (Z.eqb_spec 0 (tm_t t)) as [H|H]; [lia|reflexivity]. }
  rewrite C1. unfold set_dl_time. set (s1 := set_ul ul_empty (set_q (repeat [] 4) (set_cur t s0))).
  rewrite Q0, QE. cbn [repeat concat app]. change (purge_marks []) with (Ok (@nil tx_reporter)). cbn [bind].
  assert (SH1 : shows c cn (fun _ => idle_ts) s1) by (apply (face_shows c cn _ s0 s1); [unfold face; auto|exact SH]).
  destruct (silence_total c cn (fun _ => idle_ts) [1; 2; 3; 4] (mk_umac t sws (um_defrag u) s1 (um_voice u))) as (u1 & o1 & E1);
    [exact SH1|exact CK|exact V|repeat constructor; lia|]. rewrite E1. cbn [bind].
  destruct (silence_same _ _ _ _ E1) as (-> & _). cbn [um_sch].
  destruct (finalize_total c cn (fun _ => idle_ts) s1 (to_int t) [] CO SH1) as (k & s2 & m & E2).
  - destruct T0 as (_ & TN & TV). split; [|split; [exact TN|exact TV]]. cbn. repeat constructor.
  - destruct L0 as (_ & LV0). split; [cbn; repeat constructor|exact LV0].
  - reflexivity.
  - cbn. symmetry. now apply from_to_int.
  - apply UlSchedProofs.inv_empty.
  - reflexivity.
  - reflexivity.
  - cbv zeta. intros q EQ (_ & J). assert (X : q = []).
    { pose proof (ts_range (ds_cur s1) 1) as R. unfold ts_of in R. pose proof (get_ok s1 _ eq_refl R) as EQ'. rewrite EQ in EQ'. injection EQ' as ->. clear EQ. exact (nth_repeat (@nil dl_elem) 4 _). }
    subst q. destruct J as [J|(_ & _ & J)]; [inversion J|discriminate J].
  - rewrite E2. cbn [bind]. eauto.
Qed.

(** * Going on *)
Lemma run_snoc c evs : forall e s s1 log s2 xs ws, bs_run c evs s = Ok (s1, log) -> bs_step c e s1 = Ok (s2, xs, ws) -> bs_run c (evs ++ [e]) s = Ok (s2, log ++ [(e, xs, ws)]).
Proof.
  induction evs as [|x evs IH]; intros e s s1 log s2 xs ws E H; cbn [bs_run app] in *.
  - injection E as <- <-. rewrite H. reflexivity.
  - apply bind_inv in E. destruct E as (((s3 & x3) & w3) & E1 & E). rewrite E1. cbn [bind]. apply bind_inv in E. destruct E as ((s4 & lg) & E2 & E). injection E as <- <-. rewrite (IH e s3 s4 lg s2 xs ws E2 H). reflexivity.
Qed.
Lemma reached_snoc c s log e s' xs ws : bs_reached c s log -> bs_fine e -> bs_step c e s = Ok (s', xs, ws) -> bs_reached c s' (log ++ [(e, xs, ws)]).
Proof.
  intros (cn0 & s0 & cn & t & evs & EN & V & F & E) B H. exists cn0, s0, cn, t, (evs ++ [e]). split; [exact EN|]. split; [exact V|]. split; [apply Forall_app; auto|].
  exact (run_snoc c (BeTick cn t :: evs) e s0 s log s' xs ws E H).
Qed.
Definition burst (x : bs_event * list um_entry * list (list N)) : Prop := exists w, snd x = [w] /\ length w = 510.
Lemma goes_on c cns : cell_ok c = true -> forall s log now, bs_reached c s log -> Forall decent (events_of log) -> last_tick (rev log) = Some now -> hushed (um_sch (st_um s)) ->
  exists s' more, bs_run c (ticking cns now) s = Ok (s', more) /\ Forall burst more.
Proof.
  intros CO. induction cns as [|cn cns IH]; intros s log now R D N H; cbn [ticking bs_run]; [exists s, []; auto|].
  destruct (every_tick c s log now CO R D N (quiet_free s log _ H) cn) as (s1 & xs & w & E & L). rewrite E. cbn [bind].
  destruct (IH s1 (log ++ [(BeTick cn (add_timeslots now 1), xs, [w])]) (add_timeslots now 1)) as (s2 & more & E2 & F2).
  - apply (reached_snoc c s log _ s1 xs [w] R); [exact Logic.I|exact E].
  - unfold events_of. rewrite map_app. apply Forall_app. split; [exact D|]. repeat constructor.
  - rewrite rev_app_distr. reflexivity.
  - exact (bs_step_hushed c cn _ s s1 xs [w] H E).
  - rewrite E2. cbn [bind]. eexists _, _. split; [reflexivity|]. constructor; [|exact F2]. now exists w.
Qed.
Lemma starts_up c cn0 cn t cns : cell_ok c = true -> vtime t -> exists s0 s log, station_new c cn0 = Ok s0 /\ bs_run c (BeTick cn t :: ticking cns t) s0 = Ok (s, log) /\ Forall burst log.
Proof.
  intros CO V. destruct (made c cn0 CO) as (s0 & E0). destruct (new_station c cn0 s0 CO E0) as (EU & M & T & EL).
  destruct (first_lives c cn0 (st_um s0) cn t CO EU V) as (u & o & m & E1).
  destruct (lift_tick c cn t (fun _ => idle_ts) s0 u o m CO M T V) as (s1 & ws & B & U); [now rewrite EL|exact E1|].
  assert (R : bs_reached c s1 [(BeTick cn t, [(UeTick cn t, o, m)], ws)]) by (exists cn0, s0, cn, t, []; split; [exact E0|split; [exact V|split; [constructor|cbn [bs_run]; rewrite B; reflexivity]]]).
  assert (H0 : hushed (um_sch (st_um s0))).
  { unfold umac_new in EU. apply bind_inv in EU. destruct EU as (p & _ & EU). injection EU as <-. split; [reflexivity|]. split; [reflexivity|]. intros k K. assert (X : k = 1 \/ k = 2 \/ k = 3 \/ k = 4) by lia. destruct X as [->|[->|[->| ->]]]; reflexivity. }
  destruct (goes_on c cns CO s1 _ t R) as (s2 & more & E2 & F2); [repeat constructor|reflexivity|exact (bs_step_hushed c cn t s0 s1 _ ws H0 B)|].
  exists s0, s2, ((BeTick cn t, [(UeTick cn t, o, m)], ws) :: more). split; [exact E0|]. split; [cbn [bs_run]; rewrite B; cbn [bind]; rewrite E2; reflexivity|]. constructor; [|exact F2].
  destruct (whole_slot c s1 _ CO R [] (BeTick cn t) [(UeTick cn t, o, m)] ws [] eq_refl) as (k & x & w & _ & _ & -> & _ & (LW & _)). eexists. split; [reflexivity|]. now rewrite SlotterProofs.b2b_length.
Qed.

(** What arrives from the radios: the statements proved, and the examples. *)
From Verif Require Import Base BitBuffer BitBufferProofs MacFields TdmaTime TdmaTimeProofs Defrag DefragSpec UlSched DlSched UmacPrecomps TxReceipt UmacBs UmacSched UlBlockSpec UlBlockFacts SlotSpec BsMac AirSpec AirRun AirFacts
  UplinkSpec UplinkProofs.
From Verif Require AliveFacts FragSpec DlSlot BitBufferFacts DlFacts MacSpec Layout FragSpec MacPdus.
Open Scope N_scope.

Lemma lived_reached c log ns u : lived c log ns u -> reached c u.
Proof.
  induction 1 as [connected u0 cn t u o m EN V ST|log ns u e ms u' o m L IH FE ST K]; [|exact (reached_step c e u u' o m IH FE ST)].
  exists connected, u0, cn, t, [], [(UeTick cn t, o, m)]. split; [exact EN|]. split; [exact V|]. split; [constructor|]. cbn [um_run]. rewrite ST. reflexivity.
Qed.
Lemma grow c log ns u e u' o m : lived c log ns u -> ev_fine e -> ev_chan e -> um_step c e u = Ok (u', o, m) ->
  exists ms, lived c (log ++ [(e, o, m)]) (ns ++ ms) u' /\ match e with UeBlock i pdu => chain i u ms u' /\ o = flat_map nt_out ms /\ covers (tv_chan i) (window pdu) ms | _ => ms = [] end.
Proof.
  intros L FE CH ST.
  assert (K : exists ms, match e with UeBlock i pdu => chain i u ms u' /\ o = flat_map nt_out ms /\ covers (tv_chan i) (window pdu) ms | _ => ms = [] end).
  { destruct e as [| i pdu| | | |]; try (exists []; reflexivity). cbn [um_step] in ST. inv ST. destruct x as [v o']. injection ST as <- <- _. destruct FE as (W & P & T).
    destruct (block_heard c u i pdu (lived_reached _ _ _ _ L) W P T CH) as (r & R & HD). rewrite H in R. subst r. destruct (heard_chain _ _ _ _ HD _ _ eq_refl) as (ms & Q). exists ms. auto. }
  destruct K as (ms & K). exists ms. split; [|exact K]. refine (lv_step c _ _ _ _ _ _ _ _ L FE ST _). destruct e; auto.
Qed.
Lemma live_step c log ns u e u' o m : lived c log ns u -> ev_fine e -> ev_chan e -> um_step c e u = Ok (u', o, m) -> exists ns', lived c (log ++ [(e, o, m)]) ns' u'.
Proof. intros L FE CH ST. destruct (grow c log ns u e u' o m L FE CH ST) as (ms & L' & _). eauto. Qed.
(** * The whole base station *)
Lemma live_all c es : forall s s' xs ws log ns, Forall ev_fine es -> Forall ev_chan es -> lived c log ns (st_um s) -> um_do_all c es s = Ok (s', xs, ws) -> exists ns', lived c (log ++ xs) ns' (st_um s').
Proof.
  induction es as [|e es IH]; intros s s' xs ws log ns F G L E; cbn [um_do_all] in E; [injection E as <- <- _; rewrite app_nil_r; eauto|].
  apply DlSlot.bind_inv in E. destruct E as (((s1 & x) & w1) & E1 & E). apply DlSlot.bind_inv in E. destruct E as (((s2 & x2) & w2) & E2 & E). injection E as <- <- _.
  unfold um_do in E1. apply DlSlot.bind_inv in E1. destruct E1 as (((u & o) & m) & E1 & H). apply DlSlot.bind_inv in H. destruct H as ((l & w) & _ & H). injection H as <- <- _.
  destruct (live_step c log ns _ e u o m L (Forall_inv F) (Forall_inv G) E1) as (ns1 & L1). destruct (IH (mk_station u l) _ _ _ _ ns1 (Forall_inv_tail F) (Forall_inv_tail G) L1 E2) as (ns2 & L2). rewrite <- app_assoc in L2. eauto.
Qed.
Lemma live_rx c t is : cell_ok c = true -> vtime t -> forall v s s' xs ws log ns, Forall (ind_ok t) is -> good c v s -> lived c log ns (st_um s) -> rx_blocks c is s = Ok (s', xs, ws) -> exists ns', lived c (log ++ xs) ns' (st_um s').
Proof.
  intros CO V. induction is as [|i is IH]; intros v s s' xs ws log ns F G L E; cbn [rx_blocks] in E; [injection E as <- <- _; rewrite app_nil_r; eauto|].
  apply DlSlot.bind_inv in E. destruct E as (out & ER & E). apply DlSlot.bind_inv in E. destruct E as (((s1 & x1) & w1) & E1 & E). apply DlSlot.bind_inv in E. destruct E as (((s2 & x2) & w2) & E2 & E). injection E as <- <- _.
  destruct (rx_events c (st_lm s) t i out CO (proj1 (proj2 (proj2 (proj2 G)))) V (Forall_inv F) ER) as (EV & CA). destruct (marked_rx _ CA) as (CA1 & CA2 & TO).
  destruct (do_all_good c _ CO v s s1 x1 w1 EV CA1 CA2 G E1) as (G1 & _ & _).
  assert (F1 : Forall ev_fine (map um_event_of out)) by (eapply Forall_impl; [|exact EV]; intros e H; exact (proj1 H)).
  assert (F2 : Forall ev_chan (map um_event_of out)) by (eapply Forall_impl; [|exact EV]; intros e H; exact (proj2 (proj2 H))).
  destruct (live_all c _ s s1 x1 w1 log ns F1 F2 L E1) as (ns1 & L1). destruct (IH _ s1 s2 x2 w2 _ ns1 (Forall_inv_tail F) G1 L1 E2) as (ns2 & L2). rewrite <- app_assoc in L2. eauto.
Qed.
Lemma live_bs c e v s s' xs ws log ns : cell_ok c = true -> bs_fine e -> good c v s -> lived c log ns (st_um s) -> bs_step c e s = Ok (s', xs, ws) -> exists ns', lived c (log ++ xs) ns' (st_um s').
Proof.
  intros CO F G L E. assert (one : forall x s0, st_um s0 = st_um s -> ev_fine x -> ev_chan x -> um_do_all c [x] s0 = Ok (s', xs, ws) -> exists ns', lived c (log ++ xs) ns' (st_um s')).
  { intros x s0 ES F1 F2 E1. apply (live_all c [x] s0 s' xs ws log ns); [now constructor|now constructor|now rewrite ES|exact E1]. }
  destruct e as [cn t|ts bits|r|ts data|k]; cbn [bs_step bs_fine] in *.
  - refine (one (UeTick cn t) _ _ Logic.I Logic.I E). reflexivity.
  - destruct F as (l & ->). apply DlSlot.bind_inv in E. destruct E as (is & ES & E). exact (live_rx c _ is CO (proj2 (proj2 (proj1 (proj2 (proj2 (proj2 G)))))) v s s' xs ws log ns (split_ok _ _ _ _ ES) G L E).
  - apply (one (UeSend r) s eq_refl Logic.I Logic.I E).
  - apply (one (UeDlVoice ts data) s eq_refl Logic.I Logic.I E).
  - apply (one (UeControl k) s eq_refl Logic.I Logic.I E).
Qed.
Definition um_log (log : bs_log) : list um_entry := flat_map (fun x => snd (fst x)) log.
Lemma live_run c evs : cell_ok c = true -> forall v s s' lg log ns, Forall bs_fine evs -> good c v s -> lived c log ns (st_um s) -> bs_run c evs s = Ok (s', lg) -> exists ns', lived c (log ++ um_log lg) ns' (st_um s').
Proof.
  intros CO. induction evs as [|e evs IH]; intros v s s' lg log ns F G L E; cbn [bs_run] in E; [injection E as <- <-; cbn [um_log flat_map]; rewrite app_nil_r; eauto|].
  apply DlSlot.bind_inv in E. destruct E as (((s1 & xs) & ws) & E1 & E). apply DlSlot.bind_inv in E. destruct E as ((s2 & l2) & E2 & E). injection E as <- <-.
  destruct (live_bs c e v s s1 xs ws log ns CO (Forall_inv F) G L E1) as (ns1 & L1).
  destruct (IH _ _ _ _ _ ns1 (Forall_inv_tail F) (proj1 (step_good c e v s s1 xs ws CO (Forall_inv F) G E1)) L1 E2) as (ns2 & L2). rewrite <- app_assoc in L2. eauto.
Qed.
Lemma station_lived c s log : cell_ok c = true -> bs_reached c s log -> exists ns, lived c (um_log log) ns (st_um s).
Proof.
  intros CO (cn0 & s0 & cn & t & evs & EN & V & F & E). destruct (new_station c cn0 s0 CO EN) as (EU & M & T & EL). cbn [bs_run] in E. apply DlSlot.bind_inv in E. destruct E as (((s1 & xs) & ws) & E1 & E). apply DlSlot.bind_inv in E. destruct E as ((s2 & lg) & E2 & E). injection E as <- <-.
  destruct (tick_good c cn t (fun _ => idle_ts) s0 s1 xs ws CO M T V) as (G1 & _); [now rewrite EL|now rewrite EL|intros u' o m ES; exact (proj1 (first_tick _ _ _ _ _ _ _ _ EU V ES))|exact E1|].
  cbn [bs_step um_do_all] in E1. apply DlSlot.bind_inv in E1. destruct E1 as (((s3 & x3) & w3) & E1 & H3). injection H3 as -> <- _. unfold um_do in E1. cbn [st_um] in E1.
  apply DlSlot.bind_inv in E1. destruct E1 as (((u & o) & m) & E1 & H). apply DlSlot.bind_inv in H. destruct H as ((l & w) & _ & H). injection H as <- <- _.
  exact (live_run c evs CO _ (mk_station u l) _ _ [(UeTick cn t, o, m)] [] F G1 (lv_start c cn0 (st_um s0) cn t u o m EU V E1) E2).
Qed.

(** * Every SDU handed up was sent *)
Lemma outs_of_slots c e u u' o m : (forall i pdu, e <> UeBlock i pdu) -> um_step c e u = Ok (u', o, m) -> forall t b a scr, ~ In (OutSdu t b a scr) o.
Proof.
  assert (SIL : forall tss u u' o, check_silence tss u = Ok (u', o) -> forall t b a scr, ~ In (OutSdu t b a scr) o).
  { induction tss as [|ts r IH]; cbn [check_silence]; intros v v' p E t b a scr; [injection E as _ <-; intros []|]. inv E. inv E. inv E. inv E. destruct x2 as [w o']. injection E as _ <-. rewrite in_app_iff. intros [HI|HI]; [|exact (IH _ _ _ H2 _ _ _ _ HI)].
    destruct (x && negb x0); [|injection H1 as <-; destruct HI]. inv H1. destruct x2; [|injection H1 as <-; destruct HI]. inv H1. injection H1 as <-. destruct (_ <? _)%Z; [destruct HI as [HI|[]]; discriminate HI|destruct HI]. }
    intros NB E t b a scr HI. destruct e as [cn ts|i pdu|r|ts data|tt ts data|k]; cbn [um_step] in E.
  - unfold tick_start in E. destruct (refresh_sws _ _ _ _) as [sws s]. inv E. destruct x as [s1 m0]. inv E. destruct x as [u1 o1]. inv E. destruct x as [[kk s2] m2]. injection E as _ <- _. rewrite in_app_iff in HI. destruct HI as [HI|[HI|[]]]; [exact (SIL _ _ _ _ H0 _ _ _ _ HI)|discriminate HI].
  - exact (NB i pdu eq_refl).
  - inv E. injection E as _ <- _. destruct HI.
  - inv E. injection E as _ <- _. destruct HI.
  - inv E. destruct x as [u1 o1]. injection E as _ <- _. unfold rx_ul_voice in H. cbn zeta in H. inv H. inv H.
    assert (NX : ~ In (OutSdu t b a scr) x).
    { destruct (cf_brew c); [|injection H0 as <-; intros []]. inv H0. injection H0 as <-. destruct x1; [intros [X|[]]; discriminate X|intros []]. }
    assert (x = o1) as -> by (destruct x0; [inv H; destruct x0; [inv H|]|]; now injection H). exact (NX HI).
  - inv E. destruct x as [u1 m1]. injection E as _ <- _. destruct HI.
Qed.
Lemma out_noted c log ns u : lived c log ns u -> forall e o m, In (e, o, m) log -> forall t b a scr, In (OutSdu t b a scr) o -> exists before n after, ns = before ++ n :: after /\ In (OutSdu t b a scr) (nt_out n).
Proof.
  induction 1 as [connected u0 cn t0 u o0 m0 EN V ST|log ns u e0 ms u' o0 m0 L IH FE ST K]; intros e o m HI t b a scr HO.
  - destruct HI as [HI|[]]. injection HI as <- <- <-. exfalso. refine (outs_of_slots _ _ _ _ _ _ _ ST _ _ _ _ HO). intros; discriminate.
  - apply in_app_iff in HI. destruct HI as [HI|[HI|[]]].
    + destruct (IH _ _ _ HI _ _ _ _ HO) as (bf & n & af & -> & N). exists bf, n, (af ++ ms). rewrite <- app_assoc. auto.
    + injection HI as -> -> ->. destruct e as [|i pdu| | | |]; try (exfalso; refine (outs_of_slots _ _ _ _ _ _ _ ST _ _ _ _ HO); intros; discriminate).
      destruct K as (_ & _ & -> & _). apply in_flat_map in HO. destruct HO as (n & NI & HO). apply in_split in NI. destruct NI as (l1 & l2 & ->). exists (ns ++ l1), n, l2. rewrite <- app_assoc. auto.
Qed.
Lemma sent_before c log ns u e o m t b a scr : lived c log ns u -> In (e, o, m) log -> In (OutSdu t b a scr) o -> exists before n after, ns = before ++ n :: after /\ origin before n t b a.
Proof.
  intros L HI HO. destruct (out_noted c log ns u L e o m HI t b a scr HO) as (bf & n & af & EQ & NO). exists bf, n, af. split; [exact EQ|].
  pose proof (all_notes_explained c log ns u L bf n af EQ) as X. unfold explained in X. unfold origin. destruct (nt_act n) as [| | |a0 d|a0 d|d|req d]; try (rewrite X in NO; cbn [In] in NO; destruct NO; discriminate || contradiction).
  - destruct X as (b0 & W & P & WI & X). rewrite X in NO. destruct NO as [NO|[]]. injection NO as <- -> -> _. split; [reflexivity|]. left. f_equal. rewrite <- WI. symmetry; now apply BitBufferFacts.remaining_at_start.
  - destruct (nt_owner n) as [ssi|]; [|rewrite X in NO; destruct NO]. destruct X as [(a1 & bits & b1 & C & L1 & R & X)|(_ & [X|(b1 & R & X)])]; rewrite X in NO; [..|destruct NO|]; (destruct NO as [NO|[]]; injection NO as <- -> <- _; split; [reflexivity|]).
    + right. left. exists ssi, bits, req, d. rewrite <- R. auto.
    + right. right. eauto 6.
Qed.

(** * A message in pieces *)
Lemma whole_message c log ns u i pdu ssi a bits req d plan : lived c log ns u -> wf pdu -> bpos pdu = bstart pdu -> vtime (tv_time i) -> on_channel i = true ->
  block_sent (tv_chan i) (window pdu) (ALast req d :: plan) -> (forall l, begins (tv_chan i) (window pdu) l -> ~ hostile (tv_chan i) l) ->
  ul_get_slot_owner (tv_time i) (tv_blk i) (ds_ul (um_sch u)) = Ok (Some ssi) -> collecting (tm_t (tv_time i)) ssi ns a bits -> N.of_nat (length bits + length d) <= 4096 ->
  exists u' b rest, um_step c (UeBlock i pdu) u = Ok (u', OutSdu (tv_time i) b a (tv_scr i) :: rest, []) /\ remaining b = bits ++ d.
Proof.
  intros L W P V CH BS NH OW C LE. pose proof (lived_reached _ _ _ _ L) as RC. destruct (block_safe c u i pdu RC W P V CH NH) as (u' & o & E). destruct (block_as_sent c u i pdu _ RC W P V CH BS) as (q & DA & EQ). rewrite E in EQ.
  destruct q as [[[v ov] cv]| |]; try discriminate EQ. cbn [unflag bind] in EQ. injection EQ as <- <-.
  destruct (done_chain i _ u _ DA _ _ _ eq_refl) as (ms & CHN & EO & Q). assert (HD : exists n ms', ms = n :: ms' /\ nt_act n = ALast req d).
  { destruct Q as [(_ & MP)|(_ & (m0 & x & r0 & d0 & -> & _) & more & MP)].
    - destruct ms as [|n ms']; [discriminate MP|]. injection MP as MP _. eauto.
    - destruct m0 as [|n m0]; cbn [app map] in MP; injection MP as MP _; (do 2 eexists; split; [reflexivity|now symmetry]). }
  destruct HD as (n & ms' & -> & AN). inversion CHN as [|? ? v ? more I D C']; subst.
  destruct (held_act ns (nt_before n) n v more (proj1 (lived_held _ _ _ _ L)) V eq_refl D) as (_ & X). unfold explained in X. rewrite AN in X. unfold nt_owner in X. rewrite OW in X.
  destruct X as [(a1 & bits1 & b & C1 & _ & R & X)|(NC & _)]; [|specialize (NC a bits C); unfold nt_ts in NC; lia].
  assert (a1 = a /\ bits1 = bits) as (-> & ->).
  { destruct (proj1 (lived_held _ _ _ _ L)) as (es & PC & _ & PL & _). pose proof (collecting_collected (tm_t (tv_time (nt_ind n))) ssi ns es PC PL) as CC.
    apply CC in C. apply CC in C1. destruct C as (x1 & x2 & C). destruct C1 as (y1 & y2 & C1). pose proof (DefragProofs.collected_fun _ _ _ _ _ _ _ _ _ _ _ C C1). intuition congruence. }
  exists u', b, (flat_map nt_out ms'). split; [|exact R]. cbn [um_step]. rewrite E. cbn [bind flat_map]. rewrite X. reflexivity.
Qed.

(** the acts of a block are those that were sent *)
Lemma covers_sent c l plan : block_sent c l plan -> forall ms, covers c l ms -> map nt_act ms = plan \/ (stray ms /\ exists more, plan = map nt_act ms ++ more).
Proof.
  induction 1 as [pdu rest acts H|pdu rest acts n H LT|pdu rest acts n more H LE B IH]; intros ms C; destruct (sent_ok _ _ _ _ _ H) as (EP & EL).
  - inversion C as [l n0 ns F Q|l n0 ns ms' F Q C'|l n0 ns x req d m0 F Q1 Q2]; subst; rewrite EP in F; injection F as F FN.
    + left. now symmetry.
    + discriminate FN.
    + right. split; [exists ns, x, req, d; auto|]. now exists m0.
  - specialize (EL n eq_refl). subst n. inversion C as [l n0 ns F Q|l n0 ns ms' F Q C'|l n0 ns x req d m0 F Q1 Q2]; subst; rewrite EP in F; injection F as F FN.
    + left. now symmetry.
    + subst. rewrite skipn_app, skipn_all, Nat.sub_diag in Q. cbn [skipn app] in Q. lia.
    + right. split; [exists ns, x, req, d; auto|]. now exists m0.
  - specialize (EL n eq_refl). subst n. assert (SK : skipn (length pdu) (pdu ++ rest) = rest) by (rewrite skipn_app, skipn_all, Nat.sub_diag; reflexivity).
    inversion C as [l n0 ns F Q|l n0 ns ms' F Q C'|l n0 ns x req d m0 F Q1 Q2]; subst; rewrite EP in F; injection F as F FN.
    + exfalso. subst n0. destruct Q as [Q|(k & Q & Q')]; [discriminate Q|]. injection Q as <-. rewrite SK in Q'. lia.
    + subst n0. rewrite SK in C'. rewrite map_app, <- F. destruct (IH _ C') as [<-|((m1 & x & req & d & -> & Q1 & Q2) & mm & ->)]; [now left|right].
      split; [exists (ns ++ m1), x, req, d; rewrite app_assoc; auto|]. exists mm. now rewrite app_assoc.
    + right. split; [exists ns, x, req, d; auto|]. exists (m0 ++ more). rewrite F. now rewrite app_assoc.
Qed.
Lemma all_sent c l plan ms : block_sent c l plan -> covers c l ms -> forallb no_last plan = true -> map nt_act ms = plan.
Proof.
  intros B C N. destruct (covers_sent c l plan B ms C) as [H|((m0 & x & req & d & -> & Q1 & _) & more & ->)]; [exact H|]. exfalso. rewrite map_app, <- app_assoc, forallb_app in N. apply andb_true_iff in N. destruct N as (_ & N). cbn [map app forallb] in N. rewrite Q1 in N. discriminate N.
Qed.
Lemma chain_inds i ms : forall u u', chain i u ms u' -> Forall (fun n => nt_ind n = i) ms.
Proof. induction ms as [|n ms IH]; intros u u' C; inversion C; subst; constructor; eauto. Qed.
Lemma begun c log ns u i pdu a d pre u' o m : lived c log ns u -> wf pdu -> bpos pdu = bstart pdu -> vtime (tv_time i) -> on_channel i = true ->
  block_sent (tv_chan i) (window pdu) (pre ++ [AFirst a d]) -> forallb no_last pre = true -> um_step c (UeBlock i pdu) u = Ok (u', o, m) ->
  exists ms, map nt_act ms = pre ++ [AFirst a d] /\ lived c (log ++ [(UeBlock i pdu, o, m)]) (ns ++ ms) u' /\ collecting (tm_t (tv_time i)) (ad_ssi a) (ns ++ ms) a d.
Proof.
  intros L W P V CH BS NL ST. destruct (grow c log ns u (UeBlock i pdu) u' o m L (conj W (conj P V)) CH ST) as (ms & L' & C & _ & CV). exists ms.
  assert (E : map nt_act ms = pre ++ [AFirst a d]) by (apply (all_sent _ _ _ _ BS CV); rewrite forallb_app, NL; reflexivity). split; [exact E|]. split; [exact L'|].
  pose proof (chain_inds _ _ _ _ C) as IN. destruct ms as [|n ms _] using rev_ind; [destruct pre; discriminate E|]. rewrite map_app in E. apply app_inj_tail in E. destruct E as (_ & E). apply Forall_app in IN. destruct IN as (_ & IN). apply Forall_inv in IN.
  rewrite app_assoc. apply cl_first; [unfold nt_ts; now rewrite IN|exact E|reflexivity].
Qed.
Lemma goes_on c log ns u i pdu ssi a bits d u' o m : lived c log ns u -> wf pdu -> bpos pdu = bstart pdu -> vtime (tv_time i) -> on_channel i = true ->
  block_sent (tv_chan i) (window pdu) [AMore d] -> ul_get_slot_owner (tv_time i) (tv_blk i) (ds_ul (um_sch u)) = Ok (Some ssi) -> collecting (tm_t (tv_time i)) ssi ns a bits -> N.of_nat (length bits + length d) <= 4096 ->
  um_step c (UeBlock i pdu) u = Ok (u', o, m) ->
  exists ms, map nt_act ms = [AMore d] /\ lived c (log ++ [(UeBlock i pdu, o, m)]) (ns ++ ms) u' /\ collecting (tm_t (tv_time i)) ssi (ns ++ ms) a (bits ++ d).
Proof.
  intros L W P V CH BS OW CO LE ST. destruct (grow c log ns u (UeBlock i pdu) u' o m L (conj W (conj P V)) CH ST) as (ms & L' & C & _ & CV). exists ms.
  assert (E : map nt_act ms = [AMore d]) by (now apply (all_sent _ _ _ _ BS CV)). split; [exact E|]. split; [exact L'|].
  destruct ms as [|n [|? ?]]; try discriminate E. injection E as E. inversion C as [|? ? v ? more I D C']; subst. apply cl_more; auto. unfold nt_owner. now rewrite OW.
Qed.
Lemma other_acts k ssi ms : forall ns a bits, collecting k ssi ns a bits -> Forall (fun n => about k ssi n = false) ms -> collecting k ssi (ns ++ ms) a bits.
Proof.
  induction ms as [|n ms IH]; intros ns a bits C F; [now rewrite app_nil_r|]. change (n :: ms) with ([n] ++ ms). rewrite app_assoc. apply IH; [|exact (Forall_inv_tail F)]. apply cl_other; [exact C|exact (Forall_inv F)].
Qed.
Lemma undisturbed c log ns u k ssi a bits e u' o m : lived c log ns u -> ev_fine e -> ev_chan e -> elsewhere k ssi u e -> collecting k ssi ns a bits ->
  um_step c e u = Ok (u', o, m) -> exists ms, lived c (log ++ [(e, o, m)]) (ns ++ ms) u' /\ collecting k ssi (ns ++ ms) a bits.
Proof.
  intros L FE CH NK C ST. destruct (grow c log ns u e u' o m L FE CH ST) as (ms & L' & K). exists ms. split; [exact L'|]. apply other_acts; [exact C|].
  destruct e as [|i pdu| | | |]; try (subst ms; constructor). destruct K as (CHN & _ & CV). destruct NK as [NK|[(plan & BS & AP)|(d & ow & BS & OW & NO)]].
  - eapply Forall_impl; [|exact (chain_inds _ _ _ _ CHN)]. intros n IN. unfold about, nt_ts. cbn beta in IN. rewrite IN. destruct (Z.eqb_spec (tm_t (tv_time i)) k); [contradiction|reflexivity].
  - assert (NL : forallb no_last plan = true). { apply forallb_forall. intros x HX. rewrite forallb_forall in AP. apply AP in HX. destruct x; try reflexivity; discriminate HX. }
    pose proof (all_sent _ _ _ _ BS CV NL) as E. apply Forall_forall. intros n HN. unfold about. apply andb_false_iff. right. rewrite forallb_forall in AP. specialize (AP (nt_act n)). rewrite <- E in AP. specialize (AP (in_map nt_act ms n HN)).
    destruct (nt_act n); try reflexivity; try discriminate AP. cbn [apart] in AP. now apply negb_true_iff in AP.
  - pose proof (all_sent _ _ _ _ BS CV eq_refl) as E. destruct ms as [|n [|? ?]]; try discriminate E. injection E as E. inversion CHN as [|? ? v ? more I D C']; subst. constructor; [|constructor]. unfold about. apply andb_false_iff. right. rewrite E. unfold nt_owner. rewrite OW. destruct ow as [x|]; [|reflexivity].
    destruct (N.eqb_spec x ssi) as [->|]; [now elim NO|reflexivity].
Qed.
Lemma undisturbed_run c evs : forall log ns u k ssi a bits u' lg, lived c log ns u -> Forall (fun e => match e with UeBlock _ _ => False | _ => True end) evs -> collecting k ssi ns a bits ->
  um_run c evs u = Ok (u', lg) -> lived c (log ++ lg) ns u'.
Proof.
  induction evs as [|e evs IH]; intros log ns u k ssi a bits u' lg L F C E; cbn [um_run] in E; [injection E as <- <-; now rewrite app_nil_r|].
  inv E. destruct x as [[u1 o] m]. inv E. destruct x as [u2 l2]. injection E as <- <-. pose proof (Forall_inv F) as FE. cbn beta in FE.
  assert (L1 : lived c (log ++ [(e, o, m)]) (ns ++ []) u1). { refine (lv_step c _ _ _ _ _ _ _ _ L _ H _); destruct e; try contradiction; exact Logic.I || reflexivity. }
  rewrite app_nil_r in L1. pose proof (IH _ _ _ _ _ _ _ _ _ L1 (Forall_inv_tail F) C H0) as L2. rewrite <- app_assoc in L2. exact L2.
Qed.

(** * A message left unfinished *)
Lemma stale c cn0 u0 cn t i1 p1 T1 i2 p2 T2 i3 p3 a q1 x q2 y d plan ssi u log :
  umac_new c cn0 = Ok u0 -> vtime t -> wf p1 -> bpos p1 = bstart p1 -> vtime (tv_time i1) -> on_channel i1 = true -> wf p2 -> bpos p2 = bstart p2 -> vtime (tv_time i2) -> on_channel i2 = true ->
  wf p3 -> bpos p3 = bstart p3 -> vtime (tv_time i3) -> on_channel i3 = true ->
  Forall (fun e => match e with UeBlock _ _ => False | _ => True end) T1 -> Forall (fun e => match e with UeBlock _ _ => False | _ => True end) T2 ->
  block_sent (tv_chan i1) (window p1) [AAck a; AAsk a q1; AFirst a x] -> block_sent (tv_chan i2) (window p2) [AAck a; AAsk a q2; ASdu a y] -> block_sent (tv_chan i3) (window p3) (ALast None d :: plan) ->
  (forall l, begins (tv_chan i3) (window p3) l -> ~ hostile (tv_chan i3) l) -> tm_t (tv_time i3) = tm_t (tv_time i1) -> ssi = ad_ssi a -> N.of_nat (length x + length d) <= 4096 ->
  um_run c (UeTick cn t :: [UeBlock i1 p1] ++ T1 ++ [UeBlock i2 p2] ++ T2) u0 = Ok (u, log) ->
  ul_get_slot_owner (tv_time i3) (tv_blk i3) (ds_ul (um_sch u)) = Ok (Some ssi) ->
  exists ns, lived c log ns u /\ map nt_act ns = [AAck a; AAsk a q1; AFirst a x; AAck a; AAsk a q2; ASdu a y] /\
    exists u' b rest, um_step c (UeBlock i3 p3) u = Ok (u', OutSdu (tv_time i3) b a (tv_scr i3) :: rest, []) /\ remaining b = x ++ d.
Proof.
  intros EN V W1 P1 V1 C1 W2 P2 V2 C2 W3 P3 V3 C3 F1 F2 B1 B2 B3 NH TT -> LE E OW.
  assert (AP : forall evs evs' v lg w, um_run c (evs ++ evs') v = Ok (w, lg) -> exists v' l1 l2, um_run c evs v = Ok (v', l1) /\ um_run c evs' v' = Ok (w, l2) /\ lg = l1 ++ l2).
  { induction evs as [|e evs IH]; intros evs' v lg w EE; cbn [app um_run] in EE; [exists v, [], lg; auto|]. inv EE. destruct x0 as [[v1 o] m]. inv EE. destruct x0 as [v2 l]. injection EE as <- <-.
    destruct (IH _ _ _ _ H0) as (v' & l1 & l2 & G1 & G2 & ->). exists v', ((e, o, m) :: l1), l2. cbn [um_run]. rewrite H. cbn [bind]. rewrite G1. auto. }
  cbn [um_run] in E. inv E. destruct x0 as [[u1 o1] m1]. inv E. destruct x0 as [u2 lg]. injection E as <- <-. pose proof (lv_start c cn0 u0 cn t u1 o1 m1 EN V H) as L1.
  apply AP in H0. destruct H0 as (ua & la & lb & EA & EB & ->). apply AP in EB. destruct EB as (ub & lb1 & lb2 & EB & EC & ->). apply AP in EC. destruct EC as (uc & lc & ld & EC & ED & ->).
  cbn [um_run] in EA. inv EA. destruct x0 as [[v1 o2] m2]. injection EA as <- <-.
  destruct (begun c _ [] u1 i1 p1 a x [AAck a; AAsk a q1] v1 o2 m2 L1 W1 P1 V1 C1 B1 eq_refl H0) as (ms1 & A1 & L2 & K1). cbn [app] in L2, K1, A1.
  pose proof (undisturbed_run c T1 _ _ _ _ _ _ _ _ _ L2 F1 K1 EB) as L3.
  cbn [um_run] in EC. inv EC. destruct x0 as [[v2 o3] m3]. injection EC as <- <-.
  destruct (grow c _ _ _ (UeBlock i2 p2) v2 o3 m3 L3 (conj W2 (conj P2 V2)) C2 H1) as (ms2 & L4 & CH2 & _ & CV2). pose proof (all_sent _ _ _ _ B2 CV2 eq_refl) as A2.
  assert (K2 : collecting (tm_t (tv_time i1)) (ad_ssi a) (ms1 ++ ms2) a x).
  { apply other_acts; [exact K1|]. destruct ms2 as [|n1 [|n2 [|n3 [|? ?]]]]; try discriminate A2. injection A2 as A2 A3 A4. repeat constructor; unfold about; rewrite ?A2, ?A3, ?A4; apply andb_false_r. }
  pose proof (undisturbed_run c T2 _ _ _ _ _ _ _ _ _ L4 F2 K2 ED) as L5.
  exists (ms1 ++ ms2). split; [rewrite <- !app_assoc in L5; exact L5|]. split; [now rewrite map_app, A1, A2|].
  rewrite <- TT in K2. exact (whole_message c _ _ u2 i3 p3 (ad_ssi a) a x None d plan L5 W3 P3 V3 C3 B3 NH OW K2 LE).
Qed.

(** * Examples *)
Fixpoint ticks (n : nat) (t : tdma_time) : list um_event := match n with O => [] | Datatypes.S m => UeTick false t :: ticks m (add_timeslots t 1) end.
Lemma ticks_quiet n : forall t, Forall (fun e => match e with UeBlock _ _ => False | _ => True end) (ticks n t).
Proof. induction n as [|n IH]; intros t; cbn [ticks]; constructor; auto. Qed.
(** a random access with a whole SDU and a request for a slot; a slot with the last part of an SDU *)
Definition ex_acc2 : MacPdus.mac_ul := MacPdus.mk_mul false false (Some ex_radio) None None (Some false) (Some 1).
Definition ex_acc2_block : list bool := Layout.enc (MacSpec.macc_layout ex_acc2) ++ rev (ex_text (92 - length (Layout.enc (MacSpec.macc_layout ex_acc2)))) ++ FragSpec.pad 0.
Definition ex_last : MacPdus.mac_end_ul := MacPdus.mk_meul false (Some 33) None.
Definition ex_last_block : list bool := (Layout.enc (MacSpec.meul_layout ex_last) ++ ex_text 254 ++ FragSpec.pad 0) ++ repeat false 4.
Definition ex_i1 : tmv_ind := ex_at (mk_time 3 18 60 0) UcSchHu Block1.
Definition ex_i2 : tmv_ind := ex_at (mk_time 3 16 1 0) UcSchHu Block1.
Definition ex_i3 : tmv_ind := ex_at (mk_time 3 17 1 0) UcSchF BothBlocks.
Definition ex_T1 : list um_event := ticks 64 (mk_time 2 1 1 0).
Definition ex_T2 : list um_event := ticks 4 (mk_time 2 17 1 0).
Definition ex_x : list bool := ex_text (92 - length (Layout.enc (MacSpec.macc_layout ex_acc))).
Lemma ex_b1 : block_sent UcSchHu ex_acc_block [AAck ex_radio; AAsk ex_radio 1; AFirst ex_radio ex_x].
Proof.
  unfold ex_acc_block. rewrite <- (app_nil_r (_ ++ _)). eapply bs_last; [apply (s_access_all UcSchHu ex_acc ex_radio 1 true); try reflexivity; discriminate|cbn; lia].
Qed.
Lemma ex_b2 : block_sent UcSchHu ex_acc2_block [AAck ex_radio; AAsk ex_radio 1; ASdu ex_radio (rev ex_x)].
Proof.
  unfold ex_acc2_block. rewrite <- (app_nil_r (_ ++ _)). eapply bs_last; [apply (s_access_all UcSchHu ex_acc2 ex_radio 1 false); try reflexivity; discriminate|cbn; lia].
Qed.
Lemma ex_b3 : block_sent UcSchF ex_last_block [ALast None (ex_text 254)].
Proof.
  unfold ex_last_block. eapply bs_last; [apply (s_end UcSchF ex_last 33); try reflexivity; now left|cbn; lia].
Qed.
Lemma ex_gentle l : begins UcSchF ex_last_block l -> ~ hostile UcSchF l.
Proof.
  intros B. inversion B as [? E|? acts n l' E B']; subst.
  - intros (p & h & n & E & EL & LE). assert (X : FragSpec.parse MacPdus.meul_read ex_last_block = Some (ex_last, 10%nat)) by (vm_compute; reflexivity). rewrite X in E. injection E as <- _. injection EL as <-. lia.
  - assert (X : first_pdu UcSchF ex_last_block = Acts [ALast None (ex_text 254)] (Some 264%nat)) by (vm_compute; reflexivity). rewrite X in E. injection E as _ <-.
    assert (Y : skipn 264 ex_last_block = [false; false; false; false]) by (vm_compute; reflexivity). rewrite Y in B'. clear - B'. inversion B' as [? E|? acts n l' E B]; subst.
    + intros (p & h & E & _). assert (X : FragSpec.parse MacPdus.mdata_read [false; false; false; false] = None) by (vm_compute; reflexivity). rewrite X in E. discriminate E.
    + assert (X : first_pdu UcSchF [false; false; false; false] = Acts [] None) by (vm_compute; reflexivity). rewrite X in E. discriminate E.
Qed.
Definition ex_evs : list um_event := [UeBlock ex_i1 (ex_bits ex_acc_block)] ++ ex_T1 ++ [UeBlock ex_i2 (ex_bits ex_acc2_block)] ++ ex_T2.
Lemma ex_ran : exists u0 u log, umac_new DlFacts.ex_cell false = Ok u0 /\ um_run DlFacts.ex_cell (UeTick false ex_t0 :: ex_evs) u0 = Ok (u, log) /\
  ul_get_slot_owner (tv_time ex_i3) (tv_blk ex_i3) (ds_ul (um_sch u)) = Ok (Some 1001).
Proof. apply (AliveFacts.ran_to DlFacts.ex_cell (UeTick false ex_t0 :: ex_evs) (fun u => ul_get_slot_owner (tv_time ex_i3) (tv_blk ex_i3) (ds_ul (um_sch u)))). vm_compute. reflexivity. Qed.
Lemma ex_times : vtime ex_t0 /\ vtime (tv_time ex_i1) /\ vtime (tv_time ex_i2) /\ vtime (tv_time ex_i3).
Proof. unfold vtime. cbn [ex_t0 ex_i1 ex_i2 ex_i3 ex_at tv_time tm_t tm_f tm_m tm_h]. lia. Qed.
Lemma stale_joined : exists ns log u, lived DlFacts.ex_cell log ns u /\ map nt_act ns = [AAck ex_radio; AAsk ex_radio 1; AFirst ex_radio ex_x; AAck ex_radio; AAsk ex_radio 1; ASdu ex_radio (rev ex_x)] /\
  ul_get_slot_owner (tv_time ex_i3) (tv_blk ex_i3) (ds_ul (um_sch u)) = Ok (Some 1001) /\
  exists u' b rest, um_step DlFacts.ex_cell (UeBlock ex_i3 (ex_bits ex_last_block)) u = Ok (u', OutSdu (tv_time ex_i3) b ex_radio (tv_scr ex_i3) :: rest, []) /\ remaining b = ex_x ++ ex_text 254.
Proof.
  destruct ex_ran as (u0 & u & log & EN & ER & OW). destruct ex_times as (V0 & V1 & V2 & V3).
  destruct (ex_bits_ok ex_acc_block) as (W1 & P1 & N1). destruct (ex_bits_ok ex_acc2_block) as (W2 & P2 & N2). destruct (ex_bits_ok ex_last_block) as (W3 & P3 & N3).
  pose proof ex_b1 as B1. pose proof ex_b2 as B2. pose proof ex_b3 as B3. pose proof ex_gentle as G. rewrite <- N1 in B1. rewrite <- N2 in B2. rewrite <- N3 in B3, G. unfold ex_evs in ER.
  revert W1 P1 N1 W2 P2 N2 W3 P3 N3 B1 B2 B3 G ER. generalize (ex_bits ex_acc_block), (ex_bits ex_acc2_block), (ex_bits ex_last_block). intros p1 p2 p3 W1 P1 N1 W2 P2 N2 W3 P3 N3 B1 B2 B3 G ER.
  destruct (stale DlFacts.ex_cell false u0 false ex_t0 ex_i1 p1 ex_T1 ex_i2 p2 ex_T2 ex_i3 p3 ex_radio 1 ex_x 1 (rev ex_x) (ex_text 254) [] 1001 u log EN V0 W1 P1 V1 eq_refl W2 P2 V2 eq_refl W3 P3 V3 eq_refl (ticks_quiet _ _) (ticks_quiet _ _) B1 B2 B3 G eq_refl eq_refl) as (ns & L & A & Q).
  { vm_compute. discriminate. } { exact ER. } { exact OW. }
  exists ns, log, u. auto.
Qed.

(** a message too long: a random access with the first part and a request for 17 slots; 15 slots full of further parts *)
Definition ex_acc17 : MacPdus.mac_ul := MacPdus.mk_mul false false (Some ex_radio) None None (Some true) (Some 10).
Definition ex_acc17_block : list bool := Layout.enc (MacSpec.macc_layout ex_acc17) ++ ex_x.
Definition ex_more_block : list bool := Layout.enc (MacSpec.mfrag_layout false) ++ ex_text 264.
Fixpoint ex_more (n : nat) (f : Z) : list um_event :=
  match n with
  | O => []
  | Datatypes.S m => ticks 4 (mk_time 2 f 1 0) ++ UeBlock (ex_at (mk_time 3 f 1 0) UcSchF BothBlocks) (ex_bits ex_more_block) :: ex_more m (f + 1)
  end.
Definition ex_long : list um_event := UeBlock ex_i1 (ex_bits ex_acc17_block) :: ex_more 15 1 ++ ticks 4 (mk_time 2 16 1 0).
Lemma more_fine n : forall f, (1 <= f)%Z -> (f + Z.of_nat n <= 19)%Z -> Forall ev_fine (ex_more n f).
Proof.
  induction n as [|n IH]; intros f F1 F2; cbn [ex_more]; [constructor|]. apply Forall_app. split; [|constructor].
  - eapply Forall_impl; [|apply ticks_quiet]. intros e. destruct e; cbn; tauto.
  - destruct (ex_bits_ok ex_more_block) as (W & P & _). cbn [ev_fine ex_at tv_time]. split; [exact W|]. split; [exact P|]. unfold vtime. cbn [tm_t tm_f tm_m tm_h]. lia.
  - apply IH; lia.
Qed.
Lemma long_fine : Forall ev_fine ex_long.
Proof.
  unfold ex_long. constructor; [|apply Forall_app; split; [apply more_fine; lia|eapply Forall_impl; [|apply ticks_quiet]; intros e; destruct e; cbn; tauto]].
  destruct (ex_bits_ok ex_acc17_block) as (W & P & _). split; [exact W|]. split; [exact P|apply ex_times].
Qed.
Definition ex_i16 : tmv_ind := ex_at (mk_time 3 16 1 0) UcSchF BothBlocks.
Definition ex_h16 : tmv_ind := ex_at (mk_time 3 16 1 0) UcSchHu Block1.
Definition ex_half_last : MacPdus.mac_end_hu := MacPdus.mk_mehu false None (Some 1).
Definition ex_half_block : list bool := Layout.enc (MacSpec.mehu_layout ex_half_last) ++ ex_text 85.
Definition nobody (r : res (umac * list um_out * list tx_reporter)) : bool :=
  match r with Ok (_, [OutSdu _ b (mk_addr 0 false SsiUnknown) _], []) => match remaining b with [] => true | _ => false end | _ => false end.
Lemma nobody_inv r : nobody r = true -> exists u' t b scr, r = Ok (u', [OutSdu t b (mk_addr 0 false SsiUnknown) scr], []) /\ remaining b = [].
Proof.
  unfold nobody. intros H. destruct r as [[[u' o] m]| |]; try discriminate H. destruct o as [|[t b a scr| | | |] o]; try discriminate H. destruct a as [s e ty]. destruct s; try discriminate H. destruct e; try discriminate H. destruct ty; try discriminate H.
  destruct o; [|discriminate H]. destruct m; [|discriminate H]. destruct (remaining b) eqn:E; [|discriminate H]. exists u', t, b, scr. split; [reflexivity|exact E].
Qed.
Lemma from_nobody : exists u, reached DlFacts.ex_cell u /\ exists u' t b scr,
  um_step DlFacts.ex_cell (UeBlock ex_i16 (ex_bits ex_last_block)) u = Ok (u', [OutSdu t b (mk_addr 0 false SsiUnknown) scr], []) /\ remaining b = [].
Proof.
  destruct (AliveFacts.ran_to DlFacts.ex_cell (UeTick false ex_t0 :: ex_long) (fun u => nobody (um_step DlFacts.ex_cell (UeBlock ex_i16 (ex_bits ex_last_block)) u)) true) as (u0 & u & log & EN & ER & B); [vm_compute; reflexivity|].
  exists u. split; [|exact (nobody_inv _ B)]. exists false, u0, false, ex_t0, ex_long, log. split; [exact EN|]. split; [apply ex_times|]. split; [exact long_fine|exact ER].
Qed.
Lemma long_stops : exists u, reached DlFacts.ex_cell u /\ um_step DlFacts.ex_cell (UeTick false (add_timeslots (um_time u) 1)) u = Panic.
Proof.
  destruct (AliveFacts.ran_to DlFacts.ex_cell (UeTick false ex_t0 :: ex_long ++ [UeBlock ex_h16 (ex_bits ex_half_block)])
    (fun u => match um_step DlFacts.ex_cell (UeTick false (add_timeslots (um_time u) 1)) u with Panic => true | _ => false end) true) as (u0 & u & log & EN & ER & B); [vm_compute; reflexivity|].
  exists u. split; [|destruct (um_step _ _ u); [discriminate B|discriminate B|reflexivity]]. exists false, u0, false, ex_t0, (ex_long ++ [UeBlock ex_h16 (ex_bits ex_half_block)]), log. split; [exact EN|]. split; [apply ex_times|]. split; [|exact ER].
  apply Forall_app. split; [exact long_fine|]. constructor; [|constructor]. destruct (ex_bits_ok ex_half_block) as (W & P & _). split; [exact W|]. split; [exact P|]. unfold vtime. cbn [ex_h16 ex_at tv_time tm_t tm_f tm_m tm_h]. lia.
Qed.

Lemma traced_all c connected u0 cn t evs u log : umac_new c connected = Ok u0 -> vtime t -> Forall ev_fine evs -> Forall ev_chan evs ->
  um_run c (UeTick cn t :: evs) u0 = Ok (u, log) -> exists ns, lived c log ns u.
Proof.
  intros EN V F G. apply (traced c connected u0 cn t evs u log EN V). clear - F G. induction evs as [|e evs IH]; [constructor|]. inversion F; subst. inversion G; subst. constructor; [|auto]. split; [assumption|]. destruct e; assumption || exact Logic.I.
Qed.
Lemma ex_station : cell_ok DlFacts.ex_cell = true /\ exists s log, bs_reached DlFacts.ex_cell s log /\ (length log = 4)%nat.
Proof. split; [reflexivity|]. destruct ex_idle as (s & log & R & _ & _ & _ & L). eauto. Qed.
(** a message in three parts, up to its last *)
Lemma two_parts c cn0 u0 cn t i1 p1 T1 i2 p2 T2 a q x d ssi u1 l1 u log : umac_new c cn0 = Ok u0 -> vtime t -> wf p1 -> bpos p1 = bstart p1 -> vtime (tv_time i1) -> on_channel i1 = true ->
  wf p2 -> bpos p2 = bstart p2 -> vtime (tv_time i2) -> on_channel i2 = true ->
  Forall (fun e => match e with UeBlock _ _ => False | _ => True end) T1 -> Forall (fun e => match e with UeBlock _ _ => False | _ => True end) T2 ->
  block_sent (tv_chan i1) (window p1) [AAck a; AAsk a q; AFirst a x] -> block_sent (tv_chan i2) (window p2) [AMore d] -> tm_t (tv_time i2) = tm_t (tv_time i1) -> ssi = ad_ssi a -> N.of_nat (length x + length d) <= 4096 ->
  um_run c (UeTick cn t :: [UeBlock i1 p1] ++ T1) u0 = Ok (u1, l1) -> ul_get_slot_owner (tv_time i2) (tv_blk i2) (ds_ul (um_sch u1)) = Ok (Some ssi) -> um_run c (UeBlock i2 p2 :: T2) u1 = Ok (u, log) ->
  exists ns, lived c (l1 ++ log) ns u /\ collecting (tm_t (tv_time i1)) ssi ns a (x ++ d).
Proof.
  intros EN V W1 P1 V1 C1 W2 P2 V2 C2 F1 F2 B1 B2 TT -> LE E1 OW E2.
  cbn [app um_run] in E1. inv E1. destruct x0 as [[v0 o0] m0]. inv E1. destruct x0 as [v2 lg]. injection E1 as <- <-. inv H0. destruct x0 as [[v1 o1] m1]. inv H0. destruct x0 as [v3 l3]. injection H0 as -> <-.
  pose proof (lv_start c cn0 u0 cn t v0 o0 m0 EN V H) as L1.
  destruct (begun c _ [] v0 i1 p1 a x [AAck a; AAsk a q] v1 o1 m1 L1 W1 P1 V1 C1 B1 eq_refl H1) as (ms1 & A1 & L2 & K1). cbn [app] in L2, K1.
  pose proof (undisturbed_run c T1 _ _ _ _ _ _ _ _ _ L2 F1 K1 H2) as L3.
  cbn [um_run] in E2. inv E2. destruct x0 as [[w1 o2] m2]. inv E2. destruct x0 as [w2 l4]. injection E2 as <- <-.
  rewrite <- TT in K1. destruct (goes_on c _ ms1 v2 i2 p2 (ad_ssi a) a x d w1 o2 m2 L3 W2 P2 V2 C2 B2 OW K1 LE H0) as (ms2 & A2 & L4 & K2).
  pose proof (undisturbed_run c T2 _ _ _ _ _ _ _ _ _ L4 F2 K2 H3) as L5. exists (ms1 ++ ms2). rewrite TT in K2. split; [|exact K2]. rewrite <- !app_assoc in L5. exact L5.
Qed.
Definition ex_acc3 : MacPdus.mac_ul := MacPdus.mk_mul false false (Some ex_radio) None None (Some true) (Some 2).
Definition ex_acc3_block : list bool := Layout.enc (MacSpec.macc_layout ex_acc3) ++ ex_x ++ FragSpec.pad 0.
Definition ex_frag_block : list bool := Layout.enc (MacSpec.mfrag_layout false) ++ ex_text 264 ++ FragSpec.pad 0.
Definition ex_i1st : tmv_ind := ex_at (mk_time 3 1 1 0) UcSchF BothBlocks.
Definition ex_i2nd : tmv_ind := ex_at (mk_time 3 2 1 0) UcSchF BothBlocks.
Lemma ex_b4 : block_sent UcSchHu ex_acc3_block [AAck ex_radio; AAsk ex_radio 2; AFirst ex_radio ex_x].
Proof. unfold ex_acc3_block. rewrite <- (app_nil_r (_ ++ _)). eapply bs_last; [apply (s_access_all UcSchHu ex_acc3 ex_radio 2 true); try reflexivity; discriminate|cbn; lia]. Qed.
Lemma ex_b5 : block_sent UcSchF ex_frag_block [AMore (ex_text 264)].
Proof. unfold ex_frag_block. rewrite <- (app_nil_r (_ ++ _)). apply bs_none. apply (s_frag UcSchF (ex_text 264) 0). now left. Qed.
Definition owned_by (i : tmv_ind) (u : umac) : bool := match ul_get_slot_owner (tv_time i) (tv_blk i) (ds_ul (um_sch u)) with Ok (Some 1001) => true | _ => false end.
Lemma owned_by_inv i u : owned_by i u = true -> ul_get_slot_owner (tv_time i) (tv_blk i) (ds_ul (um_sch u)) = Ok (Some 1001).
Proof.
  unfold owned_by. destruct (ul_get_slot_owner _ _ _) as [[x|]| |]; try discriminate. destruct (N.eq_dec x 1001) as [->|NE]; [reflexivity|]. intros H. exfalso. apply NE.
  repeat match type of H with context [match ?y with _ => _ end] => destruct y; try discriminate H end. reflexivity.
Qed.
Lemma ran_on {A} c e1 e2 (f g : umac -> A) (v w : A) :
  match umac_new c false with Ok u0 => match um_run c e1 u0 with Ok (u1, _) => match um_run c e2 u1 with Ok (u, _) => Some (f u1, g u) | _ => None end | _ => None end | _ => None end = Some (v, w) ->
  exists u0 u1 l1 u log, umac_new c false = Ok u0 /\ um_run c e1 u0 = Ok (u1, l1) /\ um_run c e2 u1 = Ok (u, log) /\ f u1 = v /\ g u = w.
Proof.
  intros H. destruct (umac_new c false) as [u0| |]; try discriminate H. destruct (um_run c e1 u0) as [[u1 l1]| |] eqn:E; try discriminate H. destruct (um_run c e2 u1) as [[u log]| |] eqn:E2; try discriminate H. injection H as H1 H2. exists u0, u1, l1, u, log. auto.
Qed.
Lemma ex_collecting : exists log ns u, lived DlFacts.ex_cell log ns u /\ collecting 3 1001 ns ex_radio (ex_x ++ ex_text 264) /\
  block_sent UcSchF (window (ex_bits ex_last_block)) [ALast None (ex_text 254)] /\ (forall l, begins UcSchF (window (ex_bits ex_last_block)) l -> ~ hostile UcSchF l) /\
  ul_get_slot_owner (tv_time ex_i2nd) (tv_blk ex_i2nd) (ds_ul (um_sch u)) = Ok (Some 1001).
Proof.
  destruct (ran_on DlFacts.ex_cell (UeTick false ex_t0 :: [UeBlock ex_i1 (ex_bits ex_acc3_block)] ++ ticks 4 (mk_time 2 1 1 0)) (UeBlock ex_i1st (ex_bits ex_frag_block) :: ticks 4 (mk_time 2 2 1 0)) (owned_by ex_i1st) (owned_by ex_i2nd) true true)
    as (u0 & u1 & l1 & u & log & EN & E1 & E2 & O1 & O2); [vm_compute; reflexivity|]. apply owned_by_inv in O1, O2.
  destruct (ex_bits_ok ex_acc3_block) as (W1 & P1 & N1). destruct (ex_bits_ok ex_frag_block) as (W2 & P2 & N2). destruct (ex_bits_ok ex_last_block) as (W3 & P3 & N3).
  pose proof ex_b4 as B1. pose proof ex_b5 as B2. rewrite <- N1 in B1. rewrite <- N2 in B2. rewrite N3.
  revert W1 P1 N1 W2 P2 N2 B1 B2 E1 E2. generalize (ex_bits ex_acc3_block), (ex_bits ex_frag_block). intros p1 p2 W1 P1 N1 W2 P2 N2 B1 B2 E1 E2.
  assert (V2 : vtime (tv_time ex_i1st)) by (unfold vtime; cbn [ex_i1st ex_at tv_time tm_t tm_f tm_m tm_h]; lia). assert (LE : N.of_nat (length ex_x + length (ex_text 264)) <= 4096) by (vm_compute; discriminate).
  destruct ex_times as (V0 & V1 & _).
  destruct (two_parts DlFacts.ex_cell false u0 false ex_t0 ex_i1 p1 (ticks 4 (mk_time 2 1 1 0)) ex_i1st p2 (ticks 4 (mk_time 2 2 1 0)) ex_radio 2 ex_x (ex_text 264) 1001 u1 l1 u log
    EN V0 W1 P1 V1 eq_refl W2 P2 V2 eq_refl (ticks_quiet _ _) (ticks_quiet _ _) B1 B2 eq_refl eq_refl LE E1 O1 E2) as (ns & L & K).
  exists (l1 ++ log), ns, u. split; [exact L|]. split; [exact K|]. split; [exact ex_b3|]. split; [exact ex_gentle|exact O2].
Qed.

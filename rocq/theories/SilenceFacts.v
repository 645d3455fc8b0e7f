From Coq Require Import Arith.
From Verif Require Import Base BitBuffer Codec TdmaTime TdmaTimeProofs MacBroadcast MleBroadcast UmacCircuits UmacCircuitsProofs DlSched UmacPrecomps UmacBs DlSlot SlotSpec SlotProofs SlotRun UmacSched UlBlockSpec UlBlockPdu UlBlockFacts LmacBs BsMac AirSpec AirRun AirFacts SilenceSpec SilenceProofs.
From Verif Require CallControl Defrag DlFacts.
Open Scope nat_scope.

(** * Only ticks report *)
Definition is_notice (x : um_out) : bool := match x with OutInactive _ _ => true | _ => false end.
Definition no_notice (o : list um_out) : Prop := existsb is_notice o = false.
Lemma none_app a b : no_notice a -> no_notice b -> no_notice (a ++ b).
Proof. unfold no_notice. intros A B. now rewrite existsb_app, A, B. Qed.
Lemma does_none i x u u' o c : does i x u (Ok (u', o, c)) -> no_notice o.
Proof.
  intros H. destruct x; cbn [does] in H.
  - injection H as _ -> _. reflexivity.
  - symmetry in H. bi H. injection H as _ <- _. reflexivity.
  - symmetry in H. bi H. injection H as _ <- _. reflexivity.
  - destruct H as (b & _ & _ & _ & H). injection H as _ -> _. reflexivity.
  - destruct H as (f & _ & _ & H). symmetry in H. bi H. destruct x as [df g]. injection H as _ <- _. reflexivity.
  - destruct H as (f & _ & _ & H). symmetry in H. bi H. destruct x as [ssi|]; [|injection H as _ <- _; reflexivity].
    bi H. destruct x; [injection H as _ <- _; reflexivity|]. bi H. destruct x as [df g]. injection H as _ <- _. reflexivity.
  - destruct H as (f & _ & _ & H). symmetry in H. bi H. destruct x as [ssi|]; [|injection H as _ <- _; reflexivity].
    bi H. bi H. bi H. destruct x1 as [df g]. destruct g as [|[b|] [|]]; try (injection H as _ <- _; reflexivity).
    bi H. injection H as _ <- _. reflexivity.
Qed.
Lemma does_all_none i acts u r : does_all i acts u r -> forall u' o c, r = Ok (u', o, c) -> no_notice o.
Proof.
  induction 1 as [u|x l u H|x l u u1 o1 H|x l u u1 o1 H r HR IH]; intros u' o c E.
  - injection E as _ <- _. reflexivity.
  - discriminate E.
  - injection E as _ <- _. exact (does_none _ _ _ _ _ _ H).
  - bi E. destruct x0 as [[w o2] c2]. injection E as _ <- _. apply none_app; [exact (does_none _ _ _ _ _ _ H)|exact (IH _ _ _ E0)].
Qed.
Lemma heard_none i l u r : heard i l u r -> forall u' o, r = Ok (u', o) -> no_notice o.
Proof.
  induction 1 as [| |l u acts n u1 o1 c EP H _|l u acts n u1 o1 EP H _|l u acts n u1 o1 r EP H _ HR IH]; intros u' o E; try discriminate E.
  - injection E as _ <-. exact (does_all_none _ _ _ _ H _ _ _ eq_refl).
  - injection E as _ <-. exact (does_all_none _ _ _ _ H _ _ _ eq_refl).
  - bi E. destruct x as [w o2]. injection E as _ <-. apply none_app; [exact (does_all_none _ _ _ _ H _ _ _ eq_refl)|exact (IH _ _ E0)].
Qed.
Lemma calm_none c e u u' o m : ev_fine e -> calm e -> sound u -> um_step c e u = Ok (u', o, m) -> no_notice o.
Proof.
  intros F CA S E. destruct e as [cn' t|i pdu|r|ts data|t ts data|k]; cbn [um_step] in E.
  - contradiction CA.
  - pose proof S as S0. destruct F as (W & P & V). bi E. destruct x as [u1 o1]. injection E as _ <- _.
    assert (C : on_channel i = true).
    { unfold rx_tmv_unitdata_ind in E0. bi E0. unfold on_channel. destruct (tv_chan i), (tv_blk i); try discriminate E0; reflexivity. }
    destruct (block_ok i pdu u W P S0 V C) as (r & E1 & H & _). rewrite E0 in E1. subst r. exact (heard_none _ _ _ _ H _ _ eq_refl).
  - bi E. injection E as _ <- _. reflexivity.
  - bi E. injection E as _ <- _. reflexivity.
  - bi E. destruct x as [u1 o1]. injection E as _ <- _. unfold rx_ul_voice in E0. bi E0.
    assert (N : no_notice x) by (destruct (cf_brew c); [bi E; injection E as <-; destruct x0; reflexivity|injection E as <-; reflexivity]).
    bi E0. destruct x0; [|injection E0 as _ <-; exact N]. bi E0. destruct x0 as [b|]; [|injection E0 as _ <-; exact N]. bi E0. injection E0 as _ <-. exact N.
  - bi E. destruct x as [u1 m1]. injection E as _ <- _. reflexivity.
Qed.

(** * Whole histories *)
Lemma counted_view k evs : fst (counted k evs) = all_told evs.
Proof.
  unfold counted, all_told. generalize (fun _ : nat => idle_ts) as v, (@None N) as n. induction evs as [|e evs IH]; intros v n; [reflexivity|]. cbn [fold_left count]. apply IH.
Qed.
Lemma told_snoc evs e : all_told (evs ++ [e]) = told (all_told evs) e.
Proof. unfold all_told. now rewrite fold_left_app. Qed.
Lemma quiet_snoc k evs e : quiet k (evs ++ [e]) = snd (count k (all_told evs, quiet k evs) e).
Proof. unfold quiet. unfold counted at 1. rewrite fold_left_app. cbn [fold_left]. fold (counted k evs). rewrite <- (counted_view k evs). now destruct (counted k evs). Qed.
Definition entry_says (evs : list um_event) (e : um_event) (o : list um_out) : Prop :=
  match e with UeTick _ t => exists s, o = map (OutInactive t) (filter (fun k => reported k evs) [1; 2; 3; 4]) ++ [OutSlot s] | _ => no_notice o end.
Definition says_all (xs : list um_entry) : Prop := forall pre e o m post, xs = pre ++ (e, o, m) :: post -> entry_says (events pre) e o.
Definition watched (c : cell_cfg) (xs : list um_entry) (u : umac) : Prop :=
  sound u /\ minv c (all_told (events xs)) u /\ remembers (all_told (events xs)) (fun k => quiet k (events xs)) u /\ says_all xs.
Lemma snoc_cases {A} (l : list A) x pre y post : l ++ [x] = pre ++ y :: post -> (post = [] /\ l = pre /\ x = y) \/ exists post', post = post' ++ [x] /\ l = pre ++ y :: post'.
Proof.
  destruct post as [|z post'] eqn:P using rev_ind; intros E.
  - left. apply app_inj_tail in E. destruct E. auto.
  - right. clear IHpost'. rewrite app_comm_cons, app_assoc in E. apply app_inj_tail in E. destruct E as (-> & ->). eauto.
Qed.
Lemma events_snoc xs e o m : events (xs ++ [(e, o, m)]) = events xs ++ [e].
Proof. unfold events. now rewrite map_app. Qed.
Lemma says_snoc xs e o m : says_all xs -> entry_says (events xs) e o -> says_all (xs ++ [(e, o, m)]).
Proof.
  intros A B pre e' o' m' post E. apply snoc_cases in E. destruct E as [(_ & -> & X)|(post' & _ & E)]; [injection X as <- <- _; exact B|exact (A _ _ _ _ _ E)].
Qed.
Lemma watch_step c xs u e u' o m : cell_ok c = true -> watched c xs u -> ev_fine e -> marked e = true -> not_down_only e = true -> um_step c e u = Ok (u', o, m) -> watched c (xs ++ [(e, o, m)]) u'.
Proof.
  intros CO (S & I & R & SA) F MK ND E. destruct (step_says c e _ _ u u' o m CO F MK ND S I R E) as (R' & OUT). unfold watched. rewrite events_snoc, told_snoc.
  split; [exact (proj1 (step_did c e u u' o m F S E))|]. split; [refine (proj1 (step_shows c e _ u u' o m CO F MK _ I E)); destruct e; auto|]. split.
  - destruct R' as (A & B & C & D). split; [exact A|]. split; [exact B|]. split; [exact C|]. intros k K. rewrite quiet_snoc. exact (D k K).
  - apply says_snoc; [exact SA|]. destruct e; try exact (calm_none _ _ _ _ _ _ F Logic.I S E). exact OUT.
Qed.
Lemma watch_all c es : cell_ok c = true -> forall s s' xs ws log, Forall ev_fine es -> Forall (fun e => marked e = true) es -> Forall (fun e => not_down_only e = true) es -> watched c log (st_um s) -> um_do_all c es s = Ok (s', xs, ws) -> watched c (log ++ xs) (st_um s').
Proof.
  intros CO. induction es as [|e es IH]; intros s s' xs ws log F M D W E; cbn [um_do_all] in E; [injection E as <- <- _; rewrite app_nil_r; exact W|].
  bi E. destruct x as [[s1 x1] w1]. bi E. destruct x as [[s2 x2] w2]. injection E as <- <- _. unfold um_do in E0. bi E0. destruct x as [[u o] m]. bi E0. destruct x as [l w]. injection E0 as <- <- _.
  pose proof (watch_step c log _ e u o m CO W (Forall_inv F) (Forall_inv M) (Forall_inv D) E) as W1.
  pose proof (IH (mk_station u l) _ _ _ _ (Forall_inv_tail F) (Forall_inv_tail M) (Forall_inv_tail D) W1 E1) as W2. now rewrite <- app_assoc in W2.
Qed.
Lemma watch_rx c t is : cell_ok c = true -> vtime t -> forall v s s' xs ws log, Forall (ind_ok t) is -> good c v s -> watched c log (st_um s) -> rx_blocks c is s = Ok (s', xs, ws) -> watched c (log ++ xs) (st_um s').
Proof.
  intros CO V. induction is as [|i is IH]; intros v s s' xs ws log F G W E; cbn [rx_blocks] in E; [injection E as <- <- _; rewrite app_nil_r; exact W|].
  bi E. bi E. destruct x0 as [[s1 x1] w1]. bi E. destruct x0 as [[s2 x2] w2]. injection E as <- <- _.
  destruct (rx_events c (st_lm s) t i x CO (proj1 (proj2 (proj2 (proj2 G)))) V (Forall_inv F) E0) as (EV & CA). destruct (marked_rx _ CA) as (CA1 & CA2 & TO).
  destruct (do_all_good c _ CO v s s1 x1 w1 EV CA1 CA2 G E1) as (G1 & _ & _).
  assert (F1 : Forall ev_fine (map um_event_of x)) by (eapply Forall_impl; [|exact EV]; intros e H; exact (proj1 H)).
  assert (F2 : Forall (fun e => not_down_only e = true) (map um_event_of x)) by (eapply Forall_impl; [|exact CA]; intros e H; destruct e; try contradiction H; reflexivity).
  pose proof (watch_all c _ CO s s1 x1 w1 log F1 CA2 F2 W E1) as W1. pose proof (IH _ s1 s2 x2 w2 _ (Forall_inv_tail F) G1 W1 E2) as W2. now rewrite <- app_assoc in W2.
Qed.
Lemma watch_bs c e v s s' xs ws log : cell_ok c = true -> bs_fine e -> both_ways e = true -> good c v s -> watched c log (st_um s) -> bs_step c e s = Ok (s', xs, ws) -> watched c (log ++ xs) (st_um s').
Proof.
  intros CO F B G W E. assert (one : forall x s0, st_um s0 = st_um s -> ev_fine x -> marked x = true -> not_down_only x = true -> um_do_all c [x] s0 = Ok (s', xs, ws) -> watched c (log ++ xs) (st_um s')).
  { intros x s0 ES F1 F2 F3 E1. apply (watch_all c [x] CO s0 s' xs ws log); [now constructor|now constructor|now constructor|now rewrite ES|exact E1]. }
  destruct e as [cn t|ts bits|r|ts data|k]; cbn [bs_step bs_fine both_ways] in *.
  - refine (one (UeTick cn t) _ _ Logic.I eq_refl eq_refl E). reflexivity.
  - destruct F as (l & ->). bi E. exact (watch_rx c _ x CO (proj2 (proj2 (proj1 (proj2 (proj2 (proj2 G)))))) v s s' xs ws log (split_ok _ _ _ _ E0) G W E).
  - exact (one (UeSend r) s eq_refl Logic.I eq_refl eq_refl E).
  - exact (one (UeDlVoice ts data) s eq_refl Logic.I eq_refl eq_refl E).
  - exact (one (UeControl k) s eq_refl Logic.I F B E).
Qed.
Lemma watch_run c evs : cell_ok c = true -> forall v s s' lg log, Forall bs_fine evs -> Forall (fun e => both_ways e = true) evs -> good c v s -> watched c log (st_um s) -> bs_run c evs s = Ok (s', lg) -> watched c (log ++ entries lg) (st_um s').
Proof.
  intros CO. induction evs as [|e evs IH]; intros v s s' lg log F B G W E; cbn [bs_run] in E; [injection E as <- <-; cbn [entries flat_map]; rewrite app_nil_r; exact W|].
  bi E. destruct x as [[s1 xs] ws]. bi E. destruct x as [s2 l2]. injection E as <- <-. pose proof (watch_bs c e v s s1 xs ws log CO (Forall_inv F) (Forall_inv B) G W E0) as W1.
  pose proof (IH _ _ _ _ _ (Forall_inv_tail F) (Forall_inv_tail B) (proj1 (step_good c e v s s1 xs ws CO (Forall_inv F) G E0)) W1 E1) as W2. now rewrite <- app_assoc in W2.
Qed.
Lemma new_voice c cn u : umac_new c cn = Ok u -> um_voice u = [None; None; None; None].
Proof. unfold umac_new. intros E. repeat (bi E). injection E as <-. reflexivity. Qed.
Lemma first_watched c cn0 u0 cn t u o m : cell_ok c = true -> umac_new c cn0 = Ok u0 -> minv c (fun _ => idle_ts) u0 -> vtime t -> um_step c (UeTick cn t) u0 = Ok (u, o, m) -> watched c [(UeTick cn t, o, m)] u.
Proof.
  intros CO EN I V E. pose proof (new_voice _ _ _ EN) as NV.
  destruct (tick_says c cn t (fun _ => idle_ts) (fun _ => None) u0 u o m V I) as (A & B); [now rewrite NV| |exact E|].
  { intros k K. split; [|auto]. unfold voice. rewrite NV. cbn [option_map]. destruct k as [|[|[|[|[|k]]]]]; try reflexivity. lia. }
  split; [exact (proj1 (first_tick _ _ _ _ _ _ _ _ EN V E))|]. split; [exact (proj1 (step_shows c (UeTick cn t) (fun _ => idle_ts) u0 u o m CO Logic.I eq_refl Logic.I I E))|]. split.
  - exact B.
  - intros pre e' o' m' post X. destruct pre as [|p pre]; [|destruct pre; discriminate X]. injection X as <- <- _ _. exact A.
Qed.
Lemma events_of_run c evs : forall s s' lg, bs_run c evs s = Ok (s', lg) -> events_of lg = evs.
Proof.
  induction evs as [|e evs IH]; intros s s' lg E; cbn [bs_run] in E; [injection E as _ <-; reflexivity|]. bi E. destruct x as [[s1 xs] ws]. bi E. destruct x as [s2 l2]. injection E as _ <-. cbn [events_of map fst]. f_equal. exact (IH _ _ _ E1).
Qed.
Lemma station_watched c s log : cell_ok c = true -> bs_reached c s log -> Forall (fun e => both_ways e = true) (events_of log) -> watched c (entries log) (st_um s).
Proof.
  intros CO (cn0 & s0 & cn & t & evs & EN & V & F & E) B. destruct (new_station c cn0 s0 CO EN) as (EU & M & T & EL). pose proof (events_of_run _ _ _ _ _ E) as EO. rewrite EO in B. cbn [bs_run] in E. bi E. destruct x as [[s1 xs] ws]. bi E. destruct x as [s2 lg]. injection E as <- <-.
  destruct (tick_good c cn t (fun _ => idle_ts) s0 s1 xs ws CO M T V) as (G1 & _); [now rewrite EL|now rewrite EL|intros u' o m ES; exact (proj1 (first_tick _ _ _ _ _ _ _ _ EU V ES))|exact E0|].
  cbn [bs_step um_do_all] in E0. bi E0. destruct x as [[s3 x3] w3]. injection E0 as -> <- _. unfold um_do in E. cbn [st_um] in E. bi E. destruct x as [[u o] m]. bi E. destruct x as [l w]. injection E as <- <- _.
  exact (watch_run c evs CO _ (mk_station u l) _ _ [(UeTick cn t, o, m)] F (Forall_inv_tail B) G1 (first_watched c cn0 (st_um s0) cn t u o m CO EU M V E0) E1).
Qed.

(** * What follows *)
Lemma exactly c s log : cell_ok c = true -> bs_reached c s log -> Forall (fun e => both_ways e = true) (events_of log) ->
  forall pre e o m post, entries log = pre ++ (e, o, m) :: post ->
  match e with
  | UeTick _ t => exists slot, o = map (OutInactive t) (filter (fun k => reported k (events pre)) [1; 2; 3; 4]) ++ [OutSlot slot]
  | _ => forall t k, ~ In (OutInactive t k) o
  end.
Proof.
  intros CO R B pre e o m post E. destruct (station_watched c s log CO R B) as (_ & _ & _ & SA). specialize (SA _ _ _ _ _ E). unfold entry_says in SA. destruct e; try exact SA.
  all: intros t0 k0 H; assert (X : existsb is_notice o = true) by (apply existsb_exists; eexists; split; [exact H|reflexivity]); unfold no_notice in SA; rewrite SA in X; discriminate X.
Qed.
Lemma in_tick t k evs slot : In (OutInactive t k) (map (OutInactive t) (filter (fun k => reported k evs) [1; 2; 3; 4]) ++ [OutSlot slot]) <-> 1 <= k <= 4 /\ reported k evs = true.
Proof.
  rewrite in_app_iff, in_map_iff. split.
  - intros [(x & X & H)|[X|[]]]; [|discriminate X]. injection X as ->. apply filter_In in H. destruct H as (H & ->). split; [exact (in_slots4 k H)|reflexivity].
  - intros (K & H). left. exists k. split; [reflexivity|]. apply filter_In. split; [exact (slots4_in k K)|exact H].
Qed.
Lemma at_tick c s log : cell_ok c = true -> bs_reached c s log -> Forall (fun e => both_ways e = true) (events_of log) ->
  forall pre cn t o m post k, entries log = pre ++ (UeTick cn t, o, m) :: post -> (In (OutInactive t k) o <-> 1 <= k <= 4 /\ reported k (events pre) = true) /\ forall t', In (OutInactive t' k) o -> t' = t.
Proof.
  intros CO R B pre cn t o m post k E. destruct (exactly c s log CO R B _ _ _ _ _ E) as (slot & ->). split; [apply in_tick|]. intros t' H. apply in_app_or in H. destruct H as [H|[H|[]]]; [|discriminate H].
  apply in_map_iff in H. destruct H as (x & X & _). now injection X.
Qed.
Lemma events_app a b : events (a ++ b) = events a ++ events b.
Proof. apply map_app. Qed.
Lemma alive_sign k v e (n : option N) : alive k e = true -> is_tick e = false /\ sign 0%N k v e n = Some 0%N.
Proof.
  destruct e as [cn t|i pdu|r|ts data|t ts data|cc]; cbn [alive]; try discriminate.
  - intros H. split; [reflexivity|]. cbn [sign]. now rewrite H.
  - intros H. split; [reflexivity|]. destruct cc; try discriminate H; cbn [sign].
    + apply andb_true_iff in H. destruct H as (-> & ->). reflexivity.
    + now rewrite H.
Qed.
Lemma quiet_alive k evs e : alive k e = true -> quiet k (evs ++ [e]) = Some 0%N.
Proof. intros A. rewrite quiet_snoc. destruct (alive_sign k (all_told evs) e (quiet k evs) A) as (T & X). destruct e; try discriminate T; exact X. Qed.
(** at most that many ticks *)
Definition at_most (n : nat) (q : option N) : Prop := match q with Some m => (m <= N.of_nat n)%N | None => True end.
Lemma ticks_snoc evs e : ticks_in (evs ++ [e]) = ticks_in evs + (if is_tick e then 1 else 0).
Proof. unfold ticks_in. rewrite filter_app, app_length. cbn [filter]. now destruct (is_tick e). Qed.
Lemma sign_most k v e n q : at_most n q -> at_most n (sign 0%N k v e q).
Proof.
  intros H. assert (Z0 : at_most n (Some 0%N)) by (cbn; lia). destruct e as [cn t|i pdu|r|ts data|t ts data|cc]; cbn [sign]; try exact H.
  - destruct (ts =? k); [destruct (vw_ul (v k))|]; assumption.
  - destruct (ts =? k); assumption.
  - destruct cc; cbn [sign]; try exact H; try (destruct (upwards d)); try (destruct (ts =? k)); try (destruct (vw_ul (v k))); try assumption; exact Logic.I.
Qed.
Lemma quiet_most k evs e mid : alive k e = true -> at_most (ticks_in mid) (quiet k (evs ++ e :: mid)).
Proof.
  intros A. induction mid as [|x mid IH] using rev_ind; [rewrite quiet_alive by exact A; cbn; lia|].
  rewrite app_comm_cons, app_assoc, quiet_snoc, ticks_snoc. set (q := quiet k (evs ++ e :: mid)) in *. set (v := all_told _). clearbody q v.
  assert (M : forall j, at_most (ticks_in mid + j) q) by (intros j; destruct q; cbn in *; [lia|exact Logic.I]).
  destruct x; cbn [count snd is_tick]; try (apply sign_most; apply M). destruct (due v k q); [exact Logic.I|]. destruct q as [n|]; cbn in *; [lia|exact Logic.I].
Qed.
Lemma not_heard_lately c s log : cell_ok c = true -> bs_reached c s log -> Forall (fun e => both_ways e = true) (events_of log) ->
  forall pre x mid cn t o m post k, entries log = pre ++ x :: mid ++ (UeTick cn t, o, m) :: post -> alive k (fst (fst x)) = true -> ticks_in (events mid) < 216 -> ~ In (OutInactive t k) o.
Proof.
  intros CO R B pre x mid cn t o m post k E A T H. replace (pre ++ x :: mid ++ (UeTick cn t, o, m) :: post) with ((pre ++ x :: mid) ++ (UeTick cn t, o, m) :: post) in E by (rewrite <- app_assoc; reflexivity).
  apply (proj1 (at_tick c s log CO R B _ _ _ _ _ _ k E)) in H. destruct H as (_ & H). rewrite events_app in H. cbn [events map] in H. fold (events mid) in H. unfold reported, due in H. apply andb_true_iff in H. destruct H as (_ & H).
  pose proof (quiet_most k (events pre) _ (events mid) A) as M. destruct (quiet k _) as [n|]; [|discriminate H]. cbn in M. unfold patience in H. apply N.ltb_lt in H. lia.
Qed.
Lemma untouched k v e (n : option N) : touches k e = false -> told v e k = v k /\ (is_tick e = false -> sign 0%N k v e n = n).
Proof.
  destruct e as [cn t|i pdu|r|ts data|t ts data|cc]; cbn [touches sign told]; try (intros _; now split).
  - intros ->. now split.
  - intros ->. now split.
  - destruct cc; cbn [touches sign told]; try (intros _; now split); unfold at_ts; rewrite (Nat.eqb_sym k); intros ->; try (destruct (upwards d)); now split.
Qed.
Lemma quiet_untouched k evs e mid : alive k e = true -> listening (all_told (evs ++ [e])) k = true -> Forall (fun x => touches k x = false) mid -> ticks_in mid <= 216 ->
  all_told (evs ++ e :: mid) k = all_told (evs ++ [e]) k /\ quiet k (evs ++ e :: mid) = Some (N.of_nat (ticks_in mid)).
Proof.
  intros A L. induction mid as [|x mid IH] using rev_ind; intros F T; [split; [reflexivity|exact (quiet_alive k evs e A)]|].
  apply Forall_app in F. destruct F as (F & FX). apply Forall_inv in FX. rewrite ticks_snoc in *. destruct (IH F) as (V & Q); [lia|]. rewrite app_comm_cons, app_assoc, told_snoc, quiet_snoc, Q.
  destruct (untouched k (all_told (evs ++ e :: mid)) x (Some (N.of_nat (ticks_in mid))) FX) as (-> & SG). split; [exact V|].
  destruct (is_tick x) eqn:TX.
  - destruct x; try discriminate TX. cbn [count snd]. unfold due, listening. rewrite V. fold (listening (all_told (evs ++ [e])) k). rewrite L. cbn [andb option_map]. unfold patience. replace (216 <? N.of_nat (ticks_in mid) + 1)%N with false by (symmetry; apply N.ltb_ge; lia). f_equal. lia.
  - rewrite Nat.add_0_r. rewrite <- (SG eq_refl) at 2. destruct x; try discriminate TX; reflexivity.
Qed.
Lemma noticed c s log : cell_ok c = true -> bs_reached c s log -> Forall (fun e => both_ways e = true) (events_of log) ->
  forall pre x mid cn t o m post k, entries log = pre ++ x :: mid ++ (UeTick cn t, o, m) :: post -> 1 <= k <= 4 -> alive k (fst (fst x)) = true -> listening (all_told (events (pre ++ [x]))) k = true ->
  Forall (fun e => touches k e = false) (events mid) -> ticks_in (events mid) = 216 -> In (OutInactive t k) o.
Proof.
  intros CO R B pre x mid cn t o m post k E K A L F T. replace (pre ++ x :: mid ++ (UeTick cn t, o, m) :: post) with ((pre ++ x :: mid) ++ (UeTick cn t, o, m) :: post) in E by (rewrite <- app_assoc; reflexivity).
  apply (proj1 (at_tick c s log CO R B _ _ _ _ _ _ k E)). split; [exact K|]. rewrite events_app in *. cbn [events map] in *. fold (events mid) in *.
  destruct (quiet_untouched k (events pre) _ (events mid) A L F) as (V & Q); [lia|]. unfold reported, due, listening. rewrite V, Q. fold (listening (all_told (events pre ++ [fst (fst x)])) k). rewrite L, T. reflexivity.
Qed.
Lemma still_none k v e : is_tick e = false -> revives k e = false -> sign 0%N k v e None = None.
Proof.
  intros T R. unfold revives in R. destruct e as [cn t|i pdu|r|ts data|t ts data|cc]; cbn [sign alive orb] in *; try reflexivity; try discriminate T.
  - now rewrite R.
  - rewrite ?orb_false_r in R. now rewrite R.
  - destruct cc; cbn [sign alive] in *; try reflexivity; rewrite ?orb_false_r in R.
    + destruct (upwards d); [|reflexivity]. cbn [andb] in R. now rewrite R.
    + destruct (upwards d); [|reflexivity]. destruct (ts =? k); [|reflexivity]. now destruct (vw_ul (v k)).
    + now rewrite R.
    + now destruct (ts =? k).
    + now destruct (ts =? k).
Qed.
Lemma quiet_none k evs mid : quiet k evs = None -> Forall (fun x => revives k x = false) mid -> quiet k (evs ++ mid) = None.
Proof.
  intros Q. induction mid as [|x mid IH] using rev_ind; intros F; [now rewrite app_nil_r|]. apply Forall_app in F. destruct F as (F & FX). apply Forall_inv in FX. rewrite app_assoc, quiet_snoc, (IH F).
  destruct (is_tick x) eqn:T; [destruct x; try discriminate T; cbn [count snd option_map]; now destruct (due _ _ _)|]. rewrite <- (still_none k (all_told (evs ++ mid)) x T FX) at 2. destruct x; try discriminate T; reflexivity.
Qed.
Lemma once c s log : cell_ok c = true -> bs_reached c s log -> Forall (fun e => both_ways e = true) (events_of log) ->
  forall pre cn t o m mid cn' t' o' m' post k, entries log = pre ++ (UeTick cn t, o, m) :: mid ++ (UeTick cn' t', o', m') :: post -> In (OutInactive t k) o ->
  Forall (fun e => revives k e = false) (events mid) -> ~ In (OutInactive t' k) o'.
Proof.
  intros CO R B pre cn t o m mid cn' t' o' m' post k E H F H'. pose proof (proj1 (at_tick c s log CO R B _ _ _ _ _ _ k E)) as (X & _). destruct (X H) as (_ & RP). clear X.
  replace (pre ++ (UeTick cn t, o, m) :: mid ++ (UeTick cn' t', o', m') :: post) with ((pre ++ [(UeTick cn t, o, m)] ++ mid) ++ (UeTick cn' t', o', m') :: post) in E by (rewrite <- !app_assoc; reflexivity).
  apply (proj1 (at_tick c s log CO R B _ _ _ _ _ _ k E)) in H'. destruct H' as (_ & H'). rewrite !events_app, app_assoc in H'. cbn [events map fst] in H'. fold (events mid) in H'. unfold reported, due in H'.
  rewrite quiet_none in H'; [rewrite andb_false_r in H'; discriminate H'| |exact F]. rewrite quiet_snoc. cbn [count snd]. unfold reported in RP. now rewrite RP.
Qed.

(** * A call nobody speaks in *)
Fixpoint quiet_ticks (n : nat) (t : tdma_time) : list um_event := match n with O => [] | Datatypes.S n => UeTick false t :: quiet_ticks n (add_timeslots t 1) end.
Definition ex_open : um_event := UeControl (CallControl.CtlOpen DirBoth 2 5).
Definition ex_silent : list um_event := ex_open :: quiet_ticks 218 (mk_time 2 1 1 0).
Definition notices (x : um_entry) : list (tdma_time * nat) := flat_map (fun o => match o with OutInactive t k => [(t, k)] | _ => [] end) (snd (fst x)).
Definition ex_says (log : list um_entry) : Prop := map notices (skipn 217 log) = [[]; [(mk_time 2 1 4 0, 2)]; []].
Lemma split_events xs : forall a e b, events xs = a ++ e :: b -> exists pre o m post, xs = pre ++ (e, o, m) :: post /\ events pre = a /\ events post = b.
Proof.
  induction xs as [|[[e0 o0] m0] xs IH]; intros a e b E; cbn [events map fst] in E; [destruct a; discriminate E|]. destruct a as [|x a].
  - injection E as -> <-. exists [], o0, m0, xs. auto.
  - injection E as -> E. destruct (IH _ _ _ E) as (pre & o & m & post & -> & <- & <-). exists ((x, o0, m0) :: pre), o, m, post. auto.
Qed.
Lemma run_events c evs : forall u u' xs, um_run c evs u = Ok (u', xs) -> events xs = evs.
Proof.
  induction evs as [|e evs IH]; intros u u' xs E; cbn [um_run] in E; [injection E as _ <-; reflexivity|]. bi E. destruct x as [[u1 o] m]. bi E. destruct x as [u2 l]. injection E as _ <-. cbn [events map fst]. f_equal. exact (IH _ _ _ E1).
Qed.
Lemma ran_log c evs (P : list um_entry -> Prop) : match (u0 <- umac_new c false ;; ' (_, log) <- um_run c evs u0 ;; Ok log) with Ok log => P log | _ => False end ->
  exists u0 u log, umac_new c false = Ok u0 /\ um_run c evs u0 = Ok (u, log) /\ P log.
Proof. destruct (umac_new c false) as [u0| |]; cbn [bind]; try contradiction. destruct (um_run c evs u0) as [[u log]| |] eqn:E; cbn [bind]; try contradiction. intros H. exists u0, u, log. auto. Qed.
Lemma quiet_fine n : forall t, Forall no_radio (quiet_ticks n t) /\ Forall bs_fine (map be_of (quiet_ticks n t)) /\ Forall (fun e => both_ways e = true) (map be_of (quiet_ticks n t)) /\ (forall k, Forall (fun e => touches k e = false) (quiet_ticks n t)).
Proof.
  induction n as [|n IH]; intros t; cbn [quiet_ticks map]; [repeat split; constructor|]. destruct (IH (add_timeslots t 1)) as (A & B & C & D). repeat split; try (constructor; [exact Logic.I|assumption]); try (constructor; [reflexivity|]; assumption).
  intros k. constructor; [reflexivity|apply D].
Qed.
Lemma ex_ran : exists u0 u log, umac_new DlFacts.ex_cell false = Ok u0 /\ um_run DlFacts.ex_cell (UeTick false (mk_time 1 1 1 0) :: ex_silent) u0 = Ok (u, log) /\ ex_says log.
Proof. apply ran_log. vm_compute. reflexivity. Qed.
Definition ex_tick1 : um_event := UeTick false (mk_time 2 1 4 0).
Definition ex_tick2 : um_event := UeTick false (mk_time 3 1 4 0).
Lemma ex_silent_is : ex_silent = ex_open :: quiet_ticks 216 (mk_time 2 1 1 0) ++ [ex_tick1; ex_tick2].
Proof. vm_compute. reflexivity. Qed.
Lemma ex_ticks : ticks_in (quiet_ticks 216 (mk_time 2 1 1 0)) = 216.
Proof. vm_compute. reflexivity. Qed.
Lemma ex_silence : exists s log pre x mid o1 m1 o2 m2, bs_reached DlFacts.ex_cell s log /\ Forall (fun e => both_ways e = true) (events_of log) /\
  entries log = pre ++ x :: mid ++ (ex_tick1, o1, m1) :: [] ++ [(ex_tick2, o2, m2)] /\ fst (fst x) = ex_open /\ alive 2 ex_open = true /\ listening (all_told (events (pre ++ [x]))) 2 = true /\
  Forall (fun e => touches 2 e = false) (events mid) /\ ticks_in (events mid) = 216 /\ In (OutInactive (mk_time 2 1 4 0) 2) o1 /\ ~ In (OutInactive (mk_time 3 1 4 0) 2) o2.
Proof.
  destruct ex_ran as (u0 & u & ulog & EN & E & _).
  pose proof (run_events _ _ _ _ _ E) as EV. rewrite ex_silent_is in EV, E. revert E EV. pose proof ex_ticks as ET. destruct (quiet_fine 216 (mk_time 2 1 1 0)) as (Q1 & Q2 & Q3 & Q4). specialize (Q4 2).
  revert ET Q1 Q2 Q3 Q4. generalize (quiet_ticks 216 (mk_time 2 1 1 0)). intros qs ET Q1 Q2 Q3 Q4 E EV.
  destruct (lifted DlFacts.ex_cell false u0 false (mk_time 1 1 1 0) (ex_open :: qs ++ [ex_tick1; ex_tick2]) u ulog eq_refl EN) as (s & log & R & _ & L & EO).
  - unfold vtime. cbn. lia.
  - constructor; [exact Logic.I|]. apply Forall_app. split; [exact Q1|]. repeat constructor.
  - cbn [map]. constructor; [reflexivity|]. rewrite map_app. apply Forall_app. split; [exact Q2|]. repeat constructor.
  - exact E.
  - destruct (split_events ulog [UeTick false (mk_time 1 1 1 0)] ex_open (qs ++ [ex_tick1; ex_tick2]) EV) as (pre & o & m & post & -> & E1 & E2).
    destruct (split_events post qs ex_tick1 [ex_tick2] E2) as (mid & o1 & m1 & post2 & -> & E3 & E4). destruct post2 as [|[[e2 o2] m2] [|]]; try discriminate E4. injection E4 as ->.
    assert (LP : length pre = 1) by (apply (f_equal (@length _)) in E1; unfold events in E1; rewrite map_length in E1; exact E1).
    exists s, log, pre, (ex_open, o, m), mid, o1, m1, o2, m2. split; [exact R|].
    assert (BW : Forall (fun e => both_ways e = true) (events_of log)).
    { rewrite EO. cbn [map]. constructor; [reflexivity|]. constructor; [reflexivity|]. rewrite map_app. apply Forall_app. split; [exact Q3|]. repeat constructor. }
    split; [exact BW|]. split; [exact L|]. split; [reflexivity|]. split; [reflexivity|]. split; [rewrite events_app, E1; reflexivity|]. rewrite E3. split; [exact Q4|]. split; [exact ET|].
    assert (IN : In (OutInactive (mk_time 2 1 4 0) 2) o1).
    { refine (noticed DlFacts.ex_cell s log eq_refl R BW pre (ex_open, o, m) mid false (mk_time 2 1 4 0) o1 m1 [(ex_tick2, o2, m2)] 2 L _ eq_refl _ _ _); [lia|rewrite events_app, E1; reflexivity|rewrite E3; exact Q4|rewrite E3; exact ET]. }
    split; [exact IN|].
    refine (once DlFacts.ex_cell s log eq_refl R BW (pre ++ (ex_open, o, m) :: mid) false (mk_time 2 1 4 0) o1 m1 [] false (mk_time 3 1 4 0) o2 m2 [] 2 _ IN _); [|constructor]. unfold entries. rewrite L. rewrite <- app_assoc. reflexivity.
Qed.

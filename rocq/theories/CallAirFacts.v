(** Call control and the base station together: from the histories of each to the histories of both. *)
From Verif Require Import Base AMap AMapOrder AMapOrderProofs Slotter SlotterSpec TdmaTime TdmaTimeProofs MacFields UmacCircuits UmacPrecomps UmacBs UmacSched SlotSpec LmacBs BsMac AirSpec AirRun AirFacts
  SilenceSpec SilenceFacts CmcePdus BrewRoute CircuitMgr CallControl CcSpec CcProofs CcInv CcHistory CcKeeps CallAirSpec CallAirProofs DlSlot.
From Verif Require AliveSpec AliveFacts.
From Verif Require CcFacts DlFacts.
Open Scope nat_scope.

(** ** One step of the station *)
Lemma do_events c es : forall s s' xs ws, um_do_all c es s = Ok (s', xs, ws) -> events xs = es.
Proof.
  induction es as [|e es IH]; intros s s' xs ws E; cbn [um_do_all] in E; [injection E as _ <- _; reflexivity|].
  bi E. destruct x as [[s1 x1] w1]. bi E. destruct x as [[s2 x2] w2]. injection E as _ <- _. unfold um_do in E0. bi E0. destruct x as [[u o] m]. bi E0. destruct x as [l w]. injection E0 as _ <- _.
  cbn [events map fst]. f_equal. exact (IH _ _ _ _ E1).
Qed.
Definition no_ctl (e : um_event) : Prop := match e with UeControl _ => False | _ => True end.
Lemma rx_no_ctl c t is : cell_ok c = true -> vtime t -> forall v s s' xs ws, Forall (ind_ok t) is -> good c v s -> rx_blocks c is s = Ok (s', xs, ws) -> Forall no_ctl (events xs).
Proof.
  intros CO V. induction is as [|i is IH]; intros v s s' xs ws F G E; cbn [rx_blocks] in E; [injection E as <- <- _; constructor|].
  bi E. bi E. destruct x0 as [[s1 x1] w1]. bi E. destruct x0 as [[s2 x2] w2]. injection E as <- <- _.
  destruct (rx_events c (st_lm s) t i x CO (proj1 (proj2 (proj2 (proj2 G)))) V (Forall_inv F) E0) as (EV & CA). destruct (marked_rx _ CA) as (CA1 & CA2 & TO).
  destruct (do_all_good c _ CO v s s1 x1 w1 EV CA1 CA2 G E1) as (G1 & _ & _). rewrite events_app. apply Forall_app. split.
  - rewrite (do_events _ _ _ _ _ _ E1). eapply Forall_impl; [|exact CA]. intros e H. destruct e; try contradiction H; exact Logic.I.
  - exact (IH _ _ _ _ _ (Forall_inv_tail F) G1 E2).
Qed.
Lemma step_events c e v s s' xs ws : cell_ok c = true -> bs_fine e -> good c v s -> bs_step c e s = Ok (s', xs, ws) ->
  match e with BeControl k => events xs = [UeControl k] | _ => Forall no_ctl (events xs) end.
Proof.
  intros CO F G E. destruct e as [cn t|ts bits|r|ts data|k]; cbn [bs_step bs_fine] in *.
  - rewrite (do_events _ _ _ _ _ _ E). repeat constructor.
  - destruct F as (l & ->). bi E. exact (rx_no_ctl c _ x CO (proj2 (proj2 (proj1 (proj2 (proj2 (proj2 G)))))) v s s' xs ws (split_ok _ _ _ _ E0) G E).
  - rewrite (do_events _ _ _ _ _ _ E). repeat constructor.
  - rewrite (do_events _ _ _ _ _ _ E). repeat constructor.
  - exact (do_events _ _ _ _ _ _ E).
Qed.
Lemma run_snoc c evs e : forall s s1 log s2 xs ws, bs_run c evs s = Ok (s1, log) -> bs_step c e s1 = Ok (s2, xs, ws) -> bs_run c (evs ++ [e]) s = Ok (s2, log ++ [(e, xs, ws)]).
Proof.
  induction evs as [|a evs IH]; intros s s1 log s2 xs ws E1 E2; cbn [bs_run app] in *.
  - injection E1 as -> <-. rewrite E2. reflexivity.
  - bi E1. destruct x as [[s0 x0] w0]. bi E1. destruct x as [s3 l3]. injection E1 as -> <-. rewrite E. cbn [bind]. rewrite (IH _ _ _ _ _ _ E0 E2). reflexivity.
Qed.
Lemma bs_more c s log e s' xs ws : bs_reached c s log -> bs_fine e -> bs_step c e s = Ok (s', xs, ws) -> bs_reached c s' (log ++ [(e, xs, ws)]).
Proof.
  intros (cn0 & s0 & cn & t & evs & A & B & C & D) F E. exists cn0, s0, cn, t, (evs ++ [e]). split; [exact A|]. split; [exact B|]. split; [apply Forall_app; auto|].
  exact (run_snoc c (BeTick cn t :: evs) e _ _ _ _ _ _ D E).
Qed.

(** ** Messages from call control *)
Definition ctl_of (evs : list um_event) : list call_ctl := flat_map (fun e => match e with UeControl k => [k] | _ => [] end) evs.
Lemma ctl_none evs : Forall no_ctl evs -> ctl_of evs = [].
Proof. induction 1 as [|e evs H F IH]; [reflexivity|]. destruct e; try contradiction H; exact IH. Qed.
Lemma told_ctl evs : forall v, fold_left told evs v = after_ctl v (ctl_of evs).
Proof. induction evs as [|e evs IH]; intros v; [reflexivity|]. cbn [fold_left ctl_of flat_map]. destruct e; cbn [app after_ctl fold_left]; apply IH. Qed.
Lemma ctl_app a b : ctl_of (a ++ b) = ctl_of a ++ ctl_of b.
Proof. apply flat_map_app. Qed.
Lemma ctl_ctl l : ctl_of (map UeControl l) = l.
Proof. induction l as [|k l IH]; [reflexivity|]. cbn. f_equal. exact IH. Qed.
Lemma after_app v a b : after_ctl v (a ++ b) = after_ctl (after_ctl v a) b.
Proof. apply fold_left_app. Qed.
Lemma entries_snoc B e xs ws : entries (B ++ [(e, xs, ws)]) = entries B ++ xs.
Proof. unfold entries. rewrite flat_map_app. cbn. now rewrite app_nil_r. Qed.

Lemma orderly_proper l : forall v, orderly v l -> Forall (fun k => proper k = true) l.
Proof. induction l as [|k l IH]; intros v H; constructor; [apply H|exact (IH _ (proj2 (proj2 H)))]. Qed.
Lemma proper_fine k : proper k = true -> bs_fine (BeControl k) /\ both_ways (BeControl k) = true.
Proof. destruct k as [[] ts u|[] ts| | | | | | |]; cbn [proper bs_fine marked both_ways not_down_only]; try discriminate; rewrite ?andb_true_iff; intuition. Qed.

(** ** The queue of silent timeslots *)
Lemma notices_app a b : notices (a ++ b) = notices a ++ notices b.
Proof. apply flat_map_app. Qed.

Section Joint.
Variables (cfg : cfg_route) (c : cell_cfg).
Hypothesis CO : cell_ok c = true.
Lemma joint_both j since L B : joint_reached cfg c j since L B ->
  history cfg 1023 (jo_cc j) since L /\ bs_reached c (jo_bs j) B /\ for_umac L = ctl_of (events (entries B)) ++ jo_down j /\ Forall (fun e => both_ways e = true) (events_of B).
Proof.
  induction 1 as [cn0 cn t s0 s B E1 V E2|j since L B e s q H IH FM E Bd|j since L B hint ts up s q H IH Up E Bd|j since L B e s xs ws H IH FC F E|j since L B k down s xs ws H IH D E]; cbn [jo_cc jo_bs jo_down].
  - split; [constructor|]. split; [exists cn0, s0, cn, t, []; auto|]. cbn [bs_run] in E2. bi E2. destruct x as [[s1 xs] ws]. cbn [bind] in E2. injection E2 as <- <-. split; [|repeat constructor].
    cbn [entries flat_map snd fst]. rewrite app_nil_r, app_nil_r. cbn [bs_step] in E. rewrite (do_events _ _ _ _ _ _ E). reflexivity.
  - destruct IH as (A1 & A2 & A3 & A4). split; [exact (history_step cfg 1023 _ _ _ e s q A1 E Bd)|]. split; [exact A2|]. split; [|exact A4]. now rewrite for_umac_app, A3, app_assoc.
  - destruct IH as (A1 & A2 & A3 & A4). split; [exact (history_step cfg 1023 _ _ _ _ s q A1 E Bd)|]. split; [exact A2|]. split; [|exact A4]. now rewrite for_umac_app, A3, app_assoc.
  - destruct IH as (A1 & A2 & A3 & A4). split; [exact A1|]. split; [exact (bs_more c _ _ _ _ _ _ A2 F E)|]. split.
    + pose proof (step_events c e _ _ _ _ _ CO F (proj1 (reached_good _ _ _ CO A2)) E) as SE. rewrite entries_snoc, events_app, ctl_app, A3, (ctl_none (events xs)), app_nil_r; [reflexivity|].
      destruct e; try discriminate FC; exact SE.
    + unfold events_of. rewrite map_app. apply Forall_app. split; [exact A4|]. repeat constructor. destruct e; try discriminate FC; reflexivity.
  - destruct IH as (A1 & A2 & A3 & A4). split; [exact A1|].
    assert (P : proper k = true). { destruct (history_G _ _ _ _ A1) as [_ P]. apply orderly_proper in P. rewrite A3, D in P. apply Forall_app in P. exact (Forall_inv (proj2 P)). }
    destruct (proper_fine k P) as [F BW]. split; [exact (bs_more c _ _ _ _ _ _ A2 F E)|]. split.
    + pose proof (step_events c (BeControl k) _ _ _ _ _ CO F (proj1 (reached_good _ _ _ CO A2)) E) as SE. cbn beta iota in SE.
      rewrite entries_snoc, events_app, ctl_app, SE, A3, D. cbn [ctl_of flat_map app]. now rewrite <- app_assoc.
    + unfold events_of. rewrite map_app. apply Forall_app. split; [exact A4|]. repeat constructor. exact BW.
Qed.
Definition all_ctl (B : list (bs_event * list um_entry * list (list N))) (D : list call_ctl) : list um_event := events (entries B) ++ map UeControl D.
Lemma joint_view j since L B : joint_reached cfg c j since L B -> all_told (all_ctl B (jo_down j)) = after_ctl (fun _ => idle_ts) (for_umac L).
Proof. intros H. destruct (joint_both _ _ _ _ H) as (_ & _ & A & _). unfold all_told, all_ctl. rewrite told_ctl, ctl_app, ctl_ctl, A. reflexivity. Qed.
Lemma joint_shows j since L B : joint_reached cfg c j since L B -> shows_calls (jo_cc j) (all_told (all_ctl B (jo_down j))).
Proof. intros H. rewrite (joint_view _ _ _ _ H). exact (history_shows _ _ _ _ (proj1 (joint_both _ _ _ _ H))). Qed.
Lemma ctl_bs j since L B : joint_reached cfg c j since L B -> bs_told (events_of B) = all_told (events (entries B)).
Proof.
  intros H. unfold all_told. rewrite told_ctl. unfold bs_told.
  enough (X : forall v, fold_left (fun v e => match e with BeControl k => told v (UeControl k) | _ => v end) (events_of B) v = after_ctl v (ctl_of (events (entries B)))) by apply X.
  induction H as [cn0 cn t s0 s B E1 V E2|j since L B e s q H IH FM E Bd|j since L B hint ts up s q H IH Up E Bd|j since L B e s xs ws H IH FC F E|j since L B k down s xs ws H IH D E]; intros v; try apply IH.
  - cbn [bs_run] in E2. bi E2. destruct x as [[s1 xs] ws]. cbn [bind] in E2. injection E2 as <- <-. cbn [entries flat_map snd fst]. rewrite app_nil_r. cbn [bs_step] in E. rewrite (do_events _ _ _ _ _ _ E). reflexivity.
  - pose proof (joint_both _ _ _ _ H) as (_ & A2 & _). pose proof (step_events c e _ _ _ _ _ CO F (proj1 (reached_good _ _ _ CO A2)) E) as SE.
    unfold events_of in *. rewrite map_app, fold_left_app, IH, entries_snoc, events_app, ctl_app, (ctl_none (events xs)), app_nil_r; destruct e; try discriminate FC; try exact SE; reflexivity.
  - pose proof (joint_both _ _ _ _ H) as (A1 & A2 & A3 & _).
    assert (P : proper k = true). { destruct (history_G _ _ _ _ A1) as [_ P]. apply orderly_proper in P. rewrite A3, D in P. apply Forall_app in P. exact (Forall_inv (proj2 P)). }
    pose proof (step_events c (BeControl k) _ _ _ _ _ CO (proj1 (proper_fine k P)) (proj1 (reached_good _ _ _ CO A2)) E) as SE. cbn beta iota in SE.
    unfold events_of in *. rewrite map_app, fold_left_app, IH, entries_snoc, events_app, ctl_app, SE, after_app. reflexivity.
Qed.

(** what the radios find *)
Lemma agree j since L B : joint_reached cfg c j since L B -> shows_calls (jo_cc j) (after_ctl (bs_told (events_of B)) (jo_down j)).
Proof.
  intros H. pose proof (joint_shows _ _ _ _ H) as A. rewrite (ctl_bs _ _ _ _ H). unfold all_told, all_ctl in A. rewrite told_ctl, ctl_app, ctl_ctl in A. unfold all_told. rewrite told_ctl, <- after_app. exact A.
Qed.
Lemma burst_shows j since L B cn t s xs ws : joint_reached cfg c j since L B -> jo_down j = [] -> bs_step c (BeTick cn t) (jo_bs j) = Ok (s, xs, ws) ->
  exists w view, ws = [b2b w] /\ burst_true c cn t view w /\ shows_calls (jo_cc j) view.
Proof.
  intros H D E. pose proof (agree _ _ _ _ H) as A. rewrite D in A. cbn [after_ctl fold_left] in A.
  destruct (joint_both _ _ _ _ H) as (_ & A2 & _). pose proof (bs_more c _ _ (BeTick cn t) _ _ _ A2 Logic.I E) as A3.
  destruct (bursts c _ _ CO A3 B (BeTick cn t) xs ws [] eq_refl) as (w & W1 & W2). exists w, (bs_told (events_of B)). auto.
Qed.
Lemma all_proper j since L B : joint_reached cfg c j since L B -> orderly (fun _ => idle_ts) (for_umac L).
Proof. intros H. exact (proj2 (history_G _ _ _ _ (proj1 (joint_both _ _ _ _ H)))). Qed.

(** ** Silence *)
Lemma listening_call s v k : NoDup (akeys (cc_active s)) -> shows_calls s v -> listening v k = true -> exists id x, call_of s id = Some x /\ ac_ts x = k /\ ac_tx x = true.
Proof.
  intros ND [A B] H. destruct (existsb (fun p => ac_ts (snd p) =? k) (cc_active s)) eqn:Ex.
  - apply existsb_exists in Ex. destruct Ex as ([id x] & Hin & Et). cbn [snd] in Et. apply Nat.eqb_eq in Et. exists id, x.
    assert (Hk : call_of s id = Some x) by (apply in_aget; assumption). split; [exact Hk|]. split; [exact Et|].
    unfold listening in H. rewrite <- Et, (A id x Hk) in H. cbn in H. now rewrite negb_involutive in H.
  - exfalso. unfold listening in H. rewrite (B k) in H; [discriminate|]. intros id x Hx Et.
    assert (Y : existsb (fun p => ac_ts (snd p) =? k) (cc_active s) = true); [|congruence].
    apply existsb_exists. exists (id, x). split; [now apply aget_in|]. cbn [snd]. now apply Nat.eqb_eq.
Qed.
Lemma nodup_calls s since L : history cfg 1023 s since L -> NoDup (akeys (cc_active s)).
Proof. intros H. exact (w_nodup _ _ _ (W_reachable cfg s (history_reachable _ _ _ _ _ H))). Qed.
Lemma joint_speaks j since L B k : joint_reached cfg c j since L B -> listening (all_told (all_ctl B (jo_down j))) k = true ->
  exists id x, call_of (jo_cc j) id = Some x /\ ac_ts x = k /\ ac_tx x = true.
Proof. intros H Li. exact (listening_call _ _ k (nodup_calls _ _ _ (proj1 (joint_both _ _ _ _ H))) (joint_shows _ _ _ _ H) Li). Qed.

Lemma inactivity_says hint ts s s' q : NoDup (akeys (cc_active s)) -> ul_inactivity cfg hint ts s = Ok (s', q) ->
  (exists id, for_umac q = [CtlFloorReleased id ts]) \/ (s' = s /\ q = [] /\ forall id x, call_of s id = Some x -> ac_ts x = ts -> ac_tx x = false).
Proof.
  intros ND E. unfold ul_inactivity in E. destruct (find _ _) as [[id x]|] eqn:Ef.
  - left. apply find_some_in in Ef; [|exact ND]. destruct Ef as [Ec Eb]. cbn [snd] in Eb. apply andb_true_iff in Eb. destruct Eb as [Ets _]. apply Nat.eqb_eq in Ets. subst ts. exists id.
    apply andthen_ok in E. destruct E as (s1 & q1 & q2 & E1 & E2 & ->). pose proof (tx_ceased_still _ _ _ _ _ _ E1) as Q1. apply tx_ceased_same in E1. subst s1.
    apply andthen_ok in E2. destruct E2 as (s1 & q3 & q4 & E1 & E2 & ->). apply umac_same in E1. destruct E1 as [-> ->].
    apply when_brew_same in E2. destruct E2 as [-> ->]. rewrite for_umac_app, Q1. cbn [app for_umac flat_map]. change (flat_map _ ?l) with (for_umac l). now rewrite brew_still.
  - right. injection E as <- <-. split; [reflexivity|]. split; [reflexivity|]. intros id x Hx Et. destruct (ac_tx x) eqn:Tx; [|reflexivity]. exfalso.
    apply find_none with (x := (id, x)) in Ef; [|apply arrange_in; [exact ND|exact Hx]]. cbn [snd] in Ef. rewrite Et, Nat.eqb_refl, Tx in Ef. discriminate.
Qed.
End Joint.

(** ** Counting the silence *)
Import SilenceSpec.
Lemma counted_pair k evs : counted k evs = (all_told evs, quiet k evs).
Proof. unfold quiet. rewrite <- (counted_view k evs). now destruct (counted k evs). Qed.
Lemma counted_app k a b : counted k (a ++ b) = fold_left (count k) b (counted k a).
Proof. unfold counted. apply fold_left_app. Qed.
(** control messages keep this: where somebody has the floor the count is on, unless ... *)
Lemma ctl_keeps k (R : Prop) l : forall v n, orderly v l -> (listening v k = true -> n <> None \/ R) ->
  let x := fold_left (count k) (map UeControl l) (v, n) in listening (fst x) k = true -> snd x <> None \/ R.
Proof.
  induction l as [|a l IH]; intros v n O H; cbn [map fold_left]; [exact H|]. destruct O as (P & Q & O).
  change (count k (v, n) (UeControl a)) with (told v (UeControl a), sign 0%N k v (UeControl a) n). apply IH; [exact O|]. clear IH O.
  unfold listening in *. destruct a as [[] ts u|[] ts|id so de ts|id ts|id ts| | | |]; cbn [proper] in P; try discriminate P; cbn [told sign upwards]; unfold at_ts; rewrite (Nat.eqb_sym k ts); destruct (Nat.eqb_spec ts k) as [->|]; try exact H; cbn; intros X.
  - left. discriminate.
  - discriminate X.
  - left. discriminate.
  - destruct (vw_ul (v k)); discriminate X.
  - rewrite Q in X. discriminate X.
Qed.
Lemma ctl_mono k (R : Prop) l : forall v n1 n2, (n1 <> None -> n2 <> None \/ R) ->
  snd (fold_left (count k) (map UeControl l) (v, n1)) <> None -> snd (fold_left (count k) (map UeControl l) (v, n2)) <> None \/ R.
Proof.
  induction l as [|a l IH]; intros v n1 n2 H; cbn [map fold_left]; [exact H|].
  change (count k (v, n1) (UeControl a)) with (told v (UeControl a), sign 0%N k v (UeControl a) n1). change (count k (v, n2) (UeControl a)) with (told v (UeControl a), sign 0%N k v (UeControl a) n2).
  apply IH. destruct a as [d ts u|d ts|id so de ts|id ts|id ts| | | |]; cbn [sign]; try exact H; try (destruct (upwards d); [|exact H]); destruct (ts =? k); try exact H; try (intros _; left; discriminate); try (intros X; now contradiction X).
  destruct (vw_ul (v k)); [intros X; now contradiction X|exact H].
Qed.
(** the upper MAC goes on counting, or reports *)
Lemma air_counts k : 1 <= k <= 4 -> forall xs log, says_all (log ++ xs) -> Forall no_ctl (events xs) ->
  all_told (events (log ++ xs)) = all_told (events log) /\ (quiet k (events log) <> None -> quiet k (events (log ++ xs)) <> None \/ In k (CallAirSpec.notices xs)).
Proof.
  intros K. induction xs as [|[[e o] m] xs IH]; intros log S F; [rewrite app_nil_r; auto|].
  pose proof (app_assoc log [(e, o, m)] xs) as AA. cbn [app] in AA. change um_entry with (um_event * list um_out * list TxReceipt.tx_reporter)%type in *. rewrite AA in *.
  destruct (IH _ S (Forall_inv_tail F)) as [A B]. rewrite A. clear IH.
  assert (T : all_told (events (log ++ [(e, o, m)])) = all_told (events log)). { rewrite events_snoc, told_snoc. pose proof (Forall_inv F) as F1. cbn [fst] in F1. destruct e; try contradiction F1; reflexivity. }
  split; [exact T|]. intros H. assert (E : entry_says (events log) e o). { apply (S log e o m xs). now rewrite <- app_assoc. }
  change (CallAirSpec.notices ((e, o, m) :: xs)) with (flat_map (fun o => match o with OutInactive _ ts => [ts] | _ => [] end) o ++ CallAirSpec.notices xs).
  rewrite in_app_iff. enough (X : quiet k (events (log ++ [(e, o, m)])) <> None \/ In k (flat_map (fun o => match o with OutInactive _ ts => [ts] | _ => [] end) o)) by (destruct X as [X|X]; [destruct (B X); auto|auto]).
  rewrite events_snoc, quiet_snoc. pose proof (Forall_inv F) as F1. cbn [fst] in F1. cbn [count snd]. destruct e as [cn t|i b|r|ts d|t ts d|a]; try contradiction F1; cbn [sign] in *.
  - cbn [entry_says] in E. destruct E as (slot & ->). fold (reported k (events log)). destruct (reported k (events log)) eqn:R; [|left; destruct (quiet k (events log)); [discriminate|assumption]].
    right. apply in_flat_map. exists (OutInactive t k). split; [apply in_tick; auto|now left].
  - left. exact H.
  - left. exact H.
  - left. destruct (ts =? k); [|exact H]. destruct (vw_ul _); [discriminate|exact H].
  - left. destruct (ts =? k); [discriminate|exact H].
Qed.

Section Silence.
Variables (cfg : cfg_route) (c : cell_cfg).
Hypothesis CO : cell_ok c = true.
Lemma joint_counts k j since L B : 1 <= k <= 4 -> joint_reached cfg c j since L B ->
  listening (all_told (all_ctl B (jo_down j))) k = true -> quiet k (all_ctl B (jo_down j)) <> None \/ In k (jo_up j).
Proof.
  intros K H. induction H as [cn0 cn t s0 s B E1 V E2|j since L B e s q H IH FM E Bd|j since L B hint ts up s q H IH Up E Bd|j since L B e s xs ws H IH FC F E|j since L B k0 down s xs ws H IH D E]; cbn [jo_cc jo_bs jo_down jo_up].
  - cbn [bs_run] in E2. bi E2. destruct x as [[s1 xs] ws]. cbn [bind] in E2. injection E2 as <- <-. unfold all_ctl. cbn [entries flat_map snd fst map]. rewrite !app_nil_r. cbn [bs_step] in E. rewrite (do_events _ _ _ _ _ _ E). discriminate.
  - pose proof (all_proper cfg c CO _ _ _ _ (joint_call cfg c j since L B e s q H FM E Bd)) as O. rewrite for_umac_app in O. apply orderly_app in O. destruct O as [_ O]. rewrite <- (joint_view cfg c CO _ _ _ _ H) in O.
    pose proof (ctl_keeps k (In k (jo_up j)) _ _ _ O IH) as X. cbn zeta in X. rewrite <- counted_pair, <- counted_app, counted_pair in X. unfold all_ctl in *. rewrite map_app, app_assoc. exact X.
  - pose proof (joint_up cfg c j since L B hint ts up s q H Up E Bd) as H'. pose proof (all_proper cfg c CO _ _ _ _ H') as O. rewrite for_umac_app in O. apply orderly_app in O. destruct O as [_ O]. rewrite <- (joint_view cfg c CO _ _ _ _ H) in O.
    unfold all_ctl in *. rewrite map_app, app_assoc. destruct (Nat.eq_dec ts k) as [->|Nk].
    + intros Li. exfalso. cbn [cc_step rx_call_control] in E. destruct (inactivity_says cfg hint k _ s q (nodup_calls cfg _ _ _ (proj1 (joint_both cfg c CO _ _ _ _ H))) E) as [(id & Q)|(-> & -> & Q)].
      * rewrite Q in Li. cbn [map] in Li. rewrite told_snoc in Li. cbn [told] in Li. unfold listening, at_ts in Li. rewrite Nat.eqb_refl in Li. cbn in Li. destruct (vw_ul _); discriminate Li.
      * cbn [for_umac flat_map map] in Li. rewrite app_nil_r in Li. destruct (joint_speaks cfg c CO _ _ _ _ k H Li) as (id & x & A1 & A2 & A3). rewrite (Q id x A1 A2) in A3. discriminate A3.
    + assert (IH' : listening (all_told (events (entries B) ++ map UeControl (jo_down j))) k = true -> quiet k (events (entries B) ++ map UeControl (jo_down j)) <> None \/ In k up).
      { intros Li. destruct (IH Li) as [X|X]; [now left|]. rewrite Up in X. destruct X as [X|X]; [contradiction|now right]. }
      pose proof (ctl_keeps k (In k up) _ _ _ O IH') as X. cbn zeta in X. rewrite <- counted_pair, <- counted_app, counted_pair in X. exact X.
  - destruct (joint_both cfg c CO _ _ _ _ H) as (A1 & A2 & A3 & A4). pose proof (step_events c e _ _ _ _ _ CO F (proj1 (reached_good _ _ _ CO A2)) E) as SE.
    assert (NC : Forall no_ctl (events xs)) by (destruct e; try discriminate FC; exact SE).
    pose proof (joint_air cfg c j since L B e s xs ws H FC F E) as H'. destruct (joint_both cfg c CO _ _ _ _ H') as (_ & A2' & _ & A4').
    pose proof (proj2 (proj2 (proj2 (station_watched c _ _ CO A2' A4')))) as SA. rewrite entries_snoc in SA. destruct (air_counts k K xs (entries B) SA NC) as [T N].
    unfold all_ctl in *. rewrite entries_snoc, in_app_iff.
    assert (P : forall evs, counted k (evs ++ map UeControl (jo_down j)) = fold_left (count k) (map UeControl (jo_down j)) (all_told evs, quiet k evs)) by (intros evs; now rewrite counted_app, counted_pair).
    assert (V : all_told (events (entries B ++ xs) ++ map UeControl (jo_down j)) = all_told (events (entries B) ++ map UeControl (jo_down j))).
    { unfold all_told in *. rewrite fold_left_app. rewrite T. now rewrite <- fold_left_app. }
    intros Li. rewrite V in Li. destruct (IH Li) as [X|X]; [|auto]. unfold quiet in X |- * at 1. rewrite P in X. rewrite P, T.
    destruct (ctl_mono k (In k (CallAirSpec.notices xs)) (jo_down j) (all_told (events (entries B))) _ _ N X); auto.
  - destruct (joint_both cfg c CO _ _ _ _ H) as (A1 & A2 & A3 & A4).
    assert (Pk : proper k0 = true). { destruct (history_G _ _ _ _ A1) as [_ P]. apply orderly_proper in P. rewrite A3, D in P. apply Forall_app in P. exact (Forall_inv (proj2 P)). }
    pose proof (step_events c (BeControl k0) _ _ _ _ _ CO (proj1 (proper_fine k0 Pk)) (proj1 (reached_good _ _ _ CO A2)) E) as SE. cbn beta iota in SE.
    unfold all_ctl in *. rewrite entries_snoc, events_app, SE, <- app_assoc. change ([UeControl k0] ++ map UeControl down) with (map UeControl (k0 :: down)). rewrite <- D, in_app_iff. intros Li. destruct (IH Li); auto.
Qed.

(** the count is that of the ticks since a sign of life, and at most three multiframes *)
Lemma quiet_since k evs : forall n, quiet k evs = Some n -> exists pre e post, evs = pre ++ e :: post /\ revives k e = true /\ N.of_nat (ticks_in post) = n.
Proof.
  induction evs as [|e evs IH] using rev_ind; intros n H; [discriminate H|]. rewrite quiet_snoc in H. cbn [count snd] in H.
  assert (more : forall m, quiet k evs = Some m -> (n = m + (if is_tick e then 1 else 0))%N -> exists pre e0 post, evs ++ [e] = pre ++ e0 :: post /\ revives k e0 = true /\ N.of_nat (ticks_in post) = n).
  { intros m Q ->. destruct (IH m Q) as (pre & e0 & post & -> & R & T). exists pre, e0, (post ++ [e]). split; [now rewrite <- app_assoc|]. split; [exact R|]. rewrite ticks_snoc. destruct (is_tick e); lia. }
  assert (new : revives k e = true -> n = 0%N -> exists pre e0 post, evs ++ [e] = pre ++ e0 :: post /\ revives k e0 = true /\ N.of_nat (ticks_in post) = n) by (intros R ->; now exists evs, e, []).
  unfold revives, alive in new. destruct e as [cn t|i b|r|ts d|t ts d|a]; cbn [sign is_tick] in *.
  - destruct (due _ _ _); [discriminate H|]. destruct (quiet k evs) as [m|]; [|discriminate H]. cbn [option_map] in H. injection H as <-. apply (more m eq_refl). lia.
  - apply (more n H). lia.
  - apply (more n H). lia.
  - destruct (ts =? k); [|apply (more n H); lia]. destruct (vw_ul _); [|apply (more n H); lia]. injection H as <-. now apply new.
  - destruct (ts =? k); [|apply (more n H); lia]. injection H as <-. now apply new.
  - destruct a as [d ts u|d ts|id so de ts|id ts|id ts| | | |]; cbn [sign] in *; try (apply (more n H); lia).
    + destruct (upwards d); [|apply (more n H); lia]. destruct (ts =? k); [|apply (more n H); lia]. injection H as <-. now apply new.
    + destruct (upwards d); [|apply (more n H); lia]. destruct (ts =? k); [|apply (more n H); lia]. destruct (vw_ul _); [discriminate H|apply (more n H); lia].
    + destruct (ts =? k); [|apply (more n H); lia]. injection H as <-. now apply new.
    + destruct (ts =? k); [discriminate H|apply (more n H); lia].
    + destruct (ts =? k); [discriminate H|apply (more n H); lia].
Qed.
Lemma quiet_bounded k evs : Forall (fun e => not_down_only e = true) evs -> listening (all_told evs) k = true -> at_most 216 (quiet k evs).
Proof.
  induction evs as [|e evs IH] using rev_ind; intros F; [discriminate|]. apply Forall_app in F. destruct F as [F F1]. apply Forall_inv in F1. specialize (IH F). rewrite told_snoc, quiet_snoc. cbn [count snd].
  unfold listening in *. destruct e as [cn t|i b|r|ts d|t ts d|a]; cbn [told sign]; try exact IH.
  - intros Li. specialize (IH Li). unfold due, listening. rewrite Li. cbn [andb]. destruct (quiet k evs) as [n|]; [|exact Logic.I]. destruct (N.ltb_spec patience (n + 1)); [exact Logic.I|]. unfold patience in *. cbn [option_map at_most] in *. lia.
  - intros Li. destruct (ts =? k); [|exact (IH Li)]. destruct (vw_ul _); [cbn; lia|exact (IH Li)].
  - intros Li. destruct (ts =? k); [cbn; lia|exact (IH Li)].
  - destruct a as [d ts u|d ts|id so de ts|id ts|id ts| | | |]; cbn [told sign]; try exact IH; unfold at_ts; rewrite (Nat.eqb_sym k ts); destruct (Nat.eqb_spec ts k) as [->|]; try (destruct d); cbn [upwards]; try exact IH; try discriminate F1; try (intros _; cbn; lia); try (intros _; exact Logic.I); cbn; discriminate.
Qed.

Lemma after_range l : Forall (fun k => proper k = true) l -> forall v k, ~ (2 <= k <= 4) -> v k = idle_ts -> after_ctl v l k = idle_ts.
Proof.
  induction 1 as [|a l P _ IH]; intros v k K V; [exact V|]. unfold after_ctl. cbn [fold_left]. apply IH; [exact K|].
  destruct a as [[] ts u|[] ts|id so de ts|id ts|id ts| | | |]; cbn [proper] in P; try discriminate P; cbn [told]; unfold at_ts; repeat (apply andb_true_iff in P; destruct P as [P ?]);
    repeat match goal with H : (_ <=? _) = true |- _ => apply Nat.leb_le in H end; (destruct (Nat.eqb_spec k ts) as [->|]; [lia|exact V]).
Qed.
Lemma call_slot j since L B id x : joint_reached cfg c j since L B -> call_of (jo_cc j) id = Some x -> 2 <= ac_ts x <= 4.
Proof.
  intros H Hx. pose proof (proj1 (joint_shows cfg c CO _ _ _ _ H) id x Hx) as V. rewrite (joint_view cfg c CO _ _ _ _ H) in V.
  destruct (Nat.leb_spec 2 (ac_ts x)), (Nat.leb_spec (ac_ts x) 4); try lia; rewrite after_range in V; try discriminate V; try reflexivity; try lia; exact (orderly_proper _ _ (all_proper cfg c CO _ _ _ _ H)).
Qed.
(** whoever has the floor spoke, or was given it, at most three multiframes ago, unless the report of the silence is on its way *)
Lemma heard_lately j since L B id x : joint_reached cfg c j since L B -> jo_down j = [] -> call_of (jo_cc j) id = Some x -> ac_tx x = true ->
  In (ac_ts x) (jo_up j) \/ exists pre a post, entries B = pre ++ a :: post /\ revives (ac_ts x) (fst (fst a)) = true /\ ticks_in (events post) <= 216.
Proof.
  intros H D Hx Tx. pose proof (call_slot _ _ _ _ _ _ H Hx) as K. destruct (joint_both cfg c CO _ _ _ _ H) as (A1 & A2 & A3 & A4).
  pose proof (proj1 (joint_shows cfg c CO _ _ _ _ H) id x Hx) as V. pose proof (joint_counts (ac_ts x) _ _ _ _ ltac:(lia) H) as J. unfold all_ctl in *. rewrite D in V, J. cbn [map] in V, J. rewrite app_nil_r in V, J.
  assert (Li : listening (all_told (events (entries B))) (ac_ts x) = true) by (unfold listening; rewrite V; cbn; now rewrite Tx). specialize (J Li).
  destruct J as [J|J]; [right|now left]. destruct (quiet (ac_ts x) (events (entries B))) as [n|] eqn:Q; [clear J|now contradiction J].
  assert (ND : Forall (fun e => not_down_only e = true) (events (entries B))).
  { apply Forall_forall. intros e IN. destruct e as [| | | | |k]; try reflexivity. pose proof (orderly_proper _ _ (all_proper cfg c CO _ _ _ _ H)) as P. rewrite A3 in P. apply Forall_app in P. destruct P as [P _]. rewrite Forall_forall in P.
    apply proper_fine. apply P. apply in_flat_map. exists (UeControl k). split; [exact IN|now left]. }
  pose proof (quiet_bounded _ _ ND Li) as M. rewrite Q in M. cbn [at_most] in M.
  destruct (quiet_since _ _ _ Q) as (pre & e & post & E & R & T). destruct (split_events _ _ _ _ E) as (p1 & o & m & p2 & E' & E1 & E2).
  exists p1, (e, o, m), p2. split; [exact E'|]. split; [exact R|]. rewrite E2. lia.
Qed.
(** a silence is reported where somebody has the floor *)
Lemma says_listens k : forall xs log, says_all (log ++ xs) -> Forall no_ctl (events xs) -> In k (CallAirSpec.notices xs) -> listening (all_told (events log)) k = true.
Proof.
  induction xs as [|[[e o] m] xs IH]; intros log S F IN; [contradiction IN|].
  pose proof (app_assoc log [(e, o, m)] xs) as AA. cbn [app] in AA. change um_entry with (um_event * list um_out * list TxReceipt.tx_reporter)%type in *. pose proof S as S'. rewrite AA in S'.
  change (CallAirSpec.notices ((e, o, m) :: xs)) with (flat_map (fun o => match o with OutInactive _ ts => [ts] | _ => [] end) o ++ CallAirSpec.notices xs) in IN. apply in_app_iff in IN. destruct IN as [IN|IN].
  - specialize (S log e o m xs eq_refl). apply in_flat_map in IN. destruct IN as (y & I1 & I2). destruct y as [| | |t k'|]; try contradiction I2. destruct I2 as [->|[]].
    unfold entry_says in S. destruct e as [cn t'| | | | |]; try (assert (X : existsb is_notice o = true) by (apply existsb_exists; exists (OutInactive t k); split; [exact I1|reflexivity]); unfold no_notice in S; rewrite S in X; discriminate X).
    destruct S as (slot & ->). assert (t = t') as ->. { apply in_app_iff in I1. destruct I1 as [I1|[I1|[]]]; [|discriminate I1]. apply in_map_iff in I1. destruct I1 as (? & I1 & _). now injection I1. }
    apply in_tick in I1. destruct I1 as [_ R]. unfold reported, due in R. now apply andb_true_iff in R.
  - specialize (IH _ S' (Forall_inv_tail F) IN). rewrite events_snoc, told_snoc in IH. pose proof (Forall_inv F) as F1. cbn [fst] in F1. destruct e; try contradiction F1; exact IH.
Qed.
Lemma notice_true j since L B e s xs ws k : joint_reached cfg c j since L B -> jo_down j = [] -> from_cc e = false -> bs_fine e -> bs_step c e (jo_bs j) = Ok (s, xs, ws) -> In k (CallAirSpec.notices xs) ->
  exists id x, call_of (jo_cc j) id = Some x /\ ac_ts x = k /\ ac_tx x = true.
Proof.
  intros H D FC F E IN. destruct (joint_both cfg c CO _ _ _ _ H) as (A1 & A2 & A3 & A4). pose proof (step_events c e _ _ _ _ _ CO F (proj1 (reached_good _ _ _ CO A2)) E) as SE.
  assert (NC : Forall no_ctl (events xs)) by (destruct e; try discriminate FC; exact SE).
  destruct (joint_both cfg c CO _ _ _ _ (joint_air cfg c j since L B e s xs ws H FC F E)) as (_ & A2' & _ & A4').
  pose proof (proj2 (proj2 (proj2 (station_watched c _ _ CO A2' A4')))) as SA. rewrite entries_snoc in SA.
  apply (joint_speaks cfg c CO _ _ _ _ k H). unfold all_ctl. rewrite D. cbn [map]. rewrite app_nil_r. exact (says_listens k xs _ SA NC IN).
Qed.
(** the report takes the floor away, and nobody else's *)
Lemma report_ends j since L B hint ts up s q : joint_reached cfg c j since L B -> jo_up j = ts :: up -> cc_step cfg (EvControl hint (CtlUlInactivity ts)) (jo_cc j) = Ok (s, q) ->
  (forall id x, call_of (jo_cc j) id = Some x -> ac_ts x = ts -> ac_tx x = true -> exists x', call_of s id = Some x' /\ ac_ts x' = ts /\ ac_tx x' = false /\ ac_hang x' = Some (cc_dltime (jo_cc j)) /\ for_umac q = [CtlFloorReleased id ts]) /\
  (forall id x, call_of (jo_cc j) id = Some x -> ac_ts x <> ts -> call_of s id = Some x).
Proof.
  intros H Up E. destruct (joint_both cfg c CO _ _ _ _ H) as (A1 & _). pose proof (history_reachable _ _ _ _ _ A1) as R. split.
  - intros id x Hx Et Tx. destruct (CcKeeps.inactivity_hangs cfg _ _ _ hint ts s q id x A1 E Hx Et Tx) as (x' & B1 & B2 & B3 & B4). exists x'. repeat (split; [assumption|]).
    cbn [cc_step rx_call_control] in E. unfold ul_inactivity in E. pose proof (nodup_calls cfg _ _ _ A1) as ND.
    destruct (find _ _) as [[id' y]|] eqn:Ef.
    + apply find_some_in in Ef; [|exact ND]. destruct Ef as [Ec Eb]. cbn [snd] in Eb. apply andb_true_iff in Eb. destruct Eb as [Ets _]. apply Nat.eqb_eq in Ets.
      assert (id' = id) as ->. { apply (Inv_distinct _ _ _ _ _ _ (proj1 (history_inv _ _ _ _ A1)) Ec Hx). congruence. }
      apply andthen_ok in E. destruct E as (s1 & q1 & q2 & E1 & E2 & ->). pose proof (tx_ceased_still _ _ _ _ _ _ E1) as Q1. apply tx_ceased_same in E1. subst s1.
      apply andthen_ok in E2. destruct E2 as (s1 & q3 & q4 & E1 & E2 & ->). apply umac_same in E1. destruct E1 as [-> ->].
      apply when_brew_same in E2. destruct E2 as [-> ->]. rewrite for_umac_app, Q1. cbn [app for_umac flat_map]. change (flat_map _ ?l) with (for_umac l). now rewrite brew_still.
    + exfalso. apply find_none with (x := (id, x)) in Ef; [|apply arrange_in; [exact ND|exact Hx]]. cbn [snd] in Ef. rewrite Et, Nat.eqb_refl, Tx in Ef. discriminate.
  - intros id x Hx Ne. exact (CcKeeps.inactivity_others cfg _ hint ts s q id x R E Hx Ne).
Qed.
Lemma both j since L B : joint_reached cfg c j since L B -> bs_reached c (jo_bs j) B /\ history cfg 1023 (jo_cc j) since L /\ Forall (fun e => both_ways e = true) (events_of B).
Proof. intros H. destruct (joint_both cfg c CO _ _ _ _ H) as (A1 & A2 & _ & A4). auto. Qed.
(** the messages on their way can be delivered *)
Lemma ctl_events j since L B : joint_reached cfg c j since L B -> forall k, In (BeControl k) (events_of B) -> In k (for_umac L).
Proof.
  intros H. induction H as [cn0 cn t s0 s B E1 V E2|j since L B e s q H IH FM E Bd|j since L B hint ts up s q H IH Up E Bd|j since L B e s xs ws H IH FC F E|j since L B k0 down s xs ws H IH D E]; intros k IN.
  - rewrite (events_of_run _ _ _ _ _ E2) in IN. destruct IN as [IN|[]]. discriminate IN.
  - rewrite for_umac_app. apply in_app_iff. left. exact (IH k IN).
  - rewrite for_umac_app. apply in_app_iff. left. exact (IH k IN).
  - unfold events_of in IN. rewrite map_app in IN. apply in_app_iff in IN. destruct IN as [IN|[IN|[]]]; [exact (IH k IN)|]. cbn [fst] in IN. subst e. discriminate FC.
  - unfold events_of in IN. rewrite map_app in IN. apply in_app_iff in IN. destruct IN as [IN|[IN|[]]]; [exact (IH k IN)|]. cbn [fst] in IN. injection IN as <-.
    rewrite (proj1 (proj2 (proj2 (joint_both cfg c CO _ _ _ _ H)))), D. apply in_app_iff. right. now left.
Qed.
Lemma all_decent j since L B : joint_reached cfg c j since L B -> others_decent B -> Forall AliveSpec.decent (events_of B).
Proof.
  intros H O. unfold others_decent in O. rewrite Forall_forall in *. intros e IN. destruct e as [| | | |k]; try (apply O; [exact IN|reflexivity]).
  pose proof (orderly_proper _ _ (all_proper cfg c CO _ _ _ _ H)) as P. rewrite Forall_forall in P. specialize (P k (ctl_events _ _ _ _ H k IN)).
  destruct k as [[] ts u| | | | | | | |]; try exact Logic.I; try discriminate P. cbn [proper] in P. repeat (apply andb_true_iff in P; destruct P as [P ?]). apply Nat.leb_le in P. cbn. split; [exact P|]. now apply Nat.leb_le.
Qed.
Lemma deliverable j since L B k down : joint_reached cfg c j since L B -> others_decent B -> jo_down j = k :: down -> exists s xs, bs_step c (BeControl k) (jo_bs j) = Ok (s, xs, []).
Proof.
  intros H O D. destruct (joint_both cfg c CO _ _ _ _ H) as (A1 & A2 & A3 & A4). apply (AliveFacts.requests c (jo_bs j) B (BeControl k) CO A2 (all_decent _ _ _ _ H O)).
  pose proof (orderly_proper _ _ (all_proper cfg c CO _ _ _ _ H)) as P. rewrite A3, D in P. apply Forall_app in P. destruct P as [_ P]. apply Forall_inv in P. cbn beta in P.
  destruct k as [[] ts u|[] ts| | | | | | |]; try exact Logic.I; try discriminate P; cbn [proper] in P; repeat (apply andb_true_iff in P; destruct P as [P ?]); apply Nat.leb_le in P; cbn; (split; [lia|now apply Nat.leb_le]).
Qed.
Lemma delivered since L : forall D j B, joint_reached cfg c j since L B -> others_decent B -> jo_down j = D ->
  exists s B', joint_reached cfg c (mk_joint (jo_cc j) s [] (jo_up j)) since L (B ++ B') /\ events_of B' = map BeControl D.
Proof.
  induction D as [|k D IH]; intros j B H O E.
  - exists (jo_bs j), []. rewrite app_nil_r. split; [|reflexivity]. destruct j as [a b d u]. cbn [jo_cc jo_bs jo_down jo_up] in *. rewrite E in H. exact H.
  - destruct (deliverable _ _ _ _ _ _ H O E) as (s & xs & Es). pose proof (joint_down cfg c j since L B k D s xs [] H E Es) as H'.
    assert (Nn : CallAirSpec.notices xs = []).
    { destruct (joint_both cfg c CO _ _ _ _ H') as (_ & A2 & _ & A4). pose proof (proj2 (proj2 (proj2 (station_watched c _ _ CO A2 A4)))) as SA. rewrite entries_snoc in SA.
      destruct (joint_both cfg c CO _ _ _ _ H) as (A1 & A2' & A3 & _). assert (Pk : proper k = true). { destruct (history_G _ _ _ _ A1) as [_ P]. apply orderly_proper in P. rewrite A3, E in P. apply Forall_app in P. exact (Forall_inv (proj2 P)). }
      pose proof (step_events c (BeControl k) _ _ _ _ _ CO (proj1 (proper_fine k Pk)) (proj1 (reached_good _ _ _ CO A2')) Es) as SE. cbn beta iota in SE. destruct xs as [|[[e o] m] [|]]; try discriminate SE. injection SE as ->.
      specialize (SA _ _ _ _ _ eq_refl). cbn [entry_says] in SA. unfold CallAirSpec.notices. cbn [flat_map snd fst]. rewrite app_nil_r. unfold no_notice in SA. clear - SA. induction o as [|x o IH]; [reflexivity|]. cbn [existsb] in SA. apply orb_false_iff in SA. destruct SA as [X SA]. cbn [flat_map]. rewrite (IH SA). destruct x; try reflexivity. discriminate X. }
    rewrite Nn, app_nil_r in H'. assert (O' : others_decent (B ++ [(BeControl k, xs, [])])). { unfold others_decent, events_of. rewrite map_app. apply Forall_app. split; [exact O|]. constructor; [discriminate|constructor]. }
    destruct (IH _ _ H' O' eq_refl) as (s2 & B2 & H2 & E2). cbn [jo_cc jo_up] in H2. exists s2, ((BeControl k, xs, []) :: B2). split; [now rewrite <- app_assoc in H2|]. cbn [events_of map fst]. f_equal. exact E2.
Qed.
End Silence.

(** Call control: what the set-up messages say. *)
From Verif Require Import Base AMap AMapOrder AMapOrderProofs TdmaTime TimeslotAlloc MacFields UmacCircuits CmceFields CmcePdus BrewRoute CircuitMgr CallControl
  CcSpec CcProofs CcInv CcHistory.
Open Scope nat_scope.

(** A message that is not a set-up message. *)
Definition plain (m : cc_msg) : Prop := match m with ToMle _ r => match mr_pdu r with PdSetup _ => False | _ => True end | _ => True end.
Definition quiet (q : list cc_msg) : Prop := Forall plain q.

Lemma slot_mask_names ts m : slot_mask ts = Ok m -> names_slot m ts.
Proof.
  unfold slot_mask. intros H. destruct ts as [|[|[|[|[|ts]]]]]; try discriminate; injection H as <-; (split; [reflexivity|]);
    intros k Hk; (destruct k as [|[|[|[|]]]]; [reflexivity..|lia]).
Qed.

Lemma quiet_app q q' : quiet q -> quiet q' -> quiet (q ++ q').
Proof. intros A B. apply Forall_app. auto. Qed.

(** The set-up messages among [q] describe calls of [s]. *)
Definition truthful (s : cc) (q : list cc_msg) : Prop := forall t r p, In (ToMle t r) q -> mr_pdu r = PdSetup p -> announces s r p.
Lemma quiet_truthful s q : quiet q -> truthful s q.
Proof. intros Q t r p H E. unfold quiet in Q. rewrite Forall_forall in Q. specialize (Q _ H). cbn [plain] in Q. now rewrite E in Q. Qed.
Lemma truthful_app s q q' : truthful s q -> truthful s q' -> truthful s (q ++ q').
Proof. intros A B t r p H E. apply in_app_iff in H. destruct H; eauto. Qed.

Lemma setup_msg_inv p u ts t a rep m : setup_msg p u ts t a rep = Ok m ->
  exists k, names_slot k ts /\ m = ToMle t (mk_mle_req (PdSetup p) 0 0 0 false false (Some (mk_chan_req (Some u) k)) a rep).
Proof. unfold setup_msg. intros H. binv H. binv H. injection H as <-. exists x0. split; [now apply slot_mask_names|reflexivity]. Qed.

Lemma release_quiet cfg id cause s s' q : release_call cfg id cause s = Ok (s', q) -> quiet q.
Proof.
  unfold release_call. destruct (aget id (cc_cached s)) as [[p a]|]; [|intros H; injection H as <- <-; constructor].
  intros H. binv H. unfold release_msg in E. binv E. injection E as <-. destruct (aget id (cc_active s)).
  - binv H. match type of H with context [let (_, _) := ?y in _] => destruct y as [cl m] end. injection H as <- <-. constructor; [exact Logic.I|]. apply quiet_app; [destruct cl; repeat constructor|].
    constructor; [exact Logic.I|]. destruct (_ && _)%bool; repeat constructor.
  - injection H as <- <-. repeat constructor.
Qed.
Lemma each_quiet {A} (f : A -> cc_act) l : (forall x s s' q, f x s = Ok (s', q) -> quiet q) -> forall s s' q, each f l s = Ok (s', q) -> quiet q.
Proof.
  intros F. induction l as [|x t IH]; cbn [each]; intros s s' q E; [injection E as <- <-; constructor|].
  apply andthen_ok in E. destruct E as (s1 & q1 & q2 & E1 & E2 & ->). apply quiet_app; eauto.
Qed.
Lemma brew_quiet c s s' q : to_brew c s = Ok (s', q) -> quiet q.
Proof. intros H. injection H as <- <-. repeat constructor. Qed.
Lemma umac_quiet c s s' q : to_umac c s = Ok (s', q) -> quiet q.
Proof. intros H. injection H as <- <-. repeat constructor. Qed.
Lemma when_brew_quiet b c s s' q : when b (to_brew c) s = Ok (s', q) -> quiet q.
Proof. destruct b; [apply brew_quiet|intros H; injection H as <- <-; constructor]. Qed.
Lemma drop_quiet cfg hint g s s' q : drop_unlistened cfg hint g s = Ok (s', q) -> quiet q.
Proof.
  unfold drop_unlistened. destruct (has_listener g s); [intros H; injection H as <- <-; constructor|]. apply each_quiet. clear.
  intros [id c] s s' q E. apply andthen_ok in E. destruct E as (s1 & q1 & q2 & E1 & E2 & ->). apply quiet_app; [|now apply release_quiet in E2].
  destruct (ac_origin c); [injection E1 as <- <-; constructor|now apply when_brew_quiet in E1].
Qed.
Lemma update_quiet cfg hg hint issi groups action s s' q : subscriber_update cfg hg hint issi groups action s = Ok (s', q) -> quiet q.
Proof.
  unfold subscriber_update. destruct action.
  - destruct (aget _ _); intros H; injection H as <- <-; constructor.
  - destruct (aget _ _) as [ex|]; [|intros H; injection H as <- <-; constructor]. apply each_quiet. intros g s0 s1 q0. apply drop_quiet.
  - destruct (insert_groups _ _). intros H. injection H as <- <-. constructor.
  - destruct (aget _ _) as [ex|].
    + destruct (remove_groups _ _). apply each_quiet. intros g s0 s1 q0. apply drop_quiet.
    + apply each_quiet. intros g s0 s1 q0. apply drop_quiet.
Qed.
Lemma stealing_quiet n id t a ts m : stealing_msg n (tx_ceased_pdu id) t a ts = Ok m -> quiet [m].
Proof. unfold stealing_msg. intros H. binv H. binv H. injection H as <-. repeat constructor. Qed.
Lemma stealing_quiet' n id g w t a ts m : stealing_msg n (tx_granted_pdu id g w) t a ts = Ok m -> quiet [m].
Proof. unfold stealing_msg. intros H. binv H. binv H. injection H as <-. repeat constructor. Qed.
Lemma granted_quiet id sp g ts s s' q : send_tx_granted id sp g ts s = Ok (s', q) -> quiet q.
Proof. unfold send_tx_granted. intros H. binv H. injection H as <- <-. now apply stealing_quiet' in E. Qed.
Lemma ceased_quiet id g ts s s' q : send_tx_ceased id g ts s = Ok (s', q) -> quiet q.
Proof. unfold send_tx_ceased. intros H. binv H. injection H as <- <-. now apply stealing_quiet in E. Qed.

(** ** Set-up *)

(** What a step that changes only calls already there leaves behind. *)
Definition no_new (s s' : cc) : Prop := forall id, aget id (cc_active s) = None -> aget id (cc_active s') = None.

(** A new call is announced. *)
Definition announced (s s' : cc) (q : list cc_msg) : Prop := forall id c, call_of s id = None -> call_of s' id = Some c ->
  setup_sent s' id c q /\ caller_connected id c q.

Lemma setup_u_tells cfg i p s s' q : rx_u_setup cfg i p s = Ok (s', q) -> truthful s' q /\ announced s s' q.
Proof.
  intros E. unfold rx_u_setup in E.
  assert (Triv : Ok (s, []) = Ok (s', q) -> truthful s' q /\ announced s s' q).
  { intros H. injection H as <- <-. split; [apply quiet_truthful; constructor|]. intros id c H1 H2. congruence. }
  destruct (negb (feature_check p)); [auto|]. destruct (u_setup_called_party_ssi p) as [dest|]; [|auto]. destruct (negb (has_listener dest s)); [auto|]. clear Triv.
  binv E. destruct x as [[r m] slots]. destruct r as [ci|e].
  2:{ injection E as <- <-. split; [apply quiet_truthful; constructor|]. intros id c H1 H2. unfold call_of in *. cbn in H2. congruence. }
  binv E. binv E. binv E. injection E as <- <-.
  assert (Dir : ci_dir ci = DirBoth).
  { unfold cm_allocate in E0. destruct (ts_allocate_any _ _) as [[ts|] sl]; [|discriminate]. destruct (cm_take_call_id _) as [cid m1]. destruct (cm_take_usage m1) as [us m2].
    binv E0. destruct x2 as [e m3]. destruct e; [discriminate|]. injection E0 as <- <- <-. reflexivity. }
  unfold call_proceeding_msg in E1. binv E1. injection E1 as <-. unfold connect_caller_msg in E2. binv E2. binv E2. injection E2 as <-.
  apply setup_msg_inv in E3. destruct E3 as (k & Hk & ->). apply slot_mask_names in E4. rewrite Dir.
  match goal with |- truthful (cc_set_active (aset _ ?cl _) _) _ /\ _ => set (c0 := cl) end.
  match goal with |- truthful ?st _ /\ _ => set (s1 := st) end.
  assert (G : call_of s1 (ci_call ci) = Some c0) by (unfold s1, call_of; cbn [cc_set_active cc_active]; now rewrite aget_aset, N.eqb_refl).
  assert (An : announces s1 (mk_mle_req (PdSetup (local_setup i p (ci_call ci))) 0 0 0 false false (Some (mk_chan_req (Some (ci_usage ci)) k)) (gssi_addr dest) false)
                 (local_setup i p (ci_call ci))) by (exists c0, k; auto).
  split.
  - intros t r p' Hin Ep. cbn [app In] in Hin. destruct Hin as [H|[H|[H|[H|H]]]]; try (injection H as <- <-; cbn [mr_pdu] in Ep; discriminate); try discriminate.
    + injection H as <- <-. cbn [mr_pdu] in Ep. injection Ep as <-. exact An.
    + destruct (brew_gssi_routable _ _); [destruct H as [H|[]]; discriminate|destruct H].
  - intros id c Hn Hc. unfold call_of in Hn. assert (id = ci_call ci).
    { unfold s1, call_of in Hc. cbn [cc_set_active cc_active cc_set_cached cc_set_slots cc_set_circ] in Hc. rewrite aget_aset in Hc.
      destruct (N.eqb_spec id (ci_call ci)); [assumption|congruence]. }
    subst id. assert (c = c0) by congruence. subst c. split; [split|].
    + do 3 eexists. split; [cbn [app In]; right; right; right; left; reflexivity|]. split; [reflexivity|]. split; [reflexivity|]. split; [reflexivity|exact An].
    + eexists. left. reflexivity.
    + intros a Ha. cbn in Ha. injection Ha as <-. do 4 eexists. split; [right; right; left; reflexivity|]. repeat split; try reflexivity; apply E4.
Qed.

Lemma setup_n_tells cfg hint u src dest s s' q : keys s -> NoDup (akeys (cc_active s)) -> rx_network_call_start cfg hint u src dest s = Ok (s', q) ->
  truthful s' q /\ announced s s' q.
Proof.
  intros K ND E. unfold rx_network_call_start in E. binv E. destruct (negb (has_listener dest s)).
  - apply andthen_ok in E. destruct E as (s1 & q1 & q2 & E1 & E2 & ->). pose proof (brew_quiet _ _ _ _ E2) as Q2. apply brew_same in E2. destruct E2 as [-> ->].
    split; [apply quiet_truthful, quiet_app; [now apply drop_quiet in E1|assumption]|].
    pose proof (drop_released cfg hint dest s s1 q1 K ND E1) as R. intros id c Hn Hc. unfold call_of in *. rewrite (rl_active _ _ _ R) in Hc. destruct (_ : bool) in Hc; congruence.
  - destruct (find _ _) as [[id call]|] eqn:Ef.
    + apply find_some_in in Ef; [|assumption]. destruct Ef as [Ef _]. destruct (ac_tx call).
      * pose proof (brew_quiet _ _ _ _ E) as Q. apply brew_same in E. destruct E as [-> ->]. split; [now apply quiet_truthful|]. intros k c Hn Hc. congruence.
      * apply andthen_ok in E. destruct E as (s1 & q1 & q2 & E1 & E2 & ->). pose proof (granted_quiet _ _ _ _ _ _ _ E1) as Q1. apply tx_granted_same in E1. subst s1.
        apply andthen_ok in E2. destruct E2 as (s1 & q3 & q4 & E1 & E2 & ->). pose proof (umac_quiet _ _ _ _ E1) as Q3. apply umac_same in E1. destruct E1 as [-> ->].
        pose proof (brew_quiet _ _ _ _ E2) as Q4. apply brew_same in E2. destruct E2 as [-> ->].
        split; [apply quiet_truthful, quiet_app; [assumption|now apply quiet_app]|]. intros k c Hn Hc. unfold call_of in *. cbn [cc_set_active cc_active] in Hc.
        rewrite aget_aset in Hc. destruct (N.eqb_spec k id); congruence.
    + clear Ef. binv E. destruct x0 as [[r m] slots]. destruct r as [ci|e].
      2:{ injection E as <- <-. split; [apply quiet_truthful; constructor|]. intros id c H1 H2. unfold call_of in *. cbn in H2. congruence. }
      binv E. binv E. injection E as <- <-.
      assert (Dir : ci_dir ci = DirBoth).
      { unfold cm_allocate in E1. destruct (ts_allocate_any _ _) as [[ts|] sl]; [|discriminate]. destruct (cm_take_call_id _) as [cid m1]. destruct (cm_take_usage m1) as [us m2].
        binv E1. destruct x2 as [e m3]. destruct e; [discriminate|]. injection E1 as <- <- <-. reflexivity. }
      apply setup_msg_inv in E2. destruct E2 as (k & Hk & ->). unfold connect_group_msg in E3. binv E3. injection E3 as <-. rewrite Dir.
      match goal with |- truthful (cc_set_active (aset _ ?cl _) _) _ /\ _ => set (c0 := cl) end.
      match goal with |- truthful ?st _ /\ _ => set (s1 := st) end.
      assert (G : call_of s1 (ci_call ci) = Some c0) by (unfold s1, call_of; cbn [cc_set_active cc_active]; now rewrite aget_aset, N.eqb_refl).
      assert (An : announces s1 (mk_mle_req (PdSetup (network_setup (ci_call ci) src)) 0 0 0 false false (Some (mk_chan_req (Some (ci_usage ci)) k)) (gssi_addr dest) false)
                     (network_setup (ci_call ci) src)) by (exists c0, k; auto).
      split.
      * intros t r p' Hin Ep. cbn [In] in Hin. destruct Hin as [H|[H|[H|[H|[]]]]]; try discriminate.
        -- injection H as <- <-. cbn [mr_pdu] in Ep. injection Ep as <-. exact An.
        -- injection H as <- <-. cbn [mr_pdu] in Ep. discriminate.
      * intros id c Hn Hc. unfold call_of in Hn. assert (id = ci_call ci).
        { unfold s1, call_of in Hc. cbn [cc_set_active cc_active cc_set_cached cc_set_slots cc_set_circ] in Hc. rewrite aget_aset in Hc.
          destruct (N.eqb_spec id (ci_call ci)); [assumption|congruence]. }
        subst id. assert (c = c0) by congruence. subst c. split; [split|].
        -- do 3 eexists. split; [right; left; reflexivity|]. split; [reflexivity|]. split; [reflexivity|]. split; [reflexivity|exact An].
        -- eexists. left. reflexivity.
        -- intros a Ha. cbn in Ha. discriminate.
Qed.

(** ** Ticks *)
Lemma late_in now l : forall r, late_entries now l = Ok r -> forall k, In k r -> exists i ci, nth i l None = Some ci /\ k = SendDSetup (ci_call ci) (ci_usage ci) (ci_ts ci).
Proof.
  induction l as [|[x|] t IH]; intros r H k Hk; cbn [late_entries] in H; [injection H as <-; destruct Hk| |].
  - binv H. binv H. injection H as <-.
    assert (X : k = SendDSetup (ci_call x) (ci_usage x) (ci_ts x) \/ In k x1).
    { destruct (_ <? _)%Z; [destruct Hk as [<-|]; auto|]. destruct (_ =? _)%Z; [destruct Hk as [<-|]; auto|auto]. }
    destruct X as [->|X]; [exists 0, x; auto|]. destruct (IH _ E0 k X) as (i & ci & Hi). exists (S i), ci. exact Hi.
  - destruct (IH _ H k Hk) as (i & ci & Hi). exists (S i), ci. exact Hi.
Qed.
Lemma task_circ k s s' q : do_task k s = Ok (s', q) -> cc_circ s' = cc_circ s.
Proof.
  destruct k as [id u ts|id c]; cbn [do_task]; intros E.
  - destruct (aget id (cc_active s)) as [x|]; [destruct (present (ac_hang x)); [injection E as <- <-; reflexivity|]|];
      (destruct (aget id (cc_cached s)) as [[p a]|]; [binv E|]; injection E as <- <-; reflexivity).
  - binv E. injection E as <- <-. reflexivity.
Qed.
Lemma tasks_circ l : forall s s' q, each do_task l s = Ok (s', q) -> cc_circ s' = cc_circ s.
Proof.
  induction l as [|k t IH]; cbn [each]; intros s s' q E; [injection E as <- <-; reflexivity|].
  apply andthen_ok in E. destruct E as (s1 & q1 & q2 & E1 & E2 & ->). apply IH in E2. apply task_circ in E1. congruence.
Qed.

(** One late entry: the call exists, has its cached message and the parameters of its circuit. *)
Lemma late_tells v s s' q ci i : Inv v s -> (forall id c, aget id (cc_active s) = Some c -> ac_tx c = negb (present (ac_hang c))) ->
  dl_of s i = Some ci -> do_task (SendDSetup (ci_call ci) (ci_usage ci) (ci_ts ci)) s = Ok (s', q) -> truthful s' q.
Proof.
  intros I F D E. destruct (i_circ _ _ I _ _ D) as (T & _ & c & Hc & Ht). destruct (i_call _ _ I _ _ Hc) as (j & cj & Hj & Ej & _ & Dj & _ & Eu).
  assert (i = S j) by lia. subst i. assert (cj = ci) by congruence. subst cj.
  destruct (i_cached _ _ I _ _ Hc) as (p & Hp & Ip). cbn [do_task] in E. rewrite Hc, Hp in E. pose proof (F _ _ Hc) as Fl.
  destruct (present (ac_hang c)); [injection E as <- <-; apply quiet_truthful; constructor|]. binv E. injection E as <- <-.
  apply setup_msg_inv in E0. destruct E0 as (k & Hk & ->). intros t r p' [H|[]] Ep. injection H as <- <-. cbn [mr_pdu] in Ep. injection Ep as <-.
  exists c, k. cbn [set_grant d_setup_call_identifier]. rewrite Ip, Eu. unfold call_of. cbn [cc_set_cached cc_active mr_addr mr_chan].
  split; [assumption|]. split; [reflexivity|]. split; [reflexivity|]. split; [|exact Fl]. replace (ac_ts c) with (ci_ts ci) by lia. exact Hk.
Qed.
Lemma truthful_active s s' q : cc_active s' = cc_active s -> truthful s q -> truthful s' q.
Proof. intros A T t r p H E. destruct (T t r p H E) as (c & m & X). exists c, m. unfold call_of in *. now rewrite A. Qed.
Lemma lates_tell l : forall v s s' q, Inv v s -> (forall id c, aget id (cc_active s) = Some c -> ac_tx c = negb (present (ac_hang c))) ->
  (forall k, In k l -> exists i ci, dl_of s i = Some ci /\ k = SendDSetup (ci_call ci) (ci_usage ci) (ci_ts ci)) ->
  each do_task l s = Ok (s', q) -> truthful s' q /\ cc_active s' = cc_active s.
Proof.
  induction l as [|k t IH]; intros v s s' q I F H E; cbn [each] in E; [injection E as <- <-; split; [apply quiet_truthful; constructor|reflexivity]|].
  apply andthen_ok in E. destruct E as (s1 & q1 & q2 & E1 & E2 & ->). destruct (H k ltac:(now left)) as (i & ci & D & ->).
  pose proof (late_tells v s s1 q1 ci i I F D E1) as T1. pose proof (task_circ _ _ _ _ E1) as C1. apply (calm_late _ _ _ v) in E1; [|assumption]. destruct E1 as [C A].
  destruct (IH (view v q1) s1 s' q2) as [T2 A2]; [apply (ca_inv _ _ _ _ C)|now rewrite A| |assumption|].
  { intros k Hk. destruct (H k ltac:(now right)) as (j & cj & Dj & Ej). exists j, cj. split; [|assumption]. unfold dl_of in *. now rewrite C1. }
  split; [|congruence]. apply truthful_app; [|assumption]. now apply (truthful_active s1).
Qed.

Lemma close_quiet l : forall s s' q, each do_task l s = Ok (s', q) -> Forall (fun c => match c with SendDSetup _ _ _ => False | SendClose _ _ => True end) l -> quiet q.
Proof.
  induction l as [|k t IH]; cbn [each]; intros s s' q E F; [injection E as <- <-; constructor|].
  apply andthen_ok in E. destruct E as (s1 & q1 & q2 & E1 & E2 & ->). apply Forall_cons_iff in F. destruct F as [F1 F2].
  apply quiet_app; [|eauto]. destruct k as [|id c]; [destruct F1|]. cbn [do_task] in E1. binv E1. injection E1 as <- <-. apply quiet_app; [|repeat constructor].
  destruct (aget id (cc_cached s)) as [[p a]|]; [|injection E as <-; constructor]. binv E. injection E as <-. unfold release_msg in E0. binv E0. injection E0 as <-. repeat constructor.
Qed.
Lemma close_all_only l : forall m r m', close_all l m = Ok (r, m') -> Forall (fun c => match c with SendDSetup _ _ _ => False | SendClose _ _ => True end) r.
Proof.
  induction l as [|c t IH]; cbn [close_all]; intros m r m' E; [injection E as <- <-; constructor|].
  binv E. destruct x as [cl m1]. binv E. binv E. destruct x0 as [cm m2]. injection E as <- <-. constructor; [trivial|eauto].
Qed.

Lemma tick_tells cfg hint t v s s' q : Inv v s -> W [] [] s -> cc_tick cfg hint t s = Ok (s', q) -> truthful s' q.
Proof.
  intros I H E. pose proof (w_floor _ _ _ H) as F. unfold cc_tick in E. apply andthen_ok in E. destruct E as (s1 & q1 & q2 & E1 & E2 & ->).
  set (s0 := cc_set_dltime t s) in *. assert (I0 : Inv v s0) by (now apply (Inv_field v s)). assert (K0 : keys s0) by (apply (w_keys _ _ _ H)).
  unfold check_hangtime in E1. binv E1.
  assert (Q1 : quiet q1) by (revert E1; apply each_quiet; intros y a b c; apply release_quiet).
  pose proof (calm_releases cfg ExpiryOfTimer x v s0 s1 q1 I0 K0 E1) as C1.
  assert (R1 : released (fun k => existsb (fun id => (id =? k)%N) x) s0 s1).
  { apply (each_released N.eqb (fun id => release_call cfg id ExpiryOfTimer) x) with (q := q1); [|assumption|assumption].
    intros y a b c _ Ka Ea. now apply release_released in Ea. }
  assert (K1 : keys s1) by (exact (released_keys _ s0 s1 K0 R1)).
  assert (F1 : forall id c, aget id (cc_active s1) = Some c -> ac_tx c = negb (present (ac_hang c))).
  { intros id c Hc. rewrite (rl_active _ _ _ R1) in Hc. destruct (existsb _ x); [discriminate|]. exact (F _ _ Hc). }
  apply truthful_app; [now apply quiet_truthful|]. clear Q1.
  binv E2. destruct x0 as [tasks m]. unfold cm_tick in E0. destruct (Z.eqb_spec (tm_t t) 1) as [T1|T1].
  2:{ injection E0 as <- <-. cbn [each] in E2. injection E2 as <- <-. apply quiet_truthful. constructor. }
  binv E0. destruct x0 as [closes m1]. binv E0. injection E0 as <- <-. apply each_app in E2. destruct E2 as (s2 & q3 & q4 & X1 & X2 & ->).
  unfold cm_close_expired in E3. binv E3. binv E3. cbn [cm_set_time cm_dltime cm_dl cm_ul] in *.
  rewrite (i_ul _ _ (ca_inv _ _ _ _ C1)), expired_none in E2. injection E2 as <-. rewrite app_nil_r in E3.
  pose proof (close_all_each _ _ _ _ s1 s2 q3 E3 X1) as X3. pose proof (expired_in _ _ _ E0) as EX. fold (dl_of s1) in EX.
  set (s1' := cc_set_circ (cm_set_time t (cc_circ s1)) s1) in *.
  assert (C1' : calm (view v q1) s1 s1' []).
  { apply calm_silent; try reflexivity; [apply (ca_inv _ _ _ _ C1)|constructor|apply same_active|apply same_cached]. }
  apply (close_tasks _ (view v q1)) in X3.
  2:{ apply (ca_inv _ _ _ _ C1'). } 2:{ exact K1. }
  2:{ apply Forall_forall. intros c Hc. apply EX in Hc. destruct Hc as (i & a & Hi & _). fold (dl_of s1 i) in Hi.
      destruct (i_circ _ _ (ca_inv _ _ _ _ C1) _ _ Hi) as (B1 & B2 & z & B3 & B4). rewrite B1. replace (S i - 1) with i by lia.
      split; [left; exact Hi|]. split; [|assumption]. destruct (i_call _ _ (ca_inv _ _ _ _ C1) _ _ B3) as (j & cj & Hj & Ej & _). lia. }
  destruct X3 as (C2 & K2 & A2).
  pose proof (tasks_circ _ _ _ _ X1) as Ci. cbn [cc_set_circ cc_circ] in Ci.
  apply (lates_tell x0 (view (view v q1) q3)) in X2.
  - destruct X2 as [T2 _]. apply truthful_app; [|assumption]. apply quiet_truthful. apply (close_quiet _ _ _ _ X1). now apply close_all_only in E3.
  - apply (ca_inv _ _ _ _ C2).
  - intros id c Hc. rewrite A2 in Hc. destruct (existsb _ x1); [discriminate|]. now apply F1 in Hc.
  - intros k Hk. destruct (late_in _ _ _ E4 k Hk) as (i & ci & Hi & Ek). exists i, ci. split; [|assumption]. unfold dl_of. rewrite Ci. exact Hi.
Qed.
Lemma tick_no_new cfg hint t v s s' q : Inv v s -> W [] [] s -> cc_tick cfg hint t s = Ok (s', q) -> announced s s' q.
Proof.
  intros I H E id c Hn Hc. unfold call_of in *. destruct (tick_calm cfg hint t v s s' q I H E) as [C _].
  destruct (ca_sub _ _ _ _ C _ _ Hc) as (c0 & H0 & _). congruence.
Qed.

(** ** Every step *)
Lemma sub_announced s s' q : (forall id c, aget id (cc_active s') = Some c -> aget id (cc_active s) <> None) -> announced s s' q.
Proof. intros H id c Hn Hc. destruct (H id c Hc Hn). Qed.
Lemma set_sub s id c c0 : aget id (cc_active s) = Some c0 -> forall k x, aget k (aset id c (cc_active s)) = Some x -> aget k (cc_active s) <> None.
Proof. intros H k x. rewrite aget_aset. destruct (N.eqb_spec k id) as [->|]; congruence. Qed.
Lemma released_sub D s s' : released D s s' -> forall id c, aget id (cc_active s') = Some c -> aget id (cc_active s) <> None.
Proof. intros R id c. rewrite (rl_active _ _ _ R). destruct (D id); congruence. Qed.

Lemma uplink_tells cfg i v s s' q : Inv v s -> W [] [] s -> cc_rx_ind cfg i s = Ok (s', q) -> truthful s' q /\ announced s s' q.
Proof.
  intros I H E. pose proof (w_keys _ _ _ H) as K.
  assert (Triv : Ok (s, []) = Ok (s', q) -> truthful s' q /\ announced s s' q).
  { intros X. injection X as <- <-. split; [apply quiet_truthful; constructor|]. intros id c H1 H2. congruence. }
  unfold cc_rx_ind in E. binv E. destruct x as [ty|]; [|auto].
  destruct (memN ty _); [|auto].
  unfold route_xx_deliver in E. binv E. destruct x as [ty'|]; [|auto]. destruct (negb (ul_type_known ty')); [auto|].
  repeat match type of E with (if ?b then _ else _) = _ => destruct b end; auto; try discriminate.
  all: unfold parsed in E.
  - destruct (u_setup_from_bitbuf (mi_sdu i)) as [[p b]| |]; auto; try discriminate. now apply setup_u_tells in E.
  - destruct (u_tx_ceased_from_bitbuf (mi_sdu i)) as [[p b]| |]; auto; try discriminate. unfold rx_u_tx_ceased in E.
    destruct (aget _ (cc_active s)) as [c0|] eqn:Ec; [|auto]. destruct (_ && _); [auto|].
    destruct (aget _ (cc_cached _)) as [[d a]|].
    + binv E. injection E as <- <-. split.
      * apply quiet_truthful. apply stealing_quiet in E2. apply (quiet_app [x]); [assumption|]. constructor; [exact Logic.I|]. destruct (brew_gssi_routable _ _); repeat constructor.
      * apply sub_announced. intros k z. cbn [cc_set_active cc_active]. now apply (set_sub s _ _ c0).
    + injection E as <- <-. split; [apply quiet_truthful; constructor|]. apply sub_announced. intros k z. cbn [cc_set_active cc_active]. now apply (set_sub s _ _ c0).
  - destruct (u_tx_demand_from_bitbuf (mi_sdu i)) as [[p b]| |]; auto; try discriminate. unfold rx_u_tx_demand in E.
    destruct (aget _ (cc_active s)) as [c0|] eqn:Ec; [|auto]. destruct (ac_tx c0); [auto|].
    destruct (aget _ (cc_cached _)) as [[d a]|].
    + binv E. binv E. destruct x0 as [s1 q1]. pose proof (granted_quiet _ _ _ _ _ _ _ E3) as Q. apply tx_granted_same in E3. subst s1. injection E as <- <-. split.
      * apply quiet_truthful. apply stealing_quiet' in E2. apply (quiet_app [x]); [assumption|]. apply quiet_app; [assumption|]. constructor; [exact Logic.I|]. destruct (brew_gssi_routable _ _); repeat constructor.
      * apply sub_announced. intros k z. cbn [cc_set_active cc_active]. now apply (set_sub s _ _ c0).
    + injection E as <- <-. split; [apply quiet_truthful; constructor|]. apply sub_announced. intros k z. cbn [cc_set_active cc_active]. now apply (set_sub s _ _ c0).
  - destruct (u_release_from_bitbuf (mi_sdu i)) as [[p b]| |]; auto; try discriminate. unfold rx_u_release in E.
    split; [apply quiet_truthful; now apply release_quiet in E|]. apply sub_announced. exact (released_sub _ _ _ (release_released cfg _ _ s s' q K E)).
  - destruct (u_disconnect_from_bitbuf (mi_sdu i)) as [[p b]| |]; auto; try discriminate. unfold rx_u_disconnect in E.
    destruct (aget _ (cc_active s)) as [c0|] eqn:Ec; [|auto]. destruct (match ac_origin c0 with OLocal _ => _ | ONetwork _ => _ end).
    + split; [apply quiet_truthful; now apply release_quiet in E|]. apply sub_announced. exact (released_sub _ _ _ (release_released cfg _ _ s s' q K E)).
    + binv E. injection E as <- <-. split; [apply quiet_truthful; repeat constructor|]. intros id c H1 H2. congruence.
Qed.

Lemma step_tells cfg e v s s' q : Inv v s -> W [] [] s -> cc_step cfg e s = Ok (s', q) -> truthful s' q /\ announced s s' q.
Proof.
  intros I H E. pose proof (w_keys _ _ _ H) as K. destruct e as [hint t|i|hint x|hg hint issi groups action]; cbn [cc_step] in E.
  - split; [now apply (tick_tells cfg hint t v s)|now apply (tick_no_new cfg hint t v s)].
  - now apply (uplink_tells cfg i v s).
  - assert (Triv : Ok (s, []) = Ok (s', q) -> truthful s' q /\ announced s s' q).
    { intros X. injection X as <- <-. split; [apply quiet_truthful; constructor|]. intros id c H1 H2. congruence. }
    destruct x; cbn [rx_call_control] in E; try (now apply Triv in E).
    + now apply (setup_n_tells cfg hint _ _ _ s s' q K (w_nodup _ _ _ H)) in E.
    + unfold rx_network_call_end in E. destruct (find _ _) as [[k c0]|] eqn:Ef; [|auto]. apply find_some_in in Ef; [|apply (w_nodup _ _ _ H)]. destruct Ef as [Ec _].
      destruct (ac_tx c0).
      * apply andthen_ok in E. destruct E as (s1 & q1 & q2 & E1 & E2 & ->). pose proof (ceased_quiet _ _ _ _ _ _ E1) as Q1. apply tx_ceased_same in E1. subst s1.
        pose proof (umac_quiet _ _ _ _ E2) as Q2. apply umac_same in E2. destruct E2 as [-> _]. split; [apply quiet_truthful, quiet_app; assumption|].
        apply sub_announced. intros k' z. cbn [cc_set_active cc_active]. now apply (set_sub s _ _ c0).
      * split; [apply quiet_truthful; now apply release_quiet in E|]. apply sub_announced. exact (released_sub _ _ _ (release_released cfg _ _ s s' q K E)).
    + unfold ul_inactivity in E. destruct (find _ _) as [[k c0]|] eqn:Ef; [|auto]. apply find_some_in in Ef; [|apply (w_nodup _ _ _ H)]. destruct Ef as [Ec _].
      apply andthen_ok in E. destruct E as (s1 & q1 & q2 & E1 & E2 & ->). pose proof (ceased_quiet _ _ _ _ _ _ E1) as Q1. apply tx_ceased_same in E1. subst s1.
      apply andthen_ok in E2. destruct E2 as (s1 & q3 & q4 & E1 & E2 & ->). pose proof (umac_quiet _ _ _ _ E1) as Q3. apply umac_same in E1. destruct E1 as [-> _].
      pose proof (when_brew_quiet _ _ _ _ _ E2) as Q4. apply when_brew_same in E2. destruct E2 as [-> _].
      split; [apply quiet_truthful, quiet_app; [assumption|now apply quiet_app]|]. apply sub_announced. intros k' z. cbn [cc_set_active cc_active]. now apply (set_sub s _ _ c0).
  - split; [apply quiet_truthful; now apply update_quiet in E|]. pose proof (calm_update cfg hg hint issi groups action v s s' q I K E) as C.
    apply sub_announced. intros id c Hc. destruct (ca_sub _ _ _ _ C _ _ Hc) as (c1 & H1 & _). congruence.
Qed.

Lemma setups_true : forall cfg s since log e s' q t r p, history cfg 1023 s since log -> cc_step cfg e s = Ok (s', q) ->
  In (ToMle t r) q -> mr_pdu r = PdSetup p -> announces s' r p.
Proof.
  intros cfg s since log e s' q t r p H E. destruct (history_inv cfg s since log H) as [I _].
  apply (proj1 (step_tells cfg e _ s s' q I (W_reachable cfg s (history_reachable _ _ _ _ _ H)) E)).
Qed.
Lemma new_announced : forall cfg s since log e s' q id c, history cfg 1023 s since log -> cc_step cfg e s = Ok (s', q) ->
  call_of s id = None -> call_of s' id = Some c -> setup_sent s' id c q /\ caller_connected id c q.
Proof.
  intros cfg s since log e s' q id c H E. destruct (history_inv cfg s since log H) as [I _].
  apply (proj2 (step_tells cfg e _ s s' q I (W_reachable cfg s (history_reachable _ _ _ _ _ H)) E)).
Qed.

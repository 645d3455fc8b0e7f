(** The base station goes on: the theorems. *)
From Coq Require Import Arith.
From Verif Require Import Base BitsLib AMap BitBuffer BitBufferProofs BitBufferOps Codec CodecProofs TypedFields MacFields MacPdus Layout MacSpec
  TdmaTime TdmaTimeProofs TxReceipt UmacCircuits UmacCircuitsProofs UlSched BsFrag DlSched DlSchedSpec DlSlot UmacPrecomps UmacBs StealSpec StealProofs StealFacts SlotSpec SlotProofs.
From Verif Require Import UmacSched SlotRun SlotWf AliveSpec TickSafe TickTotal UlBlockSpec UlBlockPdu UlBlockFacts.
From Verif Require Import LmacBs Slotter BsMac AirSpec AirRun AirFacts AliveRun.
From Verif Require FragSpec CallControl Llc DlFacts.
Open Scope nat_scope.

(** * Ticks *)
Lemma every_tick c s log now : cell_ok c = true -> bs_reached c s log -> Forall decent (events_of log) -> last_tick (rev log) = Some now ->
  ~ jammed s log (add_timeslots now 1) -> forall cn, exists s' xs w, bs_step c (BeTick cn (add_timeslots now 1)) s = Ok (s', xs, [w]) /\ length w = 510.
Proof.
  intros CO R D N NJ cn. destruct (reached_thrives c s log CO R D) as ((S & M & T & L & CK) & AL & V & I1 & I2). destruct (reached_good c s log CO R) as (_ & (R1 & _) & _).
  assert (CU : ds_cur (um_sch (st_um s)) = now) by congruence.
  destruct (tick_lives c cn (bs_told (events_of log)) (st_um s) CO S M T AL I1 I2) as (u & o & m & E).
  - rewrite CU. exact NJ.
  - rewrite CU in E. exact (never_stuck c s log CO R cn _ u o m E).
Qed.

(** * Requests *)
Definition rooms (m : ucm N (list N)) : Prop := length (uc_dl m) = 4 /\ length (uc_ul m) = 4 /\ length (uc_tx m) = 4.
Definition one_way (d : direction) : Prop := d = DirDl \/ d = DirUl.
Lemma active_ok d ts m : one_way d -> 1 <= ts <= 4 -> rooms m -> exists a, ucm_is_active d ts m = Ok a.
Proof. intros [-> | ->] T (A & B & C); cbn [ucm_is_active]; rewrite (ts_get_ok _ ts None) by assumption; cbn [bind]; eauto. Qed.
Lemma close_ok d ts m : one_way d -> 1 <= ts <= 4 -> rooms m -> exists o m', ucm_close d ts m = Ok (o, m') /\ rooms m'.
Proof.
  intros [-> | ->] T (A & B & C); cbn [ucm_close]; rewrite (ts_get_ok _ ts None) by assumption; cbn [bind]; eexists _, _; (split; [reflexivity|]); unfold rooms; cbn [uc_dl uc_ul uc_tx]; rewrite ?set_len by assumption; auto.
Qed.
Lemma create_ok d ts u m : one_way d -> 1 <= ts <= 4 -> rooms m -> exists m', ucm_create d ts u m = Ok m' /\ rooms m'.
Proof.
  intros W T R. unfold ucm_create. destruct (active_ok d ts m W T R) as (a & ->). cbn [bind].
  assert (X : exists m0, (if a then '(_, m) <- ucm_close d ts m ;; Ok m else Ok m) = Ok m0 /\ rooms m0).
  { destruct a; [|eauto]. destruct (close_ok d ts m W T R) as (o & m' & -> & R'). cbn [bind]. eauto. }
  destruct X as (m0 & -> & (A & B & C)). cbn [bind]. destruct W as [-> | ->].
  - rewrite (ts_get_ok _ ts []) by assumption. cbn [bind]. eexists. split; [reflexivity|]. unfold rooms. cbn [uc_dl uc_ul uc_tx]. rewrite set_len by assumption. destruct (nth (ts - 1) (uc_tx m0) []); rewrite ?set_len by assumption; auto.
  - eexists. split; [reflexivity|]. unfold rooms. cbn [uc_dl uc_ul uc_tx]. rewrite set_len by assumption. auto.
Qed.
Lemma dirs_one d : Forall one_way (dirs_of d).
Proof. destruct d; cbn [dirs_of]; unfold one_way; repeat (apply Forall_cons; [auto|]); apply Forall_nil. Qed.
Lemma clear_circ ts s : ds_circ (clear_hang ts s) = ds_circ s.
Proof. unfold clear_hang. destruct (_ && _); reflexivity. Qed.
Lemma voice_sch ts v u : um_sch (set_voice ts v u) = um_sch u.
Proof. apply voice_same. Qed.
Lemma open_total ts us : 1 <= ts <= 4 -> forall ds, Forall one_way ds -> forall u, rooms (ds_circ (um_sch u)) -> exists u', open_dirs ds ts us u = Ok u'.
Proof.
  intros T. induction ds as [|d ds IH]; intros F u R; cbn [open_dirs]; [eauto|]. pose proof (Forall_inv F) as W. unfold circuit_is_active. destruct (active_ok d ts _ W T R) as (a & ->). cbn [bind].
  assert (X : exists s, (if a then ' (_, s) <- dl_close_circuit d ts (um_sch u) ;; Ok s else Ok (um_sch u)) = Ok s /\ rooms (ds_circ s)).
  { destruct a; [|eauto]. unfold dl_close_circuit. destruct (close_ok d ts _ W T R) as (o & m' & -> & R'). cbn [bind]. eauto. }
  destruct X as (s & -> & R1). cbn [bind]. unfold dl_create_circuit. destruct (create_ok d ts us _ W T R1) as (m & -> & R2). cbn [bind]. apply IH; [exact (Forall_inv_tail F)|].
  destruct (is_ul d); [rewrite voice_sch|]; exact R2.
Qed.
Lemma close_total ts : 1 <= ts <= 4 -> forall ds, Forall one_way ds -> forall u, rooms (ds_circ (um_sch u)) -> exists u', close_dirs ds ts u = Ok u'.
Proof.
  intros T. induction ds as [|d ds IH]; intros F u R; cbn [close_dirs]; [eauto|]. pose proof (Forall_inv F) as W. unfold dl_close_circuit. destruct (close_ok d ts _ W T R) as (o & m' & -> & R'). cbn [bind].
  apply IH; [exact (Forall_inv_tail F)|]. destruct o; [destruct (is_ul d); [rewrite voice_sch|]|]; exact R'.
Qed.
Lemma drop_total q : Forall lawful q -> exists k r m, drop_loop q = Ok (k, r, m).
Proof.
  induction 1 as [|e q L _ (k & r & m & IH)]; cbn [drop_loop]; [eauto|]. rewrite IH. destruct e as [|a|a g|p sdu rep|f|b rep]; cbn [lawful bind] in *; eauto.
  - destruct L as (_ & _ & P). destruct rep as [t|]; cbn [mark_opt]; [|cbn [bind]; eauto]. cbn [FragSpec.pending] in P. destruct t as [ea by0]. cbn [tx_byte] in P. subst by0. unfold DlSched.marked, tx_mark_discarded. cbn. eauto.
  - destruct L as (DN & _ & P & _). unfold fg_drop. destruct (fg_rep f) as [t|]; [|cbn [bind]; eauto]. rewrite DN. cbn [negb]. cbn [FragSpec.pending] in P. destruct t as [ea by0]. cbn [tx_byte] in P. subst by0. cbn. eauto.
Qed.
Lemma hang_total ts on s : four s -> live s -> length (ds_ra s) = 4 -> exists s' m, set_hangtime ts on s = Ok (s', m).
Proof.
  intros F4 LV RA. unfold set_hangtime. destruct ((1 <=? ts) && (ts <=? 4))%bool eqn:T; [|eauto]. apply andb_prop in T. destruct T as (T1 & T2). apply Nat.leb_le in T1, T2. destruct on; [eauto|].
  unfold dl_drop_all_except_stolen. set (s0 := set_hang (ts_set (ds_hang s) ts false) s). rewrite (get_ok s0 ts F4) by lia. cbn [bind].
  assert (LQ : Forall lawful (nth (ts - 1) (ds_q s0) [])). { apply (live_get s ts); [exact LV|]. exact (get_ok s ts F4 (conj T1 T2)). }
  destruct (drop_total _ LQ) as (k & r & m & ->). cbn [bind]. destruct r; [cbn [bind]; eauto|]. rewrite (ts_get_ok _ ts []) by (exact RA || lia). cbn [bind]. eauto.
Qed.
Lemma active_total c cn v s l : shows c cn v s -> Forall (fun t => 1 <= t <= 4) l -> exists o, first_active l s = Ok o /\ forall t, o = Some t -> 1 <= t <= 4.
Proof.
  intros SH. induction 1 as [|t l T _ IH]; cbn [first_active]; [eexists; split; [reflexivity|discriminate]|]. rewrite (proj1 (active_view _ _ _ _ DirDl t SH T) eq_refl). cbn [bind].
  destruct (vw_dl (v t)); [|exact IH]. eexists. split; [reflexivity|]. intros t' E. injection E as <-. exact T.
Qed.
Lemma traffic_ts_total c cn v s r : shows c cn v s -> (forall q, tr_chan r = Some q -> length (Llc.cq_timeslots q) = 4) -> exists o, traffic_ts r s = Ok o /\ forall t, o = Some t -> 1 <= t <= 4.
Proof.
  intros SH L. assert (A : exists o, first_active [2; 3; 4] s = Ok o /\ forall t, o = Some t -> 1 <= t <= 4) by (apply (active_total c cn v s _ SH); repeat constructor; lia).
  unfold traffic_ts. destruct (tr_chan r) as [q|]; [|exact A]. specialize (L q eq_refl). pose proof (first_set_spec (Llc.cq_timeslots q) 1) as H. destruct (first_set (Llc.cq_timeslots q) 1) as [t|]; [|exact A].
  destruct H as (H1 & H2 & _). eexists. split; [reflexivity|]. intros t' E. injection E as <-. assert (t - 1 < 4) by (rewrite <- L; apply nth_error_Some; congruence). lia.
Qed.
Lemma len_ok b : wf b -> exists n, get_len b = Ok n.
Proof. intros W. rewrite (win_len _ W). eauto. Qed.
Lemma send_total c cn v s carrier r : shows c cn v s -> four s -> length (ds_ra s) = 4 -> wf (tr_sdu r) -> vtime (tr_time r) ->
  (forall q, tr_chan r = Some q -> length (Llc.cq_timeslots q) = 4 /\ Llc.cq_assigned q <> 0%N) -> (tr_steal r = true -> steal_ok r /\ steal_size r <= half_slot) ->
  exists s', rx_tma_unitdata_req carrier r s = Ok s'.
Proof.
  intros SH F4 RA W (VT & _) CH ST. unfold rx_tma_unitdata_req.
  assert (PLAIN : exists s', (let um := match tr_chan r with Some c0 => Llc.cq_usage c0 | None => None end in
      let ca := match tr_chan r with Some c0 => Some (cmce_to_mac_chanalloc c0 carrier) | None => None end in
      let p := mk_mres false 0 0 (negb (is_gssi (tr_addr r))) 0 (Some (tr_addr r)) None um None None ca in
      n <- get_len (tr_sdu r) ;; ' (_, p) <- mr_update_len_and_fill_ind p n ;; dl_enqueue_tma (ts_of (tr_time r)) p (tr_sdu r) (tr_rep r) s) = Ok s').
  { cbv zeta. destruct (len_ok _ W) as (n & ->). cbn [bind]. unfold mr_update_len_and_fill_ind, mr_compute_header_len. destruct (mr_is_null _).
    - cbn [bind]. unfold dl_enqueue_tma. edestruct (push_ok (ts_of (tr_time r))) as (q & ->); [exact F4|unfold ts_of; lia|eauto].
    - assert (X : exists k, match tr_chan r with Some c0 => ca_compute_len (cmce_to_mac_chanalloc c0 carrier) | None => Ok 0 end = Ok k).
      { destruct (tr_chan r) as [q|]; [|eauto]. destruct (CH q eq_refl) as (_ & NZ). unfold ca_compute_len, cmce_to_mac_chanalloc. cbn [ca_ext ca_uldl is_some]. destruct (N.eqb_spec (Llc.cq_assigned q) 0) as [E|_]; [contradiction|eauto]. }
      destruct X as (k & X). cbn [mr_ca].
      match goal with |- context [bind (match ?o with Some c0 => ca_compute_len c0 | None => Ok 0 end) _] => assert (Y : (match o with Some c0 => ca_compute_len c0 | None => Ok 0 end) = Ok k) by (destruct (tr_chan r); exact X) end.
      rewrite Y. cbn [bind]. unfold dl_enqueue_tma. edestruct (push_ok (ts_of (tr_time r))) as (q & ->); [exact F4|unfold ts_of; lia|eauto]. }
  destruct (tr_steal r) eqn:TS; [|cbn [bind]; exact PLAIN].
  destruct (traffic_ts_total c cn v s r SH (fun q E => proj1 (CH q E))) as (o & -> & O). cbn [bind]. destruct o as [ts|]; [|exact PLAIN].
  specialize (O ts eq_refl). destruct (ST eq_refl) as (SO & SZ). unfold take_pending_ra_ack. rewrite (ts_get_ok _ ts []) by (exact RA || exact O). cbn [bind].
  assert (BL : forall b : bool, exists k, stch_block b r = Ok k) by (intros b; destruct (proj2 (stch_spec b r SO) SZ) as (k & EB & _); eauto).
  destruct (remove_first _ _); match goal with |- context [stch_block ?b r] => destruct (BL b) as (k & ->) end; cbn [bind]; unfold dl_enqueue_stealing; edestruct (push_ok ts) as (q & ->); try exact O; try exact F4; eauto.
Qed.
Lemma do_nothing c e s u m : um_step c e (st_um s) = Ok (u, [], m) -> exists s' xs, um_do_all c [e] s = Ok (s', xs, []).
Proof. intros E. cbn [um_do_all]. unfold um_do. rewrite E. cbn [bind to_lmac]. eauto. Qed.
Lemma requests c s log e : cell_ok c = true -> bs_reached c s log -> Forall decent (events_of log) -> request_ok e -> exists s' xs, bs_step c e s = Ok (s', xs, []).
Proof.
  intros CO R D Q. destruct (reached_thrives c s log CO R D) as ((S & (cn & SW & SH) & T & L & CK) & (LV & RA & CL) & V & _). set (u := st_um s) in *. assert (F4 : four (um_sch u)) by apply S.
  assert (RM : rooms (ds_circ (um_sch u))).
  { destruct SH as (_ & (A & B & _) & _). destruct T as (_ & _ & (C & _)). split; [exact A|split; [exact B|exact C]]. }
  destruct e as [cn' t|ts bits|r|ts data|k]; cbn [request_ok bs_step] in *; try contradiction.
  - destruct Q as (W & VT & CH & ST). destruct (send_total c cn _ (um_sch u) (cf_carrier c) r SH F4 RA W VT CH ST) as (s' & E). apply (do_nothing c (UeSend r) s (set_sch s' u) []). cbn [um_step]. fold u. rewrite E. reflexivity.
  - assert (X : exists u', rx_dl_voice ts data u = Ok u').
    { unfold rx_dl_voice. rewrite (proj2 (Nat.leb_le 1 ts)) by lia. rewrite (proj2 (Nat.leb_le ts 4)) by lia. cbn [andb]. rewrite (proj2 (active_view _ _ _ _ DirUl ts SH Q) eq_refl). cbn [bind].
      match goal with |- context [if ?a then set_voice ?x ?y ?z else _] => set (u1 := if a then set_voice x y z else z) end.
      assert (X : um_sch u1 = um_sch u) by (unfold u1; destruct (vw_ul _); [apply voice_sch|reflexivity]). rewrite X. rewrite (proj1 (active_view _ _ _ _ DirDl ts SH Q) eq_refl). cbn [bind]. destruct (vw_dl _) eqn:VD; [|eauto].
      unfold dl_schedule_tmd, ucm_put. pose proof (proj1 (active_view _ _ _ _ DirDl ts SH Q) eq_refl) as A. rewrite VD in A. unfold circuit_is_active in A. rewrite A. cbn [bind].
      rewrite (ts_get_ok _ ts []) by (apply RM || exact Q). cbn [bind]. eauto. }
    destruct X as (u' & E). apply (do_nothing c (UeDlVoice ts data) s u' []). cbn [um_step]. fold u. rewrite E. reflexivity.
  - assert (X : exists u' m, rx_control k u = Ok (u', m)).
    { assert (H : forall ts on w, exists u' m, (' (s, m) <- set_hangtime ts on (um_sch u) ;; Ok (set_voice ts w (set_sch s u), m)) = Ok (u', m)).
      { intros ts on w. destruct (hang_total ts on (um_sch u) F4 LV RA) as (s' & m & ->). cbn [bind]. eauto. }
      unfold rx_control. destruct k; cbv zeta; eauto.
      - destruct (open_total ts usage Q _ (dirs_one d) u RM) as (u' & ->). cbn [bind]. eauto.
      - destruct (close_total ts Q _ (dirs_one d) u RM) as (u' & ->). cbn [bind]. eauto. }
    destruct X as (u' & m & E). apply (do_nothing c (UeControl k) s u' m). cbn [um_step]. fold u. rewrite E. reflexivity.
Qed.

(** * Examples *)
Definition ex_long : tma_req := mk_tma (mk_time 1 1 1 0) (ex_bits (ex_text 400)) (mk_addr 1001 false SsiIssi) false None None.
Definition ex_tick (n : Z) : um_event := UeTick false (mk_time n 1 1 0).
Definition ex_life : list um_event := [UeControl (CallControl.CtlOpen DirBoth 2 5); UeSend ex_long; ex_tick 2; ex_tick 3].
Definition ex_hdr : mac_resource := mk_mres true 0 0 true 56 (Some (mk_addr 1001 false SsiIssi)) None None None None None.
Lemma ran_to {A} c evs (f : umac -> A) (v : A) :
  match umac_new c false with Ok u0 => match um_run c evs u0 with Ok (u, _) => Some (f u) | _ => None end | _ => None end = Some v ->
  exists u0 u log, umac_new c false = Ok u0 /\ um_run c evs u0 = Ok (u, log) /\ f u = v.
Proof.
  intros H. destruct (umac_new c false) as [u0| |]; try discriminate H. destruct (um_run c evs u0) as [[u log]| |] eqn:E; try discriminate H. injection H as H. eauto 6.
Qed.
Definition ex_waits : list dl_elem := Eval vm_compute in [DlResource ex_hdr (tr_sdu ex_long) None].
Lemma life_runs : exists u0 u log, umac_new DlFacts.ex_cell false = Ok u0 /\ um_run DlFacts.ex_cell (UeTick false UlBlockFacts.ex_t0 :: ex_life) u0 = Ok (u, log) /\
  nth 0 (ds_q (um_sch u)) [] = ex_waits.
Proof. apply (ran_to DlFacts.ex_cell (UeTick false UlBlockFacts.ex_t0 :: ex_life) (fun u => nth 0 (ds_q (um_sch u)) [])). vm_compute. reflexivity. Qed.
(** A message of 400 bits waits and a circuit is open on timeslot 2. *)
Lemma ex_alive : exists s log, bs_reached DlFacts.ex_cell s log /\ Forall decent (events_of log) /\ last_tick (rev log) = Some (mk_time 3 1 1 0) /\
  length (waiting s (mk_time 1 2 1 0)) = 1 /\ vw_dl (bs_told (events_of log) 2) <> None /\ ~ jammed s log (mk_time 4 1 1 0).
Proof.
  destruct life_runs as (u0 & u & ulog & EN & E & Q). destruct (lifted DlFacts.ex_cell false u0 false UlBlockFacts.ex_t0 ex_life u ulog eq_refl EN) as (s & log & R & U & _ & EV); [| | |exact E|].
  - unfold vtime. cbn. lia.
  - unfold ex_life. constructor; [exact Logic.I|]. constructor; [exact Logic.I|]. constructor; [exact Logic.I|]. constructor; [exact Logic.I|constructor].
  - unfold ex_life. cbn [map be_of ex_tick]. repeat (apply Forall_cons; [first [exact Logic.I|reflexivity]|]). constructor.
  - exists s, log. split; [exact R|]. assert (W : waiting s (mk_time 1 2 1 0) = ex_waits) by (unfold waiting; rewrite U; exact Q).
    split; [|split; [|split; [rewrite W; reflexivity|split; [rewrite EV; vm_compute; discriminate|]]]].
    + rewrite EV. unfold ex_life. cbn [map be_of]. constructor; [exact Logic.I|]. constructor; [cbn; lia|]. constructor; [|constructor; [exact Logic.I|]; constructor; [exact Logic.I|constructor]].
      cbn [decent ex_long tr_sdu tr_rep]. split; [apply ex_bits_ok|]. split; [reflexivity|exact Logic.I].
    + apply (last_is_tick log (map be_of (firstn 4 (UeTick false UlBlockFacts.ex_t0 :: ex_life))) false). rewrite EV. reflexivity.
    + unfold jammed. change (add_timeslots (mk_time 4 1 1 0) 1) with (mk_time 1 2 1 0). cbv zeta. rewrite W. intros (_ & [H|(_ & _ & H)]); [|discriminate H].
      unfold ex_waits in H. inversion H as [? ? (p & HP & NS)|? ? H']; subst; [|inversion H']. cbn [heads] in HP. injection HP as <-. apply NS. split; reflexivity.
Qed.
Definition ex_steal : tma_req := mk_tma (mk_time 2 1 1 0) (ex_bits (ex_text 40)) (mk_addr 2001 false SsiGssi) true (Some (Llc.mk_chreq (Some 5%N) [false; true; false; false] 0 3)) None.
Lemma ex_request : request_ok (BeSend ex_steal) /\ request_ok (BeControl (CallControl.CtlClose DirBoth 3)).
Proof.
  split; [|cbn; lia]. cbn [request_ok ex_steal tr_sdu tr_time tr_chan tr_steal]. split; [apply ex_bits_ok|]. split; [unfold vtime; cbn; lia|]. split; [intros c [= <-]; split; [reflexivity|discriminate]|]. intros _.
  split; [split; [apply ex_bits_ok|split; reflexivity]|]. apply Nat.leb_le. vm_compute. reflexivity.
Qed.

(** * What stops it *)
Definition ex_access (p : mac_ul) : um_event := UeBlock (ex_at (mk_time 1 1 1 0) UcSchHu Block1) (ex_bits (enc (macc_layout p) ++ ex_text (92 - length (enc (macc_layout p))))).
(** encrypted, from the radio 1001 *)
Definition ex_encrypted : mac_ul := mk_mul false true (Some (mk_addr 1001 true SsiSsi)) None (Some 8%N) None None.
(** the radio [a] asks for slots, with the code [q] *)
Definition ex_asks (a q : N) : mac_ul := mk_mul false false (Some (mk_addr a false SsiSsi)) None None (Some false) (Some q).
Lemma ex_access_fine p : ev_fine (ex_access p).
Proof.
  unfold ex_access. match goal with |- context [ex_bits ?l] => destruct (ex_bits_ok l) as (W & P & _); generalize (ex_bits l), W, P end. intros b W' P'.
  cbn [ev_fine tv_time ex_at]. split; [exact W'|]. split; [exact P'|]. unfold vtime. cbn [tm_t tm_f tm_m tm_h]. lia.
Qed.
Lemma stops evs e : Forall ev_fine evs ->
  match run_from DlFacts.ex_cell UlBlockFacts.ex_t0 evs with Ok u => match um_step DlFacts.ex_cell e u with Panic => true | _ => false end | _ => false end = true ->
  exists u, reached DlFacts.ex_cell u /\ run_from DlFacts.ex_cell UlBlockFacts.ex_t0 evs = Ok u /\ um_step DlFacts.ex_cell e u = Panic.
Proof.
  intros F H. destruct (run_reached DlFacts.ex_cell UlBlockFacts.ex_t0 evs) as (u & E & R); [unfold vtime; cbn; lia|exact F|destruct (run_from _ _ _); [reflexivity|discriminate H..]|].
  exists u. split; [exact R|]. split; [exact E|]. rewrite E in H. destruct (um_step _ e u); try discriminate H. reflexivity.
Qed.
Lemma encrypted_stops : exists u, reached DlFacts.ex_cell u /\ run_from DlFacts.ex_cell UlBlockFacts.ex_t0 [ex_access ex_encrypted; ex_tick 2; ex_tick 3] = Ok u /\ um_step DlFacts.ex_cell (ex_tick 4) u = Panic.
Proof. apply stops; [constructor; [apply ex_access_fine|]; repeat (constructor; [exact Logic.I|]); constructor|]. vm_compute. reflexivity. Qed.
Lemma late_grant_stops : exists u, reached DlFacts.ex_cell u /\
  run_from DlFacts.ex_cell UlBlockFacts.ex_t0 [ex_access (ex_asks 1 8); ex_access (ex_asks 2 6); ex_access (ex_asks 3 1); ex_tick 2; ex_tick 3] = Ok u /\ um_step DlFacts.ex_cell (ex_tick 4) u = Panic.
Proof. apply stops; [do 3 (constructor; [apply ex_access_fine|]); repeat (constructor; [exact Logic.I|]); constructor|]. vm_compute. reflexivity. Qed.
Definition ex_more : tma_req := mk_tma (mk_time 2 1 1 0) (ex_bits (ex_text 400)) (mk_addr 1001 false SsiIssi) false None None.
Definition ex_left (evs : list um_event) : list um_event :=
  [UeControl (CallControl.CtlOpen DirBoth 2 5); UeSend ex_steal; UeControl (CallControl.CtlClose DirBoth 2)] ++ evs ++ [ex_tick 2; ex_tick 3; ex_tick 4].
Lemma left_stops : exists u, reached DlFacts.ex_cell u /\ run_from DlFacts.ex_cell UlBlockFacts.ex_t0 (ex_left [UeSend ex_more]) = Ok u /\ um_step DlFacts.ex_cell (UeTick false (mk_time 1 2 1 0)) u = Panic.
Proof. apply stops; [unfold ex_left; cbn [app]; repeat (constructor; [exact Logic.I|]); constructor|]. vm_compute. reflexivity. Qed.

(** The statements of Props_Llc.v, from the invariant of LlcRun.v. *)
From Coq Require Import ZArith Permutation.
From Verif Require Import Base BitsLib AMap TdmaTime TdmaTimeProofs TxReceipt BitBuffer BitBufferProofs BitBufferOps Codec CodecProofs
  MacFields Fcs FcsProofs LlcPdus LlcPdusProofs Llc LlcSpec LlcBits LlcProofs LlcRun.
Open Scope nat_scope.

Section F.
Context {P : Type}.
Arguments g_time {_ _ _ _}. Arguments g_msgs {_ _ _ _}. Arguments g_nodup {_ _ _ _}. Arguments g_named {_ _ _ _}. Arguments g_free {_ _ _ _}.
Arguments g_given {_ _ _ _}. Arguments g_acks {_ _ _ _}. Arguments g_udata {_ _ _ _}. Arguments g_seq {_ _ _ _}.

(** ** Stop and wait *)
Lemma matches_new ssi : matches (P := P) (ll_time (llc_new (P := P))) (mine ssi (ll_out llc_new)) link_start.
Proof. exists None, []. split; [|reflexivity]. repeat split. constructor. Qed.
Lemma run_link (l : list (lcall P)) log s ssi : llc_run l llc_new = Ok (log, s) -> log_ok [] [] log ->
  exists k, link_run ssi link_start log = Some k /\ lk_owes k = false.
Proof.
  intros E O. destruct (run_all l [] [] llc_new log s good_new E O) as (_ & H & _). destruct (H ssi _ (matches_new ssi)) as (k & K1 & K2).
  exists k. split; [exact K1|]. exact (matches_owes _ _ _ K2).
Qed.
Lemma run_snoc : forall (l : list (lcall P)) c s log s', llc_run (l ++ [c]) s = Ok (log, s') ->
  exists lg s1 ev, llc_run l s = Ok (lg, s1) /\ llc_step c s1 = Ok (ev, s') /\ log = lg ++ LCall c :: map LDid ev.
Proof.
  induction l as [|c0 l IH]; intros c s log s' E; cbn [app llc_run] in E.
  - destruct (llc_step c s) as [[ev s1]| |] eqn:E1; cbn [bind] in E; try discriminate. injection E as <- <-. exists [], s, ev. rewrite app_nil_r. auto.
  - destruct (llc_step c0 s) as [[ev s1]| |] eqn:E1; cbn [bind] in E; try discriminate.
    destruct (llc_run (l ++ [c]) s1) as [[lg s2]| |] eqn:E2; cbn [bind] in E; try discriminate. injection E as <- <-.
    destruct (IH _ _ _ _ E2) as (lg0 & s3 & ev3 & H1 & H2 & ->). exists (LCall c0 :: map LDid ev ++ lg0), s3, ev3. cbn [llc_run]. rewrite E1. cbn [bind]. rewrite H1. cbn [bind].
    split; [reflexivity|]. split; [assumption|]. cbn [app]. now rewrite <- app_assoc.
Qed.
Lemma log_ok_app : forall (a b : list (litem P)) n g, log_ok n g (a ++ b) <-> log_ok n g a /\ log_ok (named_after a n) (given_log a g) b.
Proof.
  induction a as [|i a IH]; intros b n g; [cbn; tauto|]. cbn [app log_ok named_after given_log fold_left]. rewrite IH. unfold named_after, given_log. tauto.
Qed.
Lemma run_settles (l : list (lcall P)) log s ssi : llc_run (l ++ [LTickEnd]) llc_new = Ok (log, s) -> log_ok [] [] log ->
  exists k, link_run ssi link_start log = Some k /\ settled k.
Proof.
  intros E O. destruct (run_snoc _ _ _ _ _ E) as (lg & s1 & ev & E1 & E2 & ->). apply log_ok_app in O. destruct O as (O1 & O2).
  destruct (run_all l [] [] llc_new lg s1 good_new E1 O1) as (G & H & _). destruct (H ssi _ (matches_new ssi)) as (k & K1 & K2).
  destruct O2 as (O2 & _). destruct (step_all _ _ _ _ _ _ G O2 E2) as (_ & S2 & _). destruct (S2 ssi k K2) as (k' & L1 & L2 & L3).
  exists k'. split; [|auto]. rewrite link_run_app, K1. exact L1.
Qed.

(** ** Sequence numbers *)
Lemma seq_flip v : (v < 2)%N -> (N.lxor v 1 =? 1)%N = negb (v =? 1)%N.
Proof. intros H. destruct (bit_cases v H) as [-> | ->]; reflexivity. Qed.
Lemma reqs_app ssi (a b : list (litem P)) : data_reqs ssi (a ++ b) = data_reqs ssi a ++ data_reqs ssi b.
Proof. apply flat_map_app. Qed.
Lemma queued_app ssi (a b : list (litem P)) : queued ssi (a ++ b) = queued ssi a ++ queued ssi b.
Proof. apply flat_map_app. Qed.
Lemma reqs_did ssi (ev : list (lev P)) : data_reqs ssi (map LDid ev) = [].
Proof. induction ev; [reflexivity|assumption]. Qed.
Lemma seq_run ssi : forall (l : list (lcall P)) named given s log s', good named given s -> llc_run l s = Ok (log, s') -> log_ok named given log ->
  numbered_in_turn (seq_of s ssi =? 1)%N (data_reqs ssi log) (queued ssi log).
Proof.
  induction l as [|c l IH]; intros named given s log s' G E O.
  - injection E as <- <-. exact I.
  - cbn [llc_run] in E. destruct (llc_step c s) as [[ev s1]| |] eqn:E1; cbn [bind] in E; try discriminate.
    destruct (llc_run l s1) as [[lg s2]| |] eqn:E2; cbn [bind] in E; try discriminate. injection E as <- <-.
    cbn [log_ok] in O. destruct O as (O1 & O2). change (item_given (LCall c) given) with given in O2. rewrite log_ok_did in O2.
    destruct (step_all _ _ _ _ _ _ G O1 E1) as (S1 & _ & _). specialize (IH _ _ _ _ _ S1 E2 O2).
    pose proof (seq_step c s ev s1 named given ssi G O1 E1) as H.
    change (LCall c :: map LDid ev ++ lg) with ([LCall c] ++ map LDid ev ++ lg). rewrite !reqs_app, !queued_app, reqs_did. change (queued ssi [LCall c]) with (@nil (N * tma_req P)).
    cbn [app]. destruct (data_reqs ssi [LCall c]) as [|[id q] r].
    + destruct H as (-> & <-). exact IH.
    + destruct H as (-> & m & -> & Q & H1 & H2 & H3 & H4 & H5). cbn [app numbered_in_turn]. rewrite Q, seq_flip in IH by exact (seq_bound _ _ _ ssi G).
      split; [reflexivity|]. repeat (split; [assumption|]). exact IH.
Qed.
Lemma run_numbers (l : list (lcall P)) log s ssi : llc_run l llc_new = Ok (log, s) -> log_ok [] [] log ->
  numbered_in_turn false (data_reqs ssi log) (queued ssi log).
Proof. intros E O. exact (seq_run ssi l [] [] llc_new log s good_new E O). Qed.

(** ** Acknowledgements *)
Lemma run_acks (l : list (lcall P)) log s : llc_run (l ++ [LTickEnd]) llc_new = Ok (log, s) -> log_ok [] [] log ->
  Permutation (received log) (piggybacked log ++ standalone log).
Proof.
  intros E O. destruct (run_all _ [] [] llc_new log s good_new E O) as (_ & _ & H). change (acks_of (P := P) llc_new) with (@nil (N * Z * bool)) in H. rewrite app_nil_r in H.
  destruct (run_snoc _ _ _ _ _ E) as (lg & s1 & ev & E1 & E2 & El). rewrite El in O. apply log_ok_app in O. destruct O as (O1 & O2).
  destruct (run_all l [] [] llc_new lg s1 good_new E1 O1) as (G & _ & _). cbn [llc_step] in E2. destruct (tick_end_inv _ _ _ _ _ G E2) as (_ & _ & _ & _ & H5).
  unfold acks_of in H. rewrite H5 in H. cbn [map] in H. rewrite app_nil_r in H. exact H.
Qed.

(** ** Delivery *)
Lemma ind_delivers t a b (s s' : llc P) ev : wf b -> rx_unitdata_ind t a (Some b) s = Ok (ev, s') ->
  match bl_accept (remaining b) with
  | Some p => if is_ack p then deliveries ev = [] else exists i, deliveries ev = [i] /\ to_mle t a p i
  | None => ev = [] /\ s' = s
  end.
Proof.
  intros W E. pose proof (ind_spec t a b s W) as H. destruct (ind_panics (remaining b)); [congruence|].
  destruct (bl_accept (remaining b)) as [p|]; [|rewrite E in H; injection H as -> ->; split; reflexivity].
  destruct (ind_effect t a p s) as [[ev0 s0]|e|] eqn:Ef; [|destruct H|congruence].
  assert (D0 : deliveries ev0 = []).
  { unfold ind_effect in Ef. destruct (acked_number p); [|injection Ef as <- <-; reflexivity]. unfold process_incoming_ack in Ef.
    destruct (take_expected _ _) as [[m r]|]; [|injection Ef as <- <-; reflexivity]. destruct (lm_done m); [|injection Ef as <- <-; reflexivity].
    destruct (_ =? _)%N; [|injection Ef as <- <-; reflexivity]. destruct (tx_mark_acknowledged (lm_rep m)); cbn [bind] in Ef; try discriminate. injection Ef as <- <-. reflexivity. }
  destruct (is_ack p).
  - rewrite E in H. injection H as -> ->. exact D0.
  - destruct H as (i & H & M). rewrite E in H. injection H as -> ->. exists i. split; [|exact M]. unfold deliveries in *. rewrite flat_map_app, D0. reflexivity.
Qed.

(** ** Unacknowledged messages *)
Definition unit_key (m : tma_req P) := flat_map (fun i => match i with
    | LDid (LSubmit m) =>
        match bl_parse (req_bits m) with
        | Some (UData false sdu) => [(tq_time m, tq_addr m, sdu, tq_steal m, tq_chan m, tq_reporter m, tq_info m)]
        | _ => []
        end
    | _ => [] end) [LDid (LSubmit m)].
Lemma unit_sent_app (a b : list (litem P)) : unit_sent (a ++ b) = unit_sent a ++ unit_sent b.
Proof. apply flat_map_app. Qed.
Lemma unit_asked_app (a b : list (litem P)) : unit_asked (a ++ b) = unit_asked a ++ unit_asked b.
Proof. apply flat_map_app. Qed.
Lemma unit_asked_did (ev : list (lev P)) : unit_asked (map LDid ev) = [].
Proof. induction ev; [reflexivity|assumption]. Qed.
Lemma unit_data ev : Forall (data_ev (P := P)) ev -> unit_sent (map LDid ev) = [].
Proof.
  induction 1 as [|e ev E F IH]; [reflexivity|]. change (map LDid (e :: ev)) with ([LDid e] ++ map LDid ev). rewrite unit_sent_app, IH, app_nil_r. destruct e; try reflexivity.
  cbn [data_ev] in E. unfold numbered in E. cbn [unit_sent flat_map]. destruct (bl_parse (req_bits m)) as [[]|]; try reflexivity. contradiction.
Qed.
Lemma unit_acks now : forall l ev, Forall ack_ok l -> mapM_acks (P := P) now l = Ok ev -> unit_sent (map LDid ev) = [].
Proof.
  induction l as [|a l IH]; intros ev F E; cbn [mapM_acks] in E; [injection E as <-; reflexivity|]. destruct (ack_reply_spec (P := P) now a (Forall_inv F)) as (q & Q & Q1 & _). rewrite Q in E. cbn [bind] in E.
  destruct (mapM_acks now l) as [es| |] eqn:E1; cbn [bind] in E; try discriminate. injection E as <-. change (map LDid (LSubmit q :: es)) with ([LDid (LSubmit q)] ++ map LDid es).
  rewrite unit_sent_app, (IH _ (Forall_inv_tail F) eq_refl), app_nil_r. cbn [unit_sent flat_map]. rewrite Q1. reflexivity.
Qed.
Lemma unit_step named given c (s : llc P) ev s' : good named given s -> item_ok named given (LCall c) -> llc_step c s = Ok (ev, s') ->
  flat_map unit_key (ll_udata s) ++ unit_asked [LCall c] = unit_sent (map LDid ev) ++ flat_map unit_key (ll_udata s') /\ (c = LTickEnd -> ll_udata s' = []).
Proof.
  intros G I E. destruct c as [t| |id rep q|q|t a pdu|id op]; cbn [llc_step] in E; cbn [unit_asked flat_map app]; rewrite ?app_nil_r.
  - injection E as <- <-. split; [reflexivity|discriminate].
  - unfold llc_tick_end, submit_retransmissions, submit_free_messages, submit_ack_replies in E.
    destruct (retransmit_stage (ll_time s) (g_time G) (ll_out s) (g_msgs G)) as (e1 & l1 & r & E1 & S1). rewrite E1 in E. cbn [bind] in E.
    destruct (remove_lost r l1) as [[e2 l2]| |] eqn:E2; cbn [bind] in E; try discriminate. destruct (remove_lost_stage _ _ _ _ E2) as (R1 & R2 & R3 & R4). cbn [set_out ll_time ll_out] in E.
    assert (F2 : Forall msg_ok l2) by (apply Forall_forall; intros x X; exact (proj1 (Forall_forall _ _) (proj1 S1) x (R1 x X))).
    destruct (free_stage (ll_time s) l2 [] F2) as (e3 & l3 & E3 & S3). rewrite E3 in E. cbn [bind set_out ll_time ll_acks] in E.
    destruct (mapM_acks (ll_time s) (ll_acks s)) as [e4| |] eqn:E4; cbn [bind] in E; try discriminate.
    cbn [submit_udata set_acks set_out ll_time ll_acks ll_out ll_udata ll_seq] in E. injection E as <- <-. split; [|reflexivity]. cbn [ll_udata flat_map]. rewrite app_nil_r.
    rewrite !map_app, !unit_sent_app. rewrite (unit_data e1), (unit_data e2), (unit_data e3), (unit_acks _ _ _ (g_acks G) E4) by (assumption || apply S1 || apply S3). cbn [app].
    unfold unit_sent. clear. induction (ll_udata s) as [|m l IH]; [reflexivity|]. cbn [flat_map map] in *. rewrite <- IH. unfold unit_key. cbn [flat_map]. rewrite app_nil_r. reflexivity.
  - destruct I as (I1 & -> & I3). destruct (data_req_eq _ _ id tx_new q s G I3) as [St|[Ty|(m & acks & E' & _)]].
    { unfold rx_tldata_req in E. rewrite St in E. discriminate. }
    { unfold rx_tldata_req in E. rewrite Ty in E. destruct (lq_steal q); discriminate. }
    rewrite E' in E. injection E as <- <-. split; [reflexivity|discriminate].
  - unfold rx_tlunitdata_req in E. destruct I as (I1 & _). destruct (llc_pdu_spec _ _ (lq_sdu q) (bu_bits false) I1) as (b & Eb & Wb & Vb). rewrite Eb in E. cbn [bind] in E. injection E as <- <-. split; [|discriminate].
    cbn [map unit_sent flat_map app ll_udata]. rewrite flat_map_app. f_equal. unfold unit_key. cbn [flat_map]. unfold req_bits. cbn [tq_pdu]. rewrite Vb. reflexivity.
  - destruct pdu as [b|]; [|discriminate]. destruct I as (I1 & I2). pose proof (ind_spec t a b s I2) as H. destruct (ind_panics (remaining b)); [congruence|].
    destruct (bl_accept (remaining b)) as [p|]; [|rewrite E in H; injection H as -> ->; split; [reflexivity|discriminate]].
    destruct (ind_effect t a p s) as [[ev0 s0]|e|] eqn:Ef; [|destruct H|congruence].
    assert (X : unit_sent (map LDid ev0) = [] /\ ll_udata s0 = ll_udata s).
    { unfold ind_effect in Ef. set (s1 := match send_number p with Some n => schedule_outgoing_ack t a (N.b2n n) s | None => s end) in *.
      assert (Q : ll_udata s1 = ll_udata s) by (unfold s1; destruct (send_number p); reflexivity). rewrite <- Q. clearbody s1.
      destruct (acked_number p) as [n|]; [|injection Ef as <- <-; split; reflexivity]. unfold process_incoming_ack in Ef.
      destruct (take_expected (ad_ssi a) (ll_out s1)) as [[m r]|] eqn:T; [|injection Ef as <- <-; split; reflexivity].
      destruct (lm_done m); [|injection Ef as <- <-; split; reflexivity]. destruct (_ =? _)%N; [|injection Ef as <- <-; split; reflexivity].
      destruct (tx_mark_acknowledged (lm_rep m)); cbn [bind] in Ef; try discriminate. injection Ef as <- <-. split; reflexivity. }
    destruct X as (X1 & X2). split; [|discriminate]. rewrite <- X2.
    destruct (is_ack p); [rewrite E in H; injection H as -> ->; rewrite X1; reflexivity|]. destruct H as (i & H & _). rewrite E in H. injection H as -> ->. rewrite map_app, unit_sent_app, X1. reflexivity.
  - unfold llc_umac_mark in E. destruct (mark_all id op (ll_out s)) as [l'| |] eqn:Em; cbn [bind] in E; try discriminate. injection E as <- <-. split; [reflexivity|discriminate].
Qed.
Lemma unit_run : forall (l : list (lcall P)) named given s log s', good named given s -> llc_run l s = Ok (log, s') -> log_ok named given log ->
  flat_map unit_key (ll_udata s) ++ unit_asked log = unit_sent log ++ flat_map unit_key (ll_udata s').
Proof.
  induction l as [|c l IH]; intros named given s log s' G E O.
  - injection E as <- <-. cbn. now rewrite app_nil_r.
  - cbn [llc_run] in E. destruct (llc_step c s) as [[ev s1]| |] eqn:E1; cbn [bind] in E; try discriminate.
    destruct (llc_run l s1) as [[lg s2]| |] eqn:E2; cbn [bind] in E; try discriminate. injection E as <- <-.
    cbn [log_ok] in O. destruct O as (O1 & O2). change (item_given (LCall c) given) with given in O2. rewrite log_ok_did in O2.
    destruct (step_all _ _ _ _ _ _ G O1 E1) as (S1 & _ & _). specialize (IH _ _ _ _ _ S1 E2 O2). destruct (unit_step _ _ _ _ _ _ G O1 E1) as (U & _).
    change (LCall c :: map LDid ev ++ lg) with ([LCall c] ++ map LDid ev ++ lg). rewrite !unit_sent_app, !unit_asked_app, unit_asked_did.
    change (unit_sent (P := P) [LCall c]) with (unit_sent (P := P) []). change (unit_sent (P := P) []) with (@nil (tdma_time * tetra_addr * list bool * bool * option chan_req * option N * option P)). cbn [app].
    rewrite app_assoc, U, <- !app_assoc. f_equal. exact IH.
Qed.
Lemma run_units (l : list (lcall P)) log s : llc_run (l ++ [LTickEnd]) llc_new = Ok (log, s) -> log_ok [] [] log -> unit_sent log = unit_asked log.
Proof.
  intros E O. pose proof (unit_run _ [] [] llc_new log s good_new E O) as H. cbn [llc_new ll_udata flat_map app] in H.
  destruct (run_snoc _ _ _ _ _ E) as (lg & s1 & ev & E1 & E2 & El). rewrite El in O. apply log_ok_app in O. destruct O as (O1 & O2 & _).
  destruct (run_all l [] [] llc_new lg s1 good_new E1 O1) as (G & _ & _). destruct (unit_step _ _ _ _ _ _ G O2 E2) as (_ & U). rewrite (U eq_refl) in H. cbn [flat_map] in H. rewrite app_nil_r in H. auto.
Qed.

(** ** No panics *)
Definition clean (l : list (lmsg P)) : Prop := Forall (fun m => tx_byte (lm_rep m) <> 1) l.
Lemma retransmit_clean now : forall l e l' r, retransmit_all now l = Ok (e, l', r) -> clean l -> clean l'.
Proof.
  induction l as [|m l IH]; intros e l' r E C; [injection E as <- <- <-; exact C|]. cbn [retransmit_all] in E.
  destruct (retransmit_one now m) as [[[e1 m1] g]| |] eqn:E1; cbn [bind] in E; try discriminate.
  destruct (retransmit_all now l) as [[[e2 l2] r2]| |] eqn:E2; cbn [bind] in E; try discriminate. injection E as <- <- <-.
  constructor; [|exact (IH _ _ _ eq_refl (Forall_inv_tail C))]. pose proof (Forall_inv C) as Cm. cbv beta in Cm.
  unfold retransmit_one in E1. fold (pre_notice now m) in E1. cbv zeta in E1.
  assert (X : lm_rep (pre_notice now m) = lm_rep m) by (unfold pre_notice; destruct (lm_done m); [reflexivity|]; destruct (_ || _)%bool; reflexivity).
  set (m0 := pre_notice now m) in *. clearbody m0. rewrite <- X in Cm.
  destruct (lm_done m0) as [d|]; [|injection E1 as <- <- <-; exact Cm].
  destruct (tdiff now d) as [a| |]; cbn [bind] in E1; try discriminate. destruct (_ <=? _)%Z; [|injection E1 as <- <- <-; exact Cm].
  destruct (_ <? _)%N; [|injection E1 as <- <- <-; exact Cm]. cbn [submit_acked tx_reset bind] in E1. injection E1 as <- <- <-. discriminate.
Qed.
Lemma free_clean now : forall l bl e l', submit_free_loop now bl l = Ok (e, l') -> clean l -> clean l'.
Proof.
  induction l as [|m l IH]; intros bl e l' E C; [injection E as <- <-; exact C|]. cbn [submit_free_loop] in E. cbv zeta in E. pose proof (Forall_inv C) as Cm. apply Forall_inv_tail in C.
  destruct (lm_submitted m) as [t0|].
  - destruct (submit_free_loop now (ad_ssi (lm_addr m) :: bl) l) as [[e2 l2]| |] eqn:E2; cbn [bind] in E; try discriminate. injection E as <- <-. constructor; [exact Cm|exact (IH _ _ _ E2 C)].
  - destruct (existsb _ bl).
    + destruct (submit_free_loop now bl l) as [[e2 l2]| |] eqn:E2; cbn [bind] in E; try discriminate. injection E as <- <-. constructor; [exact Cm|exact (IH _ _ _ E2 C)].
    + cbn [submit_acked tx_reset bind] in E. destruct (submit_free_loop now (ad_ssi (lm_addr m) :: bl) l) as [[e2 l2]| |] eqn:E2; cbn [bind] in E; try discriminate. injection E as <- <-. constructor; [discriminate|exact (IH _ _ _ E2 C)].
Qed.
Lemma mark_clean id : forall l l', mark_all id MarkTransmitted l = Ok l' -> clean l -> clean l'.
Proof.
  induction l as [|m l IH]; intros l' E C; [injection E as <-; exact C|]. cbn [mark_all] in E. pose proof (Forall_inv C) as Cm. apply Forall_inv_tail in C.
  destruct (lm_id m =? id)%N.
  - cbn [tx_apply] in E. unfold tx_mark_transmitted, tx_mark in E. destruct (_ =? _); cbn [bind] in E; try discriminate.
    destruct (mark_all id MarkTransmitted l) as [l1| |]; cbn [bind] in E; try discriminate. injection E as <-. constructor; [discriminate|exact (IH _ eq_refl C)].
  - cbn [bind] in E. destruct (mark_all id MarkTransmitted l) as [l1| |]; cbn [bind] in E; try discriminate. injection E as <-. constructor; [exact Cm|exact (IH _ eq_refl C)].
Qed.
Lemma clean_incl (l l' : list (lmsg P)) : incl l' l -> clean l -> clean l'.
Proof. intros I C. apply Forall_forall. intros x X. exact (proj1 (Forall_forall _ _) C x (I x X)). Qed.
Lemma step_clean named given c (s : llc P) ev s' : good named given s -> item_ok named given (LCall c) -> not_dropped c -> llc_step c s = Ok (ev, s') -> clean (ll_out s) -> clean (ll_out s').
Proof.
  intros G I ND E C. destruct c as [t| |id rep q|q|t a pdu|id op]; cbn [llc_step] in E.
  - injection E as <- <-. exact C.
  - unfold llc_tick_end, submit_retransmissions, submit_free_messages, submit_ack_replies in E.
    destruct (retransmit_all (ll_time s) (ll_out s)) as [[[e1 l1] r]| |] eqn:E1; cbn [bind] in E; try discriminate.
    destruct (remove_lost r l1) as [[e2 l2]| |] eqn:E2; cbn [bind set_out ll_time ll_out] in E; try discriminate.
    destruct (submit_free_loop (ll_time s) [] l2) as [[e3 l3]| |] eqn:E3; cbn [bind set_out ll_time ll_acks] in E; try discriminate.
    destruct (mapM_acks (ll_time s) (ll_acks s)) as [e4| |]; cbn [bind submit_udata set_acks set_out ll_time ll_acks ll_out ll_udata ll_seq] in E; try discriminate.
    injection E as <- <-. cbn [ll_out]. apply (free_clean _ _ _ _ _ E3). apply (clean_incl l1); [exact (proj1 (remove_lost_stage _ _ _ _ E2))|]. exact (retransmit_clean _ _ _ _ _ E1 C).
  - destruct I as (I1 & -> & I3). destruct (data_req_eq _ _ id tx_new q s G I3) as [St|[Ty|(m & acks & E' & _)]].
    { unfold rx_tldata_req in E. rewrite St in E. discriminate. }
    { unfold rx_tldata_req in E. rewrite Ty in E. destruct (lq_steal q); discriminate. }
    rewrite E' in E. injection E as <- <-. cbn [ll_out]. apply Forall_app. split; [exact C|]. constructor; [discriminate|constructor].
  - unfold rx_tlunitdata_req in E. destruct (llc_pdu _ _); cbn [bind] in E; try discriminate. injection E as <- <-. exact C.
  - destruct pdu as [b|]; [|discriminate]. destruct I as (I1 & I2). pose proof (ind_spec t a b s I2) as H. destruct (ind_panics (remaining b)); [congruence|].
    destruct (bl_accept (remaining b)) as [p|]; [|rewrite E in H; injection H as -> ->; exact C].
    destruct (ind_effect t a p s) as [[ev0 s0]|e|] eqn:Ef; [|destruct H|congruence].
    assert (X : clean (ll_out s0)).
    { unfold ind_effect in Ef. set (s1 := match send_number p with Some n => schedule_outgoing_ack t a (N.b2n n) s | None => s end) in *.
      assert (Q : ll_out s1 = ll_out s) by (unfold s1; destruct (send_number p); reflexivity). rewrite <- Q in C. clearbody s1.
      destruct (acked_number p) as [n|]; [|injection Ef as <- <-; exact C]. unfold process_incoming_ack in Ef.
      destruct (take_expected (ad_ssi a) (ll_out s1)) as [[m r]|] eqn:T; [|injection Ef as <- <-; exact C]. destruct (take_front_in _ _ _ _ T) as (F1 & _ & _). destruct (take_expected_in _ _ _ _ T) as (F2 & _).
      destruct (lm_done m); [|injection Ef as <- <-; exact (clean_incl _ _ F1 C)]. destruct (_ =? _)%N; [|injection Ef as <- <-; exact (clean_incl _ _ F1 C)].
      destruct (tx_mark_acknowledged (lm_rep m)); cbn [bind] in Ef; try discriminate. injection Ef as <- <-. exact (clean_incl _ _ F2 C). }
    destruct (is_ack p); [rewrite E in H; injection H as -> ->; exact X|]. destruct H as (i & H & _). rewrite E in H. injection H as -> ->. exact X.
  - destruct I as (_ & [-> | ->]); [|contradiction]. unfold llc_umac_mark in E. destruct (mark_all id MarkTransmitted (ll_out s)) as [l'| |] eqn:Em; cbn [bind] in E; try discriminate. injection E as <- <-. exact (mark_clean _ _ _ Em C).
Qed.
Lemma run_clean : forall (l : list (lcall P)) named given s log s', good named given s -> llc_run l s = Ok (log, s') -> log_ok named given log -> Forall not_dropped l -> clean (ll_out s) -> clean (ll_out s').
Proof.
  induction l as [|c l IH]; intros named given s log s' G E O D C.
  - injection E as <- <-. exact C.
  - cbn [llc_run] in E. destruct (llc_step c s) as [[ev s1]| |] eqn:E1; cbn [bind] in E; try discriminate.
    destruct (llc_run l s1) as [[lg s2]| |] eqn:E2; cbn [bind] in E; try discriminate. injection E as <- <-.
    cbn [log_ok] in O. destruct O as (O1 & O2). change (item_given (LCall c) given) with given in O2. rewrite log_ok_did in O2.
    destruct (step_all _ _ _ _ _ _ G O1 E1) as (S1 & _ & _). exact (IH _ _ _ _ _ S1 E2 O2 (Forall_inv_tail D) (step_clean _ _ _ _ _ _ G O1 (Forall_inv D) E1 C)).
Qed.

Lemma remove_lost_ok : forall r (l : list (lmsg P)), (forall ssi, exists x, remove_lost (filter (fun y => (y =? ssi)%N) r) (mine ssi l) = Ok x) -> exists x, remove_lost r l = Ok x.
Proof.
  induction r as [|s r IH]; intros l H; [eexists; reflexivity|]. pose proof (H s) as (x & Hs). cbn [filter] in Hs. rewrite N.eqb_refl in Hs. cbn [remove_lost] in *.
  rewrite take_expected_mine, N.eqb_refl in Hs. destruct (take_expected s l) as [[m l1]|] eqn:T; cbn [unwrap bind] in *; [|discriminate].
  destruct (tx_mark_lost (lm_rep m)) as [rp| |]; cbn [bind] in *; try discriminate.
  destruct (IH l1) as ([e l2] & E).
  - intros ssi. destruct (N.eqb_spec s ssi) as [Q|Q].
    + subst ssi. destruct (remove_lost (filter (fun y => (y =? s)%N) r) (mine s l1)) as [y| |]; [eexists; reflexivity|discriminate..].
    + destruct (H ssi) as (y & Hy). cbn [filter] in Hy. rewrite (proj2 (N.eqb_neq _ _) Q) in Hy. destruct (take_expected_split _ _ _ _ T) as (a & b & -> & -> & Qa & _).
      rewrite mine_out in Hy by congruence. exists y. exact Hy.
  - rewrite E. eexists. reflexivity.
Qed.
Lemma byte_two m : msg_ok (P := P) m -> lm_done m <> None -> tx_byte (lm_rep m) <> 1 -> tx_byte (lm_rep m) = 2 /\ tx_expects_ack (lm_rep m) = true.
Proof. intros (M1 & M2 & M3 & M4 & M5 & M6 & M7 & M8 & M9) D C. destruct (lm_done m); [|contradiction]. destruct M8 as (_ & _ & Z). split; [lia|assumption]. Qed.
Lemma lost_one now ssi (l : list (lmsg P)) k e l1 r : vtime now -> Forall msg_ok l -> Forall (fun m => ad_ssi (lm_addr m) = ssi) l -> matches now l k -> clean l ->
  retransmit_all now l = Ok (e, l1, r) -> exists x, remove_lost r l1 = Ok x.
Proof.
  intros V F A (cur & rest & (S1 & S2 & S3) & _) C E. destruct cur as [m|].
  2:{ subst l. rewrite (retransmit_rest now rest F S2) in E. injection E as <- <- <-. eexists. reflexivity. }
  subst l. pose proof (Forall_inv F) as M. apply Forall_inv_tail in F. pose proof (Forall_inv A) as Am. pose proof (Forall_inv C) as Cm. cbv beta in Am, Cm.
  destruct (pre_notice_ok now m V M) as (M1 & Q2 & Q3 & Q4 & Q5 & Q6). cbn [retransmit_all] in E. rewrite (retransmit_one_eq now m V M) in E. cbv zeta in E.
  rewrite <- Q6 in Cm. rewrite <- Q3 in Am. rewrite <- Q2 in S3. set (m1 := pre_notice now m) in *. clearbody m1. clear Q2 Q3 Q4 Q5 Q6.
  destruct (due now (os_of m1)) eqn:Du.
  - destruct (N.ltb_spec (lm_count m1) 3) as [Cn|Cn]; cbn [bind] in E; rewrite (retransmit_rest now rest F S2) in E; cbn [bind] in E; injection E as <- <- <-; [eexists; reflexivity|].
    cbn [remove_lost take_expected]. rewrite N.eqb_refl. destruct (lm_submitted m1); [|contradiction]. cbn [andb unwrap bind].
    assert (D : lm_done m1 <> None) by (unfold due, os_of in Du; cbn [os_done] in Du; destruct (lm_done m1); discriminate).
    destruct (byte_two m1 M1 D Cm) as (B1 & B2). unfold tx_mark_lost, tx_mark. rewrite B1, B2. cbn. eexists. reflexivity.
  - cbn [bind] in E; rewrite (retransmit_rest now rest F S2) in E; cbn [bind] in E; injection E as <- <- <-; eexists; reflexivity.
Qed.
Lemma tick_end_ok named given (s : llc P) : good named given s -> (forall ssi, exists k, matches (ll_time s) (mine ssi (ll_out s)) k) -> clean (ll_out s) -> exists x, llc_tick_end s = Ok x.
Proof.
  intros G M C. unfold llc_tick_end, submit_retransmissions, submit_free_messages, submit_ack_replies.
  destruct (retransmit_stage (ll_time s) (g_time G) (ll_out s) (g_msgs G)) as (e1 & l1 & r & E1 & S1). rewrite E1. cbn [bind].
  destruct (remove_lost_ok r l1) as ([e2 l2] & E2).
  - intros ssi. destruct (M ssi) as (k & K). pose proof (retransmit_all_mine (ll_time s) ssi _ _ _ _ (g_msgs G) E1) as R. eapply (lost_one (ll_time s) ssi (mine ssi (ll_out s)) k); [exact (g_time G)| | |exact K| |exact R].
    + apply Forall_forall. intros x X. apply filter_In in X. exact (proj1 (Forall_forall _ _) (g_msgs G) x (proj1 X)).
    + apply Forall_forall. intros x X. apply filter_In in X. apply N.eqb_eq. exact (proj2 X).
    + apply (clean_incl (ll_out s)); [|exact C]. intros x X. apply filter_In in X. exact (proj1 X).
  - rewrite E2. cbn [bind set_out ll_time ll_out]. destruct (remove_lost_stage _ _ _ _ E2) as (R1 & _).
    assert (F2 : Forall msg_ok l2) by (apply Forall_forall; intros x X; exact (proj1 (Forall_forall _ _) (proj1 S1) x (R1 x X))).
    destruct (free_stage (ll_time s) l2 [] F2) as (e3 & l3 & E3 & S3). rewrite E3. cbn [bind set_out ll_time ll_acks].
    destruct (acks_spec (P := P) (ll_time s) (ll_acks s) (g_acks G)) as (e4 & E4 & _). rewrite E4. cbn [bind submit_udata]. eexists. reflexivity.
Qed.
Lemma mark_panic id op (Q : op = MarkTransmitted \/ op = MarkDiscarded) : forall (l : list (lmsg P)), mark_all id op l = Panic -> exists m, In m l /\ lm_id m = id /\ tx_byte (lm_rep m) <> 0.
Proof.
  induction l as [|m l IH]; intros E; [discriminate|]. cbn [mark_all] in E. destruct (N.eqb_spec (lm_id m) id) as [Qi|Qi].
  - destruct (Nat.eq_dec (tx_byte (lm_rep m)) 0) as [Z|Z]; [|exists m; split; [left; reflexivity|split; assumption]].
    destruct Q as [-> | ->]; cbn [tx_apply] in E; unfold tx_mark_transmitted, tx_mark_discarded, tx_mark in E; rewrite Z in E; cbn [tx_raw Nat.eqb bind] in E;
      (destruct (mark_all id _ l) eqn:Em; cbn [bind] in E; try discriminate; destruct (IH eq_refl) as (x & X & Y); exists x; split; [now right|assumption]).
  - cbn [bind] in E. destruct (mark_all id op l) eqn:Em; cbn [bind] in E; try discriminate; destruct (IH eq_refl) as (x & X & Y); exists x; split; [now right|assumption].
Qed.
Lemma mark_panics id op (Q : op = MarkTransmitted \/ op = MarkDiscarded) : forall (l : list (lmsg P)) m, In m l -> lm_id m = id -> tx_byte (lm_rep m) <> 0 -> mark_all id op l = Panic.
Proof.
  assert (NE : forall l e, mark_all (P := P) id op l <> Err e).
  { induction l as [|x l IH]; intros e E; [discriminate|]. cbn [mark_all] in E. destruct (lm_id x =? id)%N.
    - destruct Q as [-> | ->]; cbn [tx_apply] in E; unfold tx_mark_transmitted, tx_mark_discarded, tx_mark in E; destruct (_ =? _); cbn [bind] in E; try discriminate; destruct (mark_all id _ l) eqn:Em; cbn [bind] in E; try discriminate; exact (IH _ eq_refl).
    - cbn [bind] in E. destruct (mark_all id op l) eqn:Em; cbn [bind] in E; try discriminate; exact (IH _ eq_refl). }
  induction l as [|x l IH]; intros m I Hm Z; [destruct I|]. cbn [mark_all]. destruct I as [<-|I].
  - rewrite Hm, N.eqb_refl. destruct Q as [-> | ->]; cbn [tx_apply]; unfold tx_mark_transmitted, tx_mark_discarded, tx_mark; cbn [tx_raw]; rewrite (proj2 (Nat.eqb_neq _ _) Z); reflexivity.
  - rewrite (IH m I Hm Z). destruct (lm_id x =? id)%N; [|reflexivity].
    destruct Q as [-> | ->]; cbn [tx_apply]; unfold tx_mark_transmitted, tx_mark_discarded, tx_mark; destruct (_ =? _); reflexivity.
Qed.

Lemma ack_ok_clean a n (s : llc P) : Forall msg_ok (ll_out s) -> clean (ll_out s) -> process_incoming_ack a n s <> Panic.
Proof.
  intros F C. unfold process_incoming_ack. destruct (take_expected (ad_ssi a) (ll_out s)) as [[m r]|] eqn:T; [|discriminate].
  destruct (take_front_in _ _ _ _ T) as (F1 & _ & _). pose proof (proj1 (Forall_forall _ _) F m (F1 m (or_introl eq_refl))) as M. pose proof (proj1 (Forall_forall _ _) C m (F1 m (or_introl eq_refl))) as Cm. cbv beta in Cm.
  destruct (lm_done m) eqn:D; [|discriminate]. destruct (_ =? _)%N; [|discriminate]. destruct (byte_two m M ltac:(congruence) Cm) as (B1 & B2). unfold tx_mark_acknowledged, tx_mark. rewrite B1, B2. discriminate.
Qed.
Lemma run_panics (l : list (lcall P)) log s c : llc_run l llc_new = Ok (log, s) -> log_ok [] [] (log ++ [LCall c]) -> Forall not_dropped l -> (llc_step c s = Panic <-> bad_call log c).
Proof.
  intros E O D. apply log_ok_app in O. destruct O as (O & Oc & _). destruct (run_all l [] [] llc_new log s good_new E O) as (G & H & _).
  assert (C : clean (ll_out s)) by (apply (run_clean l [] [] llc_new log s good_new E O D); constructor).
  assert (M : forall ssi, exists k, link_run ssi link_start log = Some k /\ matches (ll_time s) (mine ssi (ll_out s)) k) by (intros ssi; exact (H ssi _ (matches_new ssi))). clear H.
  destruct c as [t| |id rep q|q|t a pdu|id op]; cbn [llc_step bad_call].
  - split; [discriminate|intros []].
  - split; [|intros []]. intros X. destruct (tick_end_ok _ _ s G) as (x & Y); [|exact C|congruence]. intros ssi. destruct (M ssi) as (k & _ & K). exists k. exact K.
  - destruct Oc as (I1 & -> & I3). split.
    + intros X. destruct (data_req_eq _ _ id tx_new q s G I3) as [St|[Ty|(m & acks & E' & _)]]; [now left|now right|congruence].
    + intros [St|Ty]; unfold rx_tldata_req; [rewrite St; reflexivity|rewrite Ty; destruct (lq_steal q); reflexivity].
  - destruct Oc as (I1 & _). split; [|intros []]. unfold rx_tlunitdata_req. destruct (llc_pdu_spec _ _ (lq_sdu q) (bu_bits false) I1) as (b & -> & _). discriminate.
  - destruct pdu as [b|]; [|split; [intros _; exact I|reflexivity]]. destruct Oc as (I1 & I2). pose proof (ind_spec t a b s I2) as H. destruct (ind_panics (remaining b)); [split; auto|]. split; [|discriminate]. intros X. exfalso.
    destruct (bl_accept (remaining b)) as [p|]; [|congruence]. destruct (ind_effect t a p s) as [[ev0 s0]|e|] eqn:Ef; [destruct (is_ack p); [congruence|destruct H as (i & H & _); congruence]|destruct H|].
    unfold ind_effect in Ef. destruct (acked_number p) as [n|]; [|discriminate]. revert Ef. apply ack_ok_clean; destruct (send_number p); try exact C; exact (g_msgs G).
  - destruct Oc as (I1 & I2). unfold llc_umac_mark. split.
    + intros X. destruct (mark_all id op (ll_out s)) as [l'| |] eqn:Em; cbn [bind] in X; try discriminate. destruct (mark_panic id op I2 _ Em) as (m & Im & Hm & Z).
      set (ssi := ad_ssi (lm_addr m)). destruct (M ssi) as (k & K1 & cur & rest & (S1 & S2 & S3) & ->). pose proof (proj1 (Forall_forall _ _) (g_msgs G) m Im) as Mo.
      assert (Ii : In m (mine ssi (ll_out s))) by (apply filter_In; split; [exact Im|apply N.eqb_refl]).
      assert (Sb : lm_submitted m <> None) by (intros Y; destruct Mo as (_ & _ & _ & _ & _ & _ & _ & _ & M9); rewrite Y in M9; destruct M9; contradiction).
      rewrite S1 in Ii. destruct cur as [m0|]; [destruct Ii as [-> |Ii]|].
      * exists ssi. do 2 eexists. split; [exact K1|]. cbn [lk_current option_map]. split; [reflexivity|]. unfold os_of. cbn [os_id os_reported]. split; [exact Hm|]. now rewrite (proj2 (Nat.eqb_neq _ _) Z).
      * exfalso. apply Sb. exact (proj1 (Forall_forall _ _) S2 m Ii).
      * exfalso. apply Sb. exact (proj1 (Forall_forall _ _) S2 m Ii).
    + intros (ssi & k & o & K1 & Ko & Hi & Hr). destruct (M ssi) as (k' & K1' & cur & rest & (S1 & S2 & S3) & Ek). rewrite K1 in K1'. injection K1' as <-. subst k. cbn [lk_current] in Ko. destruct cur as [m|]; [|discriminate]. injection Ko as <-.
      cbn [os_of os_id os_reported] in Hi, Hr. destruct (Nat.eqb_spec (tx_byte (lm_rep m)) 0) as [Z|Z]; [discriminate|].
      assert (Im : In m (ll_out s)) by (assert (Ii : In m (mine ssi (ll_out s))) by (rewrite S1; left; reflexivity); apply filter_In in Ii; exact (proj1 Ii)).
      rewrite (mark_panics id op I2 _ m Im Hi Z). reflexivity.
Qed.
End F.

From Coq Require Import Arith.
From Verif Require Import Base BitsLib BitBuffer Codec MacFields MacPdus TxReceipt TdmaTime UmacCircuits UmacCircuitsProofs UlSched DlSched DlSlot DlFinal StealRun OwedSpec.
Open Scope nat_scope.

Lemma drop_unacked q : forall k r m, drop_loop q = Ok (k, r, m) -> r = unacked q /\ k = filter is_steal q.
Proof.
  induction q as [|e q IH]; intros k r m E; cbn [drop_loop] in E; [injection E as <- <- _; auto|].
  destruct e; cbn [unacked flat_map app filter is_steal]; try exact (IH _ _ _ E); bi E.
  - destruct x as [[k1 r1] m1]. injection E as <- <- _. destruct (IH _ _ _ E0) as (-> & ->). auto.
  - bi E. destruct x0 as [[k1 r1] m1]. injection E as <- <- _. destruct (IH _ _ _ E1) as (-> & ->). auto.
  - bi E. destruct x0 as [[k1 r1] m1]. injection E as <- <- _. destruct (IH _ _ _ E1) as (-> & ->). auto.
  - destruct x as [[k1 r1] m1]. injection E as <- <- _. destruct (IH _ _ _ E0) as (-> & ->). auto.
Qed.
Lemma remove_settled x l : match remove_first x l with Some l' => exists a b, l = a ++ x :: b /\ l' = a ++ b | None => ~ In x l end.
Proof.
  induction l as [|y l IH]; cbn [remove_first]; [auto|]. destruct (N.eqb_spec y x) as [->|N0]; [exists [], l; auto|].
  destruct (remove_first x l); [destruct IH as (a & b & -> & ->); exists (y :: a), b; auto|]. intros [H|H]; [congruence|contradiction].
Qed.
Lemma content_ra ts d h s o1 o2 s' m : slot_content ts d h s = Ok (o1, o2, s', m) -> ds_ra s' = ds_ra s.
Proof.
  intros E. unfold slot_content in E. destruct (d && negb h).
  - bi E. destruct x as [[[tch stch] s2] m2]. assert (X : ds_ra s2 = ds_ra s).
    { unfold dl_build_traffic in E0. bi E0. destruct x as [v c]. bi E0. bi E0. destruct (take_first is_steal x0) as [[[] q']|]; try discriminate E0; [bi E0|]; injection E0 as _ _ <- _; reflexivity. }
    destruct stch; injection E as _ _ <- _; exact X.
  - bi E. bi E. destruct x0 as [[o s2] m2]. assert (X : ds_ra s2 = ds_ra s).
    { unfold dl_integrate in E0. bi E0. bi E0. injection E0 as <-. unfold dl_build_signalling in E1. bi E1. bi E1. destruct x2 as [[[? q2] next] m3].
      destruct next; [|bi E1]; injection E1 as _ <- _; reflexivity. }
    destruct o; [injection E as _ _ <- _; exact X|]. destruct (h && d); [bi E|]; injection E as _ _ <- _; exact X.
Qed.
Lemma finalize_ra s slot s' m : finalize_ts s = Ok (slot, s', m) -> ds_ra s' = ds_ra s.
Proof.
  intros E. destruct (finalize_inv _ _ _ _ E) as (dla & hang & o1 & o2 & s1 & b1 & k1 & u & EC & _ & _ & _ & _ & _ & ->). cbv zeta in EC. apply content_ra in EC. exact EC.
Qed.
Lemma tick_ra ts s s' : dl_tick_start ts s = Ok s' -> ds_ra s' = ds_ra s.
Proof. intros E. unfold dl_tick_start in E. bi E. match type of E with Ok ?a = _ => assert (s' = a) as -> by congruence end. reflexivity. Qed.
Lemma ra_other (l : list (list N)) ts k x : length l = 4 -> ts <> k -> 1 <= ts -> 1 <= k <= 4 -> ts_get (ts_set l ts x) k = ts_get l k.
Proof.
  intros L N0 T K. destruct l as [|a [|b [|c [|d [|? ?]]]]]; try discriminate L. destruct ts as [|[|[|[|[|ts]]]]], k as [|[|[|[|[|k]]]]]; try lia; try reflexivity.
Qed.
Lemma ra_same (l : list (list N)) ts x : length l = 4 -> 1 <= ts <= 4 -> ts_get (ts_set l ts x) ts = Ok x /\ length (ts_set l ts x) = 4.
Proof. intros L T. destruct l as [|a [|b [|c [|d [|? ?]]]]]; try discriminate L. destruct ts as [|[|[|[|[|ts]]]]]; try lia; split; reflexivity. Qed.
Lemma ra_get (l : list (list N)) ts x : ts_get l ts = Ok x -> length l = 4 -> 1 <= ts <= 4.
Proof. intros E L. destruct l as [|a [|b [|c [|d [|? ?]]]]]; try discriminate L. destruct ts as [|[|[|[|[|ts]]]]]; try lia; try discriminate E; destruct ts; discriminate E. Qed.
Lemma step_owed k e s o m s' q before : 1 <= k <= 4 -> length (ds_ra s) = 4 -> get_q k s = Ok q -> ts_get (ds_ra s) k = Ok before -> dl_step e s = Ok (o, m, s') ->
  exists after, ts_get (ds_ra s') k = Ok after /\ owing k e q before after.
Proof.
  intros K L EQ EB E.
  assert (SAME : ds_ra s' = ds_ra s -> exists after, ts_get (ds_ra s') k = Ok after /\ after = before) by (intros ->; eauto).
  destruct e as [t| |ts p sdu rep|ts a g|ts a|ts b rep|ts ssi|ts blk|ts act|dr ts u|dr ts|ts ssi req|on]; cbn [dl_step] in E; cbn [owing].
  - apply SAME. bi E. destruct x as [s1 m1]. bi E. destruct x as [[k0 s2] m2]. injection E as _ _ <-. rewrite (finalize_ra _ _ _ _ E1). unfold set_dl_time in E0. bi E0. injection E0 as <- _. reflexivity.
  - apply SAME. bi E. bi E. destruct x0 as [[k0 s2] m2]. injection E as _ _ <-. rewrite (finalize_ra _ _ _ _ E1). exact (tick_ra _ _ _ E0).
  - apply SAME. bi E. injection E as _ _ <-. unfold dl_enqueue_tma, push_q in E0. bi E0. injection E0 as <-. reflexivity.
  - apply SAME. bi E. injection E as _ _ <-. unfold dl_enqueue_grant, push_q in E0. bi E0. injection E0 as <-. reflexivity.
  - apply SAME. bi E. injection E as _ _ <-. unfold dl_enqueue_random_access_ack, push_q in E0. bi E0. injection E0 as <-. reflexivity.
  - apply SAME. bi E. injection E as _ _ <-. unfold dl_enqueue_stealing, push_q in E0. bi E0. injection E0 as <-. reflexivity.
  - bi E. destruct x as [b0 s0]. injection E as _ _ <-. unfold take_pending_ra_ack in E0. bi E0. pose proof (ra_get _ _ _ E L) as T. pose proof (remove_settled ssi x) as R. destruct (Nat.eqb_spec ts k) as [->|N0].
    + assert (x = before) as -> by congruence. destruct (remove_first ssi before) as [l'|]; injection E0 as _ <-.
      * exists l'. cbn [ds_ra set_ra]. split; [apply ra_same; assumption|]. destruct R as (a & b & -> & ->). split; [intros _; eauto|]. intros N0. destruct N0. apply in_or_app. right. now left.
      * exists before. split; [exact EB|]. split; [intros I; contradiction|reflexivity].
    + exists before. split; [|reflexivity]. destruct (remove_first ssi x) as [l'|]; injection E0 as _ <-; [cbn [ds_ra set_ra]; rewrite ra_other by (auto; lia)|]; exact EB.
  - apply SAME. bi E. injection E as _ _ <-. unfold dl_schedule_tmd in E0. bi E0. injection E0 as <-. reflexivity.
  - bi E. destruct x as [s0 m0]. injection E as _ _ <-. unfold set_hangtime in E0. destruct ((1 <=? ts) && (ts <=? 4)) eqn:T.
    2: { injection E0 as <- _. destruct (SAME eq_refl) as (a & A & ->). exists before. split; [exact A|]. destruct act; [reflexivity|]. replace (ts =? k) with false by lia. reflexivity. }
    destruct act; [injection E0 as <- _; exact (SAME eq_refl)|]. unfold dl_drop_all_except_stolen in E0. bi E0. bi E0. destruct x0 as [[kq r] m1]. bi E0.
    match type of E0 with Ok (?a, _) = _ => assert (s0 = a) as -> by congruence end. cbn [ds_ra set_ra]. destruct (drop_unacked _ _ _ _ E1) as (-> & _). change (ds_ra (set_hang (ts_set (ds_hang s) ts false) s)) with (ds_ra s) in E2.
    change (get_q ts (set_hang (ts_set (ds_hang s) ts false) s)) with (get_q ts s) in E. destruct (Nat.eqb_spec ts k) as [->|N0].
    + assert (x = q) as -> by congruence. destruct (unacked q) as [|y l]; [injection E2 as <-; exists before; rewrite app_nil_r; auto|]. bi E2. assert (x = before) as -> by congruence.
      match type of E2 with Ok ?a = _ => assert (x0 = a) as -> by congruence end. eexists. split; [apply ra_same; assumption|reflexivity].
    + exists before. split; [|reflexivity]. destruct (unacked x) as [|y l]; [injection E2 as <-; exact EB|]. bi E2.
      match type of E2 with Ok ?a = _ => assert (x0 = a) as -> by congruence end. rewrite ra_other by (auto; lia). exact EB.
  - apply SAME. bi E. injection E as _ _ <-. unfold dl_create_circuit in E0. bi E0. injection E0 as <-. unfold clear_hang. destruct (_ && _); reflexivity.
  - apply SAME. bi E. destruct x as [o1 s1]. injection E as _ _ <-. unfold dl_close_circuit in E0. bi E0. destruct x as [o2 c]. injection E0 as _ <-. unfold clear_hang. destruct (_ && _); reflexivity.
  - apply SAME. bi E. destruct x as [g u]. injection E as _ _ <-. reflexivity.
  - apply SAME. injection E as _ _ <-. reflexivity.
Qed.
Lemma step_len e s o m s' : length (ds_ra s) = 4 -> dl_step e s = Ok (o, m, s') -> length (ds_ra s') = 4.
Proof.
  intros L E.
  assert (SAME : ds_ra s' = ds_ra s -> length (ds_ra s') = 4) by (intros ->; auto).
  destruct e as [t| |ts p sdu rep|ts a g|ts a|ts b rep|ts ssi|ts blk|ts act|dr ts u|dr ts|ts ssi req|on]; cbn [dl_step] in E.
  - apply SAME. bi E. destruct x as [s1 m1]. bi E. destruct x as [[k0 s2] m2]. injection E as _ _ <-. rewrite (finalize_ra _ _ _ _ E1). unfold set_dl_time in E0. bi E0. injection E0 as <- _. reflexivity.
  - apply SAME. bi E. bi E. destruct x0 as [[k0 s2] m2]. injection E as _ _ <-. rewrite (finalize_ra _ _ _ _ E1). exact (tick_ra _ _ _ E0).
  - apply SAME. bi E. injection E as _ _ <-. unfold dl_enqueue_tma, push_q in E0. bi E0. injection E0 as <-. reflexivity.
  - apply SAME. bi E. injection E as _ _ <-. unfold dl_enqueue_grant, push_q in E0. bi E0. injection E0 as <-. reflexivity.
  - apply SAME. bi E. injection E as _ _ <-. unfold dl_enqueue_random_access_ack, push_q in E0. bi E0. injection E0 as <-. reflexivity.
  - apply SAME. bi E. injection E as _ _ <-. unfold dl_enqueue_stealing, push_q in E0. bi E0. injection E0 as <-. reflexivity.
  - bi E. destruct x as [b0 s0]. injection E as _ _ <-. unfold take_pending_ra_ack in E0. bi E0. pose proof (ra_get _ _ _ E L) as T. destruct (remove_first ssi x) as [l'|]; injection E0 as _ <-; [apply ra_same; assumption|exact L].
  - apply SAME. bi E. injection E as _ _ <-. unfold dl_schedule_tmd in E0. bi E0. injection E0 as <-. reflexivity.
  - bi E. destruct x as [s0 m0]. injection E as _ _ <-. unfold set_hangtime in E0. destruct ((1 <=? ts) && (ts <=? 4)) eqn:T; [|injection E0 as <- _; exact L].
    destruct act; [injection E0 as <- _; exact L|]. unfold dl_drop_all_except_stolen in E0. bi E0. bi E0. destruct x0 as [[kq r] m1]. bi E0.
    match type of E0 with Ok (?a, _) = _ => assert (s0 = a) as -> by congruence end. cbn [ds_ra set_ra]. change (ds_ra (set_hang (ts_set (ds_hang s) ts false) s)) with (ds_ra s) in E2.
    destruct r as [|y l]; [injection E2 as <-; exact L|]. bi E2. match type of E2 with Ok ?a = _ => assert (x0 = a) as -> by congruence end. apply ra_same; [exact L|lia].
  - apply SAME. bi E. injection E as _ _ <-. unfold dl_create_circuit in E0. bi E0. injection E0 as <-. unfold clear_hang. destruct (_ && _); reflexivity.
  - apply SAME. bi E. destruct x as [o1 s1]. injection E as _ _ <-. unfold dl_close_circuit in E0. bi E0. destruct x as [o2 c]. injection E0 as _ <-. unfold clear_hang. destruct (_ && _); reflexivity.
  - apply SAME. bi E. destruct x as [g u]. injection E as _ _ <-. reflexivity.
  - apply SAME. injection E as _ _ <-. reflexivity.
Qed.
Lemma run_len evs : forall s log s', length (ds_ra s) = 4 -> dl_run evs s = Ok (log, s') -> length (ds_ra s') = 4.
Proof.
  induction evs as [|e evs IH]; intros s log s' L E; cbn [dl_run] in E; [injection E as _ <-; exact L|].
  bi E. destruct x as [[k m] s2]. bi E. destruct x as [lg s3]. injection E as _ <-. exact (IH _ _ _ (step_len _ _ _ _ _ L E0) E1).
Qed.
Lemma owed_history k t code p evs log s e o m s' : 1 <= k <= 4 -> dl_run (DvStart t :: evs) (dls_new code p) = Ok (log, s) -> dl_step e s = Ok (o, m, s') ->
  forall q, get_q k s = Ok q -> exists before after, ts_get (ds_ra s) k = Ok before /\ ts_get (ds_ra s') k = Ok after /\ owing k e q before after.
Proof.
  intros K R E q EQ. pose proof (run_len (DvStart t :: evs) (dls_new code p) _ _ eq_refl R) as L.
  assert (exists before, ts_get (ds_ra s) k = Ok before) as (before & EB). { destruct (ds_ra s) as [|a [|b [|c [|d [|? ?]]]]]; try discriminate L. destruct k as [|[|[|[|[|k]]]]]; try lia; cbn; eauto. }
  destruct (step_owed k e s o m s' q before K L EQ EB E) as (after & A & B). eauto 8.
Qed.

(** an acknowledgement queued in hang time is owed when the hang time ends, and settled by the next stolen half slot *)
From Verif Require Import DlFacts.
Definition ex_owed : list dl_event := [DvOpen DirDl 2 5; DvHang 2 true; DvAck 2 (mk_addr 1001 false SsiSsi); DvAck 2 (mk_addr 1002 false SsiSsi)].
Lemma owed_met : exists log s o m s' o1 m1 s1, dl_run (DvStart ex_start :: ex_owed) (dls_new 5 ex_pre) = Ok (log, s) /\ dl_step (DvHang 2 false) s = Ok (o, m, s') /\
  ts_get (ds_ra s') 2 = Ok [1001; 1002]%N /\ dl_step (DvTakeRa 2 1001) s' = Ok (o1, m1, s1) /\ ts_get (ds_ra s1) 2 = Ok [1002]%N.
Proof.
  assert (H : match dl_run (DvStart ex_start :: ex_owed) (dls_new 5 ex_pre) with
    | Ok (_, s) => match dl_step (DvHang 2 false) s with Ok (_, _, s') => match dl_step (DvTakeRa 2 1001) s' with Ok (_, _, s1) => Some (ts_get (ds_ra s') 2, ts_get (ds_ra s1) 2) | _ => None end | _ => None end
    | _ => None end = Some (Ok [1001; 1002]%N, Ok [1002]%N)) by (vm_compute; reflexivity).
  revert H. generalize (dl_run (DvStart ex_start :: ex_owed) (dls_new 5 ex_pre)). intros [[log s]| |] H; try discriminate H.
  destruct (dl_step (DvHang 2 false) s) as [[[o m] s']| |] eqn:E1; try discriminate H. destruct (dl_step (DvTakeRa 2 1001) s') as [[[o1 m1] s1]| |] eqn:E2; try discriminate H.
  exists log, s, o, m, s', o1, m1, s1. injection H as A B. auto.
Qed.

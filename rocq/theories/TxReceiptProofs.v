(** Proofs about transmission receipts under arbitrary interleavings. *)
From Verif Require Import Base TxReceipt TxReceiptSpec.

Definition byte_ok (r : tx_reporter) : Prop := tx_byte r <= 4.

Lemma apply_iff_move r op : byte_ok r ->
  match tx_apply op r with
  | Ok r' => byte_ok r' /\ tx_expects_ack r' = tx_expects_ack r /\ tx_move (tx_expects_ack r) op (tx_get_state r) (tx_get_state r')
  | Err _ => False
  | Panic => forall s', ~ tx_move (tx_expects_ack r) op (tx_get_state r) s'
  end.
Proof.
  destruct r as [e b]. unfold byte_ok. cbn [tx_byte]. intros H.
  destruct b as [|[|[|[|[|]]]]]; try lia; destruct e, op; cbn;
    try (repeat split; try lia; try constructor; reflexivity); intros s' HM; inversion HM; discriminate.
Qed.

Lemma run_byte_ok ops : forall r, byte_ok r -> byte_ok (snd (tx_run r ops)) /\ tx_expects_ack (snd (tx_run r ops)) = tx_expects_ack r.
Proof.
  induction ops as [|op t IH]; intros r H; [split; [exact H|reflexivity]|]. cbn [tx_run].
  pose proof (apply_iff_move r op H) as HA.
  destruct (tx_apply op r) as [r1|e|].
  - destruct HA as (H1 & H2 & _). specialize (IH r1 H1). destruct (tx_run r1 t). cbn [snd] in *. intuition congruence.
  - tauto.
  - specialize (IH r H). destruct (tx_run r t). exact IH.
Qed.

(** Without resets: at most one first-stage mark and one second-stage mark succeed, counted from
    the state they start in; some mark wins whenever one competes in the matching state. *)
Lemma run_counts ops : forall r, byte_ok r -> existsb is_reset ops = false ->
  let '(tr, r') := tx_run r ops in
  match tx_get_state r with
  | TxPending =>
      successes is_first tr = (if existsb is_first ops then 1 else 0) /\ successes is_second tr <= 1 /\
      (successes is_second tr = 1 -> tx_expects_ack r = true)
  | TxTransmitted =>
      successes is_first tr = 0 /\
      successes is_second tr = (if tx_expects_ack r && existsb is_second ops then 1 else 0)
  | _ => successes is_first tr = 0 /\ successes is_second tr = 0 /\ r' = r
  end.
Proof.
  induction ops as [|op t IH]; intros r H HR.
  - cbn [tx_run]. destruct (tx_get_state r); cbn; rewrite ?Bool.andb_false_r; repeat split; lia.
  - cbn [existsb] in HR. apply Bool.orb_false_iff in HR as (HR1 & HR2). cbn [tx_run existsb].
    destruct r as [e b]. unfold byte_ok in H; cbn [tx_byte] in H.
    destruct b as [|[|[|[|[|]]]]]; try lia; destruct op; try discriminate HR1; destruct e; cbn [tx_apply tx_mark_transmitted tx_mark_discarded tx_mark_acknowledged tx_mark_lost tx_mark tx_byte tx_raw Nat.eqb assert bind tx_expects_ack];
      match goal with |- context [tx_run ?r1 t] => specialize (IH r1 ltac:(unfold byte_ok; cbn; lia) HR2); destruct (tx_run r1 t) as (tr, r') end;
      cbn [tx_get_state tx_byte tx_from_raw tx_expects_ack andb] in *; unfold successes in *; cbn [filter fst snd is_first is_second andb orb length] in *;
      repeat match goal with H : _ /\ _ |- _ => destruct H end; repeat split; subst; try reflexivity; try lia; try assumption;
      try (destruct (existsb is_second t); lia); try (intros; auto; lia).
Qed.

(** Final states are left only by reset. *)
Lemma final_stays ops : forall r, byte_ok r -> existsb is_reset ops = false -> tx_is_final r = true -> snd (tx_run r ops) = r.
Proof.
  induction ops as [|op t IH]; intros r H HR HF; [reflexivity|].
  cbn [existsb] in HR. apply Bool.orb_false_iff in HR as (HR1 & HR2). cbn [tx_run].
  assert (forall r1, tx_apply op r <> Ok r1) as HN.
  { intros r1 E. destruct r as [e b]. unfold byte_ok in H; cbn [tx_byte] in H.
    destruct b as [|[|[|[|[|]]]]]; try lia; destruct e, op; try discriminate; cbn in HF; discriminate. }
  destruct (tx_apply op r) as [r1|e|] eqn:E; [exfalso; eapply HN; reflexivity| |];
    specialize (IH r H HR2 HF); destruct (tx_run r t); exact IH.
Qed.

(** An unacknowledged receipt never becomes acknowledged or lost. *)
Lemma unacked_never ops : tx_get_state (snd (tx_run tx_new_unacked ops)) <> TxAcknowledged /\ tx_get_state (snd (tx_run tx_new_unacked ops)) <> TxLost.
Proof.
  assert (forall r, tx_expects_ack r = false -> tx_byte r <= 2 ->
            tx_expects_ack (snd (tx_run r ops)) = false /\ tx_byte (snd (tx_run r ops)) <= 2) as HI.
  { induction ops as [|op t IH]; intros r He Hb; [split; assumption|]. cbn [tx_run].
    assert (exists r1 ok, match tx_apply op r with Ok r1 => (true, r1) | _ => (false, r) end = (ok, r1) /\ tx_expects_ack r1 = false /\ tx_byte r1 <= 2) as (r1 & ok & -> & H1 & H2).
    { destruct r as [e b]. cbn in He, Hb. subst e. destruct b as [|[|[|]]]; try lia; destruct op; cbn; do 2 eexists; (split; [reflexivity|]); cbn; split; try reflexivity; lia. }
    specialize (IH r1 H1 H2). destruct (tx_run r1 t). exact IH. }
  destruct (HI tx_new_unacked eq_refl ltac:(cbn; lia)) as (_ & HB).
  unfold tx_get_state. destruct (tx_byte _) as [|[|[|]]]; try lia; split; discriminate.
Qed.

Lemma interleaving_resets progs sched :
  interleaving progs sched -> (forall p, In p progs -> existsb is_reset p = false) -> existsb is_reset sched = false.
Proof.
  induction 1 as [|progs i op rest sched Hn _ IH]; intros HP; [reflexivity|]. cbn [existsb].
  pose proof (HP _ (nth_error_In _ _ Hn)) as H0. cbn [existsb] in H0. apply Bool.orb_false_iff in H0 as (H1 & H2).
  rewrite H1. cbn [orb]. apply IH. intros p Hp.
  apply In_nth_error in Hp as (j & Hj). rewrite nth_error_upd in Hj. destruct (_ && _); [injection Hj as <-; exact H2|].
  apply HP. eapply nth_error_In, Hj.
Qed.

(** Main statement: any threads, any interleaving, no resets. *)
Lemma competing_marks progs sched e :
  interleaving progs sched -> (forall p, In p progs -> existsb is_reset p = false) ->
  let '(tr, r) := tx_run (mk_tx e 0) sched in
  successes is_first tr = (if existsb is_first sched then 1 else 0) /\
  successes is_second tr <= 1 /\ (successes is_second tr = 1 -> e = true) /\
  (tx_is_final r = true -> forall more, existsb is_reset more = false -> snd (tx_run r more) = r).
Proof.
  intros HI HP. pose proof (interleaving_resets _ _ HI HP) as HR.
  pose proof (run_counts sched (mk_tx e 0) ltac:(unfold byte_ok; cbn; lia) HR) as HC.
  pose proof (run_byte_ok sched (mk_tx e 0) ltac:(unfold byte_ok; cbn; lia)) as HB.
  destruct (tx_run (mk_tx e 0) sched) as (tr, r). cbn [tx_get_state tx_byte tx_from_raw tx_expects_ack snd] in *.
  destruct HC as (H1 & H2 & H3). repeat (split; [assumption|]). intros HF more Hm. apply final_stays; tauto.
Qed.

Lemma tx_interleaving_example :
  interleaving [[MarkTransmitted; MarkLost]; [MarkDiscarded]; [MarkTransmitted; MarkAcknowledged]]
               [MarkTransmitted; MarkTransmitted; MarkDiscarded; MarkAcknowledged; MarkLost].
Proof.
  eapply (il_step _ 2); [reflexivity|]. eapply (il_step _ 0); [reflexivity|]. eapply (il_step _ 1); [reflexivity|].
  eapply (il_step _ 2); [reflexivity|]. eapply (il_step _ 0); [reflexivity|]. apply il_stop.
Qed.

(** What the observers report. *)
Lemma observers r : byte_ok r ->
  (tx_is_discarded r = true <-> tx_get_state r = TxDiscarded) /\
  (tx_is_transmitted r = true <-> tx_get_state r = TxTransmitted \/ tx_get_state r = TxLost \/ tx_get_state r = TxAcknowledged) /\
  (tx_is_acknowledged r = true <-> tx_get_state r = TxAcknowledged) /\
  (tx_is_final r = true <-> forall op s', op <> Reset -> ~ tx_move (tx_expects_ack r) op (tx_get_state r) s').
Proof.
  destruct r as [e b]. unfold byte_ok. cbn [tx_byte]. intros H.
  assert (forall e s, (exists op s', op <> Reset /\ tx_move e op s s') \/ (forall op s', op <> Reset -> ~ tx_move e op s s')) as HM.
  { intros e0 s0. destruct s0.
    - left. exists MarkDiscarded, TxDiscarded. split; [discriminate|constructor].
    - right. intros op s' Ho HM. inversion HM; subst; try discriminate; congruence.
    - destruct e0; [left; exists MarkLost, TxLost; split; [discriminate|constructor; reflexivity]|].
      right. intros op s' Ho HM. inversion HM; subst; try discriminate; congruence.
    - right. intros op s' Ho HM. inversion HM; subst; try discriminate; congruence.
    - right. intros op s' Ho HM. inversion HM; subst; try discriminate; congruence. }
  destruct b as [|[|[|[|[|]]]]]; try lia; destruct e; cbn; (repeat split); try (intuition discriminate);
    try (intros _ op s' Ho HMv; inversion HMv; subst; try discriminate; congruence);
    try (intros HN; exfalso; first [eapply (HN MarkDiscarded TxDiscarded); [discriminate|constructor] | eapply (HN MarkLost TxLost); [discriminate|constructor; reflexivity]]).
Qed.

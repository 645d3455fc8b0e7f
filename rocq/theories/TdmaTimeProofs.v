(** Proofs about TDMA time. *)
From Verif Require Import Base TdmaTime.
Open Scope Z_scope.

(** Valid time including the 16-bit hyperframe. *)
Definition vtime (x : tdma_time) : Prop :=
  1 <= tm_t x <= 4 /\ 1 <= tm_f x <= 18 /\ 1 <= tm_m x <= 60 /\ 0 <= tm_h x < 65536.

(** The standard's slot order, written independently of the integer encoding: next slot, with
    carries into frame, multiframe and hyperframe. *)
Definition next_slot (x : tdma_time) : tdma_time :=
  if tm_t x <? 4 then mk_time (tm_t x + 1) (tm_f x) (tm_m x) (tm_h x)
  else if tm_f x <? 18 then mk_time 1 (tm_f x + 1) (tm_m x) (tm_h x)
  else if tm_m x <? 60 then mk_time 1 1 (tm_m x + 1) (tm_h x)
  else if tm_h x <? 65535 then mk_time 1 1 1 (tm_h x + 1)
  else mk_time 1 1 1 0.

Lemma vtime_valid x : vtime x <-> is_valid x = true /\ 0 <= tm_h x < 65536.
Proof. unfold vtime, is_valid. lia. Qed.

Lemma from_int_valid n : vtime (from_int n).
Proof. unfold vtime, from_int. cbn [tm_t tm_f tm_m tm_h]. lia. Qed.

Lemma to_from_int n : to_int (from_int n) = n mod TIME_INT_WRAP.
Proof. unfold to_int, from_int, TIME_INT_WRAP. cbn [tm_t tm_f tm_m tm_h]. lia. Qed.

Lemma to_int_range x : vtime x -> 0 <= to_int x < TIME_INT_WRAP.
Proof. unfold vtime, to_int, TIME_INT_WRAP. lia. Qed.

Lemma to_int_inj x y : vtime x -> vtime y -> to_int x = to_int y -> x = y.
Proof.
  destruct x as [a b c d], y as [a' b' c' d']. unfold vtime, to_int. cbn [tm_t tm_f tm_m tm_h]. intros H1 H2 H.
  assert (a = a') by lia. subst. assert (b = b') by lia. subst. assert (c = c') by lia. subst.
  assert (d = d') by lia. now subst.
Qed.

Lemma from_to_int x : vtime x -> from_int (to_int x) = x.
Proof.
  intros H. apply to_int_inj; [apply from_int_valid|assumption|]. rewrite to_from_int.
  apply Z.mod_small, to_int_range, H.
Qed.

Lemma from_int_mod n : from_int (n mod TIME_INT_WRAP) = from_int n.
Proof.
  apply to_int_inj; try apply from_int_valid. rewrite !to_from_int. apply Z.mod_mod. discriminate.
Qed.
Lemma from_int_eq n m : n mod TIME_INT_WRAP = m mod TIME_INT_WRAP -> from_int n = from_int m.
Proof. intros H. rewrite <- (from_int_mod n), <- (from_int_mod m). now rewrite H. Qed.

Lemma add_valid x n : vtime (add_timeslots x n).
Proof. apply from_int_valid. Qed.

Lemma add_0 x : vtime x -> add_timeslots x 0 = x.
Proof. intros H. unfold add_timeslots. rewrite Z.add_0_r. now apply from_to_int. Qed.

Lemma add_add x a b : add_timeslots (add_timeslots x a) b = add_timeslots x (a + b).
Proof.
  unfold add_timeslots. rewrite to_from_int. apply from_int_eq.
  rewrite Z.add_mod_idemp_l by discriminate. f_equal. lia.
Qed.

Lemma add_next x : vtime x -> add_timeslots x 1 = next_slot x.
Proof.
  intros H. apply to_int_inj.
  - apply add_valid.
  - unfold next_slot, vtime in *. destruct x as [xt xf xm xh]; cbn [tm_t tm_f tm_m tm_h] in *.
    repeat match goal with |- context [?a <? ?b] => destruct (Z.ltb_spec a b) end; cbn [tm_t tm_f tm_m tm_h]; lia.
  - unfold add_timeslots. rewrite to_from_int. pose proof (to_int_range x H).
    unfold next_slot, vtime in *. destruct x as [xt xf xm xh]; cbn [tm_t tm_f tm_m tm_h] in *. unfold to_int, TIME_INT_WRAP in *. cbn [tm_t tm_f tm_m tm_h] in *.
    repeat match goal with |- context [?a <? ?b] => destruct (Z.ltb_spec a b) end; cbn [tm_t tm_f tm_m tm_h]; lia.
Qed.

Lemma diff_spec x y : vtime x -> vtime y ->
  exists d, tdiff x y = Ok d /\ - (TIME_INT_WRAP / 2) <= d < TIME_INT_WRAP / 2 /\ add_timeslots y d = x.
Proof.
  intros Hx Hy. pose proof (to_int_range x Hx) as Rx. pose proof (to_int_range y Hy) as Ry.
  assert (forall d, d mod TIME_INT_WRAP = (to_int x - to_int y) mod TIME_INT_WRAP -> add_timeslots y d = x) as HA.
  { intros d Hd. unfold add_timeslots. rewrite <- (from_to_int x Hx) at 1. apply from_int_eq.
    rewrite Z.add_mod, Hd, <- Z.add_mod by discriminate. f_equal. lia. }
  unfold tdiff, time_int_diff.
  assert (i32_ok (to_int x - to_int y) = true) as -> by (unfold i32_ok, TIME_INT_WRAP in *; lia). cbn [assert bind].
  cbn [diff_up]. change (- TIME_INT_WRAP / 2) with (-141557760). change (TIME_INT_WRAP / 2) with 141557760.
  change TIME_INT_WRAP with 283115520 in *.
  destruct (Z.ltb_spec (to_int x - to_int y) (-141557760)).
  - destruct (Z.ltb_spec (to_int x - to_int y + 283115520) (-141557760)); [lia|]. cbn [bind diff_down].
    change (TIME_INT_WRAP / 2) with 141557760.
    destruct (Z.leb_spec 141557760 (to_int x - to_int y + 283115520)); [lia|].
    eexists. split; [reflexivity|]. split; [lia|]. apply HA.
    replace (to_int x - to_int y + 283115520) with (to_int x - to_int y + 1 * 283115520) by lia. apply Z.mod_add. discriminate.
  - cbn [bind diff_down]. change (TIME_INT_WRAP / 2) with 141557760. change TIME_INT_WRAP with 283115520.
    destruct (Z.leb_spec 141557760 (to_int x - to_int y)).
    + destruct (Z.leb_spec 141557760 (to_int x - to_int y - 283115520)); [lia|].
      eexists. split; [reflexivity|]. split; [lia|]. apply HA.
      replace (to_int x - to_int y - 283115520) with (to_int x - to_int y + (-1) * 283115520) by lia. apply Z.mod_add. discriminate.
    + eexists. split; [reflexivity|]. split; [lia|]. apply HA. reflexivity.
Qed.

Lemma diff_unique y d d' : vtime y ->
  - (TIME_INT_WRAP / 2) <= d < TIME_INT_WRAP / 2 -> - (TIME_INT_WRAP / 2) <= d' < TIME_INT_WRAP / 2 ->
  add_timeslots y d = add_timeslots y d' -> d = d'.
Proof.
  intros Hy Hd Hd' H. apply (f_equal to_int) in H. unfold add_timeslots in H. rewrite !to_from_int in H.
  change (TIME_INT_WRAP / 2) with 141557760 in *. change TIME_INT_WRAP with 283115520 in *. lia.
Qed.

Lemma diff_add y d : vtime y -> - (TIME_INT_WRAP / 2) <= d < TIME_INT_WRAP / 2 -> tdiff (add_timeslots y d) y = Ok d.
Proof.
  intros Hy Hd. destruct (diff_spec (add_timeslots y d) y (add_valid _ _) Hy) as (d' & E & R & A).
  rewrite E. f_equal. eapply diff_unique; eauto.
Qed.

Lemma clock_diff x y : vtime x -> vtime y ->
  exists d, tdiff x y = Ok d /\ - (TIME_INT_WRAP / 2) <= d < TIME_INT_WRAP / 2 /\ add_timeslots y d = x /\
  forall d', - (TIME_INT_WRAP / 2) <= d' < TIME_INT_WRAP / 2 -> add_timeslots y d' = x -> d' = d.
Proof.
  intros Hx Hy. destruct (diff_spec x y Hx Hy) as (d & E & R & A). exists d. repeat (split; [assumption|]).
  intros d' R' A'. apply (diff_unique y); congruence || assumption.
Qed.

Lemma clock_conversions :
  (forall x, vtime x -> from_int (to_int x) = x /\ 0 <= to_int x < TIME_INT_WRAP) /\
  (forall n, 0 <= n < TIME_INT_WRAP -> vtime (from_int n) /\ to_int (from_int n) = n) /\
  (forall x a b, vtime x -> add_timeslots (add_timeslots x a) b = add_timeslots x (a + b)) /\
  (forall x, vtime x -> add_timeslots x 1 = next_slot x) /\
  (forall x n, vtime x -> vtime (add_timeslots x n)).
Proof.
  split; [|split; [|split; [|split]]].
  - intros x H. split; [now apply from_to_int|now apply to_int_range].
  - intros n H. split; [apply from_int_valid|]. rewrite to_from_int. now apply Z.mod_small.
  - intros. apply add_add.
  - apply add_next.
  - intros. apply add_valid.
Qed.

Fixpoint iter_next (n : nat) (x : tdma_time) : tdma_time := match n with O => x | S k => next_slot (iter_next k x) end.
Lemma add_iter n x : vtime x -> add_timeslots x (Z.of_nat n) = iter_next n x.
Proof.
  intros H. induction n as [|n IH]; [now apply add_0|]. cbn [iter_next]. rewrite <- IH, <- add_next by apply add_valid.
  rewrite add_add. f_equal. lia.
Qed.

Lemma forward_spec x ts : vtime x -> 1 <= ts <= 4 ->
  exists k, (k < 4)%nat /\ forward_to_timeslot x ts = iter_next k x /\ tm_t (forward_to_timeslot x ts) = ts /\
  forall j, (j < k)%nat -> tm_t (iter_next j x) <> ts.
Proof.
  intros H Hts. exists (Z.to_nat ((ts + 4 - tm_t x) mod 4)).
  assert (forall j, tm_t (iter_next j x) = (tm_t x - 1 + Z.of_nat j) mod 4 + 1) as HT.
  { intros j. rewrite <- (add_iter _ _ H). unfold add_timeslots, from_int, to_int. cbn [tm_t]. unfold vtime in H. lia. }
  split; [lia|]. split; [|split].
  - unfold forward_to_timeslot. rewrite <- add_iter by assumption. f_equal. lia.
  - replace (forward_to_timeslot x ts) with (iter_next (Z.to_nat ((ts + 4 - tm_t x) mod 4)) x).
    + rewrite HT. unfold vtime in H. lia.
    + rewrite <- add_iter by assumption. unfold forward_to_timeslot. f_equal. lia.
  - intros j Hj. rewrite HT. unfold vtime in H. lia.
Qed.

(** No i32 overflow: adding fewer than about 1.86e9 slots (20 years) to a valid time. *)
Lemma add_no_overflow x n : vtime x -> -2000000000 <= n <= 1864000000 -> i32_ok (to_int x + n) = true.
Proof. intros H Hn. pose proof (to_int_range x H). unfold i32_ok, TIME_INT_WRAP in *. lia. Qed.

(** ** Mandatory slots *)
Definition mf_number (n : Z) : Z := n mod 60 + 1.

Lemma bsch_formula x : vtime x -> (is_mandatory_bsch x = true <-> tm_f x = 18 /\ (tm_m x + tm_t x) mod 4 = 3).
Proof. unfold vtime, is_mandatory_bsch. intros H. lia. Qed.
Lemma bnch_formula x : vtime x -> (is_mandatory_bnch x = true <-> tm_f x = 18 /\ (tm_m x + tm_t x) mod 4 = 1).
Proof. unfold vtime, is_mandatory_bnch. intros H. lia. Qed.
Lemma clch_formula x : vtime x -> (is_mandatory_clch x = true <-> tm_f x = 18 /\ (tm_m x + tm_t x) mod 4 = 3).
Proof. unfold vtime, is_mandatory_clch. intros H. lia. Qed.

Lemma mandatory_formulas x : vtime x ->
  (is_mandatory_bsch x = true <-> tm_f x = 18 /\ (tm_m x + tm_t x) mod 4 = 3) /\
  (is_mandatory_bnch x = true <-> tm_f x = 18 /\ (tm_m x + tm_t x) mod 4 = 1) /\
  (is_mandatory_clch x = true <-> tm_f x = 18 /\ (tm_m x + tm_t x) mod 4 = 3).
Proof. intros H. split; [now apply bsch_formula|split; [now apply bnch_formula|now apply clch_formula]]. Qed.

Lemma one_per_multiframe m h : 1 <= m <= 60 -> 0 <= h < 65536 ->
  (exists! t, 1 <= t <= 4 /\ is_mandatory_bsch (mk_time t 18 m h) = true) /\
  (exists! t, 1 <= t <= 4 /\ is_mandatory_bnch (mk_time t 18 m h) = true) /\
  (forall t, 1 <= t <= 4 -> is_mandatory_bsch (mk_time t 18 m h) = true -> is_mandatory_bnch (mk_time t 18 m h) = false) /\
  (forall t f, 1 <= t <= 4 -> 1 <= f <= 17 -> is_mandatory_bsch (mk_time t f m h) = false /\ is_mandatory_bnch (mk_time t f m h) = false).
Proof.
  intros Hm Hh. unfold is_mandatory_bsch, is_mandatory_bnch. cbn [tm_t tm_f tm_m tm_h].
  split; [|split; [|split]].
  - exists (4 - (m + 1) mod 4). split; [lia|]. intros t' H. lia.
  - exists (4 - (m + 3) mod 4). split; [lia|]. intros t' H. lia.
  - intros t Ht H. lia.
  - intros t f Ht Hf. lia.
Qed.

(** Multiframe [n] counted from any origin has number [mf_number n]. *)
Lemma four_consecutive n t : 1 <= t <= 4 ->
  (exists! i, 0 <= i < 4 /\ is_mandatory_bsch (mk_time t 18 (mf_number (n + i)) 0) = true) /\
  (exists! i, 0 <= i < 4 /\ is_mandatory_bnch (mk_time t 18 (mf_number (n + i)) 0) = true).
Proof.
  intros Ht. unfold is_mandatory_bsch, is_mandatory_bnch, mf_number. cbn [tm_t tm_f tm_m tm_h].
  assert (forall k, (k mod 60 + 1 + 1) mod 4 = (k + 2) mod 4) as E1 by (intros; lia).
  assert (forall k, (k mod 60 + 1 + 3) mod 4 = k mod 4) as E2 by (intros; lia).
  split.
  - exists ((2 - n - t) mod 4). split; [rewrite E1; lia|]. intros i (Hi & H). rewrite E1 in H. lia.
  - exists ((- n - t) mod 4). split; [rewrite E2; lia|]. intros i (Hi & H). rewrite E2 in H. lia.
Qed.

(** The age of a time stamp, and the validity test. *)
Lemma age_valid y d : vtime y -> - (TIME_INT_WRAP / 2) <= d < TIME_INT_WRAP / 2 -> age y (add_timeslots y d) = Ok d.
Proof. exact (diff_add y d). Qed.
Lemma age_and_validity :
  (forall y d, vtime y -> - (TIME_INT_WRAP / 2) <= d < TIME_INT_WRAP / 2 -> age y (add_timeslots y d) = Ok d) /\
  (forall x, 0 <= tm_h x < 65536 -> (is_valid x = true <-> 1 <= tm_t x <= 4 /\ 1 <= tm_f x <= 18 /\ 1 <= tm_m x <= 60)).
Proof. split; [exact age_valid|]. intros x H. unfold is_valid. lia. Qed.

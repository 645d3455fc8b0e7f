(** Proofs about the timeslot allocator: histories of calls against a client-side ledger. *)
From Verif Require Import Base TimeslotAlloc TimeslotAllocSpec.

Definition agrees (s : ts_alloc) (L : ledger) : Prop :=
  length s = 3 /\ (forall ts, ts_owner_of s ts = L ts).

Lemma agrees_get s L i : agrees s L -> i < 3 -> ts_get s i = L (i + 2).
Proof.
  intros (HL & H) Hi. rewrite <- H. unfold ts_owner_of, ts_idx.
  replace ((2 <=? i + 2) && (i + 2 <=? 4)) with true by lia. f_equal. lia.
Qed.

Lemma agrees_upd s L i x : agrees s L -> i < 3 -> agrees (upd s i x) (led_set L (i + 2) x).
Proof.
  intros (HL & H) Hi. split; [now rewrite upd_length|]. intros ts. unfold led_set.
  specialize (H ts). unfold ts_owner_of, ts_idx, ts_get in *.
  destruct ((2 <=? ts) && (ts <=? 4)) eqn:E; destruct (Nat.eqb_spec ts (i + 2)) as [->|Hne]; try lia; try assumption.
  - rewrite nth_upd. replace ((i + 2 - 2 =? i) && (i <? length s)) with true by lia. reflexivity.
  - rewrite nth_upd. replace ((ts - 2 =? i) && (i <? length s)) with false by lia. exact H.
Qed.

Lemma first_free_spec i l :
  match ts_first_free i l with
  | Some j => i <= j < i + length l /\ nth (j - i) l None = None
  | None => forall k, k < length l -> nth k l None <> None
  end.
Proof.
  revert i. induction l as [|[o|] t IH]; intros i; cbn [ts_first_free length].
  - intros k Hk. lia.
  - specialize (IH (S i)). destruct (ts_first_free (S i) t) as [j|].
    + destruct IH as (H1 & H2). split; [lia|]. replace (j - i) with (S (j - S i)) by lia. exact H2.
    + intros [|k] Hk; cbn [nth]; [discriminate|]. apply IH. lia.
  - split; [lia|]. now rewrite Nat.sub_diag.
Qed.

Lemma ts_owner_eqb_spec a b : ts_owner_eqb a b = true <-> a = b.
Proof. destruct a, b; cbn; intuition discriminate. Qed.

Lemma step_agrees s L op : agrees s L ->
  let (r, s') := ts_step s op in answer_ok L op r /\ agrees s' (led_step L (op, r)) /\
  (led_step L (op, r) = L -> s' = s).
Proof.
  intros A. pose proof A as (HL & HO). destruct op as [o|o ts|o ts]; cbn [ts_step].
  - unfold ts_allocate_any. pose proof (first_free_spec 0 s) as HF. destruct (ts_first_free 0 s) as [i|].
    + destruct HF as (H1 & H2). rewrite Nat.sub_0_r in H2. assert (i < 3) as Hi by lia.
      assert (L (i + 2) = None) as HN by (rewrite <- (agrees_get _ _ _ A Hi); exact H2).
      cbn [answer_ok led_step]. split; [split; [lia|exact HN]|]. split; [now apply agrees_upd|].
      intros E. exfalso. apply (f_equal (fun f => f (i + 2))) in E. unfold led_set in E. rewrite Nat.eqb_refl, HN in E. discriminate.
    + cbn [answer_ok led_step]. split; [|auto]. intros ts Hts. replace ts with ((ts - 2) + 2) by lia.
      rewrite <- (agrees_get _ _ _ A) by lia. apply HF. lia.
  - unfold ts_reserve, ts_idx. destruct ((2 <=? ts) && (ts <=? 4)) eqn:E.
    + rewrite (agrees_get _ _ _ A) by lia. replace (ts - 2 + 2) with ts by lia.
      destruct (L ts) as [o'|] eqn:EL.
      * cbn [answer_ok led_step]. split; [right; split; [lia|eauto]|auto].
      * cbn [answer_ok led_step]. split; [split; [lia|exact EL]|]. split.
        { replace ts with (ts - 2 + 2) at 2 by lia. apply agrees_upd; [assumption|lia]. }
        { intros E'. exfalso. apply (f_equal (fun f => f ts)) in E'. unfold led_set in E'. rewrite Nat.eqb_refl, EL in E'. discriminate. }
    + cbn [answer_ok led_step]. split; [left; split; [lia|reflexivity]|auto].
  - unfold ts_release, ts_idx. destruct ((2 <=? ts) && (ts <=? 4)) eqn:E.
    + rewrite (agrees_get _ _ _ A) by lia. replace (ts - 2 + 2) with ts by lia.
      destruct (L ts) as [o'|] eqn:EL.
      * destruct (ts_owner_eqb o' o) eqn:EO; cbn [negb].
        { apply ts_owner_eqb_spec in EO. subst o'. cbn [answer_ok led_step]. split; [split; [lia|exact EL]|]. split.
          - replace ts with (ts - 2 + 2) at 2 by lia. apply agrees_upd; [assumption|lia].
          - intros E'. exfalso. apply (f_equal (fun f => f ts)) in E'. unfold led_set in E'. rewrite Nat.eqb_refl, EL in E'. discriminate. }
        { cbn [answer_ok led_step]. split; [right; split; [lia|right]|auto]. exists o'. split; [assumption|]. split; [|reflexivity].
          intros ->. destruct o; discriminate. }
      * cbn [answer_ok led_step]. split; [right; split; [lia|left; auto]|auto].
    + cbn [answer_ok led_step]. split; [left; split; [lia|reflexivity]|auto].
Qed.

Lemma run_agrees ops : forall s L, agrees s L ->
  let (tr, s') := ts_run s ops in trace_ok L tr /\ agrees s' (led_of tr L).
Proof.
  induction ops as [|op t IH]; intros s L A; cbn [ts_run].
  - split; [exact I|exact A].
  - pose proof (step_agrees s L op A) as HS. destruct (ts_step s op) as (r, s1). destruct HS as (H1 & H2 & _).
    specialize (IH s1 _ H2). destruct (ts_run s1 t) as (tr, s2). destruct IH as (H3 & H4).
    split; [split; assumption|exact H4].
Qed.

Lemma agrees_default : agrees ts_default led_empty.
Proof.
  split; [reflexivity|]. intros ts. unfold ts_owner_of, ts_idx. destruct ((2 <=? ts) && (ts <=? 4)); [|reflexivity].
  unfold ts_get, ts_default. destruct (ts - 2) as [|[|[|[|k]]]]; reflexivity.
Qed.

Lemma allocator_histories ops :
  let (tr, s) := ts_run ts_default ops in
  trace_ok led_empty tr /\
  (forall ts, ts_owner_of s ts = led_of tr led_empty ts) /\
  (forall ts, ts_is_free s ts = true <-> led_of tr led_empty ts = None) /\
  (forall op, let (r, s') := ts_step s op in
     answer_ok (led_of tr led_empty) op r /\ (led_step (led_of tr led_empty) (op, r) = led_of tr led_empty -> s' = s)).
Proof.
  pose proof (run_agrees ops ts_default led_empty agrees_default) as H. destruct (ts_run ts_default ops) as (tr, s).
  destruct H as (H1 & A). split; [exact H1|]. split; [apply A|]. split.
  - intros ts. unfold ts_is_free. destruct A as (_ & A). rewrite A. destruct (led_of tr led_empty ts); intuition discriminate.
  - intros op. pose proof (step_agrees s _ op A) as HS. destruct (ts_step s op) as (r, s'). tauto.
Qed.

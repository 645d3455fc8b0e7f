(** Proofs about the MAC's voice circuits. *)
From Verif Require Import Base UmacCircuits UmacCircuitsSpec.
Open Scope nat_scope.

Section P.
Context {C B : Type}.
Implicit Types (m : ucm C B) (o : uc_op C B).

Definition shape m : Prop := length (uc_dl m) = 4 /\ length (uc_ul m) = 4 /\ length (uc_tx m) = 4.
(** The queue of a timeslot, if its downlink circuit is open. *)
Definition slot m ts : option (list B) :=
  match nth (ts - 1) (uc_dl m) None with Some _ => Some (nth (ts - 1) (uc_tx m) []) | None => None end.

Lemma ts_get_ok {A} (l : list A) ts d : length l = 4 -> 1 <= ts <= 4 -> ts_get l ts = Ok (nth (ts - 1) l d).
Proof.
  intros L H. destruct ts as [|i]; [lia|]. cbn [ts_get]. replace (S i - 1) with i by lia.
  rewrite (nth_error_nth' l d) by lia. reflexivity.
Qed.
Lemma nth_ts_set {A} (l : list A) ts ts' x d : length l = 4 -> 1 <= ts <= 4 -> 1 <= ts' <= 4 ->
  nth (ts' - 1) (ts_set l ts x) d = if ts' =? ts then x else nth (ts' - 1) l d.
Proof.
  intros L H H'. unfold ts_set. rewrite nth_upd.
  destruct (Nat.eqb_spec (ts' - 1) (ts - 1)), (Nat.eqb_spec ts' ts), (Nat.ltb_spec (ts - 1) (length l)); try lia; reflexivity.
Qed.

(** What one call does to the slots and answers. *)
Definition slot_after o (ts : nat) (s : option (list B)) : option (list B) :=
  match o with
  | UcCreate DirDl t _ => if ts =? t then Some [] else s
  | UcClose DirDl t => if ts =? t then None else s
  | UcPut t b => if ts =? t then match s with Some q => Some (q ++ [b]) | None => None end else s
  | UcTake t => if ts =? t then match s with Some (_ :: q) => Some q | s => s end else s
  | _ => s
  end.
Definition answer o m : option B :=
  match o with UcTake t => match slot m t with Some (b :: _) => Some b | _ => None end | _ => None end.

Lemma tx_create m ts c : shape m -> 1 <= ts <= 4 -> exists m', ucm_create DirDl ts c m = Ok m' /\ shape m' /\
  uc_dl m' = ts_set (ts_set (uc_dl m) ts None) ts (Some c) /\ 
  forall ts', 1 <= ts' <= 4 -> nth (ts' - 1) (uc_tx m') [] = if ts' =? ts then [] else nth (ts' - 1) (uc_tx m) [].
Proof.
  intros (L1 & L2 & L3) H. unfold ucm_create, ucm_is_active. rewrite (ts_get_ok (uc_dl m) ts None) by assumption. cbn [bind].
  assert (US : forall A (l : list A) i x y, upd (upd l i x) i y = upd l i y).
  { intros A l. induction l as [|h t IH]; intros [|i] x y; cbn; congruence. }
  assert (E2 : ts_set (ts_set (uc_dl m) ts None) ts (Some c) = ts_set (uc_dl m) ts (Some c)) by apply US. rewrite E2.
  destruct (nth (ts - 1) (uc_dl m) None).
  - unfold ucm_close. rewrite (ts_get_ok (uc_dl m) ts None) by assumption. cbn [bind uc_tx uc_dl uc_ul].
    assert (L : length (ts_set (uc_tx m) ts []) = 4) by (unfold ts_set; rewrite upd_length; exact L3).
    rewrite (ts_get_ok _ ts [] L) by assumption. cbn [bind]. rewrite nth_ts_set by assumption. rewrite Nat.eqb_refl.
    eexists. split; [reflexivity|]. unfold shape. cbn [uc_tx uc_dl uc_ul]. unfold ts_set at 1 2 3 4. rewrite !upd_length.
    split; [auto|]. split; [apply US|]. intros ts' H'. now apply nth_ts_set.
  - cbn [bind]. rewrite (ts_get_ok (uc_tx m) ts []) by assumption. cbn [bind].
    eexists. split; [reflexivity|]. unfold shape. cbn [uc_tx uc_dl uc_ul]. unfold ts_set at 1. rewrite !upd_length.
    destruct (nth (ts - 1) (uc_tx m) []) eqn:E.
    + split; [auto|]. split; [reflexivity|]. intros ts' H'. destruct (Nat.eqb_spec ts' ts); [congruence|reflexivity].
    + unfold ts_set at 1. rewrite upd_length. split; [auto|]. split; [reflexivity|]. intros ts' H'. now apply nth_ts_set.
Qed.

Lemma step_ok o m : shape m -> uc_valid o -> exists m', uc_step o m = Ok (answer o m, m') /\ shape m' /\
  forall ts, 1 <= ts <= 4 -> slot m' ts = slot_after o ts (slot m ts).
Proof.
  intros S V. pose proof S as (L1 & L2 & L3). destruct o as [d t c|d t|t b|t]; cbn [uc_valid] in V; cbn [uc_step answer].
  - destruct V as [[->| ->] V].
    + destruct (tx_create m t c S V) as (m' & E & S' & D & T). rewrite E. cbn [bind]. exists m'. split; [reflexivity|]. split; [exact S'|].
      intros ts H. unfold slot. rewrite D, T by assumption. rewrite nth_ts_set by (assumption || (unfold ts_set; now rewrite upd_length)).
      cbn [slot_after]. destruct (Nat.eqb_spec ts t) as [->|N]; [reflexivity|]. rewrite nth_ts_set by assumption.
      apply Nat.eqb_neq in N. now rewrite N.
    + unfold ucm_create, ucm_is_active. rewrite (ts_get_ok (uc_ul m) t None) by assumption. cbn [bind].
      destruct (nth (t - 1) (uc_ul m) None); [unfold ucm_close; rewrite (ts_get_ok (uc_ul m) t None) by assumption|]; cbn [bind];
        eexists; (split; [reflexivity|]); unfold shape, slot; cbn [uc_tx uc_dl uc_ul slot_after]; unfold ts_set; rewrite ?upd_length; auto.
  - destruct V as [[->| ->] V]; unfold ucm_close.
    + rewrite (ts_get_ok (uc_dl m) t None) by assumption. cbn [bind]. eexists. split; [reflexivity|].
      split; [unfold shape; cbn [uc_tx uc_dl uc_ul]; unfold ts_set; now rewrite !upd_length|].
      intros ts H. unfold slot. cbn [uc_tx uc_dl slot_after]. rewrite !nth_ts_set by assumption. now destruct (ts =? t).
    + rewrite (ts_get_ok (uc_ul m) t None) by assumption. cbn [bind]. eexists. split; [reflexivity|].
      split; [unfold shape; cbn [uc_tx uc_dl uc_ul]; unfold ts_set; now rewrite !upd_length|]. reflexivity.
  - unfold ucm_put, ucm_is_active. rewrite (ts_get_ok (uc_dl m) t None) by assumption. cbn [bind].
    destruct (nth (t - 1) (uc_dl m) None) eqn:E.
    + rewrite (ts_get_ok (uc_tx m) t []) by assumption. cbn [bind]. eexists. split; [reflexivity|].
      split; [unfold shape; cbn [uc_tx uc_dl uc_ul]; unfold ts_set; now rewrite !upd_length|].
      intros ts H. unfold slot. cbn [uc_tx uc_dl slot_after]. rewrite !nth_ts_set by assumption.
      destruct (Nat.eqb_spec ts t) as [->|N]; [now rewrite E|reflexivity].
    + cbn [bind]. exists m. split; [reflexivity|]. split; [exact S|]. intros ts H. cbn [slot_after].
      destruct (Nat.eqb_spec ts t) as [->|N]; [|reflexivity]. unfold slot. now rewrite E.
  - unfold ucm_take, ucm_is_active. rewrite (ts_get_ok (uc_dl m) t None) by assumption. cbn [bind].
    unfold slot at 1. destruct (nth (t - 1) (uc_dl m) None) eqn:E.
    + rewrite (ts_get_ok (uc_tx m) t []) by assumption. cbn [bind]. destruct (nth (t - 1) (uc_tx m) []) as [|b q] eqn:Q.
      * eexists. split; [reflexivity|]. split; [exact S|]. intros ts H. cbn [slot_after].
        destruct (Nat.eqb_spec ts t) as [->|N]; [|reflexivity]. unfold slot. now rewrite E, Q.
      * eexists. split; [reflexivity|]. split; [unfold shape; cbn [uc_tx uc_dl uc_ul]; unfold ts_set; now rewrite !upd_length|].
        intros ts H. unfold slot. cbn [uc_tx uc_dl slot_after]. rewrite !nth_ts_set by assumption.
        destruct (Nat.eqb_spec ts t) as [->|N]; [now rewrite E, Q|reflexivity].
    + eexists. split; [reflexivity|]. split; [exact S|]. intros ts H. cbn [slot_after].
      destruct (Nat.eqb_spec ts t) as [->|N]; [|reflexivity]. unfold slot. now rewrite E.
Qed.

Lemma run_total l : forall m, shape m -> Forall uc_valid l -> exists log m', uc_run l m = Ok (log, m') /\ shape m' /\ map fst log = l.
Proof.
  induction l as [|o t IH]; intros m S V; cbn [uc_run].
  - exists [], m. auto.
  - destruct (step_ok o m S (Forall_inv V)) as (m1 & E & S1 & _). rewrite E. cbn [bind].
    destruct (IH m1 S1 (Forall_inv_tail V)) as (log & m2 & E2 & S2 & F). rewrite E2. cbn [bind]. exists ((o, answer o m) :: log), m2.
    split; [reflexivity|]. split; [exact S2|]. cbn. now rewrite F.
Qed.

(** While the circuit stays open. *)
Lemma run_open ts l : 1 <= ts <= 4 -> forall m q log m', shape m -> Forall uc_valid l ->
  forallb (fun o => negb (opens ts o || closes ts o)) l = true ->
  slot m ts = Some q -> uc_run l m = Ok (log, m') -> exists q', slot m' ts = Some q' /\ q ++ puts ts log = takes ts log ++ q'.
Proof.
  intros HT. induction l as [|o t IH]; intros m q log m' S V NO Q E; cbn [uc_run] in E.
  - injection E as <- <-. exists q. split; [exact Q|]. cbn. now rewrite app_nil_r.
  - destruct (step_ok o m S (Forall_inv V)) as (m1 & E1 & S1 & A). rewrite E1 in E. cbn [bind] in E.
    destruct (uc_run t m1) as [[xs m2]|e|] eqn:E2; cbn [bind] in E; try discriminate E. injection E as <- <-.
    cbn [forallb] in NO. apply andb_true_iff in NO. destruct NO as [NO1 NO]. specialize (A ts HT). rewrite Q in A.
    assert (R : forall q1, slot m1 ts = Some q1 -> exists q', slot m2 ts = Some q' /\ q1 ++ puts ts xs = takes ts xs ++ q')
      by (intros q1 Q1; apply (IH m1 q1 xs m2 S1 (Forall_inv_tail V) NO Q1 E2)).
    unfold puts, takes in *. cbn [flat_map fst snd].
    destruct o as [d t' c|d t'|t' b|t']; cbn [opens closes slot_after answer] in *.
    + destruct d; try (destruct (R q A) as (q' & Q' & P); exists q'; split; [exact Q'|exact P]).
      rewrite (Nat.eqb_sym ts t') in A. destruct (t' =? ts); [discriminate NO1|]. exact (R q A).
    + destruct d; try (destruct (R q A) as (q' & Q' & P); exists q'; split; [exact Q'|exact P]).
      rewrite (Nat.eqb_sym ts t') in A. destruct (t' =? ts); [discriminate NO1|]. exact (R q A).
    + rewrite (Nat.eqb_sym ts t') in A. destruct (t' =? ts); [|exact (R q A)]. destruct (R _ A) as (q' & Q' & P). exists q'. split; [exact Q'|].
      cbn [app]. rewrite <- P, <- app_assoc. reflexivity.
    + rewrite (Nat.eqb_sym ts t') in A. destruct (Nat.eqb_spec t' ts) as [->|N].
      * rewrite Q. destruct q as [|b q0]; [exact (R [] A)|]. destruct (R q0 A) as (q' & Q' & P). exists q'. split; [exact Q'|]. cbn [app]. now rewrite P.
      * destruct (R q A) as (q' & Q' & P). exists q'. split; [exact Q'|]. destruct (match slot m t' with Some (b :: _) => Some b | _ => None end); exact P.
Qed.

(** While the circuit stays closed. *)
Lemma run_closed ts l : 1 <= ts <= 4 -> forall m log m', shape m -> Forall uc_valid l ->
  forallb (fun o => negb (opens ts o)) l = true ->
  slot m ts = None -> uc_run l m = Ok (log, m') -> slot m' ts = None /\ takes ts log = [].
Proof.
  intros HT. induction l as [|o t IH]; intros m log m' S V NO Q E; cbn [uc_run] in E.
  - injection E as <- <-. auto.
  - destruct (step_ok o m S (Forall_inv V)) as (m1 & E1 & S1 & A). rewrite E1 in E. cbn [bind] in E.
    destruct (uc_run t m1) as [[xs m2]|e|] eqn:E2; cbn [bind] in E; try discriminate E. injection E as <- <-.
    cbn [forallb] in NO. apply andb_true_iff in NO. destruct NO as [NO1 NO]. specialize (A ts HT). rewrite Q in A.
    assert (A' : slot m1 ts = None).
    { rewrite A. destruct o as [d t' c|d t'|t' b|t']; cbn [slot_after opens] in *; try (now destruct (ts =? t')).
      - destruct d; try reflexivity. rewrite (Nat.eqb_sym ts t'). now destruct (t' =? ts).
      - destruct d; try reflexivity. now destruct (ts =? t'). }
    destruct (IH m1 xs m2 S1 (Forall_inv_tail V) NO A' E2) as [R1 R2]. split; [exact R1|].
    unfold takes in *. cbn [flat_map fst snd]. rewrite R2, app_nil_r. destruct o as [d t' c|d t'|t' b|t']; try reflexivity.
    cbn [answer]. destruct (Nat.eqb_spec t' ts) as [->|N]; [now rewrite Q|]. now destruct (match slot m t' with Some (b :: _) => Some b | _ => None end).
Qed.

Lemma shape_new : shape ucm_new.
Proof. repeat split. Qed.
Lemma run_shape l m log m' : shape m -> Forall uc_valid l -> uc_run l m = Ok (log, m') -> shape m'.
Proof. intros S V E. destruct (run_total l m S V) as (x & y & E' & S' & _). congruence. Qed.

Lemma circuits_fifo h1 ts c h2 m1 m2 m3 log1 log2 : 1 <= ts <= 4 -> Forall uc_valid h1 -> Forall uc_valid h2 ->
  uc_run h1 (ucm_new (C:=C) (B:=B)) = Ok (log1, m1) -> uc_step (UcCreate DirDl ts c) m1 = Ok (None, m2) ->
  uc_run h2 m2 = Ok (log2, m3) ->
  forallb (fun o => negb (opens ts o || closes ts o)) h2 = true ->
  exists backlog, puts ts log2 = takes ts log2 ++ backlog /\
    (backlog = [] -> exists m4, uc_step (UcTake ts) m3 = Ok (None, m4)) /\
    (forall b rest, backlog = b :: rest -> exists m4, uc_step (UcTake ts) m3 = Ok (Some b, m4)).
Proof.
  intros HT V1 V2 E1 E2 E3 NO. pose proof (run_shape _ _ _ _ shape_new V1 E1) as S1.
  destruct (step_ok (UcCreate DirDl ts c) m1 S1) as (m2' & E2' & S2 & A); [split; [now left|exact HT]|].
  rewrite E2' in E2. injection E2 as ->. specialize (A ts HT). cbn [slot_after] in A. rewrite Nat.eqb_refl in A.
  destruct (run_open ts h2 HT m2 [] log2 m3 S2 V2 NO A E3) as (q & Q & P). exists q. split; [exact P|].
  pose proof (run_shape _ _ _ _ S2 V2 E3) as S3. destruct (step_ok (UcTake ts) m3 S3 HT) as (m4 & E4 & _). cbn [answer] in E4. rewrite Q in E4.
  split; [intros ->|intros b rest ->]; exists m4; exact E4.
Qed.

Lemma circuits_closed h1 ts h2 m1 m2 m3 log1 log2 : 1 <= ts <= 4 -> Forall uc_valid h1 -> Forall uc_valid h2 ->
  uc_run h1 (ucm_new (C:=C) (B:=B)) = Ok (log1, m1) ->
  (uc_step (UcClose DirDl ts) m1 = Ok (None, m2) \/ (h1 = [] /\ m2 = m1)) ->
  uc_run h2 m2 = Ok (log2, m3) -> forallb (fun o => negb (opens ts o)) h2 = true ->
  takes ts log2 = [] /\ exists m4, uc_step (UcTake ts) m3 = Ok (None, m4).
Proof.
  intros HT V1 V2 E1 E2 E3 NO. pose proof (run_shape _ _ _ _ shape_new V1 E1) as S1.
  assert (X : shape m2 /\ slot m2 ts = None).
  { destruct E2 as [E2|[-> ->]].
    - destruct (step_ok (UcClose DirDl ts) m1 S1) as (m2' & E2' & S2 & A); [split; [now left|exact HT]|].
      rewrite E2' in E2. injection E2 as ->. specialize (A ts HT). cbn [slot_after] in A. rewrite Nat.eqb_refl in A. auto.
    - injection E1 as <- <-. split; [exact shape_new|]. unfold slot, ucm_new. cbn [uc_dl].
      destruct ts as [|[|[|[|[|]]]]]; try lia; reflexivity. }
  destruct X as [S2 Q2]. destruct (run_closed ts h2 HT m2 log2 m3 S2 V2 NO Q2 E3) as [Q3 T]. split; [exact T|].
  pose proof (run_shape _ _ _ _ S2 V2 E3) as S3. destruct (step_ok (UcTake ts) m3 S3 HT) as (m4 & E4 & _). cbn [answer] in E4. rewrite Q3 in E4. eauto.
Qed.

(** No history of valid calls stops the program. *)
Lemma circuits_total l : Forall uc_valid l -> exists log m', uc_run l (ucm_new (C:=C) (B:=B)) = Ok (log, m') /\ map fst log = l.
Proof. intros V. destruct (run_total l ucm_new shape_new V) as (log & m' & E & _ & F). eauto. Qed.
End P.

(** Call control: the correspondence of calls, cached messages, circuits and timeslots. *)
From Verif Require Import Base AMap AMapOrder AMapOrderProofs TdmaTime TimeslotAlloc MacFields UmacCircuits CmceFields CmcePdus BrewRoute
  CircuitMgr CallControl CcSpec CcProofs.
Open Scope nat_scope.

Definition slot_of (s : cc) (i : nat) : option ts_owner := nth i (cc_slots s) None.
Definition dl_of (s : cc) (i : nat) : option circuit := nth i (cm_dl (cc_circ s)) None.

(** What the UMAC has open after some more messages. *)
Definition vstep (v : nat -> option N) (m : cc_msg) : nat -> option N :=
  match m with
  | ToUmac _ (CtlOpen _ ts u) => fun x => if x =? ts then Some u else v x
  | ToUmac _ (CtlClose _ ts) => fun x => if x =? ts then None else v x
  | _ => v
  end.
Definition view (v : nat -> option N) (q : list cc_msg) : nat -> option N := fold_left vstep q v.
Lemma view_app v q q' : view v (q ++ q') = view (view v q) q'.
Proof. apply fold_left_app. Qed.
Lemma umac_view_app log q : umac_view (log ++ q) = view (umac_view log) q.
Proof. apply (fold_left_app vstep). Qed.

Definition silent (q : list cc_msg) : Prop :=
  Forall (fun m => match m with ToUmac _ (CtlOpen _ _ _) | ToUmac _ (CtlClose _ _) => False | _ => True end) q.
Lemma view_silent q : silent q -> forall v, view v q = v.
Proof.
  unfold view. induction 1 as [|m t Hm Ht IH]; intros v; [reflexivity|]. cbn [fold_left]. rewrite IH.
  destruct m as [|t0 c|]; try reflexivity. now destruct c.
Qed.
Lemma opens_silent q : silent q -> opens q = 0.
Proof.
  unfold opens. induction 1 as [|m t Hm Ht IH]; [reflexivity|]. cbn [filter]. destruct m as [|t0 c|]; cbn [is_open]; try exact IH.
  destruct c; cbn [is_open]; try exact IH. destruct Hm.
Qed.
Lemma opens_app q q' : opens (q ++ q') = opens q + opens q'.
Proof. unfold opens. now rewrite filter_app, app_length. Qed.

Record Inv (v : nat -> option N) (s : cc) : Prop := {
  i_slots : length (cc_slots s) = 3;
  i_dl : length (cm_dl (cc_circ s)) = 4;
  i_ul : cm_ul (cc_circ s) = repeat None 4;
  i_cached : forall id c, aget id (cc_active s) = Some c ->
    exists p, aget id (cc_cached s) = Some (p, gssi_addr (ac_dest c)) /\ d_setup_call_identifier p = id;
  i_call : forall id c, aget id (cc_active s) = Some c ->
    exists i ci, i < 3 /\ ac_ts c = i + 2 /\ slot_of s i = Some OwnCmce /\ dl_of s (S i) = Some ci /\ ci_call ci = id /\ ci_usage ci = ac_usage c;
  i_circ : forall i ci, dl_of s i = Some ci ->
    ci_ts ci = S i /\ ci_dir ci = DirBoth /\ exists c, aget (ci_call ci) (cc_active s) = Some c /\ ac_ts c = S i;
  i_slot : forall i o, slot_of s i = Some o -> o = OwnCmce /\ dl_of s (S i) <> None;
  i_view : forall ts, v ts = match ts with O => None | S i => option_map ci_usage (dl_of s i) end }.

Lemma Inv_new : Inv (fun _ => None) cc_new.
Proof.
  constructor; cbn; try easy.
  - intros i ci. unfold dl_of. cbn. now do 5 (destruct i; [easy|]).
  - intros i o. unfold slot_of. cbn. now do 4 (destruct i; [easy|]).
  - intros [|i]; [reflexivity|]. unfold dl_of. cbn. now do 5 (destruct i; [easy|]).
Qed.

(** Two calls on one timeslot are the same call. *)
Lemma Inv_distinct v s id id' c c' : Inv v s -> aget id (cc_active s) = Some c -> aget id' (cc_active s) = Some c' -> ac_ts c = ac_ts c' -> id = id'.
Proof.
  intros I H H' E. destruct (i_call _ _ I _ _ H) as (i & ci & _ & Ei & _ & Di & <- & _).
  destruct (i_call _ _ I _ _ H') as (j & cj & _ & Ej & _ & Dj & <- & _). assert (i = j) by lia. subst j. congruence.
Qed.

Lemma dl_of_upd s s' i x : i < 4 -> length (cm_dl (cc_circ s)) = 4 -> cm_dl (cc_circ s') = upd (cm_dl (cc_circ s)) i x ->
  forall j, dl_of s' j = if i =? j then x else dl_of s j.
Proof. intros Hi L E j. unfold dl_of. rewrite E, nth_upd, (Nat.eqb_sym j i). destruct (Nat.eqb_spec i j); cbn [andb]; [|reflexivity]. destruct (Nat.ltb_spec i (length (cm_dl (cc_circ s)))); [reflexivity|lia]. Qed.
Lemma slot_of_upd s s' i x : i < 3 -> length (cc_slots s) = 3 -> cc_slots s' = upd (cc_slots s) i x ->
  forall j, slot_of s' j = if i =? j then x else slot_of s j.
Proof. intros Hi L E j. unfold slot_of. rewrite E, nth_upd, (Nat.eqb_sym j i). destruct (Nat.eqb_spec i j); cbn [andb]; [|reflexivity]. destruct (Nat.ltb_spec i (length (cc_slots s))); [reflexivity|lia]. Qed.

(** ** Closing the circuit of a call and forgetting the call *)
Lemma Inv_close v v' s s' i id c :
  Inv v s -> aget id (cc_active s) = Some c -> ac_ts c = i + 2 ->
  cc_active s' = adel id (cc_active s) -> cc_cached s' = adel id (cc_cached s) ->
  cc_slots s' = upd (cc_slots s) i None -> cm_dl (cc_circ s') = upd (cm_dl (cc_circ s)) (S i) None -> cm_ul (cc_circ s') = cm_ul (cc_circ s) ->
  (forall ts, v' ts = if ts =? i + 2 then None else v ts) -> Inv v' s'.
Proof.
  intros I Hc Ets EA EC ES ED EU EV. destruct (i_call _ _ I _ _ Hc) as (i' & ci & Hi & Ei & Si & Di & Eid & Eu).
  assert (i' = i) by lia. subst i'.
  pose proof (dl_of_upd s s' (S i) None ltac:(lia) (i_dl _ _ I) ED) as DL. pose proof (slot_of_upd s s' i None Hi (i_slots _ _ I) ES) as SL.
  assert (X : forall k x, aget k (cc_active s') = Some x -> aget k (cc_active s) = Some x /\ k <> id).
  { intros k x. rewrite EA, aget_adel. destruct (N.eqb_spec k id); [discriminate|auto]. }
  constructor.
  - rewrite ES, upd_length. apply (i_slots _ _ I).
  - rewrite ED, upd_length. apply (i_dl _ _ I).
  - rewrite EU. apply (i_ul _ _ I).
  - intros k x H. apply X in H. destruct H as [H Hk]. destruct (i_cached _ _ I _ _ H) as (p & P1 & P2). exists p.
    rewrite EC, aget_adel. destruct (N.eqb_spec k id); [contradiction|auto].
  - intros k x H. apply X in H. destruct H as [H Hk]. destruct (i_call _ _ I _ _ H) as (j & cj & Hj & Ej & Sj & Dj & Ejd & Eju).
    exists j, cj. rewrite SL, DL. assert (j <> i) by (intros ->; apply Hk; congruence).
    destruct (Nat.eqb_spec i j); [congruence|]. destruct (Nat.eqb_spec (S i) (S j)); [lia|]. auto 8.
  - intros j cj. rewrite DL. destruct (Nat.eqb_spec (S i) j) as [|Nj]; [discriminate|]. intros H.
    destruct (i_circ _ _ I _ _ H) as (A & B & x & D1 & D2). split; [assumption|]. split; [assumption|]. exists x. split; [|assumption].
    rewrite EA, aget_adel. destruct (N.eqb_spec (ci_call cj) id) as [E|]; [|assumption]. rewrite E, Hc in D1. injection D1 as <-. lia.
  - intros j o. rewrite SL. destruct (Nat.eqb_spec i j) as [|Nj]; [discriminate|]. intros H. rewrite DL.
    destruct (Nat.eqb_spec (S i) (S j)); [lia|]. now apply (i_slot _ _ I).
  - intros ts. rewrite EV, (i_view _ _ I). destruct ts as [|j]; [destruct (Nat.eqb_spec 0 (i + 2)); [lia|reflexivity]|]. rewrite DL.
    destruct (Nat.eqb_spec (S j) (i + 2)), (Nat.eqb_spec (S i) j); try lia; reflexivity.
Qed.

(** ** Opening a circuit and recording the call *)
Lemma Inv_open v v' s s' i id c ci p :
  Inv v s -> aget id (cc_active s) = None -> i < 3 -> slot_of s i = None ->
  ac_ts c = i + 2 -> ci_ts ci = i + 2 -> ci_dir ci = DirBoth -> ci_call ci = id -> ci_usage ci = ac_usage c -> d_setup_call_identifier p = id ->
  cc_active s' = aset id c (cc_active s) -> cc_cached s' = aset id (p, gssi_addr (ac_dest c)) (cc_cached s) ->
  cc_slots s' = upd (cc_slots s) i (Some OwnCmce) -> cm_dl (cc_circ s') = upd (cm_dl (cc_circ s)) (S i) (Some ci) -> cm_ul (cc_circ s') = cm_ul (cc_circ s) ->
  (forall ts, v' ts = if ts =? i + 2 then Some (ci_usage ci) else v ts) -> Inv v' s'.
Proof.
  intros I Hc Hi Free Ets Eci Edir Eid Eu Ep EA EC ES ED EU EV.
  pose proof (dl_of_upd s s' (S i) (Some ci) ltac:(lia) (i_dl _ _ I) ED) as DL.
  pose proof (slot_of_upd s s' i (Some OwnCmce) Hi (i_slots _ _ I) ES) as SL.
  assert (X : forall k x, aget k (cc_active s') = Some x -> k = id /\ x = c \/ k <> id /\ aget k (cc_active s) = Some x).
  { intros k x. rewrite EA, aget_aset. destruct (N.eqb_spec k id); intros H; [left|right]; split; congruence. }
  constructor.
  - rewrite ES, upd_length. apply (i_slots _ _ I).
  - rewrite ED, upd_length. apply (i_dl _ _ I).
  - rewrite EU. apply (i_ul _ _ I).
  - intros k x H. rewrite EC, aget_aset. apply X in H. destruct H as [[-> ->]|[Hk H]].
    + rewrite N.eqb_refl. eauto.
    + destruct (N.eqb_spec k id); [contradiction|]. now apply (i_cached _ _ I).
  - intros k x H. apply X in H. destruct H as [[-> ->]|[Hk H]].
    + exists i, ci. rewrite SL, DL, !Nat.eqb_refl. auto 8.
    + destruct (i_call _ _ I _ _ H) as (j & cj & Hj & Ej & Sj & Dj & Ejd & Eju). exists j, cj. rewrite SL, DL.
      assert (j <> i) by (intros ->; congruence).
      destruct (Nat.eqb_spec i j); [congruence|]. destruct (Nat.eqb_spec (S i) (S j)); [lia|]. auto 8.
  - intros j cj. rewrite DL. destruct (Nat.eqb_spec (S i) j) as [<-|Nj].
    + intros H. injection H as <-. split; [lia|]. split; [assumption|]. exists c. rewrite EA, aget_aset, Eid, N.eqb_refl. split; [reflexivity|lia].
    + intros H. destruct (i_circ _ _ I _ _ H) as (A & B & x & D1 & D2). split; [assumption|]. split; [assumption|]. exists x. split; [|assumption].
      rewrite EA, aget_aset. destruct (N.eqb_spec (ci_call cj) id) as [E|]; [|assumption]. rewrite E in D1. congruence.
  - intros j o. rewrite SL, DL. destruct (Nat.eqb_spec i j) as [<-|Nj].
    + rewrite Nat.eqb_refl. intros H. injection H as <-. split; [reflexivity|discriminate].
    + destruct (Nat.eqb_spec (S i) (S j)); [lia|]. apply (i_slot _ _ I).
  - intros ts. rewrite EV, (i_view _ _ I). destruct ts as [|j]; [destruct (Nat.eqb_spec 0 (i + 2)); [lia|reflexivity]|]. rewrite DL.
    destruct (Nat.eqb_spec (S j) (i + 2)), (Nat.eqb_spec (S i) j); try lia; reflexivity.
Qed.

(** Anything else: the same calls on the same timeslots. *)
Definition same_call (c c' : active_call) : Prop := ac_ts c' = ac_ts c /\ ac_usage c' = ac_usage c /\ ac_dest c' = ac_dest c.
Lemma Inv_same v s s' : Inv v s ->
  (forall k, match aget k (cc_active s), aget k (cc_active s') with Some c, Some c' => same_call c c' | None, None => True | _, _ => False end) ->
  (forall k, match aget k (cc_cached s), aget k (cc_cached s') with
             | Some (p, a), Some (p', a') => d_setup_call_identifier p' = d_setup_call_identifier p /\ a' = a | None, None => True | _, _ => False end) ->
  cc_slots s' = cc_slots s -> cm_dl (cc_circ s') = cm_dl (cc_circ s) -> cm_ul (cc_circ s') = cm_ul (cc_circ s) -> Inv v s'.
Proof.
  intros I EA EC ES ED EU.
  assert (DL : forall j, dl_of s' j = dl_of s j) by (intros j; unfold dl_of; now rewrite ED).
  assert (SL : forall j, slot_of s' j = slot_of s j) by (intros j; unfold slot_of; now rewrite ES).
  constructor.
  - rewrite ES. apply (i_slots _ _ I).
  - rewrite ED. apply (i_dl _ _ I).
  - rewrite EU. apply (i_ul _ _ I).
  - intros k x H. specialize (EA k). rewrite H in EA. destruct (aget k (cc_active s)) as [c|] eqn:Hc; [|destruct EA]. destruct EA as (E1 & E2 & E3).
    destruct (i_cached _ _ I _ _ Hc) as (p & P1 & P2). specialize (EC k). rewrite P1 in EC. destruct (aget k (cc_cached s')) as [[p' a']|]; [|destruct EC].
    destruct EC as [Q1 Q2]. exists p'. rewrite E3, Q1, Q2. auto.
  - intros k x H. specialize (EA k). rewrite H in EA. destruct (aget k (cc_active s)) as [c|] eqn:Hc; [|destruct EA]. destruct EA as (E1 & E2 & E3).
    destruct (i_call _ _ I _ _ Hc) as (j & cj & Hj & Ej & Sj & Dj & Ejd & Eju). exists j, cj. rewrite SL, DL, E1, E2. auto 8.
  - intros j cj. rewrite DL. intros H. destruct (i_circ _ _ I _ _ H) as (A & B & x & D1 & D2). split; [assumption|]. split; [assumption|].
    specialize (EA (ci_call cj)). rewrite D1 in EA. destruct (aget (ci_call cj) (cc_active s')) as [x'|]; [|destruct EA].
    exists x'. destruct EA as (E1 & _). split; [reflexivity|congruence].
  - intros j o. rewrite SL, DL. apply (i_slot _ _ I).
  - intros [|j]; [apply (i_view _ _ I)|]. rewrite DL. apply (i_view _ _ I).
Qed.

(** ** A step that sets up no call *)
Record calm (v : nat -> option N) (s s' : cc) (q : list cc_msg) : Prop := {
  ca_inv : Inv (view v q) s';
  ca_opens : opens q = 0;
  ca_call : cm_next_call (cc_circ s') = cm_next_call (cc_circ s);
  ca_usage : cm_next_usage (cc_circ s') = cm_next_usage (cc_circ s);
  ca_sub : forall id c', aget id (cc_active s') = Some c' -> exists c, aget id (cc_active s) = Some c /\ same_call c c';
  ca_gone : forall id c, aget id (cc_active s) = Some c -> aget id (cc_active s') = None -> release_sent id c q;
  ca_circ : forall i ci, dl_of s' i = Some ci -> dl_of s i = Some ci }.

Lemma same_call_refl c : same_call c c.
Proof. now repeat split. Qed.
Lemma same_call_trans a b c : same_call a b -> same_call b c -> same_call a c.
Proof. unfold same_call. intros (A & B & C) (D & E & F). repeat split; congruence. Qed.

Lemma release_sent_mono id c q q1 q2 : release_sent id c q -> release_sent id c (q1 ++ q ++ q2).
Proof.
  intros (t & r & H1 & H2 & H3 & t' & H4). exists t, r. split; [rewrite !in_app_iff; auto|]. split; [assumption|]. split; [assumption|].
  exists t'. rewrite !in_app_iff; auto.
Qed.
Lemma release_sent_same id c c' q : same_call c c' -> release_sent id c' q -> release_sent id c q.
Proof. intros (A & B & C). unfold release_sent. now rewrite A, C. Qed.

Lemma calm_refl v s : Inv v s -> calm v s s [].
Proof. intros I. constructor; auto; try reflexivity. - intros id c H. exists c. split; [assumption|apply same_call_refl]. - intros; congruence. Qed.
Lemma calm_trans v s s1 s2 q1 q2 : calm v s s1 q1 -> calm (view v q1) s1 s2 q2 -> calm v s s2 (q1 ++ q2).
Proof.
  intros [I1 O1 C1 U1 S1 G1 D1] [I2 O2 C2 U2 S2 G2 D2]. constructor.
  - now rewrite view_app.
  - rewrite opens_app. lia.
  - congruence.
  - congruence.
  - intros id c H. destruct (S2 id c H) as (c1 & H1 & E1). destruct (S1 id c1 H1) as (c0 & H0 & E0). exists c0. split; [assumption|]. now apply (same_call_trans c0 c1).
  - intros id c H H2. destruct (aget id (cc_active s1)) as [c1|] eqn:E1.
    + specialize (G2 id c1 E1 H2). destruct (S1 id c1 E1) as (c0 & H0 & E0). assert (c0 = c) by congruence. subst c0.
      apply (release_sent_same id c c1) in G2; [|assumption]. apply (release_sent_mono id c q2 q1 []) in G2. now rewrite app_nil_r in G2.
    + specialize (G1 id c H E1). now apply (release_sent_mono id c q1 [] q2) in G1.
  - auto.
Qed.

(** The calls stay, some may change hands; nothing is opened or closed. *)
Lemma calm_silent v s s' q : Inv v s -> silent q ->
  (forall k, match aget k (cc_active s), aget k (cc_active s') with Some c, Some c' => same_call c c' | None, None => True | _, _ => False end) ->
  (forall k, match aget k (cc_cached s), aget k (cc_cached s') with
             | Some (p, a), Some (p', a') => d_setup_call_identifier p' = d_setup_call_identifier p /\ a' = a | None, None => True | _, _ => False end) ->
  cc_slots s' = cc_slots s -> cm_dl (cc_circ s') = cm_dl (cc_circ s) -> cm_ul (cc_circ s') = cm_ul (cc_circ s) ->
  cm_next_call (cc_circ s') = cm_next_call (cc_circ s) -> cm_next_usage (cc_circ s') = cm_next_usage (cc_circ s) -> calm v s s' q.
Proof.
  intros I Q EA EC ES ED EU N1 N2. constructor; auto.
  - rewrite view_silent by assumption. now apply (Inv_same v s).
  - now apply opens_silent.
  - intros id c' H. specialize (EA id). rewrite H in EA. destruct (aget id (cc_active s)) as [c|]; [|destruct EA]. eauto.
  - intros id c H H'. specialize (EA id). rewrite H, H' in EA. destruct EA.
  - intros i ci. unfold dl_of. now rewrite ED.
Qed.
Lemma same_active (m : amap active_call) k : match aget k m, aget k m with Some c, Some c' => same_call c c' | None, None => True | _, _ => False end.
Proof. destruct (aget k m); [apply same_call_refl|trivial]. Qed.
Lemma same_cached (m : amap (d_setup * tetra_addr)) k : match aget k m, aget k m with
  | Some (p, a), Some (p', a') => d_setup_call_identifier p' = d_setup_call_identifier p /\ a' = a | None, None => True | _, _ => False end.
Proof. destruct (aget k m) as [[p a]|]; [auto|trivial]. Qed.
Lemma one_active (m : amap active_call) id c c' : aget id m = Some c -> same_call c c' ->
  forall k, match aget k m, aget k (aset id c' m) with Some c, Some c' => same_call c c' | None, None => True | _, _ => False end.
Proof. intros H E k. rewrite aget_aset. destruct (N.eqb_spec k id) as [->|]; [now rewrite H|apply same_active]. Qed.

Lemma calm_call v s s' q id c c' : Inv v s -> aget id (cc_active s) = Some c -> same_call c c' -> silent q ->
  cc_active s' = aset id c' (cc_active s) -> cc_cached s' = cc_cached s -> cc_slots s' = cc_slots s -> cc_circ s' = cc_circ s -> calm v s s' q.
Proof.
  intros I H E Q EA EC ES ED. apply calm_silent; auto; try (now rewrite ED).
  - rewrite EA. now apply (one_active _ id c c').
  - rewrite EC. apply same_cached.
Qed.
Lemma calm_same v s s' q : Inv v s -> silent q ->
  cc_active s' = cc_active s -> cc_cached s' = cc_cached s -> cc_slots s' = cc_slots s -> cc_circ s' = cc_circ s -> calm v s s' q.
Proof.
  intros I Q EA EC ES ED. apply calm_silent; auto; try (now rewrite ED).
  - rewrite EA. apply same_active.
  - rewrite EC. apply same_cached.
Qed.

(** ** Ending calls *)
Lemma release_ts slots i : nth i slots None = Some OwnCmce -> i < 3 -> snd (ts_release slots OwnCmce (i + 2)) = upd slots i None.
Proof.
  intros H Hi. unfold ts_release, ts_idx. destruct (Nat.leb_spec 2 (i + 2)); [|lia]. destruct (Nat.leb_spec (i + 2) 4); [|lia]. cbn [andb].
  unfold TimeslotAlloc.ts_get. replace (i + 2 - 2) with i by lia. now rewrite H.
Qed.
Lemma close_dl d i m r : cm_close DirBoth (i + 2) m = Ok r -> length (cm_dl m) = 4 -> i < 3 ->
  r = (nth (S i) (cm_dl m) None, cm_set_dl (upd (cm_dl m) (S i) None) m) /\ d = d :> direction.
Proof.
  unfold cm_close. intros H L Hi. replace (i + 2) with (S (S i)) in H by lia. cbn [UmacCircuits.ts_get] in H.
  rewrite (nth_error_nth' _ None) in H by lia. cbn [unwrap bind] in H. injection H as <-. split; [|reflexivity].
  unfold ts_set. cbn [Nat.sub]. now rewrite ?Nat.sub_0_r.
Qed.

Lemma calm_release cfg id cause v s s' q : Inv v s -> keys s -> release_call cfg id cause s = Ok (s', q) -> calm v s s' q.
Proof.
  intros I K H. unfold release_call in H. pose proof (K id) as Kid. destruct (aget id (cc_cached s)) as [[p a]|] eqn:EC.
  2:{ injection H as <- <-. now apply calm_refl. }
  binv H. destruct (aget id (cc_active s)) as [c|] eqn:EA; [|discriminate].
  destruct (i_call _ _ I _ _ EA) as (i & ci & Hi & Ei & Si & Di & Eid & Eu). destruct (i_circ _ _ I _ _ Di) as (Tci & Dci & _).
  destruct (i_cached _ _ I _ _ EA) as (p' & P1 & P2). rewrite EC in P1. injection P1 as -> ->.
  binv H. rewrite Ei in E0. apply (close_dl DirBoth) in E0; [|apply (i_dl _ _ I)|assumption]. destruct E0 as [-> _].
  unfold dl_of in Di. rewrite Di in H. injection H as <- <-. rewrite Tci, Dci, Ei.
  unfold release_msg in E. binv E. injection E as <-.
  match goal with |- calm _ _ ?s' ?q => set (q0 := q); set (s1 := s') end.
  assert (V : forall ts, view v q0 ts = if ts =? i + 2 then None else v ts).
  { intros ts. unfold q0, view. rewrite <- Nat.add_comm. cbn [app fold_left vstep]. destruct (_ && _)%bool; reflexivity. }
  constructor.
  - apply (Inv_close v _ s s1 i id c I EA Ei); try reflexivity; [|exact V]. unfold s1. cbn. now apply release_ts.
  - unfold q0. cbn. now destruct (_ && _)%bool.
  - reflexivity.
  - reflexivity.
  - intros k x. change (cc_active s1) with (adel id (cc_active s)). rewrite aget_adel. destruct (k =? id)%N; [discriminate|]. intros Hx. exists x. split; [assumption|apply same_call_refl].
  - intros k x Hk. change (cc_active s1) with (adel id (cc_active s)). rewrite aget_adel. destruct (N.eqb_spec k id) as [->|]; [|congruence]. intros _.
    rewrite EA in Hk. injection Hk as <-. eexists _, _. split; [left; reflexivity|]. split; [reflexivity|]. split; [eexists; split; [reflexivity|exact P2]|].
    exists (cc_dltime s). right. left. now rewrite Ei, Nat.add_comm.
  - intros j cj. rewrite (dl_of_upd s s1 (S i) None ltac:(lia) (i_dl _ _ I) eq_refl). destruct (S i =? j); [discriminate|auto].
Qed.

Lemma calm_each {A} (f : A -> cc_act) (P : cc -> Prop) l :
  (forall x v s s' q, In x l -> Inv v s -> P s -> f x s = Ok (s', q) -> calm v s s' q /\ P s') ->
  forall v s s' q, Inv v s -> P s -> each f l s = Ok (s', q) -> calm v s s' q /\ P s'.
Proof.
  induction l as [|x t IH]; intros H v s s' q I HP E; cbn [each] in E.
  - injection E as <- <-. split; [now apply calm_refl|assumption].
  - apply andthen_ok in E. destruct E as (s1 & q1 & q2 & E1 & E2 & ->).
    destruct (H x v s s1 q1 (or_introl eq_refl) I HP E1) as [C1 P1].
    destruct (IH (fun y v s s' q Hy => H y v s s' q (or_intror Hy)) (view v q1) s1 s' q2 (ca_inv _ _ _ _ C1) P1 E2) as [C2 P2].
    split; [now apply (calm_trans v s s1)|assumption].
Qed.
Lemma calm_releases cfg (cause : N) l v s s' q : Inv v s -> keys s ->
  each (fun id => release_call cfg id cause) l s = Ok (s', q) -> calm v s s' q.
Proof.
  intros I K E. apply (calm_each _ keys) with (v := v) in E; [apply E| |assumption|assumption].
  clear. intros id v s s' q _ I K E. split; [now apply (calm_release cfg id cause)|]. apply (released_keys (N.eqb id) s s' K), (release_released cfg id cause s s' q K E).
Qed.

Lemma silent_brew b t c : silent (if b : bool then [ToBrew t c] else []).
Proof. destruct b; [repeat constructor|constructor]. Qed.

Lemma calm_drop cfg hint g v s s' q : Inv v s -> keys s -> drop_unlistened cfg hint g s = Ok (s', q) -> calm v s s' q /\ keys s'.
Proof.
  intros I K E. unfold drop_unlistened in E. destruct (has_listener g s); [injection E as <- <-; split; [now apply calm_refl|assumption]|].
  apply (calm_each _ keys) with (v := v) in E; [exact E| |assumption|assumption]. clear E. generalize (filter (fun p => (ac_dest (snd p) =? g)%N) (arrange hint (cc_active s))) as l. clear. intros l.
  intros [id c] v s s' q _ I K E. apply andthen_ok in E. destruct E as (s1 & q1 & q2 & E1 & E2 & ->).
  assert (s1 = s /\ silent q1) as [-> S1].
  { destruct (ac_origin c) as [a|u]; [unfold nothing in E1; injection E1 as <- <-; split; [reflexivity|constructor]|].
    apply when_brew_same in E1. destruct E1 as [-> ->]. split; [reflexivity|apply silent_brew]. }
  split; [|apply (released_keys (N.eqb id) s s' K), (release_released cfg id _ s s' q2 K E2)].
  apply (calm_trans v s s); [now apply calm_same|]. rewrite view_silent by assumption. now apply (calm_release cfg id SwmiRequestedDisconnection).
Qed.

Lemma calm_setc v s s' s0 q : calm v s0 s' q -> cc_active s0 = cc_active s -> cc_slots s0 = cc_slots s -> cc_circ s0 = cc_circ s -> calm v s s' q.
Proof.
  intros [I O C U S G D] EA ES ED. constructor; auto.
  - congruence.
  - congruence.
  - rewrite <- EA. exact S.
  - rewrite <- EA. exact G.
  - unfold dl_of in *. now rewrite <- ED.
Qed.
Lemma Inv_field v s s' : Inv v s -> cc_active s' = cc_active s -> cc_cached s' = cc_cached s -> cc_slots s' = cc_slots s -> cc_circ s' = cc_circ s -> Inv v s'.
Proof. intros I EA EC ES ED. apply (Inv_same v s); auto; try now rewrite ED. - rewrite EA. apply same_active. - rewrite EC. apply same_cached. Qed.
Lemma keys_field s s' : keys s -> cc_active s' = cc_active s -> cc_cached s' = cc_cached s -> keys s'.
Proof. intros K EA EC k. rewrite EA, EC. apply K. Qed.

Lemma calm_update cfg hg hint issi groups action v s s' q : Inv v s -> keys s ->
  subscriber_update cfg hg hint issi groups action s = Ok (s', q) -> calm v s s' q.
Proof.
  intros I K E. destruct action; cbn [subscriber_update] in E.
  - destruct (aget issi (cc_subs s)); injection E as <- <-; [now apply calm_refl|]. now apply calm_same; [|constructor|..].
  - destruct (aget issi (cc_subs s)) as [ex|]; [|injection E as <- <-; now apply calm_refl].
    apply (calm_each _ keys) with (v := v) in E.
    + destruct E as [E _]. now apply (calm_setc v s) in E.
    + clear. intros g v s s' q _ I K E. apply (calm_drop cfg hint g v) in E; [|now apply (Inv_field v s)|now apply (keys_field s)].
      destruct E as [E K']. split; [|assumption]. now apply (calm_setc v s) in E.
    + now apply (Inv_field v s).
    + now apply (keys_field s).
  - destruct (insert_groups _ _) as [l' new]. injection E as <- <-. now apply calm_same; [|constructor|..].
  - destruct (aget issi (cc_subs s)) as [entry|].
    + destruct (remove_groups groups entry) as [l' gone]. apply (calm_each _ keys) with (v := v) in E.
      * destruct E as [E _]. now apply (calm_setc v s) in E.
      * clear. intros g v s s' q _ I K E. now apply (calm_drop cfg hint g v) in E.
      * now apply (Inv_field v s).
      * now apply (keys_field s).
    + apply (calm_each _ keys) with (v := v) in E; [apply E| |assumption|assumption].
      clear. intros g v s s' q _ I K E. now apply (calm_drop cfg hint g v) in E.
Qed.

(** ** Floor control *)
Lemma stealing_silent n p t a ts m : stealing_msg n p t a ts = Ok m -> silent [m].
Proof. unfold stealing_msg. intros H. binv H. binv H. injection H as <-. repeat constructor. Qed.
Lemma silent_app q q' : silent q -> silent q' -> silent (q ++ q').
Proof. intros A B. apply Forall_app. auto. Qed.

Lemma calm_tx_ceased cfg p v s s' q : Inv v s -> rx_u_tx_ceased cfg p s = Ok (s', q) -> calm v s s' q.
Proof.
  intros I E. unfold rx_u_tx_ceased in E. set (id := u_tx_ceased_call_identifier p) in *.
  destruct (aget id (cc_active s)) as [c|] eqn:Ec; [|injection E as <- <-; now apply calm_refl].
  destruct (negb (ac_tx c) && present (ac_hang c)); [injection E as <- <-; now apply calm_refl|].
  cbn [cc_set_active cc_cached] in E. destruct (aget id (cc_cached s)) as [[d a]|].
  - binv E. injection E as <- <-. apply (calm_call v s _ _ id c (call_to_hang (cc_dltime s) c) I Ec); try reflexivity; [now repeat split|].
    apply (silent_app [x] _ (stealing_silent _ _ _ _ _ _ E0)). constructor; [exact Logic.I|]. apply silent_brew.
  - injection E as <- <-. apply (calm_call v s _ _ id c (call_to_hang (cc_dltime s) c) I Ec); try reflexivity; [now repeat split|constructor].
Qed.

Lemma tx_granted_silent id sp g ts s s' q : send_tx_granted id sp g ts s = Ok (s', q) -> s' = s /\ silent q.
Proof. unfold send_tx_granted. intros H. binv H. injection H as <- <-. split; [reflexivity|]. now apply stealing_silent in E. Qed.
Lemma tx_ceased_silent id g ts s s' q : send_tx_ceased id g ts s = Ok (s', q) -> s' = s /\ silent q.
Proof. unfold send_tx_ceased. intros H. binv H. injection H as <- <-. split; [reflexivity|]. now apply stealing_silent in E. Qed.

Lemma calm_tx_demand cfg i p v s s' q : Inv v s -> rx_u_tx_demand cfg i p s = Ok (s', q) -> calm v s s' q.
Proof.
  intros I E. unfold rx_u_tx_demand in E. set (id := u_tx_demand_call_identifier p) in *.
  destruct (aget id (cc_active s)) as [c|] eqn:Ec; [|injection E as <- <-; now apply calm_refl].
  destruct (ac_tx c); [injection E as <- <-; now apply calm_refl|].
  match type of E with context [cc_set_active (aset id ?c _) s] => set (c' := c) in * end.
  assert (Sc : same_call c c') by (now repeat split).
  cbn [cc_set_active cc_cached] in E. destruct (aget id (cc_cached s)) as [[d a]|].
  - binv E. binv E. destruct x0 as [s1 q1]. injection E as <- <-. apply tx_granted_silent in E1. destruct E1 as [-> S1].
    apply (calm_call v s _ _ id c c' I Ec Sc); try reflexivity.
    apply (silent_app [x] _ (stealing_silent _ _ _ _ _ _ E0)). apply silent_app; [exact S1|]. constructor; [exact Logic.I|]. apply silent_brew.
  - injection E as <- <-. apply (calm_call v s _ _ id c c' I Ec Sc); try reflexivity. constructor.
Qed.

Lemma calm_disconnect cfg i p v s s' q : Inv v s -> keys s -> rx_u_disconnect cfg i p s = Ok (s', q) -> calm v s s' q.
Proof.
  intros I K E. unfold rx_u_disconnect in E. destruct (aget _ (cc_active s)) as [c|]; [|injection E as <- <-; now apply calm_refl].
  destruct (match ac_origin c with OLocal a => (ad_ssi a =? ad_ssi (mi_addr i))%N | ONetwork _ => false end).
  - now apply (calm_release cfg _ _ v) in E.
  - binv E. injection E as <- <-. apply calm_same; try reflexivity; [assumption|repeat constructor].
Qed.

Lemma calm_end cfg hint u v s s' q : Inv v s -> W [] [] s -> rx_network_call_end cfg hint u s = Ok (s', q) -> calm v s s' q.
Proof.
  intros I H E. unfold rx_network_call_end in E. destruct (find _ _) as [[id c]|] eqn:Ef; [|injection E as <- <-; now apply calm_refl].
  apply find_some_in in Ef; [|apply (w_nodup _ _ _ H)]. destruct Ef as [Ec _]. destruct (ac_tx c).
  - apply andthen_ok in E. destruct E as (s1 & q1 & q2 & E1 & E2 & ->). apply tx_ceased_silent in E1. destruct E1 as [-> S1]. apply umac_same in E2. destruct E2 as [-> ->].
    match goal with |- calm v s (cc_set_active (aset id ?c' _) s) _ => apply (calm_call v s _ _ id c c' I Ec) end; try reflexivity; [now repeat split|].
    apply silent_app; [assumption|repeat constructor].
  - apply (calm_release cfg id SwmiRequestedDisconnection v s s' q I (w_keys _ _ _ H) E).
Qed.

Lemma calm_inactivity cfg hint ts v s s' q : Inv v s -> W [] [] s -> ul_inactivity cfg hint ts s = Ok (s', q) -> calm v s s' q.
Proof.
  intros I H E. unfold ul_inactivity in E. destruct (find _ _) as [[id c]|] eqn:Ef; [|injection E as <- <-; now apply calm_refl].
  apply find_some_in in Ef; [|apply (w_nodup _ _ _ H)]. destruct Ef as [Ec _].
  apply andthen_ok in E. destruct E as (s1 & q1 & q2 & E1 & E2 & ->). apply tx_ceased_silent in E1. destruct E1 as [-> S1].
  apply andthen_ok in E2. destruct E2 as (s1 & q3 & q4 & E1 & E2 & ->). apply umac_same in E1. destruct E1 as [-> ->].
  apply when_brew_same in E2. destruct E2 as [-> ->].
  match goal with |- calm v s (cc_set_active (aset id ?c' _) s) _ => apply (calm_call v s _ _ id c c' I Ec) end; try reflexivity; [now repeat split|].
  apply silent_app; [assumption|]. constructor; [exact Logic.I|apply silent_brew].
Qed.

(** ** Setting up *)
Definition succ_call (n : N) : N := let next := (n + 1)%N in if (0x3FF <? next)%N then 1%N else next.
Definition succ_usage (n : N) : N := let next := (n + 1)%N in if (63 <? next)%N then 4%N else next.

Lemma first_free_from l : forall k i, ts_first_free k l = Some i -> k <= i /\ i < k + length l /\ nth (i - k) l None = None.
Proof.
  induction l as [|[o|] t IH]; intros k i H; cbn [ts_first_free] in H; [discriminate| |].
  - apply IH in H. destruct H as (A & B & C). cbn [length]. split; [lia|]. split; [lia|]. replace (i - k) with (S (i - S k)) by lia. exact C.
  - injection H as <-. cbn [length]. split; [lia|]. split; [lia|]. now rewrite Nat.sub_diag.
Qed.

Lemma alloc_inv v s comm r m slots : Inv v s -> cm_allocate DirBoth comm (cc_slots s) OwnCmce (cc_circ s) = Ok (r, m, slots) ->
  (r = inr NoCircuitFree /\ m = cc_circ s /\ slots = cc_slots s) \/
  exists i, let c := mk_circuit (cm_dltime (cc_circ s)) DirBoth (i + 2) (cm_next_call (cc_circ s)) (cm_next_usage (cc_circ s)) comm in
    r = inl c /\ i < 3 /\ slot_of s i = None /\ slots = upd (cc_slots s) i (Some OwnCmce) /\
    m = mk_cmgr (cm_dltime (cc_circ s)) (upd (cm_dl (cc_circ s)) (S i) (Some c)) (cm_ul (cc_circ s))
          (succ_call (cm_next_call (cc_circ s))) (succ_usage (cm_next_usage (cc_circ s))).
Proof.
  intros I H. unfold cm_allocate, ts_allocate_any in H. destruct (ts_first_free 0 (cc_slots s)) as [i|] eqn:Ef.
  2:{ injection H as <- <- <-. now left. }
  right. exists i. apply first_free_from in Ef. destruct Ef as (_ & Hi & Fr). rewrite Nat.sub_0_r in Fr. rewrite (i_slots _ _ I) in Hi. cbn [Nat.add] in Hi.
  unfold cm_take_call_id, cm_take_usage in H. cbn [cm_dltime cm_dl cm_ul cm_next_call cm_next_usage] in H.
  fold (succ_call (cm_next_call (cc_circ s))) in H. fold (succ_usage (cm_next_usage (cc_circ s))) in H.
  set (c := mk_circuit _ DirBoth (i + 2) _ _ comm) in *.
  assert (Dn : dl_of s (S i) = None).
  { destruct (dl_of s (S i)) as [ci|] eqn:D; [|reflexivity]. destruct (i_circ _ _ I _ _ D) as (_ & _ & x & X1 & X2).
    destruct (i_call _ _ I _ _ X1) as (j & cj & Hj & Ej & Sj & _). assert (j = i) by lia. subst j. unfold slot_of in Sj. congruence. }
  unfold cm_open, cm_is_active in H. replace (ci_ts c) with (S (S i)) in H by (unfold c; cbn; lia). cbn [UmacCircuits.ts_get cm_dl cm_ul] in H.
  rewrite (nth_error_nth' (cm_dl (cc_circ s)) None) in H by (rewrite (i_dl _ _ I); lia). fold (dl_of s (S i)) in H. rewrite Dn in H.
  rewrite (i_ul _ _ I) in H. cbn [unwrap bind] in H.
  replace (nth_error (repeat None 4) (S i)) with (Some (@None circuit)) in H by (destruct i as [|[|[|]]]; [reflexivity..|lia]).
  cbn [unwrap bind present includes_dl includes_ul andb] in H. injection H as <- <- <-.
  split; [reflexivity|]. split; [assumption|]. split; [exact Fr|]. split; [reflexivity|].
  unfold cm_set_dl, ts_set. cbn [cm_dltime cm_dl cm_ul cm_next_call cm_next_usage Nat.sub]. now rewrite (i_ul _ _ I).
Qed.

(** A step that sets up one call. *)
Record setup_step (v : nat -> option N) (s s' : cc) (q : list cc_msg) : Prop := {
  st_opens : opens q = 1;
  st_call : cm_next_call (cc_circ s') = succ_call (cm_next_call (cc_circ s));
  st_usage : cm_next_usage (cc_circ s') = succ_usage (cm_next_usage (cc_circ s));
  st_active : exists c, (forall k, aget k (cc_active s') = if (k =? cm_next_call (cc_circ s))%N then Some c else aget k (cc_active s)) /\
                        ac_usage c = cm_next_usage (cc_circ s);
  st_inv : aget (cm_next_call (cc_circ s)) (cc_active s) = None -> Inv (view v q) s' }.

Lemma setup_made v s s' comm i c p m0 q :
  let ci := mk_circuit (cm_dltime (cc_circ s)) DirBoth (i + 2) (cm_next_call (cc_circ s)) (cm_next_usage (cc_circ s)) comm in
  Inv v s -> i < 3 -> slot_of s i = None ->
  ac_ts c = i + 2 -> ac_usage c = cm_next_usage (cc_circ s) -> d_setup_call_identifier p = cm_next_call (cc_circ s) ->
  cc_active s' = aset (cm_next_call (cc_circ s)) c (cc_active s) -> cc_cached s' = aset (cm_next_call (cc_circ s)) (p, gssi_addr (ac_dest c)) (cc_cached s) ->
  cc_slots s' = upd (cc_slots s) i (Some OwnCmce) ->
  cc_circ s' = mk_cmgr (cm_dltime (cc_circ s)) (upd (cm_dl (cc_circ s)) (S i) (Some ci)) (cm_ul (cc_circ s))
          (succ_call (cm_next_call (cc_circ s))) (succ_usage (cm_next_usage (cc_circ s))) ->
  silent q ->
  setup_step v s s' (ToUmac m0 (CtlOpen DirBoth (i + 2) (cm_next_usage (cc_circ s))) :: q).
Proof.
  intros ci I Hi Fr Ets Eu Ep EA EC ES ED Q. constructor.
  - pose proof (opens_silent q Q) as O. unfold opens in *. cbn [filter is_open length]. now rewrite O.
  - now rewrite ED.
  - now rewrite ED.
  - exists c. split; [|assumption]. intros k. now rewrite EA, aget_aset.
  - intros Fresh. assert (V : forall ts, view v (ToUmac m0 (CtlOpen DirBoth (i + 2) (cm_next_usage (cc_circ s))) :: q) ts = if ts =? i + 2 then Some (ci_usage ci) else v ts).
    { intros ts. unfold view. cbn [fold_left vstep]. fold (view (fun x => if x =? i + 2 then Some (cm_next_usage (cc_circ s)) else v x) q). now rewrite view_silent. }
    apply (Inv_open v _ s s' i (cm_next_call (cc_circ s)) c ci p I Fresh Hi Fr Ets eq_refl eq_refl eq_refl (eq_sym Eu) Ep EA EC ES); [now rewrite ED|now rewrite ED|exact V].
Qed.

Lemma msg_silent m : (exists t r, m = ToMle t r) -> silent [m].
Proof. intros (t & r & ->). repeat constructor. Qed.
Lemma setup_msg_silent p u ts t a r m : setup_msg p u ts t a r = Ok m -> silent [m].
Proof. unfold setup_msg. intros H. binv H. binv H. injection H as <-. repeat constructor. Qed.
Lemma proceeding_silent i p id m : call_proceeding_msg i p id = Ok m -> silent [m].
Proof. unfold call_proceeding_msg. intros H. binv H. injection H as <-. repeat constructor. Qed.
Lemma connect_silent i p c m : connect_caller_msg i p c = Ok m -> silent [m].
Proof. unfold connect_caller_msg. intros H. binv H. binv H. injection H as <-. repeat constructor. Qed.
Lemma connect_group_silent id t a m : connect_group_msg id t a = Ok m -> silent [m].
Proof. unfold connect_group_msg. intros H. binv H. injection H as <-. repeat constructor. Qed.

Lemma calm_refused v s m slots : Inv v s -> m = cc_circ s -> slots = cc_slots s -> calm v s (cc_set_slots slots (cc_set_circ m s)) [].
Proof. intros I -> ->. apply calm_same; try reflexivity; [assumption|constructor]. Qed.

Lemma setup_u cfg i p v s s' q : Inv v s -> rx_u_setup cfg i p s = Ok (s', q) -> calm v s s' q \/ setup_step v s s' q.
Proof.
  intros I E. unfold rx_u_setup in E. destruct (negb (feature_check p)); [injection E as <- <-; left; now apply calm_refl|].
  destruct (u_setup_called_party_ssi p) as [dest|]; [|injection E as <- <-; left; now apply calm_refl].
  destruct (negb (has_listener dest s)); [injection E as <- <-; left; now apply calm_refl|].
  binv E. destruct x as [[r m] slots]. apply (alloc_inv v) in E0; [|assumption]. destruct E0 as [(-> & -> & ->)|(k & -> & Hk & Fr & -> & ->)].
  - injection E as <- <-. left. now apply calm_refused.
  - right. binv E. binv E. binv E. injection E as <- <-.
    match goal with |- setup_step _ _ (cc_set_active (aset _ ?c _) _) _ =>
      apply (setup_made v s _ (bsi_comm_type (u_setup_basic_service_information p)) k c (local_setup i p (cm_next_call (cc_circ s)))) end;
      try reflexivity; try assumption.
    apply (silent_app [x] _ (proceeding_silent _ _ _ _ E0)). apply (silent_app [x0] _ (connect_silent _ _ _ _ E1)). apply (silent_app [x1] _ (setup_msg_silent _ _ _ _ _ _ _ E2)).
    apply silent_brew.
Qed.

Lemma setup_n cfg hint u src dest v s s' q : Inv v s -> W [] [] s -> rx_network_call_start cfg hint u src dest s = Ok (s', q) -> calm v s s' q \/ setup_step v s s' q.
Proof.
  intros I H E. unfold rx_network_call_start in E. binv E. destruct (negb (has_listener dest s)).
  - left. apply andthen_ok in E. destruct E as (s1 & q1 & q2 & E1 & E2 & ->). apply brew_same in E2. destruct E2 as [-> ->].
    apply (calm_drop cfg hint dest v) in E1; [|assumption|apply (w_keys _ _ _ H)]. destruct E1 as [C1 _].
    apply (calm_trans v s s1); [assumption|]. apply calm_same; try reflexivity; [apply (ca_inv _ _ _ _ C1)|repeat constructor].
  - destruct (find _ _) as [[id c]|] eqn:Ef.
    + left. apply find_some_in in Ef; [|apply (w_nodup _ _ _ H)]. destruct Ef as [Ec _]. destruct (ac_tx c).
      * apply brew_same in E. destruct E as [-> ->]. apply calm_same; try reflexivity; [assumption|repeat constructor].
      * apply andthen_ok in E. destruct E as (s1 & q1 & q2 & E1 & E2 & ->). apply tx_granted_silent in E1. destruct E1 as [-> S1].
        apply andthen_ok in E2. destruct E2 as (s1 & q3 & q4 & E1 & E2 & ->). apply umac_same in E1. destruct E1 as [-> ->].
        apply brew_same in E2. destruct E2 as [-> ->].
        match goal with |- calm v s (cc_set_active (aset id ?c' _) s) _ => apply (calm_call v s _ _ id c c' I Ec) end; try reflexivity; [now repeat split|].
        apply silent_app; [assumption|]. repeat constructor.
    + binv E. destruct x0 as [[r m] slots]. apply (alloc_inv v) in E1; [|assumption]. destruct E1 as [(-> & -> & ->)|(k & -> & Hk & Fr & -> & ->)].
      * injection E as <- <-. left. now apply calm_refused.
      * right. binv E. binv E. injection E as <- <-.
        match goal with |- setup_step _ _ (cc_set_active (aset _ ?c _) _) _ =>
          apply (setup_made v s _ P2Mp k c (network_setup (cm_next_call (cc_circ s)) src)) end;
          try reflexivity; try assumption.
        apply (silent_app [x0] _ (setup_msg_silent _ _ _ _ _ _ _ E1)). apply (silent_app [x1] _ (connect_group_silent _ _ _ _ E2)). repeat constructor.
Qed.

Lemma step_uplink cfg i v s s' q : Inv v s -> W [] [] s -> cc_rx_ind cfg i s = Ok (s', q) -> calm v s s' q \/ setup_step v s s' q.
Proof.
  intros I H E. unfold cc_rx_ind in E. binv E. destruct x as [t|]; [|injection E as <- <-; left; now apply calm_refl].
  destruct (memN t _); [|injection E as <- <-; left; now apply calm_refl]. unfold route_xx_deliver in E. binv E.
  destruct x as [t'|]; [|injection E as <- <-; left; now apply calm_refl].
  destruct (negb (ul_type_known t')); [injection E as <- <-; left; now apply calm_refl|].
  unfold parsed in E.
  repeat match type of E with (if ?b then _ else _) = _ => destruct b end;
    try (injection E as <- <-; left; now apply calm_refl); try discriminate;
    match type of E with match ?r with _ => _ end = _ => destruct r as [[p b]| |] end;
    try (injection E as <- <-; left; now apply calm_refl); try discriminate.
  - now apply (setup_u cfg i p v) in E.
  - left. now apply (calm_tx_ceased cfg p v) in E.
  - left. now apply (calm_tx_demand cfg i p v) in E.
  - left. apply (calm_release cfg (u_release_call_identifier p) UserRequestedDisconnection); [assumption|apply (w_keys _ _ _ H)|exact E].
  - left. apply (calm_disconnect cfg i p); [assumption|apply (w_keys _ _ _ H)|exact E].
Qed.

(** ** Time *)

(** Closing one expired circuit and doing what it asks for at once. *)
Definition close_task (c : circuit) : cc_act := fun s =>
  '(closed, m) <- cm_close (ci_dir c) (ci_ts c) (cc_circ s) ;;
  closed <- unwrap closed ;;
  do_task (SendClose (ci_call c) closed) (cc_set_circ m s).

Definition with_circ (m : cmgr) (r : res (cc * list cc_msg)) : res (cc * list cc_msg) := '(s, q) <- r ;; Ok (cc_set_circ m s, q).
Lemma do_close_circ id c m s : do_task (SendClose id c) (cc_set_circ m s) = with_circ m (do_task (SendClose id c) s).
Proof.
  cbn [do_task with_circ cc_set_circ cc_cached cc_dltime]. destruct (aget id (cc_cached s)) as [[p a]|]; [|reflexivity].
  now destruct (release_msg p ExpiryOfTimer (cc_dltime s) a).
Qed.

Lemma do_close_keeps id c s s' q : do_task (SendClose id c) s = Ok (s', q) -> cc_circ s' = cc_circ s.
Proof. cbn [do_task]. intros H. binv H. injection H as <- <-. reflexivity. Qed.
Lemma set_circ_twice a b s : cc_set_circ a (cc_set_circ b s) = cc_set_circ a s.
Proof. reflexivity. Qed.
Lemma set_circ_id s : cc_set_circ (cc_circ s) s = s.
Proof. now destruct s. Qed.

Lemma close_all_each l : forall m cmds m' s s' q, close_all l m = Ok (cmds, m') ->
  each do_task cmds (cc_set_circ m' s) = Ok (s', q) -> each close_task l (cc_set_circ m s) = Ok (s', q).
Proof.
  induction l as [|c t IH]; intros m cmds m' s s' q H E; cbn [close_all] in H.
  - injection H as <- <-. exact E.
  - binv H. destruct x as [closed m1]. binv H. binv H. destruct x0 as [cmds1 m2]. injection H as <- <-.
    cbn [each] in *. apply andthen_ok in E. destruct E as (s1 & q1 & q2 & X1 & X2 & ->).
    rewrite do_close_circ in X1. unfold with_circ in X1. binv X1. destruct x0 as [s2 q3]. injection X1 as <- <-.
    specialize (IH m1 cmds1 m2 s2 s' q2 E2 X2). unfold andthen.
    replace (close_task c (cc_set_circ m s)) with (Ok (cc_set_circ m1 s2, q3)); [cbn [bind]; rewrite IH; reflexivity|].
    unfold close_task. cbn [cc_set_circ cc_circ]. rewrite E0. cbn [bind]. rewrite E1. cbn [bind].
    change (mk_cc (cc_dltime s) (cc_cached s) m (cc_active s) (cc_subs s) (cc_listeners s) (cc_slots s)) with (cc_set_circ m s).
    rewrite set_circ_twice, do_close_circ, E. reflexivity.
Qed.

Lemma calm_close_task c v s s' q : Inv v s -> keys s -> (dl_of s (ci_ts c - 1) = Some c \/ dl_of s (ci_ts c - 1) = None) ->
  2 <= ci_ts c <= 4 -> ci_dir c = DirBoth -> close_task c s = Ok (s', q) ->
  calm v s s' q /\ keys s' /\ dl_of s (ci_ts c - 1) = Some c /\ forall k, aget k (cc_active s') = if (ci_call c =? k)%N then None else aget k (cc_active s).
Proof.
  intros I K Hd Hts Hdir E. unfold close_task in E. rewrite Hdir in E. binv E. destruct x as [closed m]. binv E.
  set (i := ci_ts c - 2) in *. assert (Ets : ci_ts c = i + 2) by (unfold i; lia). rewrite Ets in *.
  apply (close_dl DirBoth) in E0; [|apply (i_dl _ _ I)|lia]. destruct E0 as [E0 _]. injection E0 as -> ->.
  replace (i + 2 - 1) with (S i) in * by lia. fold (dl_of s (S i)) in E1. destruct Hd as [Hd|Hd]; rewrite Hd in E1; [|discriminate].
  cbn [unwrap] in E1. injection E1 as <-. destruct (i_circ _ _ I _ _ Hd) as (Tci & Dci & call & EA & Ec).
  destruct (i_cached _ _ I _ _ EA) as (p' & P1 & P2).
  cbn [do_task cc_set_circ cc_cached cc_dltime] in E. rewrite P1 in E. binv E. injection E as <- <-. binv E0. injection E0 as <-.
  unfold release_msg in E. binv E. injection E as <-. rewrite Ets, Dci.
  match goal with |- calm _ _ ?s' ?q /\ _ => set (q0 := q); set (s1 := s') end.
  assert (V : forall ts, view v q0 ts = if ts =? i + 2 then None else v ts) by reflexivity.
  assert (Act : cc_active s1 = adel (ci_call c) (cc_active s)) by reflexivity.
  assert (Cac : cc_cached s1 = adel (ci_call c) (cc_cached s)) by reflexivity.
  assert (Sl : slot_of s i = Some OwnCmce).
  { destruct (i_call _ _ I _ _ EA) as (j & cj & Hj & Ej & Sj & _). replace i with j by lia. exact Sj. }
  split; [|split; [|split; [exact Hd|]]].
  - constructor.
    + apply (Inv_close v _ s s1 i (ci_call c) call I EA); try reflexivity; [lia|]. unfold s1. cbn. apply release_ts; [exact Sl|lia].
    + reflexivity.
    + reflexivity.
    + reflexivity.
    + intros k y. rewrite Act, aget_adel. destruct (k =? ci_call c)%N; [discriminate|]. intros Hx. exists y. split; [assumption|apply same_call_refl].
    + intros k y Hk. rewrite Act, aget_adel. destruct (N.eqb_spec k (ci_call c)) as [->|]; [|congruence]. intros _.
      rewrite EA in Hk. injection Hk as <-. eexists _, _. split; [left; reflexivity|]. split; [reflexivity|]. split; [eexists; split; [reflexivity|exact P2]|].
      exists (cc_dltime s). right. left. do 2 f_equal. lia.
    + intros j cj. rewrite (dl_of_upd s s1 (S i) None ltac:(lia) (i_dl _ _ I) eq_refl). destruct (S i =? j); [discriminate|auto].
  - intros k. rewrite Act, Cac, !aget_adel. destruct (k =? ci_call c)%N; [reflexivity|apply K].
  - intros k. rewrite Act, aget_adel, N.eqb_sym. reflexivity.
Qed.

Lemma close_tasks l : forall v s s' q, Inv v s -> keys s ->
  Forall (fun c => (dl_of s (ci_ts c - 1) = Some c \/ dl_of s (ci_ts c - 1) = None) /\ 2 <= ci_ts c <= 4 /\ ci_dir c = DirBoth) l ->
  each close_task l s = Ok (s', q) ->
  calm v s s' q /\ keys s' /\ forall k, aget k (cc_active s') = if existsb (fun c => (ci_call c =? k)%N) l then None else aget k (cc_active s).
Proof.
  induction l as [|c t IH]; intros v s s' q I K F E; cbn [each] in E.
  - injection E as <- <-. split; [now apply calm_refl|auto].
  - apply andthen_ok in E. destruct E as (s1 & q1 & q2 & E1 & E2 & ->). apply Forall_cons_iff in F. destruct F as [(F1 & F2 & F3) F].
    destruct (calm_close_task c v s s1 q1 I K F1 F2 F3 E1) as (C1 & K1 & _ & A1).
    apply (IH (view v q1)) in E2; [|apply (ca_inv _ _ _ _ C1)|assumption|].
    + destruct E2 as (C2 & K2 & A2). split; [now apply (calm_trans v s s1)|]. split; [assumption|]. intros k. rewrite A2, A1. cbn [existsb].
      destruct (ci_call c =? k)%N; [now destruct (existsb _ t)|reflexivity].
    + apply Forall_impl with (2 := F). intros x (X1 & X2 & X3). split; [|auto].
      destruct (dl_of s1 (ci_ts x - 1)) as [y|] eqn:D; [|now right]. left. apply (ca_circ _ _ _ _ C1) in D. destruct X1; congruence.
Qed.

Lemma expired_in now l : forall r, expired_of now l = Ok r -> forall c, In c r <-> exists i a, nth i l None = Some c /\ age (ci_created c) now = Ok a /\ (25920 < a)%Z.
Proof.
  induction l as [|[x|] t IH]; intros r H c; cbn [expired_of] in H.
  - injection H as <-. split; [easy|]. intros (i & a & Hi & _). now destruct i.
  - binv H. binv H. injection H as <-. specialize (IH _ E0 c). change CIRCUIT_EXPIRY_TIMESLOTS with 25920%Z. destruct (Z.ltb_spec 25920 x0) as [L|L].
    + cbn [In]. rewrite IH. split.
      * intros [<-|(i & a & Hi)]; [exists 0, x0; auto|]. exists (S i), a. exact Hi.
      * intros ([|i] & a & Hi); [left; cbn in Hi; destruct Hi; congruence|]. right. exists i, a. exact Hi.
    + rewrite IH. split.
      * intros (i & a & Hi). exists (S i), a. exact Hi.
      * intros ([|i] & a & Hi & Ha & La); [cbn in Hi; injection Hi as <-; rewrite E in Ha; injection Ha as <-; lia|]. exists i, a. auto.
  - rewrite (IH r H c). split.
    + intros (i & a & Hi). exists (S i), a. exact Hi.
    + intros ([|i] & a & Hi & Ha); [discriminate|]. exists i, a. auto.
Qed.
Lemma expired_none now n : expired_of now (repeat None n) = Ok [].
Proof. induction n; [reflexivity|exact IHn]. Qed.
Lemma late_only now l : forall r, late_entries now l = Ok r -> Forall (fun c => match c with SendDSetup _ _ _ => True | SendClose _ _ => False end) r.
Proof.
  induction l as [|[x|] t IH]; intros r H; cbn [late_entries] in H; [injection H as <-; constructor| |now apply IH].
  binv H. binv H. injection H as <-. specialize (IH _ E0). destruct (_ <? _)%Z; [constructor; [trivial|assumption]|].
  destruct (_ =? _)%Z; [constructor; [trivial|assumption]|assumption].
Qed.

Lemma calm_late id u ts v s s' q : Inv v s -> do_task (SendDSetup id u ts) s = Ok (s', q) -> calm v s s' q /\ cc_active s' = cc_active s.
Proof.
  intros I E. cbn [do_task] in E. destruct (aget id (cc_active s)) as [c|] eqn:Ec.
  - destruct (present (ac_hang c)); [injection E as <- <-; split; [now apply calm_refl|reflexivity]|].
    destruct (aget id (cc_cached s)) as [[p a]|] eqn:Ep; [|injection E as <- <-; split; [now apply calm_refl|reflexivity]].
    binv E. injection E as <- <-. split; [|reflexivity]. apply calm_silent; try reflexivity; [assumption|now apply setup_msg_silent in E0|apply same_active|].
    intros k. cbn [cc_set_cached cc_cached]. rewrite aget_aset. destruct (N.eqb_spec k id) as [->|]; [rewrite Ep; auto|apply same_cached].
  - destruct (aget id (cc_cached s)) as [[p a]|]; [|injection E as <- <-; split; [now apply calm_refl|reflexivity]].
    binv E. injection E as <- <-. split; [|reflexivity]. apply calm_same; try reflexivity; [assumption|now apply setup_msg_silent in E0].
Qed.
Lemma calm_lates l : Forall (fun c => match c with SendDSetup _ _ _ => True | SendClose _ _ => False end) l ->
  forall v s s' q, Inv v s -> each do_task l s = Ok (s', q) -> calm v s s' q /\ cc_active s' = cc_active s.
Proof.
  induction 1 as [|c t Hc F IH]; intros v s s' q I E; cbn [each] in E.
  - injection E as <- <-. split; [now apply calm_refl|reflexivity].
  - apply andthen_ok in E. destruct E as (s1 & q1 & q2 & E1 & E2 & ->). destruct c as [id u ts|]; [|destruct Hc].
    apply (calm_late id u ts v) in E1; [|assumption]. destruct E1 as [C1 A1]. apply (IH (view v q1)) in E2; [|apply (ca_inv _ _ _ _ C1)].
    destruct E2 as [C2 A2]. split; [now apply (calm_trans v s s1)|congruence].
Qed.
Lemma each_app {A} (f : A -> cc_act) l l' s s' q : each f (l ++ l') s = Ok (s', q) ->
  exists s1 q1 q2, each f l s = Ok (s1, q1) /\ each f l' s1 = Ok (s', q2) /\ q = q1 ++ q2.
Proof.
  revert s q. induction l as [|x t IH]; intros s q E; cbn [app each] in *.
  - exists s, [], q. auto.
  - apply andthen_ok in E. destruct E as (s1 & q1 & q2 & E1 & E2 & ->). apply IH in E2. destruct E2 as (s2 & q3 & q4 & E2 & E3 & ->).
    exists s2, (q1 ++ q3), q4. rewrite <- app_assoc. split; [|auto]. unfold andthen. rewrite E1. cbn [bind]. now rewrite E2.
Qed.

Lemma hang_in now l : forall r, hang_expired now l = Ok r ->
  forall id, In id r <-> exists c h a, In (id, c) l /\ ac_hang c = Some h /\ age h now = Ok a /\ (360 < a)%Z.
Proof.
  induction l as [|[k x] t IH]; intros r H id; cbn [hang_expired] in H.
  - injection H as <-. split; [easy|]. now intros (c & h & a & [] & _).
  - binv H. binv H. injection H as <-. specialize (IH _ E0 id).
    assert (X : x0 = true <-> exists h a, ac_hang x = Some h /\ age h now = Ok a /\ (360 < a)%Z).
    { destruct (ac_hang x) as [h|].
      - binv E. injection E as <-. change HANGTIME_FRAMES with 360%Z. rewrite Z.ltb_lt. split; [eauto|]. intros (h' & a & Eh & Ea & La). injection Eh as <-. rewrite E1 in Ea. injection Ea as <-. exact La.
      - injection E as <-. split; [discriminate|]. now intros (h & a & Eh & _). }
    assert (Y : In id (if x0 then k :: x1 else x1) <-> (x0 = true /\ k = id) \/ In id x1) by (destruct x0; cbn [In]; intuition congruence).
    rewrite Y, IH, X. clear. split.
    + intros [[(h & a & Hh) ->]|(c & h & a & Hin & Hc)]; [exists x, h, a; split; [now left|assumption]|exists c, h, a; split; [now right|assumption]].
    + intros (c & h & a & [Hin|Hin] & Hc); [injection Hin as <- <-; left; split; [eauto|reflexivity]|right; eauto 6].
Qed.

(** What a tick does to the calls: those whose hang time is over and those whose circuit is too old are gone. *)
Definition hang_over (t : tdma_time) (c : active_call) : Prop := exists h a, ac_hang c = Some h /\ age h t = Ok a /\ (360 < a)%Z.
Definition circuit_over (s : cc) (t : tdma_time) (c : active_call) : Prop :=
  exists ci a, circuit_on s (ac_ts c) = Some ci /\ age (ci_created ci) t = Ok a /\ (25920 < a)%Z.

Lemma circuit_on_dl s i : circuit_on s (S i) = dl_of s i.
Proof.
  unfold circuit_on, dl_of. cbn [Nat.sub]. rewrite Nat.sub_0_r. revert i. induction (cm_dl (cc_circ s)) as [|x l IH]; intros [|i]; try reflexivity. apply IH.
Qed.

Lemma tick_calm cfg hint t v s s' q : Inv v s -> W [] [] s -> cc_tick cfg hint t s = Ok (s', q) ->
  calm v s s' q /\
  (forall k c, aget k (cc_active s) = Some c ->
     (aget k (cc_active s') = Some c /\ ~ hang_over t c /\ (tm_t t = 1%Z -> ~ circuit_over s t c)) \/
     (aget k (cc_active s') = None /\ (hang_over t c \/ tm_t t = 1%Z /\ circuit_over s t c))).
Proof.
  intros I H E. unfold cc_tick in E. apply andthen_ok in E. destruct E as (s1 & q1 & q2 & E1 & E2 & ->).
  set (s0 := cc_set_dltime t s) in *. assert (I0 : Inv v s0) by (now apply (Inv_field v s)). assert (K0 : keys s0) by (apply (w_keys _ _ _ H)).
  unfold check_hangtime in E1. binv E1. pose proof (hang_in _ _ _ E) as HX. cbn [s0 cc_set_dltime cc_dltime cc_active] in HX.
  pose proof (calm_releases cfg ExpiryOfTimer x v s0 s1 q1 I0 K0 E1) as C1.
  assert (R1 : released (fun k => existsb (fun id => (id =? k)%N) x) s0 s1).
  { apply (each_released N.eqb (fun id => release_call cfg id ExpiryOfTimer) x) with (q := q1); [|assumption|assumption].
    intros y a b c _ Ka Ea. now apply release_released in Ea. }
  assert (K1 : keys s1) by (exact (released_keys _ s0 s1 K0 R1)).
  assert (GX : forall k c, aget k (cc_active s) = Some c -> existsb (fun id => (id =? k)%N) x = true <-> hang_over t c).
  { intros k c Hk. rewrite existsb_exists. split.
    - intros (y & Hy & Ey). apply N.eqb_eq in Ey. subst y. apply HX in Hy. destruct Hy as (c' & h & a & Hin & Hh).
      apply arrange_in in Hin; [|apply (w_nodup _ _ _ H)]. assert (c' = c) by congruence. subst c'. exists h, a. exact Hh.
    - intros (h & a & Hh). exists k. rewrite N.eqb_refl. split; [|reflexivity]. apply HX. exists c, h, a. split; [|assumption].
      apply arrange_in; [apply (w_nodup _ _ _ H)|assumption]. }
  assert (A1 : forall k c, aget k (cc_active s) = Some c -> (aget k (cc_active s1) = Some c /\ ~ hang_over t c) \/ (aget k (cc_active s1) = None /\ hang_over t c)).
  { intros k c Hk. specialize (GX k c Hk). rewrite (rl_active _ _ _ R1). destruct (existsb _ x).
    - right. split; [reflexivity|now apply GX].
    - left. split; [exact Hk|]. intros Hh. apply GX in Hh. discriminate. }
  assert (C1' : calm v s s1 q1) by (now apply (calm_setc v s) in C1). clear C1. rename C1' into C1.
  binv E2. destruct x0 as [tasks m]. unfold cm_tick in E0. destruct (Z.eqb_spec (tm_t t) 1) as [T1|T1].
  - binv E0. destruct x0 as [closes m1]. binv E0. injection E0 as <- <-. apply each_app in E2. destruct E2 as (s2 & q3 & q4 & X1 & X2 & ->).
    unfold cm_close_expired in E3. binv E3. binv E3. cbn [cm_set_time cm_dltime cm_dl cm_ul] in *.
    rewrite (i_ul _ _ (ca_inv _ _ _ _ C1)), expired_none in E2. injection E2 as <-. rewrite app_nil_r in E3.
    pose proof (close_all_each _ _ _ _ s1 s2 q3 E3 X1) as X3. pose proof (expired_in _ _ _ E0) as EX. fold (dl_of s1) in EX.
    set (s1' := cc_set_circ (cm_set_time t (cc_circ s1)) s1) in *.
    assert (C1' : calm (view v q1) s1 s1' []).
    { apply calm_silent; try reflexivity; [apply (ca_inv _ _ _ _ C1)|constructor|apply same_active|apply same_cached]. }
    apply (close_tasks _ (view v q1)) in X3.
    + destruct X3 as (C2 & K2 & A2). apply late_only in E4. apply (calm_lates x0) with (v := view (view v q1) q3) in X2.
      2:{ exact E4. } 2:{ apply (ca_inv _ _ _ _ C2). }
      destruct X2 as [C3 A3]. split.
      * apply (calm_trans v s s1); [assumption|]. apply (calm_trans (view v q1) s1 s2); [|assumption].
        now apply (calm_trans (view v q1) s1 s1' s2 [] q3).
      * intros k c Hk. rewrite A3, A2. change (cc_active s1') with (cc_active s1).
        assert (Z0 : existsb (fun c0 => (ci_call c0 =? k)%N) x1 = true -> circuit_over s t c).
        { rewrite existsb_exists. intros (y & Hy & Ey). apply N.eqb_eq in Ey. apply EX in Hy. destruct Hy as (i & a & Hi & Ha & La).
          exists y, a. split; [|auto]. fold (dl_of s1 i) in Hi.
          destruct (i_circ _ _ (ca_inv _ _ _ _ C1) _ _ Hi) as (_ & _ & z & Hx & Hxt). rewrite Ey in Hx.
          destruct (ca_sub _ _ _ _ C1 _ _ Hx) as (x' & Hx' & Sx & _). assert (x' = c) by congruence. subst x'.
          rewrite <- Sx, Hxt, circuit_on_dl. now apply (ca_circ _ _ _ _ C1). }
        assert (Z1 : aget k (cc_active s1) = Some c -> circuit_over s t c -> existsb (fun c0 => (ci_call c0 =? k)%N) x1 = true).
        { intros Hk1 (ci & a & Hci & Ha & La). destruct (i_call _ _ (ca_inv _ _ _ _ C1) _ _ Hk1) as (i & cj & Hi & Ei & _ & Dj & Ej & _).
          replace (ac_ts c) with (S (S i)) in Hci by lia. rewrite circuit_on_dl in Hci. pose proof (ca_circ _ _ _ _ C1 _ _ Dj) as Dj'.
          assert (cj = ci) by congruence. subst cj. apply existsb_exists. exists ci. rewrite Ej, N.eqb_refl. split; [|reflexivity].
          apply EX. exists (S i), a. auto. }
        destruct (existsb (fun c0 => (ci_call c0 =? k)%N) x1).
        -- right. split; [reflexivity|]. right. split; [assumption|now apply Z0].
        -- destruct (A1 k c Hk) as [[Hk1 N1]|[Hk1 N1]]; [left|right; auto]. split; [assumption|]. split; [assumption|]. intros _ Co. specialize (Z1 Hk1 Co). discriminate.
    + apply (ca_inv _ _ _ _ C1').
    + exact K1.
    + apply Forall_forall. intros c Hc. apply EX in Hc. destruct Hc as (i & a & Hi & _). fold (dl_of s1 i) in Hi.
      destruct (i_circ _ _ (ca_inv _ _ _ _ C1) _ _ Hi) as (B1 & B2 & z & B3 & B4). rewrite B1. replace (S i - 1) with i by lia.
      split; [left; exact Hi|]. split; [|assumption]. destruct (i_call _ _ (ca_inv _ _ _ _ C1) _ _ B3) as (j & cj & Hj & Ej & _). lia.
  - injection E0 as <- <-. cbn [each] in E2. injection E2 as <- <-. split.
    + apply (calm_trans v s s1); [assumption|].
      apply calm_silent; try reflexivity; [apply (ca_inv _ _ _ _ C1)|constructor|apply same_active|apply same_cached].
    + intros k c Hk. cbn [cc_set_circ cc_active]. destruct (A1 k c Hk) as [[Hk1 N1]|[Hk1 N1]]; [left|right; auto]. split; [assumption|]. split; [assumption|]. now intros.
Qed.

(** ** Any step *)
Lemma step_effect cfg e v s s' q : Inv v s -> W [] [] s -> cc_step cfg e s = Ok (s', q) -> calm v s s' q \/ setup_step v s s' q.
Proof.
  intros I H E. destruct e as [hint t|i|hint c|hg hint issi groups action]; cbn [cc_step] in E.
  - left. apply (tick_calm cfg hint t v s s' q I H E).
  - now apply (step_uplink cfg i).
  - destruct c; cbn [rx_call_control] in E; try (unfold nothing in E; injection E as <- <-; left; now apply calm_refl).
    + now apply (setup_n cfg hint _ _ _ v) in E.
    + left. now apply (calm_end cfg hint _ v) in E.
    + left. now apply (calm_inactivity cfg hint _ v) in E.
  - left. apply (calm_update cfg hg hint issi groups action v s s' q I (w_keys _ _ _ H) E).
Qed.

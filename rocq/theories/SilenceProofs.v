From Coq Require Import Arith.
From Verif Require Import Base BitBuffer Codec TdmaTime TdmaTimeProofs MacBroadcast MleBroadcast UmacCircuits UmacCircuitsProofs DlSched UmacPrecomps UmacBs DlSlot SlotSpec SlotProofs SlotRun UmacSched UlBlockSpec UlBlockPdu UlBlockFacts LmacBs BsMac AirSpec AirRun SilenceSpec.
From Verif Require CallControl Defrag UplinkProofs.
Open Scope nat_scope.

(** * The table of signs of life *)
Definition voice (u : umac) (k : nat) : option tdma_time := nth (k - 1) (um_voice u) None.
Lemma voice_set u ts w k : length (um_voice u) = 4 -> 1 <= k <= 4 -> voice (set_voice ts w u) k = if ts =? k then w else voice u k.
Proof.
  intros L K. unfold set_voice, voice. destruct ((1 <=? ts) && (ts <=? 4)) eqn:E.
  - cbn [um_voice]. rewrite nth_upd, L. destruct (ts =? k) eqn:X.
    + apply Nat.eqb_eq in X. subst. rewrite Nat.eqb_refl. replace (k - 1 <? 4) with true by (symmetry; apply Nat.ltb_lt; lia). reflexivity.
    + apply Nat.eqb_neq in X. replace (k - 1 =? ts - 1) with false by (symmetry; apply Nat.eqb_neq; lia). reflexivity.
  - replace (ts =? k) with false; [reflexivity|]. symmetry. apply Nat.eqb_neq. lia.
Qed.
Lemma voice_len ts w u : length (um_voice (set_voice ts w u)) = length (um_voice u).
Proof. unfold set_voice. destruct (_ && _); [apply upd_length|reflexivity]. Qed.
Lemma voice_time ts w u : um_time (set_voice ts w u) = um_time u.
Proof. unfold set_voice. now destruct (_ && _). Qed.
(** what a change does to the table *)
Definition turns (f : nat -> option tdma_time -> option tdma_time) (u u' : umac) : Prop :=
  um_time u' = um_time u /\ (length (um_voice u) = 4 -> length (um_voice u') = 4 /\ forall k, 1 <= k <= 4 -> voice u' k = f k (voice u k)).
Lemma turns_set ts w u : turns (fun k x => if ts =? k then w else x) u (set_voice ts w u).
Proof. split; [apply voice_time|]. intros L. split; [now rewrite voice_len|]. intros k K. now apply voice_set. Qed.
Lemma turns_same u u' : um_time u' = um_time u -> um_voice u' = um_voice u -> turns (fun _ x => x) u u'.
Proof. intros T V. split; [exact T|]. unfold voice. rewrite V. auto. Qed.
Lemma turns_trans f g a b c : turns f a b -> turns g b c -> turns (fun k x => g k (f k x)) a c.
Proof.
  intros (A & B) (C & D). split; [congruence|]. intros L. destruct (B L) as (L1 & E1). destruct (D L1) as (L2 & E2). split; [exact L2|]. intros k K. rewrite E2, E1 by exact K. reflexivity.
Qed.
Lemma turns_ext f g u u' : (forall k x, 1 <= k <= 4 -> f k x = g k x) -> turns f u u' -> turns g u u'.
Proof. intros H (A & B). split; [exact A|]. intros L. destruct (B L) as (C & D). split; [exact C|]. intros k K. rewrite D by exact K. now apply H. Qed.

(** * Open circuits *)
Lemma up_get c cn v s ts x : shows c cn v s -> ts_get (uc_ul (ds_circ s)) ts = Ok x -> 1 <= ts <= 4 /\ x = vw_ul (v ts).
Proof.
  intros (_ & (_ & L & _ & H) & _) E. pose proof (get_in _ _ _ L E) as K. split; [exact K|]. destruct (H ts K) as (_ & U & _). rewrite (ts_get_ok _ _ None L K), U in E. now injection E as <-.
Qed.
Lemma up_active c cn v s ts a : shows c cn v s -> circuit_is_active DirUl ts s = Ok a -> 1 <= ts <= 4 /\ a = match vw_ul (v ts) with Some _ => true | None => false end.
Proof.
  intros H E. unfold circuit_is_active, ucm_is_active in E. bi E. destruct (up_get _ _ _ _ _ _ H E0) as (K & ->). split; [exact K|]. now injection E as <-.
Qed.
Lemma hang_get c cn v s ts h : shows c cn v s -> ts_get (ds_hang s) ts = Ok h -> 1 <= ts <= 4 /\ h = vw_hang (v ts).
Proof.
  intros (_ & (_ & _ & L & H) & _) E. pose proof (get_in _ _ _ L E) as K. split; [exact K|]. destruct (H ts K) as (_ & _ & U & _). rewrite (ts_get_ok _ _ false L K), U in E. now injection E as <-.
Qed.
Lemma open1 d ts usage u u' : open_dirs [d] ts usage u = Ok u' -> turns (fun k x => if is_ul d then if ts =? k then Some (um_time u) else x else x) u u'.
Proof.
  cbn [open_dirs]. intros E. bi E. bi E. bi E. injection E as <-. destruct (is_ul d); [|now apply turns_same]. exact (turns_set ts (Some (um_time u)) (set_sch x1 u)).
Qed.
Lemma open_cons d ds ts usage u u' : open_dirs (d :: ds) ts usage u = Ok u' -> exists u1, open_dirs [d] ts usage u = Ok u1 /\ open_dirs ds ts usage u1 = Ok u'.
Proof.
  cbn [open_dirs]. intros E. bi E. bi E. bi E. eexists. split; [|exact E]. rewrite E0. cbn [bind]. rewrite E1. cbn [bind]. rewrite E2. reflexivity.
Qed.
Lemma open_turns d ts usage u u' : open_dirs (dirs_of d) ts usage u = Ok u' -> turns (fun k x => if upwards d then if ts =? k then Some (um_time u) else x else x) u u'.
Proof.
  intros E. destruct d; cbn [dirs_of] in E.
  - injection E as <-. now apply turns_same.
  - exact (open1 _ _ _ _ _ E).
  - exact (open1 _ _ _ _ _ E).
  - apply open_cons in E. destruct E as (u1 & E1 & E2). pose proof (open1 _ _ _ _ _ E1) as T1. pose proof (open1 _ _ _ _ _ E2) as T2. cbn [is_ul] in *. pose proof (proj1 T1) as H. rewrite H in T2. exact (turns_trans _ _ _ _ _ T1 T2).
Qed.
Lemma close1 c cn v d ts u u' : shows c cn v (um_sch u) -> close_dirs [d] ts u = Ok u' ->
  turns (fun k x => if is_ul d then if ts =? k then match vw_ul (v k) with Some _ => None | None => x end else x else x) u u' /\ shows c cn (at_ts ts (closed d) v) (um_sch u').
Proof.
  cbn [close_dirs]. intros H E. bi E. destruct x as [o s]. injection E as <-. pose proof (close_shows _ _ _ _ _ _ _ _ H E0) as SH.
  assert (SS : um_sch (match o with Some _ => if is_ul d then set_voice ts None (set_sch s u) else set_sch s u | None => set_sch s u end) = s).
  { destruct o; [|reflexivity]. destruct (is_ul d); [exact (proj1 (voice_same ts None (set_sch s u)))|reflexivity]. }
  rewrite SS. split; [|exact SH]. destruct (is_ul d) eqn:D; [|destruct o; now apply turns_same].
  destruct d; try discriminate D. unfold dl_close_circuit, ucm_close in E0. bi E0. bi E. destruct x as [o' c']. assert (o' = o) by congruence. subst o'. assert (x0 = o) by congruence. subst x0.
  destruct (up_get _ _ _ _ _ _ H E1) as (K & X).
  destruct o as [n|].
  - apply (turns_ext (fun k x => if ts =? k then None else x)); [|exact (turns_set ts None (set_sch s u))]. intros k x _. destruct (ts =? k) eqn:Y; [|reflexivity]. apply Nat.eqb_eq in Y. subst. now rewrite <- X.
  - apply (turns_ext (fun k x => x)); [|now apply turns_same]. intros k x _. destruct (ts =? k) eqn:Y; [|reflexivity]. apply Nat.eqb_eq in Y. subst. now rewrite <- X.
Qed.
Lemma close_cons d ds ts u u' : close_dirs (d :: ds) ts u = Ok u' -> exists u1, close_dirs [d] ts u = Ok u1 /\ close_dirs ds ts u1 = Ok u'.
Proof. cbn [close_dirs]. intros E. bi E. destruct x as [o s]. eexists. split; [|exact E]. rewrite E0. reflexivity. Qed.
Lemma close_turns c cn v d ts u u' : shows c cn v (um_sch u) -> close_dirs (dirs_of d) ts u = Ok u' ->
  turns (fun k x => if upwards d then if ts =? k then match vw_ul (v k) with Some _ => None | None => x end else x else x) u u'.
Proof.
  intros H E. destruct d; cbn [dirs_of] in E.
  - injection E as <-. now apply turns_same.
  - exact (proj1 (close1 _ _ _ _ _ _ _ H E)).
  - exact (proj1 (close1 _ _ _ _ _ _ _ H E)).
  - apply close_cons in E. destruct E as (u1 & E1 & E2). destruct (close1 _ _ _ _ _ _ _ H E1) as (T1 & H1). destruct (close1 _ _ _ _ _ _ _ H1 E2) as (T2 & _). cbn [is_ul] in *.
    refine (turns_ext _ _ _ _ _ (turns_trans _ _ _ _ _ T1 T2)). intros k x _. cbn [upwards]. unfold at_ts. destruct (ts =? k) eqn:Y; [|reflexivity]. apply Nat.eqb_eq in Y. subst k. rewrite Nat.eqb_refl. reflexivity.
Qed.

(** * Blocks *)
Lemma act_still i x u u' o c : does i x u (Ok (u', o, c)) -> um_time u' = um_time u /\ um_voice u' = um_voice u.
Proof.
  intros H. destruct x; cbn [does] in H.
  - injection H as -> _ _. auto.
  - symmetry in H. bi H. injection H as <- _ _. auto.
  - symmetry in H. bi H. injection H as <- _ _. auto.
  - destruct H as (b & _ & _ & _ & H). injection H as -> _ _. auto.
  - destruct H as (f & _ & _ & H). symmetry in H. bi H. destruct x as [df g]. injection H as <- _ _. auto.
  - destruct H as (f & _ & _ & H). symmetry in H. bi H. destruct x as [ssi|]; [|injection H as <- _ _; auto].
    bi H. destruct x; [injection H as <- _ _; auto|]. bi H. destruct x as [df g]. injection H as <- _ _. auto.
  - destruct H as (f & _ & _ & H). symmetry in H. bi H. destruct x as [ssi|]; [|injection H as <- _ _; auto].
    bi H. bi H. bi H. destruct x1 as [df g]. destruct g as [|[b|] [|]]; try (injection H as <- _ _; auto; fail).
    bi H. injection H as <- _ _. auto.
Qed.
Lemma acts_still i acts u r : does_all i acts u r -> forall u' o c, r = Ok (u', o, c) -> um_time u' = um_time u /\ um_voice u' = um_voice u.
Proof.
  induction 1 as [u|x l u H|x l u u1 o1 H|x l u u1 o1 H r HR IH]; intros u' o c E.
  - injection E as <- _ _. auto.
  - discriminate E.
  - injection E as <- _ _. exact (act_still _ _ _ _ _ _ H).
  - bi E. destruct x0 as [[w o2] c2]. injection E as <- _ _. destruct (IH _ _ _ E0) as (-> & ->). exact (act_still _ _ _ _ _ _ H).
Qed.
Lemma heard_still i l u r : heard i l u r -> forall u' o, r = Ok (u', o) -> um_time u' = um_time u /\ um_voice u' = um_voice u.
Proof.
  induction 1 as [| |l u acts n u1 o1 c EP H _|l u acts n u1 o1 EP H _|l u acts n u1 o1 r EP H _ HR IH]; intros u' o E; try discriminate E.
  - injection E as <- _. exact (acts_still _ _ _ _ H _ _ _ eq_refl).
  - injection E as <- _. exact (acts_still _ _ _ _ H _ _ _ eq_refl).
  - bi E. destruct x as [w o2]. injection E as <- _. destruct (IH _ _ E0) as (-> & ->). exact (acts_still _ _ _ _ H _ _ _ eq_refl).
Qed.

(** * Anything but a tick *)
Lemma calm_turns c e v u u' o m : ev_fine e -> calm e -> sound u -> minv c v u -> um_step c e u = Ok (u', o, m) ->
  turns (fun k x => sign (um_time u) k v e x) u u'.
Proof.
  intros F CA S I E. destruct I as (cn & _ & SH). destruct e as [cn' t|i pdu|r|ts data|t ts data|k]; cbn [um_step] in E; cbn [sign].
  - contradiction CA.
  - pose proof S as S0. destruct F as (W & P & V). bi E. destruct x as [u1 o1]. injection E as <- _ _.
    assert (C : on_channel i = true).
    { unfold rx_tmv_unitdata_ind in E0. bi E0. unfold on_channel. destruct (tv_chan i), (tv_blk i); try discriminate E0; reflexivity. }
    destruct (block_ok i pdu u W P S0 V C) as (r & E1 & H & _). rewrite E0 in E1. subst r. destruct (heard_still _ _ _ _ H _ _ eq_refl). now apply turns_same.
  - bi E. injection E as <- _ _. now apply turns_same.
  - bi E. injection E as <- _ _. unfold rx_dl_voice in E0. bi E0.
    assert (X : turns (fun k y => if ts =? k then match vw_ul (v k) with Some _ => Some (um_time u) | None => y end else y) u x0).
    { destruct ((1 <=? ts) && (ts <=? 4)) eqn:R.
      - bi E. injection E as <-. destruct (up_active _ _ _ _ _ _ SH E1) as (K & ->). destruct (vw_ul (v ts)) eqn:Y.
        + apply (turns_ext (fun k x => if ts =? k then Some (um_time u) else x)); [|apply turns_set]. intros k y _. destruct (ts =? k) eqn:Q; [|reflexivity]. apply Nat.eqb_eq in Q. subst k. now rewrite Y.
        + apply (turns_ext (fun k x => x)); [|now apply turns_same]. intros k y _. destruct (ts =? k) eqn:Q; [|reflexivity]. apply Nat.eqb_eq in Q. subst k. now rewrite Y.
      - injection E as <-. apply (turns_ext (fun k x => x)); [|now apply turns_same]. intros k y K. destruct (ts =? k) eqn:Q; [|reflexivity]. apply Nat.eqb_eq in Q. lia. }
    bi E0. destruct x1; [bi E0|]; injection E0 as <-; exact X.
  - bi E. destruct x as [u1 o1]. injection E as <- _ _. unfold rx_ul_voice in E0. pose proof (turns_set ts (Some (um_time u)) u) as X.
    bi E0. bi E0. destruct x0; [|injection E0 as <- _; exact X]. bi E0. destruct x0 as [b|]; [|injection E0 as <- _; exact X]. bi E0. injection E0 as <- _. exact X.
  - bi E. destruct x as [u1 m1]. injection E as <- _ _.
    assert (HG : forall ts on w, (' (s, m2) <- set_hangtime ts on (um_sch u) ;; Ok (set_voice ts w (set_sch s u), m2)) = Ok (u1, m1) -> turns (fun k x => if ts =? k then w else x) u u1).
    { intros ts on w E. bi E. destruct x as [s m2]. injection E as <- _. exact (turns_set ts w (set_sch s u)). }
    unfold rx_control in E0. destruct k; try (injection E0 as <- _; now apply turns_same); try exact (HG _ _ _ E0).
    + bi E0. injection E0 as <- _. exact (open_turns _ _ _ _ _ E).
    + bi E0. injection E0 as <- _. exact (close_turns _ _ _ _ _ _ _ SH E).
Qed.

(** * A tick *)
Section Check.
Variables (c : cell_cfg) (cn : bool) (v : nat -> ts_view) (gap : nat -> Z).
Definition overdue (u : umac) (k : nat) : bool :=
  listening v k && match voice u k with Some _ => (UL_INACTIVITY_TIMESLOTS <? gap k)%Z | None => false end.
Lemma silence_out tss : NoDup tss -> (forall k, In k tss -> 1 <= k <= 4) -> forall u u' o, shows c cn v (um_sch u) -> length (um_voice u) = 4 ->
  (forall k t, In k tss -> listening v k = true -> voice u k = Some t -> age t (um_time u) = Ok (gap k)) -> check_silence tss u = Ok (u', o) ->
  o = map (OutInactive (um_time u)) (filter (overdue u) tss) /\ um_time u' = um_time u /\ length (um_voice u') = 4 /\
  forall k, 1 <= k <= 4 -> voice u' k = if existsb (Nat.eqb k) (filter (overdue u) tss) then None else voice u k.
Proof.
  induction 1 as [|ts tss NI ND IH]; intros R u u' o SH L AG E; cbn [check_silence] in E; [injection E as <- <-; auto|].
  bi E. bi E. bi E. bi E. destruct x2 as [w o2]. injection E as <- <-.
  destruct (up_active _ _ _ _ _ _ SH E0) as (K & ->). destruct (hang_get _ _ _ _ _ _ SH E1) as (_ & ->).
  assert (X : x1 = if overdue u ts then [OutInactive (um_time u) ts] else []).
  { unfold overdue. assert (LI : (match vw_ul (v ts) with Some _ => true | None => false end) && negb (vw_hang (v ts)) = listening v ts) by (unfold listening; destruct (vw_ul (v ts)); reflexivity).
    rewrite LI in E2. destruct (listening v ts) eqn:LS; [|injection E2 as <-; reflexivity]. bi E2. rewrite (ts_get_ok _ _ None L K) in E. injection E as <-. change (nth (ts - 1) (um_voice u) None) with (voice u ts) in E2.
    destruct (voice u ts) as [t0|] eqn:VT; [|injection E2 as <-; reflexivity]. rewrite (AG ts t0 (or_introl eq_refl) LS VT) in E2. cbn [bind] in E2. injection E2 as <-. cbn [andb]. reflexivity. }
  set (u1 := match x1 with [] => u | _ :: _ => set_voice ts None u end) in *.
  assert (T1 : turns (fun k y => if overdue u ts then if ts =? k then None else y else y) u u1 /\ um_sch u1 = um_sch u).
  { unfold u1. rewrite X. destruct (overdue u ts); [split; [apply turns_set|exact (proj1 (voice_same ts None u))]|split; [now apply turns_same|reflexivity]]. }
  destruct T1 as ((TM & TV) & SU). destruct (TV L) as (L1 & V1).
  assert (SAME : forall k, In k tss -> overdue u1 k = overdue u k).
  { intros k J. unfold overdue. rewrite (V1 k (R k (or_intror J))). destruct (overdue u ts); [|reflexivity]. destruct (ts =? k) eqn:Q; [|reflexivity]. apply Nat.eqb_eq in Q. subst k. contradiction. }
  destruct (IH (fun k J => R k (or_intror J)) u1 w o2) as (A & B & C & D); [now rewrite SU|exact L1| |exact E3|].
  { intros k t J LS VK. rewrite TM. apply AG; [now right|exact LS|]. rewrite (V1 k (R k (or_intror J))) in VK. destruct (overdue u ts); [|exact VK]. destruct (ts =? k); [discriminate VK|exact VK]. }
  assert (FI : filter (overdue u1) tss = filter (overdue u) tss) by (apply filter_ext_in; exact SAME). rewrite FI, TM in A. rewrite FI in D. rewrite TM in B.
  split; [|split; [exact B|split; [exact C|]]].
  - rewrite X, A. cbn [filter]. destruct (overdue u ts); reflexivity.
  - intros k KK. rewrite D, V1 by exact KK. cbn [filter]. destruct (overdue u ts); cbn [existsb]; [|reflexivity]. rewrite (Nat.eqb_sym ts k). destruct (k =? ts); cbn [orb]; [|reflexivity]. now destruct (existsb _ _).
Qed.
End Check.

Definition ago (t : tdma_time) (n : N) : tdma_time := add_timeslots t (- Z.of_N n).
Definition slots4 : list nat := [1; 2; 3; 4].
Lemma in_slots4 k : In k slots4 -> 1 <= k <= 4.
Proof. intros [<-|[<-|[<-|[<-|[]]]]]; lia. Qed.
Lemma slots4_in k : 1 <= k <= 4 -> In k slots4.
Proof. intros K. unfold slots4. cbn [In]. lia. Qed.
Lemma existsb_filter (f : nat -> bool) k l : existsb (Nat.eqb k) (filter f l) = existsb (Nat.eqb k) l && f k.
Proof.
  induction l as [|a l IH]; [reflexivity|]. cbn [filter existsb]. destruct (k =? a) eqn:Q.
  - apply Nat.eqb_eq in Q. subst a. cbn [orb andb]. destruct (f k) eqn:F; [cbn [existsb]; now rewrite Nat.eqb_refl|]. rewrite IH; try rewrite F; apply andb_false_r.
  - cbn [orb]. destruct (f a); cbn [existsb]; [rewrite Q; cbn [orb]|]; exact IH.
Qed.
Lemma ago_next t n : ago (add_timeslots t 1) (N.succ n) = ago t n.
Proof. unfold ago. rewrite add_add. f_equal. lia. Qed.
Lemma age_ago t n : vtime t -> (n <= 217)%N -> age (ago t n) t = Ok (Z.of_N n).
Proof.
  intros V H. assert (E : t = add_timeslots (ago t n) (Z.of_N n)) by (unfold ago; rewrite add_add; replace (- Z.of_N n + Z.of_N n)%Z with 0%Z by lia; now rewrite add_0).
  rewrite E at 2. apply age_valid; [apply add_valid|]. change (TIME_INT_WRAP / 2)%Z with 141557760%Z. lia.
Qed.
Definition remembers (v : nat -> ts_view) (q : nat -> option N) (u : umac) : Prop :=
  length (um_voice u) = 4 /\ vtime (um_time u) /\ um_time u = ds_cur (um_sch u) /\
  forall k, 1 <= k <= 4 -> voice u k = option_map (ago (um_time u)) (q k) /\ (listening v k = true -> match q k with Some n => (n <= patience)%N | None => True end).
Lemma tick_says c cn t v q u u' o m : vtime t -> minv c v u -> length (um_voice u) = 4 ->
  (forall k, 1 <= k <= 4 -> voice u k = option_map (fun n => ago t (N.succ n)) (q k) /\ (listening v k = true -> match q k with Some n => (n <= patience)%N | None => True end)) ->
  um_step c (UeTick cn t) u = Ok (u', o, m) ->
  (exists s, o = map (OutInactive t) (filter (fun k => due v k (q k)) slots4) ++ [OutSlot s]) /\ remembers v (fun k => if due v k (q k) then None else option_map N.succ (q k)) u'.
Proof.
  intros V I L H E. pose proof (proj1 (tick_hour c cn t v u u' o m I E)) as CU. cbn [um_step] in E. unfold tick_start in E. pose proof (refresh_shows c cn v u I) as R. destruct (refresh_sws c cn (um_sws u) (um_sch u)) as [sws s]. destruct R as (RW & RS & _).
  bi E. destruct x as [s1 m0]. bi E. destruct x as [u1 o1]. bi E. destruct x as [[k s2] m2].
  assert (F : face s s1).
  { destruct (_ && _); [exact (proj1 (start_face _ _ _ _ E0))|]. bi E0. match type of E0 with Ok (?a, _) = _ => assert (ES : s1 = a) by congruence end. rewrite ES. exact (proj1 (tick_face _ _ _ E3)). }
  set (w := mk_umac t sws (um_defrag u) s1 (um_voice u)) in *.
  assert (ND : NoDup slots4) by (repeat constructor; cbn; lia).
  assert (VW : forall j, voice w j = voice u j) by reflexivity.
  assert (OV : forall j, In j slots4 -> overdue v (fun j => match q j with Some n => Z.of_N (N.succ n) | None => 0%Z end) w j = due v j (q j)).
  { intros j J. unfold overdue, due. rewrite VW. destruct (H j (in_slots4 j J)) as (-> & _). destruct (q j) as [n|]; cbn [option_map]; [|reflexivity]. f_equal. unfold UL_INACTIVITY_TIMESLOTS, patience.
    destruct (216 <? n + 1)%N eqn:X; [apply Z.ltb_lt|apply Z.ltb_ge]; lia. }
  destruct (silence_out c cn v (fun j => match q j with Some n => Z.of_N (N.succ n) | None => 0%Z end) slots4 ND in_slots4 w u1 o1 (face_shows _ _ _ _ _ F RS) L) as (A & B & C & D).
  - intros j t0 J LS VJ. rewrite VW in VJ. destruct (H j (in_slots4 j J)) as (VQ & BD). rewrite VQ in VJ. destruct (q j) as [n|]; [|discriminate VJ]. cbn [option_map] in VJ. injection VJ as <-. specialize (BD LS). unfold patience in BD. apply age_ago; [exact V|lia].
  - exact E1.
  - assert (FI : filter (overdue v (fun j => match q j with Some n => Z.of_N (N.succ n) | None => 0%Z end) w) slots4 = filter (fun j => due v j (q j)) slots4) by (apply filter_ext_in; exact OV).
    rewrite FI in A, D. injection E as <- <- _. cbn [um_time w] in A, B. split; [exists k; now rewrite A|]. cbn [um_sch set_sch] in CU. unfold remembers. cbn [um_time um_voice um_sch set_sch]. rewrite B.
    split; [exact C|]. split; [exact V|]. split; [now symmetry|]. intros j J. change (voice (set_sch s2 u1) j) with (voice u1 j). rewrite D by exact J. rewrite existsb_filter.
    replace (existsb (Nat.eqb j) slots4) with true by (symmetry; apply existsb_exists; exists j; split; [now apply slots4_in|apply Nat.eqb_refl]). cbn [andb]. rewrite VW. destruct (H j J) as (VQ & BD).
    destruct (due v j (q j)) eqn:DU; [split; [reflexivity|auto]|]. rewrite VQ. split; [destruct (q j); reflexivity|]. intros LS. unfold due in DU. rewrite LS in DU. cbn [andb] in DU. destruct (q j) as [n|]; cbn [option_map]; [|exact Logic.I]. apply N.ltb_ge in DU. lia.
Qed.
Lemma sign_map {A B} (f : A -> B) now k v e x : option_map f (sign now k v e x) = sign (f now) k v e (option_map f x).
Proof.
  destruct e as [cn t|i pdu|r|ts data|t ts data|cc]; cbn [sign]; try reflexivity.
  - destruct (ts =? k); [destruct (vw_ul (v k))|]; reflexivity.
  - destruct (ts =? k); reflexivity.
  - destruct cc; cbn [sign]; try reflexivity; try (destruct (upwards d)); try (destruct (ts =? k)); try (destruct (vw_ul (v k))); reflexivity.
Qed.
Lemma step_says c e v q u u' o m : cell_ok c = true -> ev_fine e -> marked e = true -> not_down_only e = true -> sound u -> minv c v u -> remembers v q u -> um_step c e u = Ok (u', o, m) ->
  remembers (told v e) (fun k => snd (count k (v, q k) e)) u' /\
  match e with UeTick _ t => exists s, o = map (OutInactive t) (filter (fun k => due v k (q k)) slots4) ++ [OutSlot s] | _ => True end.
Proof.
  intros CO F MK ND S I (L & V & T & H) E.
  assert (K : calm e -> remembers (told v e) (fun k => snd (count k (v, q k) e)) u').
  { intros CA. destruct (calm_turns c e v u u' o m F CA S I E) as (T1 & R). destruct (R L) as (L1 & VK). unfold remembers. split; [exact L1|]. rewrite T1. split; [exact V|]. split; [rewrite (step_hour c e u u' o m F CA S E); exact T|].
    intros k KK. destruct (H k KK) as (VQ & BD).
    assert (SC : snd (count k (v, q k) e) = sign 0%N k v e (q k)) by (destruct e; [contradiction CA|..]; reflexivity). rewrite SC. split.
    - rewrite VK, VQ by exact KK. rewrite sign_map. f_equal. unfold ago. change (- Z.of_N 0)%Z with 0%Z. now rewrite add_0.
    - intros LS. destruct e as [cn t|i pdu|r|ts data|t ts data|cc]; cbn [sign told] in *; try exact (BD LS); try contradiction CA.
      + destruct (ts =? k); [|exact (BD LS)]. destruct (vw_ul (v k)); [lia|exact (BD LS)].
      + destruct (ts =? k); [lia|exact (BD LS)].
      + destruct cc; cbn [sign told] in *; try exact (BD LS); unfold listening, at_ts in LS; rewrite (Nat.eqb_sym k) in LS.
        * destruct d; cbn [upwards]; try discriminate ND.
          -- destruct (ts =? k); exact (BD LS).
          -- destruct (ts =? k); [lia|exact (BD LS)].
          -- destruct (ts =? k); [lia|exact (BD LS)].
        * destruct d; cbn [upwards]; try discriminate ND.
          -- destruct (ts =? k); exact (BD LS).
          -- destruct (ts =? k); [discriminate LS|exact (BD LS)].
          -- destruct (ts =? k); [discriminate LS|exact (BD LS)].
        * destruct (ts =? k); [lia|exact (BD LS)].
        * destruct (ts =? k); [exact Logic.I|exact (BD LS)].
        * destruct (ts =? k); [exact Logic.I|exact (BD LS)]. }
  destruct e as [cn t|i pdu|r|ts data|t ts data|cc]; try (split; [exact (K Logic.I)|exact Logic.I]).
  pose proof (proj2 (tick_hour c cn t v u u' o m I E) S) as TN. rewrite <- T in TN.
  destruct (tick_says c cn t v q u u' o m) as (A & B); [rewrite TN; apply add_valid|exact I|exact L| |exact E|].
  - intros k KK. destruct (H k KK) as (VQ & BD). split; [|exact BD]. rewrite VQ. destruct (q k) as [n|]; [|reflexivity]. cbn [option_map]. now rewrite TN, ago_next.
  - split; [exact B|exact A].
Qed.

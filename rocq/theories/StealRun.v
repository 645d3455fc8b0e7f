(** Stolen half slots in the downlink scheduler: first in, first out, over every history. *)
From Coq Require Import Arith.
From Verif Require Import Base BitsLib BitBuffer BitBufferProofs BitBufferOps Codec CodecProofs TypedFields MacFields MacPdus Layout LayoutProofs
  MacSpec MacPdusProofs FillBits BsFrag FragSpec FillProofs FragProofs TxReceipt TdmaTime TdmaTimeProofs UmacCircuits UmacCircuitsProofs UlSched LlcBits
  DlSched DlSchedSpec DlChunk DlBuild DlNotes DlSlot DlFinal DlHistory DlRun UmacBs StealSpec.
Open Scope nat_scope.

Definition fat (q : list dl_elem) : Prop := Forall (fun x => wf (fst x)) (steals q).
Definition wins (q : list dl_elem) : list (list bool) := map (fun x => window (fst x)) (steals q).
Lemma steals_app a b : steals (a ++ b) = steals a ++ steals b.
Proof. apply flat_map_app. Qed.
Lemma steals_filter q : steals (filter is_steal q) = steals q.
Proof. induction q as [|e q IH]; [reflexivity|]. destruct e; cbn [filter is_steal]; try exact IH. cbn [steals flat_map app]. unfold steals in IH. now rewrite IH. Qed.
Lemma steals_notes q : steals (filter (fun e => negb (is_note e)) q) = steals q.
Proof. induction q as [|e q IH]; [reflexivity|]. destruct e; cbn [filter is_note negb]; try exact IH; cbn [steals flat_map app]; unfold steals in IH; now rewrite IH. Qed.
Lemma drop_steals q : forall k r m, drop_loop q = Ok (k, r, m) -> steals k = steals q.
Proof.
  induction q as [|e q IH]; intros k r m E; cbn [drop_loop] in E.
  - injection E as <- <- <-. reflexivity.
  - destruct e; try (exact (IH _ _ _ E)).
    + bi E. destruct x as [[k0 r0] m0]. injection E as <- <- <-. exact (IH _ _ _ E0).
    + bi E. bi E. destruct x0 as [[k0 r0] m0]. injection E as <- <- <-. exact (IH _ _ _ E1).
    + bi E. bi E. destruct x0 as [[k0 r0] m0]. injection E as <- <- <-. exact (IH _ _ _ E1).
    + bi E. destruct x as [[k0 r0] m0]. injection E as <- <- <-. cbn [steals flat_map]. f_equal. exact (IH _ _ _ E0).
Qed.
Lemma split_steals ssi q : match split_resource ssi q with Some (l, (p, sdu, rep), r) => steals q = steals l ++ steals r | None => True end.
Proof.
  induction q as [|e q IH]; [exact Logic.I|]. cbn [split_resource].
  assert (NX : match (match split_resource ssi q with Some (l, x, r) => Some (e :: l, x, r) | None => None end) with
    | Some (l, (p, sdu, rep), r) => steals (e :: q) = steals l ++ steals r | None => True end).
  { destruct (split_resource ssi q) as [[[l [[p sdu] rep]] r]|]; [|exact Logic.I]. cbn [steals flat_map]. unfold steals in IH. rewrite IH. apply app_assoc. }
  destruct e; try exact NX. destruct (mr_addr p) as [a|]; [|exact NX]. destruct (ad_ssi a =? ssi)%N; [|exact NX]. reflexivity.
Qed.
Lemma integrate_steals notes : forall q q', integrate_all q notes = Ok q' -> steals q' = steals q.
Proof.
  induction notes as [|e t IH]; intros q q' E; cbn [integrate_all] in E; [injection E as <-; reflexivity|]. bi E.
  rewrite (IH _ _ E). clear IH E. unfold integrate_one in E0. bi E0. pose proof (split_steals (ad_ssi x0) q) as S.
  destruct (split_resource (ad_ssi x0) q) as [[[l [[p sdu] rep]] r]|].
  - injection E0 as <-. rewrite S, steals_app. reflexivity.
  - bi E0. injection E0 as <-. rewrite steals_app. cbn [steals flat_map app]. apply app_nil_r.
Qed.
Lemma take_steals f q x q' : (forall e, f e = true -> is_steal e = false) -> take_first f q = Some (x, q') -> steals q' = steals q /\ is_steal x = false.
Proof.
  intros H E. pose proof (take_first_filter f q) as T. rewrite E in T. destruct T as (_ & T & _ & _ & X). split; [|auto].
  rewrite <- (steals_filter q'), <- (steals_filter q). f_equal. now apply T.
Qed.
Lemma item_steals f18 q x q' : dl_take_item f18 q = Some (x, q') -> steals q' = steals q /\ is_steal x = false.
Proof.
  unfold dl_take_item. destruct f18; [discriminate|]. destruct (take_first is_grant q) as [[]|] eqn:E1; [intros E; injection E as -> ->; apply (take_steals is_grant); [intros []; cbn; congruence|assumption]|].
  destruct (take_first is_frag q) as [[]|] eqn:E2; [intros E; injection E as -> ->; apply (take_steals is_frag); [intros []; cbn; congruence|assumption]|].
  intros E. apply (take_steals is_resource); [intros []; cbn; congruence|assumption].
Qed.
Lemma put_steals f buf nx b nx' m : put_chunk f buf nx = Ok (b, nx', m) -> steals nx' = steals nx.
Proof.
  unfold put_chunk. intros E. bi E. destruct x as [[dn f'] b']. cbn [fst snd] in E. destruct dn; injection E as <- <- <-; [reflexivity|]. rewrite steals_app. cbn. apply app_nil_r.
Qed.
Lemma build_steals f18 fuel : forall q nx buf o q' nx' m, build_loop fuel f18 q nx buf = Ok (o, q', nx', m) -> steals q' = steals q /\ steals nx' = steals nx.
Proof.
  induction fuel as [|n IH]; intros q nx buf o q' nx' m E.
  { destruct q; cbn [build_loop] in E; [|discriminate]. injection E as <- <- <- <-. auto. }
  destruct q as [|e0 q0]; [cbn [build_loop] in E; injection E as <- <- <- <-; auto|].
  set (q := e0 :: q0) in *. change (build_loop (S n) f18 q nx buf) with
    (match dl_take_item f18 q with
      | None => Ok (buf, q, nx, [])
      | Some (e, q) =>
          match e with
          | DlBroadcast => build_loop n f18 q nx buf
          | DlResource p sdu rep =>
              f <- fg_new p sdu rep ;; ' (b, next, m0) <- put_chunk f buf nx ;;
              ' (o, q, next, m) <- build_loop n f18 q next (Some b) ;; Ok (o, q, next, m0 ++ m)
          | DlFrag f =>
              ' (b, next, m0) <- put_chunk f buf nx ;;
              ' (o, q, next, m) <- build_loop n f18 q next (Some b) ;; Ok (o, q, next, m0 ++ m)
          | DlSteal _ rep =>
              m0 <- mark_opt tx_mark_discarded rep ;;
              ' (o, q, next, m) <- build_loop n f18 q nx buf ;; Ok (o, q, next, m0 ++ m)
          | DlGrant _ _ | DlAck _ => Panic
          end
      end) in E.
  destruct (dl_take_item f18 q) as [[e q1]|] eqn:T; [|injection E as <- <- <- <-; auto].
  destruct (item_steals _ _ _ _ T) as (S1 & S2). rewrite <- S1. destruct e; try discriminate.
  - exact (IH _ _ _ _ _ _ _ E).
  - bi E. bi E. destruct x0 as [[b nx1] m0]. cbn [fst snd] in E. bi E. destruct x0 as [[[o1 q2] nx2] m1]. injection E as <- <- <- <-.
    destruct (IH _ _ _ _ _ _ _ E2) as (A & B). rewrite B. split; [assumption|]. exact (put_steals _ _ _ _ _ _ E1).
  - bi E. destruct x as [[b nx1] m0]. cbn [fst snd] in E. bi E. destruct x as [[[o1 q2] nx2] m1]. injection E as <- <- <- <-.
    destruct (IH _ _ _ _ _ _ _ E1) as (A & B). rewrite B. split; [assumption|]. exact (put_steals _ _ _ _ _ _ E0).
Qed.

(** The invariant: what waits on timeslot [k] *)
Definition W (k : nat) (s : dls) (q : list dl_elem) : Prop := four s /\ ds_next s = [] /\ get_q k s = Ok q.
Lemma W_same k s s1 q : same_q s s1 -> W k s q -> W k s1 q.
Proof. intros (A & B) (F & N0 & E). unfold W, four, get_q in *. rewrite A, B. tauto. Qed.
Lemma W_keeps k s s1 q : keeps k s s1 -> W k s q -> W k s1 q.
Proof. intros (A & B & C & _) (F & N0 & E). unfold W. rewrite A. tauto. Qed.
Lemma W_push k ts e s s1 q : W k s q -> 1 <= k <= 4 -> push_q ts e s = Ok s1 -> W k s1 (if ts =? k then q ++ [e] else q).
Proof.
  intros (F & N0 & E) K H. unfold push_q in H. bi H. injection H as <-. pose proof (get_range _ _ _ F E0) as R. unfold W.
  destruct (Nat.eqb_spec ts k) as [->|T].
  - rewrite get_put by assumption. rewrite E in E0. injection E0 as <-. split; [now apply four_put|]. auto.
  - rewrite get_put_other by auto. split; [now apply four_put|]. auto.
Qed.
(** Signalling *)
Lemma signalling_steals k f18 s q o s1 m : W k s q -> 1 <= k <= 4 -> (s0 <- dl_integrate k s ;; dl_build_signalling k f18 s0) = Ok (o, s1, m) ->
  exists q1, W k s1 q1 /\ steals q1 = steals q.
Proof.
  intros (F & N0 & E) K H. bi H. unfold dl_integrate in E0. rewrite E in E0. cbn [bind] in E0. bi E0. injection E0 as <-.
  pose proof (integrate_steals _ _ _ E1) as S1. rewrite steals_notes in S1.
  unfold dl_build_signalling in H. rewrite get_put in H by assumption. cbn [bind] in H. change (ds_next (put_q k x0 s)) with (ds_next s) in H. rewrite N0 in H. bi H.
  destruct x as [[[o' q'] nx] m']. cbn [fst snd] in H. destruct (build_steals _ _ _ _ _ _ _ _ _ E0) as (S2 & S3).
  assert (F2 : four (put_q k x0 s)) by now apply four_put.
  destruct nx as [|e nx].
  - injection H as <- <- <-. exists q'. split; [|congruence]. split; [apply (four_put k (put_q k x0 s) q' F2)|]. split; [reflexivity|].
    change (get_q k (set_next [] (put_q k q' (put_q k x0 s)))) with (get_q k (put_q k q' (put_q k x0 s))). apply get_put; assumption.
  - destruct q' as [|? ?]; [|discriminate]. cbn [assert bind] in H. injection H as <- <- <-. exists (e :: nx). split; [|rewrite S3, <- S1; exact S2].
    split; [apply (four_put k (put_q k x0 s) _ F2)|]. split; [reflexivity|].
    change (get_q k (set_next [] (put_q k (e :: nx) (put_q k x0 s)))) with (get_q k (put_q k (e :: nx) (put_q k x0 s))). apply get_put; assumption.
Qed.

Lemma finalize_inv2 s slot s' m : finalize_ts s = Ok (slot, s', m) ->
  let ts := add_timeslots (ds_cur s) 1 in let t := Z.to_nat (tm_t ts) in let s0 := set_pre (stamp ts (ds_pre s)) s in
  exists dla hang o1 o2 s1 u, circuit_is_active DirDl t s = Ok dla /\
    (if (2 <=? t) && (t <=? 4) then is_hangtime_effective t s else Ok false) = Ok hang /\
    slot_content ts (dla && negb (tm_f ts =? 18)%Z) hang s0 = Ok (o1, o2, s1, m) /\ s' = set_ul u s1 /\ sl_ts slot = ts /\
    (exists b1 k1, (o1 = Some b1 \/ (o1 = None /\ generate_default ts s1 = Ok b1)) /\ try_add_null b1 = Ok k1 /\ rewind k1 = Ok (sl_blk1 slot)) /\
    (forall b, o2 = Some b -> exists k2 r2, try_add_null b = Ok k2 /\ rewind k2 = Ok r2 /\ sl_blk2 slot = Some r2).
Proof.
  intros E. cbv zeta. unfold finalize_ts in E. cbv zeta in E.
  bi E. bi E. bi E. bi E. destruct x2 as [[[o1 o2] s1] m1]. cbn [fst snd] in E.
  bi E. bi E. bi E. bi E. bi E. bi E. bi E. bi E. bi E. bi E. injection E as E Es Em. rewrite Em in *.
  exists x, x1, o1, o2, s1, x11. split; [exact E0|]. split; [exact E2|]. split; [exact E3|]. split; [congruence|].
  rewrite <- E. cbn [sl_blk1 sl_ts sl_blk2]. split; [reflexivity|]. split.
  - exists x4, x6. split; [|split; congruence]. destruct o1; [left; congruence|right; auto].
  - intros b ->. assert (x5 = Some b) as -> by (destruct (bk_chan x4); congruence). bi E9. injection E9 as <-. bi E12. injection E12 as <-. eauto.
Qed.

(** What the slot sent on a timeslot does to the stolen half slots waiting for it *)
Lemma no_steal_default ts s b : generate_default ts s = Ok b -> bk_chan b <> CStch.
Proof.
  unfold generate_default. intros E.
  destruct ((1 <=? tm_f ts)%Z && (tm_f ts <=? 17)%Z && (tm_t ts =? 1)%Z).
  - destruct (tm_f ts mod 2 =? 0)%Z; bi E; injection E as <-; discriminate.
  - match type of E with (if ?c then _ else _) = _ => destruct c end; [|discriminate]. bi E. bi E. injection E as <-. discriminate.
Qed.
Lemma keep_window b k1 k2 : bk_chan b = CStch \/ bk_chan b = CTchS -> wf (bk_buf b) -> try_add_null b = Ok k1 -> rewind k1 = Ok k2 -> window (bk_buf k2) = window (bk_buf b).
Proof.
  intros C Wf A B. assert (k1 = b) as -> by (unfold try_add_null in A; destruct C as [C|C]; rewrite C in A; congruence).
  unfold rewind in B. destruct (seek0 _ Wf) as (b' & E & _ & V & _). rewrite E in B. injection B as <-. exact V.
Qed.
Definition sends_steal (slot : dl_slot) (m : list tx_reporter) (q q1 : list dl_elem) : Prop :=
  bk_chan (sl_blk1 slot) = CStch /\ exists b rep, steals q = (b, rep) :: steals q1 /\ window (bk_buf (sl_blk1 slot)) = window b /\
    (exists b2, sl_blk2 slot = Some b2 /\ bk_chan b2 = CTchS) /\ mark_opt tx_mark_transmitted rep = Ok m.
Lemma tick_steals s slot s' m k q : finalize_ts s = Ok (slot, s', m) -> W k s q -> 1 <= k <= 4 -> fat q -> for_ts k (sl_ts slot) = true ->
  exists q1, W k s' q1 /\ fat q1 /\
    (sends_steal slot m q q1 \/ (bk_chan (sl_blk1 slot) <> CStch /\ steals q1 = steals q)) /\
    (tm_f (sl_ts slot) <> 18%Z -> circuit_is_active DirDl k s = Ok true -> steals q <> [] -> bk_chan (sl_blk1 slot) = CStch).
Proof.
  intros E HW K FT HT. destruct (finalize_inv2 _ _ _ _ E) as (dla & hang & o1 & o2 & s1 & u & EA & EH & EC & -> & ETS & (b1 & k1 & EB & EN & ER) & B2). cbv zeta in *.
  rewrite ETS in *. set (ts := add_timeslots (ds_cur s) 1) in *. pose proof (add_valid (ds_cur s) 1) as V. fold ts in V.
  assert (TK : Z.to_nat (tm_t ts) = k) by (unfold for_ts in HT; unfold vtime in V; lia). rewrite TK in *.
  assert (HG : W k (set_pre (stamp ts (ds_pre s)) s) q) by (apply (W_same k s); [split; reflexivity|assumption]).
  assert (UL : forall q1, W k s1 q1 -> W k (set_ul u s1) q1) by (intros q1 H; apply (W_same k s1); [split; reflexivity|assumption]).
  unfold slot_content in EC. rewrite TK in EC. destruct (dla && negb (tm_f ts =? 18)%Z && negb hang) eqn:TR.
  - bi EC. destruct x as [[[tch stch] s2] m2]. cbn [fst snd] in EC. unfold dl_build_traffic in E0. bi E0. destruct x as [v c]. cbn [fst snd] in E0.
    bi E0. bi E0. destruct HG as (F4 & NX & GQ). change (get_q k (set_circ c (set_pre (stamp ts (ds_pre s)) s)) = Ok x0) in E3. change (get_q k (set_circ c (set_pre (stamp ts (ds_pre s)) s))) with (get_q k (set_pre (stamp ts (ds_pre s)) s)) in E3.
    rewrite GQ in E3. injection E3 as <-. pose proof (take_first_filter is_steal q) as TF. destruct (take_first is_steal q) as [[e q']|] eqn:ET.
    + destruct TF as (T1 & _ & _ & _ & T5). destruct e; try discriminate. bi E0. injection E0 as <- <- <- <-. injection EC as <- <- <- <-.
      assert (SQ : steals q = (b, rep) :: steals q') by (rewrite <- (steals_filter q), T1; cbn [steals flat_map app]; rewrite <- (steals_filter q'); reflexivity).
      destruct EB as [EB|(EB & _)]; [|discriminate]. injection EB as <-. pose proof (chan_kept _ _ _ EN ER) as CK. cbn [bk_chan] in CK.
      pose proof FT as FT'. unfold fat in FT'. rewrite SQ in FT'. pose proof (Forall_inv FT') as W1. pose proof (Forall_inv_tail FT') as W2. cbn [fst] in W1.
      exists q'. split; [|split; [exact W2|split]].
      * apply UL. split; [apply four_put; exact F4|]. split; [exact NX|]. apply get_put; [exact F4|assumption].
      * left. split; [assumption|]. exists b, rep. split; [assumption|]. split; [exact (keep_window (mk_blk CStch b (ds_scr s)) _ _ (or_introl eq_refl) W1 EN ER)|]. split; [|assumption].
        destruct (B2 _ eq_refl) as (k2 & r2 & X1 & X2 & X3). exists r2. split; [assumption|]. exact (chan_kept _ _ _ X1 X2).
      * intros _ _ _. assumption.
    + injection E0 as <- <- <- <-. injection EC as <- <- <- <-. destruct EB as [EB|(EB & _)]; [|discriminate]. injection EB as <-. pose proof (chan_kept _ _ _ EN ER) as CK. cbn [bk_chan] in CK.
      assert (SN : steals q = []) by (rewrite <- steals_filter, TF; reflexivity).
      exists q. split; [apply UL; split; [exact F4|split; [exact NX|exact GQ]]|]. split; [assumption|]. split; [right; split; [congruence|reflexivity]|]. intros _ _ H. contradiction.
  - assert (EC' : exists o m', (s0 <- dl_integrate k (set_pre (stamp ts (ds_pre s)) s) ;; dl_build_signalling k (tm_f ts =? 18)%Z s0) = Ok (o, s1, m') /\
        (forall b, o1 = Some b -> bk_chan b <> CStch)).
    { bi EC. bi EC. destruct x0 as [[o s2] m2]. cbn [fst snd] in EC. exists o, m2. rewrite E0. cbn [bind]. rewrite E1. destruct o as [bo|].
      - injection EC as <- <- <- <-. split; [reflexivity|]. intros b H. injection H as <-. discriminate.
      - destruct (hang && (dla && negb (tm_f ts =? 18)%Z)).
        + bi EC. injection EC as <- <- <- <-. split; [reflexivity|]. intros b0 H. injection H as <-. discriminate.
        + injection EC as <- <- <- <-. split; [reflexivity|]. intros b0 H. discriminate. }
    destruct EC' as (o & m' & EI & NC). destruct (signalling_steals k _ _ q _ _ _ HG K EI) as (q1 & HW1 & SQ).
    assert (CK : bk_chan (sl_blk1 slot) <> CStch).
    { rewrite (chan_kept _ _ _ EN ER). destruct EB as [EB|(_ & EB)]; [exact (NC _ EB)|]. exact (no_steal_default _ _ _ EB). }
    exists q1. split; [now apply UL|]. split; [unfold fat; rewrite SQ; assumption|]. split; [right; auto|].
    intros N18 AC NE. exfalso. rewrite AC in EA. injection EA as <-. destruct (Z.eqb_spec (tm_f ts) 18); [contradiction|]. cbn [negb andb] in TR.
    destruct hang; [|discriminate]. destruct ((2 <=? k) && (k <=? 4)); [|discriminate]. unfold is_hangtime_effective in EH. bi EH. destruct x; [|discriminate]. bi EH. injection EH as EH.
    unfold has_pending_stealing in E1. destruct HW as (F4 & NX & GQ). unfold get_q, ts_get in GQ. destruct k as [|i]; [discriminate|].
    destruct (nth_error (ds_q s) i) as [q0|]; [|discriminate]. injection GQ as ->. injection E1 as <-. apply negb_true_iff in EH.
    apply NE. rewrite <- steals_filter. clear - EH. induction q as [|e q IH]; [reflexivity|]. cbn [existsb filter] in *. apply orb_false_iff in EH. destruct EH as (-> & EH). exact (IH EH).
Qed.

Definition steal_inv (k : nat) (s : dls) (done asked : list (list bool)) : Prop := exists q, W k s q /\ fat q /\ done ++ wins q = asked.
Lemma tick_steal_inv k s slot s' m ev d a : match ev with DvStart _ | DvTick => True | _ => False end -> finalize_ts s = Ok (slot, s', m) -> 1 <= k <= 4 -> steal_inv k s d a ->
  steal_inv k s' (d ++ stolen_slot k (ev, Some slot, m)) (a ++ steal_wish k (ev, Some slot, m)).
Proof.
  intros TE E K (q & HW & FT & EQ). assert (WZ : steal_wish k (ev, Some slot, m) = []) by (unfold steal_wish; cbn [fst]; destruct ev; try contradiction; reflexivity).
  rewrite WZ, app_nil_r. unfold stolen_slot. cbn [fst snd]. destruct (for_ts k (sl_ts slot)) eqn:HT.
  - destruct (tick_steals _ _ _ _ _ _ E HW K FT HT) as (q1 & HW1 & FT1 & [(C & b & rep & SQ & WB & _)|(C & SQ)] & _).
    + rewrite C, WB. exists q1. split; [assumption|]. split; [assumption|]. rewrite <- EQ. unfold wins. rewrite SQ. cbn [map fst]. rewrite <- app_assoc. reflexivity.
    + exists q1. split; [assumption|]. split; [assumption|]. unfold wins in *. rewrite SQ. destruct (bk_chan (sl_blk1 slot)); try (rewrite app_nil_r; assumption). contradiction.
  - destruct HW as (F & NX & EG). destruct (tick_other _ _ _ _ k E F NX K HT) as (KP & _). rewrite app_nil_r. exists q. split; [|auto]. apply (W_keeps k s); [assumption|]. split; auto.
Qed.
(** only the half slots for timeslot [k] matter *)
Definition fair_at (k : nat) (e : dl_event) : Prop := match e with DvStart _ => False | DvSteal ts b _ => ts = k -> wf b | _ => True end.
Lemma step_steal_inv k e s o m s' d a : fair_at k e -> dl_step e s = Ok (o, m, s') -> 1 <= k <= 4 -> steal_inv k s d a ->
  steal_inv k s' (d ++ stolen_slot k (e, o, m)) (a ++ steal_wish k (e, o, m)).
Proof.
  intros FE E K HI.
  assert (PUSH : forall ts el, match e with DvSteal _ _ _ => False | _ => True end -> is_steal el = false -> (s1 <- push_q ts el s ;; Ok (@None dl_slot, @nil tx_reporter, s1)) = Ok (o, m, s') ->
    steal_inv k s' (d ++ stolen_slot k (e, o, m)) (a ++ steal_wish k (e, o, m))).
  { intros ts el NS EL H. bi H. injection H as <- <- <-. destruct HI as (q & HW & FT & EQ). unfold stolen_slot, steal_wish. cbn [fst snd].
    replace (match e with DvSteal ts b _ => if ts =? k then [window b] else [] | _ => [] end) with (@nil (list bool)) by (destruct e; try reflexivity; contradiction).
    rewrite !app_nil_r. pose proof (W_push _ _ _ _ _ _ HW K E0) as W1. eexists. split; [exact W1|].
    assert (SS : steals (if ts =? k then q ++ [el] else q) = steals q) by (destruct (ts =? k); [|reflexivity]; rewrite steals_app; destruct el; try discriminate; apply app_nil_r).
    unfold fat, wins. rewrite SS. auto. }
  assert (SAME : forall s1, match e with DvSteal _ _ _ => False | _ => True end -> o = None -> same_q s s1 -> s' = s1 ->
    steal_inv k s' (d ++ stolen_slot k (e, o, m)) (a ++ steal_wish k (e, o, m))).
  { intros s1 NS -> SQ ->. destruct HI as (q & HW & FT & EQ). unfold stolen_slot, steal_wish. cbn [fst snd].
    replace (match e with DvSteal ts b _ => if ts =? k then [window b] else [] | _ => [] end) with (@nil (list bool)) by (destruct e; try reflexivity; contradiction).
    rewrite !app_nil_r. exists q. split; [now apply (W_same k s)|auto]. }
  destruct e as [t| |ts p sdu rep|ts ad g|ts ad|ts b rep|ts ssi|ts blk|ts act|dr ts us|dr ts|ts ssi req|on]; cbn [dl_step fair_at] in *; try contradiction.
  - bi E. bi E. destruct x0 as [[kk s2] m2]. injection E as <- <- <-. apply (tick_steal_inv k x kk s2 m2 DvTick); [exact Logic.I|assumption|assumption|].
    destruct HI as (q & HW & FT & EQ). exists q. split; [|auto]. unfold dl_tick_start in E0. bi E0. injection E0 as <-. apply (W_same k s); [split; reflexivity|assumption].
  - exact (PUSH _ (DlResource p sdu rep) Logic.I eq_refl E).
  - exact (PUSH _ (DlGrant ad g) Logic.I eq_refl E).
  - exact (PUSH _ (DlAck ad) Logic.I eq_refl E).
  - clear PUSH SAME. bi E. injection E as <- <- <-. destruct HI as (q & HW & FT & EQ). pose proof (W_push _ _ _ _ _ _ HW K E0) as W1.
    unfold stolen_slot, steal_wish. cbn [fst snd]. rewrite app_nil_r. eexists. split; [exact W1|]. destruct (Nat.eqb_spec ts k) as [TK|TK].
    + unfold fat, wins. rewrite steals_app. cbn [steals flat_map app]. split; [apply Forall_app; split; [exact FT|constructor; [exact (FE TK)|constructor]]|].
      rewrite map_app. cbn [map fst]. rewrite app_assoc. unfold wins in EQ. rewrite EQ. reflexivity.
    + rewrite app_nil_r. auto.
  - bi E. destruct x as [r s2]. injection E as <- <- <-. apply (SAME s2); try reflexivity. unfold take_pending_ra_ack in E0. bi E0. destruct (remove_first ssi x); injection E0 as <- <-; split; reflexivity.
  - bi E. injection E as <- <- <-. apply (SAME x); try reflexivity. unfold dl_schedule_tmd in E0. bi E0. injection E0 as <-. split; reflexivity.
  - bi E. destruct x as [s2 m2]. injection E as <- <- <-. unfold set_hangtime in E0. destruct ((1 <=? ts) && (ts <=? 4)) eqn:RG; [|injection E0 as <- <-; apply (SAME s); try reflexivity; split; reflexivity].
    destruct act; [injection E0 as <- <-; apply (SAME (set_hang (ts_set (ds_hang s) ts true) s)); try reflexivity; split; reflexivity|].
    unfold dl_drop_all_except_stolen in E0. bi E0. bi E0. destruct x0 as [[kq r] m3]. cbn [fst snd] in E0. bi E0. injection E0 as <- <-.
    destruct HI as (q & HW & FT & EQ). unfold stolen_slot, steal_wish. cbn [fst snd]. rewrite !app_nil_r. pose proof HW as (F & NX & GQ).
    change (get_q ts s = Ok x) in E. pose proof (drop_steals _ _ _ _ E1) as DS. pose proof (get_range _ _ _ F E) as R.
    set (sh := set_hang (ts_set (ds_hang s) ts false) s). assert (Fh : four sh) by exact F.
    destruct (Nat.eq_dec ts k) as [->|T].
    + rewrite GQ in E. injection E as <-. exists kq. split; [|unfold fat, wins; rewrite DS; auto].
      split; [apply (four_put k sh kq Fh)|]. split; [exact NX|]. exact (get_put k sh kq Fh K).
    + exists q. split; [|auto]. split; [apply (four_put ts sh kq Fh)|]. split; [exact NX|]. transitivity (get_q k sh); [|exact GQ]. apply (get_put_other k ts sh kq Fh); auto.
  - bi E. injection E as <- <- <-. apply (SAME x); try reflexivity. unfold dl_create_circuit in E0. bi E0. injection E0 as <-. unfold clear_hang. destruct ((1 <=? ts) && (ts <=? 4)); split; reflexivity.
  - bi E. destruct x as [r s2]. injection E as <- <- <-. apply (SAME s2); try reflexivity. unfold dl_close_circuit in E0. bi E0. destruct x as [? ?]. injection E0 as <- <-. unfold clear_hang. destruct ((1 <=? ts) && (ts <=? 4)); split; reflexivity.
  - bi E. destruct x as [r u]. injection E as <- <- <-. apply (SAME (set_ul u s)); try reflexivity. split; reflexivity.
  - injection E as <- <- <-. apply (SAME (set_sws on s)); try reflexivity. split; reflexivity.
Qed.
Lemma run_steal_inv k evs : forall s log s' d a, Forall (fair_at k) evs -> dl_run evs s = Ok (log, s') -> 1 <= k <= 4 -> steal_inv k s d a ->
  steal_inv k s' (d ++ flat_map (stolen_slot k) log) (a ++ flat_map (steal_wish k) log).
Proof.
  induction evs as [|e evs IH]; intros s log s' d a FE E K HI; cbn [dl_run] in E.
  - injection E as <- <-. cbn [flat_map]. now rewrite !app_nil_r.
  - inversion FE as [|? ? F1 F2]; subst. bi E. destruct x as [[o m] s2]. cbn [fst snd] in E. bi E. destruct x as [log2 s3]. injection E as <- <-.
    cbn [flat_map]. rewrite !app_assoc. apply (IH s2 log2 s3); auto. now apply (step_steal_inv k e s).
Qed.
Lemma history_steals_at k t code p evs log s : 1 <= k <= 4 -> Forall (fair_at k) evs -> dl_run (DvStart t :: evs) (dls_new code p) = Ok (log, s) ->
  steal_inv k s (flat_map (stolen_slot k) log) (flat_map (steal_wish k) log).
Proof.
  intros K FE E. cbn [dl_run] in E. bi E. destruct x as [[o m] s2]. cbn [fst snd] in E. bi E. destruct x as [log2 s3]. injection E as <- <-.
  cbn [flat_map]. apply (run_steal_inv k evs s2); auto.
  cbn [dl_step] in E0. bi E0. destruct x as [s0 m0]. cbn [fst snd] in E0. bi E0. destruct x as [[sl s4] m2]. injection E0 as <- <- <-.
  change (steal_inv k s4 ([] ++ stolen_slot k (DvStart t, Some sl, m2)) ([] ++ steal_wish k (DvStart t, Some sl, m2))).
  apply (tick_steal_inv k s0 sl s4 m2 (DvStart t)); [exact Logic.I|assumption|assumption|].
  exists []. split; [|split; [constructor|reflexivity]]. unfold set_dl_time in E. cbn in E. injection E as <- <-. unfold W, four, get_q. cbn [set_ul set_q set_cur ds_q ds_next dls_new].
  split; [reflexivity|]. split; [reflexivity|]. rewrite (ts_get_ok _ _ []) by (reflexivity || assumption). f_equal. destruct k as [|[|[|[|[|]]]]]; try reflexivity; lia.
Qed.
Lemma history_steals k t code p evs log s : 1 <= k <= 4 -> Forall steal_fair evs -> dl_run (DvStart t :: evs) (dls_new code p) = Ok (log, s) ->
  steal_inv k s (flat_map (stolen_slot k) log) (flat_map (steal_wish k) log).
Proof. intros K F. apply history_steals_at; [exact K|]. revert F. apply Forall_impl. intros e H. destruct e; try exact H. intros _. exact H. Qed.

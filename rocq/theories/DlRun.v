(** The downlink scheduler: every history. *)
From Coq Require Import Arith Permutation.
From Verif Require Import Base BitsLib BitBuffer BitBufferProofs BitBufferOps Codec CodecProofs MacFields MacPdus MacBroadcast Layout LayoutProofs
  MacSpec MacPdusProofs FillBits BsFrag FragSpec FillProofs FragProofs TxReceipt TdmaTime TdmaTimeProofs UmacCircuits UmacCircuitsProofs UlSched LlcBits
  DlSched DlSchedSpec DlChunk DlBuild DlNotes DlSlot DlFinal DlHistory.
Open Scope nat_scope.

Lemma get_range ts s q : four s -> get_q ts s = Ok q -> 1 <= ts <= 4.
Proof.
  intros F E. unfold get_q, ts_get in E. destruct ts as [|i]; [discriminate|]. unfold four in F.
  destruct (nth_error (ds_q s) i) eqn:EN; [|discriminate]. assert (nth_error (ds_q s) i <> None) by congruence. apply nth_error_Some in H. lia.
Qed.
(** What happens to the queue of the timeslot in steps that are not ticks. *)
Definition same_q (s s1 : dls) : Prop := ds_q s1 = ds_q s /\ ds_next s1 = ds_next s.
Lemma Q_same k s s1 d q : same_q s s1 -> Q k s d q -> Q k s1 d q.
Proof. intros (A & B) (F & N0 & E & L). unfold Q, four, get_q in *. rewrite A, B. tauto. Qed.
Lemma Q_keeps k s s1 d q : keeps k s s1 -> Q k s d q -> Q k s1 d q.
Proof. intros (A & B & C & _) (F & N0 & E & L). unfold Q. rewrite A. tauto. Qed.

Lemma push_spec k ts e s s1 q d : Q k s d q -> 1 <= k <= 4 -> push_q ts e s = Ok s1 ->
  (ts <> k -> Q k s1 d q) /\
  (ts = k -> legal e -> forall d', Forall2 sim (filter is_resource (q ++ [e])) (dk_fresh d') -> flat_map notes_of (q ++ [e]) = dk_notes d' -> Q k s1 d' (q ++ [e])).
Proof.
  intros (F & N0 & E & L & SM & NT) K H. unfold push_q in H. bi H. injection H as <-. pose proof (get_range _ _ _ F E0) as R. split.
  - intros N1. unfold Q. rewrite get_put_other by auto. split; [now apply four_put|]. tauto.
  - intros -> LE d' S2 N2. rewrite E in E0. injection E0 as <-. unfold Q. rewrite get_put by assumption.
    split; [now apply four_put|]. split; [exact N0|]. split; [reflexivity|]. split; [apply Forall_app; auto|]. auto.
Qed.
Lemma frags_push q e : is_frag e = false -> filter is_frag (q ++ [e]) = filter is_frag q.
Proof. intros H. rewrite filter_app. cbn [filter]. rewrite H. apply app_nil_r. Qed.

Definition quiet (e : dl_event) : Prop := match e with DvTick | DvStart _ => False | _ => True end.
Lemma quiet_step k e s o m s1 d q : quiet e -> fair k e -> 1 <= k <= 4 -> dl_step e s = Ok (o, m, s1) -> Q k s d q ->
  o = None /\ exists q1, Q k s1 (desk_step k d (e, o, m)) q1 /\ filter is_frag q1 = filter is_frag q /\ dk_firm (desk_step k d (e, o, m)) = dk_firm d.
Proof.
  intros QE FE K E HQ. destruct e as [t| |ts p sdu rep|ts a g|ts a|ts b rep|ts ssi|ts blk|ts act|dr ts u|dr ts|ts ssi req|on]; try contradiction; cbn [dl_step fair] in *;
    repeat match type of E with bind _ _ = Ok _ => bi E end.
  - injection E as <- <- <-. split; [reflexivity|]. unfold desk_step. cbn [fst snd].
    destruct (push_spec k ts _ s _ q d HQ K E0) as (P1 & P2). destruct (Nat.eqb_spec ts k) as [T|T].
    + eexists. split; [apply (P2 T); [exact (FE T)| |]|split; [now apply frags_push|reflexivity]]; cbn [dk_fresh dk_notes].
      * destruct HQ as (_ & _ & _ & _ & SM & _). rewrite filter_app. apply Forall2_app; [assumption|]. constructor; [|constructor]. cbn [sim w_hdr w_bits w_rep]. auto.
      * destruct HQ as (_ & _ & _ & _ & _ & NT). rewrite flat_map_app. cbn [flat_map notes_of app]. now rewrite app_nil_r.
    + exists q. auto.
  - injection E as <- <- <-. split; [reflexivity|]. unfold desk_step. cbn [fst snd].
    destruct (push_spec k ts _ s _ q d HQ K E0) as (P1 & P2). destruct (Nat.eqb_spec ts k) as [T|T].
    + eexists. split; [apply (P2 T); [exact (FE T)| |]|split; [now apply frags_push|reflexivity]]; cbn [dk_fresh dk_notes].
      * destruct HQ as (_ & _ & _ & _ & SM & _). rewrite filter_app. cbn [filter is_resource]. now rewrite app_nil_r.
      * destruct HQ as (_ & _ & _ & _ & _ & NT). rewrite flat_map_app, NT. reflexivity.
    + exists q. auto.
  - injection E as <- <- <-. split; [reflexivity|]. unfold desk_step. cbn [fst snd].
    destruct (push_spec k ts _ s _ q d HQ K E0) as (P1 & P2). destruct (Nat.eqb_spec ts k) as [T|T].
    + eexists. split; [apply (P2 T); [exact (FE T)| |]|split; [now apply frags_push|reflexivity]]; cbn [dk_fresh dk_notes].
      * destruct HQ as (_ & _ & _ & _ & SM & _). rewrite filter_app. cbn [filter is_resource]. now rewrite app_nil_r.
      * destruct HQ as (_ & _ & _ & _ & _ & NT). rewrite flat_map_app, NT. reflexivity.
    + exists q. auto.
  - injection E as <- <- <-. split; [reflexivity|]. exists q. destruct (push_spec k ts _ s _ q d HQ K E0) as (P1 & P2). auto.
  - destruct x as [? s2]. injection E as <- <- <-. split; [reflexivity|]. exists q. split; [|auto]. apply (Q_same k s); [|assumption].
    unfold take_pending_ra_ack in E0. bi E0. destruct (remove_first ssi x); injection E0 as <- <-; split; reflexivity.
  - injection E as <- <- <-. split; [reflexivity|]. exists q. split; [|auto]. apply (Q_same k s); [|assumption]. unfold dl_schedule_tmd in E0. bi E0. injection E0 as <-. split; reflexivity.
  - destruct x as [s2 m2]. injection E as <- <- <-. split; [reflexivity|]. exists q. split; [|auto]. unfold set_hangtime in E0.
    destruct ((1 <=? ts) && (ts <=? 4)) eqn:R; [|injection E0 as <- <-; exact HQ]. destruct act; [injection E0 as <- <-; apply (Q_same k s); [split; reflexivity|assumption]|].
    destruct FE as [FE|FE]; [discriminate|]. unfold dl_drop_all_except_stolen in E0. bi E0. bi E0. destruct x0 as [[kk r] mm]. cbn [fst snd] in E0. bi E0. injection E0 as <- <-.
    apply andb_prop in R. destruct R as (R1 & R2). apply Nat.leb_le in R1, R2.
    apply (Q_keeps k s); [|assumption]. destruct HQ as (F & N0 & _). split; [|split; [|split]].
    + exact (get_put_other k ts s kk F K (conj R1 R2) (not_eq_sym FE)).
    + exact (four_put ts s kk F).
    + exact N0.
    + reflexivity.
  - injection E as <- <- <-. split; [reflexivity|]. exists q. split; [|auto]. apply (Q_same k s); [|assumption]. unfold dl_create_circuit in E0. bi E0. injection E0 as <-. unfold clear_hang. destruct ((1 <=? ts) && (ts <=? 4)); split; reflexivity.
  - destruct x as [? s2]. injection E as <- <- <-. split; [reflexivity|]. exists q. split; [|auto]. apply (Q_same k s); [|assumption].
    unfold dl_close_circuit in E0. bi E0. destruct x. injection E0 as <- <-. unfold clear_hang. destruct ((1 <=? ts) && (ts <=? 4)); split; reflexivity.
  - destruct x as [? u]. injection E as <- <- <-. split; [reflexivity|]. exists q. split; [|auto]. apply (Q_same k s); [|assumption]. split; reflexivity.
  - injection E as <- <- <-. split; [reflexivity|]. exists q. split; [|auto]. apply (Q_same k s); [|assumption]. split; reflexivity.
Qed.

Definition ticks (e : dl_event) : Prop := match e with DvTick | DvStart _ => True | _ => False end.
Lemma desk_firm k x d : exists l, dk_firm (desk_step k d x) = dk_firm d ++ l.
Proof.
  unfold desk_step. destruct x as [[e o] m]. cbn [fst snd].
  assert (X : exists l, dk_firm (match o with Some s => if for_ts k (sl_ts s) && negb (is_traffic s) then
       (if (tm_f (sl_ts s) =? 18)%Z then mk_desk (dk_firm d) (fold_left (fun l n => attach n l) (dk_notes d) (dk_fresh d)) []
        else mk_desk (dk_firm d ++ fold_left (fun l n => attach n l) (dk_notes d) (dk_fresh d)) [] []) else d | None => d end) = dk_firm d ++ l).
  { destruct o as [s|]; [|exists []; now rewrite app_nil_r]. destruct (_ && _); [|exists []; now rewrite app_nil_r].
    destruct (_ =? 18)%Z; [exists []; now rewrite app_nil_r|]. eexists. reflexivity. }
  destruct e; try exact X; (destruct (_ =? k); exists []; now rewrite app_nil_r).
Qed.
Lemma desk_firm_all k log : forall d, exists l, dk_firm (fold_left (desk_step k) log d) = dk_firm d ++ l.
Proof.
  induction log as [|x log IH]; intros d; [exists []; now rewrite app_nil_r|]. cbn [fold_left]. destruct (IH (desk_step k d x)) as (l & ->).
  destruct (desk_firm k x d) as (l2 & ->). exists (l2 ++ l). now rewrite app_assoc.
Qed.

(** A tick from a state [s]. *)
Lemma tick_inv k s slot s1 m d q ev : finalize_ts s = Ok (slot, s1, m) -> ticks ev -> 1 <= k <= 4 -> Q k s d q ->
  exists q1, Q k s1 (desk_step k d (ev, Some slot, m)) q1 /\ forall e,
    (fine (map message (dk_firm d)) (entries (filter is_frag q)) e -> fine (map message (dk_firm (desk_step k d (ev, Some slot, m)))) (entries (filter is_frag q1)) (fold_left hear_slot (air_slot k (ev, Some slot, m)) e)) /\
    (forall h, 32 <= h -> Forall (fun w => width (mr_layout (w_hdr w)) = h) (dk_firm (desk_step k d (ev, Some slot, m))) ->
      ordered (map message (dk_firm d)) (entries (filter is_frag q)) e -> ordered (map message (dk_firm (desk_step k d (ev, Some slot, m)))) (entries (filter is_frag q1)) (fold_left hear_slot (air_slot k (ev, Some slot, m)) e)).
Proof.
  intros E T K HQ. pose proof HQ as (F & N0 & EQ & L & SM & NT).
  assert (HE : match ev with DvResource _ _ _ _ | DvGrant _ _ _ | DvAck _ _ => False | _ => True end) by (destruct ev; try contradiction; exact Logic.I).
  destruct (for_ts k (sl_ts slot)) eqn:FT.
  - destruct (tick_own s slot s1 m k q _ E F N0 K FT EQ L SM) as (A & B & C & D & q2 & o & E2 & L2 & DD).
    exists q2. assert (X := own_tick k q (dk_fresh d) m slot q2 o d). split.
    + destruct (X Mixed DD FT eq_refl NT SM ev HE) as (Y1 & Y2 & _). unfold Q. tauto.
    + intros e. destruct (X e DD FT eq_refl NT SM ev HE) as (_ & _ & Y3 & Y4). auto.
  - destruct (tick_other s slot s1 m k E F N0 K FT) as (KP & _). exists q.
    rewrite desk_tick by assumption. unfold air_slot. cbn [fst snd]. rewrite FT. cbn [andb fold_left]. split; [now apply (Q_keeps k s)|auto].
Qed.

Lemma step_inv k e s o m s1 d q : fair k e -> 1 <= k <= 4 -> dl_step e s = Ok (o, m, s1) -> Q k s d q ->
  exists q1, Q k s1 (desk_step k d (e, o, m)) q1 /\ forall er,
    (fine (map message (dk_firm d)) (entries (filter is_frag q)) er -> fine (map message (dk_firm (desk_step k d (e, o, m)))) (entries (filter is_frag q1)) (fold_left hear_slot (air_slot k (e, o, m)) er)) /\
    (forall h, 32 <= h -> Forall (fun w => width (mr_layout (w_hdr w)) = h) (dk_firm (desk_step k d (e, o, m))) ->
      ordered (map message (dk_firm d)) (entries (filter is_frag q)) er -> ordered (map message (dk_firm (desk_step k d (e, o, m)))) (entries (filter is_frag q1)) (fold_left hear_slot (air_slot k (e, o, m)) er)).
Proof.
  intros FE K E HQ. assert (C : quiet e \/ e = DvTick) by (destruct e; try (left; exact Logic.I); [destruct FE|right; reflexivity]).
  destruct C as [QE| ->].
  - destruct (quiet_step k e s o m s1 d q QE FE K E HQ) as (-> & q1 & HQ1 & FR & FM). exists q1. split; [assumption|]. intros er. rewrite FM, FR. unfold air_slot. cbn [fst snd fold_left]. auto.
  - cbn [dl_step] in E. bi E. bi E. destruct x0 as [[kk s2] m2]. injection E as <- <- <-.
    assert (HQ1 : Q k x d q).
    { unfold dl_tick_start in E0. bi E0. injection E0 as <-. apply (Q_same k s); [split; reflexivity|assumption]. }
    exact (tick_inv k x kk s2 m2 d q DvTick E1 Logic.I K HQ1).
Qed.

Lemma run_inv k evs : forall s log s1 d q, Forall (fair k) evs -> 1 <= k <= 4 -> dl_run evs s = Ok (log, s1) -> Q k s d q ->
  exists q1, let d1 := fold_left (desk_step k) log d in Q k s1 d1 q1 /\ forall er,
    (fine (map message (dk_firm d)) (entries (filter is_frag q)) er -> fine (map message (dk_firm d1)) (entries (filter is_frag q1)) (fold_left hear_slot (flat_map (air_slot k) log) er)) /\
    (forall h, 32 <= h -> Forall (fun w => width (mr_layout (w_hdr w)) = h) (dk_firm d1) ->
      ordered (map message (dk_firm d)) (entries (filter is_frag q)) er -> ordered (map message (dk_firm d1)) (entries (filter is_frag q1)) (fold_left hear_slot (flat_map (air_slot k) log) er)).
Proof.
  induction evs as [|e evs IH]; intros s log s1 d q FE K E HQ; cbn [dl_run] in E.
  - injection E as <- <-. exists q. cbn [fold_left flat_map]. auto.
  - inversion FE as [|? ? FE1 FE2]; subst. bi E. destruct x as [[o m] s2]. cbn [fst snd] in E. bi E. destruct x as [log2 s3]. injection E as <- <-.
    destruct (step_inv k e s o m s2 d q FE1 K E0 HQ) as (q1 & HQ1 & ST).
    destruct (IH s2 log2 s3 _ q1 FE2 K E1 HQ1) as (q2 & HQ2 & RS). exists q2. cbv zeta in *. cbn [fold_left flat_map]. split; [assumption|]. intros er. rewrite fold_left_app. split.
    + intros FN. apply RS. now apply ST.
    + intros h H32 HW OR. apply (RS _) with h; [assumption|assumption|]. apply (ST er) with h; [assumption| |assumption].
      destruct (desk_firm_all k log2 (desk_step k d (e, o, m))) as (l & EL). rewrite EL in HW. apply Forall_app in HW. tauto.
Qed.

Lemma start_inv k t code p slot m s1 : 1 <= k <= 4 -> dl_step (DvStart t) (dls_new code p) = Ok (Some slot, m, s1) ->
  exists q1, Q k s1 (desk_step k desk_empty (DvStart t, Some slot, m)) q1 /\ forall e,
    (fine [] [] e -> fine (map message (dk_firm (desk_step k desk_empty (DvStart t, Some slot, m)))) (entries (filter is_frag q1)) (fold_left hear_slot (air_slot k (DvStart t, Some slot, m)) e)) /\
    (forall h, 32 <= h -> Forall (fun w => width (mr_layout (w_hdr w)) = h) (dk_firm (desk_step k desk_empty (DvStart t, Some slot, m))) ->
      ordered [] [] e -> ordered (map message (dk_firm (desk_step k desk_empty (DvStart t, Some slot, m)))) (entries (filter is_frag q1)) (fold_left hear_slot (air_slot k (DvStart t, Some slot, m)) e)).
Proof.
  intros K E. cbn [dl_step] in E. bi E. destruct x as [s0 m0]. cbn [fst snd] in E. bi E. destruct x as [[sl s2] m2]. injection E as <- <- <-.
  assert (HQ : Q k s0 desk_empty []).
  { unfold set_dl_time in E0. cbn in E0. injection E0 as <- <-. unfold Q, four, get_q. cbn [set_ul set_q set_cur ds_q ds_next dls_new]. split; [reflexivity|]. split; [reflexivity|].
    split; [rewrite (ts_get_ok _ _ []) by (reflexivity || assumption); f_equal; destruct k as [|[|[|[|[|]]]]]; try reflexivity; lia|]. split; [constructor|]. split; [constructor|reflexivity]. }
  assert (M0 : m0 = []) by (unfold set_dl_time in E0; cbn in E0; congruence). subst m0. cbn [app].
  exact (tick_inv k s0 sl s2 m2 desk_empty [] (DvStart t) E1 Logic.I K HQ).
Qed.

(** The theorems about histories: a first tick, then anything. *)
Lemma history_inv k t code p evs log s : 1 <= k <= 4 -> Forall (fair k) evs -> dl_run (DvStart t :: evs) (dls_new code p) = Ok (log, s) ->
  exists q, Q k s (asked k log) q /\ fine (map message (dk_firm (asked k log))) (entries (filter is_frag q)) (hear (air k log)) /\
    (forall h, 32 <= h -> Forall (fun w => width (mr_layout (w_hdr w)) = h) (dk_firm (asked k log)) -> ordered (map message (dk_firm (asked k log))) (entries (filter is_frag q)) (hear (air k log))).
Proof.
  intros K FE E. cbn [dl_run] in E. bi E. destruct x as [[o m] s2]. cbn [fst snd] in E. bi E. destruct x as [log2 s3]. injection E as <- <-.
  assert (exists slot, o = Some slot) as (slot & ->).
  { cbn [dl_step] in E0. bi E0. destruct x as [? ?]. cbn [fst snd] in E0. bi E0. destruct x as [[? ?] ?]. injection E0 as <- _ _. eauto. }
  destruct (start_inv k t code p slot m s2 K E0) as (q1 & HQ1 & ST).
  destruct (run_inv k evs s2 log2 s3 _ q1 FE K E1 HQ1) as (q2 & HQ2 & RS). exists q2. cbv zeta in *.
  unfold asked, air, hear. cbn [fold_left flat_map]. rewrite fold_left_app. split; [assumption|]. split.
  - apply RS. apply ST. split; [exact Logic.I|]. constructor.
  - intros h H32 HW. apply (RS _) with h; [assumption|assumption|]. apply (ST _) with h; [assumption| |].
    + destruct (desk_firm_all k log2 (desk_step k desk_empty (DvStart t, Some slot, m))) as (l & EL). rewrite EL in HW. apply Forall_app in HW. tauto.
    + exists [], None. split; [reflexivity|]. split; reflexivity.
Qed.

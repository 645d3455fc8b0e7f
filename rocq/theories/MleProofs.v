(** Proofs about the mobile link entity. *)
From Coq Require Import Arith ZArith.
From Verif Require Import Base BitsLib BitBuffer BitBufferProofs BitBufferOps Codec CodecProofs TypedFields TypedFieldsProofs TdmaTime TdmaTimeProofs
  MacFields Llc LlcSpec LlcBits PduSpec PduProofs MleBs UpPath UpPathSpec UpPathProofs MleSpec.
Open Scope N_scope.

(** * The PDU *)
Lemma nwrk_writes p : nwrk_valid p = true -> writes (nwrk_write p) (nwrk_wire p).
Proof.
  destruct p as [r l t n o]. unfold nwrk_valid, nwrk_write, nwrk_wire. cbn [nb_reselect nb_load nb_time nb_cells nb_neighbours]. rewrite !andb_true_iff. intros ((((A & B) & C) & D) & E).
  apply negb_true_iff, some_false in E. subst o. rewrite (some_is_some t), (some_is_some n).
  apply w_num; [lia|reflexivity|]. apply w_num; [lia|exact A|]. apply w_num; [lia|exact B|]. cbv zeta.
  assert (Dn : fito 3 n = true) by (destruct n as [k|]; [cbn [fito]; apply N.eqb_eq in D; subst k; reflexivity|reflexivity]).
  destruct (some t || some n).
  - apply (writes_then _ _ [true]); [apply (writes_bit true)|]. cbn [is_some]. apply w_t2; [lia|exact C|]. rewrite <- (app_nil_r (t2 3 n)). apply w_t2; [lia|exact Dn|apply writes_ret].
  - apply writes_then_r; [apply (writes_bit false)|apply writes_ret].
Qed.
Lemma nwrk_reads p : nwrk_valid p = true -> reads nwrk_read (nwrk_wire p) p.
Proof.
  destruct p as [r l t n o]. unfold nwrk_valid, nwrk_read, nwrk_wire. cbn [nb_reselect nb_load nb_time nb_cells nb_neighbours]. rewrite !andb_true_iff. intros ((((A & B) & C) & D) & E).
  apply negb_true_iff, some_false in E. subst o. apply readsF_reads.
  assert (Dn : fito 3 n = true /\ match n with Some k => 0 <? k | None => false end = false).
  { destruct n as [k|]; [cbn [fito]; apply N.eqb_eq in D; subst k|]; split; reflexivity. }
  apply r_num; [lia|reflexivity|]. apply r_guard; [reflexivity|]. apply r_num; [lia|exact A|]. apply r_num; [lia|exact B|].
  destruct (some t || some n) eqn:S.
  - apply (r_flag _ true). apply r_t2; [lia|exact C|]. rewrite <- (app_nil_r (t2 3 n)). apply r_t2; [lia|exact (proj1 Dn)|]. rewrite (proj2 Dn). cbn [andb]. apply reads_readsF, reads_ret.
  - apply orb_false_elim in S. destruct S as (S1 & S2). apply some_false in S1, S2. subst t n. apply (r_flag _ false). apply r_absent2, r_absent2. cbn [andb]. apply reads_readsF, reads_ret.
Qed.
Lemma nwrk_conveys p : nwrk_valid p = true -> conveys (nwrk_write p) nwrk_read p (nwrk_wire p).
Proof. intros V. split; [now apply nwrk_writes|now apply nwrk_reads]. Qed.

(** * Sending *)
Lemma fresh_full n b l : wrote (bb_new n) b l -> length l = n -> wf b /\ window b = l /\ bstart b = 0%nat.
Proof.
  intros H L. pose proof H as (W & S & A & P & _ & _ & E & F & _). split; [assumption|].
  assert (Q : written b = l) by (rewrite (wrote_written _ _ _ (wf_new n) H); reflexivity).
  cbn [bstart bpos bend bb_new] in *. destruct F as (F & _); [cbn [bb_new bend bpos]; lia|]. split; [|exact S].
  unfold window. rewrite F. unfold written in Q. replace (bpos b) with n in Q by lia. exact Q.
Qed.
Lemma prefix_spec d n src : d < 8 -> wf src -> (n <= length (remaining src))%nat ->
  exists b, (b <- wfield d 3 (bb_new (3 + n)) ;; '(b, _) <- copy_bits n src b ;; seek 0 b) = Ok b /\ at_start b /\ window b = bits_of 3 d ++ firstn n (remaining src).
Proof.
  intros D W L. assert (RM : forall k, (k <= 3 + n)%nat -> room (bb_new (3 + n)) k) by (intros k K; right; exact K).
  destruct (writes_field d 3 ltac:(lia) D (bb_new (3 + n)) (wf_new _)) as (b1 & -> & O1).
  { apply RM. rewrite bits_of_length. lia. }
  cbn [bind]. destruct (copy_bits_spec n src b1) as (b2 & -> & O2); [assumption|apply O1|exact L| |].
  { apply (room_after (bb_new (3 + n)) b1 (bits_of 3 d) n O1). apply RM. rewrite bits_of_length. lia. }
  cbn [bind]. pose proof (wrote_trans _ _ _ _ _ O1 O2) as O.
  destruct (fresh_full _ _ _ O) as (W2 & V2 & S2). { rewrite app_length, bits_of_length, firstn_length. lia. }
  destruct W2 as (H1 & H2 & H3 & H4). unfold seek. rewrite Nat.add_0_r. destruct (Nat.leb_spec (bstart b2) (bend b2)); [|lia]. cbn [assert bind]. eexists. split; [reflexivity|]. split.
  - split; [|reflexivity]. unfold wf, set_pos, cap in *; cbn [bytes bstart bpos bend]. repeat split; (lia || assumption).
  - exact V2.
Qed.
Lemma at_start_len b : at_start b -> get_len b = Ok (length (window b)) /\ remaining b = window b.
Proof.
  intros ((A & B & C & D) & P). split; [|unfold remaining, window; now rewrite P]. unfold get_len, sub_checked. destruct (Nat.leb_spec (bstart b) (bend b)); [|lia].
  unfold window. now rewrite bits_rng_length.
Qed.
Lemma mle_pdu_spec d sdu : d < 8 -> at_start sdu -> exists b, mle_pdu d sdu = Ok b /\ at_start b /\ window b = bits_of 3 d ++ window sdu.
Proof.
  intros D S. destruct (at_start_len sdu S) as (L & R). unfold mle_pdu. rewrite L. cbn [bind].
  destruct (prefix_spec d (length (window sdu)) sdu D (proj1 S)) as (b & E & A & V); [rewrite R; lia|]. exists b. split; [exact E|]. split; [exact A|]. rewrite V, R, firstn_all. reflexivity.
Qed.
Lemma lmm_spec t sdu a rep s : at_start sdu -> exists q, rx_lmm_mle_unitdata_req t sdu a false rep s = Ok ([DnData q], s) /\ link_req t (disc_mm ++ window sdu) a false None rep q.
Proof.
  intros S. unfold rx_lmm_mle_unitdata_req. destruct (mle_pdu_spec PdMm sdu ltac:(reflexivity) S) as (b & -> & A & V). cbn [bind negb assert]. eexists. split; [reflexivity|].
  unfold link_req. cbn [lq_sdu]. split; [apply A|]. split; [apply A|]. split; [exact V|reflexivity].
Qed.
Lemma lcmc_spec t sdu a unack steal chan rep s : at_start sdu ->
  exists q, rx_lcmc_mle_unitdata_req t sdu a unack steal chan rep s = Ok ([if unack then DnUnit q else DnData q], s) /\ link_req t (disc_cmce ++ window sdu) a steal chan rep q.
Proof.
  intros S. unfold rx_lcmc_mle_unitdata_req. destruct (mle_pdu_spec PdCmce sdu ltac:(reflexivity) S) as (b & -> & A & V). cbn [bind]. eexists. split; [reflexivity|].
  unfold link_req. cbn [lq_sdu]. split; [apply A|]. split; [apply A|]. split; [exact V|reflexivity].
Qed.

(** * Network time *)
Lemma time_valid now : now < 2 ^ 48 -> nwrk_valid (mk_nwrk 0 0 (Some now) (Some 0) None) = true.
Proof. intros H. unfold nwrk_valid. cbn [nb_reselect nb_load nb_time nb_cells nb_neighbours fito]. unfold fit. replace (now <? 2 ^ N.of_nat 48) with true; [reflexivity|]. symmetry. now apply N.ltb_lt. Qed.
Lemma time_length now : length (nwrk_wire (mk_nwrk 0 0 (Some now) (Some 0) None)) = 75%nat.
Proof. unfold nwrk_wire. cbn [nb_reselect nb_load nb_time nb_cells some orb t2]. unfold num. rewrite !app_length. cbn [length]. rewrite app_length. cbn [length]. rewrite !bits_of_length. reflexivity. Qed.
Lemma prefix_bind {A} d n src (k : bitbuf -> res A) :
  (b <- wfield d 3 (bb_new (3 + n)) ;; '(b, _) <- copy_bits n src b ;; b <- seek 0 b ;; k b) =
  (b <- (b <- wfield d 3 (bb_new (3 + n)) ;; '(b, _) <- copy_bits n src b ;; seek 0 b) ;; k b).
Proof. destruct (wfield d 3 (bb_new (3 + n))) as [b1|e|]; cbn [bind]; [|reflexivity..]. destruct (copy_bits n src b1) as [[b2 x]|e|]; reflexivity. Qed.
(** The encoded message, read back from its start. *)
Lemma encoded (w : wr) l size : writes w l -> (length l <= size)%nat ->
  exists b b', w (bb_new size) = Ok b /\ get_pos b = Ok (length l) /\ seek 0 b = Ok b' /\ wf b' /\ (length l <= length (remaining b'))%nat /\ firstn (length l) (remaining b') = l.
Proof.
  intros WR LE. destruct (WR (bb_new size) (wf_new size)) as (b & E & O). { right. exact LE. }
  pose proof O as (W & S & _ & P & _ & _ & _ & F & _). cbn [bb_new bstart bpos bend] in *. destruct F as (F & _); [exact LE|].
  assert (Q : written b = l) by (rewrite (wrote_written _ _ _ (wf_new size) O); reflexivity).
  destruct W as (H1 & H2 & H3 & H4). exists b, (set_pos b (bstart b)). split; [exact E|]. split; [|split; [|split; [|split]]].
  - unfold get_pos, sub_checked. rewrite S, P. cbn [Nat.add Nat.leb]. now rewrite Nat.sub_0_r.
  - unfold seek. rewrite Nat.add_0_r. destruct (Nat.leb_spec (bstart b) (bend b)); [reflexivity|lia].
  - unfold wf, set_pos, cap in *; cbn [bytes bstart bpos bend]. repeat split; (lia || assumption).
  - rewrite remaining_length. unfold set_pos. cbn [bend bpos]. lia.
  - rewrite <- Q at 2. unfold remaining, written, set_pos. cbn [bytes bpos bend]. rewrite S, P, F, Nat.sub_0_r. replace size with (length l + (size - length l))%nat by lia.
    rewrite bits_rng_app, firstn_app, bits_rng_length, Nat.sub_diag, firstn_all2 by (rewrite bits_rng_length; lia). cbn [firstn Nat.add]. now rewrite app_nil_r, Nat.sub_0_r.
Qed.
Lemma send_spec now t s : now < 2 ^ 48 -> ml_zone s = true ->
  exists q, send_d_nwrk_broadcast now t s = Ok ([DnUnit q], s) /\ link_req t (time_message now) everybody false None None q.
Proof.
  intros H Z. unfold send_d_nwrk_broadcast. rewrite Z. cbn [assert bind]. pose proof (time_length now) as TL. pose proof (nwrk_writes _ (time_valid now H)) as WR. unfold time_message.
  revert TL WR. generalize (mk_nwrk 0 0 (Some now) (Some 0) None). intros p TL WR.
  destruct (encoded (nwrk_write p) (nwrk_wire p) 128 WR ltac:(rewrite TL; lia)) as (b & b' & E1 & E2 & E3 & W & LE & R). clear TL WR. revert E1. generalize (nwrk_write p). intros w E1. rewrite E1, E2. cbn [bind]. rewrite E3. cbn [bind].
  rewrite (prefix_bind PdMle (length (nwrk_wire p)) b'). revert LE R. generalize (nwrk_wire p). intros l LE R.
  destruct (prefix_spec PdMle (length l) b' ltac:(reflexivity) W LE) as (b2 & E & A & V). rewrite R in V. rewrite E. cbn [bind].
  eexists. split; [reflexivity|]. unfold link_req. cbn [lq_sdu]. split; [apply A|]. split; [apply A|]. split; [exact V|reflexivity].
Qed.
Definition last_ok (s : mle) : Prop := ml_last s = true -> ml_zone s = true.
Lemma tick_spec now t s : now < 2 ^ 48 -> last_ok s ->
  exists x s', mle_tick_start now t s = Ok (x, s') /\ last_ok s' /\ ml_zone s' = ml_zone s /\ answers (ml_zone s) (MeTick now t) (ml_next s) x (ml_next s').
Proof.
  intros H L. unfold mle_tick_start, MLE_BROADCAST_MULTIFRAME, MLE_BROADCAST_FRAME. cbn [answers]. fold (due t). destruct (due t) eqn:D.
  - unfold next_broadcast, last_ok in *. destruct (ml_zone s) eqn:Z.
    + assert ((if ml_last s then true else true) = true) as -> by (destruct (ml_last s); reflexivity). cbn [andb].
      destruct (send_spec now t (mk_mle (ml_next s) true true) H eq_refl) as (q & E & Q). rewrite E. eexists _, _. split; [reflexivity|]. cbn [ml_last ml_zone ml_next]. eauto 6.
    + assert (ml_last s = false) as -> by (destruct (ml_last s); [destruct (L eq_refl)|]; reflexivity). cbn [andb]. eexists _, _. split; [reflexivity|]. cbn [ml_last ml_zone ml_next]. auto.
  - rewrite andb_false_r. exists [], s. repeat split; auto.
Qed.

(** * Histories *)
Lemma prim_keeps i s x s' : rx_tla_prim i s = Ok (x, s') -> ml_zone s' = ml_zone s /\ ml_last s' = ml_last s.
Proof.
  unfold rx_tla_prim, rx_tla_data_ind_bl, create_handle, rx_tla_mle_pdu. intros E. destruct (ti_unit i); [discriminate E|]. destruct (ti_sdu i) as [b|]; [|discriminate E]. cbn [unwrap bind] in E.
  destruct (get_pos b) as [p| |]; try discriminate E. cbn [bind] in E. destruct ((p =? 0)%nat); [|discriminate E]. cbn [assert bind] in E. destruct (read_bits_opt b 3) as [[[d|] b']| |]; try discriminate E; cbn [bind] in E.
  - destruct (d =? PdMm); [|destruct (d =? PdCmce); [|destruct (d =? PdSndcp); [|destruct (d =? PdMle)]]].
    1,2: destruct (ml_next s <? 4294967295); [|discriminate E]; cbn [assert bind] in E; injection E as <- <-; split; reflexivity.
    all: injection E as <- <-; split; reflexivity.
  - injection E as <- <-; split; reflexivity.
Qed.
Lemma addressed_dies l : addressed l <> Dies -> l <> [].
Proof. intros H ->. now apply H. Qed.
Lemma step_spec e s : event_ok e -> last_ok s -> ml_next s < MAXH ->
  exists x s', mle_step e s = Ok (x, s') /\ last_ok s' /\ ml_zone s' = ml_zone s /\ ml_next s' <= ml_next s + 1 /\ answers (ml_zone s) e (ml_next s) x (ml_next s').
Proof.
  intros K L H. destruct e as [i|t sdu a unack rep|t sdu a unack steal chan rep|now t]; cbn [event_ok mle_step] in *.
  - destruct K as (U & Lk & b & E & S & A). destruct (at_start_len b S) as (_ & R).
    pose proof (prim_spec (ti_time i) (ti_addr i) (Data (ti_fcs i) false (window b)) i s) as P. cbn [is_udata is_ack LlcSpec.sdu_of] in P.
    assert (M : to_mle (ti_time i) (ti_addr i) (Data (ti_fcs i) false (window b)) i).
    { unfold to_mle. cbn [is_udata hdr_fcs LlcSpec.sdu_of]. rewrite E. repeat (split; [assumption || reflexivity|]). split; [apply S|]. split; [exact R|]. split; [reflexivity|]. now apply addressed_dies. }
    specialize (P M eq_refl H). cbn zeta in P.
    assert (D : exists x m', rx_tla_prim i s = Ok (x, m') /\ gets (ti_time i) (ti_addr i) (addressed (window b)) (ml_next s) x (ml_next m')).
    { destruct (addressed (window b)); [contradiction|..]; destruct P as (x & m' & P1 & P2 & _); eauto. }
    destruct D as (x & m' & D & G). destruct (prim_keeps _ _ _ _ D) as (Z & La). exists x, m'. split; [exact D|]. split; [unfold last_ok; rewrite Z, La; exact L|]. split; [exact Z|].
    cbn [answers]. rewrite E. split; [|exact G]. destruct (addressed (window b)); cbn [gets] in G; [destruct G|destruct G as (_ & ->); lia|destruct G as (-> & _); lia..].
  - destruct K as (S & ->). destruct (lmm_spec t sdu a rep s S) as (q & E & Q). exists [DnData q], s. split; [exact E|]. split; [exact L|]. split; [reflexivity|]. split; [lia|]. cbn [answers]. split; [reflexivity|]. eauto.
  - destruct (lcmc_spec t sdu a unack steal chan rep s K) as (q & E & Q). exists [if unack then DnUnit q else DnData q], s. split; [exact E|]. split; [exact L|]. split; [reflexivity|]. split; [lia|]. cbn [answers]. split; [reflexivity|]. eauto.
  - destruct K as (N & _). destruct (tick_spec now t s N L) as (x & s' & E & L' & Z & A). exists x, s'. split; [exact E|]. split; [exact L'|]. split; [exact Z|]. split; [|exact A]. cbn [answers] in A. destruct A as (-> & _). lia.
Qed.
Lemma run_spec : forall evs s, Forall event_ok evs -> last_ok s -> ml_next s + N.of_nat (length evs) <= MAXH ->
  exists outs s', mle_run evs s = Ok (outs, s') /\ answers_all (ml_zone s) evs (ml_next s) outs (ml_next s').
Proof.
  induction evs as [|e r IH]; intros s F L H.
  - exists [], s. split; [reflexivity|constructor].
  - cbn [length] in H. destruct (step_spec e s (Forall_inv F) L ltac:(lia)) as (x & s1 & E & L1 & Z & B & A).
    destruct (IH s1 (Forall_inv_tail F) L1 ltac:(lia)) as (y & s2 & E2 & A2). rewrite Z in A2. exists (x ++ y), s2. cbn [mle_run]. rewrite E. cbn [bind]. rewrite E2. split; [reflexivity|]. econstructor; eassumption.
Qed.
Lemma run_new zone evs : Forall event_ok evs -> N.of_nat (length evs) < MAXH ->
  exists outs s', mle_run evs (mle_new zone) = Ok (outs, s') /\ answers_all zone evs 1 outs (ml_next s').
Proof. intros F H. apply (run_spec evs (mle_new zone) F); [discriminate|]. cbn [mle_new ml_next]. unfold MAXH in *. lia. Qed.

(** * Once per hyperframe *)
Open Scope Z_scope.
Lemma due_int t : vtime t -> (due t = true <-> to_int t mod 4320 = 1368).
Proof.
  intros (A & B & C & D). unfold due. rewrite !andb_true_iff, !Z.eqb_eq. unfold to_int, hyperframes, multiframes, frames.
  assert (E : ((tm_t t - 1) + (tm_f t - 1) * 4 + (tm_m t - 1) * 18 * 4 + tm_h t * 60 * 18 * 4) mod 4320 = (tm_t t - 1) + (tm_f t - 1) * 4 + (tm_m t - 1) * 18 * 4).
  { replace ((tm_t t - 1) + (tm_f t - 1) * 4 + (tm_m t - 1) * 18 * 4 + tm_h t * 60 * 18 * 4) with ((tm_t t - 1) + (tm_f t - 1) * 4 + (tm_m t - 1) * 18 * 4 + tm_h t * 4320) by lia. rewrite Z.mod_add by lia. apply Z.mod_small. lia. }
  match goal with |- context [?x mod 4320 = 1368] => replace (x mod 4320) with ((tm_t t - 1) + (tm_f t - 1) * 4 + (tm_m t - 1) * 18 * 4) by (rewrite <- E; f_equal; lia) end. lia.
Qed.
Lemma once_per_hyperframe t : vtime t -> exists k, 0 <= k < 4320 /\ forall j, 0 <= j < 4320 -> (due (add_timeslots t j) = true <-> j = k).
Proof.
  intros V. exists ((1368 - to_int t) mod 4320). split; [apply Z.mod_pos_bound; lia|]. intros j J. rewrite due_int by apply add_valid. unfold add_timeslots. rewrite to_from_int.
  unfold TIME_INT_WRAP. change (4 * 18 * 60 * 65536) with (4320 * 65536). rewrite <- Z.rem_mod_nonneg by (try lia; apply Z.mod_pos_bound; lia).
  rewrite Z.rem_mod_nonneg by (try lia; apply Z.mod_pos_bound; lia).
  rewrite Z.rem_mul_r by lia. rewrite Z.mul_comm, Z.mod_add by lia. rewrite Z.mod_mod by lia.
  pose proof (Z.div_mod (to_int t + j) 4320 ltac:(lia)). pose proof (Z.mod_pos_bound (to_int t + j) 4320 ltac:(lia)).
  pose proof (Z.div_mod (1368 - to_int t) 4320 ltac:(lia)). pose proof (Z.mod_pos_bound (1368 - to_int t) 4320 ltac:(lia)). split; intros; nia.
Qed.
Close Scope Z_scope.
Lemma announced_app a b : announced (a ++ b) = announced a ++ announced b.
Proof. apply flat_map_app. Qed.
Lemma answers_announced zone e h x h' : answers zone e h x h' ->
  announced x = match e with MeTick now t => if zone && due t then [(t, everybody, time_pdu now)] else [] | _ => [] end.
Proof.
  destruct e as [i|t sdu a unack rep|t sdu a unack steal chan rep|now t]; cbn [answers].
  - destruct (ti_sdu i) as [b|]; [|intros []]. destruct (addressed (window b)); cbn [gets]; [intros []|intros (-> & _); reflexivity|..]; intros (_ & b' & -> & _); reflexivity.
  - intros (_ & q & -> & _). reflexivity.
  - intros (_ & q & -> & (_ & _ & E & _)). destruct unack; [|reflexivity]. unfold announced. cbn [flat_map]. rewrite E. reflexivity.
  - intros (_ & H). destruct (zone && due t).
    + destruct H as (q & -> & (_ & _ & E & Q)). unfold announced. cbn [flat_map]. rewrite E. rewrite Q. reflexivity.
    + subst x. reflexivity.
Qed.
Lemma all_announced zone evs h outs h' : answers_all zone evs h outs h' ->
  announced outs = if zone then map (fun x => (snd x, everybody, time_pdu (fst x))) (filter (fun x => due (snd x)) (clock_ticks evs)) else [].
Proof.
  induction 1 as [h|e r h x h1 y h2 A AA IH]; [destruct zone; reflexivity|]. rewrite announced_app, IH, (answers_announced _ _ _ _ _ A).
  destruct e as [i|t sdu a unack rep|t sdu a unack steal chan rep|now t]; try reflexivity. destruct zone; [|reflexivity].
  unfold clock_ticks. cbn [flat_map app andb filter snd]. destruct (due t); reflexivity.
Qed.
Lemma filter_one {A} (f : A -> bool) : forall l k, (k < length l)%nat -> (forall j x, nth_error l j = Some x -> (f x = true <-> j = k)) ->
  exists x, nth_error l k = Some x /\ filter f l = [x].
Proof.
  induction l as [|a l IH]; intros k L H; cbn [length] in L; [lia|]. destruct k as [|k].
  - exists a. split; [reflexivity|]. cbn [filter]. rewrite (proj2 (H 0%nat a eq_refl) eq_refl). f_equal.
    assert (G : forall x, In x l -> f x = false).
    { intros x I. apply In_nth_error in I. destruct I as (j & J). destruct (f x) eqn:E; [|reflexivity]. apply (H (S j) x J) in E. discriminate E. }
    clear - G. induction l as [|b l IH]; [reflexivity|]. cbn [filter]. rewrite (G b (or_introl eq_refl)). apply IH. intros x I. apply G. now right.
  - destruct (IH k ltac:(lia)) as (x & E & F).
    + intros j x J. rewrite (H (S j) x J). lia.
    + exists x. split; [exact E|]. cbn [filter]. destruct (f a) eqn:Fa; [|exact F]. apply (H 0%nat a eq_refl) in Fa. discriminate Fa.
Qed.
Lemma hyperframe_announced evs t n : Forall event_ok evs -> N.of_nat (length evs) < MAXH -> vtime t -> Z.of_nat n = 4320%Z ->
  map snd (clock_ticks evs) = map (fun k => add_timeslots t (Z.of_nat k)) (seq 0 n) ->
  exists outs s', mle_run evs (mle_new true) = Ok (outs, s') /\
    exists now at_, In (now, at_) (clock_ticks evs) /\ due at_ = true /\ announced outs = [(at_, everybody, time_pdu now)].
Proof.
  intros F L V N M. destruct (run_new true evs F L) as (outs & s' & E & A). exists outs, s'. split; [exact E|]. rewrite (all_announced _ _ _ _ _ A).
  destruct (once_per_hyperframe t V) as (k & K & U).
  assert (NE : forall j x, nth_error (clock_ticks evs) j = Some x -> snd x = add_timeslots t (Z.of_nat j) /\ (j < n)%nat).
  { intros j x J. pose proof (map_nth_error snd _ _ J) as J'. rewrite M in J'. assert (Hn : (j < n)%nat). { assert (nth_error (map (fun k0 : nat => add_timeslots t (Z.of_nat k0)) (seq 0 n)) j <> None) as Q by congruence. apply nth_error_Some in Q. rewrite map_length, seq_length in Q. exact Q. }
    split; [|exact Hn]. assert (S : nth_error (seq 0 n) j = Some j). { rewrite (nth_error_nth' _ 0%nat) by (rewrite seq_length; exact Hn). now rewrite seq_nth. }
    rewrite (map_nth_error (fun k0 : nat => add_timeslots t (Z.of_nat k0)) _ _ S) in J'. congruence. }
  assert (LT : length (clock_ticks evs) = n). { rewrite <- (map_length snd), M, map_length, seq_length. reflexivity. }
  destruct (filter_one (fun x => due (snd x)) (clock_ticks evs) (Z.to_nat k) ltac:(rewrite LT; lia)) as ((now & at_) & X & Fi).
  - intros j x J. destruct (NE j x J) as (-> & Hj). rewrite (U (Z.of_nat j) ltac:(lia)). lia.
  - exists now, at_. split; [apply nth_error_In in X; exact X|]. rewrite Fi. split; [|reflexivity].
    assert (I : In (now, at_) (filter (fun x => due (snd x)) (clock_ticks evs))) by (rewrite Fi; now left). apply filter_In in I. exact (proj2 I).
Qed.

(** The next slot is made whatever waits, unless something waits that jams it. *)
From Coq Require Import Arith.
From Verif Require Import Base BitsLib AMap BitBuffer BitBufferProofs BitBufferOps Codec CodecProofs Layout LayoutProofs TypedFields MacFields MacPdus MacBroadcast MleBroadcast MacSpec
  MacPdusProofs MacBroadcastProofs MacFacts LlcBits FragProofs TdmaTime TdmaTimeProofs Freqs TxReceipt UmacCircuits UmacCircuitsProofs DlSched DlSchedSpec DlSlot DlFinal UmacPrecomps UmacBs SlotSpec SlotTame SlotProofs.
From Verif Require Import UmacSched SlotRun SlotWf AliveSpec TickSafe UlBlockPdu.
From Verif Require Scrambler UlSched UlSchedProofs FragSpec.
Open Scope nat_scope.

Definition live (s : dls) : Prop := Forall (Forall lawful) (ds_q s) /\ Forall (Forall (fun b : list N => 35 <= length b)) (uc_tx (ds_circ s)).

Lemma live_get s k q : live s -> get_q k s = Ok q -> Forall lawful q.
Proof. intros (L & _) E. exact (ts_get_in (Forall lawful) _ _ _ L E). Qed.
Lemma live_put s k q : live s -> Forall lawful q -> live (put_q k q s).
Proof. intros (L & V) H. split; [apply ts_set_in; assumption|exact V]. Qed.
Lemma get_ok s k : four s -> 1 <= k <= 4 -> get_q k s = Ok (nth (k - 1) (ds_q s) []).
Proof. intros. now apply ts_get_ok. Qed.

(** * The writers *)
Lemma writes_new (w : wr) l n : writes w l -> length l <= n -> exists b, w (bb_new n) = Ok b /\ wrote (bb_new n) b l.
Proof. intros H L. destruct (H (bb_new n) (wf_new n) (new_room _ _ L)) as (b & E & O). exists b. auto. Qed.
Lemma null_new n : 16 <= n -> exists b, mr_write mr_null_pdu (bb_new n) = Ok b.
Proof. intros L. destruct (writes_new _ _ n (proj1 (mr_carries _ null_valid)) L) as (b & E & _). eauto. Qed.
Lemma add_null_ok k : raw k -> exists k', try_add_null k = Ok k' /\ raw k'.
Proof.
  intros R. destruct (try_add_null k) as [k'| |] eqn:E; [exists k'; split; [reflexivity|exact (null_raw _ _ R E)]|exfalso|exfalso].
  all: destruct R as (W & _); unfold try_add_null in E; destruct (bk_chan k); try discriminate E; rewrite len_rem in E by exact W; cbn [bind] in E;
    destruct (Nat.leb_spec NULL_PDU_LEN_BITS (length (remaining (bk_buf k)))) as [L|L]; try discriminate E; rewrite upd_null in E; cbn [bind] in E;
    (destruct (proj1 (mr_carries _ null_valid) (bk_buf k) W (room_fixed _ _ L W)) as (b & EB & _)); rewrite EB in E; discriminate E.
Qed.
Lemma rewind_ok k : raw k -> exists k', rewind k = Ok k'.
Proof. intros (W & _). unfold rewind. destruct (seek0 _ W) as (b & -> & _). cbn [bind]. eauto. Qed.

Lemma bbk_total c cn v s ts : shows c cn v s -> vtime ts -> vw_dl (v 1) = None -> vw_ul (v 1) = None -> exists b, generate_bbk ts s = Ok b.
Proof.
  intros (SC & (A & B & C & H) & _) V D1 U1. destruct V as (V1 & _). set (t := Z.to_nat (tm_t ts)) in *. assert (T : 1 <= t <= 4) by (subst t; lia).
  destruct (H t T) as (H1 & H2 & H3 & M1 & M2). unfold generate_bbk. fold t. destruct (tm_f ts =? 18)%Z eqn:F18.
  - cbn [bind UlSched.isnone negb andb assert]. destruct (writes_new _ _ 14 (proj1 (a18_carries aach18_says eq_refl))) as (b & E & _); [rewrite (proj2 aa_widths aach18_says eq_refl); lia|].
    unfold aach18_says, open_access in E. unfold af. rewrite E. cbn [bind]. eauto.
  - unfold ucm_get_usage. rewrite !(ts_get_ok _ _ None) by assumption. cbn [bind]. rewrite H1, H2.
    assert (ID : forall o : option N, option_map (fun u => u) o = o) by (intros []; reflexivity). rewrite !ID. cbn [negb].
    assert (AV : forall w, mark_fine (vw_dl w) -> mark_fine (vw_ul w) -> aa_valid (aach_says ts w) = true).
    { intros w N1 N2. unfold aach_says. destruct (tm_t ts =? 1)%Z; [reflexivity|]. destruct (vw_hang w && busy_ts w); [reflexivity|].
      unfold mark_fine in N1, N2. destruct (vw_dl w) as [a|], (vw_ul w) as [b|]; unfold aa_valid, aa_layout, fits, um_dl_valid, um_ul_valid; cbn; try reflexivity;
        rewrite !Bool.andb_true_iff; repeat split; try reflexivity; lia. }
    specialize (AV (v t) M1 M2). destruct (writes_new _ _ 14 (proj1 (aa_carries _ AV))) as (b & E & _); [rewrite (proj1 aa_widths _ AV); lia|]. unfold aach_says, open_access in E.
    destruct (Nat.eqb_spec t 1) as [T1|T1].
    + assert (TZ : (tm_t ts =? 1)%Z = true) by (subst t; lia). rewrite TZ in E. rewrite T1, D1, U1. cbn [UlSched.isnone assert bind]. unfold af. rewrite E. cbn [bind]. eauto.
    + assert (TZ : (tm_t ts =? 1)%Z = false) by (subst t; lia). rewrite TZ in E. assert (TR : (2 <=? t) && (t <=? 4) = true) by lia. rewrite TR.
      rewrite (ts_get_ok _ _ false) by assumption. cbn [bind]. rewrite H3. unfold busy_ts in E. unfold af.
      destruct (vw_hang (v t)), (vw_dl (v t)), (vw_ul (v t)); cbn [andb orb negb UlSched.isnone bind] in *; rewrite E; cbn [bind]; eauto.
Qed.
Lemma two_new (w1 w2 : wr) l1 l2 n : writes w1 l1 -> writes w2 l2 -> length l1 + length l2 <= n -> exists b1 b2, w1 (bb_new n) = Ok b1 /\ w2 b1 = Ok b2.
Proof.
  intros W1 W2 L. destruct (writes_new _ _ n W1 ltac:(lia)) as (b1 & E1 & O1). destruct (new_wrote _ _ _ O1 ltac:(lia)) as (F & _ & _ & LR).
  destruct (W2 b1 F (room_fixed b1 (length l2) ltac:(lia) F)) as (b2 & E2 & _). eauto.
Qed.
Lemma default_total c off cn s ts : cell_ok c = true -> vtime ts -> ds_pre s = pre_says c off cn ts -> exists b, generate_default ts s = Ok b /\
  match bk_chan b with CBsch | CSchHd => exists l, get_len (bk_buf b) = Ok l /\ l <= 124 | CSchF => get_len (bk_buf b) = Ok 268 | _ => False end.
Proof.
  intros CO V PR. pose proof V as (VT & VF & _). unfold generate_default.
  assert (NB : forall n b, mr_write mr_null_pdu (bb_new n) = Ok b -> get_len b = get_len (bb_new n)) by (intros n b E; exact (stays_len _ _ (mr_tame _ (bb_new n) _ eq_refl E))).
  destruct (Z.eqb_spec (tm_t ts) 1) as [T1|T1]; destruct ((1 <=? tm_f ts)%Z && (tm_f ts <=? 17)%Z) eqn:F; cbn [andb].
  1: { destruct (tm_f ts mod 2 =? 0)%Z; [destruct (null_new SCH_HD_CAP) as (b & E)|destruct (null_new SCH_F_CAP) as (b & E)]; try (unfold SCH_HD_CAP, SCH_F_CAP; lia);
       rewrite E; cbn [bind]; eexists; (split; [reflexivity|]); cbn [bk_chan bk_buf]; rewrite (NB _ _ E); [exists 124; split; [reflexivity|lia]|reflexivity]. }
  all: match goal with |- context [if ?g then _ else _] => assert (G : g = true) by lia; rewrite G end; rewrite PR; cbn [pre_says pc_sync pc_msync]; rewrite sync_wire;
    destruct (two_new _ _ _ _ 60 (proj1 (sync_carries _ (sync_good c ts CO V))) (proj1 (msync_carries _ (msync_good c CO)))) as (b1 & b2 & E1 & E2); try (rewrite !enc_length, sync_width, msync_width; lia);
    rewrite E1; cbn [bind]; rewrite E2; cbn [bind]; eexists; (split; [reflexivity|]); cbn [bk_chan bk_buf]; exists 60; (split; [|lia]).
  all: pose proof (block_write _ 60 _ _ (sync_safe _) (block_bb 60) E1) as B1; exact (proj2 (proj2 (block_write _ 60 _ _ (msync_safe _) B1 E2))).
Qed.
Lemma sysinfo_total c off cn s ts : cell_ok c = true -> offset_id c = Some off -> vtime ts -> ds_pre s = pre_says c off cn ts -> exists b, sysinfo_blk ts s = Ok b.
Proof.
  intros CO OF V PR. unfold sysinfo_blk. rewrite PR. destruct (si_all _ (si_good c off ts CO OF V)) as ((A1 & _) & AL). destruct (msi_carries _ (msi_good c cn CO)) as (B1 & _).
  assert (ES : (if (tm_t ts mod 2 =? 1)%Z then pc_si1 (pre_says c off cn ts) else pc_si2 (pre_says c off cn ts)) = sysinfo_says c off ts).
  { rewrite Zmod_odd. unfold sysinfo_says. destruct (Z.odd (tm_t ts)); reflexivity. }
  rewrite ES. cbn [pre_says pc_msi]. destruct (two_new _ _ _ _ 124 A1 B1) as (b1 & b2 & E1 & E2); [rewrite AL, enc_length, msi_width; lia|]. rewrite E1. cbn [bind]. rewrite E2. cbn [bind]. eauto.
Qed.

(** * What the slot carries *)
Lemma traffic_total k s q : four s -> voices (uc_tx (ds_circ s)) -> length (uc_dl (ds_circ s)) = 4 -> 1 <= k <= 4 -> live s -> get_q k s = Ok q ->
  exists tch o s' m, dl_build_traffic k s = Ok (tch, o, s', m) /\ live s'.
Proof.
  intros F4 VO LD K (L & LV) EQ. unfold dl_build_traffic, ucm_take, ucm_is_active. rewrite (ts_get_ok (uc_dl (ds_circ s)) k None LD K). cbn [bind]. 
  assert (TK : forall c', uc_tx c' = uc_tx (ds_circ s) \/ (exists t, uc_tx c' = ts_set (uc_tx (ds_circ s)) k t /\ Forall (fun b : list N => 35 <= length b) t) ->
    forall tch : bitbuf, exists tch0 o s' m, (q0 <- get_q k (set_circ c' s) ;; match take_first is_steal q0 with
       | Some (DlSteal b rep, q') => m <- mark_opt tx_mark_transmitted rep ;; Ok (tch, Some b, put_q k q' (set_circ c' s), m)
       | Some _ => Panic
       | None => Ok (tch, None, set_circ c' s, []) end) = Ok (tch0, o, s', m) /\ live s').
  { intros c' HC tch. change (get_q k (set_circ c' s)) with (get_q k s). rewrite EQ. cbn [bind].
    assert (LC : live (set_circ c' s)).
    { split; [exact L|]. cbn [ds_circ set_circ]. destruct HC as [->|(t & -> & HT)]; [exact LV|]. now apply ts_set_in. }
    pose proof (take_first_in is_steal q) as T. destruct (take_first is_steal q) as [[x q']|].
    - destruct T as (A & _ & C & _). destruct (C lawful (ts_get_in (Forall lawful) _ _ _ L EQ)) as (C1 & C2). destruct x as [| | | | |b rep]; try discriminate A. cbn [lawful] in C1.
      assert (exists m, mark_opt tx_mark_transmitted rep = Ok m) as (m & ->).
      { destruct rep as [t|]; [|cbn; eauto]. cbn [mark_opt]. unfold marked, tx_mark_transmitted, tx_mark. cbn [FragSpec.pending] in C1. rewrite C1, Nat.eqb_refl. cbn [bind]. eexists; reflexivity. }
      cbn [bind]. do 4 eexists. split; [reflexivity|]. now apply live_put.
    - do 4 eexists. split; [reflexivity|]. exact LC. }
  destruct (nth (k - 1) (uc_dl (ds_circ s)) None) as [u|].
  - destruct VO as (VL & VB). rewrite (ts_get_ok (uc_tx (ds_circ s)) k [] VL K). cbn [bind].
    pose proof (ts_get_ok (uc_tx (ds_circ s)) k [] VL K) as EG. pose proof (ts_get_in _ _ _ _ LV EG) as LB. cbn beta in LB.
    destruct (nth (k - 1) (uc_tx (ds_circ s)) []) as [|blk rest].
    + cbn [bind]. apply TK. now left.
    + cbn [bind]. cbv zeta. assert (B : 35 <= length blk) by exact (Forall_inv LB).
      assert (EE : exists b, set_raw_end (bstart (bb_from_vec blk) + TCH_S_CAP) (bb_from_vec blk) = Ok b).
      { unfold set_raw_end, cap. change (bstart (bb_from_vec blk)) with 0. change (bytes (bb_from_vec blk)) with blk. change (bpos (bb_from_vec blk)) with 0.
        assert (R1 : (0 + TCH_S_CAP <=? length blk * 8) = true) by (apply Nat.leb_le; unfold TCH_S_CAP; lia). unfold TCH_S_CAP in *. first [rewrite R1|rewrite Nat.mul_comm in R1; rewrite R1]. eexists; reflexivity. }
      destruct EE as (tb & EE). rewrite EE. cbn [bind].
      apply TK. right. exists rest. split; [reflexivity|exact (Forall_inv_tail LB)].
  - cbn [bind]. apply TK. now left.
Qed.
Lemma content_total ts (dla hang : bool) s q : let t := Z.to_nat (tm_t ts) in four s -> tidy s -> length (uc_dl (ds_circ s)) = 4 -> 1 <= t <= 4 -> live s -> get_q t s = Ok q ->
  (dla && negb hang = false -> ~ Exists hopeless q /\ (tm_f ts <> 18%Z -> existsb is_steal q = false)) ->
  exists o1 o2 s' m, slot_content ts dla hang s = Ok (o1, o2, s', m).
Proof.
  intros t F4 (TQ & TN & TV) LD T LV EQ H. unfold slot_content. fold t. destruct (dla && negb hang) eqn:D.
  - destruct (traffic_total t s q F4 TV LD T LV EQ) as (tch & o & s' & m & -> & L'). cbn [bind]. destruct o; do 4 eexists; reflexivity.
  - destruct (H eq_refl) as (H1 & H2). pose proof (live_get _ _ _ LV EQ) as LQ.
    destruct (integrate_total t s q EQ (not_hopeless _ H1)) as (q1 & EI & W1 & N1 & S1). rewrite EI. cbn [bind].
    assert (L1 : Forall lawful q1). { destruct (integrate_keeps _ _ _ _ EQ LQ EI) as (q1' & E' & L'). pose proof (get_put t s q1 F4 T) as G1. rewrite E' in G1. rewrite (get_put t s q1' F4 T) in G1. injection G1 as <-. exact L'. }
    destruct (signalling_total t (tm_f ts =? 18)%Z (put_q t q1 s) q1) as (o & q2 & m & ->); [now apply four_put|exact T|exact TN|now apply get_put|exact L1|exact W1|exact N1|intros F; rewrite S1; apply H2; lia|].
    cbn [bind]. destruct o as [b|]; [do 4 eexists; reflexivity|]. destruct (hang && dla); [|do 4 eexists; reflexivity].
    destruct (null_new SCH_F_CAP) as (b & ->); [unfold SCH_F_CAP; lia|]. cbn [bind]. do 4 eexists. reflexivity.
Qed.
Lemma content_keeps ts (dla hang : bool) s o1 o2 s' m : let t := Z.to_nat (tm_t ts) in four s -> tidy s -> length (uc_dl (ds_circ s)) = 4 -> 1 <= t <= 4 -> live s -> slot_content ts dla hang s = Ok (o1, o2, s', m) -> live s'.
Proof.
  intros t F4 (TQ & TN & TV) LD T LV E. pose proof (get_ok s t F4 T) as EQ. set (q := nth (t - 1) (ds_q s) []) in *. unfold slot_content in E. fold t in E.
  match type of E with (if ?c then _ else _) = _ => destruct c end.
  - destruct (traffic_total t s q F4 TV LD T LV EQ) as (tch & o & s1 & m1 & ET & L'). rewrite ET in E. cbn [bind] in E. destruct o; assert (s' = s1) as -> by congruence; exact L'.
  - pose proof (live_get _ _ _ LV EQ) as LQ. bi E. destruct (integrate_keeps _ _ _ _ EQ LQ E0) as (q1 & -> & L1). bi E. destruct x as [[o sx] mx].
    destruct (signalling_keeps t _ (put_q t q1 s) sx q1 o mx (four_put _ _ _ F4) T TN (get_put _ _ _ F4 T) L1 E1) as (q2 & l & -> & L2).
    assert (LF : live (set_next l (put_q t q2 (put_q t q1 s)))) by (apply (live_put (put_q t q1 s) t q2); [now apply live_put|exact L2]).
    destruct o as [b|]; [assert (s' = set_next l (put_q t q2 (put_q t q1 s))) as -> by congruence; exact LF|]. destruct (hang && dla); [|assert (s' = set_next l (put_q t q2 (put_q t q1 s))) as -> by congruence; exact LF].
    bi E. assert (s' = set_next l (put_q t q2 (put_q t q1 s))) as -> by congruence. exact LF.
Qed.

(** * The slot *)
Lemma finalize_total c cn v s now l : cell_ok c = true -> shows c cn v s -> tidy s -> live s -> four s -> ds_cur s = from_int now -> UlSchedProofs.inv (ds_ul s) (now - 1) l ->
  vw_dl (v 1) = None -> vw_ul (v 1) = None ->
  (let ts := add_timeslots (ds_cur s) 1 in forall q, get_q (Z.to_nat (tm_t ts)) s = Ok q -> ~ jams ts (v (Z.to_nat (tm_t ts))) q) ->
  exists k s' m, finalize_ts s = Ok (k, s', m).
Proof.
  intros CO SH TD LV F4 CU IV D1 U1 NJ. cbv zeta in NJ. set (ts := add_timeslots (ds_cur s) 1) in *. pose proof (add_valid (ds_cur s) 1) as V. fold ts in V. pose proof V as (VT & VF & _).
  unfold finalize_ts. cbv zeta. fold ts. set (t := Z.to_nat (tm_t ts)) in *. assert (T : 1 <= t <= 4) by (subst t; lia).
  destruct (shows_stamp _ _ _ _ ts SH) as (SH0 & off & OF & PS). set (s0 := set_pre (stamp ts (ds_pre s)) s) in *.
  rewrite (proj1 (active_view _ _ _ _ DirDl t SH0 T) eq_refl), (proj2 (active_view _ _ _ _ DirUl t SH0 T) eq_refl). cbn [bind].
  assert (EQ : get_q t s0 = Ok (nth (t - 1) (ds_q s) [])) by (exact (get_ok s t F4 T)). set (q := nth (t - 1) (ds_q s) []) in *.
  assert (PQ : pending t s0 = existsb is_steal q).
  { unfold pending, q. change (ds_q s0) with (ds_q s). rewrite (nth_error_nth' _ []) by (unfold four in F4; lia). reflexivity. }
  assert (exists h, (if (2 <=? t) && (t <=? 4) then is_hangtime_effective t s0 else Ok false) = Ok h) as (h & EH).
  { destruct ((2 <=? t) && (t <=? 4)); [|eauto]. unfold is_hangtime_effective. destruct SH0 as (_ & (_ & _ & LH & _) & _). rewrite (ts_get_ok _ _ false) by assumption. cbn [bind].
    destruct (nth (t - 1) (ds_hang s0) false); [|eauto]. unfold has_pending_stealing. destruct t; [lia|]. cbn [bind]. eauto. }
  rewrite EH. cbn [bind]. pose proof (hang_view _ _ _ _ _ _ SH0 T EH) as HV. rewrite PQ in HV.
  set (dla := match vw_dl (v t) with Some _ => true | None => false end && negb (tm_f ts =? 18)%Z).
  specialize (NJ q EQ).
  assert (NH : dla && negb h = false -> ~ Exists hopeless q /\ (tm_f ts <> 18%Z -> existsb is_steal q = false)).
  { intros D. unfold jams in NJ.
    assert (SG : tm_f ts = 18%Z \/ vw_dl (v t) = None \/ vw_hang (v t) = true /\ existsb is_steal q = false).
    { unfold dla in D. destruct (Z.eqb_spec (tm_f ts) 18); [auto|]. destruct (vw_dl (v t)); [|auto]. cbn [negb andb] in D. right; right. apply negb_false_iff in D. rewrite HV in D.
      apply andb_prop in D. destruct D as (D & D2). apply andb_prop in D. destruct D as (_ & D). apply negb_true_iff in D2. auto. }
    split; [intros X; apply NJ; auto|]. intros F. destruct (existsb is_steal q) eqn:ES; [|reflexivity]. exfalso. apply NJ. split; [exact SG|]. right.
    destruct SG as [X|[X|(_ & X)]]; [contradiction|auto|discriminate X]. }
  destruct (content_total ts dla h s0 q) as (o1 & o2 & s1 & m & EC); [exact F4|exact TD|apply SH0|exact T|exact LV|exact EQ|exact NH|].
  rewrite EC. cbn [bind]. pose proof (content_face _ _ _ _ _ _ _ _ EC) as FC. assert (SH1 : shows c cn v s1) by exact (face_shows _ _ _ _ _ FC SH0).
  assert (PS1 : ds_pre s1 = pre_says c off cn ts) by (destruct FC as (_ & -> & _); exact PS).
  destruct (content_raw _ _ _ s0 _ _ _ _ TD EC) as (_ & R1 & R2).
  assert (UL : exists u, UlSched.ul_clear ts (ds_ul s1) = Ok u).
  { destruct (UlSchedProofs.tick_spec (ds_ul s) (now - 1) l IV) as (u' & EU' & _). exists u'. destruct (content_like _ _ _ _ _ _ _ _ EC) as (_ & _ & EL). rewrite EL. change (ds_ul s0) with (ds_ul s).
    unfold ts. rewrite CU, UlSchedProofs.add_from. replace (now + 1)%Z with (now - 1 + 2)%Z by lia. exact EU'. }
  destruct (bbk_total _ _ _ _ ts SH1 V D1 U1) as (bbk & EB).
  destruct (default_total c off cn s1 ts CO V PS1) as (db & ED & DC).
  destruct (sysinfo_total c off cn s1 ts CO OF V PS1) as (sb & ESI).
  assert (FIN : forall b1 b2, raw b1 -> (forall b, b2 = Some b -> raw b) -> exists k s' m0,
    (blk1 <- try_add_null b1 ;;
     blk2 <- (match b2 with Some b => b <- try_add_null b ;; Ok (Some b) | None => Ok None end) ;;
     bbk <- rewind bbk ;; blk1 <- rewind blk1 ;;
     blk2 <- (match blk2 with Some b => b <- rewind b ;; Ok (Some b) | None => Ok None end) ;;
     u <- UlSched.ul_clear ts (ds_ul s1) ;;
     Ok (mk_slot ts blk1 blk2 bbk (match vw_ul (v t) with Some _ => true | None => false end && negb (tm_f ts =? 18)%Z && negb h), set_ul u s1, m)) = Ok (k, s', m0)).
  { intros b1 b2 W1 W2. destruct (add_null_ok _ W1) as (k1 & -> & W1'). cbn [bind]. destruct (rewind_ok _ (bbk_raw _ _ _ EB)) as (k0 & EK0). destruct (rewind_ok _ W1') as (k2 & EK2). destruct UL as (u & EU).
    destruct b2 as [b2|].
    - destruct (add_null_ok _ (W2 _ eq_refl)) as (k3 & -> & W3). cbn [bind]. rewrite EK0. cbn [bind]. rewrite EK2. cbn [bind]. destruct (rewind_ok _ W3) as (k4 & ->). cbn [bind]. rewrite EU. cbn [bind].
      do 3 eexists. reflexivity.
    - cbn [bind]. rewrite EK0. cbn [bind]. rewrite EK2. cbn [bind]. rewrite EU. cbn [bind]. do 3 eexists. reflexivity. }
  assert (DEF : exists k s' m0,
    (blk1 <- generate_default ts s1 ;;
     blk2 <- (match bk_chan blk1, (None : option dl_blk) with
           | CStch, Some b => Ok (Some b)
           | CStch, None => Panic
           | (CBsch | CSchHd), None => l <- get_len (bk_buf blk1) ;; assert (l <=? 124) ;;; b <- sysinfo_blk ts s1 ;; Ok (Some b)
           | _, None => l <- get_len (bk_buf blk1) ;; assert (268 <=? l) ;;; Ok None
           | _, Some b => Ok (Some b)
           end) ;;
     blk1 <- try_add_null blk1 ;;
     blk2 <- (match blk2 with Some b => b <- try_add_null b ;; Ok (Some b) | None => Ok None end) ;;
     bbk <- rewind bbk ;; blk1 <- rewind blk1 ;;
     blk2 <- (match blk2 with Some b => b <- rewind b ;; Ok (Some b) | None => Ok None end) ;;
     u <- UlSched.ul_clear ts (ds_ul s1) ;;
     Ok (mk_slot ts blk1 blk2 bbk (match vw_ul (v t) with Some _ => true | None => false end && negb (tm_f ts =? 18)%Z && negb h), set_ul u s1, m)) = Ok (k, s', m0)).
  { rewrite ED. cbn [bind]. pose proof (default_raw _ _ _ ED) as DR. destruct (bk_chan db) eqn:EBC; try contradiction.
    - rewrite DC. cbn [bind]. change (268 <=? 268) with true. cbn [assert bind]. refine (FIN db None DR _). discriminate.
    - destruct DC as (n & -> & LN). cbn [bind]. rewrite (proj2 (Nat.leb_le _ _) LN). cbn [assert bind]. rewrite ESI. cbn [bind]. refine (FIN db (Some sb) DR _). intros b X. injection X as <-. exact (sysinfo_raw _ _ _ ESI).
    - destruct DC as (n & -> & LN). cbn [bind]. rewrite (proj2 (Nat.leb_le _ _) LN). cbn [assert bind]. rewrite ESI. cbn [bind]. refine (FIN db (Some sb) DR _). intros b X. injection X as <-. exact (sysinfo_raw _ _ _ ESI). }
  destruct (dla && negb h) eqn:DH.
  - apply andb_prop in DH. destruct DH as (DA & HF). apply negb_true_iff in HF. rewrite DA, HF in EC. destruct (content_traffic _ _ _ _ _ _ V EC) as (tch & TL & CT).
    assert (N18 : negb (tm_f ts =? 18)%Z = true) by (unfold dla in DA; apply andb_prop in DA; apply DA).
    assert (AS : assert (UlSched.isnone o1 || negb (tm_f ts =? 18)%Z) = Ok tt) by (rewrite N18, orb_true_r; reflexivity). rewrite AS. cbn [bind]. rewrite EB. cbn [bind].
    destruct (pending (Z.to_nat (tm_t ts)) s0).
    + destruct CT as (b & -> & ->). cbn [bind bk_chan bk_buf]. refine (FIN _ (Some _) (R1 _ eq_refl) _). intros ? X; apply R2; exact X.
    + destruct CT as (-> & ->). cbn [bind bk_chan bk_buf]. rewrite TL. cbn [bind]. change (268 <=? 274) with true. cbn [assert bind]. refine (FIN _ None (R1 _ eq_refl) _). discriminate.
  - destruct (content_signalling _ _ _ _ _ _ _ _ DH EC) as (-> & [(-> & _)|(b & B & ->)]).
    + cbn [UlSched.isnone orb assert bind]. rewrite EB. cbn [bind]. exact DEF.
    + assert (AS : negb (tm_f ts =? 18)%Z = true).
      { destruct (Z.eqb_spec (tm_f ts) 18) as [F|F]; [|reflexivity]. exfalso. assert (DF : dla = false) by (unfold dla; try rewrite F; cbn [negb Z.eqb Pos.eqb]; apply andb_false_r). rewrite DF in EC.
        unfold slot_content in EC. cbn [andb] in EC. apply bind_inv in EC. destruct EC as (x & EX & EC). rewrite F in EC. cbn [Z.eqb Pos.eqb] in EC. apply bind_inv in EC. destruct EC as (((o & sx) & mx) & EX2 & EC).
        assert (o = None) as ->. { unfold dl_build_signalling in EX2. apply bind_inv in EX2. destruct EX2 as (qx & _ & EX2). 
          assert (BL : build_loop (length qx) true qx (ds_next x) None = Ok (None, qx, ds_next x, [])) by (destruct qx; reflexivity). rewrite BL in EX2. cbn [bind] in EX2. destruct (ds_next x); [congruence|]. destruct qx; cbn in EX2; congruence. }
        rewrite andb_false_r in EC. discriminate EC. }
      assert (AT : forall o : option dl_blk, assert (UlSched.isnone o || negb (tm_f ts =? 18)%Z) = Ok tt) by (intros o; rewrite AS, orb_true_r; reflexivity). rewrite AT. cbn [bind]. rewrite EB. cbn [bind]. cbn [bk_chan bk_buf]. rewrite (proj2 B). cbn [bind]. change (268 <=? 268) with true. cbn [assert bind]. refine (FIN _ None (R1 _ eq_refl) _). discriminate.
Qed.

Lemma finalize_keeps c cn v s k s' m : shows c cn v s -> tidy s -> live s -> four s -> finalize_ts s = Ok (k, s', m) -> live s'.
Proof.
  intros SH TD LV F4 E. set (ts := add_timeslots (ds_cur s) 1). pose proof (add_valid (ds_cur s) 1) as V. fold ts in V. pose proof V as (VT & VF & _).
  unfold finalize_ts in E. cbv zeta in E. fold ts in E. set (t := Z.to_nat (tm_t ts)) in *. assert (T : 1 <= t <= 4) by (subst t; lia).
  set (s0 := set_pre (stamp ts (ds_pre s)) s) in *. bi E. bi E. bi E. bi E. destruct x2 as [[[o1 o2] s1] m1]. do 9 (bi E).
  match type of E with bind ?u _ = _ => bi E | _ => idtac end. match type of E with Ok (_, ?b, _) = _ => assert (ES : s' = b) by congruence end. rewrite ES.
  refine (content_keeps _ _ _ s0 _ _ _ _ F4 TD _ T LV E3). apply SH.
Qed.

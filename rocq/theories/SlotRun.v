(** The slots of every history. *)
From Coq Require Import Arith.
From Verif Require Import Base BitsLib AMap BitBuffer BitBufferProofs BitBufferOps Codec CodecProofs Layout LayoutProofs TypedFields MacFields MacPdus MacBroadcast MleBroadcast MacSpec
  MacBroadcastProofs LlcBits TdmaTime TdmaTimeProofs Freqs TxReceipt UmacCircuits UmacCircuitsProofs DlSched DlSlot DlFinal UmacPrecomps UmacBs UlBlockSpec UlBlockProofs UlBlockPdu SlotSpec SlotTame SlotProofs.
From Verif Require Import UmacSched.
From Verif Require Scrambler CallControl UlSched.
Open Scope nat_scope.

Lemma shows_stamp c cn v s ts : shows c cn v s -> shows c cn v (set_pre (stamp ts (ds_pre s)) s) /\ exists off, offset_id c = Some off /\ stamp ts (ds_pre s) = pre_says c off cn ts.
Proof.
  intros (A & B & off & t & O & P). assert (E : stamp ts (ds_pre s) = pre_says c off cn ts) by (rewrite P; reflexivity).
  split; [|exists off; auto]. split; [exact A|]. split; [exact B|]. exists off, ts. split; [exact O|]. exact E.
Qed.
Lemma hang_view c cn v s t h : shows c cn v s -> 1 <= t <= 4 -> (if (2 <=? t) && (t <=? 4) then is_hangtime_effective t s else Ok false) = Ok h ->
  h = negb (t =? 1) && vw_hang (v t) && negb (pending t s).
Proof.
  intros (_ & (_ & _ & L & H) & _) T E. destruct (H t T) as (_ & _ & H3 & _). destruct (Nat.eqb_spec t 1) as [->|N1].
  - cbn in E. injection E as <-. reflexivity.
  - assert (R : (2 <=? t) && (t <=? 4) = true) by lia. rewrite R in E. unfold is_hangtime_effective in E. rewrite (ts_get_ok _ _ false) in E by assumption. cbn [bind] in E. rewrite H3 in E.
    destruct (vw_hang (v t)); [|injection E as <-; reflexivity]. bi E. injection E as <-. unfold has_pending_stealing in E0. destruct t as [|i]; [lia|]. injection E0 as <-.
    unfold pending. replace (Datatypes.S i - 1) with i by lia. reflexivity.
Qed.
(** What the scheduler sends at a tick. *)
Lemma finalize_true c cn v s k s' m : cell_ok c = true -> shows c cn v s -> finalize_ts s = Ok (k, s', m) -> slot_true c cn (ds_cur s) v k /\ shows c cn v s'.
Proof.
  intros CO SH E. set (ts := add_timeslots (ds_cur s) 1). pose proof (add_valid (ds_cur s) 1) as V. fold ts in V. pose proof V as (VT & VF & _).
  unfold finalize_ts in E. cbv zeta in E. fold ts in E. set (t := Z.to_nat (tm_t ts)) in *. assert (T : 1 <= t <= 4) by (subst t; lia).
  destruct (shows_stamp _ _ _ _ ts SH) as (SH0 & off & OF & PS). set (s0 := set_pre (stamp ts (ds_pre s)) s) in *.
  rewrite (proj1 (active_view _ _ _ _ DirDl t SH0 T) eq_refl), (proj2 (active_view _ _ _ _ DirUl t SH0 T) eq_refl) in E. cbn [bind] in E.
  bi E. apply (hang_view _ _ _ _ _ _ SH0 T) in E0. change (pending t s0) with (pending t s) in E0.
  bi E. destruct x0 as [[[o1 o2] s1] m1]. bi E. bi E. bi E. bi E. bi E. bi E. bi E. bi E. bi E. bi E. match type of E with Ok (?a, ?b, ?d) = _ => assert (EK : a = k) by congruence; assert (ES : b = s') by congruence end. clear E.
  pose proof (content_face _ _ _ _ _ _ _ _ E1) as FC. assert (SH1 : shows c cn v s1) by exact (face_shows _ _ _ _ _ FC SH0).
  assert (SC : ds_scr s1 = code_of c) by apply SH1. assert (SC0 : ds_scr s0 = code_of c) by apply SH0. assert (SCS : ds_scr s = code_of c) by apply SH0.
  assert (PS1 : ds_pre s1 = pre_says c off cn ts) by (destruct FC as (_ & -> & _); exact PS).
  destruct (aach _ _ _ _ _ _ _ SH1 V E3 E8) as (A1 & A2 & A3 & A4 & A5).
  split; [|subst s'; destruct SH1 as (Q1 & Q2 & Q3); split; [exact Q1|split; [exact Q2|exact Q3]]].
  unfold slot_true. fold ts t. rewrite <- EK. cbn [sl_ts sl_blk1 sl_blk2 sl_bbk sl_ul_tp]. split; [reflexivity|].
  split; [|split; [exact A1|split; [exact A2|split; [exact A3|exact A4]]]]. clear A1 A2 A3 A4.
  (* the second block *)
  assert (BN : forall b, sysinfo_blk ts s1 = Ok b -> x3 = Some b -> exists b2, x8 = Some b2 /\ bk_chan b2 = CBnch /\ bk_scr b2 = code_of c /\ get_len (bk_buf b2) = Ok 124 /\
            reads_all (then_read si_read msi_read) (bk_buf b2) (sysinfo_says c off ts, msysinfo_says c cn) /\ exists rest, window (bk_buf b2) = Layout.enc (MacSpec.si_layout (sysinfo_says c off ts)) ++ rest).
  { intros b EB ->. bi E7. injection E7 as <-. bi E10. injection E10 as <-. eexists. split; [reflexivity|]. exact (bnch _ _ _ _ _ _ _ _ CO OF V SC PS1 EB E E7). }
  assert (N2 : x3 = None -> x8 = None) by (intros ->; injection E7 as <-; congruence).
  assert (UL : exists stealing, (vw_dl (v t) <> None -> tm_f ts <> 18%Z -> tm_t ts <> 1%Z -> stealing = pending t s) /\
     match vw_ul (v t) with Some _ => true | None => false end && negb (tm_f ts =? 18)%Z && negb x =
     match vw_ul (v t) with Some _ => true | None => false end && negb (tm_f ts =? 18)%Z && (negb (vw_hang (v t)) || stealing)).
  { exists (pending t s). split; [auto|]. destruct (Z.eqb_spec (tm_f ts) 18) as [F|F]; [now rewrite !Bool.andb_false_r|]. rewrite E0. destruct (Nat.eqb_spec t 1) as [T1|T1].
    - assert (TZ : tm_t ts = 1%Z) by (subst t; lia). destruct (A5 F TZ) as (_ & U1). rewrite T1, U1. reflexivity.
    - destruct (vw_hang (v t)), (pending t s); reflexivity. }
  destruct (Z.eqb_spec (tm_f ts) 18) as [F18|F18].
  - (* frame 18 *)
    cbn [negb] in *. rewrite Bool.andb_false_r in E1. destruct o1 as [b0|]; [discriminate E2|].
    unfold generate_default in E4. assert (G1 : (1 <=? tm_f ts)%Z && (tm_f ts <=? 17)%Z && (tm_t ts =? 1)%Z = false) by lia. rewrite G1 in E4.
    assert (G2 : (1 <=? tm_f ts)%Z && (tm_f ts <=? 17)%Z && (2 <=? tm_t ts)%Z && (tm_t ts <=? 4)%Z || (tm_f ts =? 18)%Z = true) by lia. rewrite G2 in E4. rewrite PS1 in E4. bi E4. bi E4. injection E4 as <-.
    edestruct (bsch c off cn ts) as (B1 & B2 & B3 & B4); [exact CO|exact V|eassumption|eassumption|exact E6|exact E9|]. cbn [bk_chan bk_buf] in E5.
    destruct (content_signalling ts false x s0 _ _ _ _ eq_refl E1) as (-> & _). bi E5. bi E5. bi E5. injection E5 as <-. match goal with HB : sysinfo_blk _ _ = Ok _ |- _ => destruct (BN _ HB eq_refl) as (b2 & -> & C1 & C2 & C3 & C4) end.
    exists KSync. unfold kind_of. cbn [sl_blk1 sl_blk2 option_map]. rewrite B1, C1. split; [reflexivity|]. split; [unfold kind_fits; rewrite F18; reflexivity|].
    split; [split; [exact B3|exists b2; auto]|]. split; [split; [intros _; exact B4|intros _; exists b2, off; auto]|]. split; [exact B2|]. split; [intros b0 H0; injection H0 as <-; exact C2|].
    destruct UL as (st & _ & U2). exists st. split; [intros _ X; contradiction|exact U2].
  - cbn [negb] in *. rewrite Bool.andb_true_r in *. destruct (vw_dl (v t)) as [mk|] eqn:DL.
    + (* a circuit *)
      assert (T1 : t <> 1). { intros T1. assert (TZ : tm_t ts = 1%Z) by (subst t; lia). destruct (A5 F18 TZ) as (D1 & _). rewrite <- T1 in D1. congruence. }
      assert (X : x = vw_hang (v t) && negb (pending t s)) by (rewrite E0; destruct (Nat.eqb_spec t 1); [contradiction|reflexivity]). clear E0.
      destruct x.
      * symmetry in X. apply andb_prop in X. destruct X as (X1 & X2). apply negb_true_iff in X2.
        destruct (content_signalling ts true true s0 _ _ _ _ eq_refl E1) as (-> & [(_ & Q)|(b & B & ->)]); [discriminate Q|]. injection E4 as <-. rewrite SCS in E6. cbn [bk_chan bk_buf] in E5.
        bi E5. bi E5. injection E5 as <-. rewrite (N2 eq_refl). destruct (null_block _ _ _ _ _ _ (proj1 B) (proj2 B) E6 E9) as (B1 & B2 & B3).
        exists KSignalling. unfold kind_of. cbn [sl_blk1 sl_blk2 option_map]. rewrite B1. split; [reflexivity|]. split; [unfold kind_fits; rewrite (proj2 (Z.eqb_neq _ _) F18), DL; exact X1|].
        split; [exact B3|]. split; [split; [discriminate|intros [Q|Q]; discriminate Q]|]. split; [exact B2|]. split; [discriminate|].
        destruct UL as (st & U1 & U2). exists st. split; [|exact U2]. intros Q1 Q2 Q3. rewrite (U1 Q1 Q2 Q3). exact X2.
      * destruct (content_traffic _ _ _ _ _ _ V E1) as (tch & TL & CT). fold t in CT. change (pending t s0) with (pending t s) in CT. rewrite SC0 in CT. destruct (pending t s) eqn:PD.
        -- destruct CT as (b & -> & ->). injection E4 as <-. cbn [bk_chan bk_buf] in E5. injection E5 as <-. bi E7. injection E7 as <-. bi E10. injection E10 as <-.
           destruct (kept_block CStch _ _ _ _ Logic.I E6 E9) as (_ & B1 & B2 & _). destruct (kept_block CTchS _ _ _ _ Logic.I E E0) as (_ & C1 & C2 & C3).
           exists KStolen. unfold kind_of. cbn [sl_blk1 sl_blk2 option_map]. rewrite B1, C1. split; [reflexivity|]. split; [unfold kind_fits; rewrite (proj2 (Z.eqb_neq _ _) F18), DL; reflexivity|].
           split; [eexists; split; [reflexivity|congruence]|]. split; [split; [discriminate|intros [Q|Q]; discriminate Q]|]. split; [exact B2|]. split; [intros b0 Q; injection Q as <-; exact C2|].
           destruct UL as (st & U1 & U2). exists st. split; [|exact U2]. intros Q1 Q2 Q3. exact (U1 Q1 Q2 Q3).
        -- destruct CT as (-> & ->). injection E4 as <-. cbn [bk_chan bk_buf] in E5. bi E5. bi E5. injection E5 as <-. rewrite (N2 eq_refl).
           destruct (kept_block CTchS _ _ _ _ Logic.I E6 E9) as (_ & C1 & C2 & C3).
           exists KTraffic. unfold kind_of. cbn [sl_blk1 sl_blk2 option_map]. rewrite C1. split; [reflexivity|].
           split; [unfold kind_fits; rewrite (proj2 (Z.eqb_neq _ _) F18), DL; destruct (vw_hang (v t)); [discriminate X|reflexivity]|].
           split; [unfold lengths_fit; cbn [sl_blk1]; congruence|]. split; [split; [discriminate|intros [Q|Q]; discriminate Q]|]. split; [exact C2|]. split; [discriminate|].
           destruct UL as (st & U1 & U2). exists st. split; [|exact U2]. intros Q1 Q2 Q3. exact (U1 Q1 Q2 Q3).
    + (* no circuit *)
      destruct (content_signalling ts false x s0 _ _ _ _ eq_refl E1) as (-> & [(-> & _)|(b & B & ->)]).
      * unfold generate_default in E4. destruct (Z.eqb_spec (tm_t ts) 1) as [T1|T1].
        -- assert (G1 : (1 <=? tm_f ts)%Z && (tm_f ts <=? 17)%Z && true = true) by lia. rewrite G1 in E4. destruct (tm_f ts mod 2 =? 0)%Z eqn:EV.
           ++ bi E4. injection E4 as <-. rewrite SC in *. cbn [bk_chan bk_buf] in E5. bi E5. bi E5. bi E5. injection E5 as <-. match goal with HB : sysinfo_blk _ _ = Ok _ |- _ => destruct (BN _ HB eq_refl) as (b2 & -> & C1 & C2 & C3 & C4) end.
              match type of E with _ = Ok ?y => assert (LB : autoexp y = false /\ get_len y = Ok 124) by (pose proof (mr_tame _ (bb_new SCH_HD_CAP) _ eq_refl E) as S1; split; [exact (proj2 (proj2 S1))|rewrite (stays_len _ _ S1); reflexivity]) end.
              destruct (null_block _ _ _ _ _ _ (proj1 LB) (proj2 LB) E6 E9) as (B1 & B2 & B3).
              exists KHalf. unfold kind_of. cbn [sl_blk1 sl_blk2 option_map]. rewrite B1, C1. split; [reflexivity|].
              split; [unfold kind_fits; rewrite (proj2 (Z.eqb_neq _ _) F18), DL, T1; cbn [Z.eqb Pos.eqb andb]; rewrite Zmod_even in EV; destruct (Z.even (tm_f ts)); [reflexivity|discriminate EV]|].
              split; [split; [exact B3|exists b2; auto]|]. split; [split; [discriminate|intros _; exists b2, off; auto]|]. split; [exact B2|]. split; [intros b0 Q; injection Q as <-; exact C2|].
              destruct UL as (st & _ & U2). exists st. split; [intros Q; contradiction|exact U2].
           ++ bi E4. injection E4 as <-. rewrite SC in *. cbn [bk_chan bk_buf] in E5. bi E5. bi E5. injection E5 as <-. rewrite (N2 eq_refl).
              pose proof (block_stays _ _ (mr_tame _ (bb_new SCH_F_CAP) _ eq_refl E) block_new) as LB.
              destruct (null_block _ _ _ _ _ _ (proj1 LB) (proj2 LB) E6 E9) as (B1 & B2 & B3).
              exists KSignalling. unfold kind_of. cbn [sl_blk1 sl_blk2 option_map]. rewrite B1. split; [reflexivity|]. split; [unfold kind_fits; rewrite (proj2 (Z.eqb_neq _ _) F18), DL; reflexivity|].
              split; [exact B3|]. split; [split; [discriminate|intros [Q|Q]; discriminate Q]|]. split; [exact B2|]. split; [discriminate|].
              destruct UL as (st & _ & U2). exists st. split; [intros Q; contradiction|exact U2].
        -- rewrite Bool.andb_false_r in E4. assert (G2 : (1 <=? tm_f ts)%Z && (tm_f ts <=? 17)%Z && (2 <=? tm_t ts)%Z && (tm_t ts <=? 4)%Z || (tm_f ts =? 18)%Z = true) by lia. rewrite G2 in E4. rewrite PS1 in E4.
           bi E4. bi E4. injection E4 as <-. edestruct (bsch c off cn ts) as (B1 & B2 & B3 & B4); [exact CO|exact V|eassumption|eassumption|exact E6|exact E9|]. cbn [bk_chan bk_buf] in E5.
           bi E5. bi E5. bi E5. injection E5 as <-. match goal with HB : sysinfo_blk _ _ = Ok _ |- _ => destruct (BN _ HB eq_refl) as (b2 & -> & C1 & C2 & C3 & C4) end.
           exists KSync. unfold kind_of. cbn [sl_blk1 sl_blk2 option_map]. rewrite B1, C1. split; [reflexivity|].
           split; [unfold kind_fits; rewrite (proj2 (Z.eqb_neq _ _) F18), DL, (proj2 (Z.eqb_neq _ _) T1); reflexivity|].
           split; [split; [exact B3|exists b2; auto]|]. split; [split; [intros _; exact B4|intros _; exists b2, off; auto]|]. split; [exact B2|]. split; [intros b0 Q; injection Q as <-; exact C2|].
           destruct UL as (st & _ & U2). exists st. split; [intros Q; contradiction|exact U2].
      * injection E4 as <-. rewrite SCS in E6. cbn [bk_chan bk_buf] in E5. bi E5. bi E5. injection E5 as <-. rewrite (N2 eq_refl). destruct (null_block _ _ _ _ _ _ (proj1 B) (proj2 B) E6 E9) as (B1 & B2 & B3).
        exists KSignalling. unfold kind_of. cbn [sl_blk1 sl_blk2 option_map]. rewrite B1. split; [reflexivity|]. split; [unfold kind_fits; rewrite (proj2 (Z.eqb_neq _ _) F18), DL; reflexivity|].
        split; [exact B3|]. split; [split; [discriminate|intros [Q|Q]; discriminate Q]|]. split; [exact B2|]. split; [discriminate|].
        destruct UL as (st & _ & U2). exists st. split; [intros Q; contradiction|exact U2].
Qed.

(** * What every event does to what the scheduler holds *)
Lemma get_in {A} (l : list A) ts x : length l = 4 -> ts_get l ts = Ok x -> 1 <= ts <= 4.
Proof.
  intros L E. unfold ts_get in E. destruct ts as [|i]; [discriminate E|]. assert (N : nth_error l i <> None) by (destruct (nth_error l i); discriminate). apply nth_error_Some in N. lia.
Qed.
Lemma holds_ext v v' dl ul h : (forall k, 1 <= k <= 4 -> v k = v' k) -> holds v dl ul h -> holds v' dl ul h.
Proof. intros X (A & B & C & H). do 3 (split; [assumption|]). intros k K. rewrite <- (X k K). exact (H k K). Qed.
Lemma shows_ext c cn v v' s : (forall k, 1 <= k <= 4 -> v k = v' k) -> shows c cn v s -> shows c cn v' s.
Proof. intros X (A & B & C). split; [exact A|]. split; [exact (holds_ext _ _ _ _ _ X B)|exact C]. Qed.
(** One timeslot changes. *)
Lemma holds_set v dl ul h ts w f dl' ul' h' : holds v dl ul h -> 1 <= ts <= 4 -> f (v ts) = w -> mark_fine (vw_dl w) -> mark_fine (vw_ul w) ->
  length dl' = 4 -> length ul' = 4 -> length h' = 4 ->
  (forall k, 1 <= k <= 4 -> nth (k - 1) dl' None = (if k =? ts then vw_dl w else nth (k - 1) dl None) /\
     nth (k - 1) ul' None = (if k =? ts then vw_ul w else nth (k - 1) ul None) /\ nth (k - 1) h' false = (if k =? ts then vw_hang w else nth (k - 1) h false)) ->
  holds (at_ts ts f v) dl' ul' h'.
Proof.
  intros (A & B & C & H) T F M1 M2 L1 L2 L3 X. do 3 (split; [assumption|]). intros k K. destruct (X k K) as (X1 & X2 & X3). destruct (H k K) as (H1 & H2 & H3 & H4 & H5).
  unfold at_ts. destruct (Nat.eqb_spec k ts) as [->|N]; [rewrite F; auto|]. rewrite X1, X2, X3. auto.
Qed.
Lemma nth_same {A} (l : list A) ts k d : 1 <= ts <= 4 -> 1 <= k <= 4 -> nth (k - 1) l d = if k =? ts then nth (ts - 1) l d else nth (k - 1) l d.
Proof. intros _ _. destruct (Nat.eqb_spec k ts) as [->|N]; reflexivity. Qed.
Lemma set_len {A} (l : list A) ts x : length l = 4 -> length (ts_set l ts x) = 4.
Proof. intros L. unfold ts_set. now rewrite upd_length. Qed.
Lemma clear_hang_eq ts s : 1 <= ts <= 4 -> clear_hang ts s = set_hang (ts_set (ds_hang s) ts false) s.
Proof. intros T. unfold clear_hang. assert (E : (1 <=? ts) && (ts <=? 4) = true) by lia. now rewrite E. Qed.
Lemma close_shows c cn v s d ts o s' : shows c cn v s -> dl_close_circuit d ts s = Ok (o, s') -> shows c cn (at_ts ts (closed d) v) s'.
Proof.
  intros (SC & HO & PR) E. pose proof HO as (A & B & C & H). unfold dl_close_circuit in E. bi E. destruct x as [o' cc]. injection E as _ <-. unfold ucm_close in E0.
  destruct d; try discriminate E0; bi E0; [pose proof (get_in _ _ _ A E) as T|pose proof (get_in _ _ _ B E) as T]; injection E0 as _ <-;
    rewrite (clear_hang_eq _ _ T); (split; [exact SC|]; split; [|exact PR]); cbn [ds_circ set_circ set_hang ds_hang uc_dl uc_ul]; destruct (H ts T) as (H1 & H2 & H3 & H4 & H5);
    eapply (holds_set _ _ _ _ ts _ _ _ _ _ HO T eq_refl); cbn [closed vw_dl vw_ul vw_hang downwards upwards]; try exact H4; try exact H5; try exact Logic.I; try (apply set_len; assumption); try assumption;
    intros k K; rewrite ?nth_ts_set by assumption; rewrite <- ?H1, <- ?H2; repeat split; try reflexivity; now apply nth_same.
Qed.
Lemma create_shows c cn v s d ts u s' : (4 <= u <= 63)%N -> shows c cn v s -> dl_create_circuit d ts u s = Ok s' -> shows c cn (at_ts ts (opened d u) v) s'.
Proof.
  intros MU (SC & HO & PR) E. pose proof HO as (A & B & C & H). unfold dl_create_circuit in E. bi E. injection E as <-. unfold ucm_create in E0. bi E0.
  assert (T : 1 <= ts <= 4).
  { unfold ucm_is_active in E. destruct d; try discriminate E; bi E; [exact (get_in _ _ _ A E1)|exact (get_in _ _ _ B E1)]. }
  assert (CL : exists m, (if x0 then ' (_, m) <- ucm_close d ts (ds_circ s) ;; Ok m else Ok (ds_circ s)) = Ok m /\ length (uc_dl m) = 4 /\ length (uc_ul m) = 4 /\
     forall k, 1 <= k <= 4 -> (k <> ts \/ d <> DirDl -> nth (k - 1) (uc_dl m) None = nth (k - 1) (uc_dl (ds_circ s)) None) /\ (k <> ts \/ d <> DirUl -> nth (k - 1) (uc_ul m) None = nth (k - 1) (uc_ul (ds_circ s)) None)).
  { destruct x0; [|exists (ds_circ s); auto]. unfold ucm_close. destruct d; try discriminate E.
    - rewrite (ts_get_ok _ _ None A T). cbn [bind]. eexists. split; [reflexivity|]. cbn [uc_dl uc_ul]. split; [now apply set_len|]. split; [assumption|]. intros k K. split; [|auto]. intros [N|N]; [|contradiction].
      rewrite nth_ts_set by assumption. destruct (Nat.eqb_spec k ts); [contradiction|reflexivity].
    - rewrite (ts_get_ok _ _ None B T). cbn [bind]. eexists. split; [reflexivity|]. cbn [uc_dl uc_ul]. split; [assumption|]. split; [now apply set_len|]. intros k K. split; [auto|]. intros [N|N]; [|contradiction].
      rewrite nth_ts_set by assumption. destruct (Nat.eqb_spec k ts); [contradiction|reflexivity]. }
  destruct CL as (m & EM & LM1 & LM2 & HM). rewrite EM in E0. cbn [bind] in E0.
  rewrite (clear_hang_eq _ _ T). split; [exact SC|]. split; [|exact PR]. cbn [ds_circ set_circ set_hang ds_hang]. destruct (H ts T) as (H1 & H2 & H3 & H4 & H5).
  destruct d; try discriminate E0; [bi E0|]; injection E0 as <-; cbn [uc_dl uc_ul];
    eapply (holds_set _ _ _ _ ts _ _ _ _ _ HO T eq_refl); cbn [opened vw_dl vw_ul vw_hang downwards upwards]; try exact H4; try exact H5; try exact MU; try (apply set_len; assumption); try assumption;
    intros k K; rewrite ?nth_ts_set by assumption; destruct (HM k K) as (M1 & M2); rewrite <- ?H1, <- ?H2; destruct (Nat.eqb_spec k ts) as [->|N]; repeat split; try reflexivity; (apply M1 || apply M2); first [left; assumption|right; discriminate].
Qed.
Lemma marks_out ts f v dl ul h : ~ (1 <= ts <= 4) -> holds v dl ul h -> holds (at_ts ts f v) dl ul h.
Proof. intros N. apply holds_ext. intros k K. unfold at_ts. destruct (Nat.eqb_spec k ts); [lia|reflexivity]. Qed.
Lemma hang_shows c cn v s ts on s' m : shows c cn v s -> set_hangtime ts on s = Ok (s', m) -> shows c cn (at_ts ts (hanging on) v) s'.
Proof.
  intros (SC & HO & PR) E. pose proof HO as (A & B & C & H). unfold set_hangtime in E. destruct ((1 <=? ts) && (ts <=? 4)) eqn:R.
  - assert (T : 1 <= ts <= 4) by lia. set (s1 := set_hang (ts_set (ds_hang s) ts on) s) in *.
    assert (S1 : shows c cn (at_ts ts (hanging on) v) s1).
    { split; [exact SC|]. split; [|exact PR]. cbn [s1 ds_circ set_hang ds_hang]. destruct (H ts T) as (H1 & H2 & H3 & H4 & H5).
      eapply (holds_set _ _ _ _ ts _ _ _ _ _ HO T eq_refl); cbn [hanging vw_dl vw_ul vw_hang]; try assumption; [now apply set_len|]. intros k K. rewrite nth_ts_set, <- H1, <- H2 by assumption. split; [now apply nth_same|]. split; [now apply nth_same|reflexivity]. }
    destruct on; [injection E as <- _; exact S1|]. unfold dl_drop_all_except_stolen in E. bi E. bi E. destruct x0 as [[k r] m1]. bi E.
    match type of E with Ok (?a, _) = _ => assert (ES : s' = a) by congruence end. rewrite ES. refine (face_shows _ _ _ _ _ _ S1). unfold face, put_q, set_q. cbn. auto 6.
  - injection E as <- _. split; [exact SC|]. split; [|exact PR]. apply marks_out; [lia|exact HO].
Qed.
Lemma open_shows c cn us : (4 <= us <= 63)%N -> forall d ts v u u', shows c cn v (um_sch u) -> open_dirs (dirs_of d) ts us u = Ok u' ->
  shows c cn (at_ts ts (opened d us) v) (um_sch u') /\ um_sws u' = um_sws u.
Proof.
  intros MU d ts v u u' S E.
  assert (ONE : forall d0 r v0 w, shows c cn v0 (um_sch w) -> open_dirs (d0 :: r) ts us w = Ok u' -> exists w', open_dirs r ts us w' = Ok u' /\ shows c cn (at_ts ts (opened d0 us) (if match d0 with DirDl | DirUl => true | _ => false end then v0 else v0)) (um_sch w') /\ um_sws w' = um_sws w).
  { intros d0 r v0 w S0 E0. cbn [open_dirs] in E0. bi E0. bi E0. bi E0.
    assert (X : shows c cn (if x then at_ts ts (closed d0) v0 else v0) x0).
    { destruct x; [|injection E2 as <-; exact S0]. bi E2. destruct x as [o s]. injection E2 as <-. exact (close_shows _ _ _ _ _ _ _ _ S0 E4). }
    pose proof (create_shows _ _ _ _ _ _ _ _ MU X E3) as Y. eexists. split; [exact E0|].
    assert (VS : forall b : bool, um_sch (if b then set_voice ts (Some (um_time (set_sch x1 w))) (set_sch x1 w) else set_sch x1 w) = x1 /\ um_sws (if b then set_voice ts (Some (um_time (set_sch x1 w))) (set_sch x1 w) else set_sch x1 w) = um_sws w).
    { intros []; [unfold set_voice; destruct (_ && _); auto|auto]. }
    destruct (VS (is_ul d0)) as (-> & ->). split; [|reflexivity]. refine (shows_ext _ _ _ _ _ _ Y). intros k K. unfold at_ts. destruct d0, x, (k =? ts); reflexivity. }
  destruct d; cbn [dirs_of] in E.
  - injection E as <-. split; [|reflexivity]. refine (shows_ext _ _ _ _ _ _ S). intros k K. unfold at_ts, opened. cbn. destruct (k =? ts); [|reflexivity]. now destruct (v k).
  - destruct (ONE _ _ _ _ S E) as (w & E1 & S1 & W). injection E1 as <-. auto.
  - destruct (ONE _ _ _ _ S E) as (w & E1 & S1 & W). injection E1 as <-. auto.
  - destruct (ONE _ _ _ _ S E) as (w & E1 & S1 & W). destruct (ONE _ _ _ _ S1 E1) as (w2 & E2 & S2 & W2). injection E2 as <-. split; [|congruence].
    refine (shows_ext _ _ _ _ _ _ S2). intros k K. unfold at_ts, opened. cbn. destruct (k =? ts); reflexivity.
Qed.
Lemma closed_shows c cn : forall d ts v u u', shows c cn v (um_sch u) -> close_dirs (dirs_of d) ts u = Ok u' ->
  shows c cn (at_ts ts (closed d) v) (um_sch u') /\ um_sws u' = um_sws u.
Proof.
  intros d ts v u u' S E.
  assert (ONE : forall d0 r v0 w, shows c cn v0 (um_sch w) -> close_dirs (d0 :: r) ts w = Ok u' -> exists w', close_dirs r ts w' = Ok u' /\ shows c cn (at_ts ts (closed d0) v0) (um_sch w') /\ um_sws w' = um_sws w).
  { intros d0 r v0 w S0 E0. cbn [close_dirs] in E0. bi E0. destruct x as [o s]. pose proof (close_shows _ _ _ _ _ _ _ _ S0 E1) as Y. eexists. split; [exact E0|].
    assert (VS : forall b : bool, um_sch (if b then set_voice ts None (set_sch s w) else set_sch s w) = s /\ um_sws (if b then set_voice ts None (set_sch s w) else set_sch s w) = um_sws w).
    { intros []; [unfold set_voice; destruct (_ && _); auto|auto]. }
    destruct o; [destruct (VS (is_ul d0)) as (-> & ->)|]; auto. }
  destruct d; cbn [dirs_of] in E.
  - injection E as <-. split; [|reflexivity]. refine (shows_ext _ _ _ _ _ _ S). intros k K. unfold at_ts, closed. cbn. destruct (k =? ts); [|reflexivity]. now destruct (v k).
  - destruct (ONE _ _ _ _ S E) as (w & E1 & S1 & W). injection E1 as <-. auto.
  - destruct (ONE _ _ _ _ S E) as (w & E1 & S1 & W). injection E1 as <-. auto.
  - destruct (ONE _ _ _ _ S E) as (w & E1 & S1 & W). destruct (ONE _ _ _ _ S1 E1) as (w2 & E2 & S2 & W2). injection E2 as <-. split; [|congruence].
    refine (shows_ext _ _ _ _ _ _ S2). intros k K. unfold at_ts, closed. cbn. destruct (k =? ts); reflexivity.
Qed.
(** Operations of the scheduler that say nothing new. *)
Definition mute (e : dl_event) : Prop :=
  match e with DvResource _ _ _ _ | DvGrant _ _ _ | DvAck _ _ | DvSteal _ _ _ | DvTakeRa _ _ | DvVoice _ _ | DvCapReq _ _ _ => True | _ => False end.
Lemma mute_face e s o m s1 : mute e -> dl_step e s = Ok (o, m, s1) -> face s s1.
Proof.
  intros M E. destruct e as [t| |ts p sdu rep|ts a g|ts a|ts b rep|ts ssi|ts blk|ts act|dr ts u|dr ts|ts ssi req|on]; try contradiction; cbn [dl_step] in E.
  - bi E. injection E as _ _ <-. unfold dl_enqueue_tma, push_q in E0. bi E0. injection E0 as <-. apply face_put.
  - bi E. injection E as _ _ <-. unfold dl_enqueue_grant, push_q in E0. bi E0. injection E0 as <-. apply face_put.
  - bi E. injection E as _ _ <-. unfold dl_enqueue_random_access_ack, push_q in E0. bi E0. injection E0 as <-. apply face_put.
  - bi E. injection E as _ _ <-. unfold dl_enqueue_stealing, push_q in E0. bi E0. injection E0 as <-. apply face_put.
  - bi E. destruct x as [b0 s0]. injection E as _ _ <-. unfold take_pending_ra_ack in E0. bi E0. destruct (remove_first ssi x); injection E0 as _ <-; [unfold face; cbn; auto|apply face_refl].
  - bi E. injection E as _ _ <-. unfold dl_schedule_tmd in E0. bi E0. injection E0 as <-. unfold ucm_put in E. apply bind_inv in E. destruct E as (a & _ & E).
    destruct a; [apply bind_inv in E; destruct E as (q & _ & E)|]; injection E as <-; unfold face; cbn; auto.
  - bi E. destruct x as [g u]. injection E as _ _ <-. unfold face. cbn. auto.
Qed.
Lemma did_face evs : forall s s1, Forall mute evs -> did evs s s1 -> face s s1.
Proof.
  induction evs as [|e evs IH]; intros s s1 F (log & E); cbn [dl_run] in E; [injection E as _ <-; apply face_refl|].
  bi E. destruct x as [[k m] s2]. bi E. destruct x as [lg s3]. injection E as _ <-. apply face_trans with s2; [exact (mute_face _ _ _ _ _ (Forall_inv F) E0)|].
  apply (IH _ _ (Forall_inv_tail F)). now exists lg.
Qed.
Lemma from_mute e evs : match e with UeTick _ _ | UeControl _ => False | _ => True end -> from_event e evs -> Forall mute evs.
Proof.
  intros N H. destruct e; try contradiction; cbn [from_event] in H.
  - revert H. apply Forall_impl. intros [] A; try contradiction; exact Logic.I.
  - destruct H as [(p & ->)|(k & b & ->)]; repeat constructor.
  - destruct H as [->|(b & ->)]; repeat constructor.
  - destruct H as [->|(b & ->)]; repeat constructor.
Qed.
(** "System wide services" is only touched by ticks. *)
Lemma act_sws i x u u' o c : does i x u (Ok (u', o, c)) -> um_sws u' = um_sws u.
Proof.
  intros H. destruct x; cbn [does] in H.
  - injection H as -> _ _. reflexivity.
  - symmetry in H. bi H. injection H as <- _ _. reflexivity.
  - symmetry in H. bi H. injection H as <- _ _. reflexivity.
  - destruct H as (b & _ & _ & _ & H). injection H as -> _ _. reflexivity.
  - destruct H as (f & _ & _ & H). symmetry in H. bi H. destruct x as [df g]. injection H as <- _ _. reflexivity.
  - destruct H as (f & _ & _ & H). symmetry in H. bi H. destruct x as [ssi|]; [|injection H as <- _ _; reflexivity].
    bi H. destruct x; [injection H as <- _ _; reflexivity|]. bi H. destruct x as [df g]. injection H as <- _ _. reflexivity.
  - destruct H as (f & _ & _ & H). symmetry in H. bi H. destruct x as [ssi|]; [|injection H as <- _ _; reflexivity].
    bi H. bi H. bi H. destruct x1 as [df g]. destruct g as [|[b|] [|]]; try (injection H as <- _ _; reflexivity).
    bi H. injection H as <- _ _. reflexivity.
Qed.
Lemma acts_sws i acts u r : does_all i acts u r -> forall u' o c, r = Ok (u', o, c) -> um_sws u' = um_sws u.
Proof.
  induction 1 as [u|x l u H|x l u u1 o1 H|x l u u1 o1 H r HR IH]; intros u' o c E; try discriminate E.
  - injection E as <- _ _. reflexivity.
  - injection E as <- _ _. exact (act_sws _ _ _ _ _ _ H).
  - bi E. destruct x0 as [[w o2] c2]. injection E as <- _ _. rewrite (IH _ _ _ E0). exact (act_sws _ _ _ _ _ _ H).
Qed.
Lemma heard_sws i l u r : heard i l u r -> forall u' o, r = Ok (u', o) -> um_sws u' = um_sws u.
Proof.
  induction 1 as [| |l u acts n u1 o1 c EP H _|l u acts n u1 o1 EP H _|l u acts n u1 o1 r EP H _ HR IH]; intros u' o E; try discriminate E.
  - injection E as <- _. exact (acts_sws _ _ _ _ H _ _ _ eq_refl).
  - injection E as <- _. exact (acts_sws _ _ _ _ H _ _ _ eq_refl).
  - bi E. destruct x as [w o2]. injection E as <- _. rewrite (IH _ _ E0). exact (acts_sws _ _ _ _ H _ _ _ eq_refl).
Qed.
Lemma voice_sws ts v u : um_sws (set_voice ts v u) = um_sws u.
Proof. unfold set_voice. now destruct (_ && _). Qed.

(** * Histories *)
Definition minv (c : cell_cfg) (v : nat -> ts_view) (u : umac) : Prop := exists cn, um_sws u = sws_state c cn /\ shows c cn v (um_sch u).
Lemma silence_quiet tss : forall u u' o, check_silence tss u = Ok (u', o) -> um_sws u' = um_sws u /\ forall k, ~ In (OutSlot k) o.
Proof.
  induction tss as [|ts tss IH]; intros u u' o E; cbn [check_silence] in E; [injection E as <- <-; auto|].
  bi E. bi E. bi E. bi E. destruct x2 as [w o2]. injection E as <- <-. apply IH in E3. destruct E3 as (A & B).
  split; [rewrite A; destruct x1; [reflexivity|apply voice_sws]|]. intros k I. apply in_app_or in I. destruct I as [I|I]; [|exact (B k I)].
  revert I. clear - E2. destruct (x && negb x0); [|injection E2 as <-; intros []]. bi E2. destruct x2 as [t0|]; [|injection E2 as <-; intros []].
  bi E2. destruct (_ <? _)%Z; injection E2 as <-; [intros [C|[]]; discriminate C|intros []].
Qed.
Lemma refresh_shows c cn v u : minv c v u -> let '(sws, s) := refresh_sws c cn (um_sws u) (um_sch u) in sws = sws_state c cn /\ shows c cn v s /\ ds_cur s = ds_cur (um_sch u).
Proof.
  intros (cn0 & W & SC & HO & off & t & O & P). unfold refresh_sws. destruct (Bool.eqb (sws_state c cn) (um_sws u)) eqn:E.
  - apply Bool.eqb_prop in E. split; [auto|]. split; [|reflexivity]. split; [exact SC|]. split; [exact HO|]. exists off, t. split; [exact O|]. rewrite P. unfold pre_says, msysinfo_says.
    rewrite W in E. unfold sws_state in E. destruct (cf_brew c); [now rewrite E|reflexivity].
  - split; [reflexivity|]. split; [|reflexivity]. split; [exact SC|]. split; [exact HO|]. exists off, t. split; [exact O|]. cbn [set_sws ds_pre set_pre]. rewrite P. reflexivity.
Qed.
Lemma start_face t s s1 m : set_dl_time t s = Ok (s1, m) -> face s s1 /\ ds_cur s1 = t.
Proof. intros E. unfold set_dl_time in E. bi E. injection E as <- _. split; [unfold face; cbn; auto|reflexivity]. Qed.
Lemma tick_face t s s1 : dl_tick_start t s = Ok s1 -> face s s1 /\ ds_cur s1 = t.
Proof.
  intros E. unfold dl_tick_start in E. bi E. match type of E with Ok ?a = _ => assert (ES : s1 = a) by congruence end. rewrite ES. split; [unfold face; cbn; auto|].
  match type of E0 with assert ?c = _ => destruct c eqn:T; [|discriminate E0] end. symmetry. exact (time_eqb_eq _ _ T).
Qed.
Lemma tick_shows c cn t v u u' o m : cell_ok c = true -> minv c v u -> tick_start c cn t u = Ok (u', o, m) -> minv c v u' /\ sends_slot o (slot_true c cn t v).
Proof.
  intros CO I E. unfold tick_start in E. pose proof (refresh_shows c cn v u I) as R. destruct (refresh_sws c cn (um_sws u) (um_sch u)) as [sws s]. destruct R as (RW & RS & _).
  bi E. destruct x as [s1 m0]. bi E. destruct x as [u1 o1]. bi E. destruct x as [[k s2] m2].
  assert (F : face s s1 /\ ds_cur s1 = t).
  { destruct (_ && _); [exact (start_face _ _ _ _ E0)|]. bi E0. match type of E0 with Ok (?a, _) = _ => assert (ES : s1 = a) by congruence end. rewrite ES. exact (tick_face _ _ _ E3). }
  destruct F as (F & CU). destruct (silence_quiet _ _ _ _ E1) as (SW & NS). pose proof (silence_same _ _ _ _ E1) as (SU & _). cbn [um_sch um_sws] in SU, SW. rewrite SU in E2.
  destruct (finalize_true _ _ _ _ _ _ _ CO (face_shows _ _ _ _ _ F RS) E2) as (TR & SH). rewrite CU in TR. injection E as <- <- _.
  split; [exists cn; cbn [um_sws set_sch um_sch]; split; [congruence|exact SH]|]. exists o1, k. auto.
Qed.
Lemma step_shows c e v u u' o m : cell_ok c = true -> ev_fine e -> marked e = true -> (match e with UeTick _ _ => True | _ => sound u end) -> minv c v u -> um_step c e u = Ok (u', o, m) ->
  minv c (told v e) u' /\ match e with UeTick cn t => sends_slot o (slot_true c cn t v) | _ => True end.
Proof.
  intros CO F MK S I E.
  assert (K : match e with UeTick _ _ | UeControl _ => False | _ => True end -> um_sws u' = um_sws u -> sound u -> told v e = v -> minv c (told v e) u' /\ True).
  { intros NE SW SD TV. rewrite TV. split; [|exact Logic.I]. destruct (step_did c e u u' o m F SD E) as (_ & evs & FE & D). pose proof (did_face _ _ _ (from_mute _ _ NE FE) D) as FC.
    destruct I as (cn & W & H). exists cn. split; [congruence|exact (face_shows _ _ _ _ _ FC H)]. }
  destruct e as [cn t|i pdu|r|ts data|t ts data|k].
  - cbn [um_step] in E. exact (tick_shows _ _ _ _ _ _ _ _ CO I E).
  - apply K; [exact Logic.I| |exact S|reflexivity]. pose proof S as S0. destruct F as (W & P & V). cbn [um_step] in E. bi E. destruct x as [u1 o1]. injection E as <- _ _.
    assert (C : on_channel i = true).
    { unfold rx_tmv_unitdata_ind in E0. bi E0. unfold on_channel. destruct (tv_chan i), (tv_blk i); try discriminate E0; reflexivity. }
    destruct (block_ok i pdu u W P S0 V C) as (r & E1 & H & _). rewrite E0 in E1. subst r. exact (heard_sws _ _ _ _ H _ _ eq_refl).
  - apply K; [exact Logic.I| |exact S|reflexivity]. cbn [um_step] in E. bi E. injection E as <- _ _. reflexivity.
  - apply K; [exact Logic.I| |exact S|reflexivity]. cbn [um_step] in E. bi E. injection E as <- _ _. unfold rx_dl_voice in E0. bi E0.
    assert (X : um_sws x0 = um_sws u).
    { destruct (_ && _); [|injection E as <-; reflexivity]. bi E. injection E as <-. destruct x1; [apply voice_sws|reflexivity]. }
    bi E0. destruct x1; [bi E0|]; injection E0 as <-; exact X.
  - apply K; [exact Logic.I| |exact S|reflexivity]. cbn [um_step] in E. bi E. destruct x as [u1 o1]. injection E as <- _ _. unfold rx_ul_voice in E0.
    bi E0. bi E0. destruct x0; [|injection E0 as <- _; apply voice_sws]. bi E0. destruct x0 as [b|]; [|injection E0 as <- _; apply voice_sws]. bi E0. injection E0 as <- _. cbn [um_sws set_sch]. apply voice_sws.
  - cbn [um_step] in E. bi E. destruct x as [u1 m1]. injection E as <- _ _. split; [|exact Logic.I]. destruct I as (cn & W & H).
    assert (HG : forall ts on w, (' (s, m2) <- set_hangtime ts on (um_sch u) ;; Ok (set_voice ts w (set_sch s u), m2)) = Ok (u1, m1) -> minv c (at_ts ts (hanging on) v) u1).
    { intros ts on w E. bi E. destruct x as [s m2]. injection E as <- _. exists cn. rewrite voice_sws. destruct (voice_same ts w (set_sch s u)) as (-> & _). split; [exact W|]. exact (hang_shows _ _ _ _ _ _ _ _ H E1). }
    unfold rx_control in E0. destruct k; cbn [told]; try (injection E0 as <- _; exists cn; auto; fail); try exact (HG _ _ _ E0).
    + bi E0. injection E0 as <- _. cbn [marked] in MK. destruct (open_shows c cn usage ltac:(lia) _ _ _ _ _ H E) as (X & Y). exists cn. split; [congruence|exact X].
    + bi E0. injection E0 as <- _. destruct (closed_shows c cn _ _ _ _ _ H E) as (X & Y). exists cn. split; [congruence|exact X].
Qed.
Fixpoint log_true (c : cell_cfg) (v : nat -> ts_view) (log : list (um_event * list um_out * list tx_reporter)) : Prop :=
  match log with
  | [] => True
  | (e, o, _) :: r => match e with UeTick cn t => sends_slot o (slot_true c cn t v) | _ => True end /\ log_true c (told v e) r
  end.
Lemma run_true c evs : cell_ok c = true -> forall v u u' log, Forall ev_fine evs -> Forall (fun e => marked e = true) evs -> sound u -> minv c v u -> um_run c evs u = Ok (u', log) ->
  log_true c v log /\ map (fun x => fst (fst x)) log = evs.
Proof.
  intros CO. induction evs as [|e evs IH]; intros v u u' log F MK S I E; cbn [um_run] in E; [injection E as _ <-; now split|].
  bi E. destruct x as [[u1 o] m]. bi E. destruct x as [u2 lg]. injection E as _ <-. pose proof (Forall_inv F) as F1. pose proof (Forall_inv MK) as M1.
  destruct (step_shows c e v u u1 o m CO F1 M1 ltac:(destruct e; auto) I E0) as (I1 & T1). destruct (step_did c e u u1 o m F1 S E0) as (S1 & _).
  destruct (IH _ _ _ _ (Forall_inv_tail F) (Forall_inv_tail MK) S1 I1 E1) as (A & B). cbn [log_true map fst]. split; [split; [destruct e; auto|exact A]|now rewrite B].
Qed.
Lemma new_minv c connected u : cell_ok c = true -> umac_new c connected = Ok u -> minv c (fun _ => idle_ts) u.
Proof.
  intros CO E. unfold umac_new in E. bi E. injection E as <-. exists connected. split; [reflexivity|]. cbn [um_sch]. unfold generate_precomps in E0. bi E0.
  assert (OF : offset_id c = Some (Z.to_N x0)).
  { unfold freq_offset_hz_to_id in E. unfold offset_id. repeat (destruct (_ =? _)%Z; [injection E as <-; reflexivity|]). discriminate E. }
  match type of E0 with Ok ?a = _ => assert (EP : x = a) by congruence end. rewrite EP. split; [reflexivity|]. split.
  - do 3 (split; [reflexivity|]). intros ts T. destruct ts as [|[|[|[|[|?]]]]]; try lia; cbn; auto.
  - exists (Z.to_N x0), (mk_time 1 1 1 0). split; [exact OF|reflexivity].
Qed.
Lemma log_true_at c log : forall v pre cn t o m post, log_true c v log -> log = pre ++ (UeTick cn t, o, m) :: post ->
  sends_slot o (slot_true c cn t (fold_left told (map (fun x => fst (fst x)) pre) v)).
Proof.
  induction log as [|[[e o0] m0] log IH]; intros v pre cn t o m post H E; [destruct pre; discriminate E|]. destruct H as (H1 & H2).
  destruct pre as [|p pre]; cbn [app] in E.
  - injection E as -> -> _ _. exact H1.
  - injection E as <- E. cbn [map fold_left fst]. exact (IH _ _ _ _ _ _ _ H2 E).
Qed.
Lemma history_true c connected u0 cn t evs u log : cell_ok c = true -> umac_new c connected = Ok u0 -> vtime t -> Forall ev_fine evs -> Forall (fun e => marked e = true) evs ->
  um_run c (UeTick cn t :: evs) u0 = Ok (u, log) ->
  map (fun x => fst (fst x)) log = UeTick cn t :: evs /\
  forall pre cn' t' o m post, log = pre ++ (UeTick cn' t', o, m) :: post -> sends_slot o (slot_true c cn' t' (all_told (map (fun x => fst (fst x)) pre))).
Proof.
  intros CO EN V F MK E. pose proof (new_minv _ _ _ CO EN) as I. cbn [um_run] in E. bi E. destruct x as [[u1 o] m]. bi E. destruct x as [u2 lg]. injection E as _ <-.
  destruct (step_shows c (UeTick cn t) _ _ _ _ _ CO Logic.I eq_refl Logic.I I E0) as (I1 & T1). destruct (first_tick _ _ _ _ _ _ _ _ EN V E0) as (S1 & _).
  destruct (run_true c evs CO _ _ _ _ F MK S1 I1 E1) as (A & B). split; [cbn [map fst]; now rewrite B|]. intros pre cn' t' o' m' post EL.
  refine (log_true_at c ((UeTick cn t, o, m) :: lg) _ pre cn' t' o' m' post _ EL). split; [exact T1|exact A].
Qed.

(** Histories of the base station: what goes on the air and what comes off it. *)
From Coq Require Import Arith.
From Verif Require Import Base BitsLib BitBuffer BitBufferProofs BitBufferOps BitBufferFacts Codec TdmaTime TdmaTimeProofs TxReceipt UmacCircuits UmacCircuitsProofs UlSched UmacPrecomps UmacBs UlBlockSpec UlBlockPdu UmacSched
  ErrorControl ChanSpec LmacFacts Slotter SlotterSpec SlotterProofs DlSched DlSlot SlotSpec SlotProofs SlotRun SlotWf LmacBs BsMac AirSpec AirProofs.
From Verif Require CallControl Scrambler.
Open Scope nat_scope.

(** * What the upper MAC sends to the lower MAC *)
Definition is_slot (x : um_out) : bool := match x with OutSlot _ => true | _ => false end.
Definition plain (o : list um_out) : Prop := existsb is_slot o = false.
Lemma plain_app a b : plain a -> plain b -> plain (a ++ b).
Proof. unfold plain. intros A B. now rewrite existsb_app, A, B. Qed.
Lemma plain_in o : (forall k, ~ In (OutSlot k) o) -> plain o.
Proof.
  intros H. unfold plain. destruct (existsb is_slot o) eqn:E; [|reflexivity]. apply existsb_exists in E. destruct E as (x & I & T). destruct x; try discriminate T. exfalso. exact (H k I).
Qed.
Ltac fin H := injection H; intros; subst; reflexivity.
Lemma does_plain i x u u' o c : does i x u (Ok (u', o, c)) -> plain o.
Proof.
  destruct x; cbn [does]; intros H.
  - fin H.
  - symmetry in H. bi H. fin H.
  - symmetry in H. bi H. fin H.
  - destruct H as (b & _ & _ & _ & H). fin H.
  - destruct H as (b & _ & _ & H). symmetry in H. bi H. destruct x. fin H.
  - destruct H as (b & _ & _ & H). symmetry in H. bi H. destruct x; [|fin H]. bi H. destruct x; [fin H|]. bi H. destruct x. fin H.
  - destruct H as (b & _ & _ & H). symmetry in H. bi H. destruct x; [|fin H]. bi H. apply bind_inv in H. destruct H as (? & _ & H).
    apply bind_inv in H. destruct H as ((df & got) & _ & H). destruct got as [|[b'|] [|]]; try fin H.
    apply bind_inv in H. destruct H as (? & _ & H). fin H.
Qed.
Lemma does_all_plain i l : forall u r, does_all i l u r -> forall u' o c, r = Ok (u', o, c) -> plain o.
Proof.
  induction 1 as [u|x l u D|x l u u1 o1 D|x l u u1 o1 D r DA IH]; intros u' o c E.
  - injection E as <- <- <-. reflexivity.
  - discriminate E.
  - injection E as <- <- <-. exact (does_plain _ _ _ _ _ _ D).
  - bi E. destruct x0 as [[v o'] c']. injection E as <- <- <-. apply plain_app; [exact (does_plain _ _ _ _ _ _ D)|exact (IH _ _ _ E0)].
Qed.
Lemma heard_plain i l u r : heard i l u r -> forall u' o, r = Ok (u', o) -> plain o.
Proof.
  induction 1 as [l u C|l u acts n F D|l u acts n u1 o1 c F D S|l u acts n u1 o1 F D S|l u acts n u1 o1 r F D S H IH]; intros u' o E; try discriminate E.
  - injection E as <- <-. exact (does_all_plain _ _ _ _ D _ _ _ eq_refl).
  - injection E as <- <-. exact (does_all_plain _ _ _ _ D _ _ _ eq_refl).
  - bi E. destruct x as [v o']. injection E as <- <-. apply plain_app; [exact (does_all_plain _ _ _ _ D _ _ _ eq_refl)|exact (IH _ _ E0)].
Qed.
Definition ev_chan (e : um_event) : Prop := match e with UeBlock i _ => on_channel i = true | _ => True end.
Lemma step_plain c e u u' o m : ev_fine e -> ev_chan e -> sound u -> um_step c e u = Ok (u', o, m) -> match e with UeTick _ _ => True | _ => plain o end.
Proof.
  intros F C S E. destruct e as [cn t|i pdu|r|ts data|t ts data|k]; [exact Logic.I| | | | |]; cbn [um_step] in E.
  - apply bind_inv in E. destruct E as ((u1 & o1) & E & H). injection H as <- <- <-. destruct F as (W & P & V).
    destruct (block_ok i pdu u W P S V C) as (r & ER & H & _). rewrite E in ER. subst r. exact (heard_plain _ _ _ _ H _ _ eq_refl).
  - bi E. injection E as <- <- <-. reflexivity.
  - bi E. injection E as <- <- <-. reflexivity.
  - apply bind_inv in E. destruct E as ((u1 & o1) & E & H). injection H as <- <- <-. unfold rx_ul_voice in E. apply bind_inv in E. destruct E as (out & EO & E).
    assert (P : plain out).
    { destruct (cf_brew c); [|injection EO as <-; reflexivity]. apply bind_inv in EO. destruct EO as (a & _ & EO). destruct a; injection EO as <-; reflexivity. }
    apply bind_inv in E. destruct E as (a & _ & E). destruct a; [|injection E as <- <-; exact P]. apply bind_inv in E. destruct E as (b & _ & E). destruct b; [|injection E as <- <-; exact P].
    apply bind_inv in E. destruct E as (? & _ & E). injection E as <- <-. exact P.
  - apply bind_inv in E. destruct E as ((u1 & o1) & E & H). injection H as <- <- <-. reflexivity.
Qed.

Lemma to_plain o : forall l, plain o -> to_lmac o l = Ok (lm_configure (lm_stolen l || existsb is_stolen o) l, []).
Proof.
  induction o as [|x o IH]; intros l P; cbn [to_lmac existsb]; [rewrite orb_false_r; now destruct l|]. unfold plain in *. cbn [existsb] in P. apply orb_false_iff in P. destruct P as (P1 & P2).
  destruct x; try discriminate P1; rewrite IH by exact P2; cbn [is_stolen orb]; try reflexivity. cbn [lm_configure lm_stolen lm_code lm_time lm_tp orb]. now rewrite orb_true_r.
Qed.
Lemma to_app a b : forall l, plain a -> to_lmac (a ++ b) l = to_lmac b (lm_configure (lm_stolen l || existsb is_stolen a) l).
Proof.
  induction a as [|x o IH]; intros l P; cbn [to_lmac existsb app]; [rewrite orb_false_r; now destruct l|]. unfold plain in *. cbn [existsb] in P. apply orb_false_iff in P. destruct P as (P1 & P2).
  destruct x; try discriminate P1; rewrite IH by exact P2; cbn [is_stolen orb]; try reflexivity. cbn [lm_configure lm_stolen lm_code lm_time lm_tp orb]. now rewrite orb_true_r.
Qed.
Lemma silence_only tss : forall u u' o, check_silence tss u = Ok (u', o) -> existsb is_stolen o = false /\ plain o.
Proof.
  induction tss as [|ts tss IH]; intros u u' o E; cbn [check_silence] in E; [injection E as <- <-; now split|].
  apply bind_inv in E. destruct E as (a & _ & E). apply bind_inv in E. destruct E as (h & _ & E). apply bind_inv in E. destruct E as (out & EO & E).
  apply bind_inv in E. destruct E as ((v & o2) & E & H). injection H as _ <-. destruct (IH _ _ _ E) as (A & B).
  assert (X : existsb is_stolen out = false /\ plain out).
  { destruct (a && negb h); [|injection EO as <-; now split]. apply bind_inv in EO. destruct EO as (vv & _ & EO). destruct vv; [|injection EO as <-; now split].
    apply bind_inv in EO. destruct EO as (d & _ & EO). destruct (_ <? d)%Z; injection EO as <-; now split. }
  destruct X as (X1 & X2). split; [rewrite existsb_app, X1; exact A|now apply plain_app].
Qed.

(** * The tick *)
Lemma tick_sent c cn t v u l u' o m : cell_ok c = true -> minv c v u -> tidy (um_sch u) -> vtime t -> length (lm_tp l) = 4 -> um_step c (UeTick cn t) u = Ok (u', o, m) ->
  exists notices k x w, o = notices ++ [OutSlot k] /\ existsb is_stolen notices = false /\ plain notices /\ to_lmac o l = Ok (taken k l, [b2b w]) /\ kind_of k = Some x /\
    on_air (code_of c) x (window (bk_buf (sl_blk1 k))) (second_of k) (window (bk_buf (sl_bbk k))) w /\ (burst_true c cn t v w /\ slot_ready k) /\ slot_true c cn t v k.
Proof.
  intros CO M T V L E. pose proof E as E0. cbn [um_step] in E0. destruct (tick_shows c cn t v u u' o m CO M E0) as (_ & (no & k & EO & NO & ST)).
  destruct (tick_tidy c cn t u u' o m T E0) as (_ & SR). assert (R : slot_ready k) by (apply SR; rewrite EO; apply in_or_app; right; now left).
  assert (Q : existsb is_stolen no = false).
  { unfold tick_start in E0. destruct (refresh_sws _ _ _ _) as [sws s]. apply bind_inv in E0. destruct E0 as ((s1 & m0) & _ & E0). apply bind_inv in E0. destruct E0 as ((u1 & o1) & ES & E0).
    apply bind_inv in E0. destruct E0 as (((k1 & s2) & m2) & _ & E0). assert (EQ : o1 ++ [OutSlot k1] = no ++ [OutSlot k]) by congruence.
    apply app_inj_tail in EQ. destruct EQ as (<- & _). exact (proj1 (silence_only _ _ _ _ ES)). }
  pose proof (plain_in no NO) as P.
  assert (V1 : vtime (add_timeslots t 1)) by apply add_valid.
  destruct (slot_sent c cn t v k l CO V1 ST R L) as (x & q & w & KO & LS & PB & OA).
  exists no, k, x, w. split; [exact EO|]. split; [exact Q|]. split; [exact P|]. split; [|split; [exact KO|split; [exact OA|split; [exact (conj (sent_true c cn t v k x w ST R KO OA) R)|exact ST]]]].
  rewrite EO, to_app by exact P. rewrite Q, orb_false_r. replace (lm_configure (lm_stolen l) l) with l by now destruct l. cbn [to_lmac]. rewrite LS. cbn [bind]. rewrite PB. reflexivity.
Qed.

(** * What the lower MAC makes of a received block *)
Definition lm_ok (c : cell_cfg) (l : lmac) : Prop := lm_code l = code_of c /\ length (lm_tp l) = 4 /\ vtime (lm_time l).
Definition ind_ok (t : tdma_time) (i : tp_ind) : Prop :=
  tp_i_time i = add_timeslots t (-2) /\ ready (tp_i_block i) /\
  match tp_i_burst i, tp_i_train i, tp_i_num i with
  | BurstNUB, TrainNormal1, BkBoth => length (window (tp_i_block i)) = 432
  | BurstNUB, TrainNormal2, Bk1 | BurstNUB, TrainNormal2, Bk2 => length (window (tp_i_block i)) = 216
  | BurstCUB, TrainExtended, Bk1 => length (window (tp_i_block i)) = 168
  | _, _, _ => False
  end.
Definition rx_chan (i : tp_ind) (tp stolen : bool) : option lchan :=
  match tp_i_burst i, tp_i_num i with
  | BurstCUB, _ => if stolen then None else Some SchHu
  | _, BkBoth => if tp then Some TchS else if stolen then None else Some SchF
  | _, Bk1 => if stolen then None else Some Stch
  | _, Bk2 => if tp then Some (if stolen then Stch else TchS) else if stolen then None else Some Stch
  end.
Definition ev_ok (e : um_event) : Prop := ev_fine e /\ voice_bytes e /\ ev_chan e.
Lemma rx_ctl i c l k n : control_sizes c = Some (k, n) -> is_control_channel c = true -> ready (tp_i_block i) -> length (window (tp_i_block i)) = n -> (lm_code l < 2 ^ 32)%N ->
  exists o crc, decode_cp c (tp_i_block i) false (Some (lm_code l)) = Ok (Some o, crc) /\ ready o /\ length (window o) = k /\
    rx_blk_control i c l = Ok (if crc : bool then [LoBlock (mk_tmv (tp_i_time i) (ul_chan_of c) (num_of (tp_i_num i)) (lm_code l)) o] else []).
Proof.
  intros S C (W & P) L CS. destruct (control_total c k n _ false (Some (lm_code l)) _ S W P L eq_refl CS) as (o & crc & D & WO & PO & LO). exists o, crc. split; [exact D|]. split; [now split|]. split; [exact LO|].
  unfold rx_blk_control. rewrite C. cbn [assert bind]. rewrite D. reflexivity.
Qed.
Lemma rx_spk i l : tp_i_num i = BkBoth -> ready (tp_i_block i) -> length (window (tp_i_block i)) = 432 -> (lm_code l < 2 ^ 32)%N ->
  exists o ok, decode_tp TchS (tp_i_block i) (lm_code l) = Ok (Some o, ok) /\ ready o /\ length (window o) = 274 /\
    rx_blk_traffic i TchS l = Ok [LoVoice (tp_i_time i) (ts_of (tp_i_time i)) (b2b (window o))].
Proof.
  intros N (W & P) L CS. destruct (speech_total' _ _ W P L CS) as (o & ok & D & WO & PO & LO). exists o, ok. split; [exact D|]. split; [now split|]. split; [exact LO|].
  unfold rx_blk_traffic. rewrite N, D. cbn [bind]. rewrite (StealProofs.win_len o WO). cbn [bind]. destruct (CchProofs.seek_start o WO) as (S1 & S2 & S3). rewrite S1. cbn [bind].
  rewrite (to_bitarr_n (length (window o)) _ S2) by (rewrite S3; lia). cbn [bind]. now rewrite S3, firstn_all.
Qed.
Lemma rx_is c l t i : cell_ok c = true -> lm_ok c l -> vtime t -> ind_ok t i ->
  let tp := nth (ts_of (tp_i_time i) - 1) (lm_tp l) false in
  match rx_chan i tp (lm_stolen l) with
  | None => lm_rx i l = Panic
  | Some TchS => lm_rx i l = rx_blk_traffic i TchS l
  | Some c' => lm_rx i l = rx_blk_control i c' l
  end.
Proof.
  intros CO (LC & L4 & _) V (T & R & K) tp. unfold lm_rx.
  assert (G : ts_get (lm_tp l) (ts_of (tp_i_time i)) = Ok tp).
  { apply ts_get_ok; [exact L4|]. rewrite T. pose proof (add_valid t (-2)) as (V1 & _). unfold ts_of. lia. }
  rewrite G. cbn [bind]. unfold rx_chan, determine_logical_channel_ul. clearbody tp. clear G T.
  destruct (tp_i_burst i); try contradiction K; destruct (tp_i_train i); try contradiction K; destruct (tp_i_num i); try contradiction K; cbn [bind assert];
    destruct (lm_stolen l), tp; reflexivity.
Qed.
Lemma b2b_bytes l : Forall isbyte (b2b l).
Proof. unfold b2b. apply Forall_forall. intros x H. apply in_map_iff in H. destruct H as (y & <- & _). destruct y; reflexivity. Qed.
Lemma rx_events c l t i outs : cell_ok c = true -> lm_ok c l -> vtime t -> ind_ok t i -> lm_rx i l = Ok outs -> Forall ev_ok (map um_event_of outs) /\ Forall (fun e => match e with UeTick _ _ | UeControl _ => False | _ => True end) (map um_event_of outs).
Proof.
  intros CO LO V IO E. pose proof (rx_is c l t i CO LO V IO) as H. cbv zeta in H. destruct IO as (T & R & K). pose proof (code_small c CO) as CS. destruct LO as (LC & L4 & LV). rewrite <- LC in CS.
  assert (VT : vtime (tp_i_time i)) by (rewrite T; apply add_valid).
  assert (CTL : forall c' k n, control_sizes c' = Some (k, n) -> is_control_channel c' = true -> length (window (tp_i_block i)) = n -> (match ul_chan_of c', num_of (tp_i_num i) with UcSchF, BothBlocks | (UcStch | UcSchHu), (Block1 | Block2) => true | _, _ => false end) = true ->
     rx_blk_control i c' l = Ok outs -> Forall ev_ok (map um_event_of outs) /\ Forall (fun e => match e with UeTick _ _ | UeControl _ => False | _ => True end) (map um_event_of outs)).
  { intros c' k n S1 S2 S3 S4 S5. destruct (rx_ctl i c' l k n S1 S2 R S3 CS) as (o & crc & _ & (RW & RP) & _ & EO). rewrite EO in S5. injection S5 as <-. destruct crc; [|split; constructor].
    split; constructor; [|constructor|exact Logic.I|constructor]. split; [split; [exact RW|split; [exact RP|exact VT]]|split; [exact Logic.I|exact S4]]. }
  unfold rx_chan in H. destruct (tp_i_burst i); try contradiction K; destruct (tp_i_train i); try contradiction K; destruct (tp_i_num i) eqn:N; try contradiction K.
  - destruct (lm_stolen l); rewrite H in E; [discriminate E|]. exact (CTL SchHu 92 168 eq_refl eq_refl K eq_refl E).
  - destruct (nth _ _ _).
    + rewrite H in E. destruct (rx_spk i l N R K CS) as (o & ok & _ & _ & _ & EO). rewrite EO in E. injection E as <-. split; constructor; [|constructor|exact Logic.I|constructor].
      split; [exact Logic.I|split; [apply b2b_bytes|exact Logic.I]].
    + destruct (lm_stolen l); rewrite H in E; [discriminate E|]. exact (CTL SchF 268 432 eq_refl eq_refl K eq_refl E).
  - destruct (lm_stolen l); rewrite H in E; [discriminate E|]. exact (CTL Stch 124 216 eq_refl eq_refl K eq_refl E).
  - destruct (nth _ _ _), (lm_stolen l); rewrite H in E; try discriminate E; try exact (CTL Stch 124 216 eq_refl eq_refl K eq_refl E).
    unfold rx_blk_traffic in E. rewrite N in E. injection E as <-. split; constructor.
Qed.
(** a received burst, in pieces *)
Lemma split5 (l : list bool) a b c d e : length l = a + b + c + d + e ->
  exists t1 x tr y t2, l = nub t1 tr x y t2 /\ length t1 = a /\ length x = b /\ length tr = c /\ length y = d /\ length t2 = e.
Proof.
  intros L. exists (firstn a l), (firstn b (skipn a l)), (firstn c (skipn b (skipn a l))), (firstn d (skipn c (skipn b (skipn a l)))), (skipn d (skipn c (skipn b (skipn a l)))).
  unfold nub. rewrite !firstn_skipn. split; [reflexivity|]. rewrite !firstn_length, !skipn_length. lia.
Qed.
Lemma split_ok ts l t is : phy_split ts (b2b l) t = Ok is -> Forall (ind_ok t) is.
Proof.
  intros E. destruct ts; try discriminate E.
  - assert (L : length l = 4 + 216 + 22 + 216 + 4).
    { unfold phy_split in E. rewrite b2b_length in E. destruct (length l =? NUB_BITS) eqn:D; [|discriminate E]. apply Nat.eqb_eq in D. exact D. }
    destruct (split5 l _ _ _ _ _ L) as (t1 & x & tr & y & t2 & -> & L1 & L2 & L3 & L4 & L5). destruct (split_nub1 t1 tr x y t2 t L1 L2 L3 L4 L5) as (b & EB & W & P & F). rewrite EB in E. injection E as <-.
    constructor; [|constructor]. split; [reflexivity|]. split; [now split|]. cbn [tp_i_burst tp_i_train tp_i_num tp_i_block]. rewrite F, app_length. lia.
  - assert (L : length l = 4 + 216 + 22 + 216 + 4).
    { unfold phy_split in E. rewrite b2b_length in E. destruct (length l =? NUB_BITS) eqn:D; [|discriminate E]. apply Nat.eqb_eq in D. exact D. }
    destruct (split5 l _ _ _ _ _ L) as (t1 & x & tr & y & t2 & -> & L1 & L2 & L3 & L4 & L5). destruct (split_nub2 t1 tr x y t2 t L1 L2 L3 L4 L5) as (b & b' & EB & (W & P & F) & (W' & P' & F')). rewrite EB in E. injection E as <-.
    constructor; [|constructor; [|constructor]]; (split; [reflexivity|]; split; [now split|]; cbn [tp_i_burst tp_i_train tp_i_num tp_i_block]); [now rewrite F|now rewrite F'].
  - assert (L : length l = 4 + 84 + 30 + 84 + 4).
    { unfold phy_split in E. rewrite b2b_length in E. destruct (length l =? CUB_BITS) eqn:D; [|discriminate E]. apply Nat.eqb_eq in D. exact D. }
    destruct (split5 l _ _ _ _ _ L) as (t1 & x & tr & y & t2 & -> & L1 & L2 & L3 & L4 & L5). destruct (split_cub t1 tr x y t2 t L1 L2 L3 L4 L5) as (b & EB & W & P & F). rewrite EB in E. injection E as <-.
    constructor; [|constructor]. split; [reflexivity|]. split; [now split|]. cbn [tp_i_burst tp_i_train tp_i_num tp_i_block]. rewrite F, app_length. lia.
Qed.

(** * The clocks agree *)
Definition calm (e : um_event) : Prop := match e with UeTick _ _ => False | _ => True end.
Definition same_hour (e : dl_event) : Prop := match e with DvStart _ | DvTick => False | _ => True end.
Lemma hour_kept e s o m s1 : same_hour e -> dl_step e s = Ok (o, m, s1) -> ds_cur s1 = ds_cur s.
Proof.
  intros M E. destruct e as [t| |ts p sdu rep|ts a g|ts a|ts b rep|ts ssi|ts blk|ts act|dr ts u|dr ts|ts ssi req|on]; try contradiction M; cbn [dl_step] in E.
  - bi E. injection E as _ _ <-. unfold dl_enqueue_tma, push_q in E0. bi E0. injection E0 as <-. reflexivity.
  - bi E. injection E as _ _ <-. unfold dl_enqueue_grant, push_q in E0. bi E0. injection E0 as <-. reflexivity.
  - bi E. injection E as _ _ <-. unfold dl_enqueue_random_access_ack, push_q in E0. bi E0. injection E0 as <-. reflexivity.
  - bi E. injection E as _ _ <-. unfold dl_enqueue_stealing, push_q in E0. bi E0. injection E0 as <-. reflexivity.
  - bi E. destruct x as [b0 s0]. injection E as _ _ <-. unfold take_pending_ra_ack in E0. bi E0. destruct (remove_first ssi x); injection E0 as _ <-; reflexivity.
  - bi E. injection E as _ _ <-. unfold dl_schedule_tmd in E0. bi E0. injection E0 as <-. reflexivity.
  - bi E. destruct x as [s0 m0]. injection E as _ _ <-. unfold set_hangtime in E0. destruct (_ && _); [|injection E0 as <- _; reflexivity].
    destruct act; [injection E0 as <- _; reflexivity|]. unfold dl_drop_all_except_stolen in E0. bi E0. bi E0. destruct x0 as [[k r] m1]. bi E0. injection E0 as <- _. reflexivity.
  - bi E. injection E as _ _ <-. unfold dl_create_circuit in E0. bi E0. injection E0 as <-. exact (proj1 (proj2 (clear_like ts s))).
  - bi E. destruct x as [o0 s0]. injection E as _ _ <-. unfold dl_close_circuit in E0. bi E0. destruct x as [o1 c]. injection E0 as _ <-. exact (proj1 (proj2 (clear_like ts s))).
  - bi E. destruct x as [g u]. injection E as _ _ <-. reflexivity.
  - injection E as _ _ <-. reflexivity.
Qed.
Lemma did_hour evs : forall s s1, Forall same_hour evs -> did evs s s1 -> ds_cur s1 = ds_cur s.
Proof.
  induction evs as [|e evs IH]; intros s s1 F (log & E); cbn [dl_run] in E; [injection E as _ <-; reflexivity|].
  bi E. destruct x as [[k m] s2]. bi E. destruct x as [lg s3]. injection E as _ <-. rewrite <- (hour_kept _ _ _ _ _ (Forall_inv F) E0).
  apply (IH _ _ (Forall_inv_tail F)). now exists lg.
Qed.
Lemma from_hour e evs : calm e -> from_event e evs -> Forall same_hour evs.
Proof.
  intros N H. destruct e; try contradiction N; cbn [from_event] in H.
  - eapply Forall_impl; [|exact H]. intros [] X; try contradiction X; exact Logic.I.
  - destruct H as [(p & ->)|(k & b & ->)]; repeat constructor.
  - destruct H as [->|(b & ->)]; repeat constructor.
  - destruct H as [->|(b & ->)]; repeat constructor.
  - eapply Forall_impl; [|exact H]. intros [] X; try contradiction X; exact Logic.I.
Qed.
Lemma step_hour c e u u' o m : ev_fine e -> calm e -> sound u -> um_step c e u = Ok (u', o, m) -> ds_cur (um_sch u') = ds_cur (um_sch u).
Proof. intros F C S E. destruct (step_did c e u u' o m F S E) as (_ & evs & FE & D). exact (did_hour _ _ _ (from_hour e evs C FE) D). Qed.
Lemma tick_hour c cn t v u u' o m : minv c v u -> um_step c (UeTick cn t) u = Ok (u', o, m) -> ds_cur (um_sch u') = t /\ (sound u -> t = add_timeslots (ds_cur (um_sch u)) 1).
Proof.
  intros M E. cbn [um_step] in E. unfold tick_start in E. pose proof (refresh_shows c cn v u M) as R. destruct (refresh_sws c cn (um_sws u) (um_sch u)) as [sws s]. destruct R as (_ & _ & RC).
  apply bind_inv in E. destruct E as ((s1 & m0) & E1 & E). apply bind_inv in E. destruct E as ((u1 & o1) & ES & E). apply bind_inv in E. destruct E as (((k1 & s2) & m2) & EF & E).
  injection E as <- _ _. destruct (finalize_ul _ _ _ _ EF) as (ul & _ & (_ & C & _)). cbn [um_sch set_sch]. cbn [set_ul ds_cur] in C.
  assert (SS : um_sch u1 = s1). { pose proof (silence_same _ _ _ _ ES) as (X & _). exact X. }
  rewrite SS in C. replace (um_sch (set_sch s2 u1)) with s2 by now destruct u1. rewrite C. split.
  - destruct (_ && _); [exact (proj2 (start_face _ _ _ _ E1))|]. apply bind_inv in E1. destruct E1 as (s3 & E1 & H). injection H as <- _. exact (proj2 (tick_face _ _ _ E1)).
  - intros ((_ & now & l & CU & _) & _). rewrite <- RC in CU. rewrite (later_tick s now t _ CU) in E1. apply bind_inv in E1. destruct E1 as (s3 & E1 & _).
    unfold dl_tick_start in E1. apply bind_inv in E1. destruct E1 as (? & EA & _). cbn [ds_cur set_cur] in EA. rewrite <- RC.
    destruct (time_eqb t (add_timeslots (ds_cur s) 1)) eqn:TE; [|discriminate EA]. exact (time_eqb_eq _ _ TE).
Qed.

(** * The invariant of a history *)
Definition good (c : cell_cfg) (v : nat -> ts_view) (s : station) : Prop :=
  sound (st_um s) /\ minv c v (st_um s) /\ tidy (um_sch (st_um s)) /\ lm_ok c (st_lm s) /\ ds_cur (um_sch (st_um s)) = lm_time (st_lm s).
Definition kept (s s' : station) (xs : list um_entry) (ws : list (list N)) : Prop :=
  ws = [] /\ slots_of xs = [] /\ lm_time (st_lm s') = lm_time (st_lm s) /\ lm_tp (st_lm s') = lm_tp (st_lm s) /\ lm_stolen (st_lm s') = lm_stolen (st_lm s) || says_stolen xs.
Lemma kept_nil s : kept s s [] [].
Proof. unfold kept. cbn [says_stolen existsb]. rewrite orb_false_r. now repeat split. Qed.
Lemma slots_of_app a b : slots_of (a ++ b) = slots_of a ++ slots_of b.
Proof. unfold slots_of. apply flat_map_app. Qed.
Lemma kept_app a b d xs ys ws vs : kept a b xs ws -> kept b d ys vs -> kept a d (xs ++ ys) (ws ++ vs).
Proof.
  intros (-> & A2 & A3 & A4 & A5) (-> & B2 & B3 & B4 & B5). split; [reflexivity|]. split; [now rewrite slots_of_app, A2, B2|]. split; [now rewrite B3|]. split; [now rewrite B4|].
  rewrite B5, A5. unfold says_stolen. now rewrite existsb_app, orb_assoc.
Qed.
Lemma plain_slots o : plain o -> slots_in o = [].
Proof. induction o as [|x o IH]; intros P; [reflexivity|]. unfold plain in P. cbn [existsb] in P. apply orb_false_iff in P. destruct P as (P1 & P2). destruct x; try discriminate P1; exact (IH P2). Qed.
(** anything but a tick *)
Lemma do_good c e v s s' x ws : cell_ok c = true -> ev_ok e -> calm e -> marked e = true -> good c v s -> um_do c e s = Ok (s', x, ws) ->
  good c (told v e) s' /\ kept s s' [x] ws /\ fst (fst x) = e.
Proof.
  intros CO (F & VB & CH) CA MK (S & M & T & LO & CK) E. unfold um_do in E. apply bind_inv in E. destruct E as (((u & o) & m) & E & H). apply bind_inv in H. destruct H as ((l & w) & EL & H).
  injection H as <- <- <-. pose proof (step_plain c e _ _ _ _ F CH S E) as P. assert (PL : plain o) by (destruct e; [contradiction CA|exact P..]). rewrite (to_plain o _ PL) in EL. injection EL as <- <-.
  assert (SU : match e with UeTick _ _ => True | _ => sound (st_um s) end) by (destruct e; [exact Logic.I|exact S..]).
  cbn [st_um st_lm]. split; [|split; [split; [reflexivity|split; [|split; [reflexivity|split; [reflexivity|]]]]|reflexivity]].
  - split; [exact (proj1 (step_did c e _ _ _ _ F S E))|]. split; [exact (proj1 (step_shows c e v _ _ _ _ CO F MK SU M E))|]. split; [exact (proj1 (step_tidy c e _ _ _ _ F VB SU T E))|]. split; [exact LO|].
    transitivity (ds_cur (um_sch (st_um s))); [exact (step_hour c e _ _ _ _ F CA S E)|exact CK].
  - cbn [slots_of flat_map fst snd]. now rewrite (plain_slots o PL).
  - cbn [lm_configure lm_stolen says_stolen existsb fst snd st_lm]. now rewrite orb_false_r.
Qed.
Lemma do_all_good c es : cell_ok c = true -> forall v s s' xs ws, Forall ev_ok es -> Forall calm es -> Forall (fun e => marked e = true) es -> good c v s -> um_do_all c es s = Ok (s', xs, ws) ->
  good c (fold_left told es v) s' /\ kept s s' xs ws /\ map (fun x => fst (fst x)) xs = es.
Proof.
  intros CO. induction es as [|e es IH]; intros v s s' xs ws F CA MK G E; cbn [um_do_all] in E.
  - injection E as <- <- <-. split; [exact G|]. split; [apply kept_nil|reflexivity].
  - apply bind_inv in E. destruct E as (((s1 & x) & w1) & E1 & E). apply bind_inv in E. destruct E as (((s2 & xs2) & w2) & E2 & E). injection E as <- <- <-.
    destruct (do_good c e v s s1 x w1 CO (Forall_inv F) (Forall_inv CA) (Forall_inv MK) G E1) as (G1 & K1 & X1).
    destruct (IH _ _ _ _ _ (Forall_inv_tail F) (Forall_inv_tail CA) (Forall_inv_tail MK) G1 E2) as (G2 & K2 & X2).
    split; [exact G2|]. split; [exact (kept_app _ _ _ [x] _ _ _ K1 K2)|cbn [map]; now rewrite X1, X2].
Qed.
Lemma marked_rx es : Forall (fun e => match e with UeTick _ _ | UeControl _ => False | _ => True end) es -> Forall calm es /\ Forall (fun e => marked e = true) es /\ forall v, fold_left told es v = v.
Proof.
  induction 1 as [|e es H F (A & B & C)]; [now repeat split|]. split; [constructor; [destruct e; try contradiction H; exact Logic.I|exact A]|].
  split; [constructor; [destruct e; try contradiction H; reflexivity|exact B]|]. intros v. cbn [fold_left]. rewrite <- (C v) at 2. f_equal. destruct e; try contradiction H; reflexivity.
Qed.
Lemma rx_good c t is : cell_ok c = true -> vtime t -> forall v s s' xs ws, Forall (ind_ok t) is -> good c v s -> rx_blocks c is s = Ok (s', xs, ws) -> good c v s' /\ kept s s' xs ws.
Proof.
  intros CO V. induction is as [|i is IH]; intros v s s' xs ws F G E; cbn [rx_blocks] in E.
  - injection E as <- <- <-. split; [exact G|apply kept_nil].
  - apply bind_inv in E. destruct E as (out & ER & E). apply bind_inv in E. destruct E as (((s1 & x1) & w1) & E1 & E). apply bind_inv in E. destruct E as (((s2 & x2) & w2) & E2 & E). injection E as <- <- <-.
    destruct (rx_events c _ t i out CO (proj1 (proj2 (proj2 (proj2 G)))) V (Forall_inv F) ER) as (OK & NT). destruct (marked_rx _ NT) as (CA & MK & TO).
    destruct (do_all_good c _ CO v s s1 x1 w1 OK CA MK G E1) as (G1 & K1 & _). rewrite TO in G1.
    destruct (IH v s1 s2 x2 w2 (Forall_inv_tail F) G1 E2) as (G2 & K2). split; [exact G2|exact (kept_app _ _ _ _ _ _ _ K1 K2)].
Qed.
(** a tick *)
Lemma tick_good c cn t v s s' xs ws : cell_ok c = true -> minv c v (st_um s) -> tidy (um_sch (st_um s)) -> vtime t -> lm_code (st_lm s) = code_of c -> length (lm_tp (st_lm s)) = 4 ->
  (forall u' o m, um_step c (UeTick cn t) (st_um s) = Ok (u', o, m) -> sound u') -> bs_step c (BeTick cn t) s = Ok (s', xs, ws) ->
  good c v s' /\ exists notices k m x w, xs = [(UeTick cn t, notices ++ [OutSlot k], m)] /\ ws = [b2b w] /\ kind_of k = Some x /\
    on_air (code_of c) x (window (bk_buf (sl_blk1 k))) (second_of k) (window (bk_buf (sl_bbk k))) w /\ (burst_true c cn t v w /\ slot_ready k) /\ plain notices /\ existsb is_stolen notices = false /\ slot_true c cn t v k /\
    lm_time (st_lm s') = t /\ lm_stolen (st_lm s') = false /\ lm_tp (st_lm s') = ts_set (lm_tp (st_lm s)) (ts_of (sl_ts k)) (sl_ul_tp k).
Proof.
  intros CO M T V LC L4 SO E. cbn [bs_step um_do_all] in E. apply bind_inv in E. destruct E as (((s1 & x1) & w1) & E & H). cbn [bind] in H. injection H as <- <- <-. rewrite app_nil_r.
  unfold um_do in E. cbn [st_um st_lm] in E. apply bind_inv in E. destruct E as (((u & o) & m) & E & H). apply bind_inv in H. destruct H as ((l & w') & EL & H). injection H as <- <- <-.
  destruct (tick_sent c cn t v (st_um s) (lm_tick t (st_lm s)) u o m CO M T V L4 E) as (no & k & x & w & EO & Q & P & TL & KO & OA & BT & ST). rewrite TL in EL. injection EL as <- <-. subst o.
  split.
  - cbn [st_um st_lm]. split; [exact (SO _ _ _ E)|]. split; [exact (proj1 (step_shows c (UeTick cn t) v _ _ _ _ CO Logic.I eq_refl Logic.I M E))|].
    split; [exact (proj1 (step_tidy c (UeTick cn t) _ _ _ _ Logic.I Logic.I Logic.I T E))|]. split; [|exact (proj1 (tick_hour c cn t v _ _ _ _ M E))].
    split; [exact LC|]. split; [|exact V]. transitivity (length (lm_tp (st_lm s))); [|exact L4]. unfold taken, ts_set. cbn [lm_tp]. apply upd_length.
  - exists no, k, m, x, w. split; [reflexivity|]. split; [reflexivity|]. split; [exact KO|]. split; [exact OA|]. split; [exact BT|]. split; [exact P|]. split; [exact Q|]. split; [exact ST|]. now repeat split.
Qed.
Lemma tick_total c cn t v s u o m : cell_ok c = true -> minv c v (st_um s) -> tidy (um_sch (st_um s)) -> vtime t -> length (lm_tp (st_lm s)) = 4 ->
  um_step c (UeTick cn t) (st_um s) = Ok (u, o, m) -> exists s' xs ws, bs_step c (BeTick cn t) s = Ok (s', xs, ws).
Proof.
  intros CO M T V L4 E. destruct (tick_sent c cn t v (st_um s) (lm_tick t (st_lm s)) u o m CO M T V L4 E) as (no & k & x & w & EO & Q & P & TL & _).
  cbn [bs_step um_do_all]. unfold um_do. cbn [st_um st_lm]. rewrite E. cbn [bind]. rewrite TL. cbn [bind]. eauto.
Qed.
(** any step *)
Definition told1 (v : nat -> ts_view) (e : bs_event) : nat -> ts_view := match e with BeControl k => told v (UeControl k) | _ => v end.
Definition step_air (c : cell_cfg) (v : nat -> ts_view) (e : bs_event) (s s' : station) (xs : list um_entry) (ws : list (list N)) : Prop :=
  match e with
  | BeTick cn t => exists notices k m x w, xs = [(UeTick cn t, notices ++ [OutSlot k], m)] /\ ws = [b2b w] /\ kind_of k = Some x /\
      on_air (code_of c) x (window (bk_buf (sl_blk1 k))) (second_of k) (window (bk_buf (sl_bbk k))) w /\ (burst_true c cn t v w /\ slot_ready k) /\ plain notices /\ existsb is_stolen notices = false /\ slot_true c cn t v k /\
      lm_time (st_lm s') = t /\ lm_stolen (st_lm s') = false /\ lm_tp (st_lm s') = ts_set (lm_tp (st_lm s)) (ts_of (sl_ts k)) (sl_ul_tp k)
  | _ => kept s s' xs ws
  end.
Lemma step_good c e v s s' xs ws : cell_ok c = true -> bs_fine e -> good c v s -> bs_step c e s = Ok (s', xs, ws) -> good c (told1 v e) s' /\ step_air c v e s s' xs ws.
Proof.
  intros CO F G E.
  assert (ONE : forall ue, calm ue -> ev_ok ue -> marked ue = true -> um_do_all c [ue] s = Ok (s', xs, ws) -> good c (told v ue) s' /\ kept s s' xs ws).
  { intros ue CA OK MK H. destruct (do_all_good c [ue] CO v s s' xs ws) as (A & B & _); [now constructor..|exact G|exact H|]. auto. }
  destruct e as [cn t|ts bits|r|ts data|k]; cbn [told1 step_air bs_fine] in *.
  - destruct G as (S & M & T & (LC & L4 & LV) & CK).
    assert (V : vtime t). { cbn [bs_step um_do_all] in E. apply bind_inv in E. destruct E as (((s1 & x1) & w1) & E & _). unfold um_do in E. apply bind_inv in E. destruct E as (((u & o) & m) & E & _). cbn [st_um] in E.
      rewrite (proj2 (tick_hour c cn t v _ _ _ _ M E) S). apply add_valid. }
    apply (tick_good c cn t v s s' xs ws CO M T V LC L4); [|exact E]. intros u' o m ES. exact (proj1 (step_did c (UeTick cn t) _ _ _ _ Logic.I S ES)).
  - destruct F as (l & ->). cbn [bs_step] in E. apply bind_inv in E. destruct E as (is & ES & E). apply split_ok in ES. pose proof G as (_ & _ & _ & (_ & _ & LV) & _).
    exact (rx_good c (lm_time (st_lm s)) is CO LV v s s' xs ws ES G E).
  - exact (ONE (UeSend r) Logic.I (conj Logic.I (conj Logic.I Logic.I)) eq_refl E).
  - exact (ONE (UeDlVoice ts data) Logic.I (conj Logic.I (conj F Logic.I)) eq_refl E).
  - exact (ONE (UeControl k) Logic.I (conj Logic.I (conj Logic.I Logic.I)) F E).
Qed.

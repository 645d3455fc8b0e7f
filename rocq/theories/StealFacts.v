(** Signalling sent by stealing half a traffic slot: the theorems. *)
From Coq Require Import Arith.
From Verif Require Import Base BitsLib BitBuffer BitBufferProofs BitBufferOps Codec MacFields MacPdus Layout LayoutProofs
  MacSpec BsFrag FragSpec TxReceipt TdmaTime TdmaTimeProofs UmacCircuits DlSched DlSchedSpec DlSlot DlRun UmacBs StealSpec StealProofs StealRun DlFacts.
Open Scope nat_scope.

Lemma first_set_spec l : forall k, match first_set l k with
  | Some t => k <= t /\ nth_error l (t - k) = Some true /\ forall i, nth_error l i = Some true -> t - k <= i
  | None => forall i, nth_error l i <> Some true end.
Proof.
  induction l as [|b l IH]; intros k; cbn [first_set].
  - intros i. destruct i; discriminate.
  - destruct b.
    + rewrite Nat.sub_diag. split; [lia|]. split; [reflexivity|]. intros. lia.
    + specialize (IH (S k)). destruct (first_set l (S k)) as [t|].
      * destruct IH as (A & B & C). split; [lia|]. replace (t - k) with (S (t - S k)) by lia. split; [exact B|]. intros i H. destruct i; [discriminate|]. cbn [nth_error] in H. specialize (C i H). lia.
      * intros i. destruct i; [discriminate|]. apply IH.
Qed.
Lemma first_active_spec s l : match first_active l s with
  | Ok (Some t) => exists a b, l = a ++ t :: b /\ circuit_is_active DirDl t s = Ok true /\ Forall (fun x => circuit_is_active DirDl x s = Ok false) a
  | Ok None => Forall (fun x => circuit_is_active DirDl x s = Ok false) l
  | _ => True end.
Proof.
  induction l as [|t l IH]; cbn [first_active]; [constructor|]. destruct (circuit_is_active DirDl t s) as [[]| |] eqn:E; cbn [bind]; try exact Logic.I.
  - exists [], l. auto.
  - destruct (first_active l s) as [[x|]| |]; try exact Logic.I.
    + destruct IH as (a & b & -> & B & C). exists (t :: a), b. split; [reflexivity|]. split; [assumption|]. constructor; assumption.
    + constructor; assumption.
Qed.
Lemma traffic_ts_spec r s ts : traffic_ts r s = Ok (Some ts) -> steal_from r s ts.
Proof.
  unfold traffic_ts. intros E.
  assert (NN : (forall t, ~ names r t) -> first_active [2; 3; 4] s = Ok (Some ts) -> steal_from r s ts).
  { intros NN EA. pose proof (first_active_spec s [2; 3; 4]) as H. rewrite EA in H. destruct H as (a & b & L & A & F). right. split; [assumption|].
    destruct a as [|x a]; [injection L as <- <-; split; [lia|]; split; [assumption|]; lia|]. injection L as <- L. inversion F as [|? ? F1 F2]; subst.
    destruct a as [|x a]; [injection L as <- <-; split; [lia|]; split; [assumption|]; intros t HT; replace t with 2 by lia; assumption|]. injection L as <- L. inversion F2 as [|? ? F3 F4]; subst.
    destruct a as [|x a]; [injection L as <- <-; split; [lia|]; split; [assumption|]; intros t HT; assert (t = 2 \/ t = 3) as [-> | ->] by lia; assumption|].
    injection L as _ L. destruct a; discriminate. }
  destruct (tr_chan r) as [c|] eqn:EC.
  - pose proof (first_set_spec (Llc.cq_timeslots c) 1) as H. destruct (first_set (Llc.cq_timeslots c) 1) as [t|].
    + injection E as ->. destruct H as (A & B & C). left. split; [exists c; auto|]. intros t (c' & E' & L' & H'). assert (c' = c) as -> by congruence. specialize (C _ H'). lia.
    + apply NN; [|assumption]. intros t (c' & E' & _ & H'). assert (c' = c) as -> by congruence. exact (H _ H').
  - apply NN; [|assumption]. intros t (c' & E' & _). congruence.
Qed.
Lemma remove_first_spec x l : match remove_first x l with Some _ => In x l | None => ~ In x l end.
Proof.
  induction l as [|y l IH]; cbn [remove_first]; [auto|]. destruct (N.eqb_spec y x) as [->|N0]; [left; reflexivity|].
  destruct (remove_first x l); [right; assumption|]. intros [H|H]; [congruence|contradiction].
Qed.
(** The request, as scheduler events. *)
Lemma steal_request carrier r s s' ts : tr_steal r = true -> traffic_ts r s = Ok (Some ts) -> rx_tma_unitdata_req carrier r s = Ok s' ->
  exists waiting raf b s1, ts_get (ds_ra s) ts = Ok waiting /\
    (raf = true <-> ad_type (tr_addr r) = SsiIssi \/ In (ad_ssi (tr_addr r)) waiting) /\
    stch_block raf r = Ok b /\ dl_step (DvTakeRa ts (ad_ssi (tr_addr r))) s = Ok (None, [], s1) /\ dl_step (DvSteal ts b (tr_rep r)) s1 = Ok (None, [], s').
Proof.
  intros ES ET E. unfold rx_tma_unitdata_req in E. rewrite ES, ET in E. cbn [bind] in E. bi E. destruct x as [ra s1]. cbn [fst snd] in E. bi E.
  pose proof E0 as ER. unfold take_pending_ra_ack in E0. bi E0.
  exists x0, (ra || is_issi (tr_addr r)), x, s1. split; [assumption|].
  split. { pose proof (remove_first_spec (ad_ssi (tr_addr r)) x0) as RF. unfold is_issi. destruct (remove_first (ad_ssi (tr_addr r)) x0); injection E0 as <- _; cbn [orb].
    - tauto.
    - destruct (ad_type (tr_addr r)); split; intros H; try discriminate; try tauto; destruct H as [H|H]; try discriminate; contradiction. }
  split; [assumption|]. cbn [dl_step]. rewrite ER. cbn [bind]. split; [reflexivity|]. rewrite E. reflexivity.
Qed.

(** * The theorems *)
Lemma C20_block_proof raf r : steal_ok r -> steal_size r <= half_slot -> steal_size r mod 8 = 0 ->
  exists b, stch_block raf r = Ok b /\ wf b /\ length (window b) = half_slot /\
    slot_items_lenient (window b) = Some [IWhole (header (steal_header raf r)) (window (tr_sdu r))].
Proof.
  intros OK L M. destruct (stch_spec raf r OK) as (_ & H). destruct (H L) as (b & E & Wb & EW). exists b. split; [assumption|]. split; [assumption|].
  split; [|now apply steal_exact]. destruct (the_pdu_valid raf r OK L) as (_ & _ & LE). rewrite EW, !app_length, LE, repeat_length. unfold half_slot, steal_size in *. lia.
Qed.
Lemma C20_damage_proof raf r : steal_ok r -> steal_size r mod 8 <> 0 -> window (tr_sdu r) <> [] ->
  (steal_size r <= 120 -> exists b d, stch_block raf r = Ok b /\ slot_items_lenient (window b) = Some [IWhole (header (steal_header raf r)) d] /\
      d = strip (window (tr_sdu r)) /\ length d < length (window (tr_sdu r))) /\
  (120 < steal_size r <= half_slot -> exists b, stch_block raf r = Ok b /\ slot_items_lenient (window b) = None) /\
  (half_slot < steal_size r -> stch_block raf r = Panic).
Proof.
  intros OK M NE. destruct (stch_spec raf r OK) as (HP & H). split; [|split; [|exact HP]].
  - intros L. assert (L' : steal_size r <= half_slot) by (unfold half_slot; lia). destruct (H L') as (b & E & Wb & EW). exists b, (strip (window (tr_sdu r))). split; [assumption|].
    rewrite (steal_other raf r b OK L' M E). destruct (Nat.leb_spec (steal_size r) 120); [|lia]. split; [reflexivity|]. split; [reflexivity|]. now apply strip_less.
  - intros (L1 & L'). destruct (H L') as (b & E & Wb & EW). exists b. split; [assumption|]. rewrite (steal_other raf r b OK L' M E). destruct (Nat.leb_spec (steal_size r) 120); [lia|reflexivity].
Qed.
Lemma C20_queue_proof k t code p evs log s : 1 <= k <= 4 -> Forall steal_fair evs -> dl_run (DvStart t :: evs) (dls_new code p) = Ok (log, s) ->
  exists q, get_q k s = Ok q /\ flat_map (stolen_slot k) log ++ map (fun x => window (fst x)) (steals q) = flat_map (steal_wish k) log.
Proof. intros K F E. destruct (history_steals k t code p evs log s K F E) as (q & (_ & _ & EQ) & _ & H). exists q. split; assumption. Qed.
Lemma C20_slot_proof k t code p evs log s q b rep rest slot m s' :
  1 <= k <= 4 -> Forall steal_fair evs -> dl_run (DvStart t :: evs) (dls_new code p) = Ok (log, s) ->
  get_q k s = Ok q -> steals q = (b, rep) :: rest ->
  dl_step DvTick s = Ok (Some slot, m, s') -> for_ts k (sl_ts slot) = true -> tm_f (sl_ts slot) <> 18%Z -> circuit_is_active DirDl k s = Ok true ->
  bk_chan (sl_blk1 slot) = CStch /\ window (bk_buf (sl_blk1 slot)) = window b /\
  (exists b2, sl_blk2 slot = Some b2 /\ bk_chan b2 = CTchS) /\ (pending rep -> m = sent rep) /\
  exists q', get_q k s' = Ok q' /\ steals q' = rest.
Proof.
  intros K F E GQ SQ ET HT H18 CA. destruct (history_steals k t code p evs log s K F E) as (q0 & HW & FT & _). pose proof HW as (_ & _ & EQ). assert (q0 = q) as -> by congruence.
  cbn [dl_step] in ET. bi ET. bi ET. destruct x0 as [[kk s2] m2]. injection ET as <- <- <-.
  assert (HX : W k x q /\ circuit_is_active DirDl k x = Ok true).
  { unfold dl_tick_start in E0. bi E0. injection E0 as <-. split; [apply (W_same k s); [split; reflexivity|assumption]|assumption]. }
  destruct HX as (HX & CX). destruct (tick_steals _ _ _ _ _ _ E1 HX K FT HT) as (q1 & (_ & _ & HW1) & _ & D & NX).
  assert (C : bk_chan (sl_blk1 kk) = CStch) by (apply NX; [assumption|assumption|congruence]).
  destruct D as [(_ & b' & rep' & SQ' & WB & B2 & MK)|(C' & _)]; [|contradiction]. rewrite SQ in SQ'. injection SQ' as <- <- EQR.
  split; [assumption|]. split; [assumption|]. split; [assumption|]. split; [|exists q1; auto].
  intros P. destruct rep as [x1|]; cbn [mark_opt sent pending] in *; [|congruence]. destruct x1 as [ea by0]. cbn [tx_byte tx_expects_ack] in *. subst by0.
  unfold marked, tx_mark_transmitted in MK. cbn in MK. injection MK as <-. reflexivity.
Qed.

(** * A call on timeslot 2 and messages to its members *)
Definition ex_chan : option Llc.chan_req := Some (Llc.mk_chreq (Some 5%N) [false; true; false; false] 0 3).
Definition ex_steal (n : nat) (c : option Llc.chan_req) : tma_req := mk_tma ex_start (ex_sdu n) (mk_addr 2001 false SsiGssi) true c (Some ex_rep).
Lemma ex_steal_ok n c : steal_usage (ex_steal n c) = None \/ steal_usage (ex_steal n c) = Some 5%N -> steal_ok (ex_steal n c).
Proof.
  intros H. split; [exact (proj1 (sdu_ok n))|]. unfold steal_header. destruct H as [-> | ->]; split; reflexivity.
Qed.
Lemma ex_steal_size n c : steal_usage (ex_steal n c) = Some 5%N -> steal_size (ex_steal n c) = 49 + n.
Proof.
  intros H. unfold steal_size. rewrite steal_bound, H. f_equal. destruct (sdu_ok n) as (A & B & C). cbn [tr_sdu ex_steal]. rewrite window_split by assumption.
  unfold written. rewrite B, Nat.sub_diag. exact C.
Qed.
Definition ex_blk (n : nat) : bitbuf := match stch_block false (ex_steal n ex_chan) with Ok b => b | _ => bb_new 0 end.
Lemma ex_blk_ok n : 49 + n <= 124 -> wf (ex_blk n).
Proof.
  intros H. unfold ex_blk. destruct (stch_spec false _ (ex_steal_ok n ex_chan (or_intror eq_refl))) as (_ & S). rewrite ex_steal_size in S by reflexivity.
  destruct (S H) as (b & E & Wf & _). rewrite E. exact Wf.
Qed.
Definition ex_steals : list dl_event := [DvOpen DirDl 2 5; DvSteal 2 (ex_blk 55) (Some ex_rep); DvHang 2 true; DvSteal 2 (ex_blk 31) None; DvResource 2 (ex_hdr 1001 None) (ex_sdu 45) None; DvHang 2 false].
Lemma ex_steals_fair : Forall steal_fair ex_steals.
Proof. do 6 (apply Forall_cons; [first [exact Logic.I|apply ex_blk_ok; lia]|]). apply Forall_nil. Qed.
Lemma C20_queue_met : Forall steal_fair (ex_steals ++ repeat DvTick 4) /\ exists log s q, dl_run (DvStart ex_start :: ex_steals ++ repeat DvTick 4) (dls_new 5 ex_pre) = Ok (log, s) /\
  flat_map (stolen_slot 2) log = [window (ex_blk 55)] /\ get_q 2 s = Ok q /\ map (fun x => window (fst x)) (steals q) = [window (ex_blk 31)].
Proof.
  split. { apply Forall_app. split; [exact ex_steals_fair|]. do 4 (apply Forall_cons; [exact Logic.I|]). apply Forall_nil. }
  destruct (ends_spec (ex_steals ++ repeat DvTick 4) (fun log s => (flat_map (stolen_slot 2) log, match get_q 2 s with Ok q => Some (map (fun x => window (fst x)) (steals q)) | _ => None end))
    ([window (ex_blk 55)], Some [window (ex_blk 31)])) as (log & s & E & H); [vm_compute; reflexivity|].
  revert H. generalize (window (ex_blk 55)) (window (ex_blk 31)). intros w1 w2 H. exists log, s. pose proof (f_equal fst H) as H1. pose proof (f_equal snd H) as H2. cbn [fst snd] in H1, H2. clear H.
  revert H2. generalize (get_q 2 s). intros g H2. destruct g as [q| |]; try discriminate H2. exists q. apply (f_equal (fun o => match o with Some x => x | None => [] end)) in H2. split; [exact E|]. split; [exact H1|]. split; [reflexivity|exact H2].
Qed.
Lemma C20_slot_met : Forall steal_fair ex_steals /\ exists log s q b rep rest slot m s', dl_run (DvStart ex_start :: ex_steals) (dls_new 5 ex_pre) = Ok (log, s) /\
  get_q 2 s = Ok q /\ steals q = (b, rep) :: rest /\ length rest = 1 /\ pending rep /\
  dl_step DvTick s = Ok (Some slot, m, s') /\ for_ts 2 (sl_ts slot) = true /\ tm_f (sl_ts slot) <> 18%Z /\ circuit_is_active DirDl 2 s = Ok true.
Proof.
  split; [exact ex_steals_fair|].
  assert (H : match dl_run (DvStart ex_start :: ex_steals) (dls_new 5 ex_pre) with
    | Ok (_, s) => match get_q 2 s, dl_step DvTick s with Ok q, Ok (Some slot, _, _) => Some (map snd (steals q), for_ts 2 (sl_ts slot), tm_f (sl_ts slot), circuit_is_active DirDl 2 s) | _, _ => None end
    | _ => None end = Some ([Some ex_rep; None], true, 2%Z, Ok true)) by (vm_compute; reflexivity).
  revert H. generalize (dl_run (DvStart ex_start :: ex_steals) (dls_new 5 ex_pre)). intros run H. destruct run as [[log s]| |]; try discriminate H. destruct (get_q 2 s) as [q| |] eqn:EQ; try discriminate H.
  destruct (dl_step DvTick s) as [[[[slot|] m] s']| |] eqn:E; try discriminate H. exists log, s, q. injection H as H1 H2 H3 H4.
  destruct (steals q) as [|[b rep] rest]; [discriminate H1|]. injection H1 as -> H1. exists b, (Some ex_rep), rest, slot, m, s'. split; [reflexivity|]. split; [exact EQ|]. split; [reflexivity|].
  split; [|split; [reflexivity|split; [exact E|split; [exact H2|split; [congruence|exact H4]]]]]. destruct rest as [|x [|]]; try discriminate H1. reflexivity.
Qed.
Lemma C20_request_met : exists log s s', dl_run (DvStart ex_start :: ex_steals) (dls_new 5 ex_pre) = Ok (log, s) /\
  tr_steal (ex_steal 55 None) = true /\ traffic_ts (ex_steal 55 None) s = Ok (Some 2) /\ rx_tma_unitdata_req 1521 (ex_steal 55 None) s = Ok s'.
Proof.
  assert (H : match dl_run (DvStart ex_start :: ex_steals) (dls_new 5 ex_pre) with
    | Ok (_, s) => match rx_tma_unitdata_req 1521 (ex_steal 55 None) s with Ok _ => Some (traffic_ts (ex_steal 55 None) s) | _ => None end
    | _ => None end = Some (Ok (Some 2))) by (vm_compute; reflexivity).
  revert H. generalize (dl_run (DvStart ex_start :: ex_steals) (dls_new 5 ex_pre)). intros run H. destruct run as [[log s]| |]; try discriminate H. destruct (rx_tma_unitdata_req 1521 (ex_steal 55 None) s) as [s'| |] eqn:E; try discriminate H.
  exists log, s, s'. injection H as H. auto.
Qed.

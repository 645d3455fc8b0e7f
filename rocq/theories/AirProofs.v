(** What the lower MAC and the physical layer make of a slot. *)
From Coq Require Import Arith.
From Verif Require Import Base BitsLib BitBuffer BitBufferProofs BitBufferOps BitBufferFacts Codec TypedFields MacFields MacPdus MacBroadcast MleBroadcast TdmaTime TdmaTimeProofs UmacCircuits UmacCircuitsProofs UmacPrecomps UmacBs
  Scrambler ScramblerProofs ErrorControl ChanSpec LmacSpec LmacFacts SpeechProofs Slotter SlotterSpec SlotterProofs DlSched DlSlot SlotSpec SlotProofs SlotWf StealProofs LmacBs BsMac AirSpec.
Open Scope nat_scope.

(** * A reader sees only the bits from the cursor on *)
Definition local {A} (r : reader A) : Prop := forall b b' x t, wf b -> wf b' -> remaining b = remaining b' -> r b = Ok (x, t) ->
  exists t', r b' = Ok (x, t') /\ wf t /\ wf t' /\ remaining t = remaining t'.
Lemma local_ret {A} (x : A) : local (rret x).
Proof. intros b b' y t W W' E H. injection H as <- <-. exists b'. split; [reflexivity|]. split; [exact W|]. split; [exact W'|exact E]. Qed.
Lemma local_bind {A B} (r : reader A) (k : A -> reader B) : local r -> (forall x, local (k x)) -> local (rbind r k).
Proof.
  intros R K b b' y t W W' E H. unfold rbind in *. apply bind_inv in H. destruct H as ((x & s) & H1 & H2). destruct (R b b' x s W W' E H1) as (s' & E1 & V & V' & E2).
  rewrite E1. cbn [bind fst snd] in *. exact (K x s s' y t V V' E2 H2).
Qed.
Lemma local_field n : n <= 64 -> local (rfield n).
Proof.
  intros L b b' x t W W' E H. unfold rfield in *. rewrite (read_field_spec b n W L) in H. rewrite (read_field_spec b' n W' L), <- E.
  destruct (n <=? length (remaining b)) eqn:D; [|discriminate H]. apply Nat.leb_le in D. injection H as <- <-. exists (adv b' n). split; [reflexivity|].
  split; [now apply wf_adv|]. split; [apply wf_adv; [exact W'|now rewrite <- E]|]. rewrite !remaining_adv by assumption. now rewrite E.
Qed.
Lemma local_flag : local rflag.
Proof. apply local_bind; [apply local_field; lia|intros; apply local_ret]. Qed.
Lemma local_panic {A} : local (@rpanic A).
Proof. intros b b' x t _ _ _ H. discriminate H. Qed.
Lemma local_lift {A} (x : res A) : local (rlift x).
Proof. intros b b' y t W W' E H. unfold rlift in *. destruct x; cbn [bind] in *; try discriminate H. injection H as <- <-. exists b'. split; [reflexivity|]. split; [exact W|]. split; [exact W'|exact E]. Qed.
Lemma local_assert c : local (rassert c).
Proof. destruct c; [apply local_ret|apply local_panic]. Qed.
Lemma local_seek n : local (rseek_rel (Z.of_nat n)).
Proof.
  intros b b' x t W W' E H. unfold rseek_rel, seek_rel in *. pose proof W as (A1 & A2 & A3 & A4). pose proof W' as (B1 & B2 & B3 & B4).
  pose proof (f_equal (@length bool) E) as L. unfold remaining in L. rewrite !bits_rng_length in L.
  destruct ((Z.of_nat (bstart b) <=? Z.of_nat (bpos b) + Z.of_nat n)%Z && (Z.of_nat (bpos b) + Z.of_nat n <=? Z.of_nat (bend b))%Z) eqn:C; cbn [assert bind] in H; [|discriminate H].
  apply andb_true_iff in C. destruct C as (C1 & C2). apply Z.leb_le in C1, C2. injection H as <- <-.
  replace ((Z.of_nat (bstart b') <=? Z.of_nat (bpos b') + Z.of_nat n)%Z && (Z.of_nat (bpos b') + Z.of_nat n <=? Z.of_nat (bend b'))%Z) with true
    by (symmetry; apply andb_true_iff; split; apply Z.leb_le; lia).
  cbn [assert bind]. rewrite <- !Nat2Z.inj_add, !Nat2Z.id. fold (adv b n) (adv b' n). exists (adv b' n). split; [reflexivity|].
  assert (LB : n <= length (remaining b)) by (unfold remaining; rewrite bits_rng_length; lia).
  split; [now apply wf_adv|]. split; [apply wf_adv; [exact W'|now rewrite <- E]|]. rewrite !remaining_adv by assumption. now rewrite E.
Qed.
Ltac head_of r := lazymatch r with ?f _ => head_of f | _ => r end.
Ltac loc := lazymatch goal with
  | |- forall _, _ => intros ?; loc
  | |- local (rbind _ _) => apply local_bind; loc
  | |- local (rret _) => apply local_ret
  | |- local (rfield _) => apply local_field; lia
  | |- local rflag => apply local_flag
  | |- local rpanic => apply local_panic
  | |- local (rlift _) => apply local_lift
  | |- local (rassert _) => apply local_assert
  | |- local (rseek_rel 20) => exact (local_seek 20)
  | |- local (if ?c then _ else _) => destruct c; loc
  | |- local (match ?p with _ => _ end) => destruct p; loc
  | |- local ?r => let h := head_of r in unfold h; loc
  end.
Lemma sync_local : local (then_read sync_read msync_read).
Proof. loc. Qed.
Lemma sysinfo_local : local (then_read si_read msi_read).
Proof. loc. Qed.
Lemma aa_local : local aa_read.
Proof. loc. Qed.
Lemma a18_local : local a18_read.
Proof. loc. Qed.
Lemma local_says {A} (r : reader A) b x : local r -> ready b -> reads_all r b x -> says r (window b) x.
Proof.
  intros L (W & P) (t & E) b' (W' & P' & V). destruct (L b b' x t W W') as (t' & E' & _); [|exact E|now exists t'].
  now rewrite !remaining_at_start, V by assumption.
Qed.

(** * Channel coding *)
Lemma enc_cp c k n blk code : control_sizes c = Some (k, n) -> wf blk -> length (window blk) = k -> (code < 2 ^ 32)%N ->
  exists b l, encode_cp c blk code = Ok b /\ fresh_with b l /\ length l = n /\ holds_msg c code l (window blk).
Proof.
  intros S W L C. destruct (control_encode c k n blk code S W L C) as (b & E & WB & PB & LB). exists b, (window b). split; [exact E|]. split; [now split|]. split; [exact LB|].
  intros r rb (e & LE & WE & ->) (WR & PR & VR). rewrite LB in LE. destruct (control_chain c k n blk code b rb e false (Some code) S W L C E LE WE WR PR VR eq_refl) as (o & D & WO & PO & VO).
  exists o. split; [exact D|now split].
Qed.
Lemma zeros_weight n : weight (repeat false n) = 0.
Proof. induction n; [reflexivity|exact IHn]. Qed.
Lemma enc_aach buf code : ready buf -> length (window buf) = 14 -> (code < 2 ^ 32)%N ->
  exists b l, encode_aach buf code = Ok b /\ fresh_with b l /\ length l = 30 /\ holds_aach code l (window buf).
Proof.
  intros (W & P) L C. destruct (aach_full buf code (repeat false 30) W P L C) as (b & E & WB & PB & LB & _); [apply repeat_length|rewrite zeros_weight; lia|].
  exists b, (window b). split; [exact E|]. split; [now split|]. split; [exact LB|]. intros r rb (e & LE & WE & ->) (WR & PR & VR). rewrite LB in LE.
  destruct (aach_full buf code e W P L C LE WE) as (b2 & E2 & _ & _ & _ & D). assert (b2 = b) as -> by congruence. destruct (D rb WR PR VR) as (o & DO & WO & PO & VO).
  exists o. split; [exact DO|now split].
Qed.
Lemma xorl_self_zero e : forall l, length e = length l -> l = xorl l e -> weight e = 0.
Proof.
  induction e as [|x e IH]; intros [|y l] L H; try discriminate L; [reflexivity|]. injection L as L. cbn [xorl map combine] in H. injection H as H1 H2.
  destruct x; [destruct y; discriminate H1|]. exact (IH l L H2).
Qed.
Lemma enc_tp blk code : wf blk -> length (window blk) = 274 -> (code < 2 ^ 32)%N ->
  exists b l, encode_tp TchS blk code 1 = Ok b /\ fresh_with b l /\ length l = 432 /\ holds_speech code l (window blk).
Proof.
  intros W L C. destruct (speech_roundtrip blk code (repeat false 432) W L C) as (b & E & WB & PB & LB & _); [apply repeat_length|rewrite zeros_weight; lia|].
  exists b, (window b). split; [exact E|]. split; [now split|]. split; [exact LB|]. intros r rb (e & LE & WE & ->) (WR & PR & VR). rewrite LB in LE.
  destruct (speech_roundtrip blk code e W L C LE WE) as (b2 & E2 & _ & _ & _ & D). assert (b2 = b) as -> by congruence.
  destruct (D rb WR PR VR) as (o & DO & WO & PO & LO & _ & Z & R). exists o. split; [exact DO|]. split; [exact WO|]. split; [exact PO|]. split; [exact LO|]. split; [|exact R].
  intros H. apply Z. apply (xorl_self_zero e (window b)); [congruence|now symmetry].
Qed.
Lemma encode_tp_second c blk code p b : get_params c = Ok p -> encode_tp c blk code 1 = Ok b ->
  encode_tp c blk code 2 = (b <- seek 0 b ;;
    ' (full, _) <- to_bitarr (type345_bits p) b ;;
    full <- ArrCopy.blit (repeat 0%N MAX_TYPE345_BITS) 0 full ;;
    h <- ArrCopy.slice full MAX_TYPE345_HALFSLOT_BITS (type345_bits p - MAX_TYPE345_HALFSLOT_BITS) ;;
    bb_from_bitarr h).
Proof.
  intros P E. unfold encode_tp in *. rewrite P in *. cbn [bind] in *.
  repeat lazymatch type of E with bind _ _ = _ =>
    apply bind_inv in E; let y := fresh in let EY := fresh in destruct E as (y & EY & E); rewrite EY; clear EY; cbn [bind];
    lazymatch type of y with prod _ _ => destruct y | _ => idtac end; cbn beta iota zeta in E |- * end.
  change ((1 =? 1)%N) with true in E. change ((2 =? 1)%N) with false. cbv iota in E |- *. injection E as ->. reflexivity.
Qed.
Lemma enc_tp2 blk code : wf blk -> length (window blk) = 274 -> (code < 2 ^ 32)%N ->
  exists b l first, encode_tp TchS blk code 2 = Ok b /\ fresh_with b l /\ length l = 216 /\ length first = 216 /\ holds_speech code (first ++ l) (window blk).
Proof.
  intros W L C. destruct (enc_tp blk code W L C) as (b & l & E & (WB & PB & VB) & LL & H).
  destruct (CchProofs.seek_start b WB) as (S1 & S2 & S3). rewrite VB in S3.
  destruct (from_bitarr_spec (skipn 216 l)) as (b2 & E2 & W2 & P2 & _ & V2).
  exists b2, (skipn 216 l), (firstn 216 l). split; [|split; [now split|split; [rewrite skipn_length; lia|split; [rewrite firstn_length; lia|now rewrite firstn_skipn]]]].
  rewrite (encode_tp_second TchS blk code (mk_ecp 432 288 274 103 false) b eq_refl E), S1. cbn [bind type345_bits].
  rewrite (to_bitarr_n 432 _ S2) by (rewrite S3; lia). cbn [bind]. rewrite S3, firstn_all2 by lia. change MAX_TYPE345_BITS with 432. rewrite (SpeechProofs.blit_0 (b2b l)) by (rewrite b2b_length; lia).
  rewrite b2b_length, LL, Nat.sub_diag. cbn [repeat bind]. rewrite app_nil_r. change MAX_TYPE345_HALFSLOT_BITS with 216.
  rewrite (ArrCopyProofs.slice_ok (b2b l) 216 (432 - 216)) by (rewrite b2b_length; lia). cbn [bind].
  rewrite b2b_skipn, firstn_all2 by (rewrite b2b_length, skipn_length; lia). exact E2.
Qed.

(** * The whole slot *)
Lemma code_small c : cell_ok c = true -> (code_of c < 2 ^ 32)%N.
Proof.
  intros H. unfold code_of. destruct (N.eq_dec (cf_colour c) 0) as [->|N0]; [unfold scramb_get_init; cbn; lia|].
  unfold cell_ok in H. repeat (apply andb_true_iff in H; destruct H as (H & ?)). repeat match goal with X : (_ <? _)%N = true |- _ => apply N.ltb_lt in X end.
  change (2 ^ 32)%N with 4294967296%N. rewrite scramb_init_val; [change (2 ^ 14)%N with 16384%N; change (2 ^ 6)%N with 64%N; lia|lia|change (2 ^ 14)%N with 16384%N; lia|change (2 ^ 10)%N with 1024%N; lia].
Qed.
Lemma len_of b n : wf b -> get_len b = Ok n -> length (window b) = n.
Proof. intros W E. rewrite (win_len b W) in E. congruence. Qed.
Definition taken (k : dl_slot) (l : lmac) : lmac := mk_lmac (lm_code l) (lm_time l) (ts_set (lm_tp l) (ts_of (sl_ts k)) (sl_ul_tp k)) (lm_stolen l).
Lemma rem_of b l : fresh_with b l -> remaining b = l.
Proof. intros (_ & P & V). now rewrite remaining_at_start. Qed.
Lemma ndb2_air b1 l1 bb lb b2 l2 : fresh_with b1 l1 -> fresh_with bb lb -> fresh_with b2 l2 -> length l1 = 216 -> length lb = 30 -> length l2 = 216 ->
  exists w, phy_build (mk_tpreq BurstNDB TrainNormal2 (Some bb) (Some b1) (Some b2)) = Ok (b2b w) /\ length w = 510 /\ part w 14 216 = l1 /\ part w 230 14 ++ part w 266 16 = lb /\
    part w 282 216 = l2 /\ part w 244 22 = normal2.
Proof.
  intros F1 FB F2 L1 LB L2. rewrite (ndb2_request b1 bb b2 (proj1 F1) (proj1 FB) (proj1 F2)) by (rewrite ?(rem_of _ _ F1), ?(rem_of _ _ FB), ?(rem_of _ _ F2); lia).
  rewrite (rem_of _ _ F1), (rem_of _ _ FB), (rem_of _ _ F2), !firstn_all2 by lia.
  destruct (ndb_built TrainNormal2 l1 lb l2 (or_intror eq_refl) L1 LB L2) as (h1 & h2 & H1 & H2 & ->). cbn [train_bits].
  destruct (ndb_slices normal2 l1 lb l2 h1 h2 eq_refl L1 LB L2 H1 H2) as (A & B & C & D & E).
  exists (ndb normal2 l1 lb l2 h1 h2). split; [reflexivity|]. split; [exact A|]. split; [exact B|]. split; [exact C|]. split; [exact D|exact E].
Qed.
Lemma ndb1_air b1 l1 bb lb : fresh_with b1 l1 -> fresh_with bb lb -> length l1 = 432 -> length lb = 30 ->
  exists w, phy_build (mk_tpreq BurstNDB TrainNormal1 (Some bb) (Some b1) None) = Ok (b2b w) /\ length w = 510 /\ part w 14 216 ++ part w 282 216 = l1 /\ part w 230 14 ++ part w 266 16 = lb /\
    part w 244 22 = normal1.
Proof.
  intros F1 FB L1 LB. rewrite (ndb1_request b1 bb (proj1 F1) (proj1 FB)) by (rewrite ?(rem_of _ _ F1), ?(rem_of _ _ FB); lia).
  rewrite (rem_of _ _ F1), (rem_of _ _ FB), (firstn_all2 lb) by lia.
  assert (M1 : length (firstn 216 l1) = 216) by (rewrite firstn_length; lia). assert (M2 : length (skipn 216 l1) = 216) by (rewrite skipn_length; lia).
  rewrite (firstn_all2 (skipn 216 l1)) by lia.
  destruct (ndb_built TrainNormal1 (firstn 216 l1) lb (skipn 216 l1) (or_introl eq_refl) M1 LB M2) as (h1 & h2 & H1 & H2 & ->). cbn [train_bits].
  destruct (ndb_slices normal1 (firstn 216 l1) lb (skipn 216 l1) h1 h2 eq_refl M1 LB M2 H1 H2) as (A & B & C & D & E).
  exists (ndb normal1 (firstn 216 l1) lb (skipn 216 l1) h1 h2). split; [reflexivity|]. split; [exact A|].
  split; [|split; [exact C|exact E]].
  transitivity (firstn 216 l1 ++ skipn 216 l1); [|apply firstn_skipn]. f_equal; [exact B|exact D].
Qed.
Lemma sdb_air b1 l1 bb lb b2 l2 : fresh_with b1 l1 -> fresh_with bb lb -> fresh_with b2 l2 -> length l1 = 120 -> length lb = 30 -> length l2 = 216 ->
  exists w, phy_build (mk_tpreq BurstSDB TrainSync (Some bb) (Some b1) (Some b2)) = Ok (b2b w) /\ length w = 510 /\ part w 94 120 = l1 /\ part w 252 30 = lb /\
    part w 282 216 = l2 /\ part w 214 38 = sync.
Proof.
  intros F1 FB F2 L1 LB L2. rewrite (sdb_request b1 bb b2 (proj1 F1) (proj1 FB) (proj1 F2)) by (rewrite ?(rem_of _ _ F1), ?(rem_of _ _ FB), ?(rem_of _ _ F2); lia).
  rewrite (rem_of _ _ F1), (rem_of _ _ FB), (rem_of _ _ F2), !firstn_all2 by lia.
  destruct (sdb_built l1 lb l2 L1 LB L2) as (h1 & h2 & H1 & H2 & ->).
  destruct (sdb_slices l1 lb l2 h1 h2 L1 LB L2 H1 H2) as (A & B & C & D & _ & E).
  exists (sdb l1 lb l2 h1 h2). split; [reflexivity|]. split; [exact A|]. split; [exact B|]. split; [exact C|]. split; [exact D|exact E].
Qed.

Lemma slot_sent c cn now v k l : cell_ok c = true -> vtime (add_timeslots now 1) -> slot_true c cn now v k -> slot_ready k -> length (lm_tp l) = 4 ->
  exists x q w, kind_of k = Some x /\ lm_slot k l = Ok (taken k l, q) /\ phy_build q = Ok (b2b w) /\
    on_air (code_of c) x (window (bk_buf (sl_blk1 k))) (second_of k) (window (bk_buf (sl_bbk k))) w.
Proof.
  intros CO V (TS & (x & KO & KF & LF & _ & S1 & S2 & _) & _ & SB & LB & _) (RB & R1 & R2 & LS) L4. pose proof (code_small c CO) as CS.
  fold (code_of c) in S1, S2, SB. exists x. pose proof KO as KO0.
  destruct (enc_aach _ (code_of c) RB (len_of _ _ (proj1 RB) LB) CS) as (bb & lb & EB & FB & NB & HB).
  assert (TG : exists o, ts_get (lm_tp l) (ts_of (sl_ts k)) = Ok o).
  { exists (nth (ts_of (sl_ts k) - 1) (lm_tp l) false). apply ts_get_ok; [exact L4|]. rewrite TS. unfold ts_of. destruct V as (V & _). lia. }
  destruct TG as (o & TG). unfold lm_slot, second_of. rewrite TG, SB, EB. cbn [bind]. fold (taken k l). clear TG EB SB LB.
  destruct (sl_blk2 k) as [b2|] eqn:B2; unfold kind_of in KO; rewrite B2 in KO; cbn [option_map] in KO.
  - pose proof (R2 b2 eq_refl) as RR. specialize (S2 b2 eq_refl).
    destruct (bk_chan (sl_blk1 k)) eqn:C1; try discriminate KO; destruct (bk_chan b2) eqn:C2; try discriminate KO; injection KO as <-; cbn [chan_of assert bind];
      unfold encode_blk; rewrite C1, C2, S1, S2; cbn [chan_of is_traffic].
    + destruct LF as (L1 & b & EQ & L2). rewrite B2 in EQ. injection EQ as <-.
      destruct (enc_cp SchHd 124 216 _ (code_of c) eq_refl (proj1 R1) (len_of _ _ (proj1 R1) L1) CS) as (e1 & l1 & E1 & F1 & N1 & H1).
      destruct (enc_cp Bnch 124 216 _ (code_of c) eq_refl (proj1 RR) (len_of _ _ (proj1 RR) L2) CS) as (e2 & l2 & E2 & F2 & N2 & H2).
      rewrite E1. cbn [bind]. rewrite E2. cbn [bind]. destruct (ndb2_air e1 l1 bb lb e2 l2 F1 FB F2 N1 NB N2) as (w & A & B & C & D & E & F).
      eexists _, w. split; [exact KO0|]. split; [reflexivity|]. split; [exact A|]. split; [exact B|]. rewrite C, D, E. split; [exact HB|]. split; [exact F|]. now split.
    + destruct LF as (L1 & b & EQ & L2). rewrite B2 in EQ. injection EQ as <-.
      destruct (enc_cp Bsch 60 120 _ SCRAMB_INIT eq_refl (proj1 R1) (len_of _ _ (proj1 R1) L1) eq_refl) as (e1 & l1 & E1 & F1 & N1 & H1).
      destruct (enc_cp Bnch 124 216 _ (code_of c) eq_refl (proj1 RR) (len_of _ _ (proj1 RR) L2) CS) as (e2 & l2 & E2 & F2 & N2 & H2).
      rewrite E1. cbn [bind]. rewrite E2. cbn [bind]. destruct (sdb_air e1 l1 bb lb e2 l2 F1 FB F2 N1 NB N2) as (w & A & B & C & D & E & F).
      eexists _, w. split; [exact KO0|]. split; [reflexivity|]. split; [exact A|]. split; [exact B|]. rewrite C, D, E. split; [exact F|]. split; [exact H1|]. now split.
    + destruct LF as (b & EQ & L2). rewrite B2 in EQ. injection EQ as <-. specialize (LS eq_refl).
      destruct (enc_cp Stch 124 216 _ (code_of c) eq_refl (proj1 R1) (len_of _ _ (proj1 R1) LS) CS) as (e1 & l1 & E1 & F1 & N1 & H1).
      destruct (enc_tp2 _ (code_of c) (proj1 RR) (len_of _ _ (proj1 RR) L2) CS) as (e2 & l2 & fst & E2 & F2 & N2 & N3 & H2).
      rewrite E1. cbn [bind]. rewrite E2. cbn [bind]. destruct (ndb2_air e1 l1 bb lb e2 l2 F1 FB F2 N1 NB N2) as (w & A & B & C & D & E & F).
      eexists _, w. split; [exact KO0|]. split; [reflexivity|]. split; [exact A|]. split; [exact B|]. rewrite C, D, E. split; [exact HB|]. split; [exact F|]. split; [exact H1|].
      exists fst. now split.
  - destruct (bk_chan (sl_blk1 k)) eqn:C1; try discriminate KO; injection KO as <-; cbn [chan_of negb assert bind]; unfold encode_blk; rewrite C1, S1; cbn [chan_of is_traffic].
    + destruct (enc_cp SchF 268 432 _ (code_of c) eq_refl (proj1 R1) (len_of _ _ (proj1 R1) LF) CS) as (e1 & l1 & E1 & F1 & N1 & H1).
      rewrite E1. cbn [bind]. destruct (ndb1_air e1 l1 bb lb F1 FB N1 NB) as (w & A & B & C & D & F).
      eexists _, w. split; [exact KO0|]. split; [reflexivity|]. split; [exact A|]. split; [exact B|]. rewrite C, D. split; [exact HB|]. split; [exact F|exact H1].
    + destruct (enc_tp _ (code_of c) (proj1 R1) (len_of _ _ (proj1 R1) LF) CS) as (e1 & l1 & E1 & F1 & N1 & H1).
      rewrite E1. cbn [bind]. destruct (ndb1_air e1 l1 bb lb F1 FB N1 NB) as (w & A & B & C & D & F).
      eexists _, w. split; [exact KO0|]. split; [reflexivity|]. split; [exact A|]. split; [exact B|]. rewrite C, D. split; [exact HB|]. split; [exact F|exact H1].
Qed.
Lemma sent_true c cn now v k x w : slot_true c cn now v k -> slot_ready k -> kind_of k = Some x ->
  on_air (code_of c) x (window (bk_buf (sl_blk1 k))) (second_of k) (window (bk_buf (sl_bbk k))) w -> burst_true c cn now v w.
Proof.
  intros (TS & (x' & KO & KF & LF & (Y1 & Y2) & _) & _ & _ & _ & AA) (RB & R1 & R2 & _) KX O. assert (x' = x) as -> by congruence.
  exists x, (window (bk_buf (sl_blk1 k))), (second_of k), (window (bk_buf (sl_bbk k))). split; [exact KF|]. split; [exact O|].
  split; [intros E; apply local_says; [apply sync_local|exact R1|exact (Y1 E)]|]. split.
  - intros E. destruct (Y2 E) as (b & off & B2 & OF & RD & MK). exists off. split; [exact OF|]. unfold second_of. rewrite B2. split; [|exact MK]. apply local_says; [apply sysinfo_local|exact (R2 b B2)|exact RD].
  - destruct (tm_f (add_timeslots now 1) =? 18)%Z; (apply local_says; [|exact RB|exact AA]); [apply a18_local|apply aa_local].
Qed.

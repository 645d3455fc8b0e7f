(** The link layer at bit level: what the PDUs built and parsed by the model of Llc.v contain. *)
From Coq Require Import ZArith.
From Verif Require Import Base BitsLib AMap TdmaTime TdmaTimeProofs BitBuffer BitBufferProofs BitBufferOps Codec CodecProofs Layout LayoutProofs
  MacFields Fcs FcsProofs LlcPdus LlcPdusSpec LlcPdusProofs Llc LlcSpec.
Open Scope nat_scope.

Lemma seek0 b : wf b -> exists b', seek 0 b = Ok b' /\ wf b' /\ window b' = window b /\ remaining b' = window b.
Proof.
  intros (A & B & C & D). unfold seek. rewrite Nat.add_0_r. destruct (Nat.leb_spec (bstart b) (bend b)); [|lia]. cbn [assert bind].
  eexists. split; [reflexivity|]. split; [|split; reflexivity]. unfold wf, set_pos, cap in *; cbn [bytes bstart bpos bend]. repeat split; (lia || assumption).
Qed.
Lemma wrote_fresh n b l : wrote (bb_new_autoexpand n) b l -> wf b /\ window b = l /\ bend b = bpos b.
Proof.
  intros H. pose proof H as (W & S & A & Pz & _ & _ & E & _ & T). split; [assumption|].
  assert (Q : written b = l) by (rewrite (wrote_written _ _ _ (wf_new_autoexpand n) H); reflexivity).
  assert (bend b = bpos b) as Q2 by (apply T; reflexivity).
  split; [|assumption]. unfold window. rewrite Q2. exact Q.
Qed.
Lemma llc_pdu_spec h l sdu : writes h l -> wf sdu -> exists b, llc_pdu h sdu = Ok b /\ wf b /\ window b = l ++ remaining sdu.
Proof.
  intros H W. unfold llc_pdu.
  destruct (H (bb_new_autoexpand 32) (wf_new_autoexpand 32)) as (b1 & -> & O1); [left; reflexivity|]. cbn [bind].
  unfold get_len_remaining, sub_checked. pose proof W as (A & B & C & D). destruct (Nat.leb_spec (bpos sdu) (bend sdu)); [|lia]. cbn [bind].
  destruct (copy_bits_spec (bend sdu - bpos sdu) sdu b1) as (b2 & -> & O2); [assumption|apply O1|rewrite remaining_length; lia| |].
  { left. destruct O1 as (_ & _ & Q & _). rewrite Q. reflexivity. }
  cbn [bind]. rewrite firstn_all2 in O2 by (rewrite remaining_length; lia).
  pose proof (wrote_trans _ _ _ _ _ O1 O2) as O. destruct (wrote_fresh _ _ _ O) as (W2 & V & _).
  destruct (seek0 b2 W2) as (b3 & -> & W3 & V3 & _). exists b3. split; [reflexivity|]. split; [assumption|]. congruence.
Qed.

Lemma n2b v : (v < 2)%N -> bits_of 1 v = [N.eqb v 1].
Proof. intros H. destruct (bit_cases v H) as [-> | ->]; reflexivity. Qed.
Lemma bad_bits f nr ns : (nr < 2)%N -> (ns < 2)%N -> writes (bad_write (mk_bladata f nr ns)) [false; f; false; false; N.eqb nr 1; N.eqb ns 1].
Proof.
  intros A B. destruct (bad_carries (mk_bladata f nr ns) A B) as (H & _). apply (writes_eq _ _ _ H).
  destruct (bit_cases nr A) as [-> | ->], (bit_cases ns B) as [-> | ->], f; reflexivity.
Qed.
Lemma bd_bits f ns : (ns < 2)%N -> writes (bd_write (mk_bldata f ns)) [false; f; false; true; N.eqb ns 1].
Proof. intros B. destruct (bd_carries (mk_bldata f ns) B) as (H & _). apply (writes_eq _ _ _ H). destruct (bit_cases ns B) as [-> | ->], f; reflexivity. Qed.
Lemma bu_bits f : writes (bu_write (mk_bludata f)) [false; f; true; false].
Proof. destruct (bu_carries (mk_bludata f)) as (H & _). apply (writes_eq _ _ _ H). destruct f; reflexivity. Qed.
Lemma ba_bits f nr : (nr < 2)%N -> writes (ba_write (mk_black f nr)) [false; f; true; true; N.eqb nr 1].
Proof. intros B. destruct (ba_carries (mk_black f nr) B) as (H & _). apply (writes_eq _ _ _ H). destruct (bit_cases nr B) as [-> | ->], f; reflexivity. Qed.

(** ** Parsing *)
Lemma rf_ok n b x rest : wf b -> remaining b = x ++ rest -> length x = n -> n <= 64 ->
  read_field n b = Ok (bits_val x, adv b n) /\ wf (adv b n) /\ remaining (adv b n) = rest.
Proof.
  intros W R L Hn. assert (n <= length (remaining b)) by (rewrite R, app_length; lia). split; [|split].
  - rewrite read_field_spec by assumption. destruct (Nat.leb_spec n (length (remaining b))); [|lia].
    rewrite R. rewrite firstn_app. rewrite <- L, Nat.sub_diag, firstn_all. cbn [firstn]. rewrite app_nil_r. reflexivity.
  - now apply wf_adv.
  - rewrite remaining_adv by assumption. rewrite R, skipn_app. rewrite <- L, Nat.sub_diag, skipn_all. reflexivity.
Qed.
Lemma rf_fail n b : wf b -> length (remaining b) < n -> n <= 64 -> read_field n b = Err EBufferEnded.
Proof. intros W R Hn. rewrite read_field_spec by assumption. destruct (Nat.leb_spec n (length (remaining b))); [lia|reflexivity]. Qed.

Definition hdr_len (p : bl_pdu) : nat := match p with AData _ _ _ _ => 6 | Data _ _ _ => 5 | UData _ _ => 4 | Ack _ _ _ => 5 end.
Definition b2n_opt (x : option bool) : option N := option_map N.b2n x.

Lemma bl_header_spec b x0 x1 x2 x3 t : wf b -> remaining b = x0 :: x1 :: x2 :: x3 :: t -> x0 = false ->
  bl_header (bits_val [x0; x1; x2; x3]) b =
  match bl_parse (remaining b) with
  | Some p => Ok ((hdr_fcs p, b2n_opt (send_number p), b2n_opt (acked_number p)), adv b (hdr_len p))
  | None => Err EBufferEnded
  end.
Proof.
  intros W R ->. rewrite R.
  destruct (rf_ok 1 b [false] _ W R eq_refl ltac:(lia)) as (E1 & W1 & R1).
  destruct (rf_ok 1 _ [x1] _ W1 R1 eq_refl ltac:(lia)) as (E2 & W2 & R2).
  destruct (rf_ok 2 _ [x2; x3] t W2 R2 eq_refl ltac:(lia)) as (E3 & W3 & R3).
  rewrite !adv_adv in *. cbn [Nat.add] in *.
  assert (T0 : t = [] -> read_field 1 (adv b 4) = Err EBufferEnded) by (intros ->; apply rf_fail; [assumption|rewrite R3; cbn; lia|lia]).
  assert (T1 : forall y t1, t = y :: t1 -> read_field 1 (adv b 4) = Ok (N.b2n y, adv b 5) /\
     (t1 = [] -> read_field 1 (adv b 5) = Err EBufferEnded) /\ (forall z t2, t1 = z :: t2 -> read_field 1 (adv b 5) = Ok (N.b2n z, adv b 6))).
  { intros y t1 ->. destruct (rf_ok 1 _ [y] _ W3 R3 eq_refl ltac:(lia)) as (E4 & W4 & R4). rewrite !adv_adv in *. cbn [Nat.add] in *.
    split; [rewrite E4; destruct y; reflexivity|]. split.
    - intros ->. apply rf_fail; [assumption|rewrite R4; cbn; lia|lia].
    - intros z t2 ->. destruct (rf_ok 1 _ [z] _ W4 R4 eq_refl ltac:(lia)) as (E5 & _). rewrite !adv_adv in *. cbn [Nat.add] in *. rewrite E5; destruct z; reflexivity. }
  destruct x2, x3.
  - assert (bl_header (bits_val [false; x1; true; true]) = rbind ba_read (fun p => rret (ba_fcs p, None, Some (ba_nr p)))) as -> by (destruct x1; reflexivity).
    unfold ba_read, rbind, rflag, rbind, rguard, rret, rfield. rewrite E1. cbn [bind fst snd]. change (bits_val [false] =? 0)%N with true. cbv iota. cbn [bind fst snd].
    rewrite E2. cbn [bind fst snd]. rewrite E3. cbn [bind fst snd]. change (bits_val [true; true] =? 3)%N with true. cbv iota. cbn [bind fst snd].
    destruct t as [|y t1].
    + rewrite (T0 eq_refl). reflexivity.
    + destruct (T1 y t1 eq_refl) as (-> & _). destruct x1, y; reflexivity.
  - assert (bl_header (bits_val [false; x1; true; false]) = rbind bu_read (fun p => rret (bu_fcs p, None, None))) as -> by (destruct x1; reflexivity).
    unfold bu_read, rbind, rflag, rbind, rguard, rret, rfield. rewrite E1. cbn [bind fst snd]. change (bits_val [false] =? 0)%N with true. cbv iota. cbn [bind fst snd].
    rewrite E2. cbn [bind fst snd]. rewrite E3. cbn [bind fst snd]. change (bits_val [true; false] =? 2)%N with true. cbv iota. cbn [bind fst snd].
    destruct x1; reflexivity.
  - assert (bl_header (bits_val [false; x1; false; true]) = rbind bd_read (fun p => rret (bd_fcs p, Some (bd_ns p), None))) as -> by (destruct x1; reflexivity).
    unfold bd_read, rbind, rflag, rbind, rguard, rret, rfield. rewrite E1. cbn [bind fst snd]. change (bits_val [false] =? 0)%N with true. cbv iota. cbn [bind fst snd].
    rewrite E2. cbn [bind fst snd]. rewrite E3. cbn [bind fst snd]. change (bits_val [false; true] =? 1)%N with true. cbv iota. cbn [bind fst snd].
    destruct t as [|y t1].
    + rewrite (T0 eq_refl). reflexivity.
    + destruct (T1 y t1 eq_refl) as (-> & _). destruct x1, y; reflexivity.
  - assert (bl_header (bits_val [false; x1; false; false]) = rbind bad_read (fun p => rret (bad_fcs p, Some (bad_ns p), Some (bad_nr p)))) as -> by (destruct x1; reflexivity).
    unfold bad_read, rbind, rflag, rbind, rguard, rret, rfield. rewrite E1. cbn [bind fst snd]. change (bits_val [false] =? 0)%N with true. cbv iota. cbn [bind fst snd].
    rewrite E2. cbn [bind fst snd]. rewrite E3. cbn [bind fst snd]. change (bits_val [false; false] =? 0)%N with true. cbv iota. cbn [bind fst snd].
    destruct t as [|y t1]; [rewrite (T0 eq_refl); reflexivity|]. destruct (T1 y t1 eq_refl) as (-> & T2 & T3). cbn [bind fst snd].
    destruct t1 as [|z t2]; [rewrite (T2 eq_refl); reflexivity|]. rewrite (T3 z t2 eq_refl). destruct x1, y, z; reflexivity.
Qed.

Lemma parse_split l p : bl_parse l = Some p -> length l = hdr_len p + length (sdu_of p) /\ skipn (hdr_len p) l = sdu_of p.
Proof.
  destruct l as [|[|] [|f [|[|] [|[|] [|y [|z t]]]]]]; cbn [bl_parse]; intros E; try discriminate E; injection E as <-; split; reflexivity.
Qed.
Lemma check_fcs_fine b : wf b -> check_fcs b = if length (remaining b) =? 32 then Panic else Ok (fcs_fine true (remaining b)).
Proof.
  intros W. destruct (Nat.eqb_spec (length (remaining b)) 32) as [E|NE]; [now apply fcs_no_message|].
  destruct (Nat.lt_ge_cases (length (remaining b)) 32) as [L|L].
  - rewrite (fcs_short b W L). unfold fcs_fine. cbv zeta. cbn [negb orb]. destruct (Nat.ltb_spec 0 (length (remaining b) - 32)); [lia|reflexivity].
  - set (n := length (remaining b) - 32). unfold fcs_fine. cbv zeta. cbn [negb orb]. fold n. destruct (Nat.ltb_spec 0 n); [|lia]. cbn [andb].
    apply check_fcs_spec; [assumption|symmetry; apply firstn_skipn|rewrite skipn_length; lia|rewrite firstn_length; lia].
Qed.

Section Ind.
Context {P : Type}.
(** What an accepted PDU does. *)
Definition ind_effect (t : tdma_time) (a : tetra_addr) (p : bl_pdu) (s : llc P) : res (list (lev P) * llc P) :=
  let s := match send_number p with Some n => schedule_outgoing_ack t a (N.b2n n) s | None => s end in
  match acked_number p with Some n => process_incoming_ack a (N.b2n n) s | None => Ok ([], s) end.
Lemma ind_spec t a b (s : llc P) : wf b ->
  if ind_panics (remaining b) then rx_unitdata_ind t a (Some b) s = Panic
  else match bl_accept (remaining b) with
       | None => rx_unitdata_ind t a (Some b) s = Ok ([], s)
       | Some p =>
           match ind_effect t a p s with
           | Ok (ev, s') =>
               if is_ack p then rx_unitdata_ind t a (Some b) s = Ok (ev, s')
               else exists i, rx_unitdata_ind t a (Some b) s = Ok (ev ++ [LToMle i], s') /\ to_mle t a p i
           | Panic => rx_unitdata_ind t a (Some b) s = Panic
           | Err _ => False
           end
       end.
Proof.
  intros W. unfold rx_unitdata_ind. cbn [unwrap bind]. rewrite (peek_bits_spec b 4 W ltac:(lia)). cbn [bind].
  destruct (Nat.leb_spec 4 (length (remaining b))) as [L4|L4].
  2:{ destruct (remaining b) as [|x0 [|x1 [|x2 [|x3 r]]]]; cbn [length] in L4; try lia;
      [| destruct x0 | destruct x0, x1 | destruct x0, x1, x2]; reflexivity. }
  destruct (remaining b) as [|x0 [|x1 [|x2 [|x3 r]]]] eqn:R; cbn [length] in L4; try lia. clear L4.
  change (firstn 4 (x0 :: x1 :: x2 :: x3 :: r)) with [x0; x1; x2; x3].
  destruct x0.
  { destruct x1, x2, x3; reflexivity. }
  assert ((bits_val [false; x1; x2; x3] <=? 7)%N = true) as -> by (destruct x1, x2, x3; reflexivity).
  assert (PK : peek_bits b 4 = Ok (Some (bits_val [false; x1; x2; x3]))) by (rewrite (peek_bits_spec b 4 W ltac:(lia)), R; reflexivity).
  unfold rx_ind_bl. rewrite PK. cbn [bind].
  rewrite (bl_header_spec b false x1 x2 x3 r W R eq_refl). rewrite R.
  assert (IP : ind_panics (false :: x1 :: x2 :: x3 :: r) = match bl_parse (false :: x1 :: x2 :: x3 :: r) with Some p => hdr_fcs p && (length (sdu_of p) =? 32) | None => false end) by reflexivity.
  rewrite IP. clear IP.
  assert (TA : forall p, bl_parse (false :: x1 :: x2 :: x3 :: r) = Some p -> ((bits_val [false; x1; x2; x3] =? 3)%N || (bits_val [false; x1; x2; x3] =? 7)%N)%bool = is_ack p /\ ((bits_val [false; x1; x2; x3] =? 2)%N || (bits_val [false; x1; x2; x3] =? 6)%N)%bool = is_udata p).
  { intros p Ep. destruct x1, x2, x3, r as [|y [|z r]]; cbn [bl_parse] in Ep; try discriminate Ep; injection Ep as <-; split; reflexivity. }
  assert (BA : bl_accept (false :: x1 :: x2 :: x3 :: r) = match bl_parse (false :: x1 :: x2 :: x3 :: r) with Some p => if fcs_fine (hdr_fcs p) (sdu_of p) then Some p else None | None => None end).
  { unfold bl_accept. destruct (bl_parse (false :: x1 :: x2 :: x3 :: r)) as [[f n1 n2 sd|f n1 sd|f sd|f n1 sd]|] eqn:E; reflexivity. }
  rewrite BA. clear BA. set (ty := bits_val [false; x1; x2; x3]) in *. clearbody ty.
  destruct (bl_parse (false :: x1 :: x2 :: x3 :: r)) as [p|] eqn:E; [|reflexivity].
  destruct (TA p eq_refl) as (TA1 & TA2). clear TA.
  destruct (parse_split _ _ E) as (PL & PS).
  assert (W1 : wf (adv b (hdr_len p))) by (apply wf_adv; [assumption|rewrite R; lia]).
  assert (R1 : remaining (adv b (hdr_len p)) = sdu_of p) by (rewrite remaining_adv by assumption; rewrite R; exact PS).
  set (b1 := adv b (hdr_len p)) in *. clearbody b1.
  assert (Q : (if hdr_fcs p then check_fcs b1 else Ok true) = if hdr_fcs p && (length (sdu_of p) =? 32) then Panic else Ok (fcs_fine (hdr_fcs p) (sdu_of p))).
  { destruct (hdr_fcs p); [|reflexivity]. rewrite (check_fcs_fine b1 W1), R1. reflexivity. }
  rewrite Q. destruct (hdr_fcs p && (length (sdu_of p) =? 32)) eqn:PP; [reflexivity|]. cbn [bind].
  destruct (fcs_fine (hdr_fcs p) (sdu_of p)); cbn [negb]; [|reflexivity].
  unfold ind_effect, b2n_opt.
  assert (X : (match option_map N.b2n (send_number p) with Some n => schedule_outgoing_ack t a n s | None => s end) = match send_number p with Some n => schedule_outgoing_ack t a (N.b2n n) s | None => s end) by (destruct (send_number p); reflexivity).
  rewrite X. clear X. set (s1 := match send_number p with Some n => schedule_outgoing_ack t a (N.b2n n) s | None => s end).
  assert (X : (match option_map N.b2n (acked_number p) with Some n => process_incoming_ack a n s1 | None => Ok ([], s1) end) = match acked_number p with Some n => process_incoming_ack a (N.b2n n) s1 | None => Ok ([], s1) end) by (destruct (acked_number p); reflexivity).
  rewrite X. clear X.
  assert (NE : forall e, (match acked_number p with Some n => process_incoming_ack a (N.b2n n) s1 | None => Ok ([], s1) end) <> Err e).
  { intros e. destruct (acked_number p) as [n|]; [|discriminate]. unfold process_incoming_ack. destruct (take_expected (ad_ssi a) (ll_out s1)) as [[m rest]|]; [|discriminate].
    destruct (lm_done m); [|discriminate]. destruct (N.eqb (lm_ns m) (N.b2n n)); [|discriminate].
    unfold TxReceipt.tx_mark_acknowledged, TxReceipt.tx_mark. destruct (TxReceipt.tx_expects_ack (lm_rep m)); cbn [assert bind]; [|discriminate].
    destruct (TxReceipt.tx_byte (lm_rep m) =? _); cbn [bind]; discriminate. }
  destruct (match acked_number p with Some n => process_incoming_ack a (N.b2n n) s1 | None => Ok ([], s1) end) as [[ev s2]|e|]; [|exact (NE e eq_refl)|reflexivity].
  cbn [bind]. rewrite TA1. destruct (is_ack p); [reflexivity|].
  unfold set_raw_start. pose proof W1 as (V1 & V2 & V3 & V4). destruct (Nat.leb_spec (bpos b1) (bend b1)); [|lia]. rewrite Nat.leb_refl. cbn [assert bind].
  unfold get_len_remaining, sub_checked. cbn [set_start bend bpos]. destruct (Nat.leb_spec (bpos b1) (bend b1)); [|lia]. cbn [bind].
  eexists. split; [reflexivity|]. unfold to_mle. cbn [ti_unit ti_time ti_addr ti_link ti_fcs ti_sdu]. rewrite TA2. repeat (split; [reflexivity|]).
  assert (L : length (sdu_of p) = bend b1 - bpos b1) by (rewrite <- R1; apply remaining_length).
  destruct (Nat.ltb_spec 0 (bend b1 - bpos b1)).
  - split; [unfold wf, cap, set_start in *; cbn [bytes bstart bpos bend]; repeat split; (lia || assumption)|]. split; [exact R1|]. split; [exact R1|].
    intros Z. rewrite Z in L. cbn in L. lia.
  - apply length_zero_iff_nil. lia.
Qed.
End Ind.

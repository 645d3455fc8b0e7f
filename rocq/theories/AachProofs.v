(** Scrambled blocks received with errors; the AACH chain. *)
From Verif Require Import Base BitsLib BitBuffer BitBufferProofs BitBufferOps BitBufferFacts Scrambler LmacSpec ScramblerProofs Rm3014 Rm3014Proofs ConvDist Crc16Proofs ErrorControl.
Open Scope N_scope.

Lemma xorl_xorl a : forall s e, length a = length s -> length a = length e -> xorl (xorl (xorl a s) e) s = xorl a e.
Proof.
  induction a as [|x a IH]; intros [|y s] [|z e] L1 L2; try discriminate; [reflexivity|]. unfold xorl in *. cbn [combine map fst snd]. f_equal; [destruct x, y, z; reflexivity|]. apply IH; [now injection L1|now injection L2].
Qed.
Lemma scr_rx code b b' rb e : code < 2 ^ 32 -> wf b -> scramb_bits code b = Ok b' -> wf rb -> remaining rb = xorl (remaining b') e -> length e = length (remaining b) ->
  wf b' /\ length (remaining b') = length (remaining b) /\
  exists rb2, scramb_bits code rb = Ok rb2 /\ wf rb2 /\ bstart rb2 = bstart rb /\ bpos rb2 = bpos rb /\ bend rb2 = bend rb /\ cap rb2 = cap rb /\ autoexp rb2 = autoexp rb /\ remaining rb2 = xorl (remaining b) e.
Proof.
  intros C W E WR R LE. pose proof (the_seq_ok code C) as S. destruct (scramb_bits_spec code (the_seq code) b C S W) as (b1 & E1 & H1). rewrite E in E1. injection E1 as <-. pose proof (scrambled_remaining b b' _ H1 W) as RB.
  assert (LS : length (map (fun k => the_seq code (32 + k)) (seq 0 (length (remaining b)))) = length (remaining b)) by (rewrite map_length, seq_length; reflexivity).
  assert (LB : length (remaining b') = length (remaining b)) by (rewrite RB, xorl_length by (symmetry; assumption); reflexivity).
  split; [apply H1|]. split; [assumption|].
  destruct (scramb_bits_spec code (the_seq code) rb C S WR) as (rb2 & E2 & H2). exists rb2. split; [assumption|]. pose proof H2 as (W2 & P1 & P2 & P3 & P4 & P5 & _). do 6 (split; [assumption|]).
  rewrite (scrambled_remaining rb rb2 _ H2 WR). rewrite R, xorl_length by congruence. rewrite LB, RB. apply xorl_xorl; congruence.
Qed.
Lemma scramb_ok code b : code < 2 ^ 32 -> wf b -> exists b', scramb_bits code b = Ok b' /\ wf b' /\ bstart b' = bstart b /\ bpos b' = bpos b /\ bend b' = bend b.
Proof. intros C W. destruct (scramb_bits_spec code (the_seq code) b C (the_seq_ok code C) W) as (b' & E & H). exists b'. split; [assumption|]. destruct H as (W' & P1 & P2 & P3 & _). auto. Qed.

Lemma bits_val_xorl a : forall b, length a = length b -> bits_val (xorl a b) = N.lxor (bits_val a) (bits_val b).
Proof.
  intros b L. assert (LX : length (xorl a b) = length a) by (now apply xorl_length). apply N_bits_inj_nat. intros k. rewrite N.lxor_spec, !testbit_bits_val, LX, <- L. destruct (k <? length a)%nat; [|reflexivity]. now apply nth_xorl.
Qed.
Lemma bits_val_repeat_false n l : bits_val (repeat false n ++ l) = bits_val l.
Proof. induction n as [|n IH]; [reflexivity|]. cbn [repeat app]. rewrite bits_val_cons, IH. cbn [N.b2n]. lia. Qed.
Lemma single_val e : weight e = 1%nat -> exists k, (k < length e)%nat /\ bits_val e = 2 ^ N.of_nat k.
Proof.
  intros H. destruct (weight_split e 0 H) as (a & m & -> & E). exists (length m). rewrite app_length. cbn [length]. split; [lia|]. rewrite bits_val_repeat_false, bits_val_cons. rewrite (weight_0 m E) at 2. rewrite <- bits_of_0, bits_val_of by apply pow2_pos. cbn [N.b2n]. lia.
Qed.
Lemma zero_val e : weight e = 0%nat -> bits_val e = 0.
Proof. intros H. rewrite (weight_0 e H), <- bits_of_0. apply bits_val_of, pow2_pos. Qed.

(** ** AACH *)
Lemma rm_decode_val x e : x < 2 ^ 14 -> length e = 30%nat -> (weight e <= 1)%nat -> rm3014_decode_limited_ecc (bits_val (xorl (bits_of 30 (rm3014_compute x)) e)) = x.
Proof.
  intros X L W. rewrite bits_val_xorl by (rewrite bits_of_length; congruence). destruct (codeword x X) as (_ & _ & B). rewrite (bits_val_of 30) by exact B. destruct (Nat.eq_dec (weight e) 0) as [Z|Z].
  - rewrite (zero_val e Z), N.lxor_0_r. now apply decode_clean.
  - destruct (single_val e) as (k & K & E); [lia|]. rewrite E. apply decode_single; [assumption|lia].
Qed.
Lemma aach_encode buf code : wf buf -> length (remaining buf) = 14%nat -> code < 2 ^ 32 ->
  exists b, encode_aach buf code = Ok b /\ wf b /\ bpos b = bstart b /\ length (remaining b) = 30%nat.
Proof.
  intros W L C. unfold encode_aach, get_len_remaining, sub_checked. pose proof W as (W1 & W2 & W3 & W4). rewrite remaining_length in L. destruct (Nat.leb_spec (bpos buf) (bend buf)) as [_|]; [|lia]. cbn [bind]. rewrite L. cbn [Nat.eqb assert bind].
  rewrite read_bits_opt_spec by (assumption || lia). rewrite remaining_length, L. cbn [Nat.leb bind unwrap]. set (x := bits_val (firstn 14 (remaining buf))).
  assert (X : x < 2 ^ 14) by (unfold x; pose proof (bits_val_bound (firstn 14 (remaining buf))) as Q; rewrite firstn_length, remaining_length, L in Q; exact Q).
  destruct (codeword x X) as (_ & _ & B). destruct (write_bits_spec (bb_new 30) (rm3014_compute x) 30) as (b & E & H & _); [apply wf_new|lia|exact B|right; cbn; lia|]. rewrite E. cbn [bind]. pose proof H as (V & S1 & A1 & P1 & L1 & B1 & E1 & F1 & T1). rewrite bits_of_length in *.
  destruct F1 as [F1 F2]; [cbn; lia|]. unfold seek. rewrite S1. cbn [bb_new bstart bpos bend] in *. rewrite F1. cbn [Nat.add Nat.leb assert bind].
  assert (V' : wf (set_pos b 0)) by (pose proof V as (V1 & V2 & V3 & V4); unfold wf, cap, set_pos in *; cbn [bytes bstart bpos bend]; split; [lia|split; [lia|split; [lia|assumption]]]).
  destruct (scramb_ok code (set_pos b 0) C V') as (b' & E' & W' & Q1 & Q2 & Q3). exists b'. split; [assumption|]. split; [assumption|]. rewrite remaining_length, Q1, Q2, Q3. cbn [set_pos bstart bpos bend]. rewrite S1, F1. split; reflexivity.
Qed.
Lemma aach_chain buf code b rb e : wf buf -> length (remaining buf) = 14%nat -> code < 2 ^ 32 -> encode_aach buf code = Ok b -> length e = 30%nat -> (weight e <= 1)%nat ->
  wf rb -> remaining rb = xorl (remaining b) e -> exists o, decode_aach rb code = Ok o /\ wf o /\ bpos o = bstart o /\ window o = remaining buf.
Proof.
  intros W L C EN LE WE WR R. unfold encode_aach, get_len_remaining, sub_checked in EN. pose proof W as (W1 & W2 & W3 & W4). pose proof L as L'. rewrite remaining_length in L'. destruct (Nat.leb_spec (bpos buf) (bend buf)) as [_|]; [|lia]. cbn [bind] in EN. rewrite L' in EN. cbn [Nat.eqb assert bind] in EN.
  rewrite read_bits_opt_spec in EN by (assumption || lia). rewrite L in EN. cbn [Nat.leb bind unwrap] in EN. rewrite firstn_all2 in EN by lia. set (x := bits_val (remaining buf)) in *.
  assert (X : x < 2 ^ 14) by (unfold x; pose proof (bits_val_bound (remaining buf)) as Q; rewrite L in Q; exact Q).
  destruct (codeword x X) as (_ & _ & B). destruct (write_bits_spec (bb_new 30) (rm3014_compute x) 30) as (b0 & E & H & _); [apply wf_new|lia|exact B|right; cbn; lia|]. rewrite E in EN. cbn [bind] in EN. pose proof H as (V & S1 & A1 & P1 & L1 & B1 & E1 & F1 & T1). rewrite bits_of_length in *.
  destruct F1 as [F1 F2]; [cbn; lia|]. unfold seek in EN. rewrite S1 in EN. cbn [bb_new bstart bpos bend] in *. rewrite F1 in EN. cbn [Nat.add Nat.leb assert bind] in EN.
  assert (V' : wf (set_pos b0 0)) by (pose proof V as (V1 & V2 & V3 & V4); unfold wf, cap, set_pos in *; cbn [bytes bstart bpos bend]; split; [lia|split; [lia|split; [lia|assumption]]]).
  assert (RB : remaining (set_pos b0 0) = bits_of 30 (rm3014_compute x)).
  { pose proof (wrote_bits _ _ _ H) as Q. rewrite bits_of_length in Q. unfold remaining. cbn [set_pos bytes bpos bend]. rewrite F1. exact Q. }
  destruct (scr_rx code (set_pos b0 0) b rb e C V' EN WR R) as (_ & LB & rb2 & D1 & D2 & D3 & D4 & D5 & D6 & D7 & D8); [rewrite RB, bits_of_length; assumption|]. rewrite RB in *. rewrite bits_of_length in LB.
  unfold decode_aach, get_len_remaining, sub_checked. pose proof WR as (R1 & R2 & R3 & R4). assert (LR : (bend rb - bpos rb)%nat = 30%nat) by (rewrite <- remaining_length, R, xorl_length by congruence; assumption).
  destruct (Nat.leb_spec (bpos rb) (bend rb)) as [_|]; [|lia]. cbn [bind]. rewrite LR. cbn [Nat.eqb assert bind]. rewrite D1. cbn [bind]. rewrite read_bits_opt_spec by (assumption || lia).
  assert (L2 : length (remaining rb2) = 30%nat) by (rewrite D8, xorl_length by (rewrite bits_of_length; congruence); apply bits_of_length). rewrite L2. cbn [Nat.leb bind unwrap]. rewrite firstn_all2 by lia. rewrite D8, rm_decode_val by assumption.
  pose proof D2 as (G1 & G2 & G3 & G4). rewrite remaining_length in L2.
  unfold set_raw_start, adv. cbn [set_pos bytes bstart bpos bend autoexp Nat.leb assert bind set_start]. unfold set_raw_pos. cbn [set_pos bytes bstart bpos bend autoexp Nat.leb assert bind set_start].
  match goal with |- context [set_raw_end 14 ?y] => assert (SE : set_raw_end 14 y = Ok (mkbb (bytes rb2) 0 0 14 (autoexp rb2))) by (unfold set_raw_end, cap in *; cbn [set_pos set_start set_end bytes bstart bpos bend autoexp]; destruct (Nat.leb_spec 14 (length (bytes rb2) * 8)); [reflexivity|lia]) end.
  rewrite SE. cbn [bind].
  set (o0 := mkbb (bytes rb2) 0 0 14 (autoexp rb2)). assert (WO : wf o0) by (unfold wf, cap, o0 in *; cbn [bytes bstart bpos bend]; split; [lia|split; [lia|split; [lia|assumption]]]).
  destruct (write_bits_spec o0 x 14) as (o1 & EO & HO & _); [assumption|lia|exact X|right; cbn; lia|]. rewrite EO. cbn [bind]. pose proof HO as (O1 & O2 & O3 & O4 & O5 & O6 & O7 & O8 & O9). rewrite bits_of_length in *. destruct O8 as [O8 _]; [cbn; lia|]. cbn [o0 bstart bpos bend] in *.
  unfold seek. rewrite O2, O8. cbn [Nat.add Nat.leb assert bind]. eexists. split; [reflexivity|]. split; [|split].
  - pose proof O1 as (Z1 & Z2 & Z3 & Z4). unfold wf, cap in *. cbn [set_pos bytes bstart bpos bend]. split; [lia|split; [lia|split; [lia|assumption]]].
  - cbn [set_pos bstart bpos]. lia.
  - unfold window. cbn [set_pos bytes bstart bend]. rewrite O2, O8. pose proof (wrote_bits _ _ _ HO) as Q. rewrite bits_of_length in Q. cbn [o0 bpos] in Q. change (14 - 0)%nat with 14%nat. rewrite Q. unfold x. apply bits_of_val'. assumption.
Qed.

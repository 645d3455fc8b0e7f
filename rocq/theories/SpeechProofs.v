(** The speech traffic chain: reorder, protect, interleave, scramble, transmit with at most one bit error, and back. *)
From Coq Require Import Permutation.
From Verif Require Import Base BitsLib BitBuffer BitBufferProofs BitBufferOps BitBufferFacts ArrCopy ArrCopyProofs Scrambler Interleaver InterleaverProofs LmacSpec ScramblerProofs
  Crc16 Crc16Proofs ConvEnc Trellis ConvDist Viterbi ViterbiProofs AachProofs ErrorControl CchProofs.
Open Scope nat_scope.

(** ** The two puncturing schemes *)
Definition PS1 : list nat := [0; 1; 3].
Definition PS2 : list nat := [0; 1; 2; 3; 4; 6; 7; 9; 10].
Definition W1 : list nat := [0; 2; 3; 1; 4; 4; 3; 3; 3; 3; 3; 3; 2; 2; 3; 3].
Definition W2 : list nat := [0; 3; 4; 3; 6; 5; 4; 3; 6; 6; 5; 5; 5; 4; 5; 4].
Lemma idx1 q x : x < 3 -> punct_index Rate112_168 (3 * q + x + 1) = 6 * q + nth x PS1 0.
Proof.
  intros X. unfold punct_index. cbn [get_puncturer]. replace (3 * q + x + 1 - 1) with (x + q * 3) by lia. rewrite Nat.div_add by lia. rewrite (Nat.div_small x 3) by assumption. rewrite Nat.add_0_l.
  replace (3 * q + x + 1 - 3 * q) with (x + 1) by lia. destruct x as [|[|[|x]]]; cbn [nth Nat.add PS1]; lia.
Qed.
Lemma idx2 q x : x < 9 -> punct_index Rate72_162 (9 * q + x + 1) = 12 * q + nth x PS2 0.
Proof.
  intros X. unfold punct_index. cbn [get_puncturer]. replace (9 * q + x + 1 - 1) with (x + q * 9) by lia. rewrite Nat.div_add by lia. rewrite (Nat.div_small x 9) by assumption. rewrite Nat.add_0_l.
  replace (9 * q + x + 1 - 9 * q) with (x + 1) by lia. do 9 (destruct x as [|x]; [cbn [nth Nat.add PS2]; lia|]). lia.
Qed.
Lemma pot1 : pot_check SPEECH_GENERATORS 2 PS1 W1 4 = true.
Proof. vm_compute. reflexivity. Qed.
Lemma pot2 : pot_check SPEECH_GENERATORS 4 PS2 W2 7 = true.
Proof. vm_compute. reflexivity. Qed.
Lemma mm1 cb ys : length cb = 6 -> length ys = 3 -> mismatches cb (dblock 6 PS1 None (map Some ys)) = hamming (map (fun x => nth x cb false) PS1) ys.
Proof. intros L1 L2. do 7 (destruct cb as [|? cb]; try discriminate L1). do 4 (destruct ys as [|? ys]; try discriminate L2). reflexivity. Qed.
Lemma mm2 cb ys : length cb = 12 -> length ys = 9 -> mismatches cb (dblock 12 PS2 None (map Some ys)) = hamming (map (fun x => nth x cb false) PS2) ys.
Proof. intros L1 L2. do 13 (destruct cb as [|? cb]; try discriminate L1). do 10 (destruct ys as [|? ys]; try discriminate L2). reflexivity. Qed.
Lemma lt1 x : In x PS1 -> x < 6.
Proof. cbn. intuition lia. Qed.
Lemma lt2 x : In x PS2 -> x < 12.
Proof. cbn. intuition lia. Qed.
Lemma nd1 : NoDup PS1.
Proof. repeat constructor; cbn; intuition discriminate. Qed.
Lemma nd2 : NoDup PS2.
Proof. repeat constructor; cbn; intuition discriminate. Qed.
Lemma lt09 : 0 < 9.
Proof. lia. Qed.
Definition mism1 := mism_dep SPEECH_GENERATORS Rate112_168 3 6 2 PS1 eq_refl eq_refl lt1 idx1 lt03 mm1.
Definition mism2 := mism_dep SPEECH_GENERATORS Rate72_162 9 12 4 PS2 eq_refl eq_refl lt2 idx2 lt09 mm2.
Definition potw2 := pot_weight SPEECH_GENERATORS Rate72_162 9 12 4 PS2 eq_refl eq_refl lt2 idx2 lt09 mm2 W2 7 pot2.
Definition potd1 := pot_dist SPEECH_GENERATORS Rate112_168 3 6 2 PS1 eq_refl eq_refl lt1 idx1 lt03 mm1 W1 4 pot1.
Definition potd2 := pot_dist SPEECH_GENERATORS Rate72_162 9 12 4 PS2 eq_refl eq_refl lt2 idx2 lt09 mm2 W2 7 pot2.
Definition punct1 A := @punct_spec SPEECH_GENERATORS Rate112_168 3 6 2 PS1 eq_refl eq_refl lt1 idx1 lt03 A.
Definition punct2 A := @punct_spec SPEECH_GENERATORS Rate72_162 9 12 4 PS2 eq_refl eq_refl lt2 idx2 lt09 A.
Definition depunct1 A := @depunct_spec SPEECH_GENERATORS Rate112_168 3 6 2 PS1 eq_refl eq_refl lt1 nd1 idx1 lt03 A.
Definition depunct2 A := @depunct_spec SPEECH_GENERATORS Rate72_162 9 12 4 PS2 eq_refl eq_refl lt2 nd2 idx2 lt09 A.

Lemma w12_check : forallb (fun s => nth s W1 0 <=? nth s W2 0) (seq 0 16) = true.
Proof. vm_compute. reflexivity. Qed.
Lemma w12 s : s < 16 -> nth s W1 0 <= nth s W2 0.
Proof. intros H. pose proof w12_check as C. rewrite forallb_forall in C. apply Nat.leb_le. apply C. apply in_seq. lia. Qed.
Lemma fin_lt m : forall s, s < 16 -> fin s m < 16.
Proof. induction m as [|b m IH]; intros s H; [assumption|]. cbn [fin]. apply IH. unfold step. assert (s / 2 < 8) by (apply Nat.div_lt_upper_bound; lia). destruct b; lia. Qed.
Lemma fin_zero' m : ~ In true m -> fin 0 m = 0.
Proof. induction m as [|[] m IH]; intros H; [reflexivity|exfalso; apply H; now left|]. cbn [fin]. change (step false 0) with 0. apply IH. intros Q. apply H. now right. Qed.

(** The transmitted class 1 and class 2 bits of a terminated message of 112 + 72 bits. *)
Definition sp1 (m : list bool) : list bool := psel 6 PS1 false 56 (firstn 336 (conv_code SPEECH_GENERATORS m)).
Definition sp2 (m : list bool) : list bool := psel 12 PS2 false 18 (skipn 336 (conv_code SPEECH_GENERATORS m)).
Lemma speech_len m : length (conv_code SPEECH_GENERATORS m) = 3 * length m.
Proof. rewrite conv_code_length. cbn [length SPEECH_GENERATORS]. lia. Qed.
Lemma code_split m : length m = 184 -> firstn 336 (conv_code SPEECH_GENERATORS m) = tcode SPEECH_GENERATORS 0 (firstn 112 m) /\ skipn 336 (conv_code SPEECH_GENERATORS m) = tcode SPEECH_GENERATORS (fin 0 (firstn 112 m)) (skipn 112 m).
Proof.
  intros L. rewrite conv_tcode. assert (E : tcode SPEECH_GENERATORS 0 m = tcode SPEECH_GENERATORS 0 (firstn 112 m) ++ tcode SPEECH_GENERATORS (fin 0 (firstn 112 m)) (skipn 112 m)) by (rewrite <- tcode_app, firstn_skipn; reflexivity).
  assert (L1 : length (tcode SPEECH_GENERATORS 0 (firstn 112 m)) = 336) by (rewrite tcode_length, firstn_length, L; reflexivity). rewrite E. split.
  - rewrite <- L1, firstn_app, Nat.sub_diag, firstn_all. apply app_nil_r.
  - rewrite <- L1, skipn_app, Nat.sub_diag, skipn_all. reflexivity.
Qed.
Lemma firstn_xorl n a : forall b, firstn n (xorl a b) = xorl (firstn n a) (firstn n b).
Proof. revert n. unfold xorl. induction n as [|n IH] in a |- *; intros b; [reflexivity|]. destruct a as [|x a]; [reflexivity|]. destruct b as [|y b]; [reflexivity|]. cbn [firstn combine map]. now rewrite IH. Qed.
Lemma skipn_xorl n : forall a b, length a = length b -> skipn n (xorl a b) = xorl (skipn n a) (skipn n b).
Proof. unfold xorl. induction n as [|n IH]; intros a b L; [reflexivity|]. destruct a as [|x a], b as [|y b]; try discriminate; [reflexivity|]. cbn [skipn combine map]. apply IH. now injection L. Qed.
Lemma speech_dist m m' : length m = 184 -> length m' = 184 -> terminated m -> terminated m' -> m <> m' -> 4 <= hamming (sp1 m) (sp1 m') + hamming (sp2 m) (sp2 m').
Proof.
  intros L L' T T' NE. set (x := xorl m m'). assert (LX : length x = 184) by (unfold x; rewrite xorl_length; congruence).
  assert (I : In true x) by (destruct (in_dec Bool.bool_dec true x) as [I|I]; [assumption|exfalso; apply NE; apply xorl_zero; [congruence|assumption]]).
  assert (TX : fin 0 x = 0) by (apply fin_terminated; apply terminated_xorl; [congruence|assumption|assumption]).
  assert (CL : conv_code SPEECH_GENERATORS x = xorl (conv_code SPEECH_GENERATORS m) (conv_code SPEECH_GENERATORS m')) by (apply conv_code_lin; congruence).
  assert (LE : length (conv_code SPEECH_GENERATORS m) = length (conv_code SPEECH_GENERATORS m')) by (rewrite !speech_len; congruence).
  assert (H1 : hamming (sp1 m) (sp1 m') = weight (sp1 x)).
  { unfold sp1. rewrite hamming_xorl by (rewrite !psel_length; reflexivity). rewrite <- psel_lin by (rewrite !firstn_length; congruence). rewrite <- firstn_xorl, <- CL. reflexivity. }
  assert (H2 : hamming (sp2 m) (sp2 m') = weight (sp2 x)).
  { unfold sp2. rewrite hamming_xorl by (rewrite !psel_length; reflexivity). rewrite <- psel_lin by (rewrite !skipn_length; congruence). rewrite <- skipn_xorl, <- CL by assumption. reflexivity. }
  rewrite H1, H2. unfold sp1, sp2. destruct (code_split x LX) as (-> & ->). set (x1 := firstn 112 x). set (x2 := skipn 112 x).
  assert (L1 : length x1 = 2 * 56) by (unfold x1; rewrite firstn_length, LX; reflexivity). assert (L2 : length x2 = 4 * 18) by (unfold x2; rewrite skipn_length, LX; reflexivity).
  assert (F : fin (fin 0 x1) x2 = 0) by (rewrite <- fin_app; unfold x1, x2; rewrite firstn_skipn; assumption).
  destruct (in_dec Bool.bool_dec true x1) as [I1|I1].
  - pose proof (potd1 56 x1 L1 I1) as A. pose proof (fin_lt x1 0 ltac:(lia)) as B. pose proof (potw2 18 (fin 0 x1) x2 B L2) as D. rewrite F in D. change (nth 0 W2 0) with 0 in D. pose proof (w12 (fin 0 x1) B). lia.
  - assert (I2 : In true x2) by (unfold x1, x2 in *; rewrite <- (firstn_skipn 112 x) in I; apply in_app_or in I; destruct I; [contradiction|assumption]).
    rewrite (fin_zero' x1 I1) in F |- *. pose proof (potd2 18 x2 L2 I2) as A. rewrite F in A. change (nth 0 W2 0) with 0 in A. lia.
Qed.

Lemma lenient_map r : map soft_lenient (map enc_sym r) = map soft r.
Proof. rewrite map_map. apply map_ext. intros [[]|]; reflexivity. Qed.
Definition rx_soft (y1 y2 : list bool) : list (option bool) := dep 3 6 PS1 None 56 (map Some y1) ++ dep 9 12 PS2 None 18 (map Some y2).
Lemma rx_len y1 y2 : length (rx_soft y1 y2) = 552.
Proof. unfold rx_soft. rewrite app_length, !dep_length. reflexivity. Qed.
Lemma mism_rx m y1 y2 : length m = 184 -> length y1 = 168 -> length y2 = 162 -> mismatches (conv_code SPEECH_GENERATORS m) (rx_soft y1 y2) = hamming (sp1 m) y1 + hamming (sp2 m) y2.
Proof.
  intros L L1 L2. unfold rx_soft. pose proof (speech_len m) as LC. rewrite L in LC. rewrite <- (firstn_skipn 336 (conv_code SPEECH_GENERATORS m)) at 1. rewrite mismatches_app by (rewrite firstn_length, dep_length, LC; reflexivity).
  rewrite mism1 by (rewrite ?firstn_length, ?LC; lia). rewrite mism2 by (rewrite ?skipn_length, ?LC; lia). reflexivity.
Qed.
Lemma viterbi_speech msg y1 y2 : length msg = 184 -> terminated msg -> length y1 = 168 -> length y2 = 162 -> hamming (sp1 msg) y1 + hamming (sp2 msg) y2 <= 1 ->
  viterbi_decode codec_polys (map soft (rx_soft y1 y2)) = Ok (map N.b2n msg).
Proof.
  intros L T L1 L2 H. destruct (viterbi_optimal SPEECH_GENERATORS (rx_soft y1 y2) 184) as (m & E & LM & TM & O).
  - discriminate.
  - repeat constructor.
  - apply rx_len.
  - reflexivity.
  - change codec_polys with SPEECH_GENERATORS. rewrite E. do 2 f_equal. specialize (O msg L T). rewrite !mism_rx in O by assumption.
    destruct (list_eq_dec Bool.bool_dec m msg) as [|NE]; [assumption|exfalso]. pose proof (speech_dist m msg LM L TM T NE) as D.
    pose proof (hamming_triangle (sp1 m) (sp1 msg) y1) as T1. pose proof (hamming_triangle (sp2 m) (sp2 msg) y2) as T2. unfold sp1, sp2 in T1, T2. rewrite !psel_length in T1, T2. cbn [length PS1 PS2] in T1, T2. fold (sp1 m) (sp1 msg) in T1. fold (sp2 m) (sp2 msg) in T2.
    specialize (T1 eq_refl (eq_sym L1)). specialize (T2 eq_refl (eq_sym L2)). lia.
Qed.
Lemma viterbi_speech_total y1 y2 : exists m, viterbi_decode codec_polys (map soft (rx_soft y1 y2)) = Ok (map N.b2n m) /\ length m = 184.
Proof.
  destruct (viterbi_optimal SPEECH_GENERATORS (rx_soft y1 y2) 184) as (m & E & LM & _); [discriminate|repeat constructor|apply rx_len|reflexivity|]. exists m. auto.
Qed.

(** ** The 8-bit CRC of class 2 is made of bits *)
Lemma upd_b2n v i x : map N.b2n (upd v i x) = upd (map N.b2n v) i (N.b2n x).
Proof. revert i. induction v as [|h t IH]; intros [|i]; cbn; congruence. Qed.
Lemma nth_b2n v i : nth i (map N.b2n v) 0%N = N.b2n (nth i v false).
Proof. change 0%N with (N.b2n false). apply map_nth. Qed.
Lemma lxor_b2n a b : N.lxor (N.b2n a) (N.b2n b) = N.b2n (xorb a b).
Proof. destruct a, b; reflexivity. Qed.
Lemma speech_div_bits v d : d < length v -> exists v', speech_div (map N.b2n v) d = Ok (map N.b2n v') /\ length v' = length v.
Proof.
  intros H. unfold speech_div. rewrite nth_error_map. destruct (nth_error v d) as [x|] eqn:E; [|apply nth_error_None in E; lia]. cbn [option_map unwrap bind]. destruct (N.b2n x =? 1)%N; [|exists v; auto]. cbv zeta.
  change 1%N with (N.b2n true). rewrite !nth_b2n, lxor_b2n, <- upd_b2n, !nth_b2n, lxor_b2n, <- upd_b2n, !nth_b2n, lxor_b2n, <- upd_b2n. eexists. split; [reflexivity|]. rewrite !upd_length. reflexivity.
Qed.
Lemma speech_div_loop_bits ds : forall v, (forall d, In d ds -> d < length v) -> exists v', speech_div_loop ds (map N.b2n v) = Ok (map N.b2n v') /\ length v' = length v.
Proof.
  induction ds as [|d ds IH]; intros v H; [exists v; auto|]. cbn [speech_div_loop]. destruct (speech_div_bits v d) as (v1 & E & L); [apply H; now left|]. rewrite E. cbn [bind]. destruct (IH v1) as (v2 & E2 & L2); [intros x Hx; rewrite L; apply H; now right|]. exists v2. split; [assumption|congruence].
Qed.
Lemma fold_bit (g : N -> N -> N) l : (forall a b, exists c, g (N.b2n a) (N.b2n b) = N.b2n c) -> forall p, exists q, fold_left g (map N.b2n l) (N.b2n p) = N.b2n q.
Proof. intros H. induction l as [|x l IH]; intros p; [exists p; reflexivity|]. cbn [map fold_left]. destruct (H p x) as (c & ->). apply IH. Qed.
Lemma speech_crc_bits c2 : length c2 = 60 -> exists c, speech_crc (map N.b2n c2) = Ok (map N.b2n c) /\ length c = 8.
Proof.
  intros L. unfold speech_crc. rewrite map_length, L. cbn [Nat.eqb assert bind].
  assert (E1 : map (fun b => N.land b 1) (map N.b2n c2) = map N.b2n c2) by (rewrite map_map; apply map_ext; intros []; reflexivity). rewrite E1. rewrite blit_ok by (rewrite map_length, repeat_length, L; lia). cbn [bind].
  rewrite repeat_b2n, firstn_map, skipn_map, <- !map_app. rewrite map_length, L. set (v := firstn 7 (repeat false 67) ++ c2 ++ skipn (7 + 60) (repeat false 67)).
  assert (LV : length v = 67) by (unfold v; rewrite !app_length, L; reflexivity).
  destruct (speech_div_loop_bits (rev (seq 7 60)) v) as (v' & E & L'). { intros d Hd. apply in_rev, in_seq in Hd. lia. }
  rewrite E. cbn [bind]. destruct (fold_bit (fun p b => N.lxor p (N.land b 1)) c2) with (p := false) as (p1 & P1). { intros a b. exists (xorb a b). destruct a, b; reflexivity. }
  change 0%N with (N.b2n false). rewrite P1, firstn_map. destruct (fold_bit N.lxor (firstn 7 v')) with (p := p1) as (p2 & P2). { intros a b. exists (xorb a b). apply lxor_b2n. }
  rewrite P2. exists (firstn 7 v' ++ [p2]). rewrite map_app. split; [reflexivity|]. rewrite app_length, firstn_length, L', LV. reflexivity.
Qed.
Lemma list_eqb_refl l : list_eqb l l = true.
Proof. unfold list_eqb. rewrite Nat.eqb_refl. cbn [andb]. induction l as [|x l IH]; [reflexivity|]. cbn [combine forallb fst snd]. now rewrite N.eqb_refl. Qed.

(** ** Reordering on bits *)
Lemma c2c_bits x : length x = 274 -> exists y, codec_to_channel (map N.b2n x) = Ok (map N.b2n y) /\ length y = 274 /\ channel_to_codec (map N.b2n y) = Ok (map N.b2n x).
Proof.
  intros L. destruct (reorder_roundtrip (map N.b2n x)) as (y & E & LY & _ & E2); [now rewrite map_length|]. unfold codec_to_channel in E. rewrite repeat_b2n, copy_idx_map in E.
  destruct (copy_idx _ x (repeat false 274)) as [z| |] eqn:EZ; try discriminate. assert (Y : y = map N.b2n z) by congruence. subst y. exists z. unfold codec_to_channel. rewrite repeat_b2n, copy_idx_map, EZ. rewrite map_length in LY. auto.
Qed.
(** the class-0 positions of the two speech frames *)
Lemma class0_check : forallb (fun p => Bool.eqb (snd p <? 102) (unprotected (fst p))) reorder_pairs = true.
Proof. vm_compute. reflexivity. Qed.
Lemma ch2codec_bits y y' x : length y = 274 -> length y' = 274 -> channel_to_codec (map N.b2n y) = Ok (map N.b2n x) -> skipn 102 y = skipn 102 y' ->
  exists x', channel_to_codec (map N.b2n y') = Ok (map N.b2n x') /\ length x' = 274 /\ hamming x' x = hamming y' y /\ (forall i, i < 274 -> unprotected i = false -> nth i x' false = nth i x false).
Proof.
  intros L L' E SK. destruct reorder_facts as (P1 & P2 & R). unfold channel_to_codec in *. rewrite repeat_b2n, copy_idx_map in *.
  assert (ND : NoDup (map fst reorder_pairs)) by (eapply Permutation_NoDup; [apply Permutation_sym; exact P1|apply seq_NoDup]).
  assert (ND2 : NoDup (map snd reorder_pairs)) by (eapply Permutation_NoDup; [apply Permutation_sym; exact P2|apply seq_NoDup]).
  destruct (copy_idx_spec reorder_pairs y (repeat false 274)) as (z & Ez & Lz & Hz & _); [rewrite L, repeat_length; exact R|assumption|].
  destruct (copy_idx_spec reorder_pairs y' (repeat false 274)) as (z' & Ez' & Lz' & Hz' & _); [rewrite L', repeat_length; exact R|assumption|].
  rewrite Ez in E. rewrite Ez'. rewrite repeat_length in Lz, Lz'. assert (X : z = x). { assert (Q : map N.b2n z = map N.b2n x) by congruence. revert Q. clear. revert x. induction z as [|a z IH]; intros [|b x] Q; try discriminate; [reflexivity|]. injection Q as Q1 Q2. f_equal; [destruct a, b; (reflexivity || discriminate)|now apply IH]. }
  subst z. exists z'. split; [reflexivity|]. split; [assumption|]. split.
  - rewrite !hamming_count by congruence. rewrite Lz', L'. set (P := fun i => negb (Bool.eqb (nth i z' false) (nth i x false))). set (Q := fun i => negb (Bool.eqb (nth i y' false) (nth i y false))).
    rewrite <- (filter_perm P _ _ P1), <- (filter_perm Q _ _ P2). rewrite !filter_map_len. f_equal. apply filter_ext_in. intros [i j] H. unfold P, Q. cbn [fst snd]. rewrite (Hz i j), (Hz' i j) by assumption. reflexivity.
  - intros i Hi U. pose proof (perm_seq_in _ i P1 Hi) as M. apply in_map_iff in M. destruct M as ([a j] & Ea & M). cbn [fst] in Ea. subst a. rewrite (Hz i j), (Hz' i j) by assumption.
    pose proof class0_check as C. rewrite forallb_forall in C. specialize (C _ M). cbn [fst snd] in C. rewrite U in C. destruct (Nat.ltb_spec j 102); [discriminate|]. replace j with (102 + (j - 102)) by lia. rewrite <- !nth_skipn'. now rewrite SK.
Qed.

(** ** Array bookkeeping *)
Lemma blit_step {A} (p s : list A) z n k : length p = k -> length s <= n -> blit (p ++ repeat z n) k s = Ok ((p ++ s) ++ repeat z (n - length s)).
Proof.
  intros <- L. rewrite blit_ok by (rewrite app_length, repeat_length; lia). f_equal. rewrite firstn_app, Nat.sub_diag, firstn_all. cbn [firstn]. rewrite app_nil_r, <- app_assoc. do 2 f_equal.
  rewrite skipn_app. rewrite skipn_all2 by lia. cbn [app]. replace (length p + length s - length p) with (length s) by lia. replace n with (length s + (n - length s)) at 1 by lia. rewrite repeat_app, skipn_app, repeat_length, Nat.sub_diag. rewrite skipn_all2 by (rewrite repeat_length; lia). reflexivity.
Qed.
Lemma blit_0 {A} (s : list A) z n : length s <= n -> blit (repeat z n) 0 s = Ok (s ++ repeat z (n - length s)).
Proof. intros L. exact (blit_step [] s z n 0 eq_refl L). Qed.
Lemma slice_map {A B} (f : A -> B) l i n : i + n <= length l -> slice (map f l) i n = Ok (map f (firstn n (skipn i l))).
Proof. intros H. rewrite slice_ok by (rewrite map_length; assumption). rewrite skipn_map, firstn_map. reflexivity. Qed.

Definition sp_msg (ch crc : list bool) : list bool := firstn 112 (skipn 102 ch) ++ firstn 60 (skipn 214 ch) ++ crc ++ repeat false 4.
Definition sp_type3 (ch crc : list bool) : list bool := firstn 102 ch ++ sp1 (sp_msg ch crc) ++ sp2 (sp_msg ch crc).
Lemma sp_msg_len ch crc : length ch = 274 -> length crc = 8 -> length (sp_msg ch crc) = 184.
Proof. intros L C. unfold sp_msg. rewrite !app_length, !firstn_length, !skipn_length, repeat_length, L, C. reflexivity. Qed.
Lemma sp_msg_term ch crc : length ch = 274 -> length crc = 8 -> terminated (sp_msg ch crc).
Proof.
  intros L C i Hi. rewrite sp_msg_len in Hi by assumption. unfold sp_msg. rewrite !app_assoc, app_nth2 by (rewrite !app_length, !firstn_length, !skipn_length, L, C; lia). apply nth_repeat.
Qed.
Lemma sp_msg_parts ch crc : length ch = 274 -> firstn 112 (sp_msg ch crc) = firstn 112 (skipn 102 ch) /\ skipn 112 (sp_msg ch crc) = firstn 60 (skipn 214 ch) ++ crc ++ repeat false 4.
Proof.
  intros L. unfold sp_msg. set (c1 := firstn 112 (skipn 102 ch)). assert (LC : length c1 = 112) by (unfold c1; rewrite firstn_length, skipn_length, L; reflexivity). rewrite firstn_app, skipn_app, LC, Nat.sub_diag. rewrite (firstn_all2 c1), (skipn_all2 c1) by lia. rewrite firstn_O, app_nil_r. auto.
Qed.
Lemma sp1_len m : length (sp1 m) = 168.
Proof. unfold sp1. now rewrite psel_length. Qed.
Lemma sp2_len m : length (sp2 m) = 162.
Proof. unfold sp2. now rewrite psel_length. Qed.
Lemma matrix_interleave_map {A B} (f : A -> B) l c x o : matrix_interleave l c (map f x) (map f o) = match matrix_interleave l c x o with Ok r => Ok (map f r) | Err e => Err e | Panic => Panic end.
Proof. unfold matrix_interleave. rewrite !map_length. destruct (_ && _)%bool; [|reflexivity]. cbn [assert bind]. apply copy_idx_map. Qed.
Lemma matrix_deinterleave_map {A B} (f : A -> B) l c x o : matrix_deinterleave l c (map f x) (map f o) = match matrix_deinterleave l c x o with Ok r => Ok (map f r) | Err e => Err e | Panic => Panic end.
Proof. unfold matrix_deinterleave. rewrite !map_length. destruct (_ && _)%bool; [|reflexivity]. cbn [assert bind]. apply copy_idx_map. Qed.

Lemma speech_encode_spec m a b c d n : length m * 3 = n -> exists a' b' c' d',
  speech_encode (cst a b c d) (map N.b2n m) (repeat 0%N n) = Ok (map N.b2n (tcode SPEECH_GENERATORS (st a b c d) m), cst a' b' c' d') /\ fin (st a b c d) m = st a' b' c' d'.
Proof.
  intros L. unfold speech_encode. rewrite map_length, repeat_length, L, Nat.leb_refl. cbn [assert bind]. destruct (enc_loop_spec speech_encode_bit SPEECH_GENERATORS speech_enc_ok m a b c d) as (a' & b' & c' & d' & E & F). rewrite E.
  assert (LT : length (tcode SPEECH_GENERATORS (st a b c d) m) = n) by (rewrite tcode_length; cbn [length SPEECH_GENERATORS]; lia).
  rewrite blit_0 by (rewrite map_length; lia). cbn [bind]. rewrite map_length, LT, Nat.sub_diag. cbn [repeat]. rewrite app_nil_r. exists a', b', c', d'. auto.
Qed.

Lemma encode_tp_spec blk code : wf blk -> length (window blk) = 274 -> (code < 2 ^ 32)%N ->
  exists ch crc t4 b0 b, codec_to_channel (map N.b2n (window blk)) = Ok (map N.b2n ch) /\ length ch = 274 /\ channel_to_codec (map N.b2n ch) = Ok (map N.b2n (window blk)) /\
    speech_crc (map N.b2n (firstn 60 (skipn 214 ch))) = Ok (map N.b2n crc) /\ length crc = 8 /\
    encode_tp TchS blk code 1 = Ok b /\ wf b0 /\ remaining b0 = t4 /\ bpos b0 = bstart b0 /\ scramb_bits code b0 = Ok b /\ length t4 = 432 /\
    (forall i, i < 432 -> nth i t4 false = nth (mx 24 18 i) (sp_type3 ch crc) false).
Proof.
  intros W L C. destruct (c2c_bits (window blk) L) as (ch & E1 & LCH & E2). assert (LC2 : length (firstn 60 (skipn 214 ch)) = 60) by (rewrite firstn_length, skipn_length, LCH; reflexivity).
  destruct (speech_crc_bits (firstn 60 (skipn 214 ch)) LC2) as (crc & E3 & LCR).
  destruct (matrix_interleave_spec 24 18 ltac:(lia) ltac:(lia) (sp_type3 ch crc) (repeat false 432)) as (t4 & E4 & L4 & H4 & _).
  { unfold sp_type3. rewrite !app_length, sp1_len, sp2_len, firstn_length, LCH. apply Nat.leb_le. reflexivity. } { rewrite repeat_length. apply Nat.leb_le. reflexivity. }
  rewrite repeat_length in L4. destruct (from_bitarr_spec t4) as (b0 & E0 & W0 & P0 & A0 & R0). destruct (scramb_ok code b0 C W0) as (b & EB & _).
  exists ch, crc, t4, b0, b. do 5 (split; [assumption|]). split; [|split; [assumption|split; [rewrite remaining_at_start by assumption; assumption|split; [assumption|split; [assumption|split; [assumption|intros i Hi; apply H4; exact Hi]]]]]].
  unfold encode_tp. cbn [get_params bind type1_bits type345_bits is_tchs]. destruct (seek_start blk W) as (S1 & S2 & S3). rewrite S1. cbn [bind]. unfold get_len, sub_checked. cbn [set_pos bstart bend]. pose proof W as (WF1 & WF2 & WF3 & WF4).
  destruct (Nat.leb_spec (bstart blk) (bend blk)) as [_|]; [|lia]. cbn [bind]. assert (LB : bend blk - bstart blk = 274) by (unfold window in L; rewrite bits_rng_length in L; exact L). rewrite LB. rewrite Nat.min_id.
  rewrite to_bitarr_spec by (assumption || (rewrite S3; lia)). cbn [bind]. rewrite S3, firstn_all2 by lia.
  rewrite blit_0 by (rewrite map_length; unfold MAX_TYPE1_BITS; lia). cbn [bind]. rewrite map_length, L. replace (MAX_TYPE1_BITS - 274) with 0 by reflexivity. change (repeat 0%N 0) with (@nil N). rewrite app_nil_r, Nat.eqb_refl. cbn [andb]. rewrite E1. cbn [bind].
  rewrite slice_map by (rewrite LCH; unfold CLASS0_BITS; lia). cbn [bind]. change (skipn 0 ch) with ch. assert (LC0 : length (firstn CLASS0_BITS ch) = 102) by (rewrite firstn_length, LCH; reflexivity).
  rewrite blit_0 by (rewrite map_length, LC0; unfold MAX_TYPE345_BITS; lia). cbn [bind]. rewrite slice_map by (rewrite LCH; unfold CLASS0_BITS, CLASS1_BITS; lia). cbn [bind]. set (c1 := firstn CLASS1_BITS (skipn CLASS0_BITS ch)). assert (LC1 : length c1 = 112) by (unfold c1; rewrite firstn_length, skipn_length, LCH; reflexivity).
  destruct (speech_encode_spec c1 false false false false (CLASS1_BITS * 3)) as (a1 & a2 & a3 & a4 & EE1 & FE1); [rewrite LC1; reflexivity|]. change cstate_new with (cst false false false false). rewrite EE1. cbn [bind]. change (st false false false false) with 0 in *.
  set (msg := sp_msg ch crc). destruct (sp_msg_parts ch crc LCH) as (MP1 & MP2). fold msg in MP1, MP2. destruct (code_split msg (sp_msg_len ch crc LCH LCR)) as (CS1 & CS2). rewrite MP1 in CS1, CS2. rewrite MP2 in CS2. change (firstn 112 (skipn 102 ch)) with c1 in CS1, CS2.
  rewrite <- CS1. assert (LF : length (firstn 336 (conv_code SPEECH_GENERATORS msg)) = 336) by (rewrite firstn_length, speech_len; unfold msg; rewrite sp_msg_len by assumption; reflexivity).
  pose proof (punct1 N (N.b2n false) 0%N 56 (map N.b2n (firstn 336 (conv_code SPEECH_GENERATORS msg)))) as PE1. rewrite map_length, LF in PE1. specialize (PE1 (le_n _)). change (repeat 0%N (3 * 56)) with (repeat 0%N 168) in PE1. rewrite PE1. cbn [bind]. rewrite psel_map. change (psel 6 PS1 false 56 (firstn 336 (conv_code SPEECH_GENERATORS msg))) with (sp1 msg).
  rewrite blit_step by (rewrite !map_length, ?sp1_len, ?LC0; unfold MAX_TYPE345_BITS; (reflexivity || lia)). cbn [bind]. rewrite <- map_app.
  rewrite slice_map by (rewrite LCH; unfold CLASS0_BITS, CLASS1_BITS, CLASS2_BITS; lia). cbn [bind]. change (firstn CLASS2_BITS (skipn (CLASS0_BITS + CLASS1_BITS) ch)) with (firstn 60 (skipn 214 ch)). set (c2 := firstn 60 (skipn 214 ch)) in *.
  rewrite blit_0 by (rewrite map_length, LC2; unfold CLASS2_TYPE2; lia). cbn [bind]. rewrite E3. cbn [bind]. rewrite blit_step by (rewrite !map_length, ?LC2, ?LCR; unfold CLASS2_TYPE2; (reflexivity || lia)). cbn [bind]. rewrite !map_length, LC2, LCR. change (CLASS2_TYPE2 - 60 - 8) with 4. rewrite repeat_b2n, <- !map_app.
  replace ((c2 ++ crc) ++ repeat false 4) with (c2 ++ crc ++ repeat false 4) by (now rewrite app_assoc).
  destruct (speech_encode_spec (c2 ++ crc ++ repeat false 4) a1 a2 a3 a4 (CLASS2_TYPE2 * 3)) as (d1 & d2 & d3 & d4 & EE2 & _); [rewrite !app_length, LC2, LCR; reflexivity|]. rewrite EE2. cbn [bind]. rewrite <- FE1. rewrite <- CS2.
  assert (LS : length (skipn 336 (conv_code SPEECH_GENERATORS msg)) = 216) by (rewrite skipn_length, speech_len; unfold msg; rewrite sp_msg_len by assumption; reflexivity).
  pose proof (punct2 N (N.b2n false) 0%N 18 (map N.b2n (skipn 336 (conv_code SPEECH_GENERATORS msg)))) as PE2. rewrite map_length, LS in PE2. specialize (PE2 (le_n _)). change (repeat 0%N (9 * 18)) with (repeat 0%N 162) in PE2. rewrite PE2. cbn [bind]. rewrite psel_map. change (psel 12 PS2 false 18 (skipn 336 (conv_code SPEECH_GENERATORS msg))) with (sp2 msg).
  rewrite blit_step by (rewrite ?map_length, ?app_length, ?map_length, ?app_length, ?sp1_len, ?sp2_len, ?LC0; unfold MAX_TYPE345_BITS; (reflexivity || lia)). cbn [bind]. rewrite !map_length, LC0, sp1_len, sp2_len. change (MAX_TYPE345_BITS - 102 - 168 - 162) with 0. change (repeat 0%N 0) with (@nil N). rewrite app_nil_r, <- map_app.
  replace ((firstn CLASS0_BITS ch ++ sp1 msg) ++ sp2 msg) with (sp_type3 ch crc) by (unfold sp_type3; fold msg; now rewrite app_assoc).
  rewrite repeat_b2n, matrix_interleave_map. change MAX_TYPE345_BITS with 432. rewrite E4. cbn [bind]. rewrite slice_map by lia. cbn [bind]. change (skipn 0 t4) with t4. rewrite firstn_all2 by lia. rewrite E0. cbn [bind]. rewrite EB. cbn [bind N.eqb Pos.eqb]. reflexivity.
Qed.

(** ** Decoding *)
Lemma mx24_range i : i < 432 -> mx 24 18 i < 432.
Proof. exact (mx_range 24 18 ltac:(lia) ltac:(lia) i). Qed.
Lemma mx24_inj i j : i < 432 -> j < 432 -> mx 24 18 i = mx 24 18 j -> i = j.
Proof. exact (mx_inj 24 18 ltac:(lia) ltac:(lia) i j). Qed.

(** What the decoder makes of a descrambled block [w]. *)
Lemma decode_tp_core rb code b w : scramb_bits code rb = Ok b -> wf b -> window b = w -> length w = 432 ->
  exists t3, length t3 = 432 /\ (forall i, i < 432 -> nth (mx 24 18 i) t3 false = nth i w false) /\
  let y0 := firstn 102 t3 in let y1 := firstn 168 (skipn 102 t3) in let y2 := firstn 162 (skipn 270 t3) in
  forall m, viterbi_decode codec_polys (map soft (rx_soft y1 y2)) = Ok (map N.b2n m) -> length m = 184 -> 
  exists crc x o, speech_crc (map N.b2n (firstn 60 (skipn 112 m))) = Ok (map N.b2n crc) /\ length crc = 8 /\ 
    channel_to_codec (map N.b2n (y0 ++ firstn 172 m)) = Ok (map N.b2n x) /\ length x = 274 /\
    decode_tp TchS rb code = Ok (Some o, list_eqb (map N.b2n crc) (map N.b2n (firstn 8 (skipn 172 m)))) /\ wf o /\ bpos o = bstart o /\ window o = x.
Proof.
  intros EB WB WW LW. destruct (matrix_deinterleave_spec 24 18 ltac:(lia) ltac:(lia) w (repeat false 432)) as (t3 & E3 & L3 & H3 & _).
  { rewrite LW. apply Nat.leb_le. reflexivity. } { rewrite repeat_length. apply Nat.leb_le. reflexivity. }
  rewrite repeat_length in L3. exists t3. split; [assumption|]. split; [intros i Hi; apply H3; exact Hi|]. intros y0 y1 y2 m EV LM.
  assert (L0 : length y0 = 102) by (unfold y0; rewrite firstn_length, L3; reflexivity). assert (L1 : length y1 = 168) by (unfold y1; rewrite firstn_length, skipn_length, L3; reflexivity). assert (L2 : length y2 = 162) by (unfold y2; rewrite firstn_length, skipn_length, L3; reflexivity).
  assert (LD : length (firstn 60 (skipn 112 m)) = 60) by (rewrite firstn_length, skipn_length, LM; reflexivity). destruct (speech_crc_bits (firstn 60 (skipn 112 m)) LD) as (crc & EC & LC).
  assert (LX : length (y0 ++ firstn 172 m) = 274) by (rewrite app_length, firstn_length, L0, LM; reflexivity).
  assert (EX : exists x, channel_to_codec (map N.b2n (y0 ++ firstn 172 m)) = Ok (map N.b2n x) /\ length x = 274).
  { unfold channel_to_codec. rewrite repeat_b2n, copy_idx_map. destruct reorder_facts as (P1 & P2 & R). destruct (copy_idx_spec reorder_pairs (y0 ++ firstn 172 m) (repeat false 274)) as (z & Ez & Lz & _ & _); [rewrite LX, repeat_length; exact R|eapply Permutation_NoDup; [apply Permutation_sym; exact P1|apply seq_NoDup]|].
    exists z. rewrite Ez, Lz, repeat_length. auto. }
  destruct EX as (x & EX & LXX). destruct (from_bitarr_spec x) as (o & EO & WO & PO & AO & RO). exists crc, x, o. do 4 (split; [assumption|]). split; [|auto].
  unfold decode_tp. cbn [is_tchs assert bind get_params type345_bits]. rewrite EB. cbn [bind]. destruct (seek_start b WB) as (S1 & S2 & S3). rewrite S1. cbn [bind]. rewrite WW in S3. rewrite to_bitarr_spec by (assumption || (rewrite S3; lia)). cbn [bind]. rewrite S3, (firstn_all2 w) by lia.
  rewrite blit_0 by (rewrite map_length; unfold MAX_TYPE345_BITS; lia). cbn [bind]. rewrite map_length, LW. change (MAX_TYPE345_BITS - 432) with 0. change (repeat 0%N 0) with (@nil N). rewrite app_nil_r.
  assert (DE : matrix_deinterleave 24 18 (map N.b2n w) (repeat 0%N MAX_TYPE345_BITS) = Ok (map N.b2n t3)) by (rewrite repeat_b2n, matrix_deinterleave_map; change MAX_TYPE345_BITS with 432; rewrite E3; reflexivity).
  rewrite DE. cbn [bind]. rewrite slice_map by (rewrite L3; unfold CLASS0_BITS; lia). cbn [bind]. change (firstn CLASS0_BITS (skipn 0 t3)) with y0. rewrite blit_0 by (rewrite map_length, L0; unfold MAX_TYPE1_BITS; lia). cbn [bind].
  rewrite slice_map by (rewrite L3; unfold CLASS0_BITS, CLASS1_TYPE3; lia). cbn [bind]. change (firstn CLASS1_TYPE3 (skipn CLASS0_BITS t3)) with y1.
  assert (D1 : rcpc_depunct Rate112_168 (map N.b2n y1) CLASS1_TYPE3 (repeat 255%N (CLASS1_BITS * 3)) = Ok (map enc_sym (dep 3 6 PS1 None 56 (map Some y1)))).
  { rewrite map_some_enc. pose proof (depunct1 N 255%N 56 (map enc_sym (map Some y1)) 0) as Q. rewrite !map_length, L1 in Q. specialize (Q (le_n _)). change (repeat 255%N 0) with (@nil N) in Q. rewrite app_nil_r in Q. rewrite <- dep_map. exact Q. }
  rewrite D1. cbn [bind]. rewrite slice_map by (rewrite L3; unfold CLASS0_BITS, CLASS1_TYPE3, CLASS2_TYPE3; lia). cbn [bind]. change (firstn CLASS2_TYPE3 (skipn (CLASS0_BITS + CLASS1_TYPE3) t3)) with y2.
  assert (D2 : rcpc_depunct Rate72_162 (map N.b2n y2) CLASS2_TYPE3 (repeat 255%N (CLASS2_TYPE2 * 3)) = Ok (map enc_sym (dep 9 12 PS2 None 18 (map Some y2)))).
  { rewrite map_some_enc. pose proof (depunct2 N 255%N 18 (map enc_sym (map Some y2)) 0) as Q. rewrite !map_length, L2 in Q. specialize (Q (le_n _)). change (repeat 255%N 0) with (@nil N) in Q. rewrite app_nil_r in Q. rewrite <- dep_map. exact Q. }
  rewrite D2. cbn [bind]. rewrite <- map_app. fold (rx_soft y1 y2). rewrite lenient_map, EV. cbn [bind]. rewrite slice_map by (rewrite LM; unfold CLASS1_BITS; lia). cbn [bind]. change (skipn 0 m) with m.
  assert (LF : length (firstn CLASS1_BITS m) = 112) by (rewrite firstn_length, LM; reflexivity). rewrite blit_step by (rewrite ?map_length, ?L0, ?LF; unfold MAX_TYPE1_BITS; (reflexivity || lia)). cbn [bind]. rewrite <- map_app.
  rewrite skipn_map. rewrite slice_map by (rewrite skipn_length, LM; unfold CLASS1_BITS, CLASS2_BITS; lia). cbn [bind]. change (skipn 0 (skipn CLASS1_BITS m)) with (skipn 112 m). rewrite slice_map by (rewrite skipn_length, LM; unfold CLASS1_BITS, CLASS2_BITS; lia). cbn [bind].
  change (firstn CLASS2_BITS (skipn 112 m)) with (firstn 60 (skipn 112 m)). rewrite EC. cbn [bind]. rewrite skipn_skipn'. change (skipn (CLASS1_BITS + CLASS2_BITS) m) with (skipn 172 m).
  rewrite blit_step by (rewrite ?map_length, ?app_length, ?map_length, ?L0, ?LF, ?LD; unfold MAX_TYPE1_BITS; (reflexivity || lia)). cbn [bind]. rewrite !map_length, L0, LF, LD. change (MAX_TYPE1_BITS - 102 - 112 - 60) with 0. change (repeat 0%N 0) with (@nil N). rewrite app_nil_r, <- map_app.
  assert (F172 : firstn CLASS1_BITS m ++ firstn 60 (skipn 112 m) = firstn 172 m).
  { assert (Q : firstn 172 m = firstn 172 (firstn 112 m ++ skipn 112 m)) by (now rewrite firstn_skipn). rewrite Q, firstn_app, firstn_length, LM. change (172 - Nat.min 112 184) with 60. rewrite (firstn_all2 (firstn 112 m)) by (rewrite firstn_length; lia). reflexivity. }
  rewrite <- app_assoc, F172, EX. cbn [bind]. rewrite EO. reflexivity.
Qed.

Lemma encode_tp_ok blk code : wf blk -> length (window blk) = 274 -> (code < 2 ^ 32)%N -> exists b, encode_tp TchS blk code 1 = Ok b /\ wf b /\ bpos b = bstart b /\ length (remaining b) = 432.
Proof.
  intros W L C. destruct (encode_tp_spec blk code W L C) as (ch & crc & t4 & b0 & b & _ & _ & _ & _ & _ & E & W0 & R0 & P0 & EB & L4 & _). exists b. split; [assumption|].
  destruct (scramb_ok code b0 C W0) as (b' & EB' & W' & Q1 & Q2 & Q3). assert (b' = b) by congruence. subst b'. split; [assumption|]. split; [congruence|]. rewrite remaining_length, Q2, Q3. rewrite <- L4, <- R0. now rewrite remaining_length.
Qed.

Lemma speech_chain blk code b rb e : wf blk -> length (window blk) = 274 -> (code < 2 ^ 32)%N -> encode_tp TchS blk code 1 = Ok b ->
  length e = 432 -> weight e <= 1 -> wf rb -> bpos rb = bstart rb -> remaining rb = xorl (remaining b) e ->
  exists o, decode_tp TchS rb code = Ok (Some o, true) /\ wf o /\ bpos o = bstart o /\ length (window o) = 274 /\ hamming (window o) (window blk) <= weight e /\
    (forall i, i < 274 -> unprotected i = false -> nth i (window o) false = nth i (window blk) false).
Proof.
  intros W L C E LE WE WR PR R. destruct (encode_tp_spec blk code W L C) as (ch & crc & t4 & b0 & b' & E1 & LCH & E2 & E3 & LCR & EN & W0 & R0 & P0 & EB & L4 & H4). assert (b' = b) by congruence. subst b'. clear EN.
  destruct (scr_rx code b0 b rb e C W0 EB WR R) as (WB & LB & rb2 & ER & WR2 & Q1 & Q2 & Q3 & _ & _ & R2); [rewrite R0; congruence|]. rewrite R0 in R2.
  assert (LX : length (xorl t4 e) = 432) by (rewrite xorl_length; congruence).
  assert (WW : window rb2 = xorl t4 e) by (rewrite <- (remaining_at_start rb2) by congruence; assumption).
  destruct (decode_tp_core rb code rb2 (xorl t4 e) ER WR2 WW LX) as (t3 & L3 & H3 & D). cbv zeta in D. set (y0 := firstn 102 t3) in *. set (y1 := firstn 168 (skipn 102 t3)) in *. set (y2 := firstn 162 (skipn 270 t3)) in *.
  assert (L0 : length y0 = 102) by (unfold y0; rewrite firstn_length, L3; reflexivity). assert (L1 : length y1 = 168) by (unfold y1; rewrite firstn_length, skipn_length, L3; reflexivity). assert (L2 : length y2 = 162) by (unfold y2; rewrite firstn_length, skipn_length, L3; reflexivity).
  assert (SP : t3 = y0 ++ y1 ++ y2). { unfold y0, y1, y2. rewrite <- (firstn_skipn 102 t3) at 1. f_equal. rewrite <- (firstn_skipn 168 (skipn 102 t3)) at 1. f_equal. rewrite skipn_skipn'. change (102 + 168) with 270. rewrite firstn_all2; [reflexivity|]. rewrite skipn_length, L3. apply Nat.leb_le. reflexivity. }
  set (msg := sp_msg ch crc) in *. assert (LF : length (firstn 102 ch) = 102) by (rewrite firstn_length, LCH; reflexivity).
  assert (HD : hamming t3 (sp_type3 ch crc) = weight e).
  { rewrite <- (hamming_xor t4 e) by congruence. symmetry. apply (hamming_perm (mx 24 18) 432); try assumption.
    - exact mx24_range.
    - exact mx24_inj.
    - unfold sp_type3. rewrite !app_length, sp1_len, sp2_len, LF. reflexivity.
    - intros i Hi. symmetry. now apply H4. }
  assert (SPL : hamming y0 (firstn 102 ch) + (hamming y1 (sp1 msg) + hamming y2 (sp2 msg)) = weight e).
  { rewrite <- HD, SP. unfold sp_type3. fold msg. rewrite hamming_app by congruence. rewrite hamming_app by (rewrite sp1_len; assumption). reflexivity. }
  assert (LM : length msg = 184) by (apply sp_msg_len; assumption).
  assert (V : viterbi_decode codec_polys (map soft (rx_soft y1 y2)) = Ok (map N.b2n msg)).
  { apply viterbi_speech; try assumption; [apply sp_msg_term; assumption|]. rewrite (hamming_sym (sp1 msg)), (hamming_sym (sp2 msg)). lia. }
  destruct (D msg V LM) as (crc' & x & o & EC & LC' & EX & LXX & ED & WO & PO & WOX). destruct (sp_msg_parts ch crc LCH) as (M1 & M2). fold msg in M1, M2.
  assert (LC2 : length (firstn 60 (skipn 214 ch)) = 60) by (rewrite firstn_length, skipn_length, LCH; reflexivity).
  assert (F60 : firstn 60 (skipn 112 msg) = firstn 60 (skipn 214 ch)). { rewrite M2. rewrite firstn_app, LC2, Nat.sub_diag, firstn_O, app_nil_r. apply firstn_all2. rewrite LC2. reflexivity. }
  assert (F8 : firstn 8 (skipn 172 msg) = crc). { change 172 with (112 + 60). rewrite <- skipn_skipn', M2. rewrite skipn_app, LC2, Nat.sub_diag. rewrite (skipn_all2 (firstn 60 (skipn 214 ch))) by (rewrite LC2; reflexivity). cbn [app]. rewrite skipn_O, firstn_app, LCR, Nat.sub_diag, firstn_O, app_nil_r. apply firstn_all2. rewrite LCR. reflexivity. }
  rewrite F60, E3 in EC. assert (CE : map N.b2n crc' = map N.b2n crc) by congruence. rewrite F8, CE, list_eqb_refl in ED.
  assert (F172 : firstn 172 msg = skipn 102 ch).
  { rewrite <- (firstn_skipn 112 msg). rewrite firstn_app, firstn_length, LM. change (172 - Nat.min 112 184) with 60. rewrite F60, M1, firstn_all2 by (rewrite firstn_length; lia). change 214 with (102 + 112). rewrite <- skipn_skipn'. set (k := skipn 102 ch). assert (LK : length k = 172) by (unfold k; rewrite skipn_length, LCH; reflexivity).
    rewrite (firstn_all2 (skipn 112 k)) by (rewrite skipn_length; lia). apply firstn_skipn. }
  rewrite F172 in EX. destruct (ch2codec_bits ch (y0 ++ skipn 102 ch) (window blk) LCH) as (x' & EX' & LX' & HX & PX).
  { rewrite app_length, skipn_length, L0, LCH. reflexivity. } { exact E2. } { rewrite skipn_app, L0, Nat.sub_diag, (skipn_all2 y0), skipn_O by lia. reflexivity. }
  assert (XX : map N.b2n x = map N.b2n x') by congruence. assert (XE : x = x') by (revert XX; clear; revert x'; induction x as [|a x IH]; intros [|b x'] Q; try discriminate; [reflexivity|]; injection Q as Q1 Q2; f_equal; [destruct a, b; (reflexivity || discriminate)|now apply IH]). subst x'.
  exists o. split; [exact ED|]. split; [assumption|]. split; [assumption|]. rewrite WOX. split; [assumption|]. split; [|exact PX]. rewrite HX. rewrite <- (firstn_skipn 102 ch) at 2. rewrite hamming_app by congruence. rewrite hamming_refl. lia.
Qed.

Lemma speech_total rb code : wf rb -> bpos rb = bstart rb -> length (remaining rb) = 432 -> (code < 2 ^ 32)%N -> exists o ok, decode_tp TchS rb code = Ok (Some o, ok) /\ wf o /\ bpos o = bstart o /\ length (window o) = 274.
Proof.
  intros W P L C. destruct (scramb_ok code rb C W) as (b & EB & WB & Q1 & Q2 & Q3). destruct (decode_tp_core rb code b (window b) EB WB eq_refl) as (t3 & L3 & _ & D).
  { rewrite <- L, remaining_length. unfold window. rewrite bits_rng_length. congruence. }
  cbv zeta in D. destruct (viterbi_speech_total (firstn 168 (skipn 102 t3)) (firstn 162 (skipn 270 t3))) as (m & EV & LM). destruct (D m EV LM) as (crc & x & o & _ & _ & _ & LX & ED & WO & PO & WX). exists o, (list_eqb (map N.b2n crc) (map N.b2n (firstn 8 (skipn 172 m)))). rewrite WX. auto.
Qed.

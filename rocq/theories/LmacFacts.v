(** The lower MAC theorems in the form stated in Props_Lmac. *)
From Coq Require Import Permutation.
From Verif Require Import Base BitsLib BitBuffer BitBufferProofs BitBufferOps BitBufferFacts ArrCopy ArrCopyProofs Scrambler Interleaver InterleaverProofs LmacSpec ScramblerProofs
  Crc16 Crc16Proofs Rm3014 Rm3014Proofs ConvEnc Trellis ConvDist Viterbi ViterbiProofs AachProofs ErrorControl CchProofs SpeechProofs ChanSpec.
Open Scope nat_scope.

(** ** Scrambler *)
Lemma scramble_spec code s b : (code < 2 ^ 32)%N -> is_scramb_seq code s -> wf b ->
  exists b', scramb_bits code b = Ok b' /\ wf b' /\ bstart b' = bstart b /\ bpos b' = bpos b /\ bend b' = bend b /\ 
    (forall i, bit_at (bytes b') i = if (bpos b <=? i) && (i <? bend b) then xorb (bit_at (bytes b) i) (s (32 + (i - bpos b))) else bit_at (bytes b) i) /\ scramb_bits code b' = Ok b.
Proof.
  intros C S W. destruct (scramb_bits_spec code s b C S W) as (b1 & E1 & H1). pose proof H1 as (W1 & P1 & P2 & P3 & P4 & P5 & P6). exists b1. destruct (scramb_involution code b C W) as (b2 & E2 & W2 & E3). assert (b2 = b1) by congruence. subst b2.
  do 5 (split; [assumption|]). split; [|assumption]. intros i. rewrite P6. destruct ((bpos b <=? i) && (i <? bend b))%bool; [reflexivity|apply xorb_false_r].
Qed.
Lemma seq_exists code : (code < 2 ^ 32)%N -> exists s, is_scramb_seq code s.
Proof. intros C. exists (the_seq code). now apply the_seq_ok. Qed.
Lemma colour0_refuted : exists mcc mnc mcc' mnc', (mcc, mnc) <> (mcc', mnc') /\ scramb_get_init mcc mnc 0 = scramb_get_init mcc' mnc' 0 /\
  forall b, wf b -> exists b', scramb_bits (scramb_get_init mcc mnc 0) b = Ok b' /\ window b' = window b.
Proof.
  exists 204%N, 1%N, 262%N, 2%N. split; [congruence|]. split; [reflexivity|]. intros b W. change (scramb_get_init 204 1 0) with 0%N.
  destruct (scramble_spec 0 (fun _ => false) b) as (b' & E & W' & P1 & P2 & P3 & H & _); [reflexivity| |assumption|].
  - split; [intros j _; reflexivity|intros k; reflexivity].
  - exists b'. split; [assumption|]. unfold window, bits_rng. rewrite P1, P3. apply map_ext. intros i. rewrite H. destruct (_ && _)%bool; [apply xorb_false_r|reflexivity].
Qed.

(** ** Interleavers *)
Lemma interl_params k a : In (k, a) block_interleavers -> 0 < k /\ Nat.gcd a k = 1 /\ (N.of_nat a * N.of_nat k < 2 ^ 32)%N.
Proof. intros [H|[H|[H|[H|[]]]]]; injection H as <- <-; (split; [lia|split; vm_compute; reflexivity]). Qed.
Lemma block_inverse {A} k a (x o o2 : list A) : In (k, a) block_interleavers -> length x = k -> length o = k -> length o2 = k ->
  exists y z, block_interleave k a x o = Ok y /\ Permutation x y /\ block_deinterleave k a y o2 = Ok x /\ block_deinterleave k a x o = Ok z /\ block_interleave k a z o2 = Ok x.
Proof.
  intros I Lx Lo Lo2. destruct (interl_params k a I) as (H1 & H2 & H3). destruct (block_roundtrip k a H1 H2 H3 x o o2) as (y & z & E1 & P & E2 & F); [lia..|]. destruct (block_roundtrip_rev k a H1 H2 H3 x o o2) as (y' & z' & E3 & E4 & F'); [lia..|].
  destruct (interleave_spec k a H1 H2 H3 x o) as (y1 & Q1 & L1 & _); [lia..|]. assert (y1 = y) by congruence. subst y1. destruct (deinterleave_spec k a H1 H2 H3 y o2) as (z1 & Q2 & L2 & _); [lia..|]. assert (z1 = z) by congruence. subst z1.
  destruct (deinterleave_spec k a H1 H2 H3 x o) as (y2 & Q3 & L3 & _); [lia..|]. assert (y2 = y') by congruence. subst y2. destruct (interleave_spec k a H1 H2 H3 y' o2) as (z2 & Q4 & L4 & _); [lia..|]. assert (z2 = z') by congruence. subst z2.
  rewrite !firstn_all2 in F, F', P by lia. subst z z'. exists y, y'. auto.
Qed.
Lemma matrix_inverse {A} lines columns (x o o2 : list A) : 0 < lines -> 0 < columns -> length x = lines * columns -> length o = lines * columns -> length o2 = lines * columns ->
  exists y z, matrix_interleave lines columns x o = Ok y /\ Permutation x y /\ matrix_deinterleave lines columns y o2 = Ok x /\ matrix_deinterleave lines columns x o = Ok z /\ matrix_interleave lines columns z o2 = Ok x.
Proof.
  intros H1 H2 Lx Lo Lo2. destruct (matrix_roundtrip lines columns H1 H2 x o o2) as (y & z & E1 & P & E2 & F); [lia..|]. destruct (matrix_roundtrip_rev lines columns H1 H2 x o o2) as (y' & z' & E3 & E4 & F'); [lia..|].
  destruct (matrix_interleave_spec lines columns H1 H2 x o) as (y1 & Q1 & L1 & _); [lia..|]. assert (y1 = y) by congruence. subst y1. destruct (matrix_deinterleave_spec lines columns H1 H2 y o2) as (z1 & Q2 & L2 & _); [lia..|]. assert (z1 = z) by congruence. subst z1.
  destruct (matrix_deinterleave_spec lines columns H1 H2 x o) as (y2 & Q3 & L3 & _); [lia..|]. assert (y2 = y') by congruence. subst y2. destruct (matrix_interleave_spec lines columns H1 H2 y' o2) as (z2 & Q4 & L4 & _); [lia..|]. assert (z2 = z') by congruence. subst z2.
  rewrite !firstn_all2 in F, F', P by lia. subst z z'. exists y, y'. auto.
Qed.
Lemma reorder_rev x : length x = 274 -> exists y, channel_to_codec x = Ok y /\ length y = 274 /\ codec_to_channel y = Ok x.
Proof.
  intros L. destruct reorder_facts as (P1 & P2 & R). unfold codec_to_channel, channel_to_codec. set (sw := map (fun p => (snd p, fst p)) reorder_pairs).
  assert (F1 : map fst sw = map snd reorder_pairs) by (unfold sw; rewrite map_map; reflexivity).
  assert (IN : forall i j, In (i, j) sw <-> In (j, i) reorder_pairs).
  { intros i j. unfold sw. rewrite in_map_iff. split; [intros ([a b] & E & H); injection E as <- <-; assumption|intros H; exists (j, i); auto]. }
  destruct (copy_idx_spec reorder_pairs x (repeat 0%N 274)) as (y & E & Ly & H1 & _).
  { intros i j H. apply R in H. rewrite repeat_len, L. lia. }
  { eapply Permutation_NoDup; [apply Permutation_sym; exact P1|apply seq_NoDup]. }
  rewrite repeat_len in Ly. destruct (copy_idx_spec sw y (repeat 0%N 274)) as (z & E2 & Lz & H2 & _).
  { intros i j H. apply IN, R in H. rewrite repeat_len, Ly. lia. }
  { rewrite F1. eapply Permutation_NoDup; [apply Permutation_sym; exact P2|apply seq_NoDup]. }
  rewrite repeat_len in Lz. exists y. split; [assumption|]. split; [assumption|]. rewrite E2. f_equal. apply (list_ext _ _ 0%N); [lia|]. intros i Hi. rewrite Lz in Hi.
  pose proof (perm_seq_in _ i P2 Hi) as Q. apply in_map_iff in Q. destruct Q as ([j a] & Ea & H). cbn [snd] in Ea. subst a. rewrite (H2 i j) by (now apply IN). apply (H1 j i). assumption.
Qed.

(** ** CRC *)
Lemma crc16_run l : crc16_ccitt_bits (map N.b2n l) (length l) = crc_run 0xffff l.
Proof. apply crc_of_bits. reflexivity. Qed.
Lemma crc_accepts m : crc16_ccitt_bits (map N.b2n m ++ crc_bits (not16 (crc16_ccitt_bits (map N.b2n m) (length m)))) (length m + 16) = TETRA_CRC_OK.
Proof.
  rewrite crc16_run, crc_bits_bits_of, <- map_app. replace (length m + 16) with (length (m ++ bits_of 16 (not16 (crc_run 65535 m)))) by (rewrite app_length, bits_of_length; reflexivity).
  rewrite crc16_run. apply N.eqb_eq. exact (protect_accepts m).
Qed.
Lemma crc_rejects l e : length l = length e -> crc16_ccitt_bits (map N.b2n l) (length l) = TETRA_CRC_OK ->
  (exists a burst c, e = repeat false a ++ burst ++ repeat false c /\ length burst <= 16 /\ In true burst) \/ Nat.odd (weight e) = true \/ (1 <= weight e <= 3 /\ (N.of_nat (length e) <= 32767)%N) ->
  crc16_ccitt_bits (map N.b2n (xorl l e)) (length l) <> TETRA_CRC_OK.
Proof.
  intros L A H. rewrite crc16_run in A. replace (length l) with (length (xorl l e)) by (now apply xorl_length). rewrite crc16_run. intros B.
  assert (D : accepts (xorl l e) = false).
  { apply error_detected; [assumption|now apply N.eqb_eq|]. destruct H as [(a & burst & c & -> & LB & I)|[O|[W LE]]]; [now apply burst_nonzero|now apply odd_nonzero|now apply three_nonzero]. }
  unfold accepts in D. rewrite B in D. discriminate.
Qed.

(** ** Control channels *)
Lemma sizes_qa c k n : control_sizes c = Some (k, n) -> exists q a, qa_of c = Some (q, a) /\ k = 2 * q - 20 /\ n = 3 * q.
Proof. destruct c; cbn [control_sizes]; intros H; try discriminate; injection H as <- <-; eexists _, _; (split; [reflexivity|split; reflexivity]). Qed.
Lemma control_encode c k n blk code : control_sizes c = Some (k, n) -> wf blk -> length (window blk) = k -> (code < 2 ^ 32)%N ->
  exists b, encode_cp c blk code = Ok b /\ wf b /\ bpos b = bstart b /\ length (window b) = n.
Proof.
  intros H W L C. destruct (sizes_qa c k n H) as (q & a & QA & -> & ->). destruct (encode_cp_ok c q a blk code QA W L C) as (b & E & WB & P & LB). exists b. rewrite <- (remaining_at_start b P). auto.
Qed.
Lemma control_chain c k n blk code b rb e sb1 dc : control_sizes c = Some (k, n) -> wf blk -> length (window blk) = k -> (code < 2 ^ 32)%N -> encode_cp c blk code = Ok b ->
  length e = n -> weight e <= 1 -> wf rb -> bpos rb = bstart rb -> window rb = xorl (window b) e -> (if sb1 : bool then Some SCRAMB_INIT else dc) = Some code ->
  exists o, decode_cp c rb sb1 dc = Ok (Some o, true) /\ wf o /\ bpos o = bstart o /\ window o = window blk.
Proof.
  intros H W L C E LE WE WR PR R DC. destruct (sizes_qa c k n H) as (q & a & QA & -> & ->). destruct (encode_cp_ok c q a blk code QA W L C) as (b' & E' & WB & P & LB). assert (b' = b) by congruence. subst b'.
  apply (cch_chain c q a blk code b rb e sb1 dc); try assumption. rewrite !remaining_at_start by assumption. assumption.
Qed.
Lemma control_total c k n rb sb1 dc code : control_sizes c = Some (k, n) -> wf rb -> bpos rb = bstart rb -> length (window rb) = n -> (if sb1 : bool then Some SCRAMB_INIT else dc) = Some code -> (code < 2 ^ 32)%N ->
  exists o crc, decode_cp c rb sb1 dc = Ok (Some o, crc) /\ wf o /\ bpos o = bstart o /\ length (window o) = k.
Proof.
  intros H W P L DC C. destruct (sizes_qa c k n H) as (q & a & QA & -> & ->). apply (cch_total c q a rb sb1 code dc); try assumption. rewrite remaining_at_start by assumption. lia.
Qed.

(** ** Access assignment *)
Lemma aach_full buf code e : wf buf -> bpos buf = bstart buf -> length (window buf) = 14 -> (code < 2 ^ 32)%N -> length e = 30 -> weight e <= 1 ->
  exists b, encode_aach buf code = Ok b /\ wf b /\ bpos b = bstart b /\ length (window b) = 30 /\
    forall rb, wf rb -> bpos rb = bstart rb -> window rb = xorl (window b) e -> exists o, decode_aach rb code = Ok o /\ wf o /\ bpos o = bstart o /\ window o = window buf.
Proof.
  intros W P L C LE WE. rewrite <- (remaining_at_start buf P) in L. destruct (aach_encode buf code W L C) as (b & E & WB & PB & LB). exists b. split; [assumption|]. split; [assumption|]. split; [assumption|]. rewrite <- (remaining_at_start b PB). split; [assumption|].
  intros rb WR PR R. rewrite <- (remaining_at_start buf P). apply (aach_chain buf code b rb e); try assumption. rewrite remaining_at_start by assumption. assumption.
Qed.
(** ** Viterbi *)
Lemma tcode_inj p ps m : nth 0 p false = true -> forall m' a b c d, length m = length m' -> tcode (p :: ps) (st a b c d) m = tcode (p :: ps) (st a b c d) m' -> m = m'.
Proof.
  intros P. induction m as [|x m IH]; intros [|y m'] a b c d L E; try discriminate; [reflexivity|]. cbn [tcode touts map app] in E. assert (E0 : tout p (st a b c d) x = tout p (st a b c d) y) by congruence.
  assert (XY : x = y). { rewrite !tout_st, P in E0. revert E0. generalize (a && nth 1 p false)%bool (b && nth 2 p false)%bool (c && nth 3 p false)%bool (d && nth 4 p false)%bool. intros [] [] [] []; destruct x, y; cbn; congruence. }
  subst y. f_equal. rewrite step_st in E. apply (IH m' x a b c); [now injection L|]. apply (f_equal (skipn (length (p :: ps)))) in E. change (skipn (length (p :: ps)) (tout p (st a b c d) x :: map (fun p => tout p (st a b c d) x) ps ++ tcode (p :: ps) (st x a b c) m)) with (skipn (length ps) (map (fun p => tout p (st a b c d) x) ps ++ tcode (p :: ps) (st x a b c) m)) in E.
  change (skipn (length (p :: ps)) (tout p (st a b c d) x :: map (fun p => tout p (st a b c d) x) ps ++ tcode (p :: ps) (st x a b c) m')) with (skipn (length ps) (map (fun p => tout p (st a b c d) x) ps ++ tcode (p :: ps) (st x a b c) m')) in E.
  rewrite !skipn_app, !map_length, !Nat.sub_diag, !skipn_O in E. rewrite skipn_all2 in E by (rewrite map_length; reflexivity). exact E.
Qed.
Lemma viterbi_clean p ps m : nth 0 p false = true -> Forall (fun p => nth 4 p false = true) (p :: ps) -> (2 * Z.of_nat (length m * length (p :: ps)) < 16383)%Z -> terminated m ->
  viterbi_decode (p :: ps) (map soft (map Some (conv_code (p :: ps) m))) = Ok (map N.b2n m).
Proof.
  intros P F B T. set (polys := p :: ps) in *. destruct (viterbi_optimal polys (map Some (conv_code polys m)) (length m)) as (m' & E & L & T' & O); [discriminate|assumption|rewrite map_length; apply conv_code_length|assumption|]. rewrite E. do 2 f_equal.
  specialize (O m eq_refl T). assert (MZ : forall a b, length a = length b -> mismatches a (map Some b) = hamming a b). { clear. induction a as [|x a IH]; intros [|y b] L; try discriminate; [reflexivity|]. cbn [map mismatches hamming]. rewrite IH by (now injection L). reflexivity. }
  rewrite !MZ in O by (rewrite ?conv_code_length; congruence). rewrite hamming_refl in O.
  assert (H0 : hamming (conv_code polys m') (conv_code polys m) = 0) by lia. apply hamming_0 in H0; [|rewrite !conv_code_length; congruence]. rewrite !conv_tcode in H0. exact (tcode_inj p ps m' P m false false false false L H0).
Qed.

(** ** Speech *)
Lemma speech_roundtrip blk code e : wf blk -> length (window blk) = 274 -> (code < 2 ^ 32)%N -> length e = 432 -> weight e <= 1 ->
  exists b, encode_tp TchS blk code 1 = Ok b /\ wf b /\ bpos b = bstart b /\ length (window b) = 432 /\
  forall rb, wf rb -> bpos rb = bstart rb -> window rb = xorl (window b) e ->
  exists o, decode_tp TchS rb code = Ok (Some o, true) /\ wf o /\ bpos o = bstart o /\ length (window o) = 274 /\ hamming (window o) (window blk) <= weight e /\
    (weight e = 0 -> window o = window blk) /\
    (forall i, i < 274 -> unprotected i = false -> nth i (window o) false = nth i (window blk) false).
Proof.
  intros W L C LE WE. destruct (encode_tp_ok blk code W L C) as (b & E & WB & PB & LB). exists b. do 3 (split; [assumption|]). rewrite <- (remaining_at_start b PB). split; [assumption|]. intros rb WR PR R.
  rewrite <- (remaining_at_start rb PR) in R. destruct (speech_chain blk code b rb e W L C E LE WE WR PR R) as (o & D & WO & PO & LO & HO & UO). exists o. do 5 (split; [assumption|]). split; [|assumption]. intros Z. apply hamming_0; [congruence|lia].
Qed.
Lemma speech_total' rb code : wf rb -> bpos rb = bstart rb -> length (window rb) = 432 -> (code < 2 ^ 32)%N -> exists o ok, decode_tp TchS rb code = Ok (Some o, ok) /\ wf o /\ bpos o = bstart o /\ length (window o) = 274.
Proof. intros W P L C. apply speech_total; try assumption. rewrite remaining_at_start by assumption. assumption. Qed.
Lemma soft_value_map r : map soft_value r = map soft r.
Proof. apply map_ext. intros [[]|]; reflexivity. Qed.
Lemma viterbi_optimal' polys r k : polys <> [] -> Forall (fun p => nth 4 p false = true) polys -> length r = k * length polys -> (2 * Z.of_nat (k * length polys) < 16383)%Z ->
  exists m, viterbi_decode polys (map soft_value r) = Ok (map N.b2n m) /\ length m = k /\ terminated m /\
    forall m', length m' = k -> terminated m' -> mismatches (conv_code polys m) r <= mismatches (conv_code polys m') r.
Proof. rewrite soft_value_map. apply viterbi_optimal. Qed.
Lemma viterbi_clean' p ps m : nth 0 p false = true -> Forall (fun p => nth 4 p false = true) (p :: ps) -> (2 * Z.of_nat (length m * length (p :: ps)) < 16383)%Z -> terminated m ->
  viterbi_decode (p :: ps) (map soft_value (map Some (conv_code (p :: ps) m))) = Ok (map N.b2n m).
Proof. rewrite soft_value_map. apply viterbi_clean. Qed.
(** The decoder used on control channels accepts every block size its interface allows. *)
Lemma dec_sb1_total r k out : length r = 4 * k -> k <= 864 -> k <= length out ->
  exists m, dec_sb1 (map enc_sym r) out k = Ok (map N.b2n m ++ skipn k out) /\ length m = k /\ terminated m /\
    forall m', length m' = k -> terminated m' -> mismatches (conv_code CCH_GENERATORS m) r <= mismatches (conv_code CCH_GENERATORS m') r.
Proof.
  intros L K B. destruct (viterbi_optimal CCH_GENERATORS r k) as (m & E & LM & T & O); [discriminate|repeat constructor|rewrite cch_len; lia|rewrite cch_len; lia|]. exists m. split; [|auto].
  unfold dec_sb1. destruct (Nat.leb_spec k 864); [|lia]. rewrite map_length. destruct (Nat.leb_spec (k * 4) (length r)); [|lia]. destruct (Nat.leb_spec k (length out)); [|lia]. cbn [assert bind]. rewrite firstn_all2 by (rewrite map_length; lia). rewrite to_soft_map. cbn [bind].
  change cch_polys with CCH_GENERATORS. rewrite E. cbn [bind]. rewrite slice_map by lia. cbn [bind]. rewrite skipn_O, firstn_all2 by lia. rewrite blit_ok by (rewrite map_length; lia). rewrite firstn_O, map_length, LM. reflexivity.
Qed.
Lemma generators_ok : cch_polys = CCH_GENERATORS /\ codec_polys = SPEECH_GENERATORS /\ Forall (fun p => nth 0 p false = true /\ nth 4 p false = true) (cch_polys ++ codec_polys).
Proof. split; [reflexivity|split; [reflexivity|]]. repeat constructor. Qed.

(** Property theorems: channel coding of the lower MAC (C26 - C32). *)
From Coq Require Import Permutation.
From Verif Require Import Base BitsLib BitBuffer BitBufferProofs ArrCopy Scrambler Interleaver LmacSpec ScramblerProofs Crc16 Rm3014 Rm3014Proofs InterleaverProofs ConvEnc Viterbi ErrorControl ChanSpec LmacFacts.
Open Scope nat_scope.

(** ** C26: scrambling *)
(** Scrambling adds the standard's sequence for the code to the bits from the cursor to the end of the window, changes
    nothing else, and a second pass restores the buffer exactly. *)
Theorem C26_scramble code s b : (code < 2 ^ 32)%N -> is_scramb_seq code s -> wf b ->
  exists b', scramb_bits code b = Ok b' /\ wf b' /\ bstart b' = bstart b /\ bpos b' = bpos b /\ bend b' = bend b /\
    (forall i, bit_at (bytes b') i = if (bpos b <=? i) && (i <? bend b) then xorb (bit_at (bytes b) i) (s (32 + (i - bpos b))) else bit_at (bytes b) i) /\
    scramb_bits code b' = Ok b.
Proof. exact (scramble_spec code s b). Qed.
Print Assumptions C26_scramble.
(** The sequence exists for every code and is determined by it. *)
Theorem C26_sequence code : (code < 2 ^ 32)%N -> exists s, is_scramb_seq code s /\ forall s', is_scramb_seq code s' -> forall j, s' j = s j.
Proof. exact (fun C => match seq_exists code C with ex_intro _ s H => ex_intro _ s (conj H (fun s' H' => seq_unique code s' s H' H)) end). Qed.
Print Assumptions C26_sequence.
Example C26_ex : let b := bb_new 12 in match scramb_bits 3 b with Ok b' => match scramb_bits 3 b' with Ok b'' => (wf b) /\ negb (list_eqb (bytes b') (bytes b)) = true /\ b'' = b | _ => False end | _ => False end.
Proof. vm_compute. split; [repeat split; repeat constructor|split; reflexivity]. Qed.
(** Networks that differ in country code, network code or colour code (1..63) use different codes. *)
Theorem C26_codes_distinct mcc mnc cc mcc' mnc' cc' : (1 <= cc < 64)%N -> (1 <= cc' < 64)%N -> (mnc < 2 ^ 14)%N -> (mnc' < 2 ^ 14)%N -> (mcc < 2 ^ 10)%N -> (mcc' < 2 ^ 10)%N ->
  (scramb_get_init mcc mnc cc < 2 ^ 32)%N /\ (scramb_get_init mcc mnc cc = scramb_get_init mcc' mnc' cc' -> mcc = mcc' /\ mnc = mnc' /\ cc = cc').
Proof. exact (scramb_init_inj mcc mnc cc mcc' mnc' cc'). Qed.
Print Assumptions C26_codes_distinct.
Example C26_ex_codes : scramb_get_init 204 1337 1 <> scramb_get_init 204 1337 2.
Proof. vm_compute. discriminate. Qed.
(** Refuted for colour code 0: all networks get code 0, and code 0 does not scramble at all. *)
Theorem C26_colour0_refuted : exists mcc mnc mcc' mnc', (mcc, mnc) <> (mcc', mnc') /\ scramb_get_init mcc mnc 0 = scramb_get_init mcc' mnc' 0 /\
  forall b, wf b -> exists b', scramb_bits (scramb_get_init mcc mnc 0) b = Ok b' /\ window b' = window b.
Proof. exact colour0_refuted. Qed.
Print Assumptions C26_colour0_refuted.

(** ** C27: interleavers *)
(** Each control-channel interleaver moves every element to a different place, and its partner moves it back; both ways. *)
Theorem C27_block A k a (x o o2 : list A) : In (k, a) block_interleavers -> length x = k -> length o = k -> length o2 = k ->
  exists y z, block_interleave k a x o = Ok y /\ Permutation x y /\ block_deinterleave k a y o2 = Ok x /\ block_deinterleave k a x o = Ok z /\ block_interleave k a z o2 = Ok x.
Proof. exact (block_inverse k a x o o2). Qed.
Print Assumptions C27_block.
Theorem C27_matrix A lines columns (x o o2 : list A) : 0 < lines -> 0 < columns -> length x = lines * columns -> length o = lines * columns -> length o2 = lines * columns ->
  exists y z, matrix_interleave lines columns x o = Ok y /\ Permutation x y /\ matrix_deinterleave lines columns y o2 = Ok x /\ matrix_deinterleave lines columns x o = Ok z /\ matrix_interleave lines columns z o2 = Ok x.
Proof. exact (matrix_inverse lines columns x o o2). Qed.
Print Assumptions C27_matrix.
(** The reordering of speech bits by sensitivity class is a permutation with the inverse used on reception. *)
Theorem C27_reorder x : length x = 274 -> exists y, codec_to_channel x = Ok y /\ length y = 274 /\ Permutation x y /\ channel_to_codec y = Ok x.
Proof. exact (reorder_roundtrip x). Qed.
Print Assumptions C27_reorder.
Theorem C27_reorder_back x : length x = 274 -> exists y, channel_to_codec x = Ok y /\ length y = 274 /\ codec_to_channel y = Ok x.
Proof. exact (reorder_rev x). Qed.
Print Assumptions C27_reorder_back.
Example C27_ex : In (120, 11) block_interleavers /\ match block_interleave 120 11 (seq 0 120) (repeat 0 120) with Ok y => negb (Nat.eqb (nth 5 y 0) 5) | _ => false end = true.
Proof. split; [now left|vm_compute; reflexivity]. Qed.

(** ** C28: CRC *)
(** A block followed by its complemented CRC is accepted. *)
Theorem C28_accepts m : crc16_ccitt_bits (map N.b2n m ++ crc_bits (not16 (crc16_ccitt_bits (map N.b2n m) (length m)))) (length m + 16) = TETRA_CRC_OK.
Proof. exact (crc_accepts m). Qed.
Print Assumptions C28_accepts.
(** An accepted block of any length is rejected after any burst of errors within 16 bits, any odd number of errors, and
    (up to 32767 bits) any one to three errors. *)
Theorem C28_rejects l e : length l = length e -> crc16_ccitt_bits (map N.b2n l) (length l) = TETRA_CRC_OK ->
  (exists a burst c, e = repeat false a ++ burst ++ repeat false c /\ length burst <= 16 /\ In true burst) \/ Nat.odd (weight e) = true \/ (1 <= weight e <= 3 /\ (N.of_nat (length e) <= 32767)%N) ->
  crc16_ccitt_bits (map N.b2n (xorl l e)) (length l) <> TETRA_CRC_OK.
Proof. exact (crc_rejects l e). Qed.
Print Assumptions C28_rejects.
Example C28_ex : exists l, length l = 20 /\ crc16_ccitt_bits (map N.b2n l) (length l) = TETRA_CRC_OK.
Proof. exists ([true; false; true; true] ++ bits_of 16 (not16 (crc16_ccitt_bits [1; 0; 1; 1]%N 4))). split; vm_compute; reflexivity. Qed.

(** ** C29: access assignment *)
Theorem C29_rm3014 x : (x < 2 ^ 14)%N -> rm3014_decode_limited_ecc (rm3014_compute x) = x.
Proof. exact (decode_clean x). Qed.
Print Assumptions C29_rm3014.
Theorem C29_rm3014_single_error x k : (x < 2 ^ 14)%N -> k < 30 -> rm3014_decode_limited_ecc (N.lxor (rm3014_compute x) (2 ^ N.of_nat k)) = x.
Proof. exact (decode_single x k). Qed.
Print Assumptions C29_rm3014_single_error.
Example C29_ex : (rm3014_compute 0x2a5f =? 0)%N = false /\ rm3014_decode_limited_ecc (N.lxor (rm3014_compute 0x2a5f) 0x400) = 0x2a5f%N.
Proof. split; vm_compute; reflexivity. Qed.
(** The whole access-assignment channel, any scrambling code, at most one bit wrong on air. *)
Theorem C29_aach buf code e : wf buf -> bpos buf = bstart buf -> length (window buf) = 14 -> (code < 2 ^ 32)%N -> length e = 30 -> weight e <= 1 ->
  exists b, encode_aach buf code = Ok b /\ wf b /\ bpos b = bstart b /\ length (window b) = 30 /\
    forall rb, wf rb -> bpos rb = bstart rb -> window rb = xorl (window b) e -> exists o, decode_aach rb code = Ok o /\ wf o /\ bpos o = bstart o /\ window o = window buf.
Proof. exact (aach_full buf code e). Qed.
Print Assumptions C29_aach.
Example C29_ex_aach : match (b <- write_bits 0x2a5f 14 (bb_new 14) ;; seek 0 b) with Ok b => bpos b = bstart b /\ length (window b) = 14 | _ => False end.
Proof. vm_compute. split; reflexivity. Qed.

(** ** C30: Viterbi decoder *)
(** For any received sequence, bits missing or not, the result is a terminated message whose codeword differs from the
    received bits in no more places than any other terminated message's; no metric leaves 16 bits (that would panic). *)
Theorem C30_most_likely polys r k : polys <> [] -> Forall (fun p => nth 4 p false = true) polys -> length r = k * length polys -> (2 * Z.of_nat (k * length polys) < 16383)%Z ->
  exists m, viterbi_decode polys (map soft_value r) = Ok (map N.b2n m) /\ length m = k /\ terminated m /\
    forall m', length m' = k -> terminated m' -> mismatches (conv_code polys m) r <= mismatches (conv_code polys m') r.
Proof. exact (viterbi_optimal' polys r k). Qed.
Print Assumptions C30_most_likely.
Theorem C30_error_free p ps m : nth 0 p false = true -> Forall (fun p => nth 4 p false = true) (p :: ps) -> (2 * Z.of_nat (length m * length (p :: ps)) < 16383)%Z -> terminated m ->
  viterbi_decode (p :: ps) (map soft_value (map Some (conv_code (p :: ps) m))) = Ok (map N.b2n m).
Proof. exact (viterbi_clean' p ps m). Qed.
Print Assumptions C30_error_free.
(** The code's two generator tables are the standard's and meet the conditions above. *)
Theorem C30_generators : cch_polys = CCH_GENERATORS /\ codec_polys = SPEECH_GENERATORS /\
  Forall (fun p => nth 0 p false = true /\ nth 4 p false = true) (cch_polys ++ codec_polys).
Proof. exact generators_ok. Qed.
Print Assumptions C30_generators.
Example C30_ex : terminated [true; false; true; true; false; false; false; false] /\
  viterbi_decode cch_polys (map soft_value (None :: skipn 1 (map Some (conv_code CCH_GENERATORS [true; false; true; true; false; false; false; false])))) = Ok [1; 0; 1; 1; 0; 0; 0; 0]%N.
Proof. split; [|vm_compute; reflexivity]. intros i [H1 H2]. cbn in H1, H2. do 8 (destruct i as [|i]; [try reflexivity; lia|]). lia. Qed.

(** ** C31: control channels *)
Theorem C31_encode c k n blk code : control_sizes c = Some (k, n) -> wf blk -> length (window blk) = k -> (code < 2 ^ 32)%N ->
  exists b, encode_cp c blk code = Ok b /\ wf b /\ bpos b = bstart b /\ length (window b) = n.
Proof. exact (control_encode c k n blk code). Qed.
Print Assumptions C31_encode.
(** Any message on any control channel with any code is received, CRC correct, when at most one bit is wrong on air. *)
Theorem C31_roundtrip c k n blk code b rb e sb1 dc : control_sizes c = Some (k, n) -> wf blk -> length (window blk) = k -> (code < 2 ^ 32)%N -> encode_cp c blk code = Ok b ->
  length e = n -> weight e <= 1 -> wf rb -> bpos rb = bstart rb -> window rb = xorl (window b) e -> (if sb1 : bool then Some SCRAMB_INIT else dc) = Some code ->
  exists o, decode_cp c rb sb1 dc = Ok (Some o, true) /\ wf o /\ bpos o = bstart o /\ window o = window blk.
Proof. exact (control_chain c k n blk code b rb e sb1 dc). Qed.
Print Assumptions C31_roundtrip.
(** Whatever is received, decoding yields a block of the right size and does not panic. *)
Theorem C31_total c k n rb sb1 dc code : control_sizes c = Some (k, n) -> wf rb -> bpos rb = bstart rb -> length (window rb) = n -> (if sb1 : bool then Some SCRAMB_INIT else dc) = Some code -> (code < 2 ^ 32)%N ->
  exists o crc, decode_cp c rb sb1 dc = Ok (Some o, crc) /\ wf o /\ bpos o = bstart o /\ length (window o) = k.
Proof. exact (control_total c k n rb sb1 dc code). Qed.
Print Assumptions C31_total.
Example C31_ex : control_sizes Bsch = Some (60, 120) /\ match encode_cp Bsch (bb_new 60) 3 with
  | Ok b => match xor_bit b 1 with Ok b' => match seek 0 b' with Ok b'' => match decode_cp Bsch b'' true None with Ok (Some o, ok) => list_eqb (bytes o) (bytes (bb_new 60)) && ok | _ => false end | _ => false end | _ => false end | _ => false end = true.
Proof. split; [reflexivity|vm_compute; reflexivity]. Qed.

(** ** C32: speech *)
(** Any pair of speech frames comes back exactly over a perfect channel; with one wrong bit on air every protected bit
    is still right and the frame is reported good. *)
Theorem C32_roundtrip blk code e : wf blk -> length (window blk) = 274 -> (code < 2 ^ 32)%N -> length e = 432 -> weight e <= 1 ->
  exists b, encode_tp TchS blk code 1 = Ok b /\ wf b /\ bpos b = bstart b /\ length (window b) = 432 /\
  forall rb, wf rb -> bpos rb = bstart rb -> window rb = xorl (window b) e ->
  exists o, decode_tp TchS rb code = Ok (Some o, true) /\ wf o /\ bpos o = bstart o /\ length (window o) = 274 /\ hamming (window o) (window blk) <= weight e /\
    (weight e = 0 -> window o = window blk) /\
    (forall i, i < 274 -> unprotected i = false -> nth i (window o) false = nth i (window blk) false).
Proof. exact (speech_roundtrip blk code e). Qed.
Print Assumptions C32_roundtrip.
Theorem C32_total rb code : wf rb -> bpos rb = bstart rb -> length (window rb) = 432 -> (code < 2 ^ 32)%N ->
  exists o ok, decode_tp TchS rb code = Ok (Some o, ok) /\ wf o /\ bpos o = bstart o /\ length (window o) = 274.
Proof. exact (speech_total' rb code). Qed.
Print Assumptions C32_total.
Example C32_ex : length (window (bb_new 274)) = 274 /\ length (filter unprotected (seq 0 274)) = 102 /\
  match encode_tp TchS (bb_new 274) 3 1 with Ok b => match decode_tp TchS b 3 with Ok (Some o, ok) => list_eqb (bytes o) (bytes (bb_new 274)) && ok | _ => false end | _ => false end = true.
Proof. split; [reflexivity|split; vm_compute; reflexivity]. Qed.

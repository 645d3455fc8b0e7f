(** Model of crates/tetra-entities/src/lmac/components/errorcontrol.rs and errorcontrol_params.rs.
    Trace output is not modelled.  [read_bits(..).unwrap()] on a checked length is a read that panics otherwise. *)
From Verif Require Import Base BitBuffer ArrCopy Scrambler Interleaver Crc16 Rm3014 ConvEnc Viterbi.
Open Scope N_scope.

(** crates/tetra-saps/src/tmv/enums/logical_chans.rs *)
Inductive lchan := Aach | Bnch | Bsch | SchF | SchHd | Stch | SchHu | TchS | Tch24 | Tch48 | Tch72 | Blch | Clch.
(** logical_chans.rs:46-57 *)
Definition is_control_channel (c : lchan) : bool :=
  match c with Aach | Bsch | Bnch | SchHd | SchF | Stch | SchHu => true | _ => false end.
Definition is_aach (c : lchan) : bool := match c with Aach => true | _ => false end.
Definition is_tchs (c : lchan) : bool := match c with TchS => true | _ => false end.

(** errorcontrol_params.rs:5-12 *)
Record ec_params := mk_ecp { type345_bits : nat; type2_bits : nat; type1_bits : nat; interleave_a : nat; have_crc16 : bool }.
(** errorcontrol_params.rs:15-86 *)
Definition get_params (c : lchan) : res ec_params :=
  match c with
  | Bsch => Ok (mk_ecp 120 80 60 11 true)
  | SchHd | Stch | Bnch => Ok (mk_ecp 216 144 124 101 true)
  | Aach => Ok (mk_ecp 30 30 14 0 false)
  | SchF => Ok (mk_ecp 432 288 268 103 true)
  | SchHu => Ok (mk_ecp 168 112 92 13 true)
  | TchS => Ok (mk_ecp 432 288 274 103 false)
  | _ => Panic
  end.

(** errorcontrol.rs:11-15 *)
Definition MAX_TYPE1_BITS : nat := 274.
Definition MAX_TYPE2_BITS : nat := 288.
Definition MAX_TYPE345_BITS : nat := 432.
Definition MAX_TYPE345_HALFSLOT_BITS : nat := 216.

(** errorcontrol.rs:41-44: the complemented CRC as 16 bits, most significant first *)
Definition crc_bits (crc : N) : list N := map (fun i => N.land (N.shiftr crc (N.of_nat (15 - i))) 1) (seq 0 16).
Definition not16 (x : N) : N := N.lxor x 0xffff.

(** errorcontrol.rs:19-79 *)
Definition encode_cp (c : lchan) (mac_block : bitbuf) (code : N) : res bitbuf :=
  assert (is_control_channel c && negb (is_aach c)) ;;;
  p <- get_params c ;;
  len <- get_len mac_block ;; assert (len =? type1_bits p)%nat ;;;
  b <- seek 0 mac_block ;;
  ' (t1, _) <- to_bitarr (type1_bits p) b ;;
  type2 <- blit (repeat 0 MAX_TYPE2_BITS) 0 t1 ;;
  assert (have_crc16 p) ;;;
  t1' <- slice type2 0 (type1_bits p) ;;
  let crc := not16 (crc16_ccitt_bits t1' (type1_bits p)) in
  type2 <- blit type2 (type1_bits p) (crc_bits crc) ;;
  t2 <- slice type2 0 (type2_bits p) ;;
  ' (type3dp, _) <- cch_encode cstate_new t2 (repeat 0 (MAX_TYPE345_BITS * 4)) ;;
  type3 <- get_punctured_rate Rate2_3 type3dp (repeat 0 MAX_TYPE345_BITS) ;;
  type4 <- block_interleave (type345_bits p) (interleave_a p) type3 (repeat 0 MAX_TYPE345_BITS) ;;
  t4 <- slice type4 0 (type345_bits p) ;;
  b <- bb_from_bitarr t4 ;;
  scramb_bits code b.

(** errorcontrol.rs:85-151; [sb1]: the block type is SB1; result: (type-1 block if decoded, CRC ok) *)
Definition decode_cp (c : lchan) (block : bitbuf) (sb1 : bool) (default_code : option N) : res (option bitbuf * bool) :=
  assert (is_control_channel c && negb (is_aach c)) ;;;
  p <- get_params c ;;
  match (if sb1 then Some SCRAMB_INIT else default_code) with
  | None => Ok (None, false)
  | Some code =>
      b <- scramb_bits code block ;;
      ' (t4, _) <- to_bitarr (type345_bits p) b ;;
      type4 <- blit (repeat 0 MAX_TYPE345_BITS) 0 t4 ;;
      type3 <- block_deinterleave (type345_bits p) (interleave_a p) type4 (repeat 0 MAX_TYPE345_BITS) ;;
      type3dp <- rcpc_depunct Rate2_3 type3 (type345_bits p) (repeat 255 (MAX_TYPE345_BITS * 4)) ;;
      type2 <- dec_sb1 type3dp (repeat 0 MAX_TYPE2_BITS) (type2_bits p) ;;
      assert (have_crc16 p) ;;;
      let crc := crc16_ccitt_bits type2 (type1_bits p + 16) in
      t1 <- slice type2 0 (type1_bits p) ;;
      b <- bb_from_bitarr t1 ;;
      Ok (Some b, crc =? TETRA_CRC_OK)
  end.

(** errorcontrol.rs:165-172, one round of the division, degree [d] *)
Definition speech_div (w : list N) (d : nat) : res (list N) :=
  x <- unwrap (nth_error w d) ;;
  if x =? 1 then
    let flip w i := upd w i (N.lxor (nth i w 0) 1) in
    Ok (flip (flip (flip w d) (d - 4)%nat) (d - 7)%nat)
  else Ok w.
Fixpoint speech_div_loop (ds : list nat) (w : list N) : res (list N) :=
  match ds with [] => Ok w | d :: ds => w <- speech_div w d ;; speech_div_loop ds w end.
(** errorcontrol.rs:155-191 (debug_assert on the length; [k] indexes 60 inputs) *)
Definition speech_crc (class2_bits : list N) : res (list N) :=
  assert (length class2_bits =? 60)%nat ;;;
  w <- blit (repeat 0 67) 7 (map (fun b => N.land b 1) class2_bits) ;;
  w <- speech_div_loop (rev (seq 7 60)) w ;;
  let result := firstn 7 w in
  let parity := fold_left N.lxor result (fold_left (fun p b => N.lxor p (N.land b 1)) class2_bits 0) in
  Ok (result ++ [parity]).

(** errorcontrol.rs:216-219, 310-315 *)
Definition CLASS0_BITS : nat := 102.
Definition CLASS1_BITS : nat := 112.
Definition CLASS2_BITS : nat := 60.
Definition CLASS2_TYPE2 : nat := 72.
Definition CLASS1_TYPE3 : nat := 168.
Definition CLASS2_TYPE3 : nat := 162.

(** errorcontrol.rs:196-287 ([class2] at 260: a 162-entry buffer; 237: a 168-entry buffer) *)
Definition encode_tp (c : lchan) (mac_block : bitbuf) (code : N) (blk_num : N) : res bitbuf :=
  p <- get_params c ;;
  b <- seek 0 mac_block ;;
  len <- get_len b ;;
  let type1_len := Nat.min len (type1_bits p) in
  ' (t1, _) <- to_bitarr type1_len b ;;
  type1 <- blit (repeat 0 MAX_TYPE1_BITS) 0 t1 ;;
  type1 <- (if is_tchs c && (type1_len =? 274)%nat then codec_to_channel type1 else Ok type1) ;;
  c0 <- slice type1 0 CLASS0_BITS ;;
  type3 <- blit (repeat 0 MAX_TYPE345_BITS) 0 c0 ;;
  c1 <- slice type1 CLASS0_BITS CLASS1_BITS ;;
  ' (mother, st) <- speech_encode cstate_new c1 (repeat 0 (CLASS1_BITS * 3)) ;;
  punct <- get_punctured_rate Rate112_168 mother (repeat 0 168) ;;
  type3 <- blit type3 CLASS0_BITS punct ;;
  c2 <- slice type1 (CLASS0_BITS + CLASS1_BITS) CLASS2_BITS ;;
  t2 <- blit (repeat 0 CLASS2_TYPE2) 0 c2 ;;
  crc <- speech_crc c2 ;;
  t2 <- blit t2 CLASS2_BITS crc ;;
  ' (mother, _) <- speech_encode st t2 (repeat 0 (CLASS2_TYPE2 * 3)) ;;
  punct <- get_punctured_rate Rate72_162 mother (repeat 0 162) ;;
  type3 <- blit type3 (CLASS0_BITS + 168) punct ;;
  type4 <- matrix_interleave 24 18 type3 (repeat 0 MAX_TYPE345_BITS) ;;
  t4 <- slice type4 0 (type345_bits p) ;;
  b <- bb_from_bitarr t4 ;;
  b <- scramb_bits code b ;;
  if blk_num =? 1 then Ok b
  else
    b <- seek 0 b ;;
    ' (full, _) <- to_bitarr (type345_bits p) b ;;
    full <- blit (repeat 0 MAX_TYPE345_BITS) 0 full ;;
    h <- slice full MAX_TYPE345_HALFSLOT_BITS (type345_bits p - MAX_TYPE345_HALFSLOT_BITS) ;;
    bb_from_bitarr h.

(** errorcontrol.rs:343-351 *)
Definition soft_lenient (b : N) : Z := if b =? 0 then (-1)%Z else if b =? 1 then 1%Z else 0%Z.
Definition list_eqb (a b : list N) : bool := (length a =? length b)%nat && forallb (fun p => fst p =? snd p) (combine a b).
(** errorcontrol.rs:292-378 *)
Definition decode_tp (c : lchan) (block : bitbuf) (code : N) : res (option bitbuf * bool) :=
  assert (is_tchs c) ;;;
  p <- get_params c ;;
  b <- scramb_bits code block ;;
  b <- seek 0 b ;;
  ' (t4, _) <- to_bitarr (type345_bits p) b ;;
  type4 <- blit (repeat 0 MAX_TYPE345_BITS) 0 t4 ;;
  type3 <- matrix_deinterleave 24 18 type4 (repeat 0 MAX_TYPE345_BITS) ;;
  c0 <- slice type3 0 CLASS0_BITS ;;
  type1 <- blit (repeat 0 MAX_TYPE1_BITS) 0 c0 ;;
  c1t3 <- slice type3 CLASS0_BITS CLASS1_TYPE3 ;;
  mother1 <- rcpc_depunct Rate112_168 c1t3 CLASS1_TYPE3 (repeat 255 (CLASS1_BITS * 3)) ;;
  c2t3 <- slice type3 (CLASS0_BITS + CLASS1_TYPE3) CLASS2_TYPE3 ;;
  mother2 <- rcpc_depunct Rate72_162 c2t3 CLASS2_TYPE3 (repeat 255 (CLASS2_TYPE2 * 3)) ;;
  decoded <- viterbi_decode codec_polys (map soft_lenient (mother1 ++ mother2)) ;;
  d1 <- slice decoded 0 CLASS1_BITS ;;
  type1 <- blit type1 CLASS0_BITS d1 ;;
  let class2 := skipn CLASS1_BITS decoded in
  data <- slice class2 0 CLASS2_BITS ;;
  rcrc <- slice class2 CLASS2_BITS 8 ;;
  ecrc <- speech_crc data ;;
  type1 <- blit type1 (CLASS0_BITS + CLASS1_BITS) data ;;
  codec <- channel_to_codec type1 ;;
  b <- bb_from_bitarr codec ;;
  Ok (Some b, list_eqb ecrc rcrc).

(** errorcontrol.rs:381-404 *)
Definition encode_aach (buf : bitbuf) (code : N) : res bitbuf :=
  n <- get_len_remaining buf ;; assert (n =? 14)%nat ;;;
  ' (o, _) <- read_bits_opt buf 14 ;; x <- unwrap o ;;
  b <- write_bits (rm3014_compute x) 30 (bb_new 30) ;;
  b <- seek 0 b ;;
  scramb_bits code b.
(** errorcontrol.rs:407-436 *)
Definition decode_aach (buf : bitbuf) (code : N) : res bitbuf :=
  n <- get_len_remaining buf ;; assert (n =? 30)%nat ;;;
  b <- scramb_bits code buf ;;
  ' (o, b) <- read_bits_opt b 30 ;; x <- unwrap o ;;
  let y := rm3014_decode_limited_ecc x in
  b <- set_raw_start 0 b ;; b <- set_raw_pos 0 b ;; b <- set_raw_end 14 b ;;
  b <- write_bits y 14 b ;;
  seek 0 b.

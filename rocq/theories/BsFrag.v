(** Model of crates/tetra-entities/src/umac/subcomp/bs_frag.rs (the log messages are not modelled). *)
From Verif Require Import Base BitBuffer Codec TypedFields MacFields MacPdus FillBits TxReceipt.
Open Scope N_scope.

(** bs_frag.rs:10-16 *)
Record fragger := mk_fg { fg_res : mac_resource; fg_hdr : bool; fg_done : bool; fg_sdu : bitbuf; fg_rep : option tx_reporter }.
(** bs_frag.rs:19,22 *)
Definition MIN_RES_FRAG_START : nat := 32.
Definition MIN_FRAG : nat := 16.
(** bs_frag.rs:25-36 *)
Definition fg_new (r : mac_resource) (sdu : bitbuf) (rep : option tx_reporter) : res fragger :=
  p <- get_pos sdu ;; assert (p =? 0)%nat ;;; Ok (mk_fg r false false sdu rep).
(** assignment of [length_ind] and [fill_bits], bs_frag.rs:72-73, 102-103 *)
Definition mr_set_len (p : mac_resource) (len : N) (fill : bool) : mac_resource :=
  mk_mres fill (mr_pog p) (mr_encmode p) (mr_raf p) len (mr_addr p) (mr_el p) (mr_um p) (mr_pc p) (mr_sg p) (mr_ca p).

(** bs_frag.rs:42-122: returns (done, fragger, block) *)
Definition fg_resource_chunk (f : fragger) (blk : bitbuf) : res (bool * fragger * bitbuf) :=
  p <- get_pos (fg_sdu f) ;; assert (p =? 0)%nat ;;;
  assert (negb (fg_hdr f)) ;;;
  sdu_len <- get_len_remaining (fg_sdu f) ;;
  assert (negb (mr_is_null (fg_res f) && (0 <? sdu_len)%nat)) ;;;
  hdr_len <- mr_compute_header_len (fg_res f) ;;
  slot_cap <- get_len_remaining blk ;;
  let num_fill := fill_required (hdr_len + sdu_len) slot_cap in
  let total := (hdr_len + sdu_len + num_fill)%nat in
  if (total <=? slot_cap)%nat then
    assert ((total mod 8 =? 0)%nat || (total =? slot_cap)%nat) ;;;
    let r := mr_set_len (fg_res f) (to_u8 (N.of_nat (total / 8))) (0 <? num_fill)%nat in
    blk <- mr_write r blk ;;
    ' (blk, sdu) <- copy_bits sdu_len (fg_sdu f) blk ;;
    blk <- fill_write (Some num_fill) blk ;;
    Ok (true, mk_fg r true (fg_done f) sdu (fg_rep f), blk)
  else if (slot_cap <? MIN_RES_FRAG_START)%nat || (slot_cap <? hdr_len)%nat then
    Ok (false, f, blk)
  else
    let r := mr_set_len (fg_res f) 63 false in
    assert (num_fill =? 0)%nat ;;;
    blk <- mr_write r blk ;;
    ' (blk, sdu) <- copy_bits (slot_cap - hdr_len) (fg_sdu f) blk ;;
    blk <- fill_write None blk ;;
    Ok (false, mk_fg r true (fg_done f) sdu (fg_rep f), blk).

(** bs_frag.rs:164-167, 195-198 *)
Definition fg_pad (n : nat) (blk : bitbuf) : res bitbuf :=
  if (0 <? n)%nat then b <- write_bit 1 blk ;; write_zeroes (n - 1) b else Ok blk.

(** bs_frag.rs:129-202 *)
Definition fg_frag_or_end_chunk (f : fragger) (blk : bitbuf) : res (bool * fragger * bitbuf) :=
  assert (fg_hdr f) ;;;
  sdu_bits <- get_len_remaining (fg_sdu f) ;;
  hl <- mend_compute_hdr_len false false ;;
  let end_bits := (hl + sdu_bits)%nat in
  let end_bytes := ((end_bits + 7) / 8)%nat in
  slot_cap <- get_len_remaining blk ;;
  if (end_bytes * 8 <=? slot_cap)%nat then
    let num_fill := fill_required end_bits slot_cap in
    let pdu := mk_mend (0 <? num_fill)%nat 0 (to_u8 (N.of_nat end_bytes)) None None in
    blk <- mend_write pdu blk ;;
    ' (blk, sdu) <- copy_bits sdu_bits (fg_sdu f) blk ;;
    blk <- fg_pad num_fill blk ;;
    Ok (true, mk_fg (fg_res f) true (fg_done f) sdu (fg_rep f), blk)
  else if (slot_cap <? MIN_FRAG)%nat then Ok (false, f, blk)
  else
    let n := Nat.min (slot_cap - 4) sdu_bits in
    let num_fill := (slot_cap - 4 - n)%nat in
    blk <- mfrag_write (0 <? num_fill)%nat blk ;;
    ' (blk, sdu) <- copy_bits n (fg_sdu f) blk ;;
    blk <- fg_pad num_fill blk ;;
    Ok (false, mk_fg (fg_res f) true (fg_done f) sdu (fg_rep f), blk).

(** bs_frag.rs:208-231 *)
Definition fg_next_chunk (f : fragger) (blk : bitbuf) : res (bool * fragger * bitbuf) :=
  assert (negb (fg_done f)) ;;;
  w <- get_pos blk ;; r <- get_len_remaining blk ;;
  assert ((w mod 8 =? 0)%nat || (r =? 0)%nat) ;;;
  ' (dn, f, blk) <- (if fg_hdr f then fg_frag_or_end_chunk f blk else fg_resource_chunk f blk) ;;
  rep <- match fg_rep f with
         | Some t => if (dn : bool) then t <- tx_mark_transmitted t ;; Ok (Some t) else Ok (Some t)
         | None => Ok None
         end ;;
  Ok (dn, mk_fg (fg_res f) (fg_hdr f) dn (fg_sdu f) rep, blk).

(** bs_frag.rs:234-243 [Drop]: the reporter after the fragger has gone *)
Definition fg_drop (f : fragger) : res (option tx_reporter) :=
  match fg_rep f with
  | Some t =>
      if negb (fg_done f) then
        match tx_get_state t with TxPending => t <- tx_mark_discarded t ;; Ok (Some t) | _ => Ok (Some t) end
      else Ok (Some t)
  | None => Ok None
  end.

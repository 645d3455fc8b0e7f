(** Model of crates/tetra-entities/src/llc/components/fcs.rs: the frame check sequence of the basic
    link.  Words are u32; offsets are relative to the buffer window. *)
From Verif Require Import Base BitBuffer.
Open Scope N_scope.

Definition u32 (x : N) : N := N.land x 0xffffffff.
Definition FCS_POLY : N := 0x04C11DB7.
(** fcs.rs:19-24 one bit *)
Definition fcs_step (crc bit : N) : N :=
  let feedback := N.land (N.lxor bit (N.shiftr crc 31)) 1 in
  let crc := u32 (N.shiftl crc 1) in
  if negb (feedback =? 0) then N.lxor crc FCS_POLY else crc.
(** fcs.rs:17-25; [unwrap] of a peek past the end panics *)
Fixpoint fcs_loop (b : bitbuf) (n pos : nat) (crc : N) : res N :=
  match n with
  | O => Ok crc
  | S n =>
      ov <- peek_bits_startoffset b pos 1 ;;
      bit <- unwrap ov ;;
      fcs_loop b n (S pos) (fcs_step crc bit)
  end.
(** fcs.rs:5-28 [compute_fcs].  [crc <<= 32 - len] with [len = 0] shifts a 32-bit word by 32: an
    overflow panic in a debug build (a release build shifts by 0). *)
Definition compute_fcs (b : bitbuf) (start fin : nat) : res N :=
  assert (start <=? fin)%nat ;;;
  blen <- get_len b ;;
  assert (fin <=? blen)%nat ;;;
  let len := (fin - start)%nat in
  crc <- (if (len <? 32)%nat then if (len =? 0)%nat then Panic else Ok (u32 (N.shiftl 0xffffffff (N.of_nat (32 - len))))
          else Ok 0xffffffff) ;;
  crc <- fcs_loop b len start crc ;;
  Ok (N.lxor crc 0xffffffff).
(** fcs.rs:32-43 [check_fcs]; [get_len() - 32] cannot underflow, as 32 bits remain *)
Definition check_fcs (b : bitbuf) : res bool :=
  rem <- get_len_remaining b ;;
  if (rem <? 32)%nat then Ok false
  else
    p <- get_pos b ;;
    blen <- get_len b ;;
    computed <- compute_fcs b p (blen - 32) ;;
    ov <- peek_bits_startoffset b (blen - 32) 32 ;;
    extracted <- unwrap ov ;;
    Ok (computed =? extracted).

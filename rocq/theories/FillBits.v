(** Model of crates/tetra-entities/src/umac/subcomp/fillbits.rs *)
From Verif Require Import Base BitBuffer.
Open Scope N_scope.

(** fillbits.rs:8-21, the loop; [n] is [index + 1] *)
Fixpoint nfb_loop (b : bitbuf) (pos len n : nat) : res nat :=
  match n with
  | O => Ok 0%nat
  | S i =>
      if (pos <=? i)%nat then
        v <- peek_bits_startoffset b i 1 ;;
        bit <- unwrap v ;;
        if bit =? 0 then nfb_loop b pos len i else Ok (len - i)%nat
      else Ok 0%nat
  end.
(** fillbits.rs:5-22 [get_num_fill_bits] (the warning is not modelled) *)
Definition get_num_fill_bits (b : bitbuf) (pdu_len_bits : nat) : res nat :=
  pos <- get_pos b ;; nfb_loop b pos pdu_len_bits pdu_len_bits.
(** fillbits.rs:31-33 *)
Definition fill_bytealigned (len : nat) : nat := ((8 - len mod 8) mod 8)%nat.
(** fillbits.rs:39-52 *)
Definition fill_required (len cap_left : nat) : nat :=
  if (cap_left <=? len)%nat then 0%nat
  else let a := fill_bytealigned len in if (len + a <=? cap_left)%nat then a else (cap_left - len)%nat.
(** fillbits.rs:55-71 *)
Definition fill_write (num : option nat) (b : bitbuf) : res bitbuf :=
  match num with
  | Some n => if (0 <? n)%nat then b <- write_bit 1 b ;; write_zeroes (n - 1) b else Ok b
  | None =>
      r <- get_len_remaining b ;;
      if (0 <? r)%nat then b <- write_bit 1 b ;; r <- get_len_remaining b ;; write_zeroes r b else Ok b
  end.

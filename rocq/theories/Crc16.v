(** Model of crates/tetra-entities/src/lmac/components/crc16.rs. *)
From Verif Require Import Base.
Open Scope N_scope.

(** crc16.rs:2-3 *)
Definition GEN_POLY : N := 0x1021.
Definition TETRA_CRC_OK : N := 0x1d0f.
Definition u16 (x : N) : N := N.land x 0xffff.
(** crc16.rs:18-23, 34-39: one bit *)
Definition crc_step (crc bit : N) : N :=
  let crc := N.lxor crc (u16 (N.shiftl bit 15)) in
  if negb (N.land crc 0x8000 =? 0) then N.lxor (u16 (N.shiftl crc 1)) GEN_POLY else u16 (N.shiftl crc 1).
(** crc16.rs:6-10 *)
Definition get_nth_bit (input : list N) (bit : nat) : res N :=
  x <- unwrap (nth_error input (bit / 8)) ;; Ok (N.land (N.shiftr x (N.of_nat (7 - bit mod 8))) 1).
(** crc16.rs:15-26 *)
Fixpoint crc_bytes_loop (n i : nat) (crc : N) (input : list N) : res N :=
  match n with O => Ok crc | S n => bit <- get_nth_bit input i ;; crc_bytes_loop n (i + 1) (crc_step crc bit) input end.
Definition crc16_itut_bytes (crc : N) (input : list N) (number_bits : nat) : res N := crc_bytes_loop number_bits 0 crc input.
(** crc16.rs:31-42 *)
Definition crc16_itut_bits (crc : N) (input : list N) (number_bits : nat) : N :=
  fold_left (fun crc b => crc_step crc (N.land b 1)) (firstn number_bits input) crc.
(** crc16.rs:45-47 *)
Definition crc16_ccitt_bits (input : list N) (len : nat) : N := crc16_itut_bits 0xffff input len.

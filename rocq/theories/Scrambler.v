(** Model of crates/tetra-entities/src/lmac/components/scrambler.rs. *)
From Verif Require Import Base BitBuffer.
Open Scope N_scope.

(** scrambler.rs:7 *)
Definition SCRAMB_INIT : N := 3.
(** scrambler.rs:13-27: the taps, as right-shift distances *)
Definition lfsr_taps : list N := [0; 32 - 26; 32 - 23; 32 - 22; 32 - 16; 32 - 12; 32 - 11; 32 - 10; 32 - 8; 32 - 7; 32 - 5; 32 - 4; 32 - 2; 32 - 1].
(** scrambler.rs:11-30: returns (bit, new register); the register is a u32 *)
Definition next_lfsr_bit (x : N) : N * N :=
  let bit := N.land (fold_left (fun a s => N.lxor a (N.shiftr x s)) lfsr_taps 0) 1 in
  (bit, N.lor (N.shiftr x 1) (N.shiftl bit 31)).
(** scrambler.rs:33-37; [n] is the length of the output slice *)
Fixpoint scramb_get_bits (x : N) (n : nat) : list N :=
  match n with O => [] | S n => let '(bit, x) := next_lfsr_bit x in bit :: scramb_get_bits x n end.
(** scrambler.rs:54-57 *)
Fixpoint scramb_loop (n : nat) (x : N) (b : bitbuf) : res bitbuf :=
  match n with O => Ok b | S n => let '(bit, x) := next_lfsr_bit x in b <- xor_bit b bit ;; scramb_loop n x b end.
(** scrambler.rs:52-60 *)
Definition scramb_bits (code : N) (b : bitbuf) : res bitbuf :=
  n <- get_len_remaining b ;; b <- scramb_loop n code b ;; seek_rel (- Z.of_nat n) b.
(** scrambler.rs:63-70 (u16, u16, u8 arguments; left shifts drop bits above 31) *)
Definition u32 (x : N) : N := N.land x (2 ^ 32 - 1).
Definition scramb_get_init (mcc mnc colour : N) : N :=
  if colour =? 0 then 0
  else N.lor (u32 (N.shiftl (N.lor (N.lor colour (u32 (N.shiftl mnc 6))) (u32 (N.shiftl mcc 20))) 2)) SCRAMB_INIT.

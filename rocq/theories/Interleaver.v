(** Model of crates/tetra-entities/src/lmac/components/interleaver.rs and tch_reorder.rs. *)
From Verif Require Import Base ArrCopy.

(** interleaver.rs:1-3 (u32, wrapping product; [% 0] panics) *)
Definition block_interl_func (k a i : N) : res N :=
  assert (negb (k =? 0)%N) ;;; Ok (1 + ((a * i) mod 2 ^ 32) mod k)%N.
(** the index pairs of the loops, [i] from 1 to [k] *)
Fixpoint interl_pairs (k a : nat) (swap : bool) (is : list nat) : res (list (nat * nat)) :=
  match is with
  | [] => Ok []
  | i :: is =>
      j <- block_interl_func (N.of_nat k) (N.of_nat a) (N.of_nat i) ;;
      ps <- interl_pairs k a swap is ;;
      let j := (N.to_nat j - 1)%nat in
      Ok ((if swap then ((i - 1)%nat, j) else (j, (i - 1)%nat)) :: ps)
  end.
(** interleaver.rs:5-11 *)
Definition block_interleave {A} (k a : nat) (input output : list A) : res (list A) :=
  assert ((k <=? length input) && (k <=? length output))%nat ;;;
  ps <- interl_pairs k a false (seq 1 k) ;; copy_idx ps input output.
(** interleaver.rs:13-19 *)
Definition block_deinterleave {A} (k a : nat) (input output : list A) : res (list A) :=
  assert ((k <=? length input) && (k <=? length output))%nat ;;;
  ps <- interl_pairs k a true (seq 1 k) ;; copy_idx ps input output.
(** interleaver.rs:24-28, 34-38: the loops over columns and lines *)
Definition matrix_pairs (lines columns : nat) (swap : bool) : list (nat * nat) :=
  flat_map (fun i => map (fun j => let p := (i * lines + j)%nat in let q := (j * columns + i)%nat in if swap then (q, p) else (p, q)) (seq 0 lines)) (seq 0 columns).
(** interleaver.rs:21-29 (overflow of the product, which needs more than 2^64 elements, is not modelled) *)
Definition matrix_interleave {A} (lines columns : nat) (input output : list A) : res (list A) :=
  assert ((lines * columns <=? length input) && (lines * columns <=? length output))%nat ;;;
  copy_idx (matrix_pairs lines columns false) input output.
(** interleaver.rs:31-39 *)
Definition matrix_deinterleave {A} (lines columns : nat) (input output : list A) : res (list A) :=
  assert ((lines * columns <=? length input) && (lines * columns <=? length output))%nat ;;;
  copy_idx (matrix_pairs lines columns true) input output.

(** tch_reorder.rs:8-25 *)
Definition NUM_ACELP_BITS : nat := 137.
Definition CLASS0_POS : list nat :=
  [35; 36; 37; 38; 39; 40; 41; 42; 43; 47; 48; 56; 61; 62; 63; 64; 65; 66; 67; 68; 69; 70; 74; 75; 83; 88; 89; 90; 91; 92; 93; 94; 95; 96;
   97; 101; 102; 110; 115; 116; 117; 118; 119; 120; 121; 122; 123; 124; 128; 129; 137].
Definition CLASS1_POS : list nat :=
  [58; 85; 112; 54; 81; 108; 135; 50; 77; 104; 131; 45; 72; 99; 126; 55; 82; 109; 136; 5; 13; 34; 8; 16; 17; 22; 23; 24; 25; 26; 6; 14; 7;
   15; 60; 87; 114; 46; 73; 100; 127; 44; 71; 98; 125; 33; 49; 76; 103; 130; 59; 86; 113; 57; 84; 111].
Definition CLASS2_POS : list nat :=
  [18; 19; 20; 21; 31; 32; 53; 80; 107; 134; 1; 2; 3; 4; 9; 10; 11; 12; 27; 28; 29; 30; 52; 79; 106; 133; 51; 78; 105; 132].
(** one of the three loops: (codec index, channel index) pairs *)
Fixpoint reorder_loop (pos : list nat) (idx : nat) : list (nat * nat) :=
  match pos with
  | [] => []
  | p :: pos => ((0 * NUM_ACELP_BITS + (p - 1))%nat, idx) :: ((1 * NUM_ACELP_BITS + (p - 1))%nat, (idx + 1)%nat) :: reorder_loop pos (idx + 2)
  end.
Definition reorder_pairs : list (nat * nat) :=
  reorder_loop CLASS0_POS 0 ++ reorder_loop CLASS1_POS (2 * length CLASS0_POS) ++ reorder_loop CLASS2_POS (2 * (length CLASS0_POS + length CLASS1_POS)).
(** tch_reorder.rs:28-58 *)
Definition codec_to_channel (codec : list N) : res (list N) :=
  copy_idx (map (fun p => (snd p, fst p)) reorder_pairs) codec (repeat 0%N 274).
(** tch_reorder.rs:61-91 *)
Definition channel_to_codec (channel : list N) : res (list N) :=
  copy_idx reorder_pairs channel (repeat 0%N 274).

(** Model of crates/tetra-entities/src/lmac/components/convenc.rs.  Bits are u8 values; [mother_memcmp] and
    [encode_rate1_3] are only used by tests and not modelled. *)
From Verif Require Import Base ArrCopy.
Open Scope N_scope.

(** convenc.rs:18-27: delayed[0..3] *)
Definition cstate := (N * N * N * N)%type.
Definition cstate_new : cstate := (0, 0, 0, 0).
(** convenc.rs:38-62 *)
Definition cch_encode_bit (s : cstate) (bit : N) : list N * cstate :=
  let '(d0, d1, d2, d3) := s in
  let g1 := N.lxor (N.lxor bit d0) d3 in
  let g2 := N.lxor (N.lxor (N.lxor bit d1) d2) d3 in
  let g3 := N.lxor (N.lxor (N.lxor bit d0) d1) d3 in
  let g4 := N.lxor (N.lxor (N.lxor bit d0) d2) d3 in
  ([g1; g2; g3; g4], (bit, d0, d1, d2)).
(** convenc.rs:110-132 *)
Definition speech_encode_bit (s : cstate) (bit : N) : list N * cstate :=
  let '(d0, d1, d2, d3) := s in
  let g1 := N.lxor (N.lxor (N.lxor (N.lxor bit d0) d1) d2) d3 in
  let g2 := N.lxor (N.lxor (N.lxor bit d0) d2) d3 in
  let g3 := N.lxor (N.lxor bit d1) d3 in
  ([g1; g2; g3], (bit, d0, d1, d2)).
(** convenc.rs:69-73, 139-144: the outputs of the loop *)
Fixpoint enc_loop (f : cstate -> N -> list N * cstate) (s : cstate) (input : list N) : list N * cstate :=
  match input with
  | [] => ([], s)
  | bit :: r => let '(o, s) := f s bit in let '(os, s) := enc_loop f s r in (o ++ os, s)
  end.
(** convenc.rs:67-74: writes the first [4 * input.len()] entries of [output] *)
Definition cch_encode (s : cstate) (input output : list N) : res (list N * cstate) :=
  assert (length input * 4 <=? length output)%nat ;;;
  let '(os, s) := enc_loop cch_encode_bit s input in out <- blit output 0 os ;; Ok (out, s).
(** convenc.rs:136-145 *)
Definition speech_encode (s : cstate) (input output : list N) : res (list N * cstate) :=
  assert (length input * 3 <=? length output)%nat ;;;
  let '(os, s) := enc_loop speech_encode_bit s input in out <- blit output 0 os ;; Ok (out, s).

(** convenc.rs:6-14 *)
Inductive punct_mode := Rate2_3 | Rate1_3 | Rate292_432 | Rate148_432 | Rate112_168 | Rate72_162 | Rate38_80.
(** convenc.rs:167-241: (p, t, period, i_func) *)
Definition get_puncturer (pu : punct_mode) : list nat * nat * nat * (nat -> nat) :=
  match pu with
  | Rate2_3 => ([0; 1; 2; 5], 3, 8, fun j => j)
  | Rate1_3 => ([0; 1; 2; 3; 5; 6; 7], 6, 8, fun j => j)
  | Rate292_432 => ([0; 1; 2; 5], 3, 8, fun j => j + (j - 1) / 65)
  | Rate148_432 => ([0; 1; 2; 3; 5; 6; 7], 6, 8, fun j => j + (j - 1) / 35)
  | Rate112_168 => ([0; 1; 2; 4], 3, 6, fun j => j)
  | Rate72_162 => ([0; 1; 2; 3; 4; 5; 7; 8; 10; 11], 9, 12, fun j => j)
  | Rate38_80 => ([0; 1; 2; 3; 4; 5; 7; 8; 10; 11; 13; 14; 16; 17; 19; 20; 22; 23], 17, 24, fun j => j)
  end%nat.
(** convenc.rs:251-254, 268-271: the mother-code index (0-based) of the [j]-th (1-based) kept bit *)
Definition punct_index (pu : punct_mode) (j : nat) : nat :=
  let '(p, t, per, f) := get_puncturer pu in
  let i := f j in let blk := ((i - 1) / t)%nat in let idx := (i - t * blk)%nat in
  (per * blk + nth idx p 0 - 1)%nat.
(** convenc.rs:244-257 ([p[idx]] is always in range: [1 <= idx <= t]; [k - 1] never underflows as [p[idx] >= 1]) *)
Definition get_punctured_rate {A} (pu : punct_mode) (input output : list A) : res (list A) :=
  copy_idx (map (fun j => ((j - 1)%nat, punct_index pu j)) (seq 1 (length output))) input output.
(** convenc.rs:260-275 *)
Definition rcpc_depunct {A} (pu : punct_mode) (input : list A) (len : nat) (output : list A) : res (list A) :=
  copy_idx (map (fun j => (punct_index pu j, (j - 1)%nat)) (seq 1 len)) input output.

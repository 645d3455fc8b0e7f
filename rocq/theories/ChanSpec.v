(** Block sizes of the control channels (EN 300 392-2 clause 8.3.1): message bits and bits on air. *)
From Verif Require Import Base ErrorControl.
Definition control_sizes (c : lchan) : option (nat * nat) :=
  match c with
  | Bsch => Some (60, 120) | SchHd | Stch | Bnch => Some (124, 216) | SchF => Some (268, 432) | SchHu => Some (92, 168)
  | _ => None
  end%nat.
(** Interleaving parameters (size, step) of the control channels, clause 8.2.4.1 *)
Definition block_interleavers : list (nat * nat) := [(120, 11); (216, 101); (432, 103); (168, 13)]%nat.

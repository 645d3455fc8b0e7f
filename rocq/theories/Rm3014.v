(** Model of crates/tetra-entities/src/lmac/components/rm3014.rs. *)
From Verif Require Import Base.
Open Scope N_scope.

(** rm3014.rs:2-17 *)
Definition RM_30_14_GEN : list (list N) := [
  [1; 0; 0; 1; 1; 0; 1; 1; 0; 1; 1; 0; 0; 0; 0; 0];
  [0; 0; 1; 0; 1; 1; 0; 1; 1; 1; 1; 0; 0; 0; 0; 0];
  [1; 1; 1; 1; 1; 1; 0; 0; 0; 0; 1; 0; 0; 0; 0; 0];
  [1; 1; 1; 0; 0; 0; 0; 0; 0; 0; 1; 1; 1; 1; 0; 0];
  [1; 0; 0; 1; 1; 0; 0; 0; 0; 0; 1; 1; 1; 0; 1; 0];
  [0; 1; 0; 1; 0; 1; 0; 0; 0; 0; 1; 1; 0; 1; 1; 0];
  [0; 0; 1; 0; 1; 1; 0; 0; 0; 0; 1; 0; 1; 1; 1; 0];
  [1; 1; 1; 1; 1; 1; 1; 1; 1; 1; 0; 1; 1; 1; 1; 1];
  [1; 0; 0; 0; 0; 0; 1; 1; 0; 0; 1; 1; 1; 0; 0; 1];
  [0; 1; 0; 0; 0; 0; 1; 0; 1; 0; 1; 1; 0; 1; 0; 1];
  [0; 0; 1; 0; 0; 0; 0; 1; 1; 0; 1; 0; 1; 1; 0; 1];
  [0; 0; 0; 1; 0; 0; 1; 0; 0; 1; 1; 1; 0; 0; 1; 1];
  [0; 0; 0; 0; 1; 0; 0; 1; 0; 1; 1; 0; 1; 0; 1; 1];
  [0; 0; 0; 0; 0; 1; 0; 0; 1; 1; 1; 0; 0; 1; 1; 1] ].
(** rm3014.rs:20-23 *)
Definition RM_30_14_ROWS_PRECOMPUTED : list N := [
  0x20009b60; 0x10002de0; 0x0800fc20; 0x0400e03c; 0x0200983a; 0x01005436; 0x00802c2e; 0x0040ffdf; 0x00208339; 0x001042b5; 0x000821ad;
  0x00041273; 0x0002096b; 0x000104e7 ].
(** rm3014.rs:26-36 *)
Definition rm3014_compute (input : N) : N :=
  fold_left (fun val i => if N.land (N.shiftr input (N.of_nat (13 - i))) 1 =? 1 then N.lxor val (nth i RM_30_14_ROWS_PRECOMPUTED 0) else val) (seq 0 14) 0.
(** rm3014.rs:40-42 *)
Definition rm3014_decode_naive (codeword : N) : N := N.land (N.shiftr codeword 16) 0xffff.
(** [RM_30_14_GEN[i][j]] *)
Definition rm_gen (i j : nat) : N := nth j (nth i RM_30_14_GEN []) 0.
(** rm3014.rs:45-66 *)
Definition col_syndrome (k : nat) : N :=
  fold_left (fun syn j => N.lor syn (N.shiftl (if (k <? 14)%nat then rm_gen k j else if (k - 14 =? j)%nat then 1 else 0) (N.of_nat j))) (seq 0 16) 0.
Definition COL_SYNDROMES : list N := map col_syndrome (seq 0 30).
(** rm3014.rs:73-80: bit [j] of the syndrome *)
Definition syn_bit (codeword : N) (j : nat) : N :=
  N.lxor (fold_left (fun sum i => N.lxor sum (N.land (N.land (N.shiftr codeword (N.of_nat (29 - i))) 1) (rm_gen i j))) (seq 0 14) 0)
         (N.land (N.shiftr codeword (N.of_nat (29 - (14 + j)))) 1).
(** rm3014.rs:70-87 *)
Definition compute_syndrome (codeword : N) : N :=
  fold_left (fun syn j => if negb (N.land (syn_bit codeword j) 1 =? 0) then N.lor syn (N.shiftl 1 (N.of_nat j)) else syn) (seq 0 16) 0.
(** rm3014.rs:93-98: the first column whose syndrome matches *)
Fixpoint find_col (syn : N) (k : nat) (cols : list N) (codeword : N) : N :=
  match cols with
  | [] => codeword
  | c :: cols => if c =? syn then N.lxor codeword (N.shiftl 1 (N.of_nat (29 - k))) else find_col syn (k + 1) cols codeword
  end.
(** rm3014.rs:91-100: given the syndrome *)
Definition decode_with (syn codeword : N) : N :=
  let corrected := if negb (syn =? 0) then find_col syn 0 COL_SYNDROMES codeword else codeword in
  N.land (N.shiftr corrected 16) 0xffff.
(** rm3014.rs:89-101 *)
Definition rm3014_decode_limited_ecc (codeword : N) : N := decode_with (compute_syndrome codeword) codeword.

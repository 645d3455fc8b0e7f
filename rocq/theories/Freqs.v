(** Model of crates/tetra-core/src/freqs.rs.  Numbers are Z; [as u32] is reduction modulo 2^32 and
    u32 subtraction/addition out of range panics (debug profile). *)
From Coq Require Import ZArith.
From Verif Require Import Base.
Local Open Scope Z_scope.

Definition N16 : list (option Z) := repeat None 16.
(** freqs.rs:4-119 [TETRA_DUPLEX_SPACING] *)
Definition duplex_table : list (list (option Z)) :=
  [ [None; Some 1600; Some 10000; Some 10000; Some 10000; Some 10000; Some 10000; None; None; None; None; None; None; None; None; None];
    [None; Some 4500; None; Some 36000; Some 7000; None; None; None; Some 45000; Some 45000; None; None; None; None; None; None];
    repeat (Some 0) 16;
    [None; None; None; Some 8000; Some 8000; None; None; None; Some 18000; Some 18000; None; None; None; None; None; None];
    [None; None; None; Some 18000; Some 5000; None; Some 30000; Some 30000; None; Some 39000; None; None; None; None; None; None];
    [None; None; None; None; Some 9500; None; None; None; None; None; None; None; None; None; None; None];
    N16; N16 ].

(** freqs.rs:121-136 [FreqInfo] *)
Record freq_info := mk_freq {
  fi_band : Z; fi_carrier : Z; fi_offset : Z; fi_duplex_id : Z; fi_duplex_val : Z; fi_reverse : bool }.

(** freqs.rs:139-147, 149-157 *)
Definition freq_offset_id_to_hz (i : Z) : option Z :=
  if i =? 0 then Some 0 else if i =? 1 then Some 6250 else if i =? 2 then Some (-6250) else if i =? 3 then Some 12500 else None.
Definition freq_offset_hz_to_id (hz : Z) : option Z :=
  if hz =? 0 then Some 0 else if hz =? 6250 then Some 1 else if hz =? -6250 then Some 2 else if hz =? 12500 then Some 3 else None.

(** freqs.rs:195-199 [get_default_duplex_spacing]; the array accesses panic out of range *)
Definition get_default_duplex_spacing (band duplex : Z) : res (option Z) :=
  assert (duplex <? 8) ;;;
  row <- unwrap (nth_error duplex_table (Z.to_nat duplex)) ;;
  v <- unwrap (nth_error row (Z.to_nat band)) ;;
  Ok (option_map (fun v => v * 1000) v).

(** freqs.rs:161-191 [from_components] *)
Definition freq_from_components (band carrier offset : Z) (reverse : bool) (duplex : Z) (custom : option Z) : res freq_info :=
  assert (band <=? 8) ;;;
  assert (carrier <? 4000) ;;;
  assert ((offset =? 0) || (offset =? 6250) || (offset =? -6250) || (offset =? 12500)) ;;;
  sp <- match custom with
        | Some c => Ok c
        | None => v <- get_default_duplex_spacing band duplex ;; ok_or v EInvalidValue
        end ;;
  Ok (mk_freq band carrier offset duplex sp reverse).

(** [as u32] from i32 *)
Definition as_u32 (z : Z) : Z := z mod 4294967296.
Definition u32_ok (z : Z) : bool := (0 <=? z) && (z <? 4294967296).

(** freqs.rs:202-216 [get_freqs]; the i32 sums cannot overflow for accepted values (at most 912.5 MHz) *)
Definition get_freqs (f : freq_info) : res (Z * Z) :=
  let dl := as_u32 (100000000 * fi_band f + fi_carrier f * 25000 + fi_offset f) in
  let ul := if negb (fi_reverse f) then dl - fi_duplex_val f else dl + fi_duplex_val f in
  assert (u32_ok ul) ;;; Ok (dl, ul).

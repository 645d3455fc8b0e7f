(** Model of crates/tetra-entities/src/mle/components/network_time.rs:22-46
    [encode_tetra_network_time_inner].  The calendar and time-zone calculations are [chrono]'s: the
    model takes the year, the seconds since the start of that year and the offset of local time from
    UTC in seconds, which the code obtains from it (24-26, 30-31).  Arithmetic is on 64-bit words. *)
From Verif Require Import Base.
Open Scope Z_scope.

Definition encode_network_time (year secs_since_year_start offset_secs : Z) : Z :=
  (* 27: [(secs / 2) as u64 & 0xFF_FFFF]; [/] truncates towards zero *)
  let utc_time := Z.land (Z.modulo (Z.quot secs_since_year_start 2) (2 ^ 64)) 16777215 in
  (* 32-33 *)
  let offset_sign := if offset_secs <? 0 then 1 else 0 in
  let offset_magnitude := Z.land (Z.abs offset_secs / 900) 63 in
  (* 36: [(year - 2000) as u64 & 0x3F] *)
  let year_field := Z.land (Z.modulo (year - 2000) (2 ^ 64)) 63 in
  (* 39-43 *)
  let reserved := 2047 in
  Z.lor (Z.lor (Z.lor (Z.lor (Z.shiftl utc_time 24) (Z.shiftl offset_sign 23)) (Z.shiftl offset_magnitude 17))
           (Z.shiftl year_field 11)) reserved.

(** The 48-bit network time element of EN 300 392-2, clause 18.5.24, as a receiver reads it: fields
    from the most significant bit, 24 bits of UTC time in units of 2 s from the start of the year, a
    sign bit and 6 bits of local offset in units of 15 minutes, 6 bits of year from 2000, 11 bits set. *)
From Verif Require Import Base.
Open Scope Z_scope.

Record network_time := mk_nt { nt_utc : Z; nt_negative : bool; nt_offset : Z; nt_year : Z; nt_reserved : Z }.
(** [field v pos len]: the [len] bits of [v] starting [pos] bits from the top of the 48. *)
Definition field (v : Z) (pos len : Z) : Z := v / 2 ^ (48 - pos - len) mod 2 ^ len.
Definition read_network_time (v : Z) : network_time :=
  mk_nt (field v 0 24) (field v 24 1 =? 1) (field v 25 6) (field v 31 6) (field v 37 11).

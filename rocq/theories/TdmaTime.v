(** Model of crates/tetra-core/src/tdma_time.rs.
    i32/u8/u16 fields are [Z]; the i32 additions cannot overflow for the magnitudes shown in
    [TdmaTimeProofs.add_no_overflow] (an overflow would be a debug-build panic). *)
From Verif Require Import Base.
Open Scope Z_scope.

(** tdma_time.rs:30-40 [struct TdmaTime] *)
Record tdma_time := mk_time { tm_t : Z; tm_f : Z; tm_m : Z; tm_h : Z }.

(** tdma_time.rs:42-47 [Default] *)
Definition time_default : tdma_time := mk_time 1 1 1 0.

(** tdma_time.rs:6-29 macros hyperframes!, multiframes!, frames! *)
Definition hyperframes (h : Z) : Z := h * 60 * 18 * 4.
Definition multiframes (m : Z) : Z := m * 18 * 4.
Definition frames (f : Z) : Z := f * 4.

(** tdma_time.rs:50 *)
Definition TIME_INT_WRAP : Z := 4 * 18 * 60 * 65536.

(** tdma_time.rs:55-60: the two loops of [time_int_diff]; i32 differences need at most 8 rounds,
    running out of fuel is a panic value. *)
Fixpoint diff_up (fuel : nat) (d : Z) : res Z :=
  if d <? - TIME_INT_WRAP / 2 then
    match fuel with O => Panic | S f => diff_up f (d + TIME_INT_WRAP) end
  else Ok d.
Fixpoint diff_down (fuel : nat) (d : Z) : res Z :=
  if TIME_INT_WRAP / 2 <=? d then
    match fuel with O => Panic | S f => diff_down f (d - TIME_INT_WRAP) end
  else Ok d.

Definition i32_ok (z : Z) : bool := (- 2^31 <=? z) && (z <? 2^31).

(** tdma_time.rs:53-62 [time_int_diff] *)
Definition time_int_diff (a b : Z) : res Z :=
  assert (i32_ok (a - b)) ;;;
  d <- diff_up 8 (a - b) ;;
  diff_down 8 d.

(** tdma_time.rs:65-67 [is_valid] *)
Definition is_valid (x : tdma_time) : bool :=
  (1 <=? tm_t x) && (tm_t x <=? 4) && (1 <=? tm_f x) && (tm_f x <=? 18) && (1 <=? tm_m x) && (tm_m x <=? 60).

(** tdma_time.rs:69-71 [to_int] *)
Definition to_int (x : tdma_time) : Z :=
  (tm_t x - 1) + ((tm_f x - 1) * 4) + ((tm_m x - 1) * 4 * 18) + (tm_h x * 4 * 18 * 60).

(** tdma_time.rs:75-83 [from_int]; [as u16] truncates the hyperframe.  [Z.div]/[Z.modulo] with a
    positive divisor are div_euclid/rem_euclid. *)
Definition from_int (n : Z) : tdma_time :=
  mk_time (n mod 4 + 1) ((n / 4) mod 18 + 1) ((n / (4 * 18)) mod 60 + 1) ((n / (4 * 18 * 60)) mod 65536).

(** tdma_time.rs:86-88 [add_timeslots] *)
Definition add_timeslots (x : tdma_time) (n : Z) : tdma_time := from_int (to_int x + n).

(** tdma_time.rs:91-93 [diff] *)
Definition tdiff (a b : tdma_time) : res Z := time_int_diff (to_int a) (to_int b).

(** tdma_time.rs:97-99 [age] *)
Definition age (x now : tdma_time) : res Z := tdiff now x.

(** tdma_time.rs:104-107 [forward_to_timeslot] (u8 arithmetic; [ts + 4 - t] >= 0 for valid t) *)
Definition forward_to_timeslot (x : tdma_time) (ts : Z) : tdma_time :=
  add_timeslots x ((ts + 4 - tm_t x) mod 4).

(** tdma_time.rs:110-112 [is_mandatory_bsch] *)
Definition is_mandatory_bsch (x : tdma_time) : bool := (tm_f x =? 18) && (tm_t x =? 4 - ((tm_m x + 1) mod 4)).
(** tdma_time.rs:115-117 [is_mandatory_bnch] *)
Definition is_mandatory_bnch (x : tdma_time) : bool := (tm_f x =? 18) && (tm_t x =? 4 - ((tm_m x + 3) mod 4)).
(** tdma_time.rs:120-123 [is_mandatory_clch] *)
Definition is_mandatory_clch (x : tdma_time) : bool := (tm_f x =? 18) && (tm_t x =? 4 - ((tm_m x + 1) mod 4)).

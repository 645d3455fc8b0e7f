(** Model of the uplink part of crates/tetra-entities/src/umac/subcomp/bs_sched.rs
    (reservations of uplink subslots).  The current downlink time is a parameter; log messages are not modelled. *)
From Verif Require Import Base MacFields TdmaTime.
Open Scope N_scope.

(** bs_sched.rs:35 *)
Definition MACSCHED_NUM_FRAMES : nat := 18.
(** bs_sched.rs:53-57: the owners of the two subslots *)
Definition ts_sched := (option N * option N)%type.
(** bs_sched.rs:69, 108-114: [ulsched[timeslot][frame index]] *)
Definition ulsched := list (list ts_sched).
Definition ul_empty : ulsched := repeat (repeat (None, None) MACSCHED_NUM_FRAMES) 4.

(** bs_sched.rs:220-223 ([usize] subtraction panics below zero) *)
Definition ul_index (x : tdma_time) : res nat :=
  assert (1 <=? tm_f x)%Z ;;; assert (1 <=? tm_m x)%Z ;;;
  Ok (Z.to_nat (((tm_f x - 1) + (tm_m x - 1) * 18 + tm_h x * 18 * 60) mod 18)).
(** [self.ulsched[t - 1][index]] *)
Definition ul_cell (s : ulsched) (t : Z) (i : nat) : res ts_sched :=
  assert (1 <=? t)%Z ;;; row <- unwrap (nth_error s (Z.to_nat (t - 1))) ;; unwrap (nth_error row i).
Definition ul_set (s : ulsched) (t : Z) (i : nat) (c : ts_sched) : ulsched :=
  upd s (Z.to_nat (t - 1)) (upd (nth (Z.to_nat (t - 1)) s []) i c).

Definition isnone {A} (x : option A) : bool := match x with None => true | _ => false end.
(** bs_sched.rs:264 *)
Definition cell_free (half : bool) (c : ts_sched) : bool :=
  (isnone (fst c) && isnone (snd c)) || (half && (isnone (fst c) || isnone (snd c))).

(** bs_sched.rs:238-278, the loop; [n] rounds are left, [grants] is in order *)
Fixpoint find_loop (s : ulsched) (first : tdma_time) (t : Z) (num : nat) (half : bool) (n dist skipped : nat) (grants : list tdma_time)
  : res (option (nat * list tdma_time)) :=
  match n with
  | O => Ok None
  | S n =>
      let cand := add_timeslots first (Z.of_nat dist * 4) in
      assert (tm_t cand =? tm_t first)%Z ;;;
      if is_mandatory_clch cand then find_loop s first t num half n (dist + 1) skipped grants
      else
        i <- ul_index cand ;; c <- ul_cell s t i ;;
        let '(skipped, grants) := if cell_free half c then (skipped, grants ++ [cand]) else ((skipped + (length grants + 1))%nat, []) in
        if (length grants =? num)%nat then Ok (Some (skipped, grants))
        else find_loop s first t num half n (dist + 1) skipped grants
  end.
(** bs_sched.rs:231-282 *)
Definition ul_find_grant_opportunity (s : ulsched) (cur : tdma_time) (t : Z) (num : nat) (half : bool) : res (option (nat * list tdma_time)) :=
  let first := forward_to_timeslot cur t in
  assert (negb half || (num =? 1)%nat) ;;;
  find_loop s first t num half (MACSCHED_NUM_FRAMES - 1) 0 0 [].

(** bs_sched.rs:286-313: full slots *)
Fixpoint reserve_full (ssi : N) (ts : list tdma_time) (s : ulsched) : res ulsched :=
  match ts with
  | [] => Ok s
  | x :: r =>
      i <- ul_index x ;; c <- ul_cell s (tm_t x) i ;;
      assert (isnone (fst c)) ;;; assert (isnone (snd c)) ;;;
      reserve_full ssi r (ul_set s (tm_t x) i (Some ssi, Some ssi))
  end.
(** bs_sched.rs:286-313: returns which subslot was taken (0: full slots) *)
Definition ul_reserve_grant (ssi : N) (ts : list tdma_time) (half : bool) (s : ulsched) : res (N * ulsched) :=
  match ts with
  | [] => Panic
  | x :: r =>
      assert (negb half || match r with [] => true | _ => false end) ;;;
      if half then
        i <- ul_index x ;; c <- ul_cell s (tm_t x) i ;;
        if isnone (fst c) then Ok (1, ul_set s (tm_t x) i (Some ssi, snd c))
        else assert (isnone (snd c)) ;;; Ok (2, ul_set s (tm_t x) i (fst c, Some ssi))
      else s <- reserve_full ssi ts s ;; Ok (0, s)
  end.

(** bs_sched.rs:317-368; [req] is the raw reservation requirement (0 = one subslot) *)
Definition ul_process_cap_req (cur : tdma_time) (t : Z) (ssi : N) (req : N) (s : ulsched) : res (option slotgrant * ulsched) :=
  let half := req =? 0 in
  cap <- (if half then Ok 1 else resreq_to_req_slotcount req) ;;
  op <- ul_find_grant_opportunity s cur t (N.to_nat cap) half ;;
  match op with
  | Some (skips, ts) =>
      ' (sub, s) <- ul_reserve_grant ssi ts half s ;;
      ca <- (if half then (if sub =? 1 then Ok 0 else if sub =? 2 then Ok 15 else Panic) else cap_from_req_slotcount cap) ;;
      let gd := if (skips =? 0)%nat then GdNext else GdDelay (N.of_nat skips) in
      Ok (Some (mk_sg ca gd), s)
  | None => Ok (None, s)
  end.

(** PhyBlockNum, as far as it is used here *)
Inductive blocknum := Block1 | Block2 | BothBlocks | BlockUndef.
Definition opt_eqb (a b : option N) : bool := match a, b with Some x, Some y => x =? y | None, None => true | _, _ => false end.
(** bs_sched.rs:373-387 *)
Definition ul_get_slot_owner (x : tdma_time) (b : blocknum) (s : ulsched) : res (option N) :=
  i <- ul_index x ;; c <- ul_cell s (tm_t x) i ;;
  match b with
  | Block1 => Ok (fst c)
  | Block2 => Ok (snd c)
  | BothBlocks => if negb (opt_eqb (fst c) (snd c)) then Ok None else Ok (fst c)
  | BlockUndef => Panic
  end.
(** bs_sched.rs:389-397, result as a raw usage: 0 common only, 1 common and assigned, 2 assigned only *)
Definition ul_get_usage (x : tdma_time) (s : ulsched) : res N :=
  i <- ul_index x ;; c <- ul_cell s (tm_t x) i ;;
  match c with (Some _, Some _) => Ok 2 | (Some _, None) => Ok 1 | (None, None) => Ok 0 | (None, Some _) => Panic end.
(** bs_sched.rs:1041-1044, with [ts] the slot being built (current time + 1) *)
Definition ul_clear (ts : tdma_time) (s : ulsched) : res ulsched :=
  i <- ul_index (add_timeslots ts (-4)) ;; ul_cell s (tm_t ts) i ;;; Ok (ul_set s (tm_t ts) i (None, None)).

(** Model of crates/tetra-entities/src/lmac/components/viterbi.rs.  [N] is the number of polynomials given. *)
From Verif Require Import Base ArrCopy.
Open Scope Z_scope.

(** viterbi.rs:19-21 *)
Definition K : nat := 5.
Definition NUM_STATES : nat := 16.
(** i16 and i8 arithmetic: overflow panics (debug build) *)
Definition i16 (x : Z) : res Z := assert ((-32768 <=? x) && (x <=? 32767)) ;;; Ok x.
Definition i8 (x : Z) : res Z := assert ((-128 <=? x) && (x <=? 127)) ;;; Ok x.
(** viterbi.rs:46-57: expected output (+1/-1) of one polynomial in a state *)
Definition expected_bit (poly : list bool) (state : nat) : Z :=
  if fold_left (fun out bit_i => if Nat.testbit state (K - 2 - bit_i) && nth bit_i poly false then negb out else out) (seq 0 (K - 1)) false
  then 1 else -1.
(** viterbi.rs:40-61 *)
Definition expected_0 (polys : list (list bool)) : list (list Z) := map (fun poly => map (expected_bit poly) (seq 0 NUM_STATES)) polys.

Fixpoint zipM {A B C} (f : A -> B -> res C) (l : list A) (m : list B) : res (list C) :=
  match l, m with
  | a :: l, b :: m => c <- f a b ;; r <- zipM f l m ;; Ok (c :: r)
  | _, _ => Ok []
  end.
(** viterbi.rs:79-87 *)
Fixpoint branch_metrics (received : list Z) (expected : list (list Z)) (bm : list Z) : res (list Z) :=
  match received, expected with
  | r :: received, e :: expected =>
      bm <- zipM (fun b x => p <- i8 (r * x) ;; i16 (b - p)) bm e ;; branch_metrics received expected bm
  | _, _ => Ok bm
  end.
(** viterbi.rs:92-115: (metric, decision) of each state *)
Fixpoint new_metrics (metrics bm : list Z) (states : list nat) : res (list (Z * bool)) :=
  match states with
  | [] => Ok []
  | state :: states =>
      let p0 := (state * 2 mod NUM_STATES)%nat in
      let p1 := (p0 + 1)%nat in
      m0 <- i16 (nth p0 metrics 0 + nth state bm 0) ;;
      m1 <- i16 (nth p1 metrics 0 - nth state bm 0) ;;
      r <- new_metrics metrics bm states ;;
      Ok ((if m1 <? m0 then (m1, true) else (m0, false)) :: r)
  end.
(** viterbi.rs:77-117: [rounds] chunks are processed; the decision bitmap (u16) is a list of 16 booleans *)
Fixpoint decode_loop (n : nat) (exp : list (list Z)) (rounds : nat) (received : list Z) (metrics : list Z) (dec : list (list bool)) : res (list (list bool)) :=
  match rounds with
  | O => Ok dec
  | S rounds =>
      bm <- branch_metrics (firstn n received) exp (repeat 0 NUM_STATES) ;;
      r <- new_metrics metrics bm (seq 0 NUM_STATES) ;;
      decode_loop n exp rounds (skipn n received) (map fst r) (map snd r :: dec)
  end.
(** viterbi.rs:122-128: over the decisions, newest first; the bits come out last first *)
Fixpoint traceback (dec : list (list bool)) (best : nat) (acc : list N) : list N :=
  match dec with
  | [] => acc
  | d :: dec => traceback dec (best * 2 mod NUM_STATES + (if nth best d false then 1 else 0))%nat
                          ((if Nat.testbit best (K - 2) then 1%N else 0%N) :: acc)
  end.
(** viterbi.rs:74-75 *)
Definition init_metrics : list Z := 0 :: repeat 16383 (NUM_STATES - 1).
(** viterbi.rs:63-131 *)
Definition viterbi_decode (polys : list (list bool)) (received : list Z) : res (list N) :=
  let n := length polys in
  assert (negb (n =? 0)%nat) ;;;
  dec <- decode_loop n (expected_0 polys) (length received / n) received init_metrics [] ;;
  Ok (traceback dec 0 []).
(** viterbi.rs:137-159 *)
Definition cch_polys : list (list bool) :=
  [[true; true; false; false; true]; [true; false; true; true; true]; [true; true; true; false; true]; [true; true; false; true; true]].
Definition codec_polys : list (list bool) :=
  [[true; true; true; true; true]; [true; true; false; true; true]; [true; false; true; false; true]].
(** viterbi.rs:168-176 *)
Fixpoint to_soft (l : list N) : res (list Z) :=
  match l with
  | [] => Ok []
  | b :: l =>
      x <- (if (b =? 0)%N then Ok (-1) else if (b =? 1)%N then Ok 1 else if (b =? 255)%N then Ok 0 else Panic) ;;
      r <- to_soft l ;; Ok (x :: r)
  end.
(** viterbi.rs:162-181 *)
Definition dec_sb1 (in_buf out_buf : list N) (sym_count : nat) : res (list N) :=
  assert (sym_count <=? 864)%nat ;;;
  assert (sym_count * 4 <=? length in_buf)%nat ;;;
  assert (sym_count <=? length out_buf)%nat ;;;
  soft <- to_soft (firstn (sym_count * 4) in_buf) ;;
  d <- viterbi_decode cch_polys soft ;;
  d <- slice d 0 sym_count ;;
  blit out_buf 0 d.

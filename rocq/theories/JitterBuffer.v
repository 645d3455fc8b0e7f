(** Model of crates/tetra-entities/src/net_brew/components/jitter_buffer.rs: the play-out buffer for
    speech frames arriving from the network.  Times of arrival ([rx_at], [prev_rx_at]) and the
    floating-point smoothed deviation are not modelled; the only thing the code computes from them is
    the whole number [ceil(ewma * 2 / 56667)] in [recompute_target], which every operation below takes
    as an argument [jc] (any number).  The 64-bit counters are unbounded numbers here, and the sum in
    [recompute_target] does not overflow (it would need a deviation of 10^15 seconds). *)
From Verif Require Import Base.
Open Scope nat_scope.

(** jitter_buffer.rs:9-15 *)
Definition JITTER_MIN_FRAMES := 2.
Definition JITTER_BASE_FRAMES := 4.
Definition JITTER_TARGET_MAX_FRAMES := 12.
Definition JITTER_MAX_FRAMES := 24.

Section Jitter.
Context {F : Type}.

(** jitter_buffer.rs:17-22 [JitterFrame] (without its arrival time), 24-45 [VoiceJitterBuffer] *)
Record jframe := mk_jframe { jf_seq : N; jf_data : F }.
Record jbuf := mk_jbuf {
  jb_frames : list jframe;
  jb_next_seq : N;
  jb_started : bool;
  jb_target : nat;
  jb_boost : nat;
  jb_stable : nat;
  jb_dropped : N;
  jb_underruns : N;
  jb_initial : nat }.

(** jitter_buffer.rs:47-54 [with_initial_latency] (the other fields are the [Default] ones) *)
Definition jb_new (initial_frames : nat) : jbuf :=
  let initial := Nat.min initial_frames (JITTER_TARGET_MAX_FRAMES - JITTER_MIN_FRAMES) in
  mk_jbuf [] 0 false (JITTER_BASE_FRAMES + initial) 0 0 0 0 initial.

(** jitter_buffer.rs:125-129 [recompute_target]; [clamp lo hi] *)
Definition jb_recompute (jc : nat) (b : jbuf) : jbuf :=
  let t := JITTER_BASE_FRAMES + jb_initial b + jc + jb_boost b in
  mk_jbuf (jb_frames b) (jb_next_seq b) (jb_started b)
    (Nat.max JITTER_MIN_FRAMES (Nat.min JITTER_TARGET_MAX_FRAMES t))
    (jb_boost b) (jb_stable b) (jb_dropped b) (jb_underruns b) (jb_initial b).

(** jitter_buffer.rs:58-60, 83-85: [if self.target_frames == 0 { … }] *)
Definition jb_default_target (b : jbuf) : jbuf :=
  if jb_target b =? 0 then
    mk_jbuf (jb_frames b) (jb_next_seq b) (jb_started b) (JITTER_BASE_FRAMES + jb_initial b)
      (jb_boost b) (jb_stable b) (jb_dropped b) (jb_underruns b) (jb_initial b)
  else b.

(** jitter_buffer.rs:75-78: [while self.frames.len() > MAX { pop_front; dropped += 1 }] *)
Fixpoint jb_trim (frames : list jframe) (dropped : N) : list jframe * N :=
  match frames with
  | [] => ([], dropped)
  | f :: t => if JITTER_MAX_FRAMES <? length frames then jb_trim t (dropped + 1)%N else (frames, dropped)
  end.

(** jitter_buffer.rs:56-80 [push] *)
Definition jb_push (jc : nat) (data : F) (b : jbuf) : jbuf :=
  let b := jb_default_target b in
  let '(frames, dropped) := jb_trim (jb_frames b ++ [mk_jframe (jb_next_seq b) data]) (jb_dropped b) in
  jb_recompute jc
    (mk_jbuf frames (jb_next_seq b + 1)%N (jb_started b) (jb_target b) (jb_boost b) (jb_stable b)
       dropped (jb_underruns b) (jb_initial b)).

(** jitter_buffer.rs:97-107: a frame was taken and [rest] remains *)
Definition jb_after_pop (jc : nat) (rest : list jframe) (b : jbuf) : jbuf :=
  let set boost stable :=
    mk_jbuf rest (jb_next_seq b) true (jb_target b) boost stable (jb_dropped b) (jb_underruns b) (jb_initial b) in
  if jb_target b <=? length rest then
    let stable := jb_stable b + 1 in
    if 80 <=? stable then
      if 0 <? jb_boost b then jb_recompute jc (set (jb_boost b - 1) 0) else set (jb_boost b) 0
    else set (jb_boost b) stable
  else set (jb_boost b) 0.

(** jitter_buffer.rs:82-119 [pop_ready] *)
Definition jb_pop (jc : nat) (b : jbuf) : option jframe * jbuf :=
  let b := jb_default_target b in
  if negb (jb_started b) && (length (jb_frames b) <? jb_target b) then (None, b)
  else
    match jb_frames b with
    | f :: rest => (Some f, jb_after_pop jc rest b)
    | [] =>
        (None, jb_recompute jc
                 (mk_jbuf [] (jb_next_seq b) false (jb_target b) (Nat.min (jb_boost b + 1) 4) 0
                    (jb_dropped b) (jb_underruns b + 1)%N (jb_initial b)))
    end.

(** A history of calls: [Some d] is a frame arriving, [None] a request for the next frame to play.
    Each call carries its jitter component. *)
Definition jcall := (nat * option F)%type.
Definition jb_step (b : jbuf) (c : jcall) : list (option jframe) * jbuf :=
  match snd c with
  | Some d => ([], jb_push (fst c) d b)
  | None => let '(o, b) := jb_pop (fst c) b in ([o], b)
  end.
(** Answers to the play-out requests, in order, and the final buffer. *)
Fixpoint jb_run (b : jbuf) (l : list jcall) : list (option jframe) * jbuf :=
  match l with
  | [] => ([], b)
  | c :: t => let '(o, b) := jb_step b c in let '(os, b) := jb_run b t in (o ++ os, b)
  end.
End Jitter.
Arguments jframe F : clear implicits.
Arguments jbuf F : clear implicits.
Arguments jcall F : clear implicits.

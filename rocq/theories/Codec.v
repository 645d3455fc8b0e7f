(** Readers and writers over the bit buffer: how the PDU code is modelled.
    A writer is the body of a [to_bitbuf(&self, &mut BitBuffer) -> Result<(), _>],
    a reader the body of a [from_bitbuf(&mut BitBuffer) -> Result<Self, _>].
    Simplification: after an [Err] the buffer is abandoned (the callers drop the PDU). *)
From Verif Require Import Base BitBuffer.
Open Scope N_scope.

Definition reader (A : Type) := bitbuf -> res (A * bitbuf).
Definition wr := bitbuf -> res bitbuf.

Definition rret {A} (x : A) : reader A := fun b => Ok (x, b).
Definition rbind {A B} (r : reader A) (k : A -> reader B) : reader B :=
  fun b => bind (r b) (fun p => k (fst p) (snd p)).
(** [return Err(e)] / [panic!()] *)
Definition rerr {A} (e : err) : reader A := fun _ => Err e.
Definition rpanic {A} : reader A := fun _ => Panic.
Definition rassert (c : bool) : reader unit := if c then rret tt else rpanic.
Definition rguard (c : bool) (e : err) : reader unit := if c then rret tt else rerr e.
Definition rlift {A} (x : res A) : reader A := fun b => bind x (fun a => Ok (a, b)).
(** [buf.read_field(n)?] *)
Definition rfield (n : nat) : reader N := read_field n.
(** [buf.read_field(1)? == 1] *)
Definition rflag : reader bool := rbind (rfield 1) (fun v => rret (v =? 1)).

(** [Ok(())] at the end of a [to_bitbuf] *)
Definition wret : wr := fun b => Ok b.
Definition wthen (w1 w2 : wr) : wr := fun b => bind (w1 b) w2.
Definition werr (e : err) : wr := fun _ => Err e.
Definition wpanic : wr := fun _ => Panic.
Definition wassert (c : bool) : wr := if c then wret else wpanic.
Definition wguard (c : bool) (e : err) : wr := if c then wret else werr e.
(** [buf.write_bits(v, n)] and [buf.write_bits(flag as u64, 1)] *)
Definition wfield (v : N) (n : nat) : wr := write_bits v n.
Definition wflag (x : bool) : wr := write_bits (N.b2n x) 1.

Declare Scope codec_scope.
Delimit Scope codec_scope with codec.
Notation "x <~ r ;; k" := (rbind r (fun x => k)) (at level 61, r at next level, right associativity) : codec_scope.
Notation "r ;~ k" := (rbind r (fun _ => k)) (at level 61, right associativity) : codec_scope.
Notation "w1 >> w2" := (wthen w1 w2) (at level 60, right associativity) : codec_scope.
Open Scope codec_scope.

(** Optional value present or not: [if let Some(v) = x { w v }]. *)
Definition wopt {A} (x : option A) (w : A -> wr) : wr :=
  match x with Some v => w v | None => wret end.
Definition ropt {A} (c : bool) (r : reader A) : reader (option A) :=
  if c then (x <~ r ;; rret (Some x)) else rret None.

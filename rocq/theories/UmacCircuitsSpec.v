(** What the voice queue of one timeslot must do, read off a log of calls and their answers. *)
From Verif Require Import Base UmacCircuits.
Open Scope nat_scope.

Section Spec.
Context {C B : Type}.
Definition uc_log := list (uc_op C B * option B).
(** Blocks queued for / taken from timeslot [ts], in order. *)
Definition puts (ts : nat) (l : uc_log) : list B :=
  flat_map (fun p => match fst p with UcPut t b => if t =? ts then [b] else [] | _ => [] end) l.
Definition takes (ts : nat) (l : uc_log) : list B :=
  flat_map (fun p => match fst p, snd p with UcTake t, Some b => if t =? ts then [b] else [] | _, _ => [] end) l.
(** The call opens or closes the downlink circuit of [ts]. *)
Definition opens (ts : nat) (o : uc_op C B) : bool := match o with UcCreate DirDl t _ => t =? ts | _ => false end.
Definition closes (ts : nat) (o : uc_op C B) : bool := match o with UcClose DirDl t => t =? ts | _ => false end.
Definition uc_valid (o : uc_op C B) : Prop :=
  match o with
  | UcCreate d ts _ | UcClose d ts => (d = DirDl \/ d = DirUl) /\ 1 <= ts <= 4
  | UcPut ts _ | UcTake ts => 1 <= ts <= 4
  end.
End Spec.
Arguments uc_log C B : clear implicits.

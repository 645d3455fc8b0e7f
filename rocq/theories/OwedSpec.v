(** Acknowledgements of random accesses that were dropped from a timeslot's queue when speech resumed: the next stolen half
    slot for that radio must carry them. *)
From Coq Require Import Arith.
From Verif Require Import Base MacFields DlSched.
Open Scope nat_scope.

(** the radios whose acknowledgement waits in a queue *)
Definition unacked (q : list dl_elem) : list N := flat_map (fun e => match e with DlAck a => [ad_ssi a] | _ => [] end) q.
(** exactly one claim of [x] is settled, if there is one *)
Definition settled (x : N) (before after : list N) : Prop :=
  (In x before -> exists l r, before = l ++ x :: r /\ after = l ++ r) /\ (~ In x before -> after = before).
(** what an event does to the radios owed an acknowledgement on timeslot [k], whose queue is [q] *)
Definition owing (k : nat) (e : dl_event) (q : list dl_elem) (before after : list N) : Prop :=
  match e with
  | DvHang ts false => after = if ts =? k then before ++ unacked q else before
  | DvTakeRa ts x => if ts =? k then settled x before after else after = before
  | _ => after = before
  end.

(** The order in which messages must leave, judged from what happened alone. *)
From Verif Require Import Base Router.
Open Scope nat_scope.

Section Spec.
Context {Ent Msg : Type}.
Variable dest : Msg -> Ent.
Variable registered : Ent -> bool.
Notation event := (event Ent Msg).

(** Messages waiting: those sent with immediate priority, the latest first, and the others in the
    order they were sent. *)
Record waiting := mk_waiting { w_immediate : list Msg; w_normal : list Msg }.
Definition next_out (w : waiting) : option (Msg * waiting) :=
  match w_immediate w, w_normal w with
  | m :: t, n => Some (m, mk_waiting t n)
  | [], m :: t => Some (m, mk_waiting [] t)
  | [], [] => None
  end.
(** [follows w tr w']: starting with [w] waiting, [tr] can happen and leaves [w'] waiting: a message
    leaves only when it is the next one out, is given to a component when its destination exists and
    is discarded otherwise. *)
Inductive follows : waiting -> list event -> waiting -> Prop :=
| f_nil w : follows w [] w
| f_now w m tr w' : follows (mk_waiting (m :: w_immediate w) (w_normal w)) tr w' -> follows w (Sent _ _ m Immediate :: tr) w'
| f_later w m tr w' : follows (mk_waiting (w_immediate w) (w_normal w ++ [m])) tr w' -> follows w (Sent _ _ m Normal :: tr) w'
| f_given w m w1 tr w' : next_out w = Some (m, w1) -> registered (dest m) = true -> follows w1 tr w' -> follows w (Given _ _ m :: tr) w'
| f_discarded w m w1 tr w' : next_out w = Some (m, w1) -> registered (dest m) = false -> follows w1 tr w' -> follows w (Discarded _ _ m :: tr) w'
| f_tick w e tr w' : follows w tr w' -> follows w (Ticked _ _ e :: tr) w'.

(** Accounts of a trace. *)
Definition sent_as (p : prio) (tr : list event) : list Msg :=
  flat_map (fun e => match e, p with Sent _ _ m Immediate, Immediate => [m] | Sent _ _ m Normal, Normal => [m] | _, _ => [] end) tr.
Definition given (tr : list event) : list Msg := flat_map (fun e => match e with Given _ _ m => [m] | _ => [] end) tr.
Definition discarded (tr : list event) : list Msg := flat_map (fun e => match e with Discarded _ _ m => [m] | _ => [] end) tr.
Definition all_sent (tr : list event) : list Msg := flat_map (fun e => match e with Sent _ _ m _ => [m] | _ => [] end) tr.
Definition all_normal (tr : list event) : bool := forallb (fun e => match e with Sent _ _ _ Immediate => false | _ => true end) tr.
(** The messages that left the queue, given or discarded. *)
Definition left_queue (tr : list event) : list Msg :=
  flat_map (fun e => match e with Given _ _ m | Discarded _ _ m => [m] | _ => [] end) tr.
End Spec.

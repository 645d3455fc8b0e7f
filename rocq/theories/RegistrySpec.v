(** Who is registered and affiliated after a history, read off the history alone. [h] is the history
    with the latest call first.  Affiliating or deaffiliating an unknown subscriber registers it. *)
From Verif Require Import Base Registry.
Open Scope N_scope.

Fixpoint is_reg (h : list reg_op) (i : N) : bool :=
  match h with
  | [] => false
  | Deregister j :: t => if j =? i then false else is_reg t i
  | Register j :: t | Affiliate j _ :: t | Deaffiliate j _ :: t => if j =? i then true else is_reg t i
  end.
(** Subscriber [i] is affiliated to [g]: it affiliated and has since neither deaffiliated from [g],
    nor registered afresh, nor deregistered. *)
Fixpoint is_aff (h : list reg_op) (i g : N) : bool :=
  match h with
  | [] => false
  | (Deregister j | Register j) :: t => if j =? i then false else is_aff t i g
  | Affiliate j g' :: t => if (j =? i) && (g' =? g) then true else is_aff t i g
  | Deaffiliate j g' :: t => if (j =? i) && (g' =? g) then false else is_aff t i g
  end.

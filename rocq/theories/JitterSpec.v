(** What a play-out buffer must do, independently of the implementation: an account of where each
    frame that has arrived is. *)
From Verif Require Import Base JitterBuffer.
Open Scope nat_scope.

Inductive fate := Played | Dropped | Waiting.

(** The frames that arrived in a history, in order, numbered from [n]. *)
Fixpoint arrivals {F} (n : N) (l : list (jcall F)) : list (jframe F) :=
  match l with
  | [] => []
  | (_, Some d) :: t => mk_jframe n d :: arrivals (n + 1)%N t
  | (_, None) :: t => arrivals n t
  end.
(** The frames handed out, in order. *)
Definition handed_out {A} (os : list (option A)) : list A :=
  flat_map (fun o => match o with Some f => [f] | None => [] end) os.
(** The arrivals that met a given fate, in order of arrival. *)
Definition fate_eqb (a b : fate) : bool :=
  match a, b with Played, Played | Dropped, Dropped | Waiting, Waiting => true | _, _ => false end.
Definition met {A} (x : fate) (fates : list fate) (l : list A) : list A :=
  map snd (filter (fun p => fate_eqb x (fst p)) (combine fates l)).
(** Play-out is running: the last request was answered with a frame. *)
Definition running {A} (os : list (option A)) : bool :=
  match rev os with Some _ :: _ => true | _ => false end.

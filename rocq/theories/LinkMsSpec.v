(** What the user of a mobile station's link layer is to get of the messages the base station was asked to send. *)
From Verif Require Import Base TdmaTime BitBuffer BitBufferProofs MacFields LlcSpec Llc UmacMs MsSpec.
Open Scope nat_scope.

(** Of a message of the link layer with its address: whether it is unacknowledged, and the data it carries, if any (C44, C52). *)
Definition carried (x : option tetra_addr * list bool) : list (option tetra_addr * bool * list bool) :=
  match bl_accept (snd x) with Some p => if is_ack p then [] else [(fst x, is_udata p, LlcSpec.sdu_of p)] | None => [] end.
(** the same of an indication to the user *)
Definition said (i : tla_ind) : option tetra_addr * bool * list bool :=
  (Some (ti_addr i), ti_unit i, match ti_sdu i with Some b => remaining b | None => [] end).
(** those received on timeslot [k] *)
Definition inds_on (k : nat) (l : list tla_ind) : list tla_ind := filter (fun i => on_ts k (ti_time i)) l.
(** a message that does not stop the link layer (C52) *)
Definition harmless (x : option tetra_addr * list bool) : Prop := ind_panics (snd x) = false.

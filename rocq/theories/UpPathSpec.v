(** What should become of a message a radio sends, on plain bit lists. *)
From Verif Require Import Base TdmaTime BitBuffer BitBufferProofs MacFields LlcSpec Llc UmacBs MleBs.
From Verif Require Mobility CallControl.
Open Scope N_scope.

(** The fate of an SDU of the upper MAC: the link layer takes its own header off (C52), three bits say whom the rest is
    for (EN 300 392-2 clause 18.5.21).  [Dies]: the program stops. *)
Inductive fate := Dies | Dropped | ForMm (m : list bool) | ForCmce (m : list bool).
Definition addressed (l : list bool) : fate :=
  match l with
  | [] => Dies                                          (* data without data *)
  | false :: false :: true :: m => ForMm m
  | false :: true :: false :: m => ForCmce m
  | true :: false :: false :: _ => Dies                 (* packet data *)
  | _ => Dropped
  end.
Definition fate_of (l : list bool) : fate :=
  if ind_panics l then Dies
  else match bl_accept l with
       | Some (Data _ _ x) | Some (AData _ _ _ x) => addressed x
       | Some (UData _ _) => Dies                       (* unacknowledged data *)
       | Some (Ack _ _ _) | None => Dropped
       end.

(** What layer 3 is given for it; handles count up. *)
Definition gets (t : tdma_time) (a : tetra_addr) (f : fate) (h : N) (x : list mle_out) (h' : N) : Prop :=
  match f with
  | Dies => False
  | Dropped => x = [] /\ h' = h
  | ForMm m => h' = h + 1 /\ exists b, x = [UpMm (Mobility.mk_mm_ind t b a h)] /\ wf b /\ remaining b = m
  | ForCmce m => h' = h + 1 /\ exists b, x = [UpCmce (CallControl.mk_mle_ind t b a h 0 (Z.to_N (tm_t (add_timeslots t (-2)))))] /\ wf b /\ remaining b = m
  end.
(** For a list of SDUs with their times and senders: in order, each once, nothing else. *)
Inductive get_all : list (tdma_time * tetra_addr * list bool) -> N -> list mle_out -> N -> Prop :=
| ga_none h : get_all [] h [] h
| ga_more t a l r h x h' y h'' : gets t a (fate_of l) h x h' -> get_all r h' y h'' -> get_all ((t, a, l) :: r) h (x ++ y) h''.

(** SDUs handed up by the upper MAC. *)
Definition handed_up (outs : list um_out) : list (tdma_time * tetra_addr * list bool) :=
  flat_map (fun o => match o with OutSdu t b a _ => [(t, a, remaining b)] | _ => [] end) outs.

(** States of the link layer that occur, as long as the upper MAC drops no message. *)
Definition link_reached (s : llc unit) : Prop :=
  exists l log, llc_run l llc_new = Ok (log, s) /\ log_ok [] [] log /\ Forall not_dropped l.

(** Specification for transmission receipts: runs, interleavings and the allowed moves. *)
From Verif Require Import Base TxReceipt.

(** A run of operations by all holders in some order; each entry records whether it succeeded
    and the state afterwards.  A failed operation (panic in its thread) leaves the byte alone. *)
Fixpoint tx_run (r : tx_reporter) (ops : list tx_op) : list (tx_op * bool) * tx_reporter :=
  match ops with
  | [] => ([], r)
  | op :: t =>
      let '(ok, r1) := match tx_apply op r with Ok r1 => (true, r1) | _ => (false, r) end in
      let '(tr, r2) := tx_run r1 t in ((op, ok) :: tr, r2)
  end.

(** [interleaving progs sched]: [sched] is a merge of the threads' programs (a thread stops at its
    first panic, so any prefix of its program may be what it executes). *)
Inductive interleaving : list (list tx_op) -> list tx_op -> Prop :=
| il_stop progs : interleaving progs []
| il_step progs i op rest sched :
    nth_error progs i = Some (op :: rest) ->
    interleaving (upd progs i rest) sched ->
    interleaving progs (op :: sched).

(** The life cycle: the only allowed moves. *)
Inductive tx_move (expects_ack : bool) : tx_op -> tx_state -> tx_state -> Prop :=
| mv_tx : tx_move expects_ack MarkTransmitted TxPending TxTransmitted
| mv_disc : tx_move expects_ack MarkDiscarded TxPending TxDiscarded
| mv_ack : expects_ack = true -> tx_move expects_ack MarkAcknowledged TxTransmitted TxAcknowledged
| mv_lost : expects_ack = true -> tx_move expects_ack MarkLost TxTransmitted TxLost
| mv_reset s : tx_move expects_ack Reset s TxPending.

Definition successes (f : tx_op -> bool) (tr : list (tx_op * bool)) : nat :=
  length (filter (fun e => f (fst e) && snd e) tr).
Definition is_first (op : tx_op) : bool := match op with MarkTransmitted | MarkDiscarded => true | _ => false end.
Definition is_second (op : tx_op) : bool := match op with MarkAcknowledged | MarkLost => true | _ => false end.
Definition is_reset (op : tx_op) : bool := match op with Reset => true | _ => false end.


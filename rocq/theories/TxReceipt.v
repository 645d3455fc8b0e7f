(** Model of crates/tetra-core/src/tx_receipt.rs: a state byte shared by all clones of a reporter.
    Each [compare_exchange]/[load]/[store] is one atomic step on that byte, so any concurrent
    execution is a sequence of the operations below by the various holders.  A failed mark
    panics in the calling thread and leaves the shared byte unchanged. *)
From Verif Require Import Base.

(** tx_receipt.rs:5-17 *)
Inductive tx_state := TxPending | TxDiscarded | TxTransmitted | TxLost | TxAcknowledged.
Definition tx_raw (s : tx_state) : nat :=
  match s with TxPending => 0 | TxDiscarded => 1 | TxTransmitted => 2 | TxLost => 3 | TxAcknowledged => 4 end.
(** tx_receipt.rs:20-28 *)
Definition tx_from_raw (v : nat) : tx_state :=
  match v with 0 => TxPending | 1 => TxDiscarded | 2 => TxTransmitted | 3 => TxLost | _ => TxAcknowledged end.

(** tx_receipt.rs:53-59 [TxReporter]: [expects_ack] and the shared byte *)
Record tx_reporter := mk_tx { tx_expects_ack : bool; tx_byte : nat }.
(** tx_receipt.rs:63-73 *)
Definition tx_new : tx_reporter := mk_tx true (tx_raw TxPending).
Definition tx_new_unacked : tx_reporter := mk_tx false (tx_raw TxPending).
(** tx_receipt.rs:76-93 *)
Definition tx_get_state (r : tx_reporter) : tx_state := tx_from_raw (tx_byte r).
Definition tx_is_discarded (r : tx_reporter) : bool := tx_byte r =? tx_raw TxDiscarded.
Definition tx_is_transmitted (r : tx_reporter) : bool := tx_raw TxTransmitted <=? tx_byte r.
Definition tx_is_acknowledged (r : tx_reporter) : bool := tx_raw TxAcknowledged <=? tx_byte r.
(** tx_receipt.rs:96-104 *)
Definition tx_is_final (r : tx_reporter) : bool :=
  match tx_get_state r with
  | TxPending => false | TxDiscarded => true | TxTransmitted => negb (tx_expects_ack r) | TxLost => true | TxAcknowledged => true
  end.

(** tx_receipt.rs:106-122 [mark]: compare_exchange, panic on failure *)
Definition tx_mark (curr new : tx_state) (r : tx_reporter) : res tx_reporter :=
  if tx_byte r =? tx_raw curr then Ok (mk_tx (tx_expects_ack r) (tx_raw new)) else Panic.
(** tx_receipt.rs:129-131, 134-136 *)
Definition tx_mark_transmitted := tx_mark TxPending TxTransmitted.
Definition tx_mark_discarded := tx_mark TxPending TxDiscarded.
(** tx_receipt.rs:139-145, 148-154 *)
Definition tx_mark_acknowledged (r : tx_reporter) : res tx_reporter :=
  assert (tx_expects_ack r) ;;; tx_mark TxTransmitted TxAcknowledged r.
Definition tx_mark_lost (r : tx_reporter) : res tx_reporter :=
  assert (tx_expects_ack r) ;;; tx_mark TxTransmitted TxLost r.
(** tx_receipt.rs:124-126, 158-160 *)
Definition tx_reset (r : tx_reporter) : res tx_reporter := Ok (mk_tx (tx_expects_ack r) (tx_raw TxPending)).

Inductive tx_op := MarkTransmitted | MarkDiscarded | MarkAcknowledged | MarkLost | Reset.
Definition tx_apply (op : tx_op) : tx_reporter -> res tx_reporter :=
  match op with
  | MarkTransmitted => tx_mark_transmitted
  | MarkDiscarded => tx_mark_discarded
  | MarkAcknowledged => tx_mark_acknowledged
  | MarkLost => tx_mark_lost
  | Reset => tx_reset
  end.

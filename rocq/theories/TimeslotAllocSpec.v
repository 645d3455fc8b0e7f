(** Specification for the timeslot allocator: histories of calls against a client-side ledger. *)
From Verif Require Import Base TimeslotAlloc.

Inductive ts_op := OpAlloc (o : ts_owner) | OpReserve (o : ts_owner) (ts : nat) | OpRelease (o : ts_owner) (ts : nat).
Inductive ts_ret := RAlloc (r : option nat) | RRes (r : ts_res).

Definition ts_step (s : ts_alloc) (op : ts_op) : ts_ret * ts_alloc :=
  match op with
  | OpAlloc o => let (r, s') := ts_allocate_any s o in (RAlloc r, s')
  | OpReserve o ts => let (r, s') := ts_reserve s o ts in (RRes r, s')
  | OpRelease o ts => let (r, s') := ts_release s o ts in (RRes r, s')
  end.
Fixpoint ts_run (s : ts_alloc) (ops : list ts_op) : list (ts_op * ts_ret) * ts_alloc :=
  match ops with
  | [] => ([], s)
  | op :: t => let (r, s1) := ts_step s op in let (tr, s2) := ts_run s1 t in ((op, r) :: tr, s2)
  end.

(** The specification: who holds which timeslot according to what the callers were told. *)
Definition ledger := nat -> option ts_owner.
Definition led_set (L : ledger) (ts : nat) (x : option ts_owner) : ledger := fun k => if k =? ts then x else L k.
Definition led_step (L : ledger) (e : ts_op * ts_ret) : ledger :=
  match e with
  | (OpAlloc o, RAlloc (Some ts)) => led_set L ts (Some o)
  | (OpReserve o ts, RRes TsOk) => led_set L ts (Some o)
  | (OpRelease o ts, RRes TsOk) => led_set L ts None
  | _ => L
  end.
Definition led_empty : ledger := fun _ => None.

(** What a call must answer, given the ledger. *)
Definition answer_ok (L : ledger) (op : ts_op) (r : ts_ret) : Prop :=
  match op, r with
  | OpAlloc o, RAlloc (Some ts) => 2 <= ts <= 4 /\ L ts = None
  | OpAlloc o, RAlloc None => forall ts, 2 <= ts <= 4 -> L ts <> None
  | OpReserve o ts, RRes TsOk => 2 <= ts <= 4 /\ L ts = None
  | OpReserve o ts, RRes (TsErr e) =>
      ~ (2 <= ts <= 4) /\ e = TsInvalid ts \/ 2 <= ts <= 4 /\ exists o', L ts = Some o' /\ e = TsInUse ts o'
  | OpRelease o ts, RRes TsOk => 2 <= ts <= 4 /\ L ts = Some o
  | OpRelease o ts, RRes (TsErr e) =>
      ~ (2 <= ts <= 4) /\ e = TsInvalid ts \/ 2 <= ts <= 4 /\
      (L ts = None /\ e = TsNotAllocated ts \/ exists o', L ts = Some o' /\ o' <> o /\ e = TsOwnerMismatch ts o o')
  | _, _ => False
  end.

(** The ledger along a trace of calls and answers. *)
Definition led_of (tr : list (ts_op * ts_ret)) (L : ledger) : ledger := fold_left led_step tr L.
Fixpoint trace_ok (L : ledger) (tr : list (ts_op * ts_ret)) : Prop :=
  match tr with
  | [] => True
  | (op, r) :: t => answer_ok L op r /\ trace_ok (led_step L (op, r)) t
  end.


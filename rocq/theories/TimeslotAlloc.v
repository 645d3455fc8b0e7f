(** Model of crates/tetra-core/src/timeslot_alloc.rs. *)
From Verif Require Import Base.

(** timeslot_alloc.rs:1-5 *)
Inductive ts_owner := OwnBrew | OwnCmce.
Definition ts_owner_eqb (a b : ts_owner) : bool :=
  match a, b with OwnBrew, OwnBrew | OwnCmce, OwnCmce => true | _, _ => false end.

(** timeslot_alloc.rs:7-22 *)
Inductive ts_err :=
| TsInvalid (ts : nat)
| TsInUse (ts : nat) (owner : ts_owner)
| TsNotAllocated (ts : nat)
| TsOwnerMismatch (ts : nat) (owner actual : ts_owner).

(** Result of a call that may fail with a [TimeslotAllocErr]. *)
Inductive ts_res := TsOk | TsErr (e : ts_err).

(** timeslot_alloc.rs:24-36 [owners: [Option<TimeslotOwner>; 3]], index 0 = TS2 *)
Definition ts_alloc := list (option ts_owner).
Definition ts_default : ts_alloc := [None; None; None].

(** timeslot_alloc.rs:39-45 [idx] *)
Definition ts_idx (ts : nat) : option nat := if (2 <=? ts) && (ts <=? 4) then Some (ts - 2) else None.

(** timeslot_alloc.rs:47-55 [allocate_any]: first free slot *)
Fixpoint ts_first_free (i : nat) (l : ts_alloc) : option nat :=
  match l with
  | [] => None
  | None :: _ => Some i
  | Some _ :: t => ts_first_free (S i) t
  end.
Definition ts_allocate_any (s : ts_alloc) (o : ts_owner) : option nat * ts_alloc :=
  match ts_first_free 0 s with
  | Some i => (Some (i + 2), upd s i (Some o))
  | None => (None, s)
  end.

(** [self.owners[idx]] with idx < 3 *)
Definition ts_get (s : ts_alloc) (i : nat) : option ts_owner := nth i s None.

(** timeslot_alloc.rs:57-66 [reserve] *)
Definition ts_reserve (s : ts_alloc) (o : ts_owner) (ts : nat) : ts_res * ts_alloc :=
  match ts_idx ts with
  | None => (TsErr (TsInvalid ts), s)
  | Some i =>
      match ts_get s i with
      | None => (TsOk, upd s i (Some o))
      | Some existing => (TsErr (TsInUse ts existing), s)
      end
  end.

(** timeslot_alloc.rs:68-82 [release] *)
Definition ts_release (s : ts_alloc) (o : ts_owner) (ts : nat) : ts_res * ts_alloc :=
  match ts_idx ts with
  | None => (TsErr (TsInvalid ts), s)
  | Some i =>
      match ts_get s i with
      | None => (TsErr (TsNotAllocated ts), s)
      | Some existing =>
          if negb (ts_owner_eqb existing o) then (TsErr (TsOwnerMismatch ts o existing), s)
          else (TsOk, upd s i None)
      end
  end.

(** timeslot_alloc.rs:84-86 [owner] *)
Definition ts_owner_of (s : ts_alloc) (ts : nat) : option ts_owner :=
  match ts_idx ts with Some i => ts_get s i | None => None end.
(** timeslot_alloc.rs:88-90 [is_free] *)
Definition ts_is_free (s : ts_alloc) (ts : nat) : bool :=
  match ts_owner_of s ts with None => true | Some _ => false end.

(** Model of crates/tetra-entities/src/cmce/components/circuit_mgr.rs.
    Simplifications: the queues of traffic blocks ([tx_data], [put_block], [take_block]) are left out, nothing
    in the code calls them; [allocate_circuit] and [get_free_ts] have no caller either; the fields of
    [CmceCircuit] that are always the same constant (speech, simplex, no encryption) are left out. *)
From Verif Require Import Base TdmaTime TimeslotAlloc UmacCircuits.
Open Scope nat_scope.

(** crates/tetra-pdus/src/cmce/structs/cmce_circuit.rs [CmceCircuit] *)
Record circuit := mk_circuit {
  ci_created : tdma_time;
  ci_dir : direction;
  ci_ts : nat;
  ci_call : N;
  ci_usage : N;
  ci_comm : N }.

(** circuit_mgr.rs:14-18 *)
Inductive circuit_err := NoCircuitFree | CircuitAlreadyInUse | CircuitNotActive.

(** circuit_mgr.rs:20-23 *)
Inductive circuit_cmd :=
| SendDSetup (call_id usage : N) (ts : nat)
| SendClose (call_id : N) (c : circuit).

(** circuit_mgr.rs:25-40; [dl] and [ul_only] have four entries, entry [ts - 1] is timeslot [ts] *)
Record cmgr := mk_cmgr {
  cm_dltime : tdma_time;
  cm_dl : list (option circuit);
  cm_ul : list (option circuit);
  cm_next_call : N;
  cm_next_usage : N }.

(** circuit_mgr.rs:43-52 *)
Definition cmgr_new : cmgr := mk_cmgr time_default (repeat None 4) (repeat None 4) 4 4.

Definition cm_set_time (t : tdma_time) (m : cmgr) : cmgr := mk_cmgr t (cm_dl m) (cm_ul m) (cm_next_call m) (cm_next_usage m).
Definition cm_set_dl (l : list (option circuit)) (m : cmgr) : cmgr := mk_cmgr (cm_dltime m) l (cm_ul m) (cm_next_call m) (cm_next_usage m).
Definition cm_set_ul (l : list (option circuit)) (m : cmgr) : cmgr := mk_cmgr (cm_dltime m) (cm_dl m) l (cm_next_call m) (cm_next_usage m).

Definition is_both (d : direction) : bool := match d with DirBoth => true | _ => false end.
(** tetra-core direction.rs [includes_dl], [includes_ul] *)
Definition includes_dl (d : direction) : bool := match d with DirDl | DirBoth => true | _ => false end.
Definition includes_ul (d : direction) : bool := match d with DirUl | DirBoth => true | _ => false end.
Definition present {A} (o : option A) : bool := match o with Some _ => true | None => false end.

(** circuit_mgr.rs:56-67 [is_active] *)
Definition cm_is_active (ts : nat) (m : cmgr) : res (bool * bool) :=
  d <- UmacCircuits.ts_get (cm_dl m) ts ;;
  u <- UmacCircuits.ts_get (cm_ul m) ts ;;
  match d with
  | Some c => if is_both (ci_dir c) then Ok (true, true) else Ok (true, present u)
  | None => Ok (false, present u)
  end.

(** circuit_mgr.rs:106-113 [get_next_call_id] *)
Definition cm_take_call_id (m : cmgr) : N * cmgr :=
  let id := cm_next_call m in
  let next := (id + 1)%N in
  let next := if (0x3FF <? next)%N then 1%N else next in
  (id, mk_cmgr (cm_dltime m) (cm_dl m) (cm_ul m) next (cm_next_usage m)).

(** circuit_mgr.rs:115-122 [get_next_usage_number] *)
Definition cm_take_usage (m : cmgr) : N * cmgr :=
  let usage := cm_next_usage m in
  let next := (usage + 1)%N in
  let next := if (63 <? next)%N then 4%N else next in
  (usage, mk_cmgr (cm_dltime m) (cm_dl m) (cm_ul m) (cm_next_call m) next).

(** circuit_mgr.rs:206-222 [close_circuit]; no circuit returned: [Err(CircuitNotActive)] *)
Definition cm_close (d : direction) (ts : nat) (m : cmgr) : res (option circuit * cmgr) :=
  match d with
  | DirDl | DirBoth =>
      c <- UmacCircuits.ts_get (cm_dl m) ts ;;
      Ok (c, cm_set_dl (ts_set (cm_dl m) ts None) m)
  | DirUl =>
      c <- UmacCircuits.ts_get (cm_ul m) ts ;;
      Ok (c, cm_set_ul (ts_set (cm_ul m) ts None) m)
  | DirNone => Panic
  end.

(** circuit_mgr.rs:227-253 [open_circuit] *)
Definition cm_open (d : direction) (c : circuit) (m : cmgr) : res (option circuit_err * cmgr) :=
  '(dl_active, ul_active) <- cm_is_active (ci_ts c) m ;;
  if includes_dl d && dl_active then Ok (Some CircuitAlreadyInUse, m)
  else if includes_ul d && ul_active then Ok (Some CircuitAlreadyInUse, m)
  else match d with
       | DirDl | DirBoth => Ok (None, cm_set_dl (ts_set (cm_dl m) (ci_ts c) (Some c)) m)
       | DirUl => Ok (None, cm_set_ul (ts_set (cm_ul m) (ci_ts c) (Some c)) m)
       | DirNone => Panic
       end.

(** circuit_mgr.rs:172-201 [allocate_circuit_with_allocator]; when [open_circuit] fails the timeslot stays
    allocated and the identifiers stay consumed *)
Definition cm_allocate (d : direction) (comm : N) (slots : ts_alloc) (o : ts_owner) (m : cmgr)
  : res ((circuit + circuit_err) * cmgr * ts_alloc) :=
  match ts_allocate_any slots o with
  | (None, slots) => Ok (inr NoCircuitFree, m, slots)
  | (Some ts, slots) =>
      let (call_id, m) := cm_take_call_id m in
      let (usage, m) := cm_take_usage m in
      let c := mk_circuit (cm_dltime m) d ts call_id usage comm in
      '(e, m) <- cm_open d c m ;;
      Ok (match e with None => inl c | Some e => inr e end, m, slots)
  end.

(** circuit_mgr.rs:278 *)
Definition CIRCUIT_EXPIRY_TIMESLOTS : Z := 6 * 60 * 18 * 4.
Definition D_SETUP_REPEATS : Z := 1.
Definition LATE_ENTRY_INTERVAL_TIMESLOTS : Z := multiframes 5.

(** circuit_mgr.rs:280-286: the circuits of one array that are too old *)
Fixpoint expired_of (now : tdma_time) (l : list (option circuit)) : res (list circuit) :=
  match l with
  | [] => Ok []
  | None :: t => expired_of now t
  | Some c :: t =>
      a <- age (ci_created c) now ;;
      t <- expired_of now t ;;
      Ok (if (CIRCUIT_EXPIRY_TIMESLOTS <? a)%Z then c :: t else t)
  end.

(** circuit_mgr.rs:294-297 *)
Fixpoint close_all (l : list circuit) (m : cmgr) : res (list circuit_cmd * cmgr) :=
  match l with
  | [] => Ok ([], m)
  | c :: t =>
      '(closed, m) <- cm_close (ci_dir c) (ci_ts c) m ;;
      closed <- unwrap closed ;;
      '(cmds, m) <- close_all t m ;;
      Ok (SendClose (ci_call c) closed :: cmds, m)
  end.

(** circuit_mgr.rs:277-299 [close_expired_circuits] *)
Definition cm_close_expired (m : cmgr) : res (list circuit_cmd * cmgr) :=
  d <- expired_of (cm_dltime m) (cm_dl m) ;;
  u <- expired_of (cm_dltime m) (cm_ul m) ;;
  close_all (d ++ u) m.

(** circuit_mgr.rs:311-331; [/] and [%] on i32 truncate towards zero *)
Fixpoint late_entries (now : tdma_time) (l : list (option circuit)) : res (list circuit_cmd) :=
  match l with
  | [] => Ok []
  | None :: t => late_entries now t
  | Some c :: t =>
      a <- age (ci_created c) now ;;
      t <- late_entries now t ;;
      Ok (if (a <? frames D_SETUP_REPEATS)%Z then SendDSetup (ci_call c) (ci_usage c) (ci_ts c) :: t
          else if (Z.rem (Z.quot a 4) (Z.quot LATE_ENTRY_INTERVAL_TIMESLOTS 4) =? 0)%Z then SendDSetup (ci_call c) (ci_usage c) (ci_ts c) :: t
          else t)
  end.

(** circuit_mgr.rs:301-335 [tick_start]; no tasks and an empty task list are the same to the caller *)
Definition cm_tick (t : tdma_time) (m : cmgr) : res (list circuit_cmd * cmgr) :=
  let m := cm_set_time t m in
  if (tm_t t =? 1)%Z then
    '(closes, m) <- cm_close_expired m ;;
    setups <- late_entries t (cm_dl m) ;;
    Ok (closes ++ setups, m)
  else Ok ([], m).

(** Model of crates/tetra-entities/src/messagerouter.rs.  The components are oracles: [rx] and [tick]
    say how a component's state changes on a message or a tick and which messages it sends, in order,
    each with its priority.  (No component takes messages off the queue itself.)  Every operation
    also returns the list of things that happened, which the code only logs. *)
From Verif Require Import Base TdmaTime.
Open Scope nat_scope.

(** messagerouter.rs:11-16 *)
Inductive prio := Immediate | Normal.

Section Router.
Variables (Ent Msg World : Type).
Variable ent_eqb : Ent -> Ent -> bool.
Variables (Llc Umac : Ent).
Variable dest : Msg -> Ent.
(** messagerouter.rs:78-82 [register_entity]: the components present; the code registers them all
    before it starts the stack. *)
Variable registered : Ent -> bool.
Variable rx : Ent -> Msg -> World -> World * list (Msg * prio).
Variable tick_start_of tick_end_of : Ent -> tdma_time -> World -> World * list (Msg * prio).

(** What happened: a message was sent, a component was given a message, a message whose destination
    does not exist was discarded, a component's tick ran. *)
Inductive event := Sent (m : Msg) (p : prio) | Given (m : Msg) | Discarded (m : Msg) | Ticked (e : Ent).

(** messagerouter.rs:49-60 [MessageRouter] *)
Record router := mk_router { rt_queue : list Msg; rt_world : World; rt_ts : tdma_time }.

(** messagerouter.rs:27-29, 31-42 [push_back], [push_prio] *)
Definition push_prio (q : list Msg) (s : Msg * prio) : list Msg :=
  match snd s with Immediate => fst s :: q | Normal => q ++ [fst s] end.
Definition push_all (q : list Msg) (l : list (Msg * prio)) : list Msg := fold_left push_prio l q.
Definition sent_events (l : list (Msg * prio)) : list event := map (fun s => Sent (fst s) (snd s)) l.

(** messagerouter.rs:89-97 [submit_message] *)
Definition submit_message (m : Msg) (r : router) : list event * router :=
  ([Sent m Normal], mk_router (push_prio (rt_queue r) (m, Normal)) (rt_world r) (rt_ts r)).

(** messagerouter.rs:99-125 [deliver_message] *)
Definition deliver_message (r : router) : list event * router :=
  match rt_queue r with
  | [] => ([], r)
  | m :: q =>
      if registered (dest m) then
        let '(w, out) := rx (dest m) m (rt_world r) in
        (Given m :: sent_events out, mk_router (push_all q out) w (rt_ts r))
      else ([Discarded m], mk_router q (rt_world r) (rt_ts r))
  end.

(** messagerouter.rs:127-131 [deliver_all_messages]; [None] when it has not finished after [fuel]
    deliveries (components that keep sending can make it run for ever). *)
Fixpoint deliver_all_messages (fuel : nat) (r : router) : option (list event * router) :=
  match rt_queue r with
  | [] => Some ([], r)
  | _ :: _ =>
      match fuel with
      | O => None
      | S fuel =>
          let '(ev1, r1) := deliver_message r in
          match deliver_all_messages fuel r1 with Some (ev2, r2) => Some (ev1 ++ ev2, r2) | None => None end
      end
  end.

(** One component's tick: messagerouter.rs:144, 159, 167, 177 *)
Definition run_tick (tick : Ent -> tdma_time -> World -> World * list (Msg * prio)) (e : Ent) (r : router) : list event * router :=
  let '(w, out) := tick e (rt_ts r) (rt_world r) in
  (Ticked e :: sent_events out, mk_router (push_all (rt_queue r) out) w (rt_ts r)).
Fixpoint run_ticks (tick : Ent -> tdma_time -> World -> World * list (Msg * prio)) (es : list Ent) (r : router) : list event * router :=
  match es with
  | [] => ([], r)
  | e :: t => let '(ev1, r1) := run_tick tick e r in let '(ev2, r2) := run_ticks tick t r1 in (ev1 ++ ev2, r2)
  end.

(** messagerouter.rs:137-146 [tick_start]; [order] is the map's iteration order *)
Definition tick_start (order : list Ent) (r : router) : list event * router := run_ticks tick_start_of order r.

(** messagerouter.rs:152-183 [tick_end] *)
Definition tick_end (fuel : nat) (order : list Ent) (r : router) : option (list event * router) :=
  let '(ev1, r) := if registered Llc then run_tick tick_end_of Llc r else ([], r) in
  match deliver_all_messages fuel r with
  | None => None
  | Some (ev2, r) =>
      let '(ev3, r) := if registered Umac then run_tick tick_end_of Umac r else ([], r) in
      match deliver_all_messages fuel r with
      | None => None
      | Some (ev4, r) =>
          let '(ev5, r) := run_ticks tick_end_of (filter (fun e => negb (ent_eqb e Llc || ent_eqb e Umac)) order) r in
          match deliver_all_messages fuel r with
          | None => None
          | Some (ev6, r) =>
              Some (ev1 ++ ev2 ++ ev3 ++ ev4 ++ ev5 ++ ev6, mk_router (rt_queue r) (rt_world r) (add_timeslots (rt_ts r) 1))
          end
      end
  end.

(** messagerouter.rs:188-219 [run_stack], [n] rounds of the loop *)
Fixpoint run_stack (n fuel : nat) (order : list Ent) (r : router) : option (list event * router) :=
  match n with
  | O => Some ([], r)
  | S n =>
      let '(ev1, r) := tick_start order r in
      match deliver_all_messages fuel r with
      | None => None
      | Some (ev2, r) =>
          match tick_end fuel order r with
          | None => None
          | Some (ev3, r) =>
              match run_stack n fuel order r with
              | None => None
              | Some (ev4, r) => Some (ev1 ++ ev2 ++ ev3 ++ ev4, r)
              end
          end
      end
  end.

(** The calls an outside driver can make. *)
Inductive rcall := Submit (m : Msg) | DeliverOne | DeliverAll | TickStart | TickEnd.
Definition rstep (fuel : nat) (order : list Ent) (c : rcall) (r : router) : option (list event * router) :=
  match c with
  | Submit m => Some (submit_message m r)
  | DeliverOne => Some (deliver_message r)
  | DeliverAll => deliver_all_messages fuel r
  | TickStart => Some (tick_start order r)
  | TickEnd => tick_end fuel order r
  end.
Fixpoint rrun (fuel : nat) (order : list Ent) (l : list rcall) (r : router) : option (list event * router) :=
  match l with
  | [] => Some ([], r)
  | c :: t =>
      match rstep fuel order c r with
      | None => None
      | Some (ev1, r1) => match rrun fuel order t r1 with Some (ev2, r2) => Some (ev1 ++ ev2, r2) | None => None end
      end
  end.
End Router.

(** Call control and the network entity together, with the messages between them.

    The router of crates/tetra-entities/src/messagerouter.rs delivers messages in the order they were sent (Router.v);
    here only the messages call control and the network entity send to each other are kept in the queue, and every
    other event may come between two deliveries. *)
From Verif Require Import Base AMap TdmaTime BrewRoute CallControl BrewProtocol BrewWorker BrewEntity.
Open Scope nat_scope.

(** A message on its way: SapMsgInner::CmceCallControl with its destination *)
Inductive sys_msg := QBrew (c : call_ctl) | QCmce (c : call_ctl).
Record sys := mk_sys { sy_cc : cc; sy_brew : brew; sy_queue : list sys_msg }.
Definition sys_new : sys := mk_sys cc_new brew_new [].

(** What happens: radios, time, mobility management and UMAC act on call control; time, the network, mobility
    management, short data and UMAC on the network entity; or the first message of the queue is delivered. *)
Inductive sys_event :=
| SeCc (e : cc_event)
| SeBrew (i : brew_in)
| SeDeliver (hint : list N) (fresh : N).

(** Events that do not come from the other of the two *)
Definition from_outside (ev : sys_event) : bool :=
  match ev with
  | SeCc (EvControl _ (CtlUlInactivity _)) => true
  | SeCc (EvControl _ _) => false
  | SeBrew (InControl _ _ _) => false
  | _ => true
  end.

Definition cc_queue (q : list cc_msg) : list sys_msg := flat_map (fun m => match m with ToBrew _ c => [QBrew c] | _ => [] end) q.
Definition brew_queue (o : list brew_out) : list sys_msg := flat_map (fun m => match m with BoCmce _ c => [QCmce c] | _ => [] end) o.

Section Config.
Variable cfg : cfg_route.
Variable latency : nat.

Definition sys_cc (e : cc_event) (y : sys) (rest : list sys_msg) : res (sys * list (cc_msg + brew_out)) :=
  '(s, q) <- cc_step cfg e (sy_cc y) ;;
  Ok (mk_sys s (sy_brew y) (rest ++ cc_queue q), map inl q).
Definition sys_brew (i : brew_in) (y : sys) (rest : list sys_msg) : res (sys * list (cc_msg + brew_out)) :=
  '(s, o) <- be_step cfg latency i (sy_brew y) ;;
  Ok (mk_sys (sy_cc y) s (rest ++ brew_queue o), map inr o).

Definition sys_step (ev : sys_event) (y : sys) : res (sys * list (cc_msg + brew_out)) :=
  match ev with
  | SeCc e => sys_cc e y (sy_queue y)
  | SeBrew i => sys_brew i y (sy_queue y)
  | SeDeliver hint fresh =>
      match sy_queue y with
      | [] => Ok (y, [])
      | QCmce c :: rest => sys_cc (EvControl hint c) y rest
      | QBrew c :: rest => sys_brew (InControl hint fresh c) y rest
      end
  end.
Fixpoint sys_run (l : list sys_event) (y : sys) : res (sys * list (cc_msg + brew_out)) :=
  match l with
  | [] => Ok (y, [])
  | ev :: t => '(y, o) <- sys_step ev y ;; '(y, o') <- sys_run t y ;; Ok (y, o ++ o')
  end.
End Config.

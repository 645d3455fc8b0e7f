(** What the network knows of the radios (C57), apart from the model's own helpers. *)
From Verif Require Import Base BrewRoute CallControl Mobility MobilitySpec BrewProtocol BrewProtocolProofs BrewWorker BrewEntity.
Open Scope N_scope.

(** Which radios are registered, and which radios are in which groups *)
Record view := mk_view { v_reg : N -> Prop; v_aff : N -> N -> Prop }.
Definition nobody : view := mk_view (fun _ => False) (fun _ _ => False).

Definition registers (r : N) (v : view) : view := mk_view (fun x => x = r \/ v_reg v x) (v_aff v).
Definition leaves (r : N) (v : view) : view := mk_view (fun x => x <> r /\ v_reg v x) (fun x g => x <> r /\ v_aff v x g).
Definition joins (r : N) (gs : list N) (v : view) : view := mk_view (v_reg v) (fun x g => x = r /\ In g gs \/ v_aff v x g).
Definition quits (r : N) (gs : list N) (v : view) : view := mk_view (v_reg v) (fun x g => ~ (x = r /\ In g gs) /\ v_aff v x g).

(** What mobility management reported to the network entity *)
Definition reported_after (v : view) (i : brew_in) : view :=
  match i with
  | InSubscriber _ r gs SubRegister => registers r v
  | InSubscriber _ r gs SubDeregister => leaves r v
  | InSubscriber _ r gs SubAffiliate => joins r gs v
  | InSubscriber _ r gs SubDeaffiliate => quits r gs v
  | _ => v
  end.
Definition reported (l : list brew_in) : view := fold_left reported_after l nobody.

(** What a server concludes from the messages it receives: 0 deregister, 1 register, 2 register again, 8 affiliate,
    9 deaffiliate (protocol.rs:18-27) *)
Definition server_after (v : view) (data : list N) : view :=
  match parse_brew_message data with
  | Ok (inl (BmSubscriber m)) =>
      if bs_type m =? 0 then leaves (bs_number m) v
      else if bs_type m =? 1 then registers (bs_number m) v
      else if bs_type m =? 2 then registers (bs_number m) v
      else if bs_type m =? 8 then joins (bs_number m) (bs_groups m) v
      else if bs_type m =? 9 then quits (bs_number m) (bs_groups m) v
      else v
  | _ => v
  end.
(** A server that knows nobody, after these messages *)
Definition server (msgs : list (list N)) : view := fold_left server_after msgs nobody.

(** The commands the entity gave to the worker *)
Definition commands (o : list brew_out) : list brew_cmd := flat_map (fun x => match x with BoCmd c => [c] | _ => [] end) o.
(** The worker carries out these commands, at any times of day, and sends these messages. *)
Inductive works (cfg : cfg_route) : worker -> list brew_cmd -> worker -> list (list N) -> Prop :=
| works_none w : works cfg w [] w []
| works_one w n sent hint hg c w1 m t w2 ms : clock n -> worker_command cfg n sent hint hg c w = (w1, m) -> works cfg w1 t w2 ms ->
    works cfg w (c :: t) w2 (m ++ ms).

(** The numbers of radios and groups are 32-bit numbers. *)
Definition numbers_ok (i : brew_in) : Prop :=
  match i with InSubscriber _ r gs _ => u32 r /\ Forall u32 gs | _ => True end.
(** Mobility management reports groups only of radios it reported as registered, as far as the network may hear of them. *)
Fixpoint registered_first (cfg : cfg_route) (v : view) (l : list brew_in) : Prop :=
  match l with
  | [] => True
  | i :: t => match i with InSubscriber _ r _ SubAffiliate => brew_issi_routable cfg r = true -> v_reg v r | _ => True end /\
              registered_first cfg (reported_after v i) t
  end.

(** ** Mobility management and the network *)

(** The states of mobility management, and what it reported to the network entity until then.  Requests that detach and
    then attach a group in one list are left out: C34 is false of them. *)
Inductive mm_reports (cfg : cfg_route) : mob -> list sub_update -> Prop :=
| mm_starts : mm_reports cfg mob_new []
| mm_handles m us hint i m' q : mm_reports cfg m us -> orderly_request i -> mm_rx cfg hint i m = Ok (m', q) -> mm_reports cfg m' (us ++ to_network q).
(** What the network entity received of it *)
Definition updates (l : list brew_in) : list sub_update :=
  flat_map (fun i => match i with InSubscriber _ r gs a => [mk_update r gs a] | _ => [] end) l.

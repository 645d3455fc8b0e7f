(** What the theorems on short data to and from the network (C56) say, apart from the model's own helpers. *)
From Verif Require Import Base AMapOrder BrewRoute CallControl BrewProtocol BrewWorker.
Open Scope N_scope.

(** What can happen to the thread that talks to the network: a message comes in, headers become too old, the base
    station asks for something to be sent *)
Inductive wk_in :=
| WkReceive (data : list N)
| WkExpire (old : list N)
| WkCommand (n : now) (sent : bool) (hint hint_groups : list N) (c : brew_cmd).

(** [hears cfg l w e]: after [l] the thread is in state [w] and has passed on [e]. *)
Inductive hears (cfg : cfg_route) : list wk_in -> worker -> list brew_event -> Prop :=
| hears_nothing : hears cfg [] worker_new []
| hears_message l w e data w' e' : hears cfg l w e -> worker_receive cfg data w = Ok (w', e') -> hears cfg (l ++ [WkReceive data]) w' (e ++ e')
| hears_expiry l w e old : hears cfg l w e -> hears cfg (l ++ [WkExpire old]) (worker_expire old w) e
| hears_command l w e n sent hint hg c : hears cfg l w e ->
    hears cfg (l ++ [WkCommand n sent hint hg c]) (fst (worker_command cfg n sent hint hg c w)) e.

(** A short message of the network comes in two parts with the same identifier: a header that names the sender and the
    receiver, and a frame with the data.  [header l u]: sender and receiver of the last header with identifier [u]
    that has not become too old and whose data have not come yet. *)
Definition header_after (u : N) (h : option (N * N)) (i : wk_in) : option (N * N) :=
  match i with
  | WkReceive data =>
      match parse_brew_message data with
      | Ok (inl (BmCallControl (mk_brew_call 11 id (BpShortTransfer source dest)))) => if id =? u then Some (source, dest) else h
      | Ok (inl (BmFrame (mk_brew_frame 1 id n _))) => if (id =? u) && (n <=? 2047) then None else h
      | _ => h
      end
  | WkExpire old => if memN u old then None else h
  | WkCommand _ _ _ _ _ => h
  end.
Definition header (l : list wk_in) (u : N) : option (N * N) := fold_left (header_after u) l None.

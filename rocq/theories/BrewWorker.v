(** Model of crates/tetra-entities/src/net_brew/worker.rs: the thread between the transport and the network entity.

    The transport is outside: a list of byte strings received, and for each byte string to be sent whether sending it
    succeeded is not looked at except in one place (354), where it is an argument.  Instants are not modelled; which
    pending headers are older than 30 seconds is an argument.  The two channels are lists. *)
From Verif Require Import Base AMap AMapOrder BrewRoute CallControl BrewProtocol.
Open Scope N_scope.

(** 22-63 *)
Inductive brew_event :=
| BeConnected
| BeDisconnected
| BeGroupCallStart (uuid source dest priority service : N)
| BeGroupCallEnd (uuid cause : N)
| BeVoiceFrame (uuid length_bits : N) (data : list N)
| BeSubscriberEvent (msg_type issi : N) (groups : list N)
| BeSdsTransfer (uuid source dest : N) (data : list N) (length_bits : N)
| BeSdsReport (uuid status : N)
| BeServerError (error_type : N) (data : list N).

(** 65-109 *)
Inductive brew_cmd :=
| BcRegister (issi : N)
| BcDeregister (issi : N)
| BcAffiliate (issi : N) (groups : list N)
| BcDeaffiliate (issi : N) (groups : list N)
| BcGroupTx (uuid source dest priority service : N)
| BcVoiceFrame (uuid length_bits : N) (data : list N)
| BcGroupIdle (uuid cause : N)
| BcSds (uuid source dest : N) (data : list N) (length_bits : N)
| BcSdsReport (uuid status : N)
| BcDisconnect.

(** 113-138: what lasts from one message to the next *)
Record worker := mk_worker { wk_subs : amap (list N); wk_pending : amap (N * N) }.
(** 149-150 *)
Definition worker_new : worker := mk_worker [] [].

Section Config.
Variable cfg : cfg_route.

(** 423-489 *)
Definition handle_call_control (m : brew_call) (w : worker) : worker * list brew_event :=
  let id := bc_id m in
  if bc_state m =? 2 then
    match bc_payload m with
    | BpGroupTx g =>
        (w, if brew_gssi_routable cfg (gt_destination g)
            then [BeGroupCallStart id (gt_source g) (gt_destination g) (gt_priority g) (gt_service g)] else [])
    | _ => (w, [])
    end
  else if (bc_state m =? 3) || (bc_state m =? 10) then
    (w, [BeGroupCallEnd id (match bc_payload m with BpCause c => c | _ => 0 end)])
  else if bc_state m =? 11 then
    match bc_payload m with
    | BpShortTransfer s d => (mk_worker (wk_subs w) (aset id (s, d) (wk_pending w)), [])
    | _ => (w, [])
    end
  else (w, []).

(** 492-555 *)
Definition handle_frame (m : brew_frame) (w : worker) : worker * list brew_event :=
  let id := bf_id m in
  if bf_type m =? 0 then (w, [BeVoiceFrame id (bf_length_bits m) (bf_data m)])
  else if bf_type m =? 1 then
    if negb (brew_sds_enabled cfg) then (w, [])
    else if 2047 <? bf_length_bits m then (w, [])
    else match aget id (wk_pending w) with
         | Some (s, d) => (mk_worker (wk_subs w) (adel id (wk_pending w)), [BeSdsTransfer id s d (bf_data m) (bf_length_bits m)])
         | None => (w, [])
         end
  else if bf_type m =? 2 then (w, [BeSdsReport id (match bf_data m with [] => 0 | s :: _ => s end)])
  else (w, []).

(** 390-420 [handle_incoming_binary] *)
Definition worker_receive (data : list N) (w : worker) : res (worker * list brew_event) :=
  r <- parse_brew_message data ;;
  Ok (match r with
      | inl (BmCallControl m) => handle_call_control m w
      | inl (BmFrame m) => handle_frame m w
      | inl (BmSubscriber m) => (w, [BeSubscriberEvent (bs_type m) (bs_number m) (bs_groups m)])
      | inl (BmError t d) => (w, [BeServerError t d])
      | inl (BmService _ _) => (w, [])
      | inr _ => (w, [])
      end).

(** 226-234: the headers older than 30 seconds are dropped *)
Definition worker_expire (old : list N) (w : worker) : worker :=
  mk_worker (wk_subs w) (filter (fun p => negb (memN (fst p) old)) (wk_pending w)).

(** 197-218 [graceful_teardown]; [sort_unstable] is left out: the order of the groups is a hint *)
Definition graceful_teardown (n : now) (hint : list N) (hint_groups : list N) (w : worker) : list (list N) :=
  flat_map (fun p : N * list N =>
    let (issi, groups) := p in
    (match groups with [] => [] | _ => [build_subscriber_deaffiliate n issi (arrange_set hint_groups groups)] end)
    ++ [build_subscriber_deregister n issi]) (arrange hint (wk_subs w)).

(** 259-384: what is sent for a command.  [sent] says whether the header of a short message could be sent (354). *)
Definition worker_command (n : now) (sent : bool) (hint hint_groups : list N) (c : brew_cmd) (w : worker) : worker * list (list N) :=
  match c with
  | BcRegister issi =>
      let msg := match aget issi (wk_subs w) with Some _ => build_subscriber_reregister n issi | None => build_subscriber_register n issi [] end in
      let subs := match aget issi (wk_subs w) with Some _ => wk_subs w | None => aset issi [] (wk_subs w) end in
      (mk_worker subs (wk_pending w), [msg])
  | BcDeregister issi => (mk_worker (adel issi (wk_subs w)) (wk_pending w), [build_subscriber_deregister n issi])
  | BcAffiliate issi groups =>
      let entry := match aget issi (wk_subs w) with Some l => l | None => [] end in
      (mk_worker (aset issi (fst (insert_groups groups entry)) (wk_subs w)) (wk_pending w), [build_subscriber_affiliate n issi groups])
  | BcDeaffiliate issi groups =>
      let subs := match aget issi (wk_subs w) with Some l => aset issi (fst (remove_groups groups l)) (wk_subs w) | None => wk_subs w end in
      (mk_worker subs (wk_pending w), [build_subscriber_deaffiliate n issi groups])
  | BcGroupTx u s d p v => (w, [build_group_tx u s d p v])
  | BcVoiceFrame u l data => (w, [build_voice_frame u l data])
  | BcGroupIdle u c => (w, [build_group_idle u c])
  | BcSds u s d data l =>
      (w, if brew_sds_enabled cfg then build_short_transfer u s d :: (if sent then [build_sds_frame u l data] else []) else [])
  | BcSdsReport u st => (w, if brew_sds_enabled cfg then [build_sds_report u st] else [])
  | BcDisconnect => (w, graceful_teardown n hint hint_groups w)
  end.
End Config.

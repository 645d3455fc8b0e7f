(** Model of crates/tetra-entities/src/net_brew/entity.rs: the entity between the network and the rest of the stack.

    The commands for the worker thread and the messages for other entities are one list in the order they are sent.
    Instants are not modelled: which hanging calls are older than [GROUP_CALL_HANGTIME] is an argument, and so is the
    jitter component of [JitterBuffer].  The identifier [Uuid::new_v4()] makes is an argument.  The counters
    [frame_count] are left out (they are only logged), and so are the fields of a hanging call other than its
    identifier (nothing reads them). *)
From Verif Require Import Base AMap AMapOrder TdmaTime CmceFields BrewRoute Registry CallControl VoicePack JitterBuffer BrewProtocol BrewWorker.
Open Scope N_scope.

(** 32-47; the three options of the resources become present together (626-628) *)
Record net_call := mk_net_call { nc_ready : option (N * nat * N); nc_source : N; nc_dest : N }.
(** 72-83 *)
Record fwd_call := mk_fwd_call { fw_uuid : N; fw_call : N; fw_source : N; fw_dest : N }.

(** 87-120 *)
Record brew := mk_brew {
  be_dltime : tdma_time;
  be_active : amap net_call;
  be_jitter : amap (jbuf (list N));
  be_hanging : amap N;
  be_fwd : amap fwd_call;
  be_subs : amap (list N);
  be_connected : bool }.
(** 148-161 *)
Definition brew_new : brew := mk_brew time_default [] [] [] [] [] false.

Definition be_set_time x s := mk_brew x (be_active s) (be_jitter s) (be_hanging s) (be_fwd s) (be_subs s) (be_connected s).
Definition be_set_active x s := mk_brew (be_dltime s) x (be_jitter s) (be_hanging s) (be_fwd s) (be_subs s) (be_connected s).
Definition be_set_jitter x s := mk_brew (be_dltime s) (be_active s) x (be_hanging s) (be_fwd s) (be_subs s) (be_connected s).
Definition be_set_hanging x s := mk_brew (be_dltime s) (be_active s) (be_jitter s) x (be_fwd s) (be_subs s) (be_connected s).
Definition be_set_fwd x s := mk_brew (be_dltime s) (be_active s) (be_jitter s) (be_hanging s) x (be_subs s) (be_connected s).
Definition be_set_subs x s := mk_brew (be_dltime s) (be_active s) (be_jitter s) (be_hanging s) (be_fwd s) x (be_connected s).
Definition be_set_connected x s := mk_brew (be_dltime s) (be_active s) (be_jitter s) (be_hanging s) (be_fwd s) (be_subs s) x.

(** What the entity sends: call control and short data to CMCE, speech to UMAC, commands to the worker *)
Inductive brew_out :=
| BoCmce (t : tdma_time) (c : call_ctl)
| BoSds (t : tdma_time) (source dest : N) (data : sds_user_data)
| BoVoice (t : tdma_time) (ts : nat) (data : list N)
| BoCmd (c : brew_cmd).

Section Config.
Variable cfg : cfg_route.
(** The configured latency of the play-out buffer (jitter_initial_latency_frames) *)
Variable latency : nat.

(** ** Subscribers *)

(** 218-295 [handle_subscriber_update]; [hint] is the order of the groups of a radio that leaves *)
Definition be_subscriber_update (hint : list N) (issi : N) (groups : list N) (action : sub_action) (s : brew) : brew * list brew_out :=
  let routable := brew_issi_routable cfg issi in
  match action with
  | SubRegister =>
      (match aget issi (be_subs s) with Some _ => s | None => be_set_subs (aset issi [] (be_subs s)) s end,
       if routable then [BoCmd (BcRegister issi)] else [])
  | SubDeregister =>
      let existing := match aget issi (be_subs s) with Some l => arrange_set hint l | None => [] end in
      (be_set_subs (adel issi (be_subs s)) s,
       if routable then (match existing with [] => [] | _ => [BoCmd (BcDeaffiliate issi existing)] end) ++ [BoCmd (BcDeregister issi)] else [])
  | SubAffiliate =>
      let entry := match aget issi (be_subs s) with Some l => l | None => [] end in
      let (entry, new) := insert_groups groups entry in
      (be_set_subs (aset issi entry (be_subs s)) s,
       match new with [] => [] | _ => if routable then [BoCmd (BcAffiliate issi new)] else [] end)
  | SubDeaffiliate =>
      match aget issi (be_subs s) with
      | None => (s, [])
      | Some entry =>
          let (entry, gone) := remove_groups groups entry in
          (be_set_subs (aset issi entry (be_subs s)) s,
           match gone with [] => [] | _ => if routable then [BoCmd (BcDeaffiliate issi gone)] else [] end)
      end
  end.

(** 297-320 [resync_subscribers] *)
Definition be_resync (hint hint_groups : list N) (s : brew) : list brew_out :=
  flat_map (fun p : N * list N =>
    let (issi, groups) := p in
    if negb (brew_issi_routable cfg issi) then []
    else BoCmd (BcRegister issi) ::
         (match groups with [] => [] | _ => [BoCmd (BcAffiliate issi (arrange_set hint_groups groups))] end))
    (arrange hint (be_subs s)).

(** ** Calls of the network *)

(** 385-387: [entry(uuid).or_insert_with(..)] *)
Definition be_ensure_jitter (uuid : N) (s : brew) : brew :=
  match aget uuid (be_jitter s) with
  | Some _ => s
  | None => be_set_jitter (aset uuid (jb_new latency) (be_jitter s)) s
  end.

(** 332-440 [handle_group_call_start] *)
Definition be_group_call_start (uuid source dest priority : N) (s : brew) : brew * list brew_out :=
  let start := BoCmce (be_dltime s) (CtlNetworkCallStart uuid source dest priority) in
  match aget uuid (be_active s) with
  | Some call =>
      if negb (nc_source call =? source)
      then (be_set_active (aset uuid (mk_net_call (nc_ready call) source (nc_dest call)) (be_active s)) s, [start])
      else (s, [])
  | None =>
      let s := be_set_hanging (adel dest (be_hanging s)) s in
      (be_ensure_jitter uuid (be_set_active (aset uuid (mk_net_call None source dest) (be_active s)) s), [start])
  end.

(** 443-483 [handle_group_call_end] *)
Definition be_group_call_end (uuid : N) (s : brew) : brew * list brew_out :=
  match aget uuid (be_active s) with
  | None => (s, [])
  | Some call =>
      let s := be_set_jitter (adel uuid (be_jitter s)) (be_set_active (adel uuid (be_active s)) s) in
      (match nc_ready call with
       | Some _ => be_set_hanging (aset (nc_dest call) uuid (be_hanging s)) s
       | None => s
       end,
       [BoCmce (be_dltime s) (CtlNetworkCallEnd uuid)])
  end.

(** 486-500 [expire_hanging_calls] *)
Definition be_expire_hanging (expired : list N) (s : brew) : brew :=
  be_set_hanging (filter (fun p => negb (memN (fst p) expired)) (be_hanging s)) s.

(** 503-547 [handle_voice_frame] *)
Definition be_voice_frame (jc : nat) (uuid : N) (data : list N) (s : brew) : brew :=
  match aget uuid (be_active s) with
  | None => s
  | Some call =>
      match nc_ready call with
      | None => s
      | Some _ =>
          match ste_to_acelp data with
          | None => s
          | Some acelp =>
              let s := be_ensure_jitter uuid s in
              match aget uuid (be_jitter s) with
              | Some b => be_set_jitter (aset uuid (jb_push jc acelp b) (be_jitter s)) s
              | None => s
              end
          end
      end
  end.

(** 556-570: one call of the play-out loop *)
Definition be_playout_one (jc : N -> nat) (p : N * net_call) (s : brew) : brew * list brew_out :=
  let (uuid, call) := p in
  match nc_ready call with
  | None => (s, [])
  | Some (_, ts, _) =>
      if negb (Z.of_nat ts =? tm_t (be_dltime s))%Z then (s, [])
      else match aget uuid (be_jitter s) with
           | None => (s, [])
           | Some b =>
               let (f, b) := jb_pop (jc uuid) b in
               (be_set_jitter (aset uuid b (be_jitter s)) s,
                match f with Some f => [BoVoice (be_dltime s) ts (jf_data f)] | None => [] end)
           end
  end.
Fixpoint be_playout (jc : N -> nat) (l : list (N * net_call)) (s : brew) : brew * list brew_out :=
  match l with
  | [] => (s, [])
  | p :: t => let '(s, o) := be_playout_one jc p s in let '(s, o') := be_playout jc t s in (s, o ++ o')
  end.
(** 549-592 [drain_jitter_playout] *)
Definition be_drain (hint : list N) (jc : N -> nat) (s : brew) : brew * list brew_out :=
  if (tm_f (be_dltime s) =? 18)%Z then (s, []) else be_playout jc (arrange hint (be_active s)) s.

(** 595-612 [release_all_calls] *)
Definition be_release_all (hint : list N) (s : brew) : brew * list brew_out :=
  (be_set_jitter [] (be_set_hanging [] (be_set_active [] s)),
   map (fun p : N * net_call => BoCmce (be_dltime s) (CtlNetworkCallEnd (fst p))) (arrange hint (be_active s))).

(** 615-632 [rx_network_call_ready] *)
Definition be_call_ready (uuid call_id : N) (ts : nat) (usage : N) (s : brew) : brew :=
  match aget uuid (be_active s) with
  | Some call => be_set_active (aset uuid (mk_net_call (Some (call_id, ts, usage)) (nc_source call) (nc_dest call)) (be_active s)) s
  | None => s
  end.

(** 634-656 [drop_network_call]; [hint] is the order of the hanging calls *)
Definition be_drop_call (hint : list N) (uuid : N) (s : brew) : brew :=
  match aget uuid (be_active s) with
  | Some call =>
      be_set_hanging (adel (nc_dest call) (be_hanging s))
        (be_set_jitter (adel uuid (be_jitter s)) (be_set_active (adel uuid (be_active s)) s))
  | None =>
      match find (fun p => snd p =? uuid) (arrange hint (be_hanging s)) with
      | Some (g, _) => be_set_hanging (adel g (be_hanging s)) s
      | None => s
      end
  end.

(** ** Calls of the radios *)
Definition slot_key (ts : nat) : N := N.of_nat ts.

(** 732-815 [handle_local_call_start] *)
Definition be_local_start (fresh call_id source dest : N) (ts : nat) (s : brew) : brew * list brew_out :=
  if negb (be_connected s) then (s, [])
  else if negb (brew_issi_routable cfg source) then (s, [])
  else
    let uuid := match aget (slot_key ts) (be_fwd s) with Some f => fw_uuid f | None => fresh end in
    (be_set_fwd (aset (slot_key ts) (mk_fwd_call uuid call_id source dest) (be_fwd s)) s, [BoCmd (BcGroupTx uuid source dest 0 0)]).

(** 818-838 [handle_local_call_tx_stopped] *)
Definition be_local_stopped (ts : nat) (s : brew) : brew * list brew_out :=
  match aget (slot_key ts) (be_fwd s) with
  | None => (s, [])
  | Some f => (be_set_fwd (adel (slot_key ts) (be_fwd s)) s, [BoCmd (BcGroupIdle (fw_uuid f) 0)])
  end.

(** 840-859 [handle_local_call_end] *)
Definition be_local_end (ts : nat) (s : brew) : brew := be_set_fwd (adel (slot_key ts) (be_fwd s)) s.

(** 863-911 [handle_ul_voice] *)
Definition be_ul_voice (ts : nat) (bits : list N) (s : brew) : res (list brew_out) :=
  match aget (slot_key ts) (be_fwd s) with
  | None => Ok []
  | Some f =>
      ste <- ul_voice_to_ste bits ;;
      Ok (match ste with
          | None => []
          | Some data => [BoCmd (BcVoiceFrame (fw_uuid f) (N.of_nat (length data) * 8 mod 65536) data)]
          end)
  end.

(** ** Short data *)

(** 918-970 [handle_sds_transfer] *)
Definition be_sds_transfer (reg : registry) (uuid source dest : N) (data : list N) (length_bits : N) (s : brew) : list brew_out :=
  if negb (reg_is_registered dest reg) then []
  else [BoSds (forward_to_timeslot (be_dltime s) 1) source dest (SdsType4 length_bits data); BoCmd (BcSdsReport uuid 0)].

(** 973-1000 [handle_sds_send] *)
Definition be_sds_send (fresh source dest : N) (data : sds_user_data) (s : brew) : list brew_out :=
  if negb (be_connected s) then []
  else [BoCmd (BcSds fresh source dest (sds_to_arr data) (sds_length_bits data))].

(** ** The interface *)

(** 165-216 [process_events]: one event *)
Definition be_event (reg : registry) (hint hint_groups : list N) (jc : nat) (e : brew_event) (s : brew) : brew * list brew_out :=
  match e with
  | BeConnected => let s := be_set_connected true s in (s, be_resync hint hint_groups s)
  | BeDisconnected => be_release_all hint (be_set_connected false s)
  | BeGroupCallStart u source dest priority _ => be_group_call_start u source dest priority s
  | BeGroupCallEnd u _ => be_group_call_end u s
  | BeVoiceFrame u _ data => (be_voice_frame jc u data s, [])
  | BeSdsTransfer u source dest data n => (s, be_sds_transfer reg u source dest data n s)
  | BeSdsReport _ _ | BeSubscriberEvent _ _ _ | BeServerError _ _ => (s, [])
  end.

(** What can happen to the entity.  [tick_start] (670-678) is [InTick], the events waiting in the channel as [InEvent]s,
    [InPlayout] and [InExpire], in this order; the theorems hold for every order. *)
Inductive brew_in :=
| InTick (t : tdma_time)
| InEvent (reg : registry) (hint hint_groups : list N) (jc : nat) (e : brew_event)
| InPlayout (hint : list N) (jc : N -> nat)
| InExpire (expired : list N)
| InControl (hint : list N) (fresh : N) (c : call_ctl)
| InSubscriber (hint : list N) (issi : N) (groups : list N) (action : sub_action)
| InSds (fresh source dest : N) (data : sds_user_data)
| InUlVoice (ts : nat) (bits : list N).

(** 670-724 [tick_start], [rx_prim] *)
Definition be_step (i : brew_in) (s : brew) : res (brew * list brew_out) :=
  match i with
  | InTick t => Ok (be_set_time t s, [])
  | InEvent reg hint hg jc e => Ok (be_event reg hint hg jc e s)
  | InPlayout hint jc => Ok (be_drain hint jc s)
  | InExpire expired => Ok (be_expire_hanging expired s, [])
  | InControl hint fresh c =>
      Ok (match c with
          | CtlFloorGranted call_id source dest ts => be_local_start fresh call_id source dest ts s
          | CtlFloorReleased _ ts => be_local_stopped ts s
          | CtlCallEnded _ ts => (be_local_end ts s, [])
          | CtlNetworkCallEnd uuid => (be_drop_call hint uuid s, [])
          | CtlNetworkCallReady uuid call_id ts usage => (be_call_ready uuid call_id ts usage s, [])
          | CtlUlInactivity _ | CtlOpen _ _ _ | CtlClose _ _ | CtlNetworkCallStart _ _ _ _ => (s, [])
          end)
  | InSubscriber hint issi groups action => Ok (be_subscriber_update hint issi groups action s)
  | InSds fresh source dest data => Ok (s, be_sds_send fresh source dest data s)
  | InUlVoice ts bits => o <- be_ul_voice ts bits s ;; Ok (s, o)
  end.

(** A history of the entity: the inputs, and everything it sent *)
Fixpoint be_run (l : list brew_in) (s : brew) : res (brew * list brew_out) :=
  match l with
  | [] => Ok (s, [])
  | i :: t => '(s, o) <- be_step i s ;; '(s, o') <- be_run t s ;; Ok (s, o ++ o')
  end.
End Config.

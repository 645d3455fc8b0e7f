(** Property theorems: uplink slot grants (C16). *)
From Verif Require Import Base MacFields TdmaTime UlSched UlSchedSpec UlSchedProofs.
Open Scope Z_scope.

(** After any history of slots passing and requests for up to 68 slots: nothing has panicked; no subslot was promised
    in two grants; every grant has exactly the size asked for, in the right timeslot, not in the past and at most 67
    slots ahead; and the base station's own view of who owns each subslot of the coming 69 slots is exactly what the
    radios were told. *)
Theorem C16_grants_never_collide start evs : Forall ul_event_ok evs ->
  exists s now l, ul_run ul_empty start [] evs = Ok (s, now, l) /\
    NoDup (flat_map gr_subs l) /\
    (forall g, In g l -> length (gr_subs g) = asked (gr_req g) /\
       forall x h, In (x, h) (gr_subs g) -> first_at (gr_now g) (gr_t g) <= x <= gr_now g + 67 /\ x mod 4 = gr_t g - 1) /\
    (forall x, now - 2 <= x <= now + 69 ->
       ul_get_slot_owner (from_int x) Block1 s = Ok (holder l (x, false)) /\ ul_get_slot_owner (from_int x) Block2 s = Ok (holder l (x, true)) /\
       exists u, ul_get_usage (from_int x) s = Ok u).
Proof. exact (grants_sound start evs). Qed.
Print Assumptions C16_grants_never_collide.
Definition ex_history : list ul_event :=
  [UlReq 1 100 0; UlReq 1 101 0; UlReq 1 102 3; UlTick; UlReq 2 103 1; UlTick; UlTick; UlTick; UlReq 1 104 2; UlReq 1 105 0; UlReq 1 106 0].
Example C16_ex : Forall ul_event_ok ex_history /\
  match ul_run ul_empty 5 [] ex_history with
  | Ok (s, now, l) => (length l =? 7)%nat && (now =? 9) && match nth_error l 2 with Some g => forallb2_subs (gr_subs g) [(12, false); (12, true); (16, false); (16, true); (20, false); (20, true)] | None => false end
  | _ => false end = true.
Proof. split; [repeat constructor; vm_compute; discriminate|vm_compute; reflexivity]. Qed.

(** A request is turned down only if no run of consecutive opportunities of the coming 17 frames could serve it. *)
Theorem C16_refused_only_when_full start evs s now l t ssi req s' : Forall ul_event_ok evs -> 1 <= t <= 4 -> (req <= 14)%N ->
  ul_run ul_empty start [] evs = Ok (s, now, l) -> ul_process_cap_req (from_int now) t ssi req s = Ok (None, s') ->
  s' = s /\ let ops := opportunities 17 (first_at now t) in
  forall k, (k + need req <= length ops)%nat -> exists y, In y (firstn (need req) (skipn k ops)) /\ sfree l req y = false.
Proof. exact (refusal_justified start evs s now l t ssi req s'). Qed.
Print Assumptions C16_refused_only_when_full.
Example C16_ex_refused : match ul_run ul_empty 0 [] [UlReq 1 100 8; UlReq 1 101 6] with
  | Ok (s, now, l) => match ul_process_cap_req (from_int now) 1 102 2 s with Ok (None, _) => true | _ => false end | _ => false end = true.
Proof. vm_compute. reflexivity. Qed.

(** The base station handles a request received in slot [now - 2] while building slot [now + 1]: the first slot a grant
    can name is [now + 2], after the grant has been sent. *)
Theorem C16_first_slot_after_grant now : first_at now ((now - 2) mod 4 + 1) = now + 2.
Proof. exact (grant_future now). Qed.
Print Assumptions C16_first_slot_after_grant.

(** Refuted: the signalled delay always points at the granted slot.  With fourteen opportunities taken, the delay is sent
    as 14, which means "frame 18"; with sixteen it does not fit the field. *)
Theorem C16_delay_code_refuted : exists evs s now l g s', Forall ul_event_ok evs /\ ul_run ul_empty 0 [] evs = Ok (s, now, l) /\
  ul_process_cap_req (from_int now) 1 7 1 s = Ok (Some g, s') /\ gd_into_raw (sg_delay g) = gd_into_raw GdFrame18 /\ sg_delay g <> GdFrame18.
Proof. exact delay_code_refuted. Qed.
Print Assumptions C16_delay_code_refuted.

(** Refuted: no request stops the base station.  Reservation requirement 15 panics in every state. *)
Theorem C16_request15_refuted : exists s, forall now t ssi, ul_process_cap_req (from_int now) t ssi 15 s = Panic.
Proof. exact (ex_intro _ ul_empty (fun now t ssi => request15_panics now t ssi ul_empty)). Qed.
Print Assumptions C16_request15_refuted.

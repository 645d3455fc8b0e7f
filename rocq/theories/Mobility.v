(** Model of crates/tetra-entities/src/mm/mm_bs.rs and mm/components/{client_state,not_supported}.rs: mobility
    management of the base station.

    A message to the lower layer carries the PDU value instead of its bits: the writers of [MmPdus] are run on it, a
    writer that fails is the panic of [unwrap()], and C45 says which bits they write.  Logging and telemetry are left
    out, and so are the fields of [LmmMleUnitdataReq] that are constant.  The subscriber registry of the shared state
    is part of the state here. *)
From Verif Require Import Base BitBuffer Codec TypedFields AMap AMapOrder TdmaTime MacFields MmFields MmPdus BrewRoute Registry CallControl.
Open Scope N_scope.

(** ** Messages *)

(** tetra-saps/src/control/brew.rs [MmSubscriberUpdate] *)
Record sub_update := mk_update { su_issi : N; su_groups : list N; su_action : sub_action }.

(** The PDUs mobility management sends. *)
Inductive mm_pdu :=
| PmLuAccept (p : d_lu_accept)
| PmLuCommand (p : d_lu_command)
| PmAttachAck (p : d_attach_detach_ack)
| PmNotSupported (p : mm_function_not_supported).

Definition mm_pdu_to_bitbuf (p : mm_pdu) : wr :=
  match p with
  | PmLuAccept p => d_lu_accept_to_bitbuf p
  | PmLuCommand p => d_lu_command_to_bitbuf p
  | PmAttachAck p => d_attach_detach_ack_to_bitbuf p
  | PmNotSupported p => mm_function_not_supported_to_bitbuf p
  end.
(** [BitBuffer::new_autoexpand(n); pdu.to_bitbuf(&mut sdu).unwrap()] *)
Definition mm_encode (n : nat) (p : mm_pdu) : res unit :=
  match mm_pdu_to_bitbuf p (bb_new_autoexpand n) with Ok _ => Ok tt | _ => Panic end.

(** A [SapMsg] by destination *)
Inductive mm_msg :=
| MmToMle (t : tdma_time) (handle : N) (addr : tetra_addr) (p : mm_pdu)
| MmToBrew (t : tdma_time) (u : sub_update)
| MmToCmce (t : tdma_time) (u : sub_update).

(** [LmmMleUnitdataInd], with the [dltime] of the message around it *)
Record mm_ind := mk_mm_ind { di_dltime : tdma_time; di_sdu : bitbuf; di_addr : tetra_addr; di_handle : N }.

(** ** State *)

(** client_state.rs:13-18 *)
Inductive client_state := ClUnknown | ClAttached | ClDetached.
(** client_state.rs:20-25; the identity is the key of the map *)
Record mm_client := mk_client { cl_state : client_state; cl_groups : list N }.
(** [client_mgr.clients] and [config.state.subscribers] *)
Record mob := mk_mob { mo_clients : amap mm_client; mo_reg : registry }.
Definition mob_new : mob := mk_mob [] reg_new.

Definition mo_set_clients x s := mk_mob x (mo_reg s).
Definition mo_set_reg x s := mk_mob (mo_clients s) x.

(** client_state.rs:72-74 [client_is_known] *)
Definition client_is_known (issi : N) (s : mob) : bool := match aget issi (mo_clients s) with Some _ => true | None => false end.
(** client_state.rs:76-83 [set_client_state], of a known client *)
Definition set_client_state (issi : N) (st : client_state) (s : mob) : option mob :=
  match aget issi (mo_clients s) with
  | Some c => Some (mo_set_clients (aset issi (mk_client st (cl_groups c)) (mo_clients s)) s)
  | None => None
  end.
(** client_state.rs:87-110 [try_register_client] with [attached] = true; [is_individual] is always true *)
Definition register_client (issi : N) (s : mob) : mob :=
  mo_set_clients (aset issi (mk_client ClAttached []) (adel issi (mo_clients s))) s.
(** client_state.rs:126-140 [client_detach_all_groups] *)
Definition client_detach_all (issi : N) (s : mob) : option mob :=
  match aget issi (mo_clients s) with
  | Some c => Some (mo_set_clients (aset issi (mk_client (cl_state c) []) (mo_clients s)) s)
  | None => None
  end.
(** client_state.rs:143-172 [client_group_attach]; the checks on the numbers are stubs that always pass.  [None] is
    [ClientNotFound], otherwise whether the set changed *)
Definition client_group_attach (issi gssi : N) (do_attach : bool) (s : mob) : option (bool * mob) :=
  match aget issi (mo_clients s) with
  | None => None
  | Some c =>
      let has := set_has gssi (cl_groups c) in
      let groups := if do_attach then set_add gssi (cl_groups c) else set_del gssi (cl_groups c) in
      Some (if do_attach then negb has else has, mo_set_clients (aset issi (mk_client (cl_state c) groups) (mo_clients s)) s)
  end.

Section Config.
(** The configuration the routing functions read. *)
Variable cfg : cfg_route.

(** mm_bs.rs:46-96 [emit_subscriber_update] *)
Definition emit_update (t : tdma_time) (issi : N) (groups : list N) (action : sub_action) : list mm_msg :=
  (if brew_is_active cfg then
     let brew_groups := filter (brew_gssi_routable cfg) groups in
     let should_send := match action with
                        | SubRegister | SubDeregister => brew_issi_routable cfg issi
                        | SubAffiliate | SubDeaffiliate => negb (match brew_groups with [] => true | _ => false end)
                        end in
     if should_send then [MmToBrew t (mk_update issi brew_groups action)] else []
   else [])
  ++ [MmToCmce t (mk_update issi groups action)].

Definition emit_nonempty (t : tdma_time) (issi : N) (groups : list N) (action : sub_action) : list mm_msg :=
  match groups with [] => [] | _ => emit_update t issi groups action end.

(** mm_bs.rs:485-539: the loop of [try_attach_detach_groups]; the groups answered for, newly attached, detached *)
Fixpoint attach_loop (issi : N) (l : list giu) (s : mob) : mob * list gid * list N * list N :=
  match l with
  | [] => (s, [], [], [])
  | u :: rest =>
      match giu_gssi u, giu_vgssi u, giu_address_extension u with
      | Some gssi, None, None =>
          match giu_detachment u with
          | Some d =>
              match client_group_attach issi gssi false s with
              | Some (changed, s) =>
                  let s := if changed then mo_set_reg (reg_deaffiliate issi gssi (mo_reg s)) s else s in
                  let '(s, acc, aff, deaff) := attach_loop issi rest s in
                  (s, mk_gid None (Some d) (Some gssi) None None :: acc, aff, if changed then gssi :: deaff else deaff)
              | None => attach_loop issi rest s
              end
          | None =>
              match client_group_attach issi gssi true s with
              | Some (changed, s) =>
                  let s := if changed then mo_set_reg (reg_affiliate issi gssi (mo_reg s)) s else s in
                  let '(s, acc, aff, deaff) := attach_loop issi rest s in
                  let class := match giu_class_of_usage u with Some c => c | None => 0 end in
                  (s, mk_gid (Some (mk_gia 1 class)) None (Some gssi) None None :: acc, if changed then gssi :: aff else aff, deaff)
              | None => attach_loop issi rest s
              end
          end
      | _, _, _ => attach_loop issi rest s
      end
  end.

(** mm_bs.rs:474-549 [try_attach_detach_groups] *)
Definition attach_groups (t : tdma_time) (issi : N) (l : list giu) (s : mob) : mob * list gid * list mm_msg :=
  let '(s, acc, aff, deaff) := attach_loop issi l s in
  (s, acc, emit_nonempty t issi aff SubAffiliate ++ emit_nonempty t issi deaff SubDeaffiliate).

(** mm_bs.rs:98-134 [rx_u_itsi_detach] from the parsed PDU on ([feature_check_u_itsi_detach] always passes); [hint]
    is the order in which the set of groups is visited *)
Definition rx_u_itsi_detach (hint : list N) (i : mm_ind) (s : mob) : mob * list mm_msg :=
  let issi := ad_ssi (di_addr i) in
  match aget issi (mo_clients s) with
  | None => (s, [])
  | Some c =>
      (mk_mob (adel issi (mo_clients s)) (reg_deregister issi (mo_reg s)),
       emit_nonempty (di_dltime i) issi (arrange_set hint (cl_groups c)) SubDeaffiliate
       ++ emit_update (di_dltime i) issi [] SubDeregister)
  end.

(** mm_bs.rs:604-653 [feature_check_u_location_update_demand]: MigratingLocationUpdating is 1, DisabledMsUpdating 7 *)
Definition lu_supported (p : u_lu_demand) : bool :=
  negb ((u_lu_demand_location_update_type p =? 1) || (u_lu_demand_location_update_type p =? 7))
  && negb (u_lu_demand_request_to_append_la p) && negb (u_lu_demand_cipher_control p)
  && negb (is_some (u_lu_demand_ciphering_parameters p)).

(** The address of the answers: mm_bs.rs:242-246, 417-421, 568-572 *)
Definition ssi_addr (issi : N) : tetra_addr := mk_addr issi false SsiSsi.

(** mm_bs.rs:217-232 *)
Definition lu_accept (ty issi : N) (g : option gila) : d_lu_accept :=
  mk_d_lu_accept ty (Some issi) None None None None None None g None None None None None.

(** mm_bs.rs:553-591 [send_d_location_update_command] *)
Definition lu_command_msg (t : tdma_time) (issi handle : N) : res mm_msg :=
  let p := PmLuCommand (mk_d_lu_command true false None None None None) in
  mm_encode 16 p ;;; Ok (MmToMle t handle (ssi_addr issi) p).

(** mm_bs.rs:181-184, 361-364: a radio becomes known *)
Definition register_radio (t : tdma_time) (issi : N) (s : mob) : mob * list mm_msg :=
  let s := register_client issi s in
  (mo_set_reg (reg_register issi (mo_reg s)) s, emit_update t issi [] SubRegister).

(** mm_bs.rs:136-272 [rx_u_location_update_demand] from the parsed PDU on; ItsiAttach is 3 *)
Definition rx_u_lu_demand (i : mm_ind) (p : u_lu_demand) (s : mob) : res (mob * list mm_msg) :=
  if negb (lu_supported p) then Ok (s, []) else
  let issi := ad_ssi (di_addr i) in
  let t := di_dltime i in
  let is_new := negb (client_is_known issi s) in
  match (if is_new then Some (register_radio t issi s)
         else option_map (fun s => (s, [])) (set_client_state issi ClAttached s)) with
  | None => Ok (s, [])
  | Some (s, q) =>
      let '(s, g, q') :=
        match u_lu_demand_group_identity_location_demand p with
        | Some d =>
            match gild_uplink d with
            | Some l => let '(s, acc, q') := attach_groups t issi l s in (s, Some (mk_gila 0 (Some acc)), q')
            | None => (s, Some (mk_gila 0 None), [])
            end
        | None => (s, None, [])
        end in
      let r := PmLuAccept (lu_accept (u_lu_demand_location_update_type p) issi g) in
      mm_encode 34 r ;;;
      c <- (if (is_new && negb (u_lu_demand_location_update_type p =? 3))%bool
            then m <- lu_command_msg t issi (di_handle i) ;; Ok [m] else Ok []) ;;
      Ok (s, q ++ q' ++ MmToMle t (di_handle i) (ssi_addr issi) r :: c)
  end.

(** mm_bs.rs:274-329 [rx_u_mm_status] from the parsed PDU on; not_supported.rs:6-45 *)
Definition rx_u_mm_status (i : mm_ind) (p : u_mm_status) (s : mob) : res (mob * list mm_msg) :=
  let r := PmNotSupported (mk_mm_function_not_supported MmUl_UMmStatus (Some (6%nat, u_mm_status_status_uplink p))) in
  mm_encode 14 r ;;;
  Ok (s, [MmToMle (di_dltime i) (di_handle i) (di_addr i) r]).

(** mm_bs.rs:373-388: all groups of a known radio are given up *)
Definition drop_groups (hint : list N) (t : tdma_time) (issi : N) (s : mob) : option (mob * list mm_msg) :=
  let prior := match aget issi (mo_clients s) with Some c => arrange_set hint (cl_groups c) | None => [] end in
  match client_detach_all issi s with
  | None => None
  | Some s =>
      Some (mo_set_reg (fold_left (fun r g => reg_deaffiliate issi g r) prior (mo_reg s)) s, emit_nonempty t issi prior SubDeaffiliate)
  end.

(** mm_bs.rs:331-440 [rx_u_attach_detach_group_identity] from the parsed PDU on; the feature check
    (mm_bs.rs:657-674) asks for the list of groups *)
Definition rx_u_attach_detach (hint : list N) (i : mm_ind) (p : u_attach_detach) (s : mob) : res (mob * list mm_msg) :=
  match u_attach_detach_group_identity_uplink p with
  | None => Ok (s, [])
  | Some l =>
      let issi := ad_ssi (di_addr i) in
      let t := di_dltime i in
      match (if u_attach_detach_group_identity_attach_detach_mode p
             then if negb (client_is_known issi s) then Some (register_radio t issi s) else drop_groups hint t issi s
             else Some (s, [])) with
      | None => Ok (s, [])
      | Some (s, q) =>
          let '(s, acc, q') := attach_groups t issi l s in
          let r := PmAttachAck (mk_d_attach_detach_ack 0 false None (Some acc) None) in
          mm_encode 32 r ;;;
          Ok (s, q ++ q' ++ [MmToMle t (di_handle i) (ssi_addr issi) r])
      end
  end.

(** [match X::from_bitbuf(&mut prim.sdu) { Ok(pdu) => pdu, Err(e) => { warn; return } }] *)
Definition mm_parsed {A} (r : reader A) (i : mm_ind) (s : mob) (k : A -> res (mob * list mm_msg)) : res (mob * list mm_msg) :=
  match r (di_sdu i) with
  | Ok (p, _) => k p
  | Err _ => Ok (s, [])
  | Panic => Panic
  end.

(** mm_bs.rs:442-472 [rx_lmm_mle_unitdata_ind]; the types that are only logged and the unknown ones change nothing *)
Definition mm_rx (hint : list N) (i : mm_ind) (s : mob) : res (mob * list mm_msg) :=
  b <- peek_bits (di_sdu i) 4 ;;
  match b with
  | None => Ok (s, [])
  | Some t =>
      if t =? MmUl_UItsiDetach then mm_parsed u_itsi_detach_from_bitbuf i s (fun _ => Ok (rx_u_itsi_detach hint i s))
      else if t =? MmUl_ULocationUpdateDemand then mm_parsed u_lu_demand_from_bitbuf i s (fun p => rx_u_lu_demand i p s)
      else if t =? MmUl_UMmStatus then mm_parsed u_mm_status_from_bitbuf i s (fun p => rx_u_mm_status i p s)
      else if t =? MmUl_UAttachDetachGroupIdentity then mm_parsed u_attach_detach_from_bitbuf i s (fun p => rx_u_attach_detach hint i p s)
      else Ok (s, [])
  end.
End Config.

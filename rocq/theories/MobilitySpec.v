(** What the theorems on mobility management (C34, C55) say, apart from the model's own helpers. *)
From Verif Require Import Base AMap TdmaTime MacFields MmFields MmPdus BrewRoute Registry CallControl CcSpec Mobility.
Open Scope N_scope.

(** ** Who is attached to what, in the three places that keep it *)

(** in mobility management *)
Definition mm_known (m : mob) (issi : N) : Prop := aget issi (mo_clients m) <> None.
Definition mm_attached (m : mob) (issi g : N) : Prop := exists c, aget issi (mo_clients m) = Some c /\ In g (cl_groups c).
(** in the shared registry *)
Definition reg_known (m : mob) (issi : N) : Prop := reg_is_registered issi (mo_reg m) = true.
Definition reg_attached (m : mob) (issi g : N) : Prop := exists l, aget issi (rg_subs (mo_reg m)) = Some l /\ In g l.
(** in call control *)
Definition cc_known (c : cc) (issi : N) : Prop := aget issi (cc_subs c) <> None.
Definition cc_attached (c : cc) (issi g : N) : Prop := exists l, aget issi (cc_subs c) = Some l /\ In g l.

(** The registry says the same as mobility management, also about which groups have members. *)
Record registry_agrees (m : mob) : Prop := {
  ra_known : forall issi, mm_known m issi <-> reg_known m issi;
  ra_attached : forall issi g, mm_attached m issi g <-> reg_attached m issi g;
  ra_members : forall g, reg_has_members g (mo_reg m) = true <-> exists issi, mm_attached m issi g }.

(** Call control says the same as mobility management, also about which groups have listeners. *)
Record calls_agree (m : mob) (c : cc) : Prop := {
  ca_known : forall issi, mm_known m issi <-> cc_known c issi;
  ca_attached : forall issi g, mm_attached m issi g <-> cc_attached c issi g;
  ca_listeners : forall g, has_listener g c = true <-> exists issi, mm_attached m issi g }.

(** ** Histories of the two together *)

(** The updates for call control among the messages of mobility management, and those for the network *)
Definition to_cmce (q : list mm_msg) : list sub_update := flat_map (fun m => match m with MmToCmce _ u => [u] | _ => [] end) q.
Definition to_network (q : list mm_msg) : list sub_update := flat_map (fun m => match m with MmToBrew _ u => [u] | _ => [] end) q.

(** Mobility management, call control, and the updates on their way from one to the other: the queue of the message
    router (C42), of which only these matter here *)
Record sys := mk_sys { sy_mob : mob; sy_cc : cc; sy_pending : list sub_update }.

(** A message from a radio is handled, the next update is delivered, or call control handles anything else.  Only
    messages with [ok] are considered. *)
Inductive runs_to (cfg : cfg_route) (ok : mm_ind -> Prop) : sys -> Prop :=
| runs_start : runs_to cfg ok (mk_sys mob_new cc_new [])
| runs_radio m c p hint i m' q : runs_to cfg ok (mk_sys m c p) -> ok i -> mm_rx cfg hint i m = Ok (m', q) ->
    runs_to cfg ok (mk_sys m' c (p ++ to_cmce q))
| runs_deliver m c u p hg hint c' q : runs_to cfg ok (mk_sys m c (u :: p)) ->
    cc_step cfg (EvSubscriber hg hint (su_issi u) (su_groups u) (su_action u)) c = Ok (c', q) -> runs_to cfg ok (mk_sys m c' p)
| runs_calls m c p e c' q : runs_to cfg ok (mk_sys m c p) -> match e with EvSubscriber _ _ _ _ _ => False | _ => True end ->
    cc_step cfg e c = Ok (c', q) -> runs_to cfg ok (mk_sys m c' p).

(** No group is detached and further on attached in the same list of a request. *)
Definition orderly (l : list giu) : Prop :=
  forall j k u v g, (j < k)%nat -> nth_error l j = Some u -> nth_error l k = Some v ->
    giu_gssi u = Some g -> giu_gssi v = Some g -> giu_detachment u <> None -> giu_detachment v <> None.
(** The list of groups in a location update *)
Definition lu_groups (p : u_lu_demand) : option (list giu) :=
  match u_lu_demand_group_identity_location_demand p with Some d => gild_uplink d | None => None end.
Definition orderly_request (i : mm_ind) : Prop :=
  (forall p b l, u_lu_demand_from_bitbuf (di_sdu i) = Ok (p, b) -> lu_groups p = Some l -> orderly l) /\
  (forall p b l, u_attach_detach_from_bitbuf (di_sdu i) = Ok (p, b) -> u_attach_detach_group_identity_uplink p = Some l -> orderly l).

(** What the network is told of an update: nothing if there is no network; a registration if the radio may be known
    there; otherwise the groups that may be routed, if there are any. *)
Definition routed (cfg : cfg_route) (u : sub_update) : option sub_update :=
  let shared := mk_update (su_issi u) (filter (brew_gssi_routable cfg) (su_groups u)) (su_action u) in
  if negb (brew_is_active cfg) then None
  else match su_action u, su_groups shared with
       | SubRegister, _ | SubDeregister, _ => if brew_issi_routable cfg (su_issi u) then Some shared else None
       | _, [] => None
       | _, _ => Some shared
       end.

(** ** Requests and answers (C55) *)

(** A group named by its GSSI alone, the only kind that is supported *)
Definition plain (u : giu) : option N :=
  match giu_gssi u, giu_address_extension u, giu_vgssi u with Some g, None, None => Some g | _, _, _ => None end.

(** What a list of group identities asks for group [g]: the last entry for it counts; [Some true] is to attach it *)
Fixpoint asked (l : list giu) (g : N) : option bool :=
  match l with
  | [] => None
  | u :: t =>
      match asked t g with
      | Some b => Some b
      | None => match plain u with
                | Some g' => if g' =? g then Some (match giu_detachment u with Some _ => false | None => true end) else None
                | None => None
                end
      end
  end.

(** The entries of the answer: for each supported entry of the request the same group, attached with the class of
    usage that was asked for, or detached for the reason given *)
Definition answer_to (u : giu) : list gid :=
  match plain u with
  | None => []
  | Some g =>
      match giu_detachment u with
      | Some reason => [mk_gid None (Some reason) (Some g) None None]
      | None => [mk_gid (Some (mk_gia 1 (match giu_class_of_usage u with Some c => c | None => 0 end))) None (Some g) None None]
      end
  end.
Definition answers_to (l : list giu) : list gid := flat_map answer_to l.

(** The messages to radios *)
Definition sent (q : list mm_msg) : list (N * tetra_addr * mm_pdu) :=
  flat_map (fun m => match m with MmToMle _ h a p => [(h, a, p)] | _ => [] end) q.
(** All of them go to radio [issi], through the given link. *)
Definition replies (q : list mm_msg) (handle issi : N) (l : list mm_pdu) : Prop :=
  sent q = map (fun p => (handle, mk_addr issi false SsiSsi, p)) l.

(** Radio [issi] is attached to what it was attached to before ([keep]), as changed by the list; nothing changes for the others. *)
Definition attached_as_asked (m m' : mob) (issi : N) (l : list giu) (keep : bool) : Prop :=
  (forall g, mm_attached m' issi g <-> match asked l g with Some b => b = true | None => keep = true /\ mm_attached m issi g end) /\
  (forall j, j <> issi -> aget j (mo_clients m') = aget j (mo_clients m)).

(** A location update the base station supports: neither migration nor a disabled radio, no encryption, no further
    location area *)
Definition lu_acceptable (p : u_lu_demand) : Prop :=
  u_lu_demand_location_update_type p <> 1 /\ u_lu_demand_location_update_type p <> 7 /\ u_lu_demand_request_to_append_la p = false /\
  u_lu_demand_cipher_control p = false /\ u_lu_demand_ciphering_parameters p = None.

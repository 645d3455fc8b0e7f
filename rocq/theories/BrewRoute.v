(** Model of crates/tetra-entities/src/net_brew/components/brew_routable.rs: which addresses may be
    routed over the network.  Only the configuration fields these functions read are kept. *)
From Coq Require Import String.
From Verif Require Import Base SsiRanges.
Open Scope N_scope.

(** The fields of [CfgBrew] (tetra-config/src/bluestation/sec_brew.rs) and of the cell configuration
    that are read. *)
Record cfg_brew := mk_cfg_brew { cb_host : string; cb_sds_enabled : bool; cb_whitelist : option (list N) }.
Record cfg_route := mk_cfg_route { cr_brew : option cfg_brew; cr_local : list ssi_range }.

Definition TETRAPACK_HOST : string := "core.tetrapack.online".

(** brew_routable.rs:5-7 [is_active] *)
Definition brew_is_active (c : cfg_route) : bool := match cr_brew c with Some _ => true | None => false end.
(** brew_routable.rs:11-13 [feature_sds_enabled] *)
Definition brew_sds_enabled (c : cfg_route) : bool := match cr_brew c with Some b => cb_sds_enabled b | None => false end.
(** brew_routable.rs:16-21 [is_tetrapack] *)
Definition is_tetrapack (c : cfg_route) : bool :=
  match cr_brew c with Some b => String.eqb (cb_host b) TETRAPACK_HOST | None => false end.

(** brew_routable.rs:24-51 [is_brew_gssi_routable] *)
Definition brew_gssi_routable (c : cfg_route) (ssi : N) : bool :=
  match cr_brew c with
  | None => false
  | Some b =>
      if is_tetrapack c && (ssi <=? 90) then false
      else if ranges_contains (cr_local c) ssi then false
      else match cb_whitelist b with
           | Some w => existsb (N.eqb ssi) w
           | None => true
           end
  end.

(** brew_routable.rs:55-64 [is_brew_issi_routable] *)
Definition brew_issi_routable (c : cfg_route) (issi : N) : bool :=
  match cr_brew c with
  | None => false
  | Some _ => if is_tetrapack c then (1000000 <=? issi) && (issi <=? 9999999) else true
  end.

(** brew_routable.rs:68-71 [is_tetrapack_sds_service_issi] *)
Definition TETRAPACK_SDS_SERVICE_ISSIS : list N := [200999; 262993].
Definition is_tetrapack_sds_service (c : cfg_route) (issi : N) : bool :=
  is_tetrapack c && existsb (N.eqb issi) TETRAPACK_SDS_SERVICE_ISSIS.

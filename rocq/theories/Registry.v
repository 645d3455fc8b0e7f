(** Model of crates/tetra-config/src/bluestation/state.rs:4-89 [SubscriberRegistry].  [HashMap]s and
    [HashSet]s are association lists / lists without regard to order. *)
From Verif Require Import Base AMap.
Open Scope N_scope.

(** state.rs:13-18; a [Subscriber] is its set of attached groups *)
Record registry := mk_reg { rg_subs : amap (list N); rg_groups : list N }.
Definition set_has (g : N) (l : list N) : bool := existsb (N.eqb g) l.
Definition set_del (g : N) (l : list N) : list N := filter (fun x => negb (g =? x)) l.
Definition set_add (g : N) (l : list N) : list N := if set_has g l then l else g :: l.

(** state.rs:21-26 [new] *)
Definition reg_new : registry := mk_reg [] [].
(** state.rs:28-30 [is_registered] *)
Definition reg_is_registered (i : N) (r : registry) : bool := match aget i (rg_subs r) with Some _ => true | None => false end.
(** state.rs:58, 78: [self.subscribers.values().any(|s| s.attached_groups.contains(gssi))] *)
Definition any_attached (g : N) (m : amap (list N)) : bool := existsb (fun p => set_has g (snd p)) m.
(** state.rs:53-64 [deregister] *)
Definition reg_deregister (i : N) (r : registry) : registry :=
  match aget i (rg_subs r) with
  | None => r
  | Some gs =>
      let subs := adel i (rg_subs r) in
      mk_reg subs (fold_left (fun all g => if any_attached g subs then all else set_del g all) gs (rg_groups r))
  end.
(** state.rs:33-42 [register] *)
Definition reg_register (i : N) (r : registry) : registry :=
  let r := reg_deregister i r in mk_reg (aset i [] (rg_subs r)) (rg_groups r).
(** state.rs:45-50 [get_subscriber_mut] *)
Definition reg_get (i : N) (r : registry) : list N := match aget i (rg_subs r) with Some gs => gs | None => [] end.
(** state.rs:67-71 [affiliate] *)
Definition reg_affiliate (i g : N) (r : registry) : registry :=
  mk_reg (aset i (set_add g (reg_get i r)) (rg_subs r)) (set_add g (rg_groups r)).
(** state.rs:74-83 [deaffiliate] *)
Definition reg_deaffiliate (i g : N) (r : registry) : registry :=
  let gs := reg_get i r in
  let subs := aset i (set_del g gs) (rg_subs r) in
  mk_reg subs (if set_has g gs then if any_attached g subs then rg_groups r else set_del g (rg_groups r) else rg_groups r).
(** state.rs:86-88 [has_group_members] *)
Definition reg_has_members (g : N) (r : registry) : bool := set_has g (rg_groups r).

(** Histories of calls. *)
Inductive reg_op := Register (i : N) | Deregister (i : N) | Affiliate (i g : N) | Deaffiliate (i g : N).
Definition reg_step (r : registry) (o : reg_op) : registry :=
  match o with
  | Register i => reg_register i r
  | Deregister i => reg_deregister i r
  | Affiliate i g => reg_affiliate i g r
  | Deaffiliate i g => reg_deaffiliate i g r
  end.
Definition reg_run (l : list reg_op) : registry := fold_left reg_step l reg_new.
